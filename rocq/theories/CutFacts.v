(** A hive that was cut off (C83). *)
From Verif Require Import Base BaseFacts LayoutSpec LayoutFacts BaseBlock Util UtilSpec UtilText Types Value Node Recover Parser TxLog
  NodeFrame TxSpec TxBuild CellSpec CellFacts CellData CellList CellRead TreeSpec TreeRead TreeIter TreeOpen AnyFile Pure CutSpec.

(** ** Parsers read the same when more follows *)
Definition mono {A} (f : list N -> option (A * list N)) : Prop :=
  forall i a r x, f i = Some (a, r) -> f (i ++ x) = Some (a, r ++ x).
Lemma mono_take n : mono (take n).
Proof.
  intros i a r x. unfold take. rewrite len_app. destruct (N.leb_spec n (len i)) as [L|]; [|discriminate]. intros [= <- <-].
  destruct (N.leb_spec n (len i + len x)); [|lia]. f_equal. unfold len in L.
  rewrite firstn_app, skipn_app. replace (N.to_nat n - length i)%nat with 0%nat by lia. cbn [firstn skipn]. now rewrite app_nil_r.
Qed.
Lemma mono_u16 : mono le_u16.
Proof. intros i a r x. unfold le_u16. destruct (take 2 i) as [[b j]|] eqn:E; [|discriminate]. rewrite (mono_take _ _ _ _ x E). now intros [= <- <-]. Qed.
Lemma mono_u32 : mono le_u32.
Proof. intros i a r x. unfold le_u32. destruct (take 4 i) as [[b j]|] eqn:E; [|discriminate]. rewrite (mono_take _ _ _ _ x E). now intros [= <- <-]. Qed.
Lemma mono_u64 : mono le_u64.
Proof. intros i a r x. unfold le_u64. destruct (take 8 i) as [[b j]|] eqn:E; [|discriminate]. rewrite (mono_take _ _ _ _ x E). now intros [= <- <-]. Qed.
Lemma mono_i32 : mono le_i32.
Proof. intros i a r x. unfold le_i32. destruct (take 4 i) as [[b j]|] eqn:E; [|discriminate]. rewrite (mono_take _ _ _ _ x E). now intros [= <- <-]. Qed.
Lemma mono_tag t : mono (tag t).
Proof.
  intros i a r x. unfold tag. destruct (take (len t) i) as [[b j]|] eqn:E; [|discriminate]. rewrite (mono_take _ _ _ _ x E).
  destruct (beq b t); [|discriminate]. now intros [= <- <-].
Qed.
Lemma mono_count {A} (p : list N -> option (A * list N)) n : mono p -> mono (count p n).
Proof.
  intros P i a r x. unfold count. rewrite len_app. destruct (N.leb_spec n (len i)) as [L|]; [|discriminate].
  destruct (N.leb_spec n (len i + len x)); [|lia]. generalize (N.to_nat n) as m. intros m. clear L H. revert i a r. induction m as [|m IH]; intros i a r; cbn [count_nat].
  { now intros [= <- <-]. }
  destruct (p i) as [[y j]|] eqn:E; [|discriminate]. rewrite (P _ _ _ x E). destruct (count_nat p m j) as [[ys j']|] eqn:F; [|discriminate].
  rewrite (IH _ _ _ F). now intros [= <- <-].
Qed.
Lemma mono_eat size c : mono (fun i => parser_eat_remaining i size c).
Proof. intros i a r x. unfold parser_eat_remaining. destruct (c <? size); [apply mono_take|]. now intros [= <- <-]. Qed.
Lemma mono_lf : mono lf_item.
Proof.
  intros i a r x. unfold lf_item. destruct (le_u32 i) as [[b j]|] eqn:E; [|discriminate]. rewrite (mono_u32 _ _ _ x E).
  destruct (take 4 j) as [[c j']|] eqn:F; [|discriminate]. rewrite (mono_take _ _ _ _ x F). now intros [= <- <-].
Qed.
Lemma mono_lh : mono lh_item.
Proof.
  intros i a r x. unfold lh_item. destruct (le_u32 i) as [[b j]|] eqn:E; [|discriminate]. rewrite (mono_u32 _ _ _ x E).
  destruct (le_u32 j) as [[c j']|] eqn:F; [|discriminate]. rewrite (mono_u32 _ _ _ x F). now intros [= <- <-].
Qed.
Lemma from_more (b x s : list N) o : get_from b o = Some s -> get_from (b ++ x) o = Some (s ++ x).
Proof.
  unfold get_from. rewrite len_app. destruct (N.leb_spec o (len b)) as [L|]; [|discriminate]. intros [= <-].
  destruct (N.leb_spec o (len b + len x)); [|lia]. f_equal. unfold len in L. rewrite skipn_app. now replace (N.to_nat o - length b)%nat with 0%nat by lia.
Qed.
Lemma range_more (b x s : list N) m n : get_range b m n = Some s -> get_range (b ++ x) m n = Some s.
Proof.
  unfold get_range. rewrite len_app. destruct (N.leb_spec m n); [|discriminate]. destruct (N.leb_spec n (len b)) as [L|]; [|discriminate]. cbn [andb].
  intros [= <-]. destruct (N.leb_spec n (len b + len x)); [|lia]. f_equal. unfold len in L.
  rewrite skipn_app, firstn_app, skipn_length. replace (N.to_nat (n - m) - (length b - N.to_nat m))%nat with 0%nat by lia. now rewrite app_nil_r.
Qed.

Lemma gap_more (a b x : list N) : len (a ++ x) - len (b ++ x) = len a - len b.
Proof. rewrite !len_app. lia. Qed.
Ltac more x H :=
  let a := fresh "a" in let j := fresh "i" in let E := fresh "E" in
  match type of H with
  | context [nom (le_i32 ?i)] => destruct (le_i32 i) as [[a j]|] eqn:E; [rewrite (mono_i32 _ _ _ x E)|discriminate]
  | context [nom (le_u16 ?i)] => destruct (le_u16 i) as [[a j]|] eqn:E; [rewrite (mono_u16 _ _ _ x E)|discriminate]
  | context [nom (le_u32 ?i)] => destruct (le_u32 i) as [[a j]|] eqn:E; [rewrite (mono_u32 _ _ _ x E)|discriminate]
  | context [nom (le_u64 ?i)] => destruct (le_u64 i) as [[a j]|] eqn:E; [rewrite (mono_u64 _ _ _ x E)|discriminate]
  | context [nom (tag ?t ?i)] => destruct (tag t i) as [[a j]|] eqn:E; [rewrite (mono_tag _ _ _ _ x E)|discriminate]
  | context [nom (take ?t ?i)] => destruct (take t i) as [[a j]|] eqn:E; [rewrite (mono_take _ _ _ _ x E)|discriminate]
  | context [nom (parser_eat_remaining ?i ?t ?c)] =>
      destruct (parser_eat_remaining i t c) as [[a j]|] eqn:E; [rewrite (mono_eat _ _ _ _ _ x E)|discriminate]
  end; unfold nom at 1; cbn [ok_or]; cbv beta iota; unfold nom at 1 in H; cbn [ok_or] in H; cbv beta iota in H.
Lemma kv_more s x off seq full v r : kv_from_bytes s off seq full = Ok (v, r) -> kv_from_bytes (s ++ x) off seq full = Ok (v, r ++ x).
Proof.
  unfold kv_from_bytes. cbv zeta. intros H. more x H.
  destruct (vk_check_size a s) eqn:C; [|discriminate].
  assert (C' : vk_check_size a (s ++ x) = true).
  { unfold vk_check_size in *. rewrite len_app. apply andb_prop in C as [C1 C2]. rewrite C1. apply N.leb_le in C2. apply N.leb_le. lia. }
  rewrite C'. cbn [negb] in *. do 8 (more x H).
  match type of H with context [string_from_bytes ?p ?q ?u] => set (str := string_from_bytes p q u) in * end.
  match type of H with (let* _ := ?q in _) = _ => destruct q as [[nm w]| | |]; try discriminate end.
  rewrite gap_more. more x H. rewrite !gap_more. now injection H as <- <-.
Qed.
Lemma kn_more st s x off path seq k r : kn_from_bytes st s off path seq = Ok (k, r) -> kn_from_bytes st (s ++ x) off path seq = Ok (k, r ++ x).
Proof.
  unfold kn_from_bytes. cbv zeta. intros H. more x H.
  destruct (nk_check_size a (len i + 4)) eqn:C; [|discriminate].
  assert (C' : nk_check_size a (len (i ++ x) + 4) = true).
  { unfold nk_check_size in *. rewrite len_app. apply andb_prop in C as [C1 C2]. rewrite C1. apply N.leb_le in C2. apply N.leb_le. lia. }
  rewrite C'. cbn [negb] in *. do 21 (more x H).
  match type of H with (let* _ := ?q in _) = _ => destruct q as [[nm w]| | |]; try discriminate end.
  rewrite gap_more. more x H. rewrite !gap_more. now injection H as <- <-.
Qed.

(** ** Sub-key lists *)
Lemma header_more sig i n r x : list_header sig i = Some (n, r) -> list_header sig (i ++ x) = Some (n, r ++ x).
Proof.
  unfold list_header. destruct (le_i32 i) as [[a j]|] eqn:E; [|discriminate]. rewrite (mono_i32 _ _ _ x E).
  destruct (tag sig j) as [[b j']|] eqn:F; [|discriminate]. rewrite (mono_tag _ _ _ _ x F). apply mono_u16.
Qed.
Lemma header_one sig sig' i n r : list_header sig i = Some (n, r) -> len sig = len sig' -> sig <> sig' -> list_header sig' i = None.
Proof.
  unfold list_header, tag. intros H L NE. destruct (le_i32 i) as [[a j]|]; [|discriminate]. rewrite <- L.
  destruct (take (len sig) j) as [[b j']|]; [|discriminate]. destruct (beq b sig) eqn:B; [|discriminate].
  destruct (beq b sig') eqn:B'; [|reflexivity]. apply beq_eq in B, B'. congruence.
Qed.
Definition with_more (fi : file_info) (x : list N) : file_info := mkFI (fi_hbin fi) (fi_buffer fi ++ x).
Lemma lists_more fi x : forall n o l, parse_sub_key_list n fi o = Ok l -> parse_sub_key_list n (with_more fi x) o = Ok l.
Proof.
  induction n as [|n IH]; intros o l; cbn [parse_sub_key_list]; [discriminate|]. cbn [with_more fi_buffer fi_hbin].
  destruct (get_from (fi_buffer fi) _) as [s|] eqn:G; [|discriminate]. rewrite (from_more _ x _ _ G). cbn [ok_or].
  assert (ONE : forall sig sig' m r, list_header sig s = Some (m, r) -> len sig = len sig' -> sig <> sig' -> list_header sig' (s ++ x) = None).
  { intros sig sig' m r H. apply (header_one sig sig' _ m (r ++ x)). now apply header_more. }
  unfold ri_from_bytes at 1. destruct (list_header RI s) as [[m r]|] eqn:HR.
  - assert (NO : lf_offsets (fi_hbin fi) s = None /\ lh_offsets (fi_hbin fi) s = None /\ li_offsets (fi_hbin fi) s = None).
    { unfold lf_offsets, lh_offsets, li_offsets. rewrite !(header_one RI _ _ _ _ HR) by (reflexivity || discriminate). auto. }
    destruct (count le_u32 m r) as [[items r']|] eqn:C.
    + unfold ri_from_bytes. rewrite (header_more _ _ _ _ x HR), (mono_count _ _ mono_u32 _ _ _ x C). clear - IH.
      revert l. induction items as [|o items I]; intros l; [now intros [= <-]|].
      destruct (parse_sub_key_list n fi o) as [a| | |] eqn:E; try discriminate. rewrite (IH _ _ E). cbv beta iota.
      match goal with |- (let* b := ?q in _) = _ -> _ => destruct q as [b| | |]; try discriminate end.
      rewrite (I b eq_refl). auto.
    + destruct NO as (-> & -> & ->). discriminate.
  - unfold lf_offsets at 1. destruct (list_header LF s) as [[m r]|] eqn:HF.
    { unfold lh_offsets at 1, li_offsets at 1. rewrite !(header_one LF _ _ _ _ HF) by (reflexivity || discriminate).
      unfold ri_from_bytes. rewrite (ONE _ RI _ _ HF) by (reflexivity || discriminate).
      destruct (count lf_item m r) as [[l' r']|] eqn:C; [|discriminate].
      unfold lf_offsets. now rewrite (header_more _ _ _ _ x HF), (mono_count _ _ mono_lf _ _ _ x C). }
    unfold lh_offsets at 1. destruct (list_header LH s) as [[m r]|] eqn:HH.
    { unfold li_offsets at 1. rewrite !(header_one LH _ _ _ _ HH) by (reflexivity || discriminate).
      unfold ri_from_bytes, lf_offsets. rewrite (ONE _ RI _ _ HH), (ONE _ LF _ _ HH) by (reflexivity || discriminate).
      destruct (count lh_item m r) as [[l' r']|] eqn:C; [|discriminate].
      unfold lh_offsets. now rewrite (header_more _ _ _ _ x HH), (mono_count _ _ mono_lh _ _ _ x C). }
    unfold li_offsets at 1. destruct (list_header LI s) as [[m r]|] eqn:HL; [|discriminate].
    unfold ri_from_bytes, lf_offsets, lh_offsets. rewrite (ONE _ RI _ _ HL), (ONE _ LF _ _ HL), (ONE _ LH _ _ HL) by (reflexivity || discriminate).
    destruct (count le_u32 m r) as [[l' r']|] eqn:C; [|discriminate].
    unfold li_offsets. now rewrite (header_more _ _ _ _ x HL), (mono_count _ _ mono_u32 _ _ _ x C).
Qed.

(** ** The data of a value *)
Lemma big_loop_more fi x : forall offs n acc l, big_data_loop fi offs n acc = Some l -> big_data_loop (with_more fi x) offs n acc = Some l.
Proof.
  induction offs as [|o offs IH]; intros n acc l; cbn [big_data_loop]; [auto|]. destruct (0 <? n); [|apply IH].
  unfold parse_big_data_size. cbn [with_more fi_buffer fi_hbin]. destruct (get_from (fi_buffer fi) _) as [s|] eqn:G; [|discriminate].
  rewrite (from_more _ x _ _ G). destruct (le_i32 s) as [[size i]|] eqn:E; [|discriminate]. rewrite (mono_i32 _ _ _ x E). cbv beta iota zeta.
  destruct (get_range i _ _) as [d|] eqn:R; [|discriminate]. rewrite (range_more _ x _ _ _ R). apply IH.
Qed.
Lemma big_more fi x off t n r : get_big_data_bytes fi off t n = Some r -> get_big_data_bytes (with_more fi x) off t n = Some r.
Proof.
  unfold get_big_data_bytes. cbn [with_more fi_buffer fi_hbin]. destruct (get_from (fi_buffer fi) _) as [s|] eqn:G; [|discriminate].
  rewrite (from_more _ x _ _ G). unfold big_data_from_bytes.
  destruct (le_i32 s) as [[size i]|] eqn:E; [|discriminate]. rewrite (mono_i32 _ _ _ x E).
  destruct (tag DB i) as [[b i2]|] eqn:E2; [|discriminate]. rewrite (mono_tag _ _ _ _ x E2).
  destruct (le_u16 i2) as [[c i3]|] eqn:E3; [|discriminate]. rewrite (mono_u16 _ _ _ x E3).
  destruct (le_u32 i3) as [[lo i4]|] eqn:E4; [|discriminate]. rewrite (mono_u32 _ _ _ x E4).
  unfold parse_big_data_offsets. cbn [with_more fi_buffer fi_hbin].
  destruct (get_from (fi_buffer fi) (fi_hbin fi + lo)) as [s2|] eqn:G2; [|discriminate]. rewrite (from_more _ x _ _ G2).
  destruct (le_u32 s2) as [[q i5]|] eqn:E5; [|discriminate]. rewrite (mono_u32 _ _ _ x E5).
  destruct (count le_u32 c i5) as [[os i6]|] eqn:E6; [|discriminate]. rewrite (mono_count _ _ mono_u32 _ _ _ x E6).
  destruct (big_data_loop fi os n []) as [bs|] eqn:E7; [|discriminate]. now rewrite (big_loop_more _ x _ _ _ _ E7).
Qed.
Lemma direct_more fi x fo size off t : read_value_bytes_direct fo size off t (with_more fi x) = read_value_bytes_direct fo size off t fi
  \/ exists o c, read_value_bytes_direct fo size off t fi = ([], o, [c]).
Proof.
  unfold read_value_bytes_direct. cbn [with_more fi_buffer fi_hbin]. destruct (N.land size _ =? 0); [|now left].
  destruct (get_from (fi_buffer fi) _) as [s|] eqn:G; [|right; eauto]. rewrite (from_more _ x _ _ G).
  destruct (is_big_data_block s) eqn:B.
  - assert (B' : is_big_data_block (s ++ x) = true).
    { unfold is_big_data_block in *. destruct (get_from s 4) as [s4|] eqn:G4; [|discriminate]. rewrite (from_more _ x _ _ G4).
      destruct (tag DB s4) as [[b r]|] eqn:T; [|discriminate]. now rewrite (mono_tag _ _ _ _ x T). }
    rewrite B'. destruct (_ && _).
    + destruct (get_big_data_bytes fi _ _ _) as [[vb os]|] eqn:E; [|right; eauto]. rewrite (big_more _ x _ _ _ _ E). now left.
    + cbv zeta. destruct (get_range (fi_buffer fi) _ _) as [d|] eqn:R; [|right; eauto]. rewrite (range_more _ x _ _ _ R). now left.
  - rewrite andb_false_r. cbv zeta. destruct (get_range (fi_buffer fi) _ _) as [d|] eqn:R; [|right; eauto]. rewrite (range_more _ x _ _ _ R).
    destruct (N.ltb_spec BIG_DATA_SIZE_THRESHOLD size) as [BIG|]; [|now left]. unfold BIG_DATA_SIZE_THRESHOLD in BIG.
    enough (B' : is_big_data_block (s ++ x) = false) by (rewrite B'; now left).
    apply get_range_some in R as (R1 & R2 & _). apply get_from_some in G as (G1 & _ & G3 & _).
    unfold is_big_data_block in *. rewrite (get_from_rest s) in B by lia. rewrite get_from_rest by (rewrite len_app; lia).
    assert (E : rest_at (s ++ x) 4 = rest_at s 4 ++ x).
    { unfold rest_at. rewrite skipn_app. replace (N.to_nat 4 - length s)%nat with 0%nat by (unfold len in *; lia). reflexivity. }
    rewrite E. unfold tag in *. destruct (take (len DB) (rest_at s 4)) as [[b r]|] eqn:T.
    + rewrite (mono_take _ _ _ _ x T). destruct (beq b DB); [discriminate|reflexivity].
    + exfalso. revert T. unfold take. rewrite len_rest_at. change (len DB) with 2. destruct (N.leb_spec 2 (len s - 4)); [discriminate|lia].
Qed.

(** ** A listing of the cut hive *)
Lemma preorder_child above t : forall names u s, In (names, u) (preorder above t) -> In s (t_subs u) -> In (names ++ [t_name s], s) (preorder above t).
Proof.
  revert above. induction t as [pos name vals subs IH] using tree_ind'. intros above names u s H C.
  rewrite preorder_eq in H |- *. cbn [t_name t_subs] in *. destruct H as [H|H].
  - injection H as <- <-. right. apply in_flat_map. exists s. split; [exact C|]. rewrite preorder_eq. now left.
  - right. apply in_flat_map in H as (y & Y & H). apply in_flat_map. exists y. split; [exact Y|]. rewrite Forall_forall in IH. now apply (IH y Y _ _ u).
Qed.
Lemma from_rest (b s : list N) o : get_from b o = Some s -> s = rest_at b o.
Proof. intros G. now apply get_from_some in G as (_ & -> & _). Qed.
Section Cut.
Context (fi : file_info) (rest : list N) (T : key_tree).
Notation whole := (with_more fi rest).
Context (B : bytes_ok (fi_buffer whole)) (HB : fi_hbin fi < 2 ^ 32) (warned : Prop) (WR : warned -> len rest <= fi_hbin fi).

Lemma value_part st o x s v0 r : value_stored whole o x -> get_from (fi_buffer fi) (o + fi_hbin fi) = Some s ->
  kv_from_bytes s (o + fi_hbin fi) None (st_full st) = Ok (v0, r) -> value_partly (read_value_bytes fi st v0) x.
Proof.
  intros V G K. destruct (value_load whole st o x B V) as (kv & (v1 & r1 & K1 & ->) & SH & _).
  apply (from_more _ rest) in G. apply (kv_more _ rest) in K. apply from_rest in G. rewrite G in K.
  change (fi_hbin whole) with (fi_hbin fi) in K1. rewrite (N.add_comm (fi_hbin fi)) in K1. change (fi_buffer whole) with (fi_buffer fi ++ rest) in K1.
  rewrite K in K1. injection K1 as <- <-.
  destruct (direct_more fi rest (kv_offset v0) (vd_data_size_raw (kv_detail v0)) (vd_data_offset (kv_detail v0)) (kv_type v0)) as [E|(os & c & E)].
  - left. assert (X : read_value_bytes fi st v0 = read_value_bytes whole st v0) by (unfold read_value_bytes; now rewrite E). now rewrite X.
  - right. unfold read_value_bytes in SH |- *. rewrite E. destruct (read_value_bytes_direct _ _ _ _ _) as [[vb os'] lg] in SH.
    destruct SH as (S1 & S2 & _ & S4 & S5). cbn in S1, S2, S4, S5 |- *. repeat (split; [assumption || reflexivity|]). now destruct (kv_logs v0).
Qed.
Lemma loop_part st offs vals : Forall2 (value_stored whole) offs vals -> forall acc before vs logs ok,
  Forall2 value_partly acc before -> read_values_loop fi st None offs acc = Ok (vs, logs, ok) ->
  exists seen missing, vals = seen ++ missing /\ Forall2 value_partly vs (before ++ seen) /\ (missing = [] \/ logs <> [] \/ ok = false).
Proof.
  induction 1 as [|o x offs vals V F IH]; intros acc before vs logs ok A; cbn [read_values_loop].
  { intros [= <- <- <-]. exists [], []. split; [reflexivity|]. rewrite app_nil_r. auto. }
  assert (STOP : forall (lg : list log_code) (b : bool), lg <> [] \/ b = false -> exists seen missing, x :: vals = seen ++ missing /\ Forall2 value_partly acc (before ++ seen)
    /\ (missing = [] \/ lg <> [] \/ b = false)).
  { intros lg b W. exists [], (x :: vals). split; [reflexivity|]. rewrite app_nil_r. auto. }
  destruct (get_at _ _); [|intros [= <- <- <-]; apply STOP; left; discriminate].
  destruct (get_from (fi_buffer fi) _) as [s|] eqn:G; [|intros [= <- <- <-]; apply STOP; auto].
  destruct (kv_from_bytes _ _ _ _) as [[v0 r]| | |] eqn:K; [|intros [= <- <- <-]; apply STOP; auto|discriminate|discriminate].
  intros H. apply (IH _ (before ++ [x])) in H as (seen & missing & -> & Q & W).
  - exists (x :: seen), missing. split; [reflexivity|]. split; [now rewrite <- app_assoc in Q|exact W].
  - apply Forall2_app; [exact A|]. constructor; [|constructor]. now apply (value_part _ _ _ _ _ _ V G K).
Qed.
Lemma value_list d raw vals offs : nk_fits d raw -> values_stored whole d vals -> vals <> [] ->
  parse_key_values fi (kd_nvalues d) (kd_vallist d) = Some offs -> Forall2 (value_stored whole) offs vals.
Proof.
  intros F (NV & [V|(LE & POS & size & offs' & S4 & U & S & VS)]) NE P; [contradiction|].
  assert (Q : parse_key_values whole (kd_nvalues d) (kd_vallist d) = Some offs).
  { revert P. unfold parse_key_values. cbn [with_more fi_buffer fi_hbin].
    destruct (get_from (fi_buffer fi) _) as [s|] eqn:G; [|discriminate]. rewrite (from_more _ rest _ _ G).
    destruct (le_u32 s) as [[q i5]|] eqn:E5; [|discriminate]. rewrite (mono_u32 _ _ _ rest E5).
    destruct (count le_u32 _ i5) as [[os i6]|] eqn:E6; [|discriminate]. now rewrite (mono_count _ _ mono_u32 _ _ _ rest E6). }
  revert Q. unfold parse_key_values.
  assert (I : (0 < kd_vallist d < 2147483648)%Z).
  { destruct F as (_ & _ & _ & _ & _ & _ & _ & _ & _ & _ & I & _). unfold i32 in I. change (2 ^ 31)%Z with 2147483648%Z in I. lia. }
  assert (IU : i32_as_usize (kd_vallist d) = Z.to_N (kd_vallist d)) by (unfold i32_as_usize; rewrite Z.mod_small by lia; reflexivity).
  assert (LO : len offs' = kd_nvalues d).
  { rewrite NV. unfold len. f_equal. clear -VS. induction VS; cbn; congruence. }
  rewrite IU. unfold w64. change (2 ^ 32) with 4294967296 in HB. cbn [with_more fi_hbin].
  rewrite N.mod_small by lia. rewrite N.add_comm. destruct (stored_from _ _ _ S) as (post & E). cbn [with_more fi_hbin] in E. rewrite E.
  assert (SZ : exists x, size = enc 4 x /\ x < 2 ^ 32).
  { exists (le size). split.
    - replace 4%nat with (length size) by (unfold len in S4; lia). symmetry. apply enc_le.
      apply stored_bytes in S; [|exact B]. now apply bytes_ok_app in S as [S _].
    - change (2 ^ 32) with (256 ^ 4). replace 4 with (len size). apply le_bound. apply stored_bytes in S; [|exact B]. now apply bytes_ok_app in S as [S _]. }
  destruct SZ as (x & -> & XB). rewrite <- !app_assoc. rewrite le_u32_enc by exact XB. rewrite <- LO, count_u32 by exact U. now intros [= <-].
Qed.
Lemma values_part st d raw vals k k' ok : nk_fits d raw -> values_stored whole d vals -> 0 < kd_nvalues d ->
  kd_nvalues (kn_detail k) = kd_nvalues d -> kd_vallist (kn_detail k) = kd_vallist d -> kn_values k = [] ->
  read_values fi st None k = Ok (k', ok) ->
  (exists vs logs, k' = kn_set_logs logs (kn_set_values vs k)) /\ exists seen missing, vals = seen ++ missing /\ Forall2 value_partly (kn_values k') seen
     /\ (len rest <= fi_hbin fi -> missing = [] \/ kn_logs k' <> [] \/ ok = false).
Proof.
  intros F V P K1 K2 K3. unfold read_values. rewrite K1, K2.
  assert (NE : vals <> []).
  { intros ->. destruct V as (V & _). unfold len in V. cbn in V. lia. }
  assert (NIL : forall (lg : list log_code) (b : bool), (len rest <= fi_hbin fi -> lg <> [] \/ b = false) -> exists seen missing, vals = seen ++ missing /\ Forall2 value_partly [] seen
    /\ (len rest <= fi_hbin fi -> missing = [] \/ lg <> [] \/ b = false)).
  { intros lg b W. exists [], vals. split; [reflexivity|]. split; [constructor|auto]. }
  assert (SAME : exists vs logs, k = kn_set_logs logs (kn_set_values vs k)) by (exists (kn_values k), (kn_logs k); now destruct k).
  destruct (_ && _) eqn:IN.
  2:{ intros [= <- <-]. split; [exact SAME|]. rewrite K3. apply NIL. intros L. exfalso.
    destruct V as (_ & [V|(_ & POS & size & offs & S4 & _ & S & _)]); [contradiction|]. apply stored_len in S. rewrite len_app, S4 in S.
    cbn [with_more fi_buffer fi_hbin] in S. rewrite len_app in S.
    assert (I : (kd_vallist d < 2147483648)%Z).
    { destruct F as (_ & _ & _ & _ & _ & _ & _ & _ & _ & _ & I & _). unfold i32 in I. change (2 ^ 31)%Z with 2147483648%Z in I. lia. }
    assert (IU : i32_as_usize (kd_vallist d) = Z.to_N (kd_vallist d)) by (unfold i32_as_usize; rewrite Z.mod_small by lia; reflexivity).
    rewrite IU in IN. apply andb_false_iff in IN as [IN|IN]; [apply Z.ltb_ge in IN; lia|]. apply N.ltb_ge in IN. lia. }
  destruct (1048576 <? _).
  { intros [= <- <-]. split; [|rewrite <- K3 in NIL; apply NIL; intros _; left; unfold kn_add_log; cbn; now destruct (kn_logs k)]. exists (kn_values k). eexists. unfold kn_add_log. destruct k; reflexivity. }
  destruct (parse_key_values _ _ _) as [offs|] eqn:PK.
  - apply (value_list d raw vals offs F V NE) in PK. destruct (read_values_loop _ _ _ _ _) as [[[vs logs] ok']| | |] eqn:L; try discriminate.
    intros [= <- <-]. split; [eauto|]. apply (loop_part _ _ _ PK _ [] _ _ _ (Forall2_nil _)) in L as (seen & missing & -> & Q & W).
    exists seen, missing. split; [reflexivity|]. split; [exact Q|]. intros _. cbn. destruct W as [W|[W|W]]; auto. right; left. intros E. now apply app_eq_nil in E as (_ & E).
  - intros [= <- <-]. split; [|apply NIL; auto]. exists [], (kn_logs k). now destruct k.
Qed.

(** What holds of every key that is read. *)
Definition partial (k : key_node) : Prop := kn_deleted k = [] /\ exists above t d,
  In (above ++ [t_name t], t) (preorder [] T) /\ subs_stored whole d (t_subs t) /\ Forall (tree_stored whole false) (t_subs t)
  /\ Forall (Forall scalar) (above ++ [t_name t]) /\ kn_offset k = t_pos t /\ kn_name k = utf8 (t_name t)
  /\ kn_path k = utf8 (spelled (above ++ [t_name t])) /\ kn_state k = Allocated
  /\ kd_nsub (kn_detail k) = kd_nsub d /\ kd_sublist (kn_detail k) = kd_sublist d
  /\ exists seen missing, t_vals t = seen ++ missing /\ Forall2 value_partly (kn_values k) seen /\ (warned -> missing = [] \/ kn_logs k <> []).
Lemma partial_logs k l : partial k -> partial (kn_set_logs (kn_logs k ++ l) k).
Proof.
  intros (D & above & t & d & H1 & H2 & H3 & H4 & H5 & H6 & H7 & H8 & H9 & H10 & seen & missing & H11 & H12 & H13).
  split; [exact D|]. exists above, t, d. repeat (split; [assumption|]). exists seen, missing. repeat (split; [assumption|]).
  intros W. destruct (H13 W) as [?|N]; [now left|right]. intros E. now apply app_eq_nil in E as (E & _).
Qed.
Lemma read_part st root above t (filt : option filter) sm m k st' : quiet st -> tree_stored whole root t -> In (above ++ [t_name t], t) (preorder [] T) ->
  Forall (Forall scalar) above -> (warned -> filt = None \/ filt = Some None) -> kn_read fi st (mkOpt (t_pos t) (utf8 (spelled above)) filt sm None m) = Ok (Some k, st') -> partial k.
Proof.
  intros M S I SC WF. unfold kn_read. cbn [op_offset]. destruct (get_from _ _) as [s|] eqn:G; [|discriminate]. cbn [ok_or].
  destruct (key_parse whole st root t (utf8 (spelled above)) B S) as (d & raw & kw & rst & F & _ & V & U & CH & _ & _ & SN & KP & BA & KV).
  apply (from_more _ rest) in G. apply from_rest in G.
  unfold read_from_slice. cbn [op_offset op_path op_filter op_self_match op_seq op_modified].
  destruct (kn_from_bytes st s (t_pos t) (utf8 (spelled above)) None) as [[k0 r0]| | |] eqn:K; try discriminate. apply (kn_more _ _ rest) in K. rewrite G in K.
  change (fi_buffer whole) with (fi_buffer fi ++ rest) in KP. rewrite KP in K. injection K as -> _. cbv beta iota.
  assert (P0 : forall k1, (exists vs logs, k1 = kn_set_logs logs (kn_set_values vs k0)) ->
    (exists seen missing, t_vals t = seen ++ missing /\ Forall2 value_partly (kn_values k1) seen /\ (warned -> missing = [] \/ kn_logs k1 <> [])) -> partial k1).
  { intros k1 (vs & logs & ->) Q. destruct BA as (A1 & A2 & A3 & A4 & A5 & A6 & A7 & A8 & A9 & A10 & A11).
    split; [exact A7|]. exists above, t, d. split; [exact I|]. split; [exact U|]. split; [exact CH|].
    split; [apply Forall_app; split; [exact SC|constructor; [exact SN|constructor]]|].
    split; [exact A1|]. split; [exact A2|]. split; [cbn; rewrite spelled_path; exact A3|]. split; [exact A5|].
    cbn [kn_set_logs kn_set_values kn_detail]. rewrite A4. split; [reflexivity|]. split; [reflexivity|exact Q]. }
  destruct (match filt with Some f => check_cell f st k0 | None => Ok (IterateKeys, st) end) as [[fl st1]| | |] eqn:EF; try discriminate.
  assert (RO : root_only st st1).
  { destruct filt; [exact (check_cell_state _ _ _ _ _ EF)|injection EF as _ <-; apply root_only_refl]. }
  pose proof (quiet_root_only' _ _ RO M) as M1. cbv beta iota. destruct fl; [discriminate| |].
  all: match goal with |- (let* k := ?x in _) = _ -> _ => destruct x as [k1| | |] eqn:EV; try discriminate end.
  all: assert (A1 : partial k1).
  1, 3: destruct (bare_nsub _ _ _ _ _ _ BA) as (_ & _ & N1 & N2 & _); rewrite N1 in EV; destruct (N.ltb_spec 0 (kd_nvalues d)) as [NV|NV]; cbn [andb] in EV;
    [destruct (should_read_values filt _ sm) eqn:SR in EV|];
    [destruct (read_values _ _ _ _) as [[k2 ok]| | |] eqn:RV in EV; try discriminate;
     apply (values_part _ d raw (t_vals t) _ _ _ F V NV N1 N2 KV) in RV as ((vs & lg & R1) & seen & missing & R2 & R3 & R4); injection EV as <-; apply P0;
     [destruct ok; subst k2; [eauto|exists vs; eexists; reflexivity]
     |exists seen, missing; destruct ok; (split; [exact R2|]); (split; [exact R3|]); intros W;
      [destruct (R4 (WR W)) as [?|[?|?]]; auto; discriminate|right; cbn; now destruct (kn_logs k2)]]
    | |]; injection EV as <-; (apply P0; [exists (kn_values k0), (kn_logs k0); now destruct k0|rewrite KV; exists [], (t_vals t); split; [reflexivity|]; split; [constructor|]]).
  all: try (intros W; exfalso; destruct (WF W) as [Z|Z]; rewrite Z in SR; unfold should_read_values in SR; cbn in SR; destruct sm; discriminate).
  1, 2: intros _; left; destruct V as (V & _); destruct (t_vals t); [reflexivity|]; rewrite len_cons in V; lia.
  all: cbv beta iota zeta.
  all: match goal with |- (let* k := (if _ then update_modified_lists _ _ ?x else _) in _) = _ -> _ => set (k2 := x) end.
  all: assert (G2 : partial k2) by exact A1.
  all: destruct m;
    [match goal with |- context [update_modified_lists ?f ?s ?k] => destruct (update_modified_lists f s k) as [k3| | |] eqn:UM; try discriminate end
    |now intros [= <- _]].
  all: unfold uml_fuel in UM; rewrite uml_quiet in UM by exact M1; injection UM as <-; now intros [= <- _].
Qed.
Lemma child_part sm f c : partial c -> partial (child_filter_state sm f c).
Proof. intros G. unfold child_filter_state. repeat match goal with |- context [if ?b then _ else _] => destruct b end; destruct (kn_filter c); exact G. Qed.
Lemma children_part above sm f (sf : option filter) m subs : (warned -> sf = None \/ sf = Some None) -> Forall (Forall scalar) above -> Forall (tree_stored whole false) subs ->
  Forall (fun s => In (above ++ [t_name s], s) (preorder [] T)) subs ->
  forall st cs found logs st', quiet st ->
  read_children fi st (utf8 (spelled above)) sm f sf None m (map t_pos subs) = Ok (cs, found, logs, st') -> Forall partial cs.
Proof.
  intros WF SC TS IN. induction subs as [|s subs IH]; intros st cs found logs st' M; cbn [map read_children]; [intros [= <- _ _ _]; constructor|].
  inversion TS as [|? ? TS1 TS2]; inversion IN as [|? ? IN1 IN2]; subst. specialize (IH TS2 IN2).
  destruct (kn_read fi st _) as [[[c|] st1]| | |] eqn:R; try discriminate.
  - pose proof (quiet_root_only' _ _ (kn_read_state _ _ _ _ _ R) M) as M1. apply (read_part _ false) in R; [|exact M|exact TS1|exact IN1|exact SC|exact WF].
    destruct (read_children _ _ _ _ _ _ _ _ _) as [[[[cs1 ?] ?] ?]| | |] eqn:E; try discriminate. intros [= <- _ _ _].
    constructor; [now apply child_part|]. now apply (IH _ _ _ _ _ M1 E).
  - pose proof (quiet_root_only' _ _ (kn_read_state _ _ _ _ _ R) M) as M1. intros E. now apply (IH _ _ _ _ _ M1 E).
  - destruct (read_children _ _ _ _ _ _ _ _ _) as [[[[cs1 ?] ?] ?]| | |] eqn:E; try discriminate. intros [= <- _ _ _].
    now apply (IH _ _ _ _ _ M E).
Qed.
Lemma sub_keys_partial st k f m k' cs found st' : quiet st -> (warned -> f = None) -> partial k ->
  read_sub_keys_internal fi st k f None m = Ok (k', cs, found, st') -> partial k' /\ Forall partial cs.
Proof.
  intros M WF G. unfold read_sub_keys_internal.
  assert (GL : forall c, partial (kn_add_log c k)) by (intros c; exact (partial_logs k [c] G)).
  destruct (is_allocated _); [|intros [= <- <- _ _]; auto]. destruct (1048576 <? _); [intros [= <- <- _ _]; auto|].
  destruct (N.ltb_spec 0 (kd_nsub (kn_detail k))) as [NS|]; [|intros [= <- <- _ _]; auto].
  destruct (parse_sub_key_list _ _ _) as [offs| | |] eqn:PL; try discriminate; [|intros [= <- <- _ _]; auto].
  pose proof G as (_ & above & t & d & I & U & TS & SC & _ & _ & PA & _ & N1 & N2 & _).
  assert (O : offs = map t_pos (t_subs t)).
  { rewrite N1 in NS. rewrite N2 in PL. apply (lists_more _ rest) in PL.
    pose proof (list_fuel_enough whole (kd_sublist d) (list_fuel fi)) as X. rewrite PL in X. specialize (X ltac:(discriminate)).
    destruct (list_total whole (t_subs t) d U) as (_ & Y); [|rewrite Y in X; now injection X as <-].
    intros E. destruct U as (U & _). rewrite E in U. unfold len in U. cbn in U. lia. }
  subst offs. cbv zeta. destruct (read_children _ _ _ _ _ _ _ _ _) as [[[[cs1 ?] ?] ?]| | |] eqn:E; try discriminate. intros [= <- <- _ _].
  split; [exact (partial_logs _ _ G)|]. rewrite PA in E. apply children_part in E; [exact E| |exact SC|exact TS| |exact M].
  { intros W. rewrite (WF W). destruct (is_match_or_desc k && f_return_sub_keys None); auto. }
  apply Forall_forall. intros u Hu. now apply (preorder_child _ _ _ t).
Qed.
Definition partial_cx (c : context) : Prop := (quiet (cx_state c) /\ (warned -> cx_filter c = None)) /\ Forall partial (cx_stack c) /\ Forall partial (cx_return c).
Lemma push_check_partial k c : partial k -> partial_cx c -> partial_cx (push_check k c).
Proof. intros G (X & Y & Z). unfold push_check. destruct (existsb _ _); [exact (conj X (conj Y Z))|]. split; [exact X|]. split; [now constructor|exact Z]. Qed.
Lemma fold_partial l : Forall partial l -> forall c, partial_cx c -> partial_cx (fold_left (fun cx c => push_check c cx) l c).
Proof. intros F. induction F as [|k l K F IH]; intros c C; [exact C|]. cbn [fold_left]. apply IH. now apply push_check_partial. Qed.
Lemma visit_partial cx k k' cx' : partial_cx cx -> partial k -> visit fi cx k = Ok (k', cx') -> partial k' /\ partial_cx cx'.
Proof.
  intros C G. unfold visit.
  match goal with |- match ?x with _ => _ end = _ -> _ => destruct x as [[k1 cx1]| | |] eqn:E; try discriminate end.
  assert (X : partial k1 /\ partial_cx cx1).
  { destruct (0 <? _) in E; [|injection E as <- <-; auto].
    destruct (read_sub_keys_internal _ _ _ _ _ _) as [[[[k2 cs] fd] st]| | |] eqn:R in E; try discriminate.
    pose proof (quiet_root_only' _ _ (read_sub_keys_state _ _ _ _ _ _ _ _ _ _ R) (proj1 (proj1 C))) as M.
    apply sub_keys_partial in R as (R1 & R2); [|apply C|apply C|exact G]. injection E as <- <-. split; [exact R1|].
    apply fold_partial; [now apply Forall_rev|]. destruct C as ((_ & CF) & C2 & C3). now split. }
  cbv beta iota. destruct X as (X1 & X4). pose proof X1 as (Y1 & Y2). rewrite Y1. cbn [map]. intros [= <- <-].
  split; [split; [reflexivity|exact Y2]|exact X4].
Qed.
Lemma next_pre_partial : forall fuel cx o cx', partial_cx cx -> next_key_preorder fuel fi cx = Ok (o, cx') ->
  partial_cx cx' /\ (forall k, o = Some k -> partial k).
Proof.
  induction fuel as [|fuel IH]; intros cx o cx' C; [discriminate|]. cbn [next_key_preorder].
  destruct (cx_stack cx) as [|node stk] eqn:S; [intros [= <- <-]; split; [exact C|discriminate]|].
  pose proof C as (C1 & C2 & C3). rewrite S in C2. inversion C2; subst.
  destruct (visit fi (cx_set_stack stk cx) node) as [[k1 cx1]| | |] eqn:V; try discriminate.
  apply visit_partial in V as (V1 & V2); [|split; [exact C1|split; [assumption|exact C3]]|assumption]. cbv beta iota.
  destruct (_ || _); [intros [= <- <-]; split; [exact V2|now intros k [= <-]]|]. now apply IH.
Qed.
Lemma next_post_partial : forall fuel cx o cx', partial_cx cx -> next_key_postorder fuel fi cx = Ok (o, cx') ->
  partial_cx cx' /\ (forall k, o = Some k -> partial k).
Proof.
  induction fuel as [|fuel IH]; intros cx o cx' C; [discriminate|]. cbn [next_key_postorder].
  pose proof C as (C1 & C2 & C3).
  destruct (cx_stack cx) as [|node stk] eqn:S.
  - destruct (cx_return cx) as [|top r] eqn:R; [intros [= <- <-]; split; [exact C|discriminate]|]. inversion C3; subst.
    assert (C' : partial_cx (cx_set_return r cx)) by (split; [exact C1|split; [cbn [cx_set_return cx_stack]; rewrite S; constructor|assumption]]).
    cbv zeta. destruct (_ || _); intros [= <- <-]; (split; [exact C'|]); [now intros k [= <-]|discriminate].
  - inversion C2; subst. cbv zeta.
    assert (STEP : (let* (node, cx) := visit fi (cx_set_stack stk cx) node in
            let ret := match cx_return cx with [] => [] | last :: r => kn_set_track (kn_track last + 1) last :: r end in
            next_key_postorder fuel fi (cx_set_return (node :: ret) cx)) = Ok (o, cx') -> partial_cx cx' /\ (forall k, o = Some k -> partial k)).
    { destruct (visit fi (cx_set_stack stk cx) node) as [[k1 cx1]| | |] eqn:V; try discriminate.
      apply visit_partial in V as (V1 & V2); [|split; [exact C1|split; [assumption|exact C3]]|assumption]. cbv beta iota zeta.
      apply IH. destruct V2 as (W1 & W2 & W3). split; [exact W1|]. split; [exact W2|]. cbn [cx_set_return cx_return].
      constructor; [exact V1|]. destruct (cx_return cx1); [constructor|]. inversion W3; subst. constructor; assumption. }
    destruct (cx_return cx) as [|last r] eqn:R; [exact STEP|]. destruct (_ =? _); [|exact STEP].
    inversion C3; subst. intros [= <- <-]. split; [|now intros k [= <-]].
    split; [exact C1|]. split; [cbn [cx_set_return cx_stack]; now rewrite S|assumption].
Qed.
Lemma collect_partial post : forall fuel cx ks, partial_cx cx -> collect post fuel fi cx = Ok ks -> Forall partial ks.
Proof.
  induction fuel as [|fuel IH]; intros cx ks C; [discriminate|]. cbn [collect].
  destruct ((if post then next_key_postorder else next_key_preorder) (S fuel) fi cx) as [[o cx1]| | |] eqn:E; try discriminate.
  assert (X : partial_cx cx1 /\ (forall k, o = Some k -> partial k)).
  { destruct post; [now apply (next_post_partial (S fuel) cx)|now apply (next_pre_partial (S fuel) cx)]. }
  destruct X as (C1 & G). cbv beta iota. destruct o as [k|]; [|intros [= <-]; constructor].
  destruct (collect post fuel fi cx1) as [r| | |] eqn:R; try discriminate. intros [= <-]. constructor; [now apply G|now apply (IH cx1)].
Qed.
End Cut.

Lemma cut_general order fuel hash full buffer files rest t p n f anc m post ks : known_file_type buffer ->
  build order fuel hash false full buffer files = Ok p -> hive (ps_buffer p ++ rest) t -> iterate n p f anc m post = Ok ks ->
  Forall (partial (ps_file p) rest t (len rest <= 4096 /\ f = None)) ks.
Proof.
  intros K BU HV. destruct HV as (B & _ & TP & TS & _). apply (build_plain order fuel hash full) in BU as (P & (H & _) & st & ES & R); [|exact K].
  assert (FI : with_more (ps_file p) rest = mkFI 4096 (ps_buffer p ++ rest)).
  { unfold with_more, ps_buffer, ps_hbin in *. now rewrite H. }
  assert (HB : fi_hbin (ps_file p) < 2 ^ 32) by (unfold ps_hbin in H; rewrite H; reflexivity).
  assert (WR : len rest <= 4096 /\ f = None -> len rest <= fi_hbin (ps_file p)) by (unfold ps_hbin in H; rewrite H; tauto).
  assert (Q : forall s, set_info [] s = set_info [] (ps_state p) -> quiet s).
  { intros s E. apply (quiet_info (ps_state p)); [now symmetry|]. exact (plain_quiet _ _ _ P). }
  rewrite <- FI in TS. change (bytes_ok (fi_buffer (with_more (ps_file p) rest))) in B.
  unfold iterate. intros C. apply (collect_partial (ps_file p) rest t B HB _ WR) in C; [exact C|].
  unfold from_parser. split; [split; [now apply Q|tauto]|]. split; [|constructor]. cbn [cx_stack]. constructor; [|constructor].
  destruct (ps_root p) as [r|] eqn:PR.
  - rewrite <- TP in R. apply (read_part (ps_file p) rest t B HB _ WR st true [] t None true true r st (Q _ ES) TS) in R; [exact R| |constructor|auto].
    rewrite preorder_eq. now left.
  - exfalso. unfold kn_read, read_from_slice in R. cbn [op_filter op_offset] in R. destruct (get_from _ _); [|discriminate]. cbn [ok_or] in R.
    destruct (kn_from_bytes _ _ _ _ _) as [[? ?]| | |]; try discriminate. cbv beta iota zeta in R.
    repeat match type of R with (let* _ := ?q in _) = _ => destruct q; try discriminate end.
Qed.
Lemma cut_iterate order fuel hash full buffer files rest t p n f anc m post ks : known_file_type buffer ->
  build order fuel hash false full buffer files = Ok p -> hive (ps_buffer p ++ rest) t -> iterate n p f anc m post = Ok ks ->
  Forall (fun k => exists x, In x (preorder [] t) /\ key_partly k (fst x) (snd x)) ks.
Proof.
  intros K BU HV C. apply (cut_general _ _ _ _ _ _ _ _ _ _ _ _ _ _ _ K BU HV) in C. apply Forall_forall. intros k I. rewrite Forall_forall in C.
  destruct (C k I) as (_ & above & u & d & IN & _ & _ & SC & O & NM & PA & A & _ & _ & seen & missing & V1 & V2 & _).
  exists (above ++ [t_name u], u). split; [exact IN|]. cbn [fst snd]. split; [exact O|].
  split; [rewrite NM; apply read_utf8_utf8; apply Forall_app in SC as (_ & SC); now inversion SC|].
  split; [rewrite PA; apply read_utf8_utf8; now apply spelled_scalar|]. split; [exact A|eauto].
Qed.
Lemma pos_once l x y : NoDup (map t_pos l) -> In x l -> In y l -> t_pos x = t_pos y -> x = y.
Proof.
  induction l as [|z l IH]; [easy|]. cbn [map]. intros N. inversion N as [|? ? N1 N2]; subst. intros [->|I] [->|J] E; [reflexivity| | |now apply IH].
  - exfalso. apply N1. rewrite E. now apply in_map.
  - exfalso. apply N1. rewrite <- E. now apply in_map.
Qed.
Lemma preorder_pos above t : map t_pos (map snd (preorder above t)) = positions t.
Proof.
  revert above. induction t as [pos name vals subs IH] using tree_ind'. intros above. rewrite preorder_eq. cbn [map snd t_pos positions t_name t_subs]. f_equal.
  generalize (above ++ [name]). intros a. induction IH as [|s r X F I]; [reflexivity|]. cbn [flat_map]. now rewrite !map_app, X, I.
Qed.
Lemma cut_warned order fuel hash full buffer files rest t p n anc m post ks : known_file_type buffer ->
  build order fuel hash false full buffer files = Ok p -> hive (ps_buffer p ++ rest) t -> len rest <= 4096 -> iterate n p None anc m post = Ok ks ->
  forall k x, In k ks -> In x (preorder [] t) -> kn_offset k = t_pos (snd x) -> (length (kn_values k) < length (t_vals (snd x)))%nat -> kn_logs k <> [].
Proof.
  intros K BU HV L C k x IK IX O LT. apply (cut_general _ _ _ _ _ _ _ _ _ _ _ _ _ _ _ K BU HV) in C. rewrite Forall_forall in C.
  destruct (C k IK) as (_ & above & u & d & IN & _ & _ & _ & O' & _ & _ & _ & _ & _ & seen & missing & V1 & V2 & W).
  assert (E : u = snd x).
  { destruct HV as (_ & _ & _ & _ & ND). rewrite <- (preorder_pos [] t) in ND. apply (pos_once _ _ _ ND); [now apply (in_map snd) in IN|now apply in_map|congruence]. }
  subst u. destruct W as [->|N]; [auto| |exact N]. exfalso. rewrite app_nil_r in V1. rewrite V1 in LT. assert (Q : length (kn_values k) = length seen) by (clear -V2; induction V2; cbn; congruence). lia.
Qed.
