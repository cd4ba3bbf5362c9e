(** Proofs about reading keys, values and children, and about decoding. *)
From Coq Require Import Permutation.
From Verif Require Import Base BaseFacts LayoutSpec LayoutFacts Util UtilSpec UtilText UtilLz BaseBlock
  Types Value Node CellSpec CellFacts CellData CellList NodeFrame.

(** ** Text *)
Definition is_text (s : list N) : Prop := exists t, Forall scalar t /\ s = utf8 t.

Lemma text_nil : is_text []. Proof. now exists []. Qed.
Lemma text_app a b : is_text a -> is_text b -> is_text (a ++ b).
Proof.
  intros (t & T & ->) (u & U & ->). exists (t ++ u). split; [now apply Forall_app|]. now rewrite utf8_app.
Qed.
Lemma text_slash : is_text [92].
Proof. exists [92]. split; [|easy]. repeat constructor; unfold scalar; lia. Qed.
Lemma utf8_split t : Forall scalar t -> forall a r, utf8 t = a ++ 92 :: r ->
  exists t1 t2, t = t1 ++ 92 :: t2 /\ a = utf8 t1 /\ r = utf8 t2.
Proof.
  induction 1 as [|c t Hc Ht IH]; intros a r E; [now destruct a|].
  destruct (N.eq_dec c 92) as [->|Hn].
  - change (utf8 (92 :: t)) with (92 :: utf8 t) in E. destruct a as [|x a].
    + injection E as E. now exists [], t.
    + injection E as <- E. destruct (IH a r E) as (t1 & t2 & -> & -> & ->). now exists (92 :: t1), t2.
  - change (utf8 (c :: t)) with (utf8_char c ++ utf8 t) in E.
    assert (exists a', a = utf8_char c ++ a' /\ utf8 t = a' ++ 92 :: r) as (a' & -> & E').
    { pose proof (utf8_char_92 c Hc Hn) as H92. revert E H92. generalize (utf8_char c). clear.
      intros u. revert a. induction u as [|x u IHu]; intros a E H92; [exists a; auto|].
      destruct a as [|y a]; cbn [app] in E; injection E as E1 E2.
      - exfalso. apply H92. left. assumption.
      - subst y. destruct (IHu a E2) as (a' & -> & E').
        + intro. apply H92. now right.
        + exists a'. auto. }
    destruct (IH a' r E') as (t1 & t2 & -> & -> & ->). now exists (c :: t1), t2.
Qed.
Lemma text_after_slash a r : is_text (a ++ 92 :: r) -> is_text a /\ is_text r.
Proof.
  intros (t & T & E). destruct (utf8_split t T a r (eq_sym E)) as (t1 & t2 & -> & -> & ->).
  apply Forall_app in T as [T1 T]. inversion T. split; [now exists t1|now exists t2].
Qed.
Lemma str_from_slash a r : is_text (a ++ 92 :: r) -> str_from (a ++ 92 :: r) (len a + 1) = Ok r.
Proof.
  intros T. apply text_after_slash in T as [_ (t & T & ->)].
  replace (a ++ 92 :: utf8 t) with ((a ++ [92]) ++ utf8 t) by now rewrite <- app_assoc.
  replace (len a + 1) with (len (a ++ [92])) by now rewrite len_app. now apply str_from_utf8.
Qed.
Lemma lower_char c : scalar c -> map lower (utf8_char c) = utf8_char (lower c).
Proof.
  intros H. unfold utf8_char. unfold scalar in H.
  assert (B : forall b, 128 <= b -> lower b = b).
  { intros b L. unfold lower. destruct (N.leb_spec 65 b), (N.leb_spec b 90); cbn [andb]; lia || easy. }
  destruct (N.ltb_spec c 0x80).
  - destruct (N.ltb_spec (lower c) 0x80) as [|G]; [easy|]. exfalso. unfold lower in G.
    destruct (N.leb_spec 65 c), (N.leb_spec c 90); cbn [andb] in G; lia.
  - rewrite (B c) by lia. destruct (N.ltb_spec c 0x80); [lia|].
    destruct (N.ltb_spec c 0x800); [|destruct (N.ltb_spec c 0x10000)]; cbn [map]; rewrite !B by lia; easy.
Qed.
Lemma text_lower s : is_text s -> is_text (to_lower s).
Proof.
  intros (t & T & ->). exists (map lower t). split.
  - apply Forall_map. eapply Forall_impl; [|exact T]. intros c H. unfold scalar, lower in *.
    destruct (N.leb_spec 65 c), (N.leb_spec c 90); cbn [andb]; lia.
  - induction T as [|c t Hc Ht IH]; [easy|]. change (utf8 (c :: t)) with (utf8_char c ++ utf8 t).
    unfold to_lower in *. rewrite map_app, IH, lower_char by easy. reflexivity.
Qed.
Lemma lower_92 b : lower b = 92 <-> b = 92.
Proof.
  unfold lower. destruct (N.leb_spec 65 b), (N.leb_spec b 90); cbn [andb]; lia.
Qed.
Lemma decode_scalars us : forall cs cnt w cs' cnt' w', Forall (fun u => match u with Some u => u < 65536 | None => True end) us ->
  Forall scalar cs -> decode_until_nul us cs cnt w = Ok (cs', cnt', w') -> Forall scalar cs'.
Proof.
  remember (length us) as n eqn:En. assert (L : (length us <= n)%nat) by lia. clear En.
  revert us L. induction n as [|n IH]; intros us L cs cnt w cs' cnt' w' U C.
  - destruct us; [|cbn in L; lia]. cbn. intros [= <- <- <-]. now apply Forall_rev.
  - destruct us as [|[u|] us]; [cbn; intros [= <- <- <-]; now apply Forall_rev| |easy].
    apply Forall_cons_iff in U as [U0 U]. cbn [length] in L. cbn [decode_until_nul].
    assert (R : scalar 0xFFFD) by (unfold scalar; lia). unfold is_high, is_low.
    destruct (N.leb_spec 0xD800 u), (N.ltb_spec u 0xDC00); cbn [andb].
    + destruct us as [|[v|] us]; [| |easy].
      * intros [= <- <- <-]. apply Forall_app. split; [now apply Forall_rev|now constructor].
      * apply Forall_cons_iff in U as [V0 V]. cbn [length] in L.
        destruct (N.leb_spec 0xDC00 v), (N.ltb_spec v 0xE000); cbn [andb];
          try (apply IH; [cbn; lia|now constructor|now constructor]).
        apply IH; [lia|easy|]. constructor; [unfold scalar; lia|easy].
    + destruct (N.leb_spec 0xDC00 u), (N.ltb_spec u 0xE000); cbn [andb]; try lia.
      * apply IH; [lia|easy|now constructor].
      * destruct (N.eqb_spec u 0); [lia|]. apply IH; [lia|easy|]. constructor; [unfold scalar; lia|easy].
    + destruct (N.leb_spec 0xDC00 u), (N.ltb_spec u 0xE000); cbn [andb]; try lia.
      destruct (N.eqb_spec u 0); [intros [= <- <- <-]; now apply Forall_rev|].
      apply IH; [lia|easy|]. constructor; [unfold scalar; lia|easy].
    + lia.
Qed.
Lemma units_bound n : forall s, bytes_ok s -> Forall (fun u => match u with Some u => u < 65536 | None => True end) (units n s).
Proof.
  induction n as [|n IH]; intros s B; [constructor|]. destruct s as [|a [|b s]]; cbn [units]; [repeat constructor..|].
  apply Forall_cons_iff in B as [A B]. apply Forall_cons_iff in B as [B0 B]. cbv beta in *. unfold byte in *.
  constructor; [lia|now apply IH].
Qed.
Lemma string_text a s cnt t w : bytes_ok s -> string_from_bytes a s cnt = Ok (t, w) -> is_text t.
Proof.
  intros B. unfold string_from_bytes. destruct a.
  - intros [= <- <-]. exists s. split; [now apply byte_scalar|easy].
  - unfold from_utf16_le_string. destruct (_ <=? _); [|easy]. unfold from_utf16_le_string_single.
    destruct (decode_until_nul _ _ _ _) as [[[cs c] w']| | |] eqn:E; try easy. intros [= <- <-].
    exists cs. split; [|easy]. eapply decode_scalars; [|constructor|exact E]. now apply units_bound.
Qed.

(** ** Filters *)
Lemma root_offset_split p : (get_root_path_offset p = 0)
  \/ exists a r, p = a ++ 92 :: r /\ len a + 1 = get_root_path_offset p.
Proof.
  unfold get_root_path_offset. destruct p as [|b p]; [now left|]. destruct (N.eqb_spec b 92) as [->|]; [|now left].
  destruct (find_byte 92 p) as [i|] eqn:F; [|now left]. right.
  apply find_byte_split in F as (a & r & -> & <- & _). exists (92 :: a), r. split; [easy|]. rewrite len_cons. lia.
Qed.
Lemma slash_at p o : get_at p o = Some 92 -> exists a r, p = a ++ 92 :: r /\ len a = o.
Proof.
  intros H. pose proof (get_at_lt _ _ _ H) as L. rewrite get_at_nth in H. apply nth_error_split in H as (a & r & -> & E).
  exists a, r. split; [easy|]. unfold len. lia.
Qed.
(** The offset cached in the state is usable for keys below [parent]. *)
Definition cache_ok (st : state) (parent : list N) : Prop :=
  st_root_offset st = 0 \/ get_at (parent ++ [92]) (st_root_offset st - 1) = Some 92.
Lemma str_from_total p o : is_text p -> o = 0 \/ (exists a r, p = a ++ 92 :: r /\ len a + 1 = o) ->
  exists s, str_from p o = Ok s.
Proof.
  intros T [->|(a & r & -> & <-)]; [exists p; apply str_from_0|]. exists r. now apply str_from_slash.
Qed.
Lemma check_cell_total f st k parent : is_text (kn_path k) -> cache_ok st parent ->
  (exists s, kn_path k = parent ++ [92] ++ s) -> exists fl st', check_cell f st k = Ok (fl, st').
Proof.
  intros T C (s & P). unfold check_cell. destruct f as [q|]; [|eauto]. destruct (_ && _); [eauto|].
  unfold st_get_root_path_offset.
  assert (X : forall o, o = 0 \/ (exists a r, to_lower (kn_path k) = a ++ 92 :: r /\ len a + 1 = o) ->
    exists fl, check_key_match q (to_lower (kn_path k)) o = Ok fl).
  { intros o O. unfold check_key_match.
    destruct (str_from_total (to_lower (kn_path k)) (if rq_has_root q then 0 else o)) as (x & ->).
    - now apply text_lower.
    - destruct (rq_has_root q); [now left|easy].
    - eauto. }
  destruct (N.eqb_spec (st_root_offset st) 0) as [Z|NZ].
  - destruct (X (get_root_path_offset (to_lower (kn_path k)))) as (fl & ->); [apply root_offset_split|eauto].
  - destruct (X (st_root_offset st)) as (fl & ->); [|eauto]. right.
    destruct C as [C|C]; [easy|]. apply slash_at in C as (a & r & E & L).
    exists (map lower a), (map lower (r ++ s)). split; [|rewrite len_map; lia].
    rewrite P, app_assoc, E. unfold to_lower. rewrite <- app_assoc. cbn [app]. rewrite map_app. reflexivity.
Qed.

(** ** Values *)
Lemma values_loop_total fi st seq offs : forall acc,
  exists vs logs ok, read_values_loop fi st seq offs acc = Ok (vs, logs, ok).
Proof.
  induction offs as [|o r IH]; intros acc; cbn [read_values_loop]; [eauto|].
  destruct (get_at _ _); [|eauto]. destruct (get_from _ _) as [s|]; [|eauto].
  destruct (kv_cases s (o + fi_hbin fi) seq (st_full st)) as [(_ & nm & w & _ & ->)|(_ & ->)]; [apply IH|eauto].
Qed.
Lemma read_values_total fi st seq k : exists k' ok, read_values fi st seq k = Ok (k', ok).
Proof.
  unfold read_values. destruct (_ && _); [|eauto]. destruct (1048576 <? _); [eauto|].
  destruct (parse_key_values _ _ _) as [offs|]; [|eauto].
  destruct (values_loop_total fi st seq offs []) as (vs & l & ok & ->). eauto.
Qed.

(** ** Reading a key *)
Definition settled {A} (r : res A) : Prop := r = Err \/ exists a, r = Ok a.
Lemma uml_no_deleted st k n : st_deleted_keys st = [] ->
  exists k', update_modified_lists (S n) st k = Ok k'.
Proof.
  intros E. cbn [update_modified_lists]. destruct (is_deleted_primary_file _); [eauto|].
  rewrite E. cbn [aget]. eauto.
Qed.
Lemma check_cell_keeps f st k fl st' : check_cell f st k = Ok (fl, st') ->
  st_deleted_keys st' = st_deleted_keys st.
Proof.
  unfold check_cell, st_get_root_path_offset. destruct f as [q|]; [|now intros [= <- <-]].
  destruct (_ && _); [now intros [= <- <-]|].
  destruct (_ =? 0); destruct (check_key_match _ _ _); try easy; now intros [= <- <-].
Qed.
Lemma kn_path_at st b off path seq name w : kn_path (kn_at st b off path seq name w) = path ++ [92] ++ name.
Proof. reflexivity. Qed.
Lemma kn_read_settled fi st o : bytes_ok (fi_buffer fi) -> is_text (op_path o) ->
  (op_filter o = None \/ cache_ok st (op_path o)) ->
  op_modified o = false \/ st_deleted_keys st = [] ->
  settled (kn_read fi st o).
Proof.
  intros B T C M. unfold kn_read, settled. destruct (get_from _ _) as [s|] eqn:G; [|now left]. cbn [ok_or].
  cbv beta iota. unfold read_from_slice.
  destruct (kn_cases st s (op_offset o) (op_path o) (op_seq o)) as [(NK & name & w & NM & ->)|(_ & ->)]; [|now left].
  right. cbv beta iota.
  assert (BS : bytes_ok s). { apply get_from_some in G as (_ & E & _). rewrite E. now apply bytes_ok_skipn. }
  assert (TN : is_text name). { eapply string_text; [|exact NM]. now apply bytes_ok_at. }
  set (k := kn_at st s (op_offset o) (op_path o) (op_seq o) name w) in *.
  assert (X : exists fl st', match op_filter o with Some f => check_cell f st k | None => Ok (IterateKeys, st) end = Ok (fl, st')
    /\ st_deleted_keys st' = st_deleted_keys st).
  { destruct (op_filter o) as [f|]; [|eauto]. destruct C as [C|C]; [easy|].
    destruct (check_cell_total f st k (op_path o)) as (fl & st' & E).
    - unfold k. rewrite kn_path_at. apply text_app; [easy|]. apply text_app; [apply text_slash|easy].
    - easy.
    - exists name. reflexivity.
    - exists fl, st'. split; [easy|]. now apply check_cell_keeps in E. }
  destruct X as (fl & st' & -> & D). cbv beta iota.
  assert (Y : exists k1, (if (0 <? kd_nvalues (kn_detail k)) && should_read_values (op_filter o) fl (op_self_match o)
    then let* (k0, ok) := read_values fi st' (op_seq o) k in Ok (if ok : bool then k0 else kn_add_log WarningParse k0)
    else Ok k) = Ok k1).
  { destruct (_ && _); [|eauto]. destruct (read_values_total fi st' (op_seq o) k) as (k' & ok & ->). eauto. }
  destruct Y as (k1 & Y). rewrite Y. cbv beta iota.
  set (k2 := match fl with KeyMatch => kn_set_filter (Some MExact) k1 | _ => k1 end).
  assert (Z : exists k3, (if op_modified o then update_modified_lists (uml_fuel st') st' k2 else Ok k2) = Ok k3).
  { destruct M as [M|M]; [rewrite M; eauto|]. destruct (op_modified o); [|eauto].
    unfold uml_fuel. apply uml_no_deleted. congruence. }
  destruct Z as (k3 & Z). destruct fl; [eauto| |]; rewrite Z; eauto.
Qed.

(** ** Children *)
Definition child_of (self_match : bool) (f : filter) (sub_filter : option filter) (r : res (option key_node * state))
  : list key_node :=
  match r with Ok (Some c, _) => [child_filter_state self_match f c] | _ => [] end.
(** Without a filter the children returned are those that can be read, in the
    order of the list. *)
Lemma children_unfiltered fi st path sm f seq modified offs :
  (forall o, settled (kn_read fi st (mkOpt o path None sm seq modified))) ->
  exists found, read_children fi st path sm f None seq modified offs
    = Ok (flat_map (fun o => child_of sm f None (kn_read fi st (mkOpt o path None sm seq modified))) offs, found,
          flat_map (fun o => match kn_read fi st (mkOpt o path None sm seq modified) with Err => [WarningParse] | _ => [] end) offs, st).
Proof.
  intros S.
  assert (ST : forall o c st', kn_read fi st (mkOpt o path None sm seq modified) = Ok (c, st') -> st' = st).
  { intros o c st'. unfold kn_read, read_from_slice. cbn [op_offset op_filter].
    destruct (get_from _ _); cbn [ok_or]; [|easy]. destruct (kn_from_bytes _ _ _ _ _) as [[k i]| | |]; try easy.
    cbv beta iota.
    match goal with |- match ?x with _ => _ end = _ -> _ => destruct x; try easy end.
    match goal with |- match ?x with _ => _ end = _ -> _ => destruct x; try easy end. now intros [= _ <-]. }
  induction offs as [|o r (fd & IH)]; [exists false; easy|]. cbn [read_children flat_map].
  destruct (S o) as [E|((c & st') & E)]; rewrite E; cbn [child_of].
  - rewrite IH. exists fd. reflexivity.
  - pose proof (ST _ _ _ E). subst st'. destruct c as [c|]; rewrite IH; eexists; reflexivity.
Qed.

(** ** Corrupt members *)
Lemma kn_read_corrupt fi st o : ~ nk_ok (rest_at (fi_buffer fi) (op_offset o)) \/ len (fi_buffer fi) < op_offset o ->
  kn_read fi st o = Err.
Proof.
  intros H. unfold kn_read. destruct (N.le_gt_cases (op_offset o) (len (fi_buffer fi))) as [L|L].
  - rewrite get_from_rest by easy. cbn [ok_or]. cbv beta iota. unfold read_from_slice.
    rewrite kn_reject; [easy|]. destruct H as [H|H]; [easy|lia].
  - now rewrite get_from_none.
Qed.
Lemma children_logs fi path sm f sub seq modified offs : forall st cs found logs st',
  read_children fi st path sm f sub seq modified offs = Ok (cs, found, logs, st') ->
  Forall (eq WarningParse) logs.
Proof.
  induction offs as [|o r IH]; intros st cs found logs st'; cbn [read_children]; [now intros [= <- <- <- <-]|].
  destruct (kn_read _ _ _) as [[[c|] st1]| | |]; try easy.
  - destruct (read_children fi st1 path sm f sub seq modified r) as [[[[cs1 fd1] l1] st2]| | |] eqn:E; try easy.
    intros [= <- <- <- <-]. eapply IH, E.
  - intros E. eapply IH, E.
  - destruct (read_children fi st path sm f sub seq modified r) as [[[[cs1 fd1] l1] st2]| | |] eqn:E; try easy.
    intros [= <- <- <- <-]. constructor; [easy|]. eapply IH, E.
Qed.
Lemma parse_comm l : Forall (eq WarningParse) l -> l ++ [WarningParse] = WarningParse :: l.
Proof. induction 1 as [|x l <- F IH]; [easy|]. cbn. now rewrite IH. Qed.
Lemma children_skip fi path sm f sub seq modified l1 bad l2 :
  ~ nk_ok (rest_at (fi_buffer fi) bad) \/ len (fi_buffer fi) < bad -> forall st,
  read_children fi st path sm f sub seq modified (l1 ++ bad :: l2)
  = let* (cs, found, logs, st') := read_children fi st path sm f sub seq modified (l1 ++ l2) in
    Ok (cs, found, WarningParse :: logs, st').
Proof.
  intros H. induction l1 as [|o l1 IH]; intros st; cbn [app read_children].
  - rewrite kn_read_corrupt by exact H. now destruct (read_children _ _ _ _ _ _ _ _ _) as [[[[? ?] ?] ?]| | |].
  - destruct (kn_read fi st (mkOpt o path sub sm seq modified)) as [[[c|] st1]| | |]; try easy; rewrite ?IH; try easy;
      now destruct (read_children _ _ _ _ _ _ _ _ _) as [[[[? ?] ?] ?]| | |].
Qed.
Lemma kn_read_no_query fi st o p sm seq m :
  kn_read fi st (mkOpt o p (Some None) sm seq m) = kn_read fi st (mkOpt o p None sm seq m).
Proof. reflexivity. Qed.
Lemma children_no_query fi p sm f seq m offs : forall st,
  read_children fi st p sm f (Some None) seq m offs = read_children fi st p sm f None seq m offs.
Proof.
  induction offs as [|o r IH]; intros st; [easy|]. cbn [read_children]. rewrite kn_read_no_query.
  destruct (kn_read _ _ _) as [[[c|] st1]| | |]; now rewrite ?IH.
Qed.
(** The reading of one child of [k], without a filter. *)
Definition child_read (fi : file_info) (st : state) (k : key_node) (o : N) : res (option key_node * state) :=
  kn_read fi st (mkOpt o (kn_path k) None (is_match_or_desc k) None true).
Lemma sub_keys_read fi st k offs : bytes_ok (fi_buffer fi) -> is_text (kn_path k) -> st_deleted_keys st = [] ->
  kn_state k = Allocated -> 0 < kd_nsub (kn_detail k) <= 1048576 ->
  parse_sub_key_list (list_fuel fi) fi (kd_sublist (kn_detail k)) = Ok offs ->
  exists k', read_sub_keys fi st k
   = Ok (k', flat_map (fun o => child_of (is_match_or_desc k) None None (child_read fi st k o)) offs, st)
  /\ kn_logs k' = kn_logs k ++ flat_map (fun o => match child_read fi st k o with Err => [WarningParse] | _ => [] end) offs.
Proof.
  intros B T D A N P. unfold read_sub_keys, read_sub_keys_internal. rewrite A. cbn [is_allocated].
  destruct (N.ltb_spec 1048576 (kd_nsub (kn_detail k))); [lia|]. destruct (N.ltb_spec 0 (kd_nsub (kn_detail k))); [|lia].
  rewrite P. cbv beta iota zeta.
  set (sm := is_match_or_desc k) in *.
  assert (R : read_children fi st (kn_path k) sm None (if sm && f_return_sub_keys None then None else Some None) None true offs
    = read_children fi st (kn_path k) sm None None None true offs).
  { destruct (sm && _); [easy|]. apply children_no_query. }
  match goal with |- context [read_children fi st (kn_path k) sm ?a ?b ?c ?d ?e] => set (rc := read_children fi st (kn_path k) sm a b c d e) end.
  destruct (children_unfiltered fi st (kn_path k) sm None None true offs) as (fd & E).
  - intros o. apply kn_read_settled; cbn; auto.
  - assert (X : rc = read_children fi st (kn_path k) sm None None None true offs) by exact R.
    rewrite X, E. eexists. split; reflexivity.
Qed.

Definition value_read (fi : file_info) (st : state) (seq : option N) (o : N) (v : key_value) : Prop :=
  exists v0 r, kv_from_bytes (rest_at (fi_buffer fi) (fi_hbin fi + o)) (fi_hbin fi + o) seq (st_full st) = Ok (v0, r)
  /\ v = read_value_bytes fi st v0.
Lemma kv_ok_len b off seq full x : kv_from_bytes b off seq full = Ok x -> 0 < len b.
Proof.
  intros H. destruct (kv_cases b off seq full) as [((L & _) & _)|(_ & E)]; [lia|]. rewrite E in H. easy.
Qed.
Lemma loop_good fi st seq l1 vs : Forall2 (value_read fi st seq) l1 vs -> forall l2 acc,
  read_values_loop fi st seq (l1 ++ l2) acc = read_values_loop fi st seq l2 (acc ++ vs).
Proof.
  induction 1 as [|o v l1 vs (v0 & r & E & ->) F IH]; intros l2 acc; cbn [app].
  - now rewrite app_nil_r.
  - cbn [read_values_loop]. rewrite (N.add_comm o). pose proof (kv_ok_len _ _ _ _ _ E) as L. rewrite len_rest_at in L.
    destruct (get_at_ex (fi_buffer fi) (fi_hbin fi + o)) as (x & ->); [lia|].
    rewrite get_from_rest by lia. rewrite E. cbv beta iota. rewrite IH. now rewrite <- app_assoc.
Qed.
Lemma loop_bad fi st seq l1 vs bad l2 : Forall2 (value_read fi st seq) l1 vs ->
  ~ vk_ok (rest_at (fi_buffer fi) (fi_hbin fi + bad)) ->
  exists logs ok, read_values_loop fi st seq (l1 ++ bad :: l2) [] = Ok (vs, logs, ok)
  /\ (ok = true -> logs = [WarningParse]).
Proof.
  intros F NO. rewrite (loop_good _ _ _ _ _ F). cbn [app read_values_loop]. rewrite (N.add_comm bad).
  destruct (get_at _ _) eqn:G; [|do 2 eexists; split; [reflexivity|easy]].
  apply get_at_lt in G. rewrite get_from_rest by lia. rewrite kv_reject by exact NO.
  do 2 eexists. split; [reflexivity|easy].
Qed.
Lemma loop_all fi st seq offs vs : Forall2 (value_read fi st seq) offs vs ->
  read_values_loop fi st seq offs [] = Ok (vs, [], true).
Proof.
  intros F. pose proof (loop_good _ _ _ _ _ F [] []) as E. rewrite app_nil_r in E. exact E.
Qed.

(** ** Full field information *)
Definition set_full (b : bool) (s : state) : state :=
  mkState (st_root_offset s) b (st_info s) (st_hasher s) (st_deleted_keys s)
    (st_modified_keys s) (st_deleted_values s) (st_modified_values s).
Lemma enc_num b off n : bytes_ok b -> off + N.of_nat n <= len b -> enc n (num_at b off (N.of_nat n)) = bytes_at b off (N.of_nat n).
Proof.
  intros B L. rewrite num_at_le. 
  assert (E : length (bytes_at b off (N.of_nat n)) = n).
  { pose proof (len_bytes_at b off (N.of_nat n)) as X. unfold len in *. lia. }
  rewrite <- E at 1. apply enc_le. now apply bytes_ok_at.
Qed.
Lemma enc_i32_num b off : bytes_ok b -> off + 4 <= len b -> enc_i32 (i32_at b off) = bytes_at b off 4.
Proof.
  intros B L. etransitivity; [|apply (enc_num b off 4); [easy|exact L]]. unfold enc_i32. f_equal.
  pose proof (num_at_bound b off 4 B) as X. change (256 ^ 4) with 4294967296 in X. unfold i32_at.
  change (2 ^ 31)%Z with 2147483648%Z. change (2 ^ 32)%Z with 4294967296%Z. change (N.of_nat 4) with 4.
  destruct (Z.ltb_spec (Z.of_N (num_at b off 4)) 2147483648); lia.
Qed.
Lemma bytes_at_self b o n : bytes_at b o (len (bytes_at b o n)) = bytes_at b o n.
Proof.
  unfold bytes_at. rewrite to_nat_len, firstn_length. rewrite <- firstn_firstn.
  now rewrite (firstn_all (skipn _ _)).
Qed.
Lemma enc_num2 b off : bytes_ok b -> off + 2 <= len b -> enc 2 (num_at b off 2) = bytes_at b off 2.
Proof. exact (enc_num b off 2). Qed.
Lemma enc_num4 b off : bytes_ok b -> off + 4 <= len b -> enc 4 (num_at b off 4) = bytes_at b off 4.
Proof. exact (enc_num b off 4). Qed.
Lemma enc_num8 b off : bytes_ok b -> off + 8 <= len b -> enc 8 (num_at b off 8) = bytes_at b off 8.
Proof. exact (enc_num b off 8). Qed.
Definition nk_encoding (d : nk_detail) : list (list N) :=
  [enc_i32 (kd_size d); [110; 107]; enc 2 (kd_flags d); enc 8 (kd_time d); enc 4 (kd_access d);
   enc_i32 (kd_parent d); enc 4 (kd_nsub d); enc 4 (kd_nvol d); enc 4 (kd_sublist d);
   enc_i32 (kd_vollist d); enc 4 (kd_nvalues d); enc_i32 (kd_vallist d); enc 4 (kd_security d);
   enc_i32 (kd_class d); enc 4 (kd_max_name d); enc 4 (kd_max_class d); enc 4 (kd_max_value_name d);
   enc 4 (kd_max_value_data d); enc 4 (kd_work d); enc 2 (kd_name_size d); enc 2 (kd_class_size d);
   kd_slack d].
Definition bytes_of (b : list N) (t : list (N * N)) : list (list N) :=
  map (fun x => bytes_at b (fst x) (snd x)) t.
Lemma nk_full b st off path seq k r : bytes_ok b ->
  kn_from_bytes (set_full false st) b off path seq = Ok (k, r) ->
  exists k' t, kn_from_bytes (set_full true st) b off path seq = Ok (k', r)
  /\ kd_full (kn_detail k) = None /\ kd_full (kn_detail k') = Some t
  /\ kn_detail k' = kd_with_full (Some t) (kn_detail k)
  /\ k' = mkKN (kn_offset k) (kn_detail k') (kn_name k) (kn_path k) (kn_state k) (kn_seq k) (kn_updated_by k)
            (kn_values k) (kn_logs k) (kn_sub_offsets k) (kn_hash k) (kn_versions k) (kn_deleted k)
            (kn_to_return k) (kn_track k) (kn_filter k) (kn_index k)
  /\ bytes_of b t = nk_encoding (kn_detail k).
Proof.
  intros B H. destruct (kn_cases (set_full false st) b off path seq) as [(NO & name & w & NM & E)|(_ & E)]; [|congruence].
  rewrite E in H. injection H as <- <-.
  destruct (kn_read_at (set_full true st) b off path seq NO) as (name' & w' & NM' & ->).
  rewrite NM in NM'. injection NM' as <- <-. do 2 eexists. split; [reflexivity|]. split; [reflexivity|].
  split; [reflexivity|]. split; [reflexivity|]. split; [reflexivity|].
  destruct NO as (L & SZ & TG & NS). unfold nk_encoding. cbn [kn_detail kn_at nk_detail_at kd_size kd_flags kd_time
    kd_access kd_parent kd_nsub kd_nvol kd_sublist kd_vollist kd_nvalues kd_vallist kd_security kd_class kd_max_name
    kd_max_class kd_max_value_name kd_max_value_data kd_work kd_name_size kd_class_size kd_slack bytes_of map fst snd].
  rewrite !enc_i32_num by (easy || lia).
  rewrite !enc_num2, !enc_num4, !enc_num8 by (easy || lia).
  rewrite TG. now rewrite bytes_at_self.
Qed.
Definition vk_encoding (d : vk_detail) (name : list N) : list (list N) :=
  [enc_i32 (vd_size d); [118; 107]; enc 2 (vd_name_size d); enc 4 (vd_data_size_raw d);
   enc 4 (vd_data_offset d); enc 4 (vd_type_raw d); enc 2 (vd_flags_raw d); enc 2 (vd_padding d);
   name; vd_slack d; []].
Lemma vk_full b off seq v r : bytes_ok b -> kv_from_bytes b off seq false = Ok (v, r) ->
  exists v' t name, kv_from_bytes b off seq true = Ok (v', r)
  /\ vd_full (kv_detail v) = None /\ vd_full (kv_detail v') = Some t
  /\ (let d := kv_detail v in
      v' = mkKV (kv_offset v)
             (mkVD (vd_size d) (vd_name_size d) (vd_data_size_raw d) (vd_data_offset d) (vd_type_raw d)
                (vd_flags_raw d) (vd_padding d) (vd_name d) (vd_slack d) (vd_bytes d) (Some t))
             (kv_type v) (kv_flags v) (kv_data_offsets v) (kv_state v) (kv_logs v) (kv_versions v)
             (kv_hash v) (kv_seq v) (kv_updated_by v))
  /\ bytes_of b t = vk_encoding (kv_detail v) name
  /\ (if vd_name_size (kv_detail v) =? 0 then Ok ([], 0)
      else string_from_bytes (N.odd (kv_flags v)) name (vd_name_size (kv_detail v)))
     = Ok (vd_name (kv_detail v), len (kv_logs v)).
Proof.
  intros B H. destruct (kv_cases b off seq false) as [(NO & name & w & NM & E)|(_ & E)]; [|congruence].
  rewrite E in H. injection H as <- <-.
  destruct (kv_read_at b off seq true NO) as (name' & w' & NM' & ->).
  rewrite NM in NM'. injection NM' as <- <-. exists (kv_at true b off seq name w). do 2 eexists. split; [reflexivity|].
  split; [reflexivity|]. split; [reflexivity|]. split; [reflexivity|].
  destruct NO as (L & SZ & TG & NS). unfold vk_encoding. cbn [kv_detail kv_at vk_detail_at vd_size vd_name_size
    vd_data_size_raw vd_data_offset vd_type_raw vd_flags_raw vd_padding vd_name vd_slack bytes_of map fst snd kv_logs kv_flags].
  split.
  - rewrite !enc_i32_num by (easy || lia).
    rewrite !enc_num2, !enc_num4 by (easy || lia).
    rewrite TG. now rewrite bytes_at_self.
  - unfold kv_name_at in NM. rewrite NM. rewrite len_repeat. do 2 f_equal. lia.
Qed.

(** ** Decoding from an offset *)
Lemma decode_utf16_offset b off : off <= len b ->
  decode Utf16 (CBinary b) off = decode Utf16 (CBinary (rest_at b off)) 0.
Proof.
  intros L. cbn [decode decode_bytes]. rewrite get_from_rest by easy.
  rewrite (get_from_rest (rest_at b off) 0) by lia. rewrite rest_at_0, len_rest_at. now rewrite N.sub_0_r.
Qed.
Lemma decode_utf16_total b off : exists c l, decode Utf16 (CBinary b) off = Ok (c, l).
Proof.
  cbn [decode decode_bytes]. destruct (get_from b off) as [s|] eqn:G; [|eauto].
  apply get_from_some in G as (L & _ & E & _).
  destruct (utf16_string_total s (len b - off)) as (t & w & ->); [lia|]. eauto.
Qed.

Section Shift.
  Context (pad s : list N).
  Lemma get_at_shift i : get_at (pad ++ s) (len pad + i) = get_at s i.
  Proof.
    unfold get_at. rewrite len_app. destruct (N.ltb_spec i (len s)), (N.ltb_spec (len pad + i) (len pad + len s)); try lia; [|easy].
    rewrite nth_error_app2; [f_equal; unfold len in *; lia|unfold len; lia].
  Qed.
  Lemma get_range_shift x y : get_range (pad ++ s) (len pad + x) (len pad + y) = get_range s x y.
  Proof.
    unfold get_range. rewrite len_app.
    replace (len pad + x <=? len pad + y) with (x <=? y) by lia.
    replace (len pad + y <=? len pad + len s) with (y <=? len s) by lia.
    replace (len pad + y - (len pad + x)) with (y - x) by lia.
    rewrite skipn_app, skipn_all2 by (unfold len; lia). cbn [app].
    replace (N.to_nat (len pad + x) - length pad)%nat with (N.to_nat x) by (unfold len; lia). reflexivity.
  Qed.
  Lemma read_u16_shift i : read_u16 (pad ++ s) (len pad + i) = read_u16 s i.
  Proof. unfold read_u16. now rewrite <- N.add_assoc, get_range_shift. Qed.
  Lemma lz_tokens_shift n : forall a b tagb si dest out,
    lz_tokens n (pad ++ s) (len pad) a b tagb si dest out = lz_tokens n s 0 a b tagb si dest out.
  Proof.
    induction n as [|n IH]; intros; cbn [lz_tokens]; [easy|]. destruct (b <=? si); [easy|].
    destruct (N.land tagb 1 =? 0).
    - rewrite get_at_shift, N.add_0_l. destruct (get_at s si); cbn [or_panic]; [|easy]. apply IH.
    - destruct (get_at COMPRESSION_BITS (dest - a)); cbn [or_panic]; [|easy].
      rewrite (N.add_comm si), read_u16_shift, N.add_0_r. destruct (read_u16 s si); try easy.
      destruct (_ <? _); [easy|]. destruct (lz_copy _ _ _ _) as [[? ?]| | |]; try easy; apply IH.
  Qed.
  Lemma lz_chunk_shift fuel : forall a b si dest out,
    lz_chunk fuel (pad ++ s) (len pad) a b si dest out = lz_chunk fuel s 0 a b si dest out.
  Proof.
    induction fuel as [|fuel IH]; intros; cbn [lz_chunk]; [easy|]. destruct (si <? b); [|easy].
    rewrite get_at_shift, N.add_0_l. destruct (get_at s si); cbn [or_panic]; [|easy].
    rewrite lz_tokens_shift. destruct (lz_tokens _ _ _ _ _ _ _ _ _) as [[[? ?] ?]| | |]; try easy; apply IH.
  Qed.
  Lemma lz_chunk_mono f : forall f' src soff a b si dest out, (f <= f')%nat ->
    lz_chunk f src soff a b si dest out <> OutOfFuel ->
    lz_chunk f' src soff a b si dest out = lz_chunk f src soff a b si dest out.
  Proof.
    induction f as [|f IH]; intros f' src soff a b si dest out L NF; [easy|].
    destruct f' as [|f']; [lia|]. cbn [lz_chunk] in *. destruct (si <? b); [|easy].
    destruct (or_panic _); try easy. destruct (lz_tokens _ _ _ _ _ _ _ _ _) as [[[? ?] ?]| | |]; try easy.
    apply IH; [lia|easy].
  Qed.
  Lemma lz_loop_shift f : forall si dest out,
    lz_loop f (pad ++ s) (len pad) (len (pad ++ s)) si dest out = lz_loop f s 0 (len s) si dest out.
  Proof.
    induction f as [|f IH]; intros; cbn [lz_loop]; [easy|]. rewrite len_app.
    replace (si + len pad <? len pad + len s) with (si + 0 <? len s) by lia.
    destruct (si + 0 <? len s); [|easy].
    rewrite (N.add_comm si (len pad)), read_u16_shift, N.add_0_r. destruct (read_u16 s si); try easy.
    destruct (_ =? 0); [easy|]. destruct (_ =? 0).
    - rewrite <- N.add_assoc, get_range_shift, N.add_0_l. destruct (get_range _ _ _); cbn [or_panic]; [|easy].
      rewrite <- len_app. apply IH.
    - rewrite lz_chunk_shift.
      rewrite (lz_chunk_mono (S (length s)) (S (length (pad ++ s)))).
      + destruct (lz_chunk _ _ _ _ _ _ _ _) as [[[? ?] ?]| | |]; try easy. rewrite <- len_app. apply IH.
      + rewrite app_length. lia.
      + apply lz_chunk_no_fuel; unfold len; lia.
  Qed.
  Lemma lz_loop_mono f : forall f' src soff n si dest out, (f <= f')%nat ->
    lz_loop f src soff n si dest out <> OutOfFuel ->
    lz_loop f' src soff n si dest out = lz_loop f src soff n si dest out.
  Proof.
    induction f as [|f IH]; intros f' src soff n si dest out L NF; [easy|].
    destruct f' as [|f']; [lia|]. cbn [lz_loop] in *. destruct (_ <? n); [|easy].
    destruct (read_u16 _ _); try easy. destruct (_ =? 0); [easy|]. destruct (_ =? 0).
    - destruct (or_panic _); try easy. apply IH; [lia|easy].
    - destruct (lz_chunk _ _ _ _ _ _ _ _) as [[[? ?] ?]| | |]; try easy. apply IH; [lia|easy].
  Qed.
  Lemma lznt1_shift : decode_lznt1 (pad ++ s) (len pad) (len (pad ++ s)) = decode_lznt1 s 0 (len s).
  Proof.
    unfold decode_lznt1. rewrite lz_loop_shift. apply lz_loop_mono.
    - rewrite app_length. lia.
    - apply lz_loop_no_fuel; unfold len; lia.
  Qed.
End Shift.
Lemma decode_lznt1_offset b off : off <= len b ->
  decode Lznt1 (CBinary b) off = decode Lznt1 (CBinary (rest_at b off)) 0.
Proof.
  intros L. cbn [decode decode_bytes].
  assert (E : b = firstn (N.to_nat off) b ++ rest_at b off) by (symmetry; apply firstn_skipn).
  assert (F : off = len (firstn (N.to_nat off) b)) by (rewrite len_firstn; lia).
  pose proof (lznt1_shift (firstn (N.to_nat off) b) (rest_at b off)) as X. rewrite <- E, <- F in X. now rewrite X.
Qed.

(** ** Names *)
Lemma stored_name_text a name text : stored_name a name text ->
  exists s, string_from_bytes a name (len name) = Ok (s, 0) /\ read_utf8 s = Some text.
Proof.
  destruct a; intros S.
  - destruct S as (B & ->). exists (utf8 name). split; [easy|]. apply read_utf8_utf8. now apply byte_scalar.
  - destruct S as (T & Z & ->).
    destruct (utf16_string_text text [] (len (utf16le text))) as (s & E & R); [easy|easy|rewrite app_nil_r; lia|left; lia|].
    rewrite app_nil_r in E. now exists s.
Qed.
Lemma land_pow2 n k : negb (N.land n (2 ^ k) =? 0) = N.testbit n k.
Proof.
  destruct (N.testbit n k) eqn:T.
  - apply negb_true_iff, N.eqb_neq. intros E. apply (f_equal (fun x => N.testbit x k)) in E.
    rewrite N.land_spec, T, N.pow2_bits_true, N.bits_0 in E. easy.
  - apply negb_false_iff, N.eqb_eq. apply N.bits_inj. intros j. rewrite N.land_spec, N.bits_0, N.pow2_bits_eqb.
    destruct (N.eqb_spec k j) as [->|]; [now rewrite T|apply andb_false_r].
Qed.
Lemma compressed_flag raw : has_flag (key_flags raw) 0x20 = N.testbit raw 5.
Proof.
  unfold has_flag, key_flags. change 0x20 with (2 ^ 5). rewrite <- N.land_assoc.
  change (N.land KEY_FLAGS_ALL (2 ^ 5)) with (2 ^ 5). apply land_pow2.
Qed.
Lemma root_flag raw : has_flag (key_flags raw) 4 = N.testbit raw 2.
Proof.
  unfold has_flag, key_flags. change 4 with (2 ^ 2). rewrite <- N.land_assoc.
  change (N.land KEY_FLAGS_ALL (2 ^ 2)) with (2 ^ 2). apply land_pow2.
Qed.
Lemma nk_named st d name text rest off path seq : nk_fits d name ->
  stored_name (N.testbit (kd_flags d) 5) name text ->
  exists k, kn_from_bytes st (nk_bytes d name ++ rest) off path seq = Ok (k, rest)
  /\ kn_detail k = kd_with_full (if st_full st then Some (nk_table d) else None) d
  /\ read_utf8 (kn_name k) = Some text /\ kn_path k = path ++ [92] ++ kn_name k /\ kn_offset k = off
  /\ kn_state k = Allocated /\ kn_values k = []
  /\ kn_logs k = (if N.land (kd_flags d) 0x53FF =? kd_flags d then [] else [WarningUnrecognizedBitflag]).
Proof.
  intros F S. apply stored_name_text in S as (s & S & R). rewrite <- compressed_flag in S.
  destruct (nk_round_trip st d name rest off path seq _ _ F S) as (k & E & D & N & P & O & A & Q & V & _ & L & _).
  exists k. rewrite E. split; [easy|]. split; [easy|]. split; [now rewrite N|]. split; [now rewrite P, N|].
  split; [easy|]. split; [easy|]. split; [easy|]. rewrite L. cbn [N.to_nat repeat]. rewrite app_nil_r. reflexivity.
Qed.
Lemma shown_data_type raw : data_type_of raw = shown_type raw.
Proof.
  unfold data_type_of, shown_type. change 0xFFF with (N.ones 12). rewrite N.land_ones. change (2 ^ 12) with 4096.
  set (t := raw mod 4096). unfold known_type. cbv zeta. change 0xB with 11. change 0x10 with 16. change 0x101 with 257. change 0x11F with 287.
  destruct ((t <=? 11) || (t =? 16) || (257 <=? t) && (t <=? 287)) eqn:K; [reflexivity|].
  destruct (N.eqb_spec t 999) as [E|]; [|reflexivity]. now rewrite E.
Qed.
Lemma vk_named d name text rest off seq full : vk_fits d name -> vd_flags_raw d < 4 ->
  stored_name (N.testbit (vd_flags_raw d) 0) name text ->
  exists v, kv_from_bytes (vk_bytes d name ++ rest) off seq full = Ok (v, rest)
  /\ read_utf8 (vd_name (kv_detail v)) = Some text
  /\ kv_detail v = mkVD (vd_size d) (vd_name_size d) (vd_data_size_raw d) (vd_data_offset d) (vd_type_raw d)
                     (vd_flags_raw d) (vd_padding d) (vd_name (kv_detail v)) (vd_slack d) None
                     (if full then Some (vk_table d) else None)
  /\ kv_offset v = off /\ kv_type v = shown_type (vd_type_raw d) /\ kv_flags v = vd_flags_raw d
  /\ kv_state v = Allocated /\ kv_logs v = [].
Proof.
  intros F L4 S. apply stored_name_text in S as (s & S & R).
  assert (VF : value_flags (vd_flags_raw d) = vd_flags_raw d) by (unfold value_flags; destruct (N.ltb_spec (vd_flags_raw d) 4); [easy|lia]).
  assert (X : (if vd_name_size d =? 0 then Ok ([], 0)
   else string_from_bytes (N.odd (value_flags (vd_flags_raw d))) name (len name)) = Ok (s, 0)).
  { rewrite VF, <- N.bit0_odd. destruct (N.eqb_spec (vd_name_size d) 0) as [Z|]; [|exact S].
    destruct F as (_ & _ & _ & _ & _ & _ & _ & NS & _). rewrite Z in NS. symmetry in NS. apply len_0 in NS. subst name.
    destruct (N.testbit _ _); cbn in S; now injection S as <-. }
  eexists. rewrite (vk_round_trip d name rest off seq full _ _ F X). split; [reflexivity|].
  cbn [kv_detail vd_name kv_offset kv_type kv_flags kv_state kv_logs]. rewrite <- shown_data_type. repeat split; [easy|easy].
Qed.
