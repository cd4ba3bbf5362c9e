(** Proofs about the application of transaction logs. *)
From Verif Require Import Base BaseFacts LayoutSpec LayoutFacts Util UtilSpec UtilText BaseBlock Marvin
  HeaderFacts Types Value Node Recover Parser TxLog TxSpec TxParse.

(** ** Bytes *)
Lemma nth_skipn {A} n i (l : list A) d : nth i (skipn n l) d = nth (n + i) l d.
Proof.
  revert l. induction n as [|n IH]; intros [|x l]; cbn; try reflexivity.
  - now destruct i.
  - apply IH.
Qed.
Lemma nth_firstn {A} n i (l : list A) d : (i < n)%nat -> nth i (firstn n l) d = nth i l d.
Proof.
  revert i l. induction n as [|n IH]; intros i [|x l] H; cbn; try lia; [now destruct i|].
  destruct i; [reflexivity|]. apply IH. lia.
Qed.
Lemma bytes_at_ext b b' off n : off + n <= len b -> off + n <= len b' ->
  (forall i, off <= i < off + n -> nth (N.to_nat i) b 0 = nth (N.to_nat i) b' 0) ->
  bytes_at b off n = bytes_at b' off n.
Proof.
  intros L L' H. apply nth_ext with (d := 0) (d' := 0).
  - pose proof (len_bytes_at b off n). pose proof (len_bytes_at b' off n). unfold len in *. lia.
  - intros i I. assert (I' : (i < N.to_nat n)%nat).
    { pose proof (len_bytes_at b off n). unfold len in *. lia. }
    unfold bytes_at. rewrite !nth_firstn, !nth_skipn by exact I'.
    replace (N.to_nat off + i)%nat with (N.to_nat (off + N.of_nat i)) by lia. apply H. lia.
Qed.
Lemma num_at_ext b b' off n : off + n <= len b -> off + n <= len b' ->
  (forall i, off <= i < off + n -> nth (N.to_nat i) b 0 = nth (N.to_nat i) b' 0) ->
  num_at b off n = num_at b' off n.
Proof. intros. unfold num_at. now rewrite (bytes_at_ext b b'). Qed.
Lemma header_checksum_ext b b' : 508 <= len b -> 508 <= len b' ->
  (forall i, i < 508 -> nth (N.to_nat i) b 0 = nth (N.to_nat i) b' 0) ->
  header_checksum b = header_checksum b'.
Proof.
  intros L L' H. unfold header_checksum.
  replace (xor_of_dwords b) with (xor_of_dwords b'); [reflexivity|].
  unfold xor_of_dwords. f_equal. apply map_ext_in. intros i I. apply in_seq in I.
  symmetry. apply num_at_ext; try lia. intros. apply H. lia.
Qed.

Lemma overwrite_some b dst src b' : overwrite b dst src = Some b' ->
  dst + len src <= len b /\ len b' = len b /\ bytes_at b' dst (len src) = src
  /\ forall i, nth (N.to_nat i) b' 0
       = if (dst <=? i) && (i <? dst + len src) then nth (N.to_nat (i - dst)) src 0
         else nth (N.to_nat i) b 0.
Proof.
  unfold overwrite. destruct (N.leb_spec (dst + len src) (len b)); [|discriminate].
  intros [= <-].
  assert (F : length (firstn (N.to_nat dst) b) = N.to_nat dst).
  { rewrite firstn_length. unfold len in *. lia. }
  split; [assumption|]. split; [|split].
  - rewrite !len_app, len_firstn, len_skipn. lia.
  - unfold bytes_at. rewrite <- F at 1. rewrite skipn_app, skipn_all, Nat.sub_diag.
    cbn [app skipn]. rewrite to_nat_len, firstn_app, firstn_all, Nat.sub_diag. cbn [firstn].
    apply app_nil_r.
  - intros i. destruct (N.leb_spec dst i); cbn [andb].
    + rewrite app_nth2 by lia. rewrite F.
      destruct (N.ltb_spec i (dst + len src)).
      * rewrite app_nth1 by (unfold len in *; lia). f_equal. lia.
      * rewrite app_nth2 by (unfold len in *; lia). rewrite nth_skipn. f_equal. unfold len in *. lia.
    + rewrite app_nth1 by lia. apply nth_firstn. lia.
Qed.
Lemma overwrite_none b dst src : overwrite b dst src = None -> len b < dst + len src.
Proof. unfold overwrite. destruct (N.leb_spec (dst + len src) (len b)); [discriminate|auto]. Qed.
Lemma overwrite_fit b dst src : dst + len src <= len b -> exists b', overwrite b dst src = Some b'.
Proof. unfold overwrite. destruct (N.leb_spec (dst + len src) (len b)); [eauto|lia]. Qed.

Lemma page_byte_spec hbin i pg :
  page_byte hbin i pg
  = if (hbin + dp_offset pg <=? i) && (i <? hbin + dp_offset pg + len (dp_bytes pg))
    then Some (nth (N.to_nat (i - (hbin + dp_offset pg))) (dp_bytes pg) 0) else None.
Proof.
  unfold page_byte. destruct (N.leb_spec (hbin + dp_offset pg) i); cbn [andb]; [|reflexivity].
  destruct (N.ltb_spec i (hbin + dp_offset pg + len (dp_bytes pg))).
  - apply nth_error_nth'. unfold len in *. lia.
  - apply nth_error_None. unfold len in *. lia.
Qed.
Lemma apply_pages_ok hbin pages b b' : apply_pages hbin pages b = Ok b' ->
  len b' = len b
  /\ Forall (fun p => hbin + dp_offset p + len (dp_bytes p) <= len b) pages
  /\ forall i, nth (N.to_nat i) b' 0 = byte_after hbin i pages (nth (N.to_nat i) b 0).
Proof.
  revert b. induction pages as [|pg pages IH]; cbn [apply_pages]; intros b.
  - intros [= <-]. repeat split; constructor.
  - destruct (overwrite b (dp_offset pg + hbin) (dp_bytes pg)) as [b1|] eqn:E; [|discriminate].
    cbv [ok_or]. cbv beta iota. intros H. apply overwrite_some in E as (F & L & _ & E).
    apply IH in H as (L2 & F2 & H). rewrite L in *. split; [assumption|].
    split; [constructor; [lia|assumption]|].
    intros i. rewrite H. unfold byte_after. cbn [fold_left]. f_equal.
    rewrite E, page_byte_spec. rewrite (N.add_comm (dp_offset pg) hbin).
    now destruct ((hbin + dp_offset pg <=? i) && _).
Qed.
Lemma apply_pages_fit hbin pages b :
  Forall (fun p => hbin + dp_offset p + len (dp_bytes p) <= len b) pages ->
  exists b', apply_pages hbin pages b = Ok b'.
Proof.
  revert b. induction pages as [|pg pages IH]; cbn [apply_pages]; intros b F; [eauto|].
  apply Forall_cons_iff in F as [F1 F2].
  destruct (overwrite_fit b (dp_offset pg + hbin) (dp_bytes pg)) as [b1 E]; [lia|].
  rewrite E. cbv [ok_or]. cbv beta iota. apply IH. apply overwrite_some in E as (_ & -> & _). exact F2.
Qed.
Lemma apply_pages_cases hbin pages b :
  apply_pages hbin pages b = Err \/ exists b', apply_pages hbin pages b = Ok b'.
Proof.
  revert b. induction pages as [|pg pages IH]; cbn [apply_pages]; intros b; [eauto|].
  destruct (overwrite _ _ _); cbv [ok_or]; cbv beta iota; auto.
Qed.

(** ** What the analysis leaves alone *)
Definition same_hive (p p' : parser) : Prop :=
  ps_file p' = ps_file p /\ ps_base_block p' = ps_base_block p /\ ps_recover p' = ps_recover p.
Lemma same_hive_trans p q r : same_hive p q -> same_hive q r -> same_hive p r.
Proof. unfold same_hive. intuition congruence. Qed.
Lemma init_root_same p p' : init_root p = Ok p' -> same_hive p p'.
Proof.
  unfold init_root. destruct (get_from (ps_buffer p) (ps_hbin p)); [|discriminate].
  cbv [ok_or]. cbv beta iota. destruct (hbin_from_bytes _ _) as [[h r]| | |]; try discriminate.
  destruct (kn_read _ _ _) as [[root st]| | |]; try discriminate. intros [= <-]. now repeat split.
Qed.
Lemma get_latest_same order fuel fi seq p items l p' logs :
  get_latest_reg_items order fuel fi seq p items = Ok (l, p', logs) -> same_hive p p'.
Proof.
  unfold get_latest_reg_items. destruct (init_root p) as [p1| | |] eqn:E; try discriminate.
  apply init_root_same in E.
  destruct (iterate _ _ _ _ _ _); try discriminate.
  destruct (handle_keys _ _ _ _ _ _ _) as [[[[[? ?] ?] ?] ?]| | |]; try discriminate.
  destruct (add_all _ _ _ _) as [[? ?]| | |]; try discriminate.
  destruct (add_all _ _ _ _) as [[? ?]| | |]; try discriminate.
  destruct (add_all _ _ _ _) as [[? ?]| | |]; try discriminate.
  intros [= _ <- _]. destruct E as (? & ? & ?). now repeat split.
Qed.
Lemma analyze_same order fuel fi seq p items i' p' :
  analyze_entry order fuel fi seq p items = Ok (i', p') -> same_hive p p'.
Proof.
  unfold analyze_entry. destruct (ps_recover p) eqn:R; [|intros [= _ <-]; now repeat split].
  destruct (get_latest_reg_items _ _ _ _ _ _) as [[[l q] logs]| | |] eqn:E; try discriminate.
  - apply get_latest_same in E. intros [= _ <-]. destruct E as (? & ? & ?).
    repeat split; assumption.
  - intros [= _ <-]. now repeat split.
Qed.
Lemma analyze_off order fuel fi seq p items : ps_recover p = false ->
  analyze_entry order fuel fi seq p items = Ok (items, p).
Proof. unfold analyze_entry. now intros ->. Qed.
Lemma get_reg_items_same fuel p n i p' : get_reg_items fuel p n = Ok (i, p') -> same_hive p p'.
Proof.
  unfold get_reg_items. destruct (ps_recover p); [|intros [= _ <-]; now repeat split].
  destruct (init_root p) eqn:E; try discriminate. apply init_root_same in E.
  destruct (iterate _ _ _ _ _ _); try discriminate. destruct (insert_keys _ _ _); try discriminate.
  now intros [= _ <-].
Qed.

(** ** The run of entries that is applied *)

Fixpoint chain (n : N) (l : list log_entry) : Prop :=
  match l with
  | [] => True
  | e :: r => (n = 0 \/ le_seq e = n + 1) /\ chain (le_seq e) r
  end.
Definition stops (n : N) (l rest : list log_entry) : Prop :=
  match rest with
  | [] => True
  | e :: _ => ~ size_ok e \/ ~ chain n (l ++ [e])
  end.
Fixpoint last_from (n : N) (l : list log_entry) : N :=
  match l with [] => n | e :: r => last_from (le_seq e) r end.

Lemma chain_consecutive l : Forall (fun e => 0 < le_seq e) l -> (chain 0 l <-> consecutive l).
Proof.
  intros P. destruct l as [|e l]; [easy|]. cbn [chain].
  apply Forall_cons_iff in P as [P0 P].
  enough (chain (le_seq e) l <-> consecutive (e :: l)) by (split; [intros [_ H0]|]; tauto).
  clear -P P0. revert e P0. induction P as [|f l Hf _ IH]; intros e P0; [easy|].
  cbn [chain consecutive]. rewrite IH by exact Hf. cbn [consecutive].
  split; intros [A B]; (split; [|exact B]).
  - destruct A; [lia|assumption].
  - now right.
Qed.
Lemma last_from_last l n : last_from n l = List.last (map le_seq l) n.
Proof.
  revert n. induction l as [|e l IH]; intros; [reflexivity|]. cbn [last_from map]. rewrite IH.
  destruct l as [|f l]; [reflexivity|]. cbn [map].
  change (last (le_seq e :: le_seq f :: map le_seq l) n) with (last (le_seq f :: map le_seq l) n).
  generalize (le_seq f). clear. revert n. induction (map le_seq l) as [|x m IHm]; intros; [reflexivity|].
  change (last (n0 :: x :: m) (le_seq e)) with (last (x :: m) (le_seq e)).
  change (last (n0 :: x :: m) n) with (last (x :: m) n). apply IHm.
Qed.

Lemma fresh_cons sec e es : fresh sec (e :: es)
  = if le_valid_hashes e then (if sec <=? le_seq e then e :: fresh sec es else fresh sec es) else [].
Proof. unfold fresh. cbn [trusted]. destruct (le_valid_hashes e); reflexivity. Qed.
Lemma fresh_ge sec es : Forall (fun e => sec <= le_seq e) (fresh sec es).
Proof.
  unfold fresh. apply Forall_forall. intros e I. apply filter_In in I as [_ I]. lia.
Qed.

Lemma nth_grown b k i : nth i (b ++ repeat 0 k) 0 = nth i b 0.
Proof.
  destruct (Nat.lt_ge_cases i (length b)) as [H|H]; [now apply app_nth1|].
  rewrite app_nth2, (nth_overflow b) by exact H.
  destruct (nth_in_or_default (i - length b) (repeat 0 k) 0) as [I|E]; [|exact E].
  now apply repeat_spec in I.
Qed.
Lemma byte_after_app hbin i p q d :
  byte_after hbin i (p ++ q) d = byte_after hbin i q (byte_after hbin i p d).
Proof. unfold byte_after. apply fold_left_app. Qed.

Lemma run_exists es n : exists l rest,
  es = l ++ rest /\ Forall size_ok l /\ chain n l /\ stops n l rest.
Proof.
  revert n. induction es as [|f es IH]; intros n.
  { exists [], []. cbn. repeat split; constructor. }
  destruct (N.eq_dec (le_hbins_size f mod 4096) 0) as [Z|Z].
  2:{ exists [], (f :: es). cbn [app stops chain]. repeat split; [constructor|now left]. }
  assert (D : (n = 0 \/ le_seq f = n + 1) \/ ~ (n = 0 \/ le_seq f = n + 1)) by lia.
  destruct D as [D|D].
  - destruct (IH (le_seq f)) as (l & rest & -> & A & B & C). exists (f :: l), rest.
    cbn [app chain]. repeat split; [constructor; assumption|exact D|exact B|].
    destruct rest as [|g rest]; [exact I|]. cbn [stops app chain] in *. tauto.
  - exists [], (f :: es). cbn [app stops chain]. repeat split; [constructor|]. right. tauto.
Qed.

Lemma overlaid_nil hbin hbins b : overlaid hbin hbins [] b b.
Proof. split; [cbn; lia|reflexivity]. Qed.

Section Update.
  Context (order : reg_items -> reg_items) (fuel : nat) (sec hbins : N).
  Hypothesis Hsec : 0 < sec.

  Definition fate (n : N) (p : parser) (es : list log_entry) (r : res (N * reg_items * parser)) : Prop :=
    exists l rest, fresh sec es = l ++ rest /\ Forall size_ok l /\ chain n l /\ stops n l rest
    /\ ((r = Err /\ ~ fits (ps_hbin p) hbins (len (ps_buffer p)) l)
        \/ (exists items' p', r = Ok (last_from n l, items', p')
            /\ fits (ps_hbin p) hbins (len (ps_buffer p)) l
            /\ overlaid (ps_hbin p) hbins l (ps_buffer p) (ps_buffer p')
            /\ ps_hbin p' = ps_hbin p /\ ps_base_block p' = ps_base_block p
            /\ ps_recover p' = ps_recover p)).

  Ltac done_nil := eexists _, _; split; [reflexivity|]; split; [exact I|]; split; [apply overlaid_nil|];
    repeat split.
  Lemma update_entries_fate es n p items r :
    Forall (fun e => u32 (le_seq e)) es -> (n = 0 \/ sec <= n /\ u32 n) ->
    update_entries order fuel sec hbins es n p items = r ->
    r <> Panic -> r <> OutOfFuel -> fate n p es r.
  Proof.
    unfold u32. change (2 ^ 32) with 4294967296.
    revert n p items r. induction es as [|e es IH]; intros n p items r U Hn E NP NO.
    { cbn in E. subst r. exists [], []. cbn. repeat split; [constructor|].
      right. now done_nil. }
    apply Forall_cons_iff in U as [U0 U]. cbv beta in U0. cbn [update_entries] in E. unfold fate. rewrite fresh_cons.
    destruct (le_valid_hashes e) eqn:V.
    2:{ subst r. exists [], []. cbn [app]. repeat split; [constructor|]. right. now done_nil. }
    destruct (N.ltb_spec (le_seq e) sec) as [S|S].
    { destruct (N.leb_spec sec (le_seq e)); [lia|].
      exact (IH n (ps_log WarningTransactionLog p) items r U Hn E NP NO). }
    destruct (N.leb_spec sec (le_seq e)); [|lia].
    destruct (N.eqb_spec (le_hbins_size e mod 4096) 0) as [Z|Z]; cbn [negb] in E.
    2:{ subst r. exists [], (e :: fresh sec es). cbn [app]. repeat split; [constructor|now left|].
        right. now done_nil. }
    destruct (negb (n =? 0) && negb (le_seq e =? w32 (n + 1))) eqn:Q.
    { subst r. exists [], (e :: fresh sec es). cbn [app]. repeat split; [constructor| |].
      - right. cbn [app chain]. intros [[->|A] _]; [discriminate|].
        unfold w32 in Q. rewrite N.mod_small in Q by lia.
        rewrite A, N.eqb_refl, andb_comm in Q. discriminate.
      - right. now done_nil. }
    assert (C : n = 0 \/ le_seq e = n + 1).
    { destruct (N.eqb_spec n 0); [now left|]. cbn [negb andb] in Q. right.
      destruct (N.eqb_spec (le_seq e) (w32 (n + 1))) as [A|]; [|discriminate].
      destruct Hn as [|[Hn1 Hn2]]; [lia|]. unfold w32 in *.
      destruct (N.eq_dec (n + 1) 4294967296) as [W|W].
      - rewrite W in A. change (4294967296 mod 4294967296) with 0 in A. lia.
      - rewrite N.mod_small in A by lia. exact A. }
    clear Q.
    set (buf := if hbins <? le_hbins_size e
                then ps_buffer p ++ repeat 0 (N.to_nat (le_hbins_size e - hbins))
                else ps_buffer p) in *.
    assert (LB : len buf = len (ps_buffer p) + (le_hbins_size e - hbins)).
    { subst buf. destruct (N.ltb_spec hbins (le_hbins_size e)); [rewrite len_app, len_repeat|]; lia. }
    assert (NB : forall i, nth i buf 0 = nth i (ps_buffer p) 0).
    { intros i. subst buf. destruct (hbins <? le_hbins_size e); [apply nth_grown|reflexivity]. }
    destruct (apply_pages (ps_hbin p) (le_pages e) buf) as [b| | |] eqn:A.
    3,4: exfalso; subst r; destruct (apply_pages_cases (ps_hbin p) (le_pages e) buf) as [W|[? W]]; congruence.
    2:{ subst r. destruct (run_exists (fresh sec es) (le_seq e)) as (l & rest & F & A1 & A2 & A3).
        exists (e :: l), rest. rewrite F. repeat split; [constructor; assumption|exact C|exact A2| |].
        - destruct rest as [|g rest]; [exact I|]. cbn [stops app chain] in *. tauto.
        - left. split; [reflexivity|]. cbn [fits]. rewrite <- LB. intros [K _].
          apply apply_pages_fit in K as [b' K]. congruence. }
    cbv beta iota in E.
    destruct (analyze_entry _ _ _ _ _ _) as [[it q]| | |] eqn:B; [| |subst r; congruence|subst r; congruence].
    2:{ exfalso. clear -B. unfold analyze_entry in B.
        destruct (ps_recover _); [|discriminate].
        destruct (get_latest_reg_items _ _ _ _ _ _) as [[[? ?] ?]| | |]; discriminate. }
    cbv beta iota in E. apply analyze_same in B as (B1 & B2 & B3).
    apply IH in E; [|exact U|right; split; assumption|exact NP|exact NO].
    destruct E as (l & rest & F & A1 & A2 & A3 & E).
    assert (Q1 : ps_hbin q = ps_hbin p) by (unfold ps_hbin; rewrite B1; reflexivity).
    assert (Q2 : ps_buffer q = b) by (unfold ps_buffer; rewrite B1; reflexivity).
    apply apply_pages_ok in A as (L1 & F1 & A). rewrite Q1, Q2 in E. rewrite L1, LB in E.
    exists (e :: l), rest. rewrite F. repeat split; [constructor; assumption|exact C|exact A2| |].
    { destruct rest as [|g rest]; [exact I|]. cbn [stops app chain] in *. tauto. }
    cbn [fits last_from]. rewrite LB in F1.
    destruct E as [[-> E]|(it' & p' & -> & E1 & E2 & E3 & E4 & E5)]; [left|right].
    - split; [reflexivity|]. tauto.
    - exists it', p'. split; [reflexivity|]. split; [split; assumption|].
      split; [|rewrite E3, E4, E5, B2, B3; repeat split].
      destruct E2 as [G1 G2]. split; [rewrite G1, L1, LB; cbn [growth fold_right];
        change (fold_right (fun e0 n0 => le_hbins_size e0 - hbins + n0) 0 l) with (growth hbins l); lia|].
      intros i I. rewrite G2 by exact I. rewrite A, NB. cbn [all_pages flat_map].
      now rewrite byte_after_app.
  Qed.
End Update.

(** ** Parsed logs hold 32-bit sequence numbers *)
Lemma take_bytes k i a r : bytes_ok i -> take k i = Some (a, r) -> bytes_ok a /\ bytes_ok r.
Proof. intros B E. apply take_some in E as [-> _]. now apply bytes_ok_app in B. Qed.
Lemma le_u32_bytes i x r : bytes_ok i -> le_u32 i = Some (x, r) -> u32 x /\ bytes_ok r.
Proof.
  unfold le_u32. intros B. destruct (take 4 i) as [[a b]|] eqn:E; [|discriminate]. intros [= <- <-].
  pose proof (take_bytes _ _ _ _ B E) as [B1 B2]. apply take_some in E as [_ E].
  split; [|exact B2]. pose proof (le_bound a B1) as K. unfold u32, len in *.
  replace (length a) with 4%nat in K by lia. exact K.
Qed.
Lemma le_u64_bytes i x r : bytes_ok i -> le_u64 i = Some (x, r) -> bytes_ok r.
Proof.
  unfold le_u64. intros B. destruct (take 8 i) as [[a b]|] eqn:E; [|discriminate]. intros [= <- <-].
  now apply take_bytes in E.
Qed.
Lemma tag_bytes t i x r : bytes_ok i -> tag t i = Some (x, r) -> bytes_ok r.
Proof. intros B E. apply tag_some in E as [-> _]. now apply bytes_ok_app in B. Qed.
Lemma count_nat_bytes {A} (p : list N -> option (A * list N)) n i xs r :
  (forall i x r, bytes_ok i -> p i = Some (x, r) -> bytes_ok r) ->
  bytes_ok i -> count_nat p n i = Some (xs, r) -> bytes_ok r.
Proof.
  intros P. revert i xs. induction n as [|n IH]; cbn; intros i xs B.
  - now intros [= _ <-].
  - destruct (p i) as [[x i1]|] eqn:E; [|easy]. apply P in E; [|exact B].
    destruct (count_nat p n i1) as [[ys i2]|] eqn:F; [|easy]. intros [= _ <-]. eauto.
Qed.
Lemma take_pages_bytes refs i ps r : bytes_ok i -> take_pages refs i = Some (ps, r) ->
  bytes_ok r /\ Forall (fun p => bytes_ok (dp_bytes p)) ps.
Proof.
  revert i ps. induction refs as [|[o s] refs IH]; cbn; intros i ps B.
  - intros [= <- <-]. split; [exact B|constructor].
  - destruct (take s i) as [[b i1]|] eqn:E; [|easy]. apply take_bytes in E as [B1 B2]; [|exact B].
    destruct (take_pages refs i1) as [[qs i2]|] eqn:F; [|easy]. intros [= <- <-].
    apply IH in F as [F1 F2]; [|exact B2]. split; [exact F1|]. constructor; assumption.
Qed.
Lemma entry_bytes_ok i0 size flags seq hbins cnt h1 h2 pages i :
  bytes_ok i0 -> entry_nom i0 = Some ((size, flags, seq, hbins, cnt, h1, h2, pages), i) ->
  u32 seq /\ u32 hbins /\ Forall (fun p => bytes_ok (dp_bytes p)) pages /\ bytes_ok i.
Proof.
  unfold entry_nom. intros B. destruct (tag HVLE i0) as [[? i1]|] eqn:E1; [|easy].
  apply tag_bytes in E1; [|exact B].
  destruct (le_u32 i1) as [[x2 i2]|] eqn:E2; [|easy]. apply le_u32_bytes in E2 as [_ E2]; [|exact E1].
  destruct (le_u32 i2) as [[x3 i3]|] eqn:E3; [|easy]. apply le_u32_bytes in E3 as [_ E3]; [|exact E2].
  destruct (le_u32 i3) as [[x4 i4]|] eqn:E4; [|easy]. apply le_u32_bytes in E4 as [U E4]; [|exact E3].
  destruct (le_u32 i4) as [[x5 i5]|] eqn:E5; [|easy]. apply le_u32_bytes in E5 as [U5 E5]; [|exact E4].
  destruct (le_u32 i5) as [[x6 i6]|] eqn:E6; [|easy]. apply le_u32_bytes in E6 as [_ E6]; [|exact E5].
  destruct (le_u64 i6) as [[x7 i7]|] eqn:E7; [|easy]. apply le_u64_bytes in E7; [|exact E6].
  destruct (le_u64 i7) as [[x8 i8]|] eqn:E8; [|easy]. apply le_u64_bytes in E8; [|exact E7].
  destruct (count page_ref x6 i8) as [[x9 i9]|] eqn:E9; [|easy].
  assert (B9 : bytes_ok i9).
  { unfold count in E9. destruct (x6 <=? len i8); [|discriminate].
    eapply count_nat_bytes; [|exact E8|exact E9]. clear. intros i x r B. unfold page_ref.
    destruct (le_u32 i) as [[o j]|] eqn:E; [|easy]. apply le_u32_bytes in E as [_ E]; [|exact B].
    destruct (le_u32 j) as [[s k]|] eqn:F; [|easy]. apply le_u32_bytes in F as [_ F]; [|exact E].
    now intros [= _ <-]. }
  destruct (take_pages x9 i9) as [[x10 i10]|] eqn:E10; [|easy].
  apply take_pages_bytes in E10 as [E10 P]; [|exact B9].
  destruct (parser_eat_remaining i10 x2 (len i0 - len i10)) as [[x11 i11]|] eqn:E11; [|easy].
  intros [= <- <- <- <- <- <- <- <- <-]. repeat split; try assumption.
  unfold parser_eat_remaining in E11. destruct (_ <? x2).
  - now apply take_bytes in E11.
  - now injection E11 as _ <-.
Qed.
Definition entry_ok (e : log_entry) : Prop :=
  u32 (le_seq e) /\ u32 (le_hbins_size e) /\ Forall (fun p => bytes_ok (dp_bytes p)) (le_pages e).
Lemma many_bytes fuel total i es r : bytes_ok i -> many_entries fuel total i = Ok (es, r) ->
  Forall entry_ok es.
Proof.
  revert i es r. induction fuel as [|fuel IH]; [discriminate|]. intros i es r B.
  cbn [many_entries]. rewrite entry_split.
  destruct (entry_nom i) as [[[[[[[[[size flags] seq] hbins] cnt] h1] h2] pages] j]|] eqn:F.
  2:{ intros [= <- <-]. constructor. }
  apply entry_bytes_ok in F as (U & U2 & P & K); [|exact B].
  destruct (calc_hash1 i size); try discriminate; [|intros [= <- <-]; constructor].
  destruct (if h1 =? a then _ else _) as [v| | |]; try discriminate; [|intros [= <- <-]; constructor].
  cbv beta iota.
  destruct (many_entries fuel total j) as [[qs s]| | |] eqn:M; try discriminate.
  intros [= <- <-]. constructor; [repeat split; assumption|]. eapply IH; [exact K|exact M].
Qed.
Lemma log_bytes_ok f l : bytes_ok f -> log_from_bytes f = Ok l ->
  Forall entry_ok (tl_entries l) /\ bytes_ok (tl_base_bytes l) /\ len (tl_base_bytes l) = 512
  /\ tl_base_bytes l = bytes_at f 0 512 /\ log_primary l = num_at f 4 4
  /\ bytes_at f 0 4 = REGF.
Proof.
  intros B. unfold log_from_bytes.
  destruct (bbb_cases f) as [(L & T & n & w & _ & ->)|(? & ->)]; [|discriminate].
  destruct (many_entries _ _ _) as [[es r]| | |] eqn:M; try discriminate.
  rewrite get_range_at by (unfold BASE_BLOCK_LEN; lia). change (BASE_BLOCK_LEN - 0) with 512.
  cbv [or_panic]. cbv beta iota. intros [= <-]. cbn [tl_entries tl_base_bytes log_primary tl_base_block].
  apply many_bytes in M; [|now apply bytes_ok_rest].
  repeat split; [exact M|now apply bytes_ok_at|rewrite len_bytes_at; lia|exact T].
Qed.

(** ** One log *)
Lemma applied_exists sec es : 0 < sec -> exists l, applied sec es l.
Proof.
  intros S. destruct (run_exists (fresh sec es) 0) as (l & rest & E & A & B & C).
  exists l, rest. pose proof (fresh_ge sec es) as G. rewrite E in G. split; [exact E|]. split; [exact A|].
  assert (P : Forall (fun e => 0 < le_seq e) (l ++ rest)).
  { eapply Forall_impl; [|exact G]. cbv beta. lia. }
  assert (PL : Forall (fun e => 0 < le_seq e) l) by (apply Forall_app in P; tauto).
  split; [now apply chain_consecutive|]. destruct rest as [|e rest]; [exact I|].
  destruct C as [C|C]; [now left|right]. intros D. apply C. apply chain_consecutive; [|exact D].
  apply Forall_app. split; [exact PL|]. apply Forall_app in P as [_ P]. now inversion P; repeat constructor.
Qed.
Lemma run_applied sec es l rest : 0 < sec -> fresh sec es = l ++ rest -> Forall size_ok l ->
  chain 0 l -> stops 0 l rest -> applied sec es l.
Proof.
  intros S E A B C. exists rest. pose proof (fresh_ge sec es) as G. rewrite E in G.
  split; [exact E|]. split; [exact A|].
  assert (P : Forall (fun e => 0 < le_seq e) (l ++ rest)).
  { eapply Forall_impl; [|exact G]. cbv beta. lia. }
  assert (PL : Forall (fun e => 0 < le_seq e) l) by (apply Forall_app in P; tauto).
  split; [now apply chain_consecutive|]. destruct rest as [|e rest]; [exact I|].
  destruct C as [C|C]; [now left|right]. intros D. apply C. apply chain_consecutive; [|exact D].
  apply Forall_app. split; [exact PL|]. apply Forall_app in P as [_ P]. now inversion P; repeat constructor.
Qed.

Lemma consecutive_app l m : consecutive (l ++ m) -> consecutive l.
Proof.
  induction l as [|a l IH]; [easy|]. destruct l as [|b l]; [easy|].
  cbn [app] in *. cbn [consecutive] in *. tauto.
Qed.
(** A longest run of a prefix is a prefix of a longest run. *)
Lemma run_prefix (a b l m r s : list log_entry) :
  a = l ++ r -> a ++ b = m ++ s ->
  Forall size_ok l -> consecutive l -> 
  (match s with [] => True | e :: _ => ~ size_ok e \/ ~ consecutive (m ++ [e]) end) ->
  exists t, m = l ++ t.
Proof.
  intros -> E A B C. rewrite <- app_assoc in E.
  destruct (app_eq_app _ _ _ _ E) as (t & [[H1 H2]|[H1 H2]]); [|eauto].
  exists []. rewrite app_nil_r. destruct t as [|e t]; [now rewrite app_nil_r in H1|].
  exfalso. rewrite H2 in C. cbn [app] in C. rewrite H1 in A, B.
  apply Forall_app in A as [_ A]. inversion A; subst. destruct C as [C|C]; [easy|].
  apply C. apply (consecutive_app _ t). now rewrite <- app_assoc.
Qed.
Lemma applied_unique sec es l m : applied sec es l -> applied sec es m -> l = m.
Proof.
  intros (r & E1 & A1 & B1 & C1) (s & E2 & A2 & B2 & C2).
  destruct (run_prefix (fresh sec es) [] l m r s) as [t T]; rewrite ?app_nil_r; try assumption.
  destruct (run_prefix (fresh sec es) [] m l s r) as [u U]; rewrite ?app_nil_r; try assumption.
  subst m. apply (f_equal (@length _)) in U. rewrite !app_length in U.
  destruct t; [now rewrite app_nil_r|cbn in U; lia].
Qed.
Lemma fresh_firstn sec es k : exists b, fresh sec es = fresh sec (firstn k es) ++ b.
Proof.
  revert k. induction es as [|e es IH]; intros [|k]; [now exists []|now exists []|cbn [firstn]|].
  - now exists (fresh sec (e :: es)).
  - cbn [firstn]. rewrite !fresh_cons. destruct (le_valid_hashes e); [|now exists []].
    destruct (IH k) as [b ->]. exists b. now destruct (sec <=? le_seq e).
Qed.
(** A log cut after its [k]-th entry applies a prefix of what the whole applies. *)
Lemma applied_torn sec es k l m : applied sec (firstn k es) l -> applied sec es m ->
  exists t, m = l ++ t.
Proof.
  intros (r & E1 & A1 & B1 & C1) (s & E2 & A2 & B2 & C2). destruct (fresh_firstn sec es k) as [b F].
  eapply run_prefix; [exact E1|rewrite <- F; exact E2|assumption..].
Qed.

Lemma update_parser_spec order fuel l p items sec hbins bb r :
  ps_base_block p = Some bb -> bb_secondary_seq (bb_base bb) = sec ->
  bb_hive_bins_data_size (bb_base bb) = hbins -> 0 < sec ->
  Forall (fun e => u32 (le_seq e)) (tl_entries l) ->
  update_parser order fuel l p items = r -> r <> Panic -> r <> OutOfFuel ->
  exists a, applied sec (tl_entries l) a
  /\ ((r = Err /\ ~ fits (ps_hbin p) hbins (len (ps_buffer p)) a)
      \/ (exists items' p', r = Ok (last_seq a, items', p')
          /\ fits (ps_hbin p) hbins (len (ps_buffer p)) a
          /\ overlaid (ps_hbin p) hbins a (ps_buffer p) (ps_buffer p')
          /\ ps_hbin p' = ps_hbin p /\ ps_base_block p' = ps_base_block p
          /\ ps_recover p' = ps_recover p)).
Proof.
  intros B <- <- S U E NP NO. unfold update_parser, base_block_info in E. rewrite B in E.
  cbv [or_panic] in E. cbv beta iota in E.
  apply update_entries_fate in E as (a & rest & F & A1 & A2 & A3 & E); try assumption; [|now left].
  exists a. split; [eapply run_applied; eassumption|].
  destruct E as [E|(it & p' & E1 & E2)]; [now left|right]. exists it, p'.
  unfold last_seq. rewrite <- last_from_last. auto.
Qed.

(** ** Several logs *)
Lemma fits_app hbin hbins n a b : fits hbin hbins n (a ++ b)
  <-> fits hbin hbins n a /\ fits hbin hbins (n + growth hbins a) b.
Proof.
  revert n. induction a as [|e a IH]; intros n.
  - cbn [app fits growth fold_right]. rewrite N.add_0_r. tauto.
  - cbn [app fits growth fold_right]. rewrite IH.
    change (fold_right (fun e0 n0 => le_hbins_size e0 - hbins + n0) 0 a) with (growth hbins a).
    replace (n + (le_hbins_size e - hbins + growth hbins a))
      with (n + (le_hbins_size e - hbins) + growth hbins a) by lia. tauto.
Qed.
Lemma growth_app hbins a b : growth hbins (a ++ b) = growth hbins a + growth hbins b.
Proof.
  unfold growth. induction a as [|e a IH]; [reflexivity|]. cbn [app fold_right]. rewrite IH. lia.
Qed.
Lemma byte_after_outside hbin hbins n a i d : fits hbin hbins n a -> n + growth hbins a <= i ->
  byte_after hbin i (all_pages a) d = d.
Proof.
  revert n d. induction a as [|e a IH]; intros n d F I; [reflexivity|].
  cbn [fits growth fold_right] in F, I.
  change (fold_right (fun e0 n0 => le_hbins_size e0 - hbins + n0) 0 a) with (growth hbins a) in I.
  destruct F as [F1 F2]. change (all_pages (e :: a)) with (le_pages e ++ all_pages a).
  rewrite byte_after_app. erewrite IH; [|exact F2|lia].
  assert (F3 : Forall (fun p => hbin + dp_offset p + len (dp_bytes p) <= i) (le_pages e)).
  { eapply Forall_impl; [|exact F1]. cbv beta. lia. }
  clear -F3. induction F3 as [|p l P _ IHl]; [reflexivity|].
  unfold byte_after in *. cbn [fold_left]. rewrite page_byte_spec.
  destruct (N.leb_spec (hbin + dp_offset p) i); cbn [andb]; [|exact IHl].
  destruct (N.ltb_spec i (hbin + dp_offset p + len (dp_bytes p))); [lia|exact IHl].
Qed.
Lemma overlaid_app hbin hbins a b x y z : fits hbin hbins (len x) a ->
  overlaid hbin hbins a x y -> overlaid hbin hbins b y z -> overlaid hbin hbins (a ++ b) x z.
Proof.
  intros F [L1 H1] [L2 H2]. split; [rewrite growth_app; lia|]. intros i I. rewrite H2 by exact I.
  unfold all_pages. rewrite flat_map_app, byte_after_app. fold (all_pages a). fold (all_pages b).
  destruct (N.ltb_spec i (len y)) as [J|J]; [now rewrite H1|].
  rewrite (byte_after_outside hbin hbins (len x) a) by (assumption || lia). f_equal.
  rewrite !nth_overflow; [reflexivity| |].
  - unfold len in *. lia.
  - unfold len in *. lia.
Qed.

Definition outcome (hbin hbins : N) (p : parser) (es : list log_entry) (m : N) (r : res (N * parser)) : Prop :=
  (r = Err /\ ~ fits hbin hbins (len (ps_buffer p)) es)
  \/ (exists p', r = Ok (m, p')
      /\ fits hbin hbins (len (ps_buffer p)) es
      /\ overlaid hbin hbins es (ps_buffer p) (ps_buffer p')
      /\ ps_hbin p' = hbin /\ ps_base_block p' = ps_base_block p /\ ps_recover p' = ps_recover p).
Lemma chain_total sec n logs : 0 < sec -> exists es m, log_chain sec n logs es m.
Proof.
  intros S. revert n. induction logs as [|l logs IH]; intros n; [exists [], n; constructor|].
  assert (D : eligible sec n l \/ ~ eligible sec n l) by (unfold eligible; lia).
  destruct D as [D|D].
  - destruct (applied_exists sec (tl_entries l) S) as [a A]. destruct (IH (last_seq a)) as (es & m & C).
    exists (a ++ es), m. econstructor; eassumption.
  - destruct (IH n) as (es & m & C). exists es, m. now constructor.
Qed.
Lemma chain_functional sec n logs es m es' m' :
  log_chain sec n logs es m -> log_chain sec n logs es' m' -> es = es' /\ m = m'.
Proof.
  intros C. revert es' m'. induction C; intros es' m' D; inversion D; subst; try easy; auto.
  assert (a = a0) as <- by (eapply applied_unique; eassumption).
  destruct (IHC _ _ H8) as [<- <-]. auto.
Qed.
Lemma apply_logs_spec order fuel sec hbins logs n p items bb r :
  ps_base_block p = Some bb -> bb_secondary_seq (bb_base bb) = sec ->
  bb_hive_bins_data_size (bb_base bb) = hbins -> 0 < sec ->
  Forall (fun l => Forall (fun e => u32 (le_seq e)) (tl_entries l)) logs ->
  apply_logs order fuel sec logs n p items = r -> r <> Panic -> r <> OutOfFuel ->
  exists es m, log_chain sec n logs es m /\ outcome (ps_hbin p) hbins p es m r.
Proof.
  intros B S H Z U. revert n p items r B. induction U as [|l logs Hl Hls IH]; intros n p items r B E NP NO.
  { cbn in E. subst r. exists [], n. split; [constructor|]. right. exists p. split; [reflexivity|].
    split; [exact I|]. split; [apply overlaid_nil|]. auto. }
  cbn [apply_logs] in E.
  assert (SKIP : ~ eligible sec n l ->
    apply_logs order fuel sec logs n (ps_log WarningTransactionLog p) items = r ->
    exists es m, log_chain sec n (l :: logs) es m /\ outcome (ps_hbin p) hbins p es m r).
  { intros NE F. apply IH in F; try assumption. destruct F as (es & m & C & O).
    exists es, m. split; [now constructor|exact O]. }
  destruct (N.leb_spec sec (log_primary l)) as [P|P].
  2:{ apply SKIP; [|exact E]. intros [? _]. lia. }
  destruct ((n =? 0) || (log_primary l =? w32 (n + 1))) eqn:Q.
  2:{ apply SKIP; [|exact E]. intros [_ [->|W]]; [discriminate|].
      unfold w32 in Q. change 4294967296 with (2 ^ 32) in Q. rewrite W, N.eqb_refl, orb_comm in Q.
      discriminate. }
  assert (EL : eligible sec n l).
  { split; [exact P|]. apply orb_prop in Q as [Q|Q]; apply N.eqb_eq in Q; [now left|now right]. }
  destruct (update_parser order fuel l p items) as [[[k it] q]| | |] eqn:W;
    [| |subst r; congruence|subst r; congruence]; cbv beta iota in E.
  - eapply update_parser_spec in W as (a & A & [[W _]|(it' & q' & W & F & O & K1 & K2 & K3)]);
      try eassumption; try discriminate.
    injection W as -> -> <-.
    apply IH in E as (es & m & C & O2); try assumption; [|rewrite K2; assumption].
    exists (a ++ es), m. split; [econstructor; eassumption|].
    rewrite K1 in O2. destruct O2 as [[-> O2]|(p' & -> & F2 & O2 & M1 & M2 & M3)]; [left|right].
    + split; [reflexivity|]. rewrite fits_app. destruct O as [L _]. rewrite L in O2. tauto.
    + exists p'. split; [reflexivity|]. rewrite fits_app. destruct O as [L O']. rewrite L in F2.
      split; [split; assumption|]. split; [eapply overlaid_app; [exact F|split; eassumption|exact O2]|].
      split; [assumption|]. split; congruence.
  - subst r. eapply update_parser_spec in W as (a & A & [[W F]|(it' & q' & W & _)]);
      try eassumption; try discriminate.
    destruct (chain_total sec (last_seq a) logs Z) as (es & m & C). exists (a ++ es), m.
    split; [econstructor; eassumption|]. left. split; [reflexivity|]. rewrite fits_app. tauto.
Qed.
