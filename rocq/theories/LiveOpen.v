(** Opening a file with and without recovery of deleted items. *)
From Verif Require Import Base BaseFacts Util BaseBlock Types Value Node Recover Parser TxLog NodeFrame TxApply
  Pure CellSpec CellFacts CellRead ScanSpec ScanFacts Recovered LiveSpec LiveView.

Section Live.
Variables (full : bool) (hash : list N -> N).

(** ** What holds of the state of every parser *)
Definition inv (st : state) : Prop := st_root_offset st = 0 /\ st_full st = full /\ st_hasher st = hash /\ dead_maps st.
Lemma inv_pair a b : inv a -> inv b -> pair_ok a b.
Proof.
  intros (A1 & A2 & A3 & A4) (B1 & B2 & B3 & B4). split; [|now split].
  split; [congruence|]. split; [congruence|]. split; [congruence|discriminate].
Qed.
Lemma inv_info i st : inv st -> inv (set_info i st). Proof. now intros H. Qed.
Lemma read_unfiltered fi st o k st' : op_filter o = None -> kn_read fi st o = Ok (k, st') -> st' = st.
Proof.
  intros F. unfold kn_read, read_from_slice. rewrite F. destruct (get_from _ _); [|discriminate]. cbn [ok_or].
  destruct (kn_from_bytes _ _ _ _ _) as [[n r]| | |]; try discriminate. cbv beta iota.
  destruct (if _ && _ then _ else _) as [n1| | |]; try discriminate; cbv beta iota zeta.
  destruct (if op_modified o then _ else _); try discriminate. now intros [= _ <-].
Qed.
Lemma init_root_state p p' : init_root p = Ok p' -> ps_state p' = ps_state p.
Proof.
  unfold init_root. destruct (get_from _ _); [|discriminate]. cbn [ok_or].
  destruct (hbin_from_bytes _ _) as [[h r]| | |]; try discriminate. cbv beta iota zeta.
  destruct (kn_read _ _ _) as [[root st]| | |] eqn:R; try discriminate. apply read_unfiltered in R; [|reflexivity]. intros [= <-]. exact R.
Qed.
Lemma read_plain fi st o k st' : dead_maps st -> op_modified o = false -> kn_read fi st o = Ok (Some k, st') -> kn_deleted k = [].
Proof.
  intros D M R.
  apply (read_good (fun _ => True) (fun _ => True)) in R; [now apply R|try now intros..].
  split; (apply Forall_forall; intros [? l] _; apply Forall_forall; intros x _); [|exact I].
  cbv beta. revert x. fix IH 1. intros x. constructor; [exact I|now apply Forall_forall|]. induction (kn_deleted x); constructor; auto.
Qed.
Lemma add_key_inv fi seq st path off old del st' : inv st -> add_full_key fi seq st path off old del = Ok st' -> inv st'.
Proof.
  intros M. unfold add_full_key. destruct (kn_read _ _ _) as [[[k|] st1]| | |] eqn:R; try discriminate;
    pose proof (fun H => read_unfiltered _ _ _ _ _ H R) as U; specialize (U eq_refl); subst st1; cbv beta iota zeta; [|now intros [= <-]].
  destruct M as (A1 & A2 & A3 & A4). apply read_plain in R; [|exact A4|reflexivity]. intros [= <-].
  destruct del; (split; [exact A1|]; split; [exact A2|]; split; [exact A3|]); [|exact A4].
  destruct A4 as (MK & MV). split; [|exact MV]. cbn [set_deleted_keys st_deleted_keys]. apply push_forall; [exact MK|].
  constructor; [reflexivity|]. cbn [kn_set_state kn_set_values kn_set_updated kn_deleted]. rewrite R. constructor.
Qed.
Lemma add_value_inv fi seq st path off old del st' : inv st -> add_full_value fi seq st path off old del = Ok st' -> inv st'.
Proof.
  intros (A1 & A2 & A3 & A4). unfold add_full_value. destruct (get_from _ _); [|discriminate]. cbn [ok_or].
  destruct (kv_from_bytes _ _ _ _) as [[v r]| | |]; try discriminate. cbv beta iota zeta. intros [= <-].
  destruct del; (split; [exact A1|]; split; [exact A2|]; split; [exact A3|]); [|exact A4].
  destruct A4 as (MK & MV). split; [exact MK|]. cbn [set_deleted_values st_deleted_values]. now apply push_forall.
Qed.
Lemma add_all_inv {A} (g : state -> A -> res state) l : (forall st x st', inv st -> g st x = Ok st' -> inv st') ->
  forall st logs st' logs', inv st -> add_all g l st logs = Ok (st', logs') -> inv st'.
Proof.
  intros H. induction l as [|x l IH]; intros st logs st' logs' M; cbn [add_all]; [now intros [= <- _]|].
  destruct (g st x) as [st1| | |] eqn:E; try discriminate; [apply IH; now apply (H st x)|now apply IH].
Qed.
Lemma remove_latest_inv st e : inv st -> inv (remove_latest st e).
Proof.
  intros (A1 & A2 & A3 & MK & MV). unfold remove_latest. destruct (snd (fst e)) as [name|];
    (split; [exact A1|]; split; [exact A2|]; split; [exact A3|]).
  - split; [exact MK|]. cbn [set_deleted_values st_deleted_values]. unfold deleted_values_remove.
    destruct (aget _ _ _) as [vs|] eqn:A; [|exact MV]. pose proof (aget_forall _ _ _ _ _ MV A) as F.
    destruct (remove_first _ vs) as [r|] eqn:R; [|exact MV]. pose proof (remove_first_forall _ _ _ _ F R) as Fr.
    destruct r; [apply adel_forall|]; now apply aset_forall.
  - split; [|exact MV]. cbn [set_deleted_keys st_deleted_keys]. unfold deleted_keys_remove.
    destruct (aget _ _ _) as [vs|] eqn:A; [|exact MK]. pose proof (aget_forall _ _ _ _ _ MK A) as F.
    destruct (remove_first _ vs) as [r|] eqn:R; [|exact MK]. pose proof (remove_first_forall _ _ _ _ F R) as Fr.
    destruct r; [apply adel_forall|]; now apply aset_forall.
Qed.
Lemma latest_inv order fuel fi seq p items l p' logs : inv (ps_state p) ->
  get_latest_reg_items order fuel fi seq p items = Ok (l, p', logs) -> inv (ps_state p').
Proof.
  intros M. unfold get_latest_reg_items. destruct (init_root p) as [p1| | |] eqn:E; try discriminate.
  apply init_root_state in E. rewrite <- E in M. cbv beta iota.
  destruct (iterate _ _ _ _ _ _); try discriminate.
  destruct (handle_keys _ _ _ _ _ _ _) as [[[[[? ?] ?] ?] ?]| | |]; try discriminate. cbv beta iota.
  destruct (add_all _ _ _ _) as [[? ?]| | |] eqn:A1; try discriminate.
  apply add_all_inv in A1; [|intros ? ? ?; apply add_key_inv|exact M].
  destruct (add_all _ _ _ _) as [[? ?]| | |] eqn:A2; try discriminate.
  apply add_all_inv in A2; [|intros ? ? ?; apply add_value_inv|exact A1].
  destruct (add_all _ _ _ _) as [[st ?]| | |] eqn:A3; try discriminate.
  apply add_all_inv in A3; [|intros ? [[? [?|]] ?] ?; [apply add_value_inv|apply add_key_inv]|exact A2].
  intros [= _ <- _]. cbn [ps_set_state ps_state].
  match goal with |- inv (fold_left _ ?es _) => generalize es end. intros es. revert st A3.
  induction es as [|e es IH]; intros st A3; [exact A3|]. cbn [fold_left]. apply IH. now apply remove_latest_inv.
Qed.
Lemma analyze_inv order fuel fi seq p items i' p' : inv (ps_state p) ->
  analyze_entry order fuel fi seq p items = Ok (i', p') -> inv (ps_state p').
Proof.
  intros M. unfold analyze_entry. destruct (ps_recover p); [|now intros [= _ <-]].
  destruct (get_latest_reg_items _ _ _ _ _ _) as [[[l p1] logs]| | |] eqn:E; try discriminate; [|now intros [= _ <-]].
  apply latest_inv in E; [|exact M]. now intros [= _ <-].
Qed.

(** ** Two parsers of the same bytes *)
Definition twin (p q : parser) : Prop :=
  ps_file p = ps_file q /\ ps_base_block p = ps_base_block q /\ inv (ps_state p) /\ inv (ps_state q).
Definition both {A} (P : A -> A -> Prop) (r r' : res A) : Prop := forall a a', r = Ok a -> r' = Ok a' -> P a a'.
Lemma twin_log c c' p q : twin p q -> twin (ps_log c p) (ps_log c' q). Proof. now intros H. Qed.
Lemma twin_buffer b p q : twin p q -> twin (ps_set_buffer b p) (ps_set_buffer b q).
Proof. intros (F & H). split; [|exact H]. unfold ps_set_buffer, ps_hbin. cbn [ps_set_file ps_file]. now rewrite F. Qed.
Lemma twin_hive p q p' q' : same_hive p p' -> same_hive q q' -> inv (ps_state p') -> inv (ps_state q') -> twin p q -> twin p' q'.
Proof. intros (A1 & A2 & _) (B1 & B2 & _) I J (F & B & _). split; [congruence|]. split; [congruence|now split]. Qed.

Lemma entries_twin order fuel order' fuel' sec hbins es : forall n p q items items', twin p q ->
  both (fun x y => fst (fst x) = fst (fst y) /\ twin (snd x) (snd y))
    (update_entries order fuel sec hbins es n p items) (update_entries order' fuel' sec hbins es n q items').
Proof.
  induction es as [|e es IH]; intros n p q items items' T; cbn [update_entries]; [now intros x y [= <-] [= <-]|].
  destruct (le_valid_hashes e); [|now intros x y [= <-] [= <-]].
  destruct (_ <? sec); [now apply IH|]. destruct (negb _); [now intros x y [= <-] [= <-]|]. destruct (_ && _); [now intros x y [= <-] [= <-]|].
  cbv zeta. unfold ps_buffer, ps_hbin. rewrite <- (proj1 T).
  destruct (apply_pages _ _ _) as [b| | |]; try (intros x y; discriminate). cbv beta iota.
  set (fi := mkFI _ _).
  destruct (analyze_entry order fuel fi (le_seq e) (ps_set_buffer b p) items) as [[i1 p1]| | |] eqn:E1; try (intros x y; discriminate).
  destruct (analyze_entry order' fuel' fi (le_seq e) (ps_set_buffer b q) items') as [[i2 p2]| | |] eqn:E2; try (intros x y; discriminate).
  cbv beta iota. apply IH. pose proof (twin_buffer b p q T) as T'.
  apply (twin_hive _ _ _ _ (analyze_same _ _ _ _ _ _ _ _ E1) (analyze_same _ _ _ _ _ _ _ _ E2)); [| |exact T'].
  - eapply analyze_inv; [|exact E1]. apply T'.
  - eapply analyze_inv; [|exact E2]. apply T'.
Qed.
Lemma logs_twin order fuel order' fuel' sec logs : forall n p q items items', twin p q ->
  both (fun x y => fst x = fst y /\ twin (snd x) (snd y))
    (apply_logs order fuel sec logs n p items) (apply_logs order' fuel' sec logs n q items').
Proof.
  induction logs as [|l logs IH]; intros n p q items items' T; cbn [apply_logs]; [now intros x y [= <-] [= <-]|].
  destruct (sec <=? _); [|now apply IH]. destruct (_ || _); [|now apply IH].
  unfold update_parser, base_block_info. rewrite <- (proj1 (proj2 T)).
  destruct (ps_base_block p); cbn [or_panic]; [|intros x y; discriminate]. cbv beta iota.
  match goal with |- context [update_entries order fuel ?s ?h ?es ?m p items] => pose proof (entries_twin order fuel order' fuel' s h es m p q items items' T) as U;
    destruct (update_entries order fuel s h es m p items) as [[[n1 i1] p1]| | |]; try (intros x y; discriminate);
    destruct (update_entries order' fuel' s h es m q items') as [[[n2 i2] p2]| | |]; try (intros x y; discriminate) end.
  specialize (U _ _ eq_refl eq_refl) as [U1 U2]. cbn [fst snd] in U1, U2. subst n2. cbv beta iota. now apply IH.
Qed.
Lemma base_block_twin p q : twin p q -> both (fun x y => fst x = fst y /\ twin (snd x) (snd y)) (init_base_block p) (init_base_block q).
Proof.
  intros T. unfold init_base_block, check_base_block, ps_buffer. rewrite <- (proj1 T).
  destruct (bb_from_bytes _) as [[bb r]| | |]; try (intros x y; discriminate). cbv beta iota zeta.
  set (p1 := ps_set_base_block bb _). set (q1 := ps_set_base_block bb (ps_set_file _ q)).
  assert (T1 : twin p1 q1) by (split; [reflexivity|]; split; [reflexivity|]; apply T).
  destruct (is_supported bb); [|intros x y [= <-] [= <-]; split; [reflexivity|now apply twin_log]].
  assert (T2 : twin (if bb_primary_seq (bb_base bb) =? bb_secondary_seq (bb_base bb) then p1 else ps_log WarningBaseBlock p1)
                    (if bb_primary_seq (bb_base bb) =? bb_secondary_seq (bb_base bb) then q1 else ps_log WarningBaseBlock q1))
    by (destruct (_ =? _); [exact T1|now apply twin_log]).
  revert T2. generalize (if bb_primary_seq (bb_base bb) =? bb_secondary_seq (bb_base bb) then p1 else ps_log WarningBaseBlock p1) as p2.
  generalize (if bb_primary_seq (bb_base bb) =? bb_secondary_seq (bb_base bb) then q1 else ps_log WarningBaseBlock q1) as q2. intros q2 p2 T2.
  rewrite <- (proj1 T2). destruct (get_range _ _ _); [|intros x y; discriminate]. cbn [or_panic].
  destruct (calculate_checksum _) as [ck| | |]; try (intros x y; discriminate). cbv beta iota.
  destruct (ck =? _); intros x y [= <-] [= <-]; (split; [reflexivity|]); [exact T2|now apply twin_log].
Qed.
Lemma header_twin n p q : twin p q -> both twin (update_header n p) (update_header n q).
Proof.
  intros T. unfold update_header, ps_buffer. rewrite <- (proj1 T).
  destruct (overwrite _ _ _); [|intros x y; discriminate]. cbn [or_panic]. destruct (overwrite _ _ _); [|intros x y; discriminate]. cbn [or_panic].
  destruct (get_range _ _ _); [|intros x y; discriminate]. cbn [or_panic]. destruct (calculate_checksum _); try (intros x y; discriminate).
  cbv beta iota. destruct (overwrite _ _ _) as [b|]; [|intros x y; discriminate]. cbn [or_panic].
  pose proof (base_block_twin _ _ (twin_buffer b p q T)) as B.
  destruct (init_base_block (ps_set_buffer b p)) as [[[s1 b1] p1]| | |]; try (intros x y; discriminate).
  destruct (init_base_block (ps_set_buffer b q)) as [[[s2 b2] q1]| | |]; try (intros x y; discriminate).
  specialize (B _ _ eq_refl eq_refl) as [_ B]. intros x y [= <-] [= <-]. now apply twin_log.
Qed.
Lemma prepare_twin bad logs p q : twin p q ->
  both (fun x y => fst (fst x) = fst (fst y) /\ snd x = snd y /\ twin (snd (fst x)) (snd (fst y))) (prepare_logs bad p logs) (prepare_logs bad q logs).
Proof.
  intros T. unfold prepare_logs.
  set (f := fun p => if bad then handle_bad_checksum p logs else Ok (p, logs)). change (if bad then handle_bad_checksum p logs else Ok (p, logs)) with (f p).
  change (if bad then handle_bad_checksum q logs else Ok (q, logs)) with (f q).
  assert (H : both (fun x y => snd x = snd y /\ twin (fst x) (fst y)) (f p) (f q)).
  { unfold f. destruct bad; [|intros x y [= <-] [= <-]; now split]. unfold handle_bad_checksum.
    destruct (last _ _); [|intros x y; discriminate]. cbn [or_panic]. cbv beta zeta iota.
    change (ps_buffer (ps_log WarningBaseBlock p)) with (ps_buffer p). change (ps_buffer (ps_log WarningBaseBlock q)) with (ps_buffer q).
    unfold ps_buffer. rewrite <- (proj1 T). destruct (get_range _ _ _); [|intros x y; discriminate]. cbn [ok_or].
    destruct (overwrite _ _ _) as [b|]; [|intros x y; discriminate]. cbn [or_panic].
    pose proof (base_block_twin _ _ (twin_buffer b _ _ (twin_log WarningBaseBlock WarningBaseBlock _ _ T))) as B.
    destruct (init_base_block (ps_set_buffer b (ps_log WarningBaseBlock p))) as [[[s1 b1] p1]| | |]; try (intros x y; discriminate).
    destruct (init_base_block (ps_set_buffer b (ps_log WarningBaseBlock q))) as [[[s2 b2] q1]| | |]; try (intros x y; discriminate).
    specialize (B _ _ eq_refl eq_refl) as [_ B]. intros x y [= <-] [= <-]. now split. }
  destruct (f p) as [[p1 l1]| | |]; try (intros x y; discriminate). destruct (f q) as [[q1 l2]| | |]; try (intros x y; discriminate).
  specialize (H _ _ eq_refl eq_refl) as [H1 H2]. cbn [fst snd] in H1, H2. subst l2. cbv beta iota.
  rewrite <- (proj1 (proj2 H2)). destruct (ps_base_block p1); [|intros x y; discriminate]. cbn [or_panic].
  destruct (_ =? _); intros x y [= <-] [= <-]; cbn [fst snd]; auto using twin_log.
Qed.
Lemma apply_twin order fuel order' fuel' bad logs p q : twin p q ->
  both twin (apply_transaction_logs order fuel bad logs p) (apply_transaction_logs order' fuel' bad logs q).
Proof.
  intros T. unfold apply_transaction_logs. destruct logs as [|l logs]; [now intros x y [= <-] [= <-]|].
  pose proof (prepare_twin bad (l :: logs) p q T) as H.
  destruct (prepare_logs bad p (l :: logs)) as [[[go p1] l1]| | |]; try (intros x y; discriminate).
  destruct (prepare_logs bad q (l :: logs)) as [[[go' q1] l2]| | |]; try (intros x y; discriminate).
  specialize (H _ _ eq_refl eq_refl) as (H1 & H2 & H3). cbn [fst snd] in H1, H2, H3. subst go' l2. cbv beta iota.
  destruct go; [|now intros x y [= <-] [= <-]].
  destruct (get_reg_items fuel p1 0) as [[i1 p2]| | |] eqn:G1; try (intros x y; discriminate).
  destruct (get_reg_items fuel' q1 0) as [[i2 q2]| | |] eqn:G2; try (intros x y; discriminate).
  assert (S : forall fuel p i p', get_reg_items fuel p 0 = Ok (i, p') -> ps_state p' = ps_state p).
  { clear. intros fuel p i p'. unfold get_reg_items. destruct (ps_recover p); [|now intros [= _ <-]].
    destruct (init_root p) as [q| | |] eqn:I; try discriminate. apply init_root_state in I.
    destruct (iterate _ _ _ _ _ _); try discriminate. destruct (insert_keys _ _ _); try discriminate. now intros [= _ <-]. }
  assert (T2 : twin p2 q2).
  { apply (twin_hive _ _ _ _ (get_reg_items_same _ _ _ _ _ G1) (get_reg_items_same _ _ _ _ _ G2)); [| |exact H3].
    - rewrite (S _ _ _ _ G1). apply H3.
    - rewrite (S _ _ _ _ G2). apply H3. }
  cbv beta iota. unfold base_block_info. rewrite <- (proj1 (proj2 T2)).
  destruct (ps_base_block p2); cbn [or_panic]; [|intros x y; discriminate]. cbv beta iota.
  match goal with |- context [apply_logs order fuel ?s l1 0 p2 i1] => pose proof (logs_twin order fuel order' fuel' s l1 0 p2 q2 i1 i2 T2) as U;
    destruct (apply_logs order fuel s l1 0 p2 i1) as [[n1 p3]| | |]; try (intros x y; discriminate);
    destruct (apply_logs order' fuel' s l1 0 q2 i2) as [[n2 q3]| | |]; try (intros x y; discriminate) end.
  specialize (U _ _ eq_refl eq_refl) as [U1 U2]. cbn [fst snd] in U1, U2. subst n2. cbv beta iota. now apply header_twin.
Qed.
Lemma scan_inv fi st n st' : inv st -> find_free_keys_and_values fi st n = Ok st' -> inv st'.
Proof.
  intros I. unfold find_free_keys_and_values.
  assert (A : agree false st st) by apply agree_refl.
  destruct (recover_loop_ok fi st (S (length (fi_buffer fi))) st (fi_hbin fi) n A) as [E|(s & l & ks & vs & E & (w & G) & _ & FK & FV & _)].
  { unfold len. lia. } { rewrite E. discriminate. }
  rewrite E. intros [= <-]. subst s. destruct I as (I1 & I2 & I3 & MK & MV).
  split; [exact I1|]. split; [exact I2|]. split; [exact I3|]. split.
  - cbn [st_deleted_keys]. apply push_all_forall; [exact MK|]. eapply Forall_impl; [|exact FK].
    intros k [(_ & K)|(h & c & _ & _ & _ & _ & K)]; destruct K as (_ & _ & _ & k0 & s & _ & _ & S & D); constructor; rewrite ?S, ?D; now constructor.
  - cbn [st_deleted_values]. apply push_all_forall; [exact MV|]. eapply Forall_impl; [|exact FV].
    intros v [(_ & K)|(h & c & _ & _ & _ & _ & K)]; destruct K as (_ & _ & _ & v0 & r & _ & older & ->); reflexivity.
Qed.
(** The root as well. *)
Definition twins (p q : parser) : Prop :=
  twin p q /\ ps_hbin_header p = ps_hbin_header q /\ like_o (ps_root p) (ps_root q).
Lemma init_root_twin p q : twin p q -> both twins (init_root p) (init_root q).
Proof.
  intros T p' q' E E'. split.
  { apply (twin_hive _ _ _ _ (init_root_same _ _ E) (init_root_same _ _ E')); [rewrite (init_root_state _ _ E)|rewrite (init_root_state _ _ E')|]; apply T. }
  revert E E'. unfold init_root, ps_buffer, ps_hbin. rewrite <- (proj1 T). destruct (get_from _ _); [|discriminate]. cbn [ok_or].
  destruct (hbin_from_bytes _ _) as [[h r]| | |]; try discriminate. cbv beta iota zeta. cbn [ps_set_hbin ps_file ps_state]. rewrite <- (proj1 T).
  match goal with |- match kn_read ?fi ?a ?o with _ => _ end = _ -> match kn_read _ ?b _ with _ => _ end = _ -> _ =>
    pose proof (read_like fi o a b (inv_pair _ _ (proj1 (proj2 (proj2 T))) (proj2 (proj2 (proj2 T))))) as R;
    destruct (kn_read fi a o) as [[r1 s1]| | |]; try discriminate; destruct (kn_read fi b o) as [[r2 s2]| | |]; try discriminate end.
  destruct R as [R|[R|R]]; try discriminate R. destruct R as [R _]. intros [= <-] [= <-]. now split.
Qed.
Lemma init_twin order fuel order' fuel' logs p q : twin p q -> ps_hbin_header p = None -> ps_hbin_header q = None -> ps_root p = None -> ps_root q = None ->
  both twins (ps_init order fuel false logs p) (ps_init order' fuel' true logs q).
Proof.
  intros T HP HQ RP RQ. unfold ps_init. pose proof (base_block_twin p q T) as B.
  assert (H : forall p s b p', init_base_block p = Ok (s, b, p') -> ps_hbin_header p' = ps_hbin_header p /\ ps_root p' = ps_root p).
  { clear. intros p s b p'. unfold init_base_block, check_base_block. destruct (bb_from_bytes _) as [[bb r]| | |]; try discriminate. cbv beta iota zeta.
    destruct (is_supported bb); [|now intros [= _ _ <-]]. destruct (get_range _ _ _); [|discriminate]. cbn [or_panic].
    destruct (calculate_checksum _) as [ck| | |]; try discriminate. cbv beta iota.
    destruct (ck =? _); intros [= _ _ <-]; destruct (_ =? _); now split. }
  destruct (init_base_block p) as [[[s b] p1]| | |] eqn:E1; try (intros x y; discriminate).
  destruct (init_base_block q) as [[[s' b'] q1]| | |] eqn:E2; try (intros x y; discriminate).
  specialize (B _ _ eq_refl eq_refl) as [B1 B2]. cbn [fst snd] in B1, B2. injection B1 as <- <-. cbv beta iota.
  destruct s.
  - destruct (ps_base_block q1); [|intros x y; discriminate]. cbn [or_panic].
    destruct (find_free_keys_and_values _ _ _) as [st| | |] eqn:F; try (intros x y; discriminate). cbv beta iota.
    apply scan_inv in F; [|apply B2].
    assert (T2 : twin p1 (ps_set_state st q1)) by (destruct B2 as (X1 & X2 & X3 & _); now repeat (split; [assumption|])).
    pose proof (apply_twin order fuel order' fuel' b logs p1 _ T2) as A.
    destruct (apply_transaction_logs _ _ _ _ p1) as [p2| | |]; try (intros x y; discriminate).
    destruct (apply_transaction_logs _ _ _ _ (ps_set_state st q1)) as [q2| | |]; try (intros x y; discriminate).
    specialize (A _ _ eq_refl eq_refl). now apply init_root_twin.
  - intros x y [= <-] [= <-]. apply H in E1 as [X1 X2], E2 as [Y1 Y2]. split; [exact B2|]. rewrite X1, X2, Y1, Y2, HP, HQ, RP, RQ. now split.
Qed.
Lemma build_twin order fuel order' fuel' buf files p q :
  build order fuel hash false full buf files = Ok p -> build order' fuel' hash true full buf files = Ok q -> twins p q.
Proof.
  unfold build. destruct (parse_logs files) as [[logs w]| | |]; try discriminate. cbv beta iota zeta.
  set (p0 := mkParser _ _ _ _ _ false). set (q0 := mkParser _ _ _ _ _ true).
  assert (I0 : inv (mkState 0 full [] hash [] [] [] [])) by (split; [reflexivity|]; split; [reflexivity|]; split; [reflexivity|]; split; constructor).
  assert (T : twin p0 q0) by (split; [reflexivity|]; split; [reflexivity|]; now split).
  pose proof (init_twin order fuel order' fuel' logs p0 q0 T eq_refl eq_refl eq_refl eq_refl) as X.
  destruct (ps_init _ _ _ _ p0) as [p1| | |]; try discriminate. destruct (ps_init _ _ _ _ q0) as [q1| | |]; try discriminate.
  specialize (X _ _ eq_refl eq_refl). intros [= <-] [= <-]. exact X.
Qed.
Lemma twins_iterate p q n n' f anc m ks ks' : twins p q -> iterate n p f anc m false = Ok ks -> iterate n' q f anc m false = Ok ks' ->
  live_keys ks = live_keys ks'.
Proof.
  intros ((F & B & I & J) & _ & R). unfold iterate. rewrite <- F. intros C D. apply collect_walk in C, D.
  apply (walks_alike _ _ _ C _ _ D). unfold from_parser.
  assert (L : like match ps_root p with Some r => r | None => default_key end match ps_root q with Some r => r | None => default_key end).
  { destruct (ps_root p), (ps_root q); try contradiction; [exact R|]. split; [reflexivity|]. split; constructor. }
  revert L. generalize (match ps_root p with Some r => r | None => default_key end), (match ps_root q with Some r => r | None => default_key end).
  intros k k' (L & L1 & L2). split; [now apply inv_pair|]. cbn [cx_stack cx_offsets cx_filter cx_modified cx_ancestors].
  split; [rewrite !live_keys_cons, <- (like_state _ _ L), L; reflexivity|].
  split; [now constructor|]. split; [now constructor|]. split; [f_equal; now apply live_fields in L|now repeat split].
Qed.
End Live.

(** ** Look-ups *)
Lemma hd_like cs cs' : likes cs cs' -> like_o (hd_error cs) (hd_error cs').
Proof. now destruct 1. Qed.
Lemma sub_key_like fi f seq : forall fuel fuel' k k' a b, like k k' -> pair_ok a b ->
  rel like_o (get_sub_key_internal fuel fi a k f seq) (get_sub_key_internal fuel' fi b k' f seq).
Proof.
  induction fuel as [|fuel IH]; intros fuel' k k' a b L P; [now left|]. destruct fuel' as [|fuel']; [now right; left|].
  cbn [get_sub_key_internal]. pose proof (sub_keys_like fi f seq false k k' a b L P) as R.
  destruct (read_sub_keys_internal fi a k f seq false) as [[[[n cs] fd] s]| | |] eqn:RA;
    destruct (read_sub_keys_internal fi b k' f seq false) as [[[[n' cs'] fd'] s']| | |] eqn:RB;
    destruct R as [R|[R|R]]; try discriminate R; try contradiction; try (right; right; exact I); try (left; reflexivity); try (right; left; reflexivity).
  destruct R as ((_ & R2 & R3) & R4). cbn [fst snd] in R2, R3. subst fd'. cbv beta iota.
  pose proof (pair_next _ _ _ _ (read_sub_keys_state _ _ _ _ _ _ _ _ _ _ RA) (read_sub_keys_state _ _ _ _ _ _ _ _ _ _ RB) R4 P) as P'.
  destruct fd; [right; right; split; [now apply hd_like|exact R4]|]. clear RA RB R4. revert s s' P'.
  induction R2 as [|c c' cs cs' Lc R2 IHc]; intros s s' P'; [right; right; split; [exact I|apply P']|].
  specialize (IH fuel' c c' s s' Lc P').
  destruct (get_sub_key_internal fuel fi s c f seq) as [[o t]| | |] eqn:GA; destruct (get_sub_key_internal fuel' fi s' c' f seq) as [[o' t']| | |] eqn:GB;
    destruct IH as [H|[H|H]]; try discriminate H; try contradiction; try (right; right; exact I); try (left; reflexivity); try (right; left; reflexivity).
  destruct H as (H1 & H2). destruct o as [o|], o' as [o'|]; try contradiction; [right; right; now split|].
  apply IHc. exact (pair_next _ _ _ _ (Pure.gsk_state _ _ _ _ _ _ _ _ GA) (Pure.gsk_state _ _ _ _ _ _ _ _ GB) H2 P').
Qed.
Section Look.
Variables (full : bool) (hash : list N -> N).
Lemma twins_get_key p q n n' path hr k k' p' q' : twins full hash p q ->
  get_key n p path hr = Ok (k, p') -> get_key n' q path hr = Ok (k', q') -> option_map live_key k = option_map live_key k'.
Proof.
  intros ((F & B & I & J) & _ & _). unfold get_key, get_root_key, ps_hbin. rewrite <- B, <- F.
  destruct (ps_base_block p) as [bb|]; [|cbv beta iota; now intros [= <- _] [= <- _]].
  match goal with |- context [kn_read ?fi (ps_state p) ?o] => pose proof (read_like fi o _ _ (inv_pair _ _ _ _ I J)) as R;
    destruct (kn_read fi (ps_state p) o) as [[r s]| | |] eqn:RA; destruct (kn_read fi (ps_state q) o) as [[r' s']| | |] eqn:RB end;
    destruct R as [R|[R|R]]; try discriminate R; try contradiction; cbv beta iota; try discriminate; try (now intros [= <- _] [= <- _]).
  destruct R as (R1 & R2). cbv beta iota. destruct r as [r|], r' as [r'|]; try contradiction; [|now intros [= <- _] [= <- _]].
  cbn [like_o] in R1. cbn [ps_set_state ps_file ps_state]. rewrite <- F.
  assert (P : pair_ok s s') by exact (pair_next _ _ _ _ (kn_read_state _ _ _ _ _ RA) (kn_read_state _ _ _ _ _ RB) R2 (inv_pair _ _ _ _ I J)).
  assert (EP : kn_path r' = kn_path r) by (symmetry; destruct R1 as (R1 & _); now apply live_fields in R1).
  generalize (if hr then strip_root (trim_start_bs path) else trim_start_bs path). intros sub. unfold get_sub_key_by_path.
  destruct sub as [|x sub]; [cbv beta iota; intros [= <- _] [= <- _]; cbn [option_map]; f_equal; apply R1|]. rewrite EP.
  match goal with |- context [get_sub_key_internal n ?fi s r ?f ?sq] => pose proof (sub_key_like fi f sq n n' r r' s s' R1 P) as G;
    destruct (get_sub_key_internal n fi s r f sq) as [[o t]| | |]; try discriminate; destruct (get_sub_key_internal n' fi s' r' f sq) as [[o' t']| | |]; try discriminate end.
  destruct G as [G|[G|G]]; try discriminate G. destruct G as (G & _). cbv beta iota. intros [= <- _] [= <- _].
  destruct o, o'; try contradiction; [|reflexivity]. cbn [option_map]. f_equal. apply G.
Qed.
End Look.
