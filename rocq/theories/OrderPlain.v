(** The order of hash maps does not matter when recovery compares nothing. *)
From Verif Require Import Base BaseFacts LayoutSpec LayoutFacts HeaderFacts Util BaseBlock Types Value Node Recover Parser TxLog TxSpec TxApply TxBuild TreeOpen AnyOpen FolderSpec FolderFacts AbortSpec NoAbort DumpSpec DumpFacts.

Section Plain.
Variables (order order' : reg_items -> reg_items) (n n' : nat).
Lemma entries_any sec hbins es : forall s p items, ps_recover p = false ->
  update_entries order n sec hbins es s p items = update_entries order' n' sec hbins es s p items
  /\ forall s' i' p', update_entries order n sec hbins es s p items = Ok (s', i', p') -> ps_recover p' = false.
Proof.
  induction es as [|e es IH]; intros s p items R; cbn [update_entries].
  { split; [reflexivity|]. now intros ? ? ? [= _ _ <-]. }
  assert (D : forall (s : N) (i : reg_items) c, Ok (s, i, ps_log c p) = Ok (s, i, ps_log c p)
    /\ forall s' i' p', Ok (s, i, ps_log c p) = Ok (s', i', p') -> ps_recover p' = false).
  { intros. split; [reflexivity|]. now intros ? ? ? [= _ _ <-]. }
  destruct (le_valid_hashes e); [|apply D]. destruct (_ <? sec); [apply IH; exact R|]. destruct (negb _); [apply D|]. destruct (_ && _); [apply D|].
  cbv zeta. destruct (apply_pages _ _ _) as [b| | |] eqn:AP; [|split; [reflexivity|discriminate]..].
  cbv beta iota. unfold analyze_entry. change (ps_recover (ps_set_buffer b p)) with (ps_recover p). rewrite R. cbv beta iota. apply IH. exact R.
Qed.
Lemma logs_any sec logs : forall s p items, ps_recover p = false ->
  apply_logs order n sec logs s p items = apply_logs order' n' sec logs s p items.
Proof.
  induction logs as [|l logs IH]; intros s p items R; cbn [apply_logs]; [reflexivity|].
  destruct (sec <=? _); [|now apply IH]. destruct (_ || _); [|now apply IH]. unfold update_parser, base_block_info.
  destruct (ps_base_block p) as [b|]; [|reflexivity]. cbn [or_panic]. cbv beta iota.
  destruct (entries_any (bb_secondary_seq (bb_base b)) (bb_hive_bins_data_size (bb_base b)) (tl_entries l) 0 p items R) as (E & G). rewrite <- E.
  destruct (update_entries order n _ _ _ _ _ _) as [[[s1 i1] p1]| | |]; try reflexivity. cbv beta iota. apply IH. exact (G _ _ _ eq_refl).
Qed.
Lemma apply_any bad logs p : ps_recover p = false -> apply_transaction_logs order n bad logs p = apply_transaction_logs order' n' bad logs p.
Proof.
  intros R. unfold apply_transaction_logs. destruct logs as [|l logs]; [reflexivity|].
  destruct (prepare_logs bad p (l :: logs)) as [[[go p1] logs1]| | |] eqn:E; try reflexivity.
  assert (R1 : ps_recover p1 = false).
  { assert (X : forall p2, ps_recover p2 = false -> forall l2, (let* b := or_panic (ps_base_block p2) in
      if bb_primary_seq (bb_base b) =? bb_secondary_seq (bb_base b) then Ok (false, ps_log WarningTransactionLog p2, l2) else Ok (true, p2, l2)) = Ok (go, p1, logs1) -> ps_recover p1 = false).
    { intros p2 M2 l2. destruct (ps_base_block p2); [|discriminate]. cbn [or_panic]. destruct (_ =? _); intros [= _ <- _]; exact M2. }
    unfold prepare_logs in E. destruct bad.
    - destruct (handle_bad_checksum p (l :: logs)) as [[p2 logs2]| | |] eqn:H; try discriminate. cbv beta iota in E. apply X in E; [exact E|].
      unfold handle_bad_checksum in H. destruct (last _ _); [|discriminate]. cbn [or_panic] in H. cbv beta zeta iota in H.
      destruct (get_range _ _ _) in H; [|discriminate]. cbn [ok_or] in H. destruct (overwrite _ _ _) in H; [|discriminate]. cbn [or_panic] in H.
      destruct (init_base_block _) as [[[s b] p3]| | |] eqn:B in H; try discriminate. injection H as <- _.
      apply init_base_ok in B as (_ & _ & B & _). rewrite B. exact R.
    - cbv beta iota in E. now apply X in E. }
  cbv beta iota. destruct go; [|reflexivity]. unfold get_reg_items. rewrite R1. cbv beta iota. unfold base_block_info.
  destruct (ps_base_block p1) as [b|]; [|reflexivity]. cbn [or_panic]. cbv beta iota. now rewrite (logs_any _ _ _ _ _ R1).
Qed.
Lemma unrecovered_any hash full buffer files : build order n hash false full buffer files = build order' n' hash false full buffer files.
Proof.
  unfold build. destruct (TxLog.parse_logs files) as [[logs w]| | |]; try reflexivity. cbv beta iota zeta. fold (start hash false full buffer). unfold ps_init.
  destruct (init_base_block (start hash false full buffer)) as [[[s bad] p]| | |] eqn:I; try reflexivity.
  apply init_base_ok in I as (_ & _ & R & _). cbv beta iota. destruct s; [|reflexivity]. now rewrite (apply_any _ _ _ R).
Qed.
Lemma unreplayed_any hash recover full buffer files : no_replay buffer files ->
  build order n hash recover full buffer files = build order' n' hash recover full buffer files.
Proof.
  intros NR. destruct (TxLog.parse_logs files) as [[logs w]| | |] eqn:PL; [|unfold build; rewrite PL; reflexivity..].
  rewrite !(build_split _ _ _ _ _ _ _ _ _ PL). unfold ps_init. set (p0 := start hash recover full buffer).
  destruct (N.leb_spec 4096 (len buffer)) as [L|L]; [|rewrite init_fails; [reflexivity|change (ps_buffer p0) with buffer; lia]].
  destruct (list_eq_dec N.eq_dec (bytes_at buffer 0 4) REGF) as [T|T]; [|rewrite init_fails; [reflexivity|now intros [_ ?]]].
  destruct (init_base_block_spec p0 L T) as (name & bad & p1 & E1 & E2 & F1 & B1 & R1 & _ & _ & _ & CB). rewrite E2.
  change (ps_buffer p0) with buffer in *. destruct (is_supported (base_block_at buffer name)) eqn:SU; [|reflexivity]. cbv beta iota.
  destruct NR as [->|(C & D)]; [now injection PL as <- <-|].
  apply supported_at in SU. apply (CB SU) in C. subst bad.
  match goal with |- match match ?x with _ => _ end with _ => _ end = _ => destruct x as [p2| | |] eqn:E3; try reflexivity end.
  apply recover_same in E3 as (F2 & B2 & R2). cbv beta iota.
  unfold apply_transaction_logs. destruct logs as [|l logs]; [reflexivity|].
  unfold prepare_logs. cbv beta iota. rewrite B2, B1. cbn [or_panic]. cbn [base_block_at bb_base header_at bb_primary_seq bb_secondary_seq].
  rewrite D, N.eqb_refl. reflexivity.
Qed.
End Plain.
