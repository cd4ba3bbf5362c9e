(** What is in the parser's buffer after opening a file made of bytes, with logs
    made of bytes, is bytes. *)
From Verif Require Import Base BaseFacts Util UtilSpec LayoutSpec LayoutFacts HeaderFacts BaseBlock Types Value Node Recover
  Parser TxLog TxSpec NodeFrame TxParse TxApply TxBuild CellSpec TreeOpen.

Lemma overwrite_bytes b dst src b' : bytes_ok b -> bytes_ok src -> overwrite b dst src = Some b' -> bytes_ok b'.
Proof.
  intros B S. unfold overwrite. destruct (_ <=? _); [|discriminate]. intros [= <-]. rewrite !bytes_ok_app.
  split; [now apply bytes_ok_firstn|]. split; [exact S|now apply bytes_ok_skipn].
Qed.
Lemma zeros_bytes n : bytes_ok (repeat 0 n).
Proof. induction n as [|n IH]; [constructor|]. cbn [repeat]. constructor; [reflexivity|exact IH]. Qed.
Lemma pages_bytes hbin pages : Forall (fun p => bytes_ok (dp_bytes p)) pages -> forall b b', bytes_ok b -> apply_pages hbin pages b = Ok b' -> bytes_ok b'.
Proof.
  induction 1 as [|p pages P F IH]; intros b b' B; cbn [apply_pages]; [now intros [= <-]|].
  destruct (overwrite _ _ _) eqn:E; [|discriminate]. cbn [ok_or]. apply overwrite_bytes in E; [|exact B|exact P]. now apply IH.
Qed.

Section Build.
Variables (order : reg_items -> reg_items) (fuel : nat).
Lemma hive_bytes p q : same_hive p q -> bytes_ok (ps_buffer p) -> bytes_ok (ps_buffer q).
Proof. intros (F & _). unfold ps_buffer. now rewrite F. Qed.
Lemma entries_bytes sec hbins es : Forall entry_ok es -> forall n p items n' i' p', bytes_ok (ps_buffer p) ->
  update_entries order fuel sec hbins es n p items = Ok (n', i', p') -> bytes_ok (ps_buffer p').
Proof.
  induction 1 as [|e es EO F IH]; intros n p items n' i' p' B; cbn [update_entries]; [now intros [= _ _ <-]|].
  destruct (le_valid_hashes e); [|now intros [= _ _ <-]].
  destruct (_ <? sec); [now apply IH|]. destruct (negb _); [now intros [= _ _ <-]|].
  destruct (_ && _); [now intros [= _ _ <-]|].
  cbv zeta. destruct (apply_pages _ _ _) as [b| | |] eqn:A; try discriminate. cbv beta iota.
  apply pages_bytes in A; [|apply EO|destruct (_ <? _); [apply bytes_ok_app; split; [exact B|apply zeros_bytes]|exact B]].
  destruct (analyze_entry _ _ _ _ _ _) as [[i1 p1]| | |] eqn:E; try discriminate. cbv beta iota.
  apply analyze_same in E. apply IH. exact (hive_bytes _ _ E A).
Qed.
Lemma logs_bytes sec logs : Forall (fun l => Forall entry_ok (tl_entries l)) logs -> forall n p items n' p', bytes_ok (ps_buffer p) ->
  apply_logs order fuel sec logs n p items = Ok (n', p') -> bytes_ok (ps_buffer p').
Proof.
  induction 1 as [|l logs L F IH]; intros n p items n' p' B; cbn [apply_logs]; [now intros [= _ <-]|].
  destruct (sec <=? _); [|now apply IH]. destruct (_ || _); [|now apply IH].
  unfold update_parser. destruct (base_block_info p) as [[s h]| | |]; try discriminate. cbv beta iota.
  destruct (update_entries _ _ _ _ _ _ _ _) as [[[n1 i1] p1]| | |] eqn:E; try discriminate. cbv beta iota.
  apply entries_bytes in E; [now apply IH|exact L|exact B].
Qed.
Lemma base_bytes p s b p' : bytes_ok (ps_buffer p) -> init_base_block p = Ok (s, b, p') -> bytes_ok (ps_buffer p').
Proof. intros B E. apply init_base_ok in E as (_ & -> & _). exact B. Qed.
Lemma header_bytes n p p' : bytes_ok (ps_buffer p) -> update_header n p = Ok p' -> bytes_ok (ps_buffer p').
Proof.
  intros B. unfold update_header. destruct (overwrite _ _ _) as [b1|] eqn:E1; [|discriminate]. cbn [or_panic].
  apply overwrite_bytes in E1; [|exact B|apply enc_bytes].
  destruct (overwrite b1 _ _) as [b2|] eqn:E2; [|discriminate]. cbn [or_panic]. apply overwrite_bytes in E2; [|exact E1|apply enc_bytes].
  destruct (get_range _ _ _); [|discriminate]. cbn [or_panic]. destruct (calculate_checksum _); try discriminate. cbv beta iota.
  destruct (overwrite b2 _ _) as [b3|] eqn:E3; [|discriminate]. cbn [or_panic]. apply overwrite_bytes in E3; [|exact E2|apply enc_bytes].
  destruct (init_base_block _) as [[[s b] p4]| | |] eqn:I; try discriminate. apply base_bytes in I; [|exact E3]. now intros [= <-].
Qed.
Lemma last_in {A} (l : list A) x : last (map Some l) None = Some x -> In x l.
Proof.
  induction l as [|a [|b l] IH]; [discriminate|intros [= ->]; now left|]. intros E. right. apply IH. exact E.
Qed.
Definition log_good (l : transaction_log) : Prop := bytes_ok (tl_base_bytes l) /\ Forall entry_ok (tl_entries l).
Lemma apply_bytes bad logs p p' : Forall log_good logs -> bytes_ok (ps_buffer p) -> apply_transaction_logs order fuel bad logs p = Ok p' -> bytes_ok (ps_buffer p').
Proof.
  intros L M. unfold apply_transaction_logs. destruct logs as [|l logs]; [now intros [= <-]|].
  destruct (prepare_logs bad p (l :: logs)) as [[[go p1] logs1]| | |] eqn:E; try discriminate.
  assert (M1 : bytes_ok (ps_buffer p1) /\ Forall log_good logs1).
  { assert (X : forall p2, bytes_ok (ps_buffer p2) -> forall l2, Forall log_good l2 -> (let* b := or_panic (ps_base_block p2) in
        if bb_primary_seq (bb_base b) =? bb_secondary_seq (bb_base b) then Ok (false, ps_log WarningTransactionLog p2, l2) else Ok (true, p2, l2)) = Ok (go, p1, logs1) -> bytes_ok (ps_buffer p1) /\ Forall log_good logs1).
    { intros p2 M2 l2 L2. destruct (ps_base_block p2); [|discriminate]. cbn [or_panic]. destruct (_ =? _); intros [= _ <- <-]; now split. }
    unfold prepare_logs in E. destruct bad.
    - destruct (handle_bad_checksum p (l :: logs)) as [[p2 logs2]| | |] eqn:H; try discriminate. cbv beta iota in E.
      unfold handle_bad_checksum in H. destruct (last _ _) as [newest|] eqn:LL; [|discriminate]. cbn [or_panic] in H. cbv beta zeta iota in H. apply last_in in LL.
      destruct (get_range _ _ _) in H; [|discriminate]. cbn [ok_or] in H. destruct (overwrite _ _ _) as [b|] eqn:O in H; [|discriminate]. cbn [or_panic] in H.
      apply overwrite_bytes in O; [|exact M|rewrite Forall_forall in L; apply (L _ LL)].
      destruct (init_base_block _) as [[[s c] p3]| | |] eqn:B in H; try discriminate. apply base_bytes in B; [|exact O]. injection H as <- <-.
      apply X in E; [exact E|exact B|]. destruct (1 <? _); [|exact L]. cbn [tl]. now inversion L.
    - cbv beta iota in E. now apply X in E. }
  destruct M1 as (M1 & L1). cbv beta iota. destruct go; [|now intros [= <-]].
  destruct (get_reg_items fuel p1 0) as [[items p2]| | |] eqn:G; try discriminate. apply get_reg_items_same in G. pose proof (hive_bytes _ _ G M1) as M2.
  cbv beta iota. destruct (base_block_info p2) as [[sec h]| | |]; try discriminate. cbv beta iota.
  destruct (apply_logs _ _ _ _ _ _ _) as [[n p3]| | |] eqn:A; try discriminate. cbv beta iota.
  apply logs_bytes in A; [now apply header_bytes| |exact M2]. eapply Forall_impl; [|exact L1]. now intros x (_ & X).
Qed.
Lemma build_bytes hash recover full buffer files q : bytes_ok buffer -> Forall bytes_ok files ->
  build order fuel hash recover full buffer files = Ok q -> bytes_ok (ps_buffer q).
Proof.
  intros B F. unfold build. destruct (parse_logs files) as [[logs w]| | |] eqn:PL; try discriminate.
  assert (LG : Forall log_good logs).
  { apply parse_logs_ok in PL as (P & _); [|exact F]. eapply Forall_impl; [|exact P]. intros l (f & I & E). rewrite Forall_forall in F.
    destruct (log_bytes_ok f l (F f I) E) as (X & Y & _). now split. }
  cbv beta iota zeta. unfold ps_init.
  destruct (init_base_block _) as [[[s bad] p]| | |] eqn:I; try discriminate. apply base_bytes in I; [|exact B]. cbv beta iota.
  destruct s; [|now intros [= <-]].
  match goal with |- match ?x with _ => _ end = _ -> _ => destruct x as [p1| | |] eqn:E; try discriminate end.
  assert (M : bytes_ok (ps_buffer p1)).
  { assert (X : forall p2, bytes_ok (ps_buffer p2) -> match apply_transaction_logs order fuel bad logs p2 with Ok p => init_root p | Err => Err | Panic => Panic | OutOfFuel => OutOfFuel end = Ok p1 ->
      bytes_ok (ps_buffer p1)).
    { intros p2 M2. destruct (apply_transaction_logs order fuel bad logs p2) as [p3| | |] eqn:A; try discriminate. apply apply_bytes in A; [|exact LG|exact M2].
      intros R. apply init_root_same in R. exact (hive_bytes _ _ R A). }
    destruct recover; [|exact (X p I E)]. destruct (ps_base_block p) as [bb|]; [|discriminate]. cbn [or_panic] in E. cbv beta iota in E.
    destruct (find_free_keys_and_values _ _ _) as [st| | |] in E; try discriminate. exact (X (ps_set_state st p) I E). }
  cbv beta iota. now intros [= <-].
Qed.
End Build.
Lemma files_check fs : forallb (forallb (fun x => x <? 256)) fs = true -> Forall bytes_ok fs.
Proof.
  intros E. apply Forall_forall. intros f I. rewrite forallb_forall in E. specialize (E f I). apply Forall_forall. intros x J.
  rewrite forallb_forall in E. now apply N.ltb_lt, E.
Qed.
