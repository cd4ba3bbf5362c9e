(** Two openings of the same hive with the same logs. *)
From Coq Require Import Permutation.
From Verif Require Import Base BaseFacts Util UtilSpec UtilText UtilLz LayoutSpec LayoutFacts HeaderFacts BaseBlock Types Value Node Recover
  Parser TxLog TxSpec NodeFrame TxApply TxBuild CellSpec CellFacts CellData CellList CellRead TreeRead AnyFile ScanSpec ScanFacts Recovered LiveSpec LiveView LiveOpen
  Pure TreeOpen StoreFacts AnalysisSpec AnalysisFacts AnalysisStore AnalysisAll AnalysisReach VersionSpec VersionFacts AnalysisTrace StoreSpec Ends RecIter FreeSpec FreeKept
  BuildBytes NoAbort AnyOpen DumpSpec DumpFacts ReplaySpec ReplayFacts RecoverOpen OrderSpec OrderFacts.

(** What the scan of the free space notes is what the hive opened without logs holds. *)
Lemma plain_scan order n hash full buffer q0 nm bad p1 st :
  init_base_block (start hash true full buffer) = Ok (true, bad, p1) -> ps_base_block p1 = Some (base_block_at buffer nm) ->
  find_free_keys_and_values (ps_file p1) (ps_state p1) (num_at buffer 40 4) = Ok st -> build order n hash true full buffer [] = Ok q0 ->
  st_deleted_keys (ps_state q0) = st_deleted_keys st /\ st_deleted_values (ps_state q0) = st_deleted_values st.
Proof.
  intros E B F. rewrite (build_split order n hash true full buffer [] [] [] eq_refl). unfold ps_init. rewrite E. cbv beta iota. rewrite B. cbn [or_panic]. cbv beta iota.
  change (bb_hive_bins_data_size (bb_base (base_block_at buffer nm))) with (num_at buffer 40 4). rewrite F. cbv beta iota. cbn [apply_transaction_logs].
  destruct (init_root (ps_set_state st p1)) as [q| | |] eqn:I; try discriminate. cbv beta iota. intros [= <-]. apply init_root_state in I. cbn [ps_set_state ps_state set_info st_deleted_keys st_deleted_values].
  rewrite I. now split.
Qed.
Lemma alike_self order order' n full hash (S : Prop) p : ps_hbin p = 4096 -> ps_recover p = true -> reached order n full hash (ps_state p) -> reached order' n full hash (ps_state p) ->
  st_deleted_keys (ps_state p) = [] -> (S -> st_deleted_values (ps_state p) = []) -> alike order order' n full hash S p p.
Proof.
  intros H R A B K V. constructor; try assumption; try reflexivity.
  - apply agree_refl.
  - now rewrite K.
  - now rewrite K.
  - intros HS. now rewrite (V HS).
  - intros HS path m. reflexivity.
Qed.
Lemma same_self q : same_but_deleted q q. Proof. repeat split. Qed.
Lemma build_alike order order' order0 n n0 hash full buffer files q0 q q' :
  (forall m, Permutation (order m) m) -> (forall m, Permutation (order' m) m) -> Forall bytes_ok files -> numbered buffer files -> rooted_replay buffer files ->
  build order0 n0 hash true full buffer [] = Ok q0 -> st_deleted_keys (ps_state q0) = [] ->
  build order n hash true full buffer files = Ok q -> build order' n hash true full buffer files = Ok q' ->
  agree false (ps_state q) (ps_state q') /\ same_but_deleted q q' /\ (st_deleted_values (ps_state q0) = [] -> forall path, deleted_values_at path q = deleted_values_at path q').
Proof.
  intros PO PO' BF NU (name & ST) Q0 DK.
  destruct (TxLog.parse_logs files) as [[logs w]| | |] eqn:PL; [|unfold build; rewrite PL; discriminate..].
  rewrite !(build_split _ _ _ _ _ _ _ _ _ PL). unfold ps_init. set (p0 := start hash true full buffer).
  assert (EQ : forall (P : Prop) (r : parser), Ok r = Ok q -> Ok r = Ok q' -> agree false (ps_state q) (ps_state q') /\ same_but_deleted q q' /\ (P -> forall path, deleted_values_at path q = deleted_values_at path q')).
  { intros P r [= <-] [= <-]. split; [apply agree_refl|]. split; [apply same_self|reflexivity]. }
  destruct (N.leb_spec 4096 (len buffer)) as [L|L]; [|rewrite init_fails; [discriminate|change (ps_buffer p0) with buffer; lia]].
  destruct (list_eq_dec N.eq_dec (bytes_at buffer 0 4) REGF) as [T|T]; [|rewrite init_fails; [discriminate|now intros [_ ?]]].
  destruct (init_base_block_spec p0 L T) as (nm & bad & p1 & E1 & E2 & F1 & B1 & R1 & _ & _ & _ & CB).
  pose proof (base_info _ _ _ _ E2) as (i1 & S1).
  assert (RP : forall o, reached o n full hash (ps_state p1)) by (intros o; exact (base_block_reached o n full hash p0 _ _ _ (reached_new _ _ _ _) E2)).
  rewrite E2. change (ps_buffer p0) with buffer in *. destruct (is_supported (base_block_at buffer nm)) eqn:SU; [|cbv beta iota; apply EQ].
  apply supported_at in SU. specialize (CB SU). cbv beta iota. rewrite B1. cbn [or_panic]. cbv beta iota.
  change (bb_hive_bins_data_size (bb_base (base_block_at buffer nm))) with (num_at buffer 40 4).
  destruct (find_free_keys_and_values (ps_file p1) (ps_state p1) (num_at buffer 40 4)) as [st| | |] eqn:F; try discriminate. cbv beta iota.
  destruct (plain_scan _ _ _ _ _ _ _ _ _ _ E2 B1 F Q0) as (PK & PV). rewrite DK in PK. rewrite PV. clear PV.
  set (p2 := ps_set_state st p1). set (S := st_deleted_values st = []).
  assert (RS : forall o, reached o n full hash st) by (intros o; exact (reached_scan _ _ _ _ _ _ _ _ (RP o) F)).
  assert (P2F : ps_file p2 = mkFI 4096 buffer) by exact F1.
  assert (P2B : ps_base_block p2 = Some (base_block_at buffer nm)) by exact B1.
  destruct (parse_logs_ok files _ w BF PL) as [PF1 PE].
  unfold apply_transaction_logs. destruct logs as [|l logs].
  { destruct (init_root p2); try discriminate. cbv beta iota. apply EQ. }
  assert (MID : forall x b0 nm0 logs0, starts buffer files b0 logs0 -> Forall (fun l => Forall entry_ok (tl_entries l)) logs0 ->
    ps_file x = mkFI 4096 b0 -> ps_base_block x = Some (base_block_at b0 nm0) -> ps_recover x = true -> (exists i, ps_state x = set_info i st) ->
    forall r r', (let* p := (let* (go, p, logs) := (let* b := or_panic (ps_base_block x) in if bb_primary_seq (bb_base b) =? bb_secondary_seq (bb_base b) then Ok (false, ps_log WarningTransactionLog x, logs0) else Ok (true, x, logs0)) in
      if go : bool then let* (items, p) := get_reg_items n p 0 in let* (sec, _) := base_block_info p in let* (s, p) := apply_logs order n sec logs 0 p items in update_header s p else Ok p) in init_root p) = Ok r ->
    (let* p := (let* (go, p, logs) := (let* b := or_panic (ps_base_block x) in if bb_primary_seq (bb_base b) =? bb_secondary_seq (bb_base b) then Ok (false, ps_log WarningTransactionLog x, logs0) else Ok (true, x, logs0)) in
      if go : bool then let* (items, p) := get_reg_items n p 0 in let* (sec, _) := base_block_info p in let* (s, p) := apply_logs order' n sec logs 0 p items in update_header s p else Ok p) in init_root p) = Ok r' ->
    r = r' \/ alike order order' n full hash S r r' /\ ps_root r' = ps_root r).
  { intros x b0 nm0 logs0 S0 PE0 QF QB QR (i & QS) r r'. rewrite QB. cbn [or_panic]. cbv beta iota.
    assert (Z : 0 < num_at b0 8 4) by exact (NU _ _ S0).
    destruct (bb_primary_seq (bb_base (base_block_at b0 nm0)) =? bb_secondary_seq (bb_base (base_block_at b0 nm0))).
    { cbv beta iota. intros X Y. left. rewrite X in Y. now injection Y. }
    cbv beta iota. destruct (get_reg_items n x 0) as [[items p3]| | |] eqn:GI; try discriminate. cbv beta iota.
    destruct (base_block_info p3) as [[sec z]| | |] eqn:BI; try discriminate. cbv beta iota.
    destruct (apply_logs order n sec logs0 0 p3 items) as [[s1 pa]| | |] eqn:A1; try discriminate. cbv beta iota.
    destruct (apply_logs order' n sec logs0 0 p3 items) as [[s2 qa]| | |] eqn:A2; [|discriminate..]. cbv beta iota.
    destruct (update_header s1 pa) as [pf| | |] eqn:H1; try discriminate. destruct (update_header s2 qa) as [qf| | |] eqn:H2; [|discriminate..]. cbv beta iota. intros I1 I2. right.
    eapply (replay_alike order order' n full hash name S PO PO' logs0 x b0 nm0 items p3 sec z s1 pa s2 qa pf qf r r'); try eassumption.
    - apply alike_self.
      + unfold ps_hbin. now rewrite QF.
      + exact QR.
      + rewrite QS. apply reached_info, RS.
      + rewrite QS. apply reached_info, RS.
      + rewrite QS. now symmetry.
      + rewrite QS. auto.
    - rewrite QS. now symmetry.
    - rewrite QS. auto.
    - intros es m l0 rest b' C E O. apply ST. now exists b0, logs0, es, m, l0, rest. }
  assert (DONE : forall r r', r = r' \/ alike order order' n full hash S r r' /\ ps_root r' = ps_root r ->
    Ok (ps_set_state (set_info (st_info (ps_state r) ++ w) (ps_state r)) r) = Ok q -> Ok (ps_set_state (set_info (st_info (ps_state r') ++ w) (ps_state r')) r') = Ok q' ->
    agree false (ps_state q) (ps_state q') /\ same_but_deleted q q' /\ (st_deleted_values st = [] -> forall path, deleted_values_at path q = deleted_values_at path q')).
  { intros r r' [->|(A & R)] [= <-] [= <-]; [split; [apply agree_refl|]; split; [apply same_self|reflexivity]|]. split; [exact (agree_info _ _ (al_agree _ _ _ _ _ _ _ _ A))|]. split.
    - split; [exact (eq_sym (al_file _ _ _ _ _ _ _ _ A))|]. split; [exact (eq_sym R)|]. cbn [ps_set_state ps_state set_info st_info st_modified_keys st_modified_values].
      split; [now rewrite (al_info _ _ _ _ _ _ _ _ A)|]. split; [exact (eq_sym (al_mk _ _ _ _ _ _ _ _ A))|exact (eq_sym (al_mv _ _ _ _ _ _ _ _ A))].
    - intros HS path. unfold deleted_values_at. cbn [ps_set_state ps_state set_info st_deleted_values]. apply same_sorted. exact (al_vals _ _ _ _ _ _ _ _ A HS path). }
  destruct bad.
  - unfold prepare_logs, handle_bad_checksum. cbv beta iota.
    set (p2' := ps_log WarningBaseBlock p2).
    destruct (List.last (map Some (l :: logs)) None) as [newest|] eqn:LA; [|cbn [or_panic]; cbv beta iota; discriminate].
    pose proof (last_in _ _ LA) as IN.
    rewrite Forall_forall in PF1. destruct (PF1 _ IN) as (f & IF & FL).
    rewrite Forall_forall in BF. destruct (log_bytes_ok f newest (BF f IF) FL) as (_ & HB & HL & HE & HP & HR).
    cbn [or_panic]. cbv beta iota.
    assert (PB2 : ps_buffer p2' = buffer) by (unfold ps_buffer; change (ps_file p2') with (ps_file p2); now rewrite P2F).
    rewrite PB2. unfold BASE_BLOCK_LEN. rewrite get_range_at by lia. cbn [ok_or]. cbv beta iota.
    destruct (overwrite_fit buffer 0 (tl_base_bytes newest)) as [b0 E0]; [lia|]. rewrite E0. cbv beta iota.
    pose proof (overwrite_some _ _ _ _ E0) as (_ & L0 & _ & H0). rewrite HL in H0.
    assert (HO : header_of f buffer b0).
    { split; [exact L0|]. split.
      - rewrite <- HE. apply nth_ext with (d := 0) (d' := 0).
        + pose proof (len_bytes_at b0 0 512). unfold len in *. lia.
        + intros i I. assert (i < 512)%nat by (pose proof (len_bytes_at b0 0 512); unfold len in *; lia).
          unfold bytes_at. rewrite nth_firstn by lia. cbn [N.to_nat skipn].
          replace i with (N.to_nat (N.of_nat i)) at 1 by lia. rewrite H0.
          destruct (N.leb_spec 0 (N.of_nat i)); [|lia].
          destruct (N.ltb_spec (N.of_nat i) (0 + 512)); [|lia]. cbn [andb]. f_equal. lia.
      - intros i I. rewrite H0. destruct (N.ltb_spec i (0 + 512)); [lia|]. now rewrite andb_false_r. }
    assert (T0 : bytes_at b0 0 4 = REGF).
    { rewrite <- HR. destruct HO as (_ & HO & _).
      assert (forall x, firstn 4 (bytes_at x 0 512) = bytes_at x 0 4) as X.
      { intros x. unfold bytes_at. rewrite firstn_firstn. f_equal. }
      now rewrite <- (X b0), <- (X f), HO. }
    destruct (init_base_block_spec (ps_set_buffer b0 p2')) as (nm0 & bad0 & p5 & _ & E6 & F6 & B6 & R6 & _).
    { change (ps_buffer (ps_set_buffer b0 p2')) with b0. lia. }
    { exact T0. }
    pose proof (base_info _ _ _ _ E6) as (i6 & S6).
    change (ps_buffer (ps_set_buffer b0 p2')) with b0 in *.
    cbn [or_panic]. cbv beta iota. rewrite E6. cbv beta iota.
    assert (M : forall r r', _) by exact (fun r r' => MID p5 b0 nm0 (if 1 <? len (l :: logs) then tl (l :: logs) else l :: logs)
      ltac:(exists (l :: logs), w; split; [exact PL|]; right; split; [intros C; now apply CB in C|]; now exists f, newest)
      ltac:(destruct (_ <? _); [|exact PE]; inversion PE; assumption) F6 B6 ltac:(rewrite R6; exact R1) ltac:(rewrite S6; eexists; reflexivity) r r').
    intros X Y. match type of X with (let* p := ?a in _) = _ => destruct a as [r| | |] eqn:X1; try discriminate end.
    match type of Y with (let* p := ?a in _) = _ => destruct a as [r'| | |] eqn:Y1; try discriminate end. exact (DONE r r' (M r r' eq_refl eq_refl) X Y).
  - unfold prepare_logs. cbv beta iota.
    assert (M : forall r r', _) by exact (fun r r' => MID p2 buffer nm (l :: logs)
      ltac:(exists (l :: logs), w; split; [exact PL|]; left; split; [left; now apply CB|now split]) PE P2F P2B R1 ltac:(exists (st_info st); exact (eq_sym (set_info_id _))) r r').
    intros X Y. match type of X with (let* p := ?a in _) = _ => destruct a as [r| | |] eqn:X1; try discriminate end.
    match type of Y with (let* p := ?a in _) = _ => destruct a as [r'| | |] eqn:Y1; try discriminate end. exact (DONE r r' (M r r' eq_refl eq_refl) X Y).
Qed.

(** What is read from a key in both. *)
Lemma finish_set_deleted st l k : finish st (kn_set_deleted l k) = kn_set_deleted l (finish st k).
Proof. unfold finish. cbv zeta. change (lookup_path (kn_set_deleted l k)) with (lookup_path k). destruct (aget beq _ (st_modified_keys st)); reflexivity. Qed.
Lemma noted_read fi st o k s : op_modified o = true -> kn_read fi st o = Ok (Some k, s) ->
  exists k0 l, kn_read fi st (unnoted o) = Ok (Some k0, s) /\ k = kn_set_deleted l (finish s k0) /\ root_only st s.
Proof.
  intros M R. pose proof (kn_read_state _ _ _ _ _ R) as RO. rewrite (read_noted _ _ _ M) in R. destruct (kn_read fi st (unnoted o)) as [[[k0|] s1]| | |] eqn:E; try discriminate.
  destruct (update_modified_lists _ _ _) as [k1| | |] eqn:U; try discriminate. injection R as <- <-. exists k0. pose proof E as E0. unfold kn_read in E. destruct (get_from _ _) as [b|]; [|discriminate]. cbn [ok_or] in E.
  apply slice_facts in E as (_ & K1 & K2 & _); [|reflexivity]. revert U. unfold uml_fuel. rewrite uml_eq, K1. cbn [is_deleted_primary_file].
  destruct (aget beq _ (st_deleted_keys s1)) as [dks|].
  - destruct (note _ _ _ _) as [l| | |]; try discriminate. intros [= <-]. exists l. split; [reflexivity|]. split; [apply finish_set_deleted|exact RO].
  - intros [= <-]. exists (kn_deleted k0). split; [reflexivity|]. split; [|exact RO]. rewrite <- finish_set_deleted. f_equal. now destruct k0.
Qed.
Lemma reads_alike q q' o k k' s s' : agree false (ps_state q) (ps_state q') -> same_but_deleted q q' -> (forall path, deleted_values_at path q = deleted_values_at path q') ->
  op_modified o = true -> kn_read (ps_file q) (ps_state q) o = Ok (Some k, s) -> kn_read (ps_file q') (ps_state q') o = Ok (Some k', s') ->
  kn_set_deleted [] k = kn_set_deleted [] k'.
Proof.
  intros A (F & _ & _ & MK & MV) D M R R'. apply noted_read in R as (k0 & l & R & -> & RO); [|exact M]. apply noted_read in R' as (k0' & l' & R' & -> & RO'); [|exact M].
  rewrite <- F in R'. pose proof (kn_read_agree false _ _ (ps_file q) (unnoted o) eq_refl A) as X. rewrite R, R' in X. destruct X as (X & _). injection X as <-.
  unfold root_only in RO, RO'. assert (E : finish s k0 = finish s' k0); [|rewrite E; reflexivity].
  rewrite !finish_held. cbv zeta. assert (H : sort_by vle (held beq (lookup_path k0) (st_deleted_values s)) = sort_by vle (held beq (lookup_path k0) (st_deleted_values s'))).
  { rewrite RO, RO'. exact (D (lookup_path k0)). }
  rewrite H. rewrite RO, RO'. cbn [set_root_offset st_modified_keys st_modified_values]. now rewrite MK, MV.
Qed.

(** ** A way to show that every file of a replay has its root *)
Definition root_file (name : list N) (b : list N) : bool :=
  (4128 <=? len b) && beq (bytes_at b 4096 4) HBIN
  && (4 <=? len (rest_at b 4128)) && (72 <=? abs_size (i32_at (rest_at b 4128) 0)) && (abs_size (i32_at (rest_at b 4128) 0) <=? len (rest_at b 4128))
  && beq (bytes_at (rest_at b 4128) 4 2) [110; 107] && (80 + num_at (rest_at b 4128) 76 2 <=? len (rest_at b 4128))
  && N.testbit (num_at b 4134 2) 2
  && match string_from_bytes (N.testbit (num_at b 4134 2) 5) (bytes_at b 4208 (num_at b 4204 2)) (num_at b 4204 2) with Ok (n, _) => beq n name | _ => false end.
Lemma root_file_good name b : root_file name b = true ->
  rooted b /\ N.testbit (num_at b 4134 2) 2 = true /\ forall n, name_at (mkFI 4096 b) 4128 n -> n = name.
Proof.
  unfold root_file. intros H. repeat match goal with X : andb _ _ = true |- _ => apply andb_true_iff in X as [? ?] end.
  repeat match goal with X : (_ <=? _) = true |- _ => apply N.leb_le in X | X : beq _ _ = true |- _ => apply beq_eq in X end.
  split; [repeat split; assumption|]. split; [assumption|]. intros n (w & X). cbn [fi_buffer] in X.
  change (4128 + 6) with 4134 in X. change (4128 + 80) with 4208 in X. change (4128 + 76) with 4204 in X.
  match goal with Y : match _ with Ok _ => _ | _ => _ end = true |- _ => rewrite X in Y; now apply beq_eq end.
Qed.
Definition rooted_b (name buffer : list N) (files : list (list N)) : bool :=
  match TxLog.parse_logs files with
  | Ok ([l], _) => forallb (fun e => le_valid_hashes e && (num_at buffer 8 4 <=? le_seq e)) (tl_entries l)
      && forallb (fun es => match overlay (num_at buffer 40 4) es buffer with Ok b => root_file name b | _ => false end) (firsts (tl_entries l))
  | _ => false
  end.
Lemma rooted_check name buffer files : checksum_right buffer -> rooted_b name buffer files = true -> rooted_replay buffer files.
Proof.
  intros C. unfold rooted_b. destruct (TxLog.parse_logs files) as [[[|l [|? ?]] w]| | |] eqn:PL; try discriminate. intros H. apply andb_true_iff in H as (H1 & H2).
  exists name. intros b (b0 & logs & es & m & first & rest & (all & w' & P & S) & CH & E & O). rewrite PL in P. injection P as <- <-.
  destruct S as [(_ & -> & ->)|(X & _)]; [|contradiction].
  assert (FR : forall x, forallb (fun e => le_valid_hashes e && (num_at buffer 8 4 <=? le_seq e)) x = true -> fresh (num_at buffer 8 4) x = x).
  { induction x as [|e x IH]; [reflexivity|]. cbn [forallb]. intros F. apply andb_true_iff in F as (F1 & F2). apply andb_true_iff in F1 as (F0 & F1).
    rewrite fresh_cons, F0, F1. now rewrite (IH F2). }
  assert (IN : In first (firsts (tl_entries l))).
  { inversion CH as [|? ? ? ? ? ? CH2|? ? ? a es2 ? EL AP CH2]; subst.
    - inversion CH2; subst. destruct first; [destruct (tl_entries l); now left|discriminate].
    - inversion CH2; subst. rewrite app_nil_r in *. destruct AP as (rest2 & AP & _). rewrite (FR _ H1) in AP. 
      match goal with X : a = first ++ rest |- _ => rewrite X in AP end. rewrite <- app_assoc in AP. exact (firsts_in _ _ _ AP). }
  rewrite forallb_forall in H2. specialize (H2 _ IN). destruct (overlay (num_at buffer 40 4) first buffer) as [b1| | |] eqn:OV; try discriminate.
  apply overlay_is in OV as (OV & _). rewrite (overlaid_one _ _ _ _ _ _ O OV). exact (root_file_good name b1 H2).
Qed.
