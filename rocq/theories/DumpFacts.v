(** A run of the dump tool over a folder. *)
From Coq Require Import Permutation.
From Verif Require Import Base BaseFacts Util UtilSpec UtilText LayoutSpec LayoutFacts BaseBlock Types Value Node Recover Parser TxLog TxSpec
  NodeFrame TxParse TxApply TxBuild CellSpec CellFacts CellData CellList CellRead TreeSpec TreeRead HeaderFacts AnyFile TreeOpen AnyOpen Log Export Xlsx Json
  Folder FolderSpec FolderFacts AbortSpec NoAbort ExportSafe XlsxEnds BuildBytes
  ScanSpec ScanFacts FreeSpec AnalysisSpec AnalysisReach VersionFacts FreeKept AnalysisTrace RecIter Dump DumpSpec.

(** ** Iteration never fails *)
Lemma children_no_err fi path sm f sf seq m offs : forall st, read_children fi st path sm f sf seq m offs <> Err.
Proof.
  induction offs as [|o r IH]; intros st; cbn [read_children]; [discriminate|].
  destruct (kn_read _ _ _) as [[[c|] st1]| | |]; try discriminate; [|apply IH|]; specialize (IH st) as I0; try specialize (IH st1);
    destruct (read_children _ _ _ _ _ _ _ _ _) as [[[[a b] d] e]| | |]; cbv beta iota; congruence.
Qed.
Lemma visit_no_err fi cx k : visit fi cx k <> Err.
Proof.
  unfold visit. destruct (0 <? _); [|discriminate]. unfold read_sub_keys_internal.
  destruct (is_allocated _); [|discriminate]. destruct (1048576 <? _); [discriminate|]. destruct (0 <? _); [|discriminate].
  destruct (parse_sub_key_list _ _ _); try discriminate. cbv zeta.
  match goal with |- context [read_children ?a ?b ?c ?d ?e ?g ?h ?i ?j] => pose proof (children_no_err a c d e g h i j b) as N; destruct (read_children a b c d e g h i j) as [[[[x y] z] t]| | |] end;
    try discriminate. now elim N.
Qed.
Lemma pre_no_err fi : forall n cx, next_key_preorder n fi cx <> Err.
Proof.
  induction n as [|n IH]; intros cx; cbn [next_key_preorder]; [discriminate|]. destruct (cx_stack cx) as [|node rest]; [discriminate|].
  pose proof (visit_no_err fi (cx_set_stack rest cx) node) as V. destruct (visit _ _ _) as [[k c]| | |]; try discriminate; [|now elim V].
  cbv beta iota. destruct (_ || _); [discriminate|apply IH].
Qed.
Lemma post_no_err fi : forall n cx, next_key_postorder n fi cx <> Err.
Proof.
  induction n as [|n IH]; intros cx; cbn [next_key_postorder]; [discriminate|]. destruct (cx_stack cx) as [|node rest].
  { destruct (cx_return cx); [discriminate|]. cbv zeta. destruct (_ || _); discriminate. }
  pose proof (visit_no_err fi (cx_set_stack rest cx) node) as V. cbv zeta.
  destruct (cx_return cx) as [|l r]; [|destruct (_ =? _); [discriminate|]];
    destruct (visit _ _ _) as [[k c]| | |]; try discriminate; try (now elim V); cbv beta iota; apply IH.
Qed.
Lemma iterate_no_err n p f anc m post : iterate n p f anc m post <> Err.
Proof.
  unfold iterate. generalize (from_parser p m f anc). induction n as [|n IH]; intros cx; cbn [collect]; [discriminate|].
  pose proof (pre_no_err (ps_file p) (S n) cx) as A. pose proof (post_no_err (ps_file p) (S n) cx) as B.
  destruct post.
  - destruct (next_key_postorder (S n) _ cx) as [[[k|] c]| | |]; try discriminate; [|now elim B]. cbv beta iota. specialize (IH c). destruct (collect _ _ _ _); congruence.
  - destruct (next_key_preorder (S n) _ cx) as [[[k|] c]| | |]; try discriminate; [|now elim A]. cbv beta iota. specialize (IH c). destruct (collect _ _ _ _); congruence.
Qed.

(** ** Opening without recovery: no fuel is used *)
Section Opening.
Variables (order : reg_items -> reg_items).
Lemma entries_fuel n n' sec hbins es : forall s p items, ps_recover p = false ->
  update_entries order n sec hbins es s p items = update_entries order n' sec hbins es s p items /\ update_entries order n sec hbins es s p items <> OutOfFuel
  /\ forall s' i' p', update_entries order n sec hbins es s p items = Ok (s', i', p') -> ps_recover p' = false.
Proof.
  induction es as [|e es IH]; intros s p items R; cbn [update_entries].
  { split; [reflexivity|]. split; [discriminate|]. now intros ? ? ? [= _ _ <-]. }
  assert (D : forall (s : N) (i : reg_items) c, Ok (s, i, ps_log c p) = Ok (s, i, ps_log c p) /\ Ok (s, i, ps_log c p) <> OutOfFuel
    /\ forall s' i' p', Ok (s, i, ps_log c p) = Ok (s', i', p') -> ps_recover p' = false).
  { intros. split; [reflexivity|]. split; [discriminate|]. now intros ? ? ? [= _ _ <-]. }
  destruct (le_valid_hashes e); [|apply D]. destruct (_ <? sec); [apply IH; exact R|]. destruct (negb _); [apply D|]. destruct (_ && _); [apply D|].
  cbv zeta. destruct (apply_pages _ _ _) as [b| | |] eqn:AP; [|split; [reflexivity|split; discriminate]..|].
  - cbv beta iota. rewrite !analyze_off by exact R. cbv beta iota. apply IH. exact R.
  - exfalso. revert AP. generalize (if hbins <? le_hbins_size e then ps_buffer p ++ repeat 0 (N.to_nat (le_hbins_size e - hbins)) else ps_buffer p). induction (le_pages e) as [|pg pages J]; intros b; cbn [apply_pages]; [discriminate|].
    destruct (overwrite _ _ _); [cbn [ok_or]; apply J|discriminate].
Qed.
Lemma logs_fuel n n' sec logs : forall s p items, ps_recover p = false ->
  apply_logs order n sec logs s p items = apply_logs order n' sec logs s p items /\ apply_logs order n sec logs s p items <> OutOfFuel.
Proof.
  induction logs as [|l logs IH]; intros s p items R; cbn [apply_logs]; [split; [reflexivity|discriminate]|].
  destruct (sec <=? _); [|now apply IH]. destruct (_ || _); [|now apply IH]. unfold update_parser, base_block_info.
  destruct (ps_base_block p) as [b|]; [|split; [reflexivity|discriminate]]. cbn [or_panic]. cbv beta iota.
  destruct (entries_fuel n n' (bb_secondary_seq (bb_base b)) (bb_hive_bins_data_size (bb_base b)) (tl_entries l) 0 p items R) as (E & F & G). rewrite <- E.
  destruct (update_entries order n _ _ _ _ _ _) as [[[s1 i1] p1]| | |]; [|split; [reflexivity|discriminate]..|now elim F]. cbv beta iota. apply IH. exact (G _ _ _ eq_refl).
Qed.
Lemma calc_fuel i : calculate_checksum i <> OutOfFuel.
Proof.
  unfold calculate_checksum. assert (L : forall n j x, checksum_loop n i j x <> OutOfFuel).
  { induction n as [|n IH]; intros j x; cbn [checksum_loop]; [discriminate|]. destruct (get_range _ _ _); [cbn [ok_or]; apply IH|discriminate]. }
  specialize (L 127%nat 0 0). destruct (checksum_loop _ _ _ _); congruence.
Qed.
Lemma base_fuel p : init_base_block p <> OutOfFuel.
Proof.
  destruct (N.leb_spec 4096 (len (ps_buffer p))) as [L|L]; [|rewrite init_fails by lia; discriminate].
  destruct (list_eq_dec N.eq_dec (bytes_at (ps_buffer p) 0 4) REGF) as [T|T]; [|rewrite init_fails; [discriminate|now intros [_ ?]]].
  destruct (init_base_block_spec p L T) as (name & bad & p1 & _ & -> & _). discriminate.
Qed.
Lemma header_fuel n p : update_header n p <> OutOfFuel.
Proof.
  unfold update_header. destruct (overwrite _ _ _); [|discriminate]. cbn [or_panic]. destruct (overwrite _ _ _); [|discriminate]. cbn [or_panic].
  destruct (get_range _ _ _) as [h|]; [|discriminate]. cbn [or_panic]. pose proof (calc_fuel h) as C. destruct (calculate_checksum _); try discriminate; [|now elim C].
  cbv beta iota. destruct (overwrite _ _ _); [|discriminate]. cbn [or_panic].
  match goal with |- context [init_base_block ?q] => pose proof (base_fuel q) as B; destruct (init_base_block q) as [[[s b] p4]| | |] end; try discriminate. now elim B.
Qed.
Lemma apply_fuel n n' bad logs p : ps_recover p = false ->
  apply_transaction_logs order n bad logs p = apply_transaction_logs order n' bad logs p /\ apply_transaction_logs order n bad logs p <> OutOfFuel.
Proof.
  intros R. unfold apply_transaction_logs. destruct logs as [|l logs]; [split; [reflexivity|discriminate]|].
  destruct (prepare_logs bad p (l :: logs)) as [[[go p1] logs1]| | |] eqn:E; try (split; [reflexivity|discriminate]).
  - assert (R1 : ps_recover p1 = false).
    { assert (X : forall p2, ps_recover p2 = false -> forall l2, (let* b := or_panic (ps_base_block p2) in
        if bb_primary_seq (bb_base b) =? bb_secondary_seq (bb_base b) then Ok (false, ps_log WarningTransactionLog p2, l2) else Ok (true, p2, l2)) = Ok (go, p1, logs1) -> ps_recover p1 = false).
      { intros p2 M2 l2. destruct (ps_base_block p2); [|discriminate]. cbn [or_panic]. destruct (_ =? _); intros [= _ <- _]; exact M2. }
      unfold prepare_logs in E. destruct bad.
      - destruct (handle_bad_checksum p (l :: logs)) as [[p2 logs2]| | |] eqn:H; try discriminate. cbv beta iota in E. apply X in E; [exact E|].
        unfold handle_bad_checksum in H. destruct (last _ _); [|discriminate]. cbn [or_panic] in H. cbv beta zeta iota in H.
        destruct (get_range _ _ _) in H; [|discriminate]. cbn [ok_or] in H. destruct (overwrite _ _ _) in H; [|discriminate]. cbn [or_panic] in H.
        destruct (init_base_block _) as [[[s b] p3]| | |] eqn:B in H; try discriminate. injection H as <- _.
        apply init_base_ok in B as (_ & _ & B & _). rewrite B. exact R.
      - cbv beta iota in E. now apply X in E. }
    cbv beta iota. destruct go; [|split; [reflexivity|discriminate]]. unfold get_reg_items. rewrite R1. cbv beta iota. unfold base_block_info.
    destruct (ps_base_block p1) as [b|]; [|split; [reflexivity|discriminate]]. cbn [or_panic]. cbv beta iota.
    destruct (logs_fuel n n' (bb_secondary_seq (bb_base b)) logs1 0 p1 [] R1) as (L1 & L2). rewrite <- L1.
    destruct (apply_logs order n _ _ _ _ _) as [[s q]| | |]; [|split; [reflexivity|discriminate]..|now elim L2]. cbv beta iota. split; [reflexivity|]. apply header_fuel.
  - exfalso. revert E. unfold prepare_logs. destruct bad.
    + assert (H : handle_bad_checksum p (l :: logs) <> OutOfFuel).
      { unfold handle_bad_checksum. destruct (last _ _); [|discriminate]. cbn [or_panic]. cbv beta zeta iota. destruct (get_range _ _ _); [|discriminate]. cbn [ok_or].
        destruct (overwrite _ _ _); [|discriminate]. cbn [or_panic].
        match goal with |- context [init_base_block ?q] => pose proof (base_fuel q) as B; destruct (init_base_block q) as [[[s b] p4]| | |] end; try discriminate. now elim B. }
      destruct (handle_bad_checksum p (l :: logs)) as [[p2 l2]| | |]; try discriminate; [|now elim H]. cbv beta iota.
      destruct (ps_base_block p2); [|discriminate]. cbn [or_panic]. destruct (_ =? _); discriminate.
    + cbv beta iota. destruct (ps_base_block p); [|discriminate]. cbn [or_panic]. destruct (_ =? _); discriminate.
Qed.
Lemma parse_fuel files : TxLog.parse_logs files <> OutOfFuel.
Proof.
  unfold TxLog.parse_logs. assert (E : parse_each files <> OutOfFuel).
  { induction files as [|f files IH]; cbn [parse_each]; [discriminate|]. destruct f as [|x f].
    - destruct (parse_each files) as [[a b]| | |]; try discriminate. now elim IH.
    - pose proof (log_from_bytes_fuel (x :: f)) as L. destruct (log_from_bytes (x :: f)); try discriminate; [| |now elim L];
        destruct (parse_each files) as [[xs ys]| | |]; try discriminate; now elim IH. }
  destruct (parse_each files) as [[a b]| | |]; try discriminate. now elim E.
Qed.
Lemma apply_plain n bad logs hash full p p2 : plain hash full p -> apply_transaction_logs order n bad logs p = Ok p2 -> plain hash full p2.
Proof.
  intros P A. unfold apply_transaction_logs in A. destruct logs as [|l0 logs]; [injection A as <-; exact P|].
  destruct (prepare_logs bad p (l0 :: logs)) as [[[go p3] ls]| | |] eqn:PR; try discriminate. cbv beta iota in A.
  assert (Y : plain hash full p3).
  { unfold prepare_logs in PR.
    assert (Z : forall x, (if bad then handle_bad_checksum p (l0 :: logs) else Ok (p, l0 :: logs)) = Ok x -> plain hash full (fst x)).
    { intros x. destruct bad; [|intros [= <-]; exact P]. unfold handle_bad_checksum.
      destruct (last _ _); [|discriminate]. cbn [or_panic]. cbv beta iota.
      match goal with |- context [get_range ?a ?b ?c] => destruct (get_range a b c) end; [|discriminate]. cbn [ok_or]. cbv beta iota.
      destruct (overwrite _ _ _); [|discriminate]. cbn [or_panic]. cbv beta iota zeta.
      destruct (init_base_block _) as [[[s b] q]| | |] eqn:I2; try discriminate. intros [= <-].
      apply init_base_ok in I2 as (H & _ & R & S & _). cbn [fst]. exact (plain_of _ _ _ _ P R S). }
    destruct (if bad then _ else _) as [[p4 l4]| | |]; try discriminate. specialize (Z _ eq_refl). cbn [fst] in Z.
    cbv beta iota in PR. destruct (ps_base_block p4); [|discriminate]. cbn [or_panic] in PR. cbv beta iota in PR.
    destruct (_ =? _); injection PR as _ <- _; exact Z. }
  destruct go; [|injection A as <-; exact Y]. unfold get_reg_items in A. rewrite (proj1 Y) in A. cbv beta iota in A.
  destruct (base_block_info p3) as [[sec h]| | |]; try discriminate. cbv beta iota in A.
  destruct (apply_logs order n sec ls 0 p3 []) as [[m q]| | |] eqn:AL; try discriminate. cbv beta iota in A.
  apply (update_header_plain hash full) in A; [apply A|]. exact (apply_logs_plain _ _ _ _ _ _ _ _ _ _ AL Y).
Qed.
Lemma root_fuel hash full p : plain hash full p -> bytes_ok (ps_buffer p) -> init_root p <> OutOfFuel.
Proof.
  intros P B. unfold init_root. destruct (get_from _ _) as [i|]; [|discriminate]. cbn [ok_or].
  destruct (hbin_cases (ps_hbin p) i) as [(_ & _ & ->)|(_ & ->)]; [|discriminate]. cbv beta iota zeta.
  assert (Q : quiet (ps_state p)) by exact (plain_quiet _ _ _ P).
  assert (Z : st_root_offset (ps_state p) = 0).
  { destruct P as [_ P]. assert (X : st_root_offset (set_info [] (ps_state p)) = 0) by now rewrite P. exact X. }
  set (h := hbin_at _ _). change (ps_file (ps_set_hbin h p)) with (ps_file p). change (ps_state (ps_set_hbin h p)) with (ps_state p).
  set (o := mkOpt _ _ _ _ _ _).
  destruct (read_any (ps_file p) (ps_state p) o [92] B eq_refl text_nil (or_introl eq_refl) (or_introl Z) (or_intror Q)) as [E|(c & st & E & _)]; rewrite E; discriminate.
Qed.
Lemma build_fuel n n' hash full buffer files : bytes_ok buffer -> Forall bytes_ok files ->
  build order n hash false full buffer files = build order n' hash false full buffer files /\ build order n hash false full buffer files <> OutOfFuel.
Proof.
  intros B F. unfold build. pose proof (parse_fuel files) as PF. destruct (TxLog.parse_logs files) as [[logs w]| | |] eqn:PL; [|split; [reflexivity|discriminate]..|now elim PF].
  assert (LG : Forall log_good logs).
  { apply parse_logs_ok in PL as (P & _); [|exact F]. eapply Forall_impl; [|exact P]. intros l (f & I & E). rewrite Forall_forall in F.
    destruct (log_bytes_ok f l (F f I) E) as (X & Y & _). now split. }
  cbv beta iota zeta. fold (start hash false full buffer). unfold ps_init. pose proof (base_fuel (start hash false full buffer)) as BF.
  destruct (init_base_block (start hash false full buffer)) as [[[s bad] p]| | |] eqn:I; [|split; [reflexivity|discriminate]..|now elim BF].
  pose proof (base_bytes _ _ _ _ (B : bytes_ok (ps_buffer (start hash false full buffer))) I) as BP.
  apply init_base_ok in I as (_ & _ & R & S & _). assert (P : plain hash full p) by (split; [exact R|exact S]).
  cbv beta iota. destruct s; [|split; [reflexivity|discriminate]].
  destruct (apply_fuel n n' bad logs p R) as (A1 & A2). rewrite <- A1.
  destruct (apply_transaction_logs order n bad logs p) as [q| | |] eqn:A; [|split; [reflexivity|discriminate]..|now elim A2].
  cbv beta iota. split; [reflexivity|]. pose proof (apply_plain _ _ _ _ _ _ _ P A) as PQ. apply apply_bytes in A; [|exact LG|exact BP].
  pose proof (root_fuel _ _ _ PQ A) as RF. destruct (init_root q); try discriminate. now elim RF.
Qed.
(** With recovery, when no logs are replayed. *)
Lemma known_dec b : known_file_type b \/ ~ known_file_type b.
Proof. unfold known_file_type. destruct (N.eq_dec (num_at b 28 4) 0); [tauto|]. destruct (N.eq_dec (num_at b 28 4) 1); [tauto|]. destruct (N.eq_dec (num_at b 28 4) 6); tauto. Qed.
Lemma free_fuel fi st n : find_free_keys_and_values fi st n <> OutOfFuel.
Proof.
  unfold find_free_keys_and_values. assert (A : agree false st st) by apply agree_refl.
  destruct (recover_loop_ok fi st (S (length (fi_buffer fi))) st (fi_hbin fi) n A) as [E|(s & l & ks & vs & E & _)].
  { unfold len. lia. } { rewrite E. discriminate. } rewrite E. discriminate.
Qed.
Lemma no_logs_fuel n n' hash recover full buffer : bytes_ok buffer ->
  build order n hash recover full buffer [] = build order n' hash recover full buffer [] /\ build order n hash recover full buffer [] <> OutOfFuel.
Proof.
  intros B. split; [reflexivity|]. destruct recover; [|exact (proj2 (build_fuel n n hash full buffer [] B (Forall_nil _)))].
  rewrite (build_split _ _ _ _ _ _ [] [] [] eq_refl). unfold ps_init. pose proof (base_fuel (start hash true full buffer)) as BF.
  destruct (init_base_block (start hash true full buffer)) as [[[s bad] p]| | |] eqn:I; [|discriminate..|now elim BF].
  pose proof (base_bytes _ _ _ _ (B : bytes_ok (ps_buffer (start hash true full buffer))) I) as BP.
  pose proof (base_block_reached order n full hash (start hash true full buffer) _ _ _ (reached_new _ _ _ _) I) as RP. pose proof (base_info _ _ _ _ I) as (i1 & S1). cbv beta iota. destruct s; [|discriminate].
  destruct (ps_base_block p) as [bb|]; [|discriminate]. cbn [or_panic]. cbv beta iota.
  destruct (find_free_keys_and_values _ _ _) as [st| | |] eqn:F; [|discriminate..|now elim (free_fuel _ _ _ F)]. cbv beta iota.
  change (apply_transaction_logs order n bad [] (ps_set_state st p)) with (Ok (ps_set_state st p)). cbv beta iota.
  assert (RS : reached order n full hash st) by exact (reached_scan _ _ _ _ _ _ _ _ RP F).
  assert (ND : no_deleted_root st).
  { assert (Y : keyed (fun _ k => is_deleted_primary_file (kn_state k) = true) (st_deleted_keys (ps_state p))) by (rewrite S1; constructor).
    apply scan_primary in F; [|exact Y]. intros path ks k I1 J. left. apply primary_free. unfold keyed in F. rewrite Forall_forall in F. specialize (F _ I1). cbn [fst snd] in F.
    rewrite Forall_forall in F. now apply F. }
  assert (Q : calm st) by (split; [exact (reached_orderly _ _ _ _ _ RS ND)|apply (reached_inv _ _ _ _ _ RS)]).
  assert (Z : st_root_offset st = 0) by apply (reached_inv _ _ _ _ _ RS).
  assert (RF : init_root (ps_set_state st p) <> OutOfFuel).
  { unfold init_root. destruct (get_from _ _) as [i|]; [|discriminate]. cbn [ok_or].
    destruct (hbin_cases (ps_hbin (ps_set_state st p)) i) as [(_ & _ & ->)|(_ & ->)]; [|discriminate]. cbv beta iota zeta.
    set (h := hbin_at _ _). change (ps_file (ps_set_hbin h (ps_set_state st p))) with (ps_file p). change (ps_state (ps_set_hbin h (ps_set_state st p))) with st.
    set (o := mkOpt _ _ _ _ _ _).
    destruct (read_all (ps_file p) st o [92] BP eq_refl text_nil (or_introl eq_refl) (or_introl Z) Q) as [E|(c & st' & E & _)]; rewrite E; discriminate. }
  destruct (init_root _); try discriminate. now elim RF.
Qed.
Lemma unreplayed_fuel n n' hash recover full buffer files : bytes_ok buffer -> no_replay buffer files ->
  build order n hash recover full buffer files = build order n' hash recover full buffer files /\ build order n hash recover full buffer files <> OutOfFuel.
Proof.
  intros B [->|(C & D)]; [now apply no_logs_fuel|].
  pose proof (parse_fuel files) as PF. destruct (TxLog.parse_logs files) as [[logs w]| | |] eqn:PL; [|unfold build; rewrite PL; (split; [reflexivity|discriminate])..|now elim PF].
  split.
  - rewrite !(build_split _ _ _ _ _ _ _ _ _ PL). unfold ps_init. set (p0 := start hash recover full buffer).
    destruct (N.leb_spec 4096 (len buffer)) as [L|L]; [|rewrite init_fails; [reflexivity|change (ps_buffer p0) with buffer; lia]].
    destruct (list_eq_dec N.eq_dec (bytes_at buffer 0 4) REGF) as [T|T]; [|rewrite init_fails; [reflexivity|now intros [_ ?]]].
    destruct (init_base_block_spec p0 L T) as (name & bad & p1 & E1 & E2 & F1 & B1 & R1 & _ & _ & _ & CB). rewrite E2.
    change (ps_buffer p0) with buffer in *. destruct (is_supported (base_block_at buffer name)) eqn:SU; [|reflexivity]. cbv beta iota.
    apply supported_at in SU. apply (CB SU) in C. subst bad.
    match goal with |- match match ?x with _ => _ end with _ => _ end = _ => destruct x as [p2| | |] eqn:E3; try reflexivity end.
    apply recover_same in E3 as (F2 & B2 & R2). cbv beta iota.
    unfold apply_transaction_logs. destruct logs as [|l logs]; [reflexivity|].
    unfold prepare_logs. cbv beta iota. rewrite B2, B1. cbn [or_panic]. cbn [base_block_at bb_base header_at bb_primary_seq bb_secondary_seq].
    rewrite D, N.eqb_refl. reflexivity.
  - destruct (known_dec buffer) as [K|K].
    + pose proof (build_clean order n hash recover full buffer files logs w K C D PL) as X. pose proof (proj2 (no_logs_fuel n n hash recover full buffer B)) as Y.
      destruct (build order n hash recover full buffer files); try discriminate. destruct (build order n hash recover full buffer []); contradiction.
    + rewrite (build_split _ _ _ _ _ _ _ _ _ PL). unfold ps_init. pose proof (base_fuel (start hash recover full buffer)) as BF.
      destruct (init_base_block (start hash recover full buffer)) as [[[s bad] p]| | |] eqn:I; [|discriminate..|now elim BF].
      apply init_base_ok in I as (_ & _ & _ & _ & T). cbv beta iota. destruct s; [elim K; now apply T|discriminate].
Qed.
Lemma unreplayed_no_root n hash recover full buffer files q : known_file_type buffer -> no_replay buffer files ->
  build order n hash recover full buffer files = Ok q -> no_deleted_root (ps_state q).
Proof.
  intros K [->|(C & D)] E; [exact (no_logs_no_root _ _ _ _ _ _ _ K E)|].
  destruct (TxLog.parse_logs files) as [[logs w]| | |] eqn:PL; [|unfold build in E; rewrite PL in E; discriminate..].
  pose proof (build_clean order n hash recover full buffer files logs w K C D PL) as X. rewrite E in X.
  destruct (build order n hash recover full buffer []) as [q'| | |] eqn:E'; try contradiction.
  apply no_logs_no_root in E'; [|exact K]. destruct X as (_ & _ & _ & _ & _ & X).
  assert (Y : st_deleted_keys (ps_state q) = st_deleted_keys (ps_state q')) by (change (st_deleted_keys (set_info [] (ps_state q)) = st_deleted_keys (set_info [] (ps_state q'))); now rewrite X).
  unfold no_deleted_root in *. now rewrite Y.
Qed.
End Opening.

(** ** The run *)
Definition given (o : outside) (n : nat) (c : choices) (b : list N) (logs : list (list N)) : option (list N) :=
  match reg_dump o n c b logs with Written out => Some out | GivenUp => Some (os_left o) | _ => None end.
Definition goes_on (x : outcome) : Prop := x <> Aborted /\ x <> Endless.
Lemma files_run o n c f es : forall outs,
  (exists final, dump_files o n c f es outs = Finished final
     /\ final = fold_left (fun outs e => if is_reg_file (fst e) && file_has_size (snd e) then
          match given o n c (snd e) (match get_log_files (ch_skip_logs c) f (fst e) with Some l => l | None => [] end) with
          | Some out => aset beq (get_outpath (fst e) (extension_of (ch_type c))) out outs | None => outs end else outs) es outs
     /\ forall p b, In (p, b) es -> is_reg_file p && file_has_size b = true -> goes_on (process_file o n c f p b))
  \/ (exists outs' p b, dump_files o n c f es outs = Stopped outs' /\ In (p, b) es /\ is_reg_file p && file_has_size b = true /\ process_file o n c f p b = Aborted)
  \/ (exists outs' p b, dump_files o n c f es outs = Hanging outs' /\ In (p, b) es /\ is_reg_file p && file_has_size b = true /\ process_file o n c f p b = Endless).
Proof.
  induction es as [|[p b] es IH]; intros outs; cbn [dump_files fold_left fst snd].
  { left. exists outs. split; [reflexivity|]. split; [reflexivity|]. intros ? ? []. }
  assert (X : forall outs1 outs2, outs1 = outs2 -> (is_reg_file p && file_has_size b = true -> goes_on (process_file o n c f p b)) ->
    (exists final, dump_files o n c f es outs1 = Finished final
     /\ final = fold_left (fun outs e => if is_reg_file (fst e) && file_has_size (snd e) then
          match given o n c (snd e) (match get_log_files (ch_skip_logs c) f (fst e) with Some l => l | None => [] end) with
          | Some out => aset beq (get_outpath (fst e) (extension_of (ch_type c))) out outs | None => outs end else outs) es outs2
     /\ forall p' b', In (p', b') ((p, b) :: es) -> is_reg_file p' && file_has_size b' = true -> goes_on (process_file o n c f p' b'))
  \/ (exists outs' p' b', dump_files o n c f es outs1 = Stopped outs' /\ In (p', b') ((p, b) :: es) /\ is_reg_file p' && file_has_size b' = true /\ process_file o n c f p' b' = Aborted)
  \/ (exists outs' p' b', dump_files o n c f es outs1 = Hanging outs' /\ In (p', b') ((p, b) :: es) /\ is_reg_file p' && file_has_size b' = true /\ process_file o n c f p' b' = Endless)).
  { intros outs1 outs2 <- G. destruct (IH outs1) as [(fin & E & F & H)|[(o' & p' & b' & E & I & R)|(o' & p' & b' & E & I & R)]].
    - left. exists fin. split; [exact E|]. split; [exact F|]. intros p' b' [J|J]; [injection J as <- <-; exact G|now apply H].
    - right. left. exists o', p', b'. split; [exact E|]. split; [now right|exact R].
    - right. right. exists o', p', b'. split; [exact E|]. split; [now right|exact R]. }
  destruct (is_reg_file p && file_has_size b) eqn:H; [|apply X; [reflexivity|discriminate]].
  cbv zeta. unfold given. fold (process_file o n c f p b). destruct (process_file o n c f p b) as [|out| | |] eqn:P.
  - apply X; [reflexivity|]. intros _. now split.
  - apply X; [reflexivity|]. intros _. now split.
  - apply X; [reflexivity|]. intros _. now split.
  - right. left. exists outs, p, b. split; [reflexivity|]. split; [now left|]. now split.
  - right. right. exists outs, p, b. split; [reflexivity|]. split; [now left|]. now split.
Qed.
Lemma logs_used c f p b : hive_file p b -> used_logs (ch_skip_logs c) f p (match get_log_files (ch_skip_logs c) f p with Some l => l | None => [] end).
Proof.
  intros (_ & d & n & _ & -> & _). unfold used_logs. destruct (ch_skip_logs c); [reflexivity|].
  destruct (logs_given f d n) as (logs & -> & L). exact L.
Qed.
Lemma used_one s f p a b : NoDup (map fst f) -> used_logs s f p a -> used_logs s f p b -> a = b.
Proof. intros ND. unfold used_logs. destruct s; [now intros -> ->|]. intros A B. exact (logs_one f p a b ND A B). Qed.
Lemma run_outputs o n c f outs final : plain_folder f -> dump_folder o n c f outs = Finished final ->
  (forall p b logs, In (p, b) f -> hive_file p b -> used_logs (ch_skip_logs c) f p logs -> exists name, named_after p (extension_of (ch_type c)) name
     /\ match reg_dump o n c b logs with
        | NotOpened => output final name = output outs name
        | Written out => output final name = Some out
        | GivenUp => output final name = Some (os_left o)
        | Aborted | Endless => False
        end)
  /\ (forall name, output final name <> output outs name -> exists p b, In (p, b) f /\ hive_file p b /\ named_after p (extension_of (ch_type c)) name).
Proof.
  intros PF E. destruct (files_run o n c f f outs) as [(fin & E1 & F & H)|[(o' & p' & b' & E1 & _)|(o' & p' & b' & E1 & _)]];
    unfold dump_folder in E; rewrite E1 in E; try discriminate E. injection E as ->.
  assert (F2 : final = process_folder (given o n c) (ch_skip_logs c) (extension_of (ch_type c)) f outs) by exact F. clear F. subst final.
  destruct (folder_run (given o n c) (ch_skip_logs c) (extension_of (ch_type c)) f outs PF) as (A & B). split; [|exact B].
  intros p b logs I HF U. destruct (A p b logs I HF U) as (name & N & O). exists name. split; [exact N|]. rewrite O. unfold given.
  pose proof (logs_used c f p b HF) as U2. pose proof (used_one _ _ _ _ _ (proj1 PF) U U2) as EL. subst logs.
  specialize (H p b I (proj2 (hive_iff p b) HF)). unfold process_file in H. destruct (reg_dump _ _ _ _ _); try reflexivity; [apply (proj1 H eq_refl)|apply (proj2 H eq_refl)].
Qed.

(** ** What becomes of one hive *)
Lemma dump_safe o n c b logs : (forall m, Permutation (os_order o m) m) -> bytes_ok b -> Forall bytes_ok logs -> (forall l pos, In l logs -> ~ short_entry l pos) ->
  (ch_type c = CommonOut -> known_file_type b) -> reg_dump o n c b logs <> Aborted.
Proof.
  intros PERM B BL NS K. unfold reg_dump. assert (SB : no_abort (build (os_order o) n (os_hash o) (ch_recover c) (ch_full c) b logs)).
  { apply build_safe. intros l I P. destruct (log_panic l P) as (pos & S). exact (NS l pos I S). }
  destruct (build _ _ _ _ _ _ _) as [p| | |] eqn:E; try discriminate; [|now elim SB]. cbv zeta.
  pose proof (build_bytes _ _ _ _ _ _ _ _ B BL E) as BP. pose proof (NoAbort.build_opened _ _ _ _ _ _ _ _ E) as O.
  pose proof (fresh_iterate _ O BP n (chosen_filter c) false true false) as SI. unfold write_common, write_tsv, write_json, write_xlsx.
  destruct (ch_type c) eqn:T.
  - destruct (iterate _ _ _ _ _ _); try discriminate. now elim SI.
  - destruct (build_sk (os_order o) n (ch_full c) (os_hash o) PERM _ _ _ _ (K eq_refl) E) as (M & r0 & R & S).
    destruct (iterate _ _ _ _ _ _) as [ks| | |] eqn:I; try discriminate; [|now elim SI]. pose proof (iterate_sk _ _ _ _ _ _ _ _ M R S I) as F.
    cbv beta iota. destruct (common_ok (os_render o) ks F) as (t & ->). discriminate.
  - destruct (iterate _ _ _ _ _ _); try discriminate. now elim SI.
  - destruct (iterate _ _ _ _ _ _) as [ks| | |] eqn:I; try discriminate; [|now elim SI]. cbv beta iota.
    match goal with |- context [xlsx_export ?a ?b ?d ?e ?g ?h ?i] => pose proof (xlsx_export_safe a b d e g h i) as X; destruct (xlsx_export a b d e g h i) end; try discriminate. now elim X.
Qed.
Lemma dump_text o n c b logs : (forall m, Permutation (os_order o m) m) -> ch_type c <> XlsxOut -> (ch_type c = CommonOut -> known_file_type b) -> reg_dump o n c b logs <> GivenUp.
Proof.
  intros PERM NX K. unfold reg_dump. destruct (build _ _ _ _ _ _ _) as [p| | |] eqn:E; try discriminate. cbv zeta.
  unfold write_common, write_tsv, write_json. pose proof (iterate_no_err n p (chosen_filter c) false true false) as NE.
  destruct (ch_type c) eqn:T; [| | |now elim NX].
  - destruct (iterate _ _ _ _ _ _); try discriminate. now elim NE.
  - destruct (build_sk (os_order o) n (ch_full c) (os_hash o) PERM _ _ _ _ (K eq_refl) E) as (M & r0 & R & S).
    destruct (iterate _ _ _ _ _ _) as [ks| | |] eqn:I; try discriminate; [|now elim NE]. pose proof (iterate_sk _ _ _ _ _ _ _ _ M R S I) as F.
    cbv beta iota. destruct (common_ok (os_render o) ks F) as (t & ->). discriminate.
  - destruct (iterate _ _ _ _ _ _); try discriminate. now elim NE.
Qed.
(** A file of an unknown type shows one key without a name, or none. *)
Lemma odd_root order n hash recover full buffer files p : ~ known_file_type buffer -> build order n hash recover full buffer files = Ok p -> ps_root p = None.
Proof.
  intros K. unfold build. destruct (TxLog.parse_logs files) as [[logs w]| | |]; try discriminate. cbv beta iota zeta. unfold ps_init.
  destruct (init_base_block _) as [[[s bad] q]| | |] eqn:I; try discriminate. pose proof (base_root _ _ _ _ I) as R.
  apply init_base_ok in I as (_ & _ & _ & _ & T). cbv beta iota. destruct s; [elim K; now apply T|]. cbv beta iota. intros [= <-]. exact R.
Qed.
Lemma odd_iterate p n f : ps_root p = None -> exists ks, iterate (3 + n) p f false true false = Ok ks.
Proof.
  intros R. unfold iterate, from_parser. rewrite R. cbn [Nat.add collect next_key_preorder cx_stack].
  change (visit (ps_file p) (cx_set_stack [] (mkCx (ps_state p) f [default_key] [kn_offset default_key] [] true false)) default_key)
    with (Ok (default_key, mkCx (ps_state p) f [] [kn_offset default_key] [] true false)). cbv beta iota. cbn [cx_ancestors cx_filter orb].
  destruct (negb _ || _); cbv beta iota; [|eexists; reflexivity]. cbn [collect next_key_preorder cx_stack]. eexists. reflexivity.
Qed.
Lemma open_fuel o n n' c b logs : bytes_ok b -> Forall bytes_ok logs -> (ch_recover c = true -> no_replay b logs) ->
  build (os_order o) n (os_hash o) (ch_recover c) (ch_full c) b logs = build (os_order o) n' (os_hash o) (ch_recover c) (ch_full c) b logs
  /\ build (os_order o) n (os_hash o) (ch_recover c) (ch_full c) b logs <> OutOfFuel.
Proof. intros B BL RC. destruct (ch_recover c); [apply unreplayed_fuel; auto|now apply build_fuel]. Qed.
Lemma dump_ends o c b logs : bytes_ok b -> Forall bytes_ok logs -> (ch_recover c = true -> no_replay b logs) -> (forall m, Permutation (os_order o m) m) ->
  (ch_type c = CommonOut -> known_file_type b) ->
  (forall q, build (os_order o) 0 (os_hash o) (ch_recover c) (ch_full c) b logs = Ok q -> no_list_cycle (ps_file q)) ->
  exists bound, forall n, (bound < n)%nat -> reg_dump o n c b logs <> Endless.
Proof.
  intros B BL RC PERM K NC. pose proof (fun n => open_fuel o n 0 c b logs B BL RC) as OF.
  destruct (build (os_order o) 0 (os_hash o) (ch_recover c) (ch_full c) b logs) as [q| | |] eqn:E0.
  - assert (I : exists bound, forall n, (bound < n)%nat -> exists ks, iterate n q (chosen_filter c) false true false = Ok ks).
    { destruct (known_dec b) as [KT|KT].
      - pose proof (build_bytes _ _ _ _ _ _ _ _ B BL E0) as BP. destruct (ch_recover c) eqn:R.
        + destruct (all_iterate _ _ _ _ _ _ _ _ KT E0 BP (NC q eq_refl)) as (bound & H); [exact (unreplayed_no_root _ _ _ _ _ _ _ _ KT (RC eq_refl) E0)|].
          exists bound. intros n L. destruct (H n (chosen_filter c) false true false L) as (ks & IK & _). eauto.
        + exists (2 * S (N.to_nat (len (ps_buffer q))))%nat. intros n L.
          pose proof (build_any _ _ _ _ _ _ _ KT E0 BP) as A. destruct (any_iterate q n (chosen_filter c) false true false A (NC q eq_refl) L) as (ks & IK & _). eauto.
      - exists 2%nat. intros n L. replace n with (3 + (n - 3))%nat by lia. apply odd_iterate. exact (odd_root _ _ _ _ _ _ _ _ KT E0). }
    destruct I as (bound & I). exists bound. intros n L. unfold reg_dump. rewrite (proj1 (OF n)). cbv zeta. destruct (I n L) as (ks & IK).
    unfold write_common, write_tsv, write_json, write_xlsx. rewrite IK. destruct (ch_type c) eqn:T; [discriminate| |discriminate|].
    + destruct (build_sk (os_order o) 0 (ch_full c) (os_hash o) PERM _ _ _ _ (K eq_refl) E0) as (M & r0 & R & S).
      pose proof (iterate_sk _ _ _ _ _ _ _ _ M R S IK) as F. destruct (common_ok (os_render o) ks F) as (t & ->). discriminate.
    + cbv beta iota. match goal with |- context [xlsx_export ?a ?b ?d ?e ?g ?h ?i] => pose proof (xlsx_export_ended a b d e g h i) as X; destruct (xlsx_export a b d e g h i) end; try discriminate. now elim X.
  - exists 0%nat. intros n _. unfold reg_dump. rewrite (proj1 (OF n)). discriminate.
  - exists 0%nat. intros n _. unfold reg_dump. rewrite (proj1 (OF n)). discriminate.
  - now elim (proj2 (OF 0%nat)).
Qed.

(** ** All hives of the folder *)
Lemma logs_bytes_in f p logs s : (forall p b, In (p, b) f -> bytes_ok b) -> used_logs s f p logs -> Forall bytes_ok logs.
Proof.
  intros H. unfold used_logs. destruct s; [intros ->; constructor|]. intros (d & n & a & b & _ & A & B & ->). apply Forall_app.
  split; [destruct A as [x I|]|destruct B as [x I|]]; repeat constructor; exact (H _ _ I).
Qed.
Lemma run_not_stopped o n c f outs : (forall m, Permutation (os_order o m) m) -> harmless c f -> forall outs', dump_folder o n c f outs <> Stopped outs'.
Proof.
  intros PERM [HB HL HT] outs' E. destruct (files_run o n c f f outs) as [(fin & E1 & _)|[(o' & p & b & E1 & I & H & P)|(o' & p' & b' & E1 & _)]];
    unfold dump_folder in E; rewrite E1 in E; try discriminate E. apply hive_iff in H. pose proof (logs_used c f p b H) as U.
  apply (dump_safe o n c b _ PERM (HB _ _ I)) in P; [exact P|exact (logs_bytes_in _ _ _ _ HB U)| |].
  - intros l pos J. exact (HL p b _ l pos I H U J).
  - intros T. exact (HT T p b I H).
Qed.
Lemma run_hanging o n c f outs outs' : dump_folder o n c f outs = Hanging outs' ->
  exists p b logs, In (p, b) f /\ hive_file p b /\ used_logs (ch_skip_logs c) f p logs /\ reg_dump o n c b logs = Endless.
Proof.
  intros E. destruct (files_run o n c f f outs) as [(fin & E1 & _)|[(o' & p & b & E1 & _)|(o' & p & b & E1 & I & H & P)]];
    unfold dump_folder in E; rewrite E1 in E; try discriminate E. apply hive_iff in H. exists p, b. eexists.
  split; [exact I|]. split; [exact H|]. split; [exact (logs_used c f p b H)|exact P].
Qed.
Lemma run_complete o c f : (forall m, Permutation (os_order o m) m) -> harmless c f -> recovery_ends c f -> no_cycles o c f ->
  exists bound, forall n outs, (bound < n)%nat -> exists final, dump_folder o n c f outs = Finished final.
Proof.
  intros PERM HM RC NC. pose proof HM as [HB HL HT].
  assert (X : forall es, incl es f -> exists bound, forall n, (bound < n)%nat -> forall p b, In (p, b) es -> hive_file p b -> process_file o n c f p b <> Endless).
  { induction es as [|[p b] es IH]; intros IN; [exists 0%nat; intros ? ? ? ? []|].
    destruct IH as (b1 & H1); [intros e J; apply IN; now right|].
    assert (D : hive_file p b \/ ~ hive_file p b).
    { destruct (is_reg_file p && file_has_size b) eqn:Q; [left; now apply hive_iff|right; intros Y; apply hive_iff in Y; congruence]. }
    destruct D as [D|D].
    - pose proof (logs_used c f p b D) as U. assert (I : In (p, b) f) by (apply IN; now left).
      destruct (dump_ends o c b _ (HB _ _ I) (logs_bytes_in _ _ _ _ HB U) (fun R => RC R p b _ I D U) PERM (fun T => HT T p b I D) (fun q E => NC p b _ q I D U E)) as (b2 & H2).
      exists (Nat.max b1 b2). intros n L p' b' [J|J] Y; [injection J as <- <-; apply H2; lia|apply H1; [lia|exact J|exact Y]].
    - exists b1. intros n L p' b' [J|J] Y; [injection J as <- <-; contradiction|now apply H1]. }
  destruct (X f (incl_refl f)) as (bound & H). exists bound. intros n outs L.
  destruct (files_run o n c f f outs) as [(fin & E & _)|[(o' & p & b & E & _)|(o' & p & b & E & I & R & P)]].
  - exists fin. exact E.
  - elim (run_not_stopped o n c f outs PERM HM o' E).
  - apply hive_iff in R. elim (H n L p b I R P).
Qed.
