(** A look-up by path does not miss a key there is a readable way to, in any file. *)
From Verif Require Import Base BaseFacts Util UtilSpec LayoutSpec LayoutFacts BaseBlock Types Value Node Recover Parser TxLog TxSpec NodeFrame
  CellSpec CellFacts CellRead TreeSpec TreeRead UtilText UtilLz TreeFilter AnyFile TreeUse NavFacts Ends LookEnds CutPath FoundSpec FoundFacts.

Lemma split_two a b : split_bs (a ++ 92 :: b) = split_bs a ++ split_bs b.
Proof.
  induction a as [|c a IH]; [reflexivity|]. cbn [app split_bs]. rewrite IH. unfold BS. destruct (c =? 92); [reflexivity|].
  destruct (split_bs a) as [|s r] eqn:E; [now apply split_some in E|reflexivity].
Qed.
Lemma split_one s : ~ In 92 s -> split_bs s = [s].
Proof.
  induction s as [|c s IH]; [reflexivity|]. intros NI. cbn [split_bs]. unfold BS. destruct (N.eqb_spec c 92) as [->|]; [elim NI; now left|].
  rewrite IH; [reflexivity|]. intros I. apply NI. now right.
Qed.
Lemma split_names names : names <> [] -> Forall (fun n => ~ In 92 n) names -> split_bs (joined names) = names.
Proof.
  intros NE F. induction F as [|n r H F IH]; [contradiction|]. cbn [joined]. destruct r as [|m r]; [now apply split_one|].
  rewrite split_two, split_one, IH by (assumption || discriminate). reflexivity.
Qed.
Lemma segments_match l : forall w r, map to_lower w = map to_lower l ++ r ->
  match_segments l (map (fun s => ComponentString (to_lower s)) w) = match r with [] => KeyMatch | _ => IterateKeys end.
Proof.
  induction l as [|s l IH]; intros w r E.
  - destruct w; cbn in E; subst r; reflexivity.
  - destruct w as [|c w]; [discriminate|]. cbn [map app] in E. injection E as E1 E2. cbn [map match_segments comp_match]. rewrite E1, beq_refl. now apply IH.
Qed.
Lemma read_has fi st o path q sm seq name : rq_has_root q = true -> readable fi o -> name_at fi o name ->
  match_segments (split_bs (to_lower (path ++ [92] ++ name))) (rq_path q) <> NoMatch ->
  exists k st', kn_read fi st (mkOpt o path (Some (Some q)) sm seq false) = Ok (Some k, st') /\ kn_offset k = o /\ kn_path k = path ++ [92] ++ name /\ live_key fi k
  /\ (match_segments (split_bs (to_lower (path ++ [92] ++ name))) (rq_path q) = KeyMatch -> is_exact k = true).
Proof.
  intros H (LO & NK) (w0 & NA) M. unfold kn_read. cbn [op_offset op_path op_filter op_self_match op_seq op_modified].
  unfold get_from. destruct (N.leb_spec o (len (fi_buffer fi))); [|lia]. cbn [ok_or]. fold (rest_at (fi_buffer fi) o). set (s := rest_at (fi_buffer fi) o) in *.
  unfold read_from_slice. cbn [op_offset op_path op_filter op_self_match op_seq op_modified].
  destruct (kn_cases st s o path seq) as [(_ & nm & w & NM & E)|(N & _)]; [|contradiction]. rewrite E.
  cbv beta iota. set (k0 := kn_at _ _ _ _ _ _ _).
  assert (nm = name) as ->.
  { assert (X : string_from_bytes (N.testbit (num_at (fi_buffer fi) (o + 6) 2) 5)
      (bytes_at (fi_buffer fi) (o + 80) (num_at (fi_buffer fi) (o + 76) 2)) (num_at (fi_buffer fi) (o + 76) 2) = Ok (nm, w))
      by (rewrite <- !num_at_rest, <- bytes_at_rest, <- compressed_flag; exact NM).
    congruence. }
  set (G := fun k => kn_offset k = o /\ kn_path k = path ++ [92] ++ name /\ live_key fi k).
  assert (K0 : G k0).
  { split; [reflexivity|]. split; [reflexivity|]. split; [split|split; [|reflexivity]].
    - unfold k0; cbn [kn_detail kn_offset kn_at nk_detail_at kd_sublist]. unfold s. now rewrite num_at_rest.
    - exists w0. exact NA.
    - unfold k0; cbn [kn_detail kn_offset kn_at nk_detail_at kd_nsub]. unfold s. now rewrite num_at_rest. }
  unfold check_cell. rewrite H, andb_false_r. cbv zeta. destruct (st_get_root_path_offset _ _) as [x st1].
  unfold check_key_match. rewrite H. cbv zeta. rewrite str_from_0. cbv beta iota. change (kn_path k0) with (path ++ [92] ++ name).
  set (fl := match_segments _ _) in *.
  assert (V : forall b, exists k1, (if b : bool then let* (k, ok) := read_values fi st1 seq k0 in Ok (if ok : bool then k else kn_add_log WarningParse k) else Ok k0) = Ok k1 /\ G k1).
  { intros b. destruct b; [|eauto]. destruct (read_values_total fi st1 seq k0) as (k2 & ok & RV). rewrite RV. cbv beta iota. eexists. split; [reflexivity|].
    apply read_values_keeps in RV as (V0 & V1 & V2 & V3 & _ & V5). assert (Y : G k2) by (unfold G, live_key, cell_of; rewrite V0, V1, V2, V3, V5; exact K0).
    destruct ok; exact Y. }
  destruct fl; [now elim M| |].
  - match goal with |- context [if ?b then _ else Ok k0] => destruct (V b) as (k1 & -> & G1) end.
    cbv beta iota zeta. eexists. eexists. split; [reflexivity|]. split; [apply G1|]. split; [apply G1|]. split; [apply G1|discriminate].
  - match goal with |- context [if ?b then _ else Ok k0] => destruct (V b) as (k1 & -> & G1) end.
    cbv beta iota zeta. eexists. eexists. split; [reflexivity|]. split; [apply G1|]. split; [apply G1|]. split; [apply G1|reflexivity].
Qed.
Lemma children_has fi path sm f q seq offs c name : rq_has_root q = true -> In c offs -> readable fi c -> name_at fi c name ->
  match_segments (split_bs (to_lower (path ++ [92] ++ name))) (rq_path q) <> NoMatch -> forall st cs found logs st',
  read_children fi st path sm f (Some (Some q)) seq false offs = Ok (cs, found, logs, st') ->
  (match_segments (split_bs (to_lower (path ++ [92] ++ name))) (rq_path q) = KeyMatch -> found = true)
  /\ exists k, In k cs /\ kn_offset k = c /\ kn_path k = path ++ [92] ++ name /\ live_key fi k.
Proof.
  intros H I RD NA M. induction offs as [|o r IH]; [contradiction|]. intros st cs found logs st'. cbn [read_children].
  destruct I as [->|I].
  - destruct (read_has fi st c path q sm seq name H RD NA M) as (k & st1 & -> & K1 & K2 & K3 & K4).
    destruct (read_children _ _ _ _ _ _ _ _ r) as [[[[cs2 found2] logs2] st2]| | |]; try discriminate. intros [= <- <- _ _].
    split; [intros E; now rewrite (K4 E)|]. eexists. split; [now left|].
    unfold child_filter_state. destruct (kn_filter k); [|destruct sm; [|destruct (f_is_valid f)]]; (split; [exact K1|]; split; [exact K2|exact K3]).
  - specialize (IH I). destruct (kn_read _ _ _) as [[[d|] st1]| | |]; try discriminate.
    + destruct (read_children _ _ _ _ _ _ _ _ r) as [[[[cs2 found2] logs2] st2]| | |] eqn:R; try discriminate. intros [= <- <- _ _].
      destruct (IH _ _ _ _ _ R) as (I1 & k & I2 & I3). split; [intros E; rewrite (I1 E); apply orb_true_r|]. exists k. split; [now right|exact I3].
    + apply IH.
    + destruct (read_children _ _ _ _ _ _ _ _ r) as [[[[cs2 found2] logs2] st2]| | |] eqn:R; try discriminate. intros [= <- <- _ _]. exact (IH _ _ _ _ _ R).
Qed.
Lemma not_missed fi q w : rq_has_root q = true -> rq_children q = false -> rq_path q = map (fun s => ComponentString (to_lower s)) w ->
  forall n st k names o st', live_key fi k -> names <> [] -> Forall (fun m => ~ In 92 m) names -> way_down fi (kn_offset k) names ->
  map to_lower w = map to_lower (split_bs (kn_path k)) ++ map to_lower names ->
  get_sub_key_internal n fi st k (Some q) None = Ok (o, st') -> o <> None.
Proof.
  intros H C Q. induction n as [|n IH]; intros st k names o st' LK NE PN WD E; [discriminate|]. cbn [get_sub_key_internal].
  destruct (read_sub_keys_internal fi st k (Some q) None false) as [[[[k1 cs] found] st1]| | |] eqn:R; try discriminate. cbv beta iota.
  destruct (sub_keys_outcome _ _ _ _ _ _ _ _ _ H C R) as (_ & O2).
  inversion WD as [|? c name names' CN (offs & PO & IO) RD NA WD']; subst; [contradiction|]. inversion PN as [|? ? PN1 PN2]; subst.
  assert (SP : map to_lower (split_bs (to_lower (kn_path k ++ [92] ++ name))) = map to_lower (split_bs (kn_path k)) ++ [to_lower name]).
  { rewrite <- split_lowered, lower_twice, split_lowered. cbn [app]. rewrite split_two, (split_one name PN1), map_app. reflexivity. }
  assert (MS : match_segments (split_bs (to_lower (kn_path k ++ [92] ++ name))) (rq_path q) = match map to_lower names' with [] => KeyMatch | _ => IterateKeys end).
  { rewrite Q. apply segments_match. rewrite SP, E. cbn [map]. now rewrite <- app_assoc. }
  assert (X : (match_segments (split_bs (to_lower (kn_path k ++ [92] ++ name))) (rq_path q) = KeyMatch -> found = true)
    /\ exists x, In x cs /\ kn_offset x = c /\ kn_path x = kn_path k ++ [92] ++ name /\ live_key fi x).
  { revert R. destruct LK as ((CS & _) & NS & ST). unfold read_sub_keys_internal. rewrite ST, NS, CS. cbn [is_allocated].
    destruct (N.ltb_spec 1048576 (num_at (fi_buffer fi) (kn_offset k + 24) 4)); [lia|]. destruct (N.ltb_spec 0 (num_at (fi_buffer fi) (kn_offset k + 24) 4)); [|lia].
    rewrite PO. cbn [f_return_sub_keys]. rewrite C, andb_false_r. cbv zeta.
    match goal with |- context [read_children fi st ?p ?sm ?f ?sf ?seq false offs] => destruct (read_children fi st p sm f sf seq false offs) as [[[[cs2 found2] logs] st2]| | |] eqn:RC end; try discriminate.
    cbv beta iota. intros [= _ <- <- _]. apply (children_has fi _ _ _ q _ offs c name H IO RD NA) in RC; [exact RC|]. rewrite MS. destruct names'; discriminate. }
  destruct X as (XF & x & IX & X1 & X2 & X3). destruct found.
  - intros [= <- _]. destruct cs; [contradiction|discriminate].
  - destruct names' as [|m names']; [specialize (XF MS); discriminate|].
    assert (EX : map to_lower w = map to_lower (split_bs (kn_path x)) ++ map to_lower (m :: names')).
    { rewrite E, X2. cbn [app]. rewrite split_two, (split_one name PN1), map_app, <- app_assoc. reflexivity. }
    clear XF O2 R. revert st1. induction cs as [|d cs IC]; [contradiction|]. intros st1.
    destruct (get_sub_key_internal n fi st1 d (Some q) None) as [[[y|] st2]| | |] eqn:G; try discriminate; cbv beta iota.
    + intros [= <- _]. discriminate.
    + destruct IX as [->|IX]; [|now apply IC]. exfalso. rewrite <- X1 in WD'. refine (IH _ _ _ _ _ X3 _ PN2 WD' EX G eq_refl). discriminate.
Qed.
Lemma by_path_all fi k path names : live_key fi k -> names <> [] -> Forall (fun m => ~ In 92 m) names -> hd_error (rev names) <> Some [] -> way_down fi (kn_offset k) names ->
  map fold_case path = map fold_case (joined names) -> forall n st o st', get_sub_key_by_path n fi st k path = Ok (o, st') -> o <> None.
Proof.
  intros LK NE PN LN WD PE n st o st'. unfold get_sub_key_by_path. destruct path as [|c0 path0] eqn:PP; [intros [= <- _]; discriminate|]. rewrite <- PP in *. clear PP c0 path0.
  apply (not_missed fi _ (split_bs (trim_end_bs (kn_path k ++ [BS] ++ path)))) with (names := names); try assumption; try reflexivity.
  change (to_lower path = to_lower (joined names)) in PE.
  assert (TE : trim_end_bs (kn_path k ++ [BS] ++ path) = kn_path k ++ [BS] ++ path).
  { assert (LP : exists a c, joined names = a ++ [c] /\ c <> 92).
    { clear - NE PN LN. induction PN as [|m r M1 PN IH]; [contradiction|]. cbn [joined]. destruct r as [|m' r].
      - destruct (rev m) as [|c y] eqn:RM; apply (f_equal (@rev _)) in RM; rewrite rev_involutive in RM; subst m; [now elim LN|].
        exists (rev y), c. split; [reflexivity|]. intros ->. apply M1. cbn [rev]. apply in_or_app. right. now left.
      - destruct IH as (a & c & J & NC); [discriminate| |exists (m ++ 92 :: a), c; split; [rewrite J, <- app_assoc; reflexivity|exact NC]].
        intros X. apply LN. cbn [rev] in *. destruct (rev r); [exact X|]. exact X. }
    destruct LP as (a & c & J & NC). rewrite J in PE. unfold to_lower in PE. rewrite map_app in PE.
    assert (PF : exists a' c', path = a' ++ [c'] /\ lower c' = lower c).
    { destruct (rev path) as [|c' y] eqn:RM; apply (f_equal (@rev _)) in RM; rewrite rev_involutive in RM; rewrite RM in *; [now destruct (map lower a)|].
      exists (rev y), c'. split; [reflexivity|]. cbn [rev] in PE. rewrite map_app in PE. apply app_inj_tail in PE as (_ & PE). exact PE. }
    destruct PF as (a' & c' & -> & CC). assert (NC' : c' <> 92) by (intros ->; change (lower 92) with 92 in CC; symmetry in CC; now apply (proj1 (lower_92 c)) in CC).
    unfold trim_end_bs. rewrite !app_assoc, rev_app_distr. cbn [rev app trim_start_bs]. unfold BS. destruct (N.eqb_spec c' 92); [contradiction|].
    change (c' :: rev ((kn_path k ++ [92]) ++ a')) with ([c'] ++ rev ((kn_path k ++ [92]) ++ a')). now rewrite rev_app_distr, rev_involutive. }
  rewrite TE. cbn [app]. unfold BS. rewrite split_two, map_app, <- (split_lowered path), PE, split_lowered, (split_names names NE PN). reflexivity.
Qed.
Lemma get_key_all n p path names root p1 a below o p' : get_root_key p = Ok (Some root, p1) -> names <> [] -> Forall (fun m => ~ In 92 m) names ->
  hd_error names <> Some [] -> hd_error (rev names) <> Some [] -> way_down (ps_file p) (kn_offset root) names ->
  path = repeat 92 a ++ below -> map fold_case below = map fold_case (joined names) -> get_key n p path false = Ok (o, p') -> o <> None.
Proof.
  intros R NE PN HN LN WD -> PE. unfold get_key. rewrite R. cbv zeta.
  assert (RP : ps_file p1 = ps_file p /\ live_key (ps_file p) root).
  { revert R. unfold get_root_key. destruct (ps_base_block p); [|discriminate]. destruct (kn_read _ _ _) as [[r st]| | |] eqn:E; try discriminate.
    cbv beta iota. intros [= -> <-]. apply read_live in E as (_ & C & _). now split. }
  destruct RP as (RF & RC).
  assert (TS : trim_start_bs (repeat 92 a ++ below) = below).
  { clear R WD. induction a as [|a IH]; [|exact IH]. cbn [repeat app]. destruct names as [|m names]; [contradiction|]. destruct m as [|c m]; [now elim HN|].
    apply Forall_inv in PN. destruct below as [|b below]; [reflexivity|]. cbn [trim_start_bs]. unfold BS. destruct (N.eqb_spec b 92) as [->|]; [|reflexivity].
    exfalso. apply PN. left. assert (X : exists z, joined ((c :: m) :: names) = c :: z) by (cbn [joined]; destruct names; eexists; reflexivity).
    destruct X as (z & X). rewrite X in PE. cbn [map] in PE. injection PE as PE _. symmetry in PE. apply (proj1 (lower_92 c)). exact PE. }
  rewrite TS, RF. destruct (get_sub_key_by_path n (ps_file p) (ps_state p1) root below) as [[k1 st]| | |] eqn:G; try discriminate. cbv beta iota. intros [= <- _].
  exact (by_path_all _ _ _ _ RC NE PN LN WD PE _ _ _ _ G).
Qed.
