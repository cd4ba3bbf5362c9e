(** What a look-up of a sub key by its name finds, in any file. *)
From Verif Require Import Base BaseFacts Util UtilSpec LayoutSpec LayoutFacts BaseBlock Types Value Node Recover Parser TxLog TxSpec NodeFrame
  CellSpec CellFacts CellRead TreeSpec TreeRead UtilText UtilLz TreeFilter AnyFile TreeUse NavFacts Ends LookEnds CutPath FoundSpec FoundFacts.

Lemma str_from_form s off r : str_from s off = Ok r -> off <= len s /\ r = skipn (N.to_nat off) s.
Proof.
  unfold str_from. destruct (get_from s off) as [x|] eqn:G; [|discriminate]. apply get_from_some in G as (L & E & _). intros H. split; [exact L|].
  destruct x as [|b x]; [injection H as <-; exact E|]. destruct (_ && _); [discriminate|]. injection H as <-. exact E.
Qed.
(** The key passed the filter [q], its path taken from [off] on. *)
Definition passed (q : reg_query) (off : N) (k : key_node) : Prop :=
  is_key_root k = true \/ match_segments (split_bs (skipn (N.to_nat off) (to_lower (kn_path k)))) (rq_path q) <> NoMatch.
Lemma read_named fi st o q k st' : op_modified o = false -> op_filter o = Some (Some q) -> rq_has_root q = false -> st_root_offset st <> 0 ->
  kn_read fi st o = Ok (Some k, st') -> st_root_offset st' = st_root_offset st /\ passed q (st_root_offset st) k.
Proof.
  intros EM F H NZ. unfold kn_read. destruct (get_from _ _) as [s|]; [|discriminate]. cbn [ok_or]. unfold read_from_slice. rewrite EM, F.
  destruct (kn_cases st s (op_offset o) (op_path o) (op_seq o)) as [(OK & nm & w & NM & E)|(_ & E)]; rewrite E; [|discriminate].
  cbv beta iota. set (k0 := kn_at _ _ _ _ _ _ _).
  destruct (check_cell (Some q) st k0) as [[fl st1]| | |] eqn:CC; try discriminate. cbv beta iota.
  assert (S1 : st1 = st /\ (is_key_root k0 = true \/ match_segments (split_bs (skipn (N.to_nat (st_root_offset st)) (to_lower (kn_path k0)))) (rq_path q) = fl)).
  { revert CC. unfold check_cell. rewrite H. cbn [negb]. rewrite andb_true_r. destruct (is_key_root k0); [intros [= _ <-]; auto|]. cbv zeta.
    unfold st_get_root_path_offset. destruct (N.eqb_spec (st_root_offset st) 0); [contradiction|]. unfold check_key_match. rewrite H. cbv zeta.
    destruct (str_from _ _) as [x| | |] eqn:SF; try discriminate. apply str_from_form in SF as (_ & ->). intros [= E1 <-]. auto. }
  destruct S1 as (-> & S1). set (G := fun k => kn_path k = kn_path k0 /\ kn_detail k = kn_detail k0).
  assert (GP : forall k, G k -> fl <> NoMatch -> passed q (st_root_offset st) k).
  { intros x (X1 & X2) NM'. unfold passed, is_key_root in *. rewrite X1, X2. destruct S1 as [S1|S1]; [now left|]. right. congruence. }
  destruct fl; [discriminate| |].
  all: match goal with |- (let* k := ?x in _) = _ -> _ => destruct x as [k1| | |] eqn:EV; try discriminate end.
  all: assert (A1 : G k1);
    [destruct (_ && _) in EV; [|injection EV as <-; now split]; destruct (read_values _ _ _ _) as [[k2 ok]| | |] eqn:RV in EV; try discriminate;
     apply read_values_keeps in RV as (_ & V1 & _ & _ & _ & V5); assert (Y : G k2) by (split; assumption); injection EV as <-; destruct ok; exact Y|].
  all: cbv beta iota zeta; intros [= <- <-]; split; [reflexivity|]; apply GP; [exact A1|discriminate].
Qed.
Lemma read_none fi st o st' : op_modified o = false -> (exists q, op_filter o = Some (Some q) /\ rq_has_root q = false) -> st_root_offset st <> 0 ->
  kn_read fi st o = Ok (None, st') -> st_root_offset st' = st_root_offset st.
Proof.
  intros EM (q & F & H) NZ. unfold kn_read. destruct (get_from _ _) as [s|]; [|discriminate]. cbn [ok_or]. unfold read_from_slice. rewrite EM, F.
  destruct (kn_cases st s (op_offset o) (op_path o) (op_seq o)) as [(OK & nm & w & NM & E)|(_ & E)]; rewrite E; [|discriminate].
  cbv beta iota. set (k0 := kn_at _ _ _ _ _ _ _).
  destruct (check_cell (Some q) st k0) as [[fl st1]| | |] eqn:CC; try discriminate. cbv beta iota.
  assert (S1 : st1 = st).
  { revert CC. unfold check_cell. rewrite H. cbn [negb]. rewrite andb_true_r. destruct (is_key_root k0); [intros [= _ <-]; auto|]. cbv zeta.
    unfold st_get_root_path_offset. destruct (N.eqb_spec (st_root_offset st) 0); [contradiction|]. destruct (check_key_match _ _ _); try discriminate. now intros [= _ <-]. }
  subst st1. destruct fl; [now intros [= <-]| |].
  all: match goal with |- (let* k := ?x in _) = _ -> _ => destruct x as [k1| | |] eqn:EV; try discriminate end.
Qed.
Lemma children_named fi path sm f q seq offs : rq_has_root q = false -> forall st cs found logs st', st_root_offset st <> 0 ->
  read_children fi st path sm f (Some (Some q)) seq false offs = Ok (cs, found, logs, st') -> Forall (passed q (st_root_offset st)) cs.
Proof.
  intros H. induction offs as [|o r IH]; intros st cs found logs st' NZ; cbn [read_children]; [intros [= <- _ _ _]; constructor|].
  destruct (kn_read _ _ _) as [[[c|] st1]| | |] eqn:E; try discriminate.
  - apply read_named with (q := q) in E as (E1 & E2); [|reflexivity|reflexivity|exact H|exact NZ].
    destruct (read_children _ _ _ _ _ _ _ _ r) as [[[[cs2 found2] logs2] st2]| | |] eqn:R; try discriminate. intros [= <- _ _ _].
    apply IH in R; [|congruence]. rewrite E1 in R. constructor; [|exact R].
    unfold child_filter_state. destruct (kn_filter c); [|destruct sm; [|destruct (f_is_valid f)]]; exact E2.
  - apply read_none in E; [|reflexivity|now exists q|exact NZ]. intros R. apply IH in R; [|congruence]. now rewrite E in R.
  - destruct (read_children _ _ _ _ _ _ _ _ r) as [[[[cs2 found2] logs2] st2]| | |] eqn:R; try discriminate. intros [= <- _ _ _]. exact (IH _ _ _ _ _ NZ R).
Qed.
Lemma by_name_found p k name c p' : cell_of (ps_file p) k -> (exists first below, kn_path k = 92 :: first ++ 92 :: below) -> name <> [] -> ~ In 92 name ->
  get_sub_key p k name = Ok (Some c, p') ->
  sub_key_at (ps_file p) (kn_offset k) (kn_offset c) /\ cell_of (ps_file p) c /\ kn_path c = kn_path k ++ [92] ++ kn_name c
  /\ (is_key_root c = true \/ map fold_case (kn_name c) = map fold_case name).
Proof.
  intros CO (first & below & PK) NE NS. unfold get_sub_key. destruct (st_get_root_path_offset (ps_state p) (kn_path k)) as [o st] eqn:SO.
  assert (Z : o <> 0 /\ st_root_offset st = o).
  { revert SO. unfold st_get_root_path_offset. destruct (N.eqb_spec (st_root_offset (ps_state p)) 0) as [Z|Z]; intros [= <- <-]; [|now split].
    split; [|reflexivity]. rewrite PK. unfold get_root_path_offset. change (92 =? 92) with true. cbv iota. rewrite find_same.
    destruct (AnyFile.find_ends first) as (i & ->). lia. }
  destruct Z as (NZ & SE). destruct (str_from (kn_path k) o) as [sans| | |] eqn:SF; try discriminate. apply str_from_form in SF as (LO & ->). cbv beta iota zeta.
  set (sans := skipn (N.to_nat o) (kn_path k)). set (q := add_key_path empty_query (sans ++ [BS] ++ name)).
  destruct (read_sub_keys_internal (ps_file p) st k (Some q) None false) as [[[[k1 cs] found] st1]| | |] eqn:R; try discriminate. cbv beta iota. intros [= E _].
  pose proof (sub_keys_cell _ _ _ _ _ _ _ _ _ CO R) as SC. destruct cs as [|c' cs]; [discriminate|]. injection E as ->.
  assert (X : passed q o c /\ kn_path c = kn_path k ++ [92] ++ kn_name c).
  { revert R. unfold read_sub_keys_internal. destruct (is_allocated _); [|discriminate]. destruct (1048576 <? _); [discriminate|].
    destruct (0 <? _); [|discriminate]. destruct (parse_sub_key_list _ _ _) as [offs| | |]; try discriminate.
    change (f_return_sub_keys (Some q)) with false. rewrite andb_false_r. cbv zeta.
    match goal with |- context [read_children ?fi st ?p ?sm ?f ?sf ?seq false offs] => destruct (read_children fi st p sm f sf seq false offs) as [[[[cs2 found2] logs] st2]| | |] eqn:RC end; try discriminate.
    cbv beta iota. intros [= _ -> _ _]. split.
    - apply children_named in RC; [|reflexivity|congruence]. rewrite SE in RC. now inversion RC.
    - clear - RC. revert st c cs found2 logs st2 RC. induction offs as [|o1 r IH]; intros st c cs found logs st'; cbn [read_children]; [discriminate|].
      destruct (kn_read _ _ _) as [[[d|] st1]| | |] eqn:E; try discriminate.
      + destruct (read_children _ _ _ _ _ _ _ _ r) as [[[[cs2 found2] logs2] st2]| | |]; try discriminate. intros [= <- _ _ _ _].
        apply read_cell in E as (_ & _ & E). cbn [op_path] in E. unfold child_filter_state. destruct (kn_filter d); [|destruct (is_match_or_desc k); [|destruct (f_is_valid _)]]; exact E.
      + apply IH.
      + destruct (read_children _ _ _ _ _ _ _ _ r) as [[[[cs2 found2] logs2] st2]| | |] eqn:R; try discriminate. intros [= -> _ _ _]. exact (IH _ _ _ _ _ _ R). }
  destruct X as (PA & PC). apply Forall_inv in SC as (S1 & S2). split; [exact S1|]. split; [exact S2|]. split; [exact PC|].
  destruct PA as [PA|PA]; [now left|right]. unfold q, add_key_path, empty_query in PA. cbn [rq_path app] in PA.
  assert (TE : trim_end_bs (sans ++ BS :: name) = sans ++ BS :: name).
  { unfold trim_end_bs. replace (trim_start_bs (rev (sans ++ BS :: name))) with (rev (sans ++ BS :: name)); [apply rev_involutive|].
    rewrite rev_app_distr. cbn [rev]. assert (NR : ~ In 92 (rev name)) by (intros I; now apply in_rev in I).
    destruct (rev name) as [|x y] eqn:RN; [apply (f_equal (@rev _)) in RN; rewrite rev_involutive in RN; contradiction|].
    cbn [app trim_start_bs]. unfold BS. destruct (N.eqb_spec x 92) as [->|]; [elim NR; now left|reflexivity]. }
  rewrite TE in PA. clear TE. destruct (segments_prefix _ _ PA) as (r & R1 & _). clear PA.
  assert (SK : skipn (N.to_nat o) (to_lower (kn_path c)) = to_lower (sans ++ BS :: kn_name c)).
  { unfold sans, to_lower. rewrite PC, skipn_map, skipn_app. unfold len in LO. replace (N.to_nat o - length (kn_path k))%nat with 0%nat by lia. reflexivity. }
  rewrite SK, <- !split_lowered, lower_twice in R1.
  assert (E : to_lower (sans ++ BS :: name) = to_lower (sans ++ BS :: kn_name c) ++ match r with [] => [] | _ => 92 :: joined r end).
  { rewrite <- (joined_split (to_lower (sans ++ BS :: name))), R1, joined_more, joined_split by apply split_some. reflexivity. }
  unfold to_lower in E. rewrite !map_app, <- app_assoc in E. apply app_inv_head in E. cbn [map app] in E. injection E as E.
  destruct r as [|r0 r]; [rewrite app_nil_r in E; symmetry; exact E|]. exfalso. apply NS.
  assert (I : In 92 (map lower name)) by (rewrite E; apply in_or_app; right; now left).
  apply in_map_iff in I as (x & X & I). apply (proj1 (lower_92 x)) in X. now subst x.
Qed.
