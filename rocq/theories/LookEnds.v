(** A look-up by path goes down no further than the path does. *)
From Verif Require Import Base BaseFacts Util UtilSpec LayoutSpec LayoutFacts BaseBlock Types Value Node Recover Parser TxLog TxSpec
  CellSpec CellFacts CellData CellList CellRead UtilLz AnyFile StoreSpec VersionSpec FreeSpec NodeFrame TreeRead TreeOpen TreeUse NavFacts Pure AbortSpec NoAbort AnalysisReach Ends RecIter DumpFacts OddFacts ReplayFacts.

(** ** Reading *)
Lemma str_fuel p o : str_from p o <> OutOfFuel.
Proof. unfold str_from. repeat (match goal with |- context [if ?b then _ else _] => destruct b | |- context [match ?x with _ => _ end] => destruct x end; try discriminate). Qed.
Lemma check_fuel f st k : check_cell f st k <> OutOfFuel.
Proof.
  unfold check_cell. destruct f as [q|]; [|discriminate]. destruct (_ && _); [discriminate|]. cbv zeta. destruct (st_get_root_path_offset _ _) as [o st'].
  unfold check_key_match. pose proof (str_fuel (to_lower (kn_path k)) (if rq_has_root q then 0 else o)) as S.
  destruct (str_from _ _); try discriminate. now elim S.
Qed.
Lemma values_of_fuel fi st seq k : read_values fi st seq k <> OutOfFuel.
Proof. destruct (read_values_total fi st seq k) as (k' & ok & ->). discriminate. Qed.
Lemma orderly_root st st' : root_only st st' -> orderly st -> orderly st'.
Proof. intros R O. unfold root_only in R. rewrite R. exact O. Qed.
Lemma read_ends fi st o : op_modified o = false \/ orderly st -> kn_read fi st o <> OutOfFuel.
Proof.
  intros M. unfold kn_read. destruct (get_from _ _) as [s|]; [|discriminate]. cbn [ok_or]. unfold read_from_slice.
  destruct (kn_cases st s (op_offset o) (op_path o) (op_seq o)) as [(OK & nm & w & NM & E)|(_ & E)]; rewrite E; [|discriminate].
  cbv beta iota. set (k0 := kn_at _ _ _ _ _ _ _).
  assert (X : match op_filter o with Some f => check_cell f st k0 | None => Ok (IterateKeys, st) end <> OutOfFuel) by (destruct (op_filter o); [apply check_fuel|discriminate]).
  assert (RO : forall fl st1, match op_filter o with Some f => check_cell f st k0 | None => Ok (IterateKeys, st) end = Ok (fl, st1) -> root_only st st1).
  { intros fl st1. destruct (op_filter o); [apply check_cell_state|]. intros [= _ <-]. apply root_only_refl. }
  destruct (match op_filter o with Some f => check_cell f st k0 | None => Ok (IterateKeys, st) end) as [[fl st1]| | |]; try discriminate; [|now elim X].
  specialize (RO fl st1 eq_refl). cbv beta iota.
  assert (Y : forall k, (if op_modified o then update_modified_lists (uml_fuel st1) st1 k else Ok k) <> OutOfFuel).
  { intros k. destruct M as [-> |O]; [discriminate|]. destruct (op_modified o); [|discriminate]. destruct (uml_enough st1 k (orderly_root _ _ RO O)) as (k' & ->). discriminate. }
  assert (Z : forall k, (let* k := (if op_modified o then update_modified_lists (uml_fuel st1) st1 k else Ok k) in Ok (Some k, st1)) <> OutOfFuel).
  { intros k. specialize (Y k). destruct (if op_modified o then _ else _); try discriminate. now elim Y. }
  destruct fl; [discriminate| |]; (destruct (_ && _); [|apply Z]; destruct (read_values_total fi st1 (op_seq o) k0) as (k1 & ok & ->); apply Z).
Qed.

(** ** A filter that begins at the root lets no key pass that lies deeper than it *)
Lemma segments_le segs : forall comps, match_segments segs comps <> NoMatch -> (length segs <= length comps)%nat.
Proof.
  induction segs as [|s segs IH]; intros [|c comps] H; cbn [length]; try lia; [now elim H|]. cbn [match_segments] in H.
  destruct (comp_match c s); [|now elim H]. specialize (IH comps H). lia.
Qed.
Lemma lower_slash c : (92 =? lower c) = (92 =? c).
Proof. unfold lower. destruct (_ && _) eqn:E; [|reflexivity]. apply andb_true_iff in E as (A & B). apply N.leb_le in A, B. destruct (N.eqb_spec 92 (c + 32)), (N.eqb_spec 92 c); lia. Qed.
Lemma slashes_lower s : slashes (to_lower s) = slashes s.
Proof.
  unfold slashes, to_lower. induction s as [|c s IH]; [reflexivity|]. cbn [map List.filter]. rewrite lower_slash. destruct (92 =? c); cbn [length]; now rewrite IH.
Qed.
Lemma passed_depth fi st o q k st' : op_modified o = false -> op_filter o = Some (Some q) -> rq_has_root q = true ->
  kn_read fi st o = Ok (Some k, st') -> (slashes (op_path o) < slashes (kn_path k))%nat /\ (slashes (kn_path k) < length (rq_path q))%nat.
Proof.
  intros M F H R. unfold kn_read in R. destruct (get_from _ _) as [s|]; [|discriminate]. cbn [ok_or] in R.
  destruct (slice_facts fi st s o k st' M R) as (OK & _ & _ & _ & _ & nm & w & NM & P). split.
  { rewrite P, slashes_app, slashes_app. change (slashes [92]) with 1%nat. lia. }
  unfold read_from_slice in R. rewrite M, F in R.
  destruct (kn_cases st s (op_offset o) (op_path o) (op_seq o)) as [(_ & nm' & w' & NM' & E)|(_ & E)]; rewrite E in R; [|discriminate].
  cbv beta iota in R. assert (N : nm' = nm) by congruence. subst nm'. set (k0 := kn_at _ _ _ _ _ _ _) in *.
  assert (P0 : kn_path k0 = kn_path k) by (rewrite P; apply kn_path_at). rewrite <- P0.
  unfold check_cell in R. rewrite H, andb_false_r in R. cbv zeta in R. destruct (st_get_root_path_offset _ _) as [x st1].
  unfold check_key_match in R. rewrite H in R. cbv zeta in R. rewrite str_from_0 in R. cbv beta iota in R.
  assert (L : match_segments (split_bs (to_lower (kn_path k0))) (rq_path q) <> NoMatch) by (intros Z; rewrite Z in R; discriminate R).
  apply segments_le in L. rewrite split_slashes, slashes_lower in L. exact L.
Qed.
Lemma children_end fi path sm f sf seq m offs : forall st, m = false \/ orderly st -> read_children fi st path sm f sf seq m offs <> OutOfFuel.
Proof.
  induction offs as [|o r IH]; intros st M; cbn [read_children]; [discriminate|].
  pose proof (read_ends fi st (mkOpt o path sf sm seq m) M) as E.
  assert (M1 : forall c st1, kn_read fi st (mkOpt o path sf sm seq m) = Ok (c, st1) -> m = false \/ orderly st1).
  { intros c st1 K. apply kn_read_state in K. destruct M as [M|M]; [now left|right; exact (orderly_root _ _ K M)]. }
  destruct (kn_read _ _ _) as [[[c|] st1]| | |]; try discriminate; [..|now elim E].
  - specialize (IH st1 (M1 _ _ eq_refl)). destruct (read_children _ _ _ _ _ _ _ _ r) as [[[[cs found] logs] st2]| | |]; try discriminate. now elim IH.
  - exact (IH st1 (M1 _ _ eq_refl)).
  - specialize (IH st M). destruct (read_children _ _ _ _ _ _ _ _ r) as [[[[cs found] logs] st2]| | |]; try discriminate. now elim IH.
Qed.
Lemma children_deep fi path sm f q seq offs : rq_has_root q = true -> forall st cs found logs st',
  read_children fi st path sm f (Some (Some q)) seq false offs = Ok (cs, found, logs, st') ->
  Forall (fun c => (slashes path < slashes (kn_path c))%nat /\ (slashes (kn_path c) < length (rq_path q))%nat) cs.
Proof.
  intros H. induction offs as [|o r IH]; intros st cs found logs st'; cbn [read_children]; [intros [= <- _ _ _]; constructor|].
  destruct (kn_read _ _ _) as [[[c|] st1]| | |] eqn:E; try discriminate.
  - destruct (read_children _ _ _ _ _ _ _ _ r) as [[[[cs2 found2] logs2] st2]| | |] eqn:R; try discriminate. intros [= <- _ _ _]. constructor; [|exact (IH _ _ _ _ _ R)].
    assert (P : kn_path (child_filter_state sm f c) = kn_path c) by (unfold child_filter_state; destruct (kn_filter c); [reflexivity|]; destruct sm; [reflexivity|]; destruct (f_is_valid f); reflexivity).
    rewrite P. exact (passed_depth fi st (mkOpt o path (Some (Some q)) sm seq false) q c st1 eq_refl eq_refl H E).
  - apply IH.
  - destruct (read_children _ _ _ _ _ _ _ _ r) as [[[[cs2 found2] logs2] st2]| | |] eqn:R; try discriminate. intros [= <- _ _ _]. exact (IH _ _ _ _ _ R).
Qed.
Lemma list_ends fi o : no_list_cycle fi -> parse_sub_key_list (list_fuel fi) fi o <> OutOfFuel.
Proof. intros NC D. destruct (diverge_cycle fi o D) as (c & _ & C). exact (NC c C). Qed.
Lemma sub_keys_end fi st k f seq m : no_list_cycle fi -> m = false \/ orderly st -> read_sub_keys_internal fi st k f seq m <> OutOfFuel.
Proof.
  intros NC M. unfold read_sub_keys_internal. destruct (is_allocated _); [|discriminate]. destruct (1048576 <? _); [discriminate|]. destruct (0 <? _); [|discriminate].
  pose proof (list_ends fi (kd_sublist (kn_detail k)) NC) as L. destruct (parse_sub_key_list _ _ _) as [offs| | |]; try discriminate; [|now elim L]. cbv zeta.
  match goal with |- context [read_children fi st ?p ?sm f ?sf seq m offs] => pose proof (children_end fi p sm f sf seq m offs st M) as C;
    destruct (read_children fi st p sm f sf seq m offs) as [[[[cs found] logs] st2]| | |] end; try discriminate. now elim C.
Qed.
Lemma sub_keys_deep fi st k q seq k' cs found st' : rq_has_root q = true -> rq_children q = false ->
  read_sub_keys_internal fi st k (Some q) seq false = Ok (k', cs, found, st') ->
  Forall (fun c => (slashes (kn_path k) < slashes (kn_path c))%nat /\ (slashes (kn_path c) < length (rq_path q))%nat) cs.
Proof.
  intros H C. unfold read_sub_keys_internal. destruct (is_allocated _); [|intros [= _ <- _ _]; constructor]. destruct (1048576 <? _); [intros [= _ <- _ _]; constructor|].
  destruct (0 <? _); [|intros [= _ <- _ _]; constructor]. destruct (parse_sub_key_list _ _ _) as [offs| | |]; try discriminate; [|intros [= _ <- _ _]; constructor].
  cbn [f_return_sub_keys]. rewrite C, andb_false_r. cbv zeta.
  match goal with |- context [read_children fi st ?p ?sm ?f ?sf seq false offs] => destruct (read_children fi st p sm f sf seq false offs) as [[[[cs2 found2] logs] st2]| | |] eqn:R end; try discriminate.
  cbv beta iota. intros [= _ <- _ _]. exact (children_deep _ _ _ _ _ _ _ H _ _ _ _ _ R).
Qed.

(** ** Going down *)
Lemma find_ends fi q seq : no_list_cycle fi -> rq_has_root q = true -> rq_children q = false ->
  forall n st k, (0 < n)%nat -> (length (rq_path q) - slashes (kn_path k) <= n)%nat -> get_sub_key_internal n fi st k (Some q) seq <> OutOfFuel.
Proof.
  intros NC H C. induction n as [|n IH]; intros st k PN L; [lia|]. cbn [get_sub_key_internal].
  pose proof (sub_keys_end fi st k (Some q) seq false NC (or_introl eq_refl)) as E. destruct (read_sub_keys_internal _ _ _ _ _ _) as [[[[k' cs] found] st1]| | |] eqn:R; try discriminate; [|now elim E].
  apply sub_keys_deep in R; [|exact H|exact C]. cbv beta iota. destruct found; [discriminate|]. clear E. revert st1. induction cs as [|c cs I]; intros st1; [discriminate|].
  apply Forall_cons_iff in R as ((D1 & D2) & R). assert (G : get_sub_key_internal n fi st1 c (Some q) seq <> OutOfFuel) by (apply IH; lia).
  destruct (get_sub_key_internal n fi st1 c (Some q) seq) as [[[o|] st2]| | |]; try discriminate; [|now elim G]. cbv beta iota. exact (I R st2).
Qed.
Lemma find_more fi f seq : forall n st k m, (n <= m)%nat -> get_sub_key_internal n fi st k f seq <> OutOfFuel ->
  get_sub_key_internal m fi st k f seq = get_sub_key_internal n fi st k f seq.
Proof.
  induction n as [|n IH]; intros st k m L E; [now elim E|]. destruct m as [|m]; [lia|]. cbn [get_sub_key_internal] in *.
  destruct (read_sub_keys_internal _ _ _ _ _ _) as [[[[k' cs] found] st1]| | |]; try reflexivity. cbv beta iota in *. destruct found; [reflexivity|].
  revert st1 E. induction cs as [|c cs I]; intros st1 E; [reflexivity|].
  assert (G : get_sub_key_internal m fi st1 c f seq = get_sub_key_internal n fi st1 c f seq).
  { apply IH; [lia|]. intros Z. rewrite Z in E. now elim E. }
  rewrite G. destruct (get_sub_key_internal n fi st1 c f seq) as [[[o|] st2]| | |]; try reflexivity. cbv beta iota in *. exact (I st2 E).
Qed.
Lemma trim_end_le s : (slashes (trim_end_bs s) <= slashes s)%nat.
Proof. pose proof (trim_end_slashes s 0) as H. cbn [repeat] in H. now rewrite app_nil_r in H. Qed.
Lemma by_path_ends fi st k path : no_list_cycle fi ->
  exists r, r <> OutOfFuel /\ forall n, (S (slashes path) < n)%nat -> get_sub_key_by_path n fi st k path = r.
Proof.
  intros NC. unfold get_sub_key_by_path. destruct path as [|b path]; [exists (Ok (Some k, st)); split; [discriminate|reflexivity]|]. cbv zeta.
  set (q := with_has_root true _).
  assert (L : (length (rq_path q) <= slashes (kn_path k) + slashes (b :: path) + 2)%nat).
  { unfold q, with_has_root, add_key_path, empty_query. cbn [rq_path app]. rewrite map_length, split_slashes.
    pose proof (trim_end_le (kn_path k ++ [BS] ++ b :: path)) as T. rewrite !slashes_app in T. change (slashes [BS]) with 1%nat in T. cbn [app] in T |- *. lia. }
  set (m := S (S (slashes (b :: path)) + 1)).
  assert (E : get_sub_key_internal m fi st k (Some q) None <> OutOfFuel) by (apply find_ends; [exact NC|reflexivity|reflexivity|unfold m; lia|unfold m; lia]).
  exists (get_sub_key_internal m fi st k (Some q) None). split; [exact E|]. intros n Ln.
  assert (E2 : get_sub_key_internal n fi st k (Some q) None <> OutOfFuel) by (apply find_ends; [exact NC|reflexivity|reflexivity|lia|lia]).
  destruct (Nat.le_gt_cases m n); [now apply find_more|]. symmetry. apply find_more; [lia|exact E2].
Qed.

(** ** The look-up from the root *)
Lemma slashes_skip n s : (slashes (skipn n s) <= slashes s)%nat.
Proof. rewrite <- (firstn_skipn n s) at 2. rewrite slashes_app. lia. Qed.
Lemma strip_slashes s : (slashes (strip_root s) <= slashes s)%nat.
Proof. unfold strip_root. destruct (find_byte BS s); [apply slashes_skip|cbn; lia]. Qed.
Lemma get_key_ends p path has_root : no_list_cycle (ps_file p) -> get_root_key p <> OutOfFuel ->
  exists r, r <> OutOfFuel /\ forall n, (S (slashes path) < n)%nat -> get_key n p path has_root = r.
Proof.
  intros NC R. unfold get_key. destruct (get_root_key p) as [[[root|] p1]| | |] eqn:G; [| | | |now elim R].
  - apply root_key_moved in G. cbv zeta. set (kp := if has_root then strip_root (trim_start_bs path) else trim_start_bs path).
    assert (L : (slashes kp <= slashes path)%nat).
    { unfold kp. pose proof (trim_start_slashes path). pose proof (strip_slashes (trim_start_bs path)). destruct has_root; lia. }
    assert (F : ps_file p1 = ps_file p) by (destruct G as (s & -> & _); reflexivity). rewrite F.
    destruct (by_path_ends (ps_file p) (ps_state p1) root kp NC) as (r & E & H).
    exists (let* (k, st) := r in Ok (k, ps_set_state st p1)). split; [destruct r as [[k st]| | |]; try discriminate; now elim E|].
    intros n Ln. rewrite (H n) by lia. reflexivity.
  - exists (Ok (None, p1)). split; [discriminate|reflexivity].
  - exists (Ok (None, p)). split; [discriminate|reflexivity].
  - exists Panic. split; [discriminate|reflexivity].
Qed.
Lemma root_ends p : orderly (ps_state p) -> get_root_key p <> OutOfFuel.
Proof.
  intros O. unfold get_root_key. destruct (ps_base_block p) as [bb|]; [|discriminate].
  pose proof (read_ends (ps_file p) (ps_state p) (mkOpt (w64 (i32_as_usize (bb_root_offset (bb_base bb)) + ps_hbin p)) [] None true None true) (or_intror O)) as X.
  destruct (kn_read _ _ _) as [[r st]| | |]; try discriminate. now elim X.
Qed.
Lemma parent_ends p k : orderly (ps_state p) -> get_parent_key p k <> OutOfFuel.
Proof.
  intros O. unfold get_parent_key. cbv zeta. match goal with |- context [kn_read ?fi ?st ?o] => pose proof (read_ends fi st o (or_intror O)) as X; destruct (kn_read fi st o) as [[r s]| | |] end; try discriminate. now elim X.
Qed.
Lemma by_index_ends fi st k i : no_list_cycle fi -> orderly st -> get_sub_key_by_index fi st k i <> OutOfFuel.
Proof.
  intros NC O. unfold get_sub_key_by_index. destruct (0 <? _); [|discriminate]. pose proof (list_ends fi (kd_sublist (kn_detail k)) NC) as L.
  destruct (parse_sub_key_list _ _ _) as [offs| | |]; try discriminate; [|now elim L]. destruct (get_at offs i) as [o|]; [|discriminate].
  match goal with |- context [kn_read ?fi ?st ?o] => pose proof (read_ends fi st o (or_intror O)) as X; destruct (kn_read fi st o) as [[r s]| | |] end; try discriminate. now elim X.
Qed.
Lemma next_ends fi st k : no_list_cycle fi -> orderly st -> next_sub_key fi st k <> OutOfFuel.
Proof.
  intros NC O. unfold next_sub_key. pose proof (by_index_ends fi st k (kn_index k) NC O) as X. destruct (get_sub_key_by_index _ _ _ _) as [[[k' [c|]] s]| | |]; try discriminate. now elim X.
Qed.
Lemma all_subs_end fi st k : no_list_cycle fi -> orderly st -> read_sub_keys fi st k <> OutOfFuel.
Proof.
  intros NC O. unfold read_sub_keys. pose proof (sub_keys_end fi st k None None true NC (or_intror O)) as X. destruct (read_sub_keys_internal _ _ _ _ _ _) as [[[[k' cs] found] s]| | |]; try discriminate. now elim X.
Qed.
Lemma by_name_ends p k name : no_list_cycle (ps_file p) -> get_sub_key p k name <> OutOfFuel.
Proof.
  intros NC. unfold get_sub_key. destruct (st_get_root_path_offset _ _) as [o st]. pose proof (str_fuel (kn_path k) o) as S. destruct (str_from _ _) as [s| | |]; try discriminate; [|now elim S].
  cbv beta iota zeta. match goal with |- context [read_sub_keys_internal ?fi st k ?f None false] => pose proof (sub_keys_end fi st k f None false NC (or_introl eq_refl)) as X;
    destruct (read_sub_keys_internal fi st k f None false) as [[[[k' cs] found] s2]| | |] end; try discriminate. now elim X.
Qed.
(** ** In an opened file *)
Lemma not_recovered order fuel hash full buffer files p : build order fuel hash false full buffer files = Ok p -> no_deleted_root (ps_state p).
Proof.
  intros E. assert (D : st_deleted_keys (ps_state p) = []).
  { assert (X : set_info [] (ps_state p) = mkState 0 full [] hash [] [] [] []).
    { destruct (known_dec buffer) as [K|K]; [apply build_plain in E as ((_ & X) & _); [exact X|exact K]|apply odd_open in E as (_ & _ & X & _); [exact X|exact K]]. }
    exact (f_equal st_deleted_keys X). }
  intros path ks k I. rewrite D in I. destruct I.
Qed.
Lemma asked_orderly order fuel hash recover full buffer files p q : build order fuel hash recover full buffer files = Ok p -> no_deleted_root (ps_state p) -> asked p q ->
  ps_file q = ps_file p /\ orderly (ps_state q).
Proof.
  intros E ND A. apply asked_moved in A as (st & -> & R). split; [reflexivity|]. cbn [ps_state ps_set_state]. apply (orderly_root _ _ R).
  apply (reached_orderly order fuel full hash); [|exact ND]. exact (build_reached _ _ _ _ _ _ _ _ E).
Qed.
Lemma opened_look_ends order fuel hash recover full buffer files p q path has_root : build order fuel hash recover full buffer files = Ok p ->
  no_list_cycle (ps_file p) -> no_deleted_root (ps_state p) -> asked p q ->
  exists r, r <> OutOfFuel /\ forall n, (S (slashes path) < n)%nat -> get_key n q path has_root = r.
Proof.
  intros E NC ND A. destruct (asked_orderly _ _ _ _ _ _ _ _ _ E ND A) as (F & O). apply get_key_ends; [now rewrite F|now apply root_ends].
Qed.
(** Opening has read the first cell with all that was recovered: if the header gives that
    as the root, looking up never reads anything of that kind that opening did not. *)
Lemma first_cell_ends order fuel hash recover full buffer files p q : build order fuel hash recover full buffer files = Ok p ->
  num_at (ps_buffer p) 36 4 = 32 -> asked p q -> get_root_key q <> OutOfFuel.
Proof.
  intros E R A. destruct (known_dec buffer) as [K|K].
  - rewrite (root_read p q (build_opened _ _ _ _ _ _ _ _ E) R (asked_moved _ _ A)).
    destruct (build_root _ _ _ _ _ _ _ _ K E) as (_ & st & i & S & X). rewrite S. fold at_root in X. rewrite (read_info _ _ i _ X). discriminate.
  - apply root_ends. eapply asked_orderly; [exact E| |exact A]. apply odd_open in E as (_ & _ & X & _); [|exact K].
    pose proof (f_equal st_deleted_keys X) as Y. intros path ks k I. change (st_deleted_keys (ps_state p) = []) in Y. rewrite Y in I. destruct I.
Qed.
