(** What a look-up by path finds, in any file. *)
From Verif Require Import Base BaseFacts Util UtilSpec LayoutSpec LayoutFacts BaseBlock Types Value Node Recover Parser TxLog TxSpec NodeFrame
  CellSpec CellFacts CellRead TreeSpec TreeRead UtilText UtilLz TreeFilter AnyFile TreeUse NavFacts Ends LookEnds CutPath FoundSpec.

Lemma lower_twice s : to_lower (to_lower s) = to_lower s.
Proof.
  unfold to_lower. rewrite map_map. apply map_ext. intros c. unfold lower. destruct ((65 <=? c) && (c <=? 90)) eqn:E; [|now rewrite E].
  apply andb_true_iff in E as (A & B). apply N.leb_le in A, B. destruct (N.leb_spec (c + 32) 90); [lia|]. now rewrite andb_false_r.
Qed.
Lemma split_lowered s : split_bs (to_lower s) = map to_lower (split_bs s).
Proof.
  induction s as [|c s IH]; [reflexivity|]. change (to_lower (c :: s)) with (lower c :: to_lower s). cbn [split_bs]. rewrite IH. unfold BS.
  rewrite (N.eqb_sym (lower c)), lower_slash, (N.eqb_sym 92 c). destruct (c =? 92); [reflexivity|]. destruct (split_bs s); reflexivity.
Qed.
Lemma joined_more a r : a <> [] -> joined (a ++ r) = joined a ++ match r with [] => [] | _ => 92 :: joined r end.
Proof.
  intros NE. induction a as [|n a IH]; [contradiction|]. destruct a as [|m a].
  - cbn [app joined]. destruct r; [now rewrite app_nil_r|reflexivity].
  - change ((n :: m :: a) ++ r) with (n :: (m :: a) ++ r). change (joined (n :: (m :: a) ++ r)) with (n ++ 92 :: joined ((m :: a) ++ r)).
    rewrite IH by discriminate. change (joined (n :: m :: a)) with (n ++ 92 :: joined (m :: a)). now rewrite <- app_assoc.
Qed.
Lemma segments_prefix l : forall w, match_segments l (map (fun s => ComponentString (to_lower s)) w) <> NoMatch ->
  exists r, map to_lower w = map to_lower l ++ r /\ (match_segments l (map (fun s => ComponentString (to_lower s)) w) = KeyMatch -> r = []).
Proof.
  induction l as [|s l IH]; intros w M.
  - exists (map to_lower w). split; [reflexivity|]. destruct w; [reflexivity|discriminate].
  - destruct w as [|c w]; [now elim M|]. cbn [map match_segments comp_match] in *. destruct (beq (to_lower c) (to_lower s)) eqn:E; [|now elim M].
    apply beq_eq in E. destruct (IH w M) as (r & R1 & R2). exists r. split; [cbn [app]; now rewrite E, R1|exact R2].
Qed.
Lemma trim_form s : exists b, s = trim_end_bs s ++ repeat 92 b.
Proof.
  unfold trim_end_bs. assert (X : forall l, exists b, l = repeat 92 b ++ trim_start_bs l).
  { induction l as [|c l (b & IH)]; [now exists 0%nat|]. cbn [trim_start_bs]. unfold BS. destruct (N.eqb_spec c 92) as [->|]; [|now exists 0%nat].
    exists (S b). cbn [repeat app]. now rewrite <- IH. }
  destruct (X (rev s)) as (b & E). exists b. apply (f_equal (@rev _)) in E. rewrite rev_involutive, rev_app_distr in E. rewrite E at 1. f_equal.
  clear. induction b as [|b IH]; [reflexivity|]. cbn [repeat rev]. rewrite IH. clear. induction b; [reflexivity|]. cbn [repeat app]. now rewrite IHb.
Qed.
Definition path_query (k : key_node) (path : list N) : reg_query := with_has_root true (add_key_path empty_query (kn_path k ++ [BS] ++ path)).
Lemma outcome_way k path c : outcome (path_query k path) c <> NoMatch ->
  exists whole, asked_for k path whole /\ on_the_way whole (kn_path c) /\ (outcome (path_query k path) c = KeyMatch -> map fold_case whole = map fold_case (kn_path c)).
Proof.
  unfold outcome, path_query, with_has_root, add_key_path, empty_query. cbn [rq_path app]. set (full := kn_path k ++ BS :: path). intros M.
  destruct (segments_prefix _ _ M) as (r & R1 & R2). exists (trim_end_bs full).
  split; [exact (trim_form full)|]. rewrite <- !split_lowered, lower_twice in R1.
  assert (E : to_lower (trim_end_bs full) = to_lower (kn_path c) ++ match r with [] => [] | _ => 92 :: joined r end).
  { rewrite <- (joined_split (to_lower (trim_end_bs full))), R1, joined_more, joined_split by apply split_some. reflexivity. }
  split.
  - exists (match r with [] => [] | _ => 92 :: joined r end). split; [exact E|]. destruct r; [now left|now right].
  - intros K. rewrite (R2 K), app_nil_r in E. exact E.
Qed.
Lemma found_way fi q : rq_has_root q = true -> rq_children q = false -> forall n st k k' st',
  get_sub_key_internal n fi st k (Some q) None = Ok (Some k', st') -> outcome q k' <> NoMatch.
Proof.
  intros H C. induction n as [|n IH]; intros st k k' st'; [discriminate|]. cbn [get_sub_key_internal].
  destruct (read_sub_keys_internal fi st k (Some q) None false) as [[[[k1 cs] found] st1]| | |] eqn:R; try discriminate. cbv beta iota.
  destruct (sub_keys_outcome _ _ _ _ _ _ _ _ _ H C R) as (O1 & _). destruct found.
  - intros [= E _]. destruct cs; [discriminate|]. injection E as ->. now inversion O1.
  - clear R O1. revert st1. induction cs as [|c cs IC]; intros st1; [discriminate|].
    destruct (get_sub_key_internal n fi st1 c (Some q) None) as [[[o|] st2]| | |] eqn:E; try discriminate; cbv beta iota.
    + intros [= -> _]. exact (IH _ _ _ _ E).
    + apply IC.
Qed.
Lemma by_path_found fi st k path n k' st' : path <> [] -> get_sub_key_by_path n fi st k path = Ok (Some k', st') ->
  exists whole, asked_for k path whole /\ on_the_way whole (kn_path k').
Proof.
  intros NE. unfold get_sub_key_by_path. destruct path as [|c path]; [contradiction|]. fold (path_query k (c :: path)). intros G.
  apply found_way in G; [|reflexivity..]. apply outcome_way in G as (w & A & W & _). eauto.
Qed.

(** ** Names without backslashes *)
Lemma notes_keep st : forall fuel k k', update_modified_lists fuel st k = Ok k' ->
  kn_offset k' = kn_offset k /\ kn_path k' = kn_path k /\ kn_name k' = kn_name k /\ kn_detail k' = kn_detail k /\ kn_state k' = kn_state k.
Proof.
  assert (F : forall k, kn_offset (finish st k) = kn_offset k /\ kn_path (finish st k) = kn_path k /\ kn_name (finish st k) = kn_name k /\ kn_detail (finish st k) = kn_detail k /\ kn_state (finish st k) = kn_state k)
    by (intros k; unfold finish; destruct (aget beq (lookup_path k) (st_modified_keys st)); repeat split).
  intros [|fuel] k k'; [discriminate|]. rewrite uml_eq. destruct (is_deleted_primary_file _); [intros [= <-]; repeat split|].
  destruct (aget _ _ _) as [dks|]; [|intros [= <-]; apply F]. destruct (note _ _ _ _) as [l| | |]; try discriminate. intros [= <-]. exact (F (kn_set_deleted l k)).
Qed.
Lemma read_live fi st o k st' : kn_read fi st o = Ok (Some k, st') -> kn_offset k = op_offset o /\ live_key fi k /\ kn_path k = op_path o ++ [92] ++ kn_name k.
Proof.
  unfold kn_read. destruct (get_from _ _) as [s|] eqn:G; [|discriminate]. cbn [ok_or]. apply get_from_some in G as (_ & GE & _).
  unfold read_from_slice.
  destruct (kn_cases st s (op_offset o) (op_path o) (op_seq o)) as [(_ & nm & w & NM & E)|(_ & E)]; rewrite E; [|discriminate].
  cbv beta iota. set (k0 := kn_at _ _ _ _ _ _ _). set (G := fun k => kn_offset k = op_offset o /\ live_key fi k /\ kn_path k = op_path o ++ [92] ++ kn_name k).
  assert (B0 : G k0).
  { split; [reflexivity|]. assert (SR : s = rest_at (fi_buffer fi) (op_offset o)) by exact GE. split; [split; [split|split; [|reflexivity]]|reflexivity].
    - unfold k0; cbn [kn_detail kn_offset kn_at nk_detail_at kd_sublist]. now rewrite SR, num_at_rest.
    - exists w. unfold k0; cbn [kn_offset kn_name kn_at]. rewrite <- !num_at_rest, <- bytes_at_rest, <- SR, <- compressed_flag. exact NM.
    - unfold k0; cbn [kn_detail kn_offset kn_at nk_detail_at kd_nsub]. now rewrite SR, num_at_rest. }
  destruct (match op_filter o with Some f => check_cell f st k0 | None => Ok (IterateKeys, st) end) as [[fl st1]| | |]; try discriminate.
  cbv beta iota. destruct fl; [discriminate| |].
  all: match goal with |- (let* k := ?x in _) = _ -> _ => destruct x as [k1| | |] eqn:EV; try discriminate end.
  all: assert (A1 : G k1);
    [destruct (_ && _) in EV; [|injection EV as <-; exact B0]; destruct (read_values _ _ _ _) as [[k2 ok]| | |] eqn:RV in EV; try discriminate;
     apply read_values_keeps in RV as (V0 & V1 & V2 & V3 & _ & V5); assert (Y : G k2) by (unfold G, live_key, cell_of; rewrite V0, V1, V2, V3, V5; exact B0); injection EV as <-; destruct ok; exact Y|].
  all: cbv beta iota zeta; destruct (op_modified o); [|intros [= <- _]; exact A1].
  all: match goal with |- context [update_modified_lists ?f ?s ?k] => destruct (update_modified_lists f s k) as [k3| | |] eqn:U; try discriminate end.
  all: apply notes_keep in U as (U0 & U1 & U2 & U3 & U4); intros [= <- _].
  all: change (G k3); unfold G, live_key, cell_of; rewrite U0, U1, U2, U3, U4; exact A1.
Qed.
Lemma read_cell fi st o k st' : kn_read fi st o = Ok (Some k, st') -> kn_offset k = op_offset o /\ cell_of fi k /\ kn_path k = op_path o ++ [92] ++ kn_name k.
Proof. intros R. apply read_live in R as (A & (B & _) & C). auto. Qed.
Lemma children_cell fi path sm f sf seq offs : forall st cs found logs st',
  read_children fi st path sm f sf seq false offs = Ok (cs, found, logs, st') -> Forall (fun c => In (kn_offset c) offs /\ cell_of fi c) cs.
Proof.
  induction offs as [|o r IH]; intros st cs found logs st'; cbn [read_children]; [intros [= <- _ _ _]; constructor|].
  assert (W : forall l, Forall (fun c => In (kn_offset c) r /\ cell_of fi c) l -> Forall (fun c => In (kn_offset c) (o :: r) /\ cell_of fi c) l)
    by (intros l; apply Forall_impl; intros x (X & Y); split; [now right|exact Y]).
  destruct (kn_read _ _ _) as [[[c|] st1]| | |] eqn:E; try discriminate.
  - destruct (read_children _ _ _ _ _ _ _ _ r) as [[[[cs2 found2] logs2] st2]| | |] eqn:R; try discriminate. intros [= <- _ _ _].
    apply read_cell in E as (E1 & E2 & _). constructor; [|exact (W _ (IH _ _ _ _ _ R))].
    unfold child_filter_state. destruct (kn_filter c); [|destruct sm; [|destruct (f_is_valid f)]]; (split; [left; symmetry; exact E1|exact E2]).
  - intros R. exact (W _ (IH _ _ _ _ _ R)).
  - destruct (read_children _ _ _ _ _ _ _ _ r) as [[[[cs2 found2] logs2] st2]| | |] eqn:R; try discriminate. intros [= <- _ _ _]. exact (W _ (IH _ _ _ _ _ R)).
Qed.
Lemma sub_keys_cell fi st k f seq k' cs found st' : cell_of fi k -> read_sub_keys_internal fi st k f seq false = Ok (k', cs, found, st') ->
  Forall (fun c => sub_key_at fi (kn_offset k) (kn_offset c) /\ cell_of fi c) cs.
Proof.
  intros (CS & _). unfold read_sub_keys_internal. destruct (is_allocated _); [|intros [= _ <- _ _]; constructor]. destruct (1048576 <? _); [intros [= _ <- _ _]; constructor|].
  destruct (0 <? _); [|intros [= _ <- _ _]; constructor]. rewrite CS. destruct (parse_sub_key_list _ _ _) as [offs| | |] eqn:PL; try discriminate; [|intros [= _ <- _ _]; constructor].
  cbv zeta.
  match goal with |- context [read_children fi st ?p ?sm ?f ?sf seq false offs] => destruct (read_children fi st p sm f sf seq false offs) as [[[[cs2 found2] logs] st2]| | |] eqn:R end; try discriminate.
  cbv beta iota. intros [= _ <- _ _]. apply children_cell in R. revert R. apply Forall_impl. intros c (I & C). split; [exists offs; auto|exact C].
Qed.
Lemma lineage_some fi root names c : lineage fi root names c -> names <> [].
Proof. intros L. destruct L; [discriminate|]. now destruct names. Qed.
Lemma found_exact fi q root : rq_has_root q = true -> rq_children q = false -> plain_below fi root -> forall n st k k' st' names,
  cell_of fi k -> lineage fi root names (kn_offset k) -> get_sub_key_internal n fi st k (Some q) None = Ok (Some k', st') -> outcome q k' = KeyMatch.
Proof.
  intros H C PB. induction n as [|n IH]; intros st k k' st' names CO L; [discriminate|]. cbn [get_sub_key_internal].
  destruct (read_sub_keys_internal fi st k (Some q) None false) as [[[[k1 cs] found] st1]| | |] eqn:R; try discriminate. cbv beta iota.
  destruct (sub_keys_outcome _ _ _ _ _ _ _ _ _ H C R) as (O1 & O2). apply sub_keys_cell in R; [|exact CO].
  assert (LC : forall x, In x cs -> cell_of fi x /\ lineage fi root (names ++ [kn_name x]) (kn_offset x)).
  { intros x I. rewrite Forall_forall in R. destruct (R x I) as (S & X). split; [exact X|]. apply (from_parent fi root names (kn_offset k)); [exact L|exact S|apply X]. }
  destruct found.
  - intros [= E _]. destruct cs as [|c cs]; [discriminate|]. injection E as ->. destruct (O2 eq_refl) as (c & IC & KC).
    assert (D : forall x, In x (k' :: cs) -> slashes (kn_path x) = S (slashes (kn_path k))).
    { intros x I. rewrite Forall_forall in O1. destruct (O1 x I) as (P & _). destruct (LC x I) as (_ & LX). pose proof (PB _ _ LX) as NX.
      destruct names as [|m names]; [now apply lineage_some in L|]. cbn [app tl] in NX. apply Forall_app in NX as (_ & NX). inversion NX; subst.
      rewrite P, !slashes_app, (no_slash (kn_name x)) by assumption. change (slashes [92]) with 1%nat. lia. }
    unfold outcome in *. apply segments_full in KC. apply full_segments; [now inversion O1|].
    rewrite <- KC, !split_slashes, !slashes_lower, (D c IC), (D k' (or_introl eq_refl)). reflexivity.
  - clear R O1 O2. revert st1. induction cs as [|c cs IC]; intros st1; [discriminate|].
    destruct (get_sub_key_internal n fi st1 c (Some q) None) as [[[o|] st2]| | |] eqn:E; try discriminate; cbv beta iota.
    + intros [= -> _]. destruct (LC c (or_introl eq_refl)) as (X & Y). exact (IH _ _ _ _ _ X Y E).
    + apply IC. intros x I. apply LC. now right.
Qed.
Lemma by_path_exact fi st k path n k' st' : cell_of fi k -> plain_below fi (kn_offset k) -> path <> [] -> get_sub_key_by_path n fi st k path = Ok (Some k', st') ->
  exists whole, asked_for k path whole /\ map fold_case (kn_path k') = map fold_case whole.
Proof.
  intros CO PB NE. unfold get_sub_key_by_path. destruct path as [|c path]; [contradiction|]. fold (path_query k (c :: path)). intros G.
  apply (found_exact fi _ (kn_offset k)) with (names := [kn_name k]) in G; [|reflexivity|reflexivity|exact PB|exact CO|constructor; apply CO].
  destruct (outcome_way k (c :: path) k') as (w & A & _ & X); [congruence|]. exists w. split; [exact A|]. symmetry. now apply X.
Qed.

(** ** From the root *)
Lemma start_form l : exists a, l = repeat 92 a ++ trim_start_bs l /\ hd_error (trim_start_bs l) <> Some 92.
Proof.
  induction l as [|c l (a & IH & H)]; [exists 0%nat; split; [reflexivity|discriminate]|]. cbn [trim_start_bs]. unfold BS. destruct (N.eqb_spec c 92) as [->|NE].
  - exists (S a). cbn [repeat app]. split; [now rewrite <- IH|exact H].
  - exists 0%nat. split; [reflexivity|]. cbn [hd_error]. congruence.
Qed.
Lemma strip_form s : (exists first, ~ In 92 first /\ s = first ++ 92 :: strip_root s) \/ (~ In 92 s /\ strip_root s = []).
Proof.
  unfold strip_root, BS.
  assert (X : forall s, match find_byte 92 s with Some i => exists first, ~ In 92 first /\ s = first ++ 92 :: skipn (N.to_nat (i + 1)) s | None => ~ In 92 s end).
  { clear. induction s as [|c s IH]; [intros []|]. cbn [find_byte]. destruct (N.eqb_spec c 92) as [->|NE].
    - exists []. split; [intros []|reflexivity].
    - destruct (find_byte 92 s) as [i|]; cbn [option_map].
      + destruct IH as (f & F1 & F2). exists (c :: f). split; [intros [E|I]; [congruence|contradiction]|].
        replace (N.to_nat (N.succ i + 1)) with (S (N.to_nat (i + 1))) by lia. cbn [skipn app]. now rewrite <- F2.
      + intros [E|I]; [congruence|contradiction]. }
  specialize (X s). destruct (find_byte 92 s); [left; exact X|right; auto].
Qed.
Lemma root_below path (has_root : bool) : below_root path has_root (if has_root then strip_root (trim_start_bs path) else trim_start_bs path).
Proof.
  destruct (start_form path) as (a & E & H). exists a, (trim_start_bs path). split; [exact E|]. split; [exact H|].
  destruct has_root; [apply strip_form|reflexivity].
Qed.
Lemma get_key_found n p path (has_root : bool) k p' : get_key n p path has_root = Ok (Some k, p') ->
  exists root p1 below, get_root_key p = Ok (Some root, p1) /\ kn_path root = 92 :: kn_name root /\ below_root path has_root below
  /\ (below = [] /\ k = root \/ below <> [] /\ exists whole, asked_for root below whole /\ on_the_way whole (kn_path k)
      /\ (plain_below (ps_file p) (kn_offset root) -> map fold_case (kn_path k) = map fold_case whole)).
Proof.
  unfold get_key. destruct (get_root_key p) as [[[root|] p1]| | |] eqn:R; try discriminate. cbv zeta.
  pose proof (root_below path has_root) as BR. set (below := if has_root then _ else _) in *.
  assert (RP : ps_file p1 = ps_file p /\ cell_of (ps_file p) root /\ kn_path root = 92 :: kn_name root).
  { revert R. unfold get_root_key. destruct (ps_base_block p); [|discriminate]. destruct (kn_read _ _ _) as [[r st]| | |] eqn:E; try discriminate.
    cbv beta iota. intros [= -> <-]. apply read_cell in E as (_ & C & P). now split. }
  destruct RP as (RF & RC & RP). rewrite RF.
  destruct (get_sub_key_by_path n (ps_file p) (ps_state p1) root below) as [[k1 st]| | |] eqn:G; try discriminate. cbv beta iota. intros [= -> _].
  exists root, p1, below. split; [reflexivity|]. split; [exact RP|]. split; [exact BR|].
  destruct below as [|c b]; [left; cbn in G; injection G as <- _; auto|]. right. split; [discriminate|].
  unfold get_sub_key_by_path in G. fold (path_query root (c :: b)) in G.
  pose proof (found_way (ps_file p) (path_query root (c :: b)) eq_refl eq_refl _ _ _ _ _ G) as W. apply outcome_way in W as (w & A & O & X). exists w.
  split; [exact A|]. split; [exact O|]. intros PB. symmetry. apply X.
  apply (found_exact (ps_file p) _ (kn_offset root)) with (names := [kn_name root]) in G; [exact G|reflexivity|reflexivity|exact PB|exact RC|constructor; apply RC].
Qed.

(** ** What is found is stored there *)
Lemma found_stored fi q root top : rq_has_root q = true -> rq_children q = false -> forall n st k k' st' names,
  cell_of fi k -> lineage fi root names (kn_offset k) -> kn_path k = top ++ path_of (tl names) ->
  get_sub_key_internal n fi st k (Some q) None = Ok (Some k', st') ->
  exists more, more <> [] /\ lineage fi root (names ++ more) (kn_offset k') /\ kn_path k' = top ++ path_of (tl (names ++ more)) /\ cell_of fi k'.
Proof.
  intros H C. induction n as [|n IH]; intros st k k' st' names CO L PK; [discriminate|]. cbn [get_sub_key_internal].
  destruct (read_sub_keys_internal fi st k (Some q) None false) as [[[[k1 cs] found] st1]| | |] eqn:R; try discriminate. cbv beta iota.
  destruct (sub_keys_outcome _ _ _ _ _ _ _ _ _ H C R) as (O1 & _). apply sub_keys_cell in R; [|exact CO].
  assert (LC : forall x, In x cs -> cell_of fi x /\ lineage fi root (names ++ [kn_name x]) (kn_offset x) /\ kn_path x = top ++ path_of (tl (names ++ [kn_name x]))).
  { intros x I. rewrite Forall_forall in R, O1. destruct (R x I) as (S & X). destruct (O1 x I) as (PX & _). split; [exact X|].
    split; [apply (from_parent fi root names (kn_offset k)); [exact L|exact S|apply X]|].
    destruct names as [|m names]; [now apply lineage_some in L|]. cbn [app tl] in *. unfold path_of in *. rewrite PX, PK, flat_map_app, <- app_assoc. cbn [flat_map]. now rewrite app_nil_r. }
  destruct found.
  - intros [= E _]. destruct cs as [|c cs]; [discriminate|]. injection E as ->. destruct (LC k' (or_introl eq_refl)) as (X & Y & Z). exists [kn_name k']. split; [discriminate|]. auto.
  - clear R O1. revert st1. induction cs as [|c cs IC]; intros st1; [discriminate|].
    destruct (get_sub_key_internal n fi st1 c (Some q) None) as [[[o|] st2]| | |] eqn:E; try discriminate; cbv beta iota.
    + intros [= -> _]. destruct (LC c (or_introl eq_refl)) as (X & Y & Z). destruct (IH _ _ _ _ _ X Y Z E) as (more & M1 & M2 & M3 & M4).
      exists (kn_name c :: more). split; [discriminate|]. rewrite <- app_assoc in M2, M3. auto.
    + apply IC. intros x I. apply LC. now right.
Qed.
Lemma by_path_stored fi st k path n k' st' : cell_of fi k -> path <> [] -> get_sub_key_by_path n fi st k path = Ok (Some k', st') ->
  exists below, below <> [] /\ lineage fi (kn_offset k) (kn_name k :: below) (kn_offset k') /\ kn_path k' = kn_path k ++ path_of below /\ cell_of fi k'.
Proof.
  intros CO NE. unfold get_sub_key_by_path. destruct path as [|c path]; [contradiction|]. fold (path_query k (c :: path)). intros G.
  apply (found_stored fi _ (kn_offset k) (kn_path k)) with (names := [kn_name k]) in G; [|reflexivity|reflexivity|exact CO|constructor; apply CO|cbn; now rewrite app_nil_r].
  exact G.
Qed.
