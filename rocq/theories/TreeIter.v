(** Iteration over a well-formed hive. *)
From Verif Require Import Base BaseFacts Util UtilSpec UtilText LayoutSpec LayoutFacts BaseBlock Types Value Node Recover
  Parser CellSpec CellFacts CellData CellList CellRead TreeSpec TreeRead.

Definition loaded (fi : file_info) (path : list N) (root : bool) (t : key_tree) (k : key_node) : Prop :=
  exists full d raw, bare full t path d raw k /\ Forall2 value_shown (kn_values k) (t_vals t)
  /\ Forall scalar (t_name t) /\ subs_stored fi d (t_subs t) /\ Forall (tree_stored fi false) (t_subs t)
  /\ N.testbit (kd_flags d) 2 = root.
Lemma key_load fi st root t path sm m : bytes_ok (fi_buffer fi) -> fi_hbin fi < 2 ^ 32 -> tree_stored fi root t ->
  m = false \/ quiet st ->
  exists k, kn_read fi st (mkOpt (t_pos t) path None sm None m) = Ok (Some k, st) /\ loaded fi path root t k.
Proof.
  intros B H S M. destruct (key_parse fi st root t path B S)
    as (d & raw & k & rest & F & R & V & U & A & G & _ & SC & E & BK & KV).
  assert (X : exists k1, loaded fi path root t k1
     /\ (if (0 <? kd_nvalues (kn_detail k)) && should_read_values None IterateKeys sm
         then let* (k, ok) := read_values fi st None k in Ok (if ok : bool then k else kn_add_log WarningParse k)
         else Ok k) = Ok k1).
  { unfold should_read_values. rewrite orb_true_r, andb_true_r.
    destruct (bare_nsub _ _ _ _ _ _ BK) as (_ & _ & NV & _). rewrite NV.
    destruct (N.ltb_spec 0 (kd_nvalues d)) as [P|P].
    - destruct (values_load fi st _ _ _ _ _ _ B H F V BK KV P) as (vs & -> & VS & _). cbv beta iota.
      exists (kn_set_values vs k). split; [|reflexivity]. exists (st_full st), d, raw. repeat (split; [assumption|]). assumption.
    - exists k. split; [|reflexivity]. exists (st_full st), d, raw. split; [exact BK|].
      split; [|repeat (split; [assumption|]); assumption]. rewrite KV. destruct V as (V & _).
      destruct (t_vals t); [constructor|]. rewrite len_cons in V. lia. }
  destruct X as (k1 & LK & X). exists k1. split; [|exact LK].
  unfold kn_read. cbn [op_offset]. rewrite G. cbn [ok_or]. unfold read_from_slice.
  cbn [op_offset op_path op_seq op_filter op_self_match op_modified]. rewrite E. cbv beta iota. cbn [ok_or].
  rewrite X. cbv beta iota zeta. destruct m; [|reflexivity]. destruct M as [M|M]; [discriminate|].
  unfold uml_fuel. rewrite uml_quiet by exact M. reflexivity.
Qed.

Lemma loaded_set fi path root t k k' : loaded fi path root t k ->
  kn_offset k' = kn_offset k -> kn_name k' = kn_name k -> kn_path k' = kn_path k -> kn_detail k' = kn_detail k ->
  kn_state k' = kn_state k -> kn_filter k' = kn_filter k -> kn_deleted k' = kn_deleted k -> kn_versions k' = kn_versions k ->
  kn_values k' = kn_values k -> kn_to_return k' = kn_to_return k -> kn_track k' = kn_track k ->
  kn_logs k' = kn_logs k -> loaded fi path root t k'.
Proof.
  intros (full & d & raw & (B1 & B2 & B3 & B4 & B5 & B6 & B7 & B8 & B9 & B10 & B11) & V & R) E1 E2 E3 E4 E5 E6 E7 E8 E9 E10 E11 E12.
  exists full, d, raw. split; [|split; [now rewrite E9|exact R]]. unfold bare.
  rewrite E1, E2, E3, E4, E5, E6, E7, E8, E10, E11, E12. repeat (split; [assumption|]). assumption.
Qed.
Lemma loaded_path fi path root t k : loaded fi path root t k -> kn_path k = path ++ [92] ++ utf8 (t_name t).
Proof. intros (? & ? & ? & B & _). apply B. Qed.

(** What a key of the tree is read with: no filter. *)
Lemma children_load fi st path m subs : bytes_ok (fi_buffer fi) -> fi_hbin fi < 2 ^ 32 -> m = false \/ quiet st ->
  Forall (tree_stored fi false) subs ->
  exists kids found, read_children fi st path false None (Some None) None m (map t_pos subs) = Ok (kids, found, [], st)
  /\ Forall2 (fun t k => loaded fi path false t k) subs kids.
Proof.
  intros B H M F. induction F as [|t r T F (kids & found & E & IH)]; [exists [], false; split; [reflexivity|constructor]|].
  destruct (key_load fi st false t path false m B H T M) as (k & K & L).
  cbn [map read_children]. rewrite kn_read_no_query, K, E. cbv beta iota zeta.
  exists (k :: kids). eexists. split; [|constructor; assumption].
  assert (X : kn_filter k = None) by (destruct L as (? & ? & ? & L & _); apply L).
  unfold child_filter_state. rewrite X. reflexivity.
Qed.
Lemma list_total fi subs d : subs_stored fi d subs -> subs <> [] ->
  0 < kd_nsub d <= 1048576 /\ parse_sub_key_list (list_fuel fi) fi (kd_sublist d) = Ok (map t_pos subs).
Proof.
  intros (N & [U|(L & K)]) NE; [contradiction|]. split.
  - rewrite N. destruct subs; [contradiction|]. rewrite len_cons in *. lia.
  - exact (list_parse fi _ _ K).
Qed.

(** A key taken from the stack. *)
Definition in_list (fi : file_info) (path : list N) (root : bool) (t : key_tree) (k : key_node) : Prop :=
  loaded fi path root t k.
Lemma visit_tree fi cx path root t k : bytes_ok (fi_buffer fi) -> fi_hbin fi < 2 ^ 32 ->
  cx_modified cx = false \/ quiet (cx_state cx) -> cx_filter cx = None -> loaded fi path root t k ->
  exists k' kids, loaded fi path root t (kn_set_to_return 0 k')
  /\ kn_to_return k' = len (t_subs t)
  /\ Forall2 (fun t k => loaded fi (kn_path k') false t k) (t_subs t) kids
  /\ visit fi cx k = Ok (k', fold_left (fun cx c => push_check c cx) (rev kids) cx).
Proof.
  intros B H M NF L. pose proof L as (full & d & raw & BK & V & SC & U & A & R).
  destruct (bare_nsub _ _ _ _ _ _ BK) as (N1 & N2 & _). unfold visit. rewrite N1.
  pose proof BK as (B1 & B2 & B3 & B4 & B5 & B6 & B7 & B8 & B9 & B10 & B11).
  destruct (t_subs t) as [|s0 r0] eqn:SU.
  - destruct U as (U & _). rewrite U. change (0 <? len []) with false. cbv beta iota zeta. exists k, []. rewrite B7. cbn [map fold_left rev].
    assert (KE : kn_set_deleted [] k = k) by (destruct k; cbn in B7; now subst).
    rewrite KE. split; [|split; [exact B9|split; [constructor|reflexivity]]].
    assert (KR : kn_set_to_return 0 k = k) by (destruct k; cbn in B9; now subst). now rewrite KR.
  - rewrite <- SU in *. assert (NE : t_subs t <> []) by (rewrite SU; discriminate).
    destruct (list_total fi _ _ U NE) as (LE & P). destruct (N.ltb_spec 0 (kd_nsub d)); [|lia].
    unfold read_sub_keys_internal. rewrite B5, N1, N2, P, NF. cbn [is_allocated].
    destruct (N.ltb_spec 1048576 (kd_nsub d)); [lia|]. destruct (N.ltb_spec 0 (kd_nsub d)); [|lia].
    assert (SM : is_match_or_desc k = false) by (unfold is_match_or_desc; now rewrite B6). rewrite SM. cbn [andb].
    destruct (children_load fi (cx_state cx) (kn_path k) (cx_modified cx) (t_subs t) B H M A) as (kids & found & E & KS).
    match goal with |- context [read_children ?a ?b ?c ?d' ?e ?f ?g ?h ?i] =>
      assert (E' : read_children a b c d' e f g h i = Ok (kids, found, [], cx_state cx)) by exact E; rewrite E'; clear E' end.
    cbv beta iota zeta. rewrite app_nil_r.
    assert (LK : len kids = len (t_subs t)) by (unfold len; f_equal; clear -KS; induction KS; cbn; congruence).
    set (k1 := kn_set_to_return _ _).
    assert (D1 : kn_deleted k1 = []) by exact B7. rewrite D1. cbn [map fold_left].
    exists (kn_set_deleted [] k1), kids. split; [|split; [|split]].
    + apply (loaded_set fi path root t k); [exact L|..]; try reflexivity; cbn; congruence.
    + cbn. unfold w32. rewrite LK, N.mod_small; [reflexivity|]. destruct U as (U & _). lia.
    + exact KS.
    + f_equal. f_equal. f_equal. unfold cx_set_state. now destruct cx.
Qed.

(** ** Stacking the sub keys of a key *)
Definition with_kids (kids : list key_node) (cx : context) : context :=
  mkCx (cx_state cx) (cx_filter cx) (kids ++ cx_stack cx) (map kn_offset kids ++ cx_offsets cx)
    (cx_return cx) (cx_modified cx) (cx_ancestors cx).
Lemma push_all kids : forall cx, NoDup (map kn_offset kids) ->
  (forall k, In k kids -> ~ In (kn_offset k) (cx_offsets cx)) ->
  fold_left (fun cx c => push_check c cx) (rev kids) cx = with_kids kids cx.
Proof.
  induction kids as [|k r IH]; intros cx D H; [now destruct cx|].
  cbn [rev map] in *. apply NoDup_cons_iff in D as [D1 D2]. rewrite fold_left_app. rewrite IH; [|exact D2|].
  2:{ intros x X. apply H. now right. }
  cbn [fold_left]. unfold push_check, with_kids. cbn [cx_offsets cx_stack cx_state cx_filter cx_return cx_modified cx_ancestors].
  assert (NE : existsb (N.eqb (kn_offset k)) (map kn_offset r ++ cx_offsets cx) = false).
  { apply not_true_iff_false. intros E. apply existsb_exists in E as (x & I & E). apply N.eqb_eq in E. subst x.
    apply in_app_or in I as [I|I]; [contradiction|]. now apply (H k (or_introl eq_refl)). }
  rewrite NE. reflexivity.
Qed.

(** ** Pending trees *)
Definition pending := (list (list N) * bool * key_tree)%type.
Definition p_above (x : pending) : list (list N) := fst (fst x).
Definition p_tree (x : pending) : key_tree := snd x.
Definition waits (fi : file_info) (x : pending) (k : key_node) : Prop :=
  loaded fi (utf8 (spelled (p_above x))) (snd (fst x)) (p_tree x) k /\ Forall (Forall scalar) (p_above x).
Definition below (t : key_tree) : list N := flat_map positions (t_subs t).
Lemma positions_eq t : positions t = t_pos t :: below t.
Proof. now destruct t. Qed.
Lemma preorder_eq above t : preorder above t
  = (above ++ [t_name t], t) :: flat_map (preorder (above ++ [t_name t])) (t_subs t).
Proof. now destruct t. Qed.
Lemma postorder_eq above t : postorder above t
  = flat_map (postorder (above ++ [t_name t])) (t_subs t) ++ [(above ++ [t_name t], t)].
Proof. now destruct t. Qed.
Definition kid_pending (x : pending) : list pending :=
  map (fun s => (p_above x ++ [t_name (p_tree x)], false, s)) (t_subs (p_tree x)).
Lemma spelled_path above name : utf8 (spelled (above ++ [name])) = utf8 (spelled above) ++ [92] ++ utf8 name.
Proof. rewrite spelled_app, utf8_app. cbn [spelled flat_map]. rewrite app_nil_r. now rewrite utf8_slash. Qed.
Lemma waits_shown fi x k : waits fi x k -> key_shown k (p_above x ++ [t_name (p_tree x)]) (p_tree x).
Proof.
  intros ((full & d & raw & (B1 & B2 & B3 & _ & B5 & _) & V & SC & _) & A). split; [exact B1|].
  split; [rewrite B2; now apply read_utf8_utf8|]. split; [|split; [exact V|exact B5]].
  rewrite B3, <- spelled_path. apply read_utf8_utf8, spelled_scalar. apply Forall_app. split; [exact A|]. now constructor.
Qed.
Lemma shown_to_return k n names t : key_shown (kn_set_to_return n k) names t <-> key_shown k names t.
Proof. split; intros H; exact H. Qed.
Lemma shown_track k n names t : key_shown (kn_set_track n k) names t <-> key_shown k names t.
Proof. split; intros H; exact H. Qed.

Lemma nodup_app {A} (a b : list A) : NoDup (a ++ b) -> NoDup a /\ NoDup b /\ (forall q, In q a -> ~ In q b).
Proof.
  induction a as [|y a IH]; intros D; [split; [constructor|]; split; [exact D|]; intros q []|].
  cbn in D. apply NoDup_cons_iff in D as [D1 D2]. destruct (IH D2) as (X & Y & Z). split; [|split; [exact Y|]].
  - constructor; [|exact X]. intros I. apply D1. apply in_or_app. now left.
  - intros q [->|I]; [|now apply Z]. intros J. apply D1. apply in_or_app. now right.
Qed.
Lemma subs_pos subs x : In x (map t_pos subs) -> In x (flat_map positions subs).
Proof.
  intros I. apply in_map_iff in I as (t & <- & I). apply in_flat_map. exists t. split; [exact I|].
  rewrite positions_eq. now left.
Qed.
Lemma subs_nodup subs : NoDup (flat_map positions subs) -> NoDup (map t_pos subs).
Proof.
  induction subs as [|t r IH]; intros D; [constructor|]. cbn [flat_map map] in *. rewrite positions_eq in D. cbn [app] in D.
  apply NoDup_cons_iff in D as [D1 D2]. apply nodup_app in D2 as (_ & D2 & _). constructor; [|now apply IH].
  intros I. apply D1. apply in_or_app. right. now apply subs_pos.
Qed.
(** The keys below the sub keys are none of the sub keys. *)
Lemma below_subs subs q : NoDup (flat_map positions subs) -> In q (flat_map below subs) -> ~ In q (map t_pos subs).
Proof.
  induction subs as [|t r IH]; intros D I; [contradiction|]. cbn [flat_map map] in *. rewrite positions_eq in D. cbn [app] in D.
  apply NoDup_cons_iff in D as [D1 D2]. intros J.
  destruct (nodup_app _ _ D2) as (_ & _ & X).
  apply in_app_or in I as [I|I].
  - destruct J as [J|J]; [subst q; apply D1; apply in_or_app; now left|]. apply (X q I). now apply subs_pos.
  - destruct J as [J|J].
    + subst q. apply D1. apply in_or_app. right. apply in_flat_map in I as (s & S & I). apply in_flat_map. exists s.
      split; [exact S|]. rewrite positions_eq. now right.
    + apply IH in J; [exact J| |exact I]. now apply nodup_app in D2.
Qed.
Lemma below_in subs q : In q (flat_map below subs) -> In q (flat_map positions subs).
Proof.
  intros I. apply in_flat_map in I as (s & S & I). apply in_flat_map. exists s. split; [exact S|]. rewrite positions_eq. now right.
Qed.

(** One key taken from the stack: what it becomes and what is stacked. *)
Lemma visit_waits fi cx x k : bytes_ok (fi_buffer fi) -> fi_hbin fi < 2 ^ 32 ->
  cx_modified cx = false \/ quiet (cx_state cx) -> cx_filter cx = None -> waits fi x k ->
  NoDup (below (p_tree x)) -> (forall q, In q (below (p_tree x)) -> ~ In q (cx_offsets cx)) ->
  exists k' kids, waits fi x (kn_set_to_return 0 k') /\ kn_to_return k' = len (t_subs (p_tree x))
  /\ Forall2 (waits fi) (kid_pending x) kids
  /\ map kn_offset kids = map t_pos (t_subs (p_tree x))
  /\ visit fi cx k = Ok (k', with_kids kids cx).
Proof.
  intros B H M NF (L & SA) D O. destruct (visit_tree fi cx _ _ _ _ B H M NF L) as (k' & kids & L' & R & K & E).
  assert (OF : map kn_offset kids = map t_pos (t_subs (p_tree x))).
  { clear -K. induction K as [|t k ts ks P F IH]; [reflexivity|]. cbn. rewrite IH. f_equal. destruct P as (? & ? & ? & P & _). apply P. }
  exists k', kids. split; [now split|]. split; [exact R|]. split; [|split; [exact OF|]].
  - assert (SA' : Forall (Forall scalar) (p_above x ++ [t_name (p_tree x)])).
    { apply Forall_app. split; [exact SA|]. constructor; [|constructor]. destruct L as (? & ? & ? & _ & _ & SC & _). exact SC. }
    assert (PE : kn_path k' = utf8 (spelled (p_above x ++ [t_name (p_tree x)]))).
    { rewrite spelled_path. apply loaded_path in L'. exact L'. }
    rewrite PE in K. unfold kid_pending. clear -K SA'. induction K as [|t k ts ks P F IH]; [constructor|].
    cbn [map]. constructor; [|exact IH]. split; [exact P|exact SA'].
  - rewrite E. f_equal. f_equal. apply push_all.
    + rewrite OF. now apply subs_nodup.
    + intros q I. apply O. assert (J : In (kn_offset q) (map kn_offset kids)) by now apply in_map. rewrite OF in J.
      now apply subs_pos.
Qed.

(** ** Pre-order *)
Definition all_pos (ps : list pending) : list N := flat_map (fun x => positions (p_tree x)) ps.
Definition all_below (ps : list pending) : list N := flat_map (fun x => below (p_tree x)) ps.
Lemma kid_pos x : all_pos (kid_pending x) = below (p_tree x).
Proof. unfold all_pos, kid_pending, below. induction (t_subs (p_tree x)); [reflexivity|]. cbn. now rewrite IHl. Qed.
Lemma kid_below x : all_below (kid_pending x) = flat_map below (t_subs (p_tree x)).
Proof. unfold all_below, kid_pending. induction (t_subs (p_tree x)); [reflexivity|]. cbn. now rewrite IHl. Qed.
Lemma all_pos_app a b : all_pos (a ++ b) = all_pos a ++ all_pos b. Proof. apply flat_map_app. Qed.
Lemma all_below_app a b : all_below (a ++ b) = all_below a ++ all_below b. Proof. apply flat_map_app. Qed.

Lemma offsets_step x r off : NoDup (all_pos (x :: r)) ->
  (forall q, In q (all_below (x :: r)) -> ~ In q off) ->
  NoDup (all_pos (kid_pending x ++ r))
  /\ (forall q, In q (all_below (kid_pending x ++ r)) -> ~ In q (map t_pos (t_subs (p_tree x)) ++ off)).
Proof.
  intros D O. rewrite all_pos_app, all_below_app, kid_pos, kid_below.
  cbn [all_pos all_below flat_map] in D, O. rewrite positions_eq in D. cbn [app] in D. apply NoDup_cons_iff in D as [D1 D2].
  split; [exact D2|]. intros q I J. apply in_app_or in J.
  destruct (nodup_app _ _ D2) as (_ & _ & X).
  apply in_app_or in I as [I|I].
  - destruct J as [J|J].
    + revert J. apply below_subs; [|exact I]. now apply nodup_app in D2.
    + revert J. apply O. apply in_or_app. left. now apply below_in.
  - destruct J as [J|J].
    + apply subs_pos in J. apply (X q J). unfold all_pos. apply in_flat_map in I as (s & S & I).
      apply in_flat_map. exists s. split; [exact S|]. rewrite positions_eq. now right.
    + revert J. apply O. apply in_or_app. now right.
Qed.

Lemma pre_collect fi : bytes_ok (fi_buffer fi) -> fi_hbin fi < 2 ^ 32 -> forall fuel ps cx,
  cx_modified cx = false \/ quiet (cx_state cx) -> cx_filter cx = None ->
  Forall2 (waits fi) ps (cx_stack cx) -> NoDup (all_pos ps) ->
  (forall q, In q (all_below ps) -> ~ In q (cx_offsets cx)) ->
  (length (all_pos ps) < fuel)%nat ->
  exists ks, collect false fuel fi cx = Ok ks
  /\ shown ks (flat_map (fun x => preorder (p_above x) (p_tree x)) ps).
Proof.
  intros B H. induction fuel as [|fuel IH]; intros ps cx M NF W D O L; [lia|].
  cbn [collect next_key_preorder]. destruct (cx_stack cx) as [|k stack] eqn:S.
  - inversion W; subst. exists []. split; [reflexivity|constructor].
  - inversion W as [|x k0 r st0 Wx Wr]; subst. clear W.
    cbn [all_pos flat_map] in L. rewrite positions_eq in L. cbn [app length] in L.
    set (cx1 := cx_set_stack stack cx).
    assert (D0 : NoDup (below (p_tree x))).
    { pose proof D as D'. cbn [all_pos flat_map] in D'. apply nodup_app in D' as (D' & _). rewrite positions_eq in D'.
      now apply NoDup_cons_iff in D'. }
    destruct (visit_waits fi cx1 x k B H M NF Wx D0) as (k' & kids & W' & R & K & OF & E).
    { intros q I. apply O. cbn [all_below flat_map]. apply in_or_app. now left. }
    rewrite E. cbv beta iota.
    destruct (offsets_step x r (cx_offsets cx) D O) as [D2 O2].
    edestruct (IH (kid_pending x ++ r) (with_kids kids cx1)) as (ks & C & SH); try assumption.
    { cbn [cx_stack with_kids]. apply Forall2_app; assumption. }
    { cbn [cx_offsets with_kids]. rewrite OF. exact O2. }
    { rewrite all_pos_app, kid_pos. unfold all_pos. lia. }
    exists (k' :: ks). split.
    + replace (cx_ancestors (with_kids kids cx1) || negb (f_is_valid (cx_filter (with_kids kids cx1))) || is_match_or_desc k')
        with true.
      * rewrite C. reflexivity.
      * replace (cx_filter (with_kids kids cx1)) with (@None reg_query) by (symmetry; exact NF).
        cbn [f_is_valid negb]. now rewrite orb_true_r.
    + cbn [flat_map]. rewrite preorder_eq. cbn [app]. constructor.
      * apply waits_shown in W'. exact W'.
      * unfold shown. rewrite flat_map_app in SH. 
        replace (flat_map (preorder (p_above x ++ [t_name (p_tree x)])) (t_subs (p_tree x)))
          with (flat_map (fun y => preorder (p_above y) (p_tree y)) (kid_pending x)); [exact SH|].
        unfold kid_pending. rewrite flat_map_concat_map, map_map, <- flat_map_concat_map. reflexivity.
Qed.

(** ** Post-order *)
(** A key on the return stack with the sub keys still to be visited. *)
Definition frame := (pending * list key_tree)%type.
Definition kids_of (fr : frame) : list pending :=
  map (fun s => (p_above (fst fr) ++ [t_name (p_tree (fst fr))], false, s)) (snd fr).
Definition frame_key (fr : frame) := (p_above (fst fr) ++ [t_name (p_tree (fst fr))], p_tree (fst fr)).
Definition posts (ps : list pending) := flat_map (fun x => postorder (p_above x) (p_tree x)) ps.
Definition frame_out (fr : frame) := posts (kids_of fr) ++ [frame_key fr].
(** The key [k] of the frame counts the sub keys already taken. *)
Definition frame_ok (fi : file_info) (fr : frame) (k : key_node) : Prop :=
  waits fi (fst fr) (kn_set_to_return 0 (kn_set_track 0 k))
  /\ kn_to_return k = len (t_subs (p_tree (fst fr)))
  /\ kn_track k + len (snd fr) = len (t_subs (p_tree (fst fr))).
Record post_inv fi (frs : list frame) (base : list pending) (cx : context) : Prop := {
  pi_mod : cx_modified cx = false \/ quiet (cx_state cx);
  pi_filter : cx_filter cx = None;
  pi_return : Forall2 (frame_ok fi) frs (cx_return cx);
  pi_stack : Forall2 (waits fi) (flat_map kids_of frs ++ base) (cx_stack cx);
  pi_nodup : NoDup (all_pos (flat_map kids_of frs ++ base));
  pi_below : forall q, In q (all_below (flat_map kids_of frs ++ base)) -> ~ In q (cx_offsets cx) }.
Definition out_of (frs : list frame) (base : list pending) := flat_map frame_out frs ++ posts base.

Lemma waits_fields fi x k : waits fi x k -> kn_track k = 0 /\ kn_to_return k = 0 /\ kn_filter k = None.
Proof. intros ((? & ? & ? & (B1 & B2 & B3 & B4 & B5 & B6 & B7 & B8 & B9 & B10 & B11) & _) & _). auto. Qed.
Lemma frame_shown fi fr k : frame_ok fi fr k -> key_shown k (fst (frame_key fr)) (snd (frame_key fr)).
Proof. intros (W & _). apply waits_shown in W. exact W. Qed.
Lemma frame_filter fi fr k : frame_ok fi fr k -> kn_filter k = None.
Proof. intros (W & _). apply waits_fields in W as (_ & _ & W). exact W. Qed.
Lemma kids_all x : kids_of (x, t_subs (p_tree x)) = kid_pending x.
Proof. reflexivity. Qed.
Lemma posts_app a b : posts (a ++ b) = posts a ++ posts b. Proof. apply flat_map_app. Qed.
Lemma posts_one x : posts [x] = posts (kid_pending x) ++ [(p_above x ++ [t_name (p_tree x)], p_tree x)].
Proof.
  unfold posts at 1. cbn [flat_map]. rewrite app_nil_r, postorder_eq. f_equal. unfold posts, kid_pending.
  rewrite (flat_map_concat_map _ (map _ _)), map_map, <- flat_map_concat_map. reflexivity.
Qed.

(** Taking the next key from the stack. *)
Lemma post_step fi frs base cx x ps k stack : bytes_ok (fi_buffer fi) -> fi_hbin fi < 2 ^ 32 ->
  cx_modified cx = false \/ quiet (cx_state cx) -> cx_filter cx = None ->
  waits fi x k -> Forall2 (waits fi) ps stack -> NoDup (all_pos (x :: ps)) ->
  (forall q, In q (all_below (x :: ps)) -> ~ In q (cx_offsets cx)) ->
  Forall2 (frame_ok fi) frs (match cx_return cx with [] => [] | last :: r => kn_set_track (kn_track last + 1) last :: r end) ->
  ps = flat_map kids_of frs ++ base ->
  exists k' cx1, visit fi (cx_set_stack stack cx) k = Ok (k', cx1) /\ cx_return cx1 = cx_return cx
  /\ post_inv fi ((x, t_subs (p_tree x)) :: frs) base
       (cx_set_return (k' :: match cx_return cx1 with [] => [] | last :: r => kn_set_track (kn_track last + 1) last :: r end) cx1).
Proof.
  intros B H M NF Wx Wr D O FR PS.
  assert (D0 : NoDup (below (p_tree x))).
  { pose proof D as D'. cbn [all_pos flat_map] in D'. apply nodup_app in D' as (D' & _). rewrite positions_eq in D'.
    now apply NoDup_cons_iff in D'. }
  destruct (visit_waits fi (cx_set_stack stack cx) x k B H M NF Wx D0) as (k' & kids & W' & R & K & OF & E).
  { intros q I. apply O. cbn [all_below flat_map]. apply in_or_app. now left. }
  destruct (offsets_step x ps (cx_offsets cx) D O) as [D2 O2].
  exists k', (with_kids kids (cx_set_stack stack cx)). split; [exact E|]. split; [reflexivity|].
  assert (TR : kn_track k' = 0) by (apply waits_fields in W' as (W' & _); exact W').
  assert (SK : flat_map kids_of ((x, t_subs (p_tree x)) :: frs) ++ base = kid_pending x ++ ps).
  { cbn [flat_map]. rewrite kids_all, <- app_assoc, PS. reflexivity. }
  split; try assumption; rewrite ?SK; try assumption.
  - cbn [cx_return cx_set_return with_kids cx_set_stack]. constructor; [|exact FR]. split; [|split].
    + cbn [fst]. replace (kn_set_track 0 k') with k' by (destruct k'; cbn in TR; now subst). exact W'.
    + exact R.
    + rewrite TR. cbn [snd fst]. lia.
  - cbn [cx_stack cx_set_return with_kids cx_set_stack]. apply Forall2_app; assumption.
  - cbn [cx_offsets cx_set_return with_kids cx_set_stack]. rewrite OF. exact O2.
Qed.

Lemma post_next fi : bytes_ok (fi_buffer fi) -> fi_hbin fi < 2 ^ 32 -> forall fuel frs base cx,
  post_inv fi frs base cx -> (length (all_pos (flat_map kids_of frs ++ base)) < fuel)%nat ->
  match out_of frs base with
  | [] => next_key_postorder fuel fi cx = Ok (None, cx)
  | (names, t) :: rest => exists k frs' base' cx', next_key_postorder fuel fi cx = Ok (Some k, cx')
      /\ key_shown k names t /\ post_inv fi frs' base' cx' /\ out_of frs' base' = rest
      /\ (length (all_pos (flat_map kids_of frs' ++ base')) <= length (all_pos (flat_map kids_of frs ++ base)))%nat
  end.
Proof.
  intros B H. induction fuel as [|fuel IH]; intros frs base cx [M NF R W D O] L; [lia|].
  cbn [next_key_postorder].
  assert (POP : forall fr frs0 k r, frs = fr :: frs0 -> snd fr = [] -> cx_return cx = k :: r ->
     exists k' frs' base' cx', Ok (Some k, cx_set_return r cx) = Ok (Some k', cx')
      /\ key_shown k' (fst (frame_key fr)) (snd (frame_key fr)) /\ post_inv fi frs' base' cx'
      /\ out_of frs' base' = flat_map frame_out frs0 ++ posts base
      /\ (length (all_pos (flat_map kids_of frs' ++ base')) <= length (all_pos (flat_map kids_of frs ++ base)))%nat).
  { intros fr frs0 k r -> NIL CR. exists k, frs0, base, (cx_set_return r cx). rewrite CR in R.
    inversion R as [|? ? ? ? F FS]; subst.
    assert (KO : kids_of fr = []) by (unfold kids_of; now rewrite NIL).
    cbn [flat_map] in W, D, O, L |- *. rewrite KO in *. cbn [app] in *.
    split; [reflexivity|]. split; [now apply frame_shown in F|]. split; [|split; [reflexivity|lia]].
    split; assumption. }
  destruct (cx_stack cx) as [|k stack] eqn:S.
  - (* the stack is empty *)
    destruct frs as [|fr frs0].
    + cbn [flat_map app] in W. inversion W; subst. cbn [out_of flat_map app posts].
      inversion R as [E|]. reflexivity.
    + destruct (cx_return cx) as [|top r] eqn:CR; [inversion R|].
      assert (NIL : snd fr = []).
      { inversion W as [E|]. cbn [flat_map] in E. symmetry in E. rewrite <- app_assoc in E. apply app_eq_nil in E as [E _].
        unfold kids_of in E. now apply map_eq_nil in E. }
      assert (FN : kn_filter top = None) by (inversion R; subst; eapply frame_filter; eassumption).
      rewrite FN. cbn [negb]. rewrite orb_true_r.
      assert (OE : out_of (fr :: frs0) base = frame_key fr :: flat_map frame_out frs0 ++ posts base)
          by (unfold out_of; cbn [flat_map]; unfold frame_out at 1, kids_of; rewrite NIL; reflexivity).
        rewrite OE. exact (POP fr frs0 top r eq_refl NIL eq_refl).
  - (* the next key *)
    assert (STEP : forall frs1 x ps, x :: ps = flat_map kids_of frs ++ base ->
       ps = flat_map kids_of frs1 ++ (match frs with [] => tl base | _ => base end) -> True) by trivial.
    destruct frs as [|fr frs0].
    + destruct (cx_return cx) eqn:CR; [|inversion R]. cbn [flat_map app] in *. destruct base as [|x ps]; [inversion W|].
      inversion W as [|? ? ? ? Wx Wr]; subst.
      destruct (post_step fi [] ps cx x ps k stack B H M NF Wx Wr D O) as (k' & cx1 & E & RE & PI).
      { rewrite CR. constructor. } { reflexivity. }
      rewrite E. cbv beta iota zeta. rewrite RE, CR in *.
      specialize (IH _ _ _ PI).
      assert (LL : (length (all_pos (flat_map kids_of [(x, t_subs (p_tree x))] ++ ps)) < fuel)%nat).
      { cbn [flat_map]. rewrite kids_all, app_nil_r, all_pos_app, kid_pos.
        cbn [all_pos flat_map] in L. rewrite positions_eq in L. cbn [app length] in L. unfold all_pos. lia. }
      specialize (IH LL).
      assert (OE : out_of [(x, t_subs (p_tree x))] ps = out_of [] (x :: ps)).
      { unfold out_of. cbn [flat_map app]. rewrite app_nil_r. unfold frame_out. rewrite kids_all.
        change (x :: ps) with ([x] ++ ps). rewrite posts_app, posts_one. reflexivity. }
      match type of IH with context [out_of ?a ?b] => assert (OE' : out_of a b = out_of [] (x :: ps)) by exact OE end.
      rewrite OE' in IH. unfold out_of at 1 in IH. cbn [flat_map app] in IH. unfold out_of at 1. cbn [flat_map app].
      destruct (posts (x :: ps)) as [|[names t] rest] eqn:PO.
      * exfalso. change (x :: ps) with ([x] ++ ps) in PO. rewrite posts_app, posts_one, <- app_assoc in PO.
        apply app_eq_nil in PO as [_ PO]. discriminate.
      * destruct IH as (k2 & frs' & base' & cx' & N & SH & PI' & OO & LE). exists k2, frs', base', cx'.
        split; [exact N|]. split; [exact SH|]. split; [exact PI'|]. split; [exact OO|].
        eapply Nat.le_trans; [exact LE|]. cbn [flat_map]. rewrite kids_all, app_nil_r, all_pos_app, kid_pos.
        cbn [app all_pos flat_map]. rewrite positions_eq. cbn [app length]. rewrite !app_length. unfold all_pos. lia.
    + destruct (cx_return cx) as [|top r] eqn:CR; [inversion R|].
      inversion R as [|? ? ? ? F FS]; subst.
      destruct (N.eqb_spec (kn_track top) (kn_to_return top)) as [TE|TN].
      * assert (NIL : snd fr = []).
        { destruct F as (_ & F1 & F2). apply len_0. lia. }
        assert (OE : out_of (fr :: frs0) base = frame_key fr :: flat_map frame_out frs0 ++ posts base)
          by (unfold out_of; cbn [flat_map]; unfold frame_out at 1, kids_of; rewrite NIL; reflexivity).
        rewrite OE. exact (POP fr frs0 top r eq_refl NIL eq_refl).
      * destruct fr as [x0 [|s rem]].
        { exfalso. destruct F as (_ & F1 & F2). cbn [snd fst] in *. change (len (@nil key_tree)) with 0 in F2. lia. }
        set (x := (p_above x0 ++ [t_name (p_tree x0)], false, s) : pending).
        assert (KO : kids_of (x0, s :: rem) = x :: kids_of (x0, rem)) by reflexivity.
        cbn [flat_map] in W, D, O, L. rewrite KO in W, D, O, L. cbn [app] in W, D, O, L.
        inversion W as [|? ? ? ? Wx Wr]; subst.
        destruct (post_step fi ((x0, rem) :: frs0) base cx x _ k stack B H M NF Wx Wr D O) as (k' & cx1 & E & RE & PI).
        { rewrite CR. constructor; [|exact FS]. destruct F as (F0 & F1 & F2). split; [exact F0|]. split; [exact F1|].
          cbn [snd fst] in *. rewrite len_cons in F2. cbn. lia. }
        { reflexivity. }
        rewrite E. cbv beta iota zeta. specialize (IH _ _ _ PI).
        assert (LL : (length (all_pos (flat_map kids_of ((x, t_subs (p_tree x)) :: (x0, rem) :: frs0) ++ base)) < fuel)%nat).
        { cbn [flat_map]. rewrite kids_all, <- app_assoc, all_pos_app, kid_pos.
          cbn [all_pos flat_map] in L. rewrite positions_eq in L. cbn [app length] in L. rewrite app_length in *. unfold all_pos. lia. }
        specialize (IH LL).
        assert (OE : out_of ((x, t_subs (p_tree x)) :: (x0, rem) :: frs0) base = out_of ((x0, s :: rem) :: frs0) base).
        { unfold out_of. cbn [flat_map]. unfold frame_out at 1 2 4. rewrite kids_all, KO.
          change (x :: kids_of (x0, rem)) with ([x] ++ kids_of (x0, rem)). rewrite posts_app, posts_one.
          rewrite <- !app_assoc. reflexivity. }
        match type of IH with context [out_of ?a ?b] => assert (OE' : out_of a b = out_of ((x0, s :: rem) :: frs0) base) by exact OE end.
        rewrite OE' in IH.
        match goal with |- context [match ?o with [] => _ | _ => _ end] => change (out_of ((x0, s :: rem) :: frs0) base) with o in IH; destruct o as [|[names t] rest] eqn:PO end.
        { exfalso. unfold out_of in PO. cbn [flat_map] in PO. apply app_eq_nil in PO as [PO _].
          apply app_eq_nil in PO as [PO _]. unfold frame_out in PO. apply app_eq_nil in PO as [_ PO]. discriminate. }
        destruct IH as (k2 & frs' & base' & cx' & N & SH & PI' & OO & LE). exists k2, frs', base', cx'.
        split; [exact N|]. split; [exact SH|]. split; [exact PI'|]. split; [exact OO|].
        cbn [flat_map]. rewrite KO. cbn [flat_map] in LE. rewrite kids_all in LE.
        eapply Nat.le_trans; [exact LE|]. rewrite <- app_assoc, all_pos_app, kid_pos. 
        change ((x :: kids_of (x0, rem)) ++ flat_map kids_of frs0) with (x :: (kids_of (x0, rem) ++ flat_map kids_of frs0)).
        cbn [app all_pos flat_map]. rewrite positions_eq. cbn [app length]. rewrite !app_length. unfold all_pos. lia.
Qed.

Lemma post_collect fi : bytes_ok (fi_buffer fi) -> fi_hbin fi < 2 ^ 32 -> forall fuel frs base cx,
  post_inv fi frs base cx ->
  (length (all_pos (flat_map kids_of frs ++ base)) + length (out_of frs base) < fuel)%nat ->
  exists ks, collect true fuel fi cx = Ok ks /\ shown ks (out_of frs base).
Proof.
  intros B H. induction fuel as [|fuel IH]; intros frs base cx PI L; [lia|].
  cbn [collect]. pose proof (post_next fi B H (S fuel) frs base cx PI ltac:(lia)) as X.
  destruct (out_of frs base) as [|[names t] rest] eqn:OE.
  - rewrite X. exists []. split; [reflexivity|constructor].
  - destruct X as (k & frs' & base' & cx' & E & SH & PI' & OO & LE). rewrite E. cbv beta iota.
    destruct (IH frs' base' cx' PI') as (ks & C & KS).
    { rewrite OO. cbn [length] in L. lia. }
    rewrite C. exists (k :: ks). split; [reflexivity|]. rewrite OO in KS. constructor; [exact SH|exact KS].
Qed.
