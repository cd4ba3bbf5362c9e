(** What an iteration can report as deleted: only what is in the maps of the
    parse state. *)
From Verif Require Import Base BaseFacts LayoutSpec LayoutFacts HeaderFacts BaseBlock Util Types Value Node Recover Parser TxLog
  NodeFrame TxSpec TxApply TxBuild CellSpec CellFacts CellData CellList CellRead ScanSpec ScanFacts.

(** ** Maps *)
Definition forall_map {K A} (P : A -> Prop) (m : amap K (list A)) : Prop := Forall (fun e => Forall P (snd e)) m.
Lemma aget_forall {K A} eqb (P : A -> Prop) k (m : amap K (list A)) l : forall_map P m -> aget eqb k m = Some l -> Forall P l.
Proof.
  induction m as [|[k' l'] m IH]; cbn [aget]; [discriminate|]. intros F. inversion F; subst.
  destruct (eqb k k'); [now intros [= <-]|]. now apply IH.
Qed.
Lemma aset_forall {K A} eqb (P : A -> Prop) k (m : amap K (list A)) l : forall_map P m -> Forall P l -> forall_map P (aset eqb k l m).
Proof.
  intros F L. induction m as [|[k' l'] m IH]; cbn [aset]; [constructor; [exact L|constructor]|]. inversion F; subst.
  destruct (eqb k k'); constructor; auto. now apply IH.
Qed.
Lemma adel_forall {K A} eqb (P : A -> Prop) k (m : amap K (list A)) : forall_map P m -> forall_map P (adel eqb k m).
Proof.
  intros F. induction m as [|[k' l'] m IH]; cbn [adel]; [constructor|]. inversion F; subst.
  destruct (eqb k k'); [assumption|]. constructor; auto. now apply IH.
Qed.
Lemma push_forall {K A} eqb (P : A -> Prop) k x (m : amap K (list A)) : forall_map P m -> P x -> forall_map P (map_push eqb k x m).
Proof.
  intros F X. unfold map_push. destruct (aget eqb k m) as [l|] eqn:E; apply aset_forall; auto.
  apply Forall_app. split; [exact (aget_forall eqb P k m l F E)|auto].
Qed.
Lemma push_all_forall {A} (P : A -> Prop) l : forall m, forall_map P m -> Forall P l -> forall_map P (push_all l m).
Proof.
  unfold push_all. induction l as [|x l IH]; intros m F L; [exact F|]. cbn [fold_left]. inversion L; subst.
  apply IH; [now apply push_forall|assumption].
Qed.
Lemma remove_first_forall {A} (P : A -> Prop) t l r : Forall P l -> remove_first t l = Some r -> Forall P r.
Proof.
  revert r. induction l as [|x l IH]; intros r F; cbn [remove_first]; [discriminate|]. inversion F; subst.
  destruct (t x); [now intros [= <-]|]. destruct (remove_first t l); [|discriminate]. intros [= <-]. constructor; auto.
Qed.

Section Good.
Variable PK : key_node -> Prop.
Variable PV : key_value -> Prop.
Hypothesis PK_other : forall k, is_deleted_primary_file (kn_state k) = false -> PK k.
Hypothesis PV_other : forall v, is_deleted_primary_file (kv_state v) = false -> PV v.
Hypothesis PK_same : forall k k', same_cell k' k -> kn_state k' = kn_state k ->
  (kn_deleted k = [] -> kn_deleted k' = []) -> PK k -> PK k'.
Hypothesis PV_versions : forall l v, PV v -> PV (kv_set_versions l v).

Inductive good (k : key_node) : Prop :=
  good_intro : PK k -> Forall PV (kn_values k) -> Forall good (kn_deleted k) -> good k.
Lemma good_same k k' : same_cell k' k -> kn_state k' = kn_state k -> kn_deleted k' = kn_deleted k -> good k -> good k'.
Proof.
  intros S T D [A B C]. constructor; [apply (PK_same k); auto; now rewrite D| |now rewrite D].
  destruct S as (_ & _ & _ & _ & V & _). now rewrite V.
Qed.
Definition good_maps (st : state) : Prop :=
  forall_map good (st_deleted_keys st) /\ forall_map PV (st_deleted_values st).

Lemma insert_forall {A} (P : A -> Prop) leb x l : P x -> Forall P l -> Forall P (insert_by leb x l).
Proof.
  intros X F. induction F as [|y l Y F IH]; cbn [insert_by]; [constructor; auto|].
  destruct (leb x y); constructor; auto.
Qed.
Lemma sort_forall {A} (P : A -> Prop) leb l : Forall P l -> Forall P (sort_by leb l).
Proof. unfold sort_by. intros F. induction F; cbn [fold_right]; [constructor|]. now apply insert_forall. Qed.

Lemma uml_good fuel st : good_maps st -> forall k k', update_modified_lists fuel st k = Ok k' -> good k ->
  good k' /\ kn_state k' = kn_state k.
Proof.
  intros (MK & MV). induction fuel as [|fuel IH]; intros k k'; [discriminate|]. cbn [update_modified_lists].
  destruct (is_deleted_primary_file (kn_state k)) eqn:D; [intros [= <-] G; now split|].
  set (path := lookup_path k).
  set (st1 := match aget beq path (st_deleted_keys st) with None => Ok k | Some _ => _ end).
  intros E G.
  assert (S1 : forall k1, st1 = Ok k1 -> kn_state k1 = kn_state k /\ kn_values k1 = kn_values k /\ Forall good (kn_deleted k1)).
  { unfold st1. destruct (aget beq path (st_deleted_keys st)) as [dks|] eqn:A.
    - pose proof (aget_forall _ _ _ _ _ MK A) as F. clear A E st1. intros k1.
      match goal with |- (let* l := ?g dks in _) = _ -> _ => set (go := g) end.
      assert (GO : forall dks l, Forall good dks -> go dks = Ok l -> Forall good l).
      { clear dks F. induction dks as [|dk r IHr]; intros l F; [now intros [= <-]|]. inversion F; subst.
        change (go (dk :: r)) with (let* dk' := if kn_offset dk =? kn_offset k then Ok dk else update_modified_lists fuel st dk in
          let* r' := go r in Ok (dk' :: r')).
        destruct (if kn_offset dk =? kn_offset k then Ok dk else update_modified_lists fuel st dk) as [dk'| | |] eqn:U; try discriminate.
        destruct (go r) as [r'| | |] eqn:R; try discriminate. intros [= <-]. constructor; [|now apply IHr].
        destruct (kn_offset dk =? kn_offset k); [now injection U as <-|]. now apply (IH dk dk'). }
      destruct (go dks) as [l| | |] eqn:R; try discriminate. intros [= <-].
      split; [reflexivity|]. split; [reflexivity|]. now apply (GO dks).
    - intros k1 [= <-]. split; [reflexivity|]. split; [reflexivity|]. now destruct G. }
  destruct st1 as [k1| | |]; try discriminate. destruct (S1 k1 eq_refl) as (T1 & V1 & D1). cbv beta iota zeta in E.
  injection E as <-. split.
  - constructor.
    + apply PK_other. destruct (aget beq path (st_modified_keys st)); cbn [kn_set_values kn_set_versions kn_state]; now rewrite T1.
    + cbn [kn_set_values kn_values]. apply Forall_app. split.
      * assert (V2 : forall q, kn_values q = kn_values k -> Forall PV (map (fun v => match aget pair_eqb (path, vd_name (kv_detail v)) (st_modified_values st) with
           | Some ms => kv_set_versions (sort_by (fun a b0 : key_value => opt_le (kv_seq b0) (kv_seq a)) ms) v | None => v end) (kn_values q))).
        { intros q ->. destruct G as [_ G _]. apply Forall_map. eapply Forall_impl; [|exact G]. intros v Pv. cbv beta.
          destruct (aget pair_eqb _ _); [now apply PV_versions|exact Pv]. }
        apply V2. destruct (aget beq path (st_modified_keys st)); exact V1.
      * destruct (aget beq path (st_deleted_values st)) as [dvs|] eqn:A; [|constructor].
        apply sort_forall. exact (aget_forall _ _ _ _ _ MV A).
    + destruct (aget beq path (st_modified_keys st)); exact D1.
  - destruct (aget beq path (st_modified_keys st)); cbn [kn_set_values kn_set_versions kn_state]; exact T1.
Qed.

(** Values that are read are allocated. *)
Lemma read_values_loop_alloc fi st seq offs : forall acc vs logs ok, Forall (fun v => kv_state v = Allocated) acc ->
  read_values_loop fi st seq offs acc = Ok (vs, logs, ok) -> Forall (fun v => kv_state v = Allocated) vs.
Proof.
  induction offs as [|o offs IH]; intros acc vs logs ok A; cbn [read_values_loop]; [now intros [= <- _ _]|].
  destruct (get_at _ _); [|now intros [= <- _ _]]. destruct (get_from _ _) as [s|]; [|now intros [= <- _ _]].
  destruct (kv_cases s (o + fi_hbin fi) seq (st_full st)) as [(_ & nm & w & _ & E)|(_ & E)]; rewrite E; [|now intros [= <- _ _]].
  apply IH. apply Forall_app. split; [exact A|]. constructor; [|constructor].
  unfold read_value_bytes. destruct (read_value_bytes_direct _ _ _ _ _) as [[? ?] ?]. reflexivity.
Qed.
Lemma read_values_alloc fi st seq k k' ok : Forall (fun v => kv_state v = Allocated) (kn_values k) ->
  read_values fi st seq k = Ok (k', ok) ->
  Forall (fun v => kv_state v = Allocated) (kn_values k') /\ kn_state k' = kn_state k /\ kn_deleted k' = kn_deleted k.
Proof.
  intros A. unfold read_values. destruct (_ && _); [|intros [= <- _]; auto].
  destruct (1048576 <? _); [intros [= <- _]; auto|]. destruct (parse_key_values _ _ _) as [offs|]; [|intros [= <- _]; cbn; auto].
  destruct (read_values_loop _ _ _ _ _) as [[[vs logs] ok']| | |] eqn:E; try discriminate. intros [= <- _].
  split; [|now split]. apply (read_values_loop_alloc _ _ _ _ _ _ _ _ (Forall_nil _) E).
Qed.
Lemma root_only_maps st st' : root_only st st' -> good_maps st -> good_maps st'.
Proof. intros H. unfold root_only in H. rewrite H. easy. Qed.
Lemma slice_good fi st slice o k st' : good_maps st -> read_from_slice fi st slice o = Ok (Some k, st') ->
  good k /\ kn_state k = Allocated /\ (op_modified o = false -> kn_deleted k = []).
Proof.
  intros M. unfold read_from_slice.
  destruct (kn_cases st slice (op_offset o) (op_path o) (op_seq o)) as [(_ & nm & w & _ & E)|(_ & E)]; rewrite E; [|discriminate].
  cbv beta iota. set (k0 := kn_at _ _ _ _ _ _ _).
  destruct (match op_filter o with Some f => check_cell f st k0 | None => Ok (IterateKeys, st) end) as [[fl st1]| | |] eqn:EF; try discriminate.
  assert (RO : root_only st st1).
  { destruct (op_filter o); [exact (check_cell_state _ _ _ _ _ EF)|injection EF as _ <-; apply root_only_refl]. }
  pose proof (root_only_maps _ _ RO M) as M1. cbv beta iota. destruct fl; [discriminate| |].
  all: match goal with |- (let* k := ?x in _) = _ -> _ => destruct x as [k1| | |] eqn:EV; try discriminate end.
  all: assert (A1 : Forall (fun v => kv_state v = Allocated) (kn_values k1) /\ kn_state k1 = Allocated /\ kn_deleted k1 = []);
    [destruct (_ && _) in EV; [|injection EV as <-; cbn; auto]; destruct (read_values _ _ _ _) as [[k2 ok]| | |] eqn:RV in EV; try discriminate;
     apply read_values_alloc in RV as (R1 & R2 & R3); [|constructor]; injection EV as <-; destruct ok; cbn; auto|].
  all: destruct A1 as (V1 & T1 & D1); cbv beta iota zeta.
  all: match goal with |- (let* k := (if _ then update_modified_lists _ _ ?x else _) in _) = _ -> _ => set (k2 := x) end.
  all: assert (G2 : good k2 /\ kn_state k2 = Allocated /\ kn_deleted k2 = []);
    [split; [constructor; [apply PK_other; change (kn_state k2) with (kn_state k1); now rewrite T1| |change (kn_deleted k2) with (kn_deleted k1); rewrite D1; constructor];
       change (kn_values k2) with (kn_values k1); (eapply Forall_impl; [|exact V1]); intros v Hv; apply PV_other; now rewrite Hv
      |split; assumption]|].
  all: destruct G2 as (G2 & T2 & D2); destruct (op_modified o);
    [destruct (update_modified_lists _ _ _) as [k3| | |] eqn:U; try discriminate; apply uml_good in U; auto;
     destruct U as (U1 & U2); intros [= <- _]; split; [exact U1|]; split; [now rewrite U2|discriminate]
    |intros [= <- _]; auto].
Qed.
Lemma read_good fi st o k st' : good_maps st -> kn_read fi st o = Ok (Some k, st') ->
  good k /\ kn_state k = Allocated /\ (op_modified o = false -> kn_deleted k = []).
Proof. intros M. unfold kn_read. destruct (get_from _ _); [|discriminate]. cbn [ok_or]. now apply slice_good. Qed.

Lemma child_good sm f c : good c -> good (child_filter_state sm f c).
Proof. intros G. unfold child_filter_state. repeat match goal with |- context [if ?b then _ else _] => destruct b end; try exact G;
  apply (good_same c); try reflexivity; try exact G; repeat split. Qed.
Lemma children_good fi path sm f sf seq m offs : forall st cs found logs st', good_maps st ->
  read_children fi st path sm f sf seq m offs = Ok (cs, found, logs, st') -> Forall good cs.
Proof.
  induction offs as [|o offs IH]; intros st cs found logs st' M; cbn [read_children]; [intros [= <- _ _ _]; constructor|].
  destruct (kn_read fi st _) as [[[c|] st1]| | |] eqn:R; try discriminate.
  - pose proof (root_only_maps _ _ (kn_read_state _ _ _ _ _ R) M) as M1. apply read_good in R as (G & _); [|exact M].
    destruct (read_children _ _ _ _ _ _ _ _ _) as [[[[cs1 ?] ?] ?]| | |] eqn:E; try discriminate. intros [= <- _ _ _].
    constructor; [now apply child_good|]. now apply (IH _ _ _ _ _ M1 E).
  - pose proof (root_only_maps _ _ (kn_read_state _ _ _ _ _ R) M) as M1. intros E. now apply (IH _ _ _ _ _ M1 E).
  - destruct (read_children _ _ _ _ _ _ _ _ _) as [[[[cs1 ?] ?] ?]| | |] eqn:E; try discriminate. intros [= <- _ _ _].
    now apply (IH _ _ _ _ _ M E).
Qed.
Lemma sub_keys_good fi st k f seq m k' cs found st' : good_maps st -> good k ->
  read_sub_keys_internal fi st k f seq m = Ok (k', cs, found, st') -> good k' /\ Forall good cs.
Proof.
  intros M G. unfold read_sub_keys_internal.
  assert (GL : forall c, good (kn_add_log c k)) by (intros; apply (good_same k); try reflexivity; [repeat split|exact G]).
  destruct (is_allocated _); [|intros [= <- <- _ _]; auto]. destruct (1048576 <? _); [intros [= <- <- _ _]; auto|].
  destruct (0 <? _); [|intros [= <- <- _ _]; auto]. destruct (parse_sub_key_list _ _ _) as [offs| | |]; try discriminate.
  - destruct (read_children _ _ _ _ _ _ _ _ _) as [[[[cs1 ?] ?] ?]| | |] eqn:E; try discriminate. intros [= <- <- _ _].
    split; [apply (good_same k); try reflexivity; [repeat split|exact G]|]. now apply (children_good _ _ _ _ _ _ _ _ _ _ _ _ _ M E).
  - intros [= <- <- _ _]; auto.
Qed.

(** ** Iteration *)
Definition good_cx (c : context) : Prop := good_maps (cx_state c) /\ Forall good (cx_stack c) /\ Forall good (cx_return c).
Lemma push_check_good k c : good k -> good_cx c -> good_cx (push_check k c).
Proof. intros G (A & B & C). unfold push_check. destruct (existsb _ _); [exact (conj A (conj B C))|]. split; [exact A|]. split; [now constructor|exact C]. Qed.
Lemma push_good k c : good k -> good_cx c -> good_cx (push k c).
Proof. intros G (A & B & C). split; [exact A|]. split; [now constructor|exact C]. Qed.
Lemma fold_good (g : context -> key_node -> context) l : (forall k c, good k -> good_cx c -> good_cx (g c k)) -> Forall good l ->
  forall c, good_cx c -> good_cx (fold_left g l c).
Proof. intros H F. induction F as [|k l K F IH]; intros c C; [exact C|]. cbn [fold_left]. apply IH. now apply H. Qed.
Lemma visit_good fi cx k k' cx' : good_cx cx -> good k -> visit fi cx k = Ok (k', cx') -> good k' /\ good_cx cx'.
Proof.
  intros C G. unfold visit.
  match goal with |- match ?x with _ => _ end = _ -> _ => destruct x as [[k1 cx1]| | |] eqn:E; try discriminate end.
  assert (X : good k1 /\ good_cx cx1).
  { destruct (0 <? _) in E; [|injection E as <- <-; auto].
    destruct (read_sub_keys_internal _ _ _ _ _ _) as [[[[k2 cs] fd] st]| | |] eqn:R in E; try discriminate.
    pose proof (root_only_maps _ _ (read_sub_keys_state _ _ _ _ _ _ _ _ _ _ R) (proj1 C)) as M.
    apply sub_keys_good in R as (R1 & R2); [|apply C|exact G]. injection E as <- <-. split.
    - apply (good_same k2); try reflexivity; [repeat split|exact R1].
    - apply (fold_good (fun cx c => push_check c cx)); [intros; now apply push_check_good|now apply Forall_rev|].
      destruct C as (_ & C2 & C3). now split. }
  cbv beta iota. destruct X as ([X1 X2 X3] & X4). intros [= <- <-].
  assert (D : Forall good (map (kn_set_filter (kn_filter k1)) (kn_deleted k1))).
  { induction X3; cbn [map]; constructor; auto. apply (good_same x); try reflexivity; [repeat split|assumption]. }
  split.
  - constructor; [apply (PK_same k1); [repeat split|reflexivity| |exact X1]|exact X2|exact D]. intros Z.
    cbn [kn_set_deleted kn_deleted]. now rewrite Z.
  - apply (fold_good (fun cx d => push d cx)); [intros; now apply push_good|exact D|exact X4].
Qed.
Lemma next_pre_good fi : forall fuel cx o cx', good_cx cx -> next_key_preorder fuel fi cx = Ok (o, cx') ->
  good_cx cx' /\ (forall k, o = Some k -> good k).
Proof.
  induction fuel as [|fuel IH]; intros cx o cx' C; [discriminate|]. cbn [next_key_preorder].
  destruct (cx_stack cx) as [|node rest] eqn:S; [intros [= <- <-]; split; [exact C|discriminate]|].
  pose proof C as (C1 & C2 & C3). rewrite S in C2. inversion C2; subst.
  destruct (visit fi (cx_set_stack rest cx) node) as [[k1 cx1]| | |] eqn:V; try discriminate.
  apply visit_good in V as (V1 & V2); [|split; [exact C1|split; [assumption|exact C3]]|assumption]. cbv beta iota.
  destruct (_ || _); [intros [= <- <-]; split; [exact V2|now intros k [= <-]]|]. now apply IH.
Qed.
Lemma track_good n k : good k -> good (kn_set_track n k).
Proof. intros G. apply (good_same k); try reflexivity; [repeat split|exact G]. Qed.
Lemma next_post_good fi : forall fuel cx o cx', good_cx cx -> next_key_postorder fuel fi cx = Ok (o, cx') ->
  good_cx cx' /\ (forall k, o = Some k -> good k).
Proof.
  induction fuel as [|fuel IH]; intros cx o cx' C; [discriminate|]. cbn [next_key_postorder].
  pose proof C as (C1 & C2 & C3).
  destruct (cx_stack cx) as [|node rest] eqn:S.
  - destruct (cx_return cx) as [|top r] eqn:R; [intros [= <- <-]; split; [exact C|discriminate]|]. inversion C3; subst.
    assert (C' : good_cx (cx_set_return r cx)) by (split; [exact C1|split; [cbn [cx_set_return cx_stack]; rewrite S; constructor|assumption]]).
    cbv zeta. destruct (_ || _); intros [= <- <-]; (split; [exact C'|]); [now intros k [= <-]|discriminate].
  - inversion C2; subst. cbv zeta.
    assert (STEP : (let* (node, cx) := visit fi (cx_set_stack rest cx) node in
            let ret := match cx_return cx with [] => [] | last :: r => kn_set_track (kn_track last + 1) last :: r end in
            next_key_postorder fuel fi (cx_set_return (node :: ret) cx)) = Ok (o, cx') -> good_cx cx' /\ (forall k, o = Some k -> good k)).
    { destruct (visit fi (cx_set_stack rest cx) node) as [[k1 cx1]| | |] eqn:V; try discriminate.
      apply visit_good in V as (V1 & V2); [|split; [exact C1|split; [assumption|exact C3]]|assumption]. cbv beta iota zeta.
      apply IH. destruct V2 as (W1 & W2 & W3). split; [exact W1|]. split; [exact W2|]. cbn [cx_set_return cx_return].
      constructor; [exact V1|]. destruct (cx_return cx1); [constructor|]. inversion W3; subst. constructor; [now apply track_good|assumption]. }
    destruct (cx_return cx) as [|last r] eqn:R; [exact STEP|]. destruct (_ =? _); [|exact STEP].
    inversion C3; subst. intros [= <- <-]. split; [|now intros k [= <-]].
    split; [exact C1|]. split; [cbn [cx_set_return cx_stack]; now rewrite S|assumption].
Qed.
Lemma collect_good post fi : forall fuel cx ks, good_cx cx -> collect post fuel fi cx = Ok ks -> Forall good ks.
Proof.
  induction fuel as [|fuel IH]; intros cx ks C; [discriminate|]. cbn [collect].
  destruct ((if post then next_key_postorder else next_key_preorder) (S fuel) fi cx) as [[o cx1]| | |] eqn:E; try discriminate.
  assert (X : good_cx cx1 /\ (forall k, o = Some k -> good k)).
  { destruct post; [now apply (next_post_good fi (S fuel) cx)|now apply (next_pre_good fi (S fuel) cx)]. }
  destruct X as (C1 & G). cbv beta iota. destruct o as [k|]; [|intros [= <-]; constructor].
  destruct (collect post fuel fi cx1) as [r| | |] eqn:R; try discriminate. intros [= <-]. constructor; [now apply G|now apply (IH cx1)].
Qed.
Definition good_parser (p : parser) : Prop := good_maps (ps_state p) /\ (forall r, ps_root p = Some r -> good r).
Lemma default_good : good default_key.
Proof. constructor; [now apply PK_other|constructor|constructor]. Qed.
Lemma iterate_good p n f anc m post ks : good_parser p -> iterate n p f anc m post = Ok ks -> Forall good ks.
Proof.
  intros (M & R). unfold iterate. apply collect_good. unfold from_parser. split; [exact M|]. split; [|constructor].
  cbn [cx_stack]. constructor; [|constructor]. destruct (ps_root p); [now apply R|apply default_good].
Qed.

(** ** Building *)
Lemma init_root_good p p' : good_maps (ps_state p) -> init_root p = Ok p' -> good_parser p'.
Proof.
  intros M. unfold init_root. destruct (get_from _ _); [|discriminate]. cbn [ok_or].
  destruct (hbin_from_bytes _ _) as [[h r]| | |]; try discriminate. cbv beta iota zeta.
  destruct (kn_read _ _ _) as [[root st]| | |] eqn:R; try discriminate. intros [= <-].
  pose proof (root_only_maps _ _ (kn_read_state _ _ _ _ _ R) M) as M1. split; [exact M1|].
  cbn [ps_set_root ps_root]. intros r0 E. subst root. now apply read_good in R.
Qed.
Lemma add_key_good fi seq st path off old del st' : good_maps st -> add_full_key fi seq st path off old del = Ok st' -> good_maps st'.
Proof.
  intros M. unfold add_full_key. destruct (kn_read _ _ _) as [[[k|] st1]| | |] eqn:R; try discriminate;
    pose proof (root_only_maps _ _ (kn_read_state _ _ _ _ _ R) M) as M1; cbv beta iota zeta; [|now intros [= <-]].
  apply read_good in R as (G & T & D); [|exact M]. specialize (D eq_refl). intros [= <-]. destruct del; [|exact M1].
  destruct M1 as (MK & MV). split; [|exact MV]. cbn [set_deleted_keys st_deleted_keys]. apply push_forall; [exact MK|].
  constructor; [now apply PK_other|constructor|]. cbn [kn_set_state kn_set_values kn_set_updated kn_deleted]. rewrite D. constructor.
Qed.
Lemma add_value_good fi seq st path off old del st' : good_maps st -> add_full_value fi seq st path off old del = Ok st' -> good_maps st'.
Proof.
  intros M. unfold add_full_value. destruct (get_from _ _); [|discriminate]. cbn [ok_or].
  destruct (kv_from_bytes _ _ _ _) as [[v r]| | |]; try discriminate. cbv beta iota zeta. intros [= <-]. destruct del; [|exact M].
  destruct M as (MK & MV). split; [exact MK|]. cbn [set_deleted_values st_deleted_values]. apply push_forall; [exact MV|]. now apply PV_other.
Qed.
Lemma add_all_good {A} (g : state -> A -> res state) l : (forall st x st', good_maps st -> g st x = Ok st' -> good_maps st') ->
  forall st logs st' logs', good_maps st -> add_all g l st logs = Ok (st', logs') -> good_maps st'.
Proof.
  intros H. induction l as [|x l IH]; intros st logs st' logs' M; cbn [add_all]; [now intros [= <- _]|].
  destruct (g st x) as [st1| | |] eqn:E; try discriminate; [apply IH; now apply (H st x)|now apply IH].
Qed.
Lemma remove_latest_good st e : good_maps st -> good_maps (remove_latest st e).
Proof.
  intros (MK & MV). unfold remove_latest. destruct (snd (fst e)) as [name|].
  - split; [exact MK|]. cbn [set_deleted_values st_deleted_values]. unfold deleted_values_remove.
    destruct (aget _ _ _) as [vs|] eqn:A; [|exact MV]. pose proof (aget_forall _ _ _ _ _ MV A) as F.
    destruct (remove_first _ vs) as [r|] eqn:R; [|exact MV]. pose proof (remove_first_forall _ _ _ _ F R) as Fr.
    destruct r; [apply adel_forall|]; now apply aset_forall.
  - split; [|exact MV]. cbn [set_deleted_keys st_deleted_keys]. unfold deleted_keys_remove.
    destruct (aget _ _ _) as [vs|] eqn:A; [|exact MK]. pose proof (aget_forall _ _ _ _ _ MK A) as F.
    destruct (remove_first _ vs) as [r|] eqn:R; [|exact MK]. pose proof (remove_first_forall _ _ _ _ F R) as Fr.
    destruct r; [apply adel_forall|]; now apply aset_forall.
Qed.
Lemma latest_good order fuel fi seq p items l p' logs : good_maps (ps_state p) ->
  get_latest_reg_items order fuel fi seq p items = Ok (l, p', logs) -> good_maps (ps_state p').
Proof.
  intros M. unfold get_latest_reg_items. destruct (init_root p) as [p1| | |] eqn:E; try discriminate.
  apply init_root_good in E as (M1 & _); [|exact M]. cbv beta iota.
  destruct (iterate _ _ _ _ _ _); try discriminate.
  destruct (handle_keys _ _ _ _ _ _ _) as [[[[[? ?] ?] ?] ?]| | |]; try discriminate. cbv beta iota.
  destruct (add_all _ _ _ _) as [[? ?]| | |] eqn:A1; try discriminate.
  apply add_all_good in A1; [|intros ? ? ?; apply add_key_good|exact M1].
  destruct (add_all _ _ _ _) as [[? ?]| | |] eqn:A2; try discriminate.
  apply add_all_good in A2; [|intros ? ? ?; apply add_value_good|exact A1].
  destruct (add_all _ _ _ _) as [[st ?]| | |] eqn:A3; try discriminate.
  apply add_all_good in A3; [|intros ? [[? [?|]] ?] ?; [apply add_value_good|apply add_key_good]|exact A2].
  intros [= _ <- _]. cbn [ps_set_state ps_state]. 
  match goal with |- good_maps (fold_left _ ?es _) => generalize es end. intros es. revert st A3.
  induction es as [|e es IH]; intros st A3; [exact A3|]. cbn [fold_left]. apply IH. now apply remove_latest_good.
Qed.
Lemma analyze_good order fuel fi seq p items i' p' : good_maps (ps_state p) ->
  analyze_entry order fuel fi seq p items = Ok (i', p') -> good_maps (ps_state p').
Proof.
  intros M. unfold analyze_entry. destruct (ps_recover p); [|now intros [= _ <-]].
  destruct (get_latest_reg_items _ _ _ _ _ _) as [[[l p1] logs]| | |] eqn:E; try discriminate; [|now intros [= _ <-]].
  apply latest_good in E; [|exact M]. now intros [= _ <-].
Qed.
Lemma entries_good order fuel sec hbins es : forall n p items n' i' p', good_maps (ps_state p) ->
  update_entries order fuel sec hbins es n p items = Ok (n', i', p') -> good_maps (ps_state p').
Proof.
  induction es as [|e es IH]; intros n p items n' i' p' M; cbn [update_entries]; [now intros [= _ _ <-]|].
  destruct (le_valid_hashes e); [|now intros [= _ _ <-]].
  destruct (_ <? sec); [now apply IH|]. destruct (negb _); [now intros [= _ _ <-]|]. destruct (_ && _); [now intros [= _ _ <-]|].
  cbv zeta. destruct (apply_pages _ _ _) as [b| | |]; try discriminate. cbv beta iota.
  destruct (analyze_entry _ _ _ _ _ _) as [[i1 p1]| | |] eqn:E; try discriminate. cbv beta iota.
  apply IH. eapply analyze_good; [|exact E]. exact M.
Qed.
Lemma logs_good order fuel sec logs : forall n p items n' p', good_maps (ps_state p) ->
  apply_logs order fuel sec logs n p items = Ok (n', p') -> good_maps (ps_state p').
Proof.
  induction logs as [|l logs IH]; intros n p items n' p' M; cbn [apply_logs]; [now intros [= _ <-]|].
  destruct (sec <=? _); [|now apply IH]. destruct (_ || _); [|now apply IH].
  unfold update_parser. destruct (base_block_info p) as [[s h]| | |]; try discriminate. cbv beta iota.
  destruct (update_entries _ _ _ _ _ _ _ _) as [[[n1 i1] p1]| | |] eqn:E; try discriminate. cbv beta iota.
  apply IH. now apply entries_good in E.
Qed.
Lemma base_block_good p s bad p' : good_maps (ps_state p) -> init_base_block p = Ok (s, bad, p') -> good_maps (ps_state p').
Proof.
  intros M. unfold init_base_block, check_base_block. destruct (bb_from_bytes _) as [[bb r]| | |]; try discriminate. cbv beta iota zeta.
  destruct (is_supported bb); [|now intros [= _ _ <-]].
  set (q := if _ =? _ then _ else _).
  assert (MQ : good_maps (ps_state q)) by (unfold q; destruct (_ =? _); exact M).
  destruct (get_range _ _ _); [|discriminate]. cbn [or_panic]. destruct (calculate_checksum _) as [ck| | |]; try discriminate.
  cbv beta iota. clearbody q. destruct (ck =? _); now intros [= _ _ <-].
Qed.
Lemma apply_good order fuel bad logs p p' : good_maps (ps_state p) ->
  apply_transaction_logs order fuel bad logs p = Ok p' -> good_maps (ps_state p').
Proof.
  intros M. unfold apply_transaction_logs. destruct logs as [|l logs]; [now intros [= <-]|].
  destruct (prepare_logs bad p (l :: logs)) as [[[go p1] logs1]| | |] eqn:E; try discriminate.
  assert (M1 : good_maps (ps_state p1)).
  { unfold prepare_logs in E. destruct bad.
    - destruct (handle_bad_checksum p (l :: logs)) as [[p2 logs2]| | |] eqn:H; try discriminate.
      assert (M2 : good_maps (ps_state p2)).
      { unfold handle_bad_checksum in H. destruct (last _ _); [|discriminate]. cbn [or_panic] in H. cbv beta zeta iota in H.
        destruct (get_range _ _ _) in H; [|discriminate]. cbn [ok_or] in H. destruct (overwrite _ _ _) in H; [|discriminate]. cbn [or_panic] in H.
        destruct (init_base_block _) as [[[s b] p3]| | |] eqn:B in H; try discriminate. injection H as <- _.
        now apply base_block_good in B. }
      cbv beta iota in E. destruct (ps_base_block p2); [|discriminate]. cbn [or_panic] in E. destruct (_ =? _); now injection E as _ <- _.
    - cbv beta iota in E. destruct (ps_base_block p); [|discriminate]. cbn [or_panic] in E. destruct (_ =? _); now injection E as _ <- _. }
  cbv beta iota. destruct go; [|now intros [= <-]].
  destruct (get_reg_items fuel p1 0) as [[items p2]| | |] eqn:G; try discriminate.
  assert (M2 : good_maps (ps_state p2)).
  { unfold get_reg_items in G. destruct (ps_recover p1); [|now injection G as _ <-].
    destruct (init_root p1) as [q| | |] eqn:I; try discriminate. apply init_root_good in I as (I & _); [|exact M1].
    destruct (iterate _ _ _ _ _ _); try discriminate. destruct (insert_keys _ _ _); try discriminate. now injection G as _ <-. }
  cbv beta iota. destruct (base_block_info p2) as [[sec h]| | |]; try discriminate. cbv beta iota.
  destruct (apply_logs _ _ _ _ _ _ _) as [[n p3]| | |] eqn:A; try discriminate. apply logs_good in A; [|exact M2]. cbv beta iota.
  unfold update_header. destruct (overwrite _ _ _); [|discriminate]. cbn [or_panic]. destruct (overwrite _ _ _); [|discriminate]. cbn [or_panic].
  destruct (get_range _ _ _); [|discriminate]. cbn [or_panic]. destruct (calculate_checksum _); try discriminate.
  cbv beta iota. destruct (overwrite _ _ _); [|discriminate]. cbn [or_panic].
  destruct (init_base_block _) as [[[s b] p4]| | |] eqn:B; try discriminate. apply base_block_good in B; [|exact A].
  now intros [= <-].
Qed.
End Good.
