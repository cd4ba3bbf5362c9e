(** Without recovery every key an iteration shows is its own live part. *)
From Verif Require Import Base BaseFacts LayoutSpec BaseBlock Util Types Value Node Recover Parser TxLog
  NodeFrame TxSpec TxBuild CellSpec CellFacts CellRead TreeSpec TreeRead TreeOpen AnyFile ScanSpec ScanFacts Recovered Pure LiveSpec.

Definition clean_value (v : key_value) : Prop := kv_state v = Allocated /\ kv_versions v = [].
Definition clean (k : key_node) : Prop :=
  kn_state k = Allocated /\ kn_deleted k = [] /\ kn_versions k = [] /\ Forall clean_value (kn_values k).
Lemma clean_live k : clean k -> live_key k = k.
Proof.
  intros (A & B & C & D). unfold live_key.
  assert (V : map live_value (List.filter (fun v => is_allocated (kv_state v)) (kn_values k)) = kn_values k).
  { clear - D. induction D as [|v l (V1 & V2) D IH]; [reflexivity|]. cbn [List.filter]. rewrite V1. cbn [is_allocated map].
    f_equal; [|exact IH]. unfold live_value, kv_set_versions. destruct v. cbn in V2. now subst. }
  rewrite V. destruct k. cbn in B, C. now subst.
Qed.
Lemma clean_keys ks : Forall clean ks -> live_keys ks = ks.
Proof.
  unfold live_keys. induction 1 as [|k l K F IH]; [reflexivity|]. cbn [List.filter]. replace (is_allocated (kn_state k)) with true by (destruct K as (-> & _); reflexivity).
  cbn [map]. now rewrite IH, clean_live.
Qed.
Lemma clean_same k k' : kn_state k' = kn_state k -> kn_deleted k' = kn_deleted k -> kn_versions k' = kn_versions k ->
  kn_values k' = kn_values k -> clean k -> clean k'.
Proof. unfold clean. now intros -> -> -> ->. Qed.
Lemma values_loop_clean fi st seq offs : forall acc vs logs ok, Forall clean_value acc ->
  read_values_loop fi st seq offs acc = Ok (vs, logs, ok) -> Forall clean_value vs.
Proof.
  induction offs as [|o offs IH]; intros acc vs logs ok A; cbn [read_values_loop]; [now intros [= <- _ _]|].
  destruct (get_at _ _); [|now intros [= <- _ _]]. destruct (get_from _ _) as [s|]; [|now intros [= <- _ _]].
  destruct (kv_cases s (o + fi_hbin fi) seq (st_full st)) as [(_ & nm & w & _ & E)|(_ & E)]; rewrite E; [|now intros [= <- _ _]].
  apply IH. apply Forall_app. split; [exact A|]. constructor; [|constructor].
  unfold read_value_bytes. destruct (read_value_bytes_direct _ _ _ _ _) as [[? ?] ?]. split; reflexivity.
Qed.
Lemma values_clean fi st seq k k' ok : clean k -> read_values fi st seq k = Ok (k', ok) -> clean k'.
Proof.
  intros A. unfold read_values. destruct (_ && _); [|intros [= <- _]; auto].
  destruct (1048576 <? _); [intros [= <- _]; auto|]. destruct (parse_key_values _ _ _) as [offs|]; [|intros [= <- _]; destruct A as (A1 & A2 & A3 & _); repeat (split; [assumption|]); constructor].
  destruct (read_values_loop _ _ _ _ _) as [[[vs logs] ok']| | |] eqn:E; try discriminate. intros [= <- _].
  destruct A as (A1 & A2 & A3 & A4). split; [exact A1|]. split; [exact A2|]. split; [exact A3|].
  exact (values_loop_clean _ _ _ _ _ _ _ _ (Forall_nil _) E).
Qed.
Lemma slice_clean fi st slice o k st' : quiet st -> read_from_slice fi st slice o = Ok (Some k, st') -> clean k.
Proof.
  intros M. unfold read_from_slice.
  destruct (kn_cases st slice (op_offset o) (op_path o) (op_seq o)) as [(_ & nm & w & _ & E)|(_ & E)]; rewrite E; [|discriminate].
  cbv beta iota. set (k0 := kn_at _ _ _ _ _ _ _).
  destruct (match op_filter o with Some f => check_cell f st k0 | None => Ok (IterateKeys, st) end) as [[fl st1]| | |] eqn:EF; try discriminate.
  assert (RO : root_only st st1).
  { destruct (op_filter o); [exact (check_cell_state _ _ _ _ _ EF)|injection EF as _ <-; apply root_only_refl]. }
  pose proof (quiet_root_only' _ _ RO M) as M1. cbv beta iota. destruct fl; [discriminate| |].
  all: match goal with |- (let* k := ?x in _) = _ -> _ => destruct x as [k1| | |] eqn:EV; try discriminate end.
  all: assert (A1 : clean k1);
    [destruct (_ && _) in EV; [|injection EV as <-; repeat split; constructor]; destruct (read_values _ _ _ _) as [[k2 ok]| | |] eqn:RV in EV; try discriminate;
     apply values_clean in RV; [|repeat split; constructor]; injection EV as <-; destruct ok; exact RV|].
  all: cbv beta iota zeta.
  all: match goal with |- (let* k := (if _ then update_modified_lists _ _ ?x else _) in _) = _ -> _ => set (k2 := x) end.
  all: assert (G2 : clean k2) by exact A1.
  all: destruct (op_modified o);
    [match goal with |- context [update_modified_lists ?f ?s ?k] => destruct (update_modified_lists f s k) as [k3| | |] eqn:U; try discriminate end
    |now intros [= <- _]].
  all: unfold uml_fuel in U; rewrite uml_quiet in U by exact M1; injection U as <-; now intros [= <- _].
Qed.
Lemma read_clean fi st o k st' : quiet st -> kn_read fi st o = Ok (Some k, st') -> clean k.
Proof. intros M. unfold kn_read. destruct (get_from _ _); [|discriminate]. cbn [ok_or]. now apply slice_clean. Qed.
Lemma child_clean sm f c : clean c -> clean (child_filter_state sm f c).
Proof. intros G. unfold child_filter_state. repeat match goal with |- context [if ?b then _ else _] => destruct b end; exact G. Qed.
Lemma children_clean fi path sm f sf seq m offs : forall st cs found logs st', quiet st ->
  read_children fi st path sm f sf seq m offs = Ok (cs, found, logs, st') -> Forall clean cs.
Proof.
  induction offs as [|o offs IH]; intros st cs found logs st' M; cbn [read_children]; [intros [= <- _ _ _]; constructor|].
  destruct (kn_read fi st _) as [[[c|] st1]| | |] eqn:R; try discriminate.
  - pose proof (quiet_root_only' _ _ (kn_read_state _ _ _ _ _ R) M) as M1. apply read_clean in R; [|exact M].
    destruct (read_children _ _ _ _ _ _ _ _ _) as [[[[cs1 ?] ?] ?]| | |] eqn:E; try discriminate. intros [= <- _ _ _].
    constructor; [now apply child_clean|]. now apply (IH _ _ _ _ _ M1 E).
  - pose proof (quiet_root_only' _ _ (kn_read_state _ _ _ _ _ R) M) as M1. intros E. now apply (IH _ _ _ _ _ M1 E).
  - destruct (read_children _ _ _ _ _ _ _ _ _) as [[[[cs1 ?] ?] ?]| | |] eqn:E; try discriminate. intros [= <- _ _ _].
    now apply (IH _ _ _ _ _ M E).
Qed.
Lemma sub_keys_clean fi st k f seq m k' cs found st' : quiet st -> clean k ->
  read_sub_keys_internal fi st k f seq m = Ok (k', cs, found, st') -> clean k' /\ Forall clean cs.
Proof.
  intros M G. unfold read_sub_keys_internal.
  assert (GL : forall c, clean (kn_add_log c k)) by (intros; exact G).
  destruct (is_allocated _); [|intros [= <- <- _ _]; auto]. destruct (1048576 <? _); [intros [= <- <- _ _]; auto|].
  destruct (0 <? _); [|intros [= <- <- _ _]; auto]. destruct (parse_sub_key_list _ _ _) as [offs| | |]; try discriminate.
  - destruct (read_children _ _ _ _ _ _ _ _ _) as [[[[cs1 ?] ?] ?]| | |] eqn:E; try discriminate. intros [= <- <- _ _].
    split; [exact G|]. now apply (children_clean _ _ _ _ _ _ _ _ _ _ _ _ _ M E).
  - intros [= <- <- _ _]; auto.
Qed.
Definition clean_cx (c : context) : Prop := quiet (cx_state c) /\ Forall clean (cx_stack c) /\ Forall clean (cx_return c).
Lemma push_check_clean k c : clean k -> clean_cx c -> clean_cx (push_check k c).
Proof. intros G (A & B & C). unfold push_check. destruct (existsb _ _); [exact (conj A (conj B C))|]. split; [exact A|]. split; [now constructor|exact C]. Qed.
Lemma fold_clean l : Forall clean l -> forall c, clean_cx c -> clean_cx (fold_left (fun cx c => push_check c cx) l c).
Proof. intros F. induction F as [|k l K F IH]; intros c C; [exact C|]. cbn [fold_left]. apply IH. now apply push_check_clean. Qed.
Lemma visit_clean fi cx k k' cx' : clean_cx cx -> clean k -> visit fi cx k = Ok (k', cx') -> clean k' /\ clean_cx cx'.
Proof.
  intros C G. unfold visit.
  match goal with |- match ?x with _ => _ end = _ -> _ => destruct x as [[k1 cx1]| | |] eqn:E; try discriminate end.
  assert (X : clean k1 /\ clean_cx cx1).
  { destruct (0 <? _) in E; [|injection E as <- <-; auto].
    destruct (read_sub_keys_internal _ _ _ _ _ _) as [[[[k2 cs] fd] st]| | |] eqn:R in E; try discriminate.
    pose proof (quiet_root_only' _ _ (read_sub_keys_state _ _ _ _ _ _ _ _ _ _ R) (proj1 C)) as M.
    apply sub_keys_clean in R as (R1 & R2); [|apply C|exact G]. injection E as <- <-. split; [exact R1|].
    apply fold_clean; [now apply Forall_rev|]. destruct C as (_ & C2 & C3). now split. }
  cbv beta iota. destruct X as (X1 & X4). pose proof X1 as (Y1 & Y2 & Y3 & Y4). rewrite Y2. cbn [map]. intros [= <- <-].
  split; [split; [exact Y1|]; split; [reflexivity|]; now split|exact X4].
Qed.
Lemma next_pre_clean fi : forall fuel cx o cx', clean_cx cx -> next_key_preorder fuel fi cx = Ok (o, cx') ->
  clean_cx cx' /\ (forall k, o = Some k -> clean k).
Proof.
  induction fuel as [|fuel IH]; intros cx o cx' C; [discriminate|]. cbn [next_key_preorder].
  destruct (cx_stack cx) as [|node rest] eqn:S; [intros [= <- <-]; split; [exact C|discriminate]|].
  pose proof C as (C1 & C2 & C3). rewrite S in C2. inversion C2; subst.
  destruct (visit fi (cx_set_stack rest cx) node) as [[k1 cx1]| | |] eqn:V; try discriminate.
  apply visit_clean in V as (V1 & V2); [|split; [exact C1|split; [assumption|exact C3]]|assumption]. cbv beta iota.
  destruct (_ || _); [intros [= <- <-]; split; [exact V2|now intros k [= <-]]|]. now apply IH.
Qed.
Lemma next_post_clean fi : forall fuel cx o cx', clean_cx cx -> next_key_postorder fuel fi cx = Ok (o, cx') ->
  clean_cx cx' /\ (forall k, o = Some k -> clean k).
Proof.
  induction fuel as [|fuel IH]; intros cx o cx' C; [discriminate|]. cbn [next_key_postorder].
  pose proof C as (C1 & C2 & C3).
  destruct (cx_stack cx) as [|node rest] eqn:S.
  - destruct (cx_return cx) as [|top r] eqn:R; [intros [= <- <-]; split; [exact C|discriminate]|]. inversion C3; subst.
    assert (C' : clean_cx (cx_set_return r cx)) by (split; [exact C1|split; [cbn [cx_set_return cx_stack]; rewrite S; constructor|assumption]]).
    cbv zeta. destruct (_ || _); intros [= <- <-]; (split; [exact C'|]); [now intros k [= <-]|discriminate].
  - inversion C2; subst. cbv zeta.
    assert (STEP : (let* (node, cx) := visit fi (cx_set_stack rest cx) node in
            let ret := match cx_return cx with [] => [] | last :: r => kn_set_track (kn_track last + 1) last :: r end in
            next_key_postorder fuel fi (cx_set_return (node :: ret) cx)) = Ok (o, cx') -> clean_cx cx' /\ (forall k, o = Some k -> clean k)).
    { destruct (visit fi (cx_set_stack rest cx) node) as [[k1 cx1]| | |] eqn:V; try discriminate.
      apply visit_clean in V as (V1 & V2); [|split; [exact C1|split; [assumption|exact C3]]|assumption]. cbv beta iota zeta.
      apply IH. destruct V2 as (W1 & W2 & W3). split; [exact W1|]. split; [exact W2|]. cbn [cx_set_return cx_return].
      constructor; [exact V1|]. destruct (cx_return cx1); [constructor|]. inversion W3; subst. constructor; assumption. }
    destruct (cx_return cx) as [|last r] eqn:R; [exact STEP|]. destruct (_ =? _); [|exact STEP].
    inversion C3; subst. intros [= <- <-]. split; [|now intros k [= <-]].
    split; [exact C1|]. split; [cbn [cx_set_return cx_stack]; now rewrite S|assumption].
Qed.
Lemma collect_clean post fi : forall fuel cx ks, clean_cx cx -> collect post fuel fi cx = Ok ks -> Forall clean ks.
Proof.
  induction fuel as [|fuel IH]; intros cx ks C; [discriminate|]. cbn [collect].
  destruct ((if post then next_key_postorder else next_key_preorder) (S fuel) fi cx) as [[o cx1]| | |] eqn:E; try discriminate.
  assert (X : clean_cx cx1 /\ (forall k, o = Some k -> clean k)).
  { destruct post; [now apply (next_post_clean fi (S fuel) cx)|now apply (next_pre_clean fi (S fuel) cx)]. }
  destruct X as (C1 & G). cbv beta iota. destruct o as [k|]; [|intros [= <-]; constructor].
  destruct (collect post fuel fi cx1) as [r| | |] eqn:R; try discriminate. intros [= <-]. constructor; [now apply G|now apply (IH cx1)].
Qed.
Lemma build_clean_root order fuel hash full buffer files p : known_file_type buffer ->
  build order fuel hash false full buffer files = Ok p -> quiet (ps_state p) /\ forall r, ps_root p = Some r -> clean r.
Proof.
  intros K B. apply (build_plain order fuel hash full) in B as (P & _ & st & ES & R); [|exact K].
  pose proof (plain_quiet _ _ _ P) as Q. split; [exact Q|]. intros r ER. rewrite ER in R. apply read_clean in R; [exact R|].
  exact (quiet_info _ _ (eq_sym ES) Q).
Qed.
Lemma iterate_clean order fuel hash full buffer files p n f anc m post ks : known_file_type buffer ->
  build order fuel hash false full buffer files = Ok p -> iterate n p f anc m post = Ok ks -> Forall clean ks.
Proof.
  intros K B. destruct (build_clean_root _ _ _ _ _ _ _ K B) as (Q & R). unfold iterate. apply collect_clean. unfold from_parser.
  split; [exact Q|]. split; [|constructor]. cbn [cx_stack]. constructor; [|constructor].
  destruct (ps_root p); [now apply R|]. repeat split; constructor.
Qed.
Lemma gsk_clean fi f seq : forall fuel st k o st', quiet st -> get_sub_key_internal fuel fi st k f seq = Ok (Some o, st') -> clean k -> clean o.
Proof.
  induction fuel as [|fuel IH]; intros st k o st' Q G C; [discriminate|]. cbn [get_sub_key_internal] in G.
  destruct (read_sub_keys_internal _ _ _ _ _ _) as [[[[n cs] fd] s]| | |] eqn:R; try discriminate.
  pose proof (quiet_root_only' _ _ (read_sub_keys_state _ _ _ _ _ _ _ _ _ _ R) Q) as Q1.
  apply sub_keys_clean in R as (_ & F); [|exact Q|exact C]. cbv beta iota in G.
  destruct fd; [destruct F; [discriminate|injection G as <- _; assumption]|].
  clear Q C. revert s Q1 G. induction F as [|c l K F IHl]; intros s Q1 G; [discriminate|].
  destruct (get_sub_key_internal fuel fi s c f seq) as [[[o1|] s1]| | |] eqn:G1; try discriminate.
  - injection G as <- _. exact (IH _ _ _ _ Q1 G1 K).
  - apply (IHl s1); [|exact G]. exact (quiet_root_only' _ _ (Pure.gsk_state _ _ _ _ _ _ _ _ G1) Q1).
Qed.
Lemma get_key_clean p n path hr k p' : quiet (ps_state p) -> get_key n p path hr = Ok (Some k, p') -> clean k.
Proof.
  intros Q. unfold get_key, get_root_key. destruct (ps_base_block p) as [bb|]; [|discriminate].
  match goal with |- context [kn_read ?fi ?s ?o] => destruct (kn_read fi s o) as [[[r|] s']| | |] eqn:RA; try discriminate end.
  pose proof (quiet_root_only' _ _ (kn_read_state _ _ _ _ _ RA) Q) as Q1. apply read_clean in RA; [|exact Q]. cbv beta iota.
  generalize (if hr then strip_root (trim_start_bs path) else trim_start_bs path). intros sub. unfold get_sub_key_by_path.
  destruct sub as [|x sub]; [cbv beta iota; now intros [= <- _]|].
  cbn [ps_set_state ps_file ps_state].
  match goal with |- context [get_sub_key_internal ?n ?fi s' r ?f ?sq] => destruct (get_sub_key_internal n fi s' r f sq) as [[[o|] t]| | |] eqn:G; try discriminate end.
  cbv beta iota. intros [= <- _]. exact (gsk_clean _ _ _ _ _ _ _ _ Q1 G RA).
Qed.
