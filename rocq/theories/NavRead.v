(** Every key carries the fields of the cell it was read from. *)
From Verif Require Import Base BaseFacts Util UtilSpec UtilText LayoutSpec LayoutFacts BaseBlock Types Value Node Recover Parser TxLog
  NodeFrame TxSpec TxBuild CellSpec CellFacts CellRead TreeSpec TreeRead TreeOpen AnyFile Pure.

Section Born.
Context (fi : file_info).
Definition born (k : key_node) : Prop :=
  kn_deleted k = [] /\ exists full, kn_detail k = nk_detail_at full (rest_at (fi_buffer fi) (kn_offset k)).
Definition still (st : state) : Prop := quiet st.
Lemma still_root st st' : root_only st st' -> still st -> still st'.
Proof. intros R Q. now apply (quiet_root_only' _ _ R). Qed.
Lemma values_born st seq k k' ok : born k -> read_values fi st seq k = Ok (k', ok) -> born k'.
Proof. intros (A & full & B) E. apply read_values_keeps in E as (E1 & _ & _ & _ & E5 & E6). split; [now rewrite E5|]. exists full. now rewrite E1, E6. Qed.
Lemma slice_born st o k st' : still st ->
  read_from_slice fi st (rest_at (fi_buffer fi) (op_offset o)) o = Ok (Some k, st') -> born k.
Proof.
  intros M. unfold read_from_slice. set (slice := rest_at (fi_buffer fi) (op_offset o)).
  destruct (kn_cases st slice (op_offset o) (op_path o) (op_seq o)) as [(_ & nm & w & _ & E)|(_ & E)]; rewrite E; [|discriminate].
  cbv beta iota. set (k0 := kn_at _ _ _ _ _ _ _).
  assert (B0 : born k0) by (split; [reflexivity|now exists (st_full st)]).
  destruct (match op_filter o with Some f => check_cell f st k0 | None => Ok (IterateKeys, st) end) as [[fl st1]| | |] eqn:EF; try discriminate.
  assert (RO : root_only st st1).
  { destruct (op_filter o); [exact (check_cell_state _ _ _ _ _ EF)|injection EF as _ <-; apply root_only_refl]. }
  pose proof (still_root _ _ RO M) as M1. cbv beta iota. destruct fl; [discriminate| |].
  all: match goal with |- (let* k := ?x in _) = _ -> _ => destruct x as [k1| | |] eqn:EV; try discriminate end.
  all: assert (A1 : born k1);
    [destruct (_ && _) in EV; [|injection EV as <-; exact B0]; destruct (read_values _ _ _ _) as [[k2 ok]| | |] eqn:RV in EV; try discriminate;
     apply values_born in RV; [|exact B0]; injection EV as <-; destruct ok; exact RV|].
  all: cbv beta iota zeta.
  all: match goal with |- (let* k := (if _ then update_modified_lists _ _ ?x else _) in _) = _ -> _ => set (k2 := x) end.
  all: assert (G2 : born k2) by exact A1.
  all: destruct (op_modified o);
    [match goal with |- context [update_modified_lists ?f ?s ?k] => destruct (update_modified_lists f s k) as [k3| | |] eqn:U; try discriminate end
    |now intros [= <- _]].
  all: unfold uml_fuel in U; rewrite uml_quiet in U by apply M1; injection U as <-; now intros [= <- _].
Qed.
Lemma read_born st o k st' : still st -> kn_read fi st o = Ok (Some k, st') -> born k.
Proof. intros M. unfold kn_read. destruct (get_from _ _) as [s|] eqn:GF; [|discriminate]. cbn [ok_or].
  assert (X : s = rest_at (fi_buffer fi) (op_offset o)) by (unfold get_from in GF; destruct (_ <=? _) in GF; [now injection GF|discriminate]).
  subst s. now apply slice_born. Qed.
Lemma child_born sm f c : born c -> born (child_filter_state sm f c).
Proof. intros G. unfold child_filter_state. repeat match goal with |- context [if ?b then _ else _] => destruct b end; exact G. Qed.
Lemma children_born path sm f sf seq m offs : forall st cs found logs st', still st ->
  read_children fi st path sm f sf seq m offs = Ok (cs, found, logs, st') -> Forall born cs.
Proof.
  induction offs as [|o offs IH]; intros st cs found logs st' M; cbn [read_children]; [intros [= <- _ _ _]; constructor|].
  destruct (kn_read fi st _) as [[[c|] st1]| | |] eqn:R; try discriminate.
  - pose proof (still_root _ _ (kn_read_state _ _ _ _ _ R) M) as M1. apply read_born in R; [|exact M].
    destruct (read_children _ _ _ _ _ _ _ _ _) as [[[[cs1 ?] ?] ?]| | |] eqn:E; try discriminate. intros [= <- _ _ _].
    constructor; [now apply child_born|]. now apply (IH _ _ _ _ _ M1 E).
  - pose proof (still_root _ _ (kn_read_state _ _ _ _ _ R) M) as M1. intros E. now apply (IH _ _ _ _ _ M1 E).
  - destruct (read_children _ _ _ _ _ _ _ _ _) as [[[[cs1 ?] ?] ?]| | |] eqn:E; try discriminate. intros [= <- _ _ _].
    now apply (IH _ _ _ _ _ M E).
Qed.
Lemma sub_keys_born st k f seq m k' cs found st' : still st -> born k ->
  read_sub_keys_internal fi st k f seq m = Ok (k', cs, found, st') -> born k' /\ Forall born cs.
Proof.
  intros M G. unfold read_sub_keys_internal.
  assert (GL : forall c, born (kn_add_log c k)) by (intros; exact G).
  destruct (is_allocated _); [|intros [= <- <- _ _]; auto]. destruct (1048576 <? _); [intros [= <- <- _ _]; auto|].
  destruct (0 <? _); [|intros [= <- <- _ _]; auto]. destruct (parse_sub_key_list _ _ _) as [offs| | |]; try discriminate.
  - destruct (read_children _ _ _ _ _ _ _ _ _) as [[[[cs1 ?] ?] ?]| | |] eqn:E; try discriminate. intros [= <- <- _ _].
    split; [exact G|]. now apply (children_born _ _ _ _ _ _ _ _ _ _ _ _ M E).
  - intros [= <- <- _ _]; auto.
Qed.
Definition born_cx (c : context) : Prop := still (cx_state c) /\ Forall born (cx_stack c) /\ Forall born (cx_return c).
Lemma push_check_born k c : born k -> born_cx c -> born_cx (push_check k c).
Proof. intros G (A & B & C). unfold push_check. destruct (existsb _ _); [exact (conj A (conj B C))|]. split; [exact A|]. split; [now constructor|exact C]. Qed.
Lemma fold_born l : Forall born l -> forall c, born_cx c -> born_cx (fold_left (fun cx c => push_check c cx) l c).
Proof. intros F. induction F as [|k l K F IH]; intros c C; [exact C|]. cbn [fold_left]. apply IH. now apply push_check_born. Qed.
Lemma visit_born cx k k' cx' : born_cx cx -> born k -> visit fi cx k = Ok (k', cx') -> born k' /\ born_cx cx'.
Proof.
  intros C G. unfold visit.
  match goal with |- match ?x with _ => _ end = _ -> _ => destruct x as [[k1 cx1]| | |] eqn:E; try discriminate end.
  assert (X : born k1 /\ born_cx cx1).
  { destruct (0 <? _) in E; [|injection E as <- <-; auto].
    destruct (read_sub_keys_internal _ _ _ _ _ _) as [[[[k2 cs] fd] st]| | |] eqn:R in E; try discriminate.
    pose proof (still_root _ _ (read_sub_keys_state _ _ _ _ _ _ _ _ _ _ R) (proj1 C)) as M.
    apply sub_keys_born in R as (R1 & R2); [|apply C|exact G]. injection E as <- <-. split; [exact R1|].
    apply fold_born; [now apply Forall_rev|]. destruct C as (_ & C2 & C3). now split. }
  cbv beta iota. destruct X as (X1 & X4). pose proof X1 as (Y1 & Y2). rewrite Y1. cbn [map]. intros [= <- <-].
  split; [|exact X4]. split; [reflexivity|exact Y2].
Qed.
Lemma next_pre_born : forall fuel cx o cx', born_cx cx -> next_key_preorder fuel fi cx = Ok (o, cx') ->
  born_cx cx' /\ (forall k, o = Some k -> born k).
Proof.
  induction fuel as [|fuel IH]; intros cx o cx' C; [discriminate|]. cbn [next_key_preorder].
  destruct (cx_stack cx) as [|node rest] eqn:S; [intros [= <- <-]; split; [exact C|discriminate]|].
  pose proof C as (C1 & C2 & C3). rewrite S in C2. inversion C2; subst.
  destruct (visit fi (cx_set_stack rest cx) node) as [[k1 cx1]| | |] eqn:V; try discriminate.
  apply visit_born in V as (V1 & V2); [|split; [exact C1|split; [assumption|exact C3]]|assumption]. cbv beta iota.
  destruct (_ || _); [intros [= <- <-]; split; [exact V2|now intros k [= <-]]|]. now apply IH.
Qed.
Lemma next_post_born : forall fuel cx o cx', born_cx cx -> next_key_postorder fuel fi cx = Ok (o, cx') ->
  born_cx cx' /\ (forall k, o = Some k -> born k).
Proof.
  induction fuel as [|fuel IH]; intros cx o cx' C; [discriminate|]. cbn [next_key_postorder].
  pose proof C as (C1 & C2 & C3).
  destruct (cx_stack cx) as [|node rest] eqn:S.
  - destruct (cx_return cx) as [|top r] eqn:R; [intros [= <- <-]; split; [exact C|discriminate]|]. inversion C3; subst.
    assert (C' : born_cx (cx_set_return r cx)) by (split; [exact C1|split; [cbn [cx_set_return cx_stack]; rewrite S; constructor|assumption]]).
    cbv zeta. destruct (_ || _); intros [= <- <-]; (split; [exact C'|]); [now intros k [= <-]|discriminate].
  - inversion C2; subst. cbv zeta.
    assert (STEP : (let* (node, cx) := visit fi (cx_set_stack rest cx) node in
            let ret := match cx_return cx with [] => [] | last :: r => kn_set_track (kn_track last + 1) last :: r end in
            next_key_postorder fuel fi (cx_set_return (node :: ret) cx)) = Ok (o, cx') -> born_cx cx' /\ (forall k, o = Some k -> born k)).
    { destruct (visit fi (cx_set_stack rest cx) node) as [[k1 cx1]| | |] eqn:V; try discriminate.
      apply visit_born in V as (V1 & V2); [|split; [exact C1|split; [assumption|exact C3]]|assumption]. cbv beta iota zeta.
      apply IH. destruct V2 as (W1 & W2 & W3). split; [exact W1|]. split; [exact W2|]. cbn [cx_set_return cx_return].
      constructor; [exact V1|]. destruct (cx_return cx1); [constructor|]. inversion W3; subst. constructor; assumption. }
    destruct (cx_return cx) as [|last r] eqn:R; [exact STEP|]. destruct (_ =? _); [|exact STEP].
    inversion C3; subst. intros [= <- <-]. split; [|now intros k [= <-]].
    split; [exact C1|]. split; [cbn [cx_set_return cx_stack]; now rewrite S|assumption].
Qed.
Lemma collect_born post : forall fuel cx ks, born_cx cx -> collect post fuel fi cx = Ok ks -> Forall born ks.
Proof.
  induction fuel as [|fuel IH]; intros cx ks C; [discriminate|]. cbn [collect].
  destruct ((if post then next_key_postorder else next_key_preorder) (S fuel) fi cx) as [[o cx1]| | |] eqn:E; try discriminate.
  assert (X : born_cx cx1 /\ (forall k, o = Some k -> born k)).
  { destruct post; [now apply (next_post_born (S fuel) cx)|now apply (next_pre_born (S fuel) cx)]. }
  destruct X as (C1 & G). cbv beta iota. destruct o as [k|]; [|intros [= <-]; constructor].
  destruct (collect post fuel fi cx1) as [r| | |] eqn:R; try discriminate. intros [= <-]. constructor; [now apply G|now apply (IH cx1)].
Qed.
End Born.
