(** Every key an iteration shows carries the digest of its content. *)
From Verif Require Import Base BaseFacts LayoutSpec LayoutFacts BaseBlock Util Types Value Node Recover Parser TxLog
  NodeFrame TxSpec TxBuild CellSpec CellFacts CellRead TreeSpec TreeRead TreeOpen AnyFile ScanSpec ScanFacts Recovered Pure LiveSpec LivePlain
  ExportSpec CompareSpec.

Lemma bytes_ok_from b off r : bytes_ok b -> get_from b off = Some r -> bytes_ok r.
Proof. intros B. unfold get_from. destruct (_ <=? _); [|discriminate]. intros [= <-]. now apply bytes_ok_skipn. Qed.

Section Hash.
Context (h : list N -> N) (fi : file_info) (BO : bytes_ok (fi_buffer fi)).
Definition sealed_value (v : key_value) : Prop :=
  kv_hash v = Some (h (digest_input (value_content v))) /\ content_ok (value_content v).
Definition sealed (k : key_node) : Prop :=
  kn_deleted k = [] /\ kn_hash k = Some (h (digest_input (key_content k))) /\ content_ok (key_content k)
  /\ Forall sealed_value (kn_values k).
Definition still (st : state) : Prop := quiet st /\ st_hasher st = h.
Lemma still_root st st' : root_only st st' -> still st -> still st'.
Proof. intros R (Q & H). split; [now apply (quiet_root_only' _ _ R)|]. rewrite R. exact H. Qed.
Lemma value_sealed st b off seq nm w : st_hasher st = h -> bytes_ok b ->
  sealed_value (read_value_bytes fi st (kv_at (st_full st) b off seq nm w)).
Proof.
  intros H OK. unfold read_value_bytes. destruct (read_value_bytes_direct _ _ _ _ _) as [[bytes ?] ?]. split.
  - cbn [kv_hash]. unfold kv_hash_of. now rewrite H.
  - unfold value_content. cbn. split; now apply num_at_bound.
Qed.
Lemma values_loop_sealed st seq offs : st_hasher st = h -> forall acc vs logs ok, Forall sealed_value acc ->
  read_values_loop fi st seq offs acc = Ok (vs, logs, ok) -> Forall sealed_value vs.
Proof.
  intros HS. induction offs as [|o offs IH]; intros acc vs logs ok A; cbn [read_values_loop]; [now intros [= <- _ _]|].
  destruct (get_at _ _); [|now intros [= <- _ _]]. destruct (get_from _ _) as [s|] eqn:GF; [|now intros [= <- _ _]].
  destruct (kv_cases s (o + fi_hbin fi) seq (st_full st)) as [(_ & nm & w & _ & E)|(_ & E)]; rewrite E; [|now intros [= <- _ _]].
  apply IH. apply Forall_app. split; [exact A|]. constructor; [|constructor].
  apply value_sealed; [exact HS|]. exact (bytes_ok_from _ _ _ BO GF).
Qed.
Lemma values_sealed st seq k k' ok : st_hasher st = h -> sealed k -> read_values fi st seq k = Ok (k', ok) -> sealed k'.
Proof.
  intros HS A. unfold read_values. destruct (_ && _); [|intros [= <- _]; auto].
  destruct (1048576 <? _); [intros [= <- _]; auto|]. destruct (parse_key_values _ _ _) as [offs|]; [|intros [= <- _]; destruct A as (A1 & A2 & A3 & _); repeat (split; [assumption|]); constructor].
  destruct (read_values_loop _ _ _ _ _) as [[[vs logs] ok']| | |] eqn:E; try discriminate. intros [= <- _].
  destruct A as (A1 & A2 & A3 & A4). split; [exact A1|]. split; [exact A2|]. split; [exact A3|].
  exact (values_loop_sealed _ _ _ HS _ _ _ _ (Forall_nil _) E).
Qed.
Lemma key_sealed st b off path seq nm w : st_hasher st = h -> bytes_ok b -> sealed (kn_at st b off path seq nm w).
Proof.
  intros H OK. split; [reflexivity|]. split; [cbn [kn_at kn_hash]; unfold kn_hash_of; now rewrite H|]. split; [|constructor].
  unfold key_content. cbn. repeat split; now apply num_at_bound.
Qed.
Lemma slice_sealed st slice o k st' : bytes_ok slice -> still st -> read_from_slice fi st slice o = Ok (Some k, st') -> sealed k.
Proof.
  intros SL M. unfold read_from_slice.
  destruct (kn_cases st slice (op_offset o) (op_path o) (op_seq o)) as [(_ & nm & w & _ & E)|(_ & E)]; rewrite E; [|discriminate].
  cbv beta iota. set (k0 := kn_at _ _ _ _ _ _ _).
  destruct (match op_filter o with Some f => check_cell f st k0 | None => Ok (IterateKeys, st) end) as [[fl st1]| | |] eqn:EF; try discriminate.
  assert (RO : root_only st st1).
  { destruct (op_filter o); [exact (check_cell_state _ _ _ _ _ EF)|injection EF as _ <-; apply root_only_refl]. }
  pose proof (still_root _ _ RO M) as M1. cbv beta iota. destruct fl; [discriminate| |].
  all: match goal with |- (let* k := ?x in _) = _ -> _ => destruct x as [k1| | |] eqn:EV; try discriminate end.
  all: assert (A1 : sealed k1);
    [destruct (_ && _) in EV; [|injection EV as <-; apply key_sealed; [apply M|exact SL]]; destruct (read_values _ _ _ _) as [[k2 ok]| | |] eqn:RV in EV; try discriminate;
     apply values_sealed in RV; [|apply M1|apply key_sealed; [apply M|exact SL]]; injection EV as <-; destruct ok; exact RV|].
  all: cbv beta iota zeta.
  all: match goal with |- (let* k := (if _ then update_modified_lists _ _ ?x else _) in _) = _ -> _ => set (k2 := x) end.
  all: assert (G2 : sealed k2) by exact A1.
  all: destruct (op_modified o);
    [match goal with |- context [update_modified_lists ?f ?s ?k] => destruct (update_modified_lists f s k) as [k3| | |] eqn:U; try discriminate end
    |now intros [= <- _]].
  all: unfold uml_fuel in U; rewrite uml_quiet in U by apply M1; injection U as <-; now intros [= <- _].
Qed.
Lemma read_sealed st o k st' : still st -> kn_read fi st o = Ok (Some k, st') -> sealed k.
Proof. intros M. unfold kn_read. destruct (get_from _ _) eqn:GF; [|discriminate]. cbn [ok_or]. apply slice_sealed; [exact (bytes_ok_from _ _ _ BO GF)|exact M]. Qed.
Lemma child_sealed sm f c : sealed c -> sealed (child_filter_state sm f c).
Proof. intros G. unfold child_filter_state. repeat match goal with |- context [if ?b then _ else _] => destruct b end; exact G. Qed.
Lemma children_sealed path sm f sf seq m offs : forall st cs found logs st', still st ->
  read_children fi st path sm f sf seq m offs = Ok (cs, found, logs, st') -> Forall sealed cs.
Proof.
  induction offs as [|o offs IH]; intros st cs found logs st' M; cbn [read_children]; [intros [= <- _ _ _]; constructor|].
  destruct (kn_read fi st _) as [[[c|] st1]| | |] eqn:R; try discriminate.
  - pose proof (still_root _ _ (kn_read_state _ _ _ _ _ R) M) as M1. apply read_sealed in R; [|exact M].
    destruct (read_children _ _ _ _ _ _ _ _ _) as [[[[cs1 ?] ?] ?]| | |] eqn:E; try discriminate. intros [= <- _ _ _].
    constructor; [now apply child_sealed|]. now apply (IH _ _ _ _ _ M1 E).
  - pose proof (still_root _ _ (kn_read_state _ _ _ _ _ R) M) as M1. intros E. now apply (IH _ _ _ _ _ M1 E).
  - destruct (read_children _ _ _ _ _ _ _ _ _) as [[[[cs1 ?] ?] ?]| | |] eqn:E; try discriminate. intros [= <- _ _ _].
    now apply (IH _ _ _ _ _ M E).
Qed.
Lemma sub_keys_sealed st k f seq m k' cs found st' : still st -> sealed k ->
  read_sub_keys_internal fi st k f seq m = Ok (k', cs, found, st') -> sealed k' /\ Forall sealed cs.
Proof.
  intros M G. unfold read_sub_keys_internal.
  assert (GL : forall c, sealed (kn_add_log c k)) by (intros; exact G).
  destruct (is_allocated _); [|intros [= <- <- _ _]; auto]. destruct (1048576 <? _); [intros [= <- <- _ _]; auto|].
  destruct (0 <? _); [|intros [= <- <- _ _]; auto]. destruct (parse_sub_key_list _ _ _) as [offs| | |]; try discriminate.
  - destruct (read_children _ _ _ _ _ _ _ _ _) as [[[[cs1 ?] ?] ?]| | |] eqn:E; try discriminate. intros [= <- <- _ _].
    split; [exact G|]. now apply (children_sealed _ _ _ _ _ _ _ _ _ _ _ _ M E).
  - intros [= <- <- _ _]; auto.
Qed.
Definition sealed_cx (c : context) : Prop := still (cx_state c) /\ Forall sealed (cx_stack c) /\ Forall sealed (cx_return c).
Lemma push_check_sealed k c : sealed k -> sealed_cx c -> sealed_cx (push_check k c).
Proof. intros G (A & B & C). unfold push_check. destruct (existsb _ _); [exact (conj A (conj B C))|]. split; [exact A|]. split; [now constructor|exact C]. Qed.
Lemma fold_sealed l : Forall sealed l -> forall c, sealed_cx c -> sealed_cx (fold_left (fun cx c => push_check c cx) l c).
Proof. intros F. induction F as [|k l K F IH]; intros c C; [exact C|]. cbn [fold_left]. apply IH. now apply push_check_sealed. Qed.
Lemma visit_sealed cx k k' cx' : sealed_cx cx -> sealed k -> visit fi cx k = Ok (k', cx') -> sealed k' /\ sealed_cx cx'.
Proof.
  intros C G. unfold visit.
  match goal with |- match ?x with _ => _ end = _ -> _ => destruct x as [[k1 cx1]| | |] eqn:E; try discriminate end.
  assert (X : sealed k1 /\ sealed_cx cx1).
  { destruct (0 <? _) in E; [|injection E as <- <-; auto].
    destruct (read_sub_keys_internal _ _ _ _ _ _) as [[[[k2 cs] fd] st]| | |] eqn:R in E; try discriminate.
    pose proof (still_root _ _ (read_sub_keys_state _ _ _ _ _ _ _ _ _ _ R) (proj1 C)) as M.
    apply sub_keys_sealed in R as (R1 & R2); [|apply C|exact G]. injection E as <- <-. split; [exact R1|].
    apply fold_sealed; [now apply Forall_rev|]. destruct C as (_ & C2 & C3). now split. }
  cbv beta iota. destruct X as (X1 & X4). pose proof X1 as (Y1 & Y2 & Y3 & Y4). rewrite Y1. cbn [map]. intros [= <- <-].
  split; [split; [reflexivity|exact (conj Y2 (conj Y3 Y4))]|exact X4].
Qed.
Lemma next_pre_sealed : forall fuel cx o cx', sealed_cx cx -> next_key_preorder fuel fi cx = Ok (o, cx') ->
  sealed_cx cx' /\ (forall k, o = Some k -> sealed k).
Proof.
  induction fuel as [|fuel IH]; intros cx o cx' C; [discriminate|]. cbn [next_key_preorder].
  destruct (cx_stack cx) as [|node rest] eqn:S; [intros [= <- <-]; split; [exact C|discriminate]|].
  pose proof C as (C1 & C2 & C3). rewrite S in C2. inversion C2; subst.
  destruct (visit fi (cx_set_stack rest cx) node) as [[k1 cx1]| | |] eqn:V; try discriminate.
  apply visit_sealed in V as (V1 & V2); [|split; [exact C1|split; [assumption|exact C3]]|assumption]. cbv beta iota.
  destruct (_ || _); [intros [= <- <-]; split; [exact V2|now intros k [= <-]]|]. now apply IH.
Qed.
Lemma next_post_sealed : forall fuel cx o cx', sealed_cx cx -> next_key_postorder fuel fi cx = Ok (o, cx') ->
  sealed_cx cx' /\ (forall k, o = Some k -> sealed k).
Proof.
  induction fuel as [|fuel IH]; intros cx o cx' C; [discriminate|]. cbn [next_key_postorder].
  pose proof C as (C1 & C2 & C3).
  destruct (cx_stack cx) as [|node rest] eqn:S.
  - destruct (cx_return cx) as [|top r] eqn:R; [intros [= <- <-]; split; [exact C|discriminate]|]. inversion C3; subst.
    assert (C' : sealed_cx (cx_set_return r cx)) by (split; [exact C1|split; [cbn [cx_set_return cx_stack]; rewrite S; constructor|assumption]]).
    cbv zeta. destruct (_ || _); intros [= <- <-]; (split; [exact C'|]); [now intros k [= <-]|discriminate].
  - inversion C2; subst. cbv zeta.
    assert (STEP : (let* (node, cx) := visit fi (cx_set_stack rest cx) node in
            let ret := match cx_return cx with [] => [] | last :: r => kn_set_track (kn_track last + 1) last :: r end in
            next_key_postorder fuel fi (cx_set_return (node :: ret) cx)) = Ok (o, cx') -> sealed_cx cx' /\ (forall k, o = Some k -> sealed k)).
    { destruct (visit fi (cx_set_stack rest cx) node) as [[k1 cx1]| | |] eqn:V; try discriminate.
      apply visit_sealed in V as (V1 & V2); [|split; [exact C1|split; [assumption|exact C3]]|assumption]. cbv beta iota zeta.
      apply IH. destruct V2 as (W1 & W2 & W3). split; [exact W1|]. split; [exact W2|]. cbn [cx_set_return cx_return].
      constructor; [exact V1|]. destruct (cx_return cx1); [constructor|]. inversion W3; subst. constructor; assumption. }
    destruct (cx_return cx) as [|last r] eqn:R; [exact STEP|]. destruct (_ =? _); [|exact STEP].
    inversion C3; subst. intros [= <- <-]. split; [|now intros k [= <-]].
    split; [exact C1|]. split; [cbn [cx_set_return cx_stack]; now rewrite S|assumption].
Qed.
Lemma collect_sealed post : forall fuel cx ks, sealed_cx cx -> collect post fuel fi cx = Ok ks -> Forall sealed ks.
Proof.
  induction fuel as [|fuel IH]; intros cx ks C; [discriminate|]. cbn [collect].
  destruct ((if post then next_key_postorder else next_key_preorder) (S fuel) fi cx) as [[o cx1]| | |] eqn:E; try discriminate.
  assert (X : sealed_cx cx1 /\ (forall k, o = Some k -> sealed k)).
  { destruct post; [now apply (next_post_sealed (S fuel) cx)|now apply (next_pre_sealed (S fuel) cx)]. }
  destruct X as (C1 & G). cbv beta iota. destruct o as [k|]; [|intros [= <-]; constructor].
  destruct (collect post fuel fi cx1) as [r| | |] eqn:R; try discriminate. intros [= <-]. constructor; [now apply G|now apply (IH cx1)].
Qed.
End Hash.
Lemma iterate_sealed order fuel hash full buffer files p n f anc m post ks : known_file_type buffer ->
  build order fuel hash false full buffer files = Ok p -> bytes_ok (ps_buffer p) -> ps_root p <> None ->
  iterate n p f anc m post = Ok ks -> Forall (sealed hash) ks.
Proof.
  intros K BU B R0. pose proof BU as BU'. apply (build_plain order fuel hash full) in BU as (P & _ & st & ES & R); [|exact K].
  assert (H : forall s, set_info [] s = set_info [] (ps_state p) -> still hash s).
  { intros s E. split; [apply (quiet_info (ps_state p)); [now symmetry|]; exact (plain_quiet _ _ _ P)|].
    destruct P as (_ & P). rewrite P in E. now destruct s; injection E. }
  unfold iterate. apply collect_sealed; [exact B|]. unfold from_parser. split; [now apply H|]. split; [|constructor]. cbn [cx_stack].
  constructor; [|constructor]. destruct (ps_root p) as [r|]; [|congruence]. exact (read_sealed hash (ps_file p) B _ _ _ _ (H _ ES) R).
Qed.
