(** Proofs about what a key shows of the past. *)
From Coq Require Import Permutation Sorting.Sorted.
From Verif Require Import Base BaseFacts LayoutSpec LayoutFacts HeaderFacts BaseBlock Util UtilSpec UtilText Types Value Node Recover Parser TxLog NodeFrame
  TxSpec TxApply TxBuild CellSpec CellFacts CellRead TreeOpen ScanSpec ScanFacts Recovered AnyFile Pure LiveOpen StoreSpec StoreFacts AnalysisSpec AnalysisFacts
  AnalysisStore AnalysisReach AnalysisTrace VersionSpec.

(** ** Sorting *)
Lemma insert_strong {A} (leb : A -> A -> bool) (R : A -> A -> Prop) x l :
  (forall a b, leb a b = true -> R a b) -> (forall a b, leb a b = false -> R b a) -> (forall a b c, R a b -> R b c -> R a c) ->
  StronglySorted R l -> StronglySorted R (insert_by leb x l).
Proof.
  intros T F TR S. induction S as [|y l S IH L]; cbn [insert_by]; [repeat constructor|]. destruct (leb x y) eqn:E.
  - constructor; [now constructor|]. constructor; [now apply T|]. eapply Forall_impl; [|exact L]. intros z. apply TR. now apply T.
  - constructor; [exact IH|]. apply (Permutation_Forall (Permutation_sym (insert_perm leb x l))). constructor; [now apply F|exact L].
Qed.
Lemma sort_strong {A} (leb : A -> A -> bool) (R : A -> A -> Prop) l :
  (forall a b, leb a b = true -> R a b) -> (forall a b, leb a b = false -> R b a) -> (forall a b c, R a b -> R b c -> R a c) ->
  StronglySorted R (sort_by leb l).
Proof. intros T F TR. unfold sort_by. induction l; cbn [fold_right]; [constructor|]. now apply insert_strong. Qed.
Lemma newest_sorted {A} (number : A -> option N) l : newest_first number l (sort_by (fun a b => opt_le (number b) (number a)) l).
Proof.
  split; [apply sort_perm|]. apply sort_strong; unfold not_older, opt_le.
  - intros a b E. destruct (number a), (number b); try exact I; try discriminate E. now apply N.leb_le.
  - intros a b E. destruct (number a), (number b); try exact I; try discriminate E. apply N.leb_gt in E. lia.
  - intros a b c. destruct (number a), (number b), (number c); try easy. lia.
Qed.
Lemma newest_nil {A} (number : A -> option N) : newest_first number [] [].
Proof. split; constructor. Qed.
Lemma str_le_true a : forall b, str_le a b = true -> name_le a b.
Proof.
  induction a as [|x a IH]; intros [|y b] E; cbn [str_le] in E; try discriminate E; try apply name_le_nil. destruct (N.eqb_spec x y) as [->|D].
  - constructor. now apply IH.
  - apply name_le_less. now apply N.ltb_lt.
Qed.
Lemma str_le_false a : forall b, str_le a b = false -> name_le b a.
Proof.
  induction a as [|x a IH]; intros [|y b] E; cbn [str_le] in E; try discriminate E; try apply name_le_nil. destruct (N.eqb_spec x y) as [->|D].
  - constructor. now apply IH.
  - apply N.ltb_ge in E. apply name_le_less. lia.
Qed.
Lemma name_le_trans a b : name_le a b -> forall c, name_le b c -> name_le a c.
Proof.
  induction 1 as [b|x a b L IH|x y a b L]; intros c C; [constructor|inversion C; subst..].
  - constructor. now apply IH.
  - now apply name_le_less.
  - now apply name_le_less.
  - apply name_le_less. lia.
Qed.
Lemma names_sorted l : by_name l (sort_by (fun a b => str_le (vd_name (kv_detail a)) (vd_name (kv_detail b))) l).
Proof.
  split; [apply sort_perm|]. apply sort_strong.
  - intros a b. apply str_le_true.
  - intros a b. apply str_le_false.
  - intros a b c H. now apply name_le_trans.
Qed.

(** ** Reading attaches the past *)
Definition bare (k : key_node) : Prop :=
  kn_versions k = [] /\ kn_deleted k = [] /\ Forall (fun v => kv_versions v = []) (kn_values k).
Lemma bare_nothing k : bare k -> shows_nothing k.
Proof. intros (A & B & C). now repeat split. Qed.
Definition bare_keys (st : state) : Prop :=
  forall_map (fun k => kn_deleted k = [] /\ (is_deleted_primary_file (kn_state k) = true \/ bare k)) (st_deleted_keys st).
Lemma primary_free k : is_deleted_primary_file (kn_state k) = true <-> from_free_space k.
Proof. unfold from_free_space. destruct (kn_state k); cbn; intuition discriminate. Qed.
Lemma stored_lookup k : stored_under k = lookup_path k.
Proof.
  unfold stored_under, lookup_path, is_key_root, key_flags, has_flag. rewrite <- N.land_assoc. now change (N.land KEY_FLAGS_ALL 4) with 4.
Qed.
Lemma held_aget {K A} eqb (k : K) (m : amap K (list A)) : held eqb k m = match aget eqb k m with Some l => l | None => [] end.
Proof. reflexivity. Qed.
Lemma recorded_refl k : recorded_as k k.
Proof. repeat split. Qed.

Lemma uml_past st : bare_keys st -> forall fuel k k', kn_deleted k = [] -> (is_deleted_primary_file (kn_state k) = true \/ bare k) ->
  update_modified_lists fuel st k = Ok k' -> shows_past st k' /\ recorded_as k k'.
Proof.
  intros MK. induction fuel as [|fuel IH]; intros k k' EK BK; [discriminate|]. cbn [update_modified_lists].
  destruct (is_deleted_primary_file (kn_state k)) eqn:D.
  { intros [= <-]. split; [apply annotated_free; [now apply primary_free|exact EK]|apply recorded_refl]. }
  destruct BK as [BK|(BV & BD & BVS)]; [discriminate|]. set (path := lookup_path k).
  set (st1 := match aget beq path (st_deleted_keys st) with None => Ok k | Some _ => _ end). intros E.
  assert (S1 : forall k1, st1 = Ok k1 -> exists dk, k1 = kn_set_deleted dk k
    /\ Forall2 (fun d shown => recorded_as d shown /\ (kn_offset d = kn_offset k /\ kn_deleted shown = [] \/ shows_past st shown)) (held beq path (st_deleted_keys st)) dk).
  { unfold st1, held. destruct (aget beq path (st_deleted_keys st)) as [dks|] eqn:A.
    - pose proof (aget_forall _ _ _ _ _ MK A) as F. clear A E st1. intros k1.
      match goal with |- (let* l := ?g dks in _) = _ -> _ => set (go := g) end.
      assert (GO : forall dks l, Forall (fun k => kn_deleted k = [] /\ (is_deleted_primary_file (kn_state k) = true \/ bare k)) dks -> go dks = Ok l ->
        Forall2 (fun d shown => recorded_as d shown /\ (kn_offset d = kn_offset k /\ kn_deleted shown = [] \/ shows_past st shown)) dks l).
      { clear dks F. induction dks as [|dk r IHr]; intros l F; [intros [= <-]; constructor|]. inversion F as [|? ? [F0 F1] F']; subst.
        change (go (dk :: r)) with (let* dk' := if kn_offset dk =? kn_offset k then Ok dk else update_modified_lists fuel st dk in
          let* r' := go r in Ok (dk' :: r')).
        destruct (if kn_offset dk =? kn_offset k then Ok dk else update_modified_lists fuel st dk) as [dk'| | |] eqn:U; try discriminate.
        destruct (go r) as [r'| | |] eqn:R; try discriminate. intros [= <-]. constructor; [|now apply IHr].
        destruct (N.eqb_spec (kn_offset dk) (kn_offset k)) as [O|O].
        - injection U as <-. split; [apply recorded_refl|left; now split].
        - apply IH in U as (U1 & U2); [|exact F0|exact F1]. split; [exact U2|now right]. }
      destruct (go dks) as [l| | |] eqn:R; try discriminate. intros [= <-]. exists l. split; [reflexivity|]. now apply GO.
    - intros k1 [= <-]. exists []. split; [|constructor]. rewrite <- BD. now destruct k. }
  destruct st1 as [k1| | |]; try discriminate. destruct (S1 k1 eq_refl) as (dk & -> & DK). cbv beta iota zeta in E. clear S1.
  injection E as <-. set (k2 := match aget beq path (st_modified_keys st) with None => _ | Some _ => _ end).
  assert (K2 : kn_values k2 = kn_values k /\ kn_offset k2 = kn_offset k /\ kn_deleted k2 = dk /\ stored_under k2 = path /\ recorded_as k k2
    /\ newest_first kn_seq (held beq path (st_modified_keys st)) (kn_versions k2)).
  { assert (PS : stored_under k = path) by apply stored_lookup. unfold k2, held. destruct (aget beq path (st_modified_keys st)) as [ms|]; (split; [reflexivity|]; split; [reflexivity|]; split; [reflexivity|]; split; [exact PS|]; split; [repeat split|]); [apply newest_sorted|].
    cbn [kn_set_deleted kn_versions]. rewrite BV. apply newest_nil. }
  destruct K2 as (V2 & O2 & D2 & P2 & R2 & N2). clearbody k2. split; [|exact R2].
  set (vs := map _ _). set (dvs := match aget beq path (st_deleted_values st) with None => _ | Some _ => _ end).
  apply annotated_key with (present := vs) (deleted := dvs); cbn [kn_set_values kn_versions kn_values kn_deleted kn_offset];
    change (stored_under (kn_set_values (vs ++ dvs) k2)) with (stored_under k2); rewrite ?P2, ?O2, ?D2.
  - exact N2.
  - reflexivity.
  - unfold vs. rewrite V2. apply Forall_map. eapply Forall_impl; [|exact BVS]. intros v V. cbv beta. unfold held.
    destruct (aget pair_eqb (path, vd_name (kv_detail v)) (st_modified_values st)) as [ms|] eqn:A; cbn [kv_set_versions kv_detail kv_versions]; rewrite A;
      [apply newest_sorted|rewrite V; apply newest_nil].
  - unfold dvs, held. destruct (aget beq path (st_deleted_values st)); [apply names_sorted|]. split; constructor.
  - exact DK.
Qed.

(** Reading without the past gives bare keys. *)
Lemma values_loop_bare fi st seq offs : forall acc vs logs ok, Forall (fun v => kv_versions v = []) acc ->
  read_values_loop fi st seq offs acc = Ok (vs, logs, ok) -> Forall (fun v => kv_versions v = []) vs.
Proof.
  induction offs as [|o offs IH]; intros acc vs logs ok A; cbn [read_values_loop]; [now intros [= <- _ _]|].
  destruct (get_at _ _); [|now intros [= <- _ _]]. destruct (get_from _ _) as [s|]; [|now intros [= <- _ _]].
  destruct (kv_cases s (o + fi_hbin fi) seq (st_full st)) as [(_ & nm & w & _ & E)|(_ & E)]; rewrite E; [|now intros [= <- _ _]].
  apply IH. apply Forall_app. split; [exact A|]. constructor; [|constructor].
  unfold read_value_bytes. destruct (read_value_bytes_direct _ _ _ _ _) as [[? ?] ?]. reflexivity.
Qed.
Lemma values_bare fi st seq k k' ok : bare k -> read_values fi st seq k = Ok (k', ok) -> bare k'.
Proof.
  intros (A & B & C). unfold read_values. destruct (_ && _); [|intros [= <- _]; now repeat split].
  destruct (1048576 <? _); [intros [= <- _]; now repeat split|]. destruct (parse_key_values _ _ _) as [offs|].
  2:{ intros [= <- _]. split; [exact A|]. split; [exact B|]. constructor. }
  destruct (read_values_loop _ _ _ _ _) as [[[vs logs] ok']| | |] eqn:E; try discriminate. intros [= <- _].
  split; [exact A|]. split; [exact B|]. apply (values_loop_bare _ _ _ _ _ _ _ _ (Forall_nil _) E).
Qed.
Lemma slice_past fi st slice o k st' : bare_keys st -> read_from_slice fi st slice o = Ok (Some k, st') ->
  if op_modified o then shows_past st k else bare k.
Proof.
  intros M. unfold read_from_slice.
  destruct (kn_cases st slice (op_offset o) (op_path o) (op_seq o)) as [(_ & nm & w & _ & E)|(_ & E)]; rewrite E; [|discriminate].
  cbv beta iota. set (k0 := kn_at _ _ _ _ _ _ _).
  assert (B0 : bare k0) by (repeat split; constructor).
  destruct (match op_filter o with Some f => check_cell f st k0 | None => Ok (IterateKeys, st) end) as [[fl st1]| | |] eqn:EF; try discriminate.
  assert (RO : root_only st st1).
  { destruct (op_filter o); [exact (check_cell_state _ _ _ _ _ EF)|injection EF as _ <-; apply root_only_refl]. }
  unfold root_only in RO. cbv beta iota. destruct fl; [discriminate| |].
  all: match goal with |- (let* k := ?x in _) = _ -> _ => destruct x as [k1| | |] eqn:EV; try discriminate end.
  all: assert (A1 : bare k1);
    [destruct (_ && _) in EV; [|injection EV as <-; exact B0]; destruct (read_values _ _ _ _) as [[k2 ok]| | |] eqn:RV in EV; try discriminate;
     apply values_bare in RV; [|exact B0]; injection EV as <-; destruct ok; exact RV|].
  all: cbv beta iota zeta.
  all: match goal with |- (let* k := (if _ then update_modified_lists _ _ ?x else _) in _) = _ -> _ => set (k2 := x) end.
  all: assert (G2 : bare k2) by exact A1.
  all: destruct (op_modified o);
    [match goal with |- context [update_modified_lists ?f ?s ?k] => destruct (update_modified_lists f s k) as [k3| | |] eqn:U; try discriminate end
    |now intros [= <- _]].
  all: apply uml_past in U as (U & _); [|rewrite RO; exact M|apply G2|now right]; intros [= <- _]; rewrite RO in U; exact U.
Qed.
Lemma read_past fi st o k st' : bare_keys st -> kn_read fi st o = Ok (Some k, st') -> if op_modified o then shows_past st k else bare k.
Proof. intros M. unfold kn_read. destruct (get_from _ _) as [s|]; [|discriminate]. cbn [ok_or]. now apply slice_past. Qed.

(** ** The stores of a build *)
Section Reach.
Context (order : reg_items -> reg_items) (fuel : nat) (full : bool) (hash : list N -> N).
Lemma forall_pushes {A} (P : A -> Prop) (l : list (list N * A)) : forall m, Forall (fun e => P (snd e)) l -> forall_map P m -> forall_map P (pushes beq l m).
Proof.
  unfold pushes. induction l as [|e l IH]; intros m L M; [exact M|]. inversion L; subst. cbn [fold_left]. apply IH; [assumption|now apply push_forall].
Qed.
Lemma forall_remove (P : key_node -> Prop) l : forall m, forall_map P m -> forall_map P (remove_keys l m).
Proof.
  unfold remove_keys. induction l as [|e l IH]; intros m M; [exact M|]. cbn [fold_left]. apply IH.
  unfold deleted_keys_remove. destruct (aget _ _ _) as [ks|] eqn:A; [|exact M]. pose proof (aget_forall _ _ _ _ _ M A) as F.
  destruct (remove_first _ _) as [[|x r]|] eqn:RF; [| |exact M].
  - apply adel_forall, aset_forall; [exact M|constructor].
  - apply aset_forall; [exact M|]. exact (remove_first_forall _ _ _ _ F RF).
Qed.
Lemma reached_bare st : reached order fuel full hash st -> bare_keys st.
Proof.
  induction 1 as [|i st R IH|fi st n st' R IH E|fi seq p prior latest p' logs R IH E].
  - constructor.
  - exact IH.
  - revert E. unfold find_free_keys_and_values. assert (A : agree false st st) by apply agree_refl.
    destruct (recover_loop_ok fi st (S (length (fi_buffer fi))) st (fi_hbin fi) n A) as [E|(s & l & ks & vs & E & (w & G) & _ & FK & _)].
    { unfold len. lia. } { rewrite E. discriminate. }
    rewrite E. intros [= <-]. subst s. unfold bare_keys. cbn [st_deleted_keys]. apply push_all_forall; [exact IH|]. eapply Forall_impl; [|exact FK].
    intros k [(_ & K)|(h & c & _ & _ & _ & _ & K)]; destruct K as (_ & _ & _ & k0 & s & _ & _ & S & D); (split; [exact D|]; left; now rewrite S).
  - destruct (comparison _ _ _ _ _ _ _ _ _ E) as (p2 & ks2 & prior' & ch & _ & _ & _ & _ & _ & _ & _ & _ & M3 & _). cbv zeta in M3.
    unfold bare_keys. rewrite M3. apply forall_remove, forall_pushes; [|exact IH]. apply Forall_forall. intros x X.
    apply in_flat_map in X as (y & _ & X). unfold gone_keys in X. destruct (snd (fst y)); [contradiction|].
    unfold at_path in X. apply in_map_iff in X as (k & <- & X). cbn [snd]. unfold old_key in X.
    destruct (kn_read _ _ _) as [[[k0|] st0]| | |] eqn:K; try contradiction. destruct X as [<-|[]].
    apply read_past in K; [|exact IH]. cbn [op_modified] in K. destruct K as (K1 & K2 & K3). split; [exact K2|]. right. repeat split; try assumption. constructor.
Qed.
End Reach.

(** ** Iterations *)
Section Iterations.
Context (fi : file_info) (st0 : state).
Hypothesis M0 : bare_keys st0.
Definition past (k : key_node) : Prop := shows_past st0 k \/ overlapped st0 k.
Lemma past_same k k' : recorded_as k k' \/ (kn_offset k' = kn_offset k /\ kn_detail k' = kn_detail k /\ kn_path k' = kn_path k /\ kn_state k' = kn_state k) ->
  kn_versions k' = kn_versions k -> kn_values k' = kn_values k -> kn_deleted k' = kn_deleted k -> shows_past st0 k -> shows_past st0 k'.
Proof.
  intros R V W D S. assert (F : kn_offset k' = kn_offset k /\ kn_detail k' = kn_detail k /\ kn_path k' = kn_path k /\ kn_state k' = kn_state k).
  { destruct R as [R|R]; [|exact R]. destruct R as (R1 & R2 & _ & R4 & R5 & _). now repeat split. }
  destruct F as (F1 & F2 & F3 & F4). assert (U : stored_under k' = stored_under k) by (unfold stored_under; now rewrite F2, F3).
  destruct S as [k S E|k present deleted A B C E G].
  - apply annotated_free; [unfold from_free_space in *; now rewrite F4|congruence].
  - apply annotated_key with (present := present) (deleted := deleted); rewrite ?U, ?V, ?W, ?D, ?F1; assumption.
Qed.

Definition kept (st : state) : Prop := root_only st0 st.
Lemma kept_bare st : kept st -> bare_keys st.
Proof. intros K. unfold kept, root_only in K. rewrite K. exact M0. Qed.
Lemma kept_past st k : kept st -> shows_past st k -> shows_past st0 k.
Proof. intros K. unfold kept, root_only in K. rewrite K. exact (fun H => H). Qed.
Lemma child_past sm f c : shows_past st0 c -> shows_past st0 (child_filter_state sm f c).
Proof.
  intros G. unfold child_filter_state. repeat match goal with |- context [if ?b then _ else _] => destruct b end;
    destruct (kn_filter c); try exact G; (apply (past_same c); [left; repeat split|reflexivity..|exact G]).
Qed.
Lemma children_past path sm f sf seq offs : forall st cs found logs st', kept st ->
  read_children fi st path sm f sf seq true offs = Ok (cs, found, logs, st') -> Forall (shows_past st0) cs /\ kept st'.
Proof.
  induction offs as [|o offs IH]; intros st cs found logs st' M; cbn [read_children]; [intros [= <- _ _ <-]; split; [constructor|exact M]|].
  destruct (kn_read fi st _) as [[[c|] st1]| | |] eqn:R; try discriminate.
  - pose proof (root_only_trans _ _ _ M (kn_read_state _ _ _ _ _ R)) as M1. apply read_past in R; [|now apply kept_bare]. cbn [op_modified] in R.
    destruct (read_children _ _ _ _ _ _ _ _ _) as [[[[cs1 ?] ?] ?]| | |] eqn:E; try discriminate. intros [= <- _ _ <-].
    apply IH in E as (E1 & E2); [|exact M1]. split; [|exact E2]. constructor; [|exact E1]. apply child_past. now apply (kept_past st).
  - pose proof (root_only_trans _ _ _ M (kn_read_state _ _ _ _ _ R)) as M1. intros E. now apply (IH _ _ _ _ _ M1 E).
  - destruct (read_children _ _ _ _ _ _ _ _ _) as [[[[cs1 ?] ?] ?]| | |] eqn:E; try discriminate. intros [= <- _ _ <-].
    now apply (IH _ _ _ _ _ M E).
Qed.
(** The key itself keeps all that matters. *)
Definition alike (k k' : key_node) : Prop :=
  kn_offset k' = kn_offset k /\ kn_detail k' = kn_detail k /\ kn_path k' = kn_path k /\ kn_state k' = kn_state k
  /\ kn_versions k' = kn_versions k /\ kn_values k' = kn_values k /\ kn_deleted k' = kn_deleted k
  /\ kn_name k' = kn_name k /\ kn_seq k' = kn_seq k /\ kn_updated_by k' = kn_updated_by k /\ kn_hash k' = kn_hash k.
Lemma alike_refl k : alike k k. Proof. repeat split. Qed.
Lemma alike_past k k' : alike k k' -> shows_past st0 k -> shows_past st0 k'.
Proof. intros (A1 & B1 & C1 & D1 & E1 & F1 & G1 & _). apply past_same; try assumption. right. now repeat split. Qed.
Lemma sub_keys_past st k f seq k' cs found st' : kept st ->
  read_sub_keys_internal fi st k f seq true = Ok (k', cs, found, st') -> alike k k' /\ Forall (shows_past st0) cs /\ kept st'.
Proof.
  intros M. unfold read_sub_keys_internal.
  destruct (is_allocated _); [|intros [= <- <- _ <-]; split; [apply alike_refl|]; split; [constructor|exact M]].
  assert (L : forall c, alike k (kn_add_log c k)) by (intros c; repeat split).
  destruct (1048576 <? _); [intros [= <- <- _ <-]; split; [apply L|]; split; [constructor|exact M]|].
  destruct (0 <? _); [|intros [= <- <- _ <-]; split; [apply alike_refl|]; split; [constructor|exact M]].
  destruct (parse_sub_key_list _ _ _) as [offs| | |]; try discriminate.
  - destruct (read_children _ _ _ _ _ _ _ _ _) as [[[[cs1 ?] ?] ?]| | |] eqn:E; try discriminate. intros [= <- <- _ <-].
    split; [repeat split|]. now apply (children_past _ _ _ _ _ _ _ _ _ _ _ M E).
  - intros [= <- <- _ <-]; split; [apply L|]; split; [constructor|exact M].
Qed.
Definition past_cx (c : context) : Prop :=
  kept (cx_state c) /\ cx_modified c = true /\ Forall past (cx_stack c) /\ Forall past (cx_return c).
Lemma push_check_past k c : past k -> past_cx c -> past_cx (push_check k c).
Proof. intros G (A & B & C & D). unfold push_check. destruct (existsb _ _); [exact (conj A (conj B (conj C D)))|]. split; [exact A|]. split; [exact B|]. split; [now constructor|exact D]. Qed.
Lemma fold_check_past l : Forall past l -> forall c, past_cx c -> past_cx (fold_left (fun cx c => push_check c cx) l c).
Proof. intros F. induction F as [|k l K F IH]; intros c C; [exact C|]. cbn [fold_left]. apply IH. now apply push_check_past. Qed.
Lemma fold_push_past l : Forall past l -> forall c, past_cx c -> past_cx (fold_left (fun cx c => push c cx) l c).
Proof.
  intros F. induction F as [|k l K F IH]; intros c C; [exact C|]. cbn [fold_left]. apply IH. destruct C as (A & B & C & D).
  split; [exact A|]. split; [exact B|]. split; [now constructor|exact D].
Qed.
Lemma forall2_right {A B} (P : A -> B -> Prop) l l' : Forall2 P l l' -> Forall (fun y => exists x, In x l /\ P x y) l'.
Proof.
  induction 1 as [|x y l l' H F IH]; constructor; [exists x; split; [now left|exact H]|].
  eapply Forall_impl; [|exact IH]. intros z (w & W & Z). exists w. split; [now right|exact Z].
Qed.
Lemma filter_past x d : shows_past st0 d -> shows_past st0 (kn_set_filter x d).
Proof. apply past_same; try reflexivity. left. repeat split. Qed.
Lemma visit_past cx k k' cx' : past_cx cx -> past k -> visit fi cx k = Ok (k', cx') -> past k' /\ past_cx cx'.
Proof.
  intros C G. unfold visit.
  match goal with |- match ?x with _ => _ end = _ -> _ => destruct x as [[k1 cx1]| | |] eqn:E; try discriminate end.
  assert (X : alike k k1 /\ past_cx cx1).
  { destruct (0 <? _) in E; [|injection E as <- <-; split; [apply alike_refl|exact C]].
    destruct C as (C1 & C2 & C3 & C4). rewrite C2 in E.
    destruct (read_sub_keys_internal _ _ _ _ _ _) as [[[[k2 cs] fd] st]| | |] eqn:R in E; try discriminate.
    apply sub_keys_past in R as (R1 & R2 & R3); [|exact C1]. injection E as <- <-. split; [exact R1|].
    apply fold_check_past.
    - apply Forall_rev. eapply Forall_impl; [|exact R2]. intros c. now left.
    - split; [exact R3|]. split; [exact C2|]. now split. }
  destruct X as (AK & C1). cbv beta iota zeta. intros [= <- <-]. set (fl := kn_filter k1).
  destruct G as [G|(GD & above & G1 & G2 & d & G3 & G4)].
  - apply (alike_past _ _ AK) in G.
    assert (Y : shows_past st0 (kn_set_deleted (map (kn_set_filter fl) (kn_deleted k1)) k1) /\ Forall past (map (kn_set_filter fl) (kn_deleted k1))).
    { clear AK E. pose proof G as G0. destruct G as [k1 S E|k1 present deleted A B D H Q].
      - rewrite E. split; [|constructor]. now apply annotated_free.
      - split.
        + apply annotated_key with (present := present) (deleted := deleted); try assumption.
          change (stored_under (kn_set_deleted (map (kn_set_filter fl) (kn_deleted k1)) k1)) with (stored_under k1). cbn [kn_set_deleted kn_deleted kn_offset].
          clear - Q. induction Q as [|d s l l' (R & O) Q IH]; [constructor|]. cbn [map]. constructor; [|exact IH]. split; [exact R|].
          destruct O as [O|O]; [left; exact O|right; now apply filter_past].
        + apply forall2_right in Q. apply Forall_map. eapply Forall_impl; [|exact Q]. intros s (d & I & R & O). destruct O as [(O & E)|O].
          * right. split; [exact E|]. exists k1. split; [exact G0|]. split; [transitivity (kn_offset d); [apply R|exact O]|]. exists d. split; [exact I|exact R].
          * left. now apply filter_past. }
    destruct Y as (Y1 & Y2). split; [now left|]. now apply fold_push_past.
  - destruct AK as (A1 & A2 & A3 & A4 & A5 & A6 & A7 & A8 & A9 & A10 & A11). rewrite A7, GD. cbn [map fold_left]. split; [|exact C1].
    right. split; [reflexivity|]. exists above. split; [exact G1|]. cbn [kn_set_deleted kn_offset]. split; [congruence|]. exists d. split; [exact G3|].
    destruct G4 as (H1 & H2 & H3 & H4 & H5 & H6 & H7 & H8).
    repeat split; cbn [kn_set_deleted kn_offset kn_detail kn_name kn_path kn_state kn_seq kn_updated_by kn_hash kn_logs]; congruence.
Qed.
Lemma track_past n k : past k -> past (kn_set_track n k).
Proof.
  intros [G|(A & above & B & C & d & D & E)]; [left; revert G; apply past_same; try reflexivity; left; repeat split|].
  right. split; [exact A|]. exists above. split; [exact B|]. split; [exact C|]. exists d. now split.
Qed.
Lemma next_pre_past : forall fuel cx o cx', past_cx cx -> next_key_preorder fuel fi cx = Ok (o, cx') ->
  past_cx cx' /\ (forall k, o = Some k -> past k).
Proof.
  induction fuel as [|fuel IH]; intros cx o cx' C; [discriminate|]. cbn [next_key_preorder].
  destruct (cx_stack cx) as [|node rest] eqn:S; [intros [= <- <-]; split; [exact C|discriminate]|].
  pose proof C as (C1 & CM & C2 & C3). rewrite S in C2. inversion C2; subst.
  destruct (visit fi (cx_set_stack rest cx) node) as [[k1 cx1]| | |] eqn:V; try discriminate.
  apply visit_past in V as (V1 & V2); [|split; [exact C1|split; [exact CM|split; [assumption|exact C3]]]|assumption]. cbv beta iota.
  destruct (_ || _); [intros [= <- <-]; split; [exact V2|now intros k [= <-]]|]. now apply IH.
Qed.
Lemma next_post_past : forall fuel cx o cx', past_cx cx -> next_key_postorder fuel fi cx = Ok (o, cx') ->
  past_cx cx' /\ (forall k, o = Some k -> past k).
Proof.
  induction fuel as [|fuel IH]; intros cx o cx' C; [discriminate|]. cbn [next_key_postorder].
  pose proof C as (C1 & CM & C2 & C3).
  destruct (cx_stack cx) as [|node rest] eqn:S.
  - destruct (cx_return cx) as [|top r] eqn:R; [intros [= <- <-]; split; [exact C|discriminate]|]. inversion C3; subst.
    assert (C' : past_cx (cx_set_return r cx)) by (split; [exact C1|split; [exact CM|split; [cbn [cx_set_return cx_stack]; rewrite S; constructor|assumption]]]).
    cbv zeta. destruct (_ || _); intros [= <- <-]; (split; [exact C'|]); [now intros k [= <-]|discriminate].
  - inversion C2; subst. cbv zeta.
    assert (STEP : (let* (node, cx) := visit fi (cx_set_stack rest cx) node in
            let ret := match cx_return cx with [] => [] | last :: r => kn_set_track (kn_track last + 1) last :: r end in
            next_key_postorder fuel fi (cx_set_return (node :: ret) cx)) = Ok (o, cx') -> past_cx cx' /\ (forall k, o = Some k -> past k)).
    { destruct (visit fi (cx_set_stack rest cx) node) as [[k1 cx1]| | |] eqn:V; try discriminate.
      apply visit_past in V as (V1 & V2); [|split; [exact C1|split; [exact CM|split; [assumption|exact C3]]]|assumption]. cbv beta iota zeta.
      apply IH. destruct V2 as (W1 & WM & W2 & W3). split; [exact W1|]. split; [exact WM|]. split; [exact W2|]. cbn [cx_set_return cx_return].
      constructor; [exact V1|]. destruct (cx_return cx1); [constructor|]. inversion W3; subst. constructor; [now apply track_past|assumption]. }
    destruct (cx_return cx) as [|last r] eqn:R; [exact STEP|]. destruct (_ =? _); [|exact STEP].
    inversion C3; subst. intros [= <- <-]. split; [|now intros k [= <-]].
    split; [exact C1|]. split; [exact CM|]. split; [cbn [cx_set_return cx_stack]; now rewrite S|assumption].
Qed.
Lemma collect_past post : forall fuel cx ks, past_cx cx -> collect post fuel fi cx = Ok ks -> Forall past ks.
Proof.
  induction fuel as [|fuel IH]; intros cx ks C; [discriminate|]. cbn [collect].
  destruct ((if post then next_key_postorder else next_key_preorder) (S fuel) fi cx) as [[o cx1]| | |] eqn:E; try discriminate.
  assert (X : past_cx cx1 /\ (forall k, o = Some k -> past k)).
  { destruct post; [now apply (next_post_past (S fuel) cx)|now apply (next_pre_past (S fuel) cx)]. }
  destruct X as (C1 & G). cbv beta iota. destruct o as [k|]; [|intros [= <-]; constructor].
  destruct (collect post fuel fi cx1) as [r| | |] eqn:R; try discriminate. intros [= <-]. constructor; [now apply G|now apply (IH cx1)].
Qed.
End Iterations.

(** ** The parser *)
Lemma read_some fi st o r st' : op_filter o = None -> kn_read fi st o = Ok (r, st') -> exists k, r = Some k.
Proof.
  intros F. unfold kn_read. destruct (get_from _ _) as [s|]; [|discriminate]. cbn [ok_or]. cbv beta iota. unfold read_from_slice.
  destruct (kn_from_bytes _ _ _ _ _) as [[k0 w]| | |]; try discriminate. rewrite F. cbv beta iota.
  repeat match goal with |- (let* k := ?x in _) = _ -> _ => destruct x; try discriminate; cbv beta iota zeta end.
  intros [= <- _]. now eexists.
Qed.
Section Parsers.
Context (order : reg_items -> reg_items) (fuel : nat) (full : bool) (hash : list N -> N).
Definition root_of (p : parser) : key_node := match ps_root p with Some r => r | None => default_key end.
Lemma past_info i st k : shows_past (set_info i st) k <-> shows_past st k.
Proof. reflexivity. Qed.
Lemma build_past recover buffer files p : build order fuel hash recover full buffer files = Ok p -> shows_past (ps_state p) (root_of p).
Proof.
  unfold build. destruct (parse_logs files) as [[logs w]| | |]; try discriminate. cbv beta iota zeta. unfold ps_init.
  destruct (init_base_block _) as [[[s bad] p0]| | |] eqn:B; try discriminate.
  pose proof (base_info _ _ _ _ B) as (i1 & S1). assert (RE : reached order fuel full hash (ps_state p0)) by (eapply base_block_reached; [|exact B]; apply reached_new). cbv beta iota.
  match goal with |- match ?x with _ => _ end = _ -> _ => destruct x as [p1| | |] eqn:E; try discriminate end.
  cbv beta iota. intros [= <-]. cbn [ps_set_state ps_state]. unfold root_of. cbn [ps_set_state ps_root]. fold (root_of p1). apply past_info.
  destruct s.
  - assert (X : forall p2, reached order fuel full hash (ps_state p2) -> match apply_transaction_logs order fuel bad logs p2 with Ok p => init_root p | Err => Err | Panic => Panic | OutOfFuel => OutOfFuel end = Ok p1 -> shows_past (ps_state p1) (root_of p1)).
    { intros p2 M2. destruct (apply_transaction_logs order fuel bad logs p2) as [p3| | |] eqn:A; try discriminate. apply (apply_reached order fuel full hash) in A; [|exact M2].
      intros I. apply init_root_ok in I as (h & root & -> & _ & R). assert (Y : exists k, root = Some k) by (eapply read_some; [|exact R]; reflexivity). destruct Y as (k & ->).
      apply read_past in R; [|now apply (reached_bare order fuel full hash)]. exact R. }
    destruct recover; [|exact (X p0 RE E)]. destruct (ps_base_block p0) as [bb|]; [|discriminate]. cbn [or_panic] in E. cbv beta iota in E.
    destruct (find_free_keys_and_values _ _ _) as [st| | |] eqn:F in E; try discriminate. cbv beta iota in E.
    refine (X (ps_set_state st p0) _ E). exact (reached_scan _ _ _ _ _ _ _ _ RE F).
  - injection E as <-.
    assert (RN : ps_root p0 = None).
    { revert B. unfold init_base_block. destruct (bb_from_bytes _) as [[b rest]| | |]; try discriminate. cbv beta iota zeta. unfold check_base_block.
      destruct (is_supported b); [|intros [= _ <-]; reflexivity]. destruct (_ =? _); (destruct (get_range _ _ _); [|discriminate]; cbn [or_panic]; cbv beta iota;
        destruct (calculate_checksum _); try discriminate; cbv beta iota; destruct (_ =? _); discriminate). }
    unfold root_of. rewrite RN, S1. apply annotated_key with (present := []) (deleted := []); try constructor; try constructor.
Qed.
Lemma used_kept ok p p' : used ok p p' -> ps_file p' = ps_file p /\ kept (ps_state p) (ps_state p') /\ ps_root p' = ps_root p.
Proof. intros U. apply used_moved in U as (st & -> & R). now split. Qed.
Lemma iteration_past recover buffer files p ok p' n f ancestors post ks :
  build order fuel hash recover full buffer files = Ok p -> used ok p p' -> iterate n p' f ancestors true post = Ok ks ->
  Forall (fun k => shows_past (ps_state p) k \/ overlapped (ps_state p) k) ks.
Proof.
  intros B U I. pose proof (reached_bare _ _ _ _ _ (build_reached _ _ _ _ _ _ _ _ B)) as M. apply used_kept in U as (UF & US & UR).
  refine (collect_past (ps_file p') (ps_state p) M post n _ ks _ I). split; [exact US|]. split; [reflexivity|]. split; [|constructor].
  constructor; [|constructor]. left. unfold from_parser. rewrite UR. exact (build_past _ _ _ _ B).
Qed.
Lemma reads_past recover buffer files p ok p' :
  build order fuel hash recover full buffer files = Ok p -> used ok p p' ->
  (forall r q, get_root_key p' = Ok (Some r, q) -> shows_past (ps_state p) r)
  /\ (forall k k' ks st, read_sub_keys (ps_file p') (ps_state p') k = Ok (k', ks, st) -> Forall (shows_past (ps_state p)) ks)
  /\ (forall k i k' c st, get_sub_key_by_index (ps_file p') (ps_state p') k i = Ok (k', Some c, st) -> shows_past (ps_state p) c)
  /\ (forall k k' c st, next_sub_key (ps_file p') (ps_state p') k = Ok (k', Some c, st) -> shows_past (ps_state p) c)
  /\ (forall k c q, get_parent_key p' k = Ok (Some c, q) -> shows_past (ps_state p) c).
Proof.
  intros B U. pose proof (reached_bare _ _ _ _ _ (build_reached _ _ _ _ _ _ _ _ B)) as M. apply used_kept in U as (UF & US & UR).
  pose proof (kept_bare _ M _ US) as MB.
  assert (IX : forall k i k' c st, get_sub_key_by_index (ps_file p') (ps_state p') k i = Ok (k', Some c, st) -> shows_past (ps_state p) c).
  { intros k i k' c st. unfold get_sub_key_by_index. destruct (_ <? _); [|discriminate]. destruct (parse_sub_key_list _ _ _); try discriminate.
    destruct (get_at _ _); [|discriminate]. destruct (kn_read _ _ _) as [[o s]| | |] eqn:R; try discriminate. intros [= _ -> _].
    apply read_past in R; [|exact MB]. now apply (kept_past _ _ _ US). }
  repeat split.
  - intros r q. unfold get_root_key. destruct (ps_base_block p'); [|discriminate].
    destruct (kn_read _ _ _) as [[o s]| | |] eqn:R; try discriminate. intros [= -> _]. apply read_past in R; [|exact MB]. now apply (kept_past _ _ _ US).
  - intros k k' ks st. unfold read_sub_keys. destruct (read_sub_keys_internal _ _ _ _ _ _) as [[[[k2 cs] fd] s]| | |] eqn:R; try discriminate.
    intros [= _ <- _]. now apply (sub_keys_past _ _ M) in R as (_ & R & _).
  - exact IX.
  - intros k k' c st. unfold next_sub_key. destruct (get_sub_key_by_index _ _ _ _) as [[[k2 [c2|]] s]| | |] eqn:R; try discriminate.
    intros [= _ <- _]. exact (IX _ _ _ _ _ R).
  - intros k c q. unfold get_parent_key. cbv zeta. destruct (kn_read _ _ _) as [[o s]| | |] eqn:R; try discriminate. intros [= -> _].
    apply read_past in R; [|exact MB]. now apply (kept_past _ _ _ US).
Qed.
Lemma child_bare sm f c : bare c -> bare (child_filter_state sm f c).
Proof. intros G. unfold child_filter_state. repeat match goal with |- context [if ?b then _ else _] => destruct b end; destruct (kn_filter c); exact G. Qed.
Lemma children_bare fi path sm f sf seq offs : forall st cs found logs st', bare_keys st ->
  read_children fi st path sm f sf seq false offs = Ok (cs, found, logs, st') -> Forall bare cs.
Proof.
  induction offs as [|o offs IH]; intros st cs found logs st' M; cbn [read_children]; [intros [= <- _ _ _]; constructor|].
  destruct (kn_read fi st _) as [[[c|] st1]| | |] eqn:R; try discriminate.
  - pose proof (kept_bare _ M _ (kn_read_state _ _ _ _ _ R)) as M1. apply read_past in R; [|exact M]. cbn [op_modified] in R.
    destruct (read_children _ _ _ _ _ _ _ _ _) as [[[[cs1 ?] ?] ?]| | |] eqn:E; try discriminate. intros [= <- _ _ _].
    constructor; [now apply child_bare|]. now apply (IH _ _ _ _ _ M1 E).
  - pose proof (kept_bare _ M _ (kn_read_state _ _ _ _ _ R)) as M1. intros E. now apply (IH _ _ _ _ _ M1 E).
  - destruct (read_children _ _ _ _ _ _ _ _ _) as [[[[cs1 ?] ?] ?]| | |] eqn:E; try discriminate. intros [= <- _ _ _].
    now apply (IH _ _ _ _ _ M E).
Qed.
Lemma sub_keys_bare fi st k f seq k' cs found st' : bare_keys st ->
  read_sub_keys_internal fi st k f seq false = Ok (k', cs, found, st') -> Forall bare cs.
Proof.
  intros M. unfold read_sub_keys_internal. destruct (is_allocated _); [|intros [= _ <- _ _]; constructor].
  destruct (1048576 <? _); [intros [= _ <- _ _]; constructor|]. destruct (0 <? _); [|intros [= _ <- _ _]; constructor].
  destruct (parse_sub_key_list _ _ _) as [offs| | |]; try discriminate.
  - destruct (read_children _ _ _ _ _ _ _ _ _) as [[[[cs1 ?] ?] ?]| | |] eqn:E; try discriminate. intros [= _ <- _ _].
    now apply (children_bare _ _ _ _ _ _ _ _ _ _ _ _ M E).
  - intros [= _ <- _ _]; constructor.
Qed.
Lemma head_bare cs c : Forall bare cs -> hd_error cs = Some c -> bare c.
Proof. intros F. destruct F; [discriminate|]. now intros [= <-]. Qed.
Lemma gsk_bare fi f seq : forall n st k c st', bare_keys st -> get_sub_key_internal n fi st k f seq = Ok (Some c, st') -> bare c.
Proof.
  induction n as [|n IH]; intros st k c st' M; [discriminate|]. cbn [get_sub_key_internal].
  destruct (read_sub_keys_internal fi st k f seq false) as [[[[k2 cs] found] s]| | |] eqn:E; try discriminate.
  pose proof (kept_bare _ M _ (read_sub_keys_state _ _ _ _ _ _ _ _ _ _ E)) as M1. apply sub_keys_bare in E; [|exact M].
  cbv beta iota. destruct found; [intros [= H _]; exact (head_bare _ _ E H)|]. clear E.
  revert s M1. induction cs as [|x r I]; intros s M1; [discriminate|].
  destruct (get_sub_key_internal n fi s x f seq) as [[[o|] s2]| | |] eqn:G; try discriminate.
  - cbv beta iota. intros [= <- _]. exact (IH _ _ _ _ M1 G).
  - cbv beta iota. apply I. exact (kept_bare _ M1 _ (gsk_state _ _ _ _ _ _ _ _ G)).
Qed.
Lemma path_bare fi n st k path c st' : bare_keys st -> get_sub_key_by_path n fi st k path = Ok (Some c, st') -> c = k \/ bare c.
Proof. intros M. unfold get_sub_key_by_path. destruct path; [intros [= <- _]; now left|]. intros G. right. exact (gsk_bare _ _ _ _ _ _ _ _ M G). Qed.
Lemma by_path_bare recover buffer files p ok p' :
  build order fuel hash recover full buffer files = Ok p -> used ok p p' ->
  (forall n path has_root k q, get_key n p' path has_root = Ok (Some k, q) -> shows_past (ps_state p) k \/ shows_nothing k)
  /\ (forall n k path c st, get_sub_key_by_path n (ps_file p') (ps_state p') k path = Ok (Some c, st) -> c = k \/ shows_nothing c)
  /\ (forall k name c q, get_sub_key p' k name = Ok (Some c, q) -> shows_nothing c).
Proof.
  intros B U. pose proof (proj1 (reads_past _ _ _ _ _ _ B U)) as RP.
  pose proof (reached_bare _ _ _ _ _ (build_reached _ _ _ _ _ _ _ _ B)) as M. apply used_kept in U as (UF & US & UR).
  pose proof (kept_bare _ M _ US) as MB. split; [|split].
  - intros n path hr k q. unfold get_key. destruct (get_root_key p') as [[[r|] p3]| | |] eqn:G; try discriminate.
    pose proof (root_key_moved _ _ _ G) as (s3 & -> & R3). cbn [ps_set_state ps_file ps_state].
    destruct (get_sub_key_by_path _ _ _ _ _) as [[o s]| | |] eqn:E; try discriminate. intros [= -> _].
    apply path_bare in E; [|exact (kept_bare _ MB _ R3)]. destruct E as [->|E]; [left; exact (RP _ _ eq_refl)|right; now apply bare_nothing].
  - intros n k path c st E. apply path_bare in E; [|exact MB]. destruct E as [->|E]; [now left|right; now apply bare_nothing].
  - intros k name c q. unfold get_sub_key. destruct (st_get_root_path_offset _ _) as [o s] eqn:R.
    apply root_path_offset_state in R. destruct (str_from _ _); try discriminate. cbv beta iota zeta.
    destruct (read_sub_keys_internal _ _ _ _ _ _) as [[[[n cs] found] s2]| | |] eqn:G; try discriminate.
    apply sub_keys_bare in G; [|exact (kept_bare _ MB _ R)]. intros [= H _]. apply bare_nothing. exact (head_bare _ _ G H).
Qed.
End Parsers.
