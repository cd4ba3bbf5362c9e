(** Opening with recovery and logs ends. *)
From Coq Require Import Permutation.
From Verif Require Import Base BaseFacts Util UtilSpec UtilText UtilLz LayoutSpec LayoutFacts HeaderFacts BaseBlock Types Value Node Recover
  Parser TxLog TxSpec NodeFrame TxApply TxBuild CellSpec CellFacts CellData CellList CellRead TreeRead AnyFile ScanSpec ScanFacts Recovered LiveSpec LiveView LiveOpen
  Pure TreeOpen StoreFacts AnalysisSpec AnalysisFacts AnalysisStore AnalysisAll AnalysisReach VersionFacts AnalysisTrace StoreSpec VersionSpec FreeSpec TreeSession LivePlain Ends RecIter
  BuildBytes NoAbort ExportSafe XlsxEnds AnyOpen Log Export Xlsx Json Folder FolderSpec FolderFacts Dump DumpSpec DumpFacts ReplaySpec.

(** ** More fuel gives the same *)
Lemma pre_more fi : forall n cx r, next_key_preorder n fi cx = Ok r -> forall n', (n <= n')%nat -> next_key_preorder n' fi cx = Ok r.
Proof.
  induction n as [|n IH]; intros cx r; [discriminate|]. cbn [next_key_preorder]. intros E n' L. destruct n' as [|n']; [lia|]. cbn [next_key_preorder].
  destruct (cx_stack cx) as [|node rest]; [exact E|]. destruct (visit _ _ _) as [[k c]| | |]; try discriminate. cbv beta iota in *.
  destruct (_ || _ || _); [exact E|]. apply (IH _ _ E). lia.
Qed.
Lemma collect_more fi : forall n cx ks, collect false n fi cx = Ok ks -> forall n', (n <= n')%nat -> collect false n' fi cx = Ok ks.
Proof.
  induction n as [|n IH]; intros cx r; [discriminate|]. intros E n' L. destruct n' as [|n']; [lia|]. cbn [collect] in *.
  destruct (next_key_preorder (S n) fi cx) as [[o c]| | |] eqn:P; try discriminate. rewrite (pre_more _ _ _ _ P (S n') L). cbv beta iota in *.
  destruct o; [|exact E]. destruct (collect false n fi c) as [ks| | |] eqn:C; try discriminate. rewrite (IH _ _ C n') by lia. exact E.
Qed.

(** ** A computation that ends, whatever the fuel above a bound *)
Definition settles {A} (f : nat -> res A) (r : res A) : Prop := exists b, forall n, (b < n)%nat -> f n = r.
Definition ends {A} (f : nat -> res A) (Q : A -> Prop) : Prop :=
  exists r, r <> OutOfFuel /\ settles f r /\ forall x, r = Ok x -> Q x.
Lemma ends_const {A} (r : res A) (Q : A -> Prop) : r <> OutOfFuel -> (forall x, r = Ok x -> Q x) -> ends (fun _ => r) Q.
Proof. intros N H. exists r. split; [exact N|]. split; [exists 0%nat; reflexivity|exact H]. Qed.
Lemma ends_bind {A B} (f : nat -> res A) (g : A -> nat -> res B) (Q : A -> Prop) (Q' : B -> Prop) : ends f Q ->
  (forall x, settles f (Ok x) -> Q x -> ends (g x) Q') ->
  ends (fun n => match f n with Ok x => g x n | Err => Err | Panic => Panic | OutOfFuel => OutOfFuel end) Q'.
Proof.
  intros (r & N & (b & S) & H) G. destruct r as [x| | |].
  - destruct (G x) as (r' & N' & (b' & S') & H'); [now exists b|now apply H|]. exists r'. split; [exact N'|]. split; [|exact H'].
    exists (Nat.max b b'). intros n L. rewrite S by lia. apply S'. lia.
  - exists Err. split; [discriminate|]. split; [exists b; intros n L; now rewrite S|discriminate].
  - exists Panic. split; [discriminate|]. split; [exists b; intros n L; now rewrite S|discriminate].
  - now elim N.
Qed.
Lemma ends_ext {A} (f g : nat -> res A) Q : (forall n, f n = g n) -> ends g Q -> ends f Q.
Proof. intros E (r & N & (b & S) & H). exists r. split; [exact N|]. split; [|exact H]. exists b. intros n L. rewrite E. now apply S. Qed.
Lemma ends_more {A} (f : nat -> res A) (Q Q' : A -> Prop) : (forall x, settles f (Ok x) -> Q x -> Q' x) -> ends f Q -> ends f Q'.
Proof. intros I (r & N & S & H). exists r. split; [exact N|]. split; [exact S|]. intros x ->. apply I; [exact S|now apply H]. Qed.

(** ** Reading a key at its offset *)
Lemma slice_facts fi st s o k st' : op_modified o = false -> read_from_slice fi st s o = Ok (Some k, st') ->
  nk_ok s /\ kn_state k = Allocated /\ kn_deleted k = [] /\ kn_offset k = op_offset o /\ kd_flags (kn_detail k) = num_at s 6 2
  /\ exists nm w, kn_name_at s = Ok (nm, w) /\ kn_path k = op_path o ++ [92] ++ nm.
Proof.
  intros EM. unfold read_from_slice. rewrite EM.
  destruct (kn_cases st s (op_offset o) (op_path o) (op_seq o)) as [(OK & nm & w & NM & E)|(_ & E)]; rewrite E; [|discriminate].
  cbv beta iota. set (k0 := kn_at _ _ _ _ _ _ _).
  destruct (match op_filter o with Some f => check_cell f st k0 | None => Ok (IterateKeys, st) end) as [[fl st1]| | |]; try discriminate.
  set (G := fun k => kn_state k = Allocated /\ kn_deleted k = [] /\ kn_offset k = op_offset o /\ kd_flags (kn_detail k) = num_at s 6 2 /\ kn_path k = op_path o ++ [92] ++ nm).
  assert (K0 : G k0) by (repeat split).
  assert (V : forall b k1, (if b : bool then let* (k, ok) := read_values fi st1 (op_seq o) k0 in Ok (if ok : bool then k else kn_add_log WarningParse k) else Ok k0) = Ok k1 -> G k1).
  { intros b k1. destruct b; [|now intros [= <-]].
    destruct (read_values fi st1 (op_seq o) k0) as [[k2 ok]| | |] eqn:RV; try discriminate. cbv beta iota. intros [= <-].
    assert (Y : G k2).
    { revert RV. unfold read_values. destruct (_ && _); [|now intros [= <- _]].
      destruct (1048576 <? _); [now intros [= <- _]|]. destruct (parse_key_values _ _ _) as [offs|]; [|now intros [= <- _]].
      destruct (read_values_loop _ _ _ _ _) as [[[vs logs] ok']| | |] eqn:EL; try discriminate. intros [= <- _]. exact K0. }
    destruct ok; exact Y. }
  assert (Z : forall k, G k -> nk_ok s /\ kn_state k = Allocated /\ kn_deleted k = [] /\ kn_offset k = op_offset o /\ kd_flags (kn_detail k) = num_at s 6 2
    /\ exists nm w, kn_name_at s = Ok (nm, w) /\ kn_path k = op_path o ++ [92] ++ nm).
  { intros x (X1 & X2 & X3 & X4 & X5). repeat (split; [assumption|]). now exists nm, w. }
  cbv beta iota. destruct fl; [discriminate| |].
  all: match goal with |- (let* k := (if ?b then _ else _) in _) = _ -> _ => pose proof (V b) as V1 end.
  all: match goal with |- (let* k := ?x in _) = _ -> _ => destruct x as [k1| | |]; try discriminate end.
  all: specialize (V1 k1 eq_refl); cbv beta iota zeta; intros [= <- _]; apply Z; exact V1.
Qed.
Lemma values_fuel fi st seq offs : forall acc, read_values_loop fi st seq offs acc <> OutOfFuel.
Proof.
  induction offs as [|o offs IH]; intros acc; cbn [read_values_loop]; [discriminate|].
  destruct (get_at _ _); [|discriminate]. destruct (get_from _ _) as [s|] eqn:G; [|discriminate].
  destruct (kv_cases s (o + fi_hbin fi) seq (st_full st)) as [(OK & nm & w & NM & E)|(_ & E)]; rewrite E; [|discriminate]. apply IH.
Qed.
Lemma read_fuel fi st o : op_filter o = None -> op_modified o = false -> kn_read fi st o <> OutOfFuel.
Proof.
  intros EF EM. unfold kn_read. destruct (get_from _ _) as [s|]; [|discriminate]. cbn [ok_or]. unfold read_from_slice. rewrite EM, EF.
  destruct (kn_cases st s (op_offset o) (op_path o) (op_seq o)) as [(OK & nm & w & NM & E)|(_ & E)]; rewrite E; [|discriminate].
  cbv beta iota. set (k0 := kn_at _ _ _ _ _ _ _). destruct (_ && _); [|discriminate].
  unfold read_values. destruct (_ && _); [|discriminate]. destruct (1048576 <? _); [discriminate|]. destruct (parse_key_values _ _ _) as [offs|]; [|discriminate].
  pose proof (values_fuel fi st (op_seq o) offs []) as V. destruct (read_values_loop _ _ _ _ _) as [[[vs logs] ok']| | |]; try discriminate. now elim V.
Qed.
Lemma add_key_fuel fi seq st path off old del : add_full_key fi seq st path off old del <> OutOfFuel.
Proof.
  unfold add_full_key. match goal with |- context [kn_read fi st ?o] => pose proof (read_fuel fi st o eq_refl eq_refl) as R; destruct (kn_read fi st o) as [[[k|] s]| | |] end; try discriminate. now elim R.
Qed.
Lemma add_value_fuel fi seq st path off old del : add_full_value fi seq st path off old del <> OutOfFuel.
Proof.
  unfold add_full_value. destruct (get_from _ _) as [s|]; [|discriminate]. cbn [ok_or].
  destruct (kv_cases s off (Some old) (st_full st)) as [(OK & nm & w & NM & E)|(_ & E)]; rewrite E; discriminate.
Qed.
Lemma add_all_fuel {A} (f : state -> A -> res state) l : (forall st x, f st x <> OutOfFuel) -> forall st logs, add_all f l st logs <> OutOfFuel.
Proof.
  intros H. induction l as [|x l IH]; intros st logs; cbn [add_all]; [discriminate|].
  specialize (H st x). destruct (f st x); try apply IH; try discriminate. now elim H.
Qed.
Lemma handle_fuel seq ks : forall a b c d logs, handle_keys seq ks a b c d logs <> OutOfFuel.
Proof.
  assert (V : forall path vs s logs, handle_values seq path vs s logs <> OutOfFuel).
  { intros path. induction vs as [|v vs IH]; intros s logs; cbn [handle_values]; [discriminate|].
    destruct (kv_hash v); [|discriminate]. cbn [must_hash or_panic]. apply IH. }
  induction ks as [|k ks IH]; intros a b c d logs; cbn [handle_keys]; [discriminate|].
  destruct (kn_hash k); [|discriminate]. cbn [must_hash or_panic]. cbv beta iota. destruct (handle_new_item _ _ _ _ _) as [[a1 b1] c1].
  specialize (V (kn_path k) (kn_values k) (a1, b1, d) (logs ++ kn_logs k)). destruct (handle_values _ _ _ _ _) as [[[[a2 b2] d2] l2]| | |]; try discriminate; [|now elim V].
  cbv beta iota. apply IH.
Qed.
Lemma insert_fuel seq ks : forall m, insert_keys seq ks m <> OutOfFuel.
Proof.
  assert (V : forall path vs m, insert_values path seq vs m <> OutOfFuel).
  { intros path. induction vs as [|v vs IH]; intros m; cbn [insert_values]; [discriminate|].
    destruct (kv_hash v); [|discriminate]. cbn [must_hash or_panic]. apply IH. }
  induction ks as [|k ks IH]; intros m; cbn [insert_keys]; [discriminate|].
  destruct (kn_hash k); [|discriminate]. cbn [must_hash or_panic]. cbv beta iota zeta.
  match goal with |- context [insert_values ?a ?b ?c ?d] => pose proof (V a c d) as W; destruct (insert_values a b c d) as [m2| | |] end; try discriminate; [|now elim W].
  cbv beta iota. apply IH.
Qed.

(** ** Where the deleted keys of an iteration come from *)
Lemma finish_offset st k : kn_offset (finish st k) = kn_offset k.
Proof. unfold finish. cbv zeta. cbn [kn_set_values kn_offset]. destruct (aget beq _ (st_modified_keys st)); reflexivity. Qed.
Lemma finish_same_path st k : kn_path (finish st k) = kn_path k.
Proof. unfold finish. cbv zeta. cbn [kn_set_values kn_path]. destruct (aget beq _ (st_modified_keys st)); reflexivity. Qed.
Lemma finish_state st k : kn_state (finish st k) = kn_state k.
Proof. unfold finish. cbv zeta. cbn [kn_set_values kn_state]. destruct (aget beq _ (st_modified_keys st)); reflexivity. Qed.
Section Aim.
Variables (fi : file_info) (rp : list N).
Definition aim (k : key_node) : Prop := kn_offset k = 4128 -> kn_path k = rp.
Inductive aimed : key_node -> Prop :=
| aimed_key k : kn_state k = Allocated \/ aim k -> Forall aimed (kn_deleted k) -> aimed k.
Definition plain_aim (k : key_node) : Prop := (kn_state k = Allocated \/ aim k) /\ kn_deleted k = [].
Lemma plain_aimed k : plain_aim k -> aimed k.
Proof. intros (A & D). constructor; [exact A|rewrite D; constructor]. Qed.
Lemma aimed_same k k' : kn_offset k' = kn_offset k -> kn_path k' = kn_path k -> kn_state k' = kn_state k -> kn_deleted k' = kn_deleted k -> aimed k -> aimed k'.
Proof. intros O P S D A. inversion A as [x A1 A2]; subst. constructor; [unfold aim in *; now rewrite O, P, S|now rewrite D]. Qed.
Definition aims (st : state) : Prop := keyed (fun _ => plain_aim) (st_deleted_keys st).
Lemma aims_root st st' : root_only st st' -> aims st -> aims st'.
Proof. intros R M. unfold root_only in R. rewrite R. exact M. Qed.
Lemma uml_aimed st : aims st -> forall fuel k k', plain_aim k -> update_modified_lists fuel st k = Ok k' -> aimed k'.
Proof.
  intros M. induction fuel as [|fuel IH]; intros k k' N; [discriminate|]. rewrite uml_eq.
  destruct (is_deleted_primary_file _); [intros [= <-]; now apply plain_aimed|].
  assert (FI : forall x, kn_state x = Allocated \/ aim x -> Forall aimed (kn_deleted x) -> aimed (finish st x)).
  { intros x X1 X2. constructor; [unfold aim in *; now rewrite finish_offset, finish_same_path, finish_state|now rewrite finish_deleted]. }
  destruct N as (N1 & N2).
  destruct (aget beq (lookup_path k) (st_deleted_keys st)) as [dks|] eqn:A; [|intros [= <-]; apply FI; [exact N1|rewrite N2; constructor]].
  destruct (note fuel st (kn_offset k) dks) as [l| | |] eqn:NO; try discriminate. intros [= <-]. apply FI; [exact N1|].
  cbn [kn_set_deleted kn_deleted]. pose proof (keyed_aget _ _ _ _ M A) as F. cbv beta in F. clear A. revert l NO.
  induction F as [|d r D F IR]; intros l; cbn [note]; [intros [= <-]; constructor|].
  destruct (if kn_offset d =? kn_offset k then Ok d else update_modified_lists fuel st d) as [d'| | |] eqn:E; try discriminate.
  destruct (note fuel st (kn_offset k) r) as [r'| | |]; try discriminate. intros [= <-]. constructor; [|now apply IR].
  destruct (_ =? _) in E; [injection E as <-; now apply plain_aimed|now apply (IH d)].
Qed.
Lemma read_aimed st o k st' : aims st -> kn_read fi st o = Ok (Some k, st') -> aimed k.
Proof.
  intros M R. assert (X : forall s o k st', op_modified o = false -> read_from_slice fi st s o = Ok (Some k, st') -> plain_aim k).
  { intros s o1 k1 s1 E H. apply slice_facts in H as (_ & H1 & H2 & _); [|exact E]. split; [now left|exact H2]. }
  destruct (op_modified o) eqn:EM.
  - rewrite (read_noted _ _ _ EM) in R. destruct (kn_read fi st (unnoted o)) as [[[k1|] st1]| | |] eqn:E; try discriminate.
    destruct (update_modified_lists _ _ _) as [k2| | |] eqn:U; try discriminate. injection R as <- <-.
    pose proof (aims_root _ _ (kn_read_state _ _ _ _ _ E) M) as M1. apply (uml_aimed _ M1 _ _ _) in U; [exact U|].
    unfold kn_read in E. destruct (get_from _ _); [|discriminate]. cbn [ok_or] in E. now apply X in E.
  - apply plain_aimed. unfold kn_read in R. destruct (get_from _ _); [|discriminate]. cbn [ok_or] in R. now apply X in R.
Qed.
Lemma child_aimed sm f c : aimed c -> aimed (child_filter_state sm f c).
Proof. intros G. unfold child_filter_state. repeat match goal with |- context [if ?b then _ else _] => destruct b end; try exact G; now apply (aimed_same c). Qed.
Lemma children_aimed path sm f sf seq m offs : forall st cs found logs st', aims st ->
  read_children fi st path sm f sf seq m offs = Ok (cs, found, logs, st') -> Forall aimed cs.
Proof.
  induction offs as [|o offs IH]; intros st cs found logs st' M; cbn [read_children]; [intros [= <- _ _ _]; constructor|].
  destruct (kn_read fi st _) as [[[c|] st1]| | |] eqn:R; try discriminate.
  - pose proof (aims_root _ _ (kn_read_state _ _ _ _ _ R) M) as M1. apply read_aimed in R; [|apply M].
    destruct (read_children _ _ _ _ _ _ _ _ _) as [[[[cs1 ?] ?] ?]| | |] eqn:E; try discriminate. intros [= <- _ _ _].
    constructor; [now apply child_aimed|]. now apply (IH _ _ _ _ _ M1 E).
  - pose proof (aims_root _ _ (kn_read_state _ _ _ _ _ R) M) as M1. intros E. now apply (IH _ _ _ _ _ M1 E).
  - destruct (read_children _ _ _ _ _ _ _ _ _) as [[[[cs1 ?] ?] ?]| | |] eqn:E; try discriminate. intros [= <- _ _ _].
    now apply (IH _ _ _ _ _ M E).
Qed.
Lemma sub_keys_aimed st k f seq m k' cs found st' : aims st -> aimed k ->
  read_sub_keys_internal fi st k f seq m = Ok (k', cs, found, st') -> aimed k' /\ Forall aimed cs.
Proof.
  intros M G. unfold read_sub_keys_internal.
  assert (GL : forall c, aimed (kn_add_log c k)) by (intros; now apply (aimed_same k)).
  destruct (is_allocated _); [|intros [= <- <- _ _]; auto]. destruct (1048576 <? _); [intros [= <- <- _ _]; auto|].
  destruct (0 <? _); [|intros [= <- <- _ _]; auto]. destruct (parse_sub_key_list _ _ _) as [offs| | |]; try discriminate.
  - destruct (read_children _ _ _ _ _ _ _ _ _) as [[[[cs1 ?] ?] ?]| | |] eqn:E; try discriminate. intros [= <- <- _ _].
    split; [now apply (aimed_same k)|]. now apply (children_aimed _ _ _ _ _ _ _ _ _ _ _ _ M E).
  - intros [= <- <- _ _]; auto.
Qed.
Definition aimed_cx (c : context) : Prop := aims (cx_state c) /\ Forall aimed (cx_stack c).
Lemma fold_aimed (g : context -> key_node -> context) l : (forall k c, aimed k -> aimed_cx c -> aimed_cx (g c k)) -> Forall aimed l ->
  forall c, aimed_cx c -> aimed_cx (fold_left g l c).
Proof. intros H F. induction F as [|k l K F IH]; intros c C; [exact C|]. cbn [fold_left]. apply IH. now apply H. Qed.
Lemma visit_aimed cx k k' cx' : aimed_cx cx -> aimed k -> visit fi cx k = Ok (k', cx') -> aimed k' /\ aimed_cx cx'.
Proof.
  intros C G. unfold visit.
  match goal with |- match ?x with _ => _ end = _ -> _ => destruct x as [[k1 cx1]| | |] eqn:E; try discriminate end.
  assert (X : aimed k1 /\ aimed_cx cx1).
  { destruct (0 <? _) in E; [|injection E as <- <-; auto].
    destruct (read_sub_keys_internal _ _ _ _ _ _) as [[[[k2 cs] fd] st]| | |] eqn:R in E; try discriminate.
    pose proof (aims_root _ _ (read_sub_keys_state _ _ _ _ _ _ _ _ _ _ R) (proj1 C)) as M.
    apply sub_keys_aimed in R as (R1 & R2); [|apply C|exact G]. injection E as <- <-. split; [now apply (aimed_same k2)|].
    apply (fold_aimed (fun cx c => push_check c cx)); [|now apply Forall_rev|split; [exact M|apply C]].
    intros q c Q (C1 & C2). unfold push_check. destruct (existsb _ _); [now split|]. split; [exact C1|now constructor]. }
  cbv beta iota. destruct X as (X1 & X3). intros [= <- <-]. inversion X1 as [x Y1 Y2]; subst.
  assert (D : Forall aimed (map (kn_set_filter (kn_filter k1)) (kn_deleted k1))).
  { apply Forall_map. eapply Forall_impl; [|exact Y2]. intros d Z. now apply (aimed_same d). }
  split; [constructor; [exact Y1|exact D]|].
  apply (fold_aimed (fun cx d => push d cx)); [|exact D|exact X3].
  intros q c Q (C1 & C2). split; [exact C1|now constructor].
Qed.
Lemma walk_aimed c ks : walk fi c ks -> aimed_cx c -> Forall aimed ks.
Proof.
  induction 1 as [c S|c k rest k' c' ks S V W IH]; intros (D & F); [constructor|]. rewrite S in F. inversion F; subst.
  apply visit_aimed in V as (V1 & V2); [|now split|assumption]. destruct (returned c' k'); auto.
Qed.
End Aim.

(** ** The root is shown first *)
Lemma visit_key fi cx k k' cx' : visit fi cx k = Ok (k', cx') -> kn_offset k' = kn_offset k /\ kn_path k' = kn_path k /\ kn_state k' = kn_state k
  /\ cx_ancestors cx' = cx_ancestors cx /\ cx_filter cx' = cx_filter cx.
Proof.
  unfold visit. match goal with |- match ?x with _ => _ end = _ -> _ => destruct x as [[k1 cx1]| | |] eqn:E; try discriminate end. intros [= <- <-].
  assert (P : forall l c, cx_ancestors (fold_left (fun cx d => push d cx) l c) = cx_ancestors c /\ cx_filter (fold_left (fun cx d => push d cx) l c) = cx_filter c).
  { induction l as [|d l IH]; intros c; [now split|]. cbn [fold_left]. destruct (IH (push d c)) as (-> & ->). now split. }
  destruct (P (map (kn_set_filter (kn_filter k1)) (kn_deleted k1)) cx1) as (-> & ->). cbn [kn_set_deleted kn_offset kn_path kn_state].
  destruct (0 <? _) in E; [|now injection E as <- <-].
  destruct (read_sub_keys_internal _ _ _ _ _ _) as [[[[k2 cs] fd] st]| | |] eqn:R in E; try discriminate. injection E as <- <-.
  assert (C : forall l c, cx_ancestors (fold_left (fun cx d => push_check d cx) l c) = cx_ancestors c /\ cx_filter (fold_left (fun cx d => push_check d cx) l c) = cx_filter c).
  { induction l as [|d l IH]; intros c; [now split|]. cbn [fold_left]. destruct (IH (push_check d c)) as (-> & ->). unfold push_check. destruct (existsb _ _); now split. }
  destruct (C (rev cs) (cx_set_state st cx)) as (-> & ->). cbn [kn_set_to_return kn_offset kn_path kn_state cx_set_state cx_ancestors cx_filter].
  assert (K : kn_offset k2 = kn_offset k /\ kn_path k2 = kn_path k /\ kn_state k2 = kn_state k).
  { revert R. unfold read_sub_keys_internal. destruct (is_allocated _); [|now intros [= <- _ _ _]]. destruct (1048576 <? _); [now intros [= <- _ _ _]|].
    destruct (0 <? _); [|now intros [= <- _ _ _]]. destruct (parse_sub_key_list _ _ _) as [offs| | |]; try discriminate; [|now intros [= <- _ _ _]].
    destruct (read_children _ _ _ _ _ _ _ _ _) as [[[[cs1 ?] ?] ?]| | |]; try discriminate. now intros [= <- _ _ _]. }
  destruct K as (-> & -> & ->). now repeat split.
Qed.
Lemma root_first n p m ks r : ps_root p = Some r -> iterate n p None false m false = Ok ks ->
  exists k tl, ks = k :: tl /\ kn_offset k = kn_offset r /\ kn_path k = kn_path r /\ kn_state k = kn_state r.
Proof.
  intros PR. unfold iterate, from_parser. rewrite PR. destruct n as [|n]; [discriminate|]. cbn [collect next_key_preorder cx_stack].
  destruct (visit _ _ _) as [[k cx]| | |] eqn:V; try discriminate. cbv beta iota. apply visit_key in V as (V1 & V2 & V3 & V4 & V5).
  cbn [cx_set_stack cx_ancestors cx_filter] in V4, V5. rewrite V4, V5. cbn [f_is_valid negb orb]. cbv beta iota.
  destruct (collect _ _ _ _) as [tl| | |]; try discriminate. intros [= <-]. now exists k, tl.
Qed.

(** ** Iterating while the hive is opened *)
Lemma one_place {A B} (f : A -> B) l x y : NoDup (map f l) -> In x l -> In y l -> f x = f y -> x = y.
Proof.
  induction l as [|a l IH]; [intros _ []|]. cbn [map]. intros N. inversion N as [|? ? N1 N2]; subst. intros [->|X] [->|Y] E; [reflexivity| | |now apply IH].
  - elim N1. rewrite E. now apply in_map.
  - elim N1. rewrite <- E. now apply in_map.
Qed.
Section Replay.
Variables (order : reg_items -> reg_items) (full : bool) (hash : list N -> N) (name : list N).
Hypothesis PO : forall m, Permutation (order m) m.
Notation rp := (92 :: name).
Notation keq := item_key_eqb.
Definition good (b : list N) : Prop :=
  no_list_cycle (mkFI 4096 b) /\ one_root b /\ forall n, name_at (mkFI 4096 b) 4128 n -> n = name.
Record standing (p : parser) : Prop := {
  sd_hbin : ps_hbin p = 4096;
  sd_recover : ps_recover p = true;
  sd_bytes : bytes_ok (ps_buffer p);
  sd_reached : exists b, forall n, (b < n)%nat -> reached order n full hash (ps_state p);
  sd_roots : no_deleted_root (ps_state p);
  sd_aims : aims rp (ps_state p) }.
Definition items_aim (m : reg_items) : Prop := forall path it, aget keq (path, None) m = Some it -> it_offset it = 4128 -> path = rp.
Lemma standing_calm p : standing p -> calm (ps_state p) /\ st_root_offset (ps_state p) = 0.
Proof.
  intros S. destruct (sd_reached _ S) as (b & R). specialize (R (1 + b)%nat ltac:(lia)). pose proof (reached_inv _ _ _ _ _ R) as (Z & _ & _ & D).
  split; [split; [exact (reached_orderly _ _ _ _ _ R (sd_roots _ S))|exact D]|exact Z].
Qed.
Lemma standing_file p : standing p -> ps_file p = mkFI 4096 (ps_buffer p).
Proof. intros S. pose proof (sd_hbin _ S) as H. unfold ps_hbin in H. unfold ps_buffer. destruct (ps_file p). cbn in *. now subst. Qed.
Lemma standing_same p p' : ps_file p' = ps_file p -> ps_recover p' = ps_recover p -> (exists i, ps_state p' = set_info i (ps_state p)) -> standing p -> standing p'.
Proof.
  intros F R (i & E) S. unfold ps_hbin, ps_buffer in *. constructor.
  - unfold ps_hbin. rewrite F. apply S.
  - rewrite R. apply S.
  - unfold ps_buffer. rewrite F. apply S.
  - destruct (sd_reached _ S) as (b & H). exists b. intros n L. rewrite E. apply reached_info. now apply H.
  - rewrite E. exact (sd_roots _ S).
  - rewrite E. exact (sd_aims _ S).
Qed.
Lemma standing_log p c : standing p -> standing (ps_log c p).
Proof. apply standing_same; [reflexivity|reflexivity|eexists; reflexivity]. Qed.
Lemma root_settles p : standing p -> init_root p <> OutOfFuel.
Proof.
  intros S. destruct (standing_calm _ S) as (Q & Z). unfold init_root. destruct (get_from _ _) as [i|]; [|discriminate]. cbn [ok_or].
  destruct (hbin_cases (ps_hbin p) i) as [(_ & _ & ->)|(_ & ->)]; [|discriminate]. cbv beta iota zeta.
  set (h := hbin_at _ _). change (ps_file (ps_set_hbin h p)) with (ps_file p). change (ps_state (ps_set_hbin h p)) with (ps_state p).
  set (o := mkOpt _ _ _ _ _ _).
  destruct (read_all (ps_file p) (ps_state p) o [92] (sd_bytes _ S) eq_refl text_nil (or_introl eq_refl) (or_introl Z) Q) as [E|(c & st' & E & _)]; rewrite E; discriminate.
Qed.
Record shown (ks : list key_node) : Prop := {
  sh_once : NoDup (spots ks);
  sh_root : exists k, In k ks /\ kn_offset k = 4128 /\ kn_path k = rp /\ kn_state k = Allocated;
  sh_aimed : Forall (aimed rp) ks }.
Lemma shown_aim ks k : shown ks -> In k ks -> kn_offset k = 4128 -> kn_path k = rp.
Proof.
  intros S I O. pose proof (sh_aimed _ S) as A. rewrite Forall_forall in A. specialize (A k I). inversion A as [x [L|L] _]; subst; [|now apply L].
  destruct (sh_root _ S) as (r & R1 & R2 & R3 & R4). pose proof (sh_once _ S) as N. unfold spots in N.
  assert (X : forall y, In y ks -> kn_state y = Allocated -> In y (alive ks)) by (intros y Y1 Y2; unfold alive; apply filter_In; split; [exact Y1|now rewrite Y2]).
  rewrite (one_place kn_offset (alive ks) k r N (X k I L) (X r R1 R4)); [exact R3|congruence].
Qed.
Lemma iterate_settles p p1 m : standing p -> good (ps_buffer p) -> init_root p = Ok p1 ->
  exists ks, settles (fun n => iterate n p1 None false m false) (Ok ks) /\ shown ks.
Proof.
  intros S (NC & OR & NM) IR. destruct (standing_calm _ S) as (Q & Z). pose proof (sd_bytes _ S) as B. pose proof (standing_file _ S) as FI.
  rewrite <- FI in NC, NM. pose proof IR as IR0. apply init_root_ok in IR as (h & root & P1 & _ & R). rewrite (sd_hbin _ S) in R. change (4096 + 32) with 4128 in R.
  assert (PF : ps_file p1 = ps_file p) by now subst p1. assert (PS : ps_state p1 = ps_state p) by now subst p1. assert (PRO : ps_root p1 = root) by now subst p1.
  destruct (read_all (ps_file p) (ps_state p) (mkOpt 4128 [] None true None true) [92] B eq_refl text_nil (or_introl eq_refl) (or_introl Z) Q)
    as [F|(c & st' & F & _ & _ & FK)]; pose proof R as R0; rewrite F in R0; [discriminate|]. injection R0 as F0 _. subst c.
  destruct root as [k|] eqn:PR; [|now apply AnyOpen.read_some in R].
  destruct (FK k eq_refl) as (E1 & E2 & E3 & E4 & E5 & E6 & E7 & E8). cbn [op_offset op_path] in *.
  assert (PK : kn_path k = 92 :: kn_name k) by exact E3.
  assert (NK0 : kn_name k = name) by (apply NM; rewrite <- E1; apply E8).
  set (w := room (ps_state p)).
  assert (TO : topmost (ps_file p) 4128 = len (ps_buffer p)) by (unfold topmost; change (fi_buffer (ps_file p)) with (ps_buffer p) in *; lia).
  assert (G : cx_ok (ps_file p) 4128 (92 :: kn_name k) w (from_parser p1 m None false)).
  { unfold from_parser. rewrite PRO, PS. split; cbn [cx_state cx_stack cx_return cx_offsets app].
    - exact Q.
    - reflexivity.
    - now left.
    - constructor; [|constructor]. split; [exact E6|]. intros _. split; [rewrite PK; now apply AnyOpen.text_root|]. split; [exists []; rewrite app_nil_r; auto|].
      split; [exact E8|]. exists [kn_name k]. rewrite E1. split.
      + apply from_root. rewrite <- E1. apply E8.
      + cbn. now rewrite app_nil_r.
    - unfold waiting. cbn [cx_stack cx_return app]. rewrite spots_one. destruct (is_allocated _); repeat constructor. intros [].
    - unfold waiting. cbn [cx_stack cx_return app]. rewrite spots_one. destruct (is_allocated _); [intros x I; exact I|intros x []].
    - repeat constructor. intros [].
    - constructor; [|constructor]. rewrite TO, E1. exact E2. }
  set (b := pot (ps_file p) 4128 w (from_parser p1 m None false)).
  destruct (collect_all (ps_file p) 4128 (92 :: kn_name k) w B eq_refl NC false (1 + b)%nat _ G) as (ks & EK & NK & FG & _); [unfold b; lia|].
  assert (IT : iterate (1 + b) p1 None false m false = Ok ks) by (unfold iterate; rewrite PF; exact EK).
  exists ks. split; [exists b; intros n L; unfold iterate; rewrite PF; apply (collect_more _ _ _ _ EK); lia|]. split; [exact NK| |].
  - destruct (root_first _ _ _ _ _ PRO IT) as (r & tl & -> & R1 & R2 & R3). exists r. split; [now left|]. split; [congruence|]. split; [rewrite R2, PK; now rewrite NK0|congruence].
  - unfold iterate in IT. apply collect_walk in IT. apply (walk_aimed _ _ _ _ IT). split; [unfold from_parser; cbn [cx_state]; rewrite PS; exact (sd_aims _ S)|].
    unfold from_parser. rewrite PRO. cbn [cx_stack]. constructor; [|constructor]. exact (read_aimed _ _ _ _ _ _ (sd_aims _ S) R).
Qed.
Lemma reg_items_end p seq : standing p -> good (ps_buffer p) ->
  ends (fun n => get_reg_items n p seq) (fun x => items_aim (fst x) /\ NoDup (map fst (fst x)) /\ standing (snd x) /\ ps_file (snd x) = ps_file p /\ ps_base_block (snd x) = ps_base_block p).
Proof.
  intros S G. unfold get_reg_items. rewrite (sd_recover _ S). pose proof (root_settles _ S) as RS.
  destruct (init_root p) as [p1| | |] eqn:IR; try (apply ends_const; discriminate); [|now elim RS].
  destruct (iterate_settles p p1 true S G IR) as (ks & (b & SE) & SH).
  pose proof (insert_fuel seq ks []) as IF.
  exists (match insert_keys seq ks [] with Ok m => Ok (m, p1) | Err => Err | Panic => Panic | OutOfFuel => OutOfFuel end).
  split; [destruct (insert_keys seq ks []); try discriminate; now elim IF|].
  split; [exists b; intros n L; rewrite (SE n L); reflexivity|]. intros [m q].
  destruct (insert_keys seq ks []) as [m'| | |] eqn:IK; try discriminate. intros [= <- <-]. cbn [fst snd].
  apply insert_keys_seen in IK as (ND & IK); [|constructor].
  split; [|split; [exact ND|]].
  - intros path it A O. destruct (IK _ _ A) as [X|X]; [discriminate X|]. apply sighting_key in X as (k & K1 & <- & K3). apply (shown_aim ks); [exact SH|exact K1|congruence].
  - apply init_root_ok in IR as (h & root & -> & _). split; [|split; reflexivity]. apply (standing_same p); [reflexivity|reflexivity| |exact S].
    exists (st_info (ps_state p)). exact (eq_sym (set_info_id _)).
Qed.

(** One comparison. *)
Lemma first_seen_in w l e : In (w, e) l -> seen w l = true.
Proof.
  unfold seen. induction l as [|x l IH]; [intros []|]. cbn [first_seen]. intros [->|I]; cbn [fst snd].
  - now rewrite (eqb_same keq item_key_iff).
  - destruct (keq w (fst x)); [reflexivity|now apply IH].
Qed.
Lemma sight_root ks : shown ks -> seen (rp, None) (sightings ks) = true.
Proof.
  intros S. destruct (sh_root _ S) as (k & K1 & K2 & K3 & _). apply (first_seen_in _ _ (kn_hash k, kn_offset k)).
  unfold sightings. apply in_flat_map. exists k. split; [exact K1|]. left. now rewrite K3.
Qed.
Lemma old_key_facts fi st seq cs path it k : In k (old_key fi st seq cs path it) ->
  kn_deleted k = [] /\ kn_offset k = it_offset it
  /\ exists s, get_from (fi_buffer fi) (it_offset it) = Some s /\ nk_ok s /\ kd_flags (kn_detail k) = num_at s 6 2.
Proof.
  unfold old_key. destruct (kn_read _ _ _) as [[[k0|] st0]| | |] eqn:K; try contradiction. intros [<-|[]].
  unfold kn_read in K. cbn [op_offset] in K. destruct (get_from _ _) as [s|] eqn:G; [|discriminate]. cbn [ok_or] in K.
  apply slice_facts in K as (K1 & K2 & K3 & K4 & K5 & _); [|reflexivity]. cbn [kn_set_state kn_set_values kn_set_updated kn_deleted kn_offset kn_detail].
  split; [exact K3|]. split; [exact K4|]. now exists s.
Qed.
Lemma bytes_grown b z o n : exists k, bytes_at (b ++ repeat 0 z) o n = bytes_at b o n ++ repeat 0 k.
Proof.
  unfold bytes_at. rewrite skipn_app, firstn_app. eexists. f_equal.
  assert (S : forall a c, skipn a (repeat 0 c) = repeat 0 (c - a)).
  { induction a as [|a IH]; intros [|c]; cbn [skipn repeat Nat.sub]; try reflexivity. apply IH. }
  assert (F : forall a c, firstn a (repeat 0 c) = repeat 0 (Nat.min a c)).
  { induction a as [|a IH]; intros [|c]; cbn [firstn repeat Nat.min]; try reflexivity. now rewrite IH. }
  rewrite S, F. reflexivity.
Qed.
Lemma num_grown b z o n : num_at (b ++ repeat 0 z) o n = num_at b o n.
Proof.
  unfold num_at. destruct (bytes_grown b z o n) as (k & ->). rewrite fold_right_app. f_equal.
  induction k as [|k IH]; [reflexivity|]. cbn [repeat fold_right]. now rewrite IH.
Qed.
Lemma one_root_grown b z : one_root b -> one_root (b ++ repeat 0 z).
Proof.
  intros O c T F. apply O; [|now rewrite num_grown in F]. destruct (bytes_grown b z (c + 4) 2) as (k & E). rewrite E in T.
  destruct k as [|k]; [now rewrite app_nil_r in T|]. exfalso. assert (I : In 0 (bytes_at b (c + 4) 2 ++ repeat 0 (S k))) by (apply in_or_app; right; now left).
  rewrite T in I. destruct I as [I|[I|[]]]; discriminate I.
Qed.
Lemma latest_ends p fi seq prior : standing p -> good (ps_buffer p) -> one_root (fi_buffer fi) -> NoDup (map fst prior) -> items_aim prior ->
  ends (fun n => get_latest_reg_items order n fi seq p prior)
    (fun x => let '(latest, p', _) := x in items_aim latest /\ NoDup (map fst latest) /\ standing p' /\ ps_file p' = ps_file p /\ ps_base_block p' = ps_base_block p).
Proof.
  intros S G OR ND IA. pose proof (root_settles _ S) as RS.
  destruct (init_root p) as [p1| | |] eqn:IR.
  2-3: eapply ends_ext; [intros n; unfold get_latest_reg_items; rewrite IR; reflexivity|apply ends_const; discriminate].
  2: now elim RS.
  destruct (iterate_settles p p1 false S G IR) as (ks & (b & SE) & SH).
  assert (SAME : forall n n', (b < n)%nat -> (b < n')%nat -> get_latest_reg_items order n fi seq p prior = get_latest_reg_items order n' fi seq p prior).
  { intros n n' L L'. unfold get_latest_reg_items. rewrite IR. cbv beta iota. now rewrite !SE. }
  exists (get_latest_reg_items order (1 + b) fi seq p prior). split; [|split].
  - unfold get_latest_reg_items. rewrite IR. cbv beta iota. rewrite SE by lia. cbv beta iota.
    pose proof (handle_fuel seq ks prior [] [] [] []) as HF. destruct (handle_keys _ _ _ _ _ _ _) as [[[[[a1 a2] a3] a4] a5]| | |]; try discriminate; [|now elim HF]. cbv beta iota.
    match goal with |- context [add_all ?f a3 ?st ?l] => pose proof (add_all_fuel f a3 ltac:(intros; apply add_key_fuel) st l) as A1; destruct (add_all f a3 st l) as [[s1 l1]| | |] end; try discriminate; [|now elim A1]. cbv beta iota.
    match goal with |- context [add_all ?f a4 ?st ?l] => pose proof (add_all_fuel f a4 ltac:(intros; apply add_value_fuel) st l) as A2; destruct (add_all f a4 st l) as [[s2 l2]| | |] end; try discriminate; [|now elim A2]. cbv beta iota.
    match goal with |- context [add_all ?f (order a1) ?st ?l] => pose proof (add_all_fuel f (order a1) ltac:(intros st0 [[pa [nm|]] it]; [apply add_value_fuel|apply add_key_fuel]) st l) as A3; destruct (add_all f (order a1) st l) as [[s3 l3]| | |] end; try discriminate. now elim A3.
  - exists b. intros n L. apply SAME; lia.
  - intros [[latest p'] logs] E.
    destruct (comparison _ _ _ _ _ _ _ _ _ E) as (p2 & ks2 & prior' & ch & IR2 & SP & IT & _ & FO & FI & _ & _ & M3 & _). cbv zeta in M3.
    rewrite IR in IR2. injection IR2 as <-. rewrite SE in IT by lia. injection IT as <-.
    pose proof (steps_prior seq (sightings ks) prior [] [] prior' latest ch ND FO) as (NP & GP & _).
    pose proof (steps_latest seq (sightings ks) prior [] [] prior' latest ch (NoDup_nil _) FO) as (NL & LN & _ & LS).
    pose proof (get_latest_same _ _ _ _ _ _ _ _ _ E) as (G1 & G2 & G3).
    assert (LA : items_aim latest).
    { intros path it A O. assert (SW : seen (path, None) (sightings ks) = true).
      { destruct (seen (path, None) (sightings ks)) eqn:SW; [reflexivity|]. assert (X : aget keq (path, None) latest = None) by (apply LN; split; [reflexivity|exact SW]). congruence. }
      destruct (LS _ _ A SW) as (h & I & _). apply sighting_key in I as (k & K1 & <- & K3). apply (shown_aim ks); [exact SH|exact K1|congruence]. }
    assert (NEW : Forall (fun e => (kn_deleted (snd e) = [] /\ kn_offset (snd e) <> 4128) /\ N.testbit (kd_flags (kn_detail (snd e))) 2 = false) (flat_map (gone_keys fi (ps_state p) seq) (order prior'))).
    { apply Forall_forall. intros x X. apply in_flat_map in X as ([[path o] it] & Y & X). unfold gone_keys in X. cbn [fst snd] in X. destruct o; [contradiction|].
      apply (Permutation_in _ (PO prior')) in Y. apply (in_aget keq item_key_iff) in Y; [|exact NP]. rewrite GP in Y.
      destruct (seen (path, None) (sightings ks)) eqn:SW; [discriminate Y|].
      assert (O : it_offset it <> 4128). { intros O. rewrite (IA _ _ Y O) in SW. rewrite (sight_root ks SH) in SW. discriminate SW. }
      unfold at_path in X. apply in_map_iff in X as (k & <- & X). cbn [fst snd]. apply old_key_facts in X as (X1 & X2 & s & X3 & X4 & X5).
      split; [split; [exact X1|now rewrite X2]|]. destruct (N.testbit (kd_flags (kn_detail k)) 2) eqn:T; [|reflexivity]. elim O. apply OR.
      - destruct X4 as (_ & _ & X4 & _). destruct (N.leb_spec (it_offset it) (len (fi_buffer fi))) as [L|L]; [|rewrite get_from_none in X3 by exact L; discriminate].
        rewrite get_from_rest in X3 by exact L. injection X3 as <-. now rewrite bytes_at_rest in X4.
      - destruct (N.leb_spec (it_offset it) (len (fi_buffer fi))) as [L|L]; [|rewrite get_from_none in X3 by exact L; discriminate].
        rewrite get_from_rest in X3 by exact L. injection X3 as <-. rewrite num_at_rest in X5. now rewrite <- X5. }
    split; [exact LA|]. split; [exact NL|]. split; [|split; [congruence|exact G2]]. constructor.
    + unfold ps_hbin. rewrite G1. apply S.
    + rewrite G3. apply S.
    + unfold ps_buffer. rewrite G1. apply S.
    + destruct (sd_reached _ S) as (b' & R). exists (Nat.max b b'). intros n L. eapply reached_compare; [apply R; lia|]. rewrite <- E. apply SAME; lia.
    + assert (K : keyed (fun _ k => from_free_space k \/ N.testbit (kd_flags (kn_detail k)) 2 = false) (st_deleted_keys (ps_state p'))).
      { rewrite M3. apply keyed_remove, keyed_pushes.
        - eapply Forall_impl; [|exact NEW]. cbv beta. intros x (_ & X). now right.
        - apply Forall_forall. intros [q l] I. cbn [fst snd]. apply Forall_forall. intros k J. exact (sd_roots _ S q l k I J). }
      intros q l k I J. unfold keyed in K. rewrite Forall_forall in K. specialize (K _ I). cbn [fst snd] in K. rewrite Forall_forall in K. now apply K.
    + unfold aims. rewrite M3. apply keyed_remove, keyed_pushes; [|exact (sd_aims _ S)].
      eapply Forall_impl; [|exact NEW]. cbv beta. intros x ((X1 & X2) & _). split; [right; intros X; contradiction|exact X1].
Qed.

(** The entries of a log. *)
Definition fine (p : parser) (x : reg_items * parser) : Prop :=
  items_aim (fst x) /\ NoDup (map fst (fst x)) /\ standing (snd x) /\ ps_base_block (snd x) = ps_base_block p.
Lemma analyze_ends p fi seq items : standing p -> good (ps_buffer p) -> one_root (fi_buffer fi) -> NoDup (map fst items) -> items_aim items ->
  ends (fun n => analyze_entry order n fi seq p items) (fun x => fine p x /\ ps_file (snd x) = ps_file p).
Proof.
  intros S G OR ND IA. destruct (latest_ends p fi seq items S G OR ND IA) as (r & N & (b & SE) & H).
  exists (match r with Ok (latest, p, logs) => Ok (latest, ps_set_state (set_info (st_info (ps_state p) ++ logs) (ps_state p)) p)
    | Err => Ok (items, ps_log WarningTransactionLog p) | Panic => Panic | OutOfFuel => OutOfFuel end).
  split; [destruct r as [[[? ?] ?]| | |]; try discriminate; now elim N|]. split.
  - exists b. intros n L. unfold analyze_entry. rewrite (sd_recover _ S), (SE n L). reflexivity.
  - intros x E. destruct r as [[[latest p'] logs]| | |]; try discriminate.
    + injection E as <-. destruct (H _ eq_refl) as (H1 & H2 & H3 & H4 & H5). cbn [fst snd]. split; [|exact H4]. split; [exact H1|]. split; [exact H2|]. split; [|exact H5].
      apply (standing_same p'); [reflexivity|reflexivity|eexists; reflexivity|exact H3].
    + injection E as <-. split; [|reflexivity]. split; [exact IA|]. split; [exact ND|]. split; [now apply standing_log|reflexivity].
Qed.
Lemma pages_fuel hb pages : forall b, apply_pages hb pages b <> OutOfFuel.
Proof.
  induction pages as [|pg pages J]; intros b; cbn [apply_pages]; [discriminate|].
  destruct (overwrite _ _ _); [cbn [ok_or]; apply J|discriminate].
Qed.
Lemma good_one b : good b -> one_root b. Proof. now intros (_ & G & _). Qed.
Lemma entries_end sec hb : 0 < sec -> forall es n p items, Forall entry_ok es -> (n = 0 \/ sec <= n /\ u32 n) ->
  standing p -> items_aim items -> NoDup (map fst items) ->
  (forall l rest b, fresh sec es = l ++ rest -> Forall size_ok l -> chain n l -> overlaid 4096 hb l (ps_buffer p) b -> good b) ->
  ends (fun f => update_entries order f sec hb es n p items) (fun x => let '(_, items', p') := x in fine p (items', p')).
Proof.
  intros Hsec. unfold u32. change (2 ^ 32) with 4294967296.
  induction es as [|e es IH]; intros n p items U Hn S IA ND W; cbn [update_entries].
  { apply ends_const; [discriminate|]. intros x [= <-]. split; [exact IA|]. split; [exact ND|]. split; [exact S|reflexivity]. }
  assert (STOP : ends (fun _ => Ok (n, items, ps_log WarningTransactionLog p)) (fun x => let '(_, items', p') := x in fine p (items', p'))).
  { apply ends_const; [discriminate|]. intros x [= <-]. split; [exact IA|]. split; [exact ND|]. split; [now apply standing_log|reflexivity]. }
  apply Forall_cons_iff in U as [U0 U]. rewrite fresh_cons in W.
  destruct (le_valid_hashes e) eqn:V; [|exact STOP].
  destruct (N.ltb_spec (le_seq e) sec) as [LT|GE].
  { destruct (N.leb_spec sec (le_seq e)); [lia|]. exact (IH n (ps_log WarningTransactionLog p) items U Hn (standing_log _ _ S) IA ND W). }
  destruct (N.leb_spec sec (le_seq e)); [|lia].
  destruct (N.eqb_spec (le_hbins_size e mod 4096) 0) as [Z|Z]; cbn [negb]; [|exact STOP].
  destruct (negb (n =? 0) && negb (le_seq e =? w32 (n + 1))) eqn:Q; [exact STOP|].
  destruct U0 as (U1 & U2 & U3). unfold u32 in U1. change (2 ^ 32) with 4294967296 in U1.
  assert (C : n = 0 \/ le_seq e = n + 1).
  { destruct (N.eqb_spec n 0); [now left|]. cbn [negb andb] in Q. right.
    destruct (N.eqb_spec (le_seq e) (w32 (n + 1))) as [A|]; [|discriminate].
    destruct Hn as [|[Hn1 Hn2]]; [lia|]. unfold w32 in *.
    destruct (N.eq_dec (n + 1) 4294967296) as [W0|W0].
    - rewrite W0 in A. change (4294967296 mod 4294967296) with 0 in A. lia.
    - rewrite N.mod_small in A by lia. exact A. }
  clear Q. cbv zeta. rewrite (grown_file_is hash), (sd_hbin _ S). pose proof (pages_fuel 4096 (le_pages e) (grown_file hb e (ps_buffer p))) as PF.
  destruct (apply_pages 4096 (le_pages e) (grown_file hb e (ps_buffer p))) as [b| | |] eqn:A; try (apply ends_const; discriminate); [|now elim PF].
  cbv beta iota. assert (OV : overlaid 4096 hb [e] (ps_buffer p) b) by (apply (pages_overlaid hash); exact A).
  assert (FT : fits 4096 hb (len (ps_buffer p)) [e]).
  { apply apply_pages_ok in A as (_ & A & _). cbn [fits]. split; [|exact I]. unfold grown_file in A. rewrite len_app, len_repeat, N2Nat.id in A. exact A. }
  assert (BB : bytes_ok b).
  { apply (pages_bytes 4096 (le_pages e) U3 _ _) in A; [exact A|]. unfold grown_file. apply Forall_app. split; [exact (sd_bytes _ S)|]. apply Forall_forall. intros x X. apply repeat_spec in X as ->. reflexivity. }
  assert (SB : standing (ps_set_buffer b p)).
  { constructor; [exact (sd_hbin _ S)|exact (sd_recover _ S)|exact BB|exact (sd_reached _ S)|exact (sd_roots _ S)|exact (sd_aims _ S)]. }
  assert (GB : good b) by (apply (W [e] (fresh sec es)); [reflexivity|constructor; [exact Z|constructor]|split; [exact C|exact I]|exact OV]).
  assert (G0 : good (ps_buffer p)) by (apply (W [] (e :: fresh sec es)); [reflexivity|constructor|exact I|apply overlaid_nil]).
  apply (ends_bind (fun f => analyze_entry order f (mkFI 4096 (grown_file hb e (ps_buffer p))) (le_seq e) (ps_set_buffer b p) items)
    (fun x f => let '(items, p) := x in update_entries order f sec hb es (le_seq e) p items) (fun x => fine (ps_set_buffer b p) x /\ ps_file (snd x) = ps_file (ps_set_buffer b p))).
  { apply analyze_ends; [exact SB|exact GB| |exact ND|exact IA]. cbn [fi_buffer]. unfold grown_file. apply one_root_grown, good_one, G0. }
  intros [it q] _ ((H1 & H2 & H3 & H4) & H5). cbn [fst snd] in *.
  assert (QB : ps_buffer q = b) by (unfold ps_buffer; rewrite H5; reflexivity).
  eapply ends_more; [|apply IH; [exact U|right; split; [lia|exact U1]|exact H3|exact H1|exact H2|]].
  - intros [[k i'] p'] _ (X1 & X2 & X3 & X4). split; [exact X1|]. split; [exact X2|]. split; [exact X3|]. cbn [snd] in *. now rewrite X4, H4.
  - intros l rest b2 F SO CH O2. rewrite QB in O2. apply (W (e :: l) rest); [cbn [app]; now rewrite F|constructor; [exact Z|exact SO]|split; [exact C|exact CH]|].
    change (e :: l) with ([e] ++ l). exact (overlaid_app _ _ _ _ _ _ _ FT OV O2).
Qed.
Lemma logs_end sec hb bb : bb_secondary_seq (bb_base bb) = sec -> bb_hive_bins_data_size (bb_base bb) = hb -> 0 < sec ->
  forall logs n p items, Forall (fun l => Forall entry_ok (tl_entries l)) logs -> ps_base_block p = Some bb ->
  standing p -> items_aim items -> NoDup (map fst items) ->
  (forall es m l rest b, log_chain sec n logs es m -> es = l ++ rest -> overlaid 4096 hb l (ps_buffer p) b -> good b) ->
  ends (fun f => apply_logs order f sec logs n p items) (fun x => standing (snd x) /\ ps_base_block (snd x) = Some bb /\ good (ps_buffer (snd x))).
Proof.
  intros SS HB Z. induction logs as [|l logs IH]; intros n p items U B S IA ND W; cbn [apply_logs].
  { apply ends_const; [discriminate|]. intros x [= <-]. split; [exact S|]. split; [exact B|]. exact (W [] n [] [] _ (chain_end _ _) eq_refl (overlaid_nil _ _ _)). }
  apply Forall_cons_iff in U as [U0 U]. cbv beta in U0.
  assert (SKIP : ~ eligible sec n l -> ends (fun f => apply_logs order f sec logs n (ps_log WarningTransactionLog p) items) (fun x => standing (snd x) /\ ps_base_block (snd x) = Some bb /\ good (ps_buffer (snd x)))).
  { intros NE. apply IH; [exact U|exact B|now apply standing_log|exact IA|exact ND|]. intros es m l0 rest b C. apply (W es m l0 rest b). now constructor. }
  destruct (N.leb_spec sec (log_primary l)) as [P|P].
  2:{ apply SKIP. intros [? _]. lia. }
  destruct ((n =? 0) || (log_primary l =? w32 (n + 1))) eqn:Q.
  2:{ apply SKIP. intros [_ [->|X]]; [discriminate|].
      unfold w32 in Q. change 4294967296 with (2 ^ 32) in Q. rewrite X, N.eqb_refl, orb_comm in Q. discriminate. }
  assert (EL : eligible sec n l).
  { split; [exact P|]. apply orb_prop in Q as [Q|Q]; apply N.eqb_eq in Q; [now left|now right]. }
  assert (U1 : Forall (fun e => u32 (le_seq e)) (tl_entries l)) by (eapply Forall_impl; [|exact U0]; now intros e (? & _)).
  apply (ends_bind (fun f => update_parser order f l p items)
    (fun x f => let '(n, items, p) := x in apply_logs order f sec logs n p items) (fun x => let '(_, items', p') := x in fine p (items', p'))).
  { eapply ends_ext; [intros f; unfold update_parser, base_block_info; rewrite B; cbv [or_panic]; cbv beta iota; rewrite SS, HB; reflexivity|].
    apply entries_end; [exact Z|exact U0|now left|exact S|exact IA|exact ND|].
    intros l0 rest b F SO CH OV. destruct (run_exists rest (last_from 0 l0)) as (l1 & rest1 & R1 & R2 & R3 & R4).
    assert (AP : applied sec (tl_entries l) (l0 ++ l1)).
    { apply (run_applied sec (tl_entries l) (l0 ++ l1) rest1 Z).
      - now rewrite F, R1, app_assoc.
      - apply Forall_app. now split.
      - clear - CH R3. revert CH R3. generalize 0. induction l0 as [|e l0 IL]; intros n CH R3; [exact R3|]. destruct CH as [C1 C2]. split; [exact C1|]. now apply IL.
      - destruct rest1 as [|g rest1]; [exact I|]. cbn [stops] in *. destruct R4 as [R4|R4]; [now left|right]. intros X. apply R4. rewrite <- app_assoc in X. clear - X.
        revert X. generalize 0. induction l0 as [|e l0 IL]; intros n X; [exact X|]. destruct X as [_ X]. now apply IL in X. }
    destruct (chain_total sec (last_seq (l0 ++ l1)) logs Z) as (es & m & C).
    apply (W ((l0 ++ l1) ++ es) m l0 (l1 ++ es) b); [econstructor; eassumption|now rewrite app_assoc|exact OV]. }
  intros [[k it] q] (bd & SE) (H1 & H2 & H3 & H4). cbn [fst snd] in *.
  specialize (SE (Datatypes.S bd) ltac:(lia)).
  eapply update_parser_spec in SE as (a & A & [[X _]|(it' & q' & X & F & O & K1 & K2 & K3)]); try eassumption; try discriminate.
  injection X as -> <- <-. rewrite (sd_hbin _ S) in *.
  apply IH; [exact U|now rewrite K2|exact H3|exact H1|exact H2|]. intros es m l0 rest b C E OV.
  apply (W (a ++ es) m (a ++ l0) rest b); [econstructor; eassumption|now rewrite E, app_assoc|exact (overlaid_app _ _ _ _ _ _ _ F O OV)].
Qed.

(** The scan of the free space notes no other path for the place of the root. *)
Lemma scan_aims fi st n st' : (forall m, name_at fi 4128 m -> m = name) -> st_deleted_keys st = [] ->
  find_free_keys_and_values fi st n = Ok st' -> aims rp st'.
Proof.
  intros NM D0. unfold find_free_keys_and_values. assert (A : agree false st st) by apply agree_refl.
  destruct (recover_loop_ok fi st (S (length (fi_buffer fi))) st (fi_hbin fi) n A) as [E|(s & l & ks & vs & E & (w & G) & _ & FK & _)].
  { unfold len. lia. } { rewrite E. discriminate. }
  rewrite E. intros [= <-]. subst s. unfold aims. cbn [st_deleted_keys]. rewrite D0. apply keyed_push_all; [|constructor]. eapply Forall_impl; [|exact FK].
  assert (Y : forall hi cs k, key_found fi st hi cs k -> plain_aim rp k).
  { intros hi cs k (K1 & K2 & OK & k0 & s & R & (C1 & _ & _ & C4 & _) & _ & D). split; [|exact D]. right. intros O. rewrite O in *.
    apply slice_facts in R as (_ & _ & _ & _ & _ & nm & w' & R1 & R2); [|reflexivity]. cbn [op_path app] in R2. rewrite C4, R2. f_equal. apply NM. exists w'.
    assert (L : exists z, rest_at (fi_buffer fi) 4128 = bytes_at (fi_buffer fi) 4128 (hi - 4128) ++ z).
    { exists (skipn (N.to_nat (hi - 4128)) (rest_at (fi_buffer fi) 4128)). symmetry. apply firstn_skipn. }
    destruct L as (z & L). destruct (nk_longer _ z OK) as (_ & NL). rewrite <- L in NL. rewrite R1 in NL. unfold kn_name_at in NL.
    rewrite !num_at_rest, bytes_at_rest in NL. rewrite compressed_flag in NL. now rewrite <- NL. }
  intros k [(_ & K)|(h & c & _ & _ & _ & _ & K)]; eapply Y; exact K.
Qed.
(** The replay and the new header, which is outside the bins. *)
Lemma over_rest b o x b' : overwrite b o x = Some b' -> o + len x <= 4096 -> len b' = len b /\ rest_at b' 4096 = rest_at b 4096.
Proof.
  intros E L. apply overwrite_some in E as (_ & LB & _ & H). split; [exact LB|]. assert (LL : length b' = length b) by (unfold len in LB; lia).
  apply nth_ext with (d := 0) (d' := 0); unfold rest_at; [rewrite !skipn_length; lia|]. intros i _. rewrite !nth_skipn. specialize (H (4096 + N.of_nat i)).
  rewrite N2Nat.inj_add, Nat2N.id in H. rewrite H. destruct (N.ltb_spec (4096 + N.of_nat i) (o + len x)); [lia|]. now rewrite andb_false_r.
Qed.
Lemma header_rest_kept n p p' : update_header n p = Ok p' -> len (ps_buffer p') = len (ps_buffer p) /\ rest_at (ps_buffer p') 4096 = rest_at (ps_buffer p) 4096.
Proof.
  unfold update_header. destruct (overwrite _ 4 _) as [b1|] eqn:E1; [|discriminate]. cbn [or_panic]. destruct (overwrite b1 _ _) as [b2|] eqn:E2; [|discriminate]. cbn [or_panic].
  destruct (get_range _ _ _); [|discriminate]. cbn [or_panic]. destruct (calculate_checksum _) as [c| | |]; try discriminate. cbv beta iota.
  destruct (overwrite b2 _ _) as [b3|] eqn:E3; [|discriminate]. cbn [or_panic]. destruct (init_base_block _) as [[[s b] p4]| | |] eqn:B; try discriminate. intros [= <-].
  apply init_base_ok in B as (_ & B & _). change (ps_buffer (ps_log LogInfo p4)) with (ps_buffer p4). rewrite B. change (ps_buffer (ps_set_buffer b3 p)) with b3.
  apply over_rest in E1 as (L1 & R1); [|rewrite len_enc; lia]. apply over_rest in E2 as (L2 & R2); [|rewrite len_enc; lia]. apply over_rest in E3 as (L3 & R3); [|rewrite len_enc; unfold CHECKSUM_OFFSET; lia].
  split; [lia|congruence].
Qed.
Lemma cycle_rest b b' : len b' = len b -> rest_at b' 4096 = rest_at b 4096 -> no_list_cycle (mkFI 4096 b) -> no_list_cycle (mkFI 4096 b').
Proof.
  intros L R NC. assert (NB : forall o n, bytes_at b' (4096 + o) n = bytes_at b (4096 + o) n) by (intros o n; now rewrite <- !bytes_at_rest, R).
  assert (E : forall x y, index_entry (mkFI 4096 b') x y -> index_entry (mkFI 4096 b) x y).
  { intros x y. unfold index_entry, num_at. cbn [fi_buffer fi_hbin]. rewrite L. replace (4096 + x + 6) with (4096 + (x + 6)) by lia. replace (4096 + x + 4) with (4096 + (x + 4)) by lia.
    rewrite !NB. intros (H1 & H2 & i & H3 & H4). split; [exact H1|]. split; [exact H2|]. exists i. split; [exact H3|].
    replace (4096 + x + 8 + 4 * i) with (4096 + (x + 8 + 4 * i)) in * by lia. now rewrite NB in H4. }
  assert (P : forall x y, index_path (mkFI 4096 b') x y -> index_path (mkFI 4096 b) x y).
  { intros x y P. induction P as [x y I|x y z I _ IH]; [apply path_one; now apply E|exact (path_more _ _ _ _ (E _ _ I) IH)]. }
  intros c Q. exact (NC c (P c c Q)).
Qed.
Lemma finish_ends logs p b nm : standing p -> ps_file p = mkFI 4096 b -> ps_base_block p = Some (base_block_at b nm) -> 0 < num_at b 8 4 ->
  Forall (fun l => Forall entry_ok (tl_entries l)) logs ->
  (forall es m l rest b', log_chain (num_at b 8 4) 0 logs es m -> es = l ++ rest -> overlaid 4096 (num_at b 40 4) l b b' -> good b') ->
  ends (fun f => let* (items, p) := get_reg_items f p 0 in
   let* (sec, _) := base_block_info p in
   let* (n, p) := apply_logs order f sec logs 0 p items in
   update_header n p) (fun q => standing q /\ no_list_cycle (ps_file q)).
Proof.
  intros S F BB Z LO W. assert (PB : ps_buffer p = b) by (unfold ps_buffer; now rewrite F).
  assert (G : good (ps_buffer p)).
  { destruct (chain_total (num_at b 8 4) 0 logs Z) as (es & m & C). rewrite PB. apply (W es m [] es b C eq_refl). apply overlaid_nil. }
  apply (ends_bind (fun f => get_reg_items f p 0) (fun x f => let '(items, p) := x in let* (sec, _) := base_block_info p in let* (n, p) := apply_logs order f sec logs 0 p items in update_header n p) _ _ (reg_items_end p 0 S G)).
  intros [items q] _ (H1 & H2 & H3 & H4 & H5). cbn [fst snd] in *. rewrite BB in H5. unfold base_block_info. rewrite H5. cbn [or_panic]. cbv beta iota.
  change (bb_secondary_seq (bb_base (base_block_at b nm))) with (num_at b 8 4).
  apply (ends_bind (fun f => apply_logs order f (num_at b 8 4) logs 0 q items) (fun x f => let '(n, p) := x in update_header n p)
    (fun x => standing (snd x) /\ ps_base_block (snd x) = Some (base_block_at b nm) /\ good (ps_buffer (snd x)))).
  - apply (logs_end (num_at b 8 4) (num_at b 40 4) (base_block_at b nm)); try assumption; try reflexivity.
    assert (QB : ps_buffer q = b) by (unfold ps_buffer; now rewrite H4, F). rewrite QB. exact W.
  - intros [n q2] _ (S2 & B2 & G2). cbn [fst snd] in *. apply ends_const; [apply header_fuel|]. intros q3 E. pose proof (header_rest_kept _ _ _ E) as (KL & KR).
    destruct (header_info _ _ _ E) as (i & I). pose proof (header_bytes _ _ _ (sd_bytes _ S2) E) as BY.
    assert (HR : ps_hbin q3 = 4096 /\ ps_recover q3 = ps_recover q2).
    { unfold update_header in E. destruct (overwrite _ _ _); [|discriminate]. cbn [or_panic] in E. destruct (overwrite _ _ _); [|discriminate]. cbn [or_panic] in E.
      destruct (get_range _ _ _); [|discriminate]. cbn [or_panic] in E. destruct (calculate_checksum _); try discriminate.
      cbv beta iota in E. destruct (overwrite _ _ _); [|discriminate]. cbn [or_panic] in E.
      destruct (init_base_block _) as [[[s c] p4]| | |] eqn:B in E; try discriminate. apply init_base_ok in B as (B1 & _ & B3 & _). injection E as <-.
      cbn [ps_log ps_set_state ps_recover]. split; [exact (proj1 B1)|exact B3]. }
    destruct HR as (H6 & H7). split; [|assert (FQ : ps_file q3 = mkFI 4096 (ps_buffer q3)) by (unfold ps_hbin in H6; unfold ps_buffer; destruct (ps_file q3); cbn in *; now subst); rewrite FQ; exact (cycle_rest _ _ KL KR (proj1 G2))]. constructor.
    + exact H6.
    + rewrite H7. apply S2.
    + exact BY.
    + destruct (sd_reached _ S2) as (bd & RE). exists bd. intros f LF. rewrite I. apply reached_info. now apply RE.
    + rewrite I. exact (sd_roots _ S2).
    + rewrite I. exact (sd_aims _ S2).
Qed.
End Replay.

(** ** Opening *)
Lemma header_rest f b b0 : header_of f b b0 -> rest_at b0 4128 = rest_at b 4128.
Proof.
  intros (L & _ & H). assert (LL : length b0 = length b) by (unfold len in L; lia). apply nth_ext with (d := 0) (d' := 0); unfold rest_at.
  - rewrite !skipn_length. lia.
  - intros i _. rewrite !nth_skipn. specialize (H (4128 + N.of_nat i) ltac:(lia)). rewrite N2Nat.inj_add, Nat2N.id in H. exact H.
Qed.
Lemma rest_names b b' n : rest_at b 4128 = rest_at b' 4128 -> name_at (mkFI 4096 b) 4128 n -> name_at (mkFI 4096 b') 4128 n.
Proof. unfold name_at. cbn [fi_buffer]. intros R. now rewrite <- !num_at_rest, <- !bytes_at_rest, R. Qed.
Lemma header_bytes_ok f b b0 : header_of f b b0 -> bytes_ok f -> bytes_ok b -> bytes_ok b0.
Proof.
  intros (L & H & R) F B. assert (N : forall x i, bytes_ok x -> nth i x 0 < 256).
  { intros x i X. destruct (nth_in_or_default i x 0) as [J| ->]; [|reflexivity]. unfold bytes_ok in X. rewrite Forall_forall in X. now apply X. }
  apply Forall_forall. intros x X. apply In_nth with (d := 0) in X as (i & I & <-).
  destruct (le_lt_dec 512 i) as [G|G].
  - specialize (R (N.of_nat i) ltac:(lia)). rewrite Nat2N.id in R. rewrite R. now apply N.
  - assert (E : nth i b0 0 = nth i (bytes_at b0 0 512) 0) by (unfold bytes_at; rewrite nth_firstn by lia; reflexivity).
    rewrite E, H. apply N. now apply bytes_ok_at.
Qed.
Lemma replay_ends order full hash buffer files : (forall m, Permutation (order m) m) -> bytes_ok buffer -> Forall bytes_ok files ->
  numbered buffer files -> steady buffer files ->
  ends (fun n => build order n hash true full buffer files) (fun q => no_deleted_root (ps_state q) /\ (known_file_type buffer -> no_list_cycle (ps_file q))).
Proof.
  intros PO B BF NU (name & ST). pose proof (parse_fuel files) as PF.
  destruct (TxLog.parse_logs files) as [[logs w]| | |] eqn:PL.
  2-3: eapply ends_ext; [intros n; unfold build; rewrite PL; reflexivity|apply ends_const; discriminate].
  2: now elim PF.
  eapply ends_ext; [intros n; exact (build_split _ _ _ _ _ _ _ _ _ PL)|].
  apply (ends_bind (fun n => ps_init order n true logs (start hash true full buffer))
    (fun p _ => Ok (ps_set_state (set_info (st_info (ps_state p) ++ w) (ps_state p)) p)) (fun q => no_deleted_root (ps_state q) /\ (known_file_type buffer -> no_list_cycle (ps_file q)))).
  2:{ intros q _ H. apply ends_const; [discriminate|]. intros x [= <-]. exact H. }
  unfold ps_init. set (p0 := start hash true full buffer).
  assert (G : forall b0 logs0, starts buffer files b0 logs0 -> forall es m l rest b', log_chain (num_at b0 8 4) 0 logs0 es m -> es = l ++ rest -> overlaid 4096 (num_at b0 40 4) l b0 b' -> good name b').
  { intros b0 logs0 S es m l rest b' C E O. apply ST. now exists b0, logs0, es, m, l, rest. }
  destruct (N.leb_spec 4096 (len buffer)) as [L|L]; [|rewrite init_fails; [apply ends_const; discriminate|change (ps_buffer p0) with buffer; lia]].
  destruct (list_eq_dec N.eq_dec (bytes_at buffer 0 4) REGF) as [T|T]; [|rewrite init_fails; [apply ends_const; discriminate|now intros [_ ?]]].
  destruct (init_base_block_spec p0 L T) as (nm & bad & p1 & E1 & E2 & F1 & B1 & R1 & _ & _ & _ & CB).
  pose proof (base_info _ _ _ _ E2) as (i1 & S1). 
  assert (RP : forall n, reached order n full hash (ps_state p1)) by (intros n; exact (base_block_reached order n full hash p0 _ _ _ (reached_new _ _ _ _) E2)).
  rewrite E2. change (ps_buffer p0) with buffer in *. destruct (is_supported (base_block_at buffer nm)) eqn:SU.
  2:{ apply ends_const; [discriminate|]. intros x [= <-]. split; [rewrite S1; intros path ks k [] _|]. intros K. apply (supported_at _ nm) in K. congruence. }
  apply supported_at in SU. specialize (CB SU). cbv beta iota. rewrite B1. cbn [or_panic]. cbv beta iota.
  change (bb_hive_bins_data_size (bb_base (base_block_at buffer nm))) with (num_at buffer 40 4).
  destruct (find_free_keys_and_values (ps_file p1) (ps_state p1) (num_at buffer 40 4)) as [st| | |] eqn:F; try (apply ends_const; discriminate); [|now elim (free_fuel _ _ _ F)]. cbv beta iota.
  set (p2 := ps_set_state st p1).
  assert (RS : forall n, reached order n full hash st) by (intros n; exact (reached_scan _ _ _ _ _ _ _ _ (RP n) F)).
  assert (ND : no_deleted_root st).
  { assert (Y : keyed (fun _ k => is_deleted_primary_file (kn_state k) = true) (st_deleted_keys (ps_state p1))) by (rewrite S1; constructor).
    apply scan_primary in F; [|exact Y]. intros path ks k I1 J. left. apply primary_free. unfold keyed in F. rewrite Forall_forall in F. specialize (F _ I1). cbn [fst snd] in F.
    rewrite Forall_forall in F. now apply F. }
  assert (LAST : forall q, standing order full hash name q /\ no_list_cycle (ps_file q) -> ends (fun _ => init_root q) (fun q => no_deleted_root (ps_state q) /\ (known_file_type buffer -> no_list_cycle (ps_file q)))).
  { intros q (S & C). apply ends_const; [exact (root_settles _ _ _ _ _ S)|]. intros x X. pose proof (init_root_same _ _ X) as (X1 & _). apply init_root_state in X. rewrite X, X1. split; [exact (sd_roots _ _ _ _ _ S)|auto]. }
  assert (STAND : forall q, ps_hbin q = 4096 -> ps_recover q = true -> bytes_ok (ps_buffer q) -> (exists i, ps_state q = set_info i st) ->
    (forall n, name_at (mkFI 4096 buffer) 4128 n -> n = name) -> standing order full hash name q).
  { intros q Q1 Q2 Q3 (i & Q4) NM. constructor; [exact Q1|exact Q2|exact Q3| | |].
    - exists 0%nat. intros n _. rewrite Q4. apply reached_info, RS.
    - rewrite Q4. exact ND.
    - rewrite Q4. change (aims (92 :: name) st). apply (scan_aims hash name (ps_file p1) (ps_state p1) (num_at buffer 40 4)); [|now rewrite S1|exact F]. rewrite F1. exact NM. }
  assert (P2F : ps_file p2 = mkFI 4096 buffer) by exact F1.
  assert (P2B : ps_base_block p2 = Some (base_block_at buffer nm)) by exact B1.
  destruct (parse_logs_ok files _ w BF PL) as [PF1 PE].
  unfold apply_transaction_logs. destruct logs as [|l logs].
  { apply ends_const; [|].
    - assert (Q : calm st) by (split; [exact (reached_orderly _ _ _ _ _ (RS 0%nat) ND)|apply (reached_inv _ _ _ _ _ (RS 0%nat))]).
      assert (Z : st_root_offset st = 0) by apply (reached_inv _ _ _ _ _ (RS 0%nat)).
      unfold init_root. destruct (get_from _ _) as [i|]; [|discriminate]. cbn [ok_or].
      destruct (hbin_cases (ps_hbin p2) i) as [(_ & _ & ->)|(_ & ->)]; [|discriminate]. cbv beta iota zeta.
      set (h := hbin_at _ _). change (ps_file (ps_set_hbin h p2)) with (ps_file p2). change (ps_state (ps_set_hbin h p2)) with st.
      set (o := mkOpt _ _ _ _ _ _). assert (BP : bytes_ok (fi_buffer (ps_file p2))) by (rewrite P2F; exact B).
      destruct (read_all (ps_file p2) st o [92] BP eq_refl text_nil (or_introl eq_refl) (or_introl Z) Q) as [E|(c & st' & E & _)]; rewrite E; discriminate.
    - intros x X. pose proof (init_root_same _ _ X) as (X1 & _). apply init_root_state in X. rewrite X, X1. split; [exact ND|]. intros _. rewrite P2F.
      apply (G buffer [] ltac:(exists [], w; split; [exact PL|left; split; [now right|now split]]) [] 0 [] [] buffer (chain_end _ _) eq_refl (overlaid_nil _ _ _)). }
  assert (MID : forall q b0 nm0 logs0, starts buffer files b0 logs0 -> rest_at b0 4128 = rest_at buffer 4128 -> bytes_ok b0 -> Forall (fun l => Forall entry_ok (tl_entries l)) logs0 ->
    ps_file q = mkFI 4096 b0 -> ps_base_block q = Some (base_block_at b0 nm0) -> ps_recover q = true -> (exists i, ps_state q = set_info i st) ->
    ends (fun f => let* (go, p, logs) := (let* b := or_panic (ps_base_block q) in if bb_primary_seq (bb_base b) =? bb_secondary_seq (bb_base b) then Ok (false, ps_log WarningTransactionLog q, logs0) else Ok (true, q, logs0)) in
      if go : bool then let* (items, p) := get_reg_items f p 0 in let* (sec, _) := base_block_info p in let* (n, p) := apply_logs order f sec logs 0 p items in update_header n p else Ok p)
      (fun q => standing order full hash name q /\ no_list_cycle (ps_file q))).
  { intros q b0 nm0 logs0 S0 RE BO PE0 QF QB QR QS. rewrite QB. cbn [or_panic]. cbv beta iota.
    assert (Z : 0 < num_at b0 8 4) by exact (NU _ _ S0).
    assert (G0 : good name b0).
    { destruct (chain_total (num_at b0 8 4) 0 logs0 Z) as (es & m & C). exact (G _ _ S0 es m [] es b0 C eq_refl (overlaid_nil _ _ _)). }
    assert (NM : forall n, name_at (mkFI 4096 buffer) 4128 n -> n = name).
    { destruct G0 as (_ & _ & NM). intros n X. apply NM. now apply (rest_names buffer). }
    assert (SQ : standing order full hash name q).
    { apply STAND; [unfold ps_hbin; now rewrite QF|exact QR|unfold ps_buffer; now rewrite QF|exact QS|exact NM]. }
    destruct (bb_primary_seq (bb_base (base_block_at b0 nm0)) =? bb_secondary_seq (bb_base (base_block_at b0 nm0))).
    - apply ends_const; [discriminate|]. intros x [= <-]. split; [now apply standing_log|]. change (ps_file (ps_log WarningTransactionLog q)) with (ps_file q). rewrite QF. exact (proj1 G0).
    - exact (finish_ends order full hash name PO logs0 q b0 nm0 SQ QF QB Z PE0 (G _ _ S0)). }
  apply (ends_bind (fun f => let* (go, p, logs) := prepare_logs bad p2 (l :: logs) in
      if go : bool then let* (items, p) := get_reg_items f p 0 in let* (sec, _) := base_block_info p in let* (n, p) := apply_logs order f sec logs 0 p items in update_header n p else Ok p)
    (fun p _ => init_root p) (fun q => standing order full hash name q /\ no_list_cycle (ps_file q))).
  2:{ intros q _ S. now apply LAST. }
  destruct bad.
  - unfold prepare_logs, handle_bad_checksum. cbv beta iota.
    set (p2' := ps_log WarningBaseBlock p2).
    destruct (List.last (map Some (l :: logs)) None) as [newest|] eqn:LA; [|cbn [or_panic]; cbv beta iota; apply ends_const; discriminate].
    pose proof (last_in _ _ LA) as IN.
    rewrite Forall_forall in PF1. destruct (PF1 _ IN) as (f & IF & FL).
    rewrite Forall_forall in BF. destruct (log_bytes_ok f newest (BF f IF) FL) as (_ & HB & HL & HE & HP & HR).
    cbn [or_panic]. cbv beta iota.
    assert (PB2 : ps_buffer p2' = buffer) by (unfold ps_buffer; change (ps_file p2') with (ps_file p2); now rewrite P2F).
    rewrite PB2. unfold BASE_BLOCK_LEN. rewrite get_range_at by lia. cbn [ok_or]. cbv beta iota.
    destruct (overwrite_fit buffer 0 (tl_base_bytes newest)) as [b0 E0]; [lia|]. rewrite E0. cbv beta iota.
    pose proof (overwrite_some _ _ _ _ E0) as (_ & L0 & _ & H0). rewrite HL in H0.
    assert (HO : header_of f buffer b0).
    { split; [exact L0|]. split.
      - rewrite <- HE. apply nth_ext with (d := 0) (d' := 0).
        + pose proof (len_bytes_at b0 0 512). unfold len in *. lia.
        + intros i I. assert (i < 512)%nat by (pose proof (len_bytes_at b0 0 512); unfold len in *; lia).
          unfold bytes_at. rewrite nth_firstn by lia. cbn [N.to_nat skipn].
          replace i with (N.to_nat (N.of_nat i)) at 1 by lia. rewrite H0.
          destruct (N.leb_spec 0 (N.of_nat i)); [|lia].
          destruct (N.ltb_spec (N.of_nat i) (0 + 512)); [|lia]. cbn [andb]. f_equal. lia.
      - intros i I. rewrite H0. destruct (N.ltb_spec i (0 + 512)); [lia|]. now rewrite andb_false_r. }
    assert (T0 : bytes_at b0 0 4 = REGF).
    { rewrite <- HR. destruct HO as (_ & HO & _).
      assert (forall x, firstn 4 (bytes_at x 0 512) = bytes_at x 0 4) as X.
      { intros x. unfold bytes_at. rewrite firstn_firstn. f_equal. }
      now rewrite <- (X b0), <- (X f), HO. }
    destruct (init_base_block_spec (ps_set_buffer b0 p2')) as (nm0 & bad0 & p5 & _ & E6 & F6 & B6 & R6 & _).
    { change (ps_buffer (ps_set_buffer b0 p2')) with b0. lia. }
    { exact T0. }
    pose proof (base_info _ _ _ _ E6) as (i6 & S6).
    change (ps_buffer (ps_set_buffer b0 p2')) with b0 in *.
    cbn [or_panic]. cbv beta iota. rewrite E6. cbv beta iota.
    apply (MID p5 b0 nm0).
    + exists (l :: logs), w. split; [exact PL|]. right. split; [intros C; now apply CB in C|]. now exists f, newest.
    + exact (header_rest _ _ _ HO).
    + exact (header_bytes_ok _ _ _ HO (BF f IF) B).
    + destruct (_ <? _); [|exact PE]. inversion PE; assumption.
    + exact F6.
    + exact B6.
    + rewrite R6. exact R1.
    + rewrite S6. eexists. reflexivity.
  - unfold prepare_logs. cbv beta iota. apply (MID p2 buffer nm); [|reflexivity|exact B|exact PE|exact P2F|exact P2B|exact R1|exists (st_info st); exact (eq_sym (set_info_id _))].
    exists (l :: logs), w. split; [exact PL|]. left. split; [left; now apply CB|now split].
Qed.

(** ** The run of the dump tool *)
Lemma opened_ends o c b logs : bytes_ok b -> Forall bytes_ok logs -> (forall m, Permutation (os_order o m) m) ->
  (ch_recover c = true -> no_replay b logs \/ numbered b logs /\ steady b logs) ->
  (forall q, (ch_recover c = true -> no_replay b logs) -> build (os_order o) 0 (os_hash o) (ch_recover c) (ch_full c) b logs = Ok q -> no_list_cycle (ps_file q)) ->
  ends (fun n => build (os_order o) n (os_hash o) (ch_recover c) (ch_full c) b logs)
    (fun q => known_file_type b -> no_list_cycle (ps_file q) /\ (ch_recover c = true -> no_deleted_root (ps_state q))).
Proof.
  intros B BL PERM RC NC. destruct (ch_recover c).
  - destruct (RC eq_refl) as [N|(N & S)].
    + exists (build (os_order o) 0 (os_hash o) true (ch_full c) b logs). split; [exact (proj2 (unreplayed_fuel _ 0 0 _ _ _ _ _ B N))|]. split.
      * exists 0%nat. intros n _. exact (proj1 (unreplayed_fuel _ n 0 _ _ _ _ _ B N)).
      * intros q E K. split; [exact (NC q (fun _ => N) E)|]. intros _. exact (unreplayed_no_root _ _ _ _ _ _ _ _ K N E).
    + eapply ends_more; [|exact (replay_ends _ _ _ _ _ PERM B BL N S)]. intros x _ (X & Y) K. split; [exact (Y K)|auto].
  - exists (build (os_order o) 0 (os_hash o) false (ch_full c) b logs). split; [exact (proj2 (build_fuel _ 0 0 _ _ _ _ B BL))|]. split.
    + exists 0%nat. intros n _. exact (proj1 (build_fuel _ n 0 _ _ _ _ B BL)).
    + intros q E _. split; [|discriminate]. apply (NC q); [discriminate|exact E].
Qed.
Lemma dump_ends_steady o c b logs : bytes_ok b -> Forall bytes_ok logs -> (forall m, Permutation (os_order o m) m) ->
  (ch_recover c = true -> no_replay b logs \/ numbered b logs /\ steady b logs) -> (ch_type c = CommonOut -> known_file_type b) ->
  (forall q, (ch_recover c = true -> no_replay b logs) -> build (os_order o) 0 (os_hash o) (ch_recover c) (ch_full c) b logs = Ok q -> no_list_cycle (ps_file q)) ->
  exists bound, forall n, (bound < n)%nat -> reg_dump o n c b logs <> Endless.
Proof.
  intros B BL PERM RC K NC. destruct (opened_ends o c b logs B BL PERM RC NC) as (r & NF & (b0 & OF) & ND).
  pose proof (OF (S b0) ltac:(lia)) as E0. destruct r as [q| | |].
  - assert (I : exists bound, forall n, (bound < n)%nat -> exists ks, iterate n q (chosen_filter c) false true false = Ok ks).
    { destruct (known_dec b) as [KT|KT].
      - pose proof (build_bytes _ _ _ _ _ _ _ _ B BL E0) as BP. destruct (ND q eq_refl KT) as (CY & NR). destruct (ch_recover c) eqn:R.
        + destruct (all_iterate _ _ _ _ _ _ _ _ KT E0 BP CY (NR eq_refl)) as (bound & H).
          exists bound. intros n L. destruct (H n (chosen_filter c) false true false L) as (ks & IK & _). eauto.
        + exists (2 * S (N.to_nat (len (ps_buffer q))))%nat. intros n L.
          pose proof (build_any _ _ _ _ _ _ _ KT E0 BP) as A. destruct (any_iterate q n (chosen_filter c) false true false A CY L) as (ks & IK & _). eauto.
      - exists 2%nat. intros n L. replace n with (3 + (n - 3))%nat by lia. apply odd_iterate. exact (odd_root _ _ _ _ _ _ _ _ KT E0). }
    destruct I as (bound & I). exists (Nat.max b0 bound). intros n L. unfold reg_dump. rewrite (OF n) by lia. cbv zeta. destruct (I n ltac:(lia)) as (ks & IK).
    unfold write_common, write_tsv, write_json, write_xlsx. rewrite IK. destruct (ch_type c) eqn:T; [discriminate| |discriminate|].
    + destruct (build_sk (os_order o) (S b0) (ch_full c) (os_hash o) PERM _ _ _ _ (K eq_refl) E0) as (M & r0 & R & S).
      pose proof (iterate_sk _ _ _ _ _ _ _ _ M R S IK) as F. destruct (common_ok (os_render o) ks F) as (t & ->). discriminate.
    + cbv beta iota. match goal with |- context [xlsx_export ?a ?b ?d ?e ?g ?h ?i] => pose proof (xlsx_export_ended a b d e g h i) as X; destruct (xlsx_export a b d e g h i) end; try discriminate. now elim X.
  - exists b0. intros n L. unfold reg_dump. rewrite (OF n L). discriminate.
  - exists b0. intros n L. unfold reg_dump. rewrite (OF n L). discriminate.
  - now elim NF.
Qed.
Lemma run_complete_steady o c f : (forall m, Permutation (os_order o m) m) -> harmless c f -> recovery_steady c f -> cycle_free o c f ->
  exists bound, forall n outs, (bound < n)%nat -> exists final, dump_folder o n c f outs = Finished final.
Proof.
  intros PERM HM RC NC. pose proof HM as [HB HL HT].
  assert (X : forall es, incl es f -> exists bound, forall n, (bound < n)%nat -> forall p b, In (p, b) es -> hive_file p b -> process_file o n c f p b <> Endless).
  { induction es as [|[p b] es IH]; intros IN; [exists 0%nat; intros ? ? ? ? []|].
    destruct IH as (b1 & H1); [intros e J; apply IN; now right|].
    assert (D : hive_file p b \/ ~ hive_file p b).
    { destruct (is_reg_file p && file_has_size b) eqn:Q; [left; now apply hive_iff|right; intros Y; apply hive_iff in Y; congruence]. }
    destruct D as [D|D].
    - pose proof (logs_used c f p b D) as U. assert (I : In (p, b) f) by (apply IN; now left).
      destruct (dump_ends_steady o c b _ (HB _ _ I) (logs_bytes_in _ _ _ _ HB U) PERM (fun R => RC R p b _ I D U) (fun T => HT T p b I D) (fun q R E => NC p b _ q I D U R E)) as (b2 & H2).
      exists (Nat.max b1 b2). intros n L p' b' [J|J] Y; [injection J as <- <-; apply H2; lia|apply H1; [lia|exact J|exact Y]].
    - exists b1. intros n L p' b' [J|J] Y; [injection J as <- <-; contradiction|now apply H1]. }
  destruct (X f (incl_refl f)) as (bound & H). exists bound. intros n outs L.
  destruct (files_run o n c f f outs) as [(fin & E & _)|[(o' & p & b & E & _)|(o' & p & b & E & I & R & P)]].
  - exists fin. exact E.
  - elim (run_not_stopped o n c f outs PERM HM o' E).
  - apply hive_iff in R. elim (H n L p b I R P).
Qed.

(** ** A way to show that a replay is steady *)
Fixpoint overlay (hb : N) (es : list log_entry) (b : list N) : res (list N) :=
  match es with [] => Ok b | e :: r => let* b1 := apply_pages 4096 (le_pages e) (grown_file hb e b) in overlay hb r b1 end.
Lemma overlay_is hb es : forall b b', overlay hb es b = Ok b' -> overlaid 4096 hb es b b' /\ fits 4096 hb (len b) es.
Proof.
  induction es as [|e es IH]; intros b b'; cbn [overlay]; [intros [= <-]; split; [apply overlaid_nil|exact I]|].
  destruct (apply_pages 4096 (le_pages e) (grown_file hb e b)) as [b1| | |] eqn:A; try discriminate. cbv beta iota. intros E.
  pose proof (pages_overlaid (fun _ => 0) hb e b b1 A) as OV. apply apply_pages_ok in A as (A1 & A & _). apply IH in E as (E1 & E2).
  unfold grown_file in A, A1. rewrite len_app, len_repeat, N2Nat.id in A, A1. 
  assert (FT : fits 4096 hb (len b) [e]) by (split; [exact A|exact Logic.I]).
  split; [exact (overlaid_app 4096 hb [e] es b b1 b' FT OV E1)|]. cbn [fits]. split; [exact A|]. now rewrite <- A1.
Qed.
Lemma overlaid_one hbin hb es b x y : overlaid hbin hb es b x -> overlaid hbin hb es b y -> x = y.
Proof.
  intros (L1 & H1) (L2 & H2). apply nth_ext with (d := 0) (d' := 0); [unfold len in *; lia|].
  intros i I. specialize (H1 (N.of_nat i)). specialize (H2 (N.of_nat i)). rewrite Nat2N.id in *. rewrite H1, H2 by (unfold len in *; lia). reflexivity.
Qed.
Fixpoint root_b (b : list N) (i : N) : bool :=
  match b with
  | x :: r => (match r with y :: u :: _ => negb ((x =? 110) && (y =? 107) && N.testbit u 2) || (i =? 4132) | _ => true end) && root_b r (i + 1)
  | [] => true
  end.
Lemma root_b_at b : forall i, root_b b i = true -> forall n, bytes_at b n 2 = [110; 107] -> N.testbit (num_at b (n + 2) 2) 2 = true -> i + n = 4132.
Proof.
  assert (BI : forall u v, N.testbit (u + 256 * v) 2 = true -> N.testbit u 2 = true).
  { intros u v. rewrite !N.testbit_eqb. change (2 ^ 2) with 4. intros H.
    destruct (N.eqb_spec ((u + 256 * v) / 4 mod 2) 1) as [E|]; [|discriminate]. apply N.eqb_eq. lia. }
  induction b as [|x b IH]; intros i R n E T.
  { exfalso. revert E. unfold bytes_at. rewrite skipn_nil. discriminate. }
  cbn [root_b] in R. apply andb_true_iff in R as (R1 & R2). destruct (N.eq_dec n 0) as [->|NZ].
  - change (bytes_at (x :: b) 0 2) with (firstn 2 (x :: b)) in E. destruct b as [|y [|u b]]; try discriminate E.
    + exfalso. vm_compute in T. discriminate T.
    + cbn in E. injection E as -> ->. unfold num_at in T. change (0 + 2) with 2 in T.
      assert (U : N.testbit u 2 = true). { destruct b as [|v b]; [exact (BI u 0 T)|exact (BI u (v + 256 * 0) T)]. }
      rewrite U in R1. cbn in R1. apply N.eqb_eq in R1. lia.
  - replace n with (1 + (n - 1)) in E, T |- * by lia. assert (X : forall m k, bytes_at (x :: b) (1 + m) k = bytes_at b m k).
    { intros m k. unfold bytes_at. rewrite N2Nat.inj_add. reflexivity. }
    rewrite X in E. unfold num_at in T. replace (1 + (n - 1) + 2) with (1 + (n - 1 + 2)) in T by lia. rewrite X in T.
    specialize (IH (i + 1) R2 (n - 1) E T). lia.
Qed.
Definition sound_file (name : list N) (b : list N) : bool :=
  no_pair b && root_b b 0 && match string_from_bytes (N.testbit (num_at b 4134 2) 5) (bytes_at b 4208 (num_at b 4204 2)) (num_at b 4204 2) with Ok (n, _) => beq n name | _ => false end.
Lemma sound_good name b : sound_file name b = true -> good name b.
Proof.
  unfold sound_file. intros H. apply andb_true_iff in H as (H & H3). apply andb_true_iff in H as (H1 & H2). split; [now apply no_pair_no_cycle|]. split.
  - intros c E T. pose proof (root_b_at b 0 H2 (c + 4) E) as X. replace (c + 4 + 2) with (c + 6) in X by lia. specialize (X T). lia.
  - intros n (w & N). cbn [fi_buffer] in N. change (4128 + 6) with 4134 in N. change (4128 + 80) with 4208 in N. change (4128 + 76) with 4204 in N. rewrite N in H3. now apply beq_eq.
Qed.
Fixpoint firsts {A} (l : list A) : list (list A) := match l with [] => [[]] | x :: r => [] :: map (cons x) (firsts r) end.
Lemma firsts_in {A} (l a b : list A) : l = a ++ b -> In a (firsts l).
Proof.
  revert l. induction a as [|x a IH]; intros l E; [destruct l; now left|]. destruct l as [|y l]; [discriminate|]. injection E as -> E. right. apply in_map. now apply IH.
Qed.
Definition steady_b (name buffer : list N) (files : list (list N)) : bool :=
  match TxLog.parse_logs files with
  | Ok ([l], _) => forallb (fun e => le_valid_hashes e && (num_at buffer 8 4 <=? le_seq e)) (tl_entries l)
      && forallb (fun es => match overlay (num_at buffer 40 4) es buffer with Ok b => sound_file name b | _ => false end) (firsts (tl_entries l))
  | _ => false
  end.
Lemma steady_check name buffer files : checksum_right buffer -> steady_b name buffer files = true -> steady buffer files.
Proof.
  intros C. unfold steady_b. destruct (TxLog.parse_logs files) as [[[|l [|? ?]] w]| | |] eqn:PL; try discriminate. intros H. apply andb_true_iff in H as (H1 & H2).
  exists name. intros b (b0 & logs & es & m & first & rest & (all & w' & P & S) & CH & E & O). rewrite PL in P. injection P as <- <-.
  destruct S as [(_ & -> & ->)|(X & _)]; [|contradiction].
  assert (FR : forall x, forallb (fun e => le_valid_hashes e && (num_at buffer 8 4 <=? le_seq e)) x = true -> fresh (num_at buffer 8 4) x = x).
  { induction x as [|e x IH]; [reflexivity|]. cbn [forallb]. intros F. apply andb_true_iff in F as (F1 & F2). apply andb_true_iff in F1 as (F0 & F1).
    rewrite fresh_cons, F0, F1. now rewrite (IH F2). }
  assert (IN : In first (firsts (tl_entries l))).
  { inversion CH as [|? ? ? ? ? ? CH2|? ? ? a es2 ? EL AP CH2]; subst.
    - inversion CH2; subst. destruct first; [destruct (tl_entries l); now left|discriminate].
    - inversion CH2; subst. rewrite app_nil_r in *. destruct AP as (rest2 & AP & _). rewrite (FR _ H1) in AP. 
      match goal with X : a = first ++ rest |- _ => rewrite X in AP end. rewrite <- app_assoc in AP. exact (firsts_in _ _ _ AP). }
  rewrite forallb_forall in H2. specialize (H2 _ IN). destruct (overlay (num_at buffer 40 4) first buffer) as [b1| | |] eqn:OV; try discriminate.
  apply overlay_is in OV as (OV & _). rewrite (overlaid_one _ _ _ _ _ _ O OV). exact (sound_good name b1 H2).
Qed.
