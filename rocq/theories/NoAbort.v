(** Opening a file never aborts. *)
From Coq Require Import Permutation.
From Verif Require Import Base BaseFacts Util UtilSpec UtilText UtilLz LayoutSpec LayoutFacts HeaderFacts BaseBlock Types Value Node Recover
  Parser TxLog TxSpec NodeFrame TxParse TxApply TxBuild CellSpec CellFacts CellData CellList CellRead TreeRead AnyFile TreeOpen ScanSpec ScanFacts ScanOpen ScanAll Recovered LiveSpec LiveView LiveOpen
  Pure StoreSpec StoreFacts AnalysisSpec AnalysisFacts AnalysisStore AnalysisAll AnalysisReach VersionFacts TreeSession LivePlain RecIter Ends FreeKept AbortSpec.

Notation safe := no_abort.
Lemma safe_ok {A} (a : A) : safe (Ok a).
Proof. discriminate. Qed.
Lemma safe_bind {A B} (x : res A) (f : A -> res B) : safe x -> (forall a, x = Ok a -> safe (f a)) ->
  safe (match x with Ok a => f a | Err => Err | Panic => Panic | OutOfFuel => OutOfFuel end).
Proof. intros X F. destruct x; try discriminate; [now apply F|now elim X]. Qed.

(** ** Every key of an iteration has its hash, and so have its values *)
Definition vh (v : key_value) : Prop := kv_hash v <> None.
Inductive hk : key_node -> Prop :=
| hk_key k : kn_hash k <> None -> Forall vh (kn_values k) -> Forall hk (kn_deleted k) -> hk k.
Lemma hk_same k k' : kn_hash k' = kn_hash k -> kn_values k' = kn_values k -> kn_deleted k' = kn_deleted k -> hk k -> hk k'.
Proof. intros P V D N. inversion N as [x N1 N2 N3]; subst. constructor; [now rewrite P|now rewrite V|now rewrite D]. Qed.
Definition hst (st : state) : Prop :=
  keyed (fun _ => hk) (st_deleted_keys st) /\ keyed (fun _ => vh) (st_deleted_values st).
Lemma hst_root st st' : root_only st st' -> hst st -> hst st'.
Proof. intros R M. unfold root_only in R. now rewrite R. Qed.
Lemma read_hash fi st v : vh (read_value_bytes fi st v).
Proof. unfold vh, read_value_bytes. destruct (read_value_bytes_direct _ _ _ _ _) as [[? ?] ?]. discriminate. Qed.
Lemma finish_hash st k : kn_hash (finish st k) = kn_hash k.
Proof. unfold finish. cbv zeta. cbn [kn_set_values kn_hash]. destruct (aget beq _ (st_modified_keys st)); reflexivity. Qed.
Lemma finish_vh st k : hst st -> Forall vh (kn_values k) -> Forall vh (kn_values (finish st k)).
Proof.
  intros (_ & MV) F. unfold finish. cbv zeta. cbn [kn_set_values kn_values]. apply Forall_app. split.
  - apply Forall_map. assert (G : Forall vh (kn_values (match aget beq (lookup_path k) (st_modified_keys st) with
      None => k | Some ms => kn_set_versions (sort_by (fun a b => opt_le (kn_seq b) (kn_seq a)) ms) k end))) by (destruct (aget beq _ (st_modified_keys st)); exact F).
    eapply Forall_impl; [|exact G]. cbv beta. intros v A. destruct (aget pair_eqb _ _); exact A.
  - destruct (aget beq (lookup_path k) (st_deleted_values st)) as [l|] eqn:A; [|constructor]. apply Forall_forall. intros v I.
    pose proof (keyed_aget _ _ _ _ MV A) as G. rewrite Forall_forall in G. apply G. eapply Permutation_in; [apply sort_perm|exact I].
Qed.
Lemma uml_hk st : hst st -> forall fuel k k', hk k -> update_modified_lists fuel st k = Ok k' -> hk k'.
Proof.
  intros M. induction fuel as [|fuel IH]; intros k k' N; [discriminate|]. rewrite uml_eq.
  destruct (is_deleted_primary_file _); [now intros [= <-]|].
  assert (FI : forall x, kn_hash x <> None -> Forall vh (kn_values x) -> Forall hk (kn_deleted x) -> hk (finish st x)).
  { intros x X1 X2 X3. constructor; [now rewrite finish_hash|now apply finish_vh|now rewrite finish_deleted]. }
  inversion N as [x N1 N2 N3]; subst.
  destruct (aget beq (lookup_path k) (st_deleted_keys st)) as [dks|] eqn:A; [|intros [= <-]; now apply FI].
  destruct (note fuel st (kn_offset k) dks) as [l| | |] eqn:NO; try discriminate. intros [= <-]. apply FI; [exact N1|exact N2|].
  cbn [kn_set_deleted kn_deleted]. pose proof (keyed_aget _ _ _ _ (proj1 M) A) as F. cbv beta in F. clear A. revert l NO.
  induction F as [|d r D F IR]; intros l; cbn [note]; [intros [= <-]; constructor|].
  destruct (if kn_offset d =? kn_offset k then Ok d else update_modified_lists fuel st d) as [d'| | |] eqn:E; try discriminate.
  destruct (note fuel st (kn_offset k) r) as [r'| | |]; try discriminate. intros [= <-]. constructor; [|now apply IR].
  destruct (_ =? _) in E; [now injection E as <-|now apply (IH d)].
Qed.
Lemma loop_vh fi st seq offs : forall acc vs logs ok, Forall vh acc ->
  read_values_loop fi st seq offs acc = Ok (vs, logs, ok) -> Forall vh vs.
Proof.
  induction offs as [|o offs IH]; intros acc vs logs ok A; cbn [read_values_loop]; [now intros [= <- _ _]|].
  destruct (get_at _ _); [|now intros [= <- _ _]]. destruct (get_from _ _) as [s|] eqn:G; [|now intros [= <- _ _]].
  destruct (kv_cases s (o + fi_hbin fi) seq (st_full st)) as [(OK & nm & w & NM & E)|(_ & E)]; rewrite E; [|now intros [= <- _ _]].
  apply IH. apply Forall_app. split; [exact A|]. constructor; [apply read_hash|constructor].
Qed.
Lemma slice_hk fi st s o k st' : op_modified o = false -> read_from_slice fi st s o = Ok (Some k, st') -> hk k.
Proof.
  intros EM. unfold read_from_slice. rewrite EM.
  destruct (kn_cases st s (op_offset o) (op_path o) (op_seq o)) as [(OK & nm & w & NM & E)|(_ & E)]; rewrite E; [|discriminate].
  cbv beta iota. set (k0 := kn_at _ _ _ _ _ _ _).
  destruct (match op_filter o with Some f => check_cell f st k0 | None => Ok (IterateKeys, st) end) as [[fl st1]| | |]; try discriminate.
  assert (K0 : hk k0) by (constructor; [discriminate|constructor|constructor]).
  assert (V : forall b k1, (if b : bool then let* (k, ok) := read_values fi st1 (op_seq o) k0 in Ok (if ok : bool then k else kn_add_log WarningParse k) else Ok k0) = Ok k1 -> hk k1).
  { intros b k1. destruct b; [|now intros [= <-]].
    destruct (read_values fi st1 (op_seq o) k0) as [[k2 ok]| | |] eqn:RV; try discriminate. cbv beta iota. intros [= <-].
    assert (Y : hk k2).
    { revert RV. unfold read_values. destruct (_ && _); [|now intros [= <- _]].
      destruct (1048576 <? _); [intros [= <- _]; now apply (hk_same k0)|]. destruct (parse_key_values _ _ _) as [offs|]; [|intros [= <- _]; now apply (hk_same k0)].
      destruct (read_values_loop _ _ _ _ _) as [[[vs logs] ok']| | |] eqn:EL; try discriminate. intros [= <- _].
      constructor; [discriminate| |constructor]. exact (loop_vh _ _ _ _ _ _ _ _ (Forall_nil _) EL). }
    destruct ok; [exact Y|now apply (hk_same k2)]. }
  cbv beta iota. destruct fl; [discriminate| |].
  all: match goal with |- (let* k := (if ?b then _ else _) in _) = _ -> _ => pose proof (V b) as V1 end.
  all: match goal with |- (let* k := ?x in _) = _ -> _ => destruct x as [k1| | |]; try discriminate end.
  all: specialize (V1 k1 eq_refl); cbv beta iota zeta; intros [= <- _]; try exact V1; now apply (hk_same k1).
Qed.
Lemma read_hk fi st o k st' : hst st -> kn_read fi st o = Ok (Some k, st') -> hk k.
Proof.
  intros M R. destruct (op_modified o) eqn:EM.
  - rewrite (read_noted _ _ _ EM) in R. destruct (kn_read fi st (unnoted o)) as [[[k1|] st1]| | |] eqn:E; try discriminate.
    destruct (update_modified_lists _ _ _) as [k2| | |] eqn:U; try discriminate. injection R as <- <-.
    apply (uml_hk _ (hst_root _ _ (kn_read_state _ _ _ _ _ E) M) _ _ _) in U; [exact U|].
    unfold kn_read in E. destruct (get_from _ _); [|discriminate]. cbn [ok_or] in E. now apply slice_hk in E.
  - unfold kn_read in R. destruct (get_from _ _); [|discriminate]. cbn [ok_or] in R. now apply slice_hk in R.
Qed.
Section Walk.
Variable fi : file_info.
Lemma child_hk sm f c : hk c -> hk (child_filter_state sm f c).
Proof. intros G. unfold child_filter_state. repeat match goal with |- context [if ?b then _ else _] => destruct b end; try exact G; now apply (hk_same c). Qed.
Lemma children_hk path sm f sf seq m offs : forall st cs found logs st', hst st ->
  read_children fi st path sm f sf seq m offs = Ok (cs, found, logs, st') -> Forall hk cs.
Proof.
  induction offs as [|o offs IH]; intros st cs found logs st' M; cbn [read_children]; [intros [= <- _ _ _]; constructor|].
  destruct (kn_read fi st _) as [[[c|] st1]| | |] eqn:R; try discriminate.
  - pose proof (hst_root _ _ (kn_read_state _ _ _ _ _ R) M) as M1. apply read_hk in R; [|exact M].
    destruct (read_children _ _ _ _ _ _ _ _ _) as [[[[cs1 ?] ?] ?]| | |] eqn:E; try discriminate. intros [= <- _ _ _].
    constructor; [now apply child_hk|]. now apply (IH _ _ _ _ _ M1 E).
  - pose proof (hst_root _ _ (kn_read_state _ _ _ _ _ R) M) as M1. intros E. now apply (IH _ _ _ _ _ M1 E).
  - destruct (read_children _ _ _ _ _ _ _ _ _) as [[[[cs1 ?] ?] ?]| | |] eqn:E; try discriminate. intros [= <- _ _ _].
    now apply (IH _ _ _ _ _ M E).
Qed.
Lemma sub_keys_hk st k f seq m k' cs found st' : hst st -> hk k ->
  read_sub_keys_internal fi st k f seq m = Ok (k', cs, found, st') -> hk k' /\ Forall hk cs.
Proof.
  intros M G. unfold read_sub_keys_internal.
  assert (GL : forall c, hk (kn_add_log c k)) by (intros; now apply (hk_same k)).
  destruct (is_allocated _); [|intros [= <- <- _ _]; auto]. destruct (1048576 <? _); [intros [= <- <- _ _]; auto|].
  destruct (0 <? _); [|intros [= <- <- _ _]; auto]. destruct (parse_sub_key_list _ _ _) as [offs| | |]; try discriminate.
  - destruct (read_children _ _ _ _ _ _ _ _ _) as [[[[cs1 ?] ?] ?]| | |] eqn:E; try discriminate. intros [= <- <- _ _].
    split; [now apply (hk_same k)|]. now apply (children_hk _ _ _ _ _ _ _ _ _ _ _ _ M E).
  - intros [= <- <- _ _]; auto.
Qed.
Definition hcx (c : context) : Prop := hst (cx_state c) /\ Forall hk (cx_stack c).
Lemma fold_hcx (g : context -> key_node -> context) l : (forall k c, hk k -> hcx c -> hcx (g c k)) -> Forall hk l ->
  forall c, hcx c -> hcx (fold_left g l c).
Proof. intros H F. induction F as [|k l K F IH]; intros c C; [exact C|]. cbn [fold_left]. apply IH. now apply H. Qed.
Lemma visit_hk cx k k' cx' : hcx cx -> hk k -> visit fi cx k = Ok (k', cx') -> hk k' /\ hcx cx'.
Proof.
  intros C G. unfold visit.
  match goal with |- match ?x with _ => _ end = _ -> _ => destruct x as [[k1 cx1]| | |] eqn:E; try discriminate end.
  assert (X : hk k1 /\ hcx cx1).
  { destruct (0 <? _) in E; [|injection E as <- <-; auto].
    destruct (read_sub_keys_internal _ _ _ _ _ _) as [[[[k2 cs] fd] st]| | |] eqn:R in E; try discriminate.
    pose proof (hst_root _ _ (read_sub_keys_state _ _ _ _ _ _ _ _ _ _ R) (proj1 C)) as M.
    apply sub_keys_hk in R as (R1 & R2); [|apply C|exact G]. injection E as <- <-. split; [now apply (hk_same k2)|].
    apply (fold_hcx (fun cx c => push_check c cx)); [|now apply Forall_rev|split; [exact M|apply C]].
    intros q c Q (C1 & C2). unfold push_check. destruct (existsb _ _); [now split|]. split; [exact C1|now constructor]. }
  cbv beta iota. destruct X as (X1 & X3). intros [= <- <-]. inversion X1 as [x Y1 Y2 Y3]; subst.
  assert (D : Forall hk (map (kn_set_filter (kn_filter k1)) (kn_deleted k1))).
  { apply Forall_map. eapply Forall_impl; [|exact Y3]. intros d Z. now apply (hk_same d). }
  split; [constructor; [exact Y1|exact Y2|exact D]|].
  apply (fold_hcx (fun cx d => push d cx)); [|exact D|exact X3].
  intros q c Q (C1 & C2). split; [exact C1|now constructor].
Qed.
Lemma walk_hk c ks : walk fi c ks -> hcx c -> Forall hk ks.
Proof.
  induction 1 as [c S|c k rest k' c' ks S V W IH]; intros (D & F); [constructor|]. rewrite S in F. inversion F; subst.
  apply visit_hk in V as (V1 & V2); [|now split|assumption]. destruct (returned c' k'); auto.
Qed.
End Walk.
Lemma shown_hk p p1 fuel anc m ks : hst (ps_state p) -> init_root p = Ok p1 -> iterate fuel p1 None anc m false = Ok ks -> Forall hk ks.
Proof.
  intros D I. apply init_root_ok in I as (h & root & -> & _ & R). unfold iterate. intros C. apply collect_walk in C.
  apply (walk_hk _ _ _ C). split; [exact D|]. constructor; [|constructor]. cbn [ps_set_root ps_set_hbin ps_root].
  destruct (read_root_some _ _ _ _ _ _ _ R) as (r & ->). now apply read_hk in R.
Qed.

(** ** The states of a build *)
Lemma keyed_remove_values (P : list N -> key_value -> Prop) l : forall m, keyed P m -> keyed P (remove_values l m).
Proof.
  unfold remove_values. induction l as [|e l IH]; intros m M; [exact M|]. cbn [fold_left]. apply IH.
  unfold deleted_values_remove. destruct (aget _ _ _) as [ks|] eqn:A; [|exact M]. pose proof (keyed_aget _ _ _ _ M A) as F.
  destruct (remove_first _ _) as [[|x r]|] eqn:RF; [| |exact M].
  - apply keyed_adel, keyed_aset; [exact M|constructor].
  - apply keyed_aset; [exact M|]. exact (remove_first_forall _ _ _ _ F RF).
Qed.
Lemma reached_hst order fuel full hash st : reached order fuel full hash st -> hst st.
Proof.
  induction 1 as [|i st R IH|fi st n st' R IH E|fi seq p prior latest p' logs R IH E].
  - split; constructor.
  - exact IH.
  - revert E. unfold find_free_keys_and_values. assert (A : agree false st st) by apply agree_refl.
    destruct (recover_loop_ok fi st (S (length (fi_buffer fi))) st (fi_hbin fi) n A) as [E|(s & l & ks & vs & E & (w & G) & _ & FK & FV & _)].
    { unfold len. lia. } { rewrite E. discriminate. }
    rewrite E. intros [= <-]. subst s. split; cbn [st_deleted_keys st_deleted_values].
    + apply keyed_push_all; [|apply IH]. eapply Forall_impl; [|exact FK].
      intros k [(_ & K)|(h & c & _ & _ & _ & _ & K)]; destruct K as (_ & _ & _ & k0 & s & K0 & SC & S & D);
      apply slice_hk in K0; try reflexivity; inversion K0 as [x Y1 Y2 Y3]; subst x; destruct SC as (_ & _ & _ & _ & S2 & S3 & _);
      (constructor; [now rewrite S3|now rewrite S2|rewrite D; constructor]).
    + apply keyed_push_all; [|apply IH]. eapply Forall_impl; [|exact FV].
      intros v [(_ & K)|(h & c & _ & _ & _ & _ & K)]; destruct K as (_ & _ & _ & v0 & r & _ & older & ->); apply (read_hash fi st v0).
  - destruct (comparison _ _ _ _ _ _ _ _ _ E) as (p2 & ks2 & prior' & ch & _ & _ & _ & _ & _ & _ & _ & _ & M3 & M4). cbv zeta in M3, M4.
    split; [rewrite M3; apply keyed_remove, keyed_pushes; [|apply IH]|rewrite M4; apply keyed_remove_values, keyed_pushes; [|apply IH]].
    + apply Forall_forall. intros x X.
      apply in_flat_map in X as (y & _ & X). unfold gone_keys in X. destruct (snd (fst y)); [contradiction|].
      unfold at_path in X. apply in_map_iff in X as (k & <- & X). cbn [fst snd]. unfold old_key in X.
      destruct (kn_read _ _ _) as [[[k0|] st0]| | |] eqn:K; try contradiction. destruct X as [<-|[]].
      unfold kn_read in K. destruct (get_from _ _); [|discriminate]. cbn [ok_or] in K. apply slice_hk in K; [|reflexivity].
      inversion K as [x Y1 Y2 Y3]; subst x. constructor; [exact Y1|constructor|exact Y3].
    + apply Forall_forall. intros x X.
      apply in_flat_map in X as (y & _ & X). unfold gone_values in X. destruct (snd (fst y)); [|contradiction].
      unfold at_path in X. apply in_map_iff in X as (k & <- & X). cbn [fst snd]. unfold old_value in X.
      destruct (get_from _ _); [|contradiction]. destruct (kv_from_bytes _ _ _ _) as [[v0 r]| | |]; try contradiction.
      destruct X as [<-|[]]. exact (read_hash fi (ps_state p) v0).
Qed.

(** ** Nothing aborts while keys are read without a filter *)
Lemma read_safe fi st o : op_filter o = None \/ op_filter o = Some None -> safe (kn_read fi st o).
Proof.
  intros F. unfold kn_read. destruct (get_from _ _) as [s|]; [|discriminate]. cbn [ok_or]. unfold read_from_slice.
  destruct (kn_cases st s (op_offset o) (op_path o) (op_seq o)) as [(_ & nm & w & _ & ->)|(_ & ->)]; [|discriminate]. cbv beta iota.
  set (k0 := kn_at _ _ _ _ _ _ _).
  replace (match op_filter o with Some f => check_cell f st k0 | None => Ok (IterateKeys, st) end) with (Ok (IterateKeys, st) : res (filter_flags * state)) by (destruct F as [-> | ->]; reflexivity).
  cbv beta iota. apply safe_bind.
  - destruct (_ && _); [|discriminate]. destruct (read_values_total fi st (op_seq o) k0) as (k' & ok & ->). discriminate.
  - intros k1 _. cbv zeta. apply safe_bind; [|intros; discriminate]. destruct (op_modified o); [|discriminate].
    destruct (uml_total st (uml_fuel st) k1) as [(k' & ->)| ->]; discriminate.
Qed.
Lemma list_safe fi o : safe (parse_sub_key_list (list_fuel fi) fi o).
Proof.
  intros E. destruct (psl_total fi o) as [E1|(l & E1)]; rewrite E in *; discriminate.
Qed.
Section Safe.
Variable fi : file_info.
Lemma children_safe path sm sf seq m offs : sf = None \/ sf = Some None -> forall st, safe (read_children fi st path sm None sf seq m offs).
Proof.
  intros F. induction offs as [|o offs IH]; intros st; cbn [read_children]; [discriminate|].
  pose proof (read_safe fi st (mkOpt o path sf sm seq m) F) as R.
  destruct (kn_read fi st _) as [[[c|] st1]| | |]; try discriminate; [| | |now elim R].
  - cbv zeta. apply safe_bind; [apply IH|]. intros [[[? ?] ?] ?] _. discriminate.
  - apply IH.
  - apply safe_bind; [apply IH|]. intros [[[? ?] ?] ?] _. discriminate.
Qed.
Lemma sub_keys_safe st k seq m : safe (read_sub_keys_internal fi st k None seq m).
Proof.
  unfold read_sub_keys_internal. destruct (is_allocated _); [|discriminate]. destruct (1048576 <? _); [discriminate|].
  destruct (0 <? _); [|discriminate]. pose proof (list_safe fi (kd_sublist (kn_detail k))) as L.
  destruct (parse_sub_key_list _ _ _) as [offs| | |]; try discriminate; [|now elim L].
  cbv zeta. apply safe_bind; [|intros [[[? ?] ?] ?] _; discriminate].
  apply children_safe. destruct (_ && _); [now left|now right].
Qed.
Lemma fold_filter (g : context -> key_node -> context) l : (forall k c, cx_filter (g c k) = cx_filter c) -> forall c, cx_filter (fold_left g l c) = cx_filter c.
Proof. intros H. induction l as [|k l IH]; intros c; [reflexivity|]. cbn [fold_left]. now rewrite IH. Qed.
Lemma visit_safe cx k : cx_filter cx = None -> safe (visit fi cx k) /\ forall k' cx', visit fi cx k = Ok (k', cx') -> cx_filter cx' = None.
Proof.
  intros F. unfold visit. rewrite F.
  destruct (0 <? _).
  - pose proof (sub_keys_safe (cx_state cx) k None (cx_modified cx)) as R.
    destruct (read_sub_keys_internal _ _ _ _ _ _) as [[[[k2 cs] fd] st]| | |]; cbv beta iota zeta; (split; [try discriminate; now elim R|]); try discriminate.
    intros k' cx' [= _ <-]. rewrite (fold_filter (fun cx d => push d cx)) by reflexivity.
    rewrite (fold_filter (fun cx c => push_check c cx)); [exact F|]. intros q c. unfold push_check. now destruct (existsb _ _).
  - cbv beta iota zeta. split; [discriminate|]. intros k' cx' [= _ <-]. now rewrite (fold_filter (fun cx d => push d cx)).
Qed.
Lemma next_safe : forall fuel cx, cx_filter cx = None -> safe (next_key_preorder fuel fi cx) /\ forall o cx', next_key_preorder fuel fi cx = Ok (o, cx') -> cx_filter cx' = None.
Proof.
  induction fuel as [|fuel IH]; intros cx F; cbn [next_key_preorder]; [split; discriminate|].
  destruct (cx_stack cx) as [|k rest]; [split; [discriminate|now intros o cx' [= _ <-]]|].
  destruct (visit_safe (cx_set_stack rest cx) k F) as (V & W). destruct (visit fi _ k) as [[k' cx1]| | |]; try (split; discriminate); [|now elim V].
  cbv beta iota. specialize (W _ _ eq_refl). destruct (_ || _); [split; [discriminate|now intros o cx' [= _ <-]]|]. now apply IH.
Qed.
Lemma collect_safe : forall fuel cx, cx_filter cx = None -> safe (collect false fuel fi cx).
Proof.
  induction fuel as [|fuel IH]; intros cx F; cbn [collect]; [discriminate|].
  destruct (next_safe (S fuel) cx F) as (A & B). apply safe_bind; [exact A|]. intros [o cx1] E. specialize (B _ _ E).
  destruct o as [k|]; [|discriminate]. apply safe_bind; [now apply IH|intros; discriminate].
Qed.
End Safe.
Lemma iterate_safe fuel p anc m : safe (iterate fuel p None anc m false).
Proof. now apply collect_safe. Qed.

(** ** The comparison *)
Lemma insert_values_safe path seq vs : Forall vh vs -> forall m, safe (insert_values path seq vs m).
Proof.
  induction 1 as [|v vs V F IH]; intros m; cbn [insert_values]; [discriminate|]. unfold vh in V.
  destruct (kv_hash v); [|now elim V]. cbn [must_hash or_panic]. apply IH.
Qed.
Lemma insert_safe seq ks : Forall hk ks -> forall m, safe (insert_keys seq ks m).
Proof.
  induction 1 as [|k ks K F IH]; intros m; cbn [insert_keys]; [discriminate|]. inversion K as [x K1 K2 K3]; subst x.
  destruct (kn_hash k); [|now elim K1]. cbn [must_hash or_panic]. cbv zeta. apply safe_bind; [now apply insert_values_safe|]. intros; apply IH.
Qed.
Lemma handle_values_safe seq path vs : Forall vh vs -> forall s logs, safe (handle_values seq path vs s logs).
Proof.
  induction 1 as [|v vs V F IH]; intros s logs; cbn [handle_values]; [discriminate|]. unfold vh in V.
  destruct (kv_hash v); [|now elim V]. cbn [must_hash or_panic]. apply IH.
Qed.
Lemma handle_safe seq ks : Forall hk ks -> forall a b c d logs, safe (handle_keys seq ks a b c d logs).
Proof.
  induction 1 as [|k ks K F IH]; intros a b c d logs; cbn [handle_keys]; [discriminate|]. inversion K as [x K1 K2 K3]; subst x.
  destruct (kn_hash k); [|now elim K1]. cbn [must_hash or_panic]. cbv beta iota. destruct (handle_new_item _ _ _ _ _) as [[a1 b1] c1].
  apply safe_bind; [now apply handle_values_safe|]. intros [[[a2 b2] d2] l2] _. apply IH.
Qed.
Lemma add_all_safe {A} (f : state -> A -> res state) l : (forall st x, safe (f st x)) -> forall st logs, safe (add_all f l st logs).
Proof.
  intros H. induction l as [|x l IH]; intros st logs; cbn [add_all]; [discriminate|]. specialize (H st x).
  destruct (f st x); try discriminate; [apply IH|apply IH|now elim H].
Qed.
Lemma add_key_safe fi seq st path off old del : safe (add_full_key fi seq st path off old del).
Proof.
  unfold add_full_key. apply safe_bind; [apply read_safe; now left|]. intros [[k|] st1] _; discriminate.
Qed.
Lemma add_value_safe fi seq st path off old del : safe (add_full_value fi seq st path off old del).
Proof.
  unfold add_full_value. destruct (get_from _ _) as [s|]; [|discriminate]. cbn [ok_or].
  destruct (kv_cases s off (Some old) (st_full st)) as [(_ & nm & w & _ & ->)|(_ & ->)]; discriminate.
Qed.
Lemma root_safe p : safe (init_root p).
Proof.
  unfold init_root. destruct (get_from _ _) as [s|]; [|discriminate]. cbn [ok_or].
  destruct (hbin_cases (ps_hbin p) s) as [(_ & _ & ->)|(_ & ->)]; [|discriminate]. cbv beta iota zeta.
  apply safe_bind; [apply read_safe; now left|]. intros [? ?] _. discriminate.
Qed.
Lemma latest_safe order fuel fi seq p prior : hst (ps_state p) -> safe (get_latest_reg_items order fuel fi seq p prior).
Proof.
  intros H. unfold get_latest_reg_items. apply safe_bind; [apply root_safe|]. intros p1 I.
  apply safe_bind; [apply iterate_safe|]. intros ks K. pose proof (shown_hk _ _ _ _ _ _ H I K) as F.
  apply safe_bind; [now apply handle_safe|]. intros [[[[a b] c] d] l] _.
  apply safe_bind; [apply add_all_safe; intros; apply add_key_safe|]. intros [st1 l1] _.
  apply safe_bind; [apply add_all_safe; intros; apply add_value_safe|]. intros [st2 l2] _.
  apply safe_bind; [apply add_all_safe; intros st [[q [nm|]] it]; cbn [fst snd]; [apply add_value_safe|apply add_key_safe]|]. intros [st3 l3] _. discriminate.
Qed.
Lemma items_safe fuel p seq : hst (ps_state p) -> safe (get_reg_items fuel p seq).
Proof.
  intros H. unfold get_reg_items. destruct (ps_recover p); [|discriminate]. apply safe_bind; [apply root_safe|]. intros p1 I.
  apply safe_bind; [apply iterate_safe|]. intros ks K. apply safe_bind; [|intros; discriminate]. apply insert_safe. exact (shown_hk _ _ _ _ _ _ H I K).
Qed.

(** ** The application of logs *)
Lemma base_safe p : safe (init_base_block p).
Proof.
  destruct (N.leb_spec 4096 (len (ps_buffer p))) as [L|L]; [|rewrite init_fails by lia; discriminate].
  destruct (list_eq_dec N.eq_dec (bytes_at (ps_buffer p) 0 4) REGF) as [T|T]; [|rewrite init_fails by tauto; discriminate].
  destruct (init_base_block_spec p L T) as (name & bad & p1 & _ & -> & _). discriminate.
Qed.
(** A header was read, and the first 4096 bytes are there. *)
Definition set_up (p : parser) : Prop := ps_base_block p <> None /\ 4096 <= len (ps_buffer p).
Lemma base_set_up p s b p' : init_base_block p = Ok (s, b, p') -> set_up p'.
Proof. intros E. apply init_base_ok in E as ((_ & L & n & E) & _). split; [now rewrite E|exact L]. Qed.
Lemma same_set_up p p' : same_hive p p' -> set_up p -> set_up p'.
Proof. intros (F & B & _) (S1 & S2). split; [now rewrite B|]. unfold ps_buffer. now rewrite F. Qed.
Lemma pages_len hbin pages : forall b b', apply_pages hbin pages b = Ok b' -> len b' = len b.
Proof.
  induction pages as [|pg pages IH]; intros b b'; cbn [apply_pages]; [now intros [= <-]|].
  destruct (overwrite b _ _) as [b1|] eqn:O; [|discriminate]. cbn [ok_or]. intros E. rewrite (IH _ _ E). now apply overwrite_some in O as (_ & -> & _).
Qed.
Section Build.
Variables (order : reg_items -> reg_items) (fuel : nat) (full : bool) (hash : list N -> N).
Notation R st := (reached order fuel full hash st).
Lemma analyze_safe fi seq p items : R (ps_state p) -> safe (analyze_entry order fuel fi seq p items).
Proof.
  intros M. unfold analyze_entry. destruct (ps_recover p); [|discriminate].
  pose proof (latest_safe order fuel fi seq p items (reached_hst _ _ _ _ _ M)) as G.
  destruct (get_latest_reg_items _ _ _ _ _ _) as [[[l p1] logs]| | |]; try discriminate. now elim G.
Qed.
Lemma entries_safe sec hbins es : forall n p items, R (ps_state p) -> set_up p -> safe (update_entries order fuel sec hbins es n p items)
  /\ forall n' i' p', update_entries order fuel sec hbins es n p items = Ok (n', i', p') -> set_up p'.
Proof.
  induction es as [|e es IH]; intros n p items M S; cbn [update_entries]; [split; [discriminate|now intros n' i' p' [= _ _ <-]]|].
  assert (ST : forall c, set_up (ps_log c p)) by (intros c; exact S).
  assert (STOP : safe (Ok (n, items, ps_log WarningTransactionLog p)) /\ forall n' i' p', Ok (n, items, ps_log WarningTransactionLog p) = Ok (n', i', p') -> set_up p').
  { split; [discriminate|]. intros n' i' p' [= _ _ <-]. apply ST. }
  destruct (le_valid_hashes e); [|exact STOP].
  destruct (_ <? sec); [apply IH; [now apply reached_info|apply ST]|]. destruct (negb _); [exact STOP|]. destruct (_ && _); [exact STOP|].
  cbv zeta. set (buf := if hbins <? _ then _ else _).
  assert (LB : 4096 <= len buf) by (destruct S as (_ & S2); unfold buf; destruct (_ <? _); [rewrite len_app; lia|exact S2]).
  destruct (apply_pages_cases (ps_hbin p) (le_pages e) buf) as [E|(b & E)]; rewrite E; [split; discriminate|]. cbv beta iota.
  apply pages_len in E.
  pose proof (analyze_safe (mkFI (ps_hbin p) buf) (le_seq e) (ps_set_buffer b p) items M) as A.
  destruct (analyze_entry _ _ _ _ _ _) as [[i1 p1]| | |] eqn:AE; try (split; discriminate); [|now elim A].
  cbv beta iota. apply IH.
  - eapply analyze_reached; [|exact AE]. exact M.
  - apply analyze_same in AE. apply (same_set_up _ _ AE). split; [apply S|]. change (4096 <= len b). lia.
Qed.
Lemma logs_safe sec logs : forall n p items, R (ps_state p) -> set_up p -> safe (apply_logs order fuel sec logs n p items)
  /\ forall n' p', apply_logs order fuel sec logs n p items = Ok (n', p') -> set_up p'.
Proof.
  induction logs as [|l logs IH]; intros n p items M S; cbn [apply_logs]; [split; [discriminate|now intros n' p' [= _ <-]]|].
  destruct (sec <=? _); [|apply IH; [now apply reached_info|exact S]]. destruct (_ || _); [|apply IH; [now apply reached_info|exact S]].
  unfold update_parser, base_block_info. destruct S as (S1 & S2). destruct (ps_base_block p) as [bb|] eqn:B; [|now elim S1]. cbn [or_panic]. cbv beta iota.
  assert (S : set_up p) by (split; [now rewrite B|exact S2]).
  match goal with |- context [update_entries ?a ?b ?c ?d ?e ?f ?g ?h] => destruct (entries_safe c d e f g h M S) as (X & Y); destruct (update_entries a b c d e f g h) as [[[n1 i1] p1]| | |] eqn:E end; try (split; discriminate); [|now elim X].
  cbv beta iota. apply IH; [exact (entries_reached order fuel full hash _ _ _ _ _ _ _ _ _ M E)|now apply (Y n1 i1)].
Qed.
Lemma header_safe n p : set_up p -> safe (update_header n p).
Proof.
  intros (_ & L). unfold update_header.
  destruct (overwrite_fit (ps_buffer p) 4 (enc 4 n)) as (b1 & E1); [rewrite len_enc; lia|]. rewrite E1. cbn [or_panic].
  pose proof (proj1 (proj2 (overwrite_some _ _ _ _ E1))) as L1.
  destruct (overwrite_fit b1 8 (enc 4 n)) as (b2 & E2); [rewrite len_enc; lia|]. rewrite E2. cbn [or_panic].
  pose proof (proj1 (proj2 (overwrite_some _ _ _ _ E2))) as L2.
  rewrite get_range_at by lia. cbn [or_panic]. rewrite checksum_spec by (rewrite len_bytes_at; lia). cbv beta iota.
  match goal with |- context [overwrite b2 CHECKSUM_OFFSET ?e] => destruct (overwrite_fit b2 CHECKSUM_OFFSET e) as (b3 & E3); [rewrite len_enc; change CHECKSUM_OFFSET with 508; lia|]; rewrite E3 end.
  cbn [or_panic]. apply safe_bind; [apply base_safe|]. intros [[? ?] ?] _. discriminate.
Qed.
Definition cut (l : transaction_log) : Prop := len (tl_base_bytes l) = 512.
Lemma apply_safe bad logs p : Forall cut logs -> R (ps_state p) -> set_up p -> safe (apply_transaction_logs order fuel bad logs p).
Proof.
  intros C M S. unfold apply_transaction_logs. destruct logs as [|l logs]; [discriminate|].
  assert (X : safe (prepare_logs bad p (l :: logs)) /\ forall go p1 logs1, prepare_logs bad p (l :: logs) = Ok (go, p1, logs1) -> R (ps_state p1) /\ set_up p1).
  { unfold prepare_logs.
    assert (H : let r := if bad then handle_bad_checksum p (l :: logs) else Ok (p, l :: logs) in
      safe r /\ forall p1 logs1, r = Ok (p1, logs1) -> R (ps_state p1) /\ set_up p1).
    { cbv zeta. destruct bad; [|split; [discriminate|now intros p1 logs1 [= <- _]]].
      unfold handle_bad_checksum. cbv zeta.
      assert (LA : exists x, last (map Some (l :: logs)) None = Some x /\ cut x).
      { clear -C. revert C. generalize l. induction logs as [|y logs IH]; intros x C; [exists x; split; [reflexivity|now inversion C]|].
        inversion C; subst. now apply (IH y). }
      destruct LA as (x & -> & CX). cbn [or_panic].
      change (ps_buffer (ps_log WarningBaseBlock p)) with (ps_buffer p). destruct S as (S1 & S2).
      rewrite get_range_at by (change BASE_BLOCK_LEN with 512; lia). cbn [ok_or]. unfold cut in CX.
      destruct (overwrite_fit (ps_buffer p) 0 (tl_base_bytes x)) as (b & E); [lia|]. rewrite E. cbn [or_panic].
      match goal with |- context [init_base_block ?q] => pose proof (base_safe q) as BS; destruct (init_base_block q) as [[[s b2] p3]| | |] eqn:B end;
        try (split; discriminate); [|now elim BS].
      split; [discriminate|]. intros p1 logs1 [= <- _]. split; [|now apply base_set_up in B].
      apply base_block_reached with (order := order) (fuel := fuel) (full := full) (hash := hash) in B; [exact B|]. now apply reached_info. }
    cbv zeta in H. destruct H as (H1 & H2). destruct (if bad then _ else _) as [[p1 logs1]| | |]; try (split; discriminate); [|now elim H1].
    cbv beta iota. destruct (H2 _ _ eq_refl) as (M1 & S1 & S2). destruct (ps_base_block p1) as [bb|] eqn:B; [|now elim S1]. cbn [or_panic].
    assert (SU : set_up p1) by (split; [now rewrite B|exact S2]).
    destruct (_ =? _); (split; [discriminate|]); intros go q logs2 [= _ <- _]; [split; [now apply reached_info|exact SU]|now split]. }
  destruct X as (X1 & X2). destruct (prepare_logs bad p (l :: logs)) as [[[go p1] logs1]| | |]; try discriminate; [|now elim X1].
  cbv beta iota. destruct (X2 _ _ _ eq_refl) as (M1 & S1). destruct go; [|discriminate].
  pose proof (items_safe fuel p1 0 (reached_hst _ _ _ _ _ M1)) as IS.
  destruct (get_reg_items fuel p1 0) as [[items p2]| | |] eqn:G; try discriminate; [|now elim IS]. cbv beta iota.
  assert (M2 : R (ps_state p2)).
  { unfold get_reg_items in G. destruct (ps_recover p1); [|now injection G as _ <-].
    destruct (init_root p1) as [q| | |] eqn:I; try discriminate. apply init_root_state in I.
    destruct (iterate _ _ _ _ _ _); try discriminate. destruct (insert_keys _ _ _); try discriminate. injection G as _ <-. now rewrite I. }
  assert (S2 : set_up p2) by (apply get_reg_items_same in G; exact (same_set_up _ _ G S1)).
  unfold base_block_info. destruct (ps_base_block p2) as [bb|] eqn:B; [|now elim (proj1 S2)]. cbn [or_panic]. cbv beta iota.
  destruct (logs_safe (bb_secondary_seq (bb_base bb)) logs1 0 p2 items M2 S2) as (A1 & A2).
  destruct (apply_logs _ _ _ _ _ _ _) as [[n p3]| | |]; try discriminate; [|now elim A1]. cbv beta iota.
  apply header_safe. now apply (A2 n).
Qed.
End Build.
Lemma search_safe fi st n : safe (find_free_keys_and_values fi st n).
Proof.
  unfold find_free_keys_and_values. assert (A : agree false st st) by apply agree_refl.
  destruct (recover_loop_ok fi st (S (length (fi_buffer fi))) st (fi_hbin fi) n A) as [E|(s & l & ks & vs & E & _)].
  { unfold len. lia. } all: rewrite E; discriminate.
Qed.

(** ** The logs *)
Lemma cut_log f l : log_from_bytes f = Ok l -> cut l.
Proof.
  unfold log_from_bytes. destruct (bbb_from_bytes f) as [[? ?]| | |]; try discriminate. cbv beta iota.
  destruct (many_entries _ _ _) as [[? ?]| | |]; try discriminate. cbv beta iota.
  destruct (get_range f 0 BASE_BLOCK_LEN) as [h|] eqn:G; [|discriminate]. cbn [or_panic]. intros [= <-]. unfold cut. cbn [tl_base_bytes].
  apply get_range_some in G as (G0 & G1 & G2 & G3). change BASE_BLOCK_LEN with 512 in *. lia.
Qed.
Lemma build_safe order fuel hash recover full buffer files : (forall f, In f files -> safe (log_from_bytes f)) ->
  safe (build order fuel hash recover full buffer files).
Proof.
  intros F. unfold build.
  assert (P : safe (parse_logs files) /\ forall ls w, parse_logs files = Ok (ls, w) -> Forall cut ls).
  { unfold parse_logs. assert (PE : safe (parse_each files)).
    { clear -F. induction files as [|f files IH]; [discriminate|]. cbn [parse_each].
      assert (IH1 : safe (parse_each files)) by (apply IH; intros g G; apply F; now right).
      assert (B : forall g : list transaction_log * list log_code -> list transaction_log * list log_code, safe (let* r := parse_each files in Ok (g r))).
      { intros g. apply safe_bind; [exact IH1|intros; discriminate]. }
      assert (SK : safe (let* (ls, w) := parse_each files in Ok (ls, WarningParse :: w))).
      { apply safe_bind; [exact IH1|]. intros [? ?] _. discriminate. }
      assert (TK : safe (match log_from_bytes f with
        | Ok l => let* (ls, w) := parse_each files in Ok (l :: ls, w)
        | Err => let* (ls, w) := parse_each files in Ok (ls, WarningParse :: w)
        | Panic => Panic
        | OutOfFuel => OutOfFuel
        end)).
      { pose proof (F f (or_introl eq_refl)) as L. destruct (log_from_bytes f); try discriminate; [|exact SK|now elim L].
        apply safe_bind; [exact IH1|]. intros [? ?] _. discriminate. }
      destruct f; [exact SK|exact TK]. }
    destruct (parse_each files) as [[ls w]| | |] eqn:E; try (split; discriminate); [|now elim PE].
    split; [discriminate|]. intros ls' w' [= <- _]. apply parse_each_in in E.
    eapply Permutation_Forall; [symmetry; apply sort_perm|]. eapply Forall_impl; [|exact E]. intros l (f & _ & L). now apply cut_log in L. }
  destruct P as (P1 & P2). destruct (parse_logs files) as [[ls w]| | |]; try discriminate; [|now elim P1]. specialize (P2 _ _ eq_refl).
  cbv beta iota zeta. apply safe_bind; [|intros; discriminate]. unfold ps_init.
  set (p0 := mkParser _ _ _ _ _ _). pose proof (base_safe p0) as B0.
  destruct (init_base_block p0) as [[[s bad] p]| | |] eqn:B; try discriminate; [|now elim B0]. cbv beta iota. destruct s; [|discriminate].
  pose proof (base_set_up _ _ _ _ B) as S.
  assert (M : reached order fuel full hash (ps_state p)).
  { eapply base_block_reached; [|exact B]. apply reached_new. }
  destruct recover.
  - destruct (ps_base_block p) as [bb|] eqn:BB; [|now elim (proj1 S)]. cbn [or_panic]. cbv beta iota.
    pose proof (search_safe (ps_file p) (ps_state p) (bb_hive_bins_data_size (bb_base bb))) as SS.
    destruct (find_free_keys_and_values _ _ _) as [st| | |] eqn:FF; try discriminate; [|now elim SS]. cbv beta iota.
    apply safe_bind; [|intros; apply root_safe]. apply (apply_safe order fuel full hash); [exact P2|exact (reached_scan _ _ _ _ _ _ _ _ M FF)|].
    split; [cbn [ps_set_state ps_base_block]; now rewrite BB|apply S].
  - cbv beta iota. apply safe_bind; [|intros; apply root_safe]. now apply (apply_safe order fuel full hash).
Qed.

(** What is left of an entry, and where its size field is. *)
Definition tail_of (i r : list N) : Prop := exists a, i = a ++ r.
Lemma tail_refl i : tail_of i i.
Proof. now exists []. Qed.
Lemma tail_trans a b c : tail_of a b -> tail_of b c -> tail_of a c.
Proof. intros (x & ->) (y & ->). exists (x ++ y). now rewrite app_assoc. Qed.
Lemma take_tail n i a r : take n i = Some (a, r) -> tail_of i r.
Proof. intros E. apply take_some in E as (-> & _). now exists a. Qed.
Lemma u32_tail i x r : le_u32 i = Some (x, r) -> tail_of i r.
Proof. unfold le_u32. destruct (take 4 i) as [[a i1]|] eqn:E; [|discriminate]. intros [= _ <-]. now apply take_tail in E. Qed.
Lemma u64_tail i x r : le_u64 i = Some (x, r) -> tail_of i r.
Proof. unfold le_u64. destruct (take 8 i) as [[a i1]|] eqn:E; [|discriminate]. intros [= _ <-]. now apply take_tail in E. Qed.
Lemma ref_tail i x r : page_ref i = Some (x, r) -> tail_of i r.
Proof.
  unfold page_ref. destruct (le_u32 i) as [[o i1]|] eqn:A; [|discriminate]. destruct (le_u32 i1) as [[s i2]|] eqn:B; [|discriminate].
  intros [= _ <-]. exact (tail_trans _ _ _ (u32_tail _ _ _ A) (u32_tail _ _ _ B)).
Qed.
Lemma refs_tail n : forall i xs r, count_nat page_ref n i = Some (xs, r) -> tail_of i r.
Proof.
  induction n as [|n IH]; intros i xs r; cbn [count_nat]; [intros [= _ <-]; apply tail_refl|].
  destruct (page_ref i) as [[x i1]|] eqn:A; [|discriminate]. destruct (count_nat page_ref n i1) as [[ys i2]|] eqn:B; [|discriminate].
  intros [= _ <-]. exact (tail_trans _ _ _ (ref_tail _ _ _ A) (IH _ _ _ B)).
Qed.
Lemma pages_tail refs : forall i ps r, take_pages refs i = Some (ps, r) -> tail_of i r.
Proof.
  induction refs as [|[o s] refs IH]; intros i ps r; cbn [take_pages]; [intros [= _ <-]; apply tail_refl|].
  destruct (take s i) as [[x i1]|] eqn:A; [|discriminate]. destruct (take_pages refs i1) as [[ys i2]|] eqn:B; [|discriminate].
  intros [= _ <-]. exact (tail_trans _ _ _ (take_tail _ _ _ _ A) (IH _ _ _ B)).
Qed.
Lemma entry_tail i0 size flags seq hbins cnt h1 h2 pages i :
  entry_nom i0 = Some ((size, flags, seq, hbins, cnt, h1, h2, pages), i) ->
  tail_of i0 i /\ bytes_at i0 0 4 = HVLE /\ size = num_at i0 4 4.
Proof.
  unfold entry_nom. destruct (tag HVLE i0) as [[? i1]|] eqn:E1; [|easy].
  destruct (le_u32 i1) as [[x2 i2]|] eqn:E2; [|easy].
  destruct (le_u32 i2) as [[x3 i3]|] eqn:E3; [|easy].
  destruct (le_u32 i3) as [[x4 i4]|] eqn:E4; [|easy].
  destruct (le_u32 i4) as [[x5 i5]|] eqn:E5; [|easy].
  destruct (le_u32 i5) as [[x6 i6]|] eqn:E6; [|easy].
  destruct (le_u64 i6) as [[x7 i7]|] eqn:E7; [|easy].
  destruct (le_u64 i7) as [[x8 i8]|] eqn:E8; [|easy].
  destruct (count page_ref x6 i8) as [[x9 i9]|] eqn:E9; [|easy].
  destruct (take_pages x9 i9) as [[x10 i10]|] eqn:E10; [|easy].
  destruct (parser_eat_remaining i10 x2 (len i0 - len i10)) as [[x11 i11]|] eqn:E11; [|easy].
  intros [= <- <- <- <- <- <- <- <- <-].
  apply tag_some in E1 as (-> & _).
  split; [|split; [reflexivity|]].
  - apply (tail_trans _ i1); [now exists HVLE|]. apply (tail_trans _ i2); [now apply u32_tail in E2|].
    apply (tail_trans _ i3); [now apply u32_tail in E3|]. apply (tail_trans _ i4); [now apply u32_tail in E4|].
    apply (tail_trans _ i5); [now apply u32_tail in E5|]. apply (tail_trans _ i6); [now apply u32_tail in E6|].
    apply (tail_trans _ i7); [now apply u64_tail in E7|]. apply (tail_trans _ i8); [now apply u64_tail in E8|].
    apply (tail_trans _ i9).
    { unfold count in E9. destruct (x6 <=? _) in E9; [|discriminate]. now apply refs_tail in E9. }
    apply (tail_trans _ i10); [now apply pages_tail in E10|].
    unfold parser_eat_remaining in E11. destruct (_ - _ <? x2) in E11; [now apply take_tail in E11|]. injection E11 as _ <-. apply tail_refl.
  - pose proof (le_u32_len _ _ _ E2) as L. pose proof (le_u32_rest i1 0 ltac:(lia)) as Q. rewrite rest_at_0 in Q. rewrite Q in E2. injection E2 as <- _.
    change (num_at i1 0 4 = num_at (HVLE ++ i1) 4 4). change i1 with (rest_at (HVLE ++ i1) 4) at 1. now rewrite num_at_rest.
Qed.
Lemma tail_rest f i : tail_of f i -> exists pos, i = rest_at f pos.
Proof. intros (a & ->). exists (len a). unfold rest_at. now rewrite skipn_app_len. Qed.
Lemma many_panic f total : forall fuel i, tail_of f i -> many_entries fuel total i = Panic -> exists pos, short_entry f pos.
Proof.
  induction fuel as [|fuel IH]; intros i T; cbn [many_entries]; [discriminate|]. rewrite entry_split.
  destruct (entry_nom i) as [[[[[[[[[size flags] seq] hbins] cnt] h1] h2] pages] r]|] eqn:F; [|discriminate].
  pose proof (entry_tail _ _ _ _ _ _ _ _ _ _ F) as (T1 & H & SZ). apply entry_nom_facts in F as (L1 & L2 & _).
  unfold calc_hash1, calc_hash2. rewrite (get_range_at i 0 32) by lia. cbn [or_panic].
  destruct (N.ltb_spec size 40) as [LT|GE].
  - intros _. apply tail_rest in T as (pos & ->). exists pos. rewrite bytes_at_rest in H. rewrite num_at_rest in SZ. rewrite len_rest_at in L2.
    split; [lia|]. rewrite N.add_0_r in H. split; [exact H|]. lia.
  - rewrite get_range_at by lia. cbn [or_panic]. cbv beta iota.
    pose proof (IH r (tail_trans _ _ _ T T1)) as P.
    match goal with |- context [if ?b then _ else _] => destruct b end; cbv beta iota;
    destruct (many_entries fuel total r) as [[es i']| | |]; try discriminate; intros _; now apply P.
Qed.
Lemma log_panic f : log_from_bytes f = Panic -> exists pos, short_entry f pos.
Proof.
  unfold log_from_bytes. destruct (bbb_cases f) as [(L & _ & name & w & _ & ->)|(_ & ->)]; [|discriminate]. cbv beta iota.
  rewrite get_range_at by (change BASE_BLOCK_LEN with 512; lia). cbn [or_panic].
  destruct (many_entries _ _ _) as [[es i]| | |] eqn:E; try discriminate. intros _. eapply many_panic; [|exact E].
  exists (firstn 512 f). unfold rest_at. symmetry. exact (firstn_skipn 512 f).
Qed.

(** ** Nothing aborts while keys are read with a filter *)
Section Filtered.
Variables (fi : file_info) (rp : list N).
Hypotheses (BO : bytes_ok (fi_buffer fi)) (HD : hd_error rp = Some 92).
Definition placed (path : list N) : Prop := is_text path /\ under rp path.
Definition fine (k : key_node) : Prop :=
  Forall dead (kn_deleted k) /\ (is_allocated (kn_state k) = true -> 0 < kd_nsub (kn_detail k) -> placed (kn_path k)).
Definition steady (st : state) : Prop := cachedr rp st /\ dead_maps st.
Lemma fine_same k k' : fine k -> kn_deleted k' = kn_deleted k -> kn_state k' = kn_state k -> kn_detail k' = kn_detail k -> kn_path k' = kn_path k -> fine k'.
Proof. intros F A B C D. unfold fine. now rewrite A, B, C, D. Qed.
Lemma dead_fine k : dead k -> fine k.
Proof. intros [D F]. split; [exact F|]. rewrite D. discriminate. Qed.
Lemma read_fine st o : is_text (op_path o) -> op_filter o = None \/ under rp (op_path o) -> steady st ->
  safe (kn_read fi st o) /\ forall c st', kn_read fi st o = Ok (c, st') -> steady st'
    /\ forall k, c = Some k -> Forall dead (kn_deleted k) /\ kn_path k = op_path o ++ [92] ++ kn_name k /\ is_text (kn_name k).
Proof.
  intros T U (C & D).
  assert (N0 : safe (kn_read fi st (unnoted o)) /\ forall c st', kn_read fi st (unnoted o) = Ok (c, st') -> steady st'
    /\ forall k, c = Some k -> kn_deleted k = [] /\ kn_path k = op_path o ++ [92] ++ kn_name k /\ is_text (kn_name k)).
  { destruct (read_any fi st (unnoted o) rp BO HD T U C (or_introl eq_refl)) as [E|(c & st' & E & C' & RO & F)]; rewrite E; (split; [discriminate|]); [discriminate|].
    intros c1 st1 [= <- <-]. split; [split; [exact C'|now apply (root_only_dead st)]|]. intros k K. destruct (F k K) as (_ & _ & F3 & F4 & _ & F6 & _). auto. }
  destruct N0 as (N0 & N1). destruct (op_modified o) eqn:M.
  - rewrite (read_noted _ _ _ M). destruct (kn_read fi st (unnoted o)) as [[[k|] st1]| | |] eqn:E; try (split; discriminate); [| |now elim N0].
    + destruct (N1 _ _ eq_refl) as (S1 & K1). destruct (K1 k eq_refl) as (K2 & K3 & K4).
      pose proof (uml_live st1 (proj2 S1) (uml_fuel st1) k) as L.
      destruct (uml_total st1 (uml_fuel st1) k) as [(k' & UK)|UK]; rewrite UK in *; (split; [discriminate|]); [|discriminate].
      intros c st' [= <- <-]. split; [exact S1|]. intros k2 [= <-]. destruct L as (L & FT & _).
      apply live_iff in L as (L & _). apply root_fields in L as (L1 & L2 & L3 & L4 & L5). rewrite L3, L4.
      split; [apply FT; unfold fit; rewrite K2; constructor|]. auto.
    + split; [discriminate|]. intros c st' [= <- <-]. destruct (N1 _ _ eq_refl) as (S1 & _). split; [exact S1|]. discriminate.
  - assert (EO : kn_read fi st o = kn_read fi st (unnoted o)) by (unfold unnoted; destruct o; cbn in *; now rewrite M).
    rewrite EO. split; [exact N0|]. intros c st' E. destruct (N1 _ _ E) as (S1 & K1). split; [exact S1|]. intros k K.
    destruct (K1 k K) as (K2 & K3). rewrite K2. split; [constructor|exact K3].
Qed.
Lemma placed_child path name : placed path -> is_text name -> placed (path ++ [92] ++ name).
Proof.
  intros (T & r & EU & R) TN. split; [apply text_app; [exact T|apply text_app; [apply text_slash|exact TN]]|].
  rewrite EU. exists (r ++ [92] ++ name). split; [now rewrite <- app_assoc|].
  right. destruct R as [-> |R]; [reflexivity|]. destruct r; [discriminate|exact R].
Qed.
Lemma children_fine path sm f sf seq m offs : placed path -> forall st, steady st ->
  safe (read_children fi st path sm f sf seq m offs)
  /\ forall cs found logs st', read_children fi st path sm f sf seq m offs = Ok (cs, found, logs, st') -> steady st' /\ Forall fine cs /\ Forall (fun c => placed (kn_path c)) cs.
Proof.
  intros P. induction offs as [|o offs IH]; intros st S; cbn [read_children].
  { split; [discriminate|]. intros cs found logs st' [= <- _ _ <-]. split; [exact S|]. split; constructor. }
  destruct (read_fine st (mkOpt o path sf sm seq m) (proj1 P) (or_intror (proj2 P)) S) as (R1 & R2). cbn [op_path] in R2.
  destruct (kn_read fi st _) as [[[c|] st1]| | |]; try (split; discriminate); [| | |now elim R1].
  - destruct (R2 _ _ eq_refl) as (S1 & K). destruct (K c eq_refl) as (K1 & K2 & K3). cbv zeta.
    destruct (IH st1 S1) as (I1 & I2). destruct (read_children _ _ _ _ _ _ _ _ _) as [[[[cs1 fd1] l1] st2]| | |]; try (split; discriminate); [|now elim I1].
    destruct (I2 _ _ _ _ eq_refl) as (S2 & F2 & P2). split; [discriminate|]. intros cs found logs st' [= <- _ _ <-]. split; [exact S2|].
    assert (PC : placed (kn_path c)) by (rewrite K2; now apply placed_child).
    assert (FC : fine c) by (split; [exact K1|auto]).
    assert (CF : fine (child_filter_state sm f c) /\ placed (kn_path (child_filter_state sm f c))).
    { unfold child_filter_state. destruct (kn_filter c); [auto|]. destruct sm; [split; [now apply (fine_same c)|exact PC]|].
      destruct (f_is_valid f); [split; [now apply (fine_same c)|exact PC]|auto]. }
    split; constructor; tauto.
  - destruct (R2 _ _ eq_refl) as (S1 & _). now apply IH.
  - destruct (IH st S) as (I1 & I2). destruct (read_children _ _ _ _ _ _ _ _ _) as [[[[cs1 fd1] l1] st2]| | |]; try (split; discriminate); [|now elim I1].
    split; [discriminate|]. intros cs found logs st' [= <- _ _ <-]. exact (I2 _ _ _ _ eq_refl).
Qed.
Lemma sub_keys_fine st k f seq m : steady st -> fine k ->
  safe (read_sub_keys_internal fi st k f seq m)
  /\ forall k' cs found st', read_sub_keys_internal fi st k f seq m = Ok (k', cs, found, st') -> steady st' /\ fine k' /\ Forall fine cs /\ Forall (fun c => placed (kn_path c)) cs.
Proof.
  intros S G. unfold read_sub_keys_internal.
  assert (STOP : forall q, fine q -> safe (Ok (q, @nil key_node, false, st)) /\ forall k' cs found st', Ok (q, @nil key_node, false, st) = Ok (k', cs, found, st') -> steady st' /\ fine k' /\ Forall fine cs /\ Forall (fun c => placed (kn_path c)) cs).
  { intros q Q. split; [discriminate|]. intros k' cs found st' [= <- <- _ <-]. split; [exact S|]. split; [exact Q|]. split; constructor. }
  destruct (is_allocated _) eqn:AL; [|now apply STOP]. destruct (1048576 <? _); [apply STOP; now apply (fine_same k)|].
  destruct (N.ltb_spec 0 (kd_nsub (kn_detail k))) as [NS|NS]; [|now apply STOP]. pose proof (list_safe fi (kd_sublist (kn_detail k))) as L.
  destruct (parse_sub_key_list _ _ _) as [offs| | |]; try (split; discriminate); [|apply STOP; now apply (fine_same k)|now elim L].
  cbv zeta. pose proof (proj2 G AL NS) as P.
  match goal with |- context [read_children fi st ?a ?b ?c ?d ?e ?g offs] => destruct (children_fine a b c d e g offs P st S) as (C1 & C2);
    destruct (read_children fi st a b c d e g offs) as [[[[cs1 fd1] l1] st2]| | |] end; try (split; discriminate); [|now elim C1].
  destruct (C2 _ _ _ _ eq_refl) as (S2 & F2 & P2). split; [discriminate|]. intros k' cs found st' [= <- <- _ <-].
  split; [exact S2|]. split; [now apply (fine_same k)|auto].
Qed.
Definition fine_cx (c : context) : Prop := steady (cx_state c) /\ Forall fine (cx_stack c).
Lemma fold_fine (g : context -> key_node -> context) l : (forall k c, fine k -> fine_cx c -> fine_cx (g c k)) -> Forall fine l ->
  forall c, fine_cx c -> fine_cx (fold_left g l c).
Proof. intros H F. induction F as [|k l K F IH]; intros c C; [exact C|]. cbn [fold_left]. apply IH. now apply H. Qed.
Lemma visit_fine cx k : fine_cx cx -> fine k -> safe (visit fi cx k) /\ forall k' cx', visit fi cx k = Ok (k', cx') -> fine_cx cx'.
Proof.
  intros C G. unfold visit.
  assert (X : forall k1 cx1, fine k1 -> fine_cx cx1 -> fine_cx (fold_left (fun cx d => push d cx) (map (kn_set_filter (kn_filter k1)) (kn_deleted k1)) cx1)).
  { intros k1 cx1 K1 C1. apply fold_fine; [| |exact C1].
    - intros q c Q (A & B). split; [exact A|now constructor].
    - apply Forall_map. eapply Forall_impl; [|exact (proj1 K1)]. intros d Z. apply dead_fine. now apply dead_filter. }
  destruct (0 <? _); [|split; [discriminate|intros k' cx' [= _ <-]; now apply X]].
  destruct (sub_keys_fine (cx_state cx) k (cx_filter cx) None (cx_modified cx) (proj1 C) G) as (R1 & R2).
  destruct (read_sub_keys_internal _ _ _ _ _ _) as [[[[k2 cs] fd] st]| | |]; try (split; discriminate); [|now elim R1].
  destruct (R2 _ _ _ _ eq_refl) as (S2 & K2 & F2 & _). cbv beta iota zeta. split; [discriminate|]. intros k' cx' [= _ <-].
  apply (X (kn_set_to_return (w32 (len cs)) k2)); [now apply (fine_same k2)|].
  apply (fold_fine (fun cx c => push_check c cx)); [|now apply Forall_rev|split; [exact S2|apply C]].
  intros q c Q (C1 & C2). unfold push_check. destruct (existsb _ _); [now split|]. split; [exact C1|now constructor].
Qed.
Lemma next_pre_fine : forall fuel cx, fine_cx cx -> safe (next_key_preorder fuel fi cx) /\ forall o cx', next_key_preorder fuel fi cx = Ok (o, cx') -> fine_cx cx'.
Proof.
  induction fuel as [|fuel IH]; intros cx F; cbn [next_key_preorder]; [split; discriminate|].
  destruct (cx_stack cx) as [|k rest] eqn:ST; [split; [discriminate|now intros o cx' [= _ <-]]|].
  pose proof (proj2 F) as FS. rewrite ST in FS. inversion FS; subst.
  destruct (visit_fine (cx_set_stack rest cx) k) as (V & W); [split; [apply F|assumption]|assumption|]. destruct (visit fi _ k) as [[k' cx1]| | |]; try (split; discriminate); [|now elim V].
  cbv beta iota. specialize (W _ _ eq_refl). destruct (_ || _); [split; [discriminate|now intros o cx' [= _ <-]]|]. now apply IH.
Qed.
Lemma next_post_fine : forall fuel cx, fine_cx cx -> safe (next_key_postorder fuel fi cx) /\ forall o cx', next_key_postorder fuel fi cx = Ok (o, cx') -> fine_cx cx'.
Proof.
  induction fuel as [|fuel IH]; intros cx F; cbn [next_key_postorder]; [split; discriminate|].
  destruct (cx_stack cx) as [|k rest] eqn:ST.
  { destruct (cx_return cx) as [|top r]; [split; [discriminate|now intros o cx' [= _ <-]]|]. cbv zeta.
    destruct (_ || _); (split; [discriminate|]); intros o cx' [= _ <-]; exact F. }
  pose proof (proj2 F) as FS. rewrite ST in FS. inversion FS; subst.
  assert (X : let r := (let* (node, cx) := visit fi (cx_set_stack rest cx) k in
      let ret := match cx_return cx with [] => [] | last :: r => kn_set_track (kn_track last + 1) last :: r end in
      next_key_postorder fuel fi (cx_set_return (node :: ret) cx)) in safe r /\ forall o cx', r = Ok (o, cx') -> fine_cx cx').
  { cbv zeta. destruct (visit_fine (cx_set_stack rest cx) k) as (V & W); [split; [apply F|assumption]|assumption|].
    destruct (visit fi _ k) as [[k' cx1]| | |]; try (split; discriminate); [|now elim V].
    cbv beta iota. specialize (W _ _ eq_refl). apply IH. exact W. }
  cbv zeta in X. destruct (cx_return cx) as [|last r]; [exact X|]. destruct (_ =? _); [|exact X].
  split; [discriminate|]. intros o cx' [= _ <-]. exact F.
Qed.
Lemma collect_fine post : forall fuel cx, fine_cx cx -> safe (collect post fuel fi cx).
Proof.
  induction fuel as [|fuel IH]; intros cx F; cbn [collect]; [discriminate|].
  assert (X : safe ((if post then next_key_postorder else next_key_preorder) (S fuel) fi cx)
    /\ forall o cx', (if post then next_key_postorder else next_key_preorder) (S fuel) fi cx = Ok (o, cx') -> fine_cx cx').
  { destruct post; [now apply next_post_fine|now apply next_pre_fine]. }
  destruct X as (A & B). apply safe_bind; [exact A|]. intros [o cx1] E. specialize (B _ _ E).
  destruct o as [k|]; [|discriminate]. apply safe_bind; [now apply IH|intros; discriminate].
Qed.
Lemma find_fine f seq : forall fuel st k, steady st -> fine k -> safe (get_sub_key_internal fuel fi st k f seq)
  /\ forall o st', get_sub_key_internal fuel fi st k f seq = Ok (o, st') -> steady st'.
Proof.
  induction fuel as [|fuel IH]; intros st k S K; cbn [get_sub_key_internal]; [split; discriminate|].
  destruct (sub_keys_fine st k f seq false S K) as (R1 & R2).
  destruct (read_sub_keys_internal _ _ _ _ _ _) as [[[[k2 cs] fd] st1]| | |]; try (split; discriminate); [|now elim R1].
  destruct (R2 _ _ _ _ eq_refl) as (S1 & _ & F1 & _). cbv beta iota. destruct fd; [split; [discriminate|now intros o st' [= _ <-]]|].
  clear R1 R2. revert st1 S1. induction F1 as [|c cs FC F1 IC]; intros st1 S1; [split; [discriminate|now intros o st' [= _ <-]]|].
  destruct (IH st1 c S1 FC) as (I1 & I2). destruct (get_sub_key_internal fuel fi st1 c f seq) as [[o st2]| | |]; try (split; discriminate); [|now elim I1].
  specialize (I2 _ _ eq_refl). cbv beta iota. destruct o as [key|]; [split; [discriminate|now intros o st' [= _ <-]]|]. now apply IC.
Qed.
End Filtered.

(** ** Nothing aborts on an opened file *)
(** What opening any file leaves. *)
Definition at_root : read_options := mkOpt 4128 [] None true None true.
Record opened_any (p : parser) : Prop := {
  oa_file : ps_file p = mkFI 4096 (ps_buffer p);
  oa_header : exists name, ps_base_block p = Some (base_block_at (ps_buffer p) name);
  oa_offset : st_root_offset (ps_state p) = 0;
  oa_maps : dead_maps (ps_state p);
  oa_root : ps_root p = None \/ kn_read (ps_file p) (ps_state p) at_root = Ok (ps_root p, ps_state p) }.
Lemma base_root p s b p' : init_base_block p = Ok (s, b, p') -> ps_root p' = ps_root p.
Proof.
  unfold init_base_block. destruct (bb_from_bytes _) as [[bb rest]| | |]; try discriminate. cbv beta iota zeta. unfold check_base_block.
  destruct (is_supported bb); [|intros [= _ _ <-]; reflexivity]. destruct (_ =? _); (destruct (get_range _ _ _); [|discriminate]; cbn [or_panic]; cbv beta iota;
    destruct (calculate_checksum _); try discriminate; cbv beta iota; destruct (_ =? _); intros [= _ _ <-]; reflexivity).
Qed.
Lemma headed_file p : headed p -> ps_file p = mkFI 4096 (ps_buffer p).
Proof. intros (H & _). unfold ps_hbin, ps_buffer in *. destruct (ps_file p). cbn in *. now subst. Qed.
Lemma read_info fi st i c : kn_read fi st at_root = Ok (c, st) -> kn_read fi (set_info i st) at_root = Ok (c, set_info i st).
Proof.
  intros R. assert (AG : agree true st (set_info i st)) by (repeat split).
  pose proof (kn_read_agree true st (set_info i st) fi at_root eq_refl AG) as S. rewrite R in S.
  destruct (kn_read fi (set_info i st) at_root) as [[c2 s2]| | |] eqn:R2; try contradiction. destruct S as (<- & _).
  apply read_unfiltered in R2; [|reflexivity]. now subst.
Qed.
Lemma build_opened order fuel hash recover full buffer files p : build order fuel hash recover full buffer files = Ok p -> opened_any p.
Proof.
  intros E0. destruct (reached_inv _ _ _ _ _ (build_reached _ _ _ _ _ _ _ _ E0)) as (Z & _ & _ & D).
  revert E0. unfold build. destruct (parse_logs files) as [[logs w]| | |]; try discriminate. cbv beta iota zeta. unfold ps_init.
  destruct (init_base_block _) as [[[s bad] p0]| | |] eqn:B; try discriminate. pose proof (base_root _ _ _ _ B) as RB.
  apply init_base_ok in B as (H0 & B0 & R0 & S0 & T0). cbv beta iota.
  match goal with |- match ?x with _ => _ end = _ -> _ => destruct x as [p1| | |] eqn:E; try discriminate end.
  cbv beta iota. intros [= PE].
  assert (Y : headed p1 /\ (ps_root p1 = None \/ kn_read (ps_file p1) (ps_state p1) at_root = Ok (ps_root p1, ps_state p1))).
  { destruct s; [|injection E as <-; split; [exact H0|left; exact RB]].
    assert (X : forall p2, headed p2 -> match apply_transaction_logs order fuel bad logs p2 with Ok p => init_root p | Err => Err | Panic => Panic | OutOfFuel => OutOfFuel end = Ok p1 ->
      headed p1 /\ (ps_root p1 = None \/ kn_read (ps_file p1) (ps_state p1) at_root = Ok (ps_root p1, ps_state p1))).
    { intros p2 M2. destruct (apply_transaction_logs order fuel bad logs p2) as [p3| | |] eqn:A; try discriminate. apply apply_headed in A; [|exact M2].
      intros J. apply init_root_ok in J as (h & root & -> & _ & R). split; [exact A|]. right. destruct A as (HB & _). rewrite HB in R. exact R. }
    destruct recover; [|exact (X p0 H0 E)]. destruct (ps_base_block p0) as [bb|]; [|discriminate]. cbn [or_panic] in E. cbv beta iota in E.
    destruct (find_free_keys_and_values _ _ _) as [st| | |] eqn:F in E; try discriminate. cbv beta iota in E.
    exact (X (ps_set_state st p0) H0 E). }
  destruct Y as (Y1 & Y2). subst p. split; [exact (headed_file _ Y1)|exact (proj2 (proj2 Y1))|exact Z|exact D|].
  destruct Y2 as [Y2|Y2]; [now left|right]. apply read_info. exact Y2.
Qed.

Lemma sro_same st : set_root_offset (st_root_offset st) st = st.
Proof. now destruct st. Qed.
Lemma lift_keeps {A} (r : res (A * state)) o a st : r = lift o r -> r = Ok (a, st) -> st_root_offset st = o.
Proof. intros E R. rewrite R in E. cbn [lift] in E. injection E as E. now rewrite E. Qed.
Lemma sub_keys_offset fi st k seq m k' cs fd st' : read_sub_keys_internal fi st k None seq m = Ok (k', cs, fd, st') -> st' = st.
Proof.
  intros E. assert (X : st_root_offset st' = st_root_offset st).
  { refine (lift_keeps _ _ _ _ _ E). rewrite <- read_sub_keys_sro. now rewrite sro_same. }
  apply read_sub_keys_state in E. unfold root_only in E. rewrite E. rewrite X. apply sro_same.
Qed.
Lemma parent_state p child k p' : get_parent_key p child = Ok (k, p') -> p' = p.
Proof.
  unfold get_parent_key. cbv zeta. destruct (kn_read _ _ _) as [[r s]| | |] eqn:E; try discriminate. apply read_unfiltered in E; [|reflexivity].
  intros [= _ <-]. subst s. now destruct p.
Qed.
Lemma root_state p k p' : get_root_key p = Ok (k, p') -> p' = p.
Proof.
  unfold get_root_key. destruct (ps_base_block p); [|now intros [= _ <-]]. destruct (kn_read _ _ _) as [[r s]| | |] eqn:E; try discriminate.
  apply read_unfiltered in E; [|reflexivity]. intros [= _ <-]. subst s. now destruct p.
Qed.
Lemma sub_keys_same fi st k k' cs st' : read_sub_keys fi st k = Ok (k', cs, st') -> st' = st.
Proof.
  unfold read_sub_keys. destruct (read_sub_keys_internal _ _ _ _ _ _) as [[[[n c] fd] s]| | |] eqn:E; try discriminate.
  apply sub_keys_offset in E. now intros [= _ _ <-].
Qed.
Lemma by_index_same fi st k i k' c st' : get_sub_key_by_index fi st k i = Ok (k', c, st') -> st' = st.
Proof.
  unfold get_sub_key_by_index. destruct (_ <? _); [|now intros [= _ _ <-]].
  destruct (parse_sub_key_list _ _ _); try discriminate; [|now intros [= _ _ <-]].
  destruct (get_at _ _); [|now intros [= _ _ <-]].
  destruct (kn_read _ _ _) as [[c2 s]| | |] eqn:E; try discriminate; [|now intros [= _ _ <-]].
  apply read_unfiltered in E; [|reflexivity]. now intros [= _ _ <-].
Qed.
Lemma next_same fi st k k' c st' : next_sub_key fi st k = Ok (k', c, st') -> st' = st.
Proof.
  unfold next_sub_key. destruct (get_sub_key_by_index _ _ _ _) as [[[n [c2|]] s2]| | |] eqn:G; try discriminate;
  apply by_index_same in G; now intros [= _ _ <-].
Qed.
Lemma same_parser p : ps_set_state (ps_state p) p = p.
Proof. now destruct p. Qed.
Lemma asked_moved p p' : asked p p' -> moved p p'.
Proof.
  induction 1 as [|p1 p2 k U IH E|p1 p2 fuel path hr k U IH E|p1 p2 child k U IH E|p1 parent k ks st U IH E|p1 parent i k c st U IH E|p1 parent k c st U IH E].
  - apply moved_refl.
  - apply root_state in E. now subst.
  - eapply moved_trans; [exact IH|]. now apply get_key_moved in E.
  - apply parent_state in E. now subst.
  - apply sub_keys_same in E. subst. now rewrite same_parser.
  - apply by_index_same in E. subst. now rewrite same_parser.
  - apply next_same in E. subst. now rewrite same_parser.
Qed.
(** *** The calls without a filter never abort, whatever they are given *)
Lemma root_key_safe p : safe (get_root_key p).
Proof.
  unfold get_root_key. destruct (ps_base_block p); [|discriminate]. apply safe_bind; [apply read_safe; now left|]. intros [c s] _. discriminate.
Qed.
Lemma parent_safe p k : safe (get_parent_key p k).
Proof. unfold get_parent_key. cbv zeta. apply safe_bind; [apply read_safe; now left|]. intros [c s] _. discriminate. Qed.
Lemma all_sub_keys_safe fi st k : safe (read_sub_keys fi st k).
Proof. unfold read_sub_keys. apply safe_bind; [apply sub_keys_safe|]. intros [[[a b] c] s] _. discriminate. Qed.
Lemma by_index_safe fi st k i : safe (get_sub_key_by_index fi st k i).
Proof.
  unfold get_sub_key_by_index. destruct (_ <? _); [|discriminate]. pose proof (list_safe fi (kd_sublist (kn_detail k))) as L.
  destruct (parse_sub_key_list _ _ _); try discriminate; [|now elim L]. destruct (get_at _ _) as [o|]; [|discriminate].
  pose proof (read_safe fi st (mkOpt o (kn_path k) None (is_match_or_desc k) None true) (or_introl eq_refl)) as R.
  destruct (kn_read _ _ _) as [[c s]| | |]; try discriminate. now elim R.
Qed.
Lemma next_sub_safe fi st k : safe (next_sub_key fi st k).
Proof. unfold next_sub_key. apply safe_bind; [apply by_index_safe|]. intros [[a [c|]] s] _; discriminate. Qed.
(** *** Calls with a filter *)
Section Calls.
Variables (p0 : parser).
Hypotheses (O : opened_any p0) (BO : bytes_ok (ps_buffer p0)).
Lemma safe_iterate rp n p f anc m post : moved p0 p -> cachedr rp (ps_state p) -> hd_error rp = Some 92 ->
  (forall k, ps_root p0 = Some k -> rp = 92 :: kn_name k) -> safe (iterate n p f anc m post).
Proof.
  intros (st & -> & R) C HD RP. unfold iterate. cbn [ps_set_state ps_file] in *. apply (collect_fine (ps_file p0) rp BO HD).
  split; cbn [from_parser cx_state cx_stack ps_set_state ps_state ps_root] in *; [split; [exact C|exact (root_only_dead _ _ R (oa_maps _ O))]|].
  constructor; [|constructor]. destruct (oa_root _ O) as [N0|RD].
  - rewrite N0. split; [constructor|]. intros _ X. cbn in X. lia.
  - destruct (ps_root p0) as [k|] eqn:PR; [|split; [constructor|intros _ X; cbn in X; lia]].
    assert (CZ : cachedr rp (ps_state p0)) by (left; exact (oa_offset _ O)).
    destruct (read_fine (ps_file p0) rp BO HD (ps_state p0) at_root text_nil (or_introl eq_refl) (conj CZ (oa_maps _ O))) as (_ & F).
    destruct (F _ _ RD) as (_ & K). destruct (K k eq_refl) as (K1 & K2 & K3). split; [exact K1|]. intros _ _. rewrite K2, (RP k eq_refl).
    split; [now apply AnyOpen.text_root|]. exists []. rewrite app_nil_r. split; [reflexivity|now left].
Qed.
Lemma safe_get_key p n path has_root : moved p0 p ->
  (forall k p1, get_root_key p = Ok (Some k, p1) -> cachedr (92 :: kn_name k) (ps_state p)) ->
  safe (get_key n p path has_root)
  /\ forall o p', get_key n p path has_root = Ok (o, p') -> ps_state p' = ps_state p
       \/ exists k, get_root_key p = Ok (Some k, p) /\ cachedr (92 :: kn_name k) (ps_state p').
Proof.
  intros (st & -> & R) C. unfold get_key. pose proof (root_key_safe (ps_set_state st p0)) as RS.
  destruct (get_root_key (ps_set_state st p0)) as [[[k|] p1]| | |] eqn:E; try (split; discriminate); [| | |now elim RS].
  - specialize (C _ _ eq_refl). cbn [ps_set_state ps_state] in C. pose proof (root_state _ _ _ E) as E1. subst p1. cbv zeta. cbn [ps_set_state ps_file ps_state].
    assert (D : dead_maps st) by exact (root_only_dead _ _ R (oa_maps _ O)).
    destruct (oa_header _ O) as (nm & BB). pose proof E as ER. unfold get_root_key in E. cbn [ps_set_state ps_base_block] in E. rewrite BB in E. cbv beta iota in E.
    match type of E with context [kn_read ?fi ?s ?o] => destruct (read_fine (ps_file p0) (92 :: kn_name k) BO eq_refl st o text_nil (or_introl eq_refl) (conj C D)) as (_ & F);
      destruct (kn_read fi s o) as [[c s1]| | |] eqn:RD; try discriminate E end.
    cbv beta iota in E. injection E as -> _. destruct (F _ _ RD) as (_ & K). destruct (K k eq_refl) as (K1 & K2 & K3). cbn [op_path app] in K2.
    assert (FK : fine (92 :: kn_name k) k).
    { split; [exact K1|]. intros _ _. rewrite K2. split; [now apply AnyOpen.text_root|]. exists []. rewrite app_nil_r. split; [reflexivity|now left]. }
    unfold get_sub_key_by_path.
    match goal with |- context [match ?sub with [] => Ok (Some k, st) | _ => _ end] => destruct sub as [|c0 sub0] end.
    { split; [discriminate|]. intros o p' [= _ <-]. now left. }
    match goal with |- context [get_sub_key_internal n ?fi st k ?f ?s] => destruct (find_fine (ps_file p0) (92 :: kn_name k) BO eq_refl f s n st k (conj C D) FK) as (G1 & G2);
      destruct (get_sub_key_internal n (ps_file p0) st k f s) as [[o2 s2]| | |] end; try (split; discriminate); [|now elim G1].
    split; [discriminate|]. intros o p' [= _ <-]. right. exists k. split; [reflexivity|]. exact (proj1 (G2 _ _ eq_refl)).
  - split; [discriminate|]. intros o p' [= _ <-]. apply root_state in E. subst. now left.
  - split; [discriminate|]. intros o p' [= _ <-]. now left.
Qed.
(** After opening, whatever the header says of the root. *)
Lemma fresh_iterate n f anc m post : safe (iterate n p0 f anc m post).
Proof.
  destruct (ps_root p0) as [k|] eqn:PR.
  - apply (safe_iterate (92 :: kn_name k)); [apply moved_refl|left; exact (oa_offset _ O)|reflexivity|]. rewrite PR. now intros k2 [= <-].
  - apply (safe_iterate [92]); [apply moved_refl|left; exact (oa_offset _ O)|reflexivity|]. rewrite PR. discriminate.
Qed.
Lemma fresh_get_key n path has_root : safe (get_key n p0 path has_root).
Proof. apply safe_get_key; [apply moved_refl|]. intros k p1 _. left. exact (oa_offset _ O). Qed.
End Calls.
(** *** After any calls, when the header says that the root is the first cell *)
Lemma root_offset_32 b name : num_at b 36 4 = 32 -> w64 (i32_as_usize (bb_root_offset (bb_base (base_block_at b name))) + 4096) = 4128.
Proof. intros R. cbn [base_block_at bb_base header_at bb_root_offset]. rewrite <- to_i32_at, R. reflexivity. Qed.
Definition here (p0 p : parser) : Prop := moved p0 p /\ exists rp, cachedr rp (ps_state p) /\ hd_error rp = Some 92
  /\ (forall k, ps_root p0 = Some k -> rp = 92 :: kn_name k) /\ (forall k q, get_root_key p = Ok (Some k, q) -> rp = 92 :: kn_name k).
Lemma root_read p0 p : opened_any p0 -> num_at (ps_buffer p0) 36 4 = 32 -> moved p0 p ->
  get_root_key p = match kn_read (ps_file p0) (ps_state p0) at_root with
    Ok (c, _) => Ok (c, p) | Err => Err | Panic => Panic | OutOfFuel => OutOfFuel end.
Proof.
  intros O R (st & -> & RO). unfold get_root_key. cbn [ps_set_state ps_base_block ps_file ps_state]. destruct (oa_header _ O) as (nm & ->).
  change (ps_hbin (ps_set_state st p0)) with (fi_hbin (ps_file p0)). rewrite (oa_file _ O) at 2. cbn [fi_hbin]. rewrite root_offset_32 by exact R.
  unfold root_only in RO. rewrite RO, kn_read_sro by now left. fold at_root. destruct (kn_read (ps_file p0) (ps_state p0) at_root) as [[c s]| | |] eqn:E; try reflexivity.
  cbn [lift]. cbv beta iota. apply read_unfiltered in E; [|reflexivity]. subst s. now destruct p0.
Qed.
Lemma here_start p0 : opened_any p0 -> num_at (ps_buffer p0) 36 4 = 32 -> here p0 p0.
Proof.
  intros O R. split; [apply moved_refl|]. pose proof (root_read p0 p0 O R (moved_refl p0)) as G.
  destruct (kn_read (ps_file p0) (ps_state p0) at_root) as [[[k|] s]| | |] eqn:E.
  - exists (92 :: kn_name k). split; [left; exact (oa_offset _ O)|]. split; [reflexivity|]. split.
    + intros k2 K2. destruct (oa_root _ O) as [N0|RD]; [congruence|]. rewrite E in RD. injection RD as RD _. congruence.
    + rewrite G. now intros k2 q [= <- _].
  - now apply AnyOpen.read_some in E.
  - exists [92]. split; [left; exact (oa_offset _ O)|]. split; [reflexivity|]. split; [|rewrite G; discriminate].
    intros k2 K2. destruct (oa_root _ O) as [N0|RD]; [congruence|]. rewrite E in RD. discriminate.
  - exists [92]. split; [left; exact (oa_offset _ O)|]. split; [reflexivity|]. split; [|rewrite G; discriminate].
    intros k2 K2. destruct (oa_root _ O) as [N0|RD]; [congruence|]. rewrite E in RD. discriminate.
  - exists [92]. split; [left; exact (oa_offset _ O)|]. split; [reflexivity|]. split; [|rewrite G; discriminate].
    intros k2 K2. destruct (oa_root _ O) as [N0|RD]; [congruence|]. rewrite E in RD. discriminate.
Qed.
Lemma asked_here p0 p : opened_any p0 -> bytes_ok (ps_buffer p0) -> num_at (ps_buffer p0) 36 4 = 32 -> asked p0 p -> here p0 p.
Proof.
  intros O BO R. induction 1 as [|p1 p2 k U IH E|p1 p2 fuel path hr k U IH E|p1 p2 child k U IH E|p1 parent k ks st U IH E|p1 parent i k c st U IH E|p1 parent k c st U IH E].
  - now apply here_start.
  - apply root_state in E. now subst.
  - destruct IH as (M & rp & C & HD & A & B). assert (M2 : moved p0 p2) by (eapply moved_trans; [exact M|now apply get_key_moved in E]).
    split; [exact M2|]. exists rp.
    destruct (safe_get_key p0 O BO p1 fuel path hr M) as (_ & G); [intros k1 q G1; now rewrite <- (B _ _ G1)|].
    split; [|split; [exact HD|split; [exact A|]]].
    + destruct (G _ _ E) as [-> |(k1 & G1 & C1)]; [exact C|]. now rewrite (B _ _ G1).
    + intros k1 q G1. rewrite (root_read p0 p2 O R M2) in G1. pose proof (root_read p0 p1 O R M) as G2.
      destruct (kn_read (ps_file p0) (ps_state p0) at_root) as [[c s]| | |]; try discriminate. injection G1 as -> _. exact (B _ _ G2).
  - apply parent_state in E. now subst.
  - apply sub_keys_same in E. subst. now rewrite same_parser.
  - apply by_index_same in E. subst. now rewrite same_parser.
  - apply next_same in E. subst. now rewrite same_parser.
Qed.
Lemma here_iterate p0 p n f anc m post : opened_any p0 -> bytes_ok (ps_buffer p0) -> here p0 p -> safe (iterate n p f anc m post).
Proof. intros O BO (M & rp & C & HD & A & _). exact (safe_iterate p0 O BO rp n p f anc m post M C HD A). Qed.
Lemma here_get_key p0 p n path hr : opened_any p0 -> bytes_ok (ps_buffer p0) -> here p0 p -> safe (get_key n p path hr).
Proof. intros O BO (M & rp & C & HD & A & B). apply (safe_get_key p0 O BO p n path hr M). intros k q G. now rewrite <- (B _ _ G). Qed.
