(** Values found in free cells are kept through every comparison of a build. *)
From Coq Require Import Permutation.
From Verif Require Import Base BaseFacts Util UtilSpec LayoutSpec LayoutFacts HeaderFacts BaseBlock Types Value Node Recover
  Parser TxLog TxSpec NodeFrame TxApply TxBuild CellSpec CellFacts CellData CellRead TreeOpen ScanSpec ScanFacts ScanOpen ScanAll Recovered LiveSpec LiveView LiveOpen
  StoreSpec StoreFacts AnalysisSpec AnalysisFacts AnalysisStore AnalysisAll AnalysisReach VersionFacts RecIter Ends.

(** ** What the keys of an iteration are made of *)
Definition plain_key (k : key_node) : Prop :=
  kn_path k <> [] /\ Forall (fun v => kv_state v = Allocated) (kn_values k) /\ kn_deleted k = [].
Section Values.
Variable dv : amap (list N) (list key_value).
Definition sourced (v : key_value) : Prop := kv_state v = Allocated \/ exists path l, aget beq path dv = Some l /\ In v l.
Inductive named : key_node -> Prop :=
| named_key k : kn_path k <> [] -> Forall sourced (kn_values k) -> Forall named (kn_deleted k) -> named k.
Lemma plain_named k : plain_key k -> named k.
Proof. intros (P & V & D). constructor; [exact P| |rewrite D; constructor]. eapply Forall_impl; [|exact V]. intros v A. now left. Qed.
Lemma named_same k k' : kn_path k' = kn_path k -> kn_values k' = kn_values k -> kn_deleted k' = kn_deleted k -> named k -> named k'.
Proof. intros P V D N. inversion N as [x N1 N2 N3]; subst. constructor; [now rewrite P|now rewrite V|now rewrite D]. Qed.
End Values.
Definition plain_maps (st : state) : Prop := keyed (fun _ => plain_key) (st_deleted_keys st).
Lemma plain_root st st' : root_only st st' -> plain_maps st -> plain_maps st' /\ st_deleted_values st' = st_deleted_values st.
Proof. intros R M. unfold root_only in R. rewrite R. now split. Qed.

Lemma finish_path st k : kn_path (finish st k) = kn_path k.
Proof. unfold finish. cbv zeta. cbn [kn_set_values kn_path]. destruct (aget beq _ (st_modified_keys st)); reflexivity. Qed.
Lemma finish_values st k : Forall (fun v => kv_state v = Allocated) (kn_values k) ->
  Forall (sourced (st_deleted_values st)) (kn_values (finish st k)).
Proof.
  intros F. unfold finish. cbv zeta. cbn [kn_set_values kn_values]. apply Forall_app. split.
  - apply Forall_map. assert (G : Forall (fun v => kv_state v = Allocated) (kn_values (match aget beq (lookup_path k) (st_modified_keys st) with
      None => k | Some ms => kn_set_versions (sort_by (fun a b => opt_le (kn_seq b) (kn_seq a)) ms) k end))) by (destruct (aget beq _ (st_modified_keys st)); exact F).
    eapply Forall_impl; [|exact G]. cbv beta. intros v A. left. destruct (aget pair_eqb _ _); exact A.
  - destruct (aget beq (lookup_path k) (st_deleted_values st)) as [l|] eqn:A; [|constructor]. apply Forall_forall. intros v I. right.
    exists (lookup_path k), l. split; [exact A|]. eapply Permutation_in; [apply sort_perm|exact I].
Qed.
Lemma uml_named st : plain_maps st -> forall fuel k k', plain_key k -> update_modified_lists fuel st k = Ok k' -> named (st_deleted_values st) k'.
Proof.
  intros M. induction fuel as [|fuel IH]; intros k k' N; [discriminate|]. rewrite uml_eq.
  destruct (is_deleted_primary_file _); [intros [= <-]; now apply plain_named|].
  assert (FI : forall x, kn_path x <> [] -> Forall (fun v => kv_state v = Allocated) (kn_values x) -> Forall (named (st_deleted_values st)) (kn_deleted x) -> named (st_deleted_values st) (finish st x)).
  { intros x X1 X2 X3. constructor; [now rewrite finish_path|now apply finish_values|now rewrite finish_deleted]. }
  destruct N as (N1 & N2 & N3).
  destruct (aget beq (lookup_path k) (st_deleted_keys st)) as [dks|] eqn:A; [|intros [= <-]; apply FI; [exact N1|exact N2|rewrite N3; constructor]].
  destruct (note fuel st (kn_offset k) dks) as [l| | |] eqn:NO; try discriminate. intros [= <-]. apply FI; [exact N1|exact N2|].
  cbn [kn_set_deleted kn_deleted]. pose proof (keyed_aget _ _ _ _ M A) as F. cbv beta in F. clear A. revert l NO.
  induction F as [|d r D F IR]; intros l; cbn [note]; [intros [= <-]; constructor|].
  destruct (if kn_offset d =? kn_offset k then Ok d else update_modified_lists fuel st d) as [d'| | |] eqn:E; try discriminate.
  destruct (note fuel st (kn_offset k) r) as [r'| | |]; try discriminate. intros [= <-]. constructor; [|now apply IR].
  destruct (_ =? _) in E; [injection E as <-; now apply plain_named|now apply (IH d)].
Qed.

(** ** Reading *)
Lemma loop_plain fi st seq offs : forall acc vs logs ok, Forall (fun v => kv_state v = Allocated) acc ->
  read_values_loop fi st seq offs acc = Ok (vs, logs, ok) -> Forall (fun v => kv_state v = Allocated) vs.
Proof.
  induction offs as [|o offs IH]; intros acc vs logs ok A; cbn [read_values_loop]; [now intros [= <- _ _]|].
  destruct (get_at _ _); [|now intros [= <- _ _]]. destruct (get_from _ _) as [s|] eqn:G; [|now intros [= <- _ _]].
  destruct (kv_cases s (o + fi_hbin fi) seq (st_full st)) as [(OK & nm & w & NM & E)|(_ & E)]; rewrite E; [|now intros [= <- _ _]].
  apply IH. apply Forall_app. split; [exact A|]. constructor; [|constructor].
  unfold read_value_bytes. destruct (read_value_bytes_direct _ _ _ _ _) as [[? ?] ?]. reflexivity.
Qed.
Lemma slice_plain fi st s o k st' : op_modified o = false -> read_from_slice fi st s o = Ok (Some k, st') -> plain_key k.
Proof.
  intros EM. unfold read_from_slice. rewrite EM.
  destruct (kn_cases st s (op_offset o) (op_path o) (op_seq o)) as [(OK & nm & w & NM & E)|(_ & E)]; rewrite E; [|discriminate].
  cbv beta iota. set (k0 := kn_at _ _ _ _ _ _ _).
  destruct (match op_filter o with Some f => check_cell f st k0 | None => Ok (IterateKeys, st) end) as [[fl st1]| | |]; try discriminate.
  assert (K0 : plain_key k0).
  { split; [|split; [constructor|reflexivity]]. change (op_path o ++ [92] ++ nm <> []). destruct (op_path o); discriminate. }
  assert (V : forall b k1, (if b : bool then let* (k, ok) := read_values fi st1 (op_seq o) k0 in Ok (if ok : bool then k else kn_add_log WarningParse k) else Ok k0) = Ok k1 -> plain_key k1).
  { intros b k1. destruct b; [|now intros [= <-]].
    destruct (read_values fi st1 (op_seq o) k0) as [[k2 ok]| | |] eqn:RV; try discriminate. cbv beta iota. intros [= <-].
    assert (Y : plain_key k2).
    { revert RV. unfold read_values. destruct (_ && _); [|now intros [= <- _]].
      destruct (1048576 <? _); [now intros [= <- _]|]. destruct (parse_key_values _ _ _) as [offs|]; [|now intros [= <- _]].
      destruct (read_values_loop _ _ _ _ _) as [[[vs logs] ok']| | |] eqn:EL; try discriminate. intros [= <- _].
      split; [apply K0|]. split; [|reflexivity]. exact (loop_plain _ _ _ _ _ _ _ _ (Forall_nil _) EL). }
    destruct ok; exact Y. }
  cbv beta iota. destruct fl; [discriminate| |].
  all: match goal with |- (let* k := (if ?b then _ else _) in _) = _ -> _ => pose proof (V b) as V1 end.
  all: match goal with |- (let* k := ?x in _) = _ -> _ => destruct x as [k1| | |]; try discriminate end.
  all: specialize (V1 k1 eq_refl); cbv beta iota zeta; intros [= <- _]; exact V1.
Qed.
Lemma read_named fi st o k st' : plain_maps st -> kn_read fi st o = Ok (Some k, st') -> named (st_deleted_values st) k.
Proof.
  intros M R. destruct (op_modified o) eqn:EM.
  - rewrite (read_noted _ _ _ EM) in R. destruct (kn_read fi st (unnoted o)) as [[[k1|] st1]| | |] eqn:E; try discriminate.
    destruct (update_modified_lists _ _ _) as [k2| | |] eqn:U; try discriminate. injection R as <- <-.
    destruct (plain_root _ _ (kn_read_state _ _ _ _ _ E) M) as (M1 & <-). apply (uml_named _ M1 _ _ _) in U; [exact U|].
    unfold kn_read in E. destruct (get_from _ _); [|discriminate]. cbn [ok_or] in E. now apply slice_plain in E.
  - apply plain_named. unfold kn_read in R. destruct (get_from _ _); [|discriminate]. cbn [ok_or] in R. now apply slice_plain in R.
Qed.

(** ** The whole iteration *)
Section Walk.
Variables (fi : file_info) (dv : amap (list N) (list key_value)).
Notation named := (named dv).
Definition ready (st : state) : Prop := plain_maps st /\ st_deleted_values st = dv.
Lemma ready_root st st' : root_only st st' -> ready st -> ready st'.
Proof. intros R (M & D). destruct (plain_root _ _ R M) as (M1 & D1). split; [exact M1|congruence]. Qed.
Lemma child_named sm f c : named c -> named (child_filter_state sm f c).
Proof. intros G. unfold child_filter_state. repeat match goal with |- context [if ?b then _ else _] => destruct b end; try exact G; now apply (named_same _ c). Qed.
Lemma children_named path sm f sf seq m offs : forall st cs found logs st', ready st ->
  read_children fi st path sm f sf seq m offs = Ok (cs, found, logs, st') -> Forall named cs.
Proof.
  induction offs as [|o offs IH]; intros st cs found logs st' M; cbn [read_children]; [intros [= <- _ _ _]; constructor|].
  destruct (kn_read fi st _) as [[[c|] st1]| | |] eqn:R; try discriminate.
  - pose proof (ready_root _ _ (kn_read_state _ _ _ _ _ R) M) as M1. apply read_named in R; [|apply M]. rewrite (proj2 M) in R.
    destruct (read_children _ _ _ _ _ _ _ _ _) as [[[[cs1 ?] ?] ?]| | |] eqn:E; try discriminate. intros [= <- _ _ _].
    constructor; [now apply child_named|]. now apply (IH _ _ _ _ _ M1 E).
  - pose proof (ready_root _ _ (kn_read_state _ _ _ _ _ R) M) as M1. intros E. now apply (IH _ _ _ _ _ M1 E).
  - destruct (read_children _ _ _ _ _ _ _ _ _) as [[[[cs1 ?] ?] ?]| | |] eqn:E; try discriminate. intros [= <- _ _ _].
    now apply (IH _ _ _ _ _ M E).
Qed.
Lemma sub_keys_named st k f seq m k' cs found st' : ready st -> named k ->
  read_sub_keys_internal fi st k f seq m = Ok (k', cs, found, st') -> named k' /\ Forall named cs.
Proof.
  intros M G. unfold read_sub_keys_internal.
  assert (GL : forall c, named (kn_add_log c k)) by (intros; now apply (named_same _ k)).
  destruct (is_allocated _); [|intros [= <- <- _ _]; auto]. destruct (1048576 <? _); [intros [= <- <- _ _]; auto|].
  destruct (0 <? _); [|intros [= <- <- _ _]; auto]. destruct (parse_sub_key_list _ _ _) as [offs| | |]; try discriminate.
  - destruct (read_children _ _ _ _ _ _ _ _ _) as [[[[cs1 ?] ?] ?]| | |] eqn:E; try discriminate. intros [= <- <- _ _].
    split; [now apply (named_same _ k)|]. now apply (children_named _ _ _ _ _ _ _ _ _ _ _ _ M E).
  - intros [= <- <- _ _]; auto.
Qed.
Definition named_cx (c : context) : Prop := ready (cx_state c) /\ Forall named (cx_stack c).
Lemma fold_named (g : context -> key_node -> context) l : (forall k c, named k -> named_cx c -> named_cx (g c k)) -> Forall named l ->
  forall c, named_cx c -> named_cx (fold_left g l c).
Proof. intros H F. induction F as [|k l K F IH]; intros c C; [exact C|]. cbn [fold_left]. apply IH. now apply H. Qed.
Lemma visit_named cx k k' cx' : named_cx cx -> named k -> visit fi cx k = Ok (k', cx') -> named k' /\ named_cx cx'.
Proof.
  intros C G. unfold visit.
  match goal with |- match ?x with _ => _ end = _ -> _ => destruct x as [[k1 cx1]| | |] eqn:E; try discriminate end.
  assert (X : named k1 /\ named_cx cx1).
  { destruct (0 <? _) in E; [|injection E as <- <-; auto].
    destruct (read_sub_keys_internal _ _ _ _ _ _) as [[[[k2 cs] fd] st]| | |] eqn:R in E; try discriminate.
    pose proof (ready_root _ _ (read_sub_keys_state _ _ _ _ _ _ _ _ _ _ R) (proj1 C)) as M.
    apply sub_keys_named in R as (R1 & R2); [|apply C|exact G]. injection E as <- <-. split; [now apply (named_same _ k2)|].
    apply (fold_named (fun cx c => push_check c cx)); [|now apply Forall_rev|split; [exact M|apply C]].
    intros q c Q (C1 & C2). unfold push_check. destruct (existsb _ _); [now split|]. split; [exact C1|now constructor]. }
  cbv beta iota. destruct X as (X1 & X3). intros [= <- <-]. inversion X1 as [x Y1 Y2 Y3]; subst.
  assert (D : Forall named (map (kn_set_filter (kn_filter k1)) (kn_deleted k1))).
  { apply Forall_map. eapply Forall_impl; [|exact Y3]. intros d Z. now apply (named_same _ d). }
  split; [constructor; [exact Y1|exact Y2|exact D]|].
  apply (fold_named (fun cx d => push d cx)); [|exact D|exact X3].
  intros q c Q (C1 & C2). split; [exact C1|now constructor].
Qed.
Lemma walk_named c ks : walk fi c ks -> named_cx c -> Forall named ks.
Proof.
  induction 1 as [c S|c k rest k' c' ks S V W IH]; intros (D & F); [constructor|]. rewrite S in F. inversion F; subst.
  apply visit_named in V as (V1 & V2); [|now split|assumption]. destruct (returned c' k'); auto.
Qed.
End Walk.
Lemma read_root_some fi st off seq m root st' : kn_read fi st (mkOpt off [] None true seq m) = Ok (root, st') -> exists r, root = Some r.
Proof.
  unfold kn_read. destruct (get_from _ _); [|discriminate]. cbn [ok_or]. unfold read_from_slice. cbn [op_filter op_modified].
  destruct (kn_from_bytes _ _ _ _ _) as [[k0 r0]| | |]; try discriminate. cbv beta iota.
  match goal with |- (let* k := ?x in _) = _ -> _ => destruct x as [k1| | |]; try discriminate end. cbv beta iota zeta.
  match goal with |- (let* k := ?x in _) = _ -> _ => destruct x as [k2| | |]; try discriminate end. intros [= <- _]. eauto.
Qed.
Lemma shown_named p p1 fuel anc m ks : plain_maps (ps_state p) -> init_root p = Ok p1 -> iterate fuel p1 None anc m false = Ok ks ->
  Forall (named (st_deleted_values (ps_state p))) ks.
Proof.
  intros D I. apply init_root_ok in I as (h & root & -> & _ & R). unfold iterate. intros C. apply collect_walk in C.
  apply (walk_named _ _ _ _ C). split; [now split|]. constructor; [|constructor]. cbn [ps_set_root ps_set_hbin ps_root].
  destruct (read_root_some _ _ _ _ _ _ _ R) as (r & ->). apply read_named in R; [exact R|exact D].
Qed.

(** ** The states of a build *)
Lemma reached_plain order fuel full hash st : reached order fuel full hash st -> plain_maps st.
Proof.
  induction 1 as [|i st R IH|fi st n st' R IH E|fi seq p prior latest p' logs R IH E].
  - constructor.
  - exact IH.
  - revert E. unfold find_free_keys_and_values. assert (A : agree false st st) by apply agree_refl.
    destruct (recover_loop_ok fi st (S (length (fi_buffer fi))) st (fi_hbin fi) n A) as [E|(s & l & ks & vs & E & (w & G) & _ & FK & _)].
    { unfold len. lia. } { rewrite E. discriminate. }
    rewrite E. intros [= <-]. subst s. unfold plain_maps. cbn [st_deleted_keys]. apply keyed_push_all; [|exact IH]. eapply Forall_impl; [|exact FK].
    intros k [(_ & K)|(h & c & _ & _ & _ & _ & K)]; destruct K as (_ & _ & _ & k0 & s & K0 & SC & S & D);
    apply slice_plain in K0; try reflexivity; destruct K0 as (P0 & V0 & _); destruct SC as (_ & _ & _ & S1 & S2 & _); unfold plain_key; rewrite S1, S2; auto.
  - destruct (comparison _ _ _ _ _ _ _ _ _ E) as (p2 & ks2 & prior' & ch & _ & _ & _ & _ & _ & _ & _ & _ & M3 & _). cbv zeta in M3.
    unfold plain_maps. rewrite M3. apply keyed_remove, keyed_pushes; [|exact IH]. apply Forall_forall. intros x X.
    apply in_flat_map in X as (y & _ & X). unfold gone_keys in X. destruct (snd (fst y)); [contradiction|].
    unfold at_path in X. apply in_map_iff in X as (k & <- & X). cbn [fst snd]. unfold old_key in X.
    destruct (kn_read _ _ _) as [[[k0|] st0]| | |] eqn:K; try contradiction. destruct X as [<-|[]].
    unfold kn_read in K. destruct (get_from _ _); [|discriminate]. cbn [ok_or] in K. apply slice_plain in K; [|reflexivity].
    destruct K as (P0 & _ & D0). split; [exact P0|]. split; [constructor|exact D0].
Qed.

Lemma steps_from seq l : forall prior lt ch prior' lt' ch', fold_left (step seq) l (prior, lt, ch) = (prior', lt', ch') ->
  forall w, In w (map fst lt') -> In w (map fst lt) \/ In w (map fst l).
Proof.
  assert (AS : forall w w' (it : item) m, In w (map fst (aset keq w' it m)) -> w = w' \/ In w (map fst m)).
  { intros w w' it m. induction m as [|[q x] m IH]; cbn [aset map fst]; [intros [<-|[]]; now left|].
    destruct (keq w' q) eqn:E; cbn [map fst]; intros [J|J]; subst; auto.
    - right. now left.
    - right. now right.
    - right. now left.
    - destruct (IH J); auto. right. now right. }
  induction l as [|e l IH]; intros prior lt ch prior' lt' ch'; cbn [fold_left]; [intros [= _ <- _]; auto|].
  unfold step at 2. destruct (aget keq (fst e) prior) as [it|]; [destruct (_ =? _)|]; intros F w I; apply (IH _ _ _ _ _ _ F) in I as [I|I]; try (right; now right);
  apply AS in I as [->|I]; auto; right; now left.
Qed.
Lemma removals_kept rm : Forall (fun e => fst (fst e) <> []) rm -> forall m, NoDup (map fst m) ->
  held beq [] (remove_values rm m) = held beq [] m.
Proof.
  induction 1 as [|[[q n] h] rm Q F IH]; intros m D; [reflexivity|]. cbn [fst] in Q. unfold remove_values. cbn [fold_left fst snd].
  destruct (held_remove_values q n h m [] D) as (D1 & H). rewrite (IH _ D1 : held beq [] (fold_left _ rm _) = _), H.
  destruct (beq [] q) eqn:B; [|reflexivity]. apply beq_eq in B. congruence.
Qed.
Lemma compare_kept order fuel full hash fi seq p prior latest p' logs v : (forall m, Permutation (order m) m) ->
  reached order fuel full hash (ps_state p) -> get_latest_reg_items order fuel fi seq p prior = Ok (latest, p', logs) ->
  In v (held beq [] (st_deleted_values (ps_state p))) -> In v (held beq [] (st_deleted_values (ps_state p'))).
Proof.
  intros PO R G I.
  destruct (comparison _ _ _ _ _ _ _ _ _ G) as (p1 & ks & prior' & ch & I1 & _ & IT & _ & F & _ & _ & _ & _ & M4). cbv zeta in M4.
  pose proof (shown_named p p1 fuel false false ks (reached_plain _ _ _ _ _ R) I1 IT) as N.
  rewrite M4, removals_kept.
  - rewrite held_pushes by exact beq_iff. apply in_or_app. now left.
  - apply Forall_forall. intros e E. unfold value_removals in E. apply in_flat_map in E as ([[q o] it] & J & E). cbn [fst snd] in E.
    destruct o as [n|]; [|contradiction]. destruct E as [<-|[]]. cbn [fst].
    apply (Permutation_in _ (PO _)) in J. apply (in_map fst) in J. cbn [fst] in J.
    destruct (steps_from _ _ _ _ _ _ _ _ F _ J) as [[]|S]. apply in_map_iff in S as ([w [h off]] & E & S). cbn [fst] in E. subst w.
    apply sighting_value in S as (k & u & IK & _ & <- & _). rewrite Forall_forall in N. specialize (N k IK). now inversion N.
  - apply pushes_nodup; [exact beq_iff|]. apply (reached_nodup _ _ _ _ _ R).
Qed.

(** ** A build *)
Section Build.
Variables (order : reg_items -> reg_items) (fuel : nat) (full : bool) (hash : list N -> N) (v : key_value).
Hypothesis ORD : forall m, Permutation (order m) m.
Definition kept (st : state) : Prop := reached order fuel full hash st /\ In v (held beq [] (st_deleted_values st)).
Notation R st := (kept st).
Lemma kept_info i st : kept st -> kept (set_info i st).
Proof. intros (A & B). split; [now apply reached_info|exact B]. Qed.
Lemma kept_compare fi seq p prior latest p' logs : kept (ps_state p) -> get_latest_reg_items order fuel fi seq p prior = Ok (latest, p', logs) -> kept (ps_state p').
Proof. intros (A & B) G. split; [exact (reached_compare _ _ _ _ _ _ _ _ _ _ _ A G)|]. exact (compare_kept _ _ _ _ _ _ _ _ _ _ _ _ ORD A G B). Qed.
Lemma analyze_kept fi seq p items i' p' : R (ps_state p) -> analyze_entry order fuel fi seq p items = Ok (i', p') -> R (ps_state p').
Proof.
  intros M. unfold analyze_entry. destruct (ps_recover p); [|now intros [= _ <-]].
  destruct (get_latest_reg_items _ _ _ _ _ _) as [[[l p1] logs]| | |] eqn:E; try discriminate; [|intros [= _ <-]; now apply kept_info].
  intros [= _ <-]. apply kept_info. exact (kept_compare _ _ _ _ _ _ _ M E).
Qed.
Lemma entries_kept sec hbins es : forall n p items n' i' p', R (ps_state p) ->
  update_entries order fuel sec hbins es n p items = Ok (n', i', p') -> R (ps_state p').
Proof.
  induction es as [|e es IH]; intros n p items n' i' p' M; cbn [update_entries]; [now intros [= _ _ <-]|].
  destruct (le_valid_hashes e); [|intros [= _ _ <-]; now apply kept_info].
  destruct (_ <? sec); [apply IH; now apply kept_info|]. destruct (negb _); [intros [= _ _ <-]; now apply kept_info|].
  destruct (_ && _); [intros [= _ _ <-]; now apply kept_info|].
  cbv zeta. destruct (apply_pages _ _ _) as [b| | |]; try discriminate. cbv beta iota.
  destruct (analyze_entry _ _ _ _ _ _) as [[i1 p1]| | |] eqn:E; try discriminate. cbv beta iota.
  apply IH. eapply analyze_kept; [|exact E]. exact M.
Qed.
Lemma logs_kept sec logs : forall n p items n' p', R (ps_state p) ->
  apply_logs order fuel sec logs n p items = Ok (n', p') -> R (ps_state p').
Proof.
  induction logs as [|l logs IH]; intros n p items n' p' M; cbn [apply_logs]; [now intros [= _ <-]|].
  destruct (sec <=? _); [|apply IH; now apply kept_info]. destruct (_ || _); [|apply IH; now apply kept_info].
  unfold update_parser. destruct (base_block_info p) as [[s h]| | |]; try discriminate. cbv beta iota.
  destruct (update_entries _ _ _ _ _ _ _ _) as [[[n1 i1] p1]| | |] eqn:E; try discriminate. cbv beta iota.
  apply IH. now apply entries_kept in E.
Qed.
Lemma base_block_kept p s bad p' : R (ps_state p) -> init_base_block p = Ok (s, bad, p') -> R (ps_state p').
Proof.
  intros M. unfold init_base_block, check_base_block. destruct (bb_from_bytes _) as [[bb r]| | |]; try discriminate. cbv beta iota zeta.
  destruct (is_supported bb); [|intros [= _ _ <-]; now apply kept_info].
  set (q := if _ =? _ then _ else _).
  assert (MQ : R (ps_state q)) by (unfold q; destruct (_ =? _); [exact M|now apply kept_info]).
  destruct (get_range _ _ _); [|discriminate]. cbn [or_panic]. destruct (calculate_checksum _) as [ck| | |]; try discriminate.
  cbv beta iota. clearbody q. destruct (ck =? _); intros [= _ _ <-]; [exact MQ|now apply kept_info].
Qed.
Lemma apply_kept bad logs p p' : R (ps_state p) -> apply_transaction_logs order fuel bad logs p = Ok p' -> R (ps_state p').
Proof.
  intros M. unfold apply_transaction_logs. destruct logs as [|l logs]; [now intros [= <-]|].
  destruct (prepare_logs bad p (l :: logs)) as [[[go p1] logs1]| | |] eqn:E; try discriminate.
  assert (M1 : R (ps_state p1)).
  { assert (X : forall p2, R (ps_state p2) -> forall l2, (let* b := or_panic (ps_base_block p2) in
        if bb_primary_seq (bb_base b) =? bb_secondary_seq (bb_base b) then Ok (false, ps_log WarningTransactionLog p2, l2) else Ok (true, p2, l2)) = Ok (go, p1, logs1) -> R (ps_state p1)).
    { intros p2 M2 l2. destruct (ps_base_block p2); [|discriminate]. cbn [or_panic]. destruct (_ =? _); intros [= _ <- _]; [now apply kept_info|exact M2]. }
    unfold prepare_logs in E. destruct bad.
    - destruct (handle_bad_checksum p (l :: logs)) as [[p2 logs2]| | |] eqn:H; try discriminate. cbv beta iota in E. apply X in E; [exact E|].
      unfold handle_bad_checksum in H. destruct (last _ _); [|discriminate]. cbn [or_panic] in H. cbv beta zeta iota in H.
      destruct (get_range _ _ _) in H; [|discriminate]. cbn [ok_or] in H. destruct (overwrite _ _ _) in H; [|discriminate]. cbn [or_panic] in H.
      destruct (init_base_block _) as [[[s b] p3]| | |] eqn:B in H; try discriminate. injection H as <- _.
      apply base_block_kept in B; [exact B|]. now apply kept_info.
    - cbv beta iota in E. now apply X in E. }
  cbv beta iota. destruct go; [|now intros [= <-]].
  destruct (get_reg_items fuel p1 0) as [[items p2]| | |] eqn:G; try discriminate.
  assert (M2 : R (ps_state p2)).
  { unfold get_reg_items in G. destruct (ps_recover p1); [|now injection G as _ <-].
    destruct (init_root p1) as [q| | |] eqn:I; try discriminate. apply init_root_state in I.
    destruct (iterate _ _ _ _ _ _); try discriminate. destruct (insert_keys _ _ _); try discriminate. injection G as _ <-. now rewrite I. }
  cbv beta iota. destruct (base_block_info p2) as [[sec h]| | |]; try discriminate. cbv beta iota.
  destruct (apply_logs _ _ _ _ _ _ _) as [[n p3]| | |] eqn:A; try discriminate. apply logs_kept in A; [|exact M2]. cbv beta iota.
  unfold update_header. destruct (overwrite _ _ _); [|discriminate]. cbn [or_panic]. destruct (overwrite _ _ _); [|discriminate]. cbn [or_panic].
  destruct (get_range _ _ _); [|discriminate]. cbn [or_panic]. destruct (calculate_checksum _); try discriminate.
  cbv beta iota. destruct (overwrite _ _ _); [|discriminate]. cbn [or_panic].
  destruct (init_base_block _) as [[[s b] p4]| | |] eqn:B; try discriminate. apply base_block_kept in B; [|exact A].
  intros [= <-]. now apply kept_info.
Qed.
End Build.

(** The state after the search of free cells: it does not depend on logs. *)
Definition searched (full : bool) (hash : list N -> N) (buffer : list N) : res state :=
  let* (_, _, p) := init_base_block (mkParser (mkFI 0 buffer) (mkState 0 full [] hash [] [] [] []) None None None true) in
  let* b := or_panic (ps_base_block p) in
  find_free_keys_and_values (ps_file p) (ps_state p) (bb_hive_bins_data_size (bb_base b)).
Lemma search_values full hash buffer st : searched full hash buffer = Ok st -> exists vs, st_deleted_values st = push_all vs [].
Proof.
  unfold searched. destruct (init_base_block _) as [[[s b] p]| | |] eqn:B; try discriminate. cbv beta iota.
  apply init_base_ok in B as (_ & _ & _ & SV & _). apply (f_equal st_deleted_values) in SV. change (st_deleted_values (ps_state p) = []) in SV.
  destruct (ps_base_block p) as [bb|]; [|discriminate]. cbn [or_panic]. cbv beta iota.
  unfold find_free_keys_and_values. assert (A : agree false (ps_state p) (ps_state p)) by apply agree_refl.
  destruct (recover_loop_ok (ps_file p) (ps_state p) (S (length (fi_buffer (ps_file p)))) (ps_state p) (fi_hbin (ps_file p)) (bb_hive_bins_data_size (bb_base bb)) A) as [E|(s' & l & ks & vs & E & (w & G) & _)].
  { unfold len. lia. } { rewrite E. discriminate. }
  rewrite E. intros [= <-]. subst s'. cbn [st_deleted_values]. exists vs. now rewrite SV.
Qed.
Lemma push_all_under (vs : list key_value) path l : aget beq path (push_all vs []) = Some l -> path = [].
Proof.
  enough (X : keyed (fun q (_ : key_value) => q = []) (push_all vs []) /\ Forall (fun e => snd e <> []) (push_all vs [])).
  { destruct X as (X & Y). intros A. pose proof (keyed_aget _ _ _ _ X A) as F. rewrite Forall_forall in Y. specialize (Y _ (aget_pair _ _ _ A)). cbn [snd] in Y.
    destruct l as [|v l]; [now elim Y|]. now inversion F. }
  split; [apply keyed_push_all; [apply Forall_forall; auto|constructor]|].
  unfold push_all. assert (G : forall m : amap (list N) (list key_value), Forall (fun e => snd e <> []) m -> Forall (fun e => snd e <> []) (fold_left (fun m x => map_push beq [] x m) vs m)); [|apply G; constructor].
  induction vs as [|v vs IH]; intros m M; [exact M|]. cbn [fold_left]. apply IH.
  assert (AS : forall (x : list key_value) m, x <> [] -> Forall (fun e => snd e <> []) m -> Forall (fun e : list N * list key_value => snd e <> []) (aset beq [] x m)).
  { intros x m0 X. induction 1 as [|[q y] m1 Q F IF]; cbn [aset]; [constructor; [exact X|constructor]|].
    destruct (beq [] q); constructor; auto. }
  unfold map_push. destruct (aget beq [] m) as [l0|]; apply AS; try exact M; [destruct l0; discriminate|discriminate].
Qed.
Lemma build_search order fuel full hash buffer files q : (forall m, Permutation (order m) m) -> known_file_type buffer ->
  build order fuel hash true full buffer files = Ok q ->
  exists st, searched full hash buffer = Ok st /\ reached order fuel full hash (ps_state q)
  /\ (forall v, In v (held beq [] (st_deleted_values st)) -> In v (held beq [] (st_deleted_values (ps_state q))))
  /\ (files = [] -> st_deleted_values (ps_state q) = st_deleted_values st).
Proof.
  intros PO K B0. pose proof (build_reached _ _ _ _ _ _ _ _ B0) as RQ. revert B0.
  unfold build, searched. destruct (parse_logs files) as [[logs w]| | |] eqn:PL; try discriminate. cbv beta iota zeta. unfold ps_init.
  destruct (init_base_block _) as [[[s bad] p]| | |] eqn:B; try discriminate.
  assert (RP : reached order fuel full hash (ps_state p)) by (eapply base_block_reached; [|exact B]; apply reached_new).
  apply init_base_ok in B as (H0 & _ & _ & _ & T0). apply T0 in K. subst s. cbv beta iota.
  destruct (ps_base_block p) as [bb|]; [|discriminate]. cbn [or_panic]. cbv beta iota.
  destruct (find_free_keys_and_values _ _ _) as [st| | |] eqn:F; try discriminate. cbv beta iota.
  destruct (apply_transaction_logs order fuel bad logs (ps_set_state st p)) as [p3| | |] eqn:A; try discriminate.
  destruct (init_root p3) as [p4| | |] eqn:I; try discriminate. cbv beta iota. intros [= <-]. cbn [ps_set_state ps_state] in *.
  apply init_root_state in I. exists st. split; [reflexivity|]. split; [exact RQ|]. split.
  - intros v IV. cbn [set_info st_deleted_values]. rewrite I. refine (proj2 (apply_kept order fuel full hash v PO _ _ _ _ _ A)).
    split; [|exact IV]. exact (reached_scan _ _ _ _ _ _ _ _ RP F).
  - intros ->. injection PL as <- _. cbn [apply_transaction_logs] in A. injection A as <-. cbn [set_info st_deleted_values]. now rewrite I.
Qed.
(** What was found beside allocated values is under the empty path. *)
Lemma shown_values order fuel hash full buffer p n anc m ks : (forall m, Permutation (order m) m) -> known_file_type buffer ->
  build order fuel hash true full buffer [] = Ok p -> iterate n p None anc m false = Ok ks ->
  forall k v, In k ks -> In v (kn_values k) -> kv_state v = Allocated \/ In v (held beq [] (st_deleted_values (ps_state p))).
Proof.
  intros PO K B IT k v IK IV. destruct (build_root _ _ _ _ _ _ _ _ K B) as (FI & st & i & S & R).
  destruct (build_search _ _ _ _ _ _ _ PO K B) as (s & SE & RP & _ & E). specialize (E eq_refl).
  destruct (search_values _ _ _ _ SE) as (vs & V). rewrite V in E. pose proof (reached_plain _ _ _ _ _ RP) as M.
  assert (N : Forall (named (st_deleted_values (ps_state p))) ks).
  { unfold iterate in IT. apply collect_walk in IT. apply (walk_named _ _ _ _ IT). split; [now split|]. constructor; [|constructor].
    destruct (read_root_some _ _ _ _ _ _ _ R) as (r & RR). rewrite RR in R. apply read_named in R.
    - rewrite S. cbn [set_info st_deleted_values]. unfold from_parser. rewrite RR. exact R.
    - rewrite S in M. exact M. }
  rewrite Forall_forall in N. specialize (N k IK). inversion N as [x _ N2 _]; subst. rewrite Forall_forall in N2.
  destruct (N2 v IV) as [X|(path & l & A & I)]; [now left|right]. rewrite E in *. pose proof (push_all_under _ _ _ A) as ->. unfold held. now rewrite A.
Qed.
Lemma root_shows fi st root off v : kn_read fi st (mkOpt off [] None true None true) = Ok (Some root, st) -> off <= len (fi_buffer fi) ->
  N.testbit (num_at (fi_buffer fi) (off + 6) 2) 2 = true -> In v (held beq [] (st_deleted_values st)) -> In v (kn_values root) /\ kn_offset root = off.
Proof.
  intros R L RF IV. rewrite read_noted in R by reflexivity. unfold unnoted in R. cbn [op_offset op_path op_filter op_self_match op_seq] in R.
  destruct (kn_read fi st (mkOpt off [] None true None false)) as [[[k|] st']| | |] eqn:E; try discriminate.
  assert (X : is_key_root k = true /\ kn_state k = Allocated /\ kn_offset k = off /\ st' = st).
  { revert E. unfold kn_read. cbn [op_offset]. rewrite get_from_rest by exact L. cbn [ok_or]. unfold read_from_slice. cbn [op_offset op_path op_filter op_self_match op_seq op_modified].
    set (s := rest_at (fi_buffer fi) off).
    destruct (kn_cases st s off [] None) as [(_ & nm & w & _ & E)|(_ & E)]; rewrite E; [|discriminate]. cbv beta iota. set (k0 := kn_at st s off [] None nm w).
    assert (K0 : is_key_root k0 = true /\ kn_state k0 = Allocated /\ kn_offset k0 = off).
    { split; [|split; reflexivity]. unfold is_key_root. change (kd_flags (kn_detail k0)) with (num_at s 6 2). unfold s. rewrite num_at_rest, root_flag. exact RF. }
    destruct (_ && _).
    - destruct (read_values fi st None k0) as [[k2 ok]| | |] eqn:RV; try discriminate. cbv beta iota zeta. intros [= <- <-].
      assert (P : kn_detail k2 = kn_detail k0 /\ kn_state k2 = kn_state k0 /\ kn_offset k2 = kn_offset k0).
      { revert RV. unfold read_values. destruct (_ && _); [|now intros [= <- _]]. destruct (1048576 <? _); [now intros [= <- _]|].
        destruct (parse_key_values _ _ _); [|now intros [= <- _]]. destruct (read_values_loop _ _ _ _ _) as [[[vs logs] ok']| | |]; try discriminate. now intros [= <- _]. }
      destruct P as (P1 & P2 & P3). unfold is_key_root in *. destruct K0 as (Z1 & Z2 & Z3). destruct ok; cbn [kn_add_log kn_detail kn_state kn_offset]; rewrite ?P1, ?P2, ?P3; repeat split; try assumption; try reflexivity. change (kn_detail (kn_add_log WarningParse k2)) with (kn_detail k2). rewrite P1. exact Z1.
    - cbv beta iota zeta. intros [= <- <-]. destruct K0 as (Z1 & Z2 & Z3). repeat split; try assumption; reflexivity. }
  destruct X as (X1 & X2 & X3 & ->). destruct (update_modified_lists (uml_fuel st) st k) as [k'| | |] eqn:U; try discriminate. injection R as ->.
  unfold uml_fuel in U. rewrite uml_eq, X2 in U. cbn [is_deleted_primary_file] in U.
  assert (FI : forall x, lookup_path x = [] -> kn_offset x = off -> In v (kn_values (finish st x)) /\ kn_offset (finish st x) = off).
  { intros x LX OX. split; [|unfold finish; cbv zeta; cbn [kn_set_values kn_offset]; destruct (aget beq _ (st_modified_keys st)); exact OX]. unfold finish. cbv zeta. cbn [kn_set_values kn_values]. apply in_or_app. right. rewrite LX. unfold held in IV.
    destruct (aget beq [] (st_deleted_values st)); [|contradiction]. now apply sort_in. }
  destruct (aget beq (lookup_path k) (st_deleted_keys st)) as [dks|].
  - destruct (note _ _ _ _); try discriminate. injection U as <-. apply FI; [|exact X3]. unfold lookup_path. change (is_key_root (kn_set_deleted a k)) with (is_key_root k). now rewrite X1.
  - injection U as <-. apply FI; [|exact X3]. unfold lookup_path. now rewrite X1.
Qed.
Lemma held_shown order fuel hash full buffer files q v : known_file_type buffer ->
  build order fuel hash true full buffer files = Ok q -> N.testbit (num_at (ps_buffer q) 4134 2) 2 = true ->
  In v (held beq [] (st_deleted_values (ps_state q))) -> forall n anc m ks, iterate n q None anc m false = Ok ks ->
  exists k, In k ks /\ kn_offset k = 4128 /\ In v (kn_values k).
Proof.
  intros K C RF X n anc m ks IT.
  destruct (build_root _ _ _ _ _ _ _ _ K C) as (FI & st & i & S & R). destruct (read_root_some _ _ _ _ _ _ _ R) as (r & RR). rewrite RR in R.
  assert (L : 4128 <= len (ps_buffer q)).
  { revert R. unfold kn_read. cbn [op_offset]. unfold get_from. fold (ps_buffer q). destruct (4128 <=? len (ps_buffer q)) eqn:Z; [now apply N.leb_le in Z|discriminate]. }
  rewrite S in X. pose proof (root_shows _ _ _ _ v R L RF X) as (IR & RO).
  unfold iterate in IT. unfold from_parser in IT. rewrite RR in IT.
  match type of IT with collect _ _ _ ?cx = _ => pose proof (collect_yields _ n cx ks eq_refl IT r) as (Y1 & Y2); [now left|] end.
  destruct Y1 as (k' & J1 & (J2 & _ & _ & _ & J3 & _) & _). exists k'. split; [exact J1|]. split; [congruence|]. now rewrite J3.
Qed.
Lemma values_kept order order' fuel fuel' hash full buffer files p q : (forall m, Permutation (order m) m) -> (forall m, Permutation (order' m) m) -> known_file_type buffer ->
  build order fuel hash true full buffer [] = Ok p -> build order' fuel' hash true full buffer files = Ok q ->
  N.testbit (num_at (ps_buffer q) 4134 2) 2 = true ->
  forall n anc m ks n' anc' m' ks', iterate n p None anc m false = Ok ks -> iterate n' q None anc' m' false = Ok ks' ->
  forall k v, In k ks -> In v (kn_values k) -> kv_state v <> Allocated ->
  exists k', In k' ks' /\ kn_offset k' = 4128 /\ In v (kn_values k').
Proof.
  intros PO PO' K B C RF n anc m ks n' anc' m' ks' IT IT' k v IK IV NA.
  destruct (shown_values _ _ _ _ _ _ _ _ _ _ PO K B IT k v IK IV) as [X|X]; [contradiction|].
  destruct (build_search _ _ _ _ _ _ _ PO K B) as (s & SE & _ & _ & E). rewrite (E eq_refl) in X.
  destruct (build_search _ _ _ _ _ _ _ PO' K C) as (s' & SE' & _ & KE & _). rewrite SE in SE'. injection SE' as <-. apply KE in X.
  exact (held_shown _ _ _ _ _ _ _ _ K C RF X _ _ _ _ IT').
Qed.
Lemma search_free full hash buf e bins st :
  known_file_type buf -> 4096 <= len buf -> bytes_at buf 0 4 = REGF ->
  tiled buf e 4096 bins -> e <= len buf -> num_at buf 40 4 <= e -> searched full hash buf = Ok st ->
  forall o l c, In (o, l) bins -> o < num_at buf 40 4 -> In c l -> (0 < i32_at buf c)%Z -> vk_ok (rest_at buf c) ->
  exists v, In v (held beq [] (st_deleted_values st)) /\ kv_offset v = c
  /\ value_found (mkFI 4096 buf) (mkState 0 full [] hash [] [] [] []) (len buf) DeletedPrimaryFile v.
Proof.
  intros K L T TI LE NE. unfold searched.
  set (p0 := mkParser (mkFI 0 buf) (mkState 0 full [] hash [] [] [] []) None None None true).
  destruct (init_base_block_spec p0 L T) as (name & bad & p1 & E1 & E2 & F1 & B1 & R1 & _ & _ & SI & _).
  rewrite E2. change (ps_buffer p0) with buf in *. cbv beta iota. rewrite B1. cbn [or_panic]. cbv beta iota.
  change (bb_hive_bins_data_size (bb_base (base_block_at buf name))) with (num_at buf 40 4).
  destruct (open_scan buf full hash p1 L T F1 SI) as [E|(st' & l & ks & vs & E & G & SW & FK & FV & AF)]; rewrite E; [discriminate|].
  intros [= ->].
  assert (LQ : l = swept (num_at buf 40 4) bins) by (apply (sweep_fun _ _ _ _ SW); now apply (tiled_sweep _ _ e)).
  assert (TD : tidy (mkFI 4096 buf) l).
  { rewrite LQ. clear -TI. induction TI as [|o l r H S F TT IH]; [constructor|]. unfold swept in *. cbn [List.filter fst].
    assert (FL : Forall (fun c => 6 <= size_at buf c) l).
    { clear -F. induction F; constructor; [lia|assumption]. }
    destruct (o <? _); [|exact IH]. cbn [flat_map snd]. apply Forall_app. split; [exact FL|exact IH]. }
  specialize (AF TD). assert (V0 := f_equal st_deleted_values SI). change (st_deleted_values (ps_state p1) = []) in V0.
  destruct G as (wn & ->). cbn [st_deleted_values]. rewrite V0. intros o lb c IB LT IC FR VC.
  assert (IL : In c l).
  { rewrite LQ. unfold swept. apply in_flat_map. exists (o, lb). split; [|exact IC]. apply filter_In. split; [exact IB|]. now apply N.ltb_lt. }
  destruct (AF c (conj IL FR)) as (_ & HV). destruct (HV VC) as (v & I1 & I2 & I3). exists v. split; [|now split].
  pose proof (push_all_pushed vs) as P. unfold pushed in P. unfold held. rewrite P. now destruct vs.
Qed.
Lemma free_values_kept order fuel hash full buffer files q e bins :
  (forall m, Permutation (order m) m) ->
  known_file_type buffer -> 4096 <= len buffer -> bytes_at buffer 0 4 = [114; 101; 103; 102] ->
  tiled buffer e 4096 bins -> e <= len buffer -> num_at buffer 40 4 <= e ->
  build order fuel hash true full buffer files = Ok q -> N.testbit (num_at (ps_buffer q) 4134 2) 2 = true ->
  forall n anc m ks, iterate n q None anc m false = Ok ks ->
  forall o l c, In (o, l) bins -> o < num_at buffer 40 4 -> In c l -> (0 < i32_at buffer c)%Z -> vk_ok (rest_at buffer c) ->
  exists k v, In k ks /\ kn_offset k = 4128 /\ In v (kn_values k) /\ kv_offset v = c
  /\ value_found (mkFI 4096 buffer) (mkState 0 full [] hash [] [] [] []) (len buffer) DeletedPrimaryFile v.
Proof.
  intros PO K L T TI LE NE Q RQ n anc m ks IT o l c IB LT IC FR VC.
  destruct (build_search _ _ _ _ _ _ _ PO K Q) as (s & SE & _ & KE & _).
  destruct (search_free full hash buffer e bins s K L T TI LE NE SE o l c IB LT IC FR VC) as (v & IV & VO & VF). apply KE in IV.
  destruct (held_shown _ _ _ _ _ _ _ _ K Q RQ IV _ _ _ _ IT) as (k & K1 & K2 & K3). exists k, v. auto.
Qed.
