(** The comparisons of a build meet the conditions of the theorems about one
    comparison. *)
From Verif Require Import Base BaseFacts LayoutSpec LayoutFacts HeaderFacts BaseBlock Util Types Value Node Recover Parser TxLog NodeFrame
  CellSpec CellFacts CellData CellRead TreeOpen ScanSpec ScanFacts Recovered LiveSpec LiveView LiveOpen StoreSpec StoreFacts AnalysisSpec AnalysisFacts AnalysisStore AnalysisAll.

(** ** A longer buffer *)
Lemma get_from_longer (a z b : list N) off : get_from a off = Some b -> get_from (a ++ z) off = Some (b ++ z).
Proof.
  unfold get_from. destruct (off <=? len a) eqn:E; [|discriminate]. intros [= <-]. apply N.leb_le in E. rewrite len_app.
  destruct (off <=? len a + len z) eqn:F; [|apply N.leb_gt in F; lia]. f_equal. rewrite skipn_app.
  replace (N.to_nat off - length a)%nat with 0%nat; [reflexivity|]. unfold len in E. lia.
Qed.
Lemma bytes_longer b z o n : o + n <= len b -> bytes_at (b ++ z) o n = bytes_at b o n.
Proof.
  intros L. unfold len in L. unfold bytes_at. rewrite skipn_app, firstn_app, skipn_length.
  replace (N.to_nat n - (length b - N.to_nat o))%nat with 0%nat by lia. rewrite firstn_O. apply app_nil_r.
Qed.
Lemma num_longer b z o n : o + n <= len b -> num_at (b ++ z) o n = num_at b o n.
Proof. intros L. unfold num_at. now rewrite bytes_longer. Qed.
Lemma i32_longer b z o : o + 4 <= len b -> i32_at (b ++ z) o = i32_at b o.
Proof. intros L. unfold i32_at. now rewrite num_longer. Qed.
Lemma nk_longer b z : nk_ok b -> nk_ok (b ++ z) /\ kn_name_at (b ++ z) = kn_name_at b.
Proof.
  intros (L & S & T & NS). assert (80 <= len b) by lia.
  unfold nk_ok, kn_name_at. rewrite len_app, i32_longer, !num_longer, !bytes_longer by lia. split; [|reflexivity]. repeat split; try assumption; lia.
Qed.
Lemma vk_longer b z : vk_ok b -> vk_ok (b ++ z) /\ kv_name_at (b ++ z) = kv_name_at b.
Proof.
  intros (L & S & T & NS). assert (24 <= len b) by lia.
  unfold vk_ok, kv_name_at. rewrite len_app, i32_longer, !num_longer, !bytes_longer by lia. split; [|reflexivity]. repeat split; try assumption; lia.
Qed.

(** ** Live items are in the file *)
Section OnFile.
Variable fi : file_info.
Definition value_in_file (v : key_value) : Prop := kv_state v = Allocated ->
  exists b w, get_from (fi_buffer fi) (kv_offset v) = Some b /\ vk_ok b /\ kv_name_at b = Ok (vd_name (kv_detail v), w).
Definition in_file (k : key_node) : Prop := kn_state k = Allocated ->
  (exists b w above, get_from (fi_buffer fi) (kn_offset k) = Some b /\ nk_ok b /\ kn_name_at b = Ok (kn_name k, w) /\ kn_path k = above ++ [92] ++ kn_name k)
  /\ Forall value_in_file (kn_values k).
Lemma alloc_iff s : is_allocated s = true <-> s = Allocated.
Proof. destruct s; cbn; intuition discriminate. Qed.
Lemma alloc_no s : is_allocated s = false -> s <> Allocated.
Proof. now intros E ->. Qed.
Lemma values_in_file_live l l' :
  map live_value (List.filter (fun v => is_allocated (kv_state v)) l) = map live_value (List.filter (fun v => is_allocated (kv_state v)) l') ->
  Forall value_in_file l -> Forall value_in_file l'.
Proof.
  intros E F. apply Forall_forall. intros v I. destruct (is_allocated (kv_state v)) eqn:A; [|intros S; rewrite S in A; discriminate].
  assert (J : In (live_value v) (map live_value (List.filter (fun v => is_allocated (kv_state v)) l'))).
  { apply in_map, filter_In. now split. }
  rewrite <- E in J. apply in_map_iff in J as (u & U & J). apply filter_In in J as (J & _). rewrite Forall_forall in F. specialize (F u J).
  clear -U F. destruct u, v. unfold live_value, kv_set_versions, value_in_file in *. cbn in *. injection U. intros. subst. now apply F.
Qed.
Lemma in_file_like k k' : live_key k = live_key k' -> in_file k -> in_file k'.
Proof.
  intros E. apply live_iff in E as (E & V). unfold in_file.
  assert (X : kn_offset k = kn_offset k' /\ kn_name k = kn_name k' /\ kn_path k = kn_path k' /\ kn_state k = kn_state k').
  { unfold fields in E. injection E. intros. now repeat split. }
  destruct X as (<- & <- & <- & <-). intros H S. destruct (H S) as (H1 & H2). split; [exact H1|]. exact (values_in_file_live _ _ V H2).
Qed.
Lemma dead_in_file k : dead k -> in_file k.
Proof. intros [D _] S. rewrite S in D. discriminate. Qed.

Lemma loop_in_file st seq offs : forall acc vs logs ok, Forall value_in_file acc ->
  read_values_loop fi st seq offs acc = Ok (vs, logs, ok) -> Forall value_in_file vs.
Proof.
  induction offs as [|o offs IH]; intros acc vs logs ok A; cbn [read_values_loop]; [now intros [= <- _ _]|].
  destruct (get_at _ _); [|now intros [= <- _ _]]. destruct (get_from _ _) as [s|] eqn:G; [|now intros [= <- _ _]].
  destruct (kv_cases s (o + fi_hbin fi) seq (st_full st)) as [(OK & nm & w & NM & E)|(_ & E)]; rewrite E; [|now intros [= <- _ _]].
  apply IH. apply Forall_app. split; [exact A|]. constructor; [|constructor].
  unfold read_value_bytes. destruct (read_value_bytes_direct _ _ _ _ _) as [[? ?] ?]. intros _. exists s, w. now split.
Qed.
Lemma read_in_file st o k st' : dead_maps st -> kn_read fi st o = Ok (Some k, st') -> in_file k /\ fit k.
Proof.
  intros D. unfold kn_read. destruct (get_from (fi_buffer fi) (op_offset o)) as [slice|] eqn:G; [|discriminate]. cbn [ok_or]. unfold read_from_slice.
  destruct (kn_cases st slice (op_offset o) (op_path o) (op_seq o)) as [(OK & nm & w & NM & E)|(_ & E)]; rewrite E; [|discriminate].
  cbv beta iota. set (k0 := kn_at _ _ _ _ _ _ _).
  destruct (match op_filter o with Some f => check_cell f st k0 | None => Ok (IterateKeys, st) end) as [[fl st1]| | |] eqn:EF; try discriminate.
  assert (RO : root_only st st1).
  { destruct (op_filter o); [exact (check_cell_state _ _ _ _ _ EF)|injection EF as _ <-; apply root_only_refl]. }
  pose proof (root_only_dead _ _ RO D) as D1. cbv beta iota.
  assert (V : forall b k1, (if b : bool then let* (k, ok) := read_values fi st1 (op_seq o) k0 in Ok (if ok : bool then k else kn_add_log WarningParse k) else Ok k0) = Ok k1 ->
     in_file k1 /\ kn_deleted k1 = []).
  { clear fl EF. assert (K0 : exists b w above, get_from (fi_buffer fi) (kn_offset k0) = Some b /\ nk_ok b /\ kn_name_at b = Ok (kn_name k0, w) /\ kn_path k0 = above ++ [92] ++ kn_name k0)
      by (exists slice, w, (op_path o); repeat split; assumption || apply OK).
    intros b k1 H. destruct b; [|injection H as <-; split; [|reflexivity]; intros _; split; [exact K0|constructor]].
    destruct (read_values fi st1 (op_seq o) k0) as [[k2 ok]| | |] eqn:RV; try discriminate. injection H as <-.
    assert (Y : in_file k2 /\ kn_deleted k2 = []).
    { revert RV. unfold read_values. destruct (_ && _); [|intros [= <- _]; split; [|reflexivity]; intros _; split; [exact K0|constructor]].
      destruct (1048576 <? _); [intros [= <- _]; split; [|reflexivity]; intros _; split; [exact K0|constructor]|].
      destruct (parse_key_values _ _ _) as [offs|]; [|intros [= <- _]; split; [|reflexivity]; intros _; split; [exact K0|constructor]].
      destruct (read_values_loop _ _ _ _ _) as [[[vs logs] ok']| | |] eqn:EL; try discriminate. intros [= <- _]. split; [|reflexivity].
      intros _. split; [exact K0|]. exact (loop_in_file _ _ _ _ _ _ _ (Forall_nil _) EL). }
    destruct Y as (Y & Z). destruct ok; [now split|]. split; [|exact Z]. intros S. destruct (Y S) as (Y1 & Y2). split; [exact Y1|exact Y2]. }
  destruct fl; [discriminate| |].
  all: match goal with |- (let* k := (if ?b then _ else _) in _) = _ -> _ => pose proof (V b) as V1 end.
  all: match goal with |- (let* k := ?x in _) = _ -> _ => destruct x as [k1| | |]; try discriminate end.
  all: destruct (V1 k1 eq_refl) as (F1 & DD); cbv beta iota zeta.
  all: match goal with |- (let* k := (if _ then update_modified_lists _ _ ?x else _) in _) = _ -> _ => set (k2 := x) end.
  all: assert (F2 : in_file k2) by (intros S; destruct (F1 S) as (Y1 & Y2); now split).
  all: assert (T2 : fit k2) by (unfold fit; change (kn_deleted k2) with (kn_deleted k1); rewrite DD; constructor).
  all: destruct (op_modified o); [|intros [= <- _]; now split].
  all: pose proof (uml_live st1 D1 (uml_fuel st1) k2) as U; destruct (update_modified_lists (uml_fuel st1) st1 k2) as [k3| | |]; try contradiction; try discriminate.
  all: destruct U as (U1 & U2 & _); intros [= <- _]; split; [now apply (in_file_like k2)|auto].
Qed.

(** ** The whole iteration *)
Definition fine (k : key_node) : Prop := in_file k /\ fit k.
Lemma fine_same k k' : kn_offset k' = kn_offset k -> kn_name k' = kn_name k -> kn_path k' = kn_path k -> kn_state k' = kn_state k ->
  kn_values k' = kn_values k -> kn_deleted k' = kn_deleted k -> fine k -> fine k'.
Proof. intros A B C D E F (G & H). unfold fine, in_file, fit in *. rewrite A, B, C, D, E, F. now split. Qed.
Lemma dead_fine k : dead k -> fine k.
Proof. intros D. split; [now apply dead_in_file|]. now destruct D. Qed.
Lemma child_fine sm f c : fine c -> fine (child_filter_state sm f c).
Proof. intros G. unfold child_filter_state. repeat match goal with |- context [if ?b then _ else _] => destruct b end; try exact G; now apply (fine_same c). Qed.
Lemma children_fine path sm f sf seq m offs : forall st cs found logs st', dead_maps st ->
  read_children fi st path sm f sf seq m offs = Ok (cs, found, logs, st') -> Forall fine cs.
Proof.
  induction offs as [|o offs IH]; intros st cs found logs st' M; cbn [read_children]; [intros [= <- _ _ _]; constructor|].
  destruct (kn_read fi st _) as [[[c|] st1]| | |] eqn:R; try discriminate.
  - pose proof (root_only_dead _ _ (kn_read_state _ _ _ _ _ R) M) as M1. apply read_in_file in R; [|exact M].
    destruct (read_children _ _ _ _ _ _ _ _ _) as [[[[cs1 ?] ?] ?]| | |] eqn:E; try discriminate. intros [= <- _ _ _].
    constructor; [now apply child_fine|]. now apply (IH _ _ _ _ _ M1 E).
  - pose proof (root_only_dead _ _ (kn_read_state _ _ _ _ _ R) M) as M1. intros E. now apply (IH _ _ _ _ _ M1 E).
  - destruct (read_children _ _ _ _ _ _ _ _ _) as [[[[cs1 ?] ?] ?]| | |] eqn:E; try discriminate. intros [= <- _ _ _].
    now apply (IH _ _ _ _ _ M E).
Qed.
Lemma sub_keys_fine st k f seq m k' cs found st' : dead_maps st -> fine k ->
  read_sub_keys_internal fi st k f seq m = Ok (k', cs, found, st') -> fine k' /\ Forall fine cs.
Proof.
  intros M G. unfold read_sub_keys_internal.
  assert (GL : forall c, fine (kn_add_log c k)) by (intros; now apply (fine_same k)).
  destruct (is_allocated _); [|intros [= <- <- _ _]; auto]. destruct (1048576 <? _); [intros [= <- <- _ _]; auto|].
  destruct (0 <? _); [|intros [= <- <- _ _]; auto]. destruct (parse_sub_key_list _ _ _) as [offs| | |]; try discriminate.
  - destruct (read_children _ _ _ _ _ _ _ _ _) as [[[[cs1 ?] ?] ?]| | |] eqn:E; try discriminate. intros [= <- <- _ _].
    split; [now apply (fine_same k)|]. now apply (children_fine _ _ _ _ _ _ _ _ _ _ _ _ M E).
  - intros [= <- <- _ _]; auto.
Qed.
Definition fine_cx (c : context) : Prop := dead_maps (cx_state c) /\ Forall fine (cx_stack c).
Lemma fold_fine (g : context -> key_node -> context) l : (forall k c, fine k -> fine_cx c -> fine_cx (g c k)) -> Forall fine l ->
  forall c, fine_cx c -> fine_cx (fold_left g l c).
Proof. intros H F. induction F as [|k l K F IH]; intros c C; [exact C|]. cbn [fold_left]. apply IH. now apply H. Qed.
Lemma visit_fine cx k k' cx' : fine_cx cx -> fine k -> visit fi cx k = Ok (k', cx') -> fine k' /\ fine_cx cx'.
Proof.
  intros C G. unfold visit.
  match goal with |- match ?x with _ => _ end = _ -> _ => destruct x as [[k1 cx1]| | |] eqn:E; try discriminate end.
  assert (X : fine k1 /\ fine_cx cx1).
  { destruct (0 <? _) in E; [|injection E as <- <-; auto].
    destruct (read_sub_keys_internal _ _ _ _ _ _) as [[[[k2 cs] fd] st]| | |] eqn:R in E; try discriminate.
    pose proof (root_only_dead _ _ (read_sub_keys_state _ _ _ _ _ _ _ _ _ _ R) (proj1 C)) as M.
    apply sub_keys_fine in R as (R1 & R2); [|apply C|exact G]. injection E as <- <-. split; [now apply (fine_same k2)|].
    apply (fold_fine (fun cx c => push_check c cx)); [|now apply Forall_rev|split; [exact M|apply C]].
    intros q c Q (C1 & C2). unfold push_check. destruct (existsb _ _); [now split|]. split; [exact C1|now constructor]. }
  cbv beta iota. destruct X as ((X1 & X2) & X3). intros [= <- <-].
  assert (D : Forall dead (map (kn_set_filter (kn_filter k1)) (kn_deleted k1))).
  { apply Forall_map. eapply Forall_impl; [|exact X2]. intros; now apply dead_filter. }
  split; [split; [exact X1|exact D]|].
  apply (fold_fine (fun cx d => push d cx)); [|eapply Forall_impl; [|exact D]; intros; now apply dead_fine|exact X3].
  intros q c Q (C1 & C2). split; [exact C1|now constructor].
Qed.
Lemma walk_fine c ks : walk fi c ks -> fine_cx c -> Forall fine ks.
Proof.
  induction 1 as [c S|c k rest k' c' ks S V W IH]; intros (D & F); [constructor|]. rewrite S in F. inversion F; subst.
  apply visit_fine in V as (V1 & V2); [|now split|assumption]. destruct (returned c' k'); auto.
Qed.
End OnFile.

Lemma shown_in_file p p1 fuel m ks : dead_maps (ps_state p) -> init_root p = Ok p1 -> iterate fuel p1 None false m false = Ok ks ->
  Forall (in_file (ps_file p)) ks.
Proof.
  intros D I. apply init_root_ok in I as (h & root & -> & _ & R). unfold iterate. intros C. apply collect_walk in C.
  assert (F : Forall (fine (ps_file p)) ks).
  { apply (walk_fine _ _ _ C). split; [exact D|]. constructor; [|constructor]. cbn [ps_set_root ps_set_hbin ps_root].
    destruct root as [r|].
    - apply read_in_file in R; [|exact D]. exact R.
    - exfalso. revert R. unfold kn_read. destruct (get_from _ _); [|discriminate]. cbn [ok_or]. unfold read_from_slice. cbn [op_filter op_modified].
      destruct (kn_from_bytes _ _ _ _ _) as [[k0 r0]| | |]; try discriminate. cbv beta iota.
      match goal with |- (let* k := ?x in _) = _ -> _ => destruct x as [k1| | |]; try discriminate end. cbv beta iota zeta.
      match goal with |- (let* k := ?x in _) = _ -> _ => destruct x as [k2| | |]; discriminate end. }
  eapply Forall_impl; [|exact F]. now intros k (K & _).
Qed.

(** ** The items *)
Section Reach.
Variables (order : reg_items -> reg_items) (fuel : nat) (full : bool) (hash : list N -> N).
Lemma reached_inv st : reached order fuel full hash st -> inv full hash st.
Proof.
  induction 1 as [|i st R IH|fi st n st' R IH E|fi seq p prior latest p' logs R IH E].
  - split; [reflexivity|]. split; [reflexivity|]. split; [reflexivity|]. split; constructor.
  - now apply inv_info.
  - exact (scan_inv full hash _ _ _ _ IH E).
  - exact (latest_inv full hash _ _ _ _ _ _ _ _ _ IH E).
Qed.
Lemma insert_values_seen path seq vs : forall m m', NoDup (map fst m) -> insert_values path seq vs m = Ok m' -> NoDup (map fst m')
  /\ forall w it, aget keq w m' = Some it -> aget keq w m = Some it \/ In (w, (Some (it_hash it), it_offset it)) (map (fun v => ((path, Some (vd_name (kv_detail v))), (kv_hash v, kv_offset v))) vs).
Proof.
  induction vs as [|v vs IH]; intros m m' D; cbn [insert_values]; [intros [= <-]; auto|].
  destruct (kv_hash v) as [h|] eqn:H; [|discriminate]. cbn [must_hash or_panic]. cbv beta iota. intros E.
  apply IH in E as (E1 & E2); [|apply aset_nodup; [exact kiff|exact D]]. split; [exact E1|]. intros w it G.
  destruct (E2 w it G) as [X|X]; [|right; now right]. rewrite (aget_aset keq kiff) in X. destruct (keq w _) eqn:W; [|now left].
  apply kiff in W as ->. injection X as <-. right. left. cbn [it_hash it_offset]. now rewrite H.
Qed.
Lemma insert_keys_seen seq ks : forall m m', NoDup (map fst m) -> insert_keys seq ks m = Ok m' -> NoDup (map fst m')
  /\ forall w it, aget keq w m' = Some it -> aget keq w m = Some it \/ In (w, (Some (it_hash it), it_offset it)) (sightings ks).
Proof.
  induction ks as [|k ks IH]; intros m m' D; cbn [insert_keys]; [intros [= <-]; auto|].
  destruct (kn_hash k) as [h|] eqn:H; [|discriminate]. cbn [must_hash or_panic]. cbv beta iota zeta.
  destruct (insert_values _ _ _ _) as [m2| | |] eqn:V; try discriminate. apply insert_values_seen in V as (V1 & V2); [|apply aset_nodup; [exact kiff|exact D]].
  intros E. apply IH in E as (E1 & E2); [|exact V1]. split; [exact E1|]. intros w it G.
  change (sightings (k :: ks)) with (((kn_path k, None), (kn_hash k, kn_offset k)) :: map (fun v => ((kn_path k, Some (vd_name (kv_detail v))), (kv_hash v, kv_offset v))) (kn_values k) ++ sightings ks).
  destruct (E2 w it G) as [X|X]; [|right; right; apply in_or_app; now right].
  destruct (V2 w it X) as [Y|Y]; [|right; right; apply in_or_app; now left].
  rewrite (aget_aset keq kiff) in Y. destruct (keq w _) eqn:W; [|now left]. apply kiff in W as ->. injection Y as <-. right. left. cbn [it_hash it_offset]. now rewrite H.
Qed.
Lemma taken_seen fi ks items : taken order fuel full hash fi ks items -> NoDup (map fst items) /\ Forall (in_file fi) ks
  /\ forall w it, aget keq w items = Some it -> In (w, (Some (it_hash it), it_offset it)) (sightings ks).
Proof.
  destruct 1 as [p p1 ks seq items p2 R RC I T G|p p1 ks fi seq prior latest p' logs R D I T G].
  - unfold get_reg_items in G. rewrite RC, I in G. cbv beta iota in G. rewrite T in G. cbv beta iota in G.
    destruct (insert_keys seq ks []) as [m| | |] eqn:E; try discriminate. injection G as <- _.
    apply insert_keys_seen in E as (E1 & E2); [|constructor]. split; [exact E1|].
    split; [exact (shown_in_file p p1 fuel true ks (proj2 (proj2 (proj2 (reached_inv _ R)))) I T)|].
    intros w it A. destruct (E2 w it A) as [X|X]; [discriminate X|exact X].
  - split; [|split].
    + destruct (comparison _ _ _ _ _ _ _ _ _ G) as (p2 & ks2 & prior' & ch & _ & _ & _ & _ & F & _).
      exact (proj1 (steps_latest seq _ prior [] [] prior' latest ch (NoDup_nil _) F)).
    + exact (shown_in_file p p1 fuel false ks (proj2 (proj2 (proj2 (reached_inv _ R)))) I T).
    + intros w it A. exact (latest_last order fuel fi seq p p1 p' prior latest logs ks D I T G w it A).
Qed.
Lemma sighting_value path name h off ks : In ((path, Some name), (h, off)) (sightings ks) ->
  exists k v, In k ks /\ In v (kn_values k) /\ kn_path k = path /\ vd_name (kv_detail v) = name /\ kv_offset v = off.
Proof.
  unfold sightings. rewrite in_flat_map. intros (k & I & [X|X]); [discriminate X|]. apply in_map_iff in X as (v & E & V). injection E as <- <- _ <-.
  exists k, v. auto.
Qed.
Lemma sighting_key path h off ks : In ((path, None), (h, off)) (sightings ks) -> exists k, In k ks /\ kn_path k = path /\ kn_offset k = off.
Proof.
  unfold sightings. rewrite in_flat_map. intros (k & I & [X|X]); [injection X as <- _ <-; now exists k|]. apply in_map_iff in X as (v & E & V). discriminate E.
Qed.
Lemma taken_names fi ks items path : taken order fuel full hash fi ks items -> live_at ks path ->
  forall zeros h st, names_agree (mkFI h (fi_buffer fi ++ zeros)) st items path.
Proof.
  intros T L zeros h st name it A seq cs. destruct (taken_seen _ _ _ T) as (_ & F & S).
  apply S, sighting_value in A as (k & v & IK & IV & P & <- & O). destruct (L k IK P) as (LK & LV).
  rewrite Forall_forall in F, LV. destruct (F k IK LK) as (_ & FV). rewrite Forall_forall in FV.
  destruct (FV v IV (LV v IV)) as (b & w & G & OK & NM). unfold old_value. cbn [fi_buffer]. rewrite <- O, (get_from_longer _ _ _ _ G).
  destruct (vk_longer b zeros OK) as (OK' & NM').
  destruct (kv_cases (b ++ zeros) (kv_offset v) (Some (it_seq it)) (st_full st)) as [(_ & nm & w' & N & E)|(NO & _)]; [|contradiction].
  rewrite E. constructor; [|constructor]. rewrite NM', NM in N. injection N as <- _.
  unfold read_value_bytes. destruct (read_value_bytes_direct _ _ _ _ _) as [[? ?] ?]. reflexivity.
Qed.
Lemma after_bs_name name above : ~ In 92 name -> after_bs (rev name ++ 92 :: above) = above.
Proof.
  intros N. assert (N' : ~ In 92 (rev name)) by now rewrite <- in_rev. clear N. induction (rev name) as [|c r IH]; [reflexivity|]. cbn [app after_bs].
  destruct (c =? 92) eqn:E; [apply N.eqb_eq in E as ->; elim N'; now left|]. apply IH. intros I. apply N'. now right.
Qed.
Lemma parent_name above name : ~ In 92 name -> parent_of (above ++ [92] ++ name) = above.
Proof. intros N. unfold parent_of. rewrite !rev_app_distr. cbn [rev app]. rewrite <- app_assoc. cbn [app]. rewrite after_bs_name by exact N. apply rev_involutive. Qed.
Lemma read_path fi st o k st' : op_filter o = None -> op_modified o = false -> kn_read fi st o = Ok (Some k, st') ->
  exists b nm w, get_from (fi_buffer fi) (op_offset o) = Some b /\ nk_ok b /\ kn_name_at b = Ok (nm, w) /\ kn_path k = op_path o ++ [92] ++ nm.
Proof.
  intros EF EM. unfold kn_read. destruct (get_from (fi_buffer fi) (op_offset o)) as [slice|] eqn:G; [|discriminate]. cbn [ok_or]. unfold read_from_slice. rewrite EF, EM.
  destruct (kn_cases st slice (op_offset o) (op_path o) (op_seq o)) as [(OK & nm & w & NM & E)|(_ & E)]; rewrite E; [|discriminate]. cbv beta iota.
  intros H. exists slice, nm, w. split; [reflexivity|]. split; [exact OK|]. split; [exact NM|]. revert H. set (k0 := kn_at _ _ _ _ _ _ _).
  destruct (_ && _).
  - destruct (read_values fi st (op_seq o) k0) as [[k2 ok]| | |] eqn:RV; try discriminate. cbv beta iota zeta. intros [= <- _].
    assert (P : kn_path k2 = kn_path k0).
    { revert RV. unfold read_values. destruct (_ && _); [|now intros [= <- _]]. destruct (1048576 <? _); [now intros [= <- _]|].
      destruct (parse_key_values _ _ _); [|now intros [= <- _]]. destruct (read_values_loop _ _ _ _ _) as [[[vs logs] ok']| | |]; try discriminate. now intros [= <- _]. }
    destruct ok; exact P.
  - cbv beta iota zeta. now intros [= <- _].
Qed.
Lemma taken_paths fi ks items above : taken order fuel full hash fi ks items -> live_below ks above ->
  forall zeros h st, paths_agree (mkFI h (fi_buffer fi ++ zeros)) st items above.
Proof.
  intros T L zeros h st path it P A seq cs. destruct (taken_seen _ _ _ T) as (_ & F & S).
  apply S, sighting_key in A as (k & IK & <- & O). destruct (L k IK P) as (LK & LN).
  rewrite Forall_forall in F. destruct (F k IK LK) as ((b & w & ab & G & OK & NM & PA) & _). unfold old_key.
  destruct (kn_read _ _ _) as [[[k'|] st']| | |] eqn:R; try constructor; [|constructor]. cbn [kn_set_state kn_set_values kn_set_updated kn_path].
  apply read_path in R as (b' & nm & w' & G' & OK' & NM' & ->); [|reflexivity|reflexivity]. cbn [op_offset op_path fi_buffer] in *.
  rewrite <- O, (get_from_longer _ _ _ _ G) in G'. injection G' as <-. rewrite (proj2 (nk_longer b zeros OK)), NM in NM'. injection NM' as <- _.
  rewrite PA, parent_name by exact LN. reflexivity.
Qed.
Lemma nodup_removes rm : forall m, NoDup (map fst m) -> NoDup (map fst (remove_values rm m)).
Proof.
  induction rm as [|[[q n] h] rm IH]; intros m D; [exact D|]. unfold remove_values. cbn [fold_left fst snd]. apply IH.
  exact (proj1 (held_remove_values q n h m [] D)).
Qed.
Lemma nodup_remove_keys rm : forall m, NoDup (map fst m) -> NoDup (map fst (remove_keys rm m)).
Proof.
  induction rm as [|[q h] rm IH]; intros m D; [exact D|]. unfold remove_keys. cbn [fold_left fst snd]. apply IH.
  unfold deleted_keys_remove. destruct (aget _ _ _); [|exact D]. destruct (remove_first _ _) as [[|x r]|]; [| |exact D].
  - apply adel_nodup, aset_nodup; [exact beq_iff|exact D].
  - apply aset_nodup; [exact beq_iff|exact D].
Qed.
Lemma nodup_push_all {K A} eqb (EQ : forall a b : K, eqb a b = true <-> a = b) (l : list A) k : forall m, NoDup (map fst m) ->
  NoDup (map fst (fold_left (fun m x => map_push eqb k x m) l m)).
Proof. induction l as [|x l IH]; intros m D; [exact D|]. cbn [fold_left]. apply IH. unfold map_push. destruct (aget eqb k m); now apply aset_nodup. Qed.
Lemma reached_nodup st : reached order fuel full hash st -> NoDup (map fst (st_deleted_keys st)) /\ NoDup (map fst (st_deleted_values st)).
Proof.
  induction 1 as [|i st R IH|fi st n st' R IH E|fi seq p prior latest p' logs R IH E].
  - split; constructor.
  - exact IH.
  - revert E. unfold find_free_keys_and_values. assert (A : agree false st st) by apply agree_refl.
    destruct (recover_loop_ok fi st (S (length (fi_buffer fi))) st (fi_hbin fi) n A) as [E|(s & l & ks & vs & E & (w & G) & _)].
    { unfold len. lia. } { rewrite E. discriminate. }
    rewrite E. intros [= <-]. subst s. cbn [st_deleted_keys st_deleted_values]. unfold push_all.
    split; apply nodup_push_all; try exact beq_iff; apply IH.
  - destruct (comparison _ _ _ _ _ _ _ _ _ E) as (p2 & ks2 & prior' & ch & _ & _ & _ & _ & _ & _ & _ & _ & M3 & M4). cbv zeta in M3, M4.
    rewrite M3, M4. split; [apply nodup_remove_keys|apply nodup_removes]; apply pushes_nodup; try exact beq_iff; apply IH.
Qed.

(** ** A build *)
Notation R st := (reached order fuel full hash st).
Lemma analyze_reached fi seq p items i' p' : R (ps_state p) -> analyze_entry order fuel fi seq p items = Ok (i', p') -> R (ps_state p').
Proof.
  intros M. unfold analyze_entry. destruct (ps_recover p); [|now intros [= _ <-]].
  destruct (get_latest_reg_items _ _ _ _ _ _) as [[[l p1] logs]| | |] eqn:E; try discriminate; [|intros [= _ <-]; now apply reached_info].
  intros [= _ <-]. apply reached_info. exact (reached_compare _ _ _ _ _ _ _ _ _ _ _ M E).
Qed.
Lemma entries_reached sec hbins es : forall n p items n' i' p', R (ps_state p) ->
  update_entries order fuel sec hbins es n p items = Ok (n', i', p') -> R (ps_state p').
Proof.
  induction es as [|e es IH]; intros n p items n' i' p' M; cbn [update_entries]; [now intros [= _ _ <-]|].
  destruct (le_valid_hashes e); [|intros [= _ _ <-]; now apply reached_info].
  destruct (_ <? sec); [apply IH; now apply reached_info|]. destruct (negb _); [intros [= _ _ <-]; now apply reached_info|].
  destruct (_ && _); [intros [= _ _ <-]; now apply reached_info|].
  cbv zeta. destruct (apply_pages _ _ _) as [b| | |]; try discriminate. cbv beta iota.
  destruct (analyze_entry _ _ _ _ _ _) as [[i1 p1]| | |] eqn:E; try discriminate. cbv beta iota.
  apply IH. eapply analyze_reached; [|exact E]. exact M.
Qed.
Lemma logs_reached sec logs : forall n p items n' p', R (ps_state p) ->
  apply_logs order fuel sec logs n p items = Ok (n', p') -> R (ps_state p').
Proof.
  induction logs as [|l logs IH]; intros n p items n' p' M; cbn [apply_logs]; [now intros [= _ <-]|].
  destruct (sec <=? _); [|apply IH; now apply reached_info]. destruct (_ || _); [|apply IH; now apply reached_info].
  unfold update_parser. destruct (base_block_info p) as [[s h]| | |]; try discriminate. cbv beta iota.
  destruct (update_entries _ _ _ _ _ _ _ _) as [[[n1 i1] p1]| | |] eqn:E; try discriminate. cbv beta iota.
  apply IH. now apply entries_reached in E.
Qed.
Lemma base_block_reached p s bad p' : R (ps_state p) -> init_base_block p = Ok (s, bad, p') -> R (ps_state p').
Proof.
  intros M. unfold init_base_block, check_base_block. destruct (bb_from_bytes _) as [[bb r]| | |]; try discriminate. cbv beta iota zeta.
  destruct (is_supported bb); [|intros [= _ _ <-]; now apply reached_info].
  set (q := if _ =? _ then _ else _).
  assert (MQ : R (ps_state q)) by (unfold q; destruct (_ =? _); [exact M|now apply reached_info]).
  destruct (get_range _ _ _); [|discriminate]. cbn [or_panic]. destruct (calculate_checksum _) as [ck| | |]; try discriminate.
  cbv beta iota. clearbody q. destruct (ck =? _); intros [= _ _ <-]; [exact MQ|now apply reached_info].
Qed.
Lemma apply_reached bad logs p p' : R (ps_state p) -> apply_transaction_logs order fuel bad logs p = Ok p' -> R (ps_state p').
Proof.
  intros M. unfold apply_transaction_logs. destruct logs as [|l logs]; [now intros [= <-]|].
  destruct (prepare_logs bad p (l :: logs)) as [[[go p1] logs1]| | |] eqn:E; try discriminate.
  assert (M1 : R (ps_state p1)).
  { assert (X : forall p2, R (ps_state p2) -> forall l2, (let* b := or_panic (ps_base_block p2) in
        if bb_primary_seq (bb_base b) =? bb_secondary_seq (bb_base b) then Ok (false, ps_log WarningTransactionLog p2, l2) else Ok (true, p2, l2)) = Ok (go, p1, logs1) -> R (ps_state p1)).
    { intros p2 M2 l2. destruct (ps_base_block p2); [|discriminate]. cbn [or_panic]. destruct (_ =? _); intros [= _ <- _]; [now apply reached_info|exact M2]. }
    unfold prepare_logs in E. destruct bad.
    - destruct (handle_bad_checksum p (l :: logs)) as [[p2 logs2]| | |] eqn:H; try discriminate. cbv beta iota in E. apply X in E; [exact E|].
      unfold handle_bad_checksum in H. destruct (last _ _); [|discriminate]. cbn [or_panic] in H. cbv beta zeta iota in H.
      destruct (get_range _ _ _) in H; [|discriminate]. cbn [ok_or] in H. destruct (overwrite _ _ _) in H; [|discriminate]. cbn [or_panic] in H.
      destruct (init_base_block _) as [[[s b] p3]| | |] eqn:B in H; try discriminate. injection H as <- _.
      apply base_block_reached in B; [exact B|]. now apply reached_info.
    - cbv beta iota in E. now apply X in E. }
  cbv beta iota. destruct go; [|now intros [= <-]].
  destruct (get_reg_items fuel p1 0) as [[items p2]| | |] eqn:G; try discriminate.
  assert (M2 : R (ps_state p2)).
  { unfold get_reg_items in G. destruct (ps_recover p1); [|now injection G as _ <-].
    destruct (init_root p1) as [q| | |] eqn:I; try discriminate. apply init_root_state in I.
    destruct (iterate _ _ _ _ _ _); try discriminate. destruct (insert_keys _ _ _); try discriminate. injection G as _ <-. now rewrite I. }
  cbv beta iota. destruct (base_block_info p2) as [[sec h]| | |]; try discriminate. cbv beta iota.
  destruct (apply_logs _ _ _ _ _ _ _) as [[n p3]| | |] eqn:A; try discriminate. apply logs_reached in A; [|exact M2]. cbv beta iota.
  unfold update_header. destruct (overwrite _ _ _); [|discriminate]. cbn [or_panic]. destruct (overwrite _ _ _); [|discriminate]. cbn [or_panic].
  destruct (get_range _ _ _); [|discriminate]. cbn [or_panic]. destruct (calculate_checksum _); try discriminate.
  cbv beta iota. destruct (overwrite _ _ _); [|discriminate]. cbn [or_panic].
  destruct (init_base_block _) as [[[s b] p4]| | |] eqn:B; try discriminate. apply base_block_reached in B; [|exact A].
  intros [= <-]. now apply reached_info.
Qed.
Lemma build_reached recover buffer files q : build order fuel hash recover full buffer files = Ok q -> R (ps_state q).
Proof.
  unfold build. destruct (parse_logs files) as [[logs w]| | |]; try discriminate. cbv beta iota zeta. unfold ps_init.
  destruct (init_base_block _) as [[[s bad] p]| | |] eqn:B; try discriminate.
  apply base_block_reached in B; [|apply reached_new]. cbv beta iota.
  match goal with |- match ?x with _ => _ end = _ -> _ => destruct x as [p1| | |] eqn:E; try discriminate end.
  assert (M : R (ps_state p1)).
  { destruct s; [|now injection E as <-].
    assert (X : forall p2, R (ps_state p2) -> match apply_transaction_logs order fuel bad logs p2 with Ok p => init_root p | Err => Err | Panic => Panic | OutOfFuel => OutOfFuel end = Ok p1 -> R (ps_state p1)).
    { intros p2 M2. destruct (apply_transaction_logs order fuel bad logs p2) as [p3| | |] eqn:A; try discriminate. apply apply_reached in A; [|exact M2].
      intros I. apply init_root_state in I. now rewrite I. }
    destruct recover; [|exact (X p B E)]. destruct (ps_base_block p) as [bb|]; [|discriminate]. cbn [or_panic] in E. cbv beta iota in E.
    destruct (find_free_keys_and_values _ _ _) as [st| | |] eqn:F in E; try discriminate. cbv beta iota in E.
    refine (X (ps_set_state st p) _ E). exact (reached_scan _ _ _ _ _ _ _ _ B F). }
  cbv beta iota. intros [= <-]. now apply reached_info.
Qed.
End Reach.
