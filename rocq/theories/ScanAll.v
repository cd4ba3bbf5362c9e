(** Every free cell of well-formed bins is reported. *)
From Verif Require Import Base BaseFacts LayoutSpec LayoutFacts HeaderFacts BaseBlock Util Types Value Node Recover Parser TxLog
  NodeFrame TxSpec TxApply TxBuild CellSpec CellFacts CellData CellList CellRead ScanSpec ScanFacts Recovered ScanOpen.

Definition pushed {A} (l : list A) (m : amap (list N) (list A)) : Prop := m = match l with [] => [] | _ => [([], l)] end.
Lemma push_all_from {A} (l : list A) : forall a, push_all l [([], a)] = [([], a ++ l)].
Proof.
  induction l as [|x l IH]; intros a; [now rewrite app_nil_r|]. unfold push_all in *. cbn [fold_left].
  unfold map_push at 2. cbn [aget beq]. cbn [aset beq]. rewrite IH, <- app_assoc. reflexivity.
Qed.
Lemma push_all_pushed {A} (l : list A) : pushed l (push_all l []).
Proof. destruct l as [|x l]; [reflexivity|]. exact (push_all_from l [x]). Qed.

(** ** The root key *)
Lemma uml_root st k n ks vs : pushed ks (st_deleted_keys st) -> pushed vs (st_deleted_values st) ->
  st_modified_keys st = [] -> st_modified_values st = [] ->
  Forall (fun d => is_deleted_primary_file (kn_state d) = true) ks ->
  is_deleted_primary_file (kn_state k) = false -> is_key_root k = true -> kn_deleted k = [] ->
  exists k', update_modified_lists (S (S n)) st k = Ok k' /\ same_cell (kn_set_values (kn_values k) k') k
    /\ kn_state k' = kn_state k /\ kn_deleted k' = ks
    /\ kn_values k' = kn_values k ++ sort_by (fun a b => str_le (vd_name (kv_detail a)) (vd_name (kv_detail b))) vs.
Proof.
  intros DK DV MK MV F S R D.
  assert (UP : forall d, is_deleted_primary_file (kn_state d) = true -> update_modified_lists (Datatypes.S n) st d = Ok d).
  { intros d H. cbn [update_modified_lists]. now rewrite H. }
  revert UP. generalize (Datatypes.S n) as m. intros m UP.
  assert (AG : aget beq [] (st_deleted_keys st) = match ks with [] => None | _ => Some ks end).
  { rewrite DK. now destruct ks. }
  cbn [update_modified_lists]. rewrite S. unfold lookup_path. rewrite R. rewrite AG.
  match goal with |- exists k', match ?x with _ => _ end = _ /\ _ => set (st1 := x) end.
  assert (E1 : st1 = Ok (kn_set_deleted ks k)).
  { unfold st1. match goal with |- context [let* l := ?g _ in _] => set (go := g) end.
    assert (G : forall l, Forall (fun d => is_deleted_primary_file (kn_state d) = true) l -> go l = Ok l).
    { induction 1 as [|x l X L IH]; [reflexivity|].
      change (go (x :: l)) with (let* dk' := if kn_offset x =? kn_offset k then Ok x else update_modified_lists m st x in let* r' := go l in Ok (dk' :: r')).
      rewrite UP, IH by exact X. now destruct (_ =? _). }
    clearbody go. destruct ks as [|d ks]; [rewrite <- D; now destruct k|].
    rewrite G by exact F. reflexivity. }
  rewrite E1. cbv beta iota zeta. rewrite MK, MV. cbn [aget].
  eexists. split; [reflexivity|]. cbn [kn_set_values kn_set_deleted kn_values kn_state kn_deleted].
  split; [repeat split|]. split; [reflexivity|]. split; [reflexivity|]. rewrite map_id. f_equal.
  rewrite DV. now destruct vs.
Qed.

(** ** Everything on the stack is yielded *)
Lemma push_check_stack k c x : In x (cx_stack c) -> In x (cx_stack (push_check k c)).
Proof. unfold push_check. destruct (existsb _ _); [auto|]. now right. Qed.
Lemma fold_stack (g : context -> key_node -> context) l : (forall k c x, In x (cx_stack c) -> In x (cx_stack (g c k))) ->
  forall c x, In x (cx_stack c) -> In x (cx_stack (fold_left g l c)).
Proof. intros H. induction l as [|k l IH]; intros c x I; [exact I|]. cbn [fold_left]. apply IH. now apply H. Qed.
Lemma fold_pushed l : forall c x, In x l -> In x (cx_stack (fold_left (fun cx d => push d cx) l c)).
Proof.
  induction l as [|k l IH]; intros c x []; cbn [fold_left]; [|now apply IH]. subst.
  apply fold_stack; [intros; now right|now left].
Qed.
Lemma fold_filter (g : context -> key_node -> context) l : (forall k c, cx_filter (g c k) = cx_filter c) ->
  forall c, cx_filter (fold_left g l c) = cx_filter c.
Proof. intros H. induction l as [|k l IH]; intros c; [reflexivity|]. cbn [fold_left]. now rewrite IH, H. Qed.
Definition noted (k' k : key_node) : Prop :=
  same_cell k' k /\ kn_state k' = kn_state k /\ (kn_deleted k = [] -> kn_deleted k' = []).
Lemma visit_stack fi cx k k' cx' : visit fi cx k = Ok (k', cx') ->
  noted k' k /\ cx_filter cx' = cx_filter cx /\ (forall x, In x (cx_stack cx) -> In x (cx_stack cx'))
  /\ (forall d, In d (kn_deleted k) -> exists f, In (kn_set_filter f d) (cx_stack cx')).
Proof.
  unfold visit. match goal with |- match ?x with _ => _ end = _ -> _ => destruct x as [[k1 cx1]| | |] eqn:E; try discriminate end.
  assert (X : same_cell k1 k /\ kn_state k1 = kn_state k /\ kn_deleted k1 = kn_deleted k /\ cx_filter cx1 = cx_filter cx
     /\ (forall x, In x (cx_stack cx) -> In x (cx_stack cx1))).
  { destruct (0 <? _) in E; [|injection E as <- <-; repeat split; auto].
    destruct (read_sub_keys_internal _ _ _ _ _ _) as [[[[k2 cs] fd] st]| | |] eqn:R in E; try discriminate. injection E as <- <-.
    assert (Y : same_cell k2 k /\ kn_state k2 = kn_state k /\ kn_deleted k2 = kn_deleted k).
    { unfold read_sub_keys_internal in R. destruct (is_allocated _); [|injection R as <- _ _ _; repeat split].
      destruct (1048576 <? _); [injection R as <- _ _ _; repeat split|]. destruct (0 <? _); [|injection R as <- _ _ _; repeat split].
      destruct (parse_sub_key_list _ _ _); try discriminate; [|injection R as <- _ _ _; repeat split].
      destruct (read_children _ _ _ _ _ _ _ _ _) as [[[[? ?] ?] ?]| | |]; try discriminate. injection R as <- _ _ _. repeat split. }
    destruct Y as (Y1 & Y2 & Y3). split; [exact Y1|]. split; [exact Y2|]. split; [exact Y3|]. split.
    - rewrite (fold_filter (fun cx c => push_check c cx)); [reflexivity|]. intros. unfold push_check. now destruct (existsb _ _).
    - intros x I. apply (fold_stack (fun cx c => push_check c cx)); [intros; now apply push_check_stack|exact I]. }
  destruct X as (X1 & X2 & X3 & X4 & X5). cbv beta iota zeta. intros [= <- <-]. split; [|split; [|split]].
  - split; [exact X1|]. split; [exact X2|]. intros Z. cbn [kn_set_deleted kn_deleted]. now rewrite X3, Z.
  - rewrite (fold_filter (fun cx d => push d cx)); [exact X4|reflexivity].
  - intros x I. apply (fold_stack (fun cx d => push d cx)); [intros; now right|now apply X5].
  - intros d I. exists (kn_filter k1). apply fold_pushed. apply in_map. now rewrite X3.
Qed.
Lemma collect_yields fi : forall fuel cx ks, cx_filter cx = None -> collect false fuel fi cx = Ok ks ->
  forall k, In k (cx_stack cx) -> (exists k', In k' ks /\ noted k' k)
  /\ (forall d, In d (kn_deleted k) -> exists d', In d' ks /\ noted d' d).
Proof.
  induction fuel as [|fuel IH]; intros cx ks FN; [discriminate|]. cbn [collect next_key_preorder].
  destruct (cx_stack cx) as [|node rest] eqn:S; [intros _ k []|].
  destruct (visit fi (cx_set_stack rest cx) node) as [[k1 cx1]| | |] eqn:V; try discriminate.
  apply visit_stack in V as (V1 & V2 & V3 & V4). cbv beta iota. cbn [cx_set_stack cx_filter cx_stack] in V2, V3.
  rewrite V2, FN. cbn [f_is_valid negb]. rewrite orb_true_r. cbn [orb]. cbv beta iota.
  destruct (collect false fuel fi cx1) as [r| | |] eqn:C; try discriminate. intros [= <-].
  pose proof (IH cx1 r (eq_trans V2 FN) C) as H.
  assert (D : forall d, In d (kn_deleted node) -> exists d', In d' (k1 :: r) /\ noted d' d).
  { intros d I. destruct (V4 d I) as (f & J). destruct (H _ J) as ((d' & J1 & J2 & J3 & J4) & _). exists d'. split; [now right|].
    split; [exact J2|]. split; [exact J3|exact J4]. }
  intros k [<-|I]; [split; [exists k1; split; [now left|exact V1]|exact D]|].
  destruct (H k (V3 k I)) as ((k' & A & B) & E). split; [exists k'; split; [now right|exact B]|].
  intros d J. destruct (E d J) as (d' & X & Y). exists d'. split; [now right|exact Y].
Qed.

(** ** Opening *)
Lemma root_read fi st o ks vs : pushed ks (st_deleted_keys st) -> pushed vs (st_deleted_values st) ->
  st_modified_keys st = [] -> st_modified_values st = [] ->
  Forall (fun d => is_deleted_primary_file (kn_state d) = true) ks ->
  o <= len (fi_buffer fi) -> nk_ok (rest_at (fi_buffer fi) o) -> N.testbit (num_at (fi_buffer fi) (o + 6) 2) 2 = true ->
  exists k vs0, kn_read fi st (mkOpt o [] None true None true) = Ok (Some k, st) /\ kn_state k = Allocated
    /\ kn_deleted k = ks /\ kn_values k = vs0 ++ sort_by (fun a b => str_le (vd_name (kv_detail a)) (vd_name (kv_detail b))) vs.
Proof.
  intros DK DV MK MV F L NK RF. unfold kn_read. cbn [op_offset]. rewrite get_from_rest by exact L. cbn [ok_or]. cbv beta iota.
  set (s := rest_at (fi_buffer fi) o) in *. unfold read_from_slice. cbn [op_offset op_path op_seq op_filter op_self_match op_modified].
  destruct (kn_cases st s o [] None) as [(_ & nm & w & _ & E)|(N & _)]; [|contradiction]. rewrite E. cbv beta iota.
  set (k0 := kn_at st s o [] None nm w).
  assert (X : exists k1, (if (0 <? kd_nvalues (kn_detail k0)) && should_read_values None IterateKeys true
      then let* (k, ok) := read_values fi st None k0 in Ok (if ok : bool then k else kn_add_log WarningParse k) else Ok k0) = Ok k1
    /\ kn_detail k1 = kn_detail k0 /\ kn_state k1 = Allocated /\ kn_deleted k1 = []).
  { destruct (_ && _); [|eauto]. destruct (read_values_total fi st None k0) as (k' & ok & V). rewrite V. cbv beta iota. eexists. split; [reflexivity|].
    assert (D : kn_detail k' = kn_detail k0 /\ kn_state k' = Allocated /\ kn_deleted k' = []).
    { unfold read_values in V. destruct (_ && _) in V; [|injection V as <- _; auto].
      destruct (1048576 <? _) in V; [injection V as <- _; auto|]. destruct (parse_key_values _ _ _) in V; [|injection V as <- _; auto].
      destruct (read_values_loop _ _ _ _ _) as [[[vs' logs'] ok']| | |] in V; try discriminate. injection V as <- _. auto. }
    destruct ok; exact D. }
  destruct X as (k1 & -> & D1 & S1 & K1). cbv beta iota zeta.
  unfold uml_fuel. destruct (uml_root st k1 (2 * length (st_deleted_keys st)) ks vs DK DV MK MV F) as (k2 & U & _ & U2 & U3 & U4).
  { now rewrite S1. } { unfold is_key_root. rewrite D1. unfold k0. change (kd_flags (kn_detail (kn_at st s o [] None nm w))) with (num_at s 6 2).
    unfold s. rewrite num_at_rest, root_flag. exact RF. } { exact K1. }
  rewrite U. exists k2, (kn_values k1). split; [reflexivity|]. split; [now rewrite U2|]. split; [exact U3|exact U4].
Qed.

Section Covered.
Variables (buf : list N) (full : bool) (hash : list N -> N).
Let st0 := mkState 0 full [] hash [] [] [] [].
Let fi0 := mkFI 4096 buf.
Lemma sort_in {A} leb (x : A) l : In x l -> In x (sort_by leb l).
Proof. intros I. eapply Permutation.Permutation_in; [apply Permutation.Permutation_sym, sort_perm|exact I]. Qed.
Lemma covered order fuel e bins :
  known_file_type buf -> 4096 <= len buf -> bytes_at buf 0 4 = REGF ->
  tiled buf e 4096 bins -> e <= len buf -> num_at buf 40 4 <= e ->
  bin_header buf 4096 -> nk_ok (rest_at buf 4128) -> N.testbit (num_at buf 4134 2) 2 = true ->
  exists p, build order fuel hash true full buf [] = Ok p
  /\ forall n anc m ks, iterate n p None anc m false = Ok ks ->
     forall o l c, In (o, l) bins -> o < num_at buf 40 4 -> In c l -> (0 < i32_at buf c)%Z ->
     (nk_ok (rest_at buf c) -> exists k, In k ks /\ kn_offset k = c /\ key_found fi0 st0 (len buf) DeletedPrimaryFile k)
     /\ (vk_ok (rest_at buf c) -> exists k v, In k ks /\ In v (kn_values k) /\ kv_offset v = c
          /\ value_found fi0 st0 (len buf) DeletedPrimaryFile v).
Proof.
  intros K L T TI LE NE BH NK RF. unfold build. change (parse_logs []) with (Ok (@nil transaction_log, @nil log_code)). cbv beta iota zeta.
  change (mkParser (mkFI 0 buf) (mkState 0 full [] hash [] [] [] []) None None None true) with (start hash true full buf).
  set (p0 := start hash true full buf). unfold ps_init.
  destruct (init_base_block_spec p0 L T) as (name & bad & p1 & E1 & E2 & F1 & B1 & R1 & _ & _ & SI & _).
  rewrite E2. change (ps_buffer p0) with buf in *. assert (SU : is_supported (base_block_at buf name) = true) by now apply supported_at.
  rewrite SU. cbv beta iota. rewrite B1. cbn [or_panic]. change (bb_hive_bins_data_size (bb_base (base_block_at buf name))) with (num_at buf 40 4).
  assert (A : agree false st0 (ps_state p1)).
  { assert (A1 := f_equal st_root_offset SI). assert (A2 := f_equal st_full SI). assert (A3 := f_equal st_hasher SI).
    split; [symmetry; exact A1|]. split; [symmetry; exact A2|]. split; [symmetry; exact A3|]. discriminate. }
  destruct (open_scan buf full hash p1 L T F1 SI) as [E|(st' & l & ks & vs & E & G & SW & FK & FV & AF)].
  { exfalso. unfold find_free_keys_and_values in E. rewrite F1 in E. cbn [fi_buffer fi_hbin] in E. revert E.
    apply (loop_total fi0 st0 (num_at buf 40 4) e LE NE _ 4096 bins); assumption. }
  rewrite E. cbv beta iota. cbn [apply_transaction_logs]. cbv beta iota.
  assert (LQ : l = swept (num_at buf 40 4) bins) by (apply (sweep_fun _ _ _ _ SW); now apply (tiled_sweep _ _ e)).
  assert (TD : tidy fi0 l).
  { rewrite LQ. clear -TI. induction TI as [|o l r H S F TT IH]; [constructor|]. unfold swept in *. cbn [List.filter fst].
    assert (FL : Forall (fun c => 6 <= size_at buf c) l).
    { clear -F. induction F; constructor; [lia|assumption]. }
    destruct (o <? _); [|exact IH]. cbn [flat_map snd]. apply Forall_app. split; [exact FL|exact IH]. }
  specialize (AF TD).
  assert (K0 := f_equal st_deleted_keys SI). assert (V0 := f_equal st_deleted_values SI).
  assert (MK0 := f_equal st_modified_keys SI). assert (MV0 := f_equal st_modified_values SI).
  change (st_deleted_keys (ps_state p1) = []) in K0. change (st_deleted_values (ps_state p1) = []) in V0.
  change (st_modified_keys (ps_state p1) = []) in MK0. change (st_modified_values (ps_state p1) = []) in MV0.
  destruct G as (wn & ->). rewrite K0, V0, MK0, MV0.
  match goal with |- context [ps_set_state ?s p1] => set (st2 := s) end.
  unfold init_root. change (ps_buffer (ps_set_state st2 p1)) with (fi_buffer (ps_file p1)). change (ps_hbin (ps_set_state st2 p1)) with (fi_hbin (ps_file p1)).
  rewrite F1. cbn [fi_buffer fi_hbin]. rewrite get_from_rest by lia. cbn [ok_or]. cbv beta iota.
  destruct BH as (BL & BT). destruct (hbin_cases 4096 (rest_at buf 4096)) as [(_ & _ & HB)|([HL|HT] & _)].
  2:{ rewrite len_rest_at in HL. lia. } 2:{ rewrite bytes_at_rest, N.add_0_r in HT. contradiction. }
  rewrite HB. cbv beta iota zeta. rewrite rest_rest, len_rest_at.
  change (ps_buffer (ps_set_hbin ?h (ps_set_state st2 p1))) with (fi_buffer (ps_file p1)). rewrite F1. cbn [fi_buffer].
  replace (len buf - (len buf - (4096 + 32))) with 4128 by lia.
  change (ps_file (ps_set_hbin ?h (ps_set_state st2 p1))) with (ps_file p1). change (ps_state (ps_set_hbin ?h (ps_set_state st2 p1))) with st2.
  rewrite F1.
  destruct (root_read fi0 st2 4128 ks vs) as (root & vs0 & RR & RS & RD & RV); try assumption; try reflexivity.
  { apply push_all_pushed. } { apply push_all_pushed. }
  { eapply Forall_impl; [|exact FK]. intros k Hk. now apply reported_state in Hk. }
  unfold fi0 in RR. rewrite RR. cbv beta iota. eexists. split; [reflexivity|].
  intros n anc m out IT. unfold iterate in IT. unfold from_parser in IT. cbn [ps_set_state ps_set_root ps_root ps_file ps_state] in IT.
  match type of IT with collect _ _ _ ?cx = _ => pose proof (collect_yields _ n cx out eq_refl IT root) as (Y1 & Y2); [now left|] end.
  intros o lb c IB LT IC FR.
  assert (IL : In c l).
  { rewrite LQ. unfold swept. apply in_flat_map. exists (o, lb). split; [|exact IC]. apply filter_In. split; [exact IB|]. now apply N.ltb_lt. }
  destruct (AF c (conj IL FR)) as (HK & HV). cbn [fi0 fi_buffer] in HK, HV. split.
  - intros NC. destruct (HK NC) as (k & I1 & I2 & I3). destruct (Y2 k) as (k' & J1 & J2 & J3 & J4); [now rewrite RD|].
    exists k'. split; [exact J1|]. pose proof J2 as (J5 & _). split; [now rewrite J5|].
    assert (P : recovered_key buf full hash l k').
    { apply (PK_same buf full hash l k); [exact J2|exact J3|exact J4|]. intros _. now apply (proj1 (Forall_forall _ _) FK). }
    destruct I3 as (X1 & X2 & X3 & k0 & stz & X4 & X5 & X6 & X7).
    unfold key_found. rewrite J5. split; [exact X1|]. split; [exact X2|]. split; [exact X3|]. exists k0, stz. split; [exact X4|].
    split; [|split; [now rewrite J3|now apply J4]].
    destruct X5 as (Q1 & Q2 & Q3 & Q4 & Q5 & Q6 & Q7). destruct J2 as (W1 & W2 & W3 & W4 & W5 & W6 & W7). repeat split; congruence.
  - intros VC. destruct (HV VC) as (v & I1 & I2 & I3). destruct Y1 as (k' & J1 & J2 & _).
    destruct J2 as (_ & _ & _ & _ & J5 & _). exists k', v. split; [exact J1|]. split; [|split; [exact I2|exact I3]].
    rewrite J5, RV. apply in_or_app. right. now apply sort_in.
Qed.
End Covered.
