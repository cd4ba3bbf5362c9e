(** Moving through a well-formed hive with keys in hand. *)
From Verif Require Import Base BaseFacts Util UtilSpec UtilText UtilLz LayoutSpec LayoutFacts HeaderFacts BaseBlock Types Value Node Recover
  Parser TxLog TxSpec TxParse TxApply NodeFrame TxBuild CellSpec CellFacts CellData CellList CellRead
  TreeSpec TreeRead TreeIter TreeOpen TreeFilter TreeLook TreeUse AnyFile AnyOpen Pure History TreeCount TreeSession CompareTree
  NavSpec NavRead.

(** ** Keys of the tree *)
Lemma preorder_stored fi t : forall root above x, tree_stored fi root t -> In x (preorder above t) ->
  exists r, tree_stored fi r (snd x) /\ (snd x = t /\ r = root \/ r = false).
Proof.
  induction t as [pos name vals subs IH] using tree_ind'. intros root above x T I. cbn [preorder] in I. destruct I as [<-|I].
  - exists root. auto.
  - apply in_flat_map in I as (s & S & I). inversion T; subst. rewrite Forall_forall in IH.
    match goal with H : Forall (tree_stored fi false) subs |- _ => rewrite Forall_forall in H; specialize (H s S); destruct (IH s S false _ x H I) as (r & R & [(_ & ->)| ->]) end;
    exists false; auto.
Qed.
Lemma preorder_positions t : forall above, map (fun x => t_pos (snd x)) (preorder above t) = positions t.
Proof.
  induction t as [pos name vals subs IH] using tree_ind'. intros above. cbn [preorder positions map snd t_pos]. f_equal.
  rewrite flat_map_concat_map, concat_map, map_map, flat_map_concat_map. f_equal. apply map_ext_in. intros s I.
  rewrite Forall_forall in IH. now apply IH.
Qed.
Lemma preorder_at t x y above : NoDup (positions t) -> In x (preorder above t) -> In y (preorder above t) -> t_pos (snd x) = t_pos (snd y) -> x = y.
Proof. intros ND I J E. apply (nodup_inj (fun x => t_pos (snd x)) (preorder above t)); auto. now rewrite preorder_positions. Qed.
Lemma preorder_sub t : forall above x s, In x (preorder above t) -> In s (t_subs (snd x)) -> In (fst x ++ [t_name s], s) (preorder above t).
Proof.
  induction t as [pos name vals subs IH] using tree_ind'. intros above x s I S. cbn [preorder] in *. right. destruct I as [<-|I].
  - cbn [snd t_subs fst t_name] in *. apply in_flat_map. exists s. split; [exact S|]. rewrite preorder_eq. now left.
  - apply in_flat_map in I as (u & U & I). apply in_flat_map. exists u. split; [exact U|]. rewrite Forall_forall in IH. now apply IH.
Qed.
Lemma preorder_first t x : In x (preorder [] t) -> exists r, fst x = t_name t :: r /\ (r = [] -> snd x = t).
Proof.
  intros I. destruct t as [pos name vals subs]. cbn [preorder t_name app] in *. destruct I as [<-|I]; [now exists []|].
  apply in_flat_map in I as (s & S & I). assert (G : forall u above y, In y (preorder above u) -> exists r, fst y = above ++ t_name u :: r).
  { clear. induction u as [pos name vals subs IH] using tree_ind'. intros above y I. cbn [preorder] in I. destruct I as [<-|I]; [now exists []|].
    apply in_flat_map in I as (s & S & I). rewrite Forall_forall in IH. destruct (IH s S _ _ I) as (r & ->). cbn [t_name]. exists (t_name s :: r). now rewrite <- app_assoc. }
  destruct (G _ _ _ I) as (r & ->). exists (t_name s :: r). split; [reflexivity|discriminate].
Qed.
Lemma clean_inside t : forall above x, clean_names t -> In x (preorder above t) -> clean_names (snd x).
Proof.
  induction t as [pos name vals subs IH] using tree_ind'. intros above x C I. cbn [preorder] in I. destruct I as [<-|I]; [exact C|].
  apply in_flat_map in I as (s & S & I). rewrite Forall_forall in IH. apply (IH s S _ _ (proj1 (clean_sub _ s C S)) I).
Qed.

(** ** A key in hand *)
(** What the reading of sub keys uses of it. *)
Definition weak (fi : file_info) (names : list (list N)) (s : key_tree) (k : key_node) : Prop :=
  kn_state k = Allocated /\ kn_path k = utf8 (spelled names)
  /\ (exists d, subs_stored fi d (t_subs s) /\ kd_nsub (kn_detail k) = kd_nsub d /\ kd_sublist (kn_detail k) = kd_sublist d)
  /\ Forall (tree_stored fi false) (t_subs s).
Definition held (fi : file_info) (t : key_tree) (x : list (list N) * key_tree) (k : key_node) : Prop :=
  In x (preorder [] t) /\ key_shown k (fst x) (snd x) /\ born fi k.
Lemma detail_of fi root s : bytes_ok (fi_buffer fi) -> tree_stored fi root s -> forall full, exists d,
  nk_detail_at full (rest_at (fi_buffer fi) (t_pos s)) = kd_with_full (if full then Some (nk_table d) else None) d
  /\ subs_stored fi d (t_subs s).
Proof.
  intros B T full. set (st := mkState 0 full [] (fun _ => 0) [] [] [] []).
  destruct (key_parse fi st root s [] B T) as (d & raw & k & rest & _ & _ & _ & U & _ & _ & _ & _ & E & BK & _).
  exists d. split; [|exact U]. destruct (kn_cases st (rest_at (fi_buffer fi) (t_pos s)) (t_pos s) [] None) as [(_ & nm & w & _ & E')|(_ & E')]; [|congruence].
  rewrite E' in E. injection E as <- _. destruct BK as (_ & _ & _ & D & _). exact D.
Qed.
Lemma held_weak fi t root x k : bytes_ok (fi_buffer fi) -> tree_stored fi root t -> held fi t x k -> weak fi (fst x) (snd x) k.
Proof.
  intros B T (I & (K1 & _ & K3 & _ & K5) & _ & full & D). destruct (preorder_stored fi t root [] x T I) as (r & R & _).
  destruct (detail_of fi r (snd x) B R full) as (d & E & U). rewrite K1, E in D. split; [exact K5|].
  split; [now apply read_utf8_exact in K3|]. split; [|now inversion R; subst].
  exists d. split; [exact U|]. rewrite D. now split.
Qed.
Lemma held_parent fi t x k : held fi t x k -> kd_parent (kn_detail k) = i32_at (rest_at (fi_buffer fi) (kn_offset k)) 20.
Proof. intros (_ & _ & _ & full & D). now rewrite D. Qed.
Lemma held_one fi t x y k : NoDup (positions t) -> held fi t x k -> In y (preorder [] t) -> kn_offset k = t_pos (snd y) -> x = y.
Proof. intros ND (I & (K & _) & _) J E. apply (preorder_at t x y []); auto. congruence. Qed.

(** ** Sub keys without a filter *)
Lemma children_plain fi st path sm subs : bytes_ok (fi_buffer fi) -> fi_hbin fi < 2 ^ 32 -> quiet st ->
  Forall (tree_stored fi false) subs ->
  exists kids found, read_children fi st path sm None (Some None) None true (map t_pos subs) = Ok (kids, found, [], st)
  /\ Forall2 (fun t k => loaded fi path false t (kn_set_filter None k)) subs kids.
Proof.
  intros B H M F. induction F as [|t r T F (kids & found & E & IH)]; [exists [], false; split; [reflexivity|constructor]|].
  destruct (key_load fi st false t path sm true B H T (or_intror M)) as (k & K & L).
  cbn [map read_children]. rewrite kn_read_no_query, K, E. cbv beta iota zeta.
  exists (child_filter_state sm None k :: kids). eexists. split; [reflexivity|]. constructor; [|exact IH].
  assert (X : kn_filter k = None) by (destruct L as (? & ? & ? & L & _); apply L).
  unfold child_filter_state. rewrite X. cbn [f_is_valid]. destruct sm; [rewrite set_filter_twice|]; now rewrite set_filter_same.
Qed.
Definition subs_at (names : list (list N)) (s : key_tree) : list (list (list N) * key_tree) :=
  map (fun c => (names ++ [t_name c], c)) (t_subs s).
Lemma loaded_shown fi names s root k : Forall (Forall scalar) names -> loaded fi (utf8 (spelled names)) root s (kn_set_filter None k) ->
  key_shown k (names ++ [t_name s]) s.
Proof. intros F L. change (key_shown (kn_set_filter None k) (names ++ [t_name s]) s). apply (waits_shown fi ((names, root, s) : pending)). now split. Qed.
Lemma names_scalar k names s : key_shown k names s -> Forall (Forall scalar) names.
Proof. intros (_ & _ & P & _). apply read_utf8_exact in P as (P & _). now apply scalar_spelled. Qed.
Lemma weak_sub_keys fi st names s k : bytes_ok (fi_buffer fi) -> fi_hbin fi < 2 ^ 32 -> quiet st -> Forall (Forall scalar) names ->
  weak fi names s k -> exists k' ks, read_sub_keys fi st k = Ok (k', ks, st) /\ shown ks (subs_at names s)
  /\ kn_values k' = kn_values k /\ kn_offset k' = kn_offset k /\ kn_name k' = kn_name k /\ kn_path k' = kn_path k /\ kn_state k' = kn_state k
  /\ kn_detail k' = kn_detail k /\ kn_deleted k' = kn_deleted k.
Proof.
  intros B H Q SN (A & P & (d & U & D1 & D2) & F). unfold read_sub_keys, read_sub_keys_internal. rewrite A, D1, D2, P. cbn [is_allocated].
  destruct (t_subs s) as [|s0 r0] eqn:SU.
  - destruct U as (U & _). rewrite U. exists k, []. unfold subs_at. rewrite SU. split; [reflexivity|]. split; [constructor|]. auto 10.
  - rewrite <- SU in *. assert (NN : t_subs s <> []) by (rewrite SU; discriminate). clear SU.
    destruct (list_total fi _ _ U NN) as (LE & E). rewrite E.
    destruct (N.ltb_spec 1048576 (kd_nsub d)); [lia|]. destruct (N.ltb_spec 0 (kd_nsub d)); [|lia]. cbv beta iota zeta. cbn [f_return_sub_keys]. rewrite andb_false_r.
    destruct (children_plain fi st (utf8 (spelled names)) (is_match_or_desc k) (t_subs s) B H Q F) as (kids & found & R & KS).
    match goal with |- context [read_children ?a ?b ?c ?d' ?e ?f ?g ?h ?i] =>
      assert (E' : read_children a b c d' e f g h i = _) by exact R; rewrite E'; clear E' end. cbv beta iota.
    eexists _, kids. split; [reflexivity|]. split; [|auto 10].
    unfold shown, subs_at. clear -KS SN. induction KS as [|c kid cs kids L KS IH]; [constructor|]. cbn [map]. constructor; [|exact IH].
    cbn [fst snd]. now apply (loaded_shown fi names c false).
Qed.
Lemma weak_by_index fi st names s k i : bytes_ok (fi_buffer fi) -> fi_hbin fi < 2 ^ 32 -> quiet st -> Forall (Forall scalar) names ->
  weak fi names s k -> exists o, get_sub_key_by_index fi st k i = Ok (k, o, st)
  /\ match nth_error (t_subs s) (N.to_nat i) with
     | Some c => exists kid, o = Some kid /\ key_shown kid (names ++ [t_name c]) c
     | None => o = None
     end.
Proof.
  intros B H Q SN (A & P & (d & U & D1 & D2) & F). unfold get_sub_key_by_index. rewrite D1, D2, P.
  destruct (t_subs s) as [|s0 r0] eqn:SU.
  - destruct U as (U & _). rewrite U. exists None. destruct (N.to_nat i); now split.
  - rewrite <- SU in *. assert (NN : t_subs s <> []) by (rewrite SU; discriminate). clear SU.
    destruct (list_total fi _ _ U NN) as (LE & E). rewrite E. destruct (N.ltb_spec 0 (kd_nsub d)); [|lia].
    rewrite get_at_nth, nth_error_map. destruct (nth_error (t_subs s) (N.to_nat i)) as [c|] eqn:NE; cbn [option_map].
    + rewrite Forall_forall in F. destruct (key_load fi st false c (utf8 (spelled names)) (is_match_or_desc k) true B H) as (kid & K & L).
      { apply F. now apply nth_error_In in NE. } { now right. }
      rewrite K. exists (Some kid). split; [reflexivity|]. exists kid. split; [reflexivity|]. apply (loaded_shown fi names c false); [exact SN|].
      rewrite set_filter_same; [exact L|]. destruct L as (? & ? & ? & L & _). apply L.
    + exists None. now split.
Qed.

(** ** Sub keys under a filter *)
Lemma loaded_weak fi names root s k : loaded fi (utf8 (spelled names)) root s (kn_set_filter None k) ->
  weak fi (names ++ [t_name s]) s k.
Proof.
  intros (full & d & raw & BK & _ & _ & U & A & _). destruct BK as (_ & _ & P & D & S & _).
  split; [exact S|]. split; [rewrite spelled_path; exact P|]. split; [|exact A]. exists d. split; [exact U|].
  change (kn_detail (kn_set_filter None k)) with (kn_detail k) in D. rewrite D. now split.
Qed.
Lemma key_weak_q fi st root above t sm m q r : bytes_ok (fi_buffer fi) -> fi_hbin fi < 2 ^ 32 -> tree_stored fi false t ->
  m = false \/ quiet st -> above ++ [t_name t] = root :: r -> r <> [] -> Forall (Forall scalar) above ->
  Forall (fun n => ~ In 92 n) (root :: r) -> cached root st ->
  exists st', root_only st st' /\ cached root st'
  /\ match flag_of q (root :: r) with
     | NoMatch => kn_read fi st (mkOpt (t_pos t) (utf8 (spelled above)) (Some (Some q)) sm None m) = Ok (None, st')
     | fl =>
         exists k, kn_read fi st (mkOpt (t_pos t) (utf8 (spelled above)) (Some (Some q)) sm None m) = Ok (Some k, st')
         /\ weak fi (above ++ [t_name t]) t k
         /\ match fl with
            | KeyMatch => loaded fi (utf8 (spelled above)) false t (kn_set_filter None k) /\ kn_filter k = Some MExact
            | _ => kn_filter k = None
            end
     end.
Proof.
  intros B H S M NE RN SA CL CA. set (path := utf8 (spelled above)). destruct (key_parse fi st false t path B S)
    as (d & raw & k & rest & F & R & V & U & A & G & _ & SC & E & BK & KV).
  assert (PK : kn_path k = utf8 (spelled (root :: r))).
  { rewrite <- NE, spelled_path. destruct BK as (_ & _ & BP & _). exact BP. }
  assert (RK : is_key_root k = false).
  { destruct BK as (_ & _ & _ & BD & _). unfold is_key_root. rewrite BD.
    change (kd_flags (kd_with_full (if st_full st then Some (nk_table d) else None) d)) with (kd_flags d).
    rewrite root_flag. exact R. }
  assert (GN : good (root :: r)).
  { split; [|exact CL]. rewrite <- NE. apply Forall_app. split; [exact SA|]. now constructor. }
  destruct (check_spec q st k root r GN RN PK RK CA) as (st' & CE & RO & CA').
  exists st'. split; [exact RO|]. split; [exact CA'|].
  assert (M' : m = false \/ quiet st') by (destruct M; [now left|right; eapply quiet_root_only; eassumption]).
  destruct (bare_nsub _ _ _ _ _ _ BK) as (_ & _ & NV & _).
  unfold kn_read. cbn [op_offset]. rewrite G. cbn [ok_or]. unfold read_from_slice.
  cbn [op_offset op_path op_seq op_filter op_self_match op_modified]. rewrite E. cbv beta iota. rewrite CE. cbv beta iota.
  assert (UM : forall k0, (if m then update_modified_lists (uml_fuel st') st' k0 else Ok k0) = Ok k0).
  { intros k0. destruct m; [|reflexivity]. destruct M' as [M'|M']; [discriminate|]. unfold uml_fuel. now rewrite uml_quiet. }
  assert (KF : kn_filter k = None) by apply BK.
  assert (WK : forall vs, weak fi (above ++ [t_name t]) t (kn_set_values vs k)).
  { intros vs. destruct BK as (_ & _ & P & D & ST & _). split; [exact ST|]. split; [rewrite spelled_path; exact P|]. split; [|exact A].
    exists d. split; [exact U|]. change (kn_detail (kn_set_values vs k)) with (kn_detail k). rewrite D. now split. }
  assert (WV : exists vs, (if (0 <? kd_nvalues (kn_detail k)) then let* (k, ok) := read_values fi st' None k in Ok (if ok : bool then k else kn_add_log WarningParse k)
    else Ok k) = Ok (kn_set_values vs k) /\ Forall2 value_shown vs (t_vals t)).
  { rewrite NV. destruct (N.ltb_spec 0 (kd_nvalues d)) as [P|P].
    - destruct (values_load fi st' _ _ _ _ _ _ B H F V BK KV P) as (vs & -> & VS & _). exists vs. now split.
    - exists []. split; [|destruct V as (V & _); destruct (t_vals t); [constructor|]; rewrite len_cons in V; lia].
      f_equal. destruct k. cbn in KV |- *. now subst. }
  destruct WV as (vs & WV & VS).
  destruct (flag_of q (root :: r)).
  - reflexivity.
  - destruct ((0 <? kd_nvalues (kn_detail k)) && should_read_values (Some (Some q)) IterateKeys sm) eqn:SR.
    + apply andb_true_iff in SR as (SR & _). rewrite SR in WV. rewrite WV. cbv beta iota zeta. rewrite UM.
      eexists. split; [reflexivity|]. split; [apply WK|exact KF].
    + cbv beta iota zeta. rewrite UM. eexists. split; [reflexivity|]. split; [|exact KF].
      assert (X : kn_set_values [] k = k) by (destruct k; cbn in KV |- *; now subst). rewrite <- X. apply WK.
  - replace (should_read_values (Some (Some q)) KeyMatch sm) with true by (unfold should_read_values; now destruct sm).
    rewrite andb_true_r, WV. cbv beta iota zeta. rewrite UM. eexists. split; [reflexivity|]. split; [apply WK|]. split; [|reflexivity].
    exists (st_full st), d, raw. split; [|split; [exact VS|repeat (split; [assumption|]); assumption]].
    destruct BK as (B1 & B2 & B3 & B4 & B5 & _ & B7 & B8 & B9 & B10 & B11). exact (conj B1 (conj B2 (conj B3 (conj B4 (conj B5 (conj eq_refl (conj B7 (conj B8 (conj B9 (conj B10 B11)))))))))).
Qed.
Definition is_key (f : filter_flags) : bool := match f with KeyMatch => true | _ => false end.
Definition kid (fi : file_info) (q : reg_query) (names : list (list N)) (s : key_tree) (k : key_node) : Prop :=
  weak fi (names ++ [t_name s]) s k
  /\ (kid_flag q names s = KeyMatch -> loaded fi (utf8 (spelled names)) false s (kn_set_filter None k)).
Lemma kid_filter fi q names s k sm f : kid fi q names s k -> kid fi q names s (child_filter_state sm f k).
Proof. intros K. unfold child_filter_state. destruct (kn_filter k); [exact K|]. destruct sm; [exact K|]. destruct (f_is_valid f); exact K. Qed.
Lemma children_weak_q fi q names root r m sm subs : bytes_ok (fi_buffer fi) -> fi_hbin fi < 2 ^ 32 ->
  names = root :: r -> good names -> Forall (tree_stored fi false) subs -> Forall (fun s => ~ In 92 (t_name s)) subs ->
  forall st, m = false \/ quiet st -> cached root st ->
  exists kids st', read_children fi st (utf8 (spelled names)) sm (Some q) (Some (Some q)) None m (map t_pos subs)
     = Ok (kids, existsb (fun s => is_key (kid_flag q names s)) subs, [], st')
  /\ root_only st st' /\ cached root st'
  /\ Forall2 (kid fi q names) (List.filter (fun s => negb (is_no (kid_flag q names s))) subs) kids.
Proof.
  intros B H NE (SA & CA) F C. induction F as [|s subs T F IH]; intros st M CS.
  { exists [], st. split; [reflexivity|]. split; [auto|]. split; [exact CS|constructor]. }
  apply Forall_cons_iff in C as [C0 C].
  destruct (key_weak_q fi st root names s sm m q (r ++ [t_name s]) B H T M) as (st1 & RO & CS1 & K).
  { rewrite NE. reflexivity. } { now destruct r. } { exact SA. }
  { change (root :: r ++ [t_name s]) with ((root :: r) ++ [t_name s]). rewrite <- NE. apply Forall_app. split; [exact CA|]. now constructor. }
  { exact CS. }
  change (root :: r ++ [t_name s]) with ((root :: r) ++ [t_name s]) in K. rewrite <- NE in K.
  change (flag_of q (names ++ [t_name s])) with (kid_flag q names s) in K.
  destruct (IH C st1) as (kids & st' & E & RO' & CS' & KS).
  { destruct M as [M|M]; [now left|right]. eapply quiet_root_only; eassumption. } { exact CS1. }
  cbn [map read_children List.filter existsb]. destruct (kid_flag q names s) eqn:FL; cbn [is_no negb is_key orb].
  - rewrite K, E. exists kids, st'. split; [reflexivity|]. split; [eapply root_only_trans; eassumption|]. split; [exact CS'|exact KS].
  - destruct K as (k & K1 & W & X). rewrite K1, E. cbv beta iota zeta.
    exists (child_filter_state sm (Some q) k :: kids), st'.
    assert (IE : is_exact k = false) by (unfold is_exact; now rewrite X). rewrite IE. cbn [orb].
    split; [reflexivity|]. split; [eapply root_only_trans; eassumption|]. split; [exact CS'|]. constructor; [|exact KS].
    apply kid_filter. split; [exact W|]. rewrite FL. discriminate.
  - destruct K as (k & K1 & W & L & X). rewrite K1, E. cbv beta iota zeta.
    exists (child_filter_state sm (Some q) k :: kids), st'.
    assert (IE : is_exact k = true) by (unfold is_exact; now rewrite X). rewrite IE. cbn [orb].
    split; [reflexivity|]. split; [eapply root_only_trans; eassumption|]. split; [exact CS'|]. constructor; [|exact KS].
    apply kid_filter. now split.
Qed.
Lemma subs_scalar fi (s : key_tree) c : bytes_ok (fi_buffer fi) -> Forall (tree_stored fi false) (t_subs s) -> In c (t_subs s) -> Forall scalar (t_name c).
Proof.
  intros B A I. rewrite Forall_forall in A. specialize (A c I).
  destruct (key_parse fi (mkState 0 false [] (fun _ => 0) [] [] [] []) false c [] B A) as (? & ? & ? & ? & _ & _ & _ & _ & _ & _ & _ & S & _). exact S.
Qed.
(** The read of the sub keys of a key in hand, under a filter for one key. *)
Lemma weak_children_q fi q st names root r s k m : bytes_ok (fi_buffer fi) -> fi_hbin fi < 2 ^ 32 -> rq_children q = false ->
  names = root :: r -> good names -> clean_names s -> weak fi names s k -> m = false \/ quiet st -> cached root st ->
  exists k' kids st', read_sub_keys_internal fi st k (Some q) None m
     = Ok (k', kids, existsb (fun c => is_key (kid_flag q names c)) (t_subs s), st')
  /\ root_only st st' /\ cached root st'
  /\ Forall2 (kid fi q names) (List.filter (fun c => negb (is_no (kid_flag q names c))) (t_subs s)) kids.
Proof.
  intros B H RC NE GN CT (A & P & (d & U & D1 & D2) & F) M CA. unfold read_sub_keys_internal. rewrite A, D1, D2, P. cbn [is_allocated].
  destruct (t_subs s) as [|s0 r0] eqn:SU.
  - destruct U as (U & _). rewrite U. change (1048576 <? len []) with false. change (0 <? len []) with false. cbv beta iota.
    exists k, [], st. split; [reflexivity|]. split; [auto|]. split; [exact CA|constructor].
  - rewrite <- SU in *. assert (NN : t_subs s <> []) by (rewrite SU; discriminate). clear SU.
    destruct (list_total fi _ _ U NN) as (LE & E). rewrite E.
    destruct (N.ltb_spec 1048576 (kd_nsub d)); [lia|]. destruct (N.ltb_spec 0 (kd_nsub d)); [|lia]. cbv beta iota zeta.
    cbn [f_return_sub_keys]. rewrite RC, andb_false_r.
    assert (CS : Forall (fun s => ~ In 92 (t_name s)) (t_subs s)).
    { apply Forall_forall. intros c I. now apply (clean_sub s). }
    destruct (children_weak_q fi q names root r m (is_match_or_desc k) (t_subs s) B H NE GN F CS st M CA) as (kids & st' & R & RO & CC & KS).
    match goal with |- context [read_children ?a ?b ?c ?d' ?e ?f ?g ?h ?i] =>
      assert (E' : read_children a b c d' e f g h i = _) by exact R; rewrite E'; clear E' end.
    cbv beta iota zeta. eexists _, kids, st'. split; [reflexivity|]. split; [exact RO|]. split; [exact CC|exact KS].
Qed.
Lemma existsb_kids fi q names subs kids : Forall2 (kid fi q names) (List.filter (fun c => negb (is_no (kid_flag q names c))) subs) kids ->
  (forall c, In c subs -> kid_flag q names c <> IterateKeys) ->
  existsb (fun c => is_key (kid_flag q names c)) subs = match kids with [] => false | _ => true end.
Proof.
  revert kids. induction subs as [|c subs IH]; intros kids KS NI; cbn [List.filter existsb] in *; [now inversion KS|].
  specialize (NI c (or_introl eq_refl)) as N0. destruct (kid_flag q names c); cbn [is_no negb is_key orb] in *.
  - apply IH; [exact KS|]. intros x I. apply NI. now right.
  - congruence.
  - inversion KS; subst. reflexivity.
Qed.

(** ** Look-up from a key in hand *)
Lemma reached_in segs : forall above s y, In y (reached above segs s) -> In y (preorder above s).
Proof.
  induction segs as [|n segs IH]; intros above s y; cbn [reached]; rewrite preorder_eq; [intros [<-|[]]; now left|].
  intros I. apply in_flat_map in I as (c & C & I). apply filter_In in C as (C & _). right. apply in_flat_map. exists c. split; [exact C|]. now apply IH.
Qed.
Lemma preorder_within t : forall above x, In x (preorder above t) -> exists a, fst x = a ++ [t_name (snd x)]
  /\ forall y, In y (preorder a (snd x)) -> In y (preorder above t).
Proof.
  induction t as [pos name vals subs IH] using tree_ind'. intros above x I. rewrite preorder_eq in I. destruct I as [<-|I].
  - exists above. now split.
  - apply in_flat_map in I as (s & S & I). cbn [t_subs t_name] in *. rewrite Forall_forall in IH.
    destruct (IH s S _ _ I) as (a & E & Y). exists a. split; [exact E|]. intros y J. rewrite preorder_eq. right. apply in_flat_map. exists s. split; [exact S|auto].
Qed.
Lemma look_weak fi q root : bytes_ok (fi_buffer fi) -> fi_hbin fi < 2 ^ 32 -> rq_has_root q = true -> rq_children q = false ->
  forall rem fuel above s k st pre, rem <> [] -> (length rem <= fuel)%nat -> rq_path q = map lit ([] :: pre ++ rem) ->
  Forall (Forall scalar) (pre ++ rem) -> same_names (above ++ [t_name s]) pre ->
  weak fi (above ++ [t_name s]) s k -> (exists r, above ++ [t_name s] = root :: r) -> good (above ++ [t_name s]) -> clean_names s -> cached root st ->
  exists o st', get_sub_key_internal fuel fi st k (Some q) None = Ok (o, st') /\ root_only st st' /\ cached root st'
  /\ gives o (reached above rem s).
Proof.
  intros B H HR HC. induction rem as [|a rem IH]; intros fuel above s k st pre NE LF PQ SP SM WK (r & NM) GN CT CA; [contradiction|].
  destruct fuel as [|fuel]; [cbn in LF; lia|]. set (names := above ++ [t_name s]) in *.
  cbn [reached get_sub_key_internal]. fold names.
  destruct (weak_children_q fi q st names root r s k false B H HC NM GN CT WK (or_introl eq_refl) CA) as (k' & kids & st' & E & RO & CC & KS).
  rewrite E. cbv beta iota. clear E.
  pose proof WK as (_ & _ & _ & A).
  assert (KF : forall c, In c (t_subs s) -> kid_flag q names c
     = if same_name (t_name c) a then match rem with [] => KeyMatch | _ => IterateKeys end else NoMatch).
  { intros c I. unfold kid_flag. apply (look_flag q names pre a rem); try assumption.
    apply Forall_app. split; [apply GN|]. constructor; [now apply (subs_scalar fi s)|constructor]. }
  assert (FE : List.filter (fun c => negb (is_no (kid_flag q names c))) (t_subs s) = List.filter (fun c => same_name (t_name c) a) (t_subs s)).
  { apply filter_ext_in. intros c I. rewrite (KF c I). destruct (same_name (t_name c) a); [destruct rem; reflexivity|reflexivity]. }
  destruct rem as [|b rem].
  - rewrite (existsb_kids fi q names _ kids KS) by (intros c I; rewrite (KF c I); destruct (same_name _ _); discriminate).
    rewrite FE in KS. set (subs := List.filter (fun c => same_name (t_name c) a) (t_subs s)) in *.
    remember subs as subs0 eqn:SE in KS |- *. destruct KS as [|c k1 subs' kids' (_ & K1) KS'].
    + exists None, st'. split; [reflexivity|]. split; [exact RO|]. split; [exact CC|]. reflexivity.
    + exists (Some k1), st'. split; [reflexivity|]. split; [exact RO|]. split; [exact CC|]. exists k1. split; [reflexivity|].
      cbn [reached flat_map app hd_error fst snd].
      assert (IC : In c (t_subs s) /\ same_name (t_name c) a = true).
      { apply (filter_In (fun c => same_name (t_name c) a)). change (In c subs). rewrite <- SE. now left. }
      apply (loaded_shown fi names c false); [apply GN|]. apply K1. rewrite (KF c (proj1 IC)). now rewrite (proj2 IC).
  - replace (existsb _ _) with false.
    2:{ symmetry. apply not_true_is_false. intros X. apply existsb_exists in X as (c & I & X). rewrite (KF c I) in X. destruct (same_name _ _); discriminate X. }
    rewrite FE in KS.
    assert (SI : forall c, In c (List.filter (fun c => same_name (t_name c) a) (t_subs s)) -> In c (t_subs s) /\ same_name (t_name c) a = true) by (intros c I; now apply filter_In in I).
    revert KS SI. generalize (List.filter (fun c => same_name (t_name c) a) (t_subs s)). intros subs KS SI. clear FE KF.
    assert (RB : b :: rem <> []) by discriminate.
    revert kids st' RO CC KS.
    induction subs as [|c subs I]; intros kids st' RO CC KS.
    + inversion KS; subst. exists None, st'. repeat (split; [assumption||reflexivity|]). reflexivity.
    + inversion KS as [|? k1 ? ks (W1 & _) KS']; subst.
      destruct (SI c (or_introl eq_refl)) as [S1 S2]. destruct (clean_sub _ _ CT S1) as [C1 C2].
      destruct (IH fuel names c k1 st' (pre ++ [a])) as (o & st2 & E2 & RO2 & CC2 & G2).
      { exact RB. } { cbn [length] in LF |- *. lia. } { rewrite <- app_assoc. exact PQ. } { rewrite <- app_assoc. exact SP. }
      { apply Forall2_app; [exact SM|]. constructor; [exact S2|constructor]. }
      { exact W1. } { exists (r ++ [t_name c]). now rewrite NM. }
      { destruct GN as (G1 & G3). split; apply Forall_app; (split; [assumption|]); (constructor; [|constructor]); [now apply (subs_scalar fi s)|exact C2]. }
      { exact C1. } { exact CC. }
      rewrite E2. cbv beta iota.
      cbn [flat_map]. unfold gives in G2. destruct (reached names (b :: rem) c) as [|y l] eqn:RE; cbn [hd_error] in G2.
      * subst o. destruct (I (fun s' J => SI s' (or_intror J)) ks st2) as (o & st3 & E3 & RO3 & CC3 & G3).
        { eapply root_only_trans; eassumption. } { exact CC2. } { exact KS'. }
        exists o, st3. split; [exact E3|]. split; [exact RO3|]. split; [exact CC3|]. cbn [app]. exact G3.
      * destruct G2 as (k2 & -> & G2). exists (Some k2), st2. split; [reflexivity|]. split; [eapply root_only_trans; eassumption|].
        split; [exact CC2|]. exists k2. split; [reflexivity|exact G2].
Qed.
Lemma same_names_refl l : same_names l l.
Proof. induction l; constructor; [apply same_refl|assumption]. Qed.
Lemma by_path_weak fi root above s k st segs b : let names := above ++ [t_name s] in
  bytes_ok (fi_buffer fi) -> fi_hbin fi < 2 ^ 32 -> weak fi names s k ->
  (exists r, names = root :: r) -> good names -> clean_names s -> cached root st ->
  good segs -> segs <> [] -> hd_error (rev segs) <> Some [] ->
  forall fuel, (length segs <= fuel)%nat ->
  exists o st', get_sub_key_by_path fuel fi st k (utf8 (joined segs ++ repeat 92 b)) = Ok (o, st') /\ root_only st st' /\ cached root st'
  /\ gives o (reached above segs s).
Proof.
  intros names B H WK NR GN CT CA GS NE LS fuel LF. pose proof WK as (_ & PK & _).
  unfold get_sub_key_by_path.
  assert (NN : utf8 (joined segs ++ repeat 92 b) <> []).
  { destruct (last_split segs NE LS) as (pre & z & -> & Z). intros X.
    assert (J : spelled (pre ++ [z]) <> [92]).
    { rewrite spelled_app. cbn [spelled flat_map]. rewrite app_nil_r. destruct pre as [|n pre]; [destruct z; [contradiction|discriminate]|].
      cbn [spelled flat_map app]. destruct z; [contradiction|]. intros Y. injection Y as Y. apply app_eq_nil in Y as [_ Y]. discriminate. }
    apply J. rewrite spelled_joined by exact NE. f_equal. rewrite utf8_app in X. apply app_eq_nil in X as [X _].
    destruct (joined (pre ++ [z])) as [|c w]; [reflexivity|]. exfalso. cbn [utf8 flat_map] in X. apply app_eq_nil in X as [X _].
    unfold utf8_char in X. repeat match type of X with (if ?b then _ else _) = _ => destruct b end; discriminate. }
  destruct (utf8 (joined segs ++ repeat 92 b)) as [|c0 w0] eqn:U; [contradiction|]. rewrite <- U. clear U c0 w0 NN.
  set (q := with_has_root true _).
  assert (PQ : rq_path q = map lit ([] :: names ++ segs)).
  { unfold q, with_has_root, add_key_path, empty_query. cbn [rq_path app].
    replace (kn_path k ++ BS :: utf8 (joined segs ++ repeat 92 b)) with (utf8 (spelled (names ++ segs) ++ repeat 92 b)).
    - apply path_components.
      + destruct GN as [G1 G2], GS as [G3 G4]. split; now apply Forall_app.
      + unfold names. intros X. now apply app_eq_nil in X as [_ ->].
      + rewrite rev_app_distr. destruct (rev segs) as [|z l] eqn:RS; [|exact LS]. exfalso. apply NE. apply (f_equal (@rev _)) in RS. now rewrite rev_involutive in RS.
    - rewrite PK, spelled_app, (spelled_joined segs NE). rewrite <- app_assoc. cbn [app]. rewrite utf8_app, utf8_slash. reflexivity. }
  apply (look_weak fi q root B H eq_refl eq_refl segs fuel above s k st names); try assumption.
  - apply Forall_app. split; [apply GN|apply GS].
  - apply same_names_refl.
Qed.
(** A path of backslashes only leads nowhere. *)
Definition slashes (s : list N) : nat := length (List.filter (N.eqb 92) s).
Lemma slashes_app a b : slashes (a ++ b) = (slashes a + slashes b)%nat.
Proof. unfold slashes. rewrite filter_app, app_length. reflexivity. Qed.
Lemma split_slashes s : length (split_bs s) = S (slashes s).
Proof.
  induction s as [|c s IH]; [reflexivity|]. cbn [split_bs]. unfold slashes in *. cbn [List.filter]. unfold BS. rewrite (N.eqb_sym 92 c).
  destruct (c =? 92); [cbn [length]; now rewrite IH|]. pose proof (split_some s). destruct (split_bs s); [contradiction|exact IH].
Qed.
Lemma trim_start_slashes s : (slashes (trim_start_bs s) <= slashes s)%nat.
Proof.
  induction s as [|c s IH]; [reflexivity|]. cbn [trim_start_bs]. unfold BS. destruct (N.eqb_spec c 92) as [->|]; [|reflexivity].
  unfold slashes in *. cbn [List.filter length]. change (92 =? 92) with true. cbn [length]. lia.
Qed.
Lemma slashes_rev s : slashes (rev s) = slashes s.
Proof. induction s as [|c s IH]; [reflexivity|]. cbn [rev]. rewrite slashes_app, IH. unfold slashes. cbn [List.filter]. destruct (92 =? c); cbn [length]; lia. Qed.
Lemma trim_end_slashes s b : (slashes (trim_end_bs (s ++ repeat 92%N b)) <= slashes s)%nat.
Proof. unfold trim_end_bs. rewrite slashes_rev, rev_app_distr, rev_repeat', trim_start_repeat. etransitivity; [apply trim_start_slashes|]. now rewrite slashes_rev. Qed.
Lemma slashes_none n : ~ In 92 n -> slashes n = O.
Proof.
  induction n as [|c n IH]; intros NI; [reflexivity|]. unfold slashes in *. cbn [List.filter]. destruct (N.eqb_spec 92 c) as [<-|]; [exfalso; apply NI; now left|].
  apply IH. intros I; apply NI; now right.
Qed.
Lemma slashes_path names : good names -> slashes (utf8 (spelled names)) = length names.
Proof.
  intros (S & C). induction names as [|n r IH]; [reflexivity|]. apply Forall_cons_iff in S as [S0 S]. apply Forall_cons_iff in C as [C0 C].
  cbn [spelled flat_map app]. rewrite utf8_slash, utf8_app. change (92 :: ?x) with ([92] ++ x). rewrite !slashes_app.
  rewrite (slashes_none (utf8 n)) by now apply utf8_no_slash. change (flat_map (fun n => 92 :: n) r) with (spelled r). rewrite (IH S C). reflexivity.
Qed.
Lemma by_path_none fi root names s k st b : bytes_ok (fi_buffer fi) -> fi_hbin fi < 2 ^ 32 -> weak fi names s k ->
  (exists r, names = root :: r) -> good names -> clean_names s -> cached root st ->
  forall fuel o st', get_sub_key_by_path fuel fi st k (repeat 92 (S b)) = Ok (o, st') -> o = None.
Proof.
  intros B H WK (r & NR) GN CT CA fuel o st'. pose proof WK as (_ & PK & _). cbn [repeat]. unfold get_sub_key_by_path.
  set (q := with_has_root true _).
  assert (L : len (rq_path q) <= len names + 1).
  { unfold q, with_has_root, add_key_path, empty_query. cbn [rq_path app]. rewrite len_map. unfold len. rewrite split_slashes, PK.
    change (utf8 (spelled names) ++ [BS] ++ 92 :: repeat 92 b) with (utf8 (spelled names) ++ repeat 92 (S (S b))).
    pose proof (trim_end_slashes (utf8 (spelled names)) (S (S b))). rewrite slashes_path in * by exact GN. unfold BS. cbn [app repeat] in *. lia. }
  destruct fuel as [|fuel]; [discriminate|]. cbn [get_sub_key_internal].
  destruct (weak_children_q fi q st names root r s k false B H eq_refl NR GN CT WK (or_introl eq_refl) CA) as (k' & kids & st2 & E & RO & CC & KS).
  assert (KF : forall c, kid_flag q names c = NoMatch).
  { intros c. unfold kid_flag, flag_of. destruct (agrees q _); [|reflexivity]. unfold segments. change (rq_has_root q) with true. cbv beta iota.
    rewrite len_cons, len_app. change (len [t_name c]) with 1. destruct (N.ltb_spec (len names + 1 + 1) (len (rq_path q))); [lia|].
    destruct (N.eqb_spec (len names + 1 + 1) (len (rq_path q))); [lia|reflexivity]. }
  assert (FE : List.filter (fun c => negb (is_no (kid_flag q names c))) (t_subs s) = []).
  { clear -KF. induction (t_subs s) as [|c l I]; [reflexivity|]. cbn [List.filter]. rewrite KF. cbn [is_no negb]. exact I. }
  rewrite FE in KS. inversion KS; subst kids. rewrite E. cbv beta iota.
  replace (existsb _ _) with false; [intros [= <- _]; reflexivity|]. symmetry. apply not_true_is_false. intros X. apply existsb_exists in X as (c & _ & X). now rewrite KF in X.
Qed.
Lemma gsk_mono fi f seq : forall fuel st k o st' d, get_sub_key_internal fuel fi st k f seq = Ok (o, st') ->
  get_sub_key_internal (fuel + d) fi st k f seq = Ok (o, st').
Proof.
  induction fuel as [|fuel IH]; intros st k o st' d; [discriminate|]. cbn [get_sub_key_internal Nat.add].
  destruct (read_sub_keys_internal fi st k f seq false) as [[[[n cs] found] s]| | |] eqn:E; try discriminate.
  cbv beta iota. destruct found; [auto|]. clear E. revert s. induction cs as [|c r I]; intros s; [auto|].
  destruct (get_sub_key_internal fuel fi s c f seq) as [[o2 s2]| | |] eqn:G; try discriminate. rewrite (IH _ _ _ _ d G).
  cbv beta iota. destruct o2; [auto|]. apply I.
Qed.

(** ** Look-up of a sub key by its name *)
Lemma offset_of st root r : good (root :: r) -> r <> [] -> cached root st ->
  exists st', st_get_root_path_offset st (utf8 (spelled (root :: r))) = (root_part root, st') /\ root_only st st' /\ cached root st'.
Proof.
  intros (S & C) NE CA. apply Forall_cons_iff in S as [S0 _]. apply Forall_cons_iff in C as [C0 _].
  unfold st_get_root_path_offset. destruct (N.eqb_spec (st_root_offset st) 0) as [Z|Z].
  - exists (set_root_offset (root_part root) st). split; [|split; [reflexivity|right; reflexivity]].
    rewrite utf8_spelled. cbn [map]. rewrite root_offset_path by now apply utf8_no_slash. destruct r; [contradiction|]. reflexivity.
  - exists st. destruct CA as [CA|CA]; [contradiction|]. rewrite CA. split; [reflexivity|]. split; [auto|]. now right.
Qed.
Lemma after_root root r : good (root :: r) -> r <> [] -> str_from (utf8 (spelled (root :: r))) (root_part root) = Ok (utf8 (joined r)).
Proof.
  intros (S & C) NE. assert (E : utf8 (spelled (root :: r)) = (92 :: utf8 root) ++ 92 :: utf8 (joined r)).
  { change (spelled (root :: r)) with (92 :: root ++ spelled r). rewrite (spelled_joined r NE), utf8_slash, utf8_app, utf8_slash. reflexivity. }
  unfold root_part. replace (len (utf8 root) + 2) with (len (92 :: utf8 root) + 1) by (rewrite len_cons; lia). rewrite E. apply str_from_slash.
  rewrite <- E. exists (spelled (root :: r)). split; [now apply spelled_scalar|reflexivity].
Qed.
Lemma joined_snoc r n : r <> [] -> joined (r ++ [n]) = joined r ++ 92 :: n.
Proof.
  intros NE. assert (X : spelled (r ++ [n]) = spelled r ++ 92 :: n) by (rewrite spelled_app; cbn [spelled flat_map]; now rewrite app_nil_r).
  rewrite spelled_joined, (spelled_joined r NE) in X; [now injection X|]. intros Y. now apply app_eq_nil in Y as [_ Y].
Qed.
Lemma name_components r n : good r -> r <> [] -> Forall scalar n -> ~ In 92 n -> n <> [] ->
  rq_path (add_key_path empty_query (utf8 (joined r) ++ [BS] ++ utf8 n)) = map lit (r ++ [n]).
Proof.
  intros (S & C) NE S1 C1 N1. unfold add_key_path, empty_query. cbn [rq_path app].
  replace (utf8 (joined r) ++ BS :: utf8 n) with (utf8 (joined (r ++ [n]))) by (rewrite (joined_snoc r n NE), utf8_app, utf8_slash; reflexivity).
  assert (G : good (r ++ [n])) by (split; apply Forall_app; (split; [assumption|now constructor])).
  destruct (utf8_last n S1 C1 N1) as (w & c & W & NC).
  assert (PC := path_components (r ++ [n]) 0 G). rewrite app_nil_r in PC.
  assert (NN : r ++ [n] <> []) by (intros X; now apply app_eq_nil in X as [_ X]).
  assert (LL : hd_error (rev (r ++ [n])) <> Some []) by (rewrite rev_app_distr; cbn; congruence). specialize (PC NN LL).
  rewrite (spelled_joined _ NN), utf8_slash in PC.
  assert (T : utf8 (joined (r ++ [n])) = (utf8 (joined r) ++ 92 :: w) ++ [c]).
  { rewrite (joined_snoc r n NE), utf8_app, utf8_slash, W. rewrite <- app_assoc. reflexivity. }
  rewrite T in *. pose proof (trim_end_keep (utf8 (joined r) ++ 92 :: w) c 0 NC) as K1.
  pose proof (trim_end_keep (92 :: utf8 (joined r) ++ 92 :: w) c 0 NC) as K2. cbn [repeat] in K1, K2. rewrite app_nil_r in K1, K2.
  rewrite K1. cbn [app] in K2, PC. rewrite K2 in PC. cbn [split_bs] in PC. unfold BS at 1 in PC. change (92 =? 92) with true in PC. cbv beta iota in PC.
  cbn [map] in PC. injection PC as PC. exact PC.
Qed.
Lemma name_flag r n root c : good r -> r <> [] -> Forall scalar n -> ~ In 92 n -> n <> [] -> Forall scalar c ->
  flag_of (add_key_path empty_query (utf8 (joined r) ++ [BS] ++ utf8 n)) ((root :: r) ++ [c]) = if same_name c n then KeyMatch else NoMatch.
Proof.
  intros G NE S1 C1 N1 SC. unfold flag_of, agrees. rewrite (name_components r n G NE S1 C1 N1). unfold segments.
  change (rq_has_root (add_key_path _ _)) with false. cbv beta iota. change (tl ((root :: r) ++ [c])) with (r ++ [c]).
  rewrite map_app, combine_same by (apply G || apply same_names_refl). cbn [map combine forallb fst snd]. rewrite lit_match, andb_true_r by assumption.
  destruct (same_name c n); [|reflexivity]. rewrite !len_app, len_map. change (len [c]) with 1. change (len [lit n]) with 1.
  destruct (N.ltb_spec (len r + 1) (len r + 1)); [lia|]. now rewrite N.eqb_refl.
Qed.
Lemma name_weak p root r s k n : let names := root :: r in bytes_ok (fi_buffer (ps_file p)) -> fi_hbin (ps_file p) < 2 ^ 32 ->
  weak (ps_file p) names s k -> good names -> r <> [] -> clean_names s -> cached root (ps_state p) ->
  Forall scalar n -> ~ In 92 n -> n <> [] ->
  exists o st', get_sub_key p k (utf8 n) = Ok (o, ps_set_state st' p) /\ root_only (ps_state p) st' /\ cached root st'
  /\ gives o (map (fun c => (names ++ [t_name c], c)) (List.filter (fun c => same_name (t_name c) n) (t_subs s))).
Proof.
  intros names; subst names; intros B H WK GN NE CT CA S1 C1 N1. pose proof WK as (_ & PK & _). unfold get_sub_key. rewrite PK.
  destruct (offset_of (ps_state p) root r GN NE CA) as (st1 & -> & RO1 & CC1). rewrite (after_root root r GN NE). cbv beta iota zeta.
  set (q := add_key_path empty_query _). destruct GN as (G1 & G2).
  assert (GR : good r) by (split; [now inversion G1|now inversion G2]).
  destruct (weak_children_q (ps_file p) q st1 (root :: r) root r s k false B H eq_refl eq_refl (conj G1 G2) CT WK (or_introl eq_refl) CC1) as (k' & kids & st2 & E & RO & CC & KS).
  rewrite E. cbv beta iota. exists (hd_error kids), st2. split; [reflexivity|]. split; [eapply root_only_trans; eassumption|]. split; [exact CC|].
  pose proof WK as (_ & _ & _ & A).
  assert (KF : forall c, In c (t_subs s) -> kid_flag q (root :: r) c = if same_name (t_name c) n then KeyMatch else NoMatch).
  { intros c I. apply name_flag; auto. now apply (subs_scalar (ps_file p) s). }
  assert (FE : List.filter (fun c => negb (is_no (kid_flag q (root :: r) c))) (t_subs s) = List.filter (fun c => same_name (t_name c) n) (t_subs s)).
  { apply filter_ext_in. intros c I. rewrite (KF c I). now destruct (same_name (t_name c) n). }
  rewrite FE in KS. set (subs := List.filter (fun c => same_name (t_name c) n) (t_subs s)) in *.
  remember subs as subs0 eqn:SE in KS |- *. destruct KS as [|c k1 subs' kids' (_ & K1) KS']; [reflexivity|].
  exists k1. split; [reflexivity|]. cbn [fst snd].
  assert (IC : In c (t_subs s) /\ same_name (t_name c) n = true).
  { apply (filter_In (fun c => same_name (t_name c) n)). change (In c subs). rewrite <- SE. now left. }
  apply (loaded_shown (ps_file p) (root :: r) c false); [exact G1|]. apply K1. rewrite (KF c (proj1 IC)). now rewrite (proj2 IC).
Qed.

(** ** The parent *)
Lemma existsb_slash a b : existsb (N.eqb BS) (a ++ 92 :: b) = true.
Proof. rewrite existsb_app. cbn [existsb]. apply orb_true_r. Qed.
Lemma no_slash_existsb b : ~ In 92 b -> existsb (N.eqb BS) b = false.
Proof.
  intros NI. apply not_true_is_false. intros X. apply existsb_exists in X as (c & I & X). apply N.eqb_eq in X. unfold BS in X. subst c. contradiction.
Qed.
Lemma before_last a b : ~ In 92 b -> before_last_bs (a ++ 92 :: b) = a.
Proof.
  intros NI. induction a as [|c a IH]; cbn [app before_last_bs]; [now rewrite no_slash_existsb|].
  now rewrite existsb_slash, IH.
Qed.
Lemma truncate_path names n : Forall scalar n -> ~ In 92 n -> truncate_last_bs (utf8 (spelled (names ++ [n]))) = utf8 (spelled names).
Proof.
  intros S C. rewrite spelled_path. unfold truncate_last_bs. cbn [app]. rewrite existsb_slash. apply before_last. now apply utf8_no_slash.
Qed.
Lemma parent_weak p t root x k x' : opened t p -> tree_stored (ps_file p) root t -> clean_names t -> parents_stored (ps_buffer p) t ->
  held (ps_file p) t x k -> In x' (preorder [] t) -> In (snd x) (t_subs (snd x')) ->
  exists k', get_parent_key p k = Ok (Some k', p) /\ key_shown k' (fst x') (snd x').
Proof.
  intros O T CN PS HK I' IS. pose proof HK as (I & KS & _). destruct (opened_facts _ _ O) as (B & H & _).
  destruct (od_hive _ _ O) as (_ & _ & _ & _ & ND).
  assert (X : x = (fst x' ++ [t_name (snd x)], snd x)).
  { apply (preorder_at t _ _ [] ND I (preorder_sub t [] x' (snd x) I' IS)). reflexivity. }
  destruct (preorder_within t [] x' I') as (a & EN & _).
  pose proof (names_scalar _ _ _ KS) as SN. pose proof (clean_path t x CN I) as CL. rewrite X in SN, CL. cbn [fst] in SN, CL.
  apply Forall_app in SN as (SN & S1). apply Forall_app in CL as (CL & C1). rewrite EN in SN, CL. apply Forall_app in SN as (SA & S2). apply Forall_app in CL as (_ & C2).
  apply Forall_cons_iff in S1 as (S1 & _). apply Forall_cons_iff in S2 as (S2 & _). apply Forall_cons_iff in C1 as (C1 & _). apply Forall_cons_iff in C2 as (C2 & _).
  unfold get_parent_key.
  assert (PK : kn_path k = utf8 (spelled ((a ++ [t_name (snd x')]) ++ [t_name (snd x)]))).
  { destruct KS as (_ & _ & P & _). apply read_utf8_exact in P as (_ & ->). rewrite X at 1. cbn [fst]. now rewrite <- EN. }
  rewrite PK, truncate_path, truncate_path by assumption.
  destruct (PS x' (snd x) I' IS) as (P1 & P2).
  assert (OFF : w64 (i32_as_usize (kd_parent (kn_detail k)) + ps_hbin p) = t_pos (snd x')).
  { rewrite (held_parent _ _ _ _ HK), (od_hbin _ _ O), i32_at_rest. destruct KS as (-> & _). unfold i32_at. fold (ps_buffer p).
    set (u := num_at (ps_buffer p) (t_pos (snd x) + 20) 4) in *. change (2 ^ 31)%Z with 2147483648%Z.
    destruct (Z.ltb_spec (Z.of_N u) 2147483648); [|lia]. unfold i32_as_usize, w64. rewrite Z.mod_small by lia. rewrite N2Z.id, N.mod_small by lia. exact P2. }
  rewrite OFF. destruct (preorder_stored (ps_file p) t root [] x' T I') as (rr & R & _).
  destruct (key_load (ps_file p) (ps_state p) rr (snd x') (utf8 (spelled a)) true true B H R) as (k' & K & L); [right; apply (od_quiet _ _ O)|].
  rewrite K. cbv beta iota. exists k'. split; [f_equal; f_equal; now destruct p|]. rewrite EN. apply (loaded_shown (ps_file p) a (snd x') rr); [exact SA|].
  rewrite set_filter_same; [exact L|]. destruct L as (? & ? & ? & L & _). apply L.
Qed.

(** ** Every key a user can hold shows a key of the tree *)
Lemma gsk_born fi f seq : forall fuel st k o st', still st -> born fi k -> get_sub_key_internal fuel fi st k f seq = Ok (Some o, st') -> born fi o.
Proof.
  induction fuel as [|fuel IH]; intros st k o st' Q BK; [discriminate|]. cbn [get_sub_key_internal].
  destruct (read_sub_keys_internal fi st k f seq false) as [[[[n cs] found] s]| | |] eqn:E; try discriminate.
  pose proof (still_root _ _ (read_sub_keys_state _ _ _ _ _ _ _ _ _ _ E) Q) as Q1. apply sub_keys_born in E as (_ & BC); [|exact Q|exact BK].
  cbv beta iota. destruct found.
  - destruct cs as [|c cs]; [discriminate|]. intros [= <- _]. now inversion BC.
  - clear st Q k BK n. revert s Q1. induction BC as [|c r B1 BC I]; intros s Q1; [discriminate|].
    destruct (get_sub_key_internal fuel fi s c f seq) as [[o2 s2]| | |] eqn:G; try discriminate. cbv beta iota.
    destruct o2 as [o2|]; [intros [= <- _]; now apply (IH _ _ _ _ Q1 B1 G)|]. apply I. apply gsk_state in G. now apply (still_root _ _ G).
Qed.
Lemma by_index_born fi st k i k' o st' : still st -> born fi k -> get_sub_key_by_index fi st k i = Ok (k', o, st') ->
  born fi k' /\ forall c, o = Some c -> born fi c.
Proof.
  intros Q BK. unfold get_sub_key_by_index. destruct (0 <? _); [|intros [= <- <- _]; split; [exact BK|discriminate]].
  destruct (parse_sub_key_list _ _ _) as [offs| | |]; try discriminate; [|intros [= <- <- _]; split; [exact BK|discriminate]].
  destruct (get_at offs i) as [o0|]; [|intros [= <- <- _]; split; [exact BK|discriminate]].
  destruct (kn_read _ _ _) as [[c0 s0]| | |] eqn:R; try discriminate; [|intros [= <- <- _]; split; [exact BK|discriminate]].
  intros [= <- <- _]. split; [exact BK|]. intros c ->. now apply read_born in R.
Qed.

Section Held.
Context (buffer : list N) (files : list (list N)) (t : key_tree) (p0 : parser)
  (OP : opens buffer files t p0) (CN : clean_names t) (RT : num_at (ps_buffer p0) 36 4 = 32) (PS : parents_stored (ps_buffer p0) t).
Let fi := ps_file p0.
Lemma at_p p : used (key_of t) p0 p -> opened t p /\ ps_file p = fi /\ num_at (ps_buffer p) 36 4 = 32 /\ ps_root p = ps_root p0.
Proof.
  intros U. destruct (session_opened buffer files t p) as (O & R & _); [split; [exact CN|]; now exists p0|].
  apply used_moved, moved_same in U as (F & RR & _). auto.
Qed.
Lemma in_p p x k : opened t p -> ps_file p = fi -> held fi t x k ->
  bytes_ok (fi_buffer fi) /\ fi_hbin fi < 2 ^ 32 /\ weak fi (fst x) (snd x) k /\ good (fst x) /\ (exists r, fst x = t_name t :: r)
  /\ clean_names (snd x) /\ tree_stored fi true t.
Proof.
  intros O F HK. pose proof HK as (I & KS & _). destruct (opened_facts _ _ O) as (B & H & T). rewrite F in *.
  split; [exact B|]. split; [exact H|]. split; [now apply (held_weak fi t true)|]. split; [split; [now apply (names_scalar k _ (snd x))|now apply (clean_path t x)]|].
  split; [|split; [now apply (clean_inside t [] x)|exact T]]. destruct (preorder_first t x I) as (r & E & _). now exists r.
Qed.
Lemma root_held k : waits fi ([], true, t) k -> born fi k -> held fi t ([t_name t], t) k.
Proof. intros W BK. split; [destruct t; now left|]. split; [exact (waits_shown _ _ _ W)|exact BK]. Qed.
Lemma get_root_held p k p' : used (key_of t) p0 p -> get_root_key p = Ok (Some k, p') -> held fi t ([t_name t], t) k /\ p' = p.
Proof.
  intros U E. destruct (at_p p U) as (O & F & R & _). destruct (opened_read_root t p O R) as (k' & E' & W).
  assert (BK : born fi k).
  { revert E. unfold get_root_key. destruct (ps_base_block p); [|discriminate]. rewrite F.
    destruct (kn_read _ _ _) as [[c s]| | |] eqn:KR; try discriminate. cbv beta iota. intros [= -> _]. apply read_born in KR; [exact KR|apply (od_quiet _ _ O)]. }
  rewrite E' in E. injection E as <- <-. split; [|reflexivity]. rewrite F in W. now apply root_held.
Qed.
Lemma first_born : exists k, ps_root p0 = Some k /\ born fi k.
Proof.
  pose proof OP as (K & HV & order & fuel & hash & full & BU). destruct (od_root _ _ (opens_opened _ _ _ _ OP)) as (k & R & _).
  exists k. split; [exact R|]. destruct (build_plain _ _ _ _ _ _ _ K BU) as (P & _ & st & ES & KR). rewrite R in KR.
  apply read_born in KR; [exact KR|]. apply (quiet_info (ps_state p0)); [now symmetry|exact (plain_quiet _ _ _ P)].
Qed.
Lemma forall2_in {A B} (P : A -> B -> Prop) l l' x : Forall2 P l l' -> In x l -> exists y, In y l' /\ P x y.
Proof. induction 1 as [|a b l l' H F IH]; [contradiction|]. intros [<-|I]; [exists b; split; [now left|exact H]|]. destruct (IH I) as (y & Y & Q). exists y. split; [now right|exact Q]. Qed.
Lemma post_in s : forall above x, In x (postorder above s) -> In x (preorder above s).
Proof.
  induction s as [pos name vals subs IH] using tree_ind'. intros above x. cbn [postorder preorder]. rewrite in_app_iff. intros [I|[I|[]]]; [right|now left].
  apply in_flat_map in I as (c & C & I). apply in_flat_map. exists c. split; [exact C|]. rewrite Forall_forall in IH. now apply IH.
Qed.
Lemma iterate_held p n anc m post ks k : used (key_of t) p0 p -> (2 * length (positions t) < n)%nat -> iterate n p None anc m post = Ok ks -> In k ks ->
  exists x, held fi t x k.
Proof.
  intros U LN E I. destruct (at_p p U) as (O & F & _ & R).
  assert (BK : born fi k).
  { revert E. unfold iterate. rewrite F. intros E. assert (FB : Forall (born fi) ks); [|rewrite Forall_forall in FB; now apply FB].
    refine (collect_born fi post n _ ks _ E). unfold from_parser. rewrite R. destruct first_born as (k0 & -> & B0).
    split; [apply (od_quiet _ _ O)|]. split; [constructor; [exact B0|constructor]|constructor]. }
  destruct (opened_iterate t p anc m n O LN) as ((k1 & E1 & S1) & k2 & E2 & S2). destruct post.
  - rewrite E in E2. injection E2 as <-. destruct (forall2_in _ _ _ k S2 I) as (x & IX & KX). exists x. split; [now apply post_in|now split].
  - rewrite E in E1. injection E1 as <-. destruct (forall2_in _ _ _ k S1 I) as (x & IX & KX). exists x. split; [exact IX|now split].
Qed.
Lemma gives_in o l (P : list (list N) * key_tree -> Prop) c : gives o l -> (forall y, In y l -> P y) -> o = Some c -> exists y, P y /\ key_shown c (fst y) (snd y).
Proof. unfold gives. destruct l as [|y l]; cbn [hd_error]; [congruence|]. intros (k & -> & K) F [= <-]. exists y. split; [apply F; now left|exact K]. Qed.
Lemma path_held p x k fuel path c st : used (key_of t) p0 p -> held fi t x k -> Forall scalar path ->
  get_sub_key_by_path fuel fi (ps_state p) k (utf8 path) = Ok (Some c, st) -> exists y, held fi t y c.
Proof.
  intros U HK SP E. destruct (at_p p U) as (O & F & _). destruct (in_p p x k O F HK) as (B & H & WK & GN & NR & CT & T). pose proof HK as (I & KS & BK).
  destruct (trail path) as (r & b & EP & LR). subst path. apply Forall_app in SP as (SR & _).
  destruct r as [|r0 r1].
  - destruct b as [|b].
    + cbn in E. injection E as <- _. now exists x.
    + cbn [app] in E. rewrite utf8_repeat in E. apply (by_path_none fi (t_name t) (fst x) (snd x) k (ps_state p) b B H WK NR GN CT (od_cached _ _ O)) in E. discriminate E.
  - set (r := r0 :: r1) in *. assert (NN : r <> []) by discriminate. clearbody r. clear r0 r1.
    assert (BC : born fi c).
    { revert E. unfold get_sub_key_by_path. destruct (utf8 (r ++ repeat 92 b)); [intros [= <- _]; exact BK|]. apply gsk_born; [apply (od_quiet _ _ O)|exact BK]. }
    destruct (preorder_within t [] x I) as (a & EN & SUB).
    assert (LS : hd_error (rev (split_bs r)) <> Some []).
    { destruct (exists_last NN) as (w & z & W). rewrite W in *. rewrite rev_app_distr in LR. cbn [rev app hd_error] in LR.
      destruct (split_last w z) as (pre & y & ->); [intros ->; now apply LR|]. rewrite rev_app_distr. cbn [rev app hd_error]. destruct y; discriminate. }
    rewrite EN in *.
    destruct (by_path_weak fi (t_name t) a (snd x) k (ps_state p) (split_bs r) b B H WK NR GN CT (od_cached _ _ O)) with (fuel := (fuel + length (split_bs r))%nat) as (o & st' & E' & _ & _ & G).
    { split; [now apply split_scalar|apply split_clean]. } { apply split_some. } { exact LS. } { lia. }
    rewrite joined_split in E'.
    assert (EO : o = Some c).
    { revert E E'. unfold get_sub_key_by_path. destruct (utf8 (r ++ repeat 92 b)); [intros [= -> _] [= <- _]; reflexivity|].
      intros E E'. rewrite (gsk_mono _ _ _ _ _ _ _ _ (length (split_bs r)) E) in E'. now injection E'. }
    destruct (gives_in o _ (fun y => In y (preorder [] t)) c G) as (y & IY & KY); [|exact EO|].
    + intros y IY. apply SUB. now apply reached_in in IY.
    + exists y. split; [exact IY|now split].
Qed.
Lemma strip_text path : Forall scalar path -> exists s, strip_root (utf8 path) = utf8 s /\ Forall scalar s.
Proof.
  intros SP. rewrite <- (joined_split path) in *. pose proof (split_clean path) as C. pose proof (split_scalar path) as SS. rewrite joined_split in SP. specialize (SS SP).
  destruct (split_bs path) as [|n r]; [exists []; split; [reflexivity|constructor]|]. apply Forall_cons_iff in C as (C & _). apply Forall_cons_iff in SS as (S0 & SS).
  destruct r as [|m r].
  - exists []. cbn [joined]. split; [|constructor]. apply strip_none. now apply utf8_no_slash.
  - exists (joined (m :: r)). change (joined (n :: m :: r)) with (n ++ 92 :: joined (m :: r)). rewrite utf8_app, utf8_slash. split; [apply strip_first; now apply utf8_no_slash|].
    pose proof (spelled_scalar (m :: r) SS) as X. rewrite spelled_joined in X by discriminate. now inversion X.
Qed.
Lemma trim_text path : Forall scalar path -> exists s, trim_start_bs (utf8 path) = utf8 s /\ Forall scalar s.
Proof.
  intros SP. destruct (lead path) as (a & r & -> & H). apply Forall_app in SP as (_ & SP). rewrite utf8_app, utf8_repeat, trim_start_repeat. exists r.
  split; [|exact SP]. destruct r as [|c r]; [reflexivity|]. change (c :: r) with ([c] ++ r) at 1 2. rewrite utf8_app.
  apply Forall_cons_iff in SP as (S1 & SP). destruct (utf8_first [c]) as (d & w & -> & ND).
  - now constructor.
  - intros [->|[]]. now apply H.
  - discriminate.
  - cbn [app]. now apply trim_start_keep.
Qed.
Lemma get_key_held p fuel path hr k p' : used (key_of t) p0 p -> Forall scalar path -> get_key fuel p (utf8 path) hr = Ok (Some k, p') -> exists x, held fi t x k.
Proof.
  intros U SP. unfold get_key. destruct (get_root_key p) as [[[r|] p1]| | |] eqn:GR; try discriminate.
  destruct (get_root_held p r p1 U GR) as (HR & ->). destruct (trim_text path SP) as (s & -> & SS).
  assert (X : exists s', (if hr then strip_root (utf8 s) else utf8 s) = utf8 s' /\ Forall scalar s') by (destruct hr; [now apply strip_text|now exists s]).
  destruct X as (s' & -> & SS'). destruct (at_p p U) as (_ & F & _). rewrite F.
  destruct (get_sub_key_by_path _ _ _ _ _) as [[o st]| | |] eqn:E; try discriminate. cbv beta iota. intros [= -> _].
  exact (path_held p _ r fuel s' k st U HR SS' E).
Qed.
Lemma held_not_root x k : held fi t x k -> kn_offset k <> t_pos t ->
  exists r, fst x = t_name t :: r /\ r <> [].
Proof.
  intros (I & (K & _) & _) NR. destruct (preorder_first t x I) as (r & E & Z). exists r. split; [exact E|]. intros RR. apply NR. now rewrite K, (Z RR).
Qed.
Lemma get_sub_key_gives p x k name : used (key_of t) p0 p -> held fi t x k -> kn_offset k <> t_pos t -> Forall scalar name -> ~ In 92 name -> name <> [] ->
  exists o p', get_sub_key p k (utf8 name) = Ok (o, p')
  /\ gives o (map (fun c => (fst x ++ [t_name c], c)) (List.filter (fun c => same_name (t_name c) name) (t_subs (snd x)))).
Proof.
  intros U HK NR S1 C1 N1. destruct (at_p p U) as (O & F & _). destruct (in_p p x k O F HK) as (B & H & WK & GN & _ & CT & T).
  destruct (held_not_root x k HK NR) as (r & ER & NE). rewrite ER in *. rewrite <- F in *.
  destruct (name_weak p (t_name t) r (snd x) k name B H WK GN NE CT (od_cached _ _ O) S1 C1 N1) as (o & st & E & _ & _ & G).
  exists o, (ps_set_state st p). now split.
Qed.
Lemma get_sub_key_born p k name c p' : still (ps_state p) -> born (ps_file p) k -> get_sub_key p k name = Ok (Some c, p') -> born (ps_file p) c.
Proof.
  intros Q BK. unfold get_sub_key. destruct (st_get_root_path_offset _ _) as [o st] eqn:SO. destruct (str_from _ _); try discriminate. cbv beta iota.
  destruct (read_sub_keys_internal _ _ _ _ _ _) as [[[[k1 cs] found] s]| | |] eqn:E; try discriminate. cbv beta iota. intros [= HD _].
  assert (Q1 : still st).
  { revert SO. unfold st_get_root_path_offset. destruct (_ =? 0); intros [= _ <-]; [|exact Q].
    eapply still_root; [|exact Q]. reflexivity. }
  apply sub_keys_born in E as (_ & BC); [|exact Q1|exact BK]. destruct cs; [discriminate|]. injection HD as <-. now inversion BC.
Qed.
Lemma by_name_held p x k name c p' : used (key_of t) p0 p -> held fi t x k -> kn_offset k <> t_pos t -> Forall scalar name -> ~ In 92 name -> name <> [] ->
  get_sub_key p k (utf8 name) = Ok (Some c, p') -> exists y, held fi t y c.
Proof.
  intros U HK NR S1 C1 N1 E. destruct (get_sub_key_gives p x k name U HK NR S1 C1 N1) as (o & p2 & E' & G). rewrite E in E'. injection E' as <- _.
  destruct (gives_in _ _ (fun y => In y (preorder [] t)) c G) as (y & IY & KY); [|reflexivity|].
  - intros y IY. apply in_map_iff in IY as (s & <- & IS). apply filter_In in IS as (IS & _). destruct HK as (I & _). now apply (preorder_sub t [] x s).
  - exists y. split; [exact IY|]. split; [exact KY|]. destruct (at_p p U) as (O & F & _). destruct HK as (_ & _ & BK). rewrite <- F in *.
    now apply (get_sub_key_born p k (utf8 name) c p' (od_quiet _ _ O)).
Qed.
Lemma up_one s : forall above x, In x (preorder above s) -> x = (above ++ [t_name s], s) \/ exists y, In y (preorder above s) /\ In (snd x) (t_subs (snd y)).
Proof.
  induction s as [pos name vals subs IH] using tree_ind'. intros above x I. rewrite preorder_eq in I. destruct I as [<-|I]; [now left|]. right.
  apply in_flat_map in I as (c & C & I). cbn [t_subs t_name] in *. rewrite Forall_forall in IH. destruct (IH c C _ _ I) as [->|(y & Y & Z)].
  - eexists. rewrite preorder_eq. split; [left; reflexivity|exact C].
  - exists y. split; [|exact Z]. rewrite preorder_eq. right. apply in_flat_map. now exists c.
Qed.
Lemma parent_born p k c p' : still (ps_state p) -> get_parent_key p k = Ok (Some c, p') -> born (ps_file p) c.
Proof.
  intros Q. unfold get_parent_key. destruct (kn_read _ _ _) as [[o s]| | |] eqn:R; try discriminate. cbv beta iota. intros [= -> _]. now apply read_born in R.
Qed.
Lemma parent_held p x k c p' : used (key_of t) p0 p -> held fi t x k -> kn_offset k <> t_pos t -> get_parent_key p k = Ok (Some c, p') -> exists y, held fi t y c.
Proof.
  intros U HK NR E. pose proof HK as (I & (K & _) & _). destruct (up_one t [] x I) as [->|(y & IY & IS)]; [now elim NR|].
  destruct (at_p p U) as (O & F & _). destruct (opened_facts _ _ O) as (B & H & T). unfold fi in *. rewrite <- F in *.
  destruct (parent_weak p t true x k y O T CN) as (k' & E' & KS); [unfold ps_buffer in *; now rewrite F|exact HK|exact IY|exact IS|].
  pose proof E as E2. rewrite E' in E. injection E as <- _. exists y. split; [exact IY|]. split; [exact KS|].
  now apply (parent_born p k k' p' (od_quiet _ _ O)).
Qed.
Lemma same_held x k k' : held fi t x k -> kn_values k' = kn_values k -> kn_offset k' = kn_offset k -> kn_name k' = kn_name k -> kn_path k' = kn_path k ->
  kn_state k' = kn_state k -> kn_detail k' = kn_detail k -> kn_deleted k' = kn_deleted k -> held fi t x k'.
Proof.
  intros (I & (K1 & K2 & K3 & K4 & K5) & BD & full & BB) E1 E2 E3 E4 E5 E6 E7. split; [exact I|]. split.
  - unfold key_shown. rewrite E1, E2, E3, E4, E5. auto 10.
  - split; [now rewrite E7|]. exists full. now rewrite E6, E2.
Qed.
Lemma sub_keys_held p x k k' ks st c : used (key_of t) p0 p -> held fi t x k -> read_sub_keys fi (ps_state p) k = Ok (k', ks, st) ->
  c = k' \/ In c ks -> exists y, held fi t y c.
Proof.
  intros U HK E J. destruct (at_p p U) as (O & F & _). destruct (in_p p x k O F HK) as (B & H & WK & GN & _ & CT & T).
  destruct (weak_sub_keys fi (ps_state p) (fst x) (snd x) k B H (od_quiet _ _ O) (proj1 GN) WK) as (k1 & ks1 & E1 & SH & V1 & V2 & V3 & V4 & V5 & V6 & V7).
  pose proof E as E2. rewrite E1 in E. injection E as <- <- _. destruct J as [->|J]; [exists x; now apply (same_held x k)|].
  destruct (forall2_in _ _ _ c SH J) as (y & IY & KY). exists y. split; [|split; [exact KY|]].
  - apply in_map_iff in IY as (s & <- & IS). destruct HK as (I & _). now apply (preorder_sub t [] x s).
  - revert E2. unfold read_sub_keys. destruct (read_sub_keys_internal _ _ _ _ _ _) as [[[[k2 cs] found] s2]| | |] eqn:R; try discriminate. cbv beta iota. intros [= _ -> _].
    apply sub_keys_born in R as (_ & BC); [|apply (od_quiet _ _ O)|apply HK]. rewrite Forall_forall in BC. now apply BC.
Qed.
Lemma by_index_held p x k i k' o st c : used (key_of t) p0 p -> held fi t x k -> get_sub_key_by_index fi (ps_state p) k i = Ok (k', o, st) ->
  c = k' \/ o = Some c -> exists y, held fi t y c.
Proof.
  intros U HK E J. destruct (at_p p U) as (O & F & _). destruct (in_p p x k O F HK) as (B & H & WK & GN & _ & CT & T).
  destruct (weak_by_index fi (ps_state p) (fst x) (snd x) k i B H (od_quiet _ _ O) (proj1 GN) WK) as (o1 & E1 & G).
  pose proof HK as (I & _ & BK). destruct (by_index_born fi _ _ _ _ _ _ (od_quiet _ _ O) BK E) as (_ & BC).
  rewrite E1 in E. injection E as <- <- _. destruct J as [->|J]; [now exists x|].
  destruct (nth_error (t_subs (snd x)) (N.to_nat i)) as [s|] eqn:NE; [|congruence]. destruct G as (kid & -> & KS). injection J as <-.
  exists (fst x ++ [t_name s], s). split; [apply (preorder_sub t [] x s I); now apply nth_error_In in NE|]. split; [exact KS|now apply BC].
Qed.
Lemma next_by_index st k k' o st' : next_sub_key fi st k = Ok (k', o, st') ->
  exists k1, get_sub_key_by_index fi st k (kn_index k) = Ok (k1, o, st') /\ (k' = k1 \/ k' = kn_set_index (kn_index k1 + 1) k1).
Proof.
  unfold next_sub_key. destruct (get_sub_key_by_index _ _ _ _) as [[[k1 o1] s1]| | |] eqn:E; try discriminate. cbv beta iota.
  destruct o1; intros [= <- <- <-]; exists k1; auto.
Qed.
Lemma index_held x k i : held fi t x k -> held fi t x (kn_set_index i k).
Proof. intros HK. now apply (same_held x k). Qed.
Lemma obtained_held k : obtained t p0 k -> exists x, held fi t x k.
Proof.
  induction 1 as [p k p' U E|p fuel path hr k p' U SP E|p n anc m post ks k U LN E I|p k name c p' _ (x & HK) U S1 C1 N1 NR E
    |p k c p' _ (x & HK) U NR E|p k k' ks st c _ (x & HK) U E J|p fuel k path c st _ (x & HK) U SP E|p k i k' o st c _ (x & HK) U E J
    |p k k' o st c _ (x & HK) U E J|k _ (x & HK)].
  - eexists. apply (get_root_held p k p' U E).
  - exact (get_key_held p fuel path hr k p' U SP E).
  - exact (iterate_held p n anc m post ks k U LN E I).
  - exact (by_name_held p x k name c p' U HK NR S1 C1 N1 E).
  - exact (parent_held p x k c p' U HK NR E).
  - destruct (at_p p U) as (_ & F & _). rewrite F in E. exact (sub_keys_held p x k k' ks st c U HK E J).
  - destruct (at_p p U) as (_ & F & _). rewrite F in E. exact (path_held p x k fuel path c st U HK SP E).
  - destruct (at_p p U) as (_ & F & _). rewrite F in E. exact (by_index_held p x k i k' o st c U HK E J).
  - destruct (at_p p U) as (_ & F & _). rewrite F in E. destruct (next_by_index _ _ _ _ _ E) as (k1 & E1 & JJ).
    destruct J as [->|J]; [|exact (by_index_held p x k _ k1 o st c U HK E1 (or_intror J))].
    destruct (by_index_held p x k _ k1 o st k1 U HK E1 (or_introl eq_refl)) as (y & HY).
    exists y. destruct JJ as [->| ->]; [exact HY|now apply index_held].
  - exists x. now apply index_held.
Qed.
Lemma held_key_of x k : held fi t x k -> key_of t k.
Proof.
  intros (I & (_ & _ & P & _) & _). apply read_utf8_exact in P as (_ & P). destruct (preorder_first t x I) as (r & E & _). rewrite E in P.
  change (t_name t :: r) with ([t_name t] ++ r) in P. rewrite spelled_app, utf8_app in P. exists (utf8 (spelled r)). split; [exact P|].
  destruct r as [|n r]; [now left|right]. cbn [spelled flat_map app]. now rewrite utf8_slash.
Qed.
End Held.

(** ** With a key in hand *)
Section Nav.
Context (buffer : list N) (files : list (list N)) (t : key_tree) (p0 p : parser) (k : key_node) (NV : navigating buffer files t p0 p k).
Lemma nav_held : exists x, held (ps_file p0) t x k.
Proof. destruct NV as (OP & CN & RT & PS & OB & U). now apply (obtained_held buffer files t p0). Qed.
Lemma nav_shown : key_of t k /\ exists names s, stands_at t k names s /\ key_shown k names s
  /\ forall names' s', stands_at t k names' s' -> names' = names /\ s' = s.
Proof.
  pose proof NV as (OP & CN & RT & PS & OB & U). destruct nav_held as ((names & s) & HK). split; [exact (held_key_of t p0 _ k HK)|].
  pose proof HK as (I & KS & _). exists names, s. split; [split; [exact I|apply KS]|]. split; [exact KS|]. intros names' s' (I' & E').
  destruct (opens_opened _ _ _ _ OP) as [(_ & _ & _ & _ & ND) _ _ _ _ _]. pose proof (held_one _ _ _ (names', s') _ ND HK I' E') as X. now injection X as -> ->.
Qed.
Context (names : list (list N)) (s : key_tree) (AT : stands_at t k names s).
Lemma nav_at : opened t p /\ ps_file p = ps_file p0 /\ held (ps_file p0) t (names, s) k.
Proof.
  pose proof NV as (OP & CN & RT & PS & OB & U). destruct (at_p buffer files t p0 OP CN RT p U) as (O & F & _). split; [exact O|]. split; [exact F|].
  destruct nav_held as (x & HK). destruct AT as (I' & E').
  destruct (opens_opened _ _ _ _ OP) as [(_ & _ & _ & _ & ND) _ _ _ _ _]. now rewrite <- (held_one _ _ _ (names, s) _ ND HK I' E').
Qed.
Lemma nav_in : bytes_ok (fi_buffer (ps_file p)) /\ fi_hbin (ps_file p) < 2 ^ 32 /\ weak (ps_file p) names s k /\ good names
  /\ (exists r, names = t_name t :: r) /\ clean_names s /\ tree_stored (ps_file p) true t /\ held (ps_file p) t (names, s) k.
Proof.
  pose proof NV as (OP & CN & RT & PS & OB & U). destruct nav_at as (O & F & HK). rewrite F.
  destruct (in_p t p0 CN p (names, s) k O F HK) as (B & H & WK & GN & NR & CT & T). auto 10.
Qed.
Lemma nav_sub_keys : exists k' ks, read_sub_keys (ps_file p) (ps_state p) k = Ok (k', ks, ps_state p) /\ shown ks (map (fun c => (names ++ [t_name c], c)) (t_subs s)).
Proof.
  destruct nav_at as (O & F & _). destruct nav_in as (B & H & WK & GN & _).
  destruct (weak_sub_keys (ps_file p) (ps_state p) names s k B H (od_quiet _ _ O) (proj1 GN) WK) as (k1 & ks1 & E1 & SH & _). now exists k1, ks1.
Qed.
Lemma nav_by_index i : exists o, get_sub_key_by_index (ps_file p) (ps_state p) k i = Ok (k, o, ps_state p)
  /\ match nth_error (t_subs s) (N.to_nat i) with
     | Some c => exists kid, o = Some kid /\ key_shown kid (names ++ [t_name c]) c
     | None => o = None
     end.
Proof.
  destruct nav_at as (O & F & _). destruct nav_in as (B & H & WK & GN & _).
  exact (weak_by_index (ps_file p) (ps_state p) names s k i B H (od_quiet _ _ O) (proj1 GN) WK).
Qed.
Lemma next_from n : forall i, (length (t_subs s) - i < n)%nat ->
  exists ks, all_next n (ps_file p) (ps_state p) (kn_set_index (N.of_nat i) k) = Ok ks
  /\ shown ks (map (fun c => (names ++ [t_name c], c)) (skipn i (t_subs s))).
Proof.
  destruct nav_at as (O & F & _). destruct nav_in as (B & H & WK & GN & _).
  induction n as [|n IH]; intros i L; [lia|]. cbn [all_next]. unfold next_sub_key. change (kn_index (kn_set_index (N.of_nat i) k)) with (N.of_nat i).
  destruct (weak_by_index (ps_file p) (ps_state p) names s (kn_set_index (N.of_nat i) k) (N.of_nat i) B H (od_quiet _ _ O) (proj1 GN)) as (o & E & G); [exact WK|].
  rewrite E. cbv beta iota. rewrite Nat2N.id in G. destruct (nth_error (t_subs s) i) as [c|] eqn:NE.
  - destruct G as (kid & -> & KS). cbv beta iota. destruct (IH (S i)) as (ks & E2 & SH).
    { assert (nth_error (t_subs s) i <> None) by congruence. apply nth_error_Some in H0. lia. }
    replace (N.of_nat (S i)) with (N.of_nat i + 1) in E2 by lia.
    change (kn_set_index (kn_index (kn_set_index (N.of_nat i) k) + 1) (kn_set_index (N.of_nat i) k)) with (kn_set_index (N.of_nat i + 1) k). rewrite E2. cbv beta iota. exists (kid :: ks). split; [reflexivity|].
    replace (skipn i (t_subs s)) with (c :: skipn (S i) (t_subs s)).
    + cbn [map]. now constructor.
    + clear -NE. revert i NE. induction (t_subs s) as [|x l I]; intros [|i] NE; try discriminate; [now injection NE as ->|]. cbn [skipn]. now apply I.
  - subst o. exists []. split; [reflexivity|]. apply nth_error_None in NE. rewrite skipn_all2 by exact NE. constructor.
Qed.
Lemma nav_next n : (length (t_subs s) < n)%nat -> exists ks, all_next n (ps_file p) (ps_state p) (kn_set_index 0 k) = Ok ks
  /\ shown ks (map (fun c => (names ++ [t_name c], c)) (t_subs s)).
Proof. intros L. destruct (next_from n 0) as (ks & E & SH); [lia|]. now exists ks. Qed.
Lemma nav_by_name name : kn_offset k <> t_pos t -> Forall scalar name -> ~ In 92 name -> name <> [] ->
  exists o p', get_sub_key p k (utf8 name) = Ok (o, p')
  /\ gives o (map (fun c => (names ++ [t_name c], c)) (List.filter (fun c => same_name (t_name c) name) (t_subs s))).
Proof.
  pose proof NV as (OP & CN & RT & PS & OB & U). destruct nav_at as (_ & _ & HK). intros. now apply (get_sub_key_gives buffer files t p0 OP CN RT p (names, s) k name).
Qed.
Lemma nav_by_path above segs b fuel : names = above ++ [t_name s] -> Forall (Forall scalar) segs -> Forall (fun n => ~ In 92 n) segs -> segs <> [] ->
  hd_error (rev segs) <> Some [] -> (length segs <= fuel)%nat ->
  exists o st', get_sub_key_by_path fuel (ps_file p) (ps_state p) k (utf8 (joined segs ++ repeat 92 b)) = Ok (o, st') /\ gives o (reached above segs s).
Proof.
  intros EN S1 S2 NE LS LF. destruct nav_at as (O & F & _). destruct nav_in as (B & H & WK & GN & NR & CT & _). rewrite EN in *.
  destruct (by_path_weak (ps_file p) (t_name t) above s k (ps_state p) segs b B H WK NR GN CT (od_cached _ _ O) (conj S1 S2) NE LS fuel LF) as (o & st' & E & _ & _ & G).
  now exists o, st'.
Qed.
Lemma nav_parent names' s' : In (names', s') (preorder [] t) -> In s (t_subs s') ->
  exists k', get_parent_key p k = Ok (Some k', p) /\ key_shown k' names' s'.
Proof.
  pose proof NV as (OP & CN & RT & PS & OB & U). destruct nav_at as (O & F & _). destruct nav_in as (B & H & WK & GN & NR & CT & T & HK). intros I IS.
  apply (parent_weak p t true (names, s) k (names', s') O T CN); [|exact HK|exact I|exact IS]. unfold ps_buffer in *. now rewrite F.
Qed.
End Nav.
Lemma value_iter_from k n : forall i, (length (kn_values k) - i < n)%nat -> value_iter n k (N.of_nat i) = skipn i (kn_values k).
Proof.
  induction n as [|n IH]; intros i L; [lia|]. cbn [value_iter]. unfold next_value. rewrite get_at_nth, Nat2N.id.
  destruct (nth_error (kn_values k) i) as [v|] eqn:NE.
  - replace (N.of_nat i + 1) with (N.of_nat (S i)) by lia. rewrite IH.
    + clear -NE. revert i NE. generalize (kn_values k). intros l. induction l as [|x l I]; intros [|i] NE; try discriminate; [now injection NE as ->|]. cbn [skipn]. now apply I.
    + assert (nth_error (kn_values k) i <> None) by congruence. apply nth_error_Some in H. lia.
  - apply nth_error_None in NE. now rewrite skipn_all2.
Qed.
Lemma find_filter {A} (f : A -> bool) l : find f l = hd_error (List.filter f l).
Proof. induction l as [|a l IH]; [reflexivity|]. cbn [find List.filter]. now destruct (f a). Qed.
Lemma nav_name buffer files t p0 p k : navigating buffer files t p0 p k -> forall names s, stands_at t k names s ->
  forall name, kn_offset k <> t_pos t -> Forall scalar name -> ~ In 92 name -> name <> [] ->
  exists o p', get_sub_key p k (utf8 name) = Ok (o, p')
  /\ match find (fun c => same_name (t_name c) name) (t_subs s) with
     | Some c => exists kid, o = Some kid /\ key_shown kid (names ++ [t_name c]) c
     | None => o = None
     end.
Proof.
  intros NV names s AT name NR S1 C1 N1. destruct (nav_by_name _ _ _ _ _ _ NV names s AT name NR S1 C1 N1) as (o & p' & E & G). exists o, p'. split; [exact E|].
  rewrite find_filter. unfold gives in G. destruct (List.filter _ _); exact G.
Qed.
