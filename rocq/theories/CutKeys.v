(** The keys a hive that was cut off has lost (C83). *)
From Verif Require Import Base BaseFacts LayoutSpec LayoutFacts BaseBlock Util UtilSpec UtilText Types Value Node Recover Parser TxLog
  NodeFrame TxSpec TxBuild CellSpec CellFacts CellData CellList CellRead TreeSpec TreeRead TreeIter TreeOpen AnyFile Pure CutSpec CutFacts.

Lemma read_all fi st o path (sf : option filter) sm m oc st' : quiet st -> sf = None \/ sf = Some None ->
  kn_read fi st (mkOpt o path sf sm None m) = Ok (oc, st') -> exists c, oc = Some c /\ kn_offset c = o /\ kn_filter c = None.
Proof.
  intros M SF. unfold kn_read, read_from_slice. cbn [op_offset op_path op_filter op_self_match op_seq op_modified].
  destruct (get_from _ _) as [s|]; [|discriminate]. cbn [ok_or]. destruct (kn_from_bytes st s o path None) as [[k r]| | |] eqn:K; try discriminate.
  assert (K0 : kn_offset k = o /\ kn_filter k = None).
  { destruct (kn_cases st s o path None) as [(_ & nm & w & _ & E)|(_ & E)]; rewrite E in K; [|discriminate]. injection K as <- _. now split. }
  cbv beta iota.
  replace (match sf with Some f => check_cell f st k | None => Ok (IterateKeys, st) end) with (Ok (IterateKeys, st)) by (destruct SF as [-> | ->]; reflexivity).
  cbv beta iota. match goal with |- (let* k := ?x in _) = _ -> _ => destruct x as [k1| | |] eqn:EV; try discriminate end.
  assert (K1 : kn_offset k1 = o /\ kn_filter k1 = None).
  { destruct (_ && _) in EV; [|injection EV as <-; exact K0]. unfold read_values in EV.
    destruct (_ && _) in EV; [|injection EV as <-; exact K0]. destruct (1048576 <? _) in EV; [injection EV as <-; exact K0|].
    destruct (parse_key_values _ _ _) in EV; [|injection EV as <-; exact K0].
    destruct (read_values_loop _ _ _ _ _) as [[[vs lg] ok]| | |] in EV; try discriminate. injection EV as <-. destruct ok; exact K0. }
  cbv beta iota zeta. destruct m; [|intros [= <- _]; eauto]. unfold uml_fuel. rewrite uml_quiet by exact M. intros [= <- _]. eauto.
Qed.
Lemma children_all fi path sm (sf : option filter) m offs : sf = None \/ sf = Some None -> forall st cs found logs st', quiet st ->
  (sm = false -> True) -> read_children fi st path sm None sf None m offs = Ok (cs, found, logs, st') ->
  (logs = [] -> map kn_offset cs = offs) /\ (sm = false -> Forall (fun c => kn_filter c = None) cs).
Proof.
  intros SF. induction offs as [|o offs IH]; intros st cs found logs st' M X; cbn [read_children]; [intros [= <- _ <- _]; split; [reflexivity|constructor]|].
  destruct (kn_read fi st _) as [[oc st1]| | |] eqn:R; try discriminate.
  - pose proof (quiet_root_only' _ _ (kn_read_state _ _ _ _ _ R) M) as M1. apply read_all in R as (c & -> & O & F); [|exact M|exact SF].
    destruct (read_children _ _ _ _ _ _ _ _ _) as [[[[cs1 ?] ?] ?]| | |] eqn:E; try discriminate. intros [= <- _ <- _].
    destruct (IH _ _ _ _ _ M1 X E) as (I1 & I2). split.
    + intros L. cbn [map]. f_equal; [|auto]. unfold child_filter_state. rewrite F. destruct sm; exact O.
    + intros L. constructor; [|auto]. unfold child_filter_state. rewrite F, L. cbn. exact F.
  - destruct (read_children _ _ _ _ _ _ _ _ _) as [[[[cs1 ?] ?] ?]| | |] eqn:E; try discriminate. intros [= <- _ <- _].
    destruct (IH _ _ _ _ _ M X E) as (_ & I2). split; [discriminate|exact I2].
Qed.
Lemma fold_push l : forall cx, exists cs, let cx' := fold_left (fun cx c => push_check c cx) l cx in
  cx_stack cx' = cs ++ cx_stack cx /\ cx_offsets cx' = map kn_offset cs ++ cx_offsets cx /\ incl cs l /\ cx_return cx' = cx_return cx
  /\ cx_filter cx' = cx_filter cx /\ incl (map kn_offset l) (cx_offsets cx').
Proof.
  induction l as [|k l IH]; intros cx; [exists []; cbn; repeat split; intros ? []|]. cbn [fold_left].
  destruct (IH (push_check k cx)) as (cs & I1 & I2 & I3 & I4 & I5 & I6). cbv zeta in *.
  set (cx' := fold_left (fun cx c => push_check c cx) l (push_check k cx)) in *. clearbody cx'.
  unfold push_check in I1, I2, I4, I5. destruct (existsb _ _) eqn:E; cbn [cx_stack cx_offsets cx_return cx_filter] in *.
  - exists cs. split; [exact I1|]. split; [exact I2|]. split; [now apply incl_tl|]. split; [exact I4|]. split; [exact I5|]. cbn [map]. apply incl_cons; [|exact I6].
    rewrite I2. apply in_or_app. right. apply existsb_exists in E as (y & Y & E). apply N.eqb_eq in E. now rewrite E.
  - exists (cs ++ [k]). rewrite map_app. cbn [map]. rewrite <- !app_assoc. cbn [app]. split; [exact I1|]. split; [exact I2|].
    split; [apply incl_app; [now apply incl_tl|]; intros ? [<-|[]]; now left|]. split; [exact I4|]. split; [exact I5|].
    apply incl_cons; [|exact I6]. rewrite I2. apply in_or_app. right. now left.
Qed.
Section Lost.
Context (fi : file_info) (rest : list N) (T : key_tree).
Notation whole := (with_more fi rest).
Context (B : bytes_ok (fi_buffer whole)) (HB : fi_hbin fi < 2 ^ 32) (ND : NoDup (positions T)).
Notation part := (partial fi rest T False).
Let WR : False -> len rest <= fi_hbin fi := fun f => match f with end.
Definition covered (offs : list N) (k : key_node) : Prop :=
  forall x, In x (preorder [] T) -> t_pos (snd x) = kn_offset k -> kn_logs k <> [] \/ incl (map t_pos (t_subs (snd x))) offs.
Lemma covered_more a b k : incl a b -> covered a k -> covered b k.
Proof. intros I C x X O. destruct (C x X O) as [?|J]; [now left|right]. now apply (incl_tran J). Qed.
Lemma visit_covered cx k k' cx' : quiet (cx_state cx) -> part k -> kn_filter k = None -> cx_filter cx = None -> visit fi cx k = Ok (k', cx') ->
  covered (cx_offsets cx') k' /\ kn_filter k' = None /\ kn_offset k' = kn_offset k /\ cx_filter cx' = None /\ cx_return cx' = cx_return cx
  /\ exists cs, cx_stack cx' = cs ++ cx_stack cx /\ cx_offsets cx' = map kn_offset cs ++ cx_offsets cx /\ Forall (fun c => kn_filter c = None) cs.
Proof.
  intros M PK KF CF. unfold visit.
  pose proof PK as (KD & above & u & d & I & U & _ & _ & O & _ & PA & A & N1 & N2 & _).
  assert (ONE : forall x, In x (preorder [] T) -> t_pos (snd x) = kn_offset k -> snd x = u).
  { intros x X E. pose proof ND as ND'. rewrite <- (preorder_pos [] T) in ND'. apply (pos_once _ _ _ ND'); [now apply in_map|now apply (in_map snd) in I|congruence]. }
  match goal with |- match ?x with _ => _ end = _ -> _ => destruct x as [[k1 cx1]| | |] eqn:E; try discriminate end.
  assert (X : kn_deleted k1 = [] /\ covered (cx_offsets cx1) k1 /\ kn_filter k1 = None /\ kn_offset k1 = kn_offset k /\ cx_filter cx1 = None /\ cx_return cx1 = cx_return cx
    /\ exists cs, cx_stack cx1 = cs ++ cx_stack cx /\ cx_offsets cx1 = map kn_offset cs ++ cx_offsets cx /\ Forall (fun c => kn_filter c = None) cs).
  { destruct (N.ltb_spec 0 (kd_nsub (kn_detail k))) as [NS|NS] in E.
    2:{ injection E as <- <-. split; [exact KD|]. split; [|repeat split; auto; exists []; repeat split; constructor].
      intros x X Q. right. rewrite (ONE x X Q). destruct U as (U & _). destruct (t_subs u); [intros ? []|]. rewrite len_cons in U. lia. }
    rewrite CF in E. destruct (read_sub_keys_internal _ _ _ _ _ _) as [[[[k2 cs] fd] st]| | |] eqn:R in E; try discriminate.
    assert (Y : kn_deleted k2 = [] /\ kn_filter k2 = None /\ kn_offset k2 = kn_offset k /\ Forall (fun c => kn_filter c = None) cs
      /\ (kn_logs k2 <> [] \/ map kn_offset cs = map t_pos (t_subs u))).
    { unfold read_sub_keys_internal in R. rewrite A in R. cbn [is_allocated] in R.
      assert (LOG : kn_logs (kn_add_log WarningParse k) <> []) by (cbn; now destruct (kn_logs k)).
      destruct (1048576 <? _) in R; [injection R as <- <- _ _; repeat split; auto|].
      destruct (N.ltb_spec 0 (kd_nsub (kn_detail k))) in R; [|lia].
      destruct (parse_sub_key_list _ _ _) as [offs| | |] eqn:PL in R; try discriminate; [|injection R as <- <- _ _; repeat split; auto].
      assert (OF : offs = map t_pos (t_subs u)).
      { rewrite N1 in NS. rewrite N2 in PL. apply (lists_more _ rest) in PL.
        pose proof (list_fuel_enough whole (kd_sublist d) (list_fuel fi)) as X. rewrite PL in X. specialize (X ltac:(discriminate)).
        destruct (list_total whole (t_subs u) d U) as (_ & Y); [|rewrite Y in X; now injection X as <-].
        intros Z. destruct U as (U & _). rewrite Z in U. unfold len in U. cbn in U. lia. }
      assert (SM : is_match_or_desc k = false) by (unfold is_match_or_desc; now rewrite KF). cbv zeta in R. rewrite SM in R. cbn [andb] in R.
      destruct (read_children _ _ _ _ _ _ _ _ _) as [[[[cs1 fd1] lg] st1]| | |] eqn:RC in R; try discriminate. injection R as <- <- _ _.
      apply children_all in RC as (C1 & C2); [|now right|exact M|auto]. repeat split; auto. rewrite <- OF.
      destruct lg; [right; now apply C1|left]. cbn. intros Z. apply app_eq_nil in Z as (_ & Z). discriminate. }
    destruct Y as (Y1 & Y2 & Y3 & Y4 & Y5). injection E as <- <-.
    destruct (fold_push (rev cs) (cx_set_state st cx)) as (cs' & F1 & F2 & F3 & F4 & F5 & F6). cbv zeta in *.
    split; [exact Y1|]. split; [|repeat split; [exact Y2|exact Y3|now rewrite F5|now rewrite F4|]].
    - intros x X Q. cbn [kn_set_to_return kn_logs kn_offset] in *. destruct Y5 as [?|Y5]; [now left|right].
      rewrite (ONE x X) by (rewrite Q; exact Y3). rewrite <- Y5. refine (incl_tran _ F6). rewrite map_rev. intros z Z. now apply in_rev in Z.
    - exists cs'. split; [exact F1|]. split; [exact F2|]. apply Forall_forall. intros c C. apply F3, in_rev in C. rewrite Forall_forall in Y4. now apply Y4. }
  cbv beta iota. destruct X as (X1 & X2 & X3). rewrite X1. cbn [map fold_left]. intros [= <- <-]. split; [exact X2|exact X3].
Qed.
Definition pend (cx : context) : list N := map kn_offset (cx_stack cx) ++ map kn_offset (cx_return cx).
Definition going (cx : context) : Prop := partial_cx fi rest T False cx /\ cx_filter cx = None
  /\ Forall (fun c => kn_filter c = None) (cx_stack cx) /\ Forall (fun c => kn_filter c = None) (cx_return cx)
  /\ Forall (covered (cx_offsets cx)) (cx_return cx).
Definition stepped (cx : context) (o : option key_node) (cx' : context) : Prop :=
  match o with
  | None => pend cx = []
  | Some k => going cx' /\ covered (cx_offsets cx') k /\ incl (cx_offsets cx) (cx_offsets cx')
     /\ (forall z, In z (cx_offsets cx') -> In z (cx_offsets cx) \/ In z (pend cx') \/ z = kn_offset k)
     /\ (forall z, In z (pend cx) -> z = kn_offset k \/ In z (pend cx'))
  end.
Lemma next_pre_covered : forall fuel cx o cx', going cx -> cx_return cx = [] -> next_key_preorder fuel fi cx = Ok (o, cx') ->
  stepped cx o cx' /\ (o <> None -> cx_return cx' = []).
Proof.
  intros [|fuel] cx o cx' (G1 & G2 & G3 & G4 & G5) R; [discriminate|]. cbn [next_key_preorder].
  destruct (cx_stack cx) as [|node stk] eqn:S.
  { intros [= <- <-]. split; [|congruence]. cbn [stepped]. unfold pend. now rewrite S, R. }
  destruct (visit fi (cx_set_stack stk cx) node) as [[k1 cx1]| | |] eqn:V; try discriminate. inversion G3 as [|? ? G31 G32]; subst.
  pose proof G1 as ((Q & QF) & P2 & P3). rewrite S in P2. inversion P2 as [|? ? P21 P22]; subst.
  assert (PC : partial_cx fi rest T False (cx_set_stack stk cx)) by (split; [now split|now split]).
  pose proof (visit_partial fi rest T B HB False WR _ _ _ _ PC P21 V) as (V1 & V2).
  apply visit_covered in V as (W1 & W2 & W3 & W4 & W5 & cs & W6 & W7 & W8); [|exact Q|exact P21|exact G31|exact G2].
  cbn [cx_set_stack cx_return cx_stack cx_offsets] in *. cbv beta iota. rewrite W4. cbn [f_is_valid negb]. rewrite orb_true_r. cbn [orb]. intros [= <- <-].
  rewrite R in W5. split; [|auto]. cbn [stepped]. split; [|split; [exact W1|split; [|split]]].
  - split; [exact V2|]. split; [exact W4|]. rewrite W5, W6. split; [apply Forall_app; now split|]. split; constructor.
  - rewrite W7. apply incl_appr, incl_refl.
  - intros z Z. rewrite W7 in Z. apply in_app_or in Z as [Z|Z]; [|now left]. right; left. unfold pend. rewrite W6, map_app. apply in_or_app. left. apply in_or_app. now left.
  - intros z Z. unfold pend in *. rewrite S, R in Z. cbn [map] in Z. rewrite app_nil_r in Z. destruct Z as [Z|Z]; [left; congruence|right].
    rewrite W6, map_app. apply in_or_app. left. apply in_or_app. now right.
Qed.
Lemma next_post_covered : forall fuel cx o cx', going cx -> next_key_postorder fuel fi cx = Ok (o, cx') -> stepped cx o cx'.
Proof.
  induction fuel as [|fuel IH]; intros cx o cx' G; [discriminate|]. cbn [next_key_postorder]. pose proof G as (G1 & G2 & G3 & G4 & G5).
  pose proof G1 as ((Q & QF) & P2 & P3).
  destruct (cx_stack cx) as [|node stk] eqn:S.
  - destruct (cx_return cx) as [|top r] eqn:R.
    { intros [= <- <-]. cbn [stepped]. unfold pend. now rewrite S, R. }
    inversion G4 as [|? ? G41 G42]; inversion G5 as [|? ? G51 G52]; inversion P3 as [|? ? P31 P32]; subst. cbv zeta. rewrite G41. cbn [negb]. rewrite orb_true_r.
    intros [= <- <-]. cbn [stepped cx_set_return cx_offsets]. split; [|split; [exact G51|split; [apply incl_refl|split; [auto|]]]].
    + split; [split; [now split|split; [cbn [cx_set_return cx_stack]; rewrite S; constructor|exact P32]]|]. split; [exact G2|]. cbn [cx_set_return cx_stack cx_return cx_offsets]. rewrite S. repeat split; auto.
    + intros z Z. unfold pend in *. rewrite S, R in Z. cbn [cx_set_return cx_stack cx_return]. rewrite S. cbn [map app] in *. destruct Z; [left; congruence|now right].
  - inversion G3 as [|? ? G31 G32]; inversion P2 as [|? ? P21 P22]; subst. cbv zeta.
    assert (STEP : (let* (node, cx) := visit fi (cx_set_stack stk cx) node in
            let ret := match cx_return cx with [] => [] | last :: r => kn_set_track (kn_track last + 1) last :: r end in
            next_key_postorder fuel fi (cx_set_return (node :: ret) cx)) = Ok (o, cx') -> stepped cx o cx').
    { destruct (visit fi (cx_set_stack stk cx) node) as [[k1 cx1]| | |] eqn:V; try discriminate.
      assert (PC : partial_cx fi rest T False (cx_set_stack stk cx)) by (split; [now split|now split]).
      pose proof (visit_partial fi rest T B HB False WR _ _ _ _ PC P21 V) as (V1 & V2).
      apply visit_covered in V as (W1 & W2 & W3 & W4 & W5 & cs & W6 & W7 & W8); [|exact Q|exact P21|exact G31|exact G2].
      cbn [cx_set_stack cx_return cx_stack cx_offsets] in *. cbv beta iota zeta. rewrite W5.
      set (ret := match cx_return cx with [] => [] | last :: r => kn_set_track (kn_track last + 1) last :: r end).
      assert (RET : map kn_offset ret = map kn_offset (cx_return cx) /\ Forall (fun c => kn_filter c = None) ret /\ Forall (covered (cx_offsets cx1)) ret /\ Forall part ret).
      { assert (G5' : Forall (covered (cx_offsets cx1)) (cx_return cx)).
        { eapply Forall_impl; [|exact G5]. intros c. apply covered_more. rewrite W7. apply incl_appr, incl_refl. }
        subst ret. destruct (cx_return cx) as [|l r]; [repeat split; constructor|]. inversion G4; inversion G5'; inversion P3; subst. repeat split; constructor; assumption. }
      destruct RET as (E1 & E2 & E3 & E4). intros N.
      assert (G' : going (cx_set_return (k1 :: ret) cx1)).
      { destruct V2 as (V21 & V22 & V23). split; [split; [exact V21|split; [exact V22|now constructor]]|]. split; [exact W4|]. cbn [cx_set_return cx_stack cx_return cx_offsets].
        split; [rewrite W6; apply Forall_app; now split|]. split; now constructor. }
      pose proof (IH _ _ _ G' N) as ST.
      assert (PE : incl (pend cx) (pend (cx_set_return (k1 :: ret) cx1))).
      { unfold pend. cbn [cx_set_return cx_stack cx_return]. rewrite S, W6, map_app. cbn [map]. rewrite E1, W3. intros z Z.
        rewrite !in_app_iff. apply in_app_or in Z as [[Z|Z]|Z]; [right; now left|left; now right|right; now right]. }
      destruct o as [k|]; cbn [stepped] in *.
      - destruct ST as (S1 & S2 & S3 & S4 & S5). cbn [cx_set_return cx_offsets] in *. split; [exact S1|]. split; [exact S2|]. split; [|split].
        + refine (incl_tran _ S3). rewrite W7. apply incl_appr, incl_refl.
        + intros z Z. destruct (S4 z Z) as [Y|Y]; [|now right]. rewrite W7 in Y. apply in_app_or in Y as [Y|Y]; [|now left].
          right. destruct (S5 z); [|now right|now left]. unfold pend. cbn [cx_set_return cx_stack]. rewrite W6, map_app. apply in_or_app. left. apply in_or_app. now left.
        + intros z Z. apply S5. now apply PE.
      - rewrite ST in PE. destruct (pend cx) as [|z l]; [reflexivity|]. destruct (PE z). now left. }
    destruct (cx_return cx) as [|last r] eqn:R; [exact STEP|]. destruct (_ =? _); [|exact STEP]. clear STEP IH.
    inversion G4 as [|? ? G41 G42]; inversion G5 as [|? ? G51 G52]; inversion P3 as [|? ? P31 P32]; subst. intros [= <- <-].
    cbn [stepped cx_set_return cx_offsets]. split; [|split; [exact G51|split; [apply incl_refl|split; [auto|]]]].
    + split; [split; [now split|split; [cbn [cx_set_return cx_stack]; rewrite S; now constructor|exact P32]]|]. split; [exact G2|]. cbn [cx_set_return cx_stack cx_return cx_offsets]. rewrite S. repeat split; auto.
    + intros z Z. unfold pend in *. rewrite R in Z. cbn [cx_set_return cx_stack cx_return]. cbn [map] in Z. rewrite in_app_iff in *. cbn [In] in Z. intuition auto.
Qed.
Lemma collect_covered post : forall fuel cx ks, going cx -> (post = false -> cx_return cx = []) -> collect post fuel fi cx = Ok ks ->
  incl (pend cx) (map kn_offset ks) /\ Forall (covered (cx_offsets cx ++ map kn_offset ks)) ks.
Proof.
  induction fuel as [|fuel IH]; intros cx ks G PR; [discriminate|]. cbn [collect].
  destruct ((if post then next_key_postorder else next_key_preorder) (S fuel) fi cx) as [[o cx1]| | |] eqn:E; try discriminate.
  assert (X : stepped cx o cx1 /\ (o <> None -> post = false -> cx_return cx1 = [])).
  { destruct post; [split; [now apply (next_post_covered (S fuel))|discriminate]|].
    apply next_pre_covered in E as (E1 & E2); [|exact G|auto]. split; auto. }
  destruct X as (X & PR'). cbv beta iota. destruct o as [k|].
  - destruct (collect post fuel fi cx1) as [r| | |] eqn:R; try discriminate. intros [= <-]. cbn [stepped] in X. destruct X as (X1 & X2 & X3 & X4 & X5).
    apply IH in R as (I1 & I2); [|exact X1|intros; apply PR'; [discriminate|assumption]]. split.
    + intros z Z. cbn [map]. destruct (X5 z Z) as [->|Y]; [now left|right; now apply I1].
    + assert (IN : incl (cx_offsets cx1) (cx_offsets cx ++ map kn_offset (k :: r))).
      { intros z Z. apply in_or_app. destruct (X4 z Z) as [Y|[Y| ->]]; [now left|right; right; now apply I1|right; now left]. }
      constructor; [now apply (covered_more (cx_offsets cx1))|]. eapply Forall_impl; [|exact I2]. intros c. apply covered_more.
      apply incl_app; [exact IN|]. apply incl_appr, incl_tl, incl_refl.
  - intros [= <-]. cbn [stepped] in X. rewrite X. split; [intros ? []|constructor].
Qed.
End Lost.
Lemma cut_keys order fuel hash full buffer files rest t p n anc m post ks : known_file_type buffer ->
  build order fuel hash false full buffer files = Ok p -> hive (ps_buffer p ++ rest) t -> iterate n p None anc m post = Ok ks ->
  In 4128 (map kn_offset ks) /\ Forall (covered t (map kn_offset ks)) ks.
Proof.
  intros K BU HV. destruct HV as (B & _ & TP & TS & ND). apply (build_plain order fuel hash full) in BU as (P & (H & _) & st & ES & R); [|exact K].
  assert (FI : with_more (ps_file p) rest = mkFI 4096 (ps_buffer p ++ rest)).
  { unfold with_more, ps_buffer, ps_hbin in *. now rewrite H. }
  assert (HB : fi_hbin (ps_file p) < 2 ^ 32) by (unfold ps_hbin in H; rewrite H; reflexivity).
  assert (Q : forall s, set_info [] s = set_info [] (ps_state p) -> quiet s).
  { intros s E. apply (quiet_info (ps_state p)); [now symmetry|]. exact (plain_quiet _ _ _ P). }
  rewrite <- FI in TS. change (bytes_ok (fi_buffer (with_more (ps_file p) rest))) in B.
  destruct (read_all _ _ _ _ _ _ _ _ _ (Q _ ES) (or_introl eq_refl) R) as (r & PR & RO & RF).
  rewrite PR in R. rewrite <- TP in R. apply (read_part (ps_file p) rest t B HB False (fun f => match f with end) st true [] t None true true r st (Q _ ES) TS) in R; [|rewrite preorder_eq; now left|constructor|auto].
  unfold iterate. intros C. unfold from_parser in C. rewrite PR in C. apply (collect_covered (ps_file p) rest t B HB ND) in C; [|split|reflexivity].
  - unfold pend in C. cbn [cx_stack cx_return cx_offsets map app] in C. rewrite RO in C. destruct C as (C1 & C2).
    assert (I : In 4128 (map kn_offset ks)) by (apply C1; now left). split; [exact I|]. eapply Forall_impl; [|exact C2]. intros k. apply covered_more.
    apply incl_cons; [exact I|apply incl_refl].
  - split; [split; [now apply Q|tauto]|]. split; [now constructor|constructor].
  - cbn. repeat split; auto.
Qed.
Lemma covered_all T offs u : forall above, Forall (fun x => In (t_pos (snd x)) offs -> incl (map t_pos (t_subs (snd x))) offs) (preorder [] T) ->
  In (above ++ [t_name u], u) (preorder [] T) -> In (t_pos u) offs -> Forall (fun x => In (t_pos (snd x)) offs) (preorder above u).
Proof.
  induction u as [pos name vals subs IH] using tree_ind'. intros above C I O. rewrite preorder_eq. constructor; [exact O|]. cbn [t_name t_subs].
  assert (K : incl (map t_pos subs) offs) by (rewrite Forall_forall in C; exact (C _ I O)).
  apply Forall_flat_map. apply Forall_forall. intros s S. rewrite Forall_forall in IH. apply (IH s S); [exact C| |apply K; now apply in_map].
  exact (preorder_child _ _ _ _ _ I S).
Qed.
Lemma pair_once T x y : NoDup (positions T) -> In x (preorder [] T) -> In y (preorder [] T) -> t_pos (snd x) = t_pos (snd y) -> x = y.
Proof.
  intros N. rewrite <- (preorder_pos [] T) in N. rewrite map_map in N. revert N. generalize (preorder [] T) as l.
  induction l as [|z l IH]; [easy|]. cbn [map]. intros N. inversion N as [|? ? N1 N2]; subst. intros [->|I] [->|J] E; [reflexivity| | |now apply IH].
  - exfalso. apply N1. rewrite E. now apply (in_map (fun x => t_pos (snd x))).
  - exfalso. apply N1. rewrite <- E. now apply (in_map (fun x => t_pos (snd x))).
Qed.
Lemma cut_lost order fuel hash full buffer files rest t p n anc m post ks : known_file_type buffer ->
  build order fuel hash false full buffer files = Ok p -> hive (ps_buffer p ++ rest) t -> iterate n p None anc m post = Ok ks ->
  forall k x s, In k ks -> In x (preorder [] t) -> kn_offset k = t_pos (snd x) -> In s (t_subs (snd x)) ->
  kn_logs k <> [] \/ exists k', In k' ks /\ kn_offset k' = t_pos s.
Proof.
  intros K BU HV IT k x s IK IX O S. destruct (cut_keys _ _ _ _ _ _ _ _ _ _ _ _ _ _ K BU HV IT) as (_ & C). rewrite Forall_forall in C.
  destruct (C k IK x IX (eq_sym O)) as [?|I]; [now left|right]. assert (J : In (t_pos s) (map kn_offset ks)) by (apply I; now apply in_map).
  apply in_map_iff in J as (k' & E & J). eauto.
Qed.
Lemma cut_nothing order fuel hash full buffer files rest t p n anc m post ks : known_file_type buffer ->
  build order fuel hash false full buffer files = Ok p -> hive (ps_buffer p ++ rest) t -> len rest <= 4096 -> iterate n p None anc m post = Ok ks ->
  Forall (fun k => kn_logs k = [] /\ Forall (fun v => kv_logs v = []) (kn_values k)) ks ->
  Forall (fun x => exists k, In k ks /\ key_shown k (fst x) (snd x)) (preorder [] t).
Proof.
  intros K BU HV L IT Q. destruct (cut_keys _ _ _ _ _ _ _ _ _ _ _ _ _ _ K BU HV IT) as (R & C).
  pose proof (cut_iterate _ _ _ _ _ _ _ _ _ _ _ _ _ _ _ K BU HV IT) as P. pose proof (cut_warned _ _ _ _ _ _ _ _ _ _ _ _ _ _ K BU HV L IT) as W.
  destruct HV as (_ & _ & TP & _ & ND). rewrite Forall_forall in C, P, Q.
  assert (A : Forall (fun x => In (t_pos (snd x)) (map kn_offset ks)) (preorder [] t)).
  { apply (covered_all t); [|rewrite preorder_eq; now left|now rewrite TP]. apply Forall_forall. intros x X O. apply in_map_iff in O as (k & E & I).
    destruct (C k I x X (eq_sym E)) as [N|J]; [destruct (Q k I); congruence|exact J]. }
  apply Forall_forall. intros x X. rewrite Forall_forall in A. specialize (A x X). apply in_map_iff in A as (k & E & I). exists k. split; [exact I|].
  destruct (P k I) as (y & Y & O & NM & PA & ST & seen & missing & V1 & V2).
  assert (EQ : y = x) by (apply (pair_once t); auto; congruence). subst y. destruct (Q k I) as (Q1 & Q2).
  assert (missing = []).
  { destruct missing as [|v l]; [reflexivity|]. exfalso. apply (W k x I X E); [|exact Q1].
    assert (Z : length (kn_values k) = length seen) by (clear -V2; induction V2; cbn; congruence). rewrite V1, Z, app_length. cbn. lia. }
  subst missing. rewrite app_nil_r in V1. unfold key_shown. rewrite V1. split; [exact O|]. split; [exact NM|]. split; [exact PA|]. split; [|exact ST].
  clear -V2 Q2. induction V2 as [|v u vs us V F IH]; [constructor|]. inversion Q2; subst. constructor; [|now apply IH].
  destruct V as [V|(_ & _ & _ & _ & _ & N)]; [exact V|congruence].
Qed.
