(** Look-up by path in a well-formed hive. *)
From Verif Require Import Base BaseFacts Util UtilSpec UtilText UtilLz LayoutSpec LayoutFacts BaseBlock Types Value Node Recover
  Parser NodeFrame CellSpec CellFacts CellData CellList CellRead TreeSpec TreeRead TreeIter TreeFilter.

Definition lit (n : list N) : component := ComponentString (utf8 (map fold_case n)).
Lemma lit_match a n : Forall scalar a -> Forall scalar n -> seg_match (lit a) n = same_name n a.
Proof.
  intros A B. unfold seg_match, lit, same_name. destruct (beq (map fold_case n) (map fold_case a)) eqn:E.
  - apply beq_eq in E. rewrite E. apply beq_refl.
  - destruct (beq (utf8 (map fold_case a)) (utf8 (map fold_case n))) eqn:F; [|reflexivity]. apply beq_eq in F.
    apply utf8_inj in F; [|now apply fold_scalar|now apply fold_scalar]. rewrite F, beq_refl in E. discriminate.
Qed.
Lemma same_refl n : same_name n n = true. Proof. apply beq_refl. Qed.
Definition same_names (a b : list (list N)) : Prop := Forall2 (fun x y => same_name x y = true) a b.
Lemma combine_same pre names rest more : Forall (Forall scalar) pre -> Forall (Forall scalar) names -> same_names names pre ->
  forallb (fun cs => seg_match (fst cs) (snd cs)) (combine (map lit pre ++ rest) (names ++ more))
  = forallb (fun cs => seg_match (fst cs) (snd cs)) (combine rest more).
Proof.
  intros P N S. induction S as [|n p names pre E S IH]; [reflexivity|].
  apply Forall_cons_iff in P as [P0 P]. apply Forall_cons_iff in N as [N0 N]. cbn [map app combine forallb fst snd].
  rewrite lit_match, E by assumption. cbn [andb]. now apply IH.
Qed.
Lemma scalar_nil : Forall scalar (@nil N). Proof. constructor. Qed.
Lemma look_flag q names pre a rem n : rq_has_root q = true -> rq_path q = map lit ([] :: pre ++ a :: rem) ->
  Forall (Forall scalar) (pre ++ a :: rem) -> Forall (Forall scalar) (names ++ [n]) -> same_names names pre ->
  flag_of q (names ++ [n]) = if same_name n a then match rem with [] => KeyMatch | _ => IterateKeys end else NoMatch.
Proof.
  intros HR PQ SP SN SM. unfold flag_of, agrees, segments. rewrite HR, PQ.
  apply Forall_app in SP as [SP SA]. apply Forall_cons_iff in SA as [SA _]. apply Forall_app in SN as [SN S1].
  apply Forall_cons_iff in S1 as [S1 _].
  change (map lit ([] :: pre ++ a :: rem)) with (lit [] :: map lit (pre ++ a :: rem)). rewrite map_app.
  cbn [combine forallb fst snd]. rewrite lit_match, same_refl by constructor. cbn [andb map].
  rewrite combine_same by assumption. cbn [combine forallb fst snd]. rewrite combine_nil. cbn [forallb]. rewrite lit_match, andb_true_r by assumption.
  destruct (same_name n a); [|reflexivity].
  assert (L : len names = len pre) by (unfold len; now rewrite (Forall2_length _ _ _ SM)).
  rewrite !len_cons, !len_app, !len_cons, !len_map, L. change (len (@nil (list N))) with 0. change (len (@nil component)) with 0.
  destruct rem as [|b rem].
  - change (len []) with 0. destruct (N.ltb_spec (len pre + (0 + 1) + 1) (len pre + (0 + 1) + 1)); [lia|]. now rewrite N.eqb_refl.
  - rewrite len_cons. destruct (N.ltb_spec (len pre + (0 + 1) + 1) (len pre + (len rem + 1 + 1) + 1)); [reflexivity|lia].
Qed.
Lemma reached_strip above segs t : segs <> [] -> reached above segs (without_values t) = reached above segs t.
Proof. destruct segs; [contradiction|]. intros _. destruct t. reflexivity. Qed.
Lemma filter_ext_in' {A} (f g : A -> bool) l : (forall a, f a = g a) -> List.filter f l = List.filter g l.
Proof. intros E. apply filter_ext. exact E. Qed.

Definition gives (o : option key_node) (l : list (list (list N) * key_tree)) : Prop :=
  match hd_error l with
  | None => o = None
  | Some y => exists k, o = Some k /\ key_shown k (fst y) (snd y)
  end.
(** A key on the way. *)
Definition on_way (fi : file_info) (root : list N) (x : fpend) (k : key_node) : Prop :=
  stands fi x k /\ hit (snd x) = false /\ (exists r, names_of (fst x) = root :: r)
  /\ Forall (fun n => ~ In 92 n) (names_of (fst x)) /\ clean_names (p_tree (fst x)).
Lemma look fi q root : bytes_ok (fi_buffer fi) -> fi_hbin fi < 2 ^ 32 -> rq_has_root q = true -> rq_children q = false ->
  forall rem fuel x k st pre, rem <> [] -> (length rem <= fuel)%nat -> rq_path q = map lit ([] :: pre ++ rem) ->
  Forall (Forall scalar) (pre ++ rem) -> same_names (names_of (fst x)) pre -> on_way fi root x k -> cached root st ->
  exists o st', get_sub_key_internal fuel fi st k (Some q) None = Ok (o, st') /\ root_only st st' /\ cached root st'
  /\ gives o (reached (p_above (fst x)) rem (p_tree (fst x))).
Proof.
  intros B H HR HC. induction rem as [|a rem IH]; intros fuel x k st pre NE LF PQ SP SM OW CA; [contradiction|].
  destruct fuel as [|fuel]; [cbn in LF; lia|]. destruct OW as (((L & SA) & FK) & NH & (r & NM) & CL & CT).
  pose proof L as (full & d & raw & BK & V & SC & U & A & R).
  destruct (bare_nsub _ _ _ _ _ _ BK) as (N1 & N2 & _).
  change (kn_detail (kn_set_filter None k)) with (kn_detail k) in N1, N2.
  pose proof BK as (B1 & B2 & B3 & B4 & B5 & _ & B7 & B8 & B9 & B10 & B11).
  change (kn_state (kn_set_filter None k)) with (kn_state k) in B5.
  set (t := p_tree (fst x)) in *. set (names := names_of (fst x)) in *.
  assert (GN : good names).
  { split; [|exact CL]. unfold names, names_of. apply Forall_app. split; [exact SA|]. now constructor. }
  cbn [reached]. change (p_above (fst x) ++ [t_name t]) with names.
  cbn [get_sub_key_internal]. unfold read_sub_keys_internal. rewrite B5, N1, N2. cbn [is_allocated].
  destruct (t_subs t) as [|s0 r0] eqn:SU.
  - destruct U as (U & _). rewrite U. change (1048576 <? len []) with false. change (0 <? len []) with false. cbv beta iota.
    exists None, st. split; [reflexivity|]. split; [auto|]. split; [exact CA|reflexivity].
  - rewrite <- SU in *. assert (NN : t_subs t <> []) by (rewrite SU; discriminate). clear SU.
    destruct (list_total fi _ _ U NN) as (LE & P). rewrite P.
    destruct (N.ltb_spec 1048576 (kd_nsub d)); [lia|]. destruct (N.ltb_spec 0 (kd_nsub d)); [|lia].
    assert (IM : is_match_or_desc k = false) by (unfold is_match_or_desc; rewrite FK; exact NH). rewrite IM. cbn [andb].
    assert (PK : kn_path k = utf8 (spelled names)).
    { unfold names, names_of. rewrite spelled_path. apply loaded_path in L. exact L. }
    rewrite PK.
    assert (CS : Forall (fun s => ~ In 92 (t_name s)) (t_subs t)).
    { apply Forall_forall. intros s I. now apply (clean_sub t). }
    destruct (children_q fi q names root r false (t_subs t) B H NM GN A CS st (or_introl eq_refl) CA) as (kids & st' & E & RO & CC & KS).
    match goal with |- context [read_children ?a ?b ?c ?d' ?e ?f ?g ?h ?i] =>
      assert (E' : read_children a b c d' e f g h i = _) by exact E; rewrite E'; clear E' end.
    cbv beta iota zeta.
    assert (SS : Forall (fun s => Forall scalar (t_name s)) (t_subs t)).
    { apply Forall_forall. intros s I. rewrite Forall_forall in A. specialize (A s I).
      destruct (key_parse fi st false s [] B A) as (? & ? & ? & ? & _ & _ & _ & _ & _ & _ & _ & S & _). exact S. }
    assert (KF : forall s, In s (t_subs t) -> kid_flag q names s
       = if same_name (t_name s) a then match rem with [] => KeyMatch | _ => IterateKeys end else NoMatch).
    { intros s I. unfold kid_flag. apply (look_flag q names pre a rem); try assumption.
      apply Forall_app. split; [apply GN|]. rewrite Forall_forall in SS. constructor; [now apply SS|constructor]. }
    assert (KK : kids_seen q names (t_subs t) = map (fun s => match rem with [] => (s, MExact) | _ => (without_values s, MNone) end)
       (List.filter (fun s => same_name (t_name s) a) (t_subs t))).
    { unfold kids_seen. clear -KF. induction (t_subs t) as [|s l I]; [reflexivity|]. cbn [List.filter].
      assert (K0 := KF s (or_introl eq_refl)). assert (K1 : forall s, In s l -> kid_flag q names s
       = if same_name (t_name s) a then match rem with [] => KeyMatch | _ => IterateKeys end else NoMatch) by (intros; apply KF; now right).
      rewrite K0. destruct (same_name (t_name s) a).
      - destruct rem; cbn [is_no negb map]; rewrite (I K1); f_equal; unfold kid_seen; now rewrite K0.
      - cbn [is_no negb]. exact (I K1). }
    rewrite KK in *. set (subs := List.filter (fun s => same_name (t_name s) a) (t_subs t)) in *.
    assert (SI : forall s, In s subs -> In s (t_subs t) /\ same_name (t_name s) a = true) by (intros s I; now apply filter_In in I).
    clearbody subs. clear KK KF.
    destruct rem as [|b rem].
    + (* the last name *)
      destruct subs as [|s subs].
      * cbn [map existsb flat_map] in *. inversion KS; subst. exists None, st'. repeat (split; [assumption||reflexivity|]). reflexivity.
      * cbn [map existsb snd orb flat_map] in *. inversion KS as [|? k1 ? ks (L1 & F1) KS']; subst. cbn [hd_error].
        exists (Some k1), st'. split; [reflexivity|]. split; [exact RO|]. split; [exact CC|].
        exists k1. split; [reflexivity|]. cbn [reached app hd_error fst snd].
        change (key_shown (kn_set_filter None k1) (names ++ [t_name s]) s).
        apply (waits_shown fi ((names, false, s) : pending)). split; [exact L1|]. apply GN.
    + (* a name on the way *)
      replace (existsb _ _) with false by (clear; induction subs as [|s l I]; [reflexivity|]; cbn [map existsb snd orb]; exact I).
      cbv beta iota.
      assert (RB : b :: rem <> []) by discriminate.
      revert kids st' E RO CC KS. clear -IH LF PQ SP SM GN NM CT SI RB.
      intros kids st' _. revert kids st'. induction subs as [|s subs I]; intros kids st' RO CC KS.
      * inversion KS; subst. exists None, st'. repeat (split; [assumption||reflexivity|]). reflexivity.
      * cbn [map] in KS. inversion KS as [|? k1 ? ks (L1 & F1) KS']; subst. cbn [fst snd] in L1, F1.
        destruct (SI s (or_introl eq_refl)) as [S1 S2]. destruct (clean_sub _ _ CT S1) as [C1 C2].
        destruct (IH fuel (((names, false, without_values s) : pending), Some MNone) k1 st' (pre ++ [a])) as (o & st2 & E2 & RO2 & CC2 & G2).
        { exact RB. } { cbn [length] in LF |- *. lia. } { rewrite <- app_assoc. exact PQ. } { rewrite <- app_assoc. exact SP. }
        { unfold names_of. cbn [fst p_above p_tree snd]. rewrite strip_name. apply Forall2_app; [exact SM|]. constructor; [exact S2|constructor]. }
        { split; [split; [split; [exact L1|apply GN]|exact F1]|]. split; [reflexivity|]. unfold names_of. cbn [fst p_above p_tree snd]. rewrite strip_name.
          split; [exists (r ++ [t_name s]); now rewrite NM|]. split; [|destruct s; exact C1].
          apply Forall_app. split; [apply GN|]. now constructor. }
        { exact CC. }
        rewrite E2. cbv beta iota. cbn [fst p_above p_tree snd] in G2. rewrite reached_strip in G2 by exact RB.
        cbn [flat_map]. unfold gives in G2. destruct (reached names (b :: rem) s) as [|y l] eqn:RE; cbn [hd_error] in G2.
        -- subst o. destruct (I (fun s' J => SI s' (or_intror J)) ks st2) as (o & st3 & E3 & RO3 & CC3 & G3).
           { eapply root_only_trans; eassumption. } { exact CC2. } { exact KS'. }
           exists o, st3. split; [exact E3|]. split; [exact RO3|]. split; [exact CC3|]. cbn [app]. exact G3.
        -- destruct G2 as (k2 & -> & G2). exists (Some k2), st2. split; [reflexivity|]. split; [eapply root_only_trans; eassumption|].
           split; [exact CC2|]. exists k2. split; [reflexivity|exact G2].
Qed.
