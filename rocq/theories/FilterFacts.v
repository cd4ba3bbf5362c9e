(** What a filter that is put together from calls selects. *)
From Coq Require Import String.
From Verif Require Import Base BaseFacts Util UtilSpec UtilText LayoutSpec Types Value Node Log Parser CellSpec TreeSpec TreeFilter TreeLook TreeUse TreeCount
  TreeOpen TreeSession PartFacts CompareSpec FilterBuild FilterSpec.

(** The component that a piece becomes. *)
Definition made (compile : regex_library) (p : piece) (c : component) : Prop :=
  match p with
  | Name n => Forall scalar n /\ c = lit n
  | Matching s => exists r, compile (map fold_case s) = inl r /\ c = ComponentRegex r
  end.
Lemma lower_map s : to_lower s = map fold_case s.
Proof. reflexivity. Qed.
Lemma trimmed a seg b : Forall scalar seg -> ~ In 92 seg -> trim_end_bs (trim_start_bs (utf8 (repeat 92 a ++ seg ++ repeat 92 b))) = utf8 seg.
Proof.
  intros S C. rewrite !utf8_app, !utf8_repeat, trim_start_repeat. destruct seg as [|x seg].
  - cbn [utf8 flat_map app]. rewrite <- (app_nil_r (repeat 92 b)), trim_start_repeat. reflexivity.
  - destruct (utf8_first (x :: seg) S C) as (c & w & W & NC); [discriminate|].
    destruct (utf8_last (x :: seg) S C) as (w' & c' & W' & NC'); [discriminate|].
    rewrite W. cbn [app]. rewrite trim_start_keep by exact NC. change (c :: w ++ repeat 92 b) with ((c :: w) ++ repeat 92 b). rewrite <- W, W'.
    now apply trim_end_keep.
Qed.
Lemma add_path_form q path : rq_path (add_key_path q path) = rq_path q ++ rq_path (add_key_path empty_query path).
Proof. reflexivity. Qed.
Lemma call_made compile calls pss : Forall2 says calls pss -> refused compile calls = [] -> forall b comps pieces,
  fb_errors b = [] -> Forall2 (made compile) pieces comps -> rq_path (fb_query b) = comps ->
  let b' := fold_left (filter_called compile) calls b in
  fb_errors b' = [] /\ Forall2 (made compile) (pieces ++ concat pss) (rq_path (fb_query b'))
  /\ rq_has_root (fb_query b') = fold_left (fun on c => match root_flag c with Some x => x | None => on end) calls (rq_has_root (fb_query b))
  /\ rq_children (fb_query b') = fold_left (fun on c => match children_flag c with Some x => x | None => on end) calls (rq_children (fb_query b)).
Proof.
  intros F. induction F as [|c ps calls pss S F IH]; intros R b comps pieces E M P.
  - cbn [fold_left concat]. rewrite app_nil_r, P. auto.
  - cbn [refused flat_map] in R. apply app_eq_nil in R as (R1 & R). specialize (IH R).
    cbn [fold_left concat]. rewrite app_assoc.
    assert (X : fb_errors (filter_called compile b c) = [] /\ Forall2 (made compile) (pieces ++ ps) (rq_path (fb_query (filter_called compile b c)))).
    { destruct S as [segs n PN NE|a seg n SC NB|s|on|on]; cbn [filter_called fb_errors fb_query].
      - split; [exact E|]. rewrite add_path_form, P. apply Forall2_app; [exact M|].
        destruct PN as (SC & CL & _ & L). rewrite literal_components by (auto; now split).
        clear -SC. induction SC as [|x l H SC IH]; [constructor|]. cbn [map]. constructor; [|exact IH]. now split.
      - split; [exact E|]. cbn [add_literal_segment rq_path]. rewrite P. apply Forall2_app; [exact M|]. constructor; [|constructor].
        rewrite trimmed by assumption. split; [exact SC|]. unfold lit. f_equal. now apply lower_utf8.
      - rewrite lower_map. destruct (compile (map fold_case s)) as [r|e] eqn:C; [|discriminate R1]. cbn [fb_errors fb_query]. split; [exact E|].
        cbn [add_regex_segment rq_path]. rewrite P. apply Forall2_app; [exact M|]. constructor; [|constructor]. now exists r.
      - split; [exact E|]. cbn [with_has_root rq_path]. rewrite app_nil_r, P. exact M.
      - split; [exact E|]. cbn [with_children rq_path]. rewrite app_nil_r, P. exact M. }
    destruct X as (E' & M'). destruct (IH _ _ _ E' M' eq_refl) as (A & B & C & D). repeat (split; [assumption|]).
    rewrite C, D. destruct S; cbn [filter_called fb_query root_flag children_flag]; try (split; reflexivity).
    destruct (compile (to_lower s)); split; reflexivity.
Qed.
Lemma call_errors compile calls : forall b, fb_errors (fold_left (filter_called compile) calls b) = fb_errors b ++ refused compile calls.
Proof.
  induction calls as [|c calls IH]; intros b; [cbn; now rewrite app_nil_r|]. cbn [fold_left refused flat_map]. rewrite IH.
  destruct c; cbn [filter_called fb_errors app]; try reflexivity. rewrite lower_map.
  destruct (compile (map fold_case regex)); cbn [fb_errors app]; [reflexivity|]. now rewrite <- app_assoc.
Qed.
Lemma made_fits compile p c name : made compile p c -> Forall scalar name -> seg_match c name = true <-> fits compile p name.
Proof.
  intros M S. destruct p as [n|s]; cbn [made fits] in *.
  - destruct M as (SN & ->). rewrite lit_match by assumption. unfold same_name. rewrite beq_eq. now split.
  - destruct M as (r & E & ->). rewrite E. reflexivity.
Qed.
Lemma all_fit compile ps : forall cs names, Forall2 (made compile) ps cs -> Forall (Forall scalar) names -> List.length names = List.length ps ->
  forallb (fun x => seg_match (fst x) (snd x)) (combine cs names) = true <-> Forall2 (fits compile) ps names.
Proof.
  induction ps as [|p ps IH]; intros cs names M S L; destruct names as [|n names]; try discriminate L; inversion M as [|? c ? cs' H M' E1 E2]; subst.
  - split; [constructor|reflexivity].
  - apply Forall_cons_iff in S as (S1 & S). cbn [combine forallb fst snd]. rewrite andb_true_iff, (made_fits compile p c n H S1), (IH cs' names M' S) by (cbn in L; lia).
    split; [intros (A & B); now constructor|]. intros X. inversion X; subst. auto.
Qed.
Lemma combine_front {A B} (a : list A) : forall (b c : list B), List.length b = List.length a -> combine a (b ++ c) = combine a b.
Proof. induction a as [|x a IH]; intros [|y b] c L; try discriminate L; [reflexivity|]. cbn. rewrite IH; [reflexivity|]. cbn in L. lia. Qed.
Lemma combine_back {A B} (a c : list A) : forall (b : list B), List.length b = List.length a -> combine (a ++ c) b = combine a b.
Proof. induction a as [|x a IH]; intros [|y b] L; try discriminate L; [destruct c; reflexivity|]. cbn. rewrite IH; [reflexivity|]. cbn in L. lia. Qed.
Lemma select_chosen compile pieces q ancestors names : Forall2 (made compile) pieces (rq_path q) -> names <> [] -> Forall (Forall scalar) names ->
  selected q ancestors names = true <-> chosen compile pieces (rq_has_root q) (rq_children q) ancestors names.
Proof.
  intros M NE S. pose proof (Forall2_length _ _ _ M) as LM. destruct names as [|r [|x names]]; [contradiction| |].
  - cbn [selected]. split; [intros A; exact (chosen_root _ _ _ _ _ _ r eq_refl A)|]. intros [z E A|L|? ? L|? ? L]; [exact A| | |]; cbn in L; lia.
  - set (N := r :: x :: names) in *.
    assert (SG : segments q N = compared_names (rq_has_root q) N) by reflexivity.
    assert (SS : Forall (Forall scalar) (compared_names (rq_has_root q) N)).
    { unfold compared_names. destruct (rq_has_root q); [constructor; [constructor|exact S]|]. unfold N in *. cbn [tl]. now apply Forall_cons_iff in S. }
    assert (L2 : (2 <= List.length N)%nat) by (cbn; lia).
    change (selected q ancestors N) with (agrees q N && (if len (segments q N) =? len (rq_path q) then true
      else if len (segments q N) <? len (rq_path q) then ancestors else rq_children q)).
    unfold agrees. rewrite SG. set (C := compared_names (rq_has_root q) N) in *. rewrite andb_true_iff. unfold len. rewrite <- LM.
    destruct (N.eqb_spec (N.of_nat (List.length C)) (N.of_nat (List.length pieces))) as [E|E].
    + assert (EL : List.length C = List.length pieces) by lia. rewrite (all_fit compile pieces _ C M SS EL). split.
      * intros (F & _). now apply chosen_at.
      * intros [z EZ _|_ F|f t _ D NT F _|f t _ D NT F _]; [unfold N in EZ; discriminate| now split| |]; exfalso.
        -- apply Forall2_length in F. fold C in D. rewrite D, app_length in EL. destruct t; [contradiction|]. cbn in EL. lia.
        -- apply Forall2_length in F. fold C in F. rewrite D, app_length in EL. destruct t; [contradiction|]. cbn in EL. lia.
    + destruct (N.ltb_spec (N.of_nat (List.length C)) (N.of_nat (List.length pieces))) as [H|H].
      * assert (HL : (List.length C < List.length pieces)%nat) by lia.
        pose proof (firstn_skipn (List.length C) pieces) as FS.
        assert (FL : List.length (firstn (List.length C) pieces) = List.length C) by (rewrite firstn_length; lia).
        rewrite <- FS in M. apply Forall2_app_inv_l in M as (c1 & c2 & M1 & M2 & EC). rewrite EC.
        pose proof (Forall2_length _ _ _ M1) as L1. rewrite combine_back by lia. rewrite (all_fit compile _ c1 C M1 SS) by lia. split.
        -- intros (F & A). apply (chosen_above _ _ _ _ _ _ (firstn (List.length C) pieces) (skipn (List.length C) pieces) L2); auto.
           intros Z. apply f_equal with (f := @List.length _) in Z. rewrite skipn_length in Z. cbn in Z. lia.
        -- intros [z EZ _|_ F|f t _ D NT F _|f t _ D NT F A]; [unfold N in EZ; discriminate| | |].
           ++ apply Forall2_length in F. fold C in F. lia.
           ++ apply Forall2_length in F. fold C in D. rewrite D, app_length in HL. lia.
           ++ fold C in F. pose proof (Forall2_length _ _ _ F) as LF. split; [|exact A].
              rewrite D, firstn_app, firstn_all2, <- LF, Nat.sub_diag, app_nil_r by lia. exact F.
      * assert (HL : (List.length pieces < List.length C)%nat) by lia.
        pose proof (firstn_skipn (List.length pieces) C) as FS.
        assert (FL : List.length (firstn (List.length pieces) C) = List.length pieces) by (rewrite firstn_length; lia).
        rewrite <- FS at 1. rewrite combine_front by lia.
        assert (S1 : Forall (Forall scalar) (firstn (List.length pieces) C)) by (rewrite <- FS in SS; now apply Forall_app in SS).
        rewrite (all_fit compile pieces _ _ M S1 FL). split.
        -- intros (F & A). apply (chosen_below _ _ _ _ _ _ (firstn (List.length pieces) C) (skipn (List.length pieces) C) L2); auto.
           intros Z. apply f_equal with (f := @List.length _) in Z. rewrite skipn_length in Z. cbn in Z. lia.
        -- intros [z EZ _|_ F|f t _ D NT F A|f t _ D NT F A]; [unfold N in EZ; discriminate| | |].
           ++ apply Forall2_length in F. fold C in F. lia.
           ++ fold C in D. pose proof (Forall2_length _ _ _ F) as LF. split; [|exact A]. rewrite D, firstn_app, LF, firstn_all, Nat.sub_diag, app_nil_r. exact F.
           ++ apply Forall2_length in F. fold C in F. rewrite D, app_length in HL. lia.
Qed.
Lemma filter_picks {A} (f : A -> bool) (P : A -> Prop) l : Forall (fun x => f x = true <-> P x) l -> picks P l (List.filter f l).
Proof.
  induction 1 as [|x l H F IH]; [constructor|]. cbn [List.filter]. destruct (f x) eqn:E.
  - apply picks_keep; [now apply H|exact IH].
  - apply picks_drop; [|exact IH]. intros X. apply H in X. congruence.
Qed.
Lemma listed_shown compile pieces q x : Forall2 (made compile) pieces (rq_path q) -> fst x <> [] -> shown_as pieces (rq_has_root q) x (as_listed q x).
Proof.
  intros M NE. pose proof (Forall2_length _ _ _ M) as LM. unfold shown_as, as_listed. destruct x as ([|a [|b names]] & t); cbn [fst snd] in *; [contradiction| |].
  - split; [reflexivity|]. right. split; [cbn; lia|reflexivity].
  - change (segments q (a :: b :: names)) with (compared_names (rq_has_root q) (a :: b :: names)). unfold len. rewrite <- LM.
    destruct (N.ltb_spec (N.of_nat (List.length (compared_names (rq_has_root q) (a :: b :: names)))) (N.of_nat (List.length pieces))) as [H|H]; cbn [fst snd].
    + split; [reflexivity|]. left. split; [cbn; lia|]. split; [lia|reflexivity].
    + split; [reflexivity|]. right. split; [lia|reflexivity].
Qed.
(** A filter put together from calls, used on a hive. *)
Lemma made_filter compile calls pss : Forall2 says calls pss -> refused compile calls = [] ->
  (if setting root_flag calls then 3 <= List.length (concat pss) else 1 <= List.length (concat pss))%nat ->
  exists q, make_filter compile calls = inl q
  /\ forall buffer files t p ancestors m n, session buffer files t p -> (List.length (positions t) < n)%nat ->
     exists ks l seen, iterate n p (Some q) ancestors m false = Ok ks /\ shown ks seen
     /\ picks (fun x => chosen compile (concat pss) (setting root_flag calls) (setting children_flag calls) ancestors (fst x)) (preorder [] t) l
     /\ Forall2 (shown_as (concat pss) (setting root_flag calls)) l seen.
Proof.
  intros F R BR. destruct (call_made compile calls pss F R filter_new [] [] eq_refl (Forall2_nil _) eq_refl) as (E & M & HR & HC).
  cbn [app] in M. set (q := fb_query (fold_left (filter_called compile) calls filter_new)) in *.
  change (rq_has_root (fb_query filter_new)) with false in HR. change (rq_children (fb_query filter_new)) with false in HC.
  change (rq_has_root q = setting root_flag calls) in HR. change (rq_children q = setting children_flag calls) in HC.
  exists q. split; [unfold make_filter, filter_build; now rewrite E|].
  intros buffer files t p ancestors m n S L. pose proof (Forall2_length _ _ _ M) as LM.
  destruct (session_filter buffer files t p q ancestors m n S) as (ks & I & SH); [|exact L|].
  { unfold below_root. rewrite HR. unfold len. rewrite <- LM. destruct (setting root_flag calls); lia. }
  apply session_opened in S as (O & _). pose proof (tree_scalar t p O) as TS.
  exists ks, (List.filter (fun x => selected q ancestors (fst x)) (preorder [] t)), (filtered q ancestors (preorder [] t)).
  split; [exact I|]. split; [exact SH|]. rewrite <- HR, <- HC. split.
  - apply filter_picks. eapply Forall_impl; [|exact TS]. intros x (SC & NE). now apply select_chosen.
  - unfold filtered. assert (NE : Forall (fun x => fst x <> []) (List.filter (fun x => selected q ancestors (fst x)) (preorder [] t))).
    { apply Forall_forall. intros x I'. apply filter_In in I' as (I' & _). rewrite Forall_forall in TS. now apply TS. }
    clear -NE M. induction NE as [|x l H NE IH]; [constructor|]. cbn [map]. constructor; [|exact IH]. now apply (listed_shown compile).
Qed.
Lemma refused_filter compile calls : refused compile calls <> [] ->
  make_filter compile calls = inr (text "Regex errors encountered: " ++ join_texts (text ", ") (refused compile calls)).
Proof.
  intros R. unfold make_filter, filter_build. rewrite call_errors. cbn [filter_new fb_errors app].
  destruct (refused compile calls); [contradiction|reflexivity].
Qed.
