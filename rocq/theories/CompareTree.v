(** The comparison of two hives that hold trees. *)
From Coq Require Import Permutation.
From Verif Require Import Base BaseFacts Util UtilSpec UtilText LayoutSpec Types Value Node Parser TxLog TxSpec CellSpec TreeSpec TreeRead TreeFilter TreeLook TreeUse
  Pure TreeCount TreeSession StoreFacts AnalysisFacts Log Export ExportSpec ExportFacts Compare CompareSpec CompareRead CompareFacts.

(** ** Paths and trees *)
Lemma nodup_inj {A B} (f : A -> B) l x y : NoDup (map f l) -> In x l -> In y l -> f x = f y -> x = y.
Proof.
  induction l as [|a l IH]; intros ND I J E; [contradiction|]. inversion ND as [|? ? NI ND']; subst. destruct I as [<-|I], J as [<-|J]; auto.
  - elim NI. rewrite E. now apply in_map.
  - elim NI. rewrite <- E. now apply in_map.
Qed.
Lemma nodup_app {A} (a b : list A) : NoDup a -> NoDup b -> (forall x, In x a -> ~ In x b) -> NoDup (a ++ b).
Proof.
  induction a as [|x a IH]; intros NA NB D; [exact NB|]. inversion NA; subst. cbn [app]. constructor.
  - intros I. apply in_app_or in I as [I|I]; [contradiction|]. exact (D x (or_introl eq_refl) I).
  - apply IH; auto. intros y Y. apply D. now right.
Qed.
Lemma only_one subs s : NoDup (map (fun s => map fold_case (t_name s)) subs) -> In s subs ->
  List.filter (fun x => same_name (t_name x) (t_name s)) subs = [s].
Proof.
  induction subs as [|a subs IH]; intros ND I; [contradiction|]. inversion ND as [|? ? NI ND']; subst. cbn [List.filter].
  assert (O : forall x, In x subs -> same_name (t_name x) (t_name a) = false).
  { intros x J. unfold same_name. apply beq_neq. intros E. apply NI. rewrite <- E. now apply (in_map (fun s => map fold_case (t_name s))). }
  destruct I as [<-|I].
  - rewrite same_refl. f_equal. clear IH ND ND' NI. induction subs as [|x subs IH]; [reflexivity|]. cbn [List.filter]. rewrite O by now left.
    apply IH. intros; apply O; now right.
  - destruct (same_name (t_name a) (t_name s)) eqn:E; [|now apply IH]. specialize (O s I). unfold same_name in *. apply beq_eq in E. apply beq_neq in O. congruence.
Qed.
Lemma distinct_inv pos name vals subs : distinct (KeyTree pos name vals subs) -> name <> []
  /\ NoDup (map (fun v => map fold_case (v_name v)) vals) /\ NoDup (map (fun s => map fold_case (t_name s)) subs) /\ Forall distinct subs.
Proof. intros D. inversion D; subst. auto. Qed.
Lemma reached_one t : distinct t -> forall above x, In x (preorder above t) ->
  exists more, fst x = above ++ t_name t :: more /\ reached above more t = [x].
Proof.
  induction t as [pos name vals subs IH] using tree_ind'. intros D above x I. apply distinct_inv in D as (_ & _ & ND & F). cbn [preorder t_name] in *.
  destruct I as [<-|I]; [exists []; now split|]. apply in_flat_map in I as (s & S & J). rewrite Forall_forall in IH, F.
  destruct (IH s S (F s S) _ _ J) as (more & E & R). exists (t_name s :: more). split; [rewrite E, <- app_assoc; reflexivity|].
  cbn [reached t_subs t_name]. rewrite only_one by assumption. cbn [flat_map]. now rewrite R, app_nil_r.
Qed.
Lemma preorder_nodup t : distinct t -> forall above, NoDup (map fst (preorder above t)).
Proof.
  induction t as [pos name vals subs IH] using tree_ind'. intros D above. apply distinct_inv in D as (_ & _ & ND & F). cbn [preorder map t_name fst].
  rewrite Forall_forall in IH, F.
  assert (P : forall s x, In s subs -> In x (preorder (above ++ [name]) s) -> exists more, fst x = (above ++ [name]) ++ t_name s :: more).
  { intros s x S X. destruct (reached_one s (F s S) _ _ X) as (more & E & _). eauto. }
  constructor.
  - intros J. apply in_map_iff in J as (x & E & J). apply in_flat_map in J as (s & S & J). destruct (P s x S J) as (more & E').
    rewrite E' in E. apply (f_equal (@length _)) in E. rewrite !app_length in E. cbn in E. lia.
  - set (ab := above ++ [name]) in *. clearbody ab. induction subs as [|s subs IHs]; [constructor|]. cbn [flat_map]. rewrite map_app. apply nodup_app.
    + apply IH; [now left|]. apply F. now left.
    + apply IHs; [intros; apply IH; [now right|assumption]|now inversion ND|intros; apply F; now right|intros; apply (P s0); [now right|assumption]].
    + intros y J1 J2. apply in_map_iff in J1 as (x1 & E1 & J1). apply in_map_iff in J2 as (x2 & E2 & J2). apply in_flat_map in J2 as (s' & S' & J2).
      destruct (P s x1 (or_introl eq_refl) J1) as (m1 & A1). destruct (P s' x2 (or_intror S') J2) as (m2 & A2).
      rewrite <- E2, A2, A1 in E1. apply app_inv_head in E1. injection E1 as E1 _. inversion ND as [|? ? NI _]; subst. apply NI. rewrite E1.
      now apply (in_map (fun s => map fold_case (t_name s))).
Qed.
Lemma preorder_length t : forall above x, In x (preorder above t) -> (length (fst x) <= length above + length (positions t))%nat.
Proof.
  induction t as [pos name vals subs IH] using tree_ind'. intros above x I. cbn [preorder positions t_name] in *.
  destruct I as [<-|I]; [cbn [fst length]; rewrite app_length; cbn; lia|]. apply in_flat_map in I as (s & S & J). rewrite Forall_forall in IH.
  specialize (IH s S _ _ J). rewrite app_length in IH. cbn [length] in *.
  assert (L : (length (positions s) <= length (flat_map positions subs))%nat).
  { clear - S. induction subs as [|a l IHl]; [contradiction|]. cbn [flat_map]. rewrite app_length. destruct S as [->|S]; [lia|]. specialize (IHl S). lia. }
  lia.
Qed.
Lemma skipn_exact {A} (a b : list A) : skipn (length a) (a ++ b) = b.
Proof. induction a; [reflexivity|assumption]. Qed.
Lemma preorder_inside t : forall above x, In x (preorder above t) ->
  (distinct t -> distinct (snd x)) /\ incl (skipn (length above) (fst x)) (all_names t) /\ (distinct t -> Forall (fun n => n <> []) (skipn (length above) (fst x))).
Proof.
  induction t as [pos name vals subs IH] using tree_ind'. intros above x I. cbn [preorder t_name all_names] in *.
  destruct I as [<-|I].
  - cbn [fst snd]. rewrite skipn_app, skipn_all, Nat.sub_diag. cbn [skipn app]. split; [auto|]. split; [intros y [<-|[]]; now left|].
    intros D. apply distinct_inv in D as (N0 & _). now constructor.
  - apply in_flat_map in I as (s & S & J). rewrite Forall_forall in IH. destruct (IH s S _ _ J) as (A & B & C).
    pose proof (TreeFilter.preorder_names s (above ++ [name])) as P. rewrite Forall_forall in P. destruct (P x J) as (more & E).
    assert (SK : skipn (length above) (fst x) = name :: skipn (length (above ++ [name])) (fst x)).
    { rewrite E. rewrite <- (app_assoc (above ++ [name])). rewrite (skipn_exact (above ++ [name])). rewrite <- (app_assoc above). now rewrite skipn_exact. }
    rewrite SK. split; [|split].
    + intros D. apply distinct_inv in D as (_ & _ & _ & F). rewrite Forall_forall in F. auto.
    + intros y [<-|Y]; [now left|]. right. apply in_flat_map. exists s. split; [exact S|]. now apply B.
    + intros D. apply distinct_inv in D as (N0 & _ & _ & F). constructor; [exact N0|]. rewrite Forall_forall in F. auto.
Qed.

Lemma spelled_inj a b : Forall (fun n => ~ In 92 n) a -> Forall (fun n => ~ In 92 n) b -> spelled a = spelled b -> a = b.
Proof. intros A B E. apply (f_equal split_bs) in E. rewrite !split_spelled in E by assumption. now injection E. Qed.
Lemma scalar_spelled names : Forall scalar (spelled names) -> Forall (Forall scalar) names.
Proof.
  induction names as [|n r IH]; intros F; [constructor|]. unfold spelled in *. cbn [flat_map app] in F. inversion F; subst.
  match goal with H : Forall scalar (n ++ _) |- _ => apply Forall_app in H as (F1 & F2) end. constructor; auto.
Qed.

(** ** What is listed *)
Definition from_tree (t : key_tree) (l : list (list (list N) * key_tree)) : Prop :=
  NoDup (map fst l) /\ Forall (fun x => exists s, In (fst x, s) (preorder [] t) /\ exists skip, t_vals (snd x) = if skip : bool then [] else t_vals s) l.
Lemma from_listed f t : distinct t -> from_tree t (listed f t).
Proof.
  intros D. pose proof (preorder_nodup t D []) as ND. destruct f as [q|]; cbn [listed].
  - unfold filtered. split.
    + rewrite map_map. erewrite map_ext by (intros; apply as_listed_names). now apply nodup_filter_fst.
    + apply Forall_forall. intros x J. apply in_map_iff in J as (y & <- & J). apply filter_In in J as (J & _). exists (snd y). rewrite as_listed_names.
      split; [now destruct y|]. unfold as_listed. destruct (fst y) as [|? [|? ?]]; [destruct (_ <? _)|exists false; reflexivity|destruct (_ <? _)];
        [exists true|exists false|exists true|exists false]; rewrite ?strip_vals; try reflexivity; cbn [snd]; apply strip_vals.
  - split; [exact ND|]. apply Forall_forall. intros x J. exists (snd x). split; [now destruct x|]. now exists false.
Qed.
Lemma values_named vs ys : Forall2 value_shown vs ys -> map (fun v => read_utf8 (vd_name (kv_detail v))) vs = map (fun y => Some (v_name y)) ys.
Proof. induction 1 as [|v y vs ys (N0 & _) F IH]; [reflexivity|]. cbn [map]. now rewrite N0, IH. Qed.
Lemma value_names_nodup vs ys : Forall2 value_shown vs ys -> NoDup (map (fun v => map fold_case (v_name v)) ys) -> NoDup (map (fun v => vd_name (kv_detail v)) vs).
Proof.
  intros F ND. apply NoDup_map_inv with (f := read_utf8). rewrite map_map, (values_named _ _ F).
  apply NoDup_map_inv with (f := fun o => match o with Some n => map fold_case n | None => [] end). now rewrite map_map.
Qed.
Lemma shown_in ks l k : shown ks l -> In k ks -> exists x, In x l /\ key_shown k (fst x) (snd x).
Proof. induction 1 as [|k0 x ks l K S IH]; intros I; [contradiction|]. destruct I as [->|I]; [exists x; split; [now left|exact K]|]. destruct (IH I) as (y & Y & E). exists y. split; [now right|exact E]. Qed.
Lemma shown_value vs ys v : Forall2 value_shown vs ys -> In v vs -> exists y, In y ys /\ value_shown v y.
Proof. induction 1 as [|v0 x ks l K S IH]; intros I; [contradiction|]. destruct I as [->|I]; [exists x; split; [now left|exact K]|]. destruct (IH I) as (y & Y & E). exists y. split; [now right|exact E]. Qed.
Lemma shown_value' vs ys y : Forall2 value_shown vs ys -> In y ys -> exists v, In v vs /\ value_shown v y.
Proof. induction 1 as [|v0 x ks l K S IH]; intros I; [contradiction|]. destruct I as [->|I]; [exists v0; split; [now left|exact K]|]. destruct (IH I) as (v & Y & E). exists v. split; [now right|exact E]. Qed.
Lemma shown_names ks l : shown ks l -> map (fun k => read_utf8 (kn_path k)) ks = map (fun x => Some (spelled (fst x))) l.
Proof. induction 1 as [|v y vs ys (_ & _ & N0 & _) F IH]; [reflexivity|]. cbn [map]. now rewrite N0, IH. Qed.
Lemma nodup_map_on {A B} (f : A -> B) l : NoDup l -> (forall x y, In x l -> In y l -> f x = f y -> x = y) -> NoDup (map f l).
Proof.
  induction l as [|x l IH]; intros ND H; [constructor|]. inversion ND; subst. cbn [map]. constructor.
  - intros J. apply in_map_iff in J as (y & E & J). assert (y = x) by (apply H; [now right|now left|exact E]). now subst.
  - apply IH; [assumption|]. intros; apply H; [now right|now right|assumption].
Qed.
Lemma clean_path t x : clean_names t -> In x (preorder [] t) -> Forall (fun n => ~ In 92 n) (fst x).
Proof.
  intros C I. destruct (preorder_inside t [] x I) as (_ & B & _). cbn [length skipn] in B. unfold clean_names in C. rewrite Forall_forall in *. auto.
Qed.
Lemma contents_nodup t ks l : clean_names t -> distinct t -> from_tree t l -> shown ks l -> NoDup (map fst (contents ks)).
Proof.
  intros C D (ND & FT) S0. rewrite Forall_forall in FT.
  assert (NP : NoDup (map kn_path ks)).
  { apply NoDup_map_inv with (f := read_utf8). rewrite map_map, (shown_names _ _ S0).
    assert (M : map (fun x : list (list N) * key_tree => Some (spelled (fst x))) l = map (fun n => Some (spelled n)) (map fst l)) by now rewrite map_map. rewrite M.
    apply nodup_map_on; [exact ND|]. intros a b A B [= E].
    assert (G : forall z, In z (map fst l) -> Forall (fun n => ~ In 92 n) z).
    { intros z Z. apply in_map_iff in Z as (x & <- & Z). destruct (FT x Z) as (s & I & _). exact (clean_path t (fst x, s) C I). }
    apply spelled_inj in E; auto. }
  assert (NV : forall k, In k ks -> NoDup (map (fun v => vd_name (kv_detail v)) (kn_values k))).
  { intros k K. destruct (shown_in _ _ _ S0 K) as (x & X & (_ & _ & _ & V & _)). destruct (FT x X) as (s & I & skip & E). rewrite E in V.
    destruct skip; [inversion V; constructor|]. apply (value_names_nodup _ _ V). destruct (preorder_inside t [] _ I) as (DS & _). specialize (DS D). cbn [snd] in DS.
    destruct s. now apply distinct_inv in DS as (_ & DS & _). }
  clear - NP NV. unfold contents. induction ks as [|k ks IH]; [constructor|]. cbn [flat_map map]. rewrite map_app. inversion NP as [|? ? NI NP']; subst.
  apply nodup_app.
  - cbn [map]. rewrite map_map. constructor.
    + intros J. apply in_map_iff in J as (v & E & _). discriminate E.
    + cbn [fst]. apply NoDup_map_inv with (f := fun w => match snd w with Some n => n | None => [] end). rewrite map_map. cbn [snd]. apply NV. now left.
  - apply IH; [exact NP'|]. intros; apply NV; now right.
  - assert (P1 : forall w, In w (map fst (flat_map (fun k => (kn_path k, None, key_content k) :: map (fun v => (kn_path k, Some (vd_name (kv_detail v)), value_content v)) (kn_values k)) ks)) -> In (fst w) (map kn_path ks)).
    { intros w J. apply in_map_iff in J as (e & <- & J). apply in_flat_map in J as (k' & K & [<-|J]); [cbn [fst]; now apply in_map|]. apply in_map_iff in J as (v & <- & _). cbn [fst]. now apply in_map. }
    cbn [map]. intros w [<-|J] J2; apply NI; apply P1 in J2; [exact J2|]. rewrite map_map in J. apply in_map_iff in J as (v & <- & _). exact J2.
Qed.

(** ** The two hives *)
Lemma hive_session hash t p : compared_hive hash t p -> exists buffer files, session buffer files t p.
Proof.
  intros ((order & fuel & full & buffer & files & K & B) & H & R & C & D). exists buffer, files. apply session_starts; [|exact C|exact R].
  split; [exact K|]. split; [exact H|]. now exists order, fuel, hash, full.
Qed.
Lemma hive_listed hash t p f n : compared_hive hash t p -> (forall q, f = Some q -> below_root q) -> (2 * length (positions t) < n)%nat ->
  exists ks, iterate n p f false true false = Ok ks /\ shown ks (listed f t) /\ Forall (sealed hash) ks.
Proof.
  intros CH BR L. pose proof CH as ((order & fuel & full & buffer & files & K & B) & H & R & C & D).
  assert (X : exists ks, iterate n p f false true false = Ok ks /\ shown ks (listed f t)).
  { destruct (hive_session _ _ _ CH) as (b & fs & S0). destruct f as [q|]; cbn [listed].
    - apply (session_filter b fs); [exact S0|now apply BR|lia].
    - destruct (session_opened _ _ _ _ S0) as (O & _). now destruct (opened_iterate t p false true n O L) as (Y & _). }
  destruct X as (ks & E & S0). exists ks. split; [exact E|]. split; [exact S0|].
  eapply iterate_sealed; [exact K|exact B|exact (proj1 H)| |exact E].
  destruct (hive_session _ _ _ CH) as (b & fs & S1). destruct (session_opened _ _ _ _ S1) as (O & _). destruct (od_root _ _ O) as (k & E1 & _). congruence.
Qed.
Lemma hive_key t p buffer files n names s : session buffer files t p -> distinct t -> (length (positions t) <= n)%nat ->
  In (names, s) (preorder [] t) -> Forall scalar (spelled names) ->
  exists k p', original_key n p (utf8 (spelled names)) = Ok (k, p') /\ session buffer files t p' /\ key_shown k names s.
Proof.
  intros S0 D L I SC. pose proof S0 as (C & _). pose proof (preorder_length t [] _ I) as LN. cbn [fst length] in LN.
  pose proof (preorder_inside t [] _ I) as (_ & _ & NE). cbn [length skipn fst] in NE. specialize (NE D).
  destruct (reached_one t D [] _ I) as (more & E & R). cbn [fst app] in E.
  pose proof (clean_path t _ C I) as CL. cbn [fst] in CL.
  assert (NN : names <> []) by (rewrite E; discriminate).
  destruct (session_get_key buffer files t p 1 names 0 true n S0) as (o & p' & G & S1 & O).
  { split; [now apply scalar_spelled|]. split; [exact CL|]. rewrite Forall_forall in NE. split.
    - destruct names; [discriminate|]. intros [= ->]. now apply (NE []); [left|].
    - intros X. assert (J : In [] names) by (apply in_rev; destruct (rev names); [discriminate|]; injection X as ->; now left). now apply (NE []). }
  { intros; lia. } { lia. }
  cbn [repeat app] in G. rewrite app_nil_r, <- spelled_joined in G by exact NN. rewrite E in O. cbn [tl] in O. rewrite R in O. cbn [hd_error] in O.
  destruct O as (k & -> & K). exists k, p'. unfold original_key. rewrite G. split; [reflexivity|]. split; [exact S1|exact K].
Qed.
Lemma shown_path k names s : key_shown k names s -> kn_path k = utf8 (spelled names) /\ Forall scalar (spelled names).
Proof. intros (_ & _ & P & _). apply read_utf8_exact in P as (A & B). now split. Qed.
Lemma hives_compared order n hash t1 t2 p1 p2 f :
  compared_hive hash t1 p1 -> compared_hive hash t2 p2 -> (forall q, f = Some q -> below_root q) ->
  (2 * length (positions t1) < n)%nat -> (2 * length (positions t2) < n)%nat ->
  (forall m, Permutation (order m) m) ->
  exists ks1 ks2 c, iterate n p1 f false true false = Ok ks1 /\ iterate n p2 f false true false = Ok ks2
  /\ shown ks1 (listed f t1) /\ shown ks2 (listed f t2) /\ reg_compare order n p1 p2 f = Ok c /\ originals t1 c
  /\ (no_collision hash ks1 ks2 -> compared ks1 ks2 c).
Proof.
  intros H1 H2 BR L1 L2 PO.
  destruct (hive_listed _ _ _ f n H1 BR L1) as (ks1 & E1 & S1 & Z1). destruct (hive_listed _ _ _ f n H2 BR L2) as (ks2 & E2 & S2 & Z2).
  destruct (hive_session _ _ _ H1) as (b & fs & SE). destruct H1 as (_ & _ & _ & C1 & D1), H2 as (_ & _ & _ & C2 & D2).
  pose proof (from_listed f t1 D1) as F1. pose proof (from_listed f t2 D2) as F2.
  pose proof (contents_nodup _ _ _ C1 D1 F1 S1) as N1. pose proof (contents_nodup _ _ _ C2 D2 F2 S2) as N2.
  destruct F1 as (_ & F1). rewrite Forall_forall in F1.
  assert (IN : forall k, In k ks1 -> exists names s, In (names, s) (preorder [] t1) /\ kn_path k = utf8 (spelled names) /\ Forall scalar (spelled names)
    /\ forall v, In v (kn_values k) -> exists y, In y (t_vals s) /\ value_shown v y).
  { intros k K. destruct (shown_in _ _ _ S1 K) as (x & X & KS). destruct (F1 x X) as (s & I & skip & V). exists (fst x), s. split; [exact I|].
    destruct (shown_path _ _ _ KS) as (P & SC). split; [exact P|]. split; [exact SC|]. intros v J. destruct KS as (_ & _ & _ & VS & _). rewrite V in VS.
    destruct skip; [inversion VS as [E0|]; rewrite <- E0 in J; contradiction|]. exact (shown_value _ _ _ VS J). }
  destruct (compare_whole n order hash (session b fs t1) (old_key t1) (old_value t1) ks1 ks2 PO Z1 Z2 N1 N2) with (p1 := p1) (p2 := p2) (f := f)
    as (c & R & CM & O1 & O2 & O3 & O4).
  - intros p path S0 K. rewrite contents_keys in K. apply in_map_iff in K as (i & E & J). apply in_items in J. destruct i as [k|k v]; [|discriminate E].
    injection E as <-. destruct (IN k J) as (names & s & I & P & SC & _). rewrite P.
    destruct (hive_key t1 p b fs n names s S0 D1 ltac:(lia) I SC) as (k' & p' & G & S' & KS). exists k', p'. split; [exact G|]. split; [exact S'|].
    split; [now destruct (shown_path _ _ _ KS)|]. exists (names, s). now split.
  - intros p path name S0 K. rewrite contents_keys in K. apply in_map_iff in K as (i & E & J). apply in_items in J. destruct i as [k|k v]; [discriminate E|].
    injection E as <- <-. destruct J as (J & JV). destruct (IN k J) as (names & s & I & P & SC & VS). rewrite P. destruct (VS v JV) as (y & Y & (YN & _)).
    destruct (hive_key t1 p b fs n names s S0 D1 ltac:(lia) I SC) as (k' & p' & G & S' & KS). destruct (shown_path _ _ _ KS) as (P' & _).
    apply read_utf8_exact in YN as (YS & YN). rewrite YN. pose proof KS as (_ & _ & _ & VK & _).
    destruct (preorder_inside t1 [] _ I) as (DS & _). specialize (DS D1). cbn [snd] in DS.
    assert (NV : NoDup (map (fun v => map fold_case (v_name v)) (t_vals s))) by (destruct s; now apply distinct_inv in DS as (_ & DS & _)).
    pose proof (get_value_first k' (utf8 (v_name y))) as GV. destruct (get_value k' (utf8 (v_name y))) as [v'|] eqn:GE.
    + destruct GV as (bf & af & EV & SN & _). destruct (shown_value _ _ v' VK) as (y' & Y' & VS'); [rewrite EV; apply in_or_app; right; now left|].
      pose proof VS' as (YN' & _). apply read_utf8_exact in YN' as (YS' & YN'). rewrite YN' in SN. rewrite same_name_utf8 in SN by assumption.
      unfold same_name in SN. apply beq_eq in SN. assert (y' = y) by exact (nodup_inj _ _ _ _ NV Y' Y SN). subst y'.
      exists k', p', v'. split; [exact G|]. split; [exact S'|]. split; [exact P'|]. split; [exact GE|]. split; [exact YN'|].
      exists (names, s), y. cbn [fst snd]. split; [exact I|]. split; [now apply read_utf8_utf8|]. now split.
    + destruct (shown_value' _ _ y VK Y) as (v' & V' & (VN & _)). rewrite Forall_forall in GV. specialize (GV v' V').
      apply read_utf8_exact in VN as (_ & VN). rewrite VN in GV. unfold same_name in GV. now rewrite beq_refl in GV.
  - now intros path k (E & _).
  - now intros path name v (E & _).
  - exact SE.
  - exact E1.
  - exact E2.
  - exists ks1, ks2, c. repeat (split; [assumption|]). split; [now split|exact CM].
Qed.
