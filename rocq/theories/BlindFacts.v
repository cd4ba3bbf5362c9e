(** What a comparison sees and what it does not see. *)
From Coq Require Import Permutation.
From Verif Require Import Base BaseFacts Util UtilSpec LayoutSpec Types Value Node Parser CellSpec TreeSpec Compare CompareSpec CompareRead CompareFacts CompareTree.

Lemma picks_none {A} (P : A -> Prop) l : picks P l [] <-> Forall (fun x => ~ P x) l.
Proof.
  split.
  - induction l as [|x l IH]; intros H; [constructor|]. inversion H; subst. constructor; [assumption|now apply IH].
  - induction 1; [constructor|now apply picks_drop].
Qed.
Lemma picks_only {A} (P : A -> Prop) l r : picks P l r -> Forall (fun x => ~ P x) l -> r = [].
Proof. induction 1 as [|x a b H K IH|x a b H K IH]; intros F; [reflexivity|..]; inversion F; subst; [contradiction|auto]. Qed.
Lemma contents_in ks w c : In (w, c) (contents ks) <->
  (exists k, In k ks /\ w = (kn_path k, None) /\ c = key_content k)
  \/ exists x, In x (values_in ks) /\ w = value_key x /\ c = value_content (snd x).
Proof.
  unfold contents, values_in. rewrite in_flat_map. split.
  - intros (k & K & [E|I]).
    + injection E as <- <-. left. now exists k.
    + apply in_map_iff in I as (v & E & V). injection E as <- <-. right. exists (kn_path k, v). split; [|now split].
      apply in_flat_map. exists k. split; [exact K|now apply in_map].
  - intros [(k & K & -> & ->)|(x & X & -> & ->)].
    + exists k. split; [exact K|now left].
    + apply in_flat_map in X as (k & K & X). apply in_map_iff in X as (v & <- & V). exists k. split; [exact K|]. right. apply in_map_iff. now exists v.
Qed.
Lemma contents_one ks w a b : NoDup (map fst (contents ks)) -> In (w, a) (contents ks) -> In (w, b) (contents ks) -> a = b.
Proof.
  intros N I J. assert (E : (w, a) = (w, b)) by (apply (nodup_inj fst _ _ _ N I J); reflexivity). now injection E.
Qed.
Lemma where_dec (a b : list N * option (list N)) : {a = b} + {a <> b}.
Proof. repeat (decide equality). Defined.
Lemma content_dec (a b : content) : {a = b} + {a <> b}.
Proof. repeat (decide equality). Defined.
Lemma nil_of {A B} (f : A -> B) l : map f l = [] -> l = [].
Proof. destruct l; [reflexivity|discriminate]. Qed.
Definition same_items (ks1 ks2 : list key_node) : Prop := forall x, In x (contents ks1) <-> In x (contents ks2).
Lemma compared_same ks1 ks2 c : NoDup (map fst (contents ks1)) -> NoDup (map fst (contents ks2)) -> compared ks1 ks2 c ->
  (c = no_changes <-> same_items ks1 ks2).
Proof.
  intros N1 N2 [KA KM (kd & KD & KDP) VA VM (vd & VD & VDP)].
  assert (IN : forall w ks, In w (map fst (contents ks)) -> exists a, In (w, a) (contents ks)).
  { intros w ks I. apply in_map_iff in I as ((w' & a) & <- & I). now exists a. }
  assert (DEC : forall w ks, ~ absent w ks -> exists a, In (w, a) (contents ks)).
  { intros w ks H. destruct (in_dec where_dec w (map fst (contents ks))) as [I|I]; [now apply IN|now elim H]. }
  split.
  - intros ->. cbn [no_changes cg_keys_added cg_keys_modified cg_keys_deleted cg_values_added cg_values_modified cg_values_deleted map] in *.
    apply Permutation_nil in KDP. apply Permutation_nil in VDP. apply nil_of in KDP, VDP. subst.
    apply picks_none in KA, KM, KD, VA, VM, VD. rewrite Forall_forall in KA, KM, KD, VA, VM, VD.
    assert (S21 : forall x, In x (contents ks2) -> In x (contents ks1)).
    { intros (w & a) I. apply contents_in in I as [(k & K & -> & ->)|(x & X & -> & ->)].
      - destruct (DEC _ _ (KA k K)) as (a & A). destruct (content_dec a (key_content k)) as [<-|NE]; [exact A|]. elim (KM k K). now exists a.
      - destruct (DEC _ _ (VA x X)) as (a & A). destruct (content_dec a (value_content (snd x))) as [<-|NE]; [exact A|]. elim (VM x X). now exists a. }
    intros x. split; [|apply S21]. destruct x as (w & a). intros I.
    assert (exists b, In (w, b) (contents ks2)) as (b & B).
    { pose proof I as J. apply contents_in in J as [(k & K & -> & ->)|(x & X & -> & ->)]; apply DEC; [exact (KD k K)|exact (VD x X)]. }
    now rewrite (contents_one ks1 w a b N1 I (S21 _ B)).
  - intros S.
    assert (NA : forall w a, In (w, a) (contents ks2) -> ~ absent w ks1).
    { intros w a I A. apply A. apply S in I. apply in_map_iff. now exists (w, a). }
    assert (NB : forall w a, In (w, a) (contents ks1) -> ~ absent w ks2).
    { intros w a I A. apply A. apply S in I. apply in_map_iff. now exists (w, a). }
    assert (NC : forall w a, In (w, a) (contents ks2) -> ~ changed w a ks1).
    { intros w a I (b & B & NE). apply S in I. apply NE. exact (contents_one ks1 w b a N1 B I). }
    assert (CK : forall ks k, In k ks -> In ((kn_path k, None), key_content k) (contents ks)) by (intros ks k K; apply contents_in; left; now exists k).
    assert (CV : forall ks x, In x (values_in ks) -> In (value_key x, value_content (snd x)) (contents ks)) by (intros ks x X; apply contents_in; right; now exists x).
    apply picks_only in KA; [|apply Forall_forall; intros k K; exact (NA _ _ (CK _ k K))].
    apply picks_only in KM; [|apply Forall_forall; intros k K; exact (NC _ _ (CK _ k K))].
    apply picks_only in KD; [|apply Forall_forall; intros k K; exact (NB _ _ (CK _ k K))].
    apply picks_only in VA; [|apply Forall_forall; intros x X; exact (NA _ _ (CV _ x X))].
    apply picks_only in VM; [|apply Forall_forall; intros x X; exact (NC _ _ (CV _ x X))].
    apply picks_only in VD; [|apply Forall_forall; intros x X; exact (NB _ _ (CV _ x X))].
    subst kd vd. apply Permutation_sym, Permutation_nil, nil_of in KDP. apply Permutation_sym, Permutation_nil, nil_of in VDP. apply nil_of in KM, VM.
    destruct c. cbn in *. now subst.
Qed.
Lemma hives_same order n hash t1 t2 p1 p2 f : compared_hive hash t1 p1 -> compared_hive hash t2 p2 -> (forall q, f = Some q -> below_root q) ->
  (2 * length (positions t1) < n)%nat -> (2 * length (positions t2) < n)%nat -> (forall m, Permutation (order m) m) ->
  exists ks1 ks2 c, iterate n p1 f false true false = Ok ks1 /\ iterate n p2 f false true false = Ok ks2 /\ reg_compare order n p1 p2 f = Ok c
  /\ (no_collision hash ks1 ks2 -> (c = no_changes <-> same_items ks1 ks2)).
Proof.
  intros H1 H2 BR L1 L2 PO. destruct (hives_compared order n hash t1 t2 p1 p2 f H1 H2 BR L1 L2 PO) as (ks1 & ks2 & c & E1 & E2 & S1 & S2 & R & _ & C).
  exists ks1, ks2, c. split; [exact E1|]. split; [exact E2|]. split; [exact R|]. intros NC. apply compared_same; [| |exact (C NC)].
  - destruct H1 as (_ & _ & _ & C1 & D1). exact (contents_nodup _ _ _ C1 D1 (from_listed f t1 D1) S1).
  - destruct H2 as (_ & _ & _ & C2 & D2). exact (contents_nodup _ _ _ C2 D2 (from_listed f t2 D2) S2).
Qed.
