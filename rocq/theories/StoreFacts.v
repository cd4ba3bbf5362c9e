(** Proofs about the stores. *)
From Verif Require Import Base BaseFacts Types Node Recover StoreSpec.

Section Map.
Context {K : Type} (eqb : K -> K -> bool) (EQ : forall a b, eqb a b = true <-> a = b).
Lemma eqb_same a : eqb a a = true. Proof. now apply EQ. Qed.
Lemma eqb_other a b : a <> b -> eqb a b = false.
Proof. intros N. destruct (eqb a b) eqn:E; [now apply EQ in E|reflexivity]. Qed.
Lemma eqb_not a b : eqb a b = false -> a <> b.
Proof. intros E ->. now rewrite eqb_same in E. Qed.
Lemma aget_aset {A} k k' (v : A) m : aget eqb k (aset eqb k' v m) = if eqb k k' then Some v else aget eqb k m.
Proof.
  induction m as [|[x y] m IH]; [reflexivity|]. cbn [aset]. destruct (eqb k' x) eqn:E.
  - apply EQ in E as ->. cbn [aget]. now destruct (eqb k x).
  - cbn [aget]. rewrite IH. destruct (eqb k x) eqn:F, (eqb k k') eqn:G; try reflexivity.
    apply EQ in F, G. subst. now rewrite eqb_same in E.
Qed.
Lemma aget_in {A} k (v : A) m : aget eqb k m = Some v -> In (k, v) m.
Proof.
  induction m as [|[x y] m IH]; [discriminate|]. cbn [aget]. destruct (eqb k x) eqn:E; [apply EQ in E as ->; intros [= ->]; now left|right; auto].
Qed.
Lemma in_aget {A} k (v : A) m : NoDup (map fst m) -> In (k, v) m -> aget eqb k m = Some v.
Proof.
  induction m as [|[x y] m IH]; [easy|]. intros D. inversion D; subst. intros [[= -> ->]|I]; cbn [aget].
  - now rewrite eqb_same.
  - rewrite eqb_other; [auto|]. intros ->. apply H1. now apply (in_map fst) in I.
Qed.
Lemma aget_none {A} k (m : amap K A) : aget eqb k m = None <-> ~ In k (map fst m).
Proof.
  induction m as [|[x y] m IH]; [easy|]. cbn [aget map fst]. destruct (eqb k x) eqn:E.
  - apply EQ in E as ->. split; [discriminate|intros H; elim H; now left].
  - apply eqb_not in E. rewrite IH. split; [intros H [J|J]; [congruence|auto]|intros H J; apply H; now right].
Qed.
Lemma aset_keys {A} k (v : A) m x : In x (map fst (aset eqb k v m)) <-> x = k \/ In x (map fst m).
Proof.
  induction m as [|[y z] m IH]; [cbn; intuition|]. cbn [aset]. destruct (eqb k y) eqn:E.
  - apply EQ in E as ->. cbn. intuition.
  - cbn [map fst In]. rewrite IH. intuition.
Qed.
Lemma aset_nodup {A} k (v : A) m : NoDup (map fst m) -> NoDup (map fst (aset eqb k v m)).
Proof.
  induction m as [|[y z] m IH]; intros D; [repeat constructor; easy|]. cbn [aset]. inversion D; subst. destruct (eqb k y) eqn:E.
  - apply EQ in E as ->. now constructor.
  - cbn [map fst]. constructor; [|auto]. rewrite aset_keys. intros [->|I]; [now rewrite eqb_same in E|auto].
Qed.
Lemma adel_keys {A} k (m : amap K A) x : In x (map fst (adel eqb k m)) -> In x (map fst m).
Proof. induction m as [|[y z] m IH]; [easy|]. cbn [adel]. destruct (eqb k y); cbn; intuition. Qed.
Lemma adel_nodup {A} k (m : amap K A) : NoDup (map fst m) -> NoDup (map fst (adel eqb k m)).
Proof.
  induction m as [|[y z] m IH]; intros D; [constructor|]. cbn [adel]. inversion D; subst. destruct (eqb k y); [assumption|].
  cbn [map fst]. constructor; [|auto]. intros I. now apply adel_keys in I.
Qed.
Lemma aget_adel {A} k k' (m : amap K A) : NoDup (map fst m) -> aget eqb k (adel eqb k' m) = if eqb k k' then None else aget eqb k m.
Proof.
  induction m as [|[x y] m IH]; intros D; [now destruct (eqb k k')|]. inversion D; subst. cbn [adel]. destruct (eqb k' x) eqn:E.
  - apply EQ in E as ->. cbn [aget]. destruct (eqb k x) eqn:F; [|reflexivity]. apply EQ in F as ->. now apply aget_none.
  - cbn [aget]. rewrite IH by assumption. destruct (eqb k x) eqn:F, (eqb k k') eqn:G; try reflexivity.
    apply EQ in F, G. subst. now rewrite eqb_same in E.
Qed.
Lemma held_aset {A} k k' (l : list A) m : held eqb k (aset eqb k' l m) = if eqb k k' then l else held eqb k m.
Proof. unfold held. rewrite aget_aset. now destruct (eqb k k'). Qed.
Lemma held_push {A} k k' (x : A) m : held eqb k (map_push eqb k' x m) = if eqb k k' then held eqb k m ++ [x] else held eqb k m.
Proof.
  unfold map_push. destruct (aget eqb k' m) as [l|] eqn:E; rewrite held_aset; destruct (eqb k k') eqn:F; try reflexivity;
    apply EQ in F as ->; unfold held; now rewrite E.
Qed.
Lemma push_nodup {A} k (x : A) m : NoDup (map fst m) -> NoDup (map fst (map_push eqb k x m)).
Proof. unfold map_push. destruct (aget eqb k m); apply aset_nodup. Qed.
Lemma entries_app {A} k (s t : entries K A) : entries_under eqb k (s ++ t) = entries_under eqb k s ++ entries_under eqb k t.
Proof. unfold entries_under. now rewrite filter_app, map_app. Qed.
(** Taking out: the list under the key loses its first match, others nothing. *)
Lemma take_out_under {A} k k' t (s : entries K A) :
  entries_under eqb k (take_out eqb k' t s) =
  if eqb k k' then match remove_first t (entries_under eqb k s) with Some r => r | None => entries_under eqb k s end
  else entries_under eqb k s.
Proof.
  induction s as [|[x a] s IH]; [now destruct (eqb k k')|]. cbn [take_out fst snd].
  unfold entries_under in *. cbn [List.filter fst]. destruct (eqb k' x) eqn:E.
  - apply EQ in E as ->. destruct (t a) eqn:T; cbn [andb].
    + destruct (eqb k x) eqn:F; [|reflexivity]. cbn [map snd remove_first]. now rewrite T.
    + cbn [List.filter fst]. destruct (eqb k x) eqn:F; [|exact IH]. cbn [map snd remove_first]. rewrite IH, T.
      now destruct (remove_first t _).
  - cbn [andb List.filter fst]. destruct (eqb k x) eqn:F; [|exact IH]. cbn [map snd]. rewrite IH.
    destruct (eqb k k') eqn:G; [|reflexivity]. apply EQ in F, G. subst. now rewrite eqb_same in E.
Qed.
Lemma take_out_none {A} k t (s : entries K A) : remove_first t (entries_under eqb k s) = None -> take_out eqb k t s = s.
Proof.
  induction s as [|[x a] s IH]; [reflexivity|]. unfold entries_under. cbn [take_out List.filter fst snd].
  destruct (eqb k x) eqn:E; cbn [andb map snd remove_first]; [|intros H; f_equal; now apply IH].
  destruct (t a) eqn:T; [discriminate|]. fold (entries_under eqb k s).
  destruct (remove_first t (entries_under eqb k s)) eqn:R; [discriminate|]. intros _. f_equal. now apply IH.
Qed.
End Map.

Lemma beq_iff a b : beq a b = true <-> a = b. Proof. apply beq_eq. Qed.
Lemma pair_iff a b : pair_eqb a b = true <-> a = b.
Proof. destruct a, b. unfold pair_eqb. cbn [fst snd]. rewrite andb_true_iff, !beq_eq. split; [intros [-> ->]; reflexivity|now intros [= -> ->]]. Qed.

(** ** Additions only *)
Lemma adds_held {K A} eqb (EQ : forall a b : K, eqb a b = true <-> a = b) (l : entries K A) : forall m k,
  held eqb k (fold_left (fun m e => map_push eqb (fst e) (snd e) m) l m) = held eqb k m ++ entries_under eqb k l.
Proof.
  induction l as [|[x a] l IH]; intros m k; cbn [fold_left fst snd]; [symmetry; apply app_nil_r|].
  rewrite IH, held_push by exact EQ. unfold entries_under. cbn [List.filter fst]. destruct (eqb k x); [|reflexivity].
  cbn [map snd]. now rewrite <- app_assoc.
Qed.

(** ** Deleted values *)
Definition sound {K A} (eqb : K -> K -> bool) (m : amap K (list A)) (s : entries K A) : Prop :=
  NoDup (map fst m) /\ forall k, held eqb k m = entries_under eqb k s.
Lemma held_remove_values path name hash m k : NoDup (map fst m) ->
  NoDup (map fst (deleted_values_remove path name hash m))
  /\ held beq k (deleted_values_remove path name hash m) =
     if beq k path then match remove_first (same_value name hash) (held beq k m) with Some r => r | None => held beq k m end
     else held beq k m.
Proof.
  intros D. unfold deleted_values_remove. fold (same_value name hash). destruct (aget beq path m) as [l|] eqn:G.
  - destruct (remove_first (same_value name hash) l) as [r|] eqn:R.
    + assert (D' : NoDup (map fst (aset beq path r m))) by now apply aset_nodup; [apply beq_iff|].
      destruct r as [|x r].
      * split; [now apply adel_nodup|]. unfold held at 1. rewrite aget_adel by (exact beq_iff || exact D').
        rewrite aget_aset by exact beq_iff. destruct (beq k path) eqn:E; [|reflexivity]. apply beq_eq in E as ->. unfold held. rewrite G, R. reflexivity.
      * split; [exact D'|]. rewrite held_aset by exact beq_iff. destruct (beq k path) eqn:E; [|reflexivity]. apply beq_eq in E as ->.
        unfold held. now rewrite G, R.
    + split; [exact D|]. destruct (beq k path) eqn:E; [|reflexivity]. apply beq_eq in E as ->. unfold held. rewrite G. now rewrite R.
  - split; [exact D|]. destruct (beq k path) eqn:E; [|reflexivity]. apply beq_eq in E as ->. unfold held. now rewrite G.
Qed.
Lemma value_store_step m s o : sound beq m s -> sound beq (value_store m o) (value_entries s o).
Proof.
  intros (D & H). destruct o as [path v|path name hash]; cbn [value_store value_entries].
  - split; [now apply push_nodup; [apply beq_iff|]|]. intros k. rewrite held_push by exact beq_iff. rewrite entries_app, H.
    change (entries_under beq k [(path, v)]) with (map snd (if beq k path then [(path, v)] else [])). destruct (beq k path); [reflexivity|symmetry; apply app_nil_r].
  - destruct (held_remove_values path name hash m path D) as (D' & _). split; [exact D'|]. intros k.
    destruct (held_remove_values path name hash m k D) as (_ & ->). rewrite take_out_under by exact beq_iff. now rewrite H.
Qed.
Lemma value_stores l : forall m s, sound beq m s -> sound beq (fold_left value_store l m) (fold_left value_entries l s).
Proof. induction l as [|o l IH]; intros m s H; [exact H|]. cbn [fold_left]. now apply IH, value_store_step. Qed.
Lemma sound_nil {K A} (eqb : K -> K -> bool) : sound eqb ([] : amap K (list A)) [].
Proof. split; [constructor|reflexivity]. Qed.

(** ** Deleted keys *)
Lemma after_bs_app a b : In 92 a -> after_bs (a ++ b) = after_bs a ++ b.
Proof.
  induction a as [|c a IH]; [easy|]. cbn [app after_bs]. destruct (c =? 92) eqn:E; [reflexivity|]. intros [->|I]; [discriminate|auto].
Qed.
Lemma after_bs_none a : ~ In 92 a -> after_bs a = [].
Proof.
  induction a as [|c a IH]; [reflexivity|]. intros H. cbn [after_bs]. destruct (c =? 92) eqn:E; [elim H; left; now apply N.eqb_eq in E|].
  apply IH. intros I. apply H. now right.
Qed.
Lemma before_last_parent p : before_last_bs p = parent_of p.
Proof.
  unfold parent_of. induction p as [|c p IH]; [reflexivity|]. cbn [before_last_bs rev]. destruct (existsb (N.eqb BS) p) eqn:E.
  - apply existsb_exists in E as (x & I & X). apply N.eqb_eq in X. subst x. rewrite after_bs_app by now apply in_rev in I.
    rewrite rev_app_distr. cbn [rev app]. now rewrite IH.
  - assert (NI : ~ In 92 (rev p)).
    { intros I. apply in_rev in I. assert (X : existsb (N.eqb BS) p = true) by (apply existsb_exists; exists 92; split; [exact I|reflexivity]).
      rewrite X in E. discriminate. }
    assert (X : forall a, ~ In 92 a -> after_bs (a ++ [c]) = []).
    { clear. induction a as [|x a IH]; intros H; cbn [app after_bs]; [now destruct (c =? 92)|].
      destruct (x =? 92) eqn:E; [elim H; left; now apply N.eqb_eq in E|]. apply IH. intros I. apply H. now right. }
    now rewrite X.
Qed.
Lemma key_store_step m s o : sound beq m s -> spares s o -> sound beq (key_store m o) (key_entries s o).
Proof.
  intros (D & H). destruct o as [path k|path hash]; cbn [key_store key_entries spares].
  - intros _. split; [now apply push_nodup; [apply beq_iff|]|]. intros x. rewrite held_push by exact beq_iff. rewrite entries_app, H.
    change (entries_under beq x [(path, k)]) with (map snd (if beq x path then [(path, k)] else [])). destruct (beq x path); [reflexivity|symmetry; apply app_nil_r].
  - intros SP. unfold deleted_keys_remove. rewrite before_last_parent. fold (same_key path hash).
    pose proof (fun x => take_out_under beq beq_iff x (parent_of path) (same_key path hash) s) as T.
    assert (NONE : remove_first (same_key path hash) (held beq (parent_of path) m) = None -> sound beq m (take_out beq (parent_of path) (same_key path hash) s)).
    { intros R. rewrite H in R. rewrite take_out_none by exact R. now split. }
    unfold held in NONE. destruct (aget beq (parent_of path) m) as [l|] eqn:G; [|now apply NONE].
    destruct (remove_first (same_key path hash) l) as [r|] eqn:R; [|now apply NONE].
    assert (HL : entries_under beq (parent_of path) s = l) by (rewrite <- H; unfold held; now rewrite G).
    assert (D' : NoDup (map fst (aset beq (parent_of path) r m))) by (apply aset_nodup; [apply beq_iff|exact D]).
    assert (S' : forall x, held beq x (aset beq (parent_of path) r m) = entries_under beq x (take_out beq (parent_of path) (same_key path hash) s)).
    { intros x. rewrite held_aset by exact beq_iff. rewrite T. destruct (beq x (parent_of path)) eqn:E; [|apply H].
      apply beq_eq in E as ->. now rewrite HL, R. }
    destruct r as [|y r]; [|split; [exact D'|exact S']]. split; [now apply adel_nodup|]. intros x. rewrite <- S'.
    unfold held at 1. rewrite aget_adel by (exact beq_iff || exact D'). destruct (beq x path) eqn:E; [|reflexivity].
    apply beq_eq in E as ->. rewrite S'. symmetry. destruct SP as [SP|[SP|SP]].
    + rewrite SP in T. specialize (T (parent_of path)). rewrite beq_refl, HL, R in T. subst l. discriminate R.
    + rewrite T, beq_refl, HL, R in SP. now elim SP.
    + exact SP.
Qed.
Lemma key_stores l : forall m s, sound beq m s -> sparing s l -> sound beq (fold_left key_store l m) (fold_left key_entries l s).
Proof. induction l as [|o l IH]; intros m s H SP; [exact H|]. cbn [fold_left]. destruct SP as [S1 S2]. apply IH; [now apply key_store_step|exact S2]. Qed.
