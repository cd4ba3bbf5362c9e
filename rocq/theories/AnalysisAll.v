(** Proofs about the comparison: the whole of it. *)
From Coq Require Import Permutation.
From Verif Require Import Base BaseFacts Types Value Node Recover Parser TxLog NodeFrame TreeOpen StoreSpec StoreFacts AnalysisSpec AnalysisFacts AnalysisStore.

Lemma hashed_sightings ks : Forall hashed ks -> Forall (fun e => fst (snd e) <> None) (sightings ks).
Proof.
  induction 1 as [|k ks (H & V) F IH]; [constructor|]. change (sightings (k :: ks)) with
    (((kn_path k, None), (kn_hash k, kn_offset k)) :: map (fun v => ((kn_path k, Some (vd_name (kv_detail v))), (kv_hash v, kv_offset v))) (kn_values k) ++ sightings ks).
  constructor; [exact H|]. apply Forall_app. split; [|exact IH]. clear -V. induction V; constructor; assumption.
Qed.
Lemma first_in w l e : first_seen w l = Some e -> In (w, e) l.
Proof.
  induction l as [|x l IH]; [discriminate|]. cbn [first_seen]. destruct (keq w (fst x)) eqn:E; [|right; auto].
  apply kiff in E as ->. intros [= <-]. left. now destruct x.
Qed.
Lemma differs_changed w prior l : Forall (fun e => fst (snd e) <> None) l -> differs w prior l = changed w prior l.
Proof.
  intros F. unfold differs, changed. destruct (aget keq w prior) as [it|]; [|reflexivity]. destruct (first_seen w l) as [[h off]|] eqn:E; [|reflexivity].
  apply first_in in E. rewrite Forall_forall in F. specialize (F _ E). cbn [fst snd] in F. destruct h; [reflexivity|now elim F].
Qed.
Lemma pick_one {B} w (f : item -> list B) ch (o : option item) : NoDup (map fst ch) -> (forall it, In (w, it) ch <-> o = Some it) ->
  flat_map (fun x => if keq w (fst x) then f (snd x) else []) ch = or_nothing f o.
Proof.
  intros D M. assert (G : aget keq w ch = o).
  { destruct o as [it|].
    - apply in_aget; [exact kiff|exact D|]. now apply M.
    - destruct (aget keq w ch) as [it|] eqn:G; [|reflexivity]. apply (aget_in keq kiff) in G. now apply M in G. }
  rewrite <- G. clear G M o. induction ch as [|[x i] ch IH]; [reflexivity|]. inversion D; subst. cbn [flat_map fst snd aget].
  destruct (keq w x) eqn:E; [|now apply IH]. apply kiff in E as ->. cbn [or_nothing].
  replace (flat_map _ ch) with (@nil B); [apply app_nil_r|]. clear -H1. induction ch as [|[y j] ch IH]; [reflexivity|]. cbn [flat_map fst].
  rewrite (eqb_other keq kiff); [|intros ->; apply H1; now left]. apply IH. intros I. apply H1. now right.
Qed.

(** ** Removals *)
Lemma remove_first_app {A} (t : A -> bool) a b : Forall (fun x => t x = false) b ->
  remove_first t (a ++ b) = option_map (fun r => r ++ b) (remove_first t a).
Proof.
  intros F. induction a as [|x a IH]; cbn [app remove_first option_map].
  - induction F as [|x b X F IHb]; [reflexivity|]. cbn [remove_first]. now rewrite X, IHb.
  - destruct (t x); [reflexivity|]. rewrite IH. now destruct (remove_first t a).
Qed.
Lemma without_refl {A} (P : A -> Prop) l : without P l l.
Proof. induction l; constructor; assumption. Qed.
Lemma without_trans {A} (P : A -> Prop) a b c : without P a b -> without P b c -> without P a c.
Proof.
  intros H. revert c. induction H as [|x a b H IH|x a b X H IH]; intros c J; [exact J| |constructor; auto].
  inversion J; subst; [constructor; auto|apply without_drop; auto].
Qed.
Lemma remove_without {A} (P : A -> Prop) t l r : (forall x, In x l -> t x = true -> P x) -> remove_first t l = Some r -> without P l r.
Proof.
  revert r. induction l as [|x l IH]; intros r H; cbn [remove_first]; [discriminate|]. destruct (t x) eqn:T.
  - intros [= <-]. constructor; [apply H; [now left|exact T]|apply without_refl].
  - destruct (remove_first t l) as [r'|]; [|discriminate]. intros [= <-]. constructor. apply IH; [|reflexivity]. intros y I. apply H. now right.
Qed.
Lemma without_in {A} (P : A -> Prop) a b x : without P a b -> In x b -> In x a.
Proof. induction 1; cbn; intuition. Qed.
Lemma remove_in {A} (t : A -> bool) l r x : remove_first t l = Some r -> In x r -> In x l.
Proof.
  revert r. induction l as [|y l IH]; intros r; cbn [remove_first]; [discriminate|]. destruct (t y); [intros [= <-]; now right|].
  destruct (remove_first t l) as [r'|]; [|discriminate]. intros [= <-] [->|I]; [now left|right; now apply (IH r')].
Qed.
Lemma removed_values rm path : forall m A B, NoDup (map fst m) -> held beq path m = A ++ B ->
  Forall (fun v => forall n h, In (path, n, h) rm -> vd_name (kv_detail v) <> n) B ->
  exists A', held beq path (remove_values rm m) = A' ++ B
  /\ without (fun v => exists n h, In (path, n, h) rm /\ vd_name (kv_detail v) = n /\ kv_hash v = Some h) A A'.
Proof.
  induction rm as [|[[q n] h] rm IH]; intros m A B D H F; [exists A; split; [exact H|apply without_refl]|].
  unfold remove_values. cbn [fold_left fst snd]. fold (remove_values rm (deleted_values_remove q n h m)).
  destruct (held_remove_values q n h m path D) as (D' & HR).
  assert (F' : Forall (fun v => forall n0 h0, In (path, n0, h0) rm -> vd_name (kv_detail v) <> n0) B)
    by (eapply Forall_impl; [|exact F]; intros v V n0 h0 I; exact (V n0 h0 (or_intror I))).
  assert (W : forall A1 A', without (fun v => exists n0 h0, In (path, n0, h0) rm /\ vd_name (kv_detail v) = n0 /\ kv_hash v = Some h0) A1 A' ->
     without (fun v => exists n0 h0, In (path, n0, h0) ((q, n, h) :: rm) /\ vd_name (kv_detail v) = n0 /\ kv_hash v = Some h0) A1 A').
  { induction 1 as [|x a b J JH|x a b (n0 & h0 & I & X) J JH]; constructor; auto. exists n0, h0. split; [now right|exact X]. }
  destruct (beq path q) eqn:E.
  - apply beq_eq in E as <-. rewrite H in HR. rewrite remove_first_app in HR.
    2:{ eapply Forall_impl; [|exact F]. intros v V. unfold same_value. replace (beq (vd_name (kv_detail v)) n) with false; [reflexivity|].
        symmetry. apply beq_neq. exact (V n h (or_introl eq_refl)). }
    destruct (remove_first (same_value n h) A) as [A1|] eqn:R; cbn [option_map] in HR.
    + destruct (IH _ A1 B D' HR F') as (A' & H' & WW). exists A'. split; [exact H'|].
      apply (without_trans _ _ A1); [|now apply W]. apply (remove_without _ (same_value n h)); [|exact R].
      intros v _ T. unfold same_value in T. apply andb_true_iff in T as [T1 T2]. apply beq_eq in T1. exists n, h. split; [now left|]. split; [exact T1|].
      destruct (kv_hash v); [apply N.eqb_eq in T2; now subst|discriminate].
    + destruct (IH _ A B D' HR F') as (A' & H' & WW). exists A'. split; [exact H'|now apply W].
  - rewrite H in HR. destruct (IH _ A B D' HR F') as (A' & H' & WW). exists A'. split; [exact H'|now apply W].
Qed.
Lemma removed_keys rm path : forall m A B, NoDup (map fst m) -> held beq path m = A ++ B ->
  (forall k h, In k (held beq (parent_of path) m) -> In (path, h) rm -> same_key path h k = false) ->
  Forall (fun k => forall h, ~ In (kn_path k, h) rm) B ->
  exists A', held beq path (remove_keys rm m) = A' ++ B
  /\ without (fun k => exists h, In (kn_path k, h) rm /\ kn_hash k = Some h) A A'.
Proof.
  induction rm as [|[q h] rm IH]; intros m A B D H C F; [exists A; split; [exact H|apply without_refl]|].
  unfold remove_keys. cbn [fold_left fst snd]. fold (remove_keys rm (deleted_keys_remove q h m)).
  assert (F' : Forall (fun k => forall h0, ~ In (kn_path k, h0) rm) B)
    by (eapply Forall_impl; [|exact F]; intros v V h0 I; exact (V h0 (or_intror I))).
  assert (W : forall A1 A', without (fun k => exists h0, In (kn_path k, h0) rm /\ kn_hash k = Some h0) A1 A' ->
     without (fun k => exists h0, In (kn_path k, h0) ((q, h) :: rm) /\ kn_hash k = Some h0) A1 A').
  { induction 1 as [|x a b J JH|x a b (h0 & I & X) J JH]; constructor; auto. exists h0. split; [now right|exact X]. }
  assert (SAME : forall m', m' = m -> exists A', held beq path (remove_keys rm m') = A' ++ B
     /\ without (fun k => exists h0, In (kn_path k, h0) ((q, h) :: rm) /\ kn_hash k = Some h0) A A').
  { intros m' ->. destruct (IH m A B D H) as (A' & H' & WW); [intros k h0 I J; apply C; [exact I|now right]|exact F'|].
    exists A'. split; [exact H'|now apply W]. }
  unfold deleted_keys_remove. rewrite before_last_parent. fold (same_key q h).
  destruct (aget beq (parent_of q) m) as [l|] eqn:G; [|now apply SAME].
  destruct (remove_first (same_key q h) l) as [r|] eqn:R; [|now apply SAME].
  assert (HL : held beq (parent_of q) m = l) by (unfold held; now rewrite G).
  assert (QP : q <> path).
  { intros ->. assert (X : Forall (fun k => same_key path h k = false) l).
    { apply Forall_forall. intros k I. apply C; [now rewrite HL|now left]. }
    clear -X R. revert r R. induction X as [|k l K X IHX]; intros r R; [discriminate|]. cbn [remove_first] in R. rewrite K in R.
    destruct (remove_first _ l); [|discriminate]. now apply (IHX l0). }
  assert (D1 : NoDup (map fst (aset beq (parent_of q) r m))) by (apply aset_nodup; [exact beq_iff|exact D]).
  assert (H1 : forall x, held beq x (aset beq (parent_of q) r m) = if beq x (parent_of q) then r else held beq x m)
    by (intros x; now rewrite held_aset by exact beq_iff).
  set (m1 := match r with [] => adel beq q (aset beq (parent_of q) [] m) | _ :: _ => aset beq (parent_of q) r m end).
  assert (M1 : NoDup (map fst m1) /\ forall x, held beq x m1 = if (match r with [] => beq x q | _ => false end) then [] else if beq x (parent_of q) then r else held beq x m).
  { subst m1. destruct r as [|y r]; [|split; [exact D1|exact H1]]. split; [now apply adel_nodup|]. intros x. unfold held at 1. rewrite aget_adel by (exact beq_iff || exact D1).
    destruct (beq x q); [reflexivity|]. exact (H1 x). }
  destruct M1 as (DM & HM).
  assert (SUB : forall x k, In k (held beq x m1) -> In k (held beq x m)).
  { intros x k. rewrite HM. destruct (match r with [] => beq x q | _ => false end); [easy|]. destruct (beq x (parent_of q)) eqn:E; [|easy].
    apply beq_eq in E as ->. rewrite HL. intros I. exact (remove_in _ _ _ _ R I). }
  assert (PM : held beq path m1 = if beq path (parent_of q) then r else A ++ B).
  { rewrite HM, H. replace (match r with [] => beq path q | _ => false end) with false; [reflexivity|]. destruct r; [|reflexivity].
    symmetry. apply beq_neq. congruence. }
  assert (C1 : forall k h0, In k (held beq (parent_of path) m1) -> In (path, h0) rm -> same_key path h0 k = false).
  { intros k h0 I J. apply C; [now apply SUB|now right]. }
  destruct (beq path (parent_of q)) eqn:E.
  - apply beq_eq in E. rewrite <- E, H in HL. subst l. rewrite remove_first_app in R.
    2:{ eapply Forall_impl; [|exact F]. intros k V. unfold same_key. destruct (kn_hash k) as [x|]; [|reflexivity].
        destruct (beq q (kn_path k)) eqn:Q; [|apply andb_false_r]. apply beq_eq in Q. elim (V h). left. now rewrite Q. }
    destruct (remove_first (same_key q h) A) as [A1|] eqn:RA; [|discriminate]. cbn [option_map] in R. injection R as R. rewrite <- R in PM.
    destruct (IH m1 A1 B DM PM C1 F') as (A' & H' & WW). exists A'. split; [exact H'|].
    apply (without_trans _ _ A1); [|now apply W]. apply (remove_without _ (same_key q h)); [|exact RA].
    intros k _ T. unfold same_key in T. destruct (kn_hash k) as [x|] eqn:X; [|discriminate]. apply andb_true_iff in T as [T1 T2].
    apply N.eqb_eq in T1. apply beq_eq in T2. exists h. subst. split; [now left|reflexivity].
  - destruct (IH m1 A B DM PM C1 F') as (A' & H' & WW). exists A'. split; [exact H'|now apply W].
Qed.

(** ** The comparison *)
Section Compared.
Variables (order : reg_items -> reg_items) (fuel : nat) (fi : file_info) (seq : N) (p p1 p' : parser) (prior latest : reg_items)
  (logs : list log_code) (ks : list key_node).
Hypothesis ND : NoDup (map fst prior).
Hypothesis IR : init_root p = Ok p1.
Hypothesis IT : iterate fuel p1 None false false false = Ok ks.
Hypothesis RUN : get_latest_reg_items order fuel fi seq p prior = Ok (latest, p', logs).
Let st := ps_state p.
Let l := sightings ks.

Lemma compared : exists prior' ch,
  fold_left (step seq) l (prior, [], []) = (prior', latest, ch) /\ Forall (fun e => fst (snd e) <> None) l
  /\ NoDup (map fst prior') /\ (forall w, aget keq w prior' = gone w prior l)
  /\ NoDup (map fst ch) /\ (forall w it, In (w, it) ch <-> changed w prior l = Some it)
  /\ st_modified_keys (ps_state p') = pushes beq (flat_map (changed_keys fi st seq) ch) (st_modified_keys st)
  /\ st_modified_values (ps_state p') = pushes pair_eqb (flat_map (changed_values fi st seq) ch) (st_modified_values st)
  /\ st_deleted_keys (ps_state p') = remove_keys (key_removals (order latest)) (pushes beq (flat_map (gone_keys fi st seq) (order prior')) (st_deleted_keys st))
  /\ st_deleted_values (ps_state p') = remove_values (value_removals (order latest)) (pushes beq (flat_map (gone_values fi st seq) (order prior')) (st_deleted_values st)).
Proof.
  destruct (comparison _ _ _ _ _ _ _ _ _ RUN) as (p2 & ks2 & prior' & ch & I2 & _ & T2 & H & F & _ & M1 & M2 & M3 & M4).
  rewrite IR in I2. injection I2 as <-. rewrite IT in T2. injection T2 as <-. apply hashed_sightings in H.
  destruct (steps_prior _ _ _ _ _ _ _ _ ND F) as (N1 & A1 & more & E & N2 & C). cbn [app] in E. subst more.
  exists prior', ch. split; [exact F|]. split; [exact H|]. split; [exact N1|]. split.
  { intros w. rewrite A1. unfold gone, seen. fold l. destruct (aget keq w prior), (first_seen w l); reflexivity. }
  split; [exact N2|]. split; [intros w it; rewrite C; now rewrite differs_changed|]. auto.
Qed.
Lemma modified_keys path :
  held beq path (st_modified_keys (ps_state p')) =
  held beq path (st_modified_keys st) ++ or_nothing (old_key fi st seq ModifiedTransactionLog path) (changed (path, None) prior l).
Proof.
  destruct compared as (prior' & ch & _ & _ & _ & _ & N2 & C & M & _). rewrite M, held_pushes, entries_flat by exact beq_iff. f_equal.
  rewrite <- (pick_one (path, None) _ ch (changed (path, None) prior l) N2) by (intros it; apply C). apply flat_ext.
  intros [[q [n|]] it]; unfold changed_keys, is_key; cbn [fst snd].
  - unfold item_key_eqb. cbn [fst snd]. now rewrite andb_false_r.
  - rewrite entries_at. unfold item_key_eqb. cbn [fst snd]. rewrite andb_true_r. destruct (beq path q) eqn:E; [|reflexivity]. apply beq_eq in E as ->. reflexivity.
Qed.
Lemma entries_none {K A} (eqb : K -> K -> bool) k (s : list (K * A)) : Forall (fun e => eqb k (fst e) = false) s -> entries_under eqb k s = [].
Proof. induction 1 as [|e s E F IHs]; [reflexivity|]. unfold entries_under. cbn [List.filter]. rewrite E. exact IHs. Qed.
Lemma entries_all {K A} (eqb : K -> K -> bool) k (s : list (K * A)) : Forall (fun e => eqb k (fst e) = true) s -> entries_under eqb k s = map snd s.
Proof. induction 1 as [|e s E F IHs]; [reflexivity|]. unfold entries_under. cbn [List.filter]. rewrite E. cbn [map]. f_equal. exact IHs. Qed.
Lemma changed_prior w it : changed w prior l = Some it -> aget keq w prior = Some it.
Proof. unfold changed. destruct (aget keq w prior); [|discriminate]. destruct (first_seen w l) as [[[h|] off]|]; try discriminate. destruct (h =? it_hash i); [discriminate|auto]. Qed.
Lemma gone_prior w it : gone w prior l = Some it -> aget keq w prior = Some it /\ first_seen w l = None.
Proof. unfold gone. destruct (aget keq w prior); [|discriminate]. destruct (first_seen w l); [discriminate|auto]. Qed.
Lemma modified_values path name : names_agree fi st prior path ->
  held pair_eqb (path, name) (st_modified_values (ps_state p')) =
  held pair_eqb (path, name) (st_modified_values st) ++ or_nothing (old_value fi st seq ModifiedTransactionLog) (changed (path, Some name) prior l).
Proof.
  intros NA. destruct compared as (prior' & ch & _ & _ & _ & _ & N2 & C & _ & M & _). rewrite M, held_pushes, entries_flat by exact pair_iff. f_equal.
  rewrite <- (pick_one (path, Some name) _ ch (changed (path, Some name) prior l) N2) by (intros it; apply C).
  assert (X : Forall (fun x => changed (fst x) prior l = Some (snd x)) ch) by (apply Forall_forall; intros [w it] I; now apply C).
  clear N2 C M. induction X as [|[[q [n|]] it] ch X F IH]; [reflexivity| |]; cbn [flat_map]; rewrite IH; f_equal; cbn [fst snd] in *.
  - unfold changed_values, is_key. cbn [fst snd]. apply changed_prior in X. destruct (beq path q) eqn:Q.
    2:{ replace (keq (path, Some name) (q, Some n)) with false by (unfold item_key_eqb; cbn [fst snd]; now rewrite Q).
        apply entries_none, Forall_map, Forall_forall. intros v _. cbn [fst]. unfold pair_eqb. cbn [fst]. now rewrite Q. }
    apply beq_eq in Q as <-. pose proof (NA _ _ X seq ModifiedTransactionLog) as NV.
    destruct (keq (path, Some name) (path, Some n)) eqn:E.
    + apply kiff in E. injection E as <-. rewrite entries_all.
      * rewrite map_map. cbn [snd]. apply map_id.
      * apply Forall_map. eapply Forall_impl; [|exact NV]. intros v V. cbn [fst]. rewrite V. now apply pair_iff.
    + apply entries_none. apply Forall_map. eapply Forall_impl; [|exact NV]. intros v V. cbn [fst]. rewrite V. apply (eqb_other pair_eqb pair_iff).
      intros [= ->]. now rewrite (eqb_same keq kiff) in E.
  - unfold item_key_eqb. cbn [fst snd]. now rewrite andb_false_r.
Qed.
Lemma latest_seen w : aget keq w latest = None <-> first_seen w l = None.
Proof.
  destruct compared as (prior' & ch & F & _). destruct (steps_latest seq l prior [] [] prior' latest ch (NoDup_nil _) F) as (_ & N & _). rewrite N. unfold seen.
  destruct (first_seen w l); cbn; intuition discriminate.
Qed.
Lemma latest_last w it : aget keq w latest = Some it -> In (w, (Some (it_hash it), it_offset it)) l.
Proof.
  intros G. destruct compared as (prior' & ch & F & H & _). destruct (steps_latest seq l prior [] [] prior' latest ch (NoDup_nil _) F) as (_ & _ & _ & X).
  assert (SW : seen w l = true).
  { unfold seen. destruct (first_seen w l) eqn:E; [reflexivity|]. apply latest_seen in E. congruence. }
  destruct (X w it G SW) as (h & I & E). rewrite Forall_forall in H. specialize (H _ I). cbn [fst snd] in H. destruct h as [h|]; [|now elim H].
  cbn [hash_of] in E. now rewrite E.
Qed.
Lemma latest_once w h off : NoDup (map fst l) -> In (w, (Some h, off)) l ->
  aget keq w latest = Some (mkItem h off (match aget keq w prior with Some o => if h =? it_hash o then it_seq o else seq | None => seq end)).
Proof. intros D I. destruct compared as (prior' & ch & F & _). exact (steps_once seq l prior [] [] prior' latest ch (NoDup_nil _) ND D F w (Some h) off I). Qed.

Section Deleted.
Hypothesis OP : forall m : reg_items, Permutation (order m) m.
Lemma order_nodup m : NoDup (map fst m) -> NoDup (map fst (order m)).
Proof. intros D. eapply Permutation_NoDup; [|exact D]. apply Permutation_map, Permutation_sym, OP. Qed.
Lemma order_in m x : In x (order m) <-> In x m.
Proof. split; apply Permutation_in; [apply OP|apply Permutation_sym, OP]. Qed.
Lemma rest_gone prior' : NoDup (map fst prior') -> (forall w, aget keq w prior' = gone w prior l) -> all_gone prior l (order prior').
Proof.
  intros D A. split; [now apply order_nodup|]. intros w it. rewrite order_in, <- A. split; [now apply in_aget; [exact kiff|]|apply aget_in, kiff].
Qed.
Lemma deleted_values path : names_agree fi st prior path -> NoDup (map fst (st_deleted_values st)) ->
  exists g kept, all_gone prior l g
  /\ held beq path (st_deleted_values (ps_state p')) = kept ++ values_of (old_value fi st seq DeletedTransactionLog) path g
  /\ without (value_back latest path) (held beq path (st_deleted_values st)) kept.
Proof.
  intros NA DV. destruct compared as (prior' & ch & F & _ & N1 & A1 & _ & _ & _ & _ & _ & M).
  destruct (steps_latest seq l prior [] [] prior' latest ch (NoDup_nil _) F) as (NL & _ & _ & _).
  pose proof (rest_gone _ N1 A1) as G. pose proof G as (GD & GI).
  set (rest := order prior') in *. set (B := values_of (old_value fi st seq DeletedTransactionLog) path rest).
  assert (RM : forall n h, In (path, n, h) (value_removals (order latest)) <-> exists it, aget keq (path, Some n) latest = Some it /\ it_hash it = h).
  { intros n h. unfold value_removals. rewrite in_flat_map. split.
    - intros ([[q [m|]] it] & I & J); cbn [fst snd] in J; [|easy]. destruct J as [[= -> -> <-]|[]]. exists it. split; [|reflexivity].
      apply in_aget; [exact kiff|exact NL|]. now apply order_in.
    - intros (it & I & <-). exists ((path, Some n), it). split; [apply order_in; now apply (aget_in keq kiff)|now left]. }
  destruct (removed_values (value_removals (order latest)) path (pushes beq (flat_map (gone_values fi st seq) rest) (st_deleted_values st))
      (held beq path (st_deleted_values st)) B) as (A' & H & W).
  - apply pushes_nodup; [exact beq_iff|exact DV].
  - rewrite held_pushes, entries_flat by exact beq_iff. f_equal. apply flat_ext. intros [[q [n|]] it]; unfold gone_values; cbn [fst snd]; [|reflexivity].
    apply entries_at.
  - apply Forall_forall. intros v I n h J. unfold B, values_of in I. apply in_flat_map in I as ([[q [m|]] it] & I & IV); cbn [fst snd] in IV; [|easy].
    destruct (beq path q) eqn:E; [|easy]. apply beq_eq in E as <-. apply GI in I. apply gone_prior in I as (I & U).
    pose proof (NA _ _ I seq DeletedTransactionLog) as NV. rewrite Forall_forall in NV. rewrite (NV v IV). intros ->.
    apply RM in J as (it' & J & _). apply latest_seen in U. congruence.
  - exists rest, A'. split; [exact G|]. split; [now rewrite M|].
    clear -W RM. induction W as [|x a b W IH|x a b (n & h & I & <- & X) W IH]; [constructor|now constructor|]. apply without_drop; [|exact IH].
    apply RM in I as (it & I & <-). exists it. now split.
Qed.
Lemma deleted_keys path : paths_agree fi st prior path -> paths_agree fi st prior (parent_of path) -> NoDup (map fst (st_deleted_keys st)) ->
  (forall k, In k (held beq (parent_of path) (st_deleted_keys st)) -> kn_path k = path -> ~ key_back latest k) ->
  exists g kept, all_gone prior l g
  /\ held beq path (st_deleted_keys (ps_state p')) = kept ++ keys_of (old_key fi st seq DeletedTransactionLog) path g
  /\ without (key_back latest) (held beq path (st_deleted_keys st)) kept.
Proof.
  intros NA NA' DV NB. destruct compared as (prior' & ch & F & _ & N1 & A1 & _ & _ & _ & _ & M & _).
  destruct (steps_latest seq l prior [] [] prior' latest ch (NoDup_nil _) F) as (NL & _ & _ & _).
  pose proof (rest_gone _ N1 A1) as G. pose proof G as (GD & GI).
  set (rest := order prior') in *. set (B := fun x => keys_of (old_key fi st seq DeletedTransactionLog) x rest).
  assert (RM : forall q h, In (q, h) (key_removals (order latest)) <-> exists it, aget keq (q, None) latest = Some it /\ it_hash it = h).
  { intros q h. unfold key_removals. rewrite in_flat_map. split.
    - intros ([[q' [m|]] it] & I & J); cbn [fst snd] in J; [easy|]. destruct J as [[= -> <-]|[]]. exists it. split; [|reflexivity].
      apply in_aget; [exact kiff|exact NL|]. now apply order_in.
    - intros (it & I & <-). exists ((q, None), it). split; [apply order_in; now apply (aget_in keq kiff)|now left]. }
  assert (HP : forall x, held beq x (pushes beq (flat_map (gone_keys fi st seq) rest) (st_deleted_keys st)) = held beq x (st_deleted_keys st) ++ B x).
  { intros x. rewrite held_pushes, entries_flat by exact beq_iff. f_equal. apply flat_ext. intros [[q [n|]] it]; unfold gone_keys; cbn [fst snd]; [reflexivity|].
    apply entries_at. }
  assert (BN : forall x k h, x = path \/ x = parent_of path -> In k (B x) -> ~ In (kn_path k, h) (key_removals (order latest))).
  { intros x k h XP I J. unfold B, keys_of in I. apply in_flat_map in I as ([[q [m|]] it] & I & IV); cbn [fst snd] in IV; [easy|].
    destruct (beq x (parent_of q)) eqn:E; [|easy]. apply beq_eq in E. apply GI in I. apply gone_prior in I as (I & U).
    assert (NV : Forall (fun k => kn_path k = q) (old_key fi st seq DeletedTransactionLog q it)) by (destruct XP as [->| ->]; [apply NA|apply NA']; congruence). rewrite Forall_forall in NV. rewrite (NV k IV) in J.
    apply RM in J as (it' & J & _). apply latest_seen in U. congruence. }
  destruct (removed_keys (key_removals (order latest)) path (pushes beq (flat_map (gone_keys fi st seq) rest) (st_deleted_keys st))
      (held beq path (st_deleted_keys st)) (B path)) as (A' & H & W).
  - apply pushes_nodup; [exact beq_iff|exact DV].
  - apply HP.
  - intros k h I J. rewrite HP in I. unfold same_key. destruct (kn_hash k) as [x|] eqn:X; [|reflexivity].
    destruct ((h =? x) && beq path (kn_path k)) eqn:E; [|reflexivity]. apply andb_true_iff in E as [E1 E2]. apply N.eqb_eq in E1. apply beq_eq in E2. subst x path.
    apply in_app_or in I as [I|I]; [|elim (BN _ k h (or_intror eq_refl) I J)].
    apply RM in J as (it & J & <-). elim (NB k I eq_refl). exists it. now split.
  - apply Forall_forall. intros k I h. exact (BN path k h (or_introl eq_refl) I).
  - exists rest, A'. split; [exact G|]. split; [now rewrite M|].
    clear -W RM. induction W as [|x a b W IH|x a b (h & I & X) W IH]; [constructor|now constructor|]. apply without_drop; [|exact IH].
    apply RM in I as (it & I & <-). exists it. now split.
Qed.
End Deleted.
End Compared.
