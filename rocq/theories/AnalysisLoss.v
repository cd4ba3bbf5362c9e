(** Proofs about the comparison: an item that is not kept is reported. *)
From Coq Require Import Permutation.
From Verif Require Import Base BaseFacts Types Value Node Recover Parser TxLog NodeFrame TreeOpen AnyOpen StoreSpec StoreFacts AnalysisSpec AnalysisFacts AnalysisStore AnalysisAll.

Lemma key_read_kept fi seq cs st st0 path it del r : agree false st st0 ->
  add_full_key fi seq st path (it_offset it) (it_seq it) del = Ok r -> agree false r st0 /\ old_key fi st0 seq cs path it <> [].
Proof.
  intros A E. pose proof (add_key_effect fi seq st st0 path it del _ A eq_refl) as X. rewrite E in X. split; [subst r; now apply agree_add_keys|].
  unfold add_full_key in E. unfold old_key. rewrite before_last_parent in E.
  pose proof (kn_read_agree false st st0 fi (mkOpt (it_offset it) (parent_of path) None false (Some (it_seq it)) false) eq_refl A) as S.
  destruct (kn_read fi st _) as [[o s]| | |] eqn:R; destruct (kn_read fi st0 _) as [[o' s']| | |] eqn:R0; cbn [same] in S; try contradiction; try discriminate E.
  destruct o' as [k|]; [discriminate|]. now apply read_some in R0.
Qed.
Lemma value_read_kept fi seq cs st st0 path it del r : agree false st st0 ->
  add_full_value fi seq st path (it_offset it) (it_seq it) del = Ok r -> agree false r st0 /\ old_value fi st0 seq cs it <> [].
Proof.
  intros A E. pose proof (add_value_effect fi seq st st0 path it del _ A eq_refl) as X. rewrite E in X. split.
  { subst r. destruct del; [now apply agree_add_dvalues|now apply agree_add_mvalues]. }
  unfold add_full_value in E. unfold old_value. pose proof A as (_ & F & _ & _). rewrite F in E.
  destruct (get_from _ _) as [sl|]; cbn [ok_or] in E; [|discriminate].
  destruct (kv_from_bytes sl (it_offset it) (Some (it_seq it)) (st_full st0)) as [[v rs]| | |]; discriminate.
Qed.
Lemma add_all_kept {X} (f : state -> X -> res state) (P : X -> Prop) st0 l : (forall st x r, agree false st st0 -> f st x = Ok r -> agree false r st0 /\ P x) ->
  forall st logs st' logs', agree false st st0 -> add_all f l st logs = Ok (st', logs') ->
  agree false st' st0 /\ (exists more, logs' = logs ++ more) /\ (Forall P l \/ In WarningTransactionLog logs').
Proof.
  intros F. induction l as [|x l IH]; intros st logs st' logs' A; cbn [add_all].
  { intros [= <- <-]. split; [exact A|]. split; [exists []; symmetry; apply app_nil_r|]. left. constructor. }
  destruct (f st x) as [s| | |] eqn:E; try discriminate.
  - destruct (F _ _ _ A E) as (A1 & PX). intros R. destruct (IH _ _ _ _ A1 R) as (B1 & B2 & [B3|B3]); (split; [exact B1|]); (split; [exact B2|]); [left; now constructor|now right].
  - intros R. destruct (IH _ _ _ _ A R) as (B1 & (more & ->) & _). split; [exact B1|]. split; [exists ([WarningTransactionLog] ++ more); now rewrite app_assoc|].
    right. apply in_or_app. left. apply in_or_app. right. now left.
Qed.

Lemma lost_reported order fuel fi seq p p1 p' prior latest logs after : NoDup (map fst prior) -> (forall m, Permutation (order m) m) ->
  init_root p = Ok p1 -> iterate fuel p1 None false false false = Ok after ->
  get_latest_reg_items order fuel fi seq p prior = Ok (latest, p', logs) ->
  nothing_lost fi prior seq (ps_state p) after \/ In WarningTransactionLog logs.
Proof.
  intros ND O IR IT. unfold get_latest_reg_items. rewrite IR. cbv beta iota. rewrite IT. cbv beta iota.
  assert (SP : ps_state p1 = ps_state p) by (apply init_root_ok in IR as (h & root & -> & _); reflexivity).
  destruct (handle_keys seq after prior [] [] [] []) as [r| | |] eqn:HK; try discriminate.
  apply (handle_keys_steps seq after prior [] []) in HK as (prior' & lt & ch & lg & -> & F & H). cbv beta iota.
  apply hashed_sightings in H. destruct (steps_prior _ _ _ _ _ _ _ _ ND F) as (N1 & A1 & more & E & N2 & C). cbn [app] in E. subst more.
  set (st0 := ps_state p1). assert (A0 : agree false st0 st0) by apply agree_refl.
  match goal with |- match add_all ?f ?l st0 lg with _ => _ end = _ -> _ => destruct (add_all f l st0 lg) as [[st1 lg1]| | |] eqn:E1; try discriminate end.
  apply (add_all_kept _ (fun n => old_key fi st0 seq Allocated (nd_path n) (mkItem 0 (nd_offset n) (nd_seq n)) <> []) st0) in E1; [|intros st x rr A X; exact (key_read_kept fi seq _ st st0 _ (mkItem 0 (nd_offset x) (nd_seq x)) _ _ A X)|exact A0].
  destruct E1 as (B1 & (m1 & ->) & K1).
  match goal with |- match add_all ?f ?l st1 ?lg with _ => _ end = _ -> _ => destruct (add_all f l st1 lg) as [[st2 lg2]| | |] eqn:E2; try discriminate end.
  apply (add_all_kept _ (fun n => old_value fi st0 seq Allocated (mkItem 0 (nd_offset n) (nd_seq n)) <> []) st0) in E2; [|intros st x rr A X; exact (value_read_kept fi seq _ st st0 _ (mkItem 0 (nd_offset x) (nd_seq x)) _ _ A X)|exact B1].
  destruct E2 as (B2 & (m2 & ->) & K2).
  match goal with |- match add_all ?f ?l st2 ?lg with _ => _ end = _ -> _ => destruct (add_all f l st2 lg) as [[st3 lg3]| | |] eqn:E3; try discriminate end.
  apply (add_all_kept _ (fun x => match snd (fst x) with None => old_key fi st0 seq Allocated (fst (fst x)) (snd x) <> [] | Some _ => old_value fi st0 seq Allocated (snd x) <> [] end) st0) in E3;
    [|intros st [[q [n|]] it] rr A X; cbn [fst snd] in *; [exact (value_read_kept fi seq _ st st0 _ it _ _ A X)|exact (key_read_kept fi seq _ st st0 _ it _ _ A X)]|exact B2].
  destruct E3 as (B3 & (m3 & ->) & K3). intros [= _ _ <-].
  destruct K1 as [K1|K1]; [|right; apply in_or_app; left; apply in_or_app; left; exact K1].
  destruct K2 as [K2|K2]; [|right; apply in_or_app; left; exact K2].
  destruct K3 as [K3|K3]; [|right; exact K3].
  left. rewrite <- SP. fold st0. intros w it [X|X].
  - rewrite <- differs_changed in X by exact H. apply C in X. destruct w as [q [n|]]; cbn [snd fst].
    + assert (I : In (need_of ((q, Some n), it)) (value_needs ch)) by (apply in_map, filter_In; now split).
      rewrite Forall_forall in K2. apply K2 in I. exact I.
    + assert (I : In (need_of ((q, None), it)) (key_needs ch)) by (apply in_map, filter_In; now split).
      rewrite Forall_forall in K1. apply K1 in I. exact I.
  - assert (I : In (w, it) (order prior')).
    { apply (Permutation_in _ (Permutation_sym (O _))). apply (aget_in item_key_eqb item_key_iff). rewrite A1. unfold gone in X. unfold seen.
      destruct (aget item_key_eqb w prior); [|discriminate]. destruct (first_seen w (sightings after)); [discriminate|exact X]. }
    rewrite Forall_forall in K3. exact (K3 _ I).
Qed.
