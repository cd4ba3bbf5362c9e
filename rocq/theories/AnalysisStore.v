(** Proofs about the comparison: what it adds to and removes from the stores. *)
From Coq Require Import Permutation.
From Verif Require Import Base BaseFacts Types Value Node Recover Parser TxLog NodeFrame TreeOpen StoreSpec StoreFacts AnalysisSpec AnalysisFacts.

(** ** One item *)
Definition pushes {K A} (eqb : K -> K -> bool) (l : list (K * A)) (m : amap K (list A)) : amap K (list A) :=
  fold_left (fun m e => map_push eqb (fst e) (snd e) m) l m.
Definition add_keys (del : bool) (l : list (list N * key_node)) (st : state) : state :=
  if del then set_deleted_keys (pushes beq l (st_deleted_keys st)) st else set_modified_keys (pushes beq l (st_modified_keys st)) st.
Definition add_dvalues (l : list (list N * key_value)) (st : state) : state :=
  set_deleted_values (pushes beq l (st_deleted_values st)) st.
Definition add_mvalues (l : list (list N * list N * key_value)) (st : state) : state :=
  set_modified_values (pushes pair_eqb l (st_modified_values st)) st.
Definition list_state (del : bool) : cell_state := if del then DeletedTransactionLog else ModifiedTransactionLog.
Definition at_path {K A} (k : K) (l : list A) : list (K * A) := map (pair k) l.

Lemma add_key_effect fi seq st st0 path it del r : agree false st st0 ->
  add_full_key fi seq st path (it_offset it) (it_seq it) del = r ->
  match r with
  | Ok st' => st' = add_keys del (at_path (if del then parent_of path else path) (old_key fi st0 seq (list_state del) path it)) st
  | Err => old_key fi st0 seq (list_state del) path it = []
  | _ => True
  end.
Proof.
  intros A <-. unfold add_full_key, old_key. rewrite before_last_parent.
  pose proof (kn_read_agree false st st0 fi (mkOpt (it_offset it) (parent_of path) None false (Some (it_seq it)) false) eq_refl A) as S.
  destruct (kn_read fi st _) as [[o s]| | |] eqn:R; destruct (kn_read fi st0 _) as [[o' s']| | |] eqn:R0; cbn [same] in S; try contradiction; try exact I.
  - destruct S as (<- & _). apply read_plain_state in R; [|reflexivity]. subst s. cbv beta iota zeta.
    destruct o as [k|]; [destruct del; reflexivity|]. destruct del, st; reflexivity.
  - reflexivity.
Qed.
Lemma add_value_effect fi seq st st0 path it del r : agree false st st0 ->
  add_full_value fi seq st path (it_offset it) (it_seq it) del = r ->
  match r with
  | Ok st' => st' = if del then add_dvalues (at_path path (old_value fi st0 seq (list_state true) it)) st
              else add_mvalues (map (fun v => ((path, vd_name (kv_detail v)), v)) (old_value fi st0 seq (list_state false) it)) st
  | Err => old_value fi st0 seq (list_state del) it = []
  | _ => True
  end.
Proof.
  intros A <-. unfold add_full_value, old_value. pose proof A as (_ & F & _ & _). rewrite F.
  destruct (get_from _ _) as [sl|]; cbn [ok_or]; [|reflexivity].
  destruct (kv_from_bytes sl (it_offset it) (Some (it_seq it)) (st_full st0)) as [[v rs]| | |]; try exact I; [|reflexivity].
  cbv beta iota zeta. rewrite (read_value_bytes_agree false st st0 fi v A). destruct del; reflexivity.
Qed.

(** ** Several items *)
Lemma add_all_fold {X} (f : state -> X -> res state) (g : state -> X -> state) st0 l : (forall st x, agree false st st0 ->
    match f st x with Ok st' => st' = g st x | Err => g st x = st | _ => True end) ->
  (forall st x, agree false st st0 -> agree false (g st x) st0) ->
  forall st logs st' logs', agree false st st0 -> add_all f l st logs = Ok (st', logs') -> st' = fold_left g l st.
Proof.
  intros F G. induction l as [|x l IH]; intros st logs st' logs' A; cbn [add_all fold_left]; [now intros [= <- _]|].
  pose proof (F st x A) as E. destruct (f st x) as [s| | |]; try discriminate.
  - intros R. subst s. exact (IH _ _ _ _ (G _ _ A) R).
  - intros R. rewrite E. exact (IH _ _ _ _ A R).
Qed.
Lemma agree_add_keys del l st st0 : agree false st st0 -> agree false (add_keys del l st) st0.
Proof. intros (A & B & C & _). unfold add_keys. destruct del; (split; [exact A|split; [exact B|split; [exact C|discriminate]]]). Qed.
Lemma agree_add_dvalues l st st0 : agree false st st0 -> agree false (add_dvalues l st) st0.
Proof. intros (A & B & C & _). split; [exact A|split; [exact B|split; [exact C|discriminate]]]. Qed.
Lemma agree_add_mvalues l st st0 : agree false st st0 -> agree false (add_mvalues l st) st0.
Proof. intros (A & B & C & _). split; [exact A|split; [exact B|split; [exact C|discriminate]]]. Qed.
Lemma agree_info st st0 : agree false st st0 -> agree false st0 st.
Proof. intros (A & B & C & _). split; [|split; [|split; [|discriminate]]]; congruence. Qed.
Lemma pushes_app {K A} (eqb : K -> K -> bool) (l l' : list (K * A)) m : pushes eqb (l ++ l') m = pushes eqb l' (pushes eqb l m).
Proof. unfold pushes. apply fold_left_app. Qed.
Lemma fold_keys {A} del (h : A -> list (list N * key_node)) l : forall st,
  fold_left (fun st x => add_keys del (h x) st) l st = add_keys del (flat_map h l) st.
Proof.
  induction l as [|x l IH]; intros st; cbn [fold_left flat_map]; [destruct del, st; reflexivity|].
  rewrite IH. unfold add_keys. destruct del; destruct st; unfold set_deleted_keys, set_modified_keys; cbn; now rewrite pushes_app.
Qed.
Lemma fold_mvalues {A} (h : A -> list (list N * list N * key_value)) l : forall st,
  fold_left (fun st x => add_mvalues (h x) st) l st = add_mvalues (flat_map h l) st.
Proof.
  induction l as [|x l IH]; intros st; cbn [fold_left flat_map]; [destruct st; reflexivity|].
  rewrite IH. unfold add_mvalues. destruct st; unfold set_modified_values; cbn; now rewrite pushes_app.
Qed.
Lemma fold_mixed {A} (kh : A -> list (list N * key_node)) (vh : A -> list (list N * key_value)) l : forall st,
  fold_left (fun st x => add_dvalues (vh x) (add_keys true (kh x) st)) l st = add_dvalues (flat_map vh l) (add_keys true (flat_map kh l) st).
Proof.
  induction l as [|x l IH]; intros st; cbn [fold_left flat_map]; [destruct st; reflexivity|].
  rewrite IH. unfold add_dvalues, add_keys. destruct st; unfold set_deleted_keys, set_deleted_values; cbn; now rewrite !pushes_app.
Qed.
Lemma held_pushes {K A} eqb (EQ : forall a b : K, eqb a b = true <-> a = b) (l : list (K * A)) m k :
  held eqb k (pushes eqb l m) = held eqb k m ++ entries_under eqb k l.
Proof. now apply adds_held. Qed.
Lemma pushes_nodup {K A} eqb (EQ : forall a b : K, eqb a b = true <-> a = b) (l : list (K * A)) : forall m,
  NoDup (map fst m) -> NoDup (map fst (pushes eqb l m)).
Proof. induction l as [|e l IH]; intros m D; [exact D|]. cbn [pushes fold_left]. apply IH. now apply push_nodup. Qed.
Lemma entries_flat {K A B} (eqb : K -> K -> bool) k (h : B -> list (K * A)) l :
  entries_under eqb k (flat_map h l) = flat_map (fun x => entries_under eqb k (h x)) l.
Proof. induction l as [|x l IH]; [reflexivity|]. cbn [flat_map]. now rewrite entries_app, IH. Qed.
Lemma entries_at {K A} (eqb : K -> K -> bool) k k' (l : list A) : entries_under eqb k (at_path k' l) = if eqb k k' then l else [].
Proof.
  unfold entries_under, at_path. induction l as [|x l IH]; cbn [map List.filter fst]; [now destruct (eqb k k')|].
  destruct (eqb k k'); cbn [map snd]; now rewrite IH.
Qed.

(** ** The whole comparison *)
Definition key_removals (l : reg_items) : list (list N * N) :=
  flat_map (fun e => match snd (fst e) with None => [(fst (fst e), it_hash (snd e))] | Some _ => [] end) l.
Definition value_removals (l : reg_items) : list (list N * list N * N) :=
  flat_map (fun e => match snd (fst e) with Some n => [(fst (fst e), n, it_hash (snd e))] | None => [] end) l.
Definition remove_keys (l : list (list N * N)) (m : amap (list N) (list key_node)) :=
  fold_left (fun m e => deleted_keys_remove (fst e) (snd e) m) l m.
Definition remove_values (l : list (list N * list N * N)) (m : amap (list N) (list key_value)) :=
  fold_left (fun m e => deleted_values_remove (fst (fst e)) (snd (fst e)) (snd e) m) l m.
Lemma remove_latest_fold l : forall st, fold_left remove_latest l st =
  set_deleted_values (remove_values (value_removals l) (st_deleted_values st))
    (set_deleted_keys (remove_keys (key_removals l) (st_deleted_keys st)) st).
Proof.
  induction l as [|e l IH]; intros st; cbn [fold_left]; [destruct st; reflexivity|]. rewrite IH.
  destruct e as [[p [n|]] it]; unfold remove_latest; cbn [fst snd]; destruct st; reflexivity.
Qed.
Definition gone_keys (fi : file_info) (st : state) (seq : N) (x : item_key * item) : list (list N * key_node) :=
  match snd (fst x) with
  | None => at_path (parent_of (fst (fst x))) (old_key fi st seq DeletedTransactionLog (fst (fst x)) (snd x))
  | Some _ => []
  end.
Definition gone_values (fi : file_info) (st : state) (seq : N) (x : item_key * item) : list (list N * key_value) :=
  match snd (fst x) with
  | None => []
  | Some _ => at_path (fst (fst x)) (old_value fi st seq DeletedTransactionLog (snd x))
  end.
Definition changed_keys (fi : file_info) (st : state) (seq : N) (x : item_key * item) : list (list N * key_node) :=
  if is_key x then at_path (fst (fst x)) (old_key fi st seq ModifiedTransactionLog (fst (fst x)) (snd x)) else [].
Definition changed_values (fi : file_info) (st : state) (seq : N) (x : item_key * item) : list (list N * list N * key_value) :=
  if is_key x then [] else map (fun v => ((fst (fst x), vd_name (kv_detail v)), v)) (old_value fi st seq ModifiedTransactionLog (snd x)).
Lemma flat_filter {A B} (f : A -> bool) (g : A -> list B) l :
  flat_map g (List.filter f l) = flat_map (fun x => if f x then g x else []) l.
Proof. induction l as [|x l IH]; [reflexivity|]. cbn [List.filter flat_map]. destruct (f x); cbn [flat_map]; now rewrite IH. Qed.
Lemma flat_map_map {A B C} (f : A -> B) (g : B -> list C) l : flat_map g (map f l) = flat_map (fun x => g (f x)) l.
Proof. induction l as [|x l IH]; [reflexivity|]. cbn. now rewrite IH. Qed.
Lemma flat_ext {A B} (f g : A -> list B) l : (forall x, f x = g x) -> flat_map f l = flat_map g l.
Proof. intros H. induction l as [|x l IH]; [reflexivity|]. cbn. now rewrite H, IH. Qed.

Lemma comparison order fuel fi seq p prior latest p' logs : get_latest_reg_items order fuel fi seq p prior = Ok (latest, p', logs) ->
  exists p1 ks prior' ch, init_root p = Ok p1 /\ ps_state p1 = ps_state p /\ iterate fuel p1 None false false false = Ok ks
  /\ Forall hashed ks /\ fold_left (step seq) (sightings ks) (prior, [], []) = (prior', latest, ch)
  /\ ps_file p' = ps_file p1
  /\ let st := ps_state p in let rest := order prior' in
     st_modified_keys (ps_state p') = pushes beq (flat_map (changed_keys fi st seq) ch) (st_modified_keys st)
  /\ st_modified_values (ps_state p') = pushes pair_eqb (flat_map (changed_values fi st seq) ch) (st_modified_values st)
  /\ st_deleted_keys (ps_state p') = remove_keys (key_removals (order latest)) (pushes beq (flat_map (gone_keys fi st seq) rest) (st_deleted_keys st))
  /\ st_deleted_values (ps_state p') = remove_values (value_removals (order latest)) (pushes beq (flat_map (gone_values fi st seq) rest) (st_deleted_values st)).
Proof.
  unfold get_latest_reg_items. destruct (init_root p) as [p1| | |] eqn:IR; try discriminate.
  assert (SP : ps_state p1 = ps_state p) by (apply init_root_ok in IR as (h & root & -> & _); reflexivity).
  destruct (iterate fuel p1 None false false false) as [ks| | |] eqn:IT; try discriminate.
  destruct (handle_keys seq ks prior [] [] [] []) as [r| | |] eqn:HK; try discriminate.
  apply (handle_keys_steps seq ks prior [] []) in HK as (prior' & lt & ch & lg & -> & F & H). cbv beta iota.
  set (st0 := ps_state p1). assert (A0 : agree false st0 st0) by apply agree_refl.
  match goal with |- match add_all ?f ?l st0 lg with _ => _ end = _ -> _ => destruct (add_all f l st0 lg) as [[st1 lg1]| | |] eqn:E1; try discriminate end.
  apply (add_all_fold _ (fun st n => add_keys false (at_path (nd_path n) (old_key fi st0 seq ModifiedTransactionLog (nd_path n) (mkItem 0 (nd_offset n) (nd_seq n)))) st) st0) in E1.
  2:{ intros st x A. pose proof (add_key_effect fi seq st st0 (nd_path x) (mkItem 0 (nd_offset x) (nd_seq x)) false _ A eq_refl) as E.
      cbn [it_offset it_seq] in E. destruct (add_full_key _ _ _ _ _ _ _); try exact I; [exact E|]. cbn [list_state] in E. rewrite E. destruct st; reflexivity. }
  2:{ intros; now apply agree_add_keys. } 2:{ exact A0. }
  rewrite fold_keys in E1. assert (A1 : agree false st1 st0) by (subst st1; now apply agree_add_keys).
  match goal with |- match add_all ?f ?l st1 lg1 with _ => _ end = _ -> _ => destruct (add_all f l st1 lg1) as [[st2 lg2]| | |] eqn:E2; try discriminate end.
  apply (add_all_fold _ (fun st n => add_mvalues (map (fun v => ((nd_path n, vd_name (kv_detail v)), v)) (old_value fi st0 seq ModifiedTransactionLog (mkItem 0 (nd_offset n) (nd_seq n)))) st) st0) in E2.
  2:{ intros st x A. pose proof (add_value_effect fi seq st st0 (nd_path x) (mkItem 0 (nd_offset x) (nd_seq x)) false _ A eq_refl) as E.
      cbn [it_offset it_seq] in E. destruct (add_full_value _ _ _ _ _ _ _); try exact I; [exact E|]. cbn [list_state] in E. rewrite E. destruct st; reflexivity. }
  2:{ intros; now apply agree_add_mvalues. } 2:{ exact A1. }
  rewrite fold_mvalues in E2. assert (A2 : agree false st2 st0) by (subst st2; now apply agree_add_mvalues).
  match goal with |- match add_all ?f ?l st2 lg2 with _ => _ end = _ -> _ => destruct (add_all f l st2 lg2) as [[st3 lg3]| | |] eqn:E3; try discriminate end.
  apply (add_all_fold _ (fun st x => add_dvalues (gone_values fi st0 seq x) (add_keys true (gone_keys fi st0 seq x) st)) st0) in E3.
  2:{ intros st [[pa [n|]] it] A; unfold gone_keys, gone_values; cbn [fst snd].
      - pose proof (add_value_effect fi seq st st0 pa it true _ A eq_refl) as E. cbn [list_state] in E.
        destruct (add_full_value _ _ _ _ _ _ _); try exact I; [rewrite E; destruct st; reflexivity|rewrite E; destruct st; reflexivity].
      - pose proof (add_key_effect fi seq st st0 pa it true _ A eq_refl) as E. cbn [list_state] in E.
        destruct (add_full_key _ _ _ _ _ _ _); try exact I; [rewrite E; destruct st; reflexivity|rewrite E; destruct st; reflexivity]. }
  2:{ intros; now apply agree_add_dvalues, agree_add_keys. } 2:{ exact A2. }
  rewrite fold_mixed in E3. rewrite remove_latest_fold. intros [= <- <- _].
  exists p1, ks, prior', ch. split; [reflexivity|]. split; [exact SP|]. split; [exact IT|]. split; [exact H|]. split; [exact F|]. split; [reflexivity|].
  cbv zeta. rewrite <- SP. fold st0. cbn [ps_set_state ps_state]. subst st3 st2 st1.
  unfold set_deleted_values, set_deleted_keys, add_dvalues, add_mvalues, add_keys, set_modified_keys, set_modified_values. cbn [st_modified_keys st_modified_values st_deleted_keys st_deleted_values].
  split; [|split; [|split; reflexivity]].
  - apply (f_equal (fun l => pushes beq l (st_modified_keys st0))). unfold key_needs. rewrite flat_map_map, flat_filter. apply flat_ext. intros [[pa [n|]] it]; reflexivity.
  - apply (f_equal (fun l => pushes pair_eqb l (st_modified_values st0))). unfold value_needs. rewrite flat_map_map, flat_filter. apply flat_ext. intros [[pa [n|]] it]; reflexivity.
Qed.
