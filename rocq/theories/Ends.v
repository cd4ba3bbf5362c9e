(** Whether noting earlier versions on a key comes to an end. *)
From Verif Require Import Base BaseFacts Util Types Value Node Recover NodeFrame Recovered.

(** The deleted keys noted on one key. *)
Fixpoint note (fuel : nat) (st : state) (o : N) (dks : list key_node) : res (list key_node) :=
  match dks with
  | [] => Ok []
  | dk :: r =>
      let* dk' := if kn_offset dk =? o then Ok dk else update_modified_lists fuel st dk in
      let* r' := note fuel st o r in
      Ok (dk' :: r')
  end.
Definition finish (st : state) (k : key_node) : key_node :=
  let path := lookup_path k in
  let k := match aget beq path (st_modified_keys st) with
           | None => k
           | Some ms => kn_set_versions (sort_by (fun a b => opt_le (kn_seq b) (kn_seq a)) ms) k
           end in
  let vs := map (fun v => match aget pair_eqb (path, vd_name (kv_detail v)) (st_modified_values st) with
                          | None => v
                          | Some ms => kv_set_versions (sort_by (fun a b => opt_le (kv_seq b) (kv_seq a)) ms) v
                          end) (kn_values k) in
  let dvs := match aget beq path (st_deleted_values st) with
             | None => []
             | Some dvs => sort_by (fun a b => str_le (vd_name (kv_detail a)) (vd_name (kv_detail b))) dvs
             end in
  kn_set_values (vs ++ dvs) k.
Lemma uml_eq fuel st k : update_modified_lists (S fuel) st k =
  if is_deleted_primary_file (kn_state k) then Ok k
  else match aget beq (lookup_path k) (st_deleted_keys st) with
       | None => Ok (finish st k)
       | Some dks => let* l := note fuel st (kn_offset k) dks in Ok (finish st (kn_set_deleted l k))
       end.
Proof.
  cbn [update_modified_lists]. destruct (is_deleted_primary_file (kn_state k)); [reflexivity|].
  destruct (aget beq (lookup_path k) (st_deleted_keys st)) as [dks|]; [|reflexivity].
  match goal with |- context [match (match ?g dks with _ => _ end) with _ => _ end] => set (go := g) end.
  assert (G : forall l, go l = note fuel st (kn_offset k) l).
  { induction l as [|x l IH]; [reflexivity|]. cbn [note]. rewrite <- IH. reflexivity. }
  rewrite G. destruct (note _ _ _ _); reflexivity.
Qed.
Lemma uml_total st : forall fuel k, (exists k', update_modified_lists fuel st k = Ok k') \/ update_modified_lists fuel st k = OutOfFuel.
Proof.
  induction fuel as [|fuel IH]; intros k; [now right|]. rewrite uml_eq. destruct (is_deleted_primary_file _); [eauto|].
  destruct (aget _ _ _) as [dks|]; [|eauto].
  assert (N : (exists l, note fuel st (kn_offset k) dks = Ok l) \/ note fuel st (kn_offset k) dks = OutOfFuel).
  { induction dks as [|d r IR]; cbn [note]; [eauto|].
    assert (X : (exists d', (if kn_offset d =? kn_offset k then Ok d else update_modified_lists fuel st d) = Ok d')
      \/ (if kn_offset d =? kn_offset k then Ok d else update_modified_lists fuel st d) = OutOfFuel) by (destruct (_ =? _); eauto).
    destruct X as [(d' & ->)| ->]; [|now right]. destruct IR as [(r' & ->)| ->]; [eauto|now right]. }
  destruct N as [(l & ->)| ->]; eauto.
Qed.
Lemma note_stuck fuel st o d dks : In d dks -> kn_offset d <> o -> update_modified_lists fuel st d = OutOfFuel ->
  note fuel st o dks = OutOfFuel.
Proof.
  intros I NE U. induction dks as [|x r IH]; [contradiction|]. cbn [note].
  destruct I as [->|I].
  - apply N.eqb_neq in NE. now rewrite NE, U.
  - assert (X : (exists d', (if kn_offset x =? o then Ok x else update_modified_lists fuel st x) = Ok d')
      \/ (if kn_offset x =? o then Ok x else update_modified_lists fuel st x) = OutOfFuel).
    { destruct (_ =? _); [eauto|]. apply uml_total. }
    destruct X as [(x' & ->)| ->]; [|reflexivity]. now rewrite IH.
Qed.

(** Two keys flagged as roots that a log has deleted, at two places, are noted on
    each other without end. *)
Definition noted_root (st : state) (d : key_node) : Prop :=
  (exists dks, aget beq [] (st_deleted_keys st) = Some dks /\ In d dks)
  /\ is_deleted_primary_file (kn_state d) = false /\ is_key_root d = true.
Lemma two_roots_stuck st d1 d2 : noted_root st d1 -> noted_root st d2 -> kn_offset d1 <> kn_offset d2 ->
  forall fuel k, is_deleted_primary_file (kn_state k) = false -> is_key_root k = true -> update_modified_lists fuel st k = OutOfFuel.
Proof.
  intros ((dks & A & I1) & P1 & R1) ((dks' & A' & I2) & P2 & R2) NE. rewrite A in A'. injection A' as <-.
  induction fuel as [|fuel IH]; intros k P R; [reflexivity|]. rewrite uml_eq, P. unfold lookup_path. rewrite R, A.
  destruct (N.eq_dec (kn_offset d1) (kn_offset k)) as [E|E].
  - rewrite (note_stuck fuel st (kn_offset k) d2 dks); [reflexivity|exact I2|congruence|]. now apply IH.
  - rewrite (note_stuck fuel st (kn_offset k) d1 dks); [reflexivity|exact I1|exact E|]. now apply IH.
Qed.

(** ** When it ends *)
(** Nothing that a log deleted is flagged as a root; its path is longer than the
    one it is stored under. *)
Definition orderly (st : state) : Prop :=
  forall path dks d, aget beq path (st_deleted_keys st) = Some dks -> In d dks ->
  kn_deleted d = [] /\ (is_deleted_primary_file (kn_state d) = true \/ (len path < len (kn_path d) /\ is_key_root d = false)).
Definition levels {A} (n : N) (m : amap (list N) A) : nat := length (List.filter (fun e => n <=? len (fst e)) m).
Lemma levels_le {A} n n' (m : amap (list N) A) : n <= n' -> (levels n' m <= levels n m)%nat.
Proof.
  intros L. unfold levels. induction m as [|e m IH]; [reflexivity|]. cbn [List.filter].
  destruct (N.leb_spec n' (len (fst e))), (N.leb_spec n (len (fst e))); cbn [length]; lia.
Qed.
Lemma levels_lt {A} n' path (m : amap (list N) A) x : aget beq path m = Some x -> len path < n' -> (levels n' m < levels (len path) m)%nat.
Proof.
  intros G L. induction m as [|[q y] m IH]; [discriminate|]. cbn [aget] in G. unfold levels in *. cbn [List.filter fst].
  destruct (beq path q) eqn:B.
  - apply beq_eq in B as <-. destruct (N.leb_spec n' (len path)); [lia|]. destruct (N.leb_spec (len path) (len path)); [|lia]. cbn [length].
    pose proof (levels_le (len path) n' m ltac:(lia)) as X. unfold levels in X. lia.
  - specialize (IH G). destruct (N.leb_spec n' (len q)), (N.leb_spec (len path) (len q)); cbn [length]; lia.
Qed.
Lemma levels_all {A} n (m : amap (list N) A) : (levels n m <= length m)%nat.
Proof. unfold levels. induction m as [|e m IH]; [reflexivity|]. cbn [List.filter]. destruct (_ <=? _); cbn [length]; lia. Qed.
Lemma uml_ends st : orderly st -> forall fuel k, (levels (len (lookup_path k)) (st_deleted_keys st) < fuel)%nat ->
  exists k', update_modified_lists fuel st k = Ok k'.
Proof.
  intros O. induction fuel as [|fuel IH]; intros k L; [lia|]. rewrite uml_eq. destruct (is_deleted_primary_file _); [eauto|].
  destruct (aget beq (lookup_path k) (st_deleted_keys st)) as [dks|] eqn:A; [|eauto].
  assert (X : exists l, note fuel st (kn_offset k) dks = Ok l).
  { assert (F : Forall (fun d => exists d', (if kn_offset d =? kn_offset k then Ok d else update_modified_lists fuel st d) = Ok d') dks).
    { apply Forall_forall. intros d I. destruct (kn_offset d =? kn_offset k); [eauto|]. destruct (O _ _ _ A I) as (_ & [P|(LT & R)]).
      - destruct fuel as [|fuel]; [|rewrite uml_eq, P; eauto].
        exfalso. pose proof (levels_lt (N.succ (len (lookup_path k))) _ _ _ A ltac:(lia)). lia.
      - apply IH. unfold lookup_path at 1. rewrite R. pose proof (levels_lt _ _ _ _ A LT). lia. }
    clear -F. induction F as [|d r (d' & E) F (r' & IH)]; cbn [note]; [eauto|]. rewrite E, IH. eauto. }
  destruct X as (l & ->). eauto.
Qed.
Lemma uml_enough st k : orderly st -> exists k', update_modified_lists (uml_fuel st) st k = Ok k'.
Proof. intros O. apply (uml_ends st O). unfold uml_fuel. pose proof (levels_all (len (lookup_path k)) (st_deleted_keys st)). lia. Qed.

(** ** How many keys are noted *)
Fixpoint weight (k : key_node) : nat := S (list_sum (map weight (kn_deleted k))).
Definition weights (ks : list key_node) : nat := list_sum (map weight ks).
Lemma weight_eq k : weight k = S (weights (kn_deleted k)).
Proof. destruct k. reflexivity. Qed.
Lemma weights_app a b : weights (a ++ b) = (weights a + weights b)%nat.
Proof. unfold weights. now rewrite map_app, list_sum_app. Qed.
Lemma weights_cons k b : weights (k :: b) = (weight k + weights b)%nat.
Proof. reflexivity. Qed.
Lemma weight_same k k' : kn_deleted k' = kn_deleted k -> weight k' = weight k.
Proof. intros E. now rewrite !weight_eq, E. Qed.
Definition stored (st : state) : nat := list_sum (map (fun e => length (snd e)) (st_deleted_keys st)).
Lemma stored_le st path dks : aget beq path (st_deleted_keys st) = Some dks -> (length dks <= stored st)%nat.
Proof.
  unfold stored. induction (st_deleted_keys st) as [|[q l] m IH]; [discriminate|]. cbn [aget map list_sum fold_right snd].
  destruct (beq path q); [intros [= <-]; lia|]. intros G. specialize (IH G). unfold list_sum in IH. lia.
Qed.
Fixpoint heaviest (d n : nat) : nat := match n with O => 1 | S n => S (d * heaviest d n) end.
Lemma heaviest_pos d n : (1 <= heaviest d n)%nat.
Proof. destruct n; cbn; lia. Qed.
Definition plain_map (st : state) : Prop := forall path dks d, aget beq path (st_deleted_keys st) = Some dks -> In d dks -> kn_deleted d = [].
Lemma finish_deleted st k : kn_deleted (finish st k) = kn_deleted k.
Proof. unfold finish. cbv zeta. cbn [kn_set_values kn_deleted]. destruct (aget beq _ (st_modified_keys st)); reflexivity. Qed.
Lemma uml_weight st : plain_map st -> forall fuel k k', kn_deleted k = [] -> update_modified_lists fuel st k = Ok k' ->
  (weight k' <= heaviest (stored st) fuel)%nat.
Proof.
  intros PM. induction fuel as [|fuel IH]; intros k k' D; [discriminate|]. rewrite uml_eq.
  assert (W1 : forall x, kn_deleted x = [] -> (weight x <= heaviest (stored st) (S fuel))%nat).
  { intros x E. rewrite weight_eq, E. cbn. lia. }
  destruct (is_deleted_primary_file _); [intros [= <-]; now apply W1|].
  destruct (aget beq (lookup_path k) (st_deleted_keys st)) as [dks|] eqn:A.
  2:{ intros [= <-]. apply W1. now rewrite finish_deleted. }
  destruct (note fuel st (kn_offset k) dks) as [l| | |] eqn:N; try discriminate. intros [= <-].
  rewrite weight_eq, finish_deleted. cbn [kn_set_deleted kn_deleted heaviest].
  assert (X : (weights l <= length dks * heaviest (stored st) fuel)%nat).
  { assert (P : forall d, In d dks -> kn_deleted d = []) by (intros d; now apply (PM _ _ _ A)). clear A. revert l N P.
    induction dks as [|d r IR]; intros l N P; cbn [note] in N; [injection N as <-; cbn; lia|].
    destruct (if kn_offset d =? kn_offset k then Ok d else update_modified_lists fuel st d) as [d'| | |] eqn:E; try discriminate.
    destruct (note fuel st (kn_offset k) r) as [r'| | |] eqn:NR; try discriminate. injection N as <-.
    rewrite weights_cons. specialize (IR r' eq_refl (fun x I => P x (or_intror I))).
    assert (WD : (weight d' <= heaviest (stored st) fuel)%nat).
    { specialize (P d (or_introl eq_refl)). destruct (_ =? _) in E; [|now apply (IH d)]. injection E as <-. rewrite weight_eq, P. pose proof (heaviest_pos (stored st) fuel). cbn. lia. }
    cbn [length]. lia. }
  pose proof (stored_le _ _ _ A). nia.
Qed.
