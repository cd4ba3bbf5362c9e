(** Proofs about runs over folders. *)
From Coq Require Import String.
From Verif Require Import Base BaseFacts Util UtilSpec UtilText Types Log StoreFacts Folder FolderSpec.
Open Scope string_scope.
Open Scope N_scope.
Open Scope list_scope.

(** ** Names *)
Lemma lower_same a b : lower a = lower b <-> same_letter a b.
Proof.
  unfold lower, same_letter. destruct (N.leb_spec 65 a), (N.leb_spec a 90), (N.leb_spec 65 b), (N.leb_spec b 90); cbn [andb]; lia.
Qed.
Lemma to_lower_same a : forall b, to_lower a = to_lower b <-> same_name a b.
Proof.
  unfold to_lower, same_name. induction a as [|x a IH]; intros [|y b]; cbn [map]; split; intros H; try discriminate; try (now inversion H); try constructor.
  - apply lower_same. now injection H.
  - apply IH. now injection H.
  - inversion H; subst. f_equal; [now apply lower_same|now apply IH].
Qed.
Lemma reg_lower : reg_files = map to_lower hive_names. Proof. vm_compute. reflexivity. Qed.
Lemma path_cases (p : path) : p = [] \/ exists dirs name, p = dirs ++ [name].
Proof. destruct p as [|x p]; [now left|right]. destruct (@exists_last _ (x :: p)) as (d & n & E); [discriminate|]. now exists d, n. Qed.
Lemma last_snoc {A} (l : list A) x d : List.last (l ++ [x]) d = x. Proof. apply last_last. Qed.
Lemma snoc_inj {A} (a b : list A) x y : a ++ [x] = b ++ [y] -> a = b /\ x = y. Proof. apply app_inj_tail. Qed.
Lemma reg_name p : is_reg_file p = true <-> exists dirs name n, p = dirs ++ [name] /\ In n hive_names /\ same_name name n.
Proof.
  unfold is_reg_file. rewrite existsb_exists, reg_lower. split.
  - intros (x & I & E). apply beq_eq in E. apply in_map_iff in I as (n & <- & I). destruct (path_cases p) as [->|(dirs & name & ->)].
    + cbn [List.last] in E. unfold hive_names in I. cbn [map In] in I. repeat (destruct I as [<-|I]; [discriminate E|]). contradiction.
    + rewrite last_snoc in E. exists dirs, name, n. split; [reflexivity|]. split; [exact I|]. now apply to_lower_same.
  - intros (dirs & name & n & -> & I & S0). exists (to_lower n). rewrite last_snoc. split; [now apply in_map|]. apply beq_eq. now apply to_lower_same.
Qed.
Lemma hive_iff p b : is_reg_file p && file_has_size b = true <-> hive_file p b.
Proof.
  unfold hive_file. rewrite andb_true_iff, reg_name. unfold file_has_size. destruct b as [|x b].
  - split; [intros (_ & H); discriminate H|intros (H & _); now contradiction H].
  - rewrite len_cons. destruct (N.eqb_spec (len b + 1) 0); [lia|]. cbn [negb]. split; [intros (A & _); split; [discriminate|exact A]|tauto].
Qed.

(** ** Logs *)
Lemma path_eqb_eq a : forall b, path_eqb a b = true <-> a = b.
Proof.
  induction a as [|x a IH]; intros [|y b]; cbn [path_eqb]; split; intros H; try discriminate; try reflexivity.
  - apply andb_true_iff in H as (A & B). apply beq_eq in A. apply IH in B. congruence.
  - injection H as -> ->. now rewrite beq_refl, (proj2 (IH b)).
Qed.
Lemma log_name_of n e : get_log_name n e = log_of n e.
Proof. unfold get_log_name, log_of. destruct (beq n (text "NTUSER.DAT")); [reflexivity|]. now destruct (beq n (text "UsrClass.DAT")). Qed.
Lemma read_in f p : file_in f p (match read_file p f with Some b => [b] | None => [] end).
Proof.
  unfold read_file. destruct (aget path_eqb p f) eqn:E.
  - apply (aget_in path_eqb path_eqb_eq) in E. now constructor.
  - apply (aget_none path_eqb path_eqb_eq) in E. now constructor.
Qed.
Lemma read_one f p b : NoDup (map fst f) -> In (p, b) f -> read_file p f = Some b.
Proof.
  unfold read_file. induction f as [|[q c] f IH]; cbn [map fst In aget]; [tauto|]. intros ND I. inversion ND; subst. destruct I as [I|I].
  - injection I as -> ->. now rewrite (proj2 (path_eqb_eq p p)).
  - destruct (path_eqb p q) eqn:E; [|now apply IH]. apply path_eqb_eq in E. subst q. exfalso. apply H1. now apply (in_map fst) in I.
Qed.
Lemma logs_given f dirs name : exists logs, get_log_files false f (dirs ++ [name]) = Some logs /\ logs_beside f (dirs ++ [name]) logs.
Proof.
  unfold get_log_files, check_add_log. rewrite removelast_last, last_snoc, !log_name_of. eexists. split; [reflexivity|].
  exists dirs, name, (match read_file (dirs ++ [log_of name (text "LOG1")]) f with Some b => [b] | None => [] end),
    (match read_file (dirs ++ [log_of name (text "LOG2")]) f with Some b => [b] | None => [] end).
  split; [reflexivity|]. split; [apply read_in|]. split; [apply read_in|]. destruct (read_file _ f), (read_file _ f); reflexivity.
Qed.
Lemma file_one f p l1 l2 : NoDup (map fst f) -> file_in f p l1 -> file_in f p l2 -> l1 = l2.
Proof.
  intros ND [b I|I] [c J|J]; try reflexivity.
  - apply (read_one _ _ _ ND) in I. apply (read_one _ _ _ ND) in J. congruence.
  - apply (in_map fst) in I. contradiction.
  - apply (in_map fst) in J. contradiction.
Qed.
Lemma logs_one f p l1 l2 : NoDup (map fst f) -> logs_beside f p l1 -> logs_beside f p l2 -> l1 = l2.
Proof.
  intros ND (d & n & a & b & -> & A & B & ->) (d' & n' & a' & b' & E & A' & B' & ->). apply snoc_inj in E as (<- & <-).
  now rewrite (file_one _ _ _ _ ND A A'), (file_one _ _ _ _ ND B B').
Qed.

(** ** Outputs *)
Definition stem (s : list N) : list N := match before_last_dot s with Some b => b | None => s end.
Lemma no_dot s : ~ In 46 s -> before_last_dot s = None.
Proof. induction s as [|c s IH]; [reflexivity|]. cbn [In before_last_dot]. intros H. rewrite IH by tauto. destruct (N.eqb_spec c 46); [exfalso; apply H; now left|reflexivity]. Qed.
Lemma one_dot a e : ~ In 46 e -> before_last_dot (a ++ [46] ++ e) = Some a.
Proof. intros H. induction a as [|c a IH]; cbn [app before_last_dot]; [now rewrite (no_dot e H)|]. cbn [app] in IH. now rewrite IH. Qed.
Lemma lower_dot c : (lower c =? 46) = (c =? 46).
Proof. unfold lower. destruct (N.leb_spec 65 c), (N.leb_spec c 90); cbn [andb]; destruct (N.eqb_spec c 46); try lia; try reflexivity; destruct (N.eqb_spec (c + 32) 46); lia || reflexivity. Qed.
Lemma lower_before s : before_last_dot (to_lower s) = option_map to_lower (before_last_dot s).
Proof. induction s as [|c s IH]; [reflexivity|]. cbn [to_lower map before_last_dot]. fold (to_lower s). rewrite IH. destruct (before_last_dot s); [reflexivity|]. cbn [option_map]. rewrite lower_dot. now destruct (c =? 46). Qed.
Lemma lower_stem s : to_lower (stem s) = stem (to_lower s).
Proof. unfold stem. rewrite lower_before. now destruct (before_last_dot s). Qed.
Lemma lower_in c s : (c < 65 \/ 90 < c < 97 \/ 122 < c) -> In c s -> In c (to_lower s).
Proof. intros B I. unfold to_lower. apply in_map_iff. exists c. split; [|exact I]. unfold lower. destruct (N.leb_spec 65 c), (N.leb_spec c 90); cbn [andb]; lia. Qed.
(** What the eight names have in common. *)
Lemma hive_name name n : In n hive_names -> same_name name n ->
  ~ In 47 name /\ ~ In 95 name /\ stem name <> [] /\ (name = stem name \/ exists e, name = stem name ++ [46] ++ e /\ ~ In 46 e) /\ ~ In 46 (stem name)
  /\ (before_last_dot name = None \/ before_last_dot name = Some (stem name)).
Proof.
  intros I S0. apply to_lower_same in S0. assert (L : In (to_lower name) reg_files) by (rewrite reg_lower, S0; now apply in_map). clear n I S0.
  assert (T : forall c, (c < 65 \/ 90 < c < 97 \/ 122 < c) -> ~ In c (to_lower name) -> ~ In c name) by (intros c B H X; apply H; now apply lower_in).
  assert (X : forall l, In l reg_files -> forallb (fun c => negb ((c =? 47) || (c =? 95))) l && negb (len (stem l) =? 0) && forallb (fun c => negb (c =? 46)) (stem l) = true).
  { apply forallb_forall. vm_compute. reflexivity. }
  specialize (X _ L). rewrite !andb_true_iff, !forallb_forall in X. destruct X as ((X1 & X2) & X3).
  assert (SD : ~ In 46 (stem name)).
  { intros H. apply (lower_in 46) in H; [|lia]. rewrite lower_stem in H. apply X3 in H. discriminate H. }
  split; [apply T; [lia|]; intros H; apply X1 in H; discriminate H|]. split; [apply T; [lia|]; intros H; apply X1 in H; discriminate H|].
  split; [intros H; rewrite <- lower_stem, H in X2; discriminate X2|]. split; [|split; [exact SD|unfold stem; destruct (before_last_dot name); tauto]].
  unfold stem in *. destruct (before_last_dot name) as [b|] eqn:E; [|now left]. right.
  clear - E. revert b E. induction name as [|c s IH]; intros b E; [discriminate E|]. cbn [before_last_dot] in E. destruct (before_last_dot s) as [b'|] eqn:E1.
  - injection E as <-. destruct (IH b' eq_refl) as (e & A & B). exists e. split; [now rewrite A at 1|exact B].
  - destruct (N.eqb_spec c 46) as [->|]; [|discriminate E]. injection E as <-. exists s. split; [reflexivity|]. clear - E1. induction s as [|c s IH]; [easy|].
    cbn [before_last_dot] in E1. destruct (before_last_dot s); [discriminate E1|]. destruct (N.eqb_spec c 46); [discriminate E1|]. cbn [In]. intros [H|H]; [congruence|now apply IH].
Qed.
Lemma stem_inj a b : In a reg_files -> In b reg_files -> stem a = stem b -> a = b.
Proof.
  intros A B E. assert (X : forall a, In a reg_files -> forallb (fun b => negb (beq (stem a) (stem b)) || beq a b) reg_files = true).
  { apply forallb_forall. vm_compute. reflexivity. }
  specialize (X a A). rewrite forallb_forall in X. specialize (X b B). rewrite E, beq_refl in X. now apply beq_eq in X.
Qed.
Lemma before_app pre s : ~ In 46 pre -> before_last_dot (pre ++ s) = option_map (app pre) (before_last_dot s).
Proof.
  induction pre as [|c pre IH]; cbn [app before_last_dot In]; intros H; [now destruct (before_last_dot s)|]. rewrite IH by tauto.
  destruct (before_last_dot s); [reflexivity|]. cbn [option_map]. destruct (N.eqb_spec c 46); [exfalso; apply H; now left|reflexivity].
Qed.
Lemma map_id {A} (f : A -> A) l : (forall x, In x l -> f x = x) -> map f l = l.
Proof. intros H. rewrite <- (List.map_id l) at 2. now apply map_ext_in. Qed.
Lemma printed_flat dirs name : Forall (fun d => ~ In 46 d /\ ~ In 95 d /\ ~ In 47 d) dirs -> ~ In 47 name ->
  map (fun c => if c =? 47 then 95 else c) (printed (dirs ++ [name])) = flat_map (fun d => d ++ [95]) dirs ++ name.
Proof.
  set (f := fun c => if c =? 47 then 95 else c). intros F NN. assert (K : forall s, ~ In 47 s -> map f s = s).
  { intros s H. apply map_id. intros x I. unfold f. destruct (N.eqb_spec x 47); [subst; contradiction|reflexivity]. }
  induction F as [|d dirs (D1 & D2 & D3) F IH]; [now apply K|]. cbn [app flat_map].
  assert (E : printed (d :: dirs ++ [name]) = d ++ [47] ++ printed (dirs ++ [name])) by (now destruct dirs).
  rewrite E, !map_app, (K d D3), IH, <- !app_assoc. reflexivity.
Qed.
Lemma out_named p b e : hive_file p b -> plain_dirs p -> named_after p e (get_outpath p e).
Proof.
  intros (_ & dirs & name & n & -> & I & S0) PD. specialize (PD dirs name eq_refl). destruct (hive_name name n I S0) as (H1 & H2 & H3 & H4 & H5 & H6).
  exists dirs, name, (stem name). split; [reflexivity|]. split; [exact H5|]. split; [exact H4|].
  unfold get_outpath. rewrite printed_flat by assumption. unfold set_extension. rewrite before_app.
  2:{ intros X. apply in_flat_map in X as (d & D1 & D2). rewrite Forall_forall in PD. specialize (PD d D1). apply in_app_or in D2 as [D2|D2]; [tauto|]. cbn in D2. destruct D2 as [D2|[]]. discriminate D2. }
  destruct H6 as [E|E].
  - unfold stem. rewrite E. cbn [option_map]. now rewrite <- app_assoc.
  - rewrite E. cbn [option_map]. destruct (flat_map (fun d => d ++ [95]) dirs ++ stem name) as [|c r] eqn:Q; [|rewrite <- Q; now rewrite <- app_assoc].
    apply app_eq_nil in Q as (_ & Q). contradiction.
Qed.
Lemma pieces_inj (d1 : list (list N)) : forall d2 s1 s2, Forall (fun d => ~ In 95 d) d1 -> Forall (fun d => ~ In 95 d) d2 -> ~ In 95 s1 -> ~ In 95 s2 ->
  flat_map (fun d => d ++ [95]) d1 ++ s1 = flat_map (fun d => d ++ [95]) d2 ++ s2 -> d1 = d2 /\ s1 = s2.
Proof.
  assert (SP : forall (a b r s : list N), ~ In 95 a -> ~ In 95 b -> a ++ 95 :: r = b ++ 95 :: s -> a = b /\ r = s).
  { induction a as [|x a IH]; intros [|y b] r s A B E; cbn [app In] in *.
    - injection E as ->. auto.
    - injection E as <- _. tauto.
    - injection E as -> _. tauto.
    - injection E as -> E. destruct (IH b r s) as (-> & ->); tauto. }
  assert (NO : forall (a r s : list N), ~ In 95 s -> a ++ 95 :: r <> s) by (intros a r s H <-; apply H, in_or_app; right; now left).
  induction d1 as [|x d1 IH]; intros [|y d2] s1 s2 F1 F2 N1 N2 E; cbn [flat_map app] in E; rewrite <- ?app_assoc in E; cbn [app] in E.
  - auto.
  - symmetry in E. now apply NO in E.
  - now apply NO in E.
  - inversion F1; inversion F2; subst. apply SP in E as (-> & E); try assumption. destruct (IH d2 s1 s2) as (-> & ->); auto.
Qed.
Lemma stem_unique name st : ~ In 46 st -> name = st \/ (exists e, name = st ++ [46] ++ e /\ ~ In 46 e) -> st = stem name.
Proof. intros ND [->|(e & -> & NE)]; unfold stem; [now rewrite no_dot|now rewrite one_dot]. Qed.
Lemma named_inj p1 b1 p2 b2 e out : hive_file p1 b1 -> hive_file p2 b2 -> plain_dirs p1 -> plain_dirs p2 -> named_after p1 e out -> named_after p2 e out ->
  exists dirs n1 n2, p1 = dirs ++ [n1] /\ p2 = dirs ++ [n2] /\ same_name n1 n2.
Proof.
  intros (_ & d1 & n1 & m1 & -> & I1 & S1) (_ & d2 & n2 & m2 & -> & I2 & S2) P1 P2 (x1 & y1 & z1 & E1 & A1 & B1 & ->) (x2 & y2 & z2 & E2 & A2 & B2 & E).
  apply snoc_inj in E1 as (<- & <-). apply snoc_inj in E2 as (<- & <-). specialize (P1 _ _ eq_refl). specialize (P2 _ _ eq_refl).
  apply stem_unique in B1; [|exact A1]. apply stem_unique in B2; [|exact A2]. subst z1 z2.
  destruct (hive_name n1 m1 I1 S1) as (_ & U1 & _). destruct (hive_name n2 m2 I2 S2) as (_ & U2 & _).
  assert (US : forall n, ~ In 95 n -> ~ In 95 (stem n)).
  { intros n U X. apply U. unfold stem in X. destruct (before_last_dot n) as [b|] eqn:Q; [|exact X]. clear - X Q. revert b X Q. induction n as [|c n IH]; intros b X Q; [discriminate Q|].
    cbn [before_last_dot] in Q. destruct (before_last_dot n) as [b'|]; [injection Q as <-|destruct (c =? 46); [injection Q as <-; contradiction X|discriminate Q]].
    destruct X as [X|X]; [now left|right; now apply (IH b')]. }
  rewrite !(app_assoc (flat_map _ _)) in E. apply app_inv_tail in E. apply pieces_inj in E as (<- & E); [|eapply Forall_impl; [|exact P1]; cbv beta; tauto|eapply Forall_impl; [|exact P2]; cbv beta; tauto|now apply US|now apply US].
  exists d1, n1, n2. split; [reflexivity|]. split; [reflexivity|]. apply to_lower_same. apply stem_inj.
  - rewrite reg_lower, (proj2 (to_lower_same n1 m1) S1). now apply in_map.
  - rewrite reg_lower, (proj2 (to_lower_same n2 m2) S2). now apply in_map.
  - now rewrite <- !lower_stem, E.
Qed.
Lemma names_differ f e p1 b1 p2 b2 out : plain_folder f -> In (p1, b1) f -> In (p2, b2) f -> hive_file p1 b1 -> hive_file p2 b2 ->
  named_after p1 e out -> named_after p2 e out -> p1 = p2.
Proof.
  intros (ND & PD & SN) I1 I2 H1 H2 N1 N2. destruct (named_inj p1 b1 p2 b2 e out H1 H2 (PD _ _ I1 H1) (PD _ _ I2 H2) N1 N2) as (dirs & n1 & n2 & -> & -> & S0).
  now rewrite (SN dirs n1 n2 b1 b2 I1 I2 H1 H2 S0).
Qed.

(** ** Runs *)
Section Writes.
Context {A : Type} (job : A -> option (list N * list N)).
Definition step (outs : amap (list N) (list N)) (e : A) := match job e with Some (o, out) => aset beq o out outs | None => outs end.
Lemma writes_other l : forall outs o, (forall e out, In e l -> job e = Some (o, out) -> False) -> output (fold_left step l outs) o = output outs o.
Proof.
  induction l as [|e l IH]; intros outs o H; cbn [fold_left]; [reflexivity|]. rewrite IH by (intros e' out I; apply H; now right).
  unfold step. destruct (job e) as [[o' out]|] eqn:E; [|reflexivity]. unfold output. rewrite (aget_aset beq beq_iff).
  destruct (beq o o') eqn:B; [|reflexivity]. apply beq_eq in B. subst o'. exfalso. now apply (H e out (or_introl eq_refl)).
Qed.
Lemma writes_own l : forall outs e o out, In e l -> job e = Some (o, out) -> (forall e' out', In e' l -> job e' = Some (o, out') -> out' = out) ->
  output (fold_left step l outs) o = Some out.
Proof.
  induction l as [|e0 l IH]; intros outs e o out I J H; [contradiction|]. cbn [fold_left].
  destruct (List.existsb (fun x => match job x with Some (o', _) => beq o o' | None => false end) l) eqn:X.
  - apply existsb_exists in X as (x & X1 & X2). destruct (job x) as [[o' ox]|] eqn:JX; [|discriminate X2]. apply beq_eq in X2. subst o'.
    assert (ox = out) by (apply (H x ox); [now right|exact JX]). subst ox. apply (IH _ x o out X1 JX). intros e' out' I'. apply H. now right.
  - assert (NX : forall x out', In x l -> job x = Some (o, out') -> False).
    { intros x out' I' J'. apply not_true_iff_false in X. apply X. apply existsb_exists. exists x. split; [exact I'|]. rewrite J'. apply beq_refl. }
    destruct I as [<-|I]; [|exfalso; exact (NX _ _ I J)]. rewrite (writes_other l _ o NX). unfold step. rewrite J. unfold output. rewrite (aget_aset beq beq_iff). now rewrite beq_refl.
Qed.
Lemma writes_only l : forall outs o, output (fold_left step l outs) o <> output outs o -> exists e out, In e l /\ job e = Some (o, out).
Proof.
  intros outs o H. destruct (List.existsb (fun x => match job x with Some (o', _) => beq o o' | None => false end) l) eqn:X.
  - apply existsb_exists in X as (x & X1 & X2). destruct (job x) as [[o' ox]|] eqn:JX; [|discriminate X2]. apply beq_eq in X2. subst o'. now exists x, ox.
  - exfalso. apply H. apply writes_other. intros x out' I' J'. apply not_true_iff_false in X. apply X. apply existsb_exists. exists x. split; [exact I'|]. rewrite J'. apply beq_refl.
Qed.
End Writes.
Definition or_none (o : option (list (list N))) : list (list N) := match o with Some l => l | None => [] end.
Definition dump_job dump skip_logs extension f (e : path * list N) : option (list N * list N) :=
  if is_reg_file (fst e) && file_has_size (snd e) then
    match dump (snd e) (or_none (get_log_files skip_logs f (fst e))) with Some out => Some (get_outpath (fst e) extension, out) | None => None end
  else None.
Lemma fold_ext {A B} (f g : A -> B -> A) l : (forall a b, f a b = g a b) -> forall a, fold_left f l a = fold_left g l a.
Proof. intros H. induction l as [|x l IH]; intros a; [reflexivity|]. cbn [fold_left]. now rewrite H, IH. Qed.
Lemma folder_jobs dump skip_logs extension f outs : process_folder dump skip_logs extension f outs = fold_left (step (dump_job dump skip_logs extension f)) f outs.
Proof.
  unfold process_folder. apply fold_ext. intros o e. unfold step, dump_job. destruct (is_reg_file (fst e) && file_has_size (snd e)); [|reflexivity].
  fold (or_none (get_log_files skip_logs f (fst e))). now destruct (dump _ _).
Qed.
Lemma used_or_none skip f p b : hive_file p b -> used_logs skip f p (or_none (get_log_files skip f p)).
Proof.
  intros (_ & d & n & _ & -> & _). destruct skip; [reflexivity|]. destruct (logs_given f d n) as (logs & E & L). rewrite E. exact L.
Qed.
Lemma folder_run dump skip_logs extension f outs : plain_folder f ->
  (forall p b logs, In (p, b) f -> hive_file p b -> used_logs skip_logs f p logs -> exists o, named_after p extension o
     /\ output (process_folder dump skip_logs extension f outs) o = match dump b logs with Some out => Some out | None => output outs o end)
  /\ (forall o, output (process_folder dump skip_logs extension f outs) o <> output outs o -> exists p b, In (p, b) f /\ hive_file p b /\ named_after p extension o).
Proof.
  intros PF. pose proof PF as (ND & PD & SN). rewrite folder_jobs.
  assert (JB : forall e o out, In e f -> dump_job dump skip_logs extension f e = Some (o, out) -> hive_file (fst e) (snd e) /\ named_after (fst e) extension o
    /\ dump (snd e) (or_none (get_log_files skip_logs f (fst e))) = Some out).
  { intros [p b] o out I J. unfold dump_job in J. cbn [fst snd] in *. destruct (is_reg_file p && file_has_size b) eqn:H; [|discriminate J]. apply hive_iff in H.
    destruct (dump b _) eqn:D; [|discriminate J]. injection J as <- <-. split; [exact H|]. split; [apply (out_named p b); [exact H|now apply (PD p b)]|reflexivity]. }
  split.
  - intros p b logs I H U. exists (get_outpath p extension). pose proof (out_named p b extension H (PD p b I H)) as NM. split; [exact NM|].
    assert (LG : or_none (get_log_files skip_logs f p) = logs).
    { pose proof (used_or_none skip_logs f p b H) as U'. destruct skip_logs; cbn [used_logs] in *; [congruence|]. exact (logs_one f p _ _ ND U' U). }
    assert (UN : forall e out', In e f -> dump_job dump skip_logs extension f e = Some (get_outpath p extension, out') -> e = (p, b)).
    { intros e out' I' J. destruct (JB _ _ _ I' J) as (H' & N' & _). destruct e as [q c]. cbn [fst snd] in *.
      assert (q = p) by (eapply names_differ; eassumption). subst q. f_equal. apply (read_one f p c ND) in I'. apply (read_one f p b ND) in I. congruence. }
    assert (JP : dump_job dump skip_logs extension f (p, b) = match dump b logs with Some out => Some (get_outpath p extension, out) | None => None end).
    { unfold dump_job. cbn [fst snd]. rewrite (proj2 (hive_iff p b) H), LG. reflexivity. }
    destruct (dump b logs) as [out|].
    + apply (writes_own _ f outs (p, b)); [exact I|exact JP|]. intros e' out' I' J'. rewrite (UN e' out' I' J'), JP in J'. congruence.
    + apply writes_other. intros e' out' I' J'. rewrite (UN e' out' I' J'), JP in J'. discriminate J'.
  - intros o X. apply writes_only in X as ([p b] & out & I & J). destruct (JB _ _ _ I J) as (H & NM & _). now exists p, b.
Qed.
Definition compare_job compare skip_logs extension base comparison (e : path * list N) : option (list N * list N) :=
  if is_reg_file (fst e) && file_has_size (snd e) then
    match read_file (fst e) comparison with
    | Some bytes => if file_has_size bytes then
        Some (get_outpath (fst e) extension, compare (snd e, or_none (get_log_files skip_logs base (fst e))) (bytes, or_none (get_log_files skip_logs comparison (fst e))))
      else None
    | None => None
    end
  else None.
Lemma folders_jobs compare skip_logs extension base comparison outs :
  process_folders compare skip_logs extension base comparison outs = fold_left (step (compare_job compare skip_logs extension base comparison)) base outs.
Proof.
  unfold process_folders. apply fold_ext. intros o e. unfold step, compare_job. destruct (is_reg_file (fst e) && file_has_size (snd e)); [|reflexivity].
  destruct (read_file (fst e) comparison) as [bytes|]; [|reflexivity]. now destruct (file_has_size bytes).
Qed.
Lemma size_iff b : file_has_size b = true <-> b <> [].
Proof. unfold file_has_size. destruct b as [|x b]; [split; [discriminate|intros H; now contradiction H]|]. rewrite len_cons. destruct (N.eqb_spec (len b + 1) 0); [lia|]. cbn. split; [discriminate|auto]. Qed.
Lemma folders_run compare skip_logs extension base comparison outs : plain_folder base -> NoDup (map fst comparison) ->
  (forall p b logs b' logs', In (p, b) base -> hive_file p b -> In (p, b') comparison -> b' <> [] -> used_logs skip_logs base p logs -> used_logs skip_logs comparison p logs' ->
     exists o, named_after p extension o /\ output (process_folders compare skip_logs extension base comparison outs) o = Some (compare (b, logs) (b', logs')))
  /\ (forall o, output (process_folders compare skip_logs extension base comparison outs) o <> output outs o ->
      exists p b b', In (p, b) base /\ hive_file p b /\ In (p, b') comparison /\ b' <> [] /\ named_after p extension o).
Proof.
  intros PF ND'. pose proof PF as (ND & PD & SN). rewrite folders_jobs.
  assert (JB : forall e o out, In e base -> compare_job compare skip_logs extension base comparison e = Some (o, out) -> hive_file (fst e) (snd e) /\ named_after (fst e) extension o
    /\ exists b', In (fst e, b') comparison /\ b' <> []).
  { intros [p b] o out I J. unfold compare_job in J. cbn [fst snd] in *. destruct (is_reg_file p && file_has_size b) eqn:H; [|discriminate J]. apply hive_iff in H.
    destruct (read_file p comparison) as [b'|] eqn:R; [|discriminate J]. destruct (file_has_size b') eqn:Z; [|discriminate J]. injection J as <- <-.
    split; [exact H|]. split; [apply (out_named p b); [exact H|now apply (PD p b)]|]. exists b'. split; [now apply (aget_in path_eqb path_eqb_eq)|now apply size_iff]. }
  split.
  - intros p b logs b' logs' I H I' Z U U'. exists (get_outpath p extension). pose proof (out_named p b extension H (PD p b I H)) as NM. split; [exact NM|].
    assert (LG : forall f l, NoDup (map fst f) -> used_logs skip_logs f p l -> or_none (get_log_files skip_logs f p) = l).
    { intros f l NF V. pose proof (used_or_none skip_logs f p b H) as V'. destruct skip_logs; cbn [used_logs] in *; [congruence|]. exact (logs_one f p _ _ NF V' V). }
    assert (JP : compare_job compare skip_logs extension base comparison (p, b) = Some (get_outpath p extension, compare (b, logs) (b', logs'))).
    { unfold compare_job. cbn [fst snd]. rewrite (proj2 (hive_iff p b) H), (read_one comparison p b' ND' I'), (proj2 (size_iff b') Z), (LG base logs ND U), (LG comparison logs' ND' U'). reflexivity. }
    apply (writes_own _ base outs (p, b)); [exact I|exact JP|]. intros [q c] out' Iq Jq. destruct (JB _ _ _ Iq Jq) as (H' & N' & _). cbn [fst snd] in *.
    assert (q = p) by (eapply names_differ; eassumption). subst q. apply (read_one base p c ND) in Iq. apply (read_one base p b ND) in I. assert (c = b) by congruence. subst c. congruence.
  - intros o X. apply writes_only in X as ([p b] & out & I & J). destruct (JB _ _ _ I J) as (H & NM & b' & I' & Z). now exists p, b, b'.
Qed.

(** ** Lists of paths *)
Lemma trim_drop f a : forall s, Forall (fun c => f c = true) a -> trim_start f (a ++ s) = trim_start f s.
Proof. induction a as [|c a IH]; intros s F; [reflexivity|]. inversion F; subst. cbn [app trim_start]. now rewrite H1, IH. Qed.
Lemma trim_stop f s : (forall c, hd_error s = Some c -> f c = false) -> trim_start f s = s.
Proof. destruct s as [|c s]; [reflexivity|]. intros H. cbn [trim_start]. now rewrite (H c eq_refl). Qed.
Lemma trim_all f s : Forall (fun c => f c = true) s -> trim_start f s = [].
Proof. intros F. rewrite <- (app_nil_r s), trim_drop by exact F. reflexivity. Qed.
Lemma hd_app {A} (a b : list A) c : hd_error (a ++ b) = Some c -> hd_error a = Some c \/ a = [] /\ hd_error b = Some c.
Proof. destruct a; cbn; auto. Qed.
Lemma trim_core f a core b : Forall (fun c => f c = true) a -> Forall (fun c => f c = true) b ->
  (forall c, hd_error core = Some c -> f c = false) -> (forall c, hd_error (rev core) = Some c -> f c = false) -> trim_with f (a ++ core ++ b) = core.
Proof.
  intros A B H L. unfold trim_with. rewrite trim_drop by exact A. destruct core as [|x core]; [cbn [app]; now rewrite (trim_all f b B)|].
  rewrite (trim_stop f ((x :: core) ++ b)) by (intros c E; apply H; exact E). rewrite rev_app_distr, trim_drop by (now apply Forall_rev).
  rewrite (trim_stop f (rev (x :: core)) L). apply rev_involutive.
Qed.
Lemma white_not_39 c : white_space c -> c <> 39 /\ c <> 44.
Proof. intros H. apply is_white_spec in H. split; intros ->; discriminate H. Qed.
Lemma not_white c : ~ white_space c -> is_white c = false.
Proof. intros H. destruct (is_white c) eqn:E; [|reflexivity]. now apply is_white_spec in E. Qed.
Lemma hd_quotes (q : list N) r c : Forall (eq 39) q -> hd_error (q ++ r) = Some c -> c = 39 \/ hd_error r = Some c.
Proof. intros F E. apply hd_app in E as [E|(_ & E)]; [left|now right]. destruct q; [discriminate E|]. inversion F; subst. now injection E as <-. Qed.
Lemma path_back name shown : written_path name shown -> trim_with (fun c => c =? 39) (trim_with is_white shown) = name.
Proof.
  intros (NC & H & L & a & b & q & r & A & B & Q & R & ->).
  replace (a ++ q ++ name ++ r ++ b) with (a ++ (q ++ name ++ r) ++ b) by (now rewrite <- !app_assoc).
  assert (W39 : is_white 39 = false) by reflexivity.
  rewrite (trim_core is_white a (q ++ name ++ r) b).
  - apply trim_core.
    + eapply Forall_impl; [|exact Q]. now intros c <-.
    + eapply Forall_impl; [|exact R]. now intros c <-.
    + intros c E. apply H in E. now apply N.eqb_neq.
    + intros c E. apply L in E. now apply N.eqb_neq.
  - eapply Forall_impl; [|exact A]. intros c. apply is_white_spec.
  - eapply Forall_impl; [|exact B]. intros c. apply is_white_spec.
  - intros c E. apply hd_quotes in E as [->|E]; [exact W39| |exact Q]. apply hd_app in E as [E|(_ & E)]; [apply H in E; now apply not_white|].
    destruct r as [|c' r]; [discriminate E|]. inversion R; subst. now injection E as <-.
  - intros c E. rewrite !rev_app_distr, <- app_assoc in E. apply hd_quotes in E as [->|E]; [exact W39| |now apply Forall_rev].
    apply hd_app in E as [E|(_ & E)]; [apply L in E; now apply not_white|]. rewrite <- (app_nil_r (rev q)) in E. apply hd_quotes in E as [->|E]; [exact W39|discriminate E|now apply Forall_rev].
Qed.
Lemma shown_plain name shown : written_path name shown -> ~ In 44 shown.
Proof.
  intros (NC & _ & _ & a & b & q & r & A & B & Q & R & ->) I. rewrite Forall_forall in A, B, Q, R.
  repeat (apply in_app_or in I as [I|I]); [apply A, white_not_39 in I; lia|apply Q in I; discriminate I|contradiction|apply R in I; discriminate I|apply B, white_not_39 in I; lia].
Qed.
Lemma split_none s : ~ In 44 s -> split_at_comma s = (s, None).
Proof. induction s as [|c s IH]; [reflexivity|]. cbn [In split_at_comma]. intros H. destruct (N.eqb_spec c 44); [exfalso; apply H; now left|]. now rewrite IH by tauto. Qed.
Lemma split_some s r : ~ In 44 s -> split_at_comma (s ++ 44 :: r) = (s, Some r).
Proof. induction s as [|c s IH]; [reflexivity|]. cbn [In app split_at_comma]. intros H. destruct (N.eqb_spec c 44); [exfalso; apply H; now left|]. now rewrite IH by tauto. Qed.
Lemma split_joined l : forall fuel, l <> [] -> Forall (fun s => ~ In 44 s) l -> (List.length (joined l) < fuel)%nat -> split_commas fuel (joined l) = l.
Proof.
  induction l as [|x l IH]; intros [|fuel] NE F LT; try contradiction; try lia. inversion F; subst. destruct l as [|y l].
  - cbn [joined split_commas]. now rewrite split_none.
  - change (joined (x :: y :: l)) with (x ++ 44 :: joined (y :: l)) in *. cbn [split_commas]. rewrite split_some by assumption.
    rewrite IH; [reflexivity|discriminate|assumption|]. rewrite app_length in LT. cbn [List.length] in LT. lia.
Qed.
Lemma ends_iff e s : ends_with e s = true <-> exists a, s = a ++ e.
Proof.
  induction s as [|c s IH]; cbn [ends_with]; rewrite orb_true_iff.
  - split; [intros [H|H]; [apply beq_eq in H; subst; now exists []|discriminate H]|]. intros (a & H). symmetry in H. apply app_eq_nil in H as (-> & ->). now left.
  - rewrite IH. split.
    + intros [H|(a & ->)]; [apply beq_eq in H; subst; now exists []|now exists (c :: a)].
    + intros ([|x a] & H); [left; rewrite H; apply beq_refl|]. injection H as -> H. right. now exists a.
Qed.
Lemma ends_lower e s : to_lower e = e -> ends_with e (to_lower s) = true <-> exists a b, s = a ++ b /\ same_name b e.
Proof.
  intros LE. rewrite ends_iff. split.
  - intros (a & E). unfold to_lower in E. apply map_eq_app in E as (x & y & -> & _ & E). exists x, y. split; [reflexivity|]. apply to_lower_same. now rewrite LE.
  - intros (a & b & -> & S0). apply to_lower_same in S0. exists (to_lower a). unfold to_lower in *. now rewrite map_app, S0, LE.
Qed.
Lemma log_iff name : ends_with (text ".log1") (to_lower name) || ends_with (text ".log2") (to_lower name) = true <-> is_log name.
Proof.
  rewrite orb_true_iff, !ends_lower by (vm_compute; reflexivity). unfold is_log. split.
  - intros [(a & b & E & S0)|(a & b & E & S0)]; exists a, b; auto.
  - intros (a & b & E & [S0|S0]); [left|right]; now exists a, b.
Qed.
Lemma parse_some names : forall shown primary logs, Forall2 written_path names shown -> Forall is_log names ->
  forall rest, parse_components (shown ++ rest) primary logs = parse_components rest primary (logs ++ names).
Proof.
  induction names as [|n names IH]; intros shown primary logs F L rest; inversion F; subst; cbn [app]; [now rewrite app_nil_r|]. inversion L; subst.
  cbn [parse_components]. rewrite (path_back n y) by assumption. rewrite (proj2 (log_iff n)) by assumption. rewrite (IH l') by assumption. now rewrite <- app_assoc.
Qed.
Lemma shown_plain_all names shown : Forall2 written_path names shown -> Forall (fun s => ~ In 44 s) shown.
Proof. induction 1; constructor; [eapply shown_plain; eassumption|assumption]. Qed.
Lemma parse_back before primary after shown : Forall is_log before -> ~ is_log primary -> Forall is_log after ->
  Forall2 written_path (before ++ [primary] ++ after) shown ->
  parse_paths (joined shown) = (primary, some_logs (before ++ after)).
Proof.
  intros B P A F. unfold parse_paths. pose proof (shown_plain_all _ _ F) as PL. apply Forall2_app_inv_l in F as (s1 & s2 & F1 & F2 & ->).
  inversion F2 as [|? y ? s3 W F3]; subst. rewrite split_joined; [|now destruct s1|exact PL|apply Nat.lt_succ_diag_r].
  rewrite (parse_some before s1) by assumption. cbn [parse_components app]. rewrite (path_back primary y) by assumption.
  destruct (_ || _) eqn:E; [apply log_iff in E; contradiction|]. rewrite <- (app_nil_r s3), (parse_some after s3) by assumption. cbn [parse_components].
  now destruct (before ++ after).
Qed.
Lemma parse_logs names shown : names <> [] -> Forall is_log names -> Forall2 written_path names shown -> parse_paths (joined shown) = ([], Some names).
Proof.
  intros NE L F. unfold parse_paths. rewrite split_joined; [|intros ->; inversion F; subst; contradiction|exact (shown_plain_all _ _ F)|apply Nat.lt_succ_diag_r].
  rewrite <- (app_nil_r shown), (parse_some names shown) by assumption. cbn [parse_components app]. now destruct names.
Qed.
