(** Two runs over the same hive and logs. *)
From Coq Require Import Permutation.
From Verif Require Import Base BaseFacts Util UtilSpec UtilText UtilLz LayoutSpec LayoutFacts HeaderFacts BaseBlock Types Value Node Recover
  Parser TxLog TxSpec NodeFrame TxApply TxBuild CellSpec CellFacts CellData CellList CellRead TreeRead AnyFile ScanSpec ScanFacts Recovered LiveSpec LiveView LiveOpen
  Pure TreeOpen StoreFacts AnalysisSpec AnalysisFacts AnalysisStore AnalysisAll AnalysisReach VersionSpec VersionFacts AnalysisTrace StoreSpec Ends RecIter FreeSpec FreeKept
  BuildBytes NoAbort AnyOpen DumpSpec DumpFacts ReplaySpec ReplayFacts RecoverOpen OrderSpec.

(** ** Values of one name, and sorting *)
Definition of_name (n : list N) (v : key_value) : bool := beq n (vd_name (kv_detail v)).
Definition same_by_name (l l' : list key_value) : Prop := forall n, List.filter (of_name n) l = List.filter (of_name n) l'.
Notation vle := (fun a b => str_le (vd_name (kv_detail a)) (vd_name (kv_detail b))).
Lemma str_le_refl a : str_le a a = true.
Proof. induction a as [|x a IH]; cbn [str_le]; [reflexivity|]. now rewrite N.eqb_refl. Qed.
Lemma str_le_anti a : forall b, str_le a b = true -> str_le b a = true -> a = b.
Proof.
  induction a as [|x a IH]; intros [|y b]; cbn [str_le]; try discriminate; [reflexivity|]. destruct (N.eqb_spec x y) as [->|D].
  - rewrite N.eqb_refl. intros A B. f_equal. now apply IH.
  - rewrite (proj2 (N.eqb_neq y x)) by congruence. rewrite !N.ltb_lt. lia.
Qed.
Lemma str_le_trans a : forall b c, str_le a b = true -> str_le b c = true -> str_le a c = true.
Proof.
  induction a as [|x a IH]; intros [|y b] [|z c]; cbn [str_le]; try discriminate; try reflexivity.
  destruct (N.eqb_spec x y) as [->|D].
  - destruct (N.eqb_spec y z) as [->|D']; [apply IH|]. auto.
  - rewrite N.ltb_lt. intros L. destruct (N.eqb_spec y z) as [->|D'].
    + intros _. destruct (N.eqb_spec x z); [lia|]. now apply N.ltb_lt.
    + rewrite N.ltb_lt. intros L'. destruct (N.eqb_spec x z); [lia|]. apply N.ltb_lt. lia.
Qed.
Lemma str_le_total a : forall b, str_le a b = false -> str_le b a = true.
Proof.
  induction a as [|x a IH]; intros [|y b]; cbn [str_le]; try discriminate; try reflexivity.
  destruct (N.eqb_spec x y) as [->|D]; [rewrite N.eqb_refl; apply IH|]. rewrite (proj2 (N.eqb_neq y x)) by congruence. rewrite N.ltb_ge, N.ltb_lt. lia.
Qed.
Inductive ordered : list key_value -> Prop :=
| ordered_nil : ordered []
| ordered_cons v l : Forall (fun w => vle v w = true) l -> ordered l -> ordered (v :: l).
Lemma insert_ordered v l : ordered l -> ordered (insert_by vle v l).
Proof.
  induction 1 as [|w l F O IH]; cbn [insert_by]; [constructor; constructor|]. destruct (str_le _ _) eqn:E.
  - constructor; [|now constructor]. constructor; [exact E|]. eapply Forall_impl; [|exact F]. cbv beta. intros x X. exact (str_le_trans _ _ _ E X).
  - constructor; [|exact IH]. assert (P : Permutation (insert_by vle v l) (v :: l)).
    { clear. induction l as [|y l IH]; [reflexivity|]. cbn [insert_by]. destruct (str_le _ _); [reflexivity|]. rewrite IH. apply perm_swap. }
    apply Forall_forall. intros x X. apply (Permutation_in _ P) in X. destruct X as [<-|X]; [now apply str_le_total|]. rewrite Forall_forall in F. now apply F.
Qed.
Lemma sort_ordered l : ordered (sort_by vle l).
Proof. induction l as [|v l IH]; [constructor|]. unfold sort_by in *. cbn [fold_right]. now apply insert_ordered. Qed.
Lemma insert_by_name n v l : List.filter (of_name n) (insert_by vle v l) = List.filter (of_name n) (v :: l).
Proof.
  induction l as [|w l IH]; [reflexivity|]. cbn [insert_by]. destruct (str_le _ _) eqn:E; [reflexivity|].
  cbn [List.filter] in *. rewrite IH. destruct (of_name n w) eqn:A, (of_name n v) eqn:B; try reflexivity.
  unfold of_name in A, B. apply beq_eq in A, B. rewrite <- A, <- B, str_le_refl in E. discriminate.
Qed.
Lemma sort_by_name n l : List.filter (of_name n) (sort_by vle l) = List.filter (of_name n) l.
Proof.
  induction l as [|v l IH]; [reflexivity|]. unfold sort_by in *. cbn [fold_right]. rewrite insert_by_name. cbn [List.filter]. now rewrite IH.
Qed.
Lemma ordered_one l : ordered l -> forall l', ordered l' -> same_by_name l l' -> l = l'.
Proof.
  assert (SELF : forall v, of_name (vd_name (kv_detail v)) v = true) by (intros v; unfold of_name; apply beq_refl).
  assert (HEAD : forall v l w l', ordered (v :: l) -> ordered (w :: l') -> same_by_name (v :: l) (w :: l') -> vle w v = true).
  { intros v l0 w l' _ O S. assert (I : In v (w :: l')).
    { assert (J : In v (List.filter (of_name (vd_name (kv_detail v))) (v :: l0))) by (apply filter_In; split; [now left|apply SELF]). rewrite S in J. now apply filter_In in J. }
    destruct I as [->|I]; [apply str_le_refl|]. inversion O as [|? ? F _]; subst. rewrite Forall_forall in F. now apply F. }
  induction 1 as [|v l F O IH]; intros l' O' S.
  - destruct l' as [|w l']; [reflexivity|]. specialize (S (vd_name (kv_detail w))). cbn [List.filter] in S. rewrite SELF in S. discriminate.
  - destruct l' as [|w l']; [specialize (S (vd_name (kv_detail v))); cbn [List.filter] in S; rewrite SELF in S; discriminate|].
    assert (N : vd_name (kv_detail v) = vd_name (kv_detail w)).
    { apply str_le_anti; [apply (HEAD w l' v l); [exact O'|now constructor|intros n; now rewrite S]|apply (HEAD v l w l'); [now constructor|exact O'|exact S]]. }
    pose proof (S (vd_name (kv_detail v))) as X. cbn [List.filter] in X. rewrite SELF in X. rewrite N in X at 2. rewrite SELF in X. injection X as <- _.
    f_equal. apply IH; [now inversion O'|]. intros n. specialize (S n). cbn [List.filter] in S. destruct (of_name n v); [now injection S|exact S].
Qed.
Lemma same_sorted l l' : same_by_name l l' -> sort_by vle l = sort_by vle l'.
Proof. intros S. apply ordered_one; try apply sort_ordered. intros n. now rewrite !sort_by_name. Qed.

(** ** Removing values that are back *)
Fixpoint drop_one {A} (t : A -> bool) (l : list A) : list A :=
  match l with [] => [] | x :: r => if t x then r else x :: drop_one t r end.
Lemma drop_is {A} (t : A -> bool) l : match remove_first t l with Some r => r | None => l end = drop_one t l.
Proof. induction l as [|x l IH]; [reflexivity|]. cbn [remove_first drop_one]. destruct (t x); [reflexivity|]. rewrite <- IH. now destruct (remove_first t l). Qed.
Lemma drop_of_name n m h l : List.filter (of_name n) (drop_one (same_value m h) l) =
  if beq n m then drop_one (same_value m h) (List.filter (of_name n) l) else List.filter (of_name n) l.
Proof.
  induction l as [|v l IH]; [now destruct (beq n m)|]. cbn [drop_one List.filter]. destruct (same_value m h v) eqn:T.
  - assert (E : of_name n v = beq n m) by (unfold same_value in T; apply andb_true_iff in T as [T _]; apply beq_eq in T; unfold of_name; now rewrite T).
    rewrite E. destruct (beq n m); [|reflexivity]. cbn [drop_one]. now rewrite T.
  - cbn [List.filter]. rewrite IH. destruct (of_name n v), (beq n m); try reflexivity. cbn [drop_one]. now rewrite T.
Qed.
Lemma drop_comm {A} (t u : A -> bool) l : (forall x, t x = true -> u x = true -> t = u) -> drop_one t (drop_one u l) = drop_one u (drop_one t l).
Proof.
  intros D. induction l as [|x l IH]; [reflexivity|]. cbn [drop_one]. destruct (t x) eqn:T, (u x) eqn:U; cbn [drop_one]; rewrite ?T, ?U.
  - now rewrite (D x T U).
  - reflexivity.
  - reflexivity.
  - now rewrite IH.
Qed.
Definition back_at (path n : list N) (e : list N * list N * N) (l : list key_value) : list key_value :=
  if beq path (fst (fst e)) && beq n (snd (fst e)) then drop_one (same_value (snd (fst e)) (snd e)) l else l.
Lemma removed_of_name rm path n : forall m, NoDup (map fst m) ->
  List.filter (of_name n) (held beq path (remove_values rm m)) = fold_left (fun l e => back_at path n e l) rm (List.filter (of_name n) (held beq path m)).
Proof.
  induction rm as [|[[q a] h] rm IH]; intros m D; [reflexivity|]. unfold remove_values. cbn [fold_left fst snd].
  fold (remove_values rm (deleted_values_remove q a h m)). destruct (held_remove_values q a h m path D) as (D' & H). rewrite IH, H by exact D'. f_equal.
  unfold back_at. cbn [fst snd]. destruct (beq path q); [|reflexivity]. rewrite drop_is, drop_of_name. reflexivity.
Qed.
Lemma back_comm path n x y l : back_at path n x (back_at path n y l) = back_at path n y (back_at path n x l).
Proof.
  unfold back_at. destruct (beq path (fst (fst x)) && beq n (snd (fst x))), (beq path (fst (fst y)) && beq n (snd (fst y))); try reflexivity.
  apply drop_comm. intros v A B. unfold same_value in A, B. apply andb_true_iff in A as [A1 A2], B as [B1 B2]. apply beq_eq in A1, B1.
  destruct (kv_hash v); [|discriminate]. apply N.eqb_eq in A2, B2. congruence.
Qed.
Lemma back_perm path n rm rm' : Permutation rm rm' -> forall l, fold_left (fun l e => back_at path n e l) rm l = fold_left (fun l e => back_at path n e l) rm' l.
Proof.
  induction 1 as [|x a b P IH|x y a|a b c P IH P' IH']; intros l; cbn [fold_left]; [reflexivity|apply IH| |now rewrite IH].
  f_equal. apply back_comm.
Qed.
Lemma flat_perm {A B} (f : A -> list B) l l' : Permutation l l' -> Permutation (flat_map f l) (flat_map f l').
Proof. intros P. now apply Permutation_flat_map. Qed.
Lemma filter_flat {A B} (f : A -> list B) t l : List.filter t (flat_map f l) = flat_map (fun x => List.filter t (f x)) l.
Proof. induction l as [|x l IH]; [reflexivity|]. cbn [flat_map]. now rewrite filter_app, IH. Qed.
(** Two removals of the same items in any order, after noting the same items in any
    order. *)
Lemma two_stores fi fi' st st' seq seq' prior (m m' : amap (list N) (list key_value)) rm rm' (g g' : reg_items) path :
  (forall it, old_value fi st seq DeletedTransactionLog it = old_value fi' st' seq' DeletedTransactionLog it) ->
  NoDup (map fst m) -> NoDup (map fst m') -> NoDup (map fst g) -> Permutation g g' -> Permutation rm rm' ->
  (forall w it, In (w, it) g -> aget keq w prior = Some it) -> names_agree fi st prior path ->
  same_by_name (held beq path m) (held beq path m') ->
  same_by_name (held beq path (remove_values rm (pushes beq (flat_map (gone_values fi st seq) g) m)))
    (held beq path (remove_values rm' (pushes beq (flat_map (gone_values fi' st' seq') g') m'))).
Proof.
  intros OV D D' DG PG PR IN NA S n. rewrite !removed_of_name by (apply pushes_nodup; [exact beq_iff|assumption]).
  rewrite (back_perm _ _ _ _ PR). f_equal. rewrite !held_pushes by exact beq_iff. rewrite !filter_app, S. f_equal. rewrite !entries_flat, !filter_flat.
  set (F := fun it => old_value fi st seq DeletedTransactionLog it).
  assert (ONE : forall g0, (forall w it, In (w, it) g0 -> aget keq w prior = Some it) ->
    flat_map (fun x => List.filter (of_name n) (entries_under beq path (gone_values fi st seq x))) g0 = flat_map (fun x => if keq (path, Some n) (fst x) then F (snd x) else []) g0).
  { induction g0 as [|[[q [a|]] it] g0 IH]; intros I; [reflexivity| |]; cbn [flat_map]; (rewrite IH; [|intros w i J; apply I; now right]); f_equal; unfold gone_values; cbn [fst snd].
    - rewrite entries_at. unfold item_key_eqb. cbn [fst snd]. destruct (beq path q) eqn:E; [|reflexivity]. apply beq_eq in E as <-. cbn [andb].
      pose proof (NA _ _ (I _ _ (or_introl eq_refl)) seq DeletedTransactionLog) as NV. fold (F it) in NV |- *. clear -NV.
      induction NV as [|v l V NV IH]; [now destruct (beq n a)|]. cbn [List.filter]. rewrite IH. unfold of_name at 1. rewrite V. now destruct (beq n a).
    - unfold item_key_eqb. cbn [fst snd]. now rewrite andb_false_r. }
  assert (SAME : flat_map (fun x => List.filter (of_name n) (entries_under beq path (gone_values fi' st' seq' x))) g' = flat_map (fun x => List.filter (of_name n) (entries_under beq path (gone_values fi st seq x))) g').
  { apply flat_ext. intros [[q [a|]] it]; unfold gone_values; cbn [fst snd]; [|reflexivity]. now rewrite OV. }
  rewrite SAME, !ONE; [|intros w it I; apply IN; apply (Permutation_in _ (Permutation_sym PG)); exact I|exact IN].
  assert (DG' : NoDup (map fst g')) by (apply (Permutation_NoDup (Permutation_map fst PG)); exact DG).
  rewrite (pick_one (path, Some n) F g (aget keq (path, Some n) g)); [rewrite (pick_one (path, Some n) F g' (aget keq (path, Some n) g)); [reflexivity|exact DG'|]|exact DG|].
  - intros it. split; [intros I; apply (in_aget keq kiff); [exact DG|]; apply (Permutation_in _ (Permutation_sym PG)); exact I|].
    intros A. apply (Permutation_in _ PG). now apply (aget_in keq kiff).
  - intros it. split; [intros I; now apply (in_aget keq kiff)|intros A; now apply (aget_in keq kiff)].
Qed.

(** ** What is filed at the top *)
Lemma top_keys_removed rm : forall m, NoDup (map fst m) -> held beq [] m = [] -> held beq [] (remove_keys rm m) = [].
Proof.
  induction rm as [|[q h] rm IH]; intros m D E; [exact E|]. unfold remove_keys. cbn [fold_left fst snd]. fold (remove_keys rm (deleted_keys_remove q h m)).
  unfold deleted_keys_remove. rewrite before_last_parent. fold (same_key q h). destruct (aget beq (parent_of q) m) as [l|] eqn:G; [|now apply IH].
  destruct (remove_first (same_key q h) l) as [r|] eqn:R; [|now apply IH].
  assert (NP : parent_of q <> []).
  { intros P. rewrite P in G. unfold held in E. rewrite G in E. subst l. discriminate R. }
  assert (NQ : q <> []) by (intros ->; now apply NP).
  assert (D1 : NoDup (map fst (aset beq (parent_of q) r m))) by (apply aset_nodup; [exact beq_iff|exact D]).
  assert (H1 : held beq [] (aset beq (parent_of q) r m) = []).
  { rewrite held_aset by exact beq_iff. rewrite (proj2 (beq_neq [] (parent_of q))) by congruence. exact E. }
  destruct r as [|x r]; [|now apply IH]. apply IH; [now apply adel_nodup|]. unfold held at 1. rewrite aget_adel by (exact beq_iff || exact D1).
  rewrite (proj2 (beq_neq [] q)) by congruence. exact H1.
Qed.
Lemma top_values_removed rm : forall m, NoDup (map fst m) -> Forall (fun e => fst (fst e) <> []) rm -> held beq [] (remove_values rm m) = held beq [] m.
Proof.
  induction rm as [|[[q n] h] rm IH]; intros m D F; [reflexivity|]. apply Forall_cons_iff in F as [F1 F]. cbn [fst] in F1. unfold remove_values. cbn [fold_left fst snd].
  fold (remove_values rm (deleted_values_remove q n h m)). destruct (held_remove_values q n h m [] D) as (D' & H). rewrite IH, H by assumption.
  now rewrite (proj2 (beq_neq [] q)) by congruence.
Qed.
Lemma top_pushed {A} (l : list (list N * A)) m : Forall (fun e => fst e <> []) l -> held beq [] (pushes beq l m) = held beq [] m.
Proof.
  intros F. rewrite held_pushes by exact beq_iff. rewrite entries_none, app_nil_r; [reflexivity|]. eapply Forall_impl; [|exact F]. cbv beta. intros e E. apply beq_neq. congruence.
Qed.

(** ** What an iteration shows while nothing deleted is filed *)
Lemma after_bs_long (a l : list N) : (length a <= length (after_bs (l ++ 92%N :: a)))%nat.
Proof. induction l as [|x l IH]; cbn [app after_bs]; [rewrite N.eqb_refl; lia|]. destruct (x =? 92); [|exact IH]. rewrite app_length. cbn [length]. lia. Qed.
Lemma below_parent (a n : list N) : a <> [] -> parent_of (a ++ [92] ++ n) <> [].
Proof.
  intros NA. unfold parent_of. rewrite !rev_app_distr. cbn [rev app]. rewrite <- app_assoc. cbn [app]. intros E.
  apply (f_equal (@length N)) in E. rewrite rev_length in E. cbn [length] in E. pose proof (after_bs_long (rev a) (rev n)) as L. rewrite rev_length in L. destruct a; [now elim NA|]. cbn [length] in L. lia.
Qed.
Section Seated.
Variables (fi : file_info) (rp : list N) (m : bool) (S : Prop).
Hypothesis RP : rp <> [].
(** In use, nothing deleted below it, only values in use (if the scan found none), and
    not filed at the top unless it is the root. *)
Definition seated (k : key_node) : Prop :=
  kn_state k = Allocated /\ kn_deleted k = [] /\ (S -> Forall (fun v => kv_state v = Allocated) (kn_values k)) /\ kn_path k <> [] /\ (kn_path k = rp \/ parent_of (kn_path k) <> []).
Definition bare (st : state) : Prop := m = true -> st_deleted_keys st = [] /\ (S -> st_deleted_values st = []).
Lemma bare_root st st' : root_only st st' -> bare st -> bare st'.
Proof. intros R B E. specialize (B E). unfold root_only in R. rewrite R. exact B. Qed.
Lemma seated_same k k' : kn_path k' = kn_path k -> kn_state k' = kn_state k -> kn_values k' = kn_values k -> kn_deleted k' = kn_deleted k -> seated k -> seated k'.
Proof. intros A B C D. unfold seated. now rewrite A, B, C, D. Qed.
Lemma finish_live st k : st_deleted_values st = [] -> Forall (fun v => kv_state v = Allocated) (kn_values k) -> Forall (fun v => kv_state v = Allocated) (kn_values (finish st k)).
Proof.
  intros D F. apply (finish_values st) in F. eapply Forall_impl; [|exact F]. cbv beta. intros v [X|(q & l & X & _)]; [exact X|]. rewrite D in X. discriminate.
Qed.
Lemma read_seated st o k st' : bare st -> op_modified o = m -> op_path o <> [] -> kn_read fi st o = Ok (Some k, st') -> seated k.
Proof.
  intros B EM NP R. assert (X : forall st o k st', op_modified o = false -> op_path o <> [] -> kn_read fi st o = Ok (Some k, st') -> seated k).
  { intros st1 o1 k1 s1 E N H. unfold kn_read in H. destruct (get_from _ _) as [s|]; [|discriminate]. cbn [ok_or] in H.
    pose proof (slice_plain _ _ _ _ _ _ E H) as (P1 & P2 & P3). apply slice_facts in H as (_ & H1 & H2 & _ & _ & nm & w & _ & H3); [|exact E].
    split; [exact H1|]. split; [exact H2|]. split; [auto|]. split; [exact P1|]. right. rewrite H3. now apply below_parent. }
  destruct m eqn:M; [|exact (X _ _ _ _ EM NP R)].
  rewrite (read_noted _ _ _ EM) in R. destruct (kn_read fi st (unnoted o)) as [[[k1|] st1]| | |] eqn:E; try discriminate.
  destruct (update_modified_lists _ _ _) as [k2| | |] eqn:U; try discriminate. injection R as <- <-.
  pose proof (bare_root _ _ (kn_read_state _ _ _ _ _ E)) as B1. unfold bare in B, B1. destruct (B1 B M) as (D1 & D2). apply X in E as (E1 & E2 & E3 & E4 & E5); [|reflexivity|exact NP].
  revert U. unfold uml_fuel.
  rewrite uml_eq, E1. cbn [is_deleted_primary_file]. rewrite D1. cbn [aget]. intros [= <-].
  split; [now rewrite finish_state|]. split; [now rewrite finish_deleted|]. split; [intros HS; apply finish_live; auto|]. now rewrite finish_same_path.
Qed.
Lemma child_seated sm f c : seated c -> seated (child_filter_state sm f c).
Proof. intros G. unfold child_filter_state. repeat match goal with |- context [if ?b then _ else _] => destruct b end; try exact G; now apply (seated_same c). Qed.
Lemma children_seated path sm f sf seq offs : path <> [] -> forall st cs found logs st', bare st ->
  read_children fi st path sm f sf seq m offs = Ok (cs, found, logs, st') -> Forall seated cs.
Proof.
  intros NP. induction offs as [|o offs IH]; intros st cs found logs st' M; cbn [read_children]; [intros [= <- _ _ _]; constructor|].
  destruct (kn_read fi st _) as [[[c|] st1]| | |] eqn:R; try discriminate.
  - pose proof (bare_root _ _ (kn_read_state _ _ _ _ _ R) M) as M1. apply read_seated in R; [|exact M|reflexivity|exact NP].
    destruct (read_children _ _ _ _ _ _ _ _ _) as [[[[cs1 ?] ?] ?]| | |] eqn:E; try discriminate. intros [= <- _ _ _].
    constructor; [now apply child_seated|]. now apply (IH _ _ _ _ _ M1 E).
  - pose proof (bare_root _ _ (kn_read_state _ _ _ _ _ R) M) as M1. intros E. now apply (IH _ _ _ _ _ M1 E).
  - destruct (read_children _ _ _ _ _ _ _ _ _) as [[[[cs1 ?] ?] ?]| | |] eqn:E; try discriminate. intros [= <- _ _ _].
    now apply (IH _ _ _ _ _ M E).
Qed.
Lemma sub_keys_seated st k f seq k' cs found st' : bare st -> seated k ->
  read_sub_keys_internal fi st k f seq m = Ok (k', cs, found, st') -> seated k' /\ Forall seated cs.
Proof.
  intros M G. unfold read_sub_keys_internal.
  assert (GL : forall c, seated (kn_add_log c k)) by (intros; now apply (seated_same k)).
  destruct (is_allocated _); [|intros [= <- <- _ _]; auto]. destruct (1048576 <? _); [intros [= <- <- _ _]; auto|].
  destruct (0 <? _); [|intros [= <- <- _ _]; auto]. destruct (parse_sub_key_list _ _ _) as [offs| | |]; try discriminate.
  - destruct (read_children _ _ _ _ _ _ _ _ _) as [[[[cs1 ?] ?] ?]| | |] eqn:E; try discriminate. intros [= <- <- _ _].
    split; [now apply (seated_same k)|]. apply children_seated in E; [exact E|apply G|exact M].
  - intros [= <- <- _ _]; auto.
Qed.
Definition seated_cx (c : context) : Prop := bare (cx_state c) /\ Forall seated (cx_stack c) /\ cx_modified c = m.
Lemma visit_seated cx k k' cx' : seated_cx cx -> seated k -> visit fi cx k = Ok (k', cx') -> seated k' /\ seated_cx cx'.
Proof.
  intros C G. unfold visit.
  match goal with |- match ?x with _ => _ end = _ -> _ => destruct x as [[k1 cx1]| | |] eqn:E; try discriminate end.
  assert (X : seated k1 /\ seated_cx cx1).
  { destruct (0 <? _) in E; [|injection E as <- <-; auto].
    destruct C as (C1 & C2 & C3). rewrite C3 in E.
    destruct (read_sub_keys_internal _ _ _ _ _ _) as [[[[k2 cs] fd] st]| | |] eqn:R in E; try discriminate.
    pose proof (bare_root _ _ (read_sub_keys_state _ _ _ _ _ _ _ _ _ _ R) C1) as M.
    apply sub_keys_seated in R as (R1 & R2); [|exact C1|exact G]. injection E as <- <-. split; [now apply (seated_same k2)|].
    assert (Y : forall l c, Forall seated l -> seated_cx c -> seated_cx (fold_left (fun cx c => push_check c cx) l c)).
    { clear. induction l as [|d l IH]; intros c F H; [exact H|]. apply Forall_cons_iff in F as [F1 F]. cbn [fold_left]. apply IH; [exact F|].
      unfold push_check. destruct (existsb _ _); [exact H|]. destruct H as (H1 & H2 & H3). split; [exact H1|]. split; [now constructor|exact H3]. }
    apply Y; [now apply Forall_rev|]. split; [exact M|]. now split. }
  cbv beta iota. destruct X as (X1 & X3). intros [= <- <-]. pose proof X1 as (_ & D & _). rewrite D. cbn [map fold_left]. split; [|exact X3].
  apply (seated_same k1); try reflexivity; [now rewrite D|exact X1].
Qed.
Lemma walk_seated c ks : walk fi c ks -> seated_cx c -> Forall seated ks.
Proof.
  induction 1 as [c E|c k rest k' c' ks E V W IH]; intros (D & F & T); [constructor|]. rewrite E in F. inversion F; subst.
  apply visit_seated in V as (V1 & V2); [|now split|assumption]. destruct (returned c' k'); auto.
Qed.
End Seated.

(** ** The root while no key is filed at the top *)
(** The first bin begins with a key cell that is marked as a root, of this name. *)
Definition stage (name b : list N) : Prop :=
  rooted b /\ N.testbit (num_at b 4134 2) 2 = true /\ forall n, name_at (mkFI 4096 b) 4128 n -> n = name.
Lemma held_none {A} (m : amap (list N) (list A)) p : held beq p m = [] -> aget beq p m = None \/ aget beq p m = Some [].
Proof. unfold held. destruct (aget beq p m) as [l|]; [|now left]. intros ->. now right. Qed.
Lemma root_read p p1 name : ps_hbin p = 4096 -> stage name (ps_buffer p) -> held beq [] (st_deleted_keys (ps_state p)) = [] -> init_root p = Ok p1 ->
  ps_file p1 = ps_file p /\ ps_state p1 = ps_state p /\ ps_base_block p1 = ps_base_block p /\ ps_recover p1 = ps_recover p
  /\ exists k0, kn_read (ps_file p) (ps_state p) (mkOpt 4128 [] None true None false) = Ok (Some k0, ps_state p)
  /\ kn_state k0 = Allocated /\ kn_deleted k0 = [] /\ is_key_root k0 = true /\ kn_path k0 = 92 :: name /\ Forall (fun v => kv_state v = Allocated) (kn_values k0)
  /\ ps_root p1 = Some (finish (ps_state p) k0).
Proof.
  intros H ((L & _ & _) & FL & NM) D I. apply init_root_ok in I as (h & root & -> & _ & R). rewrite H in R. change (4096 + 32) with 4128 in R.
  split; [reflexivity|]. split; [reflexivity|]. split; [reflexivity|]. split; [reflexivity|].
  rewrite read_noted in R by reflexivity. unfold unnoted in R. cbn [op_offset op_path op_filter op_self_match op_seq] in R.
  destruct (kn_read (ps_file p) (ps_state p) (mkOpt 4128 [] None true None false)) as [[[k0|] st1]| | |] eqn:E; try discriminate.
  2:{ injection R as _ ->. now apply AnyOpen.read_some in E. }
  assert (S1 : st1 = ps_state p) by (destruct (update_modified_lists _ _ _); try discriminate; now injection R). subst st1.
  exists k0. split; [reflexivity|]. pose proof E as E0. unfold kn_read in E. cbn [op_offset] in E. change (fi_buffer (ps_file p)) with (ps_buffer p) in E.
  rewrite get_from_rest in E by lia. cbn [ok_or] in E. pose proof E as EP. apply slice_plain in EP as (_ & P2 & _); [|reflexivity].
  apply slice_facts in E as (_ & K1 & K2 & _ & K3 & nm & w & K4 & K5); [|reflexivity]. cbn [op_path app] in K5. rewrite num_at_rest in K3.
  change (4128 + 6) with 4134 in K3.
  assert (RT : is_key_root k0 = true) by (unfold is_key_root; rewrite K3, root_flag; exact FL).
  split; [exact K1|]. split; [exact K2|]. split; [exact RT|]. split.
  { rewrite K5. f_equal. apply NM. exists w. unfold kn_name_at in K4. rewrite !num_at_rest, bytes_at_rest in K4. rewrite compressed_flag in K4. exact K4. }
  split; [exact P2|]. cbn [ps_set_root ps_root]. revert R. unfold uml_fuel. rewrite uml_eq, K1. cbn [is_deleted_primary_file]. unfold lookup_path. rewrite RT.
  assert (KD : kn_set_deleted [] k0 = k0) by (rewrite <- K2; now destruct k0).
  destruct (held_none _ _ D) as [-> | ->]; [now intros [= <-]|]. cbn [note]. cbv beta iota. rewrite KD. now intros [= <-].
Qed.

(** ** One comparison, with its warnings *)
Definition is_err {A} (r : res A) : bool := match r with Err => true | _ => false end.
Definition warned_of {X} (bad : X -> bool) (l : list X) : list log_code := flat_map (fun x => if bad x then [WarningTransactionLog] else []) l.
Lemma warned_perm {X} (bad : X -> bool) l l' : Permutation l l' -> warned_of bad l = warned_of bad l'.
Proof.
  unfold warned_of. induction 1 as [|x l l' P IH|x y l|a b c P IH P' IH']; cbn [flat_map]; [reflexivity|now rewrite IH| |congruence].
  destruct (bad x), (bad y); reflexivity.
Qed.
Lemma add_all_logs {X} (f : state -> X -> res state) st0 l :
  (forall st x, agree false st st0 -> is_err (f st x) = is_err (f st0 x) /\ forall s, f st x = Ok s -> agree false s st0 /\ st_info s = st_info st) ->
  forall st logs st' logs', agree false st st0 -> add_all f l st logs = Ok (st', logs') ->
  logs' = logs ++ warned_of (fun x => is_err (f st0 x)) l /\ agree false st' st0 /\ st_info st' = st_info st.
Proof.
  intros F. induction l as [|x l IH]; intros st logs st' logs' A; cbn [add_all]; [intros [= <- <-]; unfold warned_of; cbn; now rewrite app_nil_r|].
  destruct (F st x A) as (F1 & F2). unfold warned_of. cbn [flat_map]. fold (warned_of (fun x => is_err (f st0 x)) l). destruct (f st x) as [s| | |] eqn:E; try discriminate.
  - intros R. destruct (F2 _ eq_refl) as (G1 & G2). apply IH in R as (R1 & R2 & R3); [|exact G1]. rewrite <- F1. cbn [is_err app]. split; [exact R1|]. split; [exact R2|]. congruence.
  - intros R. apply IH in R as (R1 & R2 & R3); [|exact A]. rewrite <- F1. cbn [is_err]. rewrite <- app_assoc in R1. now split.
Qed.
Lemma add_key_err fi seq st st0 path off s d : agree false st st0 ->
  is_err (add_full_key fi seq st path off s d) = is_err (add_full_key fi seq st0 path off s d)
  /\ forall s', add_full_key fi seq st path off s d = Ok s' -> agree false s' st0 /\ st_info s' = st_info st.
Proof.
  intros A. split.
  - unfold add_full_key. pose proof (kn_read_agree false _ _ fi (mkOpt off (before_last_bs path) None false (Some s) false) eq_refl A) as X.
    destruct (kn_read fi st _) as [[[k|] s1]| | |], (kn_read fi st0 _) as [[[k'|] s1']| | |]; cbn [same] in X; try contradiction; try reflexivity; now destruct X.
  - intros s' E. assert (I : st_info s' = st_info st).
    { unfold add_full_key in E. destruct (kn_read fi st _) as [[[k|] s1]| | |] eqn:K; try discriminate; apply kn_read_state in K; unfold root_only in K; injection E as <-; rewrite K; destruct d; reflexivity. }
    split; [|exact I]. pose proof (add_key_effect fi seq st st0 path (mkItem 0 off s) d _ A eq_refl) as X. cbn [it_offset it_seq] in X. rewrite E in X. subst s'. now apply agree_add_keys.
Qed.
Lemma add_value_err fi seq st st0 path off s d : agree false st st0 ->
  is_err (add_full_value fi seq st path off s d) = is_err (add_full_value fi seq st0 path off s d)
  /\ forall s', add_full_value fi seq st path off s d = Ok s' -> agree false s' st0 /\ st_info s' = st_info st.
Proof.
  intros A. split.
  - unfold add_full_value. destruct A as (_ & F & _). rewrite F. destruct (get_from _ _); [|reflexivity]. cbn [ok_or]. destruct (kv_from_bytes _ _ _ _) as [[v r]| | |]; reflexivity.
  - intros s' E. assert (I : st_info s' = st_info st).
    { unfold add_full_value in E. destruct (get_from _ _); [|discriminate]. cbn [ok_or] in E. destruct (kv_from_bytes _ _ _ _) as [[v r]| | |]; try discriminate. injection E as <-. destruct d; reflexivity. }
    split; [|exact I]. pose proof (add_value_effect fi seq st st0 path (mkItem 0 off s) d _ A eq_refl) as X. cbn [it_offset it_seq] in X. rewrite E in X. subst s'.
    destruct d; [now apply agree_add_dvalues|now apply agree_add_mvalues].
Qed.
Definition key_bad fi seq st (n : needed) : bool := is_err (add_full_key fi seq st (nd_path n) (nd_offset n) (nd_seq n) false).
Definition value_bad fi seq st (n : needed) : bool := is_err (add_full_value fi seq st (nd_path n) (nd_offset n) (nd_seq n) false).
Definition item_bad fi seq st (e : item_key * item) : bool :=
  is_err ((match snd (fst e) with Some _ => add_full_value | None => add_full_key end) fi seq st (fst (fst e)) (it_offset (snd e)) (it_seq (snd e)) true).
Lemma latest_parts order fuel fi seq p prior latest p' logs st0 : agree false (ps_state p) st0 -> get_latest_reg_items order fuel fi seq p prior = Ok (latest, p', logs) ->
  exists p1 ks prior' nk nv lg, init_root p = Ok p1 /\ iterate fuel p1 None false false false = Ok ks
  /\ handle_keys seq ks prior [] [] [] [] = Ok (prior', latest, nk, nv, lg)
  /\ logs = lg ++ warned_of (key_bad fi seq st0) nk ++ warned_of (value_bad fi seq st0) nv ++ warned_of (item_bad fi seq st0) (order prior')
  /\ agree false (ps_state p') st0 /\ st_info (ps_state p') = st_info (ps_state p) /\ ps_root p' = ps_root p1.
Proof.
  intros A. unfold get_latest_reg_items. destruct (init_root p) as [p1| | |] eqn:IR; try discriminate.
  assert (SP : ps_state p1 = ps_state p) by (apply init_root_ok in IR as (h & root & -> & _); reflexivity).
  destruct (iterate fuel p1 None false false false) as [ks| | |] eqn:IT; try discriminate. cbv beta iota.
  destruct (handle_keys seq ks prior [] [] [] []) as [[[[[prior' lt] nk] nv] lg]| | |] eqn:HK; try discriminate. cbv beta iota. rewrite SP.
  match goal with |- match add_all ?f ?l ?s lg with _ => _ end = _ -> _ => destruct (add_all f l s lg) as [[st1 lg1]| | |] eqn:E1; try discriminate end.
  apply (add_all_logs _ st0) in E1 as (L1 & A1 & I1); [|intros; now apply add_key_err|exact A]. cbv beta iota.
  match goal with |- match add_all ?f ?l st1 lg1 with _ => _ end = _ -> _ => destruct (add_all f l st1 lg1) as [[st2 lg2]| | |] eqn:E2; try discriminate end.
  apply (add_all_logs _ st0) in E2 as (L2 & A2 & I2); [|intros; now apply add_value_err|exact A1]. cbv beta iota.
  match goal with |- match add_all ?f ?l st2 lg2 with _ => _ end = _ -> _ => destruct (add_all f l st2 lg2) as [[st3 lg3]| | |] eqn:E3; try discriminate end.
  apply (add_all_logs _ st0) in E3 as (L3 & A3 & I3); [|intros st [[pa [n|]] it] X; cbn [fst snd]; [now apply add_value_err|now apply add_key_err]|exact A2]. cbv beta iota.
  rewrite remove_latest_fold. intros [= <- <- <-]. exists p1, ks, prior', nk, nv, lg. split; [reflexivity|]. split; [exact IT|]. split; [exact HK|]. split.
  { rewrite L3, L2, L1, <- !app_assoc. reflexivity. }
  cbn [ps_set_state ps_state]. split; [|split; [cbn [set_deleted_values set_deleted_keys st_info]; congruence|reflexivity]].
  destruct A3 as (B1 & B2 & B3 & _). split; [exact B1|]. split; [exact B2|]. split; [exact B3|discriminate].
Qed.

(** ** Two runs *)
Section Two.
Variables (order order' : reg_items -> reg_items) (n : nat) (full : bool) (hash : list N -> N) (name : list N) (S : Prop).
Hypotheses (PO : forall m, Permutation (order m) m) (PO' : forall m, Permutation (order' m) m).
Notation rp := (92 :: name).
Record alike (p q : parser) : Prop := {
  al_file : ps_file q = ps_file p;
  al_block : ps_base_block q = ps_base_block p;
  al_info : st_info (ps_state q) = st_info (ps_state p);
  al_agree : agree false (ps_state q) (ps_state p);
  al_mk : st_modified_keys (ps_state q) = st_modified_keys (ps_state p);
  al_mv : st_modified_values (ps_state q) = st_modified_values (ps_state p);
  al_hbin : ps_hbin p = 4096;
  al_recp : ps_recover p = true;
  al_recq : ps_recover q = true;
  al_rp : reached order n full hash (ps_state p);
  al_rq : reached order' n full hash (ps_state q);
  al_kp : held beq [] (st_deleted_keys (ps_state p)) = [];
  al_kq : held beq [] (st_deleted_keys (ps_state q)) = [];
  al_top : held beq [] (st_deleted_values (ps_state q)) = held beq [] (st_deleted_values (ps_state p));
  al_none : S -> held beq [] (st_deleted_values (ps_state p)) = [];
  al_vals : S -> forall path, same_by_name (held beq path (st_deleted_values (ps_state p))) (held beq path (st_deleted_values (ps_state q))) }.
Lemma finish_held st k : finish st k =
  let path := lookup_path k in
  let k := match aget beq path (st_modified_keys st) with
           | None => k
           | Some ms => kn_set_versions (sort_by (fun a b => opt_le (kn_seq b) (kn_seq a)) ms) k
           end in
  kn_set_values (map (fun v => match aget pair_eqb (path, vd_name (kv_detail v)) (st_modified_values st) with
                          | None => v
                          | Some ms => kv_set_versions (sort_by (fun a b => opt_le (kv_seq b) (kv_seq a)) ms) v
                          end) (kn_values k) ++ sort_by vle (held beq path (st_deleted_values st))) k.
Proof. unfold finish, held. cbv zeta. destruct (aget beq (lookup_path k) (st_deleted_values st)); reflexivity. Qed.
Lemma finish_alike p q k : alike p q -> is_key_root k = true -> finish (ps_state q) k = finish (ps_state p) k.
Proof. intros A R. rewrite !finish_held. unfold lookup_path. rewrite R, (al_mk _ _ A), (al_mv _ _ A), (al_top _ _ A). reflexivity. Qed.
Lemma root_alike p q p1 q1 : alike p q -> stage name (ps_buffer p) -> init_root p = Ok p1 -> init_root q = Ok q1 ->
  ps_root q1 = ps_root p1 /\ exists r, ps_root p1 = Some r /\ seated rp S r /\ kn_path r = rp /\ kn_deleted r = [].
Proof.
  intros A G I J. destruct (root_read p p1 name (al_hbin _ _ A) G (al_kp _ _ A) I) as (_ & _ & _ & _ & k0 & K & K1 & K2 & K3 & K4 & K5 & K6).
  assert (HQ : ps_hbin q = 4096) by (unfold ps_hbin; rewrite (al_file _ _ A); exact (al_hbin _ _ A)).
  assert (GQ : stage name (ps_buffer q)) by (unfold ps_buffer; rewrite (al_file _ _ A); exact G).
  destruct (root_read q q1 name HQ GQ (al_kq _ _ A) J) as (_ & _ & _ & _ & k0' & K' & _ & _ & _ & _ & _ & K6').
  rewrite (al_file _ _ A) in K'. pose proof (kn_read_agree false _ _ (ps_file p) (mkOpt 4128 [] None true None false) eq_refl (al_agree _ _ A)) as X.
  rewrite K, K' in X. destruct X as (X & _). injection X as ->.
  split; [now rewrite K6, K6', (finish_alike p q)|]. exists (finish (ps_state p) k0). split; [exact K6|].
  split; [|rewrite finish_same_path, finish_deleted; now split].
  split; [now rewrite finish_state|]. split; [now rewrite finish_deleted|]. split; [|rewrite finish_same_path, K4; split; [discriminate|now left]].
  intros HS. rewrite finish_held. cbv zeta. unfold lookup_path. rewrite K3, (al_none _ _ A HS). cbn [kn_set_values kn_values sort_by]. rewrite app_nil_r.
  apply Forall_map. assert (F : Forall (fun v => kv_state v = Allocated) (kn_values match aget beq [] (st_modified_keys (ps_state p)) with
    | None => k0 | Some ms => kn_set_versions (sort_by (fun a b => opt_le (kn_seq b) (kn_seq a)) ms) k0 end)) by (destruct (aget beq _ (st_modified_keys _)); exact K5).
  eapply Forall_impl; [|exact F]. cbv beta. intros v V. destruct (aget pair_eqb _ _); exact V.
Qed.
Lemma iterate_seated m p1 ks r : ps_root p1 = Some r -> seated rp S r -> bare m S (ps_state p1) -> iterate n p1 None false m false = Ok ks ->
  Forall (seated rp S) ks /\ exists k, In k ks /\ kn_path k = kn_path r.
Proof.
  intros R G B IT. split.
  - unfold iterate in IT. apply collect_walk in IT. eapply walk_seated; [exact IT|]. split; [exact B|]. split; [|reflexivity].
    unfold from_parser. rewrite R. cbn [cx_stack]. constructor; [exact G|constructor].
  - destruct (root_first _ _ _ _ _ R IT) as (k & tl & -> & _ & P & _). exists k. split; [now left|exact P].
Qed.
(** What is known of the items of a file. *)
Record known (fi : file_info) (prior : reg_items) : Prop := {
  kw_nodup : NoDup (map fst prior);
  kw_path : forall w it, aget keq w prior = Some it -> fst w <> [] /\ (snd w = None -> fst w = rp \/ parent_of (fst w) <> []);
  kw_names : S -> forall st path, names_agree fi st prior path }.
Lemma taken_known fi ks items z : taken order n full hash fi ks items -> Forall (seated rp S) ks -> known (mkFI (fi_hbin fi) (fi_buffer fi ++ z)) items.
Proof.
  intros T F. destruct (taken_seen _ _ _ _ _ _ _ T) as (N & _ & SE). rewrite Forall_forall in F. split; [exact N| |].
  - intros [path [nm|]] it A; apply SE in A; cbn [fst snd].
    + apply sighting_value in A as (k & v & K & _ & <- & _). split; [now apply F|discriminate].
    + apply sighting_key in A as (k & K & <- & _). split; [now apply F|]. intros _. now apply F.
  - intros HS st path. apply (taken_names order n full hash fi ks items path T). intros k K _. split; [now apply F|now apply F].
Qed.
Lemma removals_perm l l' : Permutation l l' -> Permutation (value_removals l) (value_removals l').
Proof. apply flat_perm. Qed.
Lemma latest_alike p q fi seq prior l p' lg l' q' lg' : alike p q -> stage name (ps_buffer p) -> known fi prior ->
  get_latest_reg_items order n fi seq p prior = Ok (l, p', lg) -> get_latest_reg_items order' n fi seq q prior = Ok (l', q', lg') ->
  l' = l /\ lg' = lg /\ alike p' q' /\ ps_file p' = ps_file p /\ ps_base_block p' = ps_base_block p
  /\ exists ks, taken order n full hash (ps_file p) ks l /\ Forall (seated rp S) ks.
Proof.
  intros A G KN E E'.
  destruct (latest_parts _ _ _ _ _ _ _ _ _ _ (agree_refl false (ps_state p)) E) as (p1 & ks & prior1 & nk & nv & lg1 & I1 & T1 & H1 & L1 & AG1 & IN1 & RT1).
  destruct (latest_parts _ _ _ _ _ _ _ _ _ _ (al_agree _ _ A) E') as (q1 & ks2 & prior2 & nk2 & nv2 & lg2 & I2 & T2 & H2 & L2 & AG2 & IN2 & RT2).
  destruct (root_alike _ _ _ _ A G I1 I2) as (RR & r & R1 & R2 & R3 & _).
  pose proof (init_root_same _ _ I1) as (F1 & _). pose proof (init_root_same _ _ I2) as (F2 & _).
  pose proof (init_root_state _ _ I1) as S1. pose proof (init_root_state _ _ I2) as S2.
  assert (TT : iterate n q1 None false false false = iterate n p1 None false false false).
  { apply iterate_agree; [rewrite F1, F2; exact (al_file _ _ A)|exact RR|rewrite S1, S2; exact (al_agree _ _ A)]. }
  rewrite TT, T1 in T2. injection T2 as <-. rewrite H1 in H2. injection H2 as <- <- <- <- <-.
  split; [reflexivity|]. split.
  { rewrite L1, L2. now rewrite (warned_perm _ _ _ (Permutation_trans (PO prior1) (Permutation_sym (PO' prior1)))). }
  assert (BR : bare false S (ps_state p1)) by (intros X; discriminate X).
  destruct (iterate_seated false p1 ks r R1 R2 BR T1) as (FS & (kr & KR1 & KR2)). rewrite R3 in KR2.
  pose proof (get_latest_same _ _ _ _ _ _ _ _ _ E) as (PF & PB & PR). pose proof (get_latest_same _ _ _ _ _ _ _ _ _ E') as (QF & QB & QR).
  assert (TK : taken order n full hash (ps_file p) ks l) by exact (taken_next _ _ _ _ _ _ _ _ _ _ _ _ _ (al_rp _ _ A) (kw_nodup _ _ KN) I1 T1 E).
  split; [|split; [exact PF|split; [exact PB|exists ks; now split]]].
  destruct (comparison _ _ _ _ _ _ _ _ _ E) as (p2 & ks2 & prior' & ch & X1 & _ & X2 & _ & FO & _ & M1 & M2 & M3 & M4).
  rewrite I1 in X1. injection X1 as <-. rewrite T1 in X2. injection X2 as <-.
  destruct (comparison _ _ _ _ _ _ _ _ _ E') as (q2 & ks2 & prior'' & ch' & X1 & _ & X2 & _ & FO' & _ & M1' & M2' & M3' & M4').
  rewrite I2 in X1. injection X1 as <-. rewrite TT, T1 in X2. injection X2 as <-. rewrite FO in FO'. injection FO' as <- <-. cbv zeta in *.
  pose proof (steps_prior seq (sightings ks) prior [] [] prior' l ch (kw_nodup _ _ KN) FO) as (NP & GP & _).
  assert (GONE : forall w it, In (w, it) prior' -> aget keq w prior = Some it /\ seen w (sightings ks) = false).
  { intros w it I. apply (in_aget keq kiff) in I; [|exact NP]. rewrite GP in I. destruct (seen w (sightings ks)); [discriminate|]. now split. }
  assert (OK : forall cs w it, old_key fi (ps_state q) seq cs w it = old_key fi (ps_state p) seq cs w it).
  { intros cs w it. unfold old_key. pose proof (kn_read_agree false _ _ fi (mkOpt (it_offset it) (parent_of w) None false (Some (it_seq it)) false) eq_refl (al_agree _ _ A)) as X.
    destruct (kn_read fi (ps_state q) _) as [[[k|] s1]| | |], (kn_read fi (ps_state p) _) as [[[k'|] s1']| | |]; cbn [same] in X; try contradiction; try reflexivity; destruct X as [X _]; congruence. }
  assert (OV : forall cs it, old_value fi (ps_state p) seq cs it = old_value fi (ps_state q) seq cs it).
  { intros cs it. unfold old_value. destruct (al_agree _ _ A) as (_ & FU & _). rewrite FU. destruct (get_from _ _); [|reflexivity].
    destruct (kv_from_bytes _ _ _ _) as [[v ?]| | |]; try reflexivity. now rewrite (read_value_bytes_agree _ _ _ fi v (al_agree _ _ A)). }
  destruct (reached_nodup _ _ _ _ _ (al_rp _ _ A)) as (D1 & D2). destruct (reached_nodup _ _ _ _ _ (al_rq _ _ A)) as (D1' & D2').
  assert (TK0 : forall st, Forall (fun e => fst e <> []) (flat_map (gone_keys fi st seq) prior')).
  { intros st. apply Forall_forall. intros x X. apply in_flat_map in X as ([[w o] it] & Y & X). unfold gone_keys in X. cbn [fst snd] in X. destruct o; [contradiction|].
    unfold at_path in X. apply in_map_iff in X as (k & <- & _). cbn [fst]. apply GONE in Y as (Y1 & Y2). apply (kw_path _ _ KN) in Y1 as (_ & Y1). cbn [fst snd] in Y1.
    destruct (Y1 eq_refl) as [->|Z]; [|exact Z]. exfalso. rewrite (first_seen_in (rp, None) (sightings ks) (kn_hash kr, kn_offset kr)) in Y2; [discriminate|].
    unfold sightings. apply in_flat_map. exists kr. split; [exact KR1|]. left. now rewrite KR2. }
  assert (TV0 : forall st, Forall (fun e => fst e <> []) (flat_map (gone_values fi st seq) prior')).
  { intros st. apply Forall_forall. intros x X. apply in_flat_map in X as ([[w o] it] & Y & X). unfold gone_values in X. cbn [fst snd] in X. destruct o; [|contradiction].
    unfold at_path in X. apply in_map_iff in X as (k & <- & _). cbn [fst]. apply GONE in Y as (Y1 & _). now apply (kw_path _ _ KN) in Y1 as (Y1 & _). }
  assert (PF0 : forall (o : reg_items -> reg_items) {B} (g : item_key * item -> list (list N * B)), (forall m, Permutation (o m) m) -> Forall (fun e => fst e <> []) (flat_map g prior') -> Forall (fun e => fst e <> []) (flat_map g (o prior'))).
  { intros o B g P F. apply Forall_forall. intros x X. rewrite Forall_forall in F. apply F. apply (Permutation_in x (flat_perm g _ _ (P prior'))). exact X. }
  assert (RV : Forall (fun e : list N * list N * N => fst (fst e) <> []) (value_removals l)).
  { destruct (taken_seen _ _ _ _ _ _ _ TK) as (NL & _ & SE). rewrite Forall_forall in FS. apply Forall_forall. intros x X. unfold value_removals in X. apply in_flat_map in X as ([[w [o|]] it] & Y & X); cbn [fst snd] in X; [|contradiction].
    destruct X as [<-|[]]. cbn [fst]. apply (in_aget keq kiff) in Y; [|exact NL]. apply SE, sighting_value in Y as (k & v & K & _ & <- & _). now apply FS. }
  assert (RVO : forall o : reg_items -> reg_items, (forall m, Permutation (o m) m) -> Forall (fun e : list N * list N * N => fst (fst e) <> []) (value_removals (o l))).
  { intros o P. apply Forall_forall. intros x X. rewrite Forall_forall in RV. apply RV. exact (Permutation_in x (removals_perm _ _ (P l)) X). }
  assert (TP : held beq [] (st_deleted_values (ps_state p')) = held beq [] (st_deleted_values (ps_state p))).
  { rewrite M4, top_values_removed; [apply top_pushed, PF0; [exact PO|apply TV0]|apply pushes_nodup; [exact beq_iff|exact D2]|now apply RVO]. }
  assert (TQ : held beq [] (st_deleted_values (ps_state q')) = held beq [] (st_deleted_values (ps_state q))).
  { rewrite M4', top_values_removed; [apply top_pushed, PF0; [exact PO'|apply TV0]|apply pushes_nodup; [exact beq_iff|exact D2']|now apply RVO]. }
  constructor.
  - rewrite QF, PF. exact (al_file _ _ A).
  - rewrite QB, PB. exact (al_block _ _ A).
  - rewrite IN1, IN2. exact (al_info _ _ A).
  - destruct AG1 as (B1 & B2 & B3 & _), AG2 as (C1 & C2 & C3 & _). split; [congruence|]. split; [congruence|]. split; [congruence|discriminate].
  - rewrite M1, M1', (al_mk _ _ A). f_equal. apply flat_ext. intros x. unfold changed_keys. destruct (is_key x); [now rewrite OK|reflexivity].
  - rewrite M2, M2', (al_mv _ _ A). f_equal. apply flat_ext. intros x. unfold changed_values. destruct (is_key x); [reflexivity|now rewrite OV].
  - unfold ps_hbin. rewrite PF. exact (al_hbin _ _ A).
  - rewrite PR. exact (al_recp _ _ A).
  - rewrite QR. exact (al_recq _ _ A).
  - exact (reached_compare _ _ _ _ _ _ _ _ _ _ _ (al_rp _ _ A) E).
  - exact (reached_compare _ _ _ _ _ _ _ _ _ _ _ (al_rq _ _ A) E').
  - rewrite M3. apply top_keys_removed; [apply pushes_nodup; [exact beq_iff|exact D1]|]. rewrite top_pushed; [exact (al_kp _ _ A)|]. apply PF0; [exact PO|apply TK0].
  - rewrite M3'. apply top_keys_removed; [apply pushes_nodup; [exact beq_iff|exact D1']|]. rewrite top_pushed; [exact (al_kq _ _ A)|]. apply PF0; [exact PO'|apply TK0].
  - rewrite TP, TQ. exact (al_top _ _ A).
  - intros HS. rewrite TP. exact (al_none _ _ A HS).
  - intros HS path. rewrite M4, M4'. apply two_stores with (prior := prior).
    + intros it. apply OV.
    + exact D2.
    + exact D2'.
    + apply (Permutation_NoDup (Permutation_map fst (Permutation_sym (PO prior')))). exact NP.
    + exact (Permutation_trans (PO prior') (Permutation_sym (PO' prior'))).
    + apply removals_perm. exact (Permutation_trans (PO l) (Permutation_sym (PO' l))).
    + intros w it I. apply (Permutation_in _ (PO prior')) in I. now apply GONE in I.
    + now apply (kw_names _ _ KN).
    + exact (al_vals _ _ A HS path).
Qed.

Lemma alike_info i p q : alike p q -> alike (ps_set_state (set_info (st_info (ps_state p) ++ i) (ps_state p)) p) (ps_set_state (set_info (st_info (ps_state q) ++ i) (ps_state q)) q).
Proof.
  intros [A1 A2 A3 A4 A5 A6 A7 A8 A9 A10 A11 A12 A13 A14 A15 A16]. constructor; cbn [ps_set_state ps_file ps_base_block ps_recover ps_state set_info st_info st_modified_keys st_modified_values st_deleted_keys st_deleted_values]; try assumption.
  - now rewrite A3.
  - now apply reached_info.
  - now apply reached_info.
Qed.
Lemma alike_log c p q : alike p q -> alike (ps_log c p) (ps_log c q).
Proof. exact (alike_info [c] p q). Qed.
Lemma alike_file fi p q : fi_hbin fi = 4096 -> alike p q -> alike (ps_set_file fi p) (ps_set_file fi q).
Proof. intros H [A1 A2 A3 A4 A5 A6 A7 A8 A9 A10 A11 A12 A13 A14 A15 A16]. constructor; try assumption. reflexivity. Qed.
Lemma alike_block b p q : alike p q -> alike (ps_set_base_block b p) (ps_set_base_block b q).
Proof. intros [A1 A2 A3 A4 A5 A6 A7 A8 A9 A10 A11 A12 A13 A14 A15 A16]. constructor; try assumption. reflexivity. Qed.
Lemma alike_buffer b p q : alike p q -> alike (ps_set_buffer b p) (ps_set_buffer b q).
Proof.
  intros A. unfold ps_set_buffer. replace (ps_hbin q) with (ps_hbin p) by (unfold ps_hbin; now rewrite (al_file _ _ A)). apply alike_file; [exact (al_hbin _ _ A)|exact A].
Qed.
Lemma alike_root p q p1 q1 : alike p q -> init_root p = Ok p1 -> init_root q = Ok q1 -> alike p1 q1.
Proof.
  intros A I J. apply init_root_ok in I as (h & r & -> & _). apply init_root_ok in J as (h' & r' & -> & _).
  destruct A as [A1 A2 A3 A4 A5 A6 A7 A8 A9 A10 A11 A12 A13 A14 A15 A16]. constructor; assumption.
Qed.
(** The items of the file that is being changed. *)
Definition holds (p : parser) (items : reg_items) : Prop := exists ks, taken order n full hash (ps_file p) ks items /\ Forall (seated rp S) ks.
Lemma latest_fine p fi seq prior : ps_hbin p = 4096 -> rooted (ps_buffer p) -> forall o, get_latest_reg_items o n fi seq p prior <> Err.
Proof.
  intros H R o E. pose proof (latest_err _ _ _ _ _ _ E) as X. pose proof (root_not_err p H R) as Y. unfold get_latest_reg_items in E.
  destruct (init_root p) as [p1| | |]; try discriminate; [|now elim Y]. cbv beta iota in E. pose proof (iterate_no_err n p1 None false false false) as Z.
  specialize (X p1). destruct (iterate n p1 None false false false) as [ks| | |]; try discriminate; [|now elim Z]. exact (X ks eq_refl eq_refl).
Qed.
Lemma analyze_alike p q fi seq prior l p' l' q' : alike p q -> stage name (ps_buffer p) -> known fi prior ->
  analyze_entry order n fi seq p prior = Ok (l, p') -> analyze_entry order' n fi seq q prior = Ok (l', q') ->
  l' = l /\ alike p' q' /\ holds p' l /\ ps_file p' = ps_file p /\ ps_base_block p' = ps_base_block p.
Proof.
  intros A G K. unfold analyze_entry. rewrite (al_recp _ _ A), (al_recq _ _ A).
  assert (HQ : ps_hbin q = 4096) by (unfold ps_hbin; rewrite (al_file _ _ A); exact (al_hbin _ _ A)).
  assert (RQ : rooted (ps_buffer q)) by (unfold ps_buffer; rewrite (al_file _ _ A); exact (proj1 G)).
  pose proof (latest_fine p fi seq prior (al_hbin _ _ A) (proj1 G) order) as N1. pose proof (latest_fine q fi seq prior HQ RQ order') as N2.
  destruct (get_latest_reg_items order n fi seq p prior) as [[[l1 p1] g1]| | |] eqn:E1; try discriminate; [|now elim N1].
  destruct (get_latest_reg_items order' n fi seq q prior) as [[[l2 q1] g2]| | |] eqn:E2; try discriminate; [|now elim N2].
  intros [= <- <-] [= <- <-]. destruct (latest_alike _ _ _ _ _ _ _ _ _ _ _ A G K E1 E2) as (-> & -> & AL & F & B & H).
  split; [reflexivity|]. split; [now apply alike_info|]. split; [|split; [exact F|exact B]].
  unfold holds. cbn [ps_set_state ps_file]. now rewrite F.
Qed.
Lemma entries_alike sec hb : 0 < sec -> forall es s p q items s1 i1 p1 s2 i2 q1, Forall entry_ok es -> (s = 0 \/ sec <= s /\ u32 s) ->
  alike p q -> holds p items ->
  (forall l rest b, fresh sec es = l ++ rest -> Forall size_ok l -> chain s l -> overlaid 4096 hb l (ps_buffer p) b -> stage name b) ->
  update_entries order n sec hb es s p items = Ok (s1, i1, p1) -> update_entries order' n sec hb es s q items = Ok (s2, i2, q1) ->
  s2 = s1 /\ i2 = i1 /\ alike p1 q1 /\ holds p1 i1 /\ ps_base_block p1 = ps_base_block p.
Proof.
  intros Hsec. unfold u32. change (2 ^ 32) with 4294967296.
  induction es as [|e es IH]; intros s p q items s1 i1 p1 s2 i2 q1 U Hn A HO W; cbn [update_entries].
  { intros [= <- <- <-] [= <- <- <-]. auto. }
  apply Forall_cons_iff in U as [U0 U]. rewrite fresh_cons in W.
  assert (STOP : Ok (s, items, ps_log WarningTransactionLog p) = Ok (s1, i1, p1) -> Ok (s, items, ps_log WarningTransactionLog q) = Ok (s2, i2, q1) ->
    s2 = s1 /\ i2 = i1 /\ alike p1 q1 /\ holds p1 i1 /\ ps_base_block p1 = ps_base_block p).
  { intros [= <- <- <-] [= <- <- <-]. split; [reflexivity|]. split; [reflexivity|]. split; [now apply alike_log|]. split; [exact HO|reflexivity]. }
  destruct (le_valid_hashes e) eqn:V; [|exact STOP].
  destruct (N.ltb_spec (le_seq e) sec) as [LT|GE].
  { destruct (N.leb_spec sec (le_seq e)); [lia|]. exact (IH s (ps_log WarningTransactionLog p) (ps_log WarningTransactionLog q) items s1 i1 p1 s2 i2 q1 U Hn (alike_log _ _ _ A) HO W). }
  destruct (N.leb_spec sec (le_seq e)); [|lia].
  destruct (N.eqb_spec (le_hbins_size e mod 4096) 0) as [Z|Z]; cbn [negb]; [|exact STOP].
  destruct (negb (s =? 0) && negb (le_seq e =? w32 (s + 1))) eqn:Q; [exact STOP|].
  destruct U0 as (U1 & U2 & U3). unfold u32 in U1. change (2 ^ 32) with 4294967296 in U1.
  assert (C : s = 0 \/ le_seq e = s + 1).
  { destruct (N.eqb_spec s 0); [now left|]. cbn [negb andb] in Q. right.
    destruct (N.eqb_spec (le_seq e) (w32 (s + 1))) as [Q1|]; [|discriminate].
    destruct Hn as [|[Hn1 Hn2]]; [lia|]. unfold w32 in *.
    destruct (N.eq_dec (s + 1) 4294967296) as [W0|W0].
    - rewrite W0 in Q1. change (4294967296 mod 4294967296) with 0 in Q1. lia.
    - rewrite N.mod_small in Q1 by lia. exact Q1. }
  clear Q STOP. cbv zeta.
  assert (QB : ps_buffer q = ps_buffer p) by (unfold ps_buffer; now rewrite (al_file _ _ A)).
  assert (QH : ps_hbin q = 4096) by (unfold ps_hbin; rewrite (al_file _ _ A); exact (al_hbin _ _ A)).
  rewrite QB, QH, (al_hbin _ _ A), !(grown_file_is hash).
  destruct (apply_pages 4096 (le_pages e) (grown_file hb e (ps_buffer p))) as [b| | |] eqn:AP; try discriminate.
  cbv beta iota. assert (OV : overlaid 4096 hb [e] (ps_buffer p) b) by (apply (pages_overlaid hash); exact AP).
  assert (FT : fits 4096 hb (len (ps_buffer p)) [e]).
  { apply apply_pages_ok in AP as (_ & AP & _). cbn [fits]. split; [|exact I]. unfold grown_file in AP. rewrite len_app, len_repeat, N2Nat.id in AP. exact AP. }
  assert (GB : stage name b) by (apply (W [e] (fresh sec es)); [reflexivity|constructor; [exact Z|constructor]|split; [exact C|exact I]|exact OV]).
  assert (KN : known (mkFI 4096 (grown_file hb e (ps_buffer p))) items).
  { destruct HO as (ks & T & F). pose proof (taken_known _ _ _ (repeat 0 (N.to_nat (le_hbins_size e - hb))) T F) as K. change (fi_hbin (ps_file p)) with (ps_hbin p) in K. rewrite (al_hbin _ _ A) in K. exact K. }
  destruct (analyze_entry order n (mkFI 4096 (grown_file hb e (ps_buffer p))) (le_seq e) (ps_set_buffer b p) items) as [[it p2]| | |] eqn:E1; try discriminate.
  destruct (analyze_entry order' n (mkFI 4096 (grown_file hb e (ps_buffer p))) (le_seq e) (ps_set_buffer b q) items) as [[it' q2]| | |] eqn:E2; try discriminate.
  destruct (analyze_alike _ _ _ _ _ _ _ _ _ (alike_buffer b _ _ A) GB KN E1 E2) as (-> & A2 & H2 & F2 & B2). cbv beta iota.
  assert (PB2 : ps_buffer p2 = b) by (unfold ps_buffer; now rewrite F2).
  intros R1 R2. destruct (IH (le_seq e) p2 q2 it s1 i1 p1 s2 i2 q1 U) as (X1 & X2 & X3 & X4 & X5); try assumption.
  - right. split; [lia|exact U1].
  - intros l rest b2 F SO CH O2. rewrite PB2 in O2. apply (W (e :: l) rest); [cbn [app]; now rewrite F|constructor; [exact Z|exact SO]|split; [exact C|exact CH]|].
    change (e :: l) with ([e] ++ l). exact (overlaid_app _ _ _ _ _ _ _ FT OV O2).
  - split; [exact X1|]. split; [exact X2|]. split; [exact X3|]. split; [exact X4|]. rewrite X5, B2. reflexivity.
Qed.
Lemma logs_alike sec hb bb : bb_secondary_seq (bb_base bb) = sec -> bb_hive_bins_data_size (bb_base bb) = hb -> 0 < sec ->
  forall logs s p q items s1 p1 s2 q1, Forall (fun l => Forall entry_ok (tl_entries l)) logs -> ps_base_block p = Some bb ->
  alike p q -> holds p items ->
  (forall es m l rest b, log_chain sec s logs es m -> es = l ++ rest -> overlaid 4096 hb l (ps_buffer p) b -> stage name b) ->
  apply_logs order n sec logs s p items = Ok (s1, p1) -> apply_logs order' n sec logs s q items = Ok (s2, q1) ->
  s2 = s1 /\ alike p1 q1 /\ stage name (ps_buffer p1).
Proof.
  intros SS HB Z. induction logs as [|l logs IH]; intros s p q items s1 p1 s2 q1 U B A HO W; cbn [apply_logs].
  { intros [= <- <-] [= <- <-]. split; [reflexivity|]. split; [exact A|]. exact (W [] s [] [] _ (chain_end _ _) eq_refl (overlaid_nil _ _ _)). }
  apply Forall_cons_iff in U as [U0 U]. cbv beta in U0.
  assert (SKIP : ~ eligible sec s l -> apply_logs order n sec logs s (ps_log WarningTransactionLog p) items = Ok (s1, p1) ->
    apply_logs order' n sec logs s (ps_log WarningTransactionLog q) items = Ok (s2, q1) -> s2 = s1 /\ alike p1 q1 /\ stage name (ps_buffer p1)).
  { intros NE. apply IH; [exact U|exact B|now apply alike_log|exact HO|]. intros es m l0 rest b C. apply (W es m l0 rest b). now constructor. }
  destruct (N.leb_spec sec (log_primary l)) as [P|P].
  2:{ apply SKIP. intros [? _]. lia. }
  destruct ((s =? 0) || (log_primary l =? w32 (s + 1))) eqn:Q.
  2:{ apply SKIP. intros [_ [->|X]]; [discriminate|].
      unfold w32 in Q. change 4294967296 with (2 ^ 32) in Q. rewrite X, N.eqb_refl, orb_comm in Q. discriminate. }
  assert (EL : eligible sec s l).
  { split; [exact P|]. apply orb_prop in Q as [Q|Q]; apply N.eqb_eq in Q; [now left|now right]. }
  assert (U1 : Forall (fun e => u32 (le_seq e)) (tl_entries l)) by (eapply Forall_impl; [|exact U0]; now intros e (? & _)).
  destruct (update_parser order n l p items) as [[[k it] p2]| | |] eqn:E1; try discriminate.
  destruct (update_parser order' n l q items) as [[[k' it'] q2]| | |] eqn:E2; try discriminate. cbv beta iota.
  assert (BQ : ps_base_block q = Some bb) by (rewrite (al_block _ _ A); exact B).
  assert (STEP : k' = k /\ it' = it /\ alike p2 q2 /\ holds p2 it /\ ps_base_block p2 = ps_base_block p).
  { pose proof E1 as E1'. pose proof E2 as E2'. unfold update_parser, base_block_info in E1', E2'. rewrite B in E1'. rewrite BQ in E2'. cbn [or_panic] in E1', E2'. cbv beta iota in E1', E2'. rewrite SS, HB in E1', E2'.
    eapply entries_alike; [exact Z|exact U0|now left|exact A|exact HO| |exact E1'|exact E2'].
    intros l0 rest b F SO CH OV. destruct (run_exists rest (last_from 0 l0)) as (l1 & rest1 & R1 & R2 & R3 & R4).
    assert (AP : applied sec (tl_entries l) (l0 ++ l1)).
    { apply (run_applied sec (tl_entries l) (l0 ++ l1) rest1 Z).
      - now rewrite F, R1, app_assoc.
      - apply Forall_app. now split.
      - clear - CH R3. revert CH R3. generalize 0. induction l0 as [|e l0 IL]; intros n CH R3; [exact R3|]. destruct CH as [C1 C2]. split; [exact C1|]. now apply IL.
      - destruct rest1 as [|g rest1]; [exact I|]. cbn [stops] in *. destruct R4 as [R4|R4]; [now left|right]. intros X. apply R4. rewrite <- app_assoc in X. clear - X.
        revert X. generalize 0. induction l0 as [|e l0 IL]; intros n X; [exact X|]. destruct X as [_ X]. now apply IL in X. }
    destruct (chain_total sec (last_seq (l0 ++ l1)) logs Z) as (es & m & C).
    apply (W ((l0 ++ l1) ++ es) m l0 (l1 ++ es) b); [econstructor; eassumption|now rewrite app_assoc|exact OV]. }
  destruct STEP as (-> & -> & A2 & H2 & B2).
  eapply update_parser_spec in E1 as (a & AP & [[X _]|(it0 & q0 & X & F & O & K1 & K2 & K3)]); try eassumption; try discriminate.
  injection X as -> <- <-. rewrite (al_hbin _ _ A) in *. intros R1 R2.
  eapply IH; [exact U|rewrite B2; exact B|exact A2|exact H2| |exact R1|exact R2]. intros es m l0 rest b C E OV.
  apply (W (a ++ es) m (a ++ l0) rest b); [econstructor; eassumption|now rewrite E, app_assoc|exact (overlaid_app _ _ _ _ _ _ _ F O OV)].
Qed.
Lemma base_alike p q s b p1 s' b' q1 : alike p q -> init_base_block p = Ok (s, b, p1) -> init_base_block q = Ok (s', b', q1) -> alike p1 q1.
Proof.
  intros A E E'. pose proof (init_base_ok _ _ _ _ E) as ((HH & _) & _). revert E E'. unfold init_base_block.
  assert (QB : ps_buffer q = ps_buffer p) by (unfold ps_buffer; now rewrite (al_file _ _ A)). rewrite QB.
  destruct (bb_from_bytes (ps_buffer p)) as [[bb r]| | |]; try discriminate. cbv beta iota zeta. unfold check_base_block.
  set (fi := mkFI _ _). intros E E'.
  assert (HF : fi_hbin fi = 4096).
  { rewrite <- HH. destruct (is_supported bb); [|injection E as _ _ <-; reflexivity]. cbv zeta in E. destruct (get_range _ _ _) in E; [|discriminate]. cbn [or_panic] in E.
    destruct (calculate_checksum _) in E; try discriminate. cbv beta iota in E.
    match type of E with (if ?c then _ else _) = _ => destruct c end; injection E as _ _ <-; destruct (_ =? _); reflexivity. }
  assert (A0 : alike (ps_set_base_block bb (ps_set_file fi p)) (ps_set_base_block bb (ps_set_file fi q))) by now apply alike_block, alike_file.
  destruct (is_supported bb); [|injection E as _ _ <-; injection E' as _ _ <-; now apply alike_log]. cbv zeta in E, E'.
  set (p2 := if _ =? _ then ps_set_base_block bb (ps_set_file fi p) else _) in E. set (q2 := if _ =? _ then ps_set_base_block bb (ps_set_file fi q) else _) in E'.
  assert (A2 : alike p2 q2) by (unfold p2, q2; destruct (_ =? _); [exact A0|now apply alike_log]). clearbody p2 q2.
  assert (B2 : ps_buffer q2 = ps_buffer p2) by (unfold ps_buffer; now rewrite (al_file _ _ A2)). rewrite B2 in E'.
  destruct (get_range _ _ _); [|discriminate]. cbn [or_panic] in E, E'. destruct (calculate_checksum _) as [ck| | |]; try discriminate. cbv beta iota in E, E'.
  destruct (ck =? _); injection E as _ _ <-; injection E' as _ _ <-; [exact A2|now apply alike_log].
Qed.
Lemma header_alike s p q p1 q1 : alike p q -> update_header s p = Ok p1 -> update_header s q = Ok q1 -> alike p1 q1.
Proof.
  intros A. unfold update_header. replace (ps_buffer q) with (ps_buffer p) by (unfold ps_buffer; now rewrite (al_file _ _ A)).
  destruct (overwrite _ _ _) as [b1|]; [|discriminate]. cbn [or_panic]. destruct (overwrite _ _ _) as [b2|]; [|discriminate]. cbn [or_panic].
  destruct (get_range _ _ _); [|discriminate]. cbn [or_panic]. destruct (calculate_checksum _); try discriminate.
  cbv beta iota. destruct (overwrite _ _ _) as [b3|]; [|discriminate]. cbn [or_panic].
  destruct (init_base_block (ps_set_buffer b3 p)) as [[[x y] p4]| | |] eqn:B; try discriminate. destruct (init_base_block (ps_set_buffer b3 q)) as [[[x' y'] q4]| | |] eqn:B'; try discriminate.
  intros [= <-] [= <-]. apply alike_log. exact (base_alike _ _ _ _ _ _ _ _ (alike_buffer b3 _ _ A) B B').
Qed.
Lemma stage_rest b b' : len b' = len b -> rest_at b' 4096 = rest_at b 4096 -> stage name b -> stage name b'.
Proof.
  intros L R ((G1 & G2 & G3) & G4 & G5). assert (R2 : rest_at b' 4128 = rest_at b 4128) by (change 4128 with (4096 + 32); rewrite <- !rest_rest, R; reflexivity).
  split; [|split].
  - split; [lia|]. split; [|now rewrite R2]. rewrite <- G2. change 4096 with (4096 + 0). now rewrite <- !bytes_at_rest, R.
  - rewrite <- G4. change 4134 with (4096 + 38). now rewrite <- !num_at_rest, R.
  - intros m M. apply G5. exact (rest_names _ _ _ R2 M).
Qed.
(** The whole replay, from the same state. *)
Lemma replay_alike logs p b nm items p3 sec x s1 p1 s2 q1 pf qf pr qr :
  alike p p -> st_deleted_keys (ps_state p) = [] -> (S -> st_deleted_values (ps_state p) = []) ->
  ps_file p = mkFI 4096 b -> ps_base_block p = Some (base_block_at b nm) -> 0 < num_at b 8 4 ->
  Forall (fun l => Forall entry_ok (tl_entries l)) logs ->
  (forall es m l rest b', log_chain (num_at b 8 4) 0 logs es m -> es = l ++ rest -> overlaid 4096 (num_at b 40 4) l b b' -> stage name b') ->
  get_reg_items n p 0 = Ok (items, p3) -> base_block_info p3 = Ok (sec, x) ->
  apply_logs order n sec logs 0 p3 items = Ok (s1, p1) -> apply_logs order' n sec logs 0 p3 items = Ok (s2, q1) ->
  update_header s1 p1 = Ok pf -> update_header s2 q1 = Ok qf -> init_root pf = Ok pr -> init_root qf = Ok qr ->
  alike pr qr /\ ps_root qr = ps_root pr.
Proof.
  intros A DK DV F BB Z LO W GI BI R1 R2 H1 H2 I1 I2.
  assert (PB : ps_buffer p = b) by (unfold ps_buffer; now rewrite F).
  assert (G : stage name b).
  { destruct (chain_total (num_at b 8 4) 0 logs Z) as (es & m & C). apply (W es m [] es b C eq_refl). apply overlaid_nil. }
  assert (X : alike p3 p3 /\ holds p3 items /\ ps_file p3 = ps_file p /\ ps_base_block p3 = ps_base_block p).
  { pose proof GI as GI0. unfold get_reg_items in GI. rewrite (al_recp _ _ A) in GI. destruct (init_root p) as [pp| | |] eqn:IR; try discriminate. cbv beta iota in GI.
    destruct (iterate n pp None false true false) as [ks| | |] eqn:IT; try discriminate. cbv beta iota in GI. destruct (insert_keys 0 ks []) as [m| | |] eqn:IK; try discriminate.
    injection GI as <- <-. pose proof (init_root_same _ _ IR) as (F1 & F2 & _). rewrite <- PB in G. destruct (root_alike _ _ _ _ A G IR IR) as (_ & r & R & SR & _).
    split; [exact (alike_root _ _ _ _ A IR IR)|]. split; [|now split]. exists ks. rewrite F1. split.
    - exact (taken_first _ _ _ _ _ _ _ _ _ _ (al_rp _ _ A) (al_recp _ _ A) IR IT GI0).
    - apply (iterate_seated true pp ks r R SR); [|exact IT]. intros _. rewrite (init_root_state _ _ IR). now split. }
  destruct X as (A3 & H3 & F3 & B3). rewrite BB in B3. unfold base_block_info in BI. rewrite B3 in BI. cbn [or_panic] in BI. injection BI as <- _.
  change (bb_secondary_seq (bb_base (base_block_at b nm))) with (num_at b 8 4) in R1, R2.
  destruct (logs_alike (num_at b 8 4) (num_at b 40 4) (base_block_at b nm) eq_refl eq_refl Z logs 0 p3 p3 items s1 p1 s2 q1 LO B3 A3 H3) as (-> & A4 & G4); [|exact R1|exact R2|].
  { assert (QB : ps_buffer p3 = b) by (unfold ps_buffer; now rewrite F3, F). rewrite QB. exact W. }
  pose proof (header_alike _ _ _ _ _ A4 H1 H2) as A5. pose proof (header_rest_kept hash _ _ _ H1) as (KL & KR).
  assert (G5 : stage name (ps_buffer pf)) by exact (stage_rest _ _ KL KR G4).
  split; [exact (alike_root _ _ _ _ A5 I1 I2)|]. exact (proj1 (root_alike _ _ _ _ A5 G5 I1 I2)).
Qed.
End Two.
