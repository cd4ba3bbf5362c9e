(** A hive opened by a parser, and the parser after any history of look-ups. *)
From Verif Require Import Base BaseFacts Util UtilSpec UtilText UtilLz LayoutSpec LayoutFacts HeaderFacts BaseBlock Types Value Node Recover
  Parser TxLog TxSpec TxParse TxApply NodeFrame TxBuild CellSpec CellFacts CellData CellList CellRead
  TreeSpec TreeRead TreeIter TreeOpen TreeFilter TreeLook TreeUse AnyFile AnyOpen Pure History TreeCount.

(** The parser [p] was built from these files, without recovery of deleted
    items, and its bytes - after the logs have been applied - hold the tree. *)
Definition opens (buffer : list N) (files : list (list N)) (t : key_tree) (p : parser) : Prop :=
  known_file_type buffer /\ hive (ps_buffer p) t
  /\ exists order fuel hash full, build order fuel hash false full buffer files = Ok p.
(** A key of the hive: its path starts with the root's. *)
Definition key_of (t : key_tree) (k : key_node) : Prop :=
  exists r, kn_path k = utf8 (spelled [t_name t]) ++ r /\ (r = [] \/ hd_error r = Some 92).
(** The parser after any look-ups with keys of the hive; its header says that
    the root is the first cell. *)
Definition session (buffer : list N) (files : list (list N)) (t : key_tree) (p : parser) : Prop :=
  clean_names t /\ exists p0, opens buffer files t p0 /\ num_at (ps_buffer p0) 36 4 = 32 /\ used (key_of t) p0 p.

Lemma opens_opened buffer files t p : opens buffer files t p -> opened t p.
Proof. intros (K & H & order & fuel & hash & full & B). eapply build_opened; eassumption. Qed.
Lemma session_opened buffer files t p : session buffer files t p -> opened t p /\ num_at (ps_buffer p) 36 4 = 32 /\ clean_names t.
Proof.
  intros (C & p0 & O & R & U). apply opens_opened in O. split; [eapply opened_used; eauto|]. split; [|exact C].
  apply used_moved, moved_same in U as (F & _). unfold ps_buffer in *. now rewrite F.
Qed.
Lemma session_starts buffer files t p : opens buffer files t p -> clean_names t -> num_at (ps_buffer p) 36 4 = 32 -> session buffer files t p.
Proof. intros O C R. split; [exact C|]. exists p. split; [exact O|]. split; [exact R|constructor]. Qed.

Lemma session_preorder buffer files t p ok p' anc m n : opens buffer files t p -> used ok p p' -> (2 * length (positions t) < n)%nat ->
  exists ks, iterate n p' None anc m false = Ok ks /\ shown ks (preorder [] t).
Proof.
  intros O U L. apply opens_opened in O. rewrite (moved_iterate p p' _ _ _ _ (used_moved _ _ _ U)).
  now destruct (opened_iterate t p anc m n O L) as (X & _).
Qed.
Lemma session_postorder buffer files t p ok p' anc m n : opens buffer files t p -> used ok p p' -> (2 * length (positions t) < n)%nat ->
  exists ks, iterate n p' None anc m true = Ok ks /\ shown ks (postorder [] t).
Proof.
  intros O U L. apply opens_opened in O. rewrite (moved_iterate p p' _ _ _ _ (used_moved _ _ _ U)).
  now destruct (opened_iterate t p anc m n O L) as (_ & X).
Qed.
Lemma session_filter buffer files t p q anc m n : session buffer files t p -> below_root q -> (length (positions t) < n)%nat ->
  exists ks, iterate n p (Some q) anc m false = Ok ks /\ shown ks (filtered q anc (preorder [] t)).
Proof. intros S BR L. apply session_opened in S as (O & _ & C). now apply opened_filter. Qed.
Lemma session_get_key buffer files t p a segs b (has_root : bool) fuel : session buffer files t p ->
  path_names segs -> (has_root = true -> (length segs <= 1)%nat -> (b <= 1)%nat) -> (length segs <= fuel)%nat ->
  exists o p', get_key fuel p (utf8 (repeat 92 a ++ joined segs ++ repeat 92 b)) has_root = Ok (o, p')
  /\ session buffer files t p'
  /\ match hd_error (reached [] (if has_root then tl segs else segs) t) with
     | None => o = None
     | Some (names, s) => exists k, o = Some k /\ key_shown k names s
     end.
Proof.
  intros S PN HB LF. pose proof S as S0. apply session_opened in S as (O & R & C).
  destruct (opened_get_key t p O R C a segs b has_root fuel PN HB LF) as (o & p' & E & O' & _ & G).
  exists o, p'. split; [exact E|]. split.
  - destruct S0 as (_ & p0 & OP & R0 & U). split; [exact C|]. exists p0. split; [exact OP|]. split; [exact R0|]. eapply used_key; eassumption.
  - unfold gives in G. destruct (hd_error _) as [[names s]|]; exact G.
Qed.
Lemma session_count buffer files t p ok p' n : opens buffer files t p -> used ok p p' -> (2 * length (positions t) < n)%nat ->
  count_all n p' None = Ok (keys_in t, values_in t).
Proof.
  intros O U L. apply opens_opened in O. unfold count_all. rewrite (moved_iterate p p' _ _ _ _ (used_moved _ _ _ U)).
  exact (opened_count t p n O L).
Qed.
Lemma session_count_filter buffer files t p q n : session buffer files t p -> below_root q -> (2 * length (positions t) < n)%nat ->
  count_all n p (Some q) = Ok (len (filtered q false (preorder [] t)), total (fun x => len (t_vals (snd x))) (filtered q false (preorder [] t))).
Proof. intros S BR L. apply session_opened in S as (O & _ & C). now apply opened_count_filter. Qed.

(** ** Every file *)
Lemma file_iterates order fuel hash full buffer files p n f anc m post : known_file_type buffer ->
  build order fuel hash false full buffer files = Ok p -> bytes_ok (ps_buffer p) -> no_list_cycle (ps_file p) ->
  (2 * S (N.to_nat (len (ps_buffer p))) < n)%nat ->
  exists ks, iterate n p f anc m post = Ok ks /\ NoDup (map kn_offset ks)
  /\ Forall (fun k => exists names, lineage (ps_file p) 4128 names (kn_offset k) /\ kn_path k = path_of names) ks.
Proof. intros K E B NC L. apply any_iterate; auto. eapply build_any; eassumption. Qed.
Fixpoint no_pair (b : list N) : bool :=
  match b with
  | x :: (y :: _) as r => negb ((x =? 114) && (y =? 105)) && no_pair r
  | _ => true
  end.
Lemma no_pair_at b : no_pair b = true -> forall q, bytes_at b q 2 <> [114; 105].
Proof.
  intros H q. unfold bytes_at. rewrite <- (N2Nat.id q). rewrite Nat2N.id. change (N.to_nat 2) with 2%nat.
  set (n := N.to_nat q). clearbody n. clear q. revert n. induction b as [|x b IH]; intros n E; [destruct n; discriminate|].
  destruct b as [|y b]; [destruct n as [|[|n]]; discriminate|].
  cbn [no_pair] in H. apply andb_true_iff in H as [H1 H2]. destruct n as [|n].
  - cbn in E. injection E as -> ->. discriminate.
  - cbn [skipn] in E. exact (IH H2 n E).
Qed.
Lemma no_pair_no_cycle fi : no_pair (fi_buffer fi) = true -> no_list_cycle fi.
Proof. intros H c P. inversion P; subst; match goal with I : index_entry _ _ _ |- _ => destruct I as (_ & E & _) end; exact (no_pair_at _ H _ E). Qed.

(** ** Values *)
Lemma get_value_first k name :
  match get_value k name with
  | Some v => exists before after, kn_values k = before ++ v :: after /\ same_name (vd_name (kv_detail v)) name = true
      /\ Forall (fun x => same_name (vd_name (kv_detail x)) name = false) before
  | None => Forall (fun x => same_name (vd_name (kv_detail x)) name = false) (kn_values k)
  end.
Proof.
  change (get_value k name) with (find (fun v => same_name (vd_name (kv_detail v)) name) (kn_values k)).
  induction (kn_values k) as [|v vs IH]; [constructor|]. cbn [find].
  destruct (same_name (vd_name (kv_detail v)) name) eqn:E; [exists [], vs; auto|].
  destruct (find _ vs) as [v'|].
  - destruct IH as (bf & af & -> & S & F). exists (v :: bf), af. repeat split; auto.
  - now constructor.
Qed.
Lemma same_name_utf8 x y : Forall scalar x -> Forall scalar y -> same_name (utf8 x) (utf8 y) = same_name x y.
Proof. intros X Y. rewrite <- (lower_same x y X Y). reflexivity. Qed.

(** ** Iterators *)
Lemma used_same ok p p' : used ok p p' -> ps_buffer p' = ps_buffer p /\ ps_base_block p' = ps_base_block p /\ ps_root p' = ps_root p
  /\ st_info (ps_state p') = st_info (ps_state p)
  /\ forall n anc m post, iterate n p' None anc m post = iterate n p None anc m post.
Proof.
  intros U. apply used_moved in U. pose proof (moved_same _ _ U) as (F & R & B & S).
  split; [unfold ps_buffer; now rewrite F|]. split; [exact B|]. split; [exact R|]. split.
  - assert (X : st_info (set_root_offset 0 (ps_state p')) = st_info (set_root_offset 0 (ps_state p))) by now rewrite S. exact X.
  - intros. now apply moved_iterate.
Qed.
Lemma shown_offsets ks l : shown ks l -> map kn_offset ks = map (fun x => t_pos (snd x)) l.
Proof. induction 1 as [|k x ks l (O & _) S IH]; [reflexivity|]. cbn [map]. now rewrite O, IH. Qed.
Lemma filtered_again buffer files t p0 p q anc m n : opens buffer files t p0 -> num_at (ps_buffer p0) 36 4 = 32 -> clean_names t ->
  used (key_of t) p0 p -> below_root q -> (length (positions t) < n)%nat ->
  exists ks0 ks, iterate n p0 (Some q) anc m false = Ok ks0 /\ iterate n p (Some q) anc m false = Ok ks
  /\ map kn_offset ks = map kn_offset ks0 /\ shown ks0 (filtered q anc (preorder [] t)) /\ shown ks (filtered q anc (preorder [] t)).
Proof.
  intros O R C U BR L.
  assert (S0 : session buffer files t p0) by now apply session_starts.
  assert (S1 : session buffer files t p) by (split; [exact C|]; exists p0; auto).
  destruct (session_filter _ _ _ _ q anc m n S0 BR L) as (k0 & E0 & H0). destruct (session_filter _ _ _ _ q anc m n S1 BR L) as (k1 & E1 & H1).
  exists k0, k1. repeat (split; [assumption|]). split; [|now split]. now rewrite (shown_offsets _ _ H0), (shown_offsets _ _ H1).
Qed.
