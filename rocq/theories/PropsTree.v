(** The properties of iteration, look-up, filters and counts: statements only,
    with a concrete case beside each. The specification is TreeSpec.v. *)
From Verif Require Import Base BaseFacts Util UtilSpec LayoutSpec BaseBlock Types Value Node Recover Parser TxLog TxSpec NodeFrame
  CellSpec CellList TreeSpec TreeOpen TreeUse AnyFile Pure History TreeCount TreeSession TreeFilterPost Demo DemoCell DemoTree DemoExport BuildBytes.

Definition is_file (p : parser) (b : list N) : bool := (fi_hbin (ps_file p) =? 4096) && beq (fi_buffer (ps_file p)) b.
Lemma is_file_ok p b : is_file p b = true -> ps_file p = mkFI 4096 b.
Proof. intros H. apply andb_true_iff in H as (O & B). apply N.eqb_eq in O. apply beq_eq in B. destruct (ps_file p). cbn in O, B. now subst. Qed.

(** The hive of DemoTree.v is well formed and opens; its session can be started. *)
Theorem C29_hive_opens : forall order fuel hash full buffer t,
  known_file_type buffer -> bytes_at buffer 0 4 = [114; 101; 103; 102] -> hive buffer t ->
  exists p, build order fuel hash false full buffer [] = Ok p /\ ps_buffer p = buffer.
Proof. intros. destruct (hive_opens order fuel hash full buffer t) as (p & E & B & _); eauto. Qed.
Print Assumptions C29_hive_opens.
Example C29_hive_example : known_file_type demo_hive /\ bytes_at demo_hive 0 4 = [114; 101; 103; 102] /\ hive demo_hive demo_tree.
Proof. split; [apply demo_header|]. split; [apply demo_header|exact demo_is_hive]. Qed.
Example demo_opens : exists p, opens demo_hive [] demo_tree p /\ session demo_hive [] demo_tree p.
Proof.
  destruct demo_header as (K & R & H & C).
  destruct (hive_opens keep 0 no_hash false demo_hive demo_tree K R demo_is_hive) as (p & E & B & _).
  assert (O : opens demo_hive [] demo_tree p).
  { split; [exact K|]. split; [rewrite B; exact demo_is_hive|]. exists keep, O, no_hash, false. exact E. }
  exists p. split; [exact O|]. apply session_starts; auto. now rewrite B.
Qed.

(** C29 *)
Theorem C29_preorder : forall buffer files t p ok p' anc m n,
  opens buffer files t p -> used ok p p' -> (2 * length (positions t) < n)%nat ->
  exists ks, iterate n p' None anc m false = Ok ks /\ shown ks (preorder [] t).
Proof. exact session_preorder. Qed.
Print Assumptions C29_preorder.
Example C29_example : exists p, opens demo_hive [] demo_tree p /\ used (fun _ => False) p p
  /\ map fst (preorder [] demo_tree) = [[n_root]; [n_root; n_alpha]; [n_root; n_alpha; n_beta]; [n_root; n_gamma]].
Proof. destruct demo_opens as (p & O & _). exists p. split; [exact O|]. split; [constructor|reflexivity]. Qed.

(** C31 *)
Theorem C31_postorder : forall buffer files t p ok p' anc m n,
  opens buffer files t p -> used ok p p' -> (2 * length (positions t) < n)%nat ->
  exists ks, iterate n p' None anc m true = Ok ks /\ shown ks (postorder [] t).
Proof. exact session_postorder. Qed.
Print Assumptions C31_postorder.
Example C31_example : exists p, opens demo_hive [] demo_tree p /\ used (fun _ => False) p p
  /\ map fst (postorder [] demo_tree) = [[n_root; n_alpha; n_beta]; [n_root; n_alpha]; [n_root; n_gamma]; [n_root]].
Proof. destruct demo_opens as (p & O & _). exists p. split; [exact O|]. split; [constructor|reflexivity]. Qed.

(** C30 and C32: every file whose lists of lists do not contain themselves (an
    index root that does is C27). *)
Theorem C30_iteration_ends_partial : forall order fuel hash full buffer files p n f anc m post,
  known_file_type buffer -> bytes_ok buffer -> Forall bytes_ok files -> build order fuel hash false full buffer files = Ok p ->
  no_list_cycle (ps_file p) -> (2 * S (N.to_nat (len (ps_buffer p))) < n)%nat ->
  exists ks, iterate n p f anc m post = Ok ks /\ NoDup (map kn_offset ks).
Proof.
  intros order fuel hash full buffer files p n f anc m post K BB BF E NC L. pose proof (build_bytes _ _ _ _ _ _ _ _ BB BF E) as B.
  destruct (file_iterates order fuel hash full buffer files p n f anc m post K E B NC L) as (ks & I & ND & _). eauto.
Qed.
Print Assumptions C30_iteration_ends_partial.
(** The root is its own child; there is no index root. *)
Example C30_example : known_file_type own_child_hive /\ no_list_cycle (mkFI 4096 own_child_hive)
  /\ exists p ks, build keep 0 no_hash false false own_child_hive [] = Ok p /\ ps_file p = mkFI 4096 own_child_hive
     /\ iterate 10 p None false false false = Ok ks /\ map kn_offset ks = [4128] /\ map (fun k => kd_nsub (kn_detail k)) ks = [1].
Proof.
  split; [left; vm_compute; reflexivity|]. split; [apply no_pair_no_cycle; vm_compute; reflexivity|].
  assert (X : exists p, build keep 0 no_hash false false own_child_hive [] = Ok p /\ ps_file p = mkFI 4096 own_child_hive
     /\ exists ks, iterate 10 p None false false false = Ok ks /\ map kn_offset ks = [4128] /\ map (fun k => kd_nsub (kn_detail k)) ks = [1]).
  { refine (checked _ (fun p => is_file p own_child_hive && match iterate 10 p None false false false with
      | Ok ks => beq (map kn_offset ks) [4128] && beq (map (fun k => kd_nsub (kn_detail k)) ks) [1] | _ => false end) _ _ _); [|vm_compute; reflexivity].
    intros p H. apply andb_true_iff in H as (F & H). split; [now apply is_file_ok|]. destruct (iterate 10 p None false false false) as [ks| | |]; try discriminate H.
    exists ks. apply andb_true_iff in H as (A & B). split; [reflexivity|]. now split; apply beq_eq. }
  destruct X as (p & E & F & ks & I & A & B). exists p, ks. repeat (split; [assumption|]). assumption.
Qed.
(** An index root that lists itself: the first call of next does not end. *)
Lemma first_stuck p m : visit (ps_file p) (cx_set_stack [] (from_parser p m None false)) (match ps_root p with Some r => r | None => default_key end) = OutOfFuel ->
  forall n post, iterate n p None false m post = OutOfFuel.
Proof.
  intros H [|n] post; [reflexivity|]. unfold iterate. cbn [collect]. unfold from_parser in *. destruct post.
  - cbn [next_key_postorder cx_stack cx_return]. rewrite H. reflexivity.
  - cbn [next_key_preorder cx_stack]. rewrite H. reflexivity.
Qed.
Theorem C30_list_cycle_refuted : exists p, build keep 0 no_hash false false looping_hive [] = Ok p
  /\ forall n post, iterate n p None false false post = OutOfFuel.
Proof.
  refine (checked _ (fun p => match visit (ps_file p) (cx_set_stack [] (from_parser p false None false)) (match ps_root p with Some r => r | None => default_key end)
    with OutOfFuel => true | _ => false end) _ _ _); [|vm_compute; reflexivity].
  intros p H. apply first_stuck. destruct (visit _ _ _); [discriminate H..|reflexivity].
Qed.
Print Assumptions C30_list_cycle_refuted.

Theorem C32_paths_spell_positions : forall order fuel hash full buffer files p n f anc m post,
  known_file_type buffer -> bytes_ok buffer -> Forall bytes_ok files -> build order fuel hash false full buffer files = Ok p ->
  no_list_cycle (ps_file p) -> (2 * S (N.to_nat (len (ps_buffer p))) < n)%nat ->
  exists ks, iterate n p f anc m post = Ok ks
  /\ Forall (fun k => exists names, lineage (ps_file p) 4128 names (kn_offset k) /\ kn_path k = path_of names) ks.
Proof.
  intros order fuel hash full buffer files p n f anc m post K BB BF E NC L. pose proof (build_bytes _ _ _ _ _ _ _ _ BB BF E) as B.
  destruct (file_iterates order fuel hash full buffer files p n f anc m post K E B NC L) as (ks & I & _ & P). eauto.
Qed.
Print Assumptions C32_paths_spell_positions.
Example C32_example : no_list_cycle demo_fi /\ exists p, build keep 0 no_hash false false demo_hive [] = Ok p /\ ps_file p = demo_fi.
Proof.
  split; [apply no_pair_no_cycle; vm_compute; reflexivity|].
  refine (checked _ (fun p => is_file p demo_hive) _ _ _); [|vm_compute; reflexivity]. intros p H. now apply is_file_ok.
Qed.

(** C33. Every path is a sequence of names, perhaps between backslashes. The
    first of several keys with that path is found (there is at most one when
    the names of siblings differ in more than case). *)
Theorem C33_get_key : forall buffer files t p a segs b (has_root : bool) fuel, session buffer files t p ->
  path_names segs -> (has_root = true -> (length segs <= 1)%nat -> (b <= 1)%nat) -> (length segs <= fuel)%nat ->
  exists o p', get_key fuel p (utf8 (repeat 92 a ++ joined segs ++ repeat 92 b)) has_root = Ok (o, p')
  /\ session buffer files t p'
  /\ match hd_error (reached [] (if has_root then tl segs else segs) t) with
     | None => o = None
     | Some (names, s) => exists k, o = Some k /\ key_shown k names s
     end.
Proof. exact session_get_key. Qed.
Print Assumptions C33_get_key.
Theorem C33_every_path : forall path, Forall scalar path ->
  exists a segs b, path = repeat 92 a ++ joined segs ++ repeat 92 b /\ path_names segs.
Proof. exact path_form. Qed.
Print Assumptions C33_every_path.
Definition upper_alpha : list N := [65; 76; 80; 72; 65].
Example C33_example : (exists p, session demo_hive [] demo_tree p) /\ path_names [upper_alpha; n_beta]
  /\ reached [] [upper_alpha; n_beta] demo_tree = [([n_root; n_alpha; n_beta], t_beta)]
  /\ reached [] [upper_alpha; n_gamma] demo_tree = [].
Proof.
  split; [destruct demo_opens as (p & _ & S); now exists p|]. split; [|split; reflexivity].
  split; [repeat constructor; unfold scalar; lia|]. split; [repeat constructor; cbn; intuition discriminate|]. split; discriminate.
Qed.
(** With the root name in the path: two or more backslashes after the name of
    the root, and any other name in its place. *)
Theorem C33_root_name_refuted : exists p, build keep 0 no_hash false false demo_hive [] = Ok p
  /\ (exists k q, get_key 5 p (n_root ++ [92]) true = Ok (Some k, q)) /\ (exists q, get_key 5 p (n_root ++ [92; 92]) true = Ok (None, q))
  /\ (exists k q, get_key 5 p (n_long ++ [92] ++ n_gamma) true = Ok (Some k, q)).
Proof.
  refine (checked _ (fun p => match get_key 5 p (n_root ++ [92]) true, get_key 5 p (n_root ++ [92; 92]) true, get_key 5 p (n_long ++ [92] ++ n_gamma) true with
    | Ok (Some _, _), Ok (None, _), Ok (Some _, _) => true | _, _, _ => false end) _ _ _); [|vm_compute; reflexivity].
  intros p H. destruct (get_key 5 p (n_root ++ [92]) true) as [[[k1|] q1]| | |]; try discriminate H.
  destruct (get_key 5 p (n_root ++ [92; 92]) true) as [[[k2|] q2]| | |]; try discriminate H.
  destruct (get_key 5 p (n_long ++ [92] ++ n_gamma) true) as [[[k3|] q3]| | |]; try discriminate H. eauto 10.
Qed.
Print Assumptions C33_root_name_refuted.

(** C34 *)
Theorem C34_get_value : forall k name,
  match get_value k name with
  | Some v => exists before after, kn_values k = before ++ v :: after /\ same_name (vd_name (kv_detail v)) name = true
      /\ Forall (fun x => same_name (vd_name (kv_detail x)) name = false) before
  | None => Forall (fun x => same_name (vd_name (kv_detail x)) name = false) (kn_values k)
  end.
Proof. exact get_value_first. Qed.
Print Assumptions C34_get_value.
(** Comparing UTF-8 bytes is comparing characters. *)
Theorem C34_characters : forall x y, Forall scalar x -> Forall scalar y -> same_name (utf8 x) (utf8 y) = same_name x y.
Proof. exact same_name_utf8. Qed.
Print Assumptions C34_characters.
Example C34_example : exists p ks k r v, build keep 0 no_hash false false demo_hive [] = Ok p
  /\ iterate 10 p None false false false = Ok ks /\ ks = k :: r /\ len (kn_values k) = 2
  /\ get_value k [108; 79; 78; 71] = Some v /\ vd_name (kv_detail v) = n_long /\ get_value k n_gamma = None.
Proof.
  assert (X : exists p, build keep 0 no_hash false false demo_hive [] = Ok p /\ exists k r v, iterate 10 p None false false false = Ok (k :: r)
    /\ len (kn_values k) = 2 /\ get_value k [108; 79; 78; 71] = Some v /\ vd_name (kv_detail v) = n_long /\ get_value k n_gamma = None).
  { refine (checked _ (fun p => match iterate 10 p None false false false with
      | Ok (k :: r) => (len (kn_values k) =? 2) && match get_value k [108; 79; 78; 71], get_value k n_gamma with
                       | Some v, None => beq (vd_name (kv_detail v)) n_long | _, _ => false end
      | _ => false end) _ _ _); [|vm_compute; reflexivity].
    intros p H. destruct (iterate 10 p None false false false) as [[|k r]| | |]; try discriminate H. apply andb_true_iff in H as (L & H). apply N.eqb_eq in L.
    destruct (get_value k [108; 79; 78; 71]) as [v|] eqn:G; [|discriminate H]. destruct (get_value k n_gamma) eqn:G2; [discriminate H|]. apply beq_eq in H.
    exists k, r, v. auto 10. }
  destruct X as (p & E & k & r & v & I & X). exists p, (k :: r), k, r, v. repeat (split; [assumption || reflexivity|]). exact X.
Qed.

(** C35 *)
Theorem C35_filter : forall buffer files t p q anc m n, session buffer files t p -> below_root q -> (length (positions t) < n)%nat ->
  exists ks, iterate n p (Some q) anc m false = Ok ks /\ shown ks (filtered q anc (preorder [] t)).
Proof. exact session_filter. Qed.
Print Assumptions C35_filter.
(** A path of names as the filter. *)
Theorem C35_literal_filter : forall segs b names, path_names segs -> segs <> [] -> Forall (Forall scalar) names -> names <> [] ->
  selected (add_key_path empty_query (utf8 (joined segs ++ repeat 92 b))) false names = all_same (tl names) segs.
Proof. exact literal_selects. Qed.
Print Assumptions C35_literal_filter.
Definition starts_with_a (s : list N) : bool := match s with c :: _ => c =? 97 | [] => false end.
Definition demo_query (children : bool) : reg_query := with_children children (add_regex_segment empty_query starts_with_a).
Example C35_example : (exists p, session demo_hive [] demo_tree p) /\ below_root (demo_query true) /\ below_root (demo_query false)
  /\ map fst (filtered (demo_query false) false (preorder [] demo_tree)) = [[n_root; n_alpha]]
  /\ map fst (filtered (demo_query true) false (preorder [] demo_tree)) = [[n_root; n_alpha]; [n_root; n_alpha; n_beta]]
  /\ map fst (filtered (demo_query false) true (preorder [] demo_tree)) = [[n_root]; [n_root; n_alpha]].
Proof.
  split; [destruct demo_opens as (p & _ & S); now exists p|]. repeat (split; [vm_compute; (reflexivity || discriminate)|]). vm_compute. reflexivity.
Qed.
(** In post-order, without ancestors, keys that do not match come out too. *)
Theorem C35_postorder_refuted : exists p ks, build keep 0 no_hash false false demo_hive [] = Ok p
  /\ iterate 10 p (Some (add_key_path empty_query n_gamma)) false false true = Ok ks
  /\ map kn_offset ks = [4392; 4128]
  /\ map (fun x => t_pos (snd x)) (filtered (add_key_path empty_query n_gamma) false (preorder [] demo_tree)) = [4392].
Proof.
  assert (X : exists p, build keep 0 no_hash false false demo_hive [] = Ok p /\ exists ks,
    iterate 10 p (Some (add_key_path empty_query n_gamma)) false false true = Ok ks /\ map kn_offset ks = [4392; 4128]).
  { refine (checked _ (fun p => match iterate 10 p (Some (add_key_path empty_query n_gamma)) false false true with
      | Ok ks => beq (map kn_offset ks) [4392; 4128] | _ => false end) _ _ _); [|vm_compute; reflexivity].
    intros p H. destruct (iterate 10 p _ false false true) as [ks| | |]; try discriminate H. exists ks. split; [reflexivity|]. now apply beq_eq. }
  destruct X as (p & E & ks & I & O). exists p, ks. repeat (split; [assumption|]). vm_compute. reflexivity.
Qed.
Print Assumptions C35_postorder_refuted.
(** In post-order all keys come that come with ancestors, in post-order, but
    without ancestors the last ones may stay away; none of those matches. *)
Theorem C35_postorder : forall buffer files t p q anc m n, session buffer files t p -> below_root q -> (2 * length (positions t) < n)%nat ->
  exists ks l rest, iterate n p (Some q) anc m true = Ok ks /\ shown ks l
  /\ filtered q true (postorder [] t) = l ++ rest
  /\ Forall (fun x => selected q false (fst x) = false) rest /\ (anc = true -> rest = []).
Proof. intros buffer files t p q anc m n S BR L. apply session_opened in S as (O & _ & C). now apply opened_filter_post. Qed.
Print Assumptions C35_postorder.
Example C35_postorder_example : (exists p, session demo_hive [] demo_tree p) /\ below_root (demo_query true)
  /\ map fst (filtered (demo_query true) true (postorder [] demo_tree)) = [[n_root; n_alpha; n_beta]; [n_root; n_alpha]; [n_root]]
  /\ map fst (filtered (demo_query true) false (postorder [] demo_tree)) = [[n_root; n_alpha; n_beta]; [n_root; n_alpha]].
Proof.
  split; [destruct demo_opens as (p & _ & S); now exists p|]. repeat (split; [vm_compute; (reflexivity || discriminate)|]). vm_compute. reflexivity.
Qed.
(** The filters that do not reach below the root: those without a component, and
    those that name the root at most. No key below the root comes, whether child keys are requested or not. *)
Theorem C35_root_filter : forall buffer files t p q anc m n, session buffer files t p -> ~ below_root q -> (2 <= n)%nat ->
  (exists ks, iterate n p (Some q) anc m false = Ok ks /\ shown ks (if anc then [([t_name t], t)] else []))
  /\ (exists ks, iterate n p (Some q) anc m true = Ok ks /\ shown ks [([t_name t], t)]).
Proof. intros buffer files t p q anc m n S BR L. apply session_opened in S as (O & _ & C). now apply opened_filter_top. Qed.
Print Assumptions C35_root_filter.
Example C35_root_filter_example : (exists p, session demo_hive [] demo_tree p) /\ ~ below_root (with_children true empty_query)
  /\ ~ below_root (with_has_root true (add_key_path empty_query (92 :: n_root))).
Proof.
  split; [destruct demo_opens as (p & _ & S); now exists p|]. split; intros X; vm_compute in X; now apply X.
Qed.
(** So a filter without components that requests child keys, which every key
    below the root agrees with, selects nothing. *)
Theorem C35_no_component_refuted : exists p, build keep 0 no_hash false false demo_hive [] = Ok p
  /\ iterate 10 p (Some (with_children true empty_query)) false false false = Ok []
  /\ map fst (filtered (with_children true empty_query) false (preorder [] demo_tree)) = [[n_root; n_alpha]; [n_root; n_alpha; n_beta]; [n_root; n_gamma]].
Proof.
  assert (X : exists p, build keep 0 no_hash false false demo_hive [] = Ok p
    /\ iterate 10 p (Some (with_children true empty_query)) false false false = Ok []).
  { refine (checked _ (fun p => match iterate 10 p (Some (with_children true empty_query)) false false false with Ok [] => true | _ => false end) _ _ _); [|vm_compute; reflexivity].
    intros p H. now destruct (iterate 10 p _ false false false) as [[|]| | |]. }
  destruct X as (p & E & I). exists p. split; [exact E|]. split; [exact I|]. vm_compute. reflexivity.
Qed.
Print Assumptions C35_no_component_refuted.

(** C36 *)
Theorem C36_counts_are_of_iteration : forall n p f a b, count_all n p f = Ok (a, b) <->
  exists ks, iterate n p f false true false = Ok ks /\ a = len ks /\ b = total (fun k => len (kn_values k)) ks.
Proof. exact count_spec. Qed.
Print Assumptions C36_counts_are_of_iteration.
Theorem C36_counts : forall buffer files t p ok p' n, opens buffer files t p -> used ok p p' -> (2 * length (positions t) < n)%nat ->
  count_all n p' None = Ok (keys_in t, values_in t).
Proof. exact session_count. Qed.
Print Assumptions C36_counts.
Theorem C36_filtered_counts : forall buffer files t p q n, session buffer files t p -> below_root q -> (2 * length (positions t) < n)%nat ->
  count_all n p (Some q) = Ok (len (filtered q false (preorder [] t)), total (fun x => len (t_vals (snd x))) (filtered q false (preorder [] t))).
Proof. exact session_count_filter. Qed.
Print Assumptions C36_filtered_counts.
Example C36_example : (exists p, opens demo_hive [] demo_tree p /\ session demo_hive [] demo_tree p /\ used (fun _ => False) p p)
  /\ keys_in demo_tree = 4 /\ values_in demo_tree = 3 /\ below_root (demo_query true)
  /\ len (filtered (demo_query true) false (preorder [] demo_tree)) = 2.
Proof.
  split; [destruct demo_opens as (p & O & S); exists p; split; [exact O|]; split; [exact S|constructor]|].
  repeat (split; [vm_compute; (reflexivity || discriminate)|]). vm_compute. reflexivity.
Qed.

(** C48 *)
Theorem C48_look_ups_change_nothing : forall ok p p', used ok p p' ->
  ps_buffer p' = ps_buffer p /\ ps_base_block p' = ps_base_block p /\ ps_root p' = ps_root p
  /\ st_info (ps_state p') = st_info (ps_state p)
  /\ forall n anc m post, iterate n p' None anc m post = iterate n p None anc m post.
Proof. exact used_same. Qed.
Print Assumptions C48_look_ups_change_nothing.
Theorem C48_interleaved : forall n fi post1 post2 turns c1 c2 a b,
  interleaved n fi post1 post2 turns c1 c2 = Ok (a, b) ->
  alone n fi post1 (count_occ bool_dec turns true) c1 = Ok a
  /\ alone n fi post2 (count_occ bool_dec turns false) c2 = Ok b.
Proof. exact interleaved_alone. Qed.
Print Assumptions C48_interleaved.
(** A filtered iteration in the middle of look-ups sees the same keys. *)
Theorem C48_filtered : forall buffer files t p0 p q anc m n, opens buffer files t p0 -> num_at (ps_buffer p0) 36 4 = 32 -> clean_names t ->
  used (key_of t) p0 p -> below_root q -> (length (positions t) < n)%nat ->
  exists ks0 ks, iterate n p0 (Some q) anc m false = Ok ks0 /\ iterate n p (Some q) anc m false = Ok ks
  /\ map kn_offset ks = map kn_offset ks0 /\ shown ks0 (filtered q anc (preorder [] t)) /\ shown ks (filtered q anc (preorder [] t)).
Proof. exact filtered_again. Qed.
Print Assumptions C48_filtered.
Definition looked_up (p : parser) : res (option key_node * parser) := get_key 5 p (n_alpha ++ [92] ++ utf8 n_beta) false.
Definition two_iterators (p q : parser) : res (list (option key_node) * list (option key_node)) :=
  interleaved 10 (ps_file p) false true [true; false; true; false] (from_parser p false None false) (from_parser q false None false).
Definition turns_of (r : res parser) : option (list (option N) * list (option N) * N * N) :=
  match r with
  | Ok p => match looked_up p with
      | Ok (Some k, q) => match two_iterators p q with
          | Ok (a, b) => Some (map (option_map kn_offset) a, map (option_map kn_offset) b, st_root_offset (ps_state p), st_root_offset (ps_state q))
          | _ => None end
      | _ => None end
  | _ => None end.
Lemma demo_turns : turns_of (build keep 0 no_hash false false demo_hive []) = Some ([Some 4128; Some 4216], [Some 4304; Some 4216], 0, 3).
Proof. vm_compute. reflexivity. Qed.
Example C48_example : exists p k q a b, build keep 0 no_hash false false demo_hive [] = Ok p /\ looked_up p = Ok (Some k, q)
  /\ used (key_of demo_tree) p q /\ q <> p /\ two_iterators p q = Ok (a, b)
  /\ map (option_map kn_offset) a = [Some 4128; Some 4216] /\ map (option_map kn_offset) b = [Some 4304; Some 4216].
Proof.
  pose proof demo_turns as D. revert D. generalize (build keep 0 no_hash false false demo_hive []). intros [p| | |] D; [|discriminate..].
  cbv beta iota delta [turns_of] in D.
  destruct (looked_up p) as [[[k|] q]| | |] eqn:G; [|discriminate..].
  destruct (two_iterators p q) as [[a b]| | |] eqn:I; [|discriminate..].
  injection D as A B X Y. exists p, k, q, a, b. split; [reflexivity|]. split; [assumption|]. split; [eapply used_key; [constructor|exact G]|].
  split; [intros ->; congruence|]. auto.
Qed.
