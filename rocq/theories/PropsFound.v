(** What a look-up by path finds (property C85), in any file, with any logs, with
    or without recovery of deleted items. The specification is FoundSpec.v with
    the first part of AnyFile.v. *)
From Verif Require Import Base BaseFacts Util UtilSpec LayoutSpec Types Value Node Recover Parser TxLog TxSpec
  CellSpec TreeSpec AnyFile FoundSpec FoundFacts FoundName FoundAll Demo DemoCell DemoTree DemoExport.

(** A look-up below a key finds a key whose path is the one that was asked for or
    one on the way to it. *)
Theorem C85_found : forall fi st k path n k' st', path <> [] -> get_sub_key_by_path n fi st k path = Ok (Some k', st') ->
  exists whole, asked_for k path whole /\ on_the_way whole (kn_path k').
Proof. exact by_path_found. Qed.
Print Assumptions C85_found.

(** It has the path that was asked for if no name below the key has a backslash. *)
Theorem C85_exact : forall fi st k path n k' st', cell_of fi k -> plain_below fi (kn_offset k) -> path <> [] -> get_sub_key_by_path n fi st k path = Ok (Some k', st') ->
  exists whole, asked_for k path whole /\ map fold_case (kn_path k') = map fold_case whole.
Proof. exact by_path_exact. Qed.
Print Assumptions C85_exact.

(** The same from the root of the hive. *)
Theorem C85_get_key : forall n p path (has_root : bool) k p', get_key n p path has_root = Ok (Some k, p') ->
  exists root p1 below, get_root_key p = Ok (Some root, p1) /\ kn_path root = 92 :: kn_name root /\ below_root path has_root below
  /\ (below = [] /\ k = root \/ below <> [] /\ exists whole, asked_for root below whole /\ on_the_way whole (kn_path k)
      /\ (plain_below (ps_file p) (kn_offset root) -> map fold_case (kn_path k) = map fold_case whole)).
Proof. exact get_key_found. Qed.
Print Assumptions C85_get_key.

(** What is found below a key is stored there: there is a way to it from the key
    through the lists of sub keys, and the names on this way make up its path. *)
Theorem C85_stored : forall fi st k path n k' st', cell_of fi k -> path <> [] -> get_sub_key_by_path n fi st k path = Ok (Some k', st') ->
  exists below, below <> [] /\ lineage fi (kn_offset k) (kn_name k :: below) (kn_offset k') /\ kn_path k' = kn_path k ++ path_of below /\ cell_of fi k'.
Proof. exact by_path_stored. Qed.
Print Assumptions C85_stored.

(** The hive of DemoTree.v: no name has a backslash, and the look-up of
    "alpha\béta" finds a key below the root. *)
Lemma demo_plain : plain_below (mkFI 4096 demo_hive) 4128.
Proof.
  assert (X : forall names c, lineage (mkFI 4096 demo_hive) 4128 names c -> In c [4128; 4216; 4304; 4392] /\ Forall (fun n => ~ In 92 n) names).
  { assert (NA : forall c name, In c [4128; 4216; 4304; 4392] -> name_at (mkFI 4096 demo_hive) c name -> ~ In 92 name).
    { intros c name I (w & E). repeat (destruct I as [<-|I]; [vm_compute in E; injection E as <- _; cbv; intros X;
        repeat (destruct X as [X|X]; [discriminate X|]); exact X|]). destruct I. }
    intros names c L. induction L as [name NM|names o c name L (I & F) (offs & P & IO) NM].
    - split; [now left|]. constructor; [|constructor]. exact (NA 4128 name (or_introl eq_refl) NM).
    - assert (IC : In c [4128; 4216; 4304; 4392]).
      { repeat (destruct I as [<-|I]; [vm_compute in P; try discriminate P; injection P as <-; cbn in IO; cbn; tauto|]). destruct I. }
      split; [exact IC|]. apply Forall_app. split; [exact F|]. constructor; [|constructor]. exact (NA _ _ IC NM). }
  intros names c L. destruct (X _ _ L) as (_ & F). destruct F; [constructor|assumption].
Qed.
Example C85_example : exists p, build keep 0 no_hash true false demo_hive [] = Ok p /\ ps_file p = mkFI 4096 demo_hive
  /\ exists root p1, get_root_key p = Ok (Some root, p1) /\ kn_offset root = 4128 /\ live_key (ps_file p) root /\ plain_below (ps_file p) (kn_offset root)
  /\ exists k p2, get_key 5 p (92 :: n_alpha ++ 92 :: utf8 n_beta) false = Ok (Some k, p2) /\ kn_path k = utf8 (92 :: n_root ++ 92 :: n_alpha ++ 92 :: n_beta).
Proof.
  refine (checked _ (fun p => (fi_hbin (ps_file p) =? 4096) && beq (fi_buffer (ps_file p)) demo_hive
    && match get_root_key p with Ok (Some r, _) => kn_offset r =? 4128 | _ => false end
    && match get_key 5 p (92 :: n_alpha ++ 92 :: utf8 n_beta) false with
       | Ok (Some k, _) => beq (kn_path k) (utf8 (92 :: n_root ++ 92 :: n_alpha ++ 92 :: n_beta)) | _ => false end) _ _ _); [|vm_compute; reflexivity].
  intros p E. apply andb_true_iff in E as (E & E4). apply andb_true_iff in E as (E & E3). apply andb_true_iff in E as (E1 & E2).
  apply N.eqb_eq in E1. apply beq_eq in E2. assert (F : ps_file p = mkFI 4096 demo_hive) by (clear - E1 E2; revert E1 E2; generalize demo_hive; destruct (ps_file p); intros; cbn in *; congruence).
  split; [exact F|]. destruct (get_root_key p) as [[[r|] p1]| | |] eqn:R; try discriminate E3. apply N.eqb_eq in E3. exists r, p1. split; [reflexivity|].
  split; [exact E3|]. rewrite F, E3. split; [|split; [exact demo_plain|]].
  - revert R. unfold get_root_key. destruct (ps_base_block p); [|discriminate]. destruct (kn_read _ _ _) as [[r' st]| | |] eqn:K; try discriminate.
    cbv beta iota. intros [= -> _]. rewrite <- F. now apply read_live in K as (_ & C & _).
  - destruct (get_key _ _ _ _) as [[[k|] p2]| | |]; try discriminate E4. exists k, p2. split; [reflexivity|]. now apply beq_eq.
Qed.

(** With a backslash in a name the key that is found need not have the path asked
    for: of the sub keys "a" and "a\bcd" of the root, a look-up of "a\bcd" finds
    "a", although the other one is exactly what was asked for. *)
Definition n_slashed : list N := [97; 92; 98; 99; 100].
Definition slashed_hive : list N :=
  header 1 1 32 4096 ++ firstn 120 demo_bin ++ nk_bytes (tree_nk_in 32%Z 0x20 1 408 0 (-1)%Z 1 7) [97]
  ++ firstn 88 (skipn 208 demo_bin) ++ nk_bytes d_gamma n_slashed ++ skipn 384 demo_bin.
Theorem C85_backslash_refuted : exists p, build keep 0 no_hash false false slashed_hive [] = Ok p
  /\ (exists ks, iterate 20 p None false false false = Ok ks /\ In (92 :: n_root ++ 92 :: n_slashed) (map kn_path ks))
  /\ exists k p', get_key 5 p n_slashed false = Ok (Some k, p') /\ kn_path k = 92 :: n_root ++ [92; 97].
Proof.
  refine (checked _ (fun p => match iterate 20 p None false false false with Ok ks => existsb (beq (92 :: n_root ++ 92 :: n_slashed)) (map kn_path ks) | _ => false end
    && match get_key 5 p n_slashed false with Ok (Some k, _) => beq (kn_path k) (92 :: n_root ++ [92; 97]) | _ => false end) _ _ _); [|vm_compute; reflexivity].
  intros p E. apply andb_true_iff in E as (E1 & E2). split.
  - destruct (iterate _ _ _ _ _ _) as [ks| | |]; try discriminate E1. exists ks. split; [reflexivity|].
    apply existsb_exists in E1 as (x & I & X). apply beq_eq in X. now rewrite X.
  - destruct (get_key _ _ _ _) as [[[k|] p2]| | |]; try discriminate E2. exists k, p2. split; [reflexivity|]. now apply beq_eq.
Qed.
Print Assumptions C85_backslash_refuted.

(** Nothing is missed: if there is a way down through readable keys, whatever else
    is in the file, a look-up of its names that comes to an end finds a key. *)
Theorem C85_all : forall fi k path names, live_key fi k -> names <> [] -> Forall (fun m => ~ In 92 m) names -> hd_error (rev names) <> Some [] -> way_down fi (kn_offset k) names ->
  map fold_case path = map fold_case (joined names) -> forall n st o st', get_sub_key_by_path n fi st k path = Ok (o, st') -> o <> None.
Proof. exact by_path_all. Qed.
Print Assumptions C85_all.
Theorem C85_get_key_all : forall n p path names root p1 a below o p', get_root_key p = Ok (Some root, p1) -> names <> [] -> Forall (fun m => ~ In 92 m) names ->
  hd_error names <> Some [] -> hd_error (rev names) <> Some [] -> way_down (ps_file p) (kn_offset root) names ->
  path = repeat 92 a ++ below -> map fold_case below = map fold_case (joined names) -> get_key n p path false = Ok (o, p') -> o <> None.
Proof. exact get_key_all. Qed.
Print Assumptions C85_get_key_all.
(** In the hive of DemoTree.v, whose root is at 4128 (see above), there is such a
    way to "béta". *)
Example C85_all_example : way_down (mkFI 4096 demo_hive) 4128 [n_alpha; utf8 n_beta].
Proof.
  apply (way_step _ _ 4216); [vm_compute; split; [reflexivity|discriminate]|eexists; split; [vm_compute; reflexivity|now left]|vm_compute; repeat split; discriminate|eexists; vm_compute; reflexivity|].
  apply (way_step _ _ 4304); [vm_compute; split; [reflexivity|discriminate]|eexists; split; [vm_compute; reflexivity|now left]|vm_compute; repeat split; discriminate|eexists; vm_compute; reflexivity|].
  apply way_end.
Qed.

(** A look-up of a sub key by its name, of any key below the root, finds a sub key
    of that name in the list of the key, or one whose flags say it is a root. *)
Theorem C85_by_name : forall p k name c p', cell_of (ps_file p) k -> (exists first below, kn_path k = 92 :: first ++ 92 :: below) -> name <> [] -> ~ In 92 name ->
  get_sub_key p k name = Ok (Some c, p') ->
  sub_key_at (ps_file p) (kn_offset k) (kn_offset c) /\ cell_of (ps_file p) c /\ kn_path c = kn_path k ++ [92] ++ kn_name c
  /\ (is_key_root c = true \/ map fold_case (kn_name c) = map fold_case name).
Proof. exact by_name_found. Qed.
Print Assumptions C85_by_name.
Example C85_by_name_example : exists p, build keep 0 no_hash true false demo_hive [] = Ok p
  /\ exists k p1, get_key 5 p n_alpha false = Ok (Some k, p1) /\ kn_path k = 92 :: n_root ++ 92 :: n_alpha
  /\ exists c p2, get_sub_key p1 k (utf8 [66; 233; 84; 97]) = Ok (Some c, p2) /\ kn_name c = utf8 n_beta /\ is_key_root c = false.
Proof.
  refine (checked _ (fun p => match get_key 5 p n_alpha false with
    | Ok (Some k, p1) => beq (kn_path k) (92 :: n_root ++ 92 :: n_alpha)
      && match get_sub_key p1 k (utf8 [66; 233; 84; 97]) with Ok (Some c, _) => beq (kn_name c) (utf8 n_beta) && negb (is_key_root c) | _ => false end
    | _ => false end) _ _ _); [|vm_compute; reflexivity].
  intros p E. destruct (get_key _ _ _ _) as [[[k|] p1]| | |]; try discriminate E. apply andb_true_iff in E as (E1 & E2). exists k, p1. split; [reflexivity|].
  split; [now apply beq_eq|]. destruct (get_sub_key _ _ _) as [[[c|] p2]| | |]; try discriminate E2. exists c, p2. split; [reflexivity|].
  apply andb_true_iff in E2 as (E2 & E3). split; [now apply beq_eq|now apply negb_true_iff].
Qed.
(** In a damaged file a sub key with the flag of a root is found by any name. *)
Definition flagged_hive : list N :=
  header 1 1 32 4096 ++ firstn 208 demo_bin ++ nk_bytes (tree_nk_in 120%Z 0x24 0 (2 ^ 32 - 1) 1 504%Z 4 4) n_beta ++ skipn 296 demo_bin.
Theorem C85_root_flag_refuted : exists p, build keep 0 no_hash false false flagged_hive [] = Ok p
  /\ exists k p1, get_key 5 p n_alpha false = Ok (Some k, p1) /\ kn_path k = 92 :: n_root ++ 92 :: n_alpha
  /\ exists c p2, get_sub_key p1 k n_gamma = Ok (Some c, p2) /\ kn_name c = utf8 n_beta.
Proof.
  refine (checked _ (fun p => match get_key 5 p n_alpha false with
    | Ok (Some k, p1) => beq (kn_path k) (92 :: n_root ++ 92 :: n_alpha)
      && match get_sub_key p1 k n_gamma with Ok (Some c, _) => beq (kn_name c) (utf8 n_beta) | _ => false end
    | _ => false end) _ _ _); [|vm_compute; reflexivity].
  intros p E. destruct (get_key _ _ _ _) as [[[k|] p1]| | |]; try discriminate E. apply andb_true_iff in E as (E1 & E2). exists k, p1. split; [reflexivity|].
  split; [now apply beq_eq|]. destruct (get_sub_key _ _ _) as [[[c|] p2]| | |]; try discriminate E2. exists c, p2. split; [reflexivity|]. now apply beq_eq.
Qed.
Print Assumptions C85_root_flag_refuted.
