(** What is shown of a hive that was cut off (property C83). The specification is
    CutSpec.v with TreeSpec.v. *)
From Verif Require Import Base BaseFacts Util UtilSpec LayoutSpec BaseBlock Types Value Node Recover Parser TxLog TxSpec
  CellSpec TreeSpec CutSpec CutFacts CutKeys CutLook CutPath Demo DemoTree DemoExport DemoCut.

(** The bytes that were opened, with some more behind them, are a hive: every key
    shown - with any filter, in either order - is one of that hive, under its own
    path, with the first ones of its own values. *)
Theorem C83_cut : forall order fuel hash full buffer files rest t p n f anc m post ks,
  known_file_type buffer -> build order fuel hash false full buffer files = Ok p ->
  hive (ps_buffer p ++ rest) t -> iterate n p f anc m post = Ok ks ->
  Forall (fun k => exists x, In x (preorder [] t) /\ key_partly k (fst x) (snd x)) ks.
Proof. exact cut_iterate. Qed.
Print Assumptions C83_cut.

(** What a look-up finds is a key of that hive, too. *)
Theorem C83_found : forall order fuel hash full buffer files rest t p n path has_root k p',
  known_file_type buffer -> build order fuel hash false full buffer files = Ok p ->
  hive (ps_buffer p ++ rest) t -> num_at (ps_buffer p) 36 4 = 32 -> get_key n p path has_root = Ok (Some k, p') ->
  exists x, In x (preorder [] t) /\ key_partly k (fst x) (snd x).
Proof. exact cut_found. Qed.
Print Assumptions C83_found.

(** It is one of the keys of the path that was asked for ([reached]). *)
Theorem C83_path : forall order fuel hash full buffer files rest t p n a segs b (has_root : bool) k p',
  known_file_type buffer -> build order fuel hash false full buffer files = Ok p ->
  hive (ps_buffer p ++ rest) t -> num_at (ps_buffer p) 36 4 = 32 -> clean_names t ->
  path_names segs -> (has_root = true -> (length segs <= 1)%nat -> (b <= 1)%nat) ->
  get_key n p (utf8 (repeat 92 a ++ joined segs ++ repeat 92 b)) has_root = Ok (Some k, p') ->
  exists x, In x (reached [] (if has_root then tl segs else segs) t) /\ key_partly k (fst x) (snd x).
Proof. exact cut_path. Qed.
Print Assumptions C83_path.

(** If no more than 4096 bytes are missing, a key that lost values says so. *)
Theorem C83_warned : forall order fuel hash full buffer files rest t p n anc m post ks,
  known_file_type buffer -> build order fuel hash false full buffer files = Ok p ->
  hive (ps_buffer p ++ rest) t -> len rest <= 4096 -> iterate n p None anc m post = Ok ks ->
  forall k x, In k ks -> In x (preorder [] t) -> kn_offset k = t_pos (snd x) ->
  (length (kn_values k) < length (t_vals (snd x)))%nat -> kn_logs k <> [].
Proof. exact cut_warned. Qed.
Print Assumptions C83_warned.

(** A sub key of a key that is shown is shown, or that key carries a warning. *)
Theorem C83_lost_keys : forall order fuel hash full buffer files rest t p n anc m post ks,
  known_file_type buffer -> build order fuel hash false full buffer files = Ok p ->
  hive (ps_buffer p ++ rest) t -> iterate n p None anc m post = Ok ks ->
  forall k x s, In k ks -> In x (preorder [] t) -> kn_offset k = t_pos (snd x) -> In s (t_subs (snd x)) ->
  kn_logs k <> [] \/ exists k', In k' ks /\ kn_offset k' = t_pos s.
Proof. exact cut_lost. Qed.
Print Assumptions C83_lost_keys.

(** If no more than 4096 bytes are missing and nothing carries a warning, then
    nothing was lost: every key of the whole hive is shown with all its values. *)
Theorem C83_nothing_lost : forall order fuel hash full buffer files rest t p n anc m post ks,
  known_file_type buffer -> build order fuel hash false full buffer files = Ok p ->
  hive (ps_buffer p ++ rest) t -> len rest <= 4096 -> iterate n p None anc m post = Ok ks ->
  Forall (fun k => kn_logs k = [] /\ Forall (fun v => kv_logs v = []) (kn_values k)) ks ->
  Forall (fun x => exists k, In k ks /\ key_shown k (fst x) (snd x)) (preorder [] t).
Proof. exact cut_nothing. Qed.
Print Assumptions C83_nothing_lost.

(** Cut off in the data of the value "Long": of the root one value is whole and
    one is without its data, with a warning; a key below lost its value and says
    so. *)
Definition seen_of (k : key_node) := (kn_offset k, map (fun v => (vd_bytes (kv_detail v), kv_logs v)) (kn_values k), kn_logs k).
Lemma cut_is_hive : hive (cut_hive ++ cut_rest) demo_tree.
Proof. rewrite cut_whole. exact demo_is_hive. Qed.
Lemma cut_seen (b : list N) : forall p, beq (ps_buffer p) b = true -> ps_buffer p = b.
Proof. intros p. apply beq_eq. Qed.
Example C83_example : known_file_type cut_hive /\ len cut_rest <= 4096 /\ exists p, build keep 0 no_hash false false cut_hive [] = Ok p
  /\ hive (ps_buffer p ++ cut_rest) demo_tree
  /\ exists ks, iterate 20 p None false true false = Ok ks
     /\ map seen_of ks = [(4128, [(Some [1; 0; 0; 0], []); (Some [], [WarningParse])], []); (4216, [], []); (4304, [], [WarningParse]); (4392, [], [])].
Proof.
  split; [left; vm_compute; reflexivity|]. split; [vm_compute; discriminate|].
  refine (checked _ (fun p => beq (ps_buffer p) cut_hive && match iterate 20 p None false true false with
    | Ok [a; b; c; d] => match seen_of a, seen_of b, seen_of c, seen_of d with
       | (4128, [(Some [1; 0; 0; 0], []); (Some [], [WarningParse])], []), (4216, [], []), (4304, [], [WarningParse]), (4392, [], []) => true | _, _, _, _ => false end
    | _ => false end) _ _ _); [|vm_compute; reflexivity].
  intros p E. apply andb_true_iff in E as (E1 & E2). apply cut_seen in E1. rewrite E1. split; [exact cut_is_hive|].
  destruct (iterate 20 p None false true false) as [ks| | |]; try discriminate. exists ks. split; [reflexivity|].
  do 4 (destruct ks as [|? ks]; [discriminate|]). destruct ks; [|discriminate]. cbn [map]. 
  repeat match goal with H : context [match ?x with _ => _ end] |- _ => destruct x; try discriminate end. reflexivity.
Qed.

(** In that file the key "béta" is found, without the value that it lost. *)
Example C83_found_example : exists p, build keep 0 no_hash false false cut_hive [] = Ok p /\ num_at (ps_buffer p) 36 4 = 32
  /\ exists k p', get_key 5 p (utf8 (n_alpha ++ [92] ++ n_beta)) false = Ok (Some k, p') /\ kn_offset k = 4304 /\ kn_values k = [].
Proof.
  refine (checked _ (fun p => (num_at (ps_buffer p) 36 4 =? 32) && match get_key 5 p (utf8 (n_alpha ++ [92] ++ n_beta)) false with
    | Ok (Some k, _) => (kn_offset k =? 4304) && match kn_values k with [] => true | _ => false end
    | _ => false end) _ _ _); [|vm_compute; reflexivity].
  intros p E. apply andb_true_iff in E as (E1 & E2). apply N.eqb_eq in E1. split; [exact E1|].
  destruct (get_key _ _ _ _) as [[[k|] p']| | |]; try discriminate. exists k, p'. split; [reflexivity|].
  apply andb_true_iff in E2 as (E2 & E3). apply N.eqb_eq in E2. split; [exact E2|]. now destruct (kn_values k).
Qed.

Example C83_path_example : clean_names demo_tree /\ path_names [n_alpha; n_beta] /\ reached [] [n_alpha; n_beta] demo_tree = [([n_root; n_alpha; n_beta], t_beta)]
  /\ n_alpha ++ [92] ++ n_beta = repeat 92 0 ++ joined [n_alpha; n_beta] ++ repeat 92 0.
Proof.
  split; [apply demo_header|]. split; [|split; reflexivity].
  split; [repeat constructor; unfold scalar; lia|]. split; [repeat constructor; cbn; intuition discriminate|]. split; discriminate.
Qed.

(** Cut off in the free space behind the last cell: nothing carries a warning. *)
Example C83_nothing_lost_example : known_file_type free_cut /\ len free_rest <= 4096 /\ exists p, build keep 0 no_hash false false free_cut [] = Ok p
  /\ hive (ps_buffer p ++ free_rest) demo_tree
  /\ exists ks, iterate 20 p None false true true = Ok ks /\ length ks = 4%nat
     /\ Forall (fun k => kn_logs k = [] /\ Forall (fun v => kv_logs v = []) (kn_values k)) ks.
Proof.
  split; [left; vm_compute; reflexivity|]. split; [vm_compute; discriminate|].
  refine (checked _ (fun p => beq (ps_buffer p) free_cut && match iterate 20 p None false true true with
    | Ok ks => Nat.eqb (length ks) 4 && forallb (fun k => match kn_logs k with [] => forallb (fun v => match kv_logs v with [] => true | _ => false end) (kn_values k) | _ => false end) ks
    | _ => false end) _ _ _); [|vm_compute; reflexivity].
  intros p E. apply andb_true_iff in E as (E1 & E2). apply cut_seen in E1. rewrite E1. split; [rewrite free_whole; exact demo_is_hive|].
  destruct (iterate 20 p None false true true) as [ks| | |]; try discriminate. exists ks. split; [reflexivity|].
  apply andb_true_iff in E2 as (E2 & E3). apply Nat.eqb_eq in E2. split; [exact E2|]. apply Forall_forall. intros k I. rewrite forallb_forall in E3.
  specialize (E3 k I). destruct (kn_logs k); [|discriminate]. split; [reflexivity|]. apply Forall_forall. intros v V. rewrite forallb_forall in E3.
  specialize (E3 v V). now destruct (kv_logs v).
Qed.

(** Cut off in the list of the sub keys of the key "Alpha": the key below it is
    not shown, and "Alpha" says so. *)
Example C83_lost_keys_example : known_file_type list_cut /\ exists p, build keep 0 no_hash false false list_cut [] = Ok p
  /\ hive (ps_buffer p ++ list_rest) demo_tree
  /\ exists ks, iterate 20 p None false true false = Ok ks /\ map (fun k => (kn_offset k, kn_logs k)) ks = [(4128, [WarningParse]); (4216, [WarningParse]); (4392, [])].
Proof.
  split; [left; vm_compute; reflexivity|].
  refine (checked _ (fun p => beq (ps_buffer p) list_cut && match iterate 20 p None false true false with
    | Ok [a; b; c] => match (kn_offset a, kn_logs a), (kn_offset b, kn_logs b), (kn_offset c, kn_logs c) with
       | (4128, [WarningParse]), (4216, [WarningParse]), (4392, []) => true | _, _, _ => false end
    | _ => false end) _ _ _); [|vm_compute; reflexivity].
  intros p E. apply andb_true_iff in E as (E1 & E2). apply cut_seen in E1. rewrite E1. split; [rewrite list_whole; exact demo_is_hive|].
  destruct (iterate 20 p None false true false) as [ks| | |]; try discriminate. exists ks. split; [reflexivity|].
  do 3 (destruct ks as [|? ks]; [discriminate|]). destruct ks; [|discriminate]. cbn [map].
  repeat match goal with H : context [match ?x with _ => _ end] |- _ => destruct x; try discriminate end. reflexivity.
Qed.

(** If more is missing, a key may lose all its values without a word: the list of
    the values is looked for only if its offset in the bins is less than the
    length of the file. *)
Theorem C83_silent_refuted : ~ (forall order fuel hash full buffer files rest t p n anc m post ks,
  known_file_type buffer -> build order fuel hash false full buffer files = Ok p ->
  hive (ps_buffer p ++ rest) t -> iterate n p None anc m post = Ok ks ->
  forall k x, In k ks -> In x (preorder [] t) -> kn_offset k = t_pos (snd x) ->
  (length (kn_values k) < length (t_vals (snd x)))%nat -> kn_logs k <> []).
Proof.
  intros H. assert (W : exists p, build keep 0 no_hash false false far_cut [] = Ok p /\ (ps_buffer p = far_cut
    /\ exists k, iterate 5 p None false true false = Ok [k] /\ kn_offset k = 4128 /\ kn_values k = [] /\ kn_logs k = [])).
  { refine (checked _ (fun p => beq (ps_buffer p) far_cut && match iterate 5 p None false true false with
      | Ok [k] => (kn_offset k =? 4128) && match kn_values k, kn_logs k with [], [] => true | _, _ => false end
      | _ => false end) _ _ _); [|vm_compute; reflexivity].
    intros p E. apply andb_true_iff in E as (E1 & E2). apply cut_seen in E1. split; [exact E1|].
    destruct (iterate 5 p None false true false) as [[|k [|? ?]]| | |]; try discriminate. exists k. split; [reflexivity|].
    apply andb_true_iff in E2 as (E2 & E3). apply N.eqb_eq in E2. split; [exact E2|].
    destruct (kn_values k); [|discriminate]. destruct (kn_logs k); [|discriminate]. now split. }
  destruct W as (p & BU & PB & k & IT & O & V & L).
  apply (H keep 0%nat no_hash false far_cut [] far_rest far_tree p 5%nat false true false [k]) with (k := k) (x := ([n_root], far_tree)).
  - left. vm_compute. reflexivity.
  - exact BU.
  - rewrite PB, far_whole. exact far_is_hive.
  - exact IT.
  - now left.
  - now left.
  - exact O.
  - rewrite V. cbn. lia.
  - exact L.
Qed.
Print Assumptions C83_silent_refuted.
