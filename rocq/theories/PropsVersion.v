(** What keys show of the past (property C55). *)
From Verif Require Import Base LayoutSpec TxSpec Types Value Node Recover Parser TxLog StoreSpec Pure VersionSpec VersionFacts Demo DemoTree DemoLog DemoExport.

(** Whatever was looked up before, an iteration that asks for the past shows with
    every key all that is recorded for it, the versions newest first; a deleted key
    that lay where the key above it lies has no deleted sub-keys with it. For every
    file, logs, filter and order of iteration. *)
Theorem C55_iteration : forall order fuel full hash recover buffer files p ok p' n f ancestors post ks,
  build order fuel hash recover full buffer files = Ok p -> used ok p p' ->
  iterate n p' f ancestors true post = Ok ks ->
  Forall (fun k => shows_past (ps_state p) k \/ overlapped (ps_state p) k) ks.
Proof. exact iteration_past. Qed.
Print Assumptions C55_iteration.
(** So does every key read one by one: the root, the sub-keys of a key, the n-th
    and the next sub-key, and the parent. *)
Theorem C55_reads : forall order fuel full hash recover buffer files p ok p',
  build order fuel hash recover full buffer files = Ok p -> used ok p p' ->
  (forall r q, get_root_key p' = Ok (Some r, q) -> shows_past (ps_state p) r)
  /\ (forall k k' ks st, read_sub_keys (ps_file p') (ps_state p') k = Ok (k', ks, st) -> Forall (shows_past (ps_state p)) ks)
  /\ (forall k i k' c st, get_sub_key_by_index (ps_file p') (ps_state p') k i = Ok (k', Some c, st) -> shows_past (ps_state p) c)
  /\ (forall k k' c st, next_sub_key (ps_file p') (ps_state p') k = Ok (k', Some c, st) -> shows_past (ps_state p) c)
  /\ (forall k c q, get_parent_key p' k = Ok (Some c, q) -> shows_past (ps_state p) c).
Proof. exact reads_past. Qed.
Print Assumptions C55_reads.
(** A key looked up by its path or its name is either the key one starts from or
    shows nothing of the past. *)
Theorem C55_by_path : forall order fuel full hash recover buffer files p ok p',
  build order fuel hash recover full buffer files = Ok p -> used ok p p' ->
  (forall n path has_root k q, get_key n p' path has_root = Ok (Some k, q) -> shows_past (ps_state p) k \/ shows_nothing k)
  /\ (forall n k path c st, get_sub_key_by_path n (ps_file p') (ps_state p') k path = Ok (Some c, st) -> c = k \/ shows_nothing c)
  /\ (forall k name c q, get_sub_key p' k name = Ok (Some c, q) -> shows_nothing c).
Proof. exact by_path_bare. Qed.
Print Assumptions C55_by_path.
(** Two entries of a log change the value of béta and the access bits of gamma
    twice: both are shown with two earlier versions, the newest first; the first
    was there before the entries (number 0). *)
Definition change_one : written := mkW 0 2 4096 [(548, [66]); (312, [1])] [].
Definition change_two : written := mkW 0 3 4096 [(548, [67]); (312, [2])] [].
Definition changed_twice : list (list N) := [log_file 2 [change_one; change_two]].
Definition versions_of (k : key_node) : list (option N) * list (list (option N)) :=
  (map kn_seq (kn_versions k), map (fun v => map kv_seq (kv_versions v)) (kn_values k)).
Example C55_example :
  match build keep 20 whole true false dirty_hive changed_twice with
  | Ok p => match iterate 20 p None false true false with
            | Ok ks => map versions_of ks = [([], [[]; []]); ([], []); ([], [[Some 2; Some 0]]); ([Some 2; Some 0], [])]
            | _ => False
            end
  | _ => False
  end.
Proof. vm_compute. reflexivity. Qed.
(** So the same key shows its past in an iteration, but not when it is looked up
    by its path: Alpha has lost béta. *)
Theorem C55_by_path_refuted : ~ (forall order fuel full hash recover buffer files p n ks path k q,
  build order fuel hash recover full buffer files = Ok p -> iterate n p None false true false = Ok ks ->
  get_key n p path false = Ok (Some k, q) -> exists k', In k' ks /\ kn_offset k' = kn_offset k
    /\ length (kn_deleted k) = length (kn_deleted k')).
Proof.
  intros H.
  assert (X : exists p, build keep 20 whole true false dirty_hive [log_file 2 [drop_beta]] = Ok p /\ exists ks, iterate 20 p None false true false = Ok ks
    /\ exists a, get_key 20 p n_alpha false = Ok a /\ match fst a with
       | Some k => forallb (fun k' => negb ((kn_offset k' =? kn_offset k) && Nat.eqb (length (kn_deleted k)) (length (kn_deleted k')))) ks = true | None => False end).
  { apply (checked _ (fun p => match iterate 20 p None false true false with Ok ks => match get_key 20 p n_alpha false with
      | Ok (Some k, _) => forallb (fun k' => negb ((kn_offset k' =? kn_offset k) && Nat.eqb (length (kn_deleted k)) (length (kn_deleted k')))) ks
      | _ => false end | _ => false end)); [|vm_compute; reflexivity].
    intros p C. destruct (iterate 20 p None false true false) as [ks| | |]; try discriminate C. exists ks. split; [reflexivity|].
    destruct (get_key 20 p n_alpha false) as [[[k|] q]| | |]; try discriminate C. eexists. split; [reflexivity|]. exact C. }
  destruct X as (p & B & ks & I & (a & q) & G & C). destruct a as [k|]; [|exact C]. cbn [fst] in C.
  destruct (H _ _ _ _ _ _ _ _ _ _ _ _ _ B I G) as (k' & K & O & L). rewrite forallb_forall in C. specialize (C _ K).
  rewrite O, L, N.eqb_refl, PeanoNat.Nat.eqb_refl in C. discriminate C.
Qed.
Print Assumptions C55_by_path_refuted.
