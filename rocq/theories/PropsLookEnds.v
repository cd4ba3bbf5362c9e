(** The property that look-ups come to an end: statements only, with a concrete case
    beside each. *)
From Verif Require Import Base BaseFacts Util UtilSpec LayoutSpec LayoutFacts BaseBlock Types Value Node Recover Parser TxLog TxSpec
  CellSpec CellList AnyFile AbortSpec StoreSpec VersionSpec FreeSpec TreeSession NavFacts LookEnds Demo DemoCell DemoTree DemoScan DemoLog DemoExport DemoFree BuildBytes PropsFree.

(** ** C80 *)
(** Backslashes in a path, which is as deep as the look-up goes, and one more. *)
Definition parts (path : list N) : nat := S (count_occ N.eq_dec path 92).
Lemma parts_slashes path : parts path = S (slashes path).
Proof.
  unfold parts, slashes. f_equal. induction path as [|c path IH]; [reflexivity|]. cbn [count_occ List.filter]. destruct (N.eq_dec c 92) as [->|NE].
  - change (92 =? 92) with true. cbn [List.length]. now rewrite IH.
  - destruct (N.eqb_spec 92 c); [congruence|exact IH].
Qed.
(** A look-up of any path in any file that could be opened: it has a result, and to get
    it no call is nested deeper than the path has parts. Without recovery the only
    condition is that no list of sub keys contains itself. *)
Theorem C80_look_up_ends : forall order fuel hash full buffer files p q path has_root,
  build order fuel hash false full buffer files = Ok p -> no_list_cycle (ps_file p) -> asked p q ->
  exists r, r <> OutOfFuel /\ forall n, (parts path < n)%nat -> get_key n q path has_root = r.
Proof.
  intros order fuel hash full buffer files p q path has_root E NC A. rewrite parts_slashes. exact (opened_look_ends _ _ _ _ _ _ _ _ _ _ _ E NC (not_recovered _ _ _ _ _ _ _ E) A).
Qed.
Print Assumptions C80_look_up_ends.
Theorem C80_recovered : forall order fuel hash recover full buffer files p q path has_root,
  build order fuel hash recover full buffer files = Ok p -> no_list_cycle (ps_file p) -> no_deleted_root (ps_state p) -> asked p q ->
  exists r, r <> OutOfFuel /\ forall n, (parts path < n)%nat -> get_key n q path has_root = r.
Proof. intros order fuel hash recover full buffer files p q path has_root. rewrite parts_slashes. exact (opened_look_ends order fuel hash recover full buffer files p q path has_root). Qed.
Print Assumptions C80_recovered.
(** If the header gives the first cell as the root, nothing is asked of what was deleted:
    what could keep the look-up busy has kept opening busy already. *)
Theorem C80_first_cell : forall order fuel hash recover full buffer files p q path has_root,
  build order fuel hash recover full buffer files = Ok p -> no_list_cycle (ps_file p) -> num_at (ps_buffer p) 36 4 = 32 -> asked p q ->
  exists r, r <> OutOfFuel /\ forall n, (parts path < n)%nat -> get_key n q path has_root = r.
Proof.
  intros order fuel hash recover full buffer files p q path has_root E NC R A. rewrite parts_slashes. pose proof (first_cell_ends _ _ _ _ _ _ _ _ _ E R A) as G.
  apply NoAbort.asked_moved in A as (st & -> & _). apply get_key_ends; [exact NC|exact G].
Qed.
Print Assumptions C80_first_cell.
(** From a key in hand, whatever the key and whatever was recovered. *)
Theorem C80_from_a_key : forall fi st k path, no_list_cycle fi ->
  exists r, r <> OutOfFuel /\ forall n, (parts path < n)%nat -> get_sub_key_by_path n fi st k path = r.
Proof. intros fi st k path. rewrite parts_slashes. exact (by_path_ends fi st k path). Qed.
Print Assumptions C80_from_a_key.
(** The calls that go one step, on any key at all. *)
Theorem C80_steps_end : forall order fuel hash recover full buffer files p q k,
  build order fuel hash recover full buffer files = Ok p -> no_list_cycle (ps_file p) -> no_deleted_root (ps_state p) -> asked p q ->
  get_root_key q <> OutOfFuel /\ get_parent_key q k <> OutOfFuel /\ read_sub_keys (ps_file q) (ps_state q) k <> OutOfFuel
  /\ (forall i, get_sub_key_by_index (ps_file q) (ps_state q) k i <> OutOfFuel) /\ next_sub_key (ps_file q) (ps_state q) k <> OutOfFuel
  /\ forall name, get_sub_key q k name <> OutOfFuel.
Proof.
  intros order fuel hash recover full buffer files p q k E NC ND A. destruct (asked_orderly _ _ _ _ _ _ _ _ _ E ND A) as (F & O). rewrite F.
  split; [now apply root_ends|]. split; [now apply parent_ends|]. split; [now apply all_subs_end|]. split; [intros i; now apply by_index_ends|]. split; [now apply next_ends|].
  intros name. apply by_name_ends. now rewrite F.
Qed.
Print Assumptions C80_steps_end.
(** The root of this hive is its own sub key: it is found below itself as often as the
    path says, and no more often. *)
Example C80_own_child : exists p, build keep 0 no_hash false false own_child_hive [] = Ok p /\ no_list_cycle (ps_file p)
  /\ (exists k q, get_key 4 p (n_root ++ [92] ++ n_root) false = Ok (Some k, q) /\ kn_offset k = 4128 /\ kn_path k = [92] ++ n_root ++ [92] ++ n_root ++ [92] ++ n_root)
  /\ exists q, get_key 4 p (n_root ++ [92] ++ n_alpha) false = Ok (None, q).
Proof.
  refine (checked _ (fun p => no_pair (ps_buffer p) && match get_key 4 p (n_root ++ [92] ++ n_root) false with
      | Ok (Some k, _) => (kn_offset k =? 4128) && beq (kn_path k) ([92] ++ n_root ++ [92] ++ n_root ++ [92] ++ n_root) | _ => false end
    && match get_key 4 p (n_root ++ [92] ++ n_alpha) false with Ok (None, _) => true | _ => false end) _ _ _); [|vm_compute; reflexivity].
  intros p H. apply andb_true_iff in H as (H & G2). apply andb_true_iff in H as (P & G1). split; [now apply no_pair_no_cycle|]. split.
  - destruct (get_key 4 p (n_root ++ [92] ++ n_root) false) as [[[k|] q]| | |]; try discriminate G1. exists k, q. apply andb_true_iff in G1 as (A & B).
    split; [reflexivity|]. split; [now apply N.eqb_eq|now apply beq_eq].
  - destruct (get_key 4 p (n_root ++ [92] ++ n_alpha) false) as [[[k|] q]| | |]; try discriminate G2. now exists q.
Qed.
(** Two deleted keys recorded from logs. *)
Example C80_recovered_example : exists p, build keep 20 whole true false (free_hive 0x20) (touches 2) = Ok p
  /\ no_list_cycle (ps_file p) /\ no_deleted_root (ps_state p) /\ num_at (ps_buffer p) 36 4 = 32 /\ exists k q, get_root_key p = Ok (Some k, q) /\ asked p q.
Proof.
  refine (checked _ (fun p => sound_b p && (num_at (ps_buffer p) 36 4 =? 32) && match get_root_key p with Ok (Some k, q) => true | _ => false end) _ _ _); [|vm_compute; reflexivity].
  intros p H. apply andb_true_iff in H as (H & G). apply andb_true_iff in H as (S & R). destruct (sound p S) as (S2 & S3). split; [exact S2|]. split; [exact S3|]. split; [now apply N.eqb_eq|].
  destruct (get_root_key p) as [[[k|] q]| | |] eqn:E; try discriminate G. exists k, q. split; [reflexivity|]. eapply asked_root; [apply asked_not|exact E].
Qed.
(** A list of sub keys that contains itself: no look-up ends, however short the path. *)
Theorem C80_list_cycle_refuted : exists p, build keep 0 no_hash false false looping_hive [] = Ok p
  /\ forall n, get_key n p n_alpha false = OutOfFuel.
Proof.
  refine (checked _ (fun p => match get_root_key p with
    | Ok (Some r, p1) => match read_sub_keys_internal (ps_file p1) (ps_state p1) r (Some (with_has_root true (add_key_path empty_query (kn_path r ++ [BS] ++ n_alpha)))) None false with OutOfFuel => true | _ => false end
    | _ => false end) _ _ _); [|vm_compute; reflexivity].
  intros p H n. unfold get_key. destruct (get_root_key p) as [[[r|] p1]| | |]; try discriminate H. cbv zeta. change (trim_start_bs n_alpha) with n_alpha. cbv iota.
  unfold get_sub_key_by_path. change n_alpha with (65 :: tl n_alpha) at 1. cbv iota zeta.
  destruct n as [|n]; [reflexivity|]. cbn [get_sub_key_internal]. destruct (read_sub_keys_internal _ _ _ _ _ _); try discriminate H. reflexivity.
Qed.
Print Assumptions C80_list_cycle_refuted.
