(** The properties of opening and iterating with recovery of deleted items, with
    and without logs: statements only, with a concrete case beside each. The
    specification is FreeSpec.v. *)
From Coq Require Import Permutation.
From Verif Require Import Base BaseFacts Util UtilSpec LayoutSpec BaseBlock Types Value Node Recover Parser TxLog TxSpec NodeFrame
  CellSpec CellList ScanSpec LiveSpec StoreSpec VersionSpec FreeSpec AnyFile TreeSession RecIter ScanAll FreeKept
  Demo DemoCell DemoTree DemoScan DemoLog DemoExport DemoFree BuildBytes.

(** ** C30 and C32 with what was recovered and what logs changed *)
(** The hive, its logs and what they deleted, as a check that can be computed. *)
Definition sound_b (p : parser) : bool :=
  no_pair (ps_buffer p)
  && forallb (fun e => forallb (fun k => is_deleted_primary_file (kn_state k) || negb (N.testbit (kd_flags (kn_detail k)) 2)) (snd e)) (st_deleted_keys (ps_state p)).
Lemma sound p : sound_b p = true -> no_list_cycle (ps_file p) /\ no_deleted_root (ps_state p).
Proof.
  unfold sound_b. intros H. apply andb_true_iff in H as (P & D).
  split; [now apply no_pair_no_cycle|]. intros path ks k I J.
  rewrite forallb_forall in D. specialize (D _ I). rewrite forallb_forall in D. specialize (D k J). apply orb_true_iff in D as [D|D].
  - left. unfold from_free_space. destruct (kn_state k); try discriminate D; auto.
  - right. now apply negb_true_iff in D.
Qed.
Theorem C30_iteration_ends_recovered_partial : forall order fuel hash recover full buffer files p,
  known_file_type buffer -> bytes_ok buffer -> Forall bytes_ok files -> build order fuel hash recover full buffer files = Ok p ->
  no_list_cycle (ps_file p) -> no_deleted_root (ps_state p) ->
  exists bound, forall n f anc m post, (bound < n)%nat ->
  exists ks, iterate n p f anc m post = Ok ks /\ NoDup (map kn_offset (live_keys ks)).
Proof.
  intros order fuel hash recover full buffer files p K BB BF E NC ND. pose proof (build_bytes _ _ _ _ _ _ _ _ BB BF E) as B.
  destruct (all_iterate order fuel hash recover full buffer files p K E B NC ND) as (b & H). exists b. intros n f anc m post L.
  destruct (H n f anc m post L) as (ks & I & D & _). exists ks. split; [exact I|]. now rewrite <- spots_live.
Qed.
Print Assumptions C30_iteration_ends_recovered_partial.
(** Without logs nothing is asked of the deleted keys. *)
Theorem C30_no_logs_no_deleted_root : forall order fuel hash recover full buffer p,
  known_file_type buffer -> build order fuel hash recover full buffer [] = Ok p -> no_deleted_root (ps_state p).
Proof. exact no_logs_no_root. Qed.
Print Assumptions C30_no_logs_no_deleted_root.
Theorem C32_paths_spell_positions_recovered : forall order fuel hash recover full buffer files p,
  known_file_type buffer -> bytes_ok buffer -> Forall bytes_ok files -> build order fuel hash recover full buffer files = Ok p ->
  no_list_cycle (ps_file p) -> no_deleted_root (ps_state p) ->
  exists bound, forall n f anc m post, (bound < n)%nat ->
  exists ks, iterate n p f anc m post = Ok ks
  /\ Forall (fun k => kn_state k = Allocated -> exists names, lineage (ps_file p) 4128 names (kn_offset k) /\ kn_path k = path_of names) ks.
Proof.
  intros order fuel hash recover full buffer files p K BB BF E NC ND. pose proof (build_bytes _ _ _ _ _ _ _ _ BB BF E) as B.
  destruct (all_iterate order fuel hash recover full buffer files p K E B NC ND) as (b & H). exists b. intros n f anc m post L.
  destruct (H n f anc m post L) as (ks & I & _ & F). exists ks. split; [exact I|]. eapply Forall_impl; [|exact F]. cbv beta. intros k X A. apply X. now rewrite A.
Qed.
Print Assumptions C32_paths_spell_positions_recovered.
(** Two entries have been applied, and two deleted keys are recorded. *)
Example C30_recovered_example : known_file_type (free_hive 0x20) /\ bytes_ok (free_hive 0x20) /\ Forall bytes_ok (touches 2)
  /\ exists p, build keep 20 whole true false (free_hive 0x20) (touches 2) = Ok p
  /\ no_list_cycle (ps_file p) /\ no_deleted_root (ps_state p)
  /\ map (fun k => (kn_offset k, kn_state k)) (held beq [] (st_deleted_keys (ps_state p))) = [(4408, DeletedTransactionLog); (4320, DeletedTransactionLog)].
Proof.
  split; [left; vm_compute; reflexivity|]. split; [apply bytes_check; vm_compute; reflexivity|]. split; [apply files_check; vm_compute; reflexivity|].
  refine (checked _ (fun p => sound_b p && match map (fun k => (kn_offset k, kn_state k)) (held beq [] (st_deleted_keys (ps_state p))) with
    | [(4408, DeletedTransactionLog); (4320, DeletedTransactionLog)] => true | _ => false end) _ _ _); [|vm_compute; reflexivity].
  intros p H. apply andb_true_iff in H as (S & M). destruct (sound p S) as (S2 & S3). split; [exact S2|]. split; [exact S3|].
  destruct (map _ _) as [|[o1 c1] [|[o2 c2] [|]]]; try discriminate M; repeat match type of M with match ?x with _ => _ end = _ => destruct x; try discriminate M end; reflexivity.
Qed.

(** ** C37: both views exist, and agree *)
Theorem C37_views_agree_partial : forall order order' fuel fuel' hash full buffer files p q,
  known_file_type buffer -> bytes_ok buffer -> Forall bytes_ok files ->
  build order fuel hash false full buffer files = Ok p -> build order' fuel' hash true full buffer files = Ok q ->
  no_list_cycle (ps_file p) -> no_deleted_root (ps_state q) ->
  exists bound, forall n f anc m, (bound < n)%nat ->
  exists ks, iterate n q f anc m false = Ok ks /\ iterate n p f anc m false = Ok (live_keys ks).
Proof.
  intros order order' fuel fuel' hash full buffer files p q K BB BF B C NC ND. pose proof (build_bytes _ _ _ _ _ _ _ _ BB BF B) as BO.
  destruct (views_agree order order' fuel fuel' hash full buffer files p q K B C BO NC ND) as (b & H). exists b. intros n f anc m L.
  destruct (H n f anc m L) as (ks & I & J). eauto.
Qed.
Print Assumptions C37_views_agree_partial.
Example C37_views_example : exists p q, build keep 20 whole false false (free_hive 0x20) (touches 2) = Ok p
  /\ build keep 20 whole true false (free_hive 0x20) (touches 2) = Ok q /\ no_deleted_root (ps_state q).
Proof.
  destruct C30_recovered_example as (_ & _ & _ & q & Q & _ & D & _).
  assert (P : exists p, build keep 20 whole false false (free_hive 0x20) (touches 2) = Ok p /\ True).
  { refine (checked _ (fun _ => true) _ _ _); [auto|vm_compute; reflexivity]. }
  destruct P as (p & P & _). exists p, q. split; [exact P|]. split; [exact Q|exact D].
Qed.

(** ** C51: noting what was deleted comes to an end *)
Theorem C51_notes_end_partial : forall order fuel hash recover full buffer files p k,
  build order fuel hash recover full buffer files = Ok p -> no_deleted_root (ps_state p) ->
  exists n k', forall more, update_modified_lists (n + more) (ps_state p) k = Ok k'.
Proof. exact state_notes_end. Qed.
Print Assumptions C51_notes_end_partial.
(** It does not if two keys with the flag of a root were deleted at two places. *)
Theorem C51_notes_never_end : forall st a b k fuel,
  In a (held beq [] (st_deleted_keys st)) -> In b (held beq [] (st_deleted_keys st)) -> kn_offset a <> kn_offset b ->
  Forall (fun d => ~ from_free_space d /\ N.testbit (kd_flags (kn_detail d)) 2 = true) [a; b; k] ->
  update_modified_lists fuel st k = OutOfFuel.
Proof. exact roots_stuck. Qed.
Print Assumptions C51_notes_never_end.
(** Such a hive: two free keys have that flag. With a log of two entries, which
    change no byte, opening it with recovery never ends. *)
Theorem C51_two_roots_refuted : exists buffer file, known_file_type buffer
  /\ (exists p, build keep 20 whole false false buffer [file] = Ok p)
  /\ (exists p, build keep 20 whole true false buffer [] = Ok p)
  /\ forall n, build keep (8 + n) whole true false buffer [file] = OutOfFuel.
Proof.
  exists (free_hive 0x2C), (log_file 2 [touch 2; touch 3]). split; [left; vm_compute; reflexivity|]. split; [|split].
  - enough (P : exists p, build keep 20 whole false false (free_hive 0x2C) [log_file 2 [touch 2; touch 3]] = Ok p /\ True) by (destruct P as (p & P & _); exists p; exact P).
    refine (checked _ (fun _ => true) _ _ _); [auto|vm_compute; reflexivity].
  - enough (P : exists p, build keep 20 whole true false (free_hive 0x2C) [] = Ok p /\ True) by (destruct P as (p & P & _); exists p; exact P).
    refine (checked _ (fun _ => true) _ _ _); [auto|vm_compute; reflexivity].
  - intros n. vm_cast_no_check (@eq_refl (res parser) OutOfFuel).
Qed.
Print Assumptions C51_two_roots_refuted.
(** Such keys and such a store. *)
Example C51_notes_example : exists st a b, In a (held beq [] (st_deleted_keys st)) /\ In b (held beq [] (st_deleted_keys st))
  /\ kn_offset a <> kn_offset b /\ Forall (fun d => ~ from_free_space d /\ N.testbit (kd_flags (kn_detail d)) 2 = true) [a; b; a].
Proof.
  set (key := fun o => mkKN o (with_flags 4 default_detail) [] [] DeletedTransactionLog None None [] [] [] None [] [] 0 0 None 0).
  exists (mkState 0 false [] no_hash [([], [key 1; key 2])] [] [] []), (key 1), (key 2). split; [now left|]. split; [right; now left|]. split; [discriminate|].
  repeat apply Forall_cons; try apply Forall_nil; (split; [intros [X|X]; discriminate X|vm_compute; reflexivity]).
Qed.

(** ** C63: what free cells hold is still shown once logs have been applied *)
(** Not so for keys. The entries of the log file write one byte that is there
    already; the free cell holds a key, and is reported as long as the log is not
    given. With one entry it is not reported any more; with two it is reported as
    deleted by a transaction log, which never wrote it. *)
Theorem C63_keys_refuted : exists buffer c one two,
  known_file_type buffer /\ (0 < i32_at buffer c)%Z /\ nk_ok (rest_at buffer c)
  /\ shows keep whole buffer [] c [DeletedPrimaryFile]
  /\ shows keep whole buffer [one] c []
  /\ shows keep whole buffer [two] c [DeletedTransactionLog].
Proof.
  exists (free_hive 0x20), 4320, (log_file 2 [touch 2]), (log_file 2 [touch 2; touch 3]).
  split; [left; vm_compute; reflexivity|]. split; [vm_compute; reflexivity|]. split; [vm_compute; repeat split; discriminate|].
  split; [|split]; apply shows_check; vm_compute; reflexivity.
Qed.
Print Assumptions C63_keys_refuted.
(** It is so for values: what is shown without logs beside allocated values is
    shown, the same in all fields, on the root once the entries of any logs have
    been applied. [order] is any order of the items of a hash map. *)
Theorem C63_values : forall order order' fuel fuel' hash full buffer files p q,
  (forall m, Permutation (order m) m) -> (forall m, Permutation (order' m) m) -> known_file_type buffer ->
  build order fuel hash true full buffer [] = Ok p -> build order' fuel' hash true full buffer files = Ok q ->
  N.testbit (num_at (ps_buffer q) 4134 2) 2 = true ->
  forall n anc m ks n' anc' m' ks', iterate n p None anc m false = Ok ks -> iterate n' q None anc' m' false = Ok ks' ->
  forall k v, In k ks -> In v (kn_values k) -> kv_state v <> Allocated ->
  exists k', In k' ks' /\ kn_offset k' = 4128 /\ In v (kn_values k').
Proof. exact values_kept. Qed.
Print Assumptions C63_values.
(** With C39: every free cell of the bins that holds a value is shown. *)
Theorem C63_free_values : forall order fuel hash full buffer files q e bins,
  (forall m, Permutation (order m) m) ->
  known_file_type buffer -> 4096 <= len buffer -> bytes_at buffer 0 4 = [114; 101; 103; 102] ->
  tiled buffer e 4096 bins -> e <= len buffer -> num_at buffer 40 4 <= e ->
  build order fuel hash true full buffer files = Ok q -> N.testbit (num_at (ps_buffer q) 4134 2) 2 = true ->
  forall n anc m ks, iterate n q None anc m false = Ok ks ->
  forall o l c, In (o, l) bins -> o < num_at buffer 40 4 -> In c l -> (0 < i32_at buffer c)%Z -> vk_ok (rest_at buffer c) ->
  exists k v, In k ks /\ kn_offset k = 4128 /\ In v (kn_values k) /\ kv_offset v = c
  /\ value_found (mkFI 4096 buffer) (mkState 0 full [] hash [] [] [] []) (len buffer) DeletedPrimaryFile v.
Proof. exact free_values_kept. Qed.
Print Assumptions C63_free_values.
Example C63_example : exists p q ks, (forall m : reg_items, Permutation (keep m) m) /\ known_file_type (free_hive 0x20)
  /\ build keep 20 whole true false (free_hive 0x20) [] = Ok p /\ iterate 20 p None false true false = Ok ks
  /\ (exists k v, In k ks /\ In v (kn_values k) /\ kv_offset v = 4496 /\ kv_state v <> Allocated)
  /\ build keep 20 whole true false (free_hive 0x20) (touches 2) = Ok q /\ N.testbit (num_at (ps_buffer q) 4134 2) 2 = true
  /\ exists ks', iterate 20 q None false true false = Ok ks'.
Proof.
  assert (P : exists p, build keep 20 whole true false (free_hive 0x20) [] = Ok p
    /\ exists ks, iterate 20 p None false true false = Ok ks /\ exists k v, In k ks /\ In v (kn_values k) /\ kv_offset v = 4496 /\ kv_state v <> Allocated).
  { refine (checked _ (fun p => match iterate 20 p None false true false with Ok ks => existsb (fun k => existsb (fun v => (kv_offset v =? 4496) && negb (is_allocated (kv_state v))) (kn_values k)) ks | _ => false end) _ _ _); [|vm_compute; reflexivity].
    intros p H. destruct (iterate _ _ _ _ _ _) as [ks| | |]; try discriminate H. exists ks. split; [reflexivity|].
    apply existsb_exists in H as (k & I & H). apply existsb_exists in H as (v & J & H). apply andb_true_iff in H as (O & A). apply N.eqb_eq in O.
    exists k, v. repeat split; try assumption. intros S. rewrite S in A. discriminate A. }
  assert (Q : exists q, build keep 20 whole true false (free_hive 0x20) (touches 2) = Ok q
    /\ N.testbit (num_at (ps_buffer q) 4134 2) 2 = true /\ exists ks', iterate 20 q None false true false = Ok ks').
  { refine (checked _ (fun q => N.testbit (num_at (ps_buffer q) 4134 2) 2 && match iterate 20 q None false true false with Ok _ => true | _ => false end) _ _ _); [|vm_compute; reflexivity].
    intros q H. apply andb_true_iff in H as (H1 & H2). split; [exact H1|]. destruct (iterate _ _ _ _ _ _) as [ks| | |]; try discriminate H2. exists ks. reflexivity. }
  destruct P as (p & P & ks & I & V). destruct Q as (q & Q & F & J). exists p, q, ks.
  split; [intros m; apply Permutation_refl|]. split; [left; vm_compute; reflexivity|]. split; [exact P|]. split; [exact I|]. split; [exact V|].
  split; [exact Q|]. split; [exact F|exact J].
Qed.
