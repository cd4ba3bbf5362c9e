(** The order in which hash maps are walked: statements only, with a concrete case
    beside each. The hives are in DemoOrder.v. *)
From Coq Require Import Permutation.
From Verif Require Import Base BaseFacts LayoutSpec BaseBlock Types Value Node Recover Parser TxLog TxSpec CellSpec AnyFile FreeSpec LiveSpec
  DumpSpec DumpFacts ReplaySpec ReplayFacts BuildBytes LiveOpen OrderPlain Demo DemoCell DemoTree DemoScan DemoLog DemoFree DemoExport DemoOrder PropsLive PropsReplay
  RecoverOpen OrderSpec OrderFacts OrderRuns.

(** ** C77: two runs over the same evidence *)
(** The walk of a hash map is different in every run. Without recovery, and with it
    when no logs are to be replayed, opening gives the same in every run, failures
    included. *)
Theorem C77_unrecovered : forall order order' fuel fuel' hash full buffer files,
  build order fuel hash false full buffer files = build order' fuel' hash false full buffer files.
Proof. exact unrecovered_any. Qed.
Print Assumptions C77_unrecovered.
Theorem C77_unreplayed : forall order order' fuel fuel' hash recover full buffer files, no_replay buffer files ->
  build order fuel hash recover full buffer files = build order' fuel' hash recover full buffer files.
Proof. exact unreplayed_any. Qed.
Print Assumptions C77_unreplayed.
(** The conditions hold of hives that are opened. *)
Example C77_unreplayed_example : (exists p, build (@rev _) 20 whole false false order_hive [log_file 2 [drop_two]] = Ok p)
  /\ exists p, build (@rev _) 20 whole true false order_hive [] = Ok p.
Proof.
  assert (P : exists p, build (@rev _) 20 whole false false order_hive [log_file 2 [drop_two]] = Ok p /\ True).
  { refine (checked _ (fun _ => true) _ _ _); [auto|vm_compute; reflexivity]. }
  assert (Q : exists p, build (@rev _) 20 whole true false order_hive [] = Ok p /\ True).
  { refine (checked _ (fun _ => true) _ _ _); [auto|vm_compute; reflexivity]. }
  destruct P as (p & P & _), Q as (q & Q & _). split; [now exists p|now exists q].
Qed.
(** With recovery and logs the keys in use and the bytes are the same in every run. *)
Theorem C77_live : forall order order' order0 fuel hash full buffer files p,
  (forall m, Permutation (order m) m) -> (forall m, Permutation (order' m) m) -> bytes_ok buffer -> Forall bytes_ok files ->
  known_file_type buffer -> numbered buffer files -> steady buffer files ->
  build order0 fuel hash false full buffer files = Ok p -> no_list_cycle (ps_file p) ->
  exists bound, forall n n' q q', (bound < n)%nat -> (bound < n')%nat ->
  build order n hash true full buffer files = Ok q -> build order' n' hash true full buffer files = Ok q' ->
  ps_buffer q = ps_buffer q'
  /\ exists bound', forall n f anc m, (bound' < n)%nat ->
     exists ks ks', iterate n q f anc m false = Ok ks /\ iterate n q' f anc m false = Ok ks' /\ live_keys ks = live_keys ks'.
Proof.
  intros order order' order0 fuel hash full buffer files p PO PO' B BF K N S E NC.
  destruct (C37_replayed_views_agree order order0 fuel hash full buffer files p PO B BF K N S E NC) as (b & H).
  destruct (C37_replayed_views_agree order' order0 fuel hash full buffer files p PO' B BF K N S E NC) as (b' & H').
  exists (b + b')%nat. intros n n' q q' L L' Q Q'. split.
  - destruct (C37_same_hive order0 order fuel n hash full buffer files p q E Q) as (F & _). destruct (C37_same_hive order0 order' fuel n' hash full buffer files p q' E Q') as (F' & _).
    unfold ps_buffer. congruence.
  - destruct (H n q ltac:(lia) Q) as (c & V). destruct (H' n' q' ltac:(lia) Q') as (c' & V'). exists (c + c')%nat. intros m f anc md L0.
    destruct (V m f anc md ltac:(lia)) as (ks & I & J). destruct (V' m f anc md ltac:(lia)) as (ks' & I' & J'). exists ks, ks'.
    split; [exact I|]. split; [exact I'|]. rewrite J in J'. now injection J'.
Qed.
Print Assumptions C77_live.
(** The conditions are those of C37_replayed_views_agree; its example is a case with
    an entry that is replayed. *)

(** What [order_shown] shows is what is opened and iterated. *)
Lemma shown_split order ws l : order_shown order ws = Some l ->
  exists p ks, build order 20 whole true false order_hive [log_file 2 ws] = Ok p /\ iterate 20 p None false true false = Ok ks
  /\ l = map (fun k => (kn_path k, kn_state k)) ks.
Proof.
  unfold order_shown. destruct (build order 20 whole true false order_hive [log_file 2 ws]) as [p| | |]; try discriminate.
  destruct (iterate 20 p None false true false) as [ks| | |] eqn:I; try discriminate. intros [= <-]. now exists p, ks.
Qed.
Definition rev_items : reg_items -> reg_items := @rev _.
Lemma rev_items_perm m : Permutation (rev_items m) m.
Proof. symmetry. apply Permutation_rev. Qed.
(** With logs, and no deleted keys in the free space of the hive, two runs that
    open it hold the same bytes, root, warnings and earlier versions. If there are no
    deleted values in the free space either, every path has the same deleted values,
    and a key read with its history is the same in both but for its deleted sub
    keys. *)
Theorem C77_replayed_partial : forall order order' order0 n n0 hash full buffer files q0 q q',
  (forall m, Permutation (order m) m) -> (forall m, Permutation (order' m) m) -> Forall bytes_ok files ->
  numbered buffer files -> rooted_replay buffer files ->
  build order0 n0 hash true full buffer [] = Ok q0 -> st_deleted_keys (ps_state q0) = [] ->
  build order n hash true full buffer files = Ok q -> build order' n hash true full buffer files = Ok q' ->
  same_but_deleted q q'
  /\ (st_deleted_values (ps_state q0) = [] ->
      (forall path, deleted_values_at path q = deleted_values_at path q')
      /\ forall o k k' s s', op_modified o = true ->
         kn_read (ps_file q) (ps_state q) o = Ok (Some k, s) -> kn_read (ps_file q') (ps_state q') o = Ok (Some k', s') ->
         kn_set_deleted [] k = kn_set_deleted [] k').
Proof.
  intros order order' order0 n n0 hash full buffer files q0 q q' PO PO' B N R Q0 D Q Q'.
  destruct (build_alike order order' order0 n n0 hash full buffer files q0 q q' PO PO' B N R Q0 D Q Q') as (A & S & V).
  split; [exact S|]. intros V0. specialize (V V0). split; [exact V|]. intros o k k' s s' M. exact (reads_alike q q' o k k' s s' A S V M).
Qed.
Print Assumptions C77_replayed_partial.
(** The hive of C77_order_refuted with its log, two walks. *)
Lemma order_right : checksum_right order_hive. Proof. vm_compute. reflexivity. Qed.
Example C77_replayed_example : Forall bytes_ok [log_file 2 [drop_two]] /\ numbered order_hive [log_file 2 [drop_two]]
  /\ rooted_replay order_hive [log_file 2 [drop_two]]
  /\ (exists q0, build keep 20 whole true false order_hive [] = Ok q0 /\ st_deleted_keys (ps_state q0) = [] /\ st_deleted_values (ps_state q0) = [])
  /\ (exists q, build keep 20 whole true false order_hive [log_file 2 [drop_two]] = Ok q /\ st_deleted_keys (ps_state q) <> [])
  /\ exists q', build rev_items 20 whole true false order_hive [log_file 2 [drop_two]] = Ok q' /\ True.
Proof.
  split; [apply files_check; vm_compute; reflexivity|]. split.
  { intros b0 logs (all & w & P & [(_ & -> & _)|(X & _)]); [vm_compute; reflexivity|]. elim X. exact order_right. }
  split; [apply (rooted_check n_root); [exact order_right|vm_compute; reflexivity]|]. split; [|split].
  - refine (checked _ (fun p => match st_deleted_keys (ps_state p), st_deleted_values (ps_state p) with [], [] => true | _, _ => false end) _ _ _); [|vm_compute; reflexivity].
    intros p. destruct (st_deleted_keys (ps_state p)); [|discriminate]. destruct (st_deleted_values (ps_state p)); [auto|discriminate].
  - refine (checked _ (fun p => match st_deleted_keys (ps_state p) with [] => false | _ => true end) _ _ _); [|vm_compute; reflexivity].
    intros p. destruct (st_deleted_keys (ps_state p)); discriminate.
  - refine (checked _ (fun _ => true) _ _ _); [auto|vm_compute; reflexivity].
Qed.

(** In general two runs do not show the same. The keys an entry deletes are listed
    below their parent in the order of the walk. *)
Theorem C77_order_refuted : exists order order' hash full buffer files p p' ks ks',
  (forall m, Permutation (order m) m) /\ (forall m, Permutation (order' m) m)
  /\ build order 20 hash true full buffer files = Ok p /\ build order' 20 hash true full buffer files = Ok p'
  /\ iterate 20 p None false true false = Ok ks /\ iterate 20 p' None false true false = Ok ks'
  /\ map kn_path ks <> map kn_path ks' /\ Permutation (map kn_path ks) (map kn_path ks').
Proof.
  assert (A : order_shown keep [drop_two] = Some (map (fun e => (path_of (fst e), snd e))
    [([], Allocated); ([65], Allocated); ([65; 66], Allocated); ([65; 66; 68], DeletedTransactionLog); ([65; 66; 67], DeletedTransactionLog)])) by (vm_compute; reflexivity).
  assert (B : order_shown rev_items [drop_two] = Some (map (fun e => (path_of (fst e), snd e))
    [([], Allocated); ([65], Allocated); ([65; 66], Allocated); ([65; 66; 67], DeletedTransactionLog); ([65; 66; 68], DeletedTransactionLog)])) by (vm_compute; reflexivity).
  apply shown_split in A as (p & ks & P & I & E). apply shown_split in B as (p' & ks' & P' & I' & E').
  exists keep, rev_items, whole, false, order_hive, [log_file 2 [drop_two]], p, p', ks, ks'.
  split; [intros m; apply Permutation_refl|]. split; [exact rev_items_perm|]. split; [exact P|]. split; [exact P'|]. split; [exact I|]. split; [exact I'|].
  apply (f_equal (map fst)) in E. apply (f_equal (map fst)) in E'. rewrite map_map in E, E'. cbn [fst] in E, E'. rewrite !map_map in E, E'. cbn [fst] in E, E'.
  change (map (fun k => kn_path k) ks) with (map kn_path ks) in E. change (map (fun k => kn_path k) ks') with (map kn_path ks') in E'. rewrite <- E, <- E'. cbn [map fst].
  split; [intros X; vm_compute in X; discriminate X|]. do 3 apply perm_skip. apply perm_swap.
Qed.
Print Assumptions C77_order_refuted.
(** Whether keys that are not in the hive any more are shown at all can depend on the
    walk: two entries, the first of which takes away \R\A with all below it and the
    second of which brings \R\A and \R\A\B back without \R\A\B\C and \R\A\B\D. *)
Theorem C77_lost_refuted : exists order order' hash full buffer files p p' ks ks' k,
  (forall m, Permutation (order m) m) /\ (forall m, Permutation (order' m) m)
  /\ build order 20 hash true full buffer files = Ok p /\ build order' 20 hash true full buffer files = Ok p'
  /\ iterate 20 p None false true false = Ok ks /\ iterate 20 p' None false true false = Ok ks'
  /\ In k ks /\ kn_state k = DeletedTransactionLog /\ ~ In (kn_path k) (map kn_path ks')
  /\ Forall (fun k' => kn_state k' = Allocated) ks'.
Proof.
  assert (A : order_shown keep [drop_all; back_two] = Some (map (fun e => (path_of (fst e), snd e))
    [([], Allocated); ([65], Allocated); ([65; 66], Allocated); ([65; 66; 68], DeletedTransactionLog); ([65; 66; 67], DeletedTransactionLog)])) by (vm_compute; reflexivity).
  assert (B : order_shown rev_items [drop_all; back_two] = Some (map (fun e => (path_of (fst e), snd e))
    [([], Allocated); ([65], Allocated); ([65; 66], Allocated)])) by (vm_compute; reflexivity).
  apply shown_split in A as (p & ks & P & I & E). apply shown_split in B as (p' & ks' & P' & I' & E').
  assert (K : In (path_of [65; 66; 68], DeletedTransactionLog) (map (fun k => (kn_path k, kn_state k)) ks)) by (rewrite <- E; cbn [map fst snd In]; tauto).
  apply in_map_iff in K as (k & K1 & K2). injection K1 as K1 K3.
  exists keep, rev_items, whole, false, order_hive, [log_file 2 [drop_all; back_two]], p, p', ks, ks', k.
  split; [intros m; apply Permutation_refl|]. split; [exact rev_items_perm|]. split; [exact P|]. split; [exact P'|]. split; [exact I|]. split; [exact I'|].
  split; [exact K2|]. split; [exact K3|]. split.
  - pose proof (f_equal (map fst) E') as X. rewrite !map_map in X. cbn [fst] in X. change (map (fun k => kn_path k) ks') with (map kn_path ks') in X. rewrite <- X, K1.
    intros Y. vm_compute in Y. destruct Y as [Y|[Y|[Y|[]]]]; discriminate Y.
  - pose proof (f_equal (map snd) E') as X. rewrite !map_map in X. cbn [snd] in X. change (map (fun k => kn_state k) ks') with (map kn_state ks') in X.
    apply Forall_forall. intros x Hx. apply (in_map kn_state) in Hx. rewrite <- X in Hx. cbn in Hx. destruct Hx as [Y|[Y|[Y|[]]]]; now symmetry.
Qed.
Print Assumptions C77_lost_refuted.
