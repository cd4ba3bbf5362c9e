(** Opening with recovery and replaying logs comes to an end: statements only, with
    a concrete case beside each. The specification is ReplaySpec.v. *)
From Coq Require Import String Permutation.
From Verif Require Import Base BaseFacts LayoutSpec BaseBlock Types Value Node Recover Parser TxLog TxSpec CellSpec TreeSpec TreeSession AnyFile FreeSpec LiveSpec
  LiveView AnalysisSpec Ends RecIter BuildBytes Log Export Folder FolderSpec FolderFacts AbortSpec Dump DumpSpec DumpFacts ReplaySpec ReplayFacts RecoverOpen Demo DemoCell DemoTree DemoScan DemoLog DemoFree DemoExport
  PropsAbort PropsDump.
Open Scope string_scope.
Open Scope N_scope.
Open Scope list_scope.

(** ** C73 *)
(** Without one of the conditions of [steady] it may never end: C51_two_roots_refuted. *)
Theorem C73_replay_ends : forall order hash full buffer files, (forall m, Permutation (order m) m) -> bytes_ok buffer -> Forall bytes_ok files ->
  numbered buffer files -> steady buffer files ->
  exists bound r, r <> OutOfFuel /\ forall n, (bound < n)%nat -> build order n hash true full buffer files = r.
Proof.
  intros order hash full buffer files PO B BF N S. destruct (replay_ends order full hash buffer files PO B BF N S) as (r & NF & (b & H) & _). now exists b, r.
Qed.
Print Assumptions C73_replay_ends.
(** What was opened in this way can be iterated to the end, with any filter, and no
    key in use is shown twice. *)
Theorem C30_replayed_iteration_ends : forall order hash full buffer files, (forall m, Permutation (order m) m) -> bytes_ok buffer -> Forall bytes_ok files ->
  known_file_type buffer -> numbered buffer files -> steady buffer files ->
  exists bound, forall n p, (bound < n)%nat -> build order n hash true full buffer files = Ok p ->
  exists bound', forall n' f anc m post, (bound' < n')%nat ->
  exists ks, iterate n' p f anc m post = Ok ks /\ NoDup (map kn_offset (live_keys ks)).
Proof.
  intros order hash full buffer files PO B BF K N S. destruct (replay_ends order full hash buffer files PO B BF N S) as (r & NF & (b & H) & ND).
  exists b. intros n p L E. assert (R : r = Ok p) by (rewrite <- E; symmetry; now apply H). destruct (ND p R) as (NR & NC).
  destruct (all_iterate _ _ _ _ _ _ _ _ K E (build_bytes _ _ _ _ _ _ _ _ B BF E) (NC K) NR) as (b' & I). exists b'. intros n' f anc m post L'.
  destruct (I n' f anc m post L') as (ks & X & D & _). exists ks. split; [exact X|]. now rewrite <- spots_live.
Qed.
Print Assumptions C30_replayed_iteration_ends.
(** Both views of it exist and agree: what is not recovered in the one is the other. *)
Theorem C37_replayed_views_agree : forall order order' fuel hash full buffer files p, (forall m, Permutation (order m) m) -> bytes_ok buffer -> Forall bytes_ok files ->
  known_file_type buffer -> numbered buffer files -> steady buffer files ->
  build order' fuel hash false full buffer files = Ok p -> no_list_cycle (ps_file p) ->
  exists bound, forall n q, (bound < n)%nat -> build order n hash true full buffer files = Ok q ->
  exists bound', forall n' f anc m, (bound' < n')%nat ->
  exists ks, iterate n' q f anc m false = Ok ks /\ iterate n' p f anc m false = Ok (live_keys ks).
Proof.
  intros order order' fuel hash full buffer files p PO B BF K N S E NC. destruct (replay_ends order full hash buffer files PO B BF N S) as (r & NF & (b & H) & ND).
  exists b. intros n q L Q. assert (R : r = Ok q) by (rewrite <- Q; symmetry; now apply H).
  destruct (views_agree order' order fuel n hash full buffer files p q K E Q (build_bytes _ _ _ _ _ _ _ _ B BF E) NC (proj1 (ND q R))) as (b' & V). exists b'. intros n' f anc m L'.
  destruct (V n' f anc m L') as (ks & I & J). eauto.
Qed.
Print Assumptions C37_replayed_views_agree.
(** Noting the deleted keys and values with a key comes to an end in it. *)
Theorem C51_replayed_notes_end : forall order hash full buffer files, (forall m, Permutation (order m) m) -> bytes_ok buffer -> Forall bytes_ok files ->
  numbered buffer files -> steady buffer files ->
  exists bound, forall n p k, (bound < n)%nat -> build order n hash true full buffer files = Ok p ->
  exists n' k', forall more, update_modified_lists (n' + more) (ps_state p) k = Ok k'.
Proof.
  intros order hash full buffer files PO B BF N S. destruct (replay_ends order full hash buffer files PO B BF N S) as (r & NF & (b & H) & ND).
  exists b. intros n p k L E. assert (R : r = Ok p) by (rewrite <- E; symmetry; now apply H). exact (state_notes_end _ _ _ _ _ _ _ _ _ E (proj1 (ND p R))).
Qed.
Print Assumptions C51_replayed_notes_end.
(** A hive that opens with its logs, and with recovery but without its logs, is not
    rejected with both. *)
Theorem C51_not_rejected_partial : forall order order' order0 fuel fuel' fuel0 hash full buffer files p q0,
  known_file_type buffer -> Forall bytes_ok files ->
  build order fuel hash false full buffer files = Ok p -> build order0 fuel0 hash true full buffer [] = Ok q0 ->
  build order' fuel' hash true full buffer files <> Err.
Proof. intros order order' order0 fuel fuel' fuel0 hash full buffer files p q0. exact (build_fine full hash order fuel order' fuel' order0 fuel0 buffer files p q0). Qed.
Print Assumptions C51_not_rejected_partial.
(** It opens if its replay is steady. *)
Theorem C51_opens_with_logs_partial : forall order hash full buffer files order0 fuel0 order1 fuel1 p q0,
  (forall m, Permutation (order m) m) -> bytes_ok buffer -> Forall bytes_ok files -> known_file_type buffer ->
  numbered buffer files -> steady buffer files ->
  build order0 fuel0 hash false full buffer files = Ok p -> build order1 fuel1 hash true full buffer [] = Ok q0 ->
  exists bound q, forall n, (bound < n)%nat -> build order n hash true full buffer files = Ok q.
Proof. exact opens_both. Qed.
Print Assumptions C51_opens_with_logs_partial.
(** The run of the dump tool over a folder goes through, with recovery and logs too,
    if each replay is steady. *)
Theorem C67_complete_replayed : forall o c f, (forall m, Permutation (os_order o m) m) -> harmless c f -> recovery_steady c f -> cycle_free o c f ->
  exists bound, forall n outs, (bound < n)%nat -> exists final, dump_folder o n c f outs = Finished final.
Proof. exact run_complete_steady. Qed.
Print Assumptions C67_complete_replayed.

(** A hive with two free keys and a log of two entries, which change the time of a
    key. *)
Definition r_file : list N := log_file 2 [mkW 0 2 8192 [(128, [1; 2; 3; 4])] []; mkW 0 3 8192 [(128, [9]); (4096, [104])] []].
Lemma r_right : checksum_right (free_hive 0x20). Proof. vm_compute. reflexivity. Qed.
Lemma r_steady : steady (free_hive 0x20) [r_file].
Proof. apply (steady_check n_root); [exact r_right|vm_compute; reflexivity]. Qed.
Lemma r_numbered : numbered (free_hive 0x20) [r_file].
Proof.
  intros b0 logs (all & w & P & [(_ & -> & _)|(X & _)]); [vm_compute; reflexivity|]. elim X. exact r_right.
Qed.
Example C73_example : bytes_ok (free_hive 0x20) /\ Forall bytes_ok [r_file] /\ known_file_type (free_hive 0x20)
  /\ numbered (free_hive 0x20) [r_file] /\ steady (free_hive 0x20) [r_file] /\ ~ no_replay (free_hive 0x20) [r_file]
  /\ (exists p, build keep 20 whole true false (free_hive 0x20) [r_file] = Ok p /\ no_list_cycle (ps_file p) /\ bytes_at (ps_buffer p) (4096 + 128) 4 = [9; 2; 3; 4])
  /\ (exists p, build keep 20 whole false false (free_hive 0x20) [r_file] = Ok p /\ no_list_cycle (ps_file p)).
Proof.
  split; [apply bytes_check; vm_compute; reflexivity|]. split; [apply files_check; vm_compute; reflexivity|]. split; [left; vm_compute; reflexivity|].
  split; [exact r_numbered|]. split; [exact r_steady|]. split; [intros [H|(_ & H)]; [discriminate H|vm_compute in H; discriminate H]|]. split.
  - refine (checked _ (fun p => no_pair (ps_buffer p) && beq (bytes_at (ps_buffer p) (4096 + 128) 4) [9; 2; 3; 4]) _ _ _); [|vm_compute; reflexivity].
    intros p H. apply andb_true_iff in H as (H1 & H2). split; [now apply no_pair_no_cycle|now apply beq_eq].
  - refine (checked _ (fun p => no_pair (ps_buffer p)) _ _ _); [|vm_compute; reflexivity]. intros p H. now apply no_pair_no_cycle.
Qed.
Example C51_logs_example : exists bound q, forall n, (bound < n)%nat -> build keep n whole true false (free_hive 0x20) [r_file] = Ok q.
Proof.
  destruct C73_example as (A & B & C & D & E & _ & _ & (p & P & _)).
  assert (Q : exists q, build keep 20 whole true false (free_hive 0x20) [] = Ok q /\ True) by (refine (checked _ (fun _ => true) _ _ _); [auto|vm_compute; reflexivity]).
  destruct Q as (q & Q & _).
  exact (C51_opens_with_logs_partial keep whole false (free_hive 0x20) [r_file] keep 20 keep 20 p q (fun m => Permutation_refl m) A B C D E P Q).
Qed.
(** Without the second condition it is rejected: the signature of the root was
    torn, the log writes it again, and recovery reads the root before that. *)
Definition torn_hive : list N := let b := free_hive 0x20 in firstn 4132 b ++ [0; 0] ++ skipn 4134 b.
Definition torn_file : list N := log_file 2 [mkW 0 2 8192 [(36, [110; 107])] []].
Theorem C51_torn_root_refuted : exists buffer file, known_file_type buffer /\ bytes_ok buffer
  /\ (exists p, build keep 20 whole false false buffer [file] = Ok p /\ exists ks, iterate 20 p None false false false = Ok ks /\ length ks = 2%nat)
  /\ forall n, build keep n whole true false buffer [file] = Err.
Proof.
  exists torn_hive, torn_file. split; [left; vm_compute; reflexivity|]. split; [apply bytes_check; vm_compute; reflexivity|]. split.
  - refine (checked _ (fun p => match iterate 20 p None false false false with Ok ks => Nat.eqb (length ks) 2 | _ => false end) _ _ _); [|vm_compute; reflexivity].
    intros p H. destruct (iterate 20 p None false false false) as [ks| | |]; try discriminate H. exists ks. split; [reflexivity|now apply PeanoNat.Nat.eqb_eq].
  - intros n. vm_cast_no_check (@eq_refl (res parser) Err).
Qed.
Print Assumptions C51_torn_root_refuted.
(** The hive of C51_two_roots_refuted is not steady. *)
Example C73_two_roots : ~ steady (free_hive 0x2C) [log_file 2 [touch 2; touch 3]].
Proof.
  intros (name & S). assert (W : on_the_way (free_hive 0x2C) [log_file 2 [touch 2; touch 3]] (free_hive 0x2C)).
  { assert (P : exists all w, TxLog.parse_logs [log_file 2 [touch 2; touch 3]] = Ok (all, w)).
    { assert (X : match TxLog.parse_logs [log_file 2 [touch 2; touch 3]] with Ok _ => true | _ => false end = true) by (vm_compute; reflexivity).
      destruct (TxLog.parse_logs _) as [[a w]| | |]; try discriminate X. now exists a, w. }
    destruct P as (all & w & P). destruct (TxApply.chain_total (num_at (free_hive 0x2C) 8 4) 0 all) as (es & m & C); [vm_compute; reflexivity|].
    exists (free_hive 0x2C), all, es, m, [], es. split; [|split; [exact C|split; [reflexivity|apply TxApply.overlaid_nil]]].
    exists all, w. split; [exact P|]. left. split; [left; vm_compute; reflexivity|now split]. }
  destruct (S _ W) as (_ & OR & _). specialize (OR (4096 + 224)). assert (X : 4096 + 224 = 4128) by (apply OR; vm_compute; reflexivity). discriminate X.
Qed.
(** A folder with it and its log, dumped with recovery. *)
Definition r_folder : folder := [([text "SYSTEM"], free_hive 0x20); ([text "SYSTEM.LOG1"], r_file)].
Definition r_choices : choices := mkChoices None true false false false JsonlOut.
Example C67_replay_example : harmless r_choices r_folder /\ recovery_steady r_choices r_folder /\ forall o, cycle_free o r_choices r_folder.
Proof.
  assert (HH : forall p b, In (p, b) r_folder -> hive_file p b -> p = [text "SYSTEM"] /\ b = free_hive 0x20).
  { intros p b I H. unfold r_folder in I. cbn [In] in I. destruct I as [I|[I|[]]]; [apply pair_equal_spec in I as (<- & <-); now split|].
    apply hive_iff in H. apply pair_equal_spec in I as (<- & <-). exfalso. vm_compute in H. discriminate H. }
  assert (HL : forall p b logs, In (p, b) r_folder -> hive_file p b -> used_logs false r_folder p logs -> logs = [r_file]).
  { intros p b logs I H U. destruct (HH p b I H) as (-> & ->). pose proof (used_or_none false r_folder _ _ H) as V. cbn [used_logs] in U, V. rewrite (logs_one r_folder _ _ _ ltac:(repeat (constructor; [vm_compute; intuition discriminate|]); constructor) U V). vm_compute. reflexivity. }
  split; [split|split].
  - intros p b I. apply bytes_check. refine (proj1 (forallb_forall (fun e : path * list N => forallb (fun x => x <? 256) (snd e)) r_folder) _ (p, b) I). vm_compute. reflexivity.
  - intros p b logs l pos I H U J. apply no_short_ok. rewrite (HL p b logs I H U) in J. destruct J as [<-|[]]. vm_compute. reflexivity.
  - discriminate 1.
  - intros _ p b logs I H U. rewrite (HL p b logs I H U). destruct (HH p b I H) as (_ & ->). right. split; [exact r_numbered|exact r_steady].
  - intros o p b logs q I H U N. specialize (N eq_refl). rewrite (HL p b logs I H U) in N. destruct (HH p b I H) as (_ & ->). destruct N as [X|(_ & X)]; [discriminate X|vm_compute in X; discriminate X].
Qed.
