(** The property of how a hive is handed over: statements only, with a concrete case
    beside each. The specification is SourceSpec.v. *)
From Coq Require Import String.
From Verif Require Import Base BaseFacts Util UtilSpec LayoutSpec Types Parser TxLog Folder Source SourceSpec SourceFacts Log Demo DemoTree DemoExport PropsTree PropsTx PropsDisk.
Open Scope string_scope.
Open Scope N_scope.
Open Scope list_scope.

(** ** C72 *)
(** From readers: what is opened is the bytes from their positions on, with the last
    settings, however few bytes each call gives and however often it is interrupted. *)
Theorem C72_file : forall order fuel hash primary calls recover full bytes files,
  recovers calls recover -> in_full calls full -> sr_after primary = bytes -> patient (sr_turns primary) ->
  Forall2 (fun s f => sr_after s = f /\ patient (sr_turns s)) (logs_named calls) files ->
  build_from_file order fuel hash primary (prepared calls) = build order fuel hash recover full bytes files.
Proof. exact from_file. Qed.
Print Assumptions C72_file.
(** From paths. *)
Theorem C72_path : forall order fuel hash pl primary calls recover full bytes files,
  recovers calls recover -> in_full calls full -> stored pl primary bytes -> patient (pl_turns pl primary) ->
  Forall2 (fun p f => stored pl p f /\ patient (pl_turns pl p)) (logs_named calls) files ->
  build_from_path order fuel hash pl primary (prepared calls) = build order fuel hash recover full bytes files.
Proof. exact from_path. Qed.
Print Assumptions C72_path.
(** From Python, by paths or by objects, none of them handed over twice. *)
Theorem C72_python : forall order fuel hash pl w b bytes files,
  NoDup (objects_in (pb_primary b :: pb_logs b)) -> stands_for patient pl w (pb_primary b) bytes -> Forall2 (stands_for patient pl w) (pb_logs b) files ->
  fst (py_build order fuel hash pl b w) = build order fuel hash (pb_recover b) false bytes files.
Proof. exact from_python. Qed.
Print Assumptions C72_python.
(** The calls that come before count as they do for the other builders. *)
Theorem C72_python_calls : forall order fuel hash pl w src calls recover bytes files,
  recovers (map as_call calls) recover -> NoDup (objects_in (src :: logs_named (map as_call calls))) ->
  stands_for patient pl w src bytes -> Forall2 (stands_for patient pl w) (logs_named (map as_call calls)) files ->
  fst (py_build order fuel hash pl (py_prepared src calls) w) = build order fuel hash recover false bytes files.
Proof. exact python_calls. Qed.
Print Assumptions C72_python_calls.
Example C72_python_calls_example : forall log1 log2,
  recovers (map as_call [PyRecoverDeleted true; PyWithTransactionLog log1; PyRecoverDeleted false; PyWithTransactionLog log2]) false
  /\ logs_named (map as_call [PyRecoverDeleted true; PyWithTransactionLog log1; PyRecoverDeleted false; PyWithTransactionLog log2]) = [log1; log2].
Proof.
  intros log1 log2. split; [|reflexivity]. left. exists [RecoverDeleted true; WithTransactionLog log1], (RecoverDeleted false), [WithTransactionLog log2].
  split; [reflexivity|]. split; [reflexivity|]. intros c' [<-|[]]. reflexivity.
Qed.
(** A parser made without the builder is that of the hive alone, without recovery. *)
Theorem C72_python_new : forall order fuel hash pl w src bytes, stands_for patient pl w src bytes ->
  fst (py_new order fuel hash pl src w) = build order fuel hash false false bytes [].
Proof. exact python_new. Qed.
Print Assumptions C72_python_new.
(** So the ways agree. *)
Theorem C72_same : forall order fuel hash pl w primary calls hive more b recover bytes files,
  recovers calls recover -> recovers more recover -> pb_recover b = recover -> in_full calls false -> in_full more false ->
  stored pl hive bytes -> patient (pl_turns pl hive) -> Forall2 (fun p f => stored pl p f /\ patient (pl_turns pl p)) (logs_named more) files ->
  opened_on primary bytes -> patient (sr_turns primary) -> Forall2 (fun s f => opened_on s f /\ patient (sr_turns s)) (logs_named calls) files ->
  NoDup (objects_in (pb_primary b :: pb_logs b)) -> stands_for patient pl w (pb_primary b) bytes -> Forall2 (stands_for patient pl w) (pb_logs b) files ->
  build_from_file order fuel hash primary (prepared calls) = build_from_path order fuel hash pl hive (prepared more)
  /\ fst (py_build order fuel hash pl b w) = build_from_path order fuel hash pl hive (prepared more).
Proof.
  intros order fuel hash pl w primary calls hive more b recover bytes files R R' R'' F F' S1 P1 L1 (_ & S2) P2 L2 D S3 L3.
  rewrite (from_path _ _ _ _ _ _ _ _ _ _ R' F' S1 P1 L1), (from_python _ _ _ _ _ _ _ _ D S3 L3), R''. split; [|reflexivity]. apply from_file; try assumption.
  clear - L2. induction L2 as [|s f ss fs ((_ & A) & P) _ IH]; constructor; [now split|exact IH].
Qed.
Print Assumptions C72_same.
(** Should reading fail, there is no parser of a part of the bytes. *)
Theorem C72_file_whole : forall order fuel hash primary calls recover full bytes files p,
  recovers calls recover -> in_full calls full -> sr_after primary = bytes -> honest (sr_turns primary) ->
  Forall2 (fun s f => sr_after s = f /\ honest (sr_turns s)) (logs_named calls) files ->
  build_from_file order fuel hash primary (prepared calls) = Ok p -> build order fuel hash recover full bytes files = Ok p.
Proof. exact from_file_whole. Qed.
Print Assumptions C72_file_whole.
Theorem C72_path_whole : forall order fuel hash pl primary calls recover full bytes files p,
  recovers calls recover -> in_full calls full -> stored pl primary bytes -> honest (pl_turns pl primary) ->
  Forall2 (fun p f => stored pl p f /\ honest (pl_turns pl p)) (logs_named calls) files ->
  build_from_path order fuel hash pl primary (prepared calls) = Ok p -> build order fuel hash recover full bytes files = Ok p.
Proof. exact from_path_whole. Qed.
Print Assumptions C72_path_whole.
Theorem C72_python_whole : forall order fuel hash pl w b bytes files p,
  NoDup (objects_in (pb_primary b :: pb_logs b)) -> stands_for honest pl w (pb_primary b) bytes -> Forall2 (stands_for honest pl w) (pb_logs b) files ->
  fst (py_build order fuel hash pl b w) = Ok p -> build order fuel hash (pb_recover b) false bytes files = Ok p.
Proof. exact from_python_whole. Qed.
Print Assumptions C72_python_whole.
(** A hive or a log that is not there is an error. *)
Theorem C72_missing : forall order fuel hash pl primary calls p, In p (primary :: logs_named calls) -> read_file p (pl_disk pl) = None ->
  build_from_path order fuel hash pl primary (prepared calls) = Err.
Proof. exact path_missing. Qed.
Print Assumptions C72_missing.
(** A filter that is set on a builder has no effect. *)
Theorem C72_filter_ignored : forall order fuel hash primary before q after,
  build_from_file order fuel hash primary (prepared (before ++ WithFilter q :: after)) = build_from_file order fuel hash primary (prepared (before ++ after)).
Proof.
  intros order fuel hash primary before q after. unfold build_from_file, prepared. rewrite !fold_left_app. cbn [fold_left]. generalize (fold_left called before new_builder). intros b.
  assert (K : forall b b', bl_recover b = bl_recover b' -> bl_full b = bl_full b' -> bl_logs b = bl_logs b' ->
    bl_recover (fold_left called after b) = bl_recover (fold_left called after b') /\ bl_full (fold_left called after b) = bl_full (fold_left called after b') /\ bl_logs (fold_left called after b) = bl_logs (fold_left called after b')).
  { induction after as [|c after IH]; intros b1 b2 A B C; [now repeat split|]. cbn [fold_left]. apply IH; destruct c; cbn [called bl_recover bl_full bl_logs]; congruence. }
  destruct (K (called b (WithFilter q)) b eq_refl eq_refl eq_refl) as (-> & -> & ->). reflexivity.
Qed.
Print Assumptions C72_filter_ignored.
(** A Python builder that was given paths gives the same when it builds again. *)
Theorem C72_again_partial : forall order fuel hash pl b w, objects_in (pb_primary b :: pb_logs b) = [] ->
  py_build order fuel hash pl b (snd (py_build order fuel hash pl b w)) = py_build order fuel hash pl b w.
Proof. intros order fuel hash pl b w E. now rewrite (python_kept _ _ _ _ _ _ E). Qed.
Print Assumptions C72_again_partial.
(** One that was given an object as the hive never builds a second time, whatever the
    hive and the options. *)
Theorem C72_again_refuted : forall order fuel hash pl b w i p, pb_primary b = PyFileLike i -> honest (sr_turns (w i)) ->
  fst (py_build order fuel hash pl b w) = Ok p ->
  forall order' fuel' hash' pl' b' q, pb_primary b' = PyFileLike i -> fst (py_build order' fuel' hash' pl' b' (snd (py_build order fuel hash pl b w))) <> Ok q.
Proof.
  intros order fuel hash pl b w i p E H B order' fuel' hash' pl' b' q E'. apply (python_empty _ _ _ _ _ _ i); [exact E'|]. now apply (python_spent _ _ _ _ _ _ _ p).
Qed.
Print Assumptions C72_again_refuted.

(** *** Cases *)
Definition t_place : place := mkPlace [([text "SYSTEM"], small_hive 6 5)] (fun _ => [Interrupts; Gives 1; Gives 600; Interrupts]).
Definition t_objects : objects := fun i =>
  match i with
  | 0%nat => mkStream [] (nth 0 example_logs []) [Gives 1; Gives 512]
  | 1%nat => mkStream [] (nth 1 example_logs []) [Interrupts; Interrupts]
  | _ => mkStream [] (small_hive 6 5) []
  end.
Definition t_builder : py_builder := mkPyBuilder (PyPath [text "SYSTEM"]) false [PyFileLike 0; PyFileLike 1].
Lemma give_patient : patient [Interrupts; Gives 1; Gives 600; Interrupts] /\ patient [Gives 1; Gives 512] /\ patient [Interrupts; Interrupts] /\ patient [].
Proof.
  split; [|split; [|split]]; intros t H; repeat destruct H as [<-|H]; try (now left); try (right; eexists; reflexivity); elim H.
Qed.
Example C72_python_case : NoDup (objects_in (pb_primary t_builder :: pb_logs t_builder)) /\ stands_for patient t_place t_objects (pb_primary t_builder) (small_hive 6 5)
  /\ Forall2 (stands_for patient t_place t_objects) (pb_logs t_builder) example_logs.
Proof.
  destruct give_patient as (A & B & C & D). split; [repeat constructor; cbn; intuition discriminate|]. split; [split; [reflexivity|exact A]|].
  constructor; [split; [now split|exact B]|]. constructor; [split; [now split|exact C]|constructor].
Qed.
Example C72_file_case : let log i := t_objects i in
  let calls := [RecoverDeleted true; WithTransactionLog (log 0%nat); GetFullFieldInfo true; RecoverDeleted false; WithTransactionLog (log 1%nat)] in
  recovers calls false /\ in_full calls true /\ opened_on (t_objects 2%nat) (small_hive 6 5) /\ Forall2 (fun s f => opened_on s f /\ patient (sr_turns s)) (logs_named calls) example_logs.
Proof.
  cbv zeta. destruct give_patient as (A & B & C & D). split; [|split; [|split; [now split|]]].
  - left. exists [RecoverDeleted true; WithTransactionLog (t_objects 0%nat); GetFullFieldInfo true], (RecoverDeleted false), [WithTransactionLog (t_objects 1%nat)].
    split; [reflexivity|]. split; [reflexivity|]. intros c [<-|[]]. reflexivity.
  - left. exists [RecoverDeleted true; WithTransactionLog (t_objects 0%nat)], (GetFullFieldInfo true), [RecoverDeleted false; WithTransactionLog (t_objects 1%nat)].
    split; [reflexivity|]. split; [reflexivity|]. intros c [<-|[<-|[]]]; reflexivity.
  - constructor; [split; [now split|exact B]|]. constructor; [split; [now split|exact C]|constructor].
Qed.
Example C72_missing_case : In [text "SYSTEM.LOG1"] ([text "SYSTEM"] :: logs_named [RecoverDeleted true; WithTransactionLog [text "SYSTEM.LOG1"]]) /\ read_file [text "SYSTEM.LOG1"] (pl_disk t_place) = None.
Proof. split; [right; now left|reflexivity]. Qed.
(** A failing read meets the hypotheses of the _whole theorems, and is an error. *)
Example C72_whole_case : honest [Gives 512; Fails] /\ build_from_file keep 10 no_hash (mkStream [] (small_hive 6 6) [Gives 512; Fails]) new_builder = Err.
Proof. split; [intros [H|[H|[]]]; discriminate|reflexivity]. Qed.
(** With the logs handed over as objects the second build leaves out what they say,
    and gives another parser. *)
Theorem C72_log_again_refuted : exists b w p q, objects_in [pb_primary b] = []
  /\ fst (py_build keep 10 no_hash t_place b w) = Ok p
  /\ fst (py_build keep 10 no_hash t_place b (snd (py_build keep 10 no_hash t_place b w))) = Ok q
  /\ num_at (ps_buffer p) 4 4 = 7 /\ num_at (ps_buffer q) 4 4 = 6.
Proof.
  exists t_builder, t_objects.
  assert (X : exists p, fst (py_build keep 10 no_hash t_place t_builder t_objects) = Ok p /\ num_at (ps_buffer p) 4 4 = 7).
  { refine (checked _ (fun p => num_at (ps_buffer p) 4 4 =? 7) _ _ _); [|vm_compute; reflexivity]. intros p H. now apply N.eqb_eq. }
  assert (Y : exists q, fst (py_build keep 10 no_hash t_place t_builder (snd (py_build keep 10 no_hash t_place t_builder t_objects))) = Ok q /\ num_at (ps_buffer q) 4 4 = 6).
  { refine (checked _ (fun p => num_at (ps_buffer p) 4 4 =? 6) _ _ _); [|vm_compute; reflexivity]. intros p H. now apply N.eqb_eq. }
  destruct X as (p & E & A). destruct Y as (q & F & B). exists p, q. now repeat split.
Qed.
Print Assumptions C72_log_again_refuted.
(** A reader that is not at the beginning of the hive is not set back. *)
Theorem C72_midway_refuted : exists s p, sr_before s ++ sr_after s = small_hive 6 6 /\ patient (sr_turns s)
  /\ build_from_file keep 10 no_hash s new_builder = Err
  /\ build_from_file keep 10 no_hash (mkStream [] (small_hive 6 6) []) new_builder = Ok p.
Proof.
  assert (X : exists p, build_from_file keep 10 no_hash (mkStream [] (small_hive 6 6) []) new_builder = Ok p /\ True) by (refine (checked _ (fun _ => true) _ _ _); [auto|vm_compute; reflexivity]).
  destruct X as (p & E & _). exists (mkStream (firstn 4 (small_hive 6 6)) (skipn 4 (small_hive 6 6)) []), p.
  split; [apply firstn_skipn|]. split; [intros t []|]. split; [vm_compute; reflexivity|exact E].
Qed.
Print Assumptions C72_midway_refuted.
Example C72_again_case : exists p, fst (py_build keep 10 no_hash t_place (mkPyBuilder (PyFileLike 2) false []) t_objects) = Ok p /\ True.
Proof. refine (checked _ (fun _ => true) _ _ _); [auto|vm_compute; reflexivity]. Qed.
