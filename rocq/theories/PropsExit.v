(** The property of how the tools end: statements only, with a concrete case beside
    each. The specification is ExitSpec.v (with SinkSpec.v, DiskSpec.v, FolderSpec.v). *)
From Coq Require Import String.
From Verif Require Import Base BaseFacts Types Parser TxLog Log Export Compare Folder FolderSpec FolderFacts Dump DumpFacts CompareRun CompareRunSpec Disk DiskSpec DiskFacts
  Sink SinkSpec SinkFacts Exit ExitSpec ExitFacts Demo DemoTree DemoCompare DemoExport PropsDump PropsCompareRun PropsDisk.
Open Scope string_scope.
Open Scope N_scope.
Open Scope list_scope.

(** ** C75 *)
(** One hive: whatever fails, a run that ends with success has opened the hive, with
    the logs beside it, and made its output, but for one buffer at the end. *)
Theorem C75_dump_success : forall capacity ci cut o n c input output d d', cuts cut -> NoDup (map fst d) ->
  dump_main capacity ci cut o n c input output d = Ends true d' ->
  exists b, read_file input d = Some b /\ forall logs, used_logs (ch_skip_logs c) d input logs ->
    exists x, reg_dump o n c b logs = Written x /\ nearly capacity output x d'.
Proof.
  intros capacity ci cut o n c input output d d' C ND H. assert (Z : input <> []) by (intros ->; discriminate H).
  destruct (dump_main_success _ _ _ _ _ _ _ _ _ _ C H) as (b & x & R & P & Y). exists b. split; [exact R|]. intros logs U. exists x.
  now rewrite <- (found_logs o n c d input b logs ND Z U).
Qed.
Print Assumptions C75_dump_success.
Theorem C75_compare_success : forall capacity ci cut o n c base comparison output d d', cuts cut -> NoDup (map fst d) -> aside output base -> aside output comparison ->
  compare_main capacity ci cut o n c base comparison output d = Ends true d' ->
  forall b l b' l', read_file base d = Some b -> used_logs (cc_skip_logs c) d base l -> read_file comparison d = Some b' -> used_logs (cc_skip_logs c) d comparison l' ->
  exists x, compare_pair o n c base (b, l) (b', l') = Reported x /\ nearly capacity output x d'.
Proof.
  intros capacity ci cut o n c base comparison output d d' C ND A A' H b l b' l' R U R' U'.
  assert (Z : base <> []) by (intros ->; discriminate H). assert (Z' : comparison <> []) by (intros ->; destruct base; discriminate H).
  destruct (compare_main_success _ _ _ _ _ _ _ _ _ _ _ C H) as (x & P & Y). exists x. split; [|exact Y]. rewrite <- P. unfold compare_at.
  now rewrite (given_one _ _ _ _ _ _ ND Z A R U), (given_one _ _ _ _ _ _ ND Z' A' R' U').
Qed.
Print Assumptions C75_compare_success.
(** Neither does a comparison tell of success if one of its hives is not there. *)
Theorem C75_compare_missing : forall capacity ci cut o n c base comparison output d d', cuts cut ->
  read_file base d = None \/ read_file comparison d = None -> compare_main capacity ci cut o n c base comparison output d <> Ends true d'.
Proof.
  intros capacity ci cut o n c base comparison output d d' C M H. destruct (compare_main_success _ _ _ _ _ _ _ _ _ _ _ C H) as (x & P & _). revert P.
  unfold compare_at. apply empty_pair. cbv zeta. rewrite !read_write. destruct M as [M|M]; [left|right]; rewrite M; now destruct (path_eqb _ _).
Qed.
Print Assumptions C75_compare_missing.
(** Where nothing fails outside, the end tells what became of the job. *)
Theorem C75_dump_tells : forall capacity ci cut o n c input output d b logs, cuts cut -> calm ci ->
  NoDup (map fst d) -> input <> [] -> read_file input d = Some b -> used_logs (ch_skip_logs c) d input logs ->
  match reg_dump o n c b logs with
  | Written x => exists d', dump_main capacity ci cut o n c input output d = Ends true d' /\ read_file output d' = Some x
  | NotOpened => dump_main capacity ci cut o n c input output d = Ends false d
  | GivenUp => exists d', dump_main capacity ci cut o n c input output d = Ends false d'
  | Aborted => dump_main capacity ci cut o n c input output d = Panics d output
  | Endless => dump_main capacity ci cut o n c input output d = Runs d output
  end.
Proof.
  intros capacity ci cut o n c input output d b logs C K ND Z R U. unfold dump_main. pose proof (found_logs o n c d input b logs ND Z U) as F. unfold process_file in F.
  destruct input as [|x input]; [congruence|]. rewrite R, (calm_dump _ _ _ _ _ _ _ _ C K), F. destruct (reg_dump o n c b logs); try reflexivity.
  - eexists. split; [reflexivity|]. apply read_write_same.
  - eexists. reflexivity.
Qed.
Print Assumptions C75_dump_tells.
Theorem C75_dump_missing : forall capacity ci cut o n c input output d, input <> [] -> read_file input d = None ->
  dump_main capacity ci cut o n c input output d = Ends false d.
Proof. intros capacity ci cut o n c input output d Z R. unfold dump_main. destruct input; [congruence|]. now rewrite R. Qed.
Print Assumptions C75_dump_missing.
Theorem C75_compare_tells : forall capacity ci cut o n c base comparison output d b l b' l', cuts cut -> calm ci ->
  NoDup (map fst d) -> base <> [] -> comparison <> [] -> aside output base -> aside output comparison ->
  read_file base d = Some b -> used_logs (cc_skip_logs c) d base l -> read_file comparison d = Some b' -> used_logs (cc_skip_logs c) d comparison l' ->
  match compare_pair o n c base (b, l) (b', l') with
  | Reported x => exists d', compare_main capacity ci cut o n c base comparison output d = Ends true d' /\ read_file output d' = Some x
  | Failed => exists d', compare_main capacity ci cut o n c base comparison output d = Ends false d' /\ read_file output d' = Some []
  | PairAborted => exists d', compare_main capacity ci cut o n c base comparison output d = Panics d' output
  | PairEndless => exists d', compare_main capacity ci cut o n c base comparison output d = Runs d' output
  end.
Proof.
  intros capacity ci cut o n c base comparison output d b l b' l' C K ND Z Z' A A' R U R' U'.
  assert (P : compare_at o n c base base comparison d (write_file output [] d) = compare_pair o n c base (b, l) (b', l')).
  { unfold compare_at. now rewrite (given_one _ _ _ _ _ _ ND Z A R U), (given_one _ _ _ _ _ _ ND Z' A' R' U'). }
  unfold compare_main, made_first. destruct base as [|x base]; [congruence|]. destruct comparison as [|y comparison]; [congruence|].
  destruct K as (O & S0 & K). rewrite (proj1 S0). cbv zeta. rewrite (calm_compare capacity ci cut) by (repeat split; tauto || apply S0). rewrite given_at, P.
  destruct (compare_pair o n c (x :: base) (b, l) (b', l')); cbn [put_file]; eexists; try reflexivity; (split; [reflexivity|]); apply read_write_same.
Qed.
Print Assumptions C75_compare_tells.
(** The runs with an end are those of the property C70, where nothing fails. *)
Theorem C75_as_dump : forall capacity cut o n c, cuts cut ->
  (forall ci input output d, calm ci -> untold (dump_main capacity ci cut o n c input output d) = dump_file o n c input output d)
  /\ (forall ci base out ws d, (forall w, calm (ci w)) -> untold (dump_main_folder capacity ci cut o n c base out ws d) = dump_walk o n c base out ws d).
Proof. intros capacity cut o n c C. split; intros; [now apply dump_main_as|now apply dump_folder_as]. Qed.
Print Assumptions C75_as_dump.
Theorem C75_as_compare : forall capacity cut o n c, cuts cut ->
  (forall ci base comparison output d, calm ci -> untold (compare_main capacity ci cut o n c base comparison output d) = compare_file o n c base comparison output d)
  /\ (forall ci base comparison out ws d, (forall w, calm (ci w)) ->
        untold (compare_main_folder capacity ci cut o n c base comparison out ws d) = compare_walk o n c base comparison out ws d).
Proof. intros capacity cut o n c C. split; intros; [now apply compare_main_as|now apply compare_folder_as]. Qed.
Print Assumptions C75_as_compare.
(** Over a folder, where nothing fails outside, the outputs of the hives that can be
    exported are there and whole when the run ends. *)
Theorem C75_dump_folder_partial : forall capacity ci cut o n c base out ws d f ok d', cuts cut -> (forall w, calm (ci w)) ->
  lists base d f -> walked f ws -> plain_folder f -> dump_main_folder capacity ci cut o n c base out ws d = Ends ok d' ->
  forall w b logs, In (w, b) f -> hive_file w b -> used_logs (ch_skip_logs c) f w logs -> forall x, reg_dump o n c b logs = Written x ->
  exists name, named_after w (extension_of (ch_type c)) name /\ read_file (out ++ [name]) d' = Some x.
Proof.
  intros capacity ci cut o n c base out ws d f ok d' C K L W P H w b logs I HF U x E. apply (f_equal untold) in H. rewrite (dump_folder_as _ _ _ _ _ _ _ _ _ C K) in H. cbn [untold] in H.
  destruct (proj1 (C70_dump_outputs o n c base out ws d f d' L W P H) w b logs I HF U) as (name & N0 & M). exists name. split; [exact N0|]. now rewrite E in M.
Qed.
Print Assumptions C75_dump_folder_partial.
Theorem C75_compare_folder_partial : forall capacity ci cut o n c base comparison out ws d f g ok d', cuts cut -> (forall w, calm (ci w)) ->
  lists base d f -> lists comparison d g -> walked f ws -> plain_folder f -> compare_main_folder capacity ci cut o n c base comparison out ws d = Ends ok d' ->
  forall w x y, paired (cc_skip_logs c) f g w x y -> forall r, compare_pair o n c w x y = Reported r ->
  exists name, named_after w (compare_extension c) name /\ read_file (out ++ [name]) d' = Some r.
Proof.
  intros capacity ci cut o n c base comparison out ws d f g ok d' C K L L' W P H w x y Q r E. apply (f_equal untold) in H.
  rewrite (compare_folder_as _ _ _ _ _ _ _ _ _ _ C K) in H. cbn [untold] in H.
  destruct (proj1 (C70_compare_outputs o n c base comparison out ws d f g d' L L' W P H) w x y Q) as (name & N0 & M). exists name. split; [exact N0|]. now rewrite E in M.
Qed.
Print Assumptions C75_compare_folder_partial.
(** But the end tells nothing of them: whatever fails, a run over a folder that ends
    does so with success. *)
Theorem C75_folder_always : forall capacity ci cut ok d',
  (forall o n c base out ws d, dump_main_folder capacity ci cut o n c base out ws d = Ends ok d' -> ok = true)
  /\ (forall o n c base comparison out ws d, compare_main_folder capacity ci cut o n c base comparison out ws d = Ends ok d' -> ok = true).
Proof. intros capacity ci cut ok d'. split; intros; [eapply dump_folder_success|eapply compare_folder_success]; eassumption. Qed.
Print Assumptions C75_folder_always.

Definition quiet : circumstances := mkCircumstances true (mkDevice true (fun _ => None) (fun _ => true)) true true.
Lemma quiet_calm : calm quiet. Proof. now repeat split. Qed.
Definition whole (x : list N) : list act := [Put x].
Lemma whole_cuts : cuts whole. Proof. intros x. apply app_nil_r. Qed.
Definition ends_well (q : path) (r : run_end) : bool := match r with Ends true d => match read_file q d with Some (_ :: _) => true | _ => false end | _ => false end.
Lemma ends_well_is q r : ends_well q r = true -> exists d' x, r = Ends true d' /\ read_file q d' = Some x /\ x <> [].
Proof.
  destruct r as [[|] d|d p|d p]; try discriminate. unfold ends_well. destruct (read_file q d) as [[|y x]|] eqn:E; try discriminate. intros _. exists d, (y :: x). split; [reflexivity|]. now split.
Qed.
(** The disk of PropsDisk.v, of which the hypotheses are shown there. *)
Example C75_case :
  (exists d' x, dump_main 8192 quiet whole h_out 20 (h_choices JsonlOut) [text "case"; text "SYSTEM"] [text "out"] s_disk = Ends true d' /\ read_file [text "out"] d' = Some x /\ x <> [])
  /\ (exists d' x, compare_main 8192 quiet whole k_out 20 k_choices [text "case"; text "SYSTEM"] [text "old"; text "SYSTEM"] [text "out"] s_disk = Ends true d'
        /\ read_file [text "out"] d' = Some x /\ x <> [])
  /\ (exists d' x, dump_main_folder 8192 (fun _ => quiet) whole h_out 20 (h_choices JsonlOut) [text "case"] [text "case"] s_walk s_disk = Ends true d'
        /\ read_file [text "case"; text "SYSTEM.jsonl"] d' = Some x /\ x <> [])
  /\ (exists d' x, compare_main_folder 8192 (fun _ => quiet) whole k_out 20 k_choices [text "case"] [text "old"] [text "case"] s_walk s_disk = Ends true d'
        /\ read_file [text "case"; text "SYSTEM.txt"] d' = Some x /\ x <> []).
Proof. split; [|split; [|split]]; apply ends_well_is; vm_compute; reflexivity. Qed.
(** A hive that cannot be opened, and an earlier export beside it. *)
Definition b_disk : folder := [([text "SYSTEM"], [1; 2; 3]); ([text "SYSTEM.jsonl"], [7])].
Example C75_broken : dump_main 8192 quiet whole h_out 20 (h_choices JsonlOut) [text "SYSTEM"] [text "SYSTEM.jsonl"] b_disk = Ends false b_disk
  /\ exists d', compare_main 8192 quiet whole k_out 20 k_choices [text "SYSTEM"] [text "SYSTEM"] [text "out"] b_disk = Ends false d' /\ read_file [text "out"] d' = Some [].
Proof. split; [vm_compute; reflexivity|]. eexists. split; vm_compute; reflexivity. Qed.
(** That a run over a folder ends with success only if the job was done is false: a
    hive could not be opened, what an earlier run left passes for its export; a
    comparison failed and its report is empty. *)
Theorem C75_folder_refuted :
  (exists capacity ci cut o n c base out ws d f d' w b name, cuts cut /\ (forall w, calm (ci w)) /\ lists base d f /\ In (w, b) f /\ hive_file w b /\ reg_dump o n c b [] = NotOpened
     /\ named_after w (extension_of (ch_type c)) name /\ dump_main_folder capacity ci cut o n c base out ws d = Ends true d' /\ read_file (out ++ [name]) d' = Some [7])
  /\ (exists capacity ci cut o n c base comparison out ws d f d' w b name, cuts cut /\ (forall w, calm (ci w)) /\ lists base d f /\ In (w, b) f /\ hive_file w b
     /\ compare_pair o n c w (b, []) (b, []) = Failed
     /\ named_after w (compare_extension c) name /\ compare_main_folder capacity ci cut o n c base comparison out ws d = Ends true d' /\ read_file (out ++ [name]) d' = Some []).
Proof.
  assert (L : lists [] b_disk b_disk).
  { assert (ND : NoDup (map fst b_disk)) by (unfold b_disk; cbn [map fst]; repeat (constructor; [vm_compute; intuition discriminate|]); constructor).
    split; [exact ND|]. intros w b. cbn [app]. split.
    - intros I. split; [|now apply (StoreFacts.in_aget path_eqb path_eqb_eq)]. intros ->. destruct I as [I|[I|[]]]; discriminate I.
    - intros (_ & R). now apply (StoreFacts.aget_in path_eqb path_eqb_eq). }
  split.
  - exists 8192, (fun _ => quiet), whole, h_out, 20%nat, (h_choices JsonlOut), [], [], [[text "SYSTEM"]], b_disk, b_disk, b_disk, [text "SYSTEM"], [1; 2; 3], (text "SYSTEM.jsonl").
    split; [exact whole_cuts|]. split; [intros _; exact quiet_calm|]. split; [exact L|]. split; [now left|]. split; [now apply hive_iff|]. split; [vm_compute; reflexivity|].
    split; [exists [], (text "SYSTEM"), (text "SYSTEM"); split; [reflexivity|]; split; [vm_compute; intuition discriminate|]; split; [now left|reflexivity]|]. split; vm_compute; reflexivity.
  - exists 8192, (fun _ => quiet), whole, k_out, 20%nat, k_choices, [], [], [], [[text "SYSTEM"]], b_disk, b_disk, (b_disk ++ [([text "SYSTEM.txt"], [])]), [text "SYSTEM"], [1; 2; 3], (text "SYSTEM.txt").
    split; [exact whole_cuts|]. split; [intros _; exact quiet_calm|]. split; [exact L|]. split; [now left|]. split; [now apply hive_iff|]. split; [vm_compute; reflexivity|].
    split; [exists [], (text "SYSTEM"), (text "SYSTEM"); split; [reflexivity|]; split; [vm_compute; intuition discriminate|]; split; [now left|reflexivity]|]. split; vm_compute; reflexivity.
Qed.
Print Assumptions C75_folder_refuted.
