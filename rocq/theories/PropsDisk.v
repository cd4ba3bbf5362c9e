(** The property of what a run of a tool leaves on the disk: statements only, with a
    concrete case beside each. The specification is DiskSpec.v (with FolderSpec.v). *)
From Coq Require Import String.
From Verif Require Import Base BaseFacts Util UtilSpec UtilText LayoutSpec BaseBlock Types Value Node Recover Parser TxLog Log Export ExportSpec Compare Folder FolderSpec FolderFacts
  Dump CompareRun CompareRunSpec Disk DiskSpec DiskFacts Demo DemoCell DemoTree DemoCompare DemoExport PropsTree PropsExport PropsJson PropsDump PropsCompareRun.
Open Scope string_scope.
Open Scope N_scope.
Open Scope list_scope.

(** ** C70 *)
(** Whatever is walked and however the run ends, each file is as it was but for those
    in the output folder with the extension of the outputs. *)
Theorem C70_dump_keeps : forall o n c base out ws d, same_but out (extension_of (ch_type c)) d (left_on (dump_walk o n c base out ws d)).
Proof. exact dump_keeps. Qed.
Print Assumptions C70_dump_keeps.
Theorem C70_compare_keeps : forall o n c base comparison out ws d, same_but out (compare_extension c) d (left_on (compare_walk o n c base comparison out ws d)).
Proof. exact compare_keeps. Qed.
Print Assumptions C70_compare_keeps.
(** So no hive and no log is ever changed, even when the outputs go into a folder that
    is walked, and the output that a run does not finish is neither. *)
Theorem C70_evidence : forall q, evidence q ->
  (forall o n c base out ws d, read_file q (left_on (dump_walk o n c base out ws d)) = read_file q d
     /\ match dump_walk o n c base out ws d with Through _ => True | Broken _ p | Stuck _ p => p <> q end)
  /\ (forall o n c base comparison out ws d, read_file q (left_on (compare_walk o n c base comparison out ws d)) = read_file q d
     /\ match compare_walk o n c base comparison out ws d with Through _ => True | Broken _ p | Stuck _ p => p <> q end).
Proof.
  intros q E. split; intros; split.
  - exact (same_evidence _ _ _ _ _ (dump_ext _) (dump_keeps o n c base out ws d) E).
  - pose proof (dump_stops o n c base out ws d) as S0. pose proof (evidence_quiet out _ q (dump_ext (ch_type c)) E) as Q.
    destruct (dump_walk _ _ _ _ _ _ _); [exact I|..]; destruct S0 as (s & ->); apply not_eq_sym, Q.
  - exact (same_evidence _ _ _ _ _ (compare_ext _) (compare_keeps o n c base comparison out ws d) E).
  - pose proof (compare_stops o n c base comparison out ws d) as S0. pose proof (evidence_quiet out _ q (compare_ext c) E) as Q.
    destruct (compare_walk _ _ _ _ _ _ _ _); [exact I|..]; destruct S0 as (s & ->); apply not_eq_sym, Q.
Qed.
Print Assumptions C70_evidence.
(** A run that goes through leaves the output of each hive there was under its own
    name, made of what the hive and its logs held before the run, wherever the output
    folder is; nothing else is changed. *)
Theorem C70_dump_outputs : forall o n c base out ws d f d', lists base d f -> walked f ws -> plain_folder f -> dump_walk o n c base out ws d = Through d' ->
  (forall w b logs, In (w, b) f -> hive_file w b -> used_logs (ch_skip_logs c) f w logs -> exists name, named_after w (extension_of (ch_type c)) name
     /\ match reg_dump o n c b logs with
        | NotOpened => read_file (out ++ [name]) d' = read_file (out ++ [name]) d
        | Written x => read_file (out ++ [name]) d' = Some x
        | GivenUp => read_file (out ++ [name]) d' = Some (os_left o)
        | Aborted | Endless => False
        end)
  /\ (forall q, read_file q d' <> read_file q d -> exists w b name, In (w, b) f /\ hive_file w b /\ named_after w (extension_of (ch_type c)) name /\ q = out ++ [name]).
Proof. exact dump_disk. Qed.
Print Assumptions C70_dump_outputs.
Theorem C70_compare_outputs : forall o n c base comparison out ws d f g d', lists base d f -> lists comparison d g -> walked f ws -> plain_folder f ->
  compare_walk o n c base comparison out ws d = Through d' ->
  (forall w x y, paired (cc_skip_logs c) f g w x y -> exists name, named_after w (compare_extension c) name
     /\ match compare_pair o n c w x y with
        | Reported r => read_file (out ++ [name]) d' = Some r
        | Failed => read_file (out ++ [name]) d' = Some []
        | PairAborted | PairEndless => False
        end)
  /\ (forall q, read_file q d' <> read_file q d -> exists w x y name, paired (cc_skip_logs c) f g w x y /\ named_after w (compare_extension c) name /\ q = out ++ [name]).
Proof. exact compare_disk. Qed.
Print Assumptions C70_compare_outputs.
(** A run ends as the run over the files there were does (the properties C67 and C69),
    also when it aborts or does not end. *)
Theorem C70_dump_as : forall o n c base out ws d f, lists base d f -> walked f ws ->
  exists f', lists base d f' /\ ends_as out d (dump_walk o n c base out ws d) (dump_folder o n c f' []).
Proof. exact dump_ends_as. Qed.
Print Assumptions C70_dump_as.
Theorem C70_compare_as : forall o n c base comparison out ws d f g, lists base d f -> lists comparison d g -> walked f ws ->
  exists f', lists base d f' /\ ends_as out d (compare_walk o n c base comparison out ws d) (compare_folders o n c f' g []).
Proof. exact compare_ends_as. Qed.
Print Assumptions C70_compare_as.

(** One file: only the output is changed; it is what the hive and the logs beside it
    give. *)
Theorem C70_one_keeps : forall output q, q <> output ->
  (forall o n c input d, read_file q (left_on (dump_file o n c input output d)) = read_file q d)
  /\ (forall o n c base comparison d, read_file q (left_on (compare_file o n c base comparison output d)) = read_file q d).
Proof. intros output q Q. split; intros; [now apply dump_file_keeps|now apply compare_file_keeps]. Qed.
Print Assumptions C70_one_keeps.
Theorem C70_dump_one : forall o n c input output d b logs, NoDup (map fst d) -> input <> [] -> read_file input d = Some b -> used_logs (ch_skip_logs c) d input logs ->
  match reg_dump o n c b logs with
  | NotOpened => dump_file o n c input output d = Through d
  | Written x => exists d', dump_file o n c input output d = Through d' /\ read_file output d' = Some x
  | GivenUp => exists d', dump_file o n c input output d = Through d' /\ read_file output d' = Some (os_left o)
  | Aborted => exists d', dump_file o n c input output d = Broken d' output
  | Endless => exists d', dump_file o n c input output d = Stuck d' output
  end.
Proof.
  intros o n c input output d b logs ND Z R U. rewrite (dump_one o n c input output d b logs ND Z R U).
  destruct (reg_dump o n c b logs); try reflexivity; eexists; split || reflexivity; try reflexivity; apply read_write_same.
Qed.
Print Assumptions C70_dump_one.
Theorem C70_compare_one : forall o n c base comparison output d b l b' l', NoDup (map fst d) -> base <> [] -> comparison <> [] -> aside output base -> aside output comparison ->
  read_file base d = Some b -> used_logs (cc_skip_logs c) d base l -> read_file comparison d = Some b' -> used_logs (cc_skip_logs c) d comparison l' ->
  match compare_pair o n c base (b, l) (b', l') with
  | Reported x => exists d', compare_file o n c base comparison output d = Through d' /\ read_file output d' = Some x
  | Failed => exists d', compare_file o n c base comparison output d = Through d' /\ read_file output d' = Some []
  | PairAborted => exists d', compare_file o n c base comparison output d = Broken d' output
  | PairEndless => exists d', compare_file o n c base comparison output d = Stuck d' output
  end.
Proof.
  intros o n c base comparison output d b l b' l' ND Z Z' A A' R U R' U'. rewrite (compare_one o n c base comparison output d b l b' l' ND Z Z' A A' R U R' U').
  cbv zeta. destruct (compare_pair _ _ _ _ _ _); eexists; split || reflexivity; try reflexivity; apply read_write_same.
Qed.
Print Assumptions C70_compare_one.

(** A disk with a hive, its log and its output all in one folder, and a copy of the
    hive elsewhere; the run meets its own output. *)
Definition s_disk : folder :=
  [([text "case"; text "SYSTEM"], bare_hive); ([text "case"; text "SYSTEM.LOG1"], [1; 2; 3]); ([text "case"; text "notes.txt"], [7]); ([text "old"; text "SYSTEM"], slash_hive)].
Definition s_case : folder := [([text "SYSTEM"], bare_hive); ([text "SYSTEM.LOG1"], [1; 2; 3]); ([text "notes.txt"], [7])].
Definition s_old : folder := [([text "SYSTEM"], slash_hive)].
Definition s_walk : list path := [[text "notes.txt"]; [text "SYSTEM"]; [text "SYSTEM.jsonl"]; [text "SYSTEM.LOG1"]].
Lemma s_lists base f : NoDup (map fst f) -> (forall w b, In (w, b) f -> w <> [] /\ read_file (base ++ w) s_disk = Some b) ->
  (forall q b, In (q, b) s_disk -> (exists w, q = base ++ w /\ In (w, b) f) \/ forall w, q = base ++ w -> False) -> lists base s_disk f.
Proof.
  intros ND A B. split; [exact ND|]. intros w b. split; [apply A|]. intros (Z & R). apply (StoreFacts.aget_in path_eqb path_eqb_eq) in R.
  destruct (B _ _ R) as [(v & E & I)|F]; [|now elim (F w)]. apply app_inv_head in E. now subst v.
Qed.
Example C70_disk : lists [text "case"] s_disk s_case /\ lists [text "old"] s_disk s_old /\ walked s_case s_walk /\ plain_folder s_case.
Proof.
  split; [|split; [|split]].
  - apply s_lists.
    + unfold s_case. cbn [map fst]. repeat (constructor; [vm_compute; intuition discriminate|]). constructor.
    + unfold s_case. cbn [In]. intros w b I. destruct I as [I|[I|[I|[]]]]; apply pair_equal_spec in I as (<- & <-); (split; [discriminate|reflexivity]).
    + unfold s_disk, s_case. cbn [In]. intros q b I. destruct I as [I|[I|[I|[I|[]]]]]; apply pair_equal_spec in I as (<- & <-).
      * left. exists [text "SYSTEM"]. split; [reflexivity|]. now left.
      * left. exists [text "SYSTEM.LOG1"]. split; [reflexivity|]. right. now left.
      * left. exists [text "notes.txt"]. split; [reflexivity|]. right. right. now left.
      * right. intros w E. apply (f_equal (hd [])) in E. vm_compute in E. discriminate E.
  - apply s_lists.
    + repeat constructor. intros [].
    + intros w b [I|[]]. apply pair_equal_spec in I as (<- & <-). split; [discriminate|reflexivity].
    + unfold s_disk, s_old. cbn [In]. intros q b I. destruct I as [I|[I|[I|[I|[]]]]]; apply pair_equal_spec in I as (<- & <-);
        [right; intros w E; apply (f_equal (hd [])) in E; vm_compute in E; discriminate E..|].
      left. exists [text "SYSTEM"]. split; [reflexivity|]. now left.
  - split.
    + unfold s_walk. repeat (constructor; [vm_compute; intuition discriminate|]). constructor.
    + unfold s_case, s_walk. cbn [In]. intros w b I. destruct I as [I|[I|[I|[]]]]; apply (f_equal fst) in I; cbn [fst] in I; rewrite <- I; tauto.
  - assert (X : forall p b, In (p, b) s_case -> hive_file p b -> p = [text "SYSTEM"]).
    { intros p b I H. apply hive_iff, andb_true_iff, proj1 in H. apply (in_map fst) in I. unfold s_case in I. cbn [map fst In] in I.
      destruct I as [<-|[<-|[<-|[]]]]; [reflexivity|vm_compute in H; discriminate H..]. }
    split; [|split].
    + unfold s_case. cbn [map fst]. repeat (constructor; [vm_compute; intuition discriminate|]). constructor.
    + intros p b I H dirs name E. rewrite (X p b I H) in E. destruct dirs as [|x [|y dirs]]; [constructor|discriminate E..].
    + intros dirs n1 n2 b1 b2 I1 I2 H1 H2 _. pose proof (X _ _ I1 H1) as E1. pose proof (X _ _ I2 H2) as E2. rewrite <- E2 in E1. now apply snoc_inj in E1.
Qed.
Lemma told {A} (x : A) (c : A -> bool) (P : A -> Prop) : (forall a, c a = true -> P a) -> c x = true -> P x.
Proof. auto. Qed.
Definition through (r : disk_run) : bool := match r with Through _ => true | _ => false end.
Definition holds_some (q : path) (r : disk_run) : bool := match read_file q (left_on r) with Some (_ :: _) => true | _ => false end.
Lemma through_is r : through r = true -> exists d', r = Through d'. Proof. destruct r; try discriminate. intros _. now exists d. Qed.
Lemma holds_some_is q r : holds_some q r = true -> exists x, read_file q (left_on r) = Some x /\ x <> [].
Proof. unfold holds_some. destruct (read_file q (left_on r)) as [[|x l]|]; try discriminate. intros _. exists (x :: l). now split. Qed.
(** The dump goes into the folder it reads, the report of a comparison as well. *)
Example C70_dump_case : read_file [text "case"; text "SYSTEM.jsonl"] s_disk = None
  /\ exists d' x, dump_walk h_out 20 (h_choices JsonlOut) [text "case"] [text "case"] s_walk s_disk = Through d'
     /\ read_file [text "case"; text "SYSTEM.jsonl"] d' = Some x /\ x <> [].
Proof.
  split; [reflexivity|]. pattern (dump_walk h_out 20 (h_choices JsonlOut) [text "case"] [text "case"] s_walk s_disk).
  apply (told _ (fun r => through r && holds_some [text "case"; text "SYSTEM.jsonl"] r)); [|vm_compute; reflexivity]. cbv beta. intros r H. apply andb_true_iff in H as (A & B). apply through_is in A as (d' & ->). apply holds_some_is in B as (x & B). now exists d', x.
Qed.
Example C70_compare_case : exists d' x, compare_walk k_out 20 k_choices [text "case"] [text "old"] [text "case"] s_walk s_disk = Through d'
  /\ read_file [text "case"; text "SYSTEM.txt"] d' = Some x /\ x <> [].
Proof.
  pattern (compare_walk k_out 20 k_choices [text "case"] [text "old"] [text "case"] s_walk s_disk).
  apply (told _ (fun r => through r && holds_some [text "case"; text "SYSTEM.txt"] r)); [|vm_compute; reflexivity]. cbv beta. intros r H. apply andb_true_iff in H as (A & B). apply through_is in A as (d' & ->). apply holds_some_is in B as (x & B). now exists d', x.
Qed.
Example C70_evidence_case : evidence [text "case"; text "SYSTEM"] /\ evidence [text "case"; text "SYSTEM.LOG1"].
Proof.
  split; [exists [text "case"], (text "SYSTEM")|exists [text "case"], (text "SYSTEM.LOG1")]; (split; [reflexivity|]).
  - left. exists (text "SYSTEM"). split; [vm_compute; tauto|]. now apply to_lower_same.
  - right. exists (text "SYSTEM"), (text ".LOG1"). split; [reflexivity|]. left. apply to_lower_same. vm_compute. reflexivity.
Qed.
Example C70_one_case : NoDup (map fst s_disk) /\ used_logs false s_disk [text "case"; text "SYSTEM"] [[1; 2; 3]] /\ used_logs false s_disk [text "old"; text "SYSTEM"] []
  /\ aside [text "case"; text "report"] [text "case"; text "SYSTEM"] /\ aside [text "case"; text "report"] [text "old"; text "SYSTEM"].
Proof.
  split; [|split; [|split; [|split]]].
  - unfold s_disk. cbn [map fst]. repeat (constructor; [vm_compute; intuition discriminate|]). constructor.
  - exists [text "case"], (text "SYSTEM"), [[1; 2; 3]], []. split; [reflexivity|]. split; [|split; [|reflexivity]].
    + constructor. right. now left.
    + constructor. unfold s_disk. cbn [map fst]. vm_compute. intuition discriminate.
  - exists [text "old"], (text "SYSTEM"), [], []. split; [reflexivity|]. split; [|split; [|reflexivity]]; constructor; unfold s_disk; cbn [map fst]; vm_compute; intuition discriminate.
  - split; [vm_compute; discriminate|]. intros dirs name e E H. change [text "case"; text "SYSTEM"] with ([text "case"] ++ [text "SYSTEM"]) in E. apply snoc_inj in E as (<- & <-).
    destruct H as [-> | ->]; vm_compute; discriminate.
  - split; [vm_compute; discriminate|]. intros dirs name e E H. change [text "old"; text "SYSTEM"] with ([text "old"] ++ [text "SYSTEM"]) in E. apply snoc_inj in E as (<- & <-).
    destruct H as [-> | ->]; vm_compute; discriminate.
Qed.

(** With one file as input and the same as output the evidence is lost. A comparison
    whose output is one of its two hives empties that hive, always, and there is no
    report. *)
Theorem C70_compare_over : forall o n c base comparison output d, base <> [] -> comparison <> [] -> output = base \/ output = comparison ->
  read_file output (left_on (compare_file o n c base comparison output d)) = Some [].
Proof. exact compare_over. Qed.
Print Assumptions C70_compare_over.
Theorem C70_over_refuted :
  (exists o n c p d b, evidence p /\ read_file p d = Some b /\ read_file p (left_on (dump_file o n c p p d)) <> Some b)
  /\ (exists o n c p q d b, evidence p /\ read_file p d = Some b /\ read_file p (left_on (compare_file o n c p q p d)) <> Some b).
Proof.
  split.
  - exists h_out, 20%nat, (h_choices JsonlOut), [text "case"; text "SYSTEM"], s_disk, bare_hive. split; [apply C70_evidence_case|]. split; [reflexivity|].
    pattern (dump_file h_out 20 (h_choices JsonlOut) [text "case"; text "SYSTEM"] [text "case"; text "SYSTEM"] s_disk).
    apply (told _ (fun r => match read_file [text "case"; text "SYSTEM"] (left_on r) with Some (x :: _) => negb (x =? 114) | _ => true end)); [|vm_compute; reflexivity].
    cbv beta. intros r H E. rewrite E in H. vm_compute in H. discriminate H.
  - exists k_out, 20%nat, k_choices, [text "case"; text "SYSTEM"], [text "old"; text "SYSTEM"], s_disk, bare_hive. split; [apply C70_evidence_case|]. split; [reflexivity|].
    rewrite C70_compare_over by (discriminate || now left). intros E. injection E as E. apply (f_equal (@List.length _)) in E. vm_compute in E. discriminate E.
Qed.
Print Assumptions C70_over_refuted.
