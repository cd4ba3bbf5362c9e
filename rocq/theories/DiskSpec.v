(** What a run of one of the tools on a disk is expected to leave. *)
From Coq Require Import String.
From Verif Require Import Base Types Log Folder FolderSpec Dump Disk.
Open Scope string_scope.
Open Scope N_scope.
Open Scope list_scope.

(** The disk when a run has ended, in whatever way. *)
Definition left_on (r : disk_run) : folder := match r with Through d | Broken d _ | Stuck d _ => d end.
(** What an investigator keeps: files with the name of a hive or of a log. *)
Definition evidence (q : path) : Prop :=
  exists dirs name, q = dirs ++ [name] /\ ((exists n, In n hive_names /\ same_name name n) \/ is_log name).
(** Two disks hold the same files but for those named [.extension] in one folder. *)
Definition same_but (out : path) (extension : list N) (d d' : folder) : Prop :=
  forall q, (forall stem, q <> out ++ [stem ++ [46] ++ extension]) -> read_file q d' = read_file q d.
(** [f] holds the files below [base], with their paths from there. *)
Definition lists (base : path) (d f : folder) : Prop :=
  NoDup (map fst f) /\ forall w b, In (w, b) f <-> w <> [] /\ read_file (base ++ w) d = Some b.
(** The paths walked: each file there was, once, and maybe others. *)
Definition walked (f : folder) (ws : list path) : Prop := NoDup ws /\ forall w b, In (w, b) f -> In w ws.
(** The disk [d'] is [d] with the outputs [outs] put in the folder [out]. *)
Definition laid (out : path) (d : folder) (outs : amap (list N) (list N)) (d' : folder) : Prop :=
  (forall name, read_file (out ++ [name]) d' = match output outs name with Some b => Some b | None => read_file (out ++ [name]) d end)
  /\ (forall q, (forall name, q <> out ++ [name]) -> read_file q d' = read_file q d).
(** A run on the disk ends as a run over folders does, with the same outputs. Of the
    output at which a run is broken or stuck nothing is said. *)
Definition ends_as (out : path) (d : folder) (r : disk_run) (s : run) : Prop :=
  match r, s with
  | Through d', Finished outs => laid out d outs d'
  | Broken d' q, Stopped outs | Stuck d' q, Hanging outs =>
      exists d2, laid out d outs d2 /\ forall p, p <> q -> read_file p d' = read_file p d2
  | _, _ => False
  end.
(** The output of a comparison is none of the files of one side: not the hive, not a
    log beside it. *)
Definition aside (output p : path) : Prop :=
  output <> p /\ forall dirs name e, p = dirs ++ [name] -> e = "LOG1" \/ e = "LOG2" -> output <> dirs ++ [log_of name (text e)].
