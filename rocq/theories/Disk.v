(** Model of the runs of the two tools on a disk: bin/reg_dump/main.rs and
    bin/reg_compare.rs with the files they read and write in one place. A disk is
    the list of its files, each with its whole path (its components) and its bytes.
    Errors of the file system, links, and names that differ in case only but mean
    one file are not modelled; the folder for the outputs is there. *)
From Coq Require Import String.
From Verif Require Import Base Util Types Value Node Recover Parser TxLog Log Export Compare Folder Dump CompareRun.
Open Scope string_scope.
Open Scope N_scope.
Open Scope list_scope.

(** [File::create] with what is written to it (std): the file is made, or what it
    held is dropped. *)
Definition write_file (p : path) (bytes : list N) (d : folder) : folder := aset path_eqb p bytes d.
(** What a file holds; a file that is not there has no size. *)
Definition contents (p : path) (d : folder) : list N := match read_file p d with Some bytes => bytes | None => [] end.

(** How a run ends, with what is then on the disk: it goes through; it aborts, or
    never ends, while it makes the output at [output], of which nothing is said. *)
Inductive disk_run :=
| Through (d : folder)
| Broken (d : folder) (output : path)
| Stuck (d : folder) (output : path).

(** [process_file], bin/reg_dump/main.rs:132-158: [Path::file_name] of an empty path
    is unwrapped. A file that is not there is an error (src/parser_builder.rs:60-70).
    The output is created when the hive has been read. *)
Definition dump_file (o : outside) (n : nat) (c : choices) (input output : path) (d : folder) : disk_run :=
  match input with
  | [] => Broken d output
  | _ =>
      match read_file input d with
      | None => Through d
      | Some bytes =>
          match process_file o n c d input bytes with
          | NotOpened => Through d
          | Written out => Through (write_file output out d)
          | GivenUp => Through (write_file output (os_left o) d)
          | Aborted => Broken d output
          | Endless => Stuck d output
          end
      end
  end.
(** [process_folder], bin/reg_dump/main.rs:160-210. [ws] is what [WalkDir] gives: the
    paths, from [base] on, of files; some may have been made by the run itself. *)
Fixpoint dump_walk (o : outside) (n : nat) (c : choices) (base out : path) (ws : list path) (d : folder) : disk_run :=
  match ws with
  | [] => Through d
  | w :: ws =>
      if is_reg_file w && file_has_size (contents (base ++ w) d) then
        let output := out ++ [get_outpath w (extension_of (ch_type c))] in
        match process_file o n c d (base ++ w) (contents (base ++ w) d) with
        | NotOpened => dump_walk o n c base out ws d
        | Written x => dump_walk o n c base out ws (write_file output x d)
        | GivenUp => dump_walk o n c base out ws (write_file output (os_left o) d)
        | Aborted => Broken d output
        | Endless => Stuck d output
        end
      else dump_walk o n c base out ws d
  end.

(** [get_log_files], src/cli_util.rs:62-73, as paths: the logs that are there. *)
Definition log_paths (skip_logs : bool) (d : folder) (p : path) : list path :=
  if skip_logs then []
  else List.filter (fun q => match read_file q d with Some _ => true | None => false end)
         (map (fun e => removelast p ++ [get_log_name (List.last p []) (text e)]) ["LOG1"; "LOG2"]).
(** [reg_compare], bin/reg_compare.rs:230-261: which logs there are is looked up
    first ([d]); then the output is created, and only then are the hives and the logs
    read ([d1]). A hive that is not there is an error, as an empty one without logs
    is. [w] is the path that names the pair in the report. *)
Definition compare_at (o : compare_outside) (n : nat) (c : compare_choices) (w base comparison : path) (d d1 : folder) : pair_outcome :=
  let given p := match read_file p d1 with
                 | Some bytes => (bytes, map (fun q => contents q d1) (log_paths (cc_skip_logs c) d p))
                 | None => ([], [])
                 end in
  compare_pair o n c w (given base) (given comparison).
(** [process_files], bin/reg_compare.rs:117-148. *)
Definition compare_file (o : compare_outside) (n : nat) (c : compare_choices) (base comparison output : path) (d : folder) : disk_run :=
  match base, comparison with
  | [], _ | _, [] => Broken d output
  | _, _ =>
      let d1 := write_file output [] d in
      match compare_at o n c base base comparison d d1 with
      | Reported x => Through (write_file output x d1)
      | Failed => Through d1
      | PairAborted => Broken d1 output
      | PairEndless => Stuck d1 output
      end
  end.
(** [process_folders], bin/reg_compare.rs:150-213. *)
Fixpoint compare_walk (o : compare_outside) (n : nat) (c : compare_choices) (base comparison out : path) (ws : list path) (d : folder) : disk_run :=
  match ws with
  | [] => Through d
  | w :: ws =>
      if is_reg_file w && file_has_size (contents (base ++ w) d) && file_has_size (contents (comparison ++ w) d) then
        let output := out ++ [get_outpath w (compare_extension c)] in
        let d1 := write_file output [] d in
        match compare_at o n c w (base ++ w) (comparison ++ w) d d1 with
        | Reported x => compare_walk o n c base comparison out ws (write_file output x d1)
        | Failed => compare_walk o n c base comparison out ws d1
        | PairAborted => Broken d1 output
        | PairEndless => Stuck d1 output
        end
      else compare_walk o n c base comparison out ws d
  end.
