(** Model of how the tools end: what [main] returns, bin/reg_dump/main.rs:40-130 and
    bin/reg_compare.rs:44-112, and what is on the disk then, when disk and console may
    fail. An error that [main] returns ends the process with status 1, a panic with
    101 (std). *)
From Verif Require Import Base Types Parser TxLog Export Json Compare Folder Dump CompareRun Disk Sink.
Open Scope N_scope.
Open Scope list_scope.

(** What the surroundings do while one hive or pair is handled: whether the messages
    while the hive is opened go out (src/parser.rs:284, src/transaction_log.rs:232),
    and the message before the output is made (bin/reg_dump/main.rs:248); what happens
    to the output; whether the last message goes out (main.rs:259); and whether
    [println!] succeeds: it panics if not (std). A failing message is taken to be the
    first thing that happens. *)
Record circumstances := mkCircumstances {
  ci_opening : bool;
  ci_device : device;
  ci_last : bool;
  ci_prints : bool
}.
(** How a run ends: [main] returns, with success or an error; it panics; it does not
    end. Of the output at which a run was broken off nothing is said. *)
Inductive run_end :=
| Ends (success : bool) (d : folder)
| Panics (d : folder) (output : path)
| Runs (d : folder) (output : path).
Definition put_file (output : path) (file : option (list N)) (d : folder) : folder :=
  match file with Some x => write_file output x d | None => d end.

(** [reg_dump], bin/reg_dump/main.rs:228-261. The writers are dropped, and with them
    the files closed, before the last message. *)
Definition dump_told (capacity : N) (ci : circumstances) (cut : list N -> list act) (o : outside) (n : nat) (c : choices) (buffer : list N) (logs : list (list N)) : told :=
  if ci_opening ci then
    match dump_to capacity (ci_device ci) cut o n c buffer logs with
    | Tells true file => Tells (ci_last ci) file
    | t => t
    end
  else Tells false None.
(** [process_file], bin/reg_dump/main.rs:132-158, as the last expression of [main]. *)
Definition dump_main (capacity : N) (ci : circumstances) (cut : list N -> list act) (o : outside) (n : nat) (c : choices) (input output : path) (d : folder) : run_end :=
  match input with
  | [] => Panics d output
  | _ =>
      match read_file input d with
      | None => Ends false d
      | Some bytes =>
          match dump_told capacity ci cut o n c bytes (match get_log_files (ch_skip_logs c) d input with Some l => l | None => [] end) with
          | Tells ok file => Ends ok (put_file output file d)
          | ToldAborted => Panics d output
          | ToldEndless => Runs d output
          end
      end
  end.
(** [process_folder], bin/reg_dump/main.rs:160-210, as the last expression of [main]:
    the result of [reg_dump] is dropped ([let _]), and [Ok] is returned.
    [file_has_size] prints a line for an empty file (src/cli_util.rs:75-83). [ci] is
    what happens at each of the files. *)
Fixpoint dump_main_folder (capacity : N) (ci : path -> circumstances) (cut : list N -> list act) (o : outside) (n : nat) (c : choices) (base out : path) (ws : list path) (d : folder) : run_end :=
  match ws with
  | [] => Ends true d
  | w :: ws =>
      let output := out ++ [get_outpath w (extension_of (ch_type c))] in
      if is_reg_file w then
        let bytes := contents (base ++ w) d in
        if file_has_size bytes then
          match dump_told capacity (ci w) cut o n c bytes (match get_log_files (ch_skip_logs c) d (base ++ w) with Some l => l | None => [] end) with
          | Tells _ file => dump_main_folder capacity ci cut o n c base out ws (put_file output file d)
          | ToldAborted => Panics d output
          | ToldEndless => Runs d output
          end
        else if ci_prints (ci w) then dump_main_folder capacity ci cut o n c base out ws d
        else Panics d output
      else dump_main_folder capacity ci cut o n c base out ws d
  end.

(** What [reg_compare], bin/reg_compare.rs:230-365, is given: which logs there are is
    looked up in [d], hives and logs are read from [d1] (see Disk.v). *)
Definition given_pair (c : compare_choices) (base comparison : path) (d d1 : folder) : (list N * list (list N)) * (list N * list (list N)) :=
  let given p := match read_file p d1 with
                 | Some bytes => (bytes, map (fun q => contents q d1) (log_paths (cc_skip_logs c) d p))
                 | None => ([], [])
                 end in
  (given base, given comparison).
(** It makes the output and prints a line before anything else; the lines it prints
    later (reg_compare.rs:651, 655) are taken to go out if that one does. *)
Definition compare_told (capacity : N) (ci : circumstances) (cut : list N -> list act) (o : compare_outside) (n : nat) (c : compare_choices) (w : path)
    (pair : (list N * list (list N)) * (list N * list (list N))) : told :=
  if dv_creates (ci_device ci) then
    if ci_prints ci then compare_to capacity (ci_device ci) cut o n c w (fst pair) (snd pair)
    else ToldAborted
  else Tells false None.
(** The disk when the hives are read: the output, if it could be made, is empty. *)
Definition made_first (ci : circumstances) (output : path) (d : folder) : folder :=
  if dv_creates (ci_device ci) then write_file output [] d else d.
(** [process_files], bin/reg_compare.rs:117-148, as the last expression of [main]. *)
Definition compare_main (capacity : N) (ci : circumstances) (cut : list N -> list act) (o : compare_outside) (n : nat) (c : compare_choices) (base comparison output : path) (d : folder) : run_end :=
  match base, comparison with
  | [], _ | _, [] => Panics d output
  | _, _ =>
      let d1 := made_first ci output d in
      match compare_told capacity ci cut o n c base (given_pair c base comparison d d1) with
      | Tells ok file => Ends ok (put_file output file d1)
      | ToldAborted => Panics d1 output
      | ToldEndless => Runs d1 output
      end
  end.
(** [process_folders], bin/reg_compare.rs:150-213, as the last expression of [main]:
    an error is printed, and [Ok] is returned at the end. *)
Fixpoint compare_main_folder (capacity : N) (ci : path -> circumstances) (cut : list N -> list act) (o : compare_outside) (n : nat) (c : compare_choices) (base comparison out : path) (ws : list path) (d : folder) : run_end :=
  match ws with
  | [] => Ends true d
  | w :: ws =>
      let output := out ++ [get_outpath w (compare_extension c)] in
      if is_reg_file w then
        if file_has_size (contents (base ++ w) d) then
          match read_file (comparison ++ w) d with
          | None => compare_main_folder capacity ci cut o n c base comparison out ws d
          | Some other =>
              if file_has_size other then
                let d1 := made_first (ci w) output d in
                match compare_told capacity (ci w) cut o n c w (given_pair c (base ++ w) (comparison ++ w) d d1) with
                | Tells ok file =>
                    if ok || ci_prints (ci w) then compare_main_folder capacity ci cut o n c base comparison out ws (put_file output file d1)
                    else Panics (put_file output file d1) output
                | ToldAborted => Panics d1 output
                | ToldEndless => Runs d1 output
                end
              else if ci_prints (ci w) then compare_main_folder capacity ci cut o n c base comparison out ws d
              else Panics d output
          end
        else if ci_prints (ci w) then compare_main_folder capacity ci cut o n c base comparison out ws d
        else Panics d output
      else compare_main_folder capacity ci cut o n c base comparison out ws d
  end.
