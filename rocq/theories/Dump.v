(** Model of a run of the dump tool, bin/reg_dump/main.rs: the choices of its
    command line, one hive, one file, a folder. Errors of the file system and of
    the console are not modelled, nor are the messages; [clap] is outside the
    model (the choices are given). *)
From Coq Require Import String.
From Verif Require Import Base Util Types Value Node Recover Parser TxLog Log Export Xlsx Json Folder.
Open Scope string_scope.
Open Scope N_scope.
Open Scope list_scope.

(** [OutputType], bin/reg_dump/main.rs:263-269. *)
Inductive output_type := JsonlOut | CommonOut | TsvOut | XlsxOut.
(** The extensions of [get_outpath], bin/reg_dump/main.rs:219-224. *)
Definition extension_of (t : output_type) : list N :=
  match t with
  | XlsxOut => text "xlsx"
  | TsvOut => text "tsv"
  | CommonOut => text "txt"
  | JsonlOut => text "jsonl"
  end.
(** The command line, bin/reg_dump/main.rs:86-105. *)
Record choices := mkChoices {
  ch_filter : option (list N);
  ch_recover : bool;
  ch_recovered_only : bool;
  ch_full : bool;
  ch_skip_logs : bool;
  ch_type : output_type
}.
(** The filter, bin/reg_dump/main.rs:97-105; a key path cannot make
    [FilterBuilder::build] fail. *)
Definition chosen_filter (c : choices) : filter :=
  match ch_filter c with
  | Some f => Some (with_children true (add_key_path empty_query f))
  | None => None
  end.

(** What the tool uses that is outside the model: the order of hash maps and the
    hash of the library, the texts of dates, flags, contents and messages, and the
    spreadsheet library. [os_pack] is the file made of a workbook, [os_left] what
    is left of one given up. *)
Record outside := mkOutside {
  os_order : reg_items -> reg_items;
  os_hash : list N -> N;
  os_render : renderer;
  os_items : item_logs;
  os_log : parser -> logs;
  os_accepts : list write -> write -> bool;
  os_printable : N -> bool;
  os_pack : book -> list N;
  os_left : list N
}.

(** What becomes of one hive: it cannot be opened, and no output is created; its
    output is written; writing fails after the output was created; the tool aborts;
    it does not end. *)
Inductive outcome := NotOpened | Written (out : list N) | GivenUp | Aborted | Endless.
Definition written_or (r : res (list N)) : outcome :=
  match r with
  | Ok out => Written out
  | Err => GivenUp
  | Panic => Aborted
  | OutOfFuel => Endless
  end.
(** [reg_dump], bin/reg_dump/main.rs:228-261. *)
Definition reg_dump (o : outside) (n : nat) (c : choices) (buffer : list N) (logs : list (list N)) : outcome :=
  match build (os_order o) n (os_hash o) (ch_recover c) (ch_full c) buffer logs with
  | Err => NotOpened
  | Panic => Aborted
  | OutOfFuel => Endless
  | Ok p =>
      let f := chosen_filter c in
      written_or
        match ch_type c with
        | XlsxOut =>
            let* b := write_xlsx (os_accepts o) (os_printable o) (rd_key_logs (os_render o)) (rd_value_logs (os_render o))
                        (ch_recovered_only c) n p f (os_log o p) in
            Ok (os_pack o b)
        | TsvOut => write_tsv n (os_render o) (ch_recovered_only c) p f (os_log o p)
        | CommonOut => write_common n (os_render o) p f
        | JsonlOut => write_json n (os_items o) p f
        end
  end.

(** [process_file], bin/reg_dump/main.rs:132-158: the file at [p], with the logs
    beside it. *)
Definition process_file (o : outside) (n : nat) (c : choices) (f : folder) (p : path) (buffer : list N) : outcome :=
  reg_dump o n c buffer (match get_log_files (ch_skip_logs c) f p with Some l => l | None => [] end).

(** A run over a folder: it goes through, or ends at a hive whose export aborts,
    or never leaves one. [outs] is what is in the output folder; of the output of
    the hive at which the run ended, which may have been created and filled in
    part, nothing is said. *)
Inductive run := Finished (outs : amap (list N) (list N)) | Stopped (outs : amap (list N) (list N)) | Hanging (outs : amap (list N) (list N)).
(** [process_folder], bin/reg_dump/main.rs:160-210: the result of [reg_dump] is
    dropped, but an abort is not caught. *)
Fixpoint dump_files (o : outside) (n : nat) (c : choices) (f es : folder) (outs : amap (list N) (list N)) : run :=
  match es with
  | [] => Finished outs
  | e :: es =>
      if is_reg_file (fst e) && file_has_size (snd e) then
        let name := get_outpath (fst e) (extension_of (ch_type c)) in
        match process_file o n c f (fst e) (snd e) with
        | NotOpened => dump_files o n c f es outs
        | Written out => dump_files o n c f es (aset beq name out outs)
        | GivenUp => dump_files o n c f es (aset beq name (os_left o) outs)
        | Aborted => Stopped outs
        | Endless => Hanging outs
        end
      else dump_files o n c f es outs
  end.
Definition dump_folder (o : outside) (n : nat) (c : choices) (f : folder) (outs : amap (list N) (list N)) : run :=
  dump_files o n c f f outs.
