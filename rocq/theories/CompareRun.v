(** Model of a run of the compare tool, bin/reg_compare.rs: the choices of its
    command line, one pair of hives, two folders. Errors of the file system and of
    the console are not modelled, nor are the messages; [clap] is outside the
    model (the choices are given). *)
From Coq Require Import String.
From Verif Require Import Base Util Types Value Node Recover Parser TxLog Log Export Compare Folder Dump.
Open Scope string_scope.
Open Scope N_scope.
Open Scope list_scope.

(** The command line, bin/reg_compare.rs:75-95. *)
Record compare_choices := mkCompareChoices {
  cc_filter : option (list N);
  cc_diff : bool;
  cc_skip_logs : bool
}.
(** The filter, bin/reg_compare.rs:87-95; it is made as that of the dump tool. *)
Definition compare_filter (c : compare_choices) : filter :=
  match cc_filter c with
  | Some f => Some (with_children true (add_key_path empty_query f))
  | None => None
  end.
(** The extension, bin/reg_compare.rs:215-228. *)
Definition compare_extension (c : compare_choices) : list N := if cc_diff c then text "diff" else text "txt".

(** What the tool uses that is outside the model: the orders of the hash maps of
    the library and of the tool, the hash, the texts of dates, flags and contents,
    and the texts that name the files of a pair (bin/reg_compare.rs:246-253; the
    first argument tells the base from the comparison). *)
Record compare_outside := mkCompareOutside {
  co_order : reg_items -> reg_items;
  co_map_order : hash_map -> hash_map;
  co_hash : list N -> N;
  co_render : renderer;
  co_shown : bool -> path -> list N
}.

(** What becomes of one pair: a report; no report, after the output was created;
    the tool aborts; it does not end. *)
Inductive pair_outcome := Reported (out : list N) | Failed | PairAborted | PairEndless.
Definition reported_or (r : res (list N)) : pair_outcome :=
  match r with
  | Ok out => Reported out
  | Err => Failed
  | Panic => PairAborted
  | OutOfFuel => PairEndless
  end.
(** [get_parser], bin/reg_compare.rs:642-648. *)
Definition compare_parser (o : compare_outside) (n : nat) (x : list N * list (list N)) : res parser :=
  build (co_order o) n (co_hash o) false false (fst x) (snd x).
(** [reg_compare], bin/reg_compare.rs:230-365: the second hive is opened when the
    keys of the first have been read. The counting of keys for the console
    iterates over the same keys before. *)
Definition compare_pair (o : compare_outside) (n : nat) (c : compare_choices) (p : path) (base comparison : list N * list (list N)) : pair_outcome :=
  reported_or
    (let* p1 := compare_parser o n base in
     let* ks1 := iterate n p1 (compare_filter c) false true false in
     let* p2 := compare_parser o n comparison in
     let* g := reg_compare (co_map_order o) n p1 p2 (compare_filter c) in
     Ok ((if cc_diff c then write_diff else write_text) (co_render o) (co_shown o true p) (co_shown o false p) g)).

(** [process_folders], bin/reg_compare.rs:150-213: an error of one pair is printed,
    an abort is not caught. *)
Fixpoint compare_files (o : compare_outside) (n : nat) (c : compare_choices) (base comparison es : folder) (outs : amap (list N) (list N)) : run :=
  match es with
  | [] => Finished outs
  | e :: es =>
      if is_reg_file (fst e) && file_has_size (snd e) then
        match read_file (fst e) comparison with
        | Some bytes =>
            if file_has_size bytes then
              let logs_of f := match get_log_files (cc_skip_logs c) f (fst e) with Some l => l | None => [] end in
              let name := get_outpath (fst e) (compare_extension c) in
              match compare_pair o n c (fst e) (snd e, logs_of base) (bytes, logs_of comparison) with
              | Reported out => compare_files o n c base comparison es (aset beq name out outs)
              | Failed => compare_files o n c base comparison es (aset beq name [] outs)
              | PairAborted => Stopped outs
              | PairEndless => Hanging outs
              end
            else compare_files o n c base comparison es outs
        | None => compare_files o n c base comparison es outs
        end
      else compare_files o n c base comparison es outs
  end.
Definition compare_folders (o : compare_outside) (n : nat) (c : compare_choices) (base comparison : folder) (outs : amap (list N) (list N)) : run :=
  compare_files o n c base comparison base outs.
