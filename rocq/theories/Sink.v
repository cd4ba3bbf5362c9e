(** Model of how the text outputs reach the disk: [BufWriter] over a [File], as
    bin/reg_dump/common_writer.rs:30-40, tsv_writer.rs:38-46, json_writer.rs:30-47
    and bin/reg_compare.rs:241-244 use it, on a disk that may fail. The capacity of
    the buffer is a parameter (8192 in std). *)
From Verif Require Import Base Types Parser TxLog Export Json Compare Folder Dump CompareRun.
Open Scope N_scope.
Open Scope list_scope.

(** What the surroundings do: whether the file is created; for each transfer to the
    file, in turn, how many bytes are taken before an error ([None]: all of them);
    for each message to the console, in turn, whether it goes out. *)
Record device := mkDevice {
  dv_creates : bool;
  dv_takes : nat -> option N;
  dv_console : nat -> bool
}.
(** The file, the buffer in front of it and the numbers of transfers and messages
    so far. *)
Record sink := mkSink {
  sn_file : list N;
  sn_buffer : list N;
  sn_transfers : nat;
  sn_messages : nat
}.
Definition empty_sink : sink := mkSink [] [] 0 0.

(** [Write::write_all] of a file (std): how many of the bytes are taken. *)
Definition taken (dv : device) (i : nat) (b : list N) : N :=
  match dv_takes dv i with
  | Some k => N.min k (len b)
  | None => len b
  end.
(** [BufWriter::flush_buf] (std): what was written leaves the buffer. *)
Definition flush_buf (dv : device) (s : sink) : bool * sink :=
  match sn_buffer s with
  | [] => (true, s)
  | b =>
      let k := taken dv (sn_transfers s) b in
      (k =? len b, mkSink (sn_file s ++ firstn (N.to_nat k) b) (skipn (N.to_nat k) b) (S (sn_transfers s)) (sn_messages s))
  end.
(** [BufWriter::write_all] and [write_all_cold] (std). *)
Definition buf_write_all (capacity : N) (dv : device) (b : list N) (s : sink) : bool * sink :=
  let spare := capacity - len (sn_buffer s) in
  let push s := (true, mkSink (sn_file s) (sn_buffer s ++ b) (sn_transfers s) (sn_messages s)) in
  if len b <? spare then push s
  else
    let (ok, s) := if spare <? len b then flush_buf dv s else (true, s) in
    if ok : bool then
      if capacity <=? len b then
        let k := taken dv (sn_transfers s) b in
        (k =? len b, mkSink (sn_file s ++ firstn (N.to_nat k) b) (sn_buffer s) (S (sn_transfers s)) (sn_messages s))
      else push s
    else (false, s).

(** What an export does: a message to the console (src/progress.rs), a text handed to
    the writer. Each ends the export when it fails ([?]). *)
Inductive act := Say | Put (b : list N).
Definition perform_one (capacity : N) (dv : device) (a : act) (s : sink) : bool * sink :=
  match a with
  | Say => (dv_console dv (sn_messages s), mkSink (sn_file s) (sn_buffer s) (sn_transfers s) (S (sn_messages s)))
  | Put b => buf_write_all capacity dv b s
  end.
Fixpoint perform (capacity : N) (dv : device) (acts : list act) (s : sink) : bool * sink :=
  match acts with
  | [] => (true, s)
  | a :: acts =>
      let (ok, s) := perform_one capacity dv a s in
      if ok : bool then perform capacity dv acts s else (false, s)
  end.
(** [Drop] of [BufWriter] (std): the buffer is flushed, the result is dropped. No
    writer of the tools is flushed before that. *)
Definition close (dv : device) (s : sink) : sink := snd (flush_buf dv s).
Definition write_out (capacity : N) (dv : device) (acts : list act) : bool * list N :=
  let (ok, s) := perform capacity dv acts empty_sink in
  (ok, sn_file (close dv s)).

(** What a tool tells, with the file it leaves, if it made one. *)
Inductive told := Tells (success : bool) (file : option (list N)) | ToldAborted | ToldEndless.
(** [reg_dump], bin/reg_dump/main.rs:228-261, for the three text formats. [cut] is
    how an export is cut into texts and messages. Messages while the hive is opened,
    before any output is made, and those of main.rs:248 and 258 are left out. *)
Definition dump_to (capacity : N) (dv : device) (cut : list N -> list act) (o : outside) (n : nat) (c : choices) (buffer : list N) (logs : list (list N)) : told :=
  match reg_dump o n c buffer logs with
  | NotOpened => Tells false None
  | Written out =>
      if dv_creates dv then let (ok, file) := write_out capacity dv (cut out) in Tells ok (Some file)
      else Tells false None
  | GivenUp => Tells false (Some (os_left o))
  | Aborted => ToldAborted
  | Endless => ToldEndless
  end.
(** [reg_compare], bin/reg_compare.rs:230-365: the file is made first. *)
Definition compare_to (capacity : N) (dv : device) (cut : list N -> list act) (o : compare_outside) (n : nat) (c : compare_choices) (p : path)
    (base comparison : list N * list (list N)) : told :=
  if dv_creates dv then
    match compare_pair o n c p base comparison with
    | Reported out => let (ok, file) := write_out capacity dv (cut out) in Tells ok (Some file)
    | Failed => Tells false (Some [])
    | PairAborted => ToldAborted
    | PairEndless => ToldEndless
    end
  else Tells false None.
(** How the JSON export is cut, bin/reg_dump/json_writer.rs:42-45: a message to the
    console, a document, a line feed. *)
Definition json_acts (il : item_logs) (ks : list key_node) : list act :=
  flat_map (fun k => [Say; Put (json_key il k); Put [10]]) ks.
