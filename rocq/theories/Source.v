(** Model of how the bytes of a hive and of its logs reach the parser: the readers
    behind [ReadSeek], src/file_info.rs:26-60, the builders, src/parser_builder.rs, and
    what Python hands over, pynotatin/src/util.rs:28-64 and
    pynotatin/src/py_notatin_parser.rs:41-50, 121-163. *)
From Verif Require Import Base Types Parser TxLog Folder.
Open Scope N_scope.
Open Scope list_scope.

(** ** Readers *)
(** What one call of [read] does: it gives up to [k] bytes, it is interrupted, or it
    fails. *)
Inductive turn := Gives (k : nat) | Interrupts | Fails.
(** A reader: the bytes before its position, those after it, and what its next calls
    do; further calls give all that is asked for. *)
Record stream := mkStream {
  sr_before : list N;
  sr_after : list N;
  sr_turns : list turn
}.
(** The loop of [read_to_end] (std): no bytes mean the end, an interruption is tried
    again. The answer, what it has read, and what is left of the bytes and turns. *)
Fixpoint read_loop (turns : list turn) (rest : list N) : bool * list N * list N * list turn :=
  match turns with
  | [] => (true, rest, [], [])
  | Interrupts :: t => read_loop t rest
  | Fails :: t => (false, [], rest, t)
  | Gives k :: t =>
      match firstn k rest with
      | [] => (true, [], rest, t)
      | got =>
          let '(ok, more, rest, t) := read_loop t (skipn k rest) in
          (ok, got ++ more, rest, t)
      end
  end.
(** [FileInfo::from_read_seek], src/file_info.rs:34-42, and the reading of a log,
    src/transaction_log.rs:197-198: from the position of the reader. *)
Definition read_to_end (s : stream) : option (list N) * stream :=
  let '(ok, got, rest, t) := read_loop (sr_turns s) (sr_after s) in
  (if ok : bool then Some got else None, mkStream (sr_before s ++ got) rest t).

(** ** Builders *)
(** [ParserBuilderBase] with the logs, src/parser_builder.rs:25-38, 72-76. *)
Record builder (L : Type) := mkBuilder {
  bl_filter : filter;
  bl_recover : bool;
  bl_full : bool;
  bl_console : bool;
  bl_logs : list L
}.
Arguments mkBuilder {L}.
Arguments bl_filter {L}.
Arguments bl_recover {L}.
Arguments bl_full {L}.
Arguments bl_console {L}.
Arguments bl_logs {L}.
(** [ParserBuilder::from_path] and [from_file], src/parser_builder.rs:115-130. *)
Definition new_builder {L} : builder L := mkBuilder None false false false [].
(** The calls of a builder, src/parser_builder.rs:41-58, 79-97. A builder from a path
    has no [with_filter], one from a file no [update_console]. *)
Inductive call (L : Type) :=
| WithFilter (q : reg_query)
| RecoverDeleted (on : bool)
| GetFullFieldInfo (on : bool)
| UpdateConsole (on : bool)
| WithTransactionLog (log : L).
Arguments WithFilter {L}.
Arguments RecoverDeleted {L}.
Arguments GetFullFieldInfo {L}.
Arguments UpdateConsole {L}.
Arguments WithTransactionLog {L}.
Definition called {L} (b : builder L) (c : call L) : builder L :=
  match c with
  | WithFilter q => mkBuilder (Some q) (bl_recover b) (bl_full b) (bl_console b) (bl_logs b)
  | RecoverDeleted on => mkBuilder (bl_filter b) on (bl_full b) (bl_console b) (bl_logs b)
  | GetFullFieldInfo on => mkBuilder (bl_filter b) (bl_recover b) on (bl_console b) (bl_logs b)
  | UpdateConsole on => mkBuilder (bl_filter b) (bl_recover b) (bl_full b) on (bl_logs b)
  | WithTransactionLog log => mkBuilder (bl_filter b) (bl_recover b) (bl_full b) (bl_console b) (bl_logs b ++ [log])
  end.
Definition prepared {L} (calls : list (call L)) : builder L := fold_left called calls new_builder.

(** [TransactionLog::parse] with its reading, src/transaction_log.rs:191-212: each log
    is parsed before the next is read. The logs read, and whether that was all. *)
Fixpoint read_files (ss : list stream) : bool * list (list N) :=
  match ss with
  | [] => (true, [])
  | s :: r =>
      match fst (read_to_end s) with
      | None => (false, [])
      | Some f => let (ok, fs) := read_files r in (ok, f :: fs)
      end
  end.
(** [ParserBuilder::build], src/parser_builder.rs:132-157, for the readers of the hive
    and of the logs. *)
Definition read_build (order : reg_items -> reg_items) (fuel : nat) (hash : list N -> N)
  (recover full : bool) (hive : option (list N)) (logs : bool * list (list N)) : res parser :=
  match hive with
  | None => Err
  | Some buffer =>
      if fst logs then build order fuel hash recover full buffer (snd logs)
      else let* _ := parse_each (snd logs) in Err
  end.
(** [ParserBuilderFromFile::build], src/parser_builder.rs:99-110. *)
Definition build_from_file (order : reg_items -> reg_items) (fuel : nat) (hash : list N -> N)
  (primary : stream) (b : builder stream) : res parser :=
  read_build order fuel hash (bl_recover b) (bl_full b) (fst (read_to_end primary)) (read_files (bl_logs b)).

(** A disk, and what the calls of [read] for a file that is opened there do. *)
Record place := mkPlace {
  pl_disk : folder;
  pl_turns : path -> list turn
}.
(** [File::open] (std). *)
Definition open_file (pl : place) (p : path) : option stream :=
  option_map (fun bytes => mkStream [] bytes (pl_turns pl p)) (read_file p (pl_disk pl)).
Fixpoint open_files (pl : place) (ps : list path) : option (list stream) :=
  match ps with
  | [] => Some []
  | p :: r =>
      match open_file pl p, open_files pl r with
      | Some s, Some ss => Some (s :: ss)
      | _, _ => None
      end
  end.
(** [ParserBuilderFromPath::build], src/parser_builder.rs:60-70: the logs are opened
    first. *)
Definition build_from_path (order : reg_items -> reg_items) (fuel : nat) (hash : list N -> N)
  (pl : place) (primary : path) (b : builder path) : res parser :=
  match open_files pl (bl_logs b) with
  | None => Err
  | Some logs =>
      match open_file pl primary with
      | None => Err
      | Some s => read_build order fuel hash (bl_recover b) (bl_full b) (fst (read_to_end s)) (read_files logs)
      end
  end.

(** ** Python *)
(** What a Python program hands over: a path, an object with [read] and [seek] (by its
    identity), or something else, pynotatin/src/util.rs:34-50. *)
Inductive py_source := PyPath (p : path) | PyFileLike (i : nat) | PyOther.
(** The file-like objects of the program. *)
Definition objects := nat -> stream.
Definition set_object (i : nat) (s : stream) (w : objects) : objects := fun j => if Nat.eqb j i then s else w j.
(** An opened source: a reader of its own, or an object of the program. *)
Inductive reader := Own (s : stream) | Shared (i : nat).
(** [FileOrFileLike::to_read_seek], pynotatin/src/util.rs:52-64; the position of an
    object is left as it is. *)
Definition to_read_seek (pl : place) (src : py_source) : option reader :=
  match src with
  | PyPath p => option_map Own (open_file pl p)
  | PyFileLike i => Some (Shared i)
  | PyOther => None
  end.
Fixpoint to_read_seeks (pl : place) (srcs : list py_source) : option (list reader) :=
  match srcs with
  | [] => Some []
  | s :: r =>
      match to_read_seek pl s, to_read_seeks pl r with
      | Some x, Some xs => Some (x :: xs)
      | _, _ => None
      end
  end.
(** [read_to_end] of either, on the objects. *)
Definition read_reader (r : reader) (w : objects) : option (list N) * objects :=
  match r with
  | Own s => (fst (read_to_end s), w)
  | Shared i => let (x, s) := read_to_end (w i) in (x, set_object i s w)
  end.
Fixpoint read_readers (rs : list reader) (w : objects) : bool * list (list N) * objects :=
  match rs with
  | [] => (true, [], w)
  | r :: rs =>
      match read_reader r w with
      | (None, w) => (false, [], w)
      | (Some f, w) => let '(ok, fs, w) := read_readers rs w in (ok, f :: fs, w)
      end
  end.
(** [PyNotatinParserBuilder], pynotatin/src/py_notatin_parser.rs:121-163, with [build]:
    the parser or an exception, and the objects afterwards. *)
Record py_builder := mkPyBuilder { pb_primary : py_source; pb_recover : bool; pb_logs : list py_source }.
Definition py_build (order : reg_items -> reg_items) (fuel : nat) (hash : list N -> N)
  (pl : place) (b : py_builder) (w : objects) : res parser * objects :=
  match to_read_seek pl (pb_primary b) with
  | None => (Err, w)
  | Some primary =>
      match to_read_seeks pl (pb_logs b) with
      | None => (Err, w)
      | Some logs =>
          match read_reader primary w with
          | (None, w) => (Err, w)
          | (Some buffer, w) =>
              let '(ok, files, w) := read_readers logs w in
              (read_build order fuel hash (pb_recover b) false (Some buffer) (ok, files), w)
          end
      end
  end.
(** Its methods, pynotatin/src/py_notatin_parser.rs:131-148. *)
Inductive py_call := PyRecoverDeleted (recover : bool) | PyWithTransactionLog (log : py_source).
Definition py_called (b : py_builder) (c : py_call) : py_builder :=
  match c with
  | PyRecoverDeleted on => mkPyBuilder (pb_primary b) on (pb_logs b)
  | PyWithTransactionLog log => mkPyBuilder (pb_primary b) (pb_recover b) (pb_logs b ++ [log])
  end.
Definition py_prepared (src : py_source) (calls : list py_call) : py_builder := fold_left py_called calls (mkPyBuilder src false []).
(** [PyNotatinParser::new], pynotatin/src/py_notatin_parser.rs:41-50. *)
Definition py_new (order : reg_items -> reg_items) (fuel : nat) (hash : list N -> N)
  (pl : place) (src : py_source) (w : objects) : res parser * objects :=
  py_build order fuel hash pl (mkPyBuilder src false []) w.
