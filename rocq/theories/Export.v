(** Model of the text exports: bin/reg_dump/common_writer.rs and
    bin/reg_dump/tsv_writer.rs. The console messages and the failures of writing
    to a file are not modelled; a writer is the bytes it has written. *)
From Coq Require Import String.
From Verif Require Import Base Util Types Value Node Parser TxLog Log.
Open Scope string_scope.
Open Scope N_scope.

(** [{}] of an unsigned number (std). *)
Fixpoint digits (fuel : nat) (n : N) (r : list N) : list N :=
  match fuel with
  | O => r
  | S fuel => let r := (48 + n mod 10) :: r in if n <? 10 then r else digits fuel (n / 10) r
  end.
Definition decimal (n : N) : list N := digits (S (N.size_nat n)) n [].

(** What is shown by code outside the model: [util::format_date_time] of an
    instant, [{:?}] of the two flag sets, the text and the type of the decoded
    content, the text of the item's logs. *)
Record renderer := mkRender {
  rd_date : Z -> list N;
  rd_flags : N -> list N;
  rd_access : N -> list N;
  rd_content : key_value -> list N;
  rd_type : key_value -> list N;
  rd_key_logs : key_node -> list N;
  rd_value_logs : key_value -> list N
}.

(** [last_key_written_date_and_time], src/cell_key_node.rs:276-278. *)
Definition kn_date (k : key_node) : Z := get_date_time_from_filetime (kd_time (kn_detail k)).

(** [value_iter] of a key, src/cell_key_node.rs:232-237,795-814. *)
Definition values_of (k : key_node) : list key_value := value_iter (S (List.length (kn_values k))) k 0.

(** ** The common format *)

(** bin/reg_dump/common_writer.rs:42-69. *)
Definition common_header : list (list N) := map text [
  "## Registry common export format";
  "## Key format";
  "## key,Is Free,Absolute offset in decimal,KeyPath,,,,LastWriteTime in UTC";
  "## Value format";
  "## value,Is Free,Absolute offset in decimal,KeyPath,Value name,Data type (as decimal integer),Value data as bytes separated by a singe space,";
  "## ""Is Free"" interpretation: A for in use, U for unused from the primary file, D for deleted from the transaction log, M for modified from the transaction log";
  "##";
  "## Comparison of unused keys/values is done to compare recovery of vk and nk records, not the algorithm used to associate unused keys to other keys and their values.";
  "## When including unused keys, only the recovered key name should be included, not the full path to the unused key.";
  "## When including unused values, do not include the parent key information.";
  "##";
  "## The following totals should also be included";
  "##";
  "## total_keys: total in use key count";
  "## total_values: total in use value count";
  "## total_unused_keys: total free key count (recovered from primary file)";
  "## total_unused_values: total free value count (recovered from primary file)";
  "## total_deleted_from_transaction_log_keys: total deleted key count (recovered from transaction logs)";
  "## total_deleted_from_transaction_log_values: total deleted value count (recovered from transaction logs)";
  "## total_modified_from_transaction_log_keys: total modified key count (recovered from transaction logs)";
  "## total_modified_from_transaction_log_values: total modified value count (recovered from transaction logs)";
  "##";
  "## Before comparison with other common export implementations, the files should be sorted";
  "##"].

(** The counters, bin/reg_dump/common_writer.rs:70-77 ([u32]; a release build
    wraps). *)
Record totals := mkTotals {
  t_keys : N; t_values : N; t_unused_keys : N; t_unused_values : N;
  t_deleted_keys : N; t_deleted_values : N; t_modified_keys : N; t_modified_values : N
}.
Definition no_totals : totals := mkTotals 0 0 0 0 0 0 0 0.
Definition add_key (s : cell_state) (t : totals) : totals :=
  let '(mkTotals a b c d e f g h) := t in
  match s with
  | DeletedPrimaryFile | DeletedPrimaryFileSlack => mkTotals a b (w32 (c + 1)) d e f g h
  | Allocated => mkTotals (w32 (a + 1)) b c d e f g h
  | DeletedTransactionLog => mkTotals a b c d (w32 (e + 1)) f g h
  | ModifiedTransactionLog => mkTotals a b c d e f (w32 (g + 1)) h
  end.
Definition add_value (s : cell_state) (t : totals) : totals :=
  let '(mkTotals a b c d e f g h) := t in
  match s with
  | DeletedPrimaryFile | DeletedPrimaryFileSlack => mkTotals a b c (w32 (d + 1)) e f g h
  | Allocated => mkTotals a (w32 (b + 1)) c d e f g h
  | DeletedTransactionLog => mkTotals a b c d e (w32 (f + 1)) g h
  | ModifiedTransactionLog => mkTotals a b c d e f g (w32 (h + 1))
  end.

(** [get_alloc_char], bin/reg_dump/common_writer.rs:156-163. *)
Definition alloc_char (s : cell_state) : list N :=
  match s with
  | DeletedPrimaryFile | DeletedPrimaryFileSlack => text "U"
  | DeletedTransactionLog => text "D"
  | ModifiedTransactionLog => text "M"
  | Allocated => text "A"
  end.

(** [write_key], bin/reg_dump/common_writer.rs:165-202. *)
Definition common_key (r : renderer) (k : key_node) (t : totals) : res (list N * totals) :=
  let* path :=
    match kn_state k with
    | DeletedPrimaryFile | DeletedPrimaryFileSlack => Ok (kn_name k)
    | _ => str_from (kn_path k) 1
    end in
  Ok (text "key," ++ alloc_char (kn_state k) ++ text "," ++ decimal (kn_offset k) ++ text ","
      ++ escape_string path ++ text ",,,," ++ rd_date r (kn_date k) ++ [10],
      add_key (kn_state k) t)%list.

(** [write_value], bin/reg_dump/common_writer.rs:204-243. *)
Definition common_value (k : key_node) (v : key_value) (t : totals) : res (list N * totals) :=
  let name :=
    match kv_state v with
    | DeletedPrimaryFile | DeletedPrimaryFileSlack => []
    | _ => kn_name k
    end in
  let bytes := match vd_bytes (kv_detail v) with Some b => b | None => [] end in
  Ok (text "value," ++ alloc_char (kv_state v) ++ text "," ++ decimal (kv_offset v) ++ text ","
      ++ escape_string name ++ text "," ++ escape_string (kv_pretty_name v) ++ text ","
      ++ decimal (kv_type v) ++ text "," ++ to_hex_string bytes ++ text "," ++ [10],
      add_value (kv_state v) t)%list.

(** A loop that writes. *)
Fixpoint each {A} (f : A -> totals -> res (list N * totals)) (l : list A) (t : totals)
  : res (list N * totals) :=
  match l with
  | [] => Ok ([], t)
  | x :: l =>
      let* (a, t) := f x t in
      let* (b, t) := each f l t in
      Ok (a ++ b, t)%list
  end.

(** The body of the loop over the keys, bin/reg_dump/common_writer.rs:86-123. *)
Definition common_item (r : renderer) (k : key_node) (t : totals) : res (list N * totals) :=
  let* (a, t) := common_key r k t in
  let* (b, t) := each (common_key r) (kn_versions k) t in
  let* (c, t) :=
    each (fun v t =>
            let* (x, t) := common_value k v t in
            let* (y, t) := each (common_value k) (kv_versions v) t in
            Ok (x ++ y, t)%list) (values_of k) t in
  Ok (a ++ b ++ c, t)%list.

(** bin/reg_dump/common_writer.rs:124-153. *)
Definition total_line (label : string) (n : N) : list N := (text "## " ++ text label ++ text ": " ++ decimal n)%list.
Definition total_lines (t : totals) : list (list N) :=
  [total_line "total_keys" (t_keys t);
   total_line "total_values" (t_values t);
   total_line "total_unused_keys" (t_unused_keys t);
   total_line "total_unused_values" (t_unused_values t);
   total_line "total_deleted_from_transaction_log_keys" (t_deleted_keys t);
   total_line "total_deleted_from_transaction_log_values" (t_deleted_values t);
   total_line "total_modified_from_transaction_log_keys" (t_modified_keys t);
   total_line "total_modified_from_transaction_log_values" (t_modified_values t)].
Definition lines (l : list (list N)) : list N := flat_map (fun x => x ++ [10])%list l.

(** [WriteCommon::write], bin/reg_dump/common_writer.rs:41-154: [ks] are the keys
    the iterator returns. *)
Definition common_export (r : renderer) (ks : list key_node) : res (list N) :=
  let* (body, t) := each (common_item r) ks no_totals in
  Ok (lines common_header ++ body ++ lines (total_lines t))%list.
(** With the iterator: [ParserIterator::new] and [with_filter],
    src/parser.rs:432-460. *)
Definition write_common (fuel : nat) (r : renderer) (p : parser) (f : filter) : res (list N) :=
  let* ks := iterate fuel p f false true false in
  common_export r ks.

(** ** TSV *)

(** bin/reg_dump/tsv_writer.rs:55. *)
Definition tsv_header : list N :=
  let fields := map text ["Index"; "Key Path"; "Subkey Count"; "Value Name"; "Value Data"; "Timestamp"; "Status";
    "Previous Seq Num"; "Modifying Seq Num"; "Flags"; "Access Flags"; "Value Type"; "Logs"] in
  (removelast (flat_map (fun f => f ++ [9]) fields) ++ [10])%list.

(** [{:?}] of a [CellState], src/cell.rs:20-27. *)
Definition state_name (s : cell_state) : list N :=
  match s with
  | DeletedTransactionLog => text "DeletedTransactionLog"
  | DeletedPrimaryFile => text "DeletedPrimaryFile"
  | DeletedPrimaryFileSlack => text "DeletedPrimaryFileSlack"
  | Allocated => text "Allocated"
  | ModifiedTransactionLog => text "ModifiedTransactionLog"
  end.
(** [get_sequence_num_string], bin/reg_dump/tsv_writer.rs:131-136. *)
Definition seq_text (n : option N) : list N := match n with Some n => decimal n | None => [] end.

(** [write_value_tsv], bin/reg_dump/tsv_writer.rs:65-89: what is written and the
    next index. *)
Definition tsv_value (r : renderer) (recovered_only : bool) (k : key_node) (v : key_value) (index : N)
  : list N * N :=
  if negb recovered_only || kv_has_or_is_recovered v then
    let index := index + 1 in
    (decimal index ++ [9] ++ escape_string (kn_path k) ++ [9; 9] ++ escape_string (kv_pretty_name v) ++ [9]
     ++ escape_string (rd_content r v) ++ [9; 9] ++ state_name (kv_state v) ++ [9]
     ++ seq_text (kv_seq v) ++ [9] ++ seq_text (kv_updated_by v) ++ [9; 9; 9] ++ rd_type r v ++ [9]
     ++ escape_string (rd_value_logs r v) ++ [10], index)%list
  else ([], index).

(** A loop that writes and counts. *)
Definition count_each {A} (f : A -> N -> list N * N) : list A -> N -> list N * N :=
  fix go l index :=
    match l with
    | [] => ([], index)
    | x :: l =>
        let (a, index) := f x index in
        let (b, index) := go l index in
        (a ++ b, index)%list
    end.

(** [write_key_tsv], bin/reg_dump/tsv_writer.rs:91-129. *)
Fixpoint tsv_key (r : renderer) (recovered_only : bool) (k : key_node) (key_modified : bool) (index : N)
  : list N * N :=
  let (a, index) :=
    if negb recovered_only || kn_has_or_is_recovered k then
      let index := index + 1 in
      let a := (decimal index ++ [9] ++ escape_string (kn_path k) ++ [9] ++ decimal (len (kn_sub_offsets k))
        ++ [9; 9; 9] ++ rd_date r (kn_date k) ++ [9] ++ state_name (kn_state k) ++ [9]
        ++ seq_text (kn_seq k) ++ [9] ++ seq_text (kn_updated_by k) ++ [9]
        ++ rd_flags r (kd_flags (kn_detail k)) ++ [9] ++ rd_access r (kd_access (kn_detail k)) ++ [9; 9]
        ++ escape_string (rd_key_logs r k) ++ [10])%list in
      let (b, index) := count_each (fun v i => tsv_key r recovered_only v true i) (kn_versions k) index in
      (a ++ b, index)%list
    else ([], index) in
  let (b, index) :=
    if key_modified then ([], index)
    else
      count_each (fun v i =>
        let (x, i) := tsv_value r recovered_only k v i in
        let (y, i) := count_each (tsv_value r recovered_only k) (kv_versions v) i in
        (x ++ y, i)%list) (values_of k) index in
  (a ++ b, index)%list.

(** [WriteTsv::write], bin/reg_dump/tsv_writer.rs:49-63: [ks] are the keys the
    iterator returns, [log] the parse logs. *)
Definition tsv_export (r : renderer) (recovered_only : bool) (ks : list key_node) (log : logs) : list N :=
  (tsv_header ++ fst (count_each (fun k i => tsv_key r recovered_only k false i) ks 0)
   ++ [10] ++ text "Logs" ++ [10] ++ text "-----------" ++ [10] ++ logs_write log)%list.
Definition write_tsv (fuel : nat) (r : renderer) (recovered_only : bool) (p : parser) (f : filter) (log : logs)
  : res (list N) :=
  let* ks := iterate fuel p f false true false in
  Ok (tsv_export r recovered_only ks log).
