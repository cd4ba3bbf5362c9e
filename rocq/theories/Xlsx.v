(** Model of the spreadsheet export, bin/reg_dump/xlsx_writer.rs. The library that
    writes the file (xlsxwriter) is outside the model: a workbook is the list of
    the writes that it has accepted, and what it accepts is a parameter. The formats are in XlsxLook.v;
    row heights, column widths and the progress messages are left out;
    the [set_row] of a row is taken to fail only if the write of its index, which
    follows, fails too. *)
From Coq Require Import String.
From Verif Require Import Base Util Types Value Node Parser Log Export Date Show.
Open Scope string_scope.
Open Scope N_scope.
Open Scope list_scope.

(** The three sheets, bin/reg_dump/xlsx_writer.rs:79-83. *)
Inductive sheet := Items | Logs | Overflow.
(** What is written to a cell: [write_number] (the numbers are whole and exact in
    an [f64]), [write_string], [write_url]. A link is kept apart from the text
    of its cell. *)
Inductive written := Number (n : N) | Text (s : list N) | Link (target : list N).
Record write := mkWrite { w_sheet : sheet; w_row : N; w_col : N; w_what : written }.
(** The workbook and the [row] of each [WorksheetState],
    bin/reg_dump/xlsx_writer.rs:448-467 ([u32]). *)
Record book := mkBook { bk_writes : list write; bk_items : N; bk_logs : N; bk_overflow : N }.
Definition new_book : book := mkBook [] 0 0 0.
Definition row_of (s : sheet) (b : book) : N :=
  match s with Items => bk_items b | Logs => bk_logs b | Overflow => bk_overflow b end.
(** [row += 1] (a release build wraps). *)
Definition next_row (s : sheet) (b : book) : book :=
  let '(mkBook ws i l o) := b in
  match s with
  | Items => mkBook ws (w32 (i + 1)) l o
  | Logs => mkBook ws i (w32 (l + 1)) o
  | Overflow => mkBook ws i l (w32 (o + 1))
  end.

Section Xlsx.
(** What the library accepts, after the writes so far. *)
Context (accepts : list write -> write -> bool).

(** [WorksheetState::write_string] and [write_number],
    bin/reg_dump/xlsx_writer.rs:469-475, and the calls of [sheet] itself. *)
Definition put (s : sheet) (col : N) (what : written) (b : book) : res book :=
  let w := mkWrite s (row_of s b) col what in
  if accepts (bk_writes b) w then
    let '(mkBook ws i l o) := b in Ok (mkBook (ws ++ [w]) i l o)
  else Err.

(** bin/reg_dump/xlsx_writer.rs:57-60. *)
Definition max_excel_cell_len : N := 32767.
Definition max_truncated_chars : N := 250.

(** [safe_split_at], bin/reg_dump/xlsx_writer.rs:305-311. *)
Definition safe_split_at (val : list N) (max_split : N) : list N * list N :=
  let offset := N.to_nat (N.min max_split (len val)) in
  (utf8 (firstn offset (str_chars val)), utf8 (skipn offset (str_chars val))).
(** [safe_truncate], bin/reg_dump/xlsx_writer.rs:313-316. *)
Definition safe_truncate (val : list N) (max_split : N) : list N :=
  utf8 (firstn (N.to_nat (N.min max_split (len val))) (str_chars val)).

(** The loop of bin/reg_dump/xlsx_writer.rs:330-334; the bytes are enough fuel. *)
Fixpoint chunks (fuel : nat) (val : list N) : res (list (list N)) :=
  match val with
  | [] => Ok []
  | _ =>
      match fuel with
      | O => OutOfFuel
      | S fuel =>
          let (chunk, rest) := safe_split_at val max_excel_cell_len in
          let* r := chunks fuel rest in
          Ok (chunk :: r)
      end
  end.
(** bin/reg_dump/xlsx_writer.rs:339-341: [col] is [col + 1] there. *)
Fixpoint put_chunks (l : list (list N)) (col : N) (b : book) : res book :=
  match l with
  | [] => Ok b
  | c :: l =>
      if 65535 <? col then Err (* [u16::try_from] *)
      else
        let* b := put Overflow col (Text c) b in
        put_chunks l (col + 1) b
  end.
(** [write_string_handle_overflow], bin/reg_dump/xlsx_writer.rs:318-364. *)
Definition write_string_handle_overflow (s : sheet) (col : N) (val : list N) (b : book) : res book :=
  if max_excel_cell_len <? len val then
    let* cs := chunks (List.length val) val in
    let label := text " [truncated; row: " ++ decimal (w32 (bk_overflow b + 1)) ++ text "]" in
    let* b := put Overflow 0 (Text label) b in
    let* b := put_chunks cs 1 b in
    let b := next_row Overflow b in
    let* b := put s col (Link (text "internal:Overflow!A" ++ decimal (bk_overflow b))) b in
    put s col (Text (safe_truncate val max_truncated_chars ++ label)) b
  else put s col (Text val) b.
(** [check_write_string], bin/reg_dump/xlsx_writer.rs:366-384. *)
Definition check_write_string (s : sheet) (col : N) (val : list N) (b : book) : res book :=
  match val with
  | [] => Ok b
  | _ => write_string_handle_overflow s col val b
  end.

(** [is_legal_xml_1_0], bin/reg_dump/xlsx_writer.rs:414-422. *)
Definition is_legal_xml (c : N) : bool :=
  (c =? 9) || (c =? 0xA) || (c =? 0xD) || (0x20 <=? c) && (c <=? 0xD7FF)
  || (0xE000 <=? c) && (c <=? 0xFFFD) || (0x10000 <=? c) && (c <=? 0x10FFFF).
(** [sanitize_for_xml_1_0], bin/reg_dump/xlsx_writer.rs:424-439: the characters
    before the first illegal one are copied, those from it on are mapped. *)
Fixpoint position_illegal (cs : list N) : option nat :=
  match cs with
  | [] => None
  | c :: r => if negb (is_legal_xml c) then Some O else option_map S (position_illegal r)
  end.
Definition sanitize (s : list N) : list N :=
  match position_illegal (str_chars s) with
  | None => s
  | Some i => utf8 (firstn i (str_chars s) ++ map (fun c => if is_legal_xml c then c else 0xFFFD) (skipn i (str_chars s)))
  end.
(** [sanitize_cell], bin/reg_dump/xlsx_writer.rs:441-446. *)
Definition sanitize_cell (printable : N -> bool) (c : cell_value) : list N :=
  match c with
  | CString s => sanitize s
  | c => show_content printable c
  end.

(** The texts of the messages of keys and values are left open, as in Export.v. *)
Context (printable : N -> bool) (key_logs : key_node -> list N) (value_logs : key_value -> list N) (recovered_only : bool).

Definition put_if (s : sheet) (col : N) (n : option N) (b : book) : res book :=
  match n with Some n => put s col (Number n) b | None => Ok b end.

(** [write_value], bin/reg_dump/xlsx_writer.rs:232-303. *)
Definition write_value (k : key_node) (v : key_value) (b : book) : res book :=
  if recovered_only && negb (kv_has_or_is_recovered v) then Ok b
  else
    let b := next_row Items b in
    let* b := put Items 0 (Number (bk_items b)) b in
    let* b := check_write_string Items 1 (sanitize (kn_path k)) b in
    let* b := check_write_string Items 3 (sanitize (kv_pretty_name v)) b in
    let* b := check_write_string Items 4 (sanitize_cell printable (content_of_value v)) b in
    let* b := put Items 6 (Text (state_name (kv_state v))) b in
    let* b := put_if Items 7 (kv_seq v) b in
    let* b := put_if Items 8 (kv_updated_by v) b in
    let* b := check_write_string Items 11 (show_type (content_of_value v)) b in
    check_write_string Items 12 (sanitize (value_logs v)) b.

(** A loop that writes. *)
Definition write_each {A} (f : A -> book -> res book) : list A -> book -> res book :=
  fix go l b :=
    match l with
    | [] => Ok b
    | x :: l => let* b := f x b in go l b
    end.

(** [write_key], bin/reg_dump/xlsx_writer.rs:151-230. *)
Fixpoint write_key (k : key_node) (is_key_version : bool) (b : book) : res book :=
  let* b :=
    if negb recovered_only || kn_has_or_is_recovered k then
      let b := next_row Items b in
      let* b := put Items 0 (Number (bk_items b)) b in
      let* b := check_write_string Items 1 (sanitize (kn_path k)) b in
      let* b := put Items 2 (Number (len (kn_sub_offsets k))) b in
      let* b := put Items 5 (Text (format_date_time (kn_date k))) b in
      let* b := put Items 6 (Text (state_name (kn_state k))) b in
      let* b := put_if Items 7 (kn_seq k) b in
      let* b := put_if Items 8 (kn_updated_by k) b in
      let* b := put Items 9 (Text (show_key_flags (kd_flags (kn_detail k)))) b in
      let* b := put Items 10 (Text (show_access_flags (kd_access (kn_detail k)))) b in
      let* b := check_write_string Items 12 (sanitize (key_logs k)) b in
      write_each (fun v => write_key v true) (kn_versions k) b
    else Ok b in
  if is_key_version then Ok b
  else
    write_each (fun v b =>
      let* b := write_value k v b in
      write_each (write_value k) (kv_versions v) b) (values_of k) b.

(** The header row, bin/reg_dump/xlsx_writer.rs:113-125. *)
Fixpoint put_header (l : list (list N)) (col : N) (b : book) : res book :=
  match l with
  | [] => Ok b
  | h :: l => let* b := put Items col (Text h) b in put_header l (col + 1) b
  end.
Definition xlsx_header : list (list N) := map text ["Index"; "Key Path"; "Subkey Count"; "Value Name"; "Value Data"; "Timestamp"; "Status";
  "Previous Seq Num"; "Modifying Seq Num"; "Flags"; "Access Flags"; "Value Type"; "Logs"].
(** The loop over the parse logs, bin/reg_dump/xlsx_writer.rs:133-147. *)
Definition write_log (m : message) (b : book) : res book :=
  let* b := put Logs 0 (Text (code_name (mg_code m))) b in
  let* b := check_write_string Logs 1 (mg_text m) b in
  Ok (next_row Logs b).
(** [WriteXlsx::write], bin/reg_dump/xlsx_writer.rs:73-149: [ks] are the keys the
    iterator returns, [log] the parse logs. *)
Definition xlsx_export (ks : list key_node) (log : logs) : res book :=
  let* b := put_header xlsx_header 0 new_book in
  let* b := write_each (fun k => write_key k false) ks b in
  match logs_get log with
  | Some ms => write_each write_log ms b
  | None => Ok b
  end.
Definition write_xlsx (fuel : nat) (p : parser) (f : filter) (log : logs) : res book :=
  let* ks := iterate fuel p f false true false in
  xlsx_export ks log.
End Xlsx.
