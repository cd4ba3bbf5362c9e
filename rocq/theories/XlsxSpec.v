(** How a spreadsheet export is read. *)
From Coq Require Import String.
From Verif Require Import Base UtilSpec LayoutSpec Types Value Node Log LogSpec Export ExportSpec DateSpec CellSpec CellData TreeSpec Show ShowSpec Xlsx.
Open Scope string_scope.
Open Scope N_scope.
Open Scope list_scope.

(** ** Cells *)
Definition same_sheet (a b : sheet) : bool :=
  match a, b with Items, Items | Logs, Logs | Overflow, Overflow => true | _, _ => false end.
Definition here (s : sheet) (r c : N) (w : write) : bool := same_sheet (w_sheet w) s && (w_row w =? r) && (w_col w =? c).
Definition is_link (w : write) : bool := match w_what w with Link _ => true | _ => false end.
(** What a cell holds: the last number or text written to it. *)
Definition cell_at (ws : list write) (s : sheet) (r c : N) : option written :=
  List.last (map (fun w => Some (w_what w)) (List.filter (fun w => here s r c w && negb (is_link w)) ws)) None.
(** Where a cell leads to: the last link written to it. *)
Definition link_at (ws : list write) (s : sheet) (r c : N) : option written :=
  List.last (map (fun w => Some (w_what w)) (List.filter (fun w => here s r c w && is_link w) ws)) None.
(** Nothing was ever written to it. *)
Definition blank (ws : list write) (s : sheet) (r c : N) : Prop := cell_at ws s r c = None /\ link_at ws s r c = None.
Definition number_at (ws : list write) (s : sheet) (r c n : N) : Prop :=
  cell_at ws s r c = Some (Number n) /\ link_at ws s r c = None.
Definition number_if_at (ws : list write) (s : sheet) (r c : N) (n : option N) : Prop :=
  match n with Some n => number_at ws s r c n | None => blank ws s r c end.

(** The parts of a text lie side by side, from a column on, up to the first blank
    cell. *)
Fixpoint parts_at (ws : list write) (r c : N) (parts : list (list N)) : Prop :=
  match parts with
  | [] => blank ws Overflow r c
  | p :: parts => cell_at ws Overflow r c = Some (Text p) /\ link_at ws Overflow r c = None /\ parts_at ws r (c + 1) parts
  end.
(** The text of a cell. A cell without a link has it in full. A cell with a link
    shows its first 250 characters and leads to a row of the sheet for long texts
    (rows are numbered from 1 in a link): its parts begin in the second
    column, and the first one repeats the number of the row. *)
Inductive reads (ws : list write) (s : sheet) (r c : N) : list N -> Prop :=
| reads_empty : blank ws s r c -> reads ws s r c []
| reads_cell t : cell_at ws s r c = Some (Text t) -> link_at ws s r c = None -> reads ws s r c t
| reads_link row n parts sample cs rest :
    link_at ws s r c = Some (Link (text "internal:Overflow!A" ++ row)) -> numeral row (n + 1) ->
    cell_at ws s r c = Some (Text (sample ++ text " [truncated; row: " ++ row ++ text "]")) ->
    cell_at ws Overflow n 0 = Some (Text (text " [truncated; row: " ++ row ++ text "]")) ->
    parts_at ws n 1 parts -> concat parts = sample ++ rest -> read_utf8 sample = Some cs -> len cs = 250 ->
    reads ws s r c (concat parts).

(** ** Characters *)
(** XML 1.0, production 2 (Char). *)
Definition xml_char (c : N) : Prop :=
  c = 9 \/ c = 0xA \/ c = 0xD \/ 0x20 <= c <= 0xD7FF \/ 0xE000 <= c <= 0xFFFD \/ 0x10000 <= c <= 0x10FFFF.
(** A character as it may be written: itself, or U+FFFD if it is not allowed. *)
Definition replaced (c d : N) : Prop := xml_char c /\ d = c \/ ~ xml_char c /\ d = 0xFFFD.
Definition xml_text (s shown : list N) : Prop :=
  exists cs ds, read_utf8 s = Some cs /\ read_utf8 shown = Some ds /\ Forall2 replaced cs ds.
Definition is_text (s : list N) : Prop := exists cs, read_utf8 s = Some cs.
Definition legal_text (s : list N) : Prop := exists cs, read_utf8 s = Some cs /\ Forall xml_char cs.

(** ** Rows *)
(** What a cell says about a content, with its type beside it. *)
Definition shown_content (type shown : list N) (c : cell_value) : Prop :=
  match c with
  | CString s => type = text "String" /\ xml_text s shown
  | _ => says type shown c
  end.
Definition text_cell (ws : list write) (s : sheet) (r c : N) (P : list N -> Prop) : Prop :=
  exists t, reads ws s r c t /\ P t.
(** The row of an item: row [r] has the number [r], since the header is row 0. *)
Definition xlsx_row (ws : list write) (key_logs : key_node -> list N) (value_logs : key_value -> list N) (r : N) (i : item) : Prop :=
  number_at ws Items r 0 r
  /\ (forall c, 12 < c -> blank ws Items r c)
  /\ match i with
     | KeyItem k =>
         text_cell ws Items r 1 (xml_text (kn_path k))
         /\ number_at ws Items r 2 (len (kn_sub_offsets k))
         /\ blank ws Items r 3 /\ blank ws Items r 4
         /\ text_cell ws Items r 5 (fun t => fits_i64 (filetime_instant (kd_time (kn_detail k))) -> denotes t (kd_time (kn_detail k)))
         /\ text_cell ws Items r 6 (eq (state_text (kn_state k)))
         /\ number_if_at ws Items r 7 (kn_seq k)
         /\ number_if_at ws Items r 8 (kn_updated_by k)
         /\ text_cell ws Items r 9 (tells_bits (text "KeyNodeFlags") key_bits (kd_flags (kn_detail k)))
         /\ text_cell ws Items r 10 (tells_bits (text "AccessFlags") access_bits (kd_access (kn_detail k)))
         /\ blank ws Items r 11
         /\ text_cell ws Items r 12 (xml_text (key_logs k))
     | ValueItem k v =>
         text_cell ws Items r 1 (xml_text (kn_path k))
         /\ blank ws Items r 2
         /\ text_cell ws Items r 3 (xml_text (value_name v))
         /\ (exists c logs, get_content v = Ok (c, logs) /\
             text_cell ws Items r 11 (fun type => text_cell ws Items r 4 (fun shown => shown_content type shown c)))
         /\ blank ws Items r 5
         /\ text_cell ws Items r 6 (eq (state_text (kv_state v)))
         /\ number_if_at ws Items r 7 (kv_seq v)
         /\ number_if_at ws Items r 8 (kv_updated_by v)
         /\ blank ws Items r 9 /\ blank ws Items r 10
         /\ text_cell ws Items r 12 (xml_text (value_logs v))
     end.
(** The sheet of the items: the header, a row for each item, nothing else. *)
Definition items_sheet (ws : list write) (key_logs : key_node -> list N) (value_logs : key_value -> list N) (is : list item) : Prop :=
  (forall c, match nth_error tsv_columns (N.to_nat c) with Some h => reads ws Items 0 c h | None => blank ws Items 0 c end)
  /\ (forall r i, nth_error is r = Some i -> xlsx_row ws key_logs value_logs (N.of_nat r + 1) i)
  /\ (forall r c, len is < r -> blank ws Items r c).
(** The sheet of the messages. *)
Definition logs_sheet (ws : list write) (ms : list message) : Prop :=
  (forall r m, nth_error ms r = Some m ->
     reads ws Logs (N.of_nat r) 0 (code_word (mg_code m)) /\ reads ws Logs (N.of_nat r) 1 (mg_text m)
     /\ forall c, 1 < c -> blank ws Logs (N.of_nat r) c)
  /\ forall r c, len ms <= r -> blank ws Logs r c.

(** The texts of an item are texts. *)
Definition item_texts (key_logs : key_node -> list N) (value_logs : key_value -> list N) (i : item) : Prop :=
  match i with
  | KeyItem k => is_text (kn_path k) /\ is_text (key_logs k)
  | ValueItem k v => is_text (kn_path k) /\ is_text (vd_name (kv_detail v)) /\ bytes_ok (data_bytes v) /\ is_text (value_logs v)
  end.

(** What the library accepts at most: the rows and columns of a sheet. *)
Definition in_sheet (accepts : list write -> write -> bool) : Prop :=
  forall past w, accepts past w = true -> w_row w < 1048576 /\ w_col w < 16384.
(** What it is known to accept: texts of up to 32767 characters and up to 65530
    links, in the sheet. *)
Definition fits_cell (past : list write) (w : write) : Prop :=
  w_row w < 1048576 /\ w_col w < 16384 /\
  match w_what w with
  | Number _ => True
  | Text t => exists cs, read_utf8 t = Some cs /\ len cs <= 32767
  | Link _ => len (List.filter is_link past) < 65530
  end.

(** ** Room *)
(** The texts of an item that may be long: its path, its messages, and a value's
    name and content. *)
Definition item_strings (printable : N -> bool) (key_logs : key_node -> list N) (value_logs : key_value -> list N) (i : item) : list (list N) :=
  match i with
  | KeyItem k => [kn_path k; key_logs k]
  | ValueItem k v =>
      [kn_path k; value_name v; match get_content v with Ok (c, _) => show_content printable c | _ => [] end; value_logs v]
  end.
(** Texts that fit in one cell, whatever characters are replaced in them. *)
Definition small_item (printable : N -> bool) (key_logs : key_node -> list N) (value_logs : key_value -> list N) (i : item) : bool :=
  forallb (fun t => len t <=? 10922) (item_strings printable key_logs value_logs i).
Definition small_message (m : message) : bool := len (mg_text m) <=? 32767.
(** The export has room: a row for each item and message, at most 65530 texts
    that need a link, and no text that fills a whole row of the sheet for long
    texts. *)
Definition has_room (printable : N -> bool) (key_logs : key_node -> list N) (value_logs : key_value -> list N) (is : list item) (ms : list message) : Prop :=
  len is < 1048576 /\ len ms <= 1048576
  /\ 4 * len (List.filter (fun i => negb (small_item printable key_logs value_logs i)) is) + len (List.filter (fun m => negb (small_message m)) ms) <= 65530
  /\ Forall (fun i => Forall (fun t => len t <= 16383 * 32767) (item_strings printable key_logs value_logs i)) is
  /\ Forall (fun m => len (mg_text m) <= 16383 * 32767) ms.

(** ** Trees *)
(** The row of a key ([None]) or of one of its values, as the bytes of a hive
    define it. *)
Definition tree_xlsx_row (buffer : list N) (ws : list write) (r : N) (x : list (list N) * key_tree * option value) : Prop :=
  let '(names, t, o) := x in
  number_at ws Items r 0 r
  /\ text_cell ws Items r 1 (fun s => exists ds, read_utf8 s = Some ds /\ Forall2 replaced (spelled names) ds)
  /\ text_cell ws Items r 6 (eq (text "Allocated"))
  /\ match o with
     | None =>
         blank ws Items r 3
         /\ text_cell ws Items r 5 (fun s => fits_i64 (filetime_instant (stored_time buffer t)) -> denotes s (stored_time buffer t))
         /\ text_cell ws Items r 9 (tells_bits (text "KeyNodeFlags") key_bits (num_at buffer (t_pos t + 6) 2))
         /\ text_cell ws Items r 10 (tells_bits (text "AccessFlags") access_bits (num_at buffer (t_pos t + 16) 4))
     | Some v =>
         text_cell ws Items r 3 (fun s => exists ds, read_utf8 s = Some ds
           /\ Forall2 replaced (match v_name v with [] => text "(default)" | m => m end) ds)
         /\ (forall c, stored_content (shown_type (v_type v)) (value_data (v_type v mod 4096) (v_data v)) c ->
             text_cell ws Items r 11 (fun type => text_cell ws Items r 4 (fun shown => shown_content type shown c)))
     end.
Definition tree_items_sheet (buffer : list N) (ws : list write) (xs : list (list (list N) * key_tree * option value)) : Prop :=
  (forall c, match nth_error tsv_columns (N.to_nat c) with Some h => reads ws Items 0 c h | None => blank ws Items 0 c end)
  /\ (forall r x, nth_error xs r = Some x -> tree_xlsx_row buffer ws (N.of_nat r + 1) x)
  /\ (forall r c, len xs < r -> blank ws Items r c).
