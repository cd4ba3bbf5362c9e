(** Model of the texts of decoded contents and of flags: [Display] of [CellValue]
    and its type in src/cell_value.rs, [{:?}] of the flag sets of
    src/cell_key_node.rs and src/macros.rs, and what tsv_writer.rs shows with them. *)
From Coq Require Import String.
From Verif Require Import Base Util Types Value Node Log Export Date.
Open Scope string_scope.
Open Scope N_scope.
Open Scope list_scope.

(** The characters of a [String], [str::chars] (std); a Rust [String] is valid
    UTF-8, so nothing is checked. *)
Fixpoint str_chars (s : list N) : list N :=
  match s with
  | [] => []
  | a :: r =>
      if a <? 0x80 then a :: str_chars r
      else if a <? 0xE0 then
        match r with b :: r => ((a - 0xC0) * 64 + (b - 0x80)) :: str_chars r | _ => [] end
      else if a <? 0xF0 then
        match r with b :: c :: r => ((a - 0xE0) * 4096 + (b - 0x80) * 64 + (c - 0x80)) :: str_chars r | _ => [] end
      else
        match r with
        | b :: c :: d :: r => ((a - 0xF0) * 262144 + (b - 0x80) * 4096 + (c - 0x80) * 64 + (d - 0x80)) :: str_chars r
        | _ => []
        end
  end.

(** [{:x}] (std). *)
Definition hex_small (n : N) : N := if n <? 10 then 48 + n else 87 + n.
Fixpoint hex_digits (fuel : nat) (n : N) (r : list N) : list N :=
  match fuel with
  | O => r
  | S fuel => let r := hex_small (n mod 16) :: r in if n <? 16 then r else hex_digits fuel (n / 16) r
  end.
Definition hexadecimal (n : N) : list N := hex_digits (S (N.size_nat n)) n [].

(** [char::escape_debug] as [{:?}] of a [str] uses it (std): [printable] stands
    for the tables of Unicode, "is printable and does not extend a grapheme". *)
Definition debug_char (printable : N -> bool) (c : N) : list N :=
  if c =? 0 then [92; 48]
  else if c =? 9 then [92; 116]
  else if c =? 13 then [92; 114]
  else if c =? 10 then [92; 110]
  else if c =? 92 then [92; 92]
  else if c =? 34 then [92; 34]
  else if printable c then utf8_char c
  else [92; 117; 123] ++ hexadecimal c ++ [125].
Definition debug_str (printable : N -> bool) (s : list N) : list N :=
  [34] ++ flat_map (debug_char printable) (str_chars s) ++ [34].
(** [{:?}] of a [Vec<String>] (std). *)
Fixpoint join (sep : list N) (l : list (list N)) : list N :=
  match l with
  | [] => []
  | [x] => x
  | x :: l => x ++ sep ++ join sep l
  end.
Definition debug_strings (printable : N -> bool) (l : list (list N)) : list N :=
  [91] ++ join [44; 32] (map (debug_str printable) l) ++ [93].
(** [{}] of a signed number (std). *)
Definition decimal_z (z : Z) : list N :=
  if (z <? 0)%Z then 45 :: decimal (Z.to_N (- z)) else decimal (Z.to_N z).

(** [Display] of [CellValue], src/cell_value.rs:43-56. *)
Definition show_content (printable : N -> bool) (c : cell_value) : list N :=
  match c with
  | CBinary b => to_hex_string b
  | CString s => s
  | CMultiString l => debug_strings printable l
  | CU32 n => decimal n
  | CI32 z => decimal_z z
  | CU64 n => decimal n
  | CI64 z => decimal_z z
  | CNone | CError => []
  end.
(** [get_type], src/cell_value.rs:35-41: the name of the variant. *)
Definition show_type (c : cell_value) : list N :=
  match c with
  | CNone => text "None"
  | CBinary _ => text "Binary"
  | CString _ => text "String"
  | CMultiString _ => text "MultiString"
  | CU32 _ => text "U32"
  | CI32 _ => text "I32"
  | CU64 _ => text "U64"
  | CI64 _ => text "I64"
  | CError => text "Error"
  end.

(** The flags, src/cell_key_node.rs:816-858. *)
Definition key_flag_names : list (list N * N) :=
  [(text "KEY_VOLATILE", 0x0001); (text "KEY_HIVE_EXIT", 0x0002); (text "KEY_HIVE_ENTRY", 0x0004);
   (text "KEY_NO_DELETE", 0x0008); (text "KEY_SYM_LINK", 0x0010); (text "KEY_COMP_NAME", 0x0020);
   (text "KEY_PREDEF_HANDLE", 0x0040); (text "KEY_VIRTUAL_SOURCE", 0x0080); (text "KEY_VIRTUAL_TARGET", 0x0100);
   (text "KEY_VIRTUAL_STORE", 0x0200); (text "KEY_UNKNOWN1", 0x1000); (text "KEY_UNKNOWN2", 0x4000)].
Definition access_flag_names : list (list N * N) :=
  [(text "ACCESSED_BEFORE_INIT", 1); (text "ACCESSED_AFTER_INIT", 2)].
(** [from_bits_checked] (src/macros.rs:34-59) keeps the named bits; [{:?}] of a
    set of the bitflags crate, version 2: the names of the set flags in the order
    of the declaration, or 0x0. *)
Definition show_flags (type : list N) (names : list (list N * N)) (bits : N) : list N :=
  let set := List.filter (fun f => N.land bits (snd f) =? snd f) names in
  type ++ [40] ++ match set with [] => text "0x0" | _ => join (text " | ") (map fst set) end ++ [41].
Definition show_key_flags : N -> list N := show_flags (text "KeyNodeFlags") key_flag_names.
Definition show_access_flags : N -> list N := show_flags (text "AccessFlags") access_flag_names.

(** What tsv_writer.rs shows, bin/reg_dump/tsv_writer.rs:71-86,98-113. Only the
    texts of the logs are left open; [get_content] does not panic
    ([C21_content]). *)
Definition content_of_value (v : key_value) : cell_value :=
  match get_content v with Ok (c, _) => c | _ => CError end.
Definition as_shown (printable : N -> bool) (key_logs : key_node -> list N) (value_logs : key_value -> list N) : renderer :=
  mkRender format_date_time show_key_flags show_access_flags
    (fun v => show_content printable (content_of_value v)) (fun v => show_type (content_of_value v))
    key_logs value_logs.
