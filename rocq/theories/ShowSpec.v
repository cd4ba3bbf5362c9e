(** How the texts of contents and flags are read. *)
From Coq Require Import String.
From Verif Require Import Base UtilSpec UtilText LayoutSpec Types Value CellSpec CellData TreeSpec Log Export ExportSpec DateSpec.
Open Scope string_scope.
Open Scope N_scope.
Open Scope list_scope.

(** ** Lists of quoted strings *)
Definition small_hex (c : N) : option N :=
  if (48 <=? c) && (c <=? 57) then Some (c - 48)
  else if (97 <=? c) && (c <=? 102) then Some (c - 87)
  else None.
(** Where the reader is: at the first string, after a string, in a string with
    what it has read of it, after a backslash, or in a number between braces. *)
Inductive place := First | After | Inside (cur : list N) | Escape (cur : list N) | Code (n : N) (cur : list N).
Definition escapes : list (N * N) := [(48, 0); (116, 9); (114, 13); (110, 10); (92, 92); (34, 34)].
Fixpoint read_strings (p : place) (s : list N) : option (list (list N)) :=
  match s with
  | [] => None
  | c :: r =>
      match p with
      | First => if c =? 93 then match r with [] => Some [] | _ => None end
                 else if c =? 34 then read_strings (Inside []) r else None
      | After => if c =? 93 then match r with [] => Some [] | _ => None end
                 else match r with
                      | d :: e :: r => if (c =? 44) && (d =? 32) && (e =? 34) then read_strings (Inside []) r else None
                      | _ => None
                      end
      | Inside cur => if c =? 34 then option_map (cons (rev cur)) (read_strings After r)
                      else if c =? 92 then read_strings (Escape cur) r
                      else read_strings (Inside (c :: cur)) r
      | Escape cur => match find (fun e => fst e =? c) escapes with
                      | Some e => read_strings (Inside (snd e :: cur)) r
                      | None => match r with
                                | d :: r => if (c =? 117) && (d =? 123) then read_strings (Code 0 cur) r else None
                                | _ => None
                                end
                      end
      | Code n cur => if c =? 125 then read_strings (Inside (n :: cur)) r
                      else match small_hex c with Some d => read_strings (Code (16 * n + d) cur) r | None => None end
      end
  end.
Definition read_listing (s : list N) : option (list (list N)) :=
  match s with 91 :: r => read_strings First r | _ => None end.

(** ** Contents *)
Definition signed_numeral (d : list N) (z : Z) : Prop :=
  if (z <? 0)%Z then exists m, d = 45 :: m /\ numeral m (Z.to_N (- z)) else numeral d (Z.to_N z).
(** What a type and a text say. *)
Definition says (type shown : list N) (c : cell_value) : Prop :=
  match c with
  | CNone => type = text "None" /\ shown = []
  | CBinary b => type = text "Binary" /\ read_hex shown = Some b
  | CString s => type = text "String" /\ shown = s
  | CMultiString l => type = text "MultiString" /\ exists cs strings,
      read_utf8 shown = Some cs /\ read_listing cs = Some strings /\ map read_utf8 l = map Some strings
  | CU32 n => type = text "U32" /\ numeral shown n
  | CI32 z => type = text "I32" /\ signed_numeral shown z
  | CU64 n => type = text "U64" /\ numeral shown n
  | CI64 z => type = text "I64" /\ signed_numeral shown z
  | CError => type = text "Error" /\ shown = []
  end.

(** ** Flags *)
(** The names between the parentheses. *)
Definition names_text (type : list N) (names : list (list N)) (shown : list N) : Prop :=
  exists inner, shown = type ++ [40] ++ inner ++ [41]
  /\ match names with
     | [] => inner = text "0x0"
     | n :: r => inner = n ++ flat_map (fun m => text " | " ++ m) r
     end.
(** [MS-REGF]: the bits of a key's flags and of its access flags. *)
Definition key_bits : list (list N * N) :=
  [(text "KEY_VOLATILE", 0); (text "KEY_HIVE_EXIT", 1); (text "KEY_HIVE_ENTRY", 2); (text "KEY_NO_DELETE", 3);
   (text "KEY_SYM_LINK", 4); (text "KEY_COMP_NAME", 5); (text "KEY_PREDEF_HANDLE", 6); (text "KEY_VIRTUAL_SOURCE", 7);
   (text "KEY_VIRTUAL_TARGET", 8); (text "KEY_VIRTUAL_STORE", 9); (text "KEY_UNKNOWN1", 12); (text "KEY_UNKNOWN2", 14)].
Definition access_bits : list (list N * N) := [(text "ACCESSED_BEFORE_INIT", 0); (text "ACCESSED_AFTER_INIT", 1)].
(** The names of the bits that are set, and no others. *)
Definition tells_bits (type : list N) (bits : list (list N * N)) (n : N) (shown : list N) : Prop :=
  exists names, names_text type names shown /\ Forall (fun m => In m (map fst bits)) names
  /\ forall m b, In (m, b) bits -> (In m names <-> N.testbit n b = true).

(** ** Rows *)
(** What the columns of a row of the tab-separated export say about its item. *)
Definition tsv_says (i : item) (row : list (list N)) : Prop :=
  match i with
  | KeyItem k =>
      (fits_i64 (filetime_instant (kd_time (kn_detail k))) -> denotes (nth 5 row []) (kd_time (kn_detail k)))
      /\ tells_bits (text "KeyNodeFlags") key_bits (kd_flags (kn_detail k)) (nth 9 row [])
      /\ tells_bits (text "AccessFlags") access_bits (kd_access (kn_detail k)) (nth 10 row [])
  | ValueItem _ v => exists c logs, get_content v = Ok (c, logs)
      /\ (bytes_ok (data_bytes v) -> says (nth 11 row []) (nth 4 row []) c)
  end.

(** What the data of a value means, by its type. *)
Inductive stored_content (t : N) : list N -> cell_value -> Prop :=
| stored_u32 n r : In t [4; 0x105] -> n < 2 ^ 32 -> stored_content t (enc 4 n ++ r) (CU32 n)
| stored_big n r : t = 5 -> n < 2 ^ 32 -> stored_content t (rev (enc 4 n) ++ r) (CU32 n)
| stored_u64 n r : In t [0xB; 0x107; 0x10] -> n < 2 ^ 64 -> stored_content t (enc 8 n ++ r) (CU64 n)
| stored_u8 n r : In t [0x101; 0x10B] -> n < 2 ^ 8 -> stored_content t (enc 1 n ++ r) (CU32 n)
| stored_u16 n r : t = 0x103 -> n < 2 ^ 16 -> stored_content t (enc 2 n ++ r) (CU32 n)
| stored_i16 z r : t = 0x102 -> (- 2 ^ 15 <= z < 2 ^ 15)%Z -> stored_content t (enc_i16 z ++ r) (CI32 z)
| stored_i32 z r : t = 0x104 -> (- 2 ^ 31 <= z < 2 ^ 31)%Z -> stored_content t (enc_i32 z ++ r) (CI32 z)
| stored_i64 z r : t = 0x106 -> (- 2 ^ 63 <= z < 2 ^ 63)%Z -> stored_content t (enc_i64 z ++ r) (CI64 z)
| stored_string s u tail : In t [1; 2; 6] -> Forall scalar u -> ~ In 0 u -> utf16_end tail -> read_utf8 s = Some u ->
    stored_content t (utf16le u ++ tail) (CString s)
| stored_strings l us junk : t = 7 -> Forall (fun s => Forall bmp s /\ ~ Forall white_space s) us -> utf16_end junk ->
    map read_utf8 l = map Some us ->
    stored_content t (flat_map (fun s => utf16le s ++ [0; 0]) us ++ junk) (CMultiString l)
| stored_bytes b : ~ In t typed -> stored_content t b (CBinary b)
| stored_short b n : fixed_width t = Some n \/ t = 0x10B /\ n = 1 -> len b < n -> stored_content t b (CBinary b).
(** The row of a key or a value of a hive in the tab-separated export. *)
Definition tree_tsv_row (buffer : list N) (n : N) (x : list (list N) * key_tree * option value) (row : list (list N)) : Prop :=
  let '(names, t, o) := x in
  numeral (nth 0 row []) n /\ read_utf8 (nth 1 row []) = Some (spelled names) /\ nth 6 row [] = text "Allocated"
  /\ match o with
     | None =>
         nth 3 row [] = []
         /\ (fits_i64 (filetime_instant (stored_time buffer t)) -> denotes (nth 5 row []) (stored_time buffer t))
         /\ tells_bits (text "KeyNodeFlags") key_bits (num_at buffer (t_pos t + 6) 2) (nth 9 row [])
         /\ tells_bits (text "AccessFlags") access_bits (num_at buffer (t_pos t + 16) 4) (nth 10 row [])
     | Some v =>
         read_utf8 (nth 3 row []) = Some (match v_name v with [] => text "(default)" | m => m end)
         /\ forall c, stored_content (shown_type (v_type v)) (value_data (v_type v mod 4096) (v_data v)) c ->
            bytes_ok (value_data (v_type v mod 4096) (v_data v)) -> says (nth 11 row []) (nth 4 row []) c
     end.
(** Rows numbered from [n] on. *)
Inductive tree_tsv_rows (buffer : list N) : N -> list (list (list N) * key_tree * option value) -> list (list (list N)) -> Prop :=
| tree_tsv_end n : tree_tsv_rows buffer n [] []
| tree_tsv_next n x xs row rows : tree_tsv_row buffer n x row -> tree_tsv_rows buffer (n + 1) xs rows ->
    tree_tsv_rows buffer n (x :: xs) (row :: rows).
