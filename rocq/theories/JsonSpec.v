(** How a JSON document is read, and what the documents of the export say. *)
From Coq Require Import String.
From Verif Require Import Base Util UtilSpec UtilText LayoutSpec Types Value CellSpec CellData TreeSpec Log LogSpec Export ExportSpec DateSpec ShowSpec.
Open Scope string_scope.
Open Scope N_scope.
Open Scope list_scope.

(** ** RFC 8259, on UTF-8 bytes. Numbers are whole, without fraction and exponent;
    other numbers, pairs of surrogates and the two truth values, none of which occur
    here, are refused. *)
Inductive json := Null | Num (z : Z) | Str (s : list N) | Arr (l : list json) | Obj (l : list (list N * json)).
Fixpoint skip (s : list N) : list N :=
  match s with c :: r => if (c =? 32) || (c =? 9) || (c =? 10) || (c =? 13) then skip r else s | [] => [] end.
Definition json_escapes : list (N * N) := [(34, 34); (92, 92); (47, 47); (98, 8); (102, 12); (110, 10); (114, 13); (116, 9)].
Definition any_hex (c : N) : option N := match hex_value c with Some n => Some n | None => small_hex c end.
Definition hex4 (a b c d : N) : option N :=
  match any_hex a, any_hex b, any_hex c, any_hex d with
  | Some a, Some b, Some c, Some d => Some (4096 * a + 256 * b + 16 * c + d)
  | _, _, _, _ => None
  end.
Definition before {A B} (a : list A) (o : option (list A * B)) : option (list A * B) :=
  match o with Some (l, b) => Some (a ++ l, b) | None => None end.
Fixpoint read_str (s : list N) : option (list N * list N) :=
  match s with
  | [] => None
  | c :: r =>
      if c =? 34 then Some ([], r)
      else if c =? 92 then
        match r with
        | e :: r =>
            match find (fun x => fst x =? e) json_escapes with
            | Some x => before [snd x] (read_str r)
            | None =>
                match r with
                | h :: i :: j :: k :: r =>
                    if e =? 117 then
                      match hex4 h i j k with
                      | Some n => if (0xD800 <=? n) && (n <? 0xE000) then None else before (utf8_char n) (read_str r)
                      | None => None
                      end
                    else None
                | _ => None
                end
            end
        | [] => None
        end
      else if c <? 32 then None
      else before [c] (read_str r)
  end.
Fixpoint read_digits (n : N) (s : list N) : N * list N :=
  match s with
  | c :: r => if (48 <=? c) && (c <=? 57) then read_digits (10 * n + (c - 48)) r else (n, s)
  | [] => (n, [])
  end.
Definition read_whole (s : list N) : option (N * list N) :=
  match s with
  | 48 :: r => match r with c :: _ => if (48 <=? c) && (c <=? 57) then None else Some (0, r) | [] => Some (0, []) end
  | c :: _ => if (48 <=? c) && (c <=? 57) then Some (read_digits 0 s) else None
  | [] => None
  end.
Definition whole_ends (s : list N) : bool :=
  match s with c :: _ => negb ((c =? 46) || (c =? 101) || (c =? 69)) | [] => true end.
Definition read_num (s : list N) : option (Z * list N) :=
  match (match s with 45 :: r => option_map (fun x => ((- Z.of_N (fst x))%Z, snd x)) (read_whole r)
                    | _ => option_map (fun x => (Z.of_N (fst x), snd x)) (read_whole s) end) with
  | Some (z, r) => if whole_ends r then Some (z, r) else None
  | None => None
  end.
Fixpoint read_value (fuel : nat) (s : list N) : option (json * list N) :=
  match fuel with
  | O => None
  | S fuel =>
      match skip s with
      | 34 :: r => match read_str r with Some (x, r) => Some (Str x, r) | None => None end
      | 91 :: r => match skip r with
                   | 93 :: r' => Some (Arr [], r')
                   | _ => match read_items fuel r with Some (l, r) => Some (Arr l, r) | None => None end
                   end
      | 123 :: r => match skip r with
                    | 125 :: r' => Some (Obj [], r')
                    | _ => match read_members fuel r with Some (l, r) => Some (Obj l, r) | None => None end
                    end
      | 110 :: 117 :: 108 :: 108 :: r => Some (Null, r)
      | t => match read_num t with Some (z, r) => Some (Num z, r) | None => None end
      end
  end
with read_items (fuel : nat) (s : list N) : option (list json * list N) :=
  match fuel with
  | O => None
  | S fuel =>
      match read_value fuel s with
      | Some (x, r) =>
          match skip r with
          | 93 :: r => Some ([x], r)
          | 44 :: r => before [x] (read_items fuel r)
          | _ => None
          end
      | None => None
      end
  end
with read_members (fuel : nat) (s : list N) : option (list (list N * json) * list N) :=
  match fuel with
  | O => None
  | S fuel =>
      match skip s with
      | 34 :: r =>
          match read_str r with
          | Some (name, r) =>
              match skip r with
              | 58 :: r =>
                  match read_value fuel r with
                  | Some (x, r) =>
                      match skip r with
                      | 125 :: r => Some ([(name, x)], r)
                      | 44 :: r => before [(name, x)] (read_members fuel r)
                      | _ => None
                      end
                  | None => None
                  end
              | _ => None
              end
          | None => None
          end
      | _ => None
      end
  end.
Definition read_json (s : list N) : option json :=
  match read_value (S (List.length s)) s with
  | Some (j, r) => match skip r with [] => Some j | _ => None end
  | None => None
  end.
(** One document per line. *)
Inductive read_lines : list N -> list json -> Prop :=
| no_lines : read_lines [] []
| next_line line rest j js : ~ In 10 line -> read_json line = Some j -> read_lines rest js -> read_lines (line ++ [10] ++ rest) (j :: js).

(** The member of an object, if there is exactly one of the name. *)
Definition member (name : string) (j : json) : option json :=
  match j with
  | Obj l => match List.filter (fun e => beq (fst e) (text name)) l with [e] => Some (snd e) | _ => None end
  | _ => None
  end.
(** An object with nothing but this member. *)
Definition tagged (name : string) (x : json) : json := Obj [(text name, x)].
Definition num (n : N) : json := Num (Z.of_N n).
Definition maybe (o : option N) : json := match o with Some n => num n | None => Null end.
Definition called (s : cell_state) : json :=
  Str (text match s with
            | DeletedTransactionLog => "DeletedTransactionLog" | DeletedPrimaryFile => "DeletedPrimaryFile" | DeletedPrimaryFileSlack => "DeletedPrimaryFileSlack"
            | Allocated => "Allocated" | ModifiedTransactionLog => "ModifiedTransactionLog" end).

(** ** What the documents say *)
Definition says_logs (l : logs) (j : json) : Prop :=
  match l with
  | None => member "logs" j = Some Null
  | Some ms => exists js, member "logs" j = Some (Arr js)
      /\ Forall2 (fun m x => member "code" x = Some (Str (code_word (mg_code m))) /\ member "text" x = Some (Str (mg_text m))) ms js
  end.
(** The fields of a structure, with their places when these were asked for. *)
Definition says_fields (places : option (list (N * N))) (fields : list (string * json)) (j : json) : Prop :=
  exists inner, j = tagged (match places with Some _ => "Full" | None => "Light" end) inner
  /\ forall i name x, nth_error fields i = Some (name, x) -> exists f, member name inner = Some f /\ member "value" f = Some x
     /\ match places with
        | Some t => forall offset n, nth_error t i = Some (offset, n) -> member "offset" f = Some (num offset) /\ member "len" f = Some (num n)
        | None => True
        end.
(** What is said about a field in words. *)
Definition noted (name : string) (j : json) (P : list N -> Prop) : Prop :=
  exists tag inner f s, j = tagged tag inner /\ member name inner = Some f /\ member "interpreted" f = Some (Str s) /\ P s.
(** A number in base 16, as short as possible. *)
Fixpoint read_base16 (n : N) (s : list N) : option N :=
  match s with [] => Some n | c :: r => match hex_value c with Some d => read_base16 (16 * n + d) r | None => None end end.
Definition hex_numeral (s : list N) (n : N) : Prop := read_base16 0 s = Some n /\ s <> [] /\ (hd_error s = Some 48 -> s = [48]).
(** A field of bits carries a warning iff one of them has no name; it shows them all. *)
Definition all_named (known : list (list N * N)) (bits : N) : Prop := forall i, N.testbit bits i = true -> In i (map snd known).
Definition warned (name : string) (type : list N) (known : list (list N * N)) (bits : N) (j : json) : Prop :=
  exists tag inner f, j = tagged tag inner /\ member name inner = Some f
  /\ ((all_named known bits /\ member "logs" f = None)
      \/ (~ all_named known bits /\ exists digits, hex_numeral digits bits
          /\ member "logs" f = Some (Str (text "WarningUnrecognizedBitflag notatin::cell_key_node::" ++ type ++ text "::from_bits_checked: 0x" ++ digits ++ text ";")))).
Definition key_fields (d : nk_detail) : list (string * json) :=
  [("size", Num (kd_size d)); ("signature", Str (text "nk")); ("key_node_flag_bits", num (kd_flags d)); ("last_key_written_date_and_time", num (kd_time d));
   ("access_flag_bits", num (kd_access d)); ("parent_key_offset_relative", Num (kd_parent d)); ("number_of_sub_keys", num (kd_nsub d));
   ("number_of_volatile_sub_keys", num (kd_nvol d)); ("sub_keys_list_offset_relative", num (kd_sublist d)); ("volatile_sub_keys_list_offset_relative", Num (kd_vollist d));
   ("number_of_key_values", num (kd_nvalues d)); ("key_values_list_offset_relative", Num (kd_vallist d)); ("security_key_offset_relative", num (kd_security d));
   ("class_name_offset_relative", Num (kd_class d)); ("largest_sub_key_name_size", num (kd_max_name d)); ("largest_sub_key_class_name_size", num (kd_max_class d));
   ("largest_value_name_size", num (kd_max_value_name d)); ("largest_value_data_size", num (kd_max_value_data d)); ("work_var", num (kd_work d));
   ("key_name_size", num (kd_name_size d)); ("class_name_size", num (kd_class_size d)); ("slack", Arr (map num (kd_slack d)))].
Definition value_fields (d : vk_detail) : list (string * json) :=
  [("size", Num (vd_size d)); ("signature", Str (text "vk")); ("value_name_size", num (vd_name_size d)); ("data_size_raw", num (vd_data_size_raw d));
   ("data_offset_relative", num (vd_data_offset d)); ("data_type_raw", num (vd_type_raw d)); ("flags_raw", num (vd_flags_raw d)); ("padding", num (vd_padding d));
   ("value_name", Str (vd_name d)); ("slack", Arr (map num (vd_slack d)))].
Definition says_key_detail (d : nk_detail) (j : json) : Prop :=
  says_fields (kd_full d) (key_fields d) j
  /\ noted "key_node_flag_bits" j (tells_bits (text "KeyNodeFlags") key_bits (kd_flags d))
  /\ noted "access_flag_bits" j (tells_bits (text "AccessFlags") access_bits (kd_access d))
  /\ noted "last_key_written_date_and_time" j (fun s => fits_i64 (filetime_instant (kd_time d)) -> denotes s (kd_time d))
  /\ warned "key_node_flag_bits" (text "KeyNodeFlags") key_bits (kd_flags d) j
  /\ warned "access_flag_bits" (text "AccessFlags") access_bits (kd_access d) j.
Definition says_content (c : cell_value) (j : json) : Prop :=
  match c with
  | CNone => j = Str (text "None")
  | CBinary b => exists h, j = tagged "Binary" (Str h) /\ read_hex h = Some b
  | CString s => j = tagged "String" (Str s)
  | CMultiString l => j = tagged "MultiString" (Arr (map Str l))
  | CU32 n => j = tagged "U32" (num n)
  | CI32 z => j = tagged "I32" (Num z)
  | CU64 n => j = tagged "U64" (num n)
  | CI64 z => j = tagged "I64" (Num z)
  | CError => j = Str (text "Error")
  end.
(** [MS-REGF]: the types with a common name. *)
Definition common_types : list (N * string) :=
  [(0, "REG_NONE"); (1, "REG_SZ"); (2, "REG_EXPAND_SZ"); (3, "REG_BIN"); (4, "REG_DWORD"); (5, "REG_DWORD_BIG_ENDIAN"); (6, "REG_LINK"); (7, "REG_MULTI_SZ");
   (8, "REG_RESOURCE_LIST"); (9, "REG_FULL_RESOURCE_DESCRIPTOR"); (10, "REG_RESOURCE_REQUIREMENTS_LIST"); (11, "REG_QWORD"); (16, "REG_FILETIME")].
Definition says_type (t : N) (j : json) : Prop := exists name, j = Str name /\ forall u n, In (u, n) common_types -> (t = u <-> name = text n).
Definition value_bits : list (list N * N) := [(text "VALUE_COMP_NAME_ASCII", 0); (text "IS_TOMBSTONE", 1)].
Section Said.
Context (key_logs : key_node -> logs) (value_logs : key_value -> logs) (content_logs : key_value -> option logs).
Inductive says_value : key_value -> json -> Prop :=
| value_said v j detail type flags warnings content more c codes vs :
    member "file_offset_absolute" j = Some (num (kv_offset v)) ->
    member "detail" j = Some detail -> says_fields (vd_full (kv_detail v)) (value_fields (kv_detail v)) detail ->
    member "data_type" j = Some type -> says_type (kv_type v) type ->
    member "flags" j = Some (Str flags) -> tells_bits (text "CellKeyValueFlags") value_bits (kv_flags v) flags ->
    member "value_name" j = Some (Str (value_name v)) ->
    member "cell_parse_warnings" j = Some warnings -> says_logs (value_logs v) warnings ->
    member "sequence_num" j = Some (maybe (kv_seq v)) -> member "updated_by_sequence_num" j = Some (maybe (kv_updated_by v)) ->
    member "data_offsets_absolute" j = Some (Arr (map num (kv_data_offsets v))) ->
    member "state" j = Some (called (kv_state v)) ->
    get_content v = Ok (c, codes) -> member "value" j = Some content -> (bytes_ok (data_bytes v) -> says_content c content) ->
    member "value_parse_warnings" j = Some more -> match content_logs v with Some l => says_logs l more | None => more = Null end ->
    member "versions" j = Some (Arr vs) -> Forall2 says_value (kv_versions v) vs ->
    noted "value_name" detail (fun s => s = value_name v) ->
    says_value v j.
Definition says_key (k : key_node) (j : json) : Prop :=
  member "file_offset_absolute" j = Some (num (kn_offset k))
  /\ (exists detail, member "detail" j = Some detail /\ says_key_detail (kn_detail k) detail)
  /\ member "key_name" j = Some (Str (kn_name k)) /\ member "path" j = Some (Str (kn_path k)) /\ member "cell_state" j = Some (called (kn_state k))
  /\ member "sequence_num" j = Some (maybe (kn_seq k)) /\ member "updated_by_sequence_num" j = Some (maybe (kn_updated_by k))
  /\ (exists vs, member "sub_values" j = Some (Arr vs) /\ Forall2 says_value (kn_values k) vs)
  /\ (exists l, member "logs" j = Some l /\ says_logs (key_logs k) l).
End Said.

(** ** What two keys share when their documents are the same *)
Definition without_places (d : nk_detail) : nk_detail :=
  mkKD (kd_size d) (kd_flags d) (kd_time d) (kd_access d) (kd_parent d) (kd_nsub d) (kd_nvol d) (kd_sublist d) (kd_vollist d) (kd_nvalues d) (kd_vallist d)
    (kd_security d) (kd_class d) (kd_max_name d) (kd_max_class d) (kd_max_value_name d) (kd_max_value_data d) (kd_work d) (kd_name_size d) (kd_class_size d) (kd_slack d) None.
Definition cell_fields (d : vk_detail) : vk_detail :=
  mkVD (vd_size d) (vd_name_size d) (vd_data_size_raw d) (vd_data_offset d) (vd_type_raw d) (vd_flags_raw d) (vd_padding d) (vd_name d) (vd_slack d) None None.
Inductive same_value : key_value -> key_value -> Prop :=
| value_same v w : kv_offset v = kv_offset w -> cell_fields (kv_detail v) = cell_fields (kv_detail w) -> kv_data_offsets v = kv_data_offsets w ->
    kv_state v = kv_state w -> kv_seq v = kv_seq w -> kv_updated_by v = kv_updated_by w ->
    (bytes_ok (data_bytes v) -> bytes_ok (data_bytes w) -> forall c d lc ld, get_content v = Ok (c, lc) -> get_content w = Ok (d, ld) -> c = d) ->
    Forall2 same_value (kv_versions v) (kv_versions w) -> same_value v w.
Definition same_key (k l : key_node) : Prop :=
  kn_offset k = kn_offset l /\ without_places (kn_detail k) = without_places (kn_detail l) /\ kn_name k = kn_name l /\ kn_path k = kn_path l
  /\ kn_state k = kn_state l /\ kn_seq k = kn_seq l /\ kn_updated_by k = kn_updated_by l /\ Forall2 same_value (kn_values k) (kn_values l).

(** ** The documents of a hive *)
Definition at_detail (name : string) (j : json) (x : json) : Prop :=
  exists tag inner f, member "detail" j = Some (tagged tag inner) /\ member name inner = Some f /\ member "value" f = Some x.
Definition tree_value (x : value) (j : json) : Prop :=
  (exists name, member "value_name" j = Some (Str name) /\ read_utf8 name = Some (match v_name x with [] => text "(default)" | m => m end))
  /\ at_detail "data_type_raw" j (num (v_type x)) /\ (exists type, member "data_type" j = Some type /\ says_type (shown_type (v_type x)) type)
  /\ member "state" j = Some (Str (text "Allocated"))
  /\ exists content, member "value" j = Some content
     /\ forall c, stored_content (shown_type (v_type x)) (value_data (v_type x mod 4096) (v_data x)) c ->
        bytes_ok (value_data (v_type x mod 4096) (v_data x)) -> says_content c content.
Definition tree_doc (buffer : list N) (x : list (list N) * key_tree) (j : json) : Prop :=
  (exists path, member "path" j = Some (Str path) /\ read_utf8 path = Some (spelled (fst x)))
  /\ (exists name, member "key_name" j = Some (Str name) /\ read_utf8 name = Some (t_name (snd x)))
  /\ member "file_offset_absolute" j = Some (num (t_pos (snd x))) /\ member "cell_state" j = Some (Str (text "Allocated"))
  /\ at_detail "last_key_written_date_and_time" j (num (stored_time buffer (snd x)))
  /\ at_detail "key_node_flag_bits" j (num (num_at buffer (t_pos (snd x) + 6) 2))
  /\ at_detail "access_flag_bits" j (num (num_at buffer (t_pos (snd x) + 16) 4))
  /\ exists vs, member "sub_values" j = Some (Arr vs) /\ Forall2 tree_value (t_vals (snd x)) vs.
