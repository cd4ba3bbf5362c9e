(** Model of the JSON export: bin/reg_dump/json_writer.rs, src/field_serializers.rs,
    and what [serde] derives for the structures below a key; [serde_json] writes in
    its compact form. The messages of keys and values are parameters. *)
From Coq Require Import String.
From Verif Require Import Base Util Types Value Node Parser TxLog Log Export Date Show.
Open Scope string_scope.
Open Scope N_scope.
Open Scope list_scope.

(** ** [serde_json]: strings, numbers, sequences, structures *)
Definition json_char (c : N) : list N :=
  if c =? 34 then [92; 34]
  else if c =? 92 then [92; 92]
  else if c =? 8 then [92; 98]
  else if c =? 9 then [92; 116]
  else if c =? 10 then [92; 110]
  else if c =? 12 then [92; 102]
  else if c =? 13 then [92; 114]
  else if c <? 32 then [92; 117; 48; 48; hex_small (c / 16); hex_small (c mod 16)]
  else [c].
Definition json_str (s : list N) : list N := [34] ++ flat_map json_char s ++ [34].
Definition json_num (n : N) : list N := decimal n.
Definition json_int (z : Z) : list N := decimal_z z.
Definition json_opt {A} (f : A -> list N) (o : option A) : list N := match o with Some x => f x | None => text "null" end.
Definition json_seq (l : list (list N)) : list N := [91] ++ join [44] l ++ [93].
Definition json_struct (l : list (string * list N)) : list N :=
  [123] ++ join [44] (map (fun f => json_str (text (fst f)) ++ [58] ++ snd f) l) ++ [125].

(** [Logs], [Log], src/log.rs:22-25,120-124. *)
Definition json_logs (l : logs) : list N :=
  json_struct [("logs", json_opt (fun ms => json_seq (map (fun m => json_struct [("code", json_str (code_name (mg_code m))); ("text", json_str (mg_text m))]) ms)) l)].
(** [FieldFull], [FieldLight], src/field_offset_len.rs:32-37,79-82; with what the
    functions of src/field_serializers.rs:22-75,94-109 add. *)
Definition json_field (place : option (N * N)) (value : list N) (more : list (string * list N)) : list N :=
  json_struct (("value", value) :: match place with Some (offset, n) => [("offset", json_num offset); ("len", json_num n)] | None => [] end ++ more).
(** [make_file_offset_structs], src/field_offset_len.rs:202-226. *)
Fixpoint json_fields (places : option (list (N * N))) (l : list (string * (list N * list (string * list N)))) : list (string * list N) :=
  match l with
  | [] => []
  | (name, (value, more)) :: l =>
      (name, json_field (option_map (fun t => hd (0, 0) t) places) value more) :: json_fields (option_map (@tl _) places) l
  end.
Definition json_detail (places : option (list (N * N))) (l : list (string * (list N * list (string * list N)))) : list N :=
  json_struct [((match places with Some _ => "Full" | None => "Light" end)%string, json_struct (json_fields places l))].

(** [{:#X}] (std). *)
Definition hex_large (n : N) : N := if n <? 10 then 48 + n else 55 + n.
Fixpoint hex_upper (fuel : nat) (n : N) (r : list N) : list N :=
  match fuel with
  | O => r
  | S fuel => let r := hex_large (n mod 16) :: r in if n <? 16 then r else hex_upper fuel (n / 16) r
  end.
(** [field_key_node_flag_bits_interpreted], [field_acccess_flag_bits_interpreted],
    src/field_serializers.rs:43-75, with [from_bits_checked], src/macros.rs:31-59. *)
Definition flag_notes (type : list N) (names : list (list N * N)) (bits : N) : list (string * list N) :=
  ("interpreted", json_str (show_flags type names bits))
  :: if N.land bits (fold_right N.lor 0 (map snd names)) =? bits then []
     else [("logs", json_str (code_name WarningUnrecognizedBitflag ++ text " notatin::cell_key_node::" ++ type ++ text "::from_bits_checked: 0x"
                              ++ hex_upper (S (N.size_nat bits)) bits [] ++ text ";"))].
Definition nothing : list (string * list N) := [].
(** [CellKeyNodeDetail], src/cell_key_node.rs:53-78. *)
Definition json_key_detail (d : nk_detail) : list N :=
  json_detail (kd_full d)
    [("size", (json_int (kd_size d), nothing)); ("signature", (json_str (text "nk"), nothing));
     ("key_node_flag_bits", (json_num (kd_flags d), flag_notes (text "KeyNodeFlags") key_flag_names (kd_flags d)));
     ("last_key_written_date_and_time", (json_num (kd_time d), [("interpreted", json_str (format_date_time (get_date_time_from_filetime (kd_time d))))]));
     ("access_flag_bits", (json_num (kd_access d), flag_notes (text "AccessFlags") access_flag_names (kd_access d)));
     ("parent_key_offset_relative", (json_int (kd_parent d), nothing)); ("number_of_sub_keys", (json_num (kd_nsub d), nothing));
     ("number_of_volatile_sub_keys", (json_num (kd_nvol d), nothing)); ("sub_keys_list_offset_relative", (json_num (kd_sublist d), nothing));
     ("volatile_sub_keys_list_offset_relative", (json_int (kd_vollist d), nothing)); ("number_of_key_values", (json_num (kd_nvalues d), nothing));
     ("key_values_list_offset_relative", (json_int (kd_vallist d), nothing)); ("security_key_offset_relative", (json_num (kd_security d), nothing));
     ("class_name_offset_relative", (json_int (kd_class d), nothing)); ("largest_sub_key_name_size", (json_num (kd_max_name d), nothing));
     ("largest_sub_key_class_name_size", (json_num (kd_max_class d), nothing)); ("largest_value_name_size", (json_num (kd_max_value_name d), nothing));
     ("largest_value_data_size", (json_num (kd_max_value_data d), nothing)); ("work_var", (json_num (kd_work d), nothing));
     ("key_name_size", (json_num (kd_name_size d), nothing)); ("class_name_size", (json_num (kd_class_size d), nothing));
     ("slack", (json_seq (map json_num (kd_slack d)), nothing))].
(** [get_pretty_name], src/util.rs:197-203. *)
Definition pretty (name : list N) : list N := match name with [] => text "(default)" | _ => name end.
(** [CellKeyValueDetail], src/cell_key_value.rs:219-235; the last field is skipped. *)
Definition json_value_detail (d : vk_detail) : list N :=
  json_detail (vd_full d)
    [("size", (json_int (vd_size d), nothing)); ("signature", (json_str (text "vk"), nothing)); ("value_name_size", (json_num (vd_name_size d), nothing));
     ("data_size_raw", (json_num (vd_data_size_raw d), nothing)); ("data_offset_relative", (json_num (vd_data_offset d), nothing));
     ("data_type_raw", (json_num (vd_type_raw d), nothing)); ("flags_raw", (json_num (vd_flags_raw d), nothing)); ("padding", (json_num (vd_padding d), nothing));
     ("value_name", (json_str (vd_name d), [("interpreted", json_str (pretty (vd_name d)))])); ("slack", (json_seq (map json_num (vd_slack d)), nothing))].
(** [CellKeyValueDataTypes], src/cell_key_value.rs:44-92. *)
Definition type_names : list (N * list N) := map (fun e => (fst e, text (snd e)))
  [(0x0, "REG_NONE"); (0x1, "REG_SZ"); (0x2, "REG_EXPAND_SZ"); (0x3, "REG_BIN"); (0x4, "REG_DWORD"); (0x5, "REG_DWORD_BIG_ENDIAN"); (0x6, "REG_LINK");
   (0x7, "REG_MULTI_SZ"); (0x8, "REG_RESOURCE_LIST"); (0x9, "REG_FULL_RESOURCE_DESCRIPTOR"); (0xA, "REG_RESOURCE_REQUIREMENTS_LIST"); (0xB, "REG_QWORD");
   (0x10, "REG_FILETIME"); (0x101, "REG_COMPOSITE_UINT8"); (0x102, "REG_COMPOSITE_INT16"); (0x103, "REG_COMPOSITE_UINT16"); (0x104, "REG_COMPOSITE_INT32");
   (0x105, "REG_COMPOSITE_UINT32"); (0x106, "REG_COMPOSITE_INT64"); (0x107, "REG_COMPOSITE_UINT64"); (0x108, "REG_COMPOSITE_FLOAT"); (0x109, "REG_COMPOSITE_DOUBLE");
   (0x10A, "REG_COMPOSITE_UNICODE_CHAR"); (0x10B, "REG_COMPOSITE_BOOLEAN"); (0x10C, "REG_COMPOSITE_UNICODE_STRING"); (0x10D, "REG_COMPOSITE_COMPOSITE_VALUE");
   (0x10E, "REG_COMPOSITE_DATE_TIME_OFFSET"); (0x10F, "REG_COMPOSITE_TIME_SPAN"); (0x110, "REG_COMPOSITE_GUID"); (0x111, "REG_COMPOSITE_UNK_111");
   (0x112, "REG_COMPOSITE_UNK_112"); (0x113, "REG_COMPOSITE_UNK_113"); (0x114, "REG_COMPOSITE_BYTES_ARRAY"); (0x115, "REG_COMPOSITE_INT16_ARRAY");
   (0x116, "REG_COMPOSITE_UINT16_ARRAY"); (0x117, "REG_COMPOSITE_INT32_ARRAY"); (0x118, "REG_COMPOSITE_UINT32_ARRAY"); (0x119, "REG_COMPOSITE_INT64_ARRAY");
   (0x11A, "REG_COMPOSITE_UINT64_ARRAY"); (0x11B, "REG_COMPOSITE_FLOAT_ARRAY"); (0x11C, "REG_COMPOSITE_DOUBLE_ARRAY"); (0x11D, "REG_COMPOSITE_UNICODE_CHAR_ARRAY");
   (0x11E, "REG_COMPOSITE_BOOLEAN_ARRAY"); (0x11F, "REG_COMPOSITE_UNICODE_STRING_ARRAY"); (999, "REG_UNKNOWN")].
Definition type_name (t : N) : list N := match find (fun e => fst e =? t) type_names with Some e => snd e | None => text "REG_UNKNOWN" end.
(** [CellKeyValueFlags], src/cell_key_value.rs:210-217. *)
Definition value_flag_names : list (list N * N) := [(text "VALUE_COMP_NAME_ASCII", 1); (text "IS_TOMBSTONE", 2)].
(** [CellValue], src/cell_value.rs:23-36. *)
Definition json_content (c : cell_value) : list N :=
  match c with
  | CNone => json_str (text "None")
  | CBinary b => json_struct [("Binary", json_str (to_hex_string b))]
  | CString s => json_struct [("String", json_str s)]
  | CMultiString l => json_struct [("MultiString", json_seq (map json_str l))]
  | CU32 n => json_struct [("U32", json_num n)]
  | CI32 z => json_struct [("I32", json_int z)]
  | CU64 n => json_struct [("U64", json_num n)]
  | CI64 z => json_struct [("I64", json_int z)]
  | CError => json_str (text "Error")
  end.

(** The messages of keys, of values and of the conversion of contents. *)
Record item_logs := mkItemLogs {
  il_key : key_node -> logs;
  il_value : key_value -> logs;
  il_content : key_value -> option logs
}.
(** [CellKeyValueForSerialization], src/cell_key_value.rs:253-260,533-572. *)
Fixpoint json_value (il : item_logs) (v : key_value) : list N :=
  json_struct
    [("file_offset_absolute", json_num (kv_offset v)); ("detail", json_value_detail (kv_detail v)); ("data_type", json_str (type_name (kv_type v)));
     ("flags", json_str (show_flags (text "CellKeyValueFlags") value_flag_names (kv_flags v))); ("value_name", json_str (pretty (vd_name (kv_detail v))));
     ("cell_parse_warnings", json_logs (il_value il v)); ("sequence_num", json_opt json_num (kv_seq v));
     ("updated_by_sequence_num", json_opt json_num (kv_updated_by v)); ("data_offsets_absolute", json_seq (map json_num (kv_data_offsets v)));
     ("state", json_str (state_name (kv_state v))); ("value", json_content (content_of_value v)); ("value_parse_warnings", json_opt json_logs (il_content il v));
     ("versions", json_seq (map (json_value il) (kv_versions v)))].
(** [CellKeyNode], src/cell_key_node.rs:95-118. *)
Definition json_key (il : item_logs) (k : key_node) : list N :=
  json_struct
    [("file_offset_absolute", json_num (kn_offset k)); ("detail", json_key_detail (kn_detail k)); ("key_name", json_str (kn_name k)); ("path", json_str (kn_path k));
     ("cell_state", json_str (state_name (kn_state k))); ("sequence_num", json_opt json_num (kn_seq k)); ("updated_by_sequence_num", json_opt json_num (kn_updated_by k));
     ("sub_values", json_seq (map (json_value il) (kn_values k))); ("logs", json_logs (il_key il k))].
(** [WriteJson::write], bin/reg_dump/json_writer.rs:30-47: [ks] are the keys the
    iterator returns. *)
Definition json_export (il : item_logs) (ks : list key_node) : list N := flat_map (fun k => json_key il k ++ [10]) ks.
Definition write_json (fuel : nat) (il : item_logs) (p : parser) (f : filter) : res (list N) :=
  let* ks := iterate fuel p f false true false in
  Ok (json_export il ks).
