(** Model of src/cell_key_value.rs, src/cell_big_data.rs and
    src/cell_value.rs. *)
From Verif Require Import Base Util Types.

(** ** Data types *)

(** [CellKeyValueDataTypes], src/cell_key_value.rs:47-95, by number. *)
Definition REG_NONE : N := 0.
Definition REG_SZ : N := 1.
Definition REG_EXPAND_SZ : N := 2.
Definition REG_BIN : N := 3.
Definition REG_DWORD : N := 4.
Definition REG_DWORD_BIG_ENDIAN : N := 5.
Definition REG_LINK : N := 6.
Definition REG_MULTI_SZ : N := 7.
Definition REG_QWORD : N := 0xB.
Definition REG_FILETIME : N := 0x10.
Definition REG_COMPOSITE_UINT8 : N := 0x101.
Definition REG_COMPOSITE_INT16 : N := 0x102.
Definition REG_COMPOSITE_UINT16 : N := 0x103.
Definition REG_COMPOSITE_INT32 : N := 0x104.
Definition REG_COMPOSITE_UINT32 : N := 0x105.
Definition REG_COMPOSITE_INT64 : N := 0x106.
Definition REG_COMPOSITE_UINT64 : N := 0x107.
Definition REG_COMPOSITE_BOOLEAN : N := 0x10B.
Definition REG_UNKNOWN : N := 999.

(** [from_u32] of the derived [Primitive]: the numbers of the enum. *)
Definition known_type (t : N) : bool :=
  (t <=? 0xB) || (t =? 0x10) || ((0x101 <=? t) && (t <=? 0x11F)) || (t =? 999).

(** src/cell_key_value.rs:326-331. *)
Definition data_type_of (raw : N) : N :=
  let t := N.land raw 0xFFF in if known_type t then t else REG_UNKNOWN.

Definition one_of (t : N) (l : list N) : bool := existsb (N.eqb t) l.

(** [get_data_type_len], src/cell_key_value.rs:185-200. *)
Definition get_data_type_len (t : N) : option N :=
  if t =? REG_COMPOSITE_UINT8 then Some 1
  else if one_of t [REG_COMPOSITE_INT16; REG_COMPOSITE_UINT16] then Some 2
  else if one_of t [REG_DWORD; REG_COMPOSITE_UINT32; REG_DWORD_BIG_ENDIAN; REG_COMPOSITE_INT32]
       then Some 4
  else if one_of t [REG_COMPOSITE_INT64; REG_QWORD; REG_COMPOSITE_UINT64; REG_FILETIME]
       then Some 8
  else None.

(** [get_value_bytes], src/cell_key_value.rs:202-207. *)
Definition get_value_bytes (t : N) (input : list N) : list N :=
  match get_data_type_len t with
  | Some n => firstn (N.to_nat (N.min n (len input))) input
  | None => input
  end.

(** ** Typed content *)

(** [CellValue], src/cell_value.rs:22-33. *)
Inductive cell_value :=
| CNone
| CBinary (b : list N)
| CString (s : list N)
| CMultiString (l : list (list N))
| CU32 (n : N)
| CI32 (z : Z)
| CU64 (n : N)
| CI64 (z : Z)
| CError.

(** [i16::from_le_bytes] and [i64::from_le_bytes] after the unsigned number. *)
Definition to_i16 (n : N) : Z :=
  if n <? 32768 then Z.of_N n else (Z.of_N n - 65536)%Z.
Definition to_i64 (n : N) : Z :=
  if n <? 9223372036854775808 then Z.of_N n else (Z.of_N n - 18446744073709551616)%Z.

(** One numeric arm of [get_value_content] with [handle_invalid_input],
    src/cell_key_value.rs:98-104. *)
Definition number_or_binary (input : list N) (k : N) (f : list N -> cell_value)
  : cell_value * list log_code :=
  match get_range input 0 k with
  | Some b => (f b, [])
  | None => (CBinary input, [WarningConversion])
  end.

(** [get_value_content], src/cell_key_value.rs:107-183; the [try_into] of a
    slice of the right length cannot fail. *)
Definition get_value_content (t : N) (input_vec : option (list N))
  : res (cell_value * list log_code) :=
  match input_vec with
  | None => Ok (CNone, [])
  | Some input =>
      if one_of t [REG_SZ; REG_EXPAND_SZ; REG_LINK] then
        let* (s, w) := from_utf16_le_string input (len input) in
        Ok (CString s, repeat WarningConversion (N.to_nat w))
      else if one_of t [REG_COMPOSITE_UINT8; REG_COMPOSITE_BOOLEAN] then
        Ok (number_or_binary input 1 (fun b => CU32 (le b)))
      else if t =? REG_COMPOSITE_INT16 then
        Ok (number_or_binary input 2 (fun b => CI32 (to_i16 (le b))))
      else if t =? REG_COMPOSITE_UINT16 then
        Ok (number_or_binary input 2 (fun b => CU32 (le b)))
      else if one_of t [REG_DWORD; REG_COMPOSITE_UINT32] then
        Ok (number_or_binary input 4 (fun b => CU32 (le b)))
      else if t =? REG_DWORD_BIG_ENDIAN then
        Ok (number_or_binary input 4 (fun b => CU32 (le (rev b))))
      else if t =? REG_COMPOSITE_INT32 then
        Ok (number_or_binary input 4 (fun b => CI32 (to_i32 (le b))))
      else if t =? REG_COMPOSITE_INT64 then
        Ok (number_or_binary input 8 (fun b => CI64 (to_i64 (le b))))
      else if one_of t [REG_QWORD; REG_COMPOSITE_UINT64; REG_FILETIME] then
        Ok (number_or_binary input 8 (fun b => CU64 (le b)))
      else if t =? REG_BIN then Ok (CBinary input, [])
      else if t =? REG_MULTI_SZ then
        let* (l, w) := from_utf16_le_strings input (len input) in
        Ok (CMultiString l, repeat WarningConversion (N.to_nat w))
      else Ok (CBinary input, [])
  end.

(** [CellKeyValue::get_content], src/cell_key_value.rs:267-282. *)
Definition get_content (v : key_value) : res (cell_value * list log_code) :=
  match get_value_content (kv_type v) (vd_bytes (kv_detail v)) with
  | Err => Ok (CError, [WarningContent])
  | r => r
  end.

(** ** The vk cell *)

Definition VK : list N := [118; 107].

(** [CellKeyValueFlags::from_bits(..).unwrap_or_default()],
    src/cell_key_value.rs:211-216,324: with any unknown bit set there are no
    flags. *)
Definition value_flags (raw : N) : N := if raw <? 4 then raw else 0.

(** [check_size], src/cell_key_value.rs:415-418. *)
Definition vk_check_size (size : Z) (input : list N) : bool :=
  (24 <=? unsigned_abs size) && (unsigned_abs size <=? len input).

(** [CellKeyValue::from_bytes], src/cell_key_value.rs:289-374. *)
Definition kv_from_bytes (input : list N) (off : N) (seq : option N) (full : bool)
  : res (key_value * list N) :=
  let pos (i : list N) := len input - len i in
  let* (size, i1) := nom (le_i32 input) in
  if negb (vk_check_size size input) then Err
  else
    let* (_, i2) := nom (tag VK i1) in
    let* (name_size, i3) := nom (le_u16 i2) in
    let* (data_size_raw, i4) := nom (le_u32 i3) in
    let* (data_offset, i5) := nom (le_u32 i4) in
    let* (type_raw, i6) := nom (le_u32 i5) in
    let* (flags_raw, i7) := nom (le_u16 i6) in
    let* (padding, i8) := nom (le_u16 i7) in
    let* (name_bytes, i9) := nom (take name_size i8) in
    let flags := value_flags flags_raw in
    let* (name, w) :=
      if name_size =? 0 then Ok ([], 0)
      else string_from_bytes (N.odd flags) name_bytes name_size in
    let* (slack, i10) := nom (parser_eat_remaining i9 (unsigned_abs size) (pos i9)) in
    Ok ({| kv_offset := off;
           kv_detail :=
             {| vd_size := size; vd_name_size := name_size; vd_data_size_raw := data_size_raw;
                vd_data_offset := data_offset; vd_type_raw := type_raw;
                vd_flags_raw := flags_raw; vd_padding := padding; vd_name := name;
                vd_slack := slack; vd_bytes := None;
                vd_full :=
                  if full
                  then Some [(pos input, 4); (pos i1, 2); (pos i2, 2); (pos i3, 4); (pos i4, 4);
                             (pos i5, 4); (pos i6, 2); (pos i7, 2); (pos i8, name_size);
                             (pos i9, len slack); (0, 0)]
                  else None |};
           kv_type := data_type_of type_raw;
           kv_flags := flags;
           kv_data_offsets := [];
           kv_state := Allocated;
           kv_logs := repeat WarningConversion (N.to_nat w);
           kv_versions := [];
           kv_hash := None;
           kv_seq := seq;
           kv_updated_by := None |}, i10).

(** ** Big data *)

Definition DB : list N := [100; 98].
Definition BIG_DATA_SIZE_THRESHOLD : N := 16344.

(** [is_big_data_block], src/cell_big_data.rs:77-84. *)
Definition is_big_data_block (input : list N) : bool :=
  match get_from input 4 with
  | Some s => match tag DB s with Some _ => true | None => false end
  | None => false
  end.

(** [CellBigData::from_bytes], src/cell_big_data.rs:87-106: the segment count
    and the relative offset of the segment list. *)
Definition big_data_from_bytes (input : list N) : option (N * N) :=
  let? (_, i) := le_i32 input in
  let? (_, i) := tag DB i in
  let? (cnt, i) := le_u16 i in
  let? (list_offset, _) := le_u32 i in
  Some (cnt, list_offset).

(** [parse_big_data_offsets], src/cell_big_data.rs:119-130. *)
Definition parse_big_data_offsets (fi : file_info) (cnt list_offset : N) : option (list N) :=
  let? s := get_from (fi_buffer fi) (fi_hbin fi + list_offset) in
  let? (_, i) := le_u32 s in
  let? (l, _) := count le_u32 cnt i in
  Some l.

(** [parse_big_data_size], src/cell_big_data.rs:108-117. *)
Definition parse_big_data_size (fi : file_info) (offset : N) : option (Z * list N) :=
  let? s := get_from (fi_buffer fi) (fi_hbin fi + offset) in
  le_i32 s.

(** The segment loop of [get_big_data_bytes], src/cell_big_data.rs:55-70. *)
Fixpoint big_data_loop (fi : file_info) (offsets : list N) (remaining : N) (acc : list N)
  : option (list N) :=
  match offsets with
  | [] => Some acc
  | o :: r =>
      if 0 <? remaining then
        let? (size, input) := parse_big_data_size fi o in
        let n := N.min (unsigned_abs size) (N.min remaining BIG_DATA_SIZE_THRESHOLD) in
        let? s := get_range input 0 n in
        big_data_loop fi r (remaining - n) (acc ++ s)
      else big_data_loop fi r remaining acc
  end.

(** [get_big_data_bytes], src/cell_big_data.rs:41-75. *)
Definition get_big_data_bytes (fi : file_info) (offset t data_size : N)
  : option (list N * list N) :=
  let? s := get_from (fi_buffer fi) offset in
  let? (cnt, list_offset) := big_data_from_bytes s in
  let? offsets := parse_big_data_offsets fi cnt list_offset in
  let? bytes := big_data_loop fi offsets data_size [] in
  Some (get_value_bytes t bytes, offsets).

(** ** The data of a value *)

(** [read_value_bytes_direct], src/cell_key_value.rs:420-494: the bytes, the
    data offsets and the logs added. *)
Definition read_value_bytes_direct (file_offset data_size_raw data_offset t : N) (fi : file_info)
  : list N * list N * list log_code :=
  if N.land data_size_raw 0x80000000 =? 0 then
    let offset := data_offset + fi_hbin fi in
    match get_from (fi_buffer fi) offset with
    | Some slice =>
        if (BIG_DATA_SIZE_THRESHOLD <? data_size_raw) && is_big_data_block slice then
          match get_big_data_bytes fi offset t data_size_raw with
          | Some (vb, offsets) => (vb, offsets, [])
          | None => ([], [], [WarningBigDataContent])
          end
        else
          let offset := offset + 4 in
          match get_range (fi_buffer fi) offset (offset + data_size_raw) with
          | Some s => (get_value_bytes t s, [offset], [])
          | None => ([], [offset], [WarningParse])
          end
    | None => ([], [], [WarningParse])
    end
  else
    let data_size := N.lxor data_size_raw 0x80000000 in
    match get_range (enc 4 data_offset) 0 data_size with
    | Some s => (get_value_bytes t s, [file_offset + 12], [])
    | None => ([], [file_offset + 12], [WarningBigDataContent])
    end.

(** [CellKeyValue::hash], src/cell_key_value.rs:496-502. *)
Definition kv_hash_of (st : state) (type_raw flags_raw : N) (bytes : list N) : N :=
  st_hasher st (enc 4 type_raw ++ enc 2 flags_raw ++ bytes).

(** [read_value_bytes], src/cell_key_value.rs:377-400. *)
Definition read_value_bytes (fi : file_info) (st : state) (v : key_value) : key_value :=
  let d := kv_detail v in
  let '(bytes, offsets, logs) :=
    read_value_bytes_direct (kv_offset v) (vd_data_size_raw d) (vd_data_offset d) (kv_type v) fi in
  mkKV (kv_offset v) (vd_set_bytes bytes (kv_offset v) (w32 (len bytes)) d) (kv_type v) (kv_flags v)
    (kv_data_offsets v ++ offsets) (kv_state v) (kv_logs v ++ logs) (kv_versions v)
    (Some (kv_hash_of st (vd_type_raw d) (vd_flags_raw d) bytes)) (kv_seq v) (kv_updated_by v).

(** [get_cell_size], [is_free], [slack_offset_absolute],
    src/cell_key_value.rs:403-413. *)
Definition kv_cell_size (v : key_value) : N := unsigned_abs (vd_size (kv_detail v)).
Definition kv_is_free (v : key_value) : bool := (0 <? vd_size (kv_detail v))%Z.
Definition kv_slack_offset (v : key_value) : N :=
  kv_offset v + kv_cell_size v - len (vd_slack (kv_detail v)).

(** [CellKeyValue::get_pretty_name], src/cell_key_value.rs:284-286. *)
Definition kv_pretty_name (v : key_value) : list N := get_pretty_name (vd_name (kv_detail v)).

(** [CellKeyValue::has_or_is_recovered], src/cell_key_value.rs:526-530. *)
Definition kv_has_or_is_recovered (v : key_value) : bool :=
  is_deleted (kv_state v) || is_modified_tx (kv_state v)
  || match kv_versions v with [] => false | _ => true end.

(** ** Decoding on request *)

(** [DecodeFormat], src/cell_value.rs:61-66. *)
Inductive decode_format := Lznt1 | Rot13 | Utf16 | Utf16Multiple.

(** [decode_bytes], src/cell_value.rs:91-135; the Rot13 arm is not reachable
    from [decode]. *)
Definition decode_bytes (f : decode_format) (b : list N) (offset : N)
  : res (cell_value * list log_code) :=
  match f with
  | Lznt1 =>
      match decode_lznt1 b offset (len b) with
      | Ok d => Ok (CBinary d, [])
      | Err => Ok (CError, [WarningConversion])
      | Panic => Panic
      | OutOfFuel => OutOfFuel
      end
  | Utf16 =>
      match get_from b offset with
      | Some s =>
          let* (t, w) := from_utf16_le_string s (len b - offset) in
          Ok (CString t, repeat WarningConversion (N.to_nat w))
      | None => Ok (CError, [WarningConversion])
      end
  | Utf16Multiple =>
      match get_from b offset with
      | Some s =>
          let* (l, w) := from_utf16_le_strings s (len b) in
          Ok (CMultiString l, repeat WarningConversion (N.to_nat w))
      | None => Ok (CError, [WarningConversion])
      end
  | Rot13 => Ok (CNone, [])
  end.

(** [decode_string], src/cell_value.rs:137-156. *)
Definition decode_string (c : cell_value) : cell_value * list log_code :=
  match c with
  | CString s => (CString (decode_rot13 s), [])
  | CMultiString l => (CMultiString (map decode_rot13 l), [])
  | _ => (CError, [WarningConversion])
  end.

(** [DecodeFormat::decode], src/cell_value.rs:69-89. *)
Definition decode (f : decode_format) (c : cell_value) (offset : N)
  : res (cell_value * list log_code) :=
  match f with
  | Rot13 => Ok (decode_string c)
  | _ =>
      match c with
      | CBinary b => decode_bytes f b offset
      | _ => Ok (CError, [WarningConversion])
      end
  end.

(** [CellKeyValue::decode_content], src/cell_key_value.rs:506-509. *)
Definition decode_content (v : key_value) (f : decode_format) (offset : N)
  : res (cell_value * list log_code) :=
  let* (c, _) := get_content v in decode f c offset.
