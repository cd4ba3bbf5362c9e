(** Model of src/base_block.rs and src/hive_bin_header.rs. *)
From Verif Require Import Base Util.

(** [FileType], src/base_block.rs:26-43 and the macro src/macros.rs:62-76:
    [from_u32] knows the listed numbers, every other one becomes [Unknown]
    (whose own number is 0x0fffffff). *)
Inductive file_type := Primary | TransactionLog1 | TransactionLog6 | UnknownType.
Definition file_type_from_value (v : N) : file_type :=
  if v =? 0 then Primary
  else if v =? 1 then TransactionLog1
  else if v =? 6 then TransactionLog6
  else UnknownType.

(** [BaseBlockBase], src/base_block.rs:74-96. The format field keeps its raw
    number and the logs of the block (conversion warnings) are not modelled. *)
Record base_block_base := mkBBB {
  bb_primary_seq : N;
  bb_secondary_seq : N;
  bb_modified : Z;
  bb_major : N;
  bb_minor : N;
  bb_file_type : file_type;
  bb_format : N;
  bb_root_offset : Z;
  bb_hive_bins_data_size : N;
  bb_clustering : N;
  bb_filename : list N;
  bb_unk2 : list N;
  bb_checksum : N
}.

Definition REGF : list N := [114; 101; 103; 102].
Definition CHECKSUM_OFFSET : N := 508.
Definition BASE_BLOCK_LEN : N := 512.

(** [BaseBlockBase::from_bytes], src/base_block.rs:103-141. *)
Definition bbb_from_bytes (i : list N) : res (base_block_base * list N) :=
  let* (_, i) := nom (tag REGF i) in
  let* (primary, i) := nom (le_u32 i) in
  let* (secondary, i) := nom (le_u32 i) in
  let* (time, i) := nom (le_u64 i) in
  let* (major, i) := nom (le_u32 i) in
  let* (minor, i) := nom (le_u32 i) in
  let* (ftype, i) := nom (le_u32 i) in
  let* (format, i) := nom (le_u32 i) in
  let* (root, i) := nom (le_i32 i) in
  let* (hbins, i) := nom (le_u32 i) in
  let* (clustering, i) := nom (le_u32 i) in
  let* (filename, i) := nom (take 64 i) in
  let* (unk2, i) := nom (take 396 i) in
  let* (checksum, i) := nom (le_u32 i) in
  let* (name, _) := from_utf16_le_string filename 64 in
  Ok ({| bb_primary_seq := primary; bb_secondary_seq := secondary;
         bb_modified := get_date_time_from_filetime time;
         bb_major := major; bb_minor := minor;
         bb_file_type := file_type_from_value ftype; bb_format := format;
         bb_root_offset := root; bb_hive_bins_data_size := hbins;
         bb_clustering := clustering; bb_filename := name; bb_unk2 := unk2;
         bb_checksum := checksum |}, i).

(** The loop of [calculate_checksum], src/base_block.rs:151-157: [n] words are
    left to read at [index]. *)
Fixpoint checksum_loop (n : nat) (bytes : list N) (index xsum : N) : res N :=
  match n with
  | O => Ok xsum
  | S n' =>
      let* s := ok_or (get_range bytes index (index + 4)) in
      checksum_loop n' bytes (index + 4) (N.lxor xsum (le s))
  end.

(** [calculate_checksum], src/base_block.rs:143-164; the indices 0, 4, ..., 504
    are the 127 ones not above 0x1FB. *)
Definition calculate_checksum (bytes : list N) : res N :=
  let* xsum := checksum_loop 127 bytes 0 0 in
  Ok (if xsum =? 0 then 1 else if xsum =? 0xFFFFFFFF then 0xFFFFFFFE else xsum).

(** [FileBaseBlockReserved], src/base_block.rs:195-205, with the raw GUID bytes
    and the raw flags. *)
Record bb_reserved := mkRes {
  rs_rm_id : list N;
  rs_log_id : list N;
  rs_flags : N;
  rs_tm_id : list N;
  rs_signature : N;
  rs_reorganized : Z;
  rs_remaining : list N
}.

(** [FileBaseBlockReserved::from_bytes], src/base_block.rs:223-248. *)
Definition reserved_from_bytes (i : list N) : res (bb_reserved * list N) :=
  let* (rm, i) := nom (take 16 i) in
  let* (lg, i) := nom (take 16 i) in
  let* (flags, i) := nom (le_u32 i) in
  let* (tm, i) := nom (take 16 i) in
  let* (sig, i) := nom (le_u32 i) in
  let* (ts, i) := nom (le_u64 i) in
  let* (rest, i) := nom (take 3512 i) in
  Ok ({| rs_rm_id := rm; rs_log_id := lg; rs_flags := flags; rs_tm_id := tm;
         rs_signature := sig; rs_reorganized := get_date_time_from_filetime ts;
         rs_remaining := rest |}, i).

(** [BaseBlock] with its extended part, src/base_block.rs:52-68,169-191. *)
Record base_block := mkBB {
  bb_base : base_block_base;
  bb_ext : bb_reserved;
  bb_boot_type : N;
  bb_boot_recover : N
}.

(** [BaseBlock::from_bytes] and [BaseBlockExtended::from_bytes],
    src/base_block.rs:62-67,177-190. *)
Definition bb_from_bytes (i : list N) : res (base_block * list N) :=
  let* (base, i) := bbb_from_bytes i in
  let* (rsv, i) := reserved_from_bytes i in
  let* (boot, i) := nom (le_u32 i) in
  let* (recover, i) := nom (le_u32 i) in
  Ok ({| bb_base := base; bb_ext := rsv; bb_boot_type := boot; bb_boot_recover := recover |}, i).

(** [HiveBinHeader], src/hive_bin_header.rs:12-27. *)
Record hbin_header := mkHbin {
  hb_file_offset : N;
  hb_offset : N;
  hb_size : N;
  hb_unknown1 : N;
  hb_unknown2 : N;
  hb_time : Z;
  hb_spare : N
}.

Definition HBIN : list N := [104; 98; 105; 110].

(** [HiveBinHeader::from_bytes], src/hive_bin_header.rs:30-51; [off] is
    [file_info.get_file_offset(input)]. *)
Definition hbin_from_bytes (off : N) (i : list N) : res (hbin_header * list N) :=
  let* (_, i) := nom (tag HBIN i) in
  let* (o, i) := nom (le_u32 i) in
  let* (size, i) := nom (le_u32 i) in
  let* (u1, i) := nom (le_u32 i) in
  let* (u2, i) := nom (le_u32 i) in
  let* (ts, i) := nom (le_u64 i) in
  let* (spare, i) := nom (le_u32 i) in
  Ok ({| hb_file_offset := off; hb_offset := o; hb_size := size; hb_unknown1 := u1;
         hb_unknown2 := u2; hb_time := get_date_time_from_filetime ts; hb_spare := spare |}, i).
