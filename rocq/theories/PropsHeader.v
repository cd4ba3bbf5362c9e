(** Properties C11-C13: header checksum, header fields, Marvin32. *)
From Verif Require Import Base BaseFacts LayoutSpec LayoutFacts Util UtilSpec UtilText BaseBlock Marvin
  HeaderFacts.

(** C11 *)
Theorem C11_checksum_value : forall b c,
  calculate_checksum b = Ok c <-> 508 <= len b /\ c = header_checksum b.
Proof. exact checksum_value. Qed.
Print Assumptions C11_checksum_value.
Theorem C11_checksum_reserved_values : forall b c,
  calculate_checksum b = Ok c -> c <> 0 /\ c <> 0xFFFFFFFF.
Proof. exact checksum_never. Qed.
Print Assumptions C11_checksum_reserved_values.
(** A change of one of the 127 numbers changes the checksum. *)
Theorem C11_checksum_detects_change : forall b c i, (i < 127)%nat ->
  (forall j, (j < 127)%nat -> j <> i -> num_at b (4 * N.of_nat j) 4 = num_at c (4 * N.of_nat j) 4) ->
  num_at b (4 * N.of_nat i) 4 <> num_at c (4 * N.of_nat i) 4 ->
  ~ In (xor_of_dwords b) [0; 2 ^ 32 - 1] -> ~ In (xor_of_dwords c) [0; 2 ^ 32 - 1] ->
  508 <= len b -> 508 <= len c ->
  calculate_checksum b <> calculate_checksum c.
Proof. exact checksum_detects. Qed.
Print Assumptions C11_checksum_detects_change.
Example C11_example :
  let b := repeat 7 508 in let c := [9] ++ repeat 7 507 in
  calculate_checksum b = Ok 0x07070707 /\ calculate_checksum c = Ok 0x07070709
  /\ num_at b 0 4 <> num_at c 0 4
  /\ ~ In (xor_of_dwords b) [0; 2 ^ 32 - 1] /\ ~ In (xor_of_dwords c) [0; 2 ^ 32 - 1].
Proof. vm_compute. repeat split; intuition discriminate. Qed.
(** Without the restriction on remapped values it does not. *)
Theorem C11_remapped_values_collide : exists b c : list N,
  len b = 508 /\ len c = 508
  /\ bytes_at b 4 504 = bytes_at c 4 504 /\ num_at b 0 4 <> num_at c 0 4
  /\ calculate_checksum b = calculate_checksum c.
Proof. exists (repeat 0 508), ([1] ++ repeat 0 507). vm_compute. repeat split; discriminate. Qed.
Print Assumptions C11_remapped_values_collide.

(** C12 *)
Theorem C12_header_fields : forall b, 4096 <= len b -> bytes_at b 0 4 = REGF ->
  exists h, bb_from_bytes b = Ok (h, rest_at b 4096)
  /\ bb_primary_seq (bb_base h) = num_at b 4 4
  /\ bb_secondary_seq (bb_base h) = num_at b 8 4
  /\ bb_modified (bb_base h) = get_date_time_from_filetime (num_at b 12 8)
  /\ bb_major (bb_base h) = num_at b 20 4
  /\ bb_minor (bb_base h) = num_at b 24 4
  /\ bb_file_type (bb_base h)
     = match num_at b 28 4 with
       | 0 => Primary | 1 => TransactionLog1 | 6 => TransactionLog6 | _ => UnknownType
       end
  /\ bb_format (bb_base h) = num_at b 32 4
  /\ bb_root_offset (bb_base h) = i32_at b 36
  /\ bb_hive_bins_data_size (bb_base h) = num_at b 40 4
  /\ bb_clustering (bb_base h) = num_at b 44 4
  /\ (exists w, from_utf16_le_string (bytes_at b 48 64) 64 = Ok (bb_filename (bb_base h), w))
  /\ bb_unk2 (bb_base h) = bytes_at b 112 396
  /\ bb_checksum (bb_base h) = num_at b 508 4
  /\ rs_rm_id (bb_ext h) = bytes_at b 512 16
  /\ rs_log_id (bb_ext h) = bytes_at b 528 16
  /\ rs_flags (bb_ext h) = num_at b 544 4
  /\ rs_tm_id (bb_ext h) = bytes_at b 548 16
  /\ rs_signature (bb_ext h) = num_at b 564 4
  /\ rs_reorganized (bb_ext h) = get_date_time_from_filetime (num_at b 568 8)
  /\ rs_remaining (bb_ext h) = bytes_at b 576 3512
  /\ bb_boot_type h = num_at b 4088 4
  /\ bb_boot_recover h = num_at b 4092 4.
Proof. exact bb_fields. Qed.
Print Assumptions C12_header_fields.
Example C12_example :
  let b := REGF ++ enc 4 7 ++ enc 4 6 ++ enc 8 0 ++ enc 4 1 ++ enc 4 5 ++ enc 4 0 ++ enc 4 1
           ++ enc 4 32 ++ enc 4 8192 ++ enc 4 1 ++ repeat 0 4048 in
  len b = 4096 /\ bytes_at b 0 4 = REGF
  /\ match bb_from_bytes b with
     | Ok (h, []) => bb_primary_seq (bb_base h) = 7 /\ bb_secondary_seq (bb_base h) = 6
                     /\ bb_root_offset (bb_base h) = 32%Z /\ bb_hive_bins_data_size (bb_base h) = 8192
     | _ => False
     end.
Proof. vm_compute. repeat split. Qed.
Theorem C12_header_file_name : forall b text tail, Forall scalar text -> ~ In 0 text ->
  4096 <= len b -> bytes_at b 0 4 = REGF ->
  bytes_at b 48 64 = utf16le text ++ tail ->
  (tail = [] \/ exists junk, tail = 0 :: 0 :: junk) ->
  exists h r, bb_from_bytes b = Ok (h, r) /\ read_utf8 (bb_filename (bb_base h)) = Some text.
Proof. exact file_name_text. Qed.
Print Assumptions C12_header_file_name.
Example C12_file_name_example :
  bytes_at (REGF ++ repeat 0 44 ++ utf16le [0x68; 0x1F600] ++ repeat 0 4042) 48 64
  = utf16le [0x68; 0x1F600] ++ 0 :: 0 :: repeat 0 56.
Proof. vm_compute. reflexivity. Qed.
Theorem C12_no_other_header_is_accepted : forall b r,
  bb_from_bytes b = Ok r -> 4096 <= len b /\ bytes_at b 0 4 = REGF.
Proof. exact bb_accepts. Qed.
Print Assumptions C12_no_other_header_is_accepted.
Theorem C12_header_never_aborts : forall b,
  bb_from_bytes b = Err \/ exists h r, bb_from_bytes b = Ok (h, r).
Proof. exact bb_total. Qed.
Print Assumptions C12_header_never_aborts.
Theorem C12_bin_header_fields : forall off b,
  (32 <= len b /\ bytes_at b 0 4 = HBIN
   /\ exists h, hbin_from_bytes off b = Ok (h, rest_at b 32)
      /\ hb_offset h = num_at b 4 4 /\ hb_size h = num_at b 8 4
      /\ hb_unknown1 h = num_at b 12 4 /\ hb_unknown2 h = num_at b 16 4
      /\ hb_time h = get_date_time_from_filetime (num_at b 20 8) /\ hb_spare h = num_at b 28 4
      /\ hb_file_offset h = off)
  \/ ((len b < 32 \/ bytes_at b 0 4 <> HBIN) /\ hbin_from_bytes off b = Err).
Proof. exact hbin_fields. Qed.
Print Assumptions C12_bin_header_fields.

(** C13 *)
Theorem C13_marvin32 : forall seed data, seed < 2 ^ 64 -> bytes_ok data ->
  marvin32 seed data = marvin32_spec seed data.
Proof. exact marvin_spec. Qed.
Print Assumptions C13_marvin32.
(** The last two values are among those of the test in src/marvin32.rs. *)
Example C13_example : marvin32 0x82EF4D887A4E55C5 [0x61; 0x62; 0x63; 0x64; 0x65]
  = marvin32_spec 0x82EF4D887A4E55C5 [0x61; 0x62; 0x63; 0x64; 0x65]
  /\ marvin32 0x004fb61a001bdbcc [] = 0x30ed35c100cd3c7d
  /\ marvin32 0x004fb61a001bdbcc [0xAF] = 0x48e73fc77d75ddc1.
Proof. vm_compute. repeat split. Qed.
