(** Properties C21-C28, C46, C47 and C49: cells, value data, lists, decoding. *)
From Verif Require Import Base BaseFacts Util UtilSpec UtilText LayoutSpec LayoutFacts Types Value Node CellSpec CellFacts
  CellData CellList CellRead CellExtra Demo DemoCell.

(** C21: what is accepted, and that anything else is an error. *)
Theorem C21_key_cells : forall st b off path seq,
  (nk_ok b /\ exists k, kn_from_bytes st b off path seq = Ok (k, rest_at b (nk_end b))
    /\ kn_detail k = nk_detail_at (st_full st) b)
  \/ (~ nk_ok b /\ kn_from_bytes st b off path seq = Err).
Proof.
  intros. destruct (kn_cases st b off path seq) as [(O & n & w & _ & E)|N]; [left|now right].
  split; [exact O|]. eexists. split; [exact E|reflexivity].
Qed.
Print Assumptions C21_key_cells.
Theorem C21_value_cells : forall b off seq full,
  (vk_ok b /\ exists v, kv_from_bytes b off seq full = Ok (v, rest_at b (vk_end b))
    /\ kv_detail v = vk_detail_at full b (vd_name (kv_detail v)))
  \/ (~ vk_ok b /\ kv_from_bytes b off seq full = Err).
Proof.
  intros. destruct (kv_cases b off seq full) as [(O & n & w & _ & E)|N]; [left|now right].
  split; [exact O|]. eexists. split; [exact E|reflexivity].
Qed.
Print Assumptions C21_value_cells.
(** Reading a key at any offset of any file, with its values. *)
Theorem C21_reading_a_key : forall fi st o, bytes_ok (fi_buffer fi) -> is_text (op_path o) ->
  (op_filter o = None \/ cache_ok st (op_path o)) -> op_modified o = false \/ st_deleted_keys st = [] ->
  kn_read fi st o = Err \/ exists r, kn_read fi st o = Ok r.
Proof. exact kn_read_settled. Qed.
Print Assumptions C21_reading_a_key.
(** The content of a value. *)
Theorem C21_content : forall v, exists c l, get_content v = Ok (c, l).
Proof. exact content_total. Qed.
Print Assumptions C21_content.
Example C21_example :
  (exists k s, kn_read (mkFI 0 bad_key_file) plain_state (mkOpt 120 [82] None false None true) = Ok (Some k, s)
     /\ kn_path k = [82; 92; 65])
  /\ kn_read (mkFI 0 bad_key_file) plain_state (mkOpt 121 [82] None false None true) = Err
  /\ kn_read (mkFI 0 bad_key_file) plain_state (mkOpt 9999 [82] None false None true) = Err.
Proof. split; [|split; vm_compute; reflexivity]. do 2 eexists. split; vm_compute; reflexivity. Qed.

(** C22 *)
Theorem C22_key_cells_round_trip : forall st d name text rest off path seq, nk_fits d name ->
  stored_name (N.testbit (kd_flags d) 5) name text ->
  exists k, kn_from_bytes st (nk_bytes d name ++ rest) off path seq = Ok (k, rest)
  /\ kn_detail k = kd_with_full (if st_full st then Some (nk_table d) else None) d
  /\ read_utf8 (kn_name k) = Some text /\ kn_path k = path ++ [92] ++ kn_name k /\ kn_offset k = off
  /\ kn_state k = Allocated /\ kn_values k = []
  /\ kn_logs k = (if N.land (kd_flags d) 0x53FF =? kd_flags d then [] else [WarningUnrecognizedBitflag]).
Proof. exact nk_named. Qed.
Print Assumptions C22_key_cells_round_trip.
Example C22_example :
  (nk_fits (demo_nk 0x20 2 [1; 2; 3; 4]) [75; 233]
   /\ stored_name (N.testbit (kd_flags (demo_nk 0x20 2 [1; 2; 3; 4])) 5) [75; 233] [75; 233])
  /\ (nk_fits (demo_nk 0 4 []) [75; 0; 0xAC; 0x20]
   /\ stored_name (N.testbit (kd_flags (demo_nk 0 4 [])) 5) [75; 0; 0xAC; 0x20] [75; 0x20AC]).
Proof.
  split; (split; [vm_compute; repeat split; discriminate|]); cbn [stored_name demo_nk kd_flags N.testbit Pos.testbit Pos.pred_N].
  - split; [|reflexivity]. repeat constructor; reflexivity.
  - split; [|split; [|vm_compute; reflexivity]].
    + repeat constructor; unfold scalar; lia.
    + intros [?|[?|[]]]; discriminate.
Qed.

(** C23, for the flags the format defines. *)
Theorem C23_value_cells_round_trip : forall d name text rest off seq full, vk_fits d name -> vd_flags_raw d < 4 ->
  stored_name (N.testbit (vd_flags_raw d) 0) name text ->
  exists v, kv_from_bytes (vk_bytes d name ++ rest) off seq full = Ok (v, rest)
  /\ read_utf8 (vd_name (kv_detail v)) = Some text
  /\ kv_detail v = mkVD (vd_size d) (vd_name_size d) (vd_data_size_raw d) (vd_data_offset d) (vd_type_raw d)
                     (vd_flags_raw d) (vd_padding d) (vd_name (kv_detail v)) (vd_slack d) None
                     (if full then Some (vk_table d) else None)
  /\ kv_offset v = off /\ kv_type v = shown_type (vd_type_raw d) /\ kv_flags v = vd_flags_raw d
  /\ kv_state v = Allocated /\ kv_logs v = [].
Proof. exact vk_named. Qed.
Print Assumptions C23_value_cells_round_trip.
Example C23_example :
  vk_fits (demo_vk 1 3 8 0x1000 3 [5; 6]) [86; 97; 108] /\ vd_flags_raw (demo_vk 1 3 8 0x1000 3 [5; 6]) < 4
  /\ stored_name (N.testbit (vd_flags_raw (demo_vk 1 3 8 0x1000 3 [5; 6])) 0) [86; 97; 108] [86; 97; 108].
Proof.
  split; [vm_compute; repeat split; discriminate|]. split; [reflexivity|].
  cbn [stored_name demo_vk vd_flags_raw N.testbit Pos.testbit]. split; [|reflexivity]. repeat constructor; reflexivity.
Qed.
(** With any other flag set, the compressed flag is lost and an ASCII name is
    read as UTF-16. *)
Theorem C23_unknown_flag_refuted : exists d name v,
  vk_fits d name /\ stored_name (N.testbit (vd_flags_raw d) 0) name name
  /\ kv_from_bytes (vk_bytes d name) 0 None false = Ok (v, [])
  /\ read_utf8 (vd_name (kv_detail v)) <> Some name.
Proof.
  exists (demo_vk 5 2 8 0x1000 3 []), [86; 97]. eexists.
  split; [vm_compute; repeat split; discriminate|]. split.
  { cbn [stored_name demo_vk vd_flags_raw N.testbit Pos.testbit]. split; [|reflexivity]. repeat constructor; reflexivity. }
  split; [vm_compute; reflexivity|]. vm_compute. discriminate.
Qed.
Print Assumptions C23_unknown_flag_refuted.

(** C24: in the cell, in its own cell, in segments. Fixed-width types keep only
    their width, see [value_data]. *)
Theorem C24_resident_data : forall fi st v data pad, len data <= 4 ->
  vd_data_size_raw (kv_detail v) = 0x80000000 + len data ->
  enc 4 (vd_data_offset (kv_detail v)) = data ++ pad ->
  kv_with_data fi st v (value_data (kv_type v) data) [kv_offset v + 12] [].
Proof. exact data_resident. Qed.
Print Assumptions C24_resident_data.
Theorem C24_cell_data_partial : forall fi st v data size, len size = 4 -> len data < 2147483648 ->
  vd_data_size_raw (kv_detail v) = len data ->
  stored (fi_buffer fi) (fi_hbin fi + vd_data_offset (kv_detail v)) (size ++ data) ->
  (len data <= 16344 \/ firstn 2 data <> [100; 98]) ->
  kv_with_data fi st v (value_data (kv_type v) data)
    [fi_hbin fi + vd_data_offset (kv_detail v) + 4] [].
Proof. exact data_cell. Qed.
Print Assumptions C24_cell_data_partial.
Theorem C24_big_data : forall fi st v segs offs, segmentation segs ->
  Forall2 (segment_cell fi) offs segs ->
  big_data_cell fi (vd_data_offset (kv_detail v)) offs ->
  vd_data_size_raw (kv_detail v) = len (concat segs) ->
  16344 < len (concat segs) < 2147483648 ->
  kv_with_data fi st v (value_data (kv_type v) (concat segs)) offs [].
Proof. exact data_big. Qed.
Print Assumptions C24_big_data.
Example C24_example :
  (let v := demo_kv 0x80000003 0x00030201 3 in
   len [1; 2; 3] <= 4 /\ vd_data_size_raw (kv_detail v) = 0x80000000 + len [1; 2; 3]
   /\ enc 4 (vd_data_offset (kv_detail v)) = [1; 2; 3] ++ [0] /\ value_data (kv_type v) [1; 2; 3] = [1; 2; 3])
  /\ (let fi := mkFI 8 (repeat 0 12 ++ [0; 0; 0; 0] ++ [9; 8; 7; 6; 5] ++ [0]) in
      stored (fi_buffer fi) (fi_hbin fi + vd_data_offset (kv_detail (demo_kv 5 4 3))) ([0; 0; 0; 0] ++ [9; 8; 7; 6; 5]))
  /\ (let fi := mkFI 0 big_file in
      segmentation [seg1; [9]] /\ Forall2 (segment_cell fi) [32; 16384] [seg1; [9]]
      /\ big_data_cell fi (vd_data_offset (kv_detail (demo_kv 16345 0 3))) [32; 16384]
      /\ vd_data_size_raw (kv_detail (demo_kv 16345 0 3)) = len (concat [seg1; [9]])).
Proof.
  split; [vm_compute; repeat split; discriminate|]. split.
  { exists (repeat 0 12), [0]. split; reflexivity. }
  split.
  { exists [seg1], [9]. split; [reflexivity|]. split; [constructor; [vm_compute; reflexivity|constructor]|].
    split; [reflexivity|vm_compute; discriminate]. }
  split.
  - constructor; [|constructor; [|constructor]].
    + exists (-16352)%Z. split; [unfold i32; lia|]. split; [vm_compute; discriminate|].
      exists (firstn 32 big_file), (skipn 16380 big_file). split; vm_compute; reflexivity.
    + exists (-8)%Z. split; [unfold i32; lia|]. split; [vm_compute; discriminate|].
      exists (firstn 16384 big_file), (skipn 16389 big_file). split; vm_compute; reflexivity.
  - split; [|vm_compute; reflexivity]. exists (-16)%Z, 16, (repeat 0 4).
    split; [unfold i32; lia|]. split; [reflexivity|]. split; [reflexivity|]. split; [reflexivity|].
    split; [repeat constructor; reflexivity|]. split.
    + exists [], (skipn 12 big_file). split; vm_compute; reflexivity.
    + exists (firstn 16 big_file), (skipn 28 big_file). split; vm_compute; reflexivity.
Qed.
(** Data longer than 16344 bytes that is in one cell and begins with "db" is
    taken for a big-data record and lost. *)
Theorem C24_db_prefix_refuted : exists fi v data,
  vd_data_size_raw (kv_detail v) = len data /\ kv_type v = 3
  /\ stored (fi_buffer fi) (fi_hbin fi + vd_data_offset (kv_detail v)) (enc_i32 (-16352)%Z ++ data)
  /\ forall st, vd_bytes (kv_detail (read_value_bytes fi st v)) = Some [].
Proof.
  exists (mkFI 0 (enc_i32 (-16352)%Z ++ [100; 98] ++ repeat 255 16344)), (demo_kv 16346 0 3), ([100; 98] ++ repeat 255 16344).
  split; [vm_compute; reflexivity|]. split; [reflexivity|]. split.
  - exists [], []. split; vm_compute; reflexivity.
  - intros st. vm_compute. reflexivity.
Qed.
Print Assumptions C24_db_prefix_refuted.
(** Five bytes stored for a REG_DWORD: the fifth is not reported. *)
Theorem C24_fixed_width_refuted : exists fi v data,
  vd_data_size_raw (kv_detail v) = len data
  /\ stored (fi_buffer fi) (fi_hbin fi + vd_data_offset (kv_detail v)) (enc_i32 (-16)%Z ++ data)
  /\ forall st, vd_bytes (kv_detail (read_value_bytes fi st v)) <> Some data.
Proof.
  exists (mkFI 0 (enc_i32 (-16)%Z ++ [1; 2; 3; 4; 5])), (demo_kv 5 0 4), [1; 2; 3; 4; 5].
  split; [reflexivity|]. split; [now exists [], []|]. intros st. vm_compute. discriminate.
Qed.
Print Assumptions C24_fixed_width_refuted.

(** C25 *)
Theorem C25_numbers : forall v t r n z,
  (holds v t (enc 4 n ++ r) -> In t [4; 0x105] -> n < 2 ^ 32 -> get_content v = Ok (CU32 n, []))
  /\ (holds v t (rev (enc 4 n) ++ r) -> t = 5 -> n < 2 ^ 32 -> get_content v = Ok (CU32 n, []))
  /\ (holds v t (enc 8 n ++ r) -> In t [0xB; 0x107; 0x10] -> n < 2 ^ 64 -> get_content v = Ok (CU64 n, []))
  /\ (holds v t (enc 1 n ++ r) -> In t [0x101; 0x10B] -> n < 2 ^ 8 -> get_content v = Ok (CU32 n, []))
  /\ (holds v t (enc 2 n ++ r) -> t = 0x103 -> n < 2 ^ 16 -> get_content v = Ok (CU32 n, []))
  /\ (holds v t (enc_i16 z ++ r) -> t = 0x102 -> (- 2 ^ 15 <= z < 2 ^ 15)%Z -> get_content v = Ok (CI32 z, []))
  /\ (holds v t (enc_i32 z ++ r) -> t = 0x104 -> (- 2 ^ 31 <= z < 2 ^ 31)%Z -> get_content v = Ok (CI32 z, []))
  /\ (holds v t (enc_i64 z ++ r) -> t = 0x106 -> (- 2 ^ 63 <= z < 2 ^ 63)%Z -> get_content v = Ok (CI64 z, [])).
Proof. exact content_numbers. Qed.
Print Assumptions C25_numbers.
Theorem C25_strings : forall v t text tail, holds v t (utf16le text ++ tail) -> In t [1; 2; 6] ->
  Forall scalar text -> ~ In 0 text -> utf16_end tail ->
  exists s, get_content v = Ok (CString s, []) /\ read_utf8 s = Some text.
Proof. exact content_string. Qed.
Print Assumptions C25_strings.
(** Not for strings with characters outside the basic plane or made of white
    space only, see C02. *)
Theorem C25_multi_strings_partial : forall v t l junk,
  holds v t (flat_map (fun s => utf16le s ++ [0; 0]) l ++ junk) -> t = 7 ->
  Forall (fun s => Forall bmp s /\ ~ Forall white_space s) l -> utf16_end junk ->
  exists r, get_content v = Ok (CMultiString r, []) /\ map read_utf8 r = map Some l.
Proof. exact content_multi. Qed.
Print Assumptions C25_multi_strings_partial.
Theorem C25_binary : forall v t b, holds v t b -> ~ In t typed -> get_content v = Ok (CBinary b, []).
Proof. exact content_binary. Qed.
Print Assumptions C25_binary.
(** Too few bytes for the type: the bytes, and a warning. *)
Theorem C25_too_short : forall v t b n, holds v t b -> fixed_width t = Some n \/ t = 0x10B /\ n = 1 -> len b < n ->
  get_content v = Ok (CBinary b, [WarningConversion]).
Proof. exact content_short. Qed.
Print Assumptions C25_too_short.
Example C25_example :
  holds (kv_holding 0x104 [254; 255; 255; 255; 1]) 0x104 (enc_i32 (-2)%Z ++ [1])
  /\ holds (kv_holding 5 [0; 0; 1; 2]) 5 (rev (enc 4 0x102))
  /\ holds (kv_holding 1 [75; 0; 0x3D; 0xD8; 0; 0xDE; 0; 0]) 1 (utf16le [75; 0x1F600] ++ [0; 0])
  /\ utf16_end [0; 0]
  /\ get_content (kv_holding 7 [75; 0; 0; 0; 76; 0; 0; 0; 0; 0]) = Ok (CMultiString [[75]; [76]], [])
  /\ get_content (kv_holding 4 [1; 2; 3]) = Ok (CBinary [1; 2; 3], [WarningConversion])
  /\ ~ In 3 typed.
Proof.
  split; [split; vm_compute; reflexivity|]. split; [split; vm_compute; reflexivity|].
  split; [split; vm_compute; reflexivity|]. split; [right; now exists []|].
  split; [vm_compute; reflexivity|]. split; [vm_compute; reflexivity|]. cbv. intuition discriminate.
Qed.

(** C26 *)
Theorem C26_lists : forall fi off keys, key_list fi off keys ->
  parse_sub_key_list (list_fuel fi) fi off = Ok keys.
Proof. exact list_parse. Qed.
Print Assumptions C26_lists.
Example C26_example : key_list (mkFI 0 list_file) 0 ([100] ++ [200; 300] ++ []).
Proof.
  apply ri_list with (size := (-16)%Z) (subs := [16; 32]).
  - unfold i32; lia.
  - reflexivity.
  - repeat constructor; reflexivity.
  - exists [], (skipn 16 list_file). split; vm_compute; reflexivity.
  - constructor; [|constructor; [|constructor]].
    + apply (lh_list (mkFI 0 list_file) 16 (-16)%Z [(100, [0; 0; 0; 0])]).
      * unfold i32; lia.
      * reflexivity.
      * repeat constructor; reflexivity.
      * exists (firstn 16 list_file), (skipn 32 list_file). split; vm_compute; reflexivity.
    + apply (lf_list (mkFI 0 list_file) 32 (-24)%Z [(200, [0; 0; 0; 0]); (300, [0; 0; 0; 0])]).
      * unfold i32; lia.
      * reflexivity.
      * repeat constructor; reflexivity.
      * exists (firstn 32 list_file), []. split; vm_compute; reflexivity.
Qed.
(** Items that point beyond the first four gigabytes: lh drops them, lf wraps them. *)
Theorem C26_far_items_lh : forall fi off size items, i32 size -> u16 (len items) -> fi_hbin fi < 2 ^ 32 ->
  Forall (fun x => fst x < 2 ^ 32 /\ len (snd x) = 4) items ->
  stored (fi_buffer fi) (fi_hbin fi + off)
    (enc_i32 size ++ [108; 104] ++ enc 2 (len items) ++ flat_map (fun x => enc 4 (fst x) ++ snd x) items) ->
  parse_sub_key_list (list_fuel fi) fi off = Ok (List.filter (fun p => p <? 2 ^ 32) (map (fun x => fi_hbin fi + fst x) items)).
Proof. exact lh_wide. Qed.
Print Assumptions C26_far_items_lh.
Theorem C26_far_items_lf : forall fi off size items, i32 size -> u16 (len items) -> fi_hbin fi < 2 ^ 32 ->
  Forall (fun x => fst x < 2 ^ 32 /\ len (snd x) = 4) items ->
  stored (fi_buffer fi) (fi_hbin fi + off)
    (enc_i32 size ++ [108; 102] ++ enc 2 (len items) ++ flat_map (fun x => enc 4 (fst x) ++ snd x) items) ->
  parse_sub_key_list (list_fuel fi) fi off = Ok (map (fun x => (fi_hbin fi + fst x) mod 2 ^ 32) items).
Proof. exact lf_wide. Qed.
Print Assumptions C26_far_items_lf.
Definition far_items : list (N * list N) := [(4294967295, [0; 0; 0; 0]); (32, [0; 0; 0; 0])].
Definition far_list (c : N) : list N :=
  repeat 0 8 ++ enc_i32 (-24) ++ [108; c] ++ enc 2 (len far_items) ++ flat_map (fun x => enc 4 (fst x) ++ snd x) far_items.
Example C26_far_example : parse_sub_key_list (list_fuel (mkFI 8 (far_list 104))) (mkFI 8 (far_list 104)) 0 = Ok [40]
  /\ parse_sub_key_list (list_fuel (mkFI 8 (far_list 102))) (mkFI 8 (far_list 102)) 0 = Ok [7; 40].
Proof.
  assert (F : Forall (fun x => fst x < 2 ^ 32 /\ len (snd x) = 4) far_items) by (repeat constructor).
  split.
  - rewrite (C26_far_items_lh (mkFI 8 (far_list 104)) 0 (-24)%Z far_items); [reflexivity|unfold i32; lia|reflexivity|reflexivity|exact F|].
    exists (repeat 0 8), []. split; vm_compute; reflexivity.
  - rewrite (C26_far_items_lf (mkFI 8 (far_list 102)) 0 (-24)%Z far_items); [reflexivity|unfold i32; lia|reflexivity|reflexivity|exact F|].
    exists (repeat 0 8), []. split; vm_compute; reflexivity.
Qed.

(** C27: the fuel of [list_fuel] is enough whenever any is, and where none is
    some index root reaches itself. *)
Theorem C27_list_parsing_ends_partial : forall fi o,
  (~ exists c, (c = o \/ index_path fi o c) /\ index_path fi c c) ->
  parse_sub_key_list (list_fuel fi) fi o = Err \/ exists l, parse_sub_key_list (list_fuel fi) fi o = Ok l.
Proof.
  intros fi o H. apply psl_total. intros E. apply H. now apply diverge_cycle.
Qed.
Print Assumptions C27_list_parsing_ends_partial.
Theorem C27_fuel : forall fi o n, parse_sub_key_list n fi o <> OutOfFuel ->
  parse_sub_key_list (list_fuel fi) fi o = parse_sub_key_list n fi o.
Proof. exact list_fuel_enough. Qed.
Print Assumptions C27_fuel.
Theorem C27_index_root_cycle_refuted : exists fi o, bytes_ok (fi_buffer fi) /\ index_entry fi o o
  /\ forall n, parse_sub_key_list n fi o = OutOfFuel.
Proof.
  exists (mkFI 0 self_list), 0. split; [repeat constructor; reflexivity|]. split.
  - split; [vm_compute; discriminate|]. split; [vm_compute; reflexivity|]. exists 0. split; vm_compute; reflexivity.
  - induction n as [|n IH]; [reflexivity|]. rewrite psl_step.
    replace (list_at (mkFI 0 self_list) 0) with (@inl (list N) (res (list N)) [0]) by (vm_compute; reflexivity).
    cbn [each_list]. rewrite IH. reflexivity.
Qed.
Print Assumptions C27_index_root_cycle_refuted.
Example C27_example : parse_sub_key_list (list_fuel (mkFI 0 list_file)) (mkFI 0 list_file) 0 = Ok [100; 200; 300]
  /\ parse_sub_key_list (list_fuel (mkFI 0 list_file)) (mkFI 0 list_file) 4 = Err.
Proof. vm_compute. split; reflexivity. Qed.

(** C28 *)
Theorem C28_security_ring : forall D (parse_sd : list N -> option D) buf hbin start sds ds,
  security_ring buf hbin start start sds -> Forall2 (fun sd d => parse_sd sd = Some d) sds ds ->
  read_cell_key_security parse_sd buf start hbin = Ok ds.
Proof. exact @security_ring_read. Qed.
Print Assumptions C28_security_ring.
Theorem C28_security_ends_partial : forall D (parse_sd : list N -> option D) buf hbin start,
  (~ exists c, security_path buf hbin start start c /\ security_path buf hbin start c c) ->
  read_cell_key_security parse_sd buf start hbin = Err
  \/ exists l, read_cell_key_security parse_sd buf start hbin = Ok l.
Proof.
  intros D p buf hbin start H. pose proof (security_outcome p buf start hbin) as NP.
  destruct (read_cell_key_security p buf start hbin) eqn:E; eauto; [easy|].
  exfalso. apply H. eapply security_cycle, E.
Qed.
Print Assumptions C28_security_ends_partial.
Theorem C28_inner_cycle_refuted : exists buf start, bytes_ok buf
  /\ forall D (parse_sd : list N -> option D), (forall sd, parse_sd sd <> None) ->
     forall n, read_security_loop parse_sd n buf start 0 start [] = OutOfFuel.
Proof.
  exists (sk_file [32; 32]), 0. split; [vm_compute; repeat constructor; reflexivity|]. intros D p T.
  assert (A : forall n, read_security_loop p n (sk_file [32; 32]) 0 0 32 [] = OutOfFuel).
  { induction n as [|n IH]; [reflexivity|]. rewrite sec_step.
    assert (S : exists d, sec_at p (sk_file [32; 32]) 0 32 = Some (32, d)).
    { unfold sec_at. replace (get_from _ _) with (Some (sk 32)) by (vm_compute; reflexivity).
      replace (sk_from_bytes (sk 32)) with (Some (32, [1; 2; 3; 32])) by (vm_compute; reflexivity).
      destruct (p [1; 2; 3; 32]) eqn:E; [eauto|]. now apply T in E. }
    destruct S as (d & ->). change (32 =? 0) with false. cbv iota. now rewrite IH. }
  intros n. destruct n as [|n]; [reflexivity|]. rewrite sec_step.
  assert (S : exists d, sec_at p (sk_file [32; 32]) 0 0 = Some (32, d)).
  { unfold sec_at. replace (get_from _ _) with (Some (sk_file [32; 32])) by (vm_compute; reflexivity).
    replace (sk_from_bytes (sk_file [32; 32])) with (Some (32, [1; 2; 3; 32])) by (vm_compute; reflexivity).
    destruct (p [1; 2; 3; 32]) eqn:E; [eauto|]. now apply T in E. }
  destruct S as (d & ->). change (32 =? 0) with false. cbv iota. now rewrite A.
Qed.
Print Assumptions C28_inner_cycle_refuted.
Example C28_example : security_ring (sk_file [64; 0; 32]) 0 0 0 [[1; 2; 3; 64]; [1; 2; 3; 32]; [1; 2; 3; 0]].
Proof.
  assert (C : forall off next, In (off, next) [(0, 64); (64, 32); (32, 0)] ->
    security_cell (sk_file [64; 0; 32]) 0 off next [1; 2; 3; next]).
  { intros off next I. exists (-32)%Z, 0, 0, 1.
    repeat destruct I as [I|I]; try contradiction; injection I as <- <-;
      (split; [unfold i32; lia|]; repeat (split; [reflexivity|])).
    - exists [], (skipn 28 (sk_file [64; 0; 32])). split; vm_compute; reflexivity.
    - exists (firstn 64 (sk_file [64; 0; 32])), (repeat 0 4). split; vm_compute; reflexivity.
    - exists (firstn 32 (sk_file [64; 0; 32])), (skipn 60 (sk_file [64; 0; 32])). split; vm_compute; reflexivity. }
  apply ring_more with 64; [apply C; cbn; tauto|discriminate|].
  apply ring_more with 32; [apply C; cbn; tauto|discriminate|].
  apply ring_end. apply C; cbn; tauto.
Qed.

(** C46: the cell fields, with and without full information. [bytes_of b t] are
    the bytes of [b] at the places in the table [t]. *)
Theorem C46_key_cells : forall b st off path seq k r, bytes_ok b ->
  kn_from_bytes (set_full false st) b off path seq = Ok (k, r) ->
  exists k' t, kn_from_bytes (set_full true st) b off path seq = Ok (k', r)
  /\ kd_full (kn_detail k) = None /\ kd_full (kn_detail k') = Some t
  /\ kn_detail k' = kd_with_full (Some t) (kn_detail k)
  /\ k' = mkKN (kn_offset k) (kn_detail k') (kn_name k) (kn_path k) (kn_state k) (kn_seq k) (kn_updated_by k)
            (kn_values k) (kn_logs k) (kn_sub_offsets k) (kn_hash k) (kn_versions k) (kn_deleted k)
            (kn_to_return k) (kn_track k) (kn_filter k) (kn_index k)
  /\ bytes_of b t = nk_encoding (kn_detail k).
Proof. exact nk_full. Qed.
Print Assumptions C46_key_cells.
Theorem C46_value_cells : forall b off seq v r, bytes_ok b -> kv_from_bytes b off seq false = Ok (v, r) ->
  exists v' t name, kv_from_bytes b off seq true = Ok (v', r)
  /\ vd_full (kv_detail v) = None /\ vd_full (kv_detail v') = Some t
  /\ (let d := kv_detail v in
      v' = mkKV (kv_offset v)
             (mkVD (vd_size d) (vd_name_size d) (vd_data_size_raw d) (vd_data_offset d) (vd_type_raw d)
                (vd_flags_raw d) (vd_padding d) (vd_name d) (vd_slack d) (vd_bytes d) (Some t))
             (kv_type v) (kv_flags v) (kv_data_offsets v) (kv_state v) (kv_logs v) (kv_versions v)
             (kv_hash v) (kv_seq v) (kv_updated_by v))
  /\ bytes_of b t = vk_encoding (kv_detail v) name
  /\ (if vd_name_size (kv_detail v) =? 0 then Ok ([], 0)
      else string_from_bytes (N.odd (kv_flags v)) name (vd_name_size (kv_detail v)))
     = Ok (vd_name (kv_detail v), len (kv_logs v)).
Proof. exact vk_full. Qed.
Print Assumptions C46_value_cells.
Example C46_example :
  let b := nk_bytes (demo_nk 0x20 2 [1; 2; 3; 4]) [75; 233] in
  match kn_from_bytes full_state b 0 [] None with
  | Ok (k, _) => exists t, kd_full (kn_detail k) = Some t /\ nth 21 (bytes_of b t) [] = [1; 2; 3; 4]
      /\ nth 9 (bytes_of b t) [] = [255; 255; 255; 255]
  | _ => False
  end.
Proof. vm_compute. eexists. split; [reflexivity|]. split; reflexivity. Qed.
(** The entry of the data, filled in when the data is read, does not locate it. *)
Theorem C46_data_place_refuted : exists fi v r,
  kv_from_bytes (fi_buffer fi) 0 None true = Ok (v, r)
  /\ forall st, exists t data o n, let d := kv_detail (read_value_bytes fi st v) in
     vd_full d = Some t /\ vd_bytes d = Some data /\ List.last t (0, 0) = (o, n)
     /\ n = len data /\ bytes_at (fi_buffer fi) o n <> data.
Proof.
  exists (mkFI 0 (vk_bytes (demo_vk 1 3 8 27 3 []) [86; 97; 108] ++ enc_i32 (-16)%Z ++ [1; 2; 3; 4; 5; 6; 7; 8])).
  do 2 eexists. split; [vm_compute; reflexivity|]. intros st. do 4 eexists.
  split; [vm_compute; reflexivity|]. split; [vm_compute; reflexivity|]. split; [vm_compute; reflexivity|].
  split; [vm_compute; reflexivity|]. vm_compute. discriminate.
Qed.
Print Assumptions C46_data_place_refuted.

(** C47: sub-keys. A list entry that is not a key cell changes nothing but the
    warnings, whatever the filter. *)
Theorem C47_sub_keys : forall fi path sm f sub seq modified l1 bad l2,
  ~ nk_ok (rest_at (fi_buffer fi) bad) \/ len (fi_buffer fi) < bad -> forall st,
  read_children fi st path sm f sub seq modified (l1 ++ bad :: l2)
  = let* (cs, found, logs, st') := read_children fi st path sm f sub seq modified (l1 ++ l2) in
    Ok (cs, found, WarningParse :: logs, st').
Proof. exact children_skip. Qed.
Print Assumptions C47_sub_keys.
(** All sub-keys of a key that can be read are returned, in the order of the
    list, and one warning is logged for each that cannot. *)
Theorem C47_sub_keys_returned : forall fi st k offs,
  bytes_ok (fi_buffer fi) -> is_text (kn_path k) -> st_deleted_keys st = [] ->
  kn_state k = Allocated -> 0 < kd_nsub (kn_detail k) <= 1048576 ->
  parse_sub_key_list (list_fuel fi) fi (kd_sublist (kn_detail k)) = Ok offs ->
  exists k', read_sub_keys fi st k
   = Ok (k', flat_map (fun o => child_of (is_match_or_desc k) None None (child_read fi st k o)) offs, st)
  /\ kn_logs k' = kn_logs k ++ flat_map (fun o => match child_read fi st k o with Err => [WarningParse] | _ => [] end) offs.
Proof. exact sub_keys_read. Qed.
Print Assumptions C47_sub_keys_returned.
Example C47_sub_keys_example :
  let fi := mkFI 0 bad_key_file in
  ~ nk_ok (rest_at bad_key_file 8)
  /\ match kn_read fi plain_state (mkOpt 0 [] None false None true) with
     | Ok (Some k, _) => match read_sub_keys fi plain_state k with
                         | Ok (k', cs, _) => map kn_path cs = [[92; 75; 92; 65]; [92; 75; 92; 66]] /\ kn_logs k' = [WarningParse]
                         | _ => False
                         end
     | _ => False
     end.
Proof.
  split; [|vm_compute; split; reflexivity].
  intros (_ & _ & T & _). apply (f_equal (fun x => nth 0 x 0)) in T. vm_compute in T. discriminate.
Qed.
(** Values: those before the first that cannot be read are returned. *)
Theorem C47_values_partial : forall fi st seq l1 vs bad l2, Forall2 (value_read fi st seq) l1 vs ->
  ~ vk_ok (rest_at (fi_buffer fi) (fi_hbin fi + bad)) ->
  exists logs ok, read_values_loop fi st seq (l1 ++ bad :: l2) [] = Ok (vs, logs, ok)
  /\ (ok = true -> logs = [WarningParse]).
Proof. exact loop_bad. Qed.
Print Assumptions C47_values_partial.
Theorem C47_values_good : forall fi st seq offs vs, Forall2 (value_read fi st seq) offs vs ->
  read_values_loop fi st seq offs [] = Ok (vs, [], true).
Proof. exact loop_all. Qed.
Print Assumptions C47_values_good.
(** The value after it is not, although it can be read. *)
Theorem C47_values_refuted : exists fi k good,
  bytes_ok (fi_buffer fi)
  /\ kn_read fi plain_state (mkOpt 0 [] None false None true) = Ok (Some k, plain_state)
  /\ kd_nvalues (kn_detail k) = 2 /\ kn_values k = [] /\ kn_logs k = [WarningParse]
  /\ num_at (fi_buffer fi) 96 4 = 104 /\ kd_vallist (kn_detail k) = 88%Z
  /\ value_read fi plain_state None 104 good /\ get_content good = Ok (CU32 1, []).
Proof.
  exists (mkFI 0 bad_value_file). do 2 eexists.
  split; [repeat constructor; reflexivity|]. split; [vm_compute; reflexivity|]. split; [reflexivity|].
  split; [reflexivity|]. split; [reflexivity|]. split; [vm_compute; reflexivity|]. split; [reflexivity|]. split.
  - do 2 eexists. split; [vm_compute; reflexivity|reflexivity].
  - vm_compute. reflexivity.
Qed.
Print Assumptions C47_values_refuted.
Example C47_values_example :
  exists v, Forall2 (value_read (mkFI 0 bad_value_file) plain_state None) [104] [v]
  /\ ~ vk_ok (rest_at bad_value_file (0 + 8)).
Proof.
  eexists. split.
  - constructor; [|constructor]. do 2 eexists. split; [vm_compute; reflexivity|reflexivity].
  - intros (_ & _ & T & _). apply (f_equal (fun x => nth 0 x 0)) in T. vm_compute in T. discriminate.
Qed.

(** C49 *)
Theorem C49_utf16 : forall b off, off <= len b ->
  decode Utf16 (CBinary b) off = decode Utf16 (CBinary (rest_at b off)) 0.
Proof. exact decode_utf16_offset. Qed.
Print Assumptions C49_utf16.
Theorem C49_utf16_never_aborts : forall b off, exists c l, decode Utf16 (CBinary b) off = Ok (c, l).
Proof. exact decode_utf16_total. Qed.
Print Assumptions C49_utf16_never_aborts.
Theorem C49_lznt1 : forall b off, off <= len b ->
  decode Lznt1 (CBinary b) off = decode Lznt1 (CBinary (rest_at b off)) 0.
Proof. exact decode_lznt1_offset. Qed.
Print Assumptions C49_lznt1.
Theorem C49_utf16_multiple_refuted : exists b off, off <= len b /\ bytes_ok b
  /\ decode Utf16Multiple (CBinary b) off = Panic
  /\ decode Utf16Multiple (CBinary (rest_at b off)) 0 = Ok (CMultiString [[75]], []).
Proof.
  exists [1; 2; 75; 0; 0; 0], 2. split; [vm_compute; discriminate|]. split; [repeat constructor; reflexivity|].
  split; vm_compute; reflexivity.
Qed.
Print Assumptions C49_utf16_multiple_refuted.
Theorem C49_lznt1_aborts_refuted : exists b, bytes_ok b /\ decode Lznt1 (CBinary b) 0 = Panic.
Proof. exists [1; 0]. split; [repeat constructor; reflexivity|]. vm_compute. reflexivity. Qed.
Print Assumptions C49_lznt1_aborts_refuted.
Example C49_example :
  decode Utf16 (CBinary [9; 9; 75; 0; 76; 0]) 2 = Ok (CString [75; 76], [])
  /\ decode Lznt1 (CBinary [9; 0x02; 0x30; 75; 76; 77; 0; 0]) 1 = Ok (CBinary [75; 76; 77], []).
Proof. vm_compute. split; reflexivity. Qed.
