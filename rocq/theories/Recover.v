(** Model of src/parser_recover_deleted.rs and of the maps of src/state.rs. *)
From Verif Require Import Base Util BaseBlock Types Value Node.

(** ** The maps of the parse state *)

(** [ModifiedValueMap::add], [DeletedValueMap::add],
    [ModifiedDeletedKeyMap::add], src/state.rs:36-49,69-78,115-124. *)
Definition map_push {K A} (eqb : K -> K -> bool) (k : K) (x : A) (m : amap K (list A))
  : amap K (list A) :=
  match aget eqb k m with
  | Some l => aset eqb k (l ++ [x]) m
  | None => aset eqb k [x] m
  end.

(** Removal of the first element that satisfies a test, if any. *)
Fixpoint remove_first {A} (test : A -> bool) (l : list A) : option (list A) :=
  match l with
  | [] => None
  | x :: r => if test x then Some r else option_map (cons x) (remove_first test r)
  end.

(** [DeletedValueMap::remove], src/state.rs:84-100. *)
Definition deleted_values_remove (path name : list N) (hash : N)
  (m : amap (list N) (list key_value)) : amap (list N) (list key_value) :=
  match aget beq path m with
  | None => m
  | Some vs =>
      match remove_first
              (fun v => beq (vd_name (kv_detail v)) name
                        && match kv_hash v with Some h => hash =? h | None => false end) vs with
      | None => m
      | Some [] => adel beq path (aset beq path [] m)
      | Some r => aset beq path r m
      end
  end.

(** [ModifiedDeletedKeyMap::remove], src/state.rs:130-145; when the list of the
    parent becomes empty the entry removed is that of [path], not that of the
    parent. *)
Definition deleted_keys_remove (path : list N) (hash : N)
  (m : amap (list N) (list key_node)) : amap (list N) (list key_node) :=
  let parent := before_last_bs path in
  match aget beq parent m with
  | None => m
  | Some ks =>
      match remove_first
              (fun k => match kn_hash k with
                        | Some h => (hash =? h) && beq path (kn_path k)
                        | None => false
                        end) ks with
      | None => m
      | Some [] => adel beq path (aset beq parent [] m)
      | Some r => aset beq parent r m
      end
  end.

(** ** The scan *)

(** [read_checked], src/parser_recover_deleted.rs:256-266. *)
Definition read_checked (buffer : list N) (off : N) : option (list N) :=
  if off <? len buffer then get_from buffer off else None.

(** [read_range_checked], src/parser_recover_deleted.rs:244-254. *)
Definition read_range_checked (buffer : list N) (off size : N) : option (list N) :=
  if off <? len buffer then get_range buffer off (N.min (off + size) (len buffer)) else None.

(** [read_cell_key_value], src/parser_recover_deleted.rs:117-149. [scan] is
    [find_cells_in_slack]. Returns the state and the bytes to advance. *)
Definition recover_value (scan : state -> list N -> N -> res state) (fi : file_info) (st : state)
  (input : list N) (off : N) (cs : cell_state) (force_add : bool) : res (state * N) :=
  match kv_from_bytes input off None false with
  | Ok (v, _) =>
      let* st := scan st (vd_slack (kv_detail v)) (kv_slack_offset v) in
      if force_add || kv_is_free v then
        let v := read_value_bytes fi st v in
        Ok (set_deleted_values (map_push beq [] (kv_set_state cs v) (st_deleted_values st)) st,
            kv_cell_size v)
      else Ok (st, 1)
  | Err => Ok (add_info WarningRecovery st, 1)
  | Panic => Panic
  | OutOfFuel => OutOfFuel
  end.

(** [read_cell_key_node], src/parser_recover_deleted.rs:151-196. *)
Definition recover_key (scan : state -> list N -> N -> res state) (fi : file_info) (st : state)
  (input : list N) (off : N) (cs : cell_state) (force_add : bool) : res (state * N) :=
  match read_from_slice fi st input (mkOpt off [] None true None false) with
  | Ok (Some k, st) =>
      let* st := scan st (kd_slack (kn_detail k)) (kn_slack_offset k) in
      if force_add || kn_is_free k then
        Ok (set_deleted_keys (map_push beq [] (kn_set_state cs k) (st_deleted_keys st)) st,
            kn_cell_size k)
      else Ok (st, 1)
  | Ok (None, st) => Ok (st, 1)
  | Err => Ok (add_info WarningRecovery st, 1)
  | Panic => Panic
  | OutOfFuel => OutOfFuel
  end.

(** [find_cells_in_slack] and [find_cells_in_slack_internal],
    src/parser_recover_deleted.rs:113-115,198-241: the [Err] of a slice too
    short for a size ends the scan and is ignored. *)
Fixpoint slack_scan (fuel : nat) (fi : file_info) (st : state) (input : list N) (start offset : N)
  : res state :=
  match fuel with
  | O => OutOfFuel
  | S fuel' =>
      if offset <? len input then
        let cell := skipn (N.to_nat offset) input in
        match le_i32 cell with
        | None => Ok st
        | Some (_, i) =>
            let scan st s o := slack_scan fuel' fi st s o 0 in
            match tag NK i, tag VK i with
            | Some _, _ =>
                let* (st, n) := recover_key scan fi st cell (start + offset) DeletedPrimaryFileSlack true in
                slack_scan fuel' fi st input start (offset + n)
            | None, Some _ =>
                let* (st, n) := recover_value scan fi st cell (start + offset) DeletedPrimaryFileSlack true in
                slack_scan fuel' fi st input start (offset + n)
            | None, None => slack_scan fuel' fi st input start (offset + 1)
            end
        end
      else Ok st
  end.
Definition find_cells_in_slack (fi : file_info) (st : state) (input : list N) (start : N)
  : res state :=
  slack_scan (S (length input)) fi st input start 0.

(** [find_unused_cells_in_hbin], src/parser_recover_deleted.rs:53-110. Only the
    first slice reaches to the end of the buffer; the next ones are as long as
    the previous cell. *)
Fixpoint unused_cells_loop (fuel : nat) (fi : file_info) (st : state) (input : list N)
  (off hbin_max : N) : res (N * state) :=
  match fuel with
  | O => OutOfFuel
  | S fuel' =>
      if off <? hbin_max then
        let* (size, i) := nom (le_i32 input) in
        let size_abs := unsigned_abs size in
        if (size =? 0)%Z then Ok (off, st)
        else
          let* st :=
            match tag VK i, tag NK i with
            | Some _, _ =>
                match read_checked (fi_buffer fi) off with
                | Some s =>
                    let* (st, _) := recover_value (find_cells_in_slack fi) fi st s off DeletedPrimaryFile false in
                    Ok st
                | None => Ok st
                end
            | None, Some _ =>
                match read_checked (fi_buffer fi) off with
                | Some s =>
                    let* (st, _) := recover_key (find_cells_in_slack fi) fi st s off DeletedPrimaryFile false in
                    Ok st
                | None => Ok st
                end
            | None, None =>
                match read_range_checked (fi_buffer fi) off size_abs with
                | Some s => find_cells_in_slack fi st s off
                | None => Ok st
                end
            end in
          let off := off + size_abs in
          match read_range_checked (fi_buffer fi) off size_abs with
          | Some data => unused_cells_loop fuel' fi st data off hbin_max
          | None => Ok (off, st)
          end
      else Ok (off, st)
  end.
Definition find_unused_cells_in_hbin (fi : file_info) (st : state) (off hbin_max : N)
  : res (N * state) :=
  let* input := ok_or (read_checked (fi_buffer fi) off) in
  unused_cells_loop (S (length (fi_buffer fi))) fi st input off hbin_max.

(** [ParserRecoverDeleted::find_free_keys_and_values],
    src/parser_recover_deleted.rs:35-51: one bin; returns the offset at which
    the scan stopped. *)
Definition recover_hbin (fi : file_info) (st : state) (off : N) : res (N * state) :=
  let* slice := ok_or (read_checked (fi_buffer fi) off) in
  let* (h, rest) := hbin_from_bytes off slice in
  find_unused_cells_in_hbin fi st (len (fi_buffer fi) - len rest) (off + hb_size h).

(** [Parser::find_free_keys_and_values], src/parser.rs:156-171: the loop
    compares an absolute offset with the size of the bins data. *)
Fixpoint recover_loop (fuel : nat) (fi : file_info) (st : state) (off hive_bins_size : N)
  : res state :=
  match fuel with
  | O => OutOfFuel
  | S fuel' =>
      if off <? hive_bins_size then
        let* (off, st) := recover_hbin fi st off in
        recover_loop fuel' fi st off hive_bins_size
      else Ok st
  end.
Definition find_free_keys_and_values (fi : file_info) (st : state) (hive_bins_size : N)
  : res state :=
  recover_loop (S (length (fi_buffer fi))) fi st (fi_hbin fi) hive_bins_size.
