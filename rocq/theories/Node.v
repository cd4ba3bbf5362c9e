(** Model of src/cell_key_node.rs, src/sub_key_list_*.rs, src/filter.rs and
    src/cell_key_security.rs. *)
From Verif Require Import Base Util Types Value.

(** ** Text helpers (std) *)

Definition BS : N := 92.

(** [str::split('\\')]: always at least one piece. *)
Fixpoint split_bs (s : list N) : list (list N) :=
  match s with
  | [] => [[]]
  | c :: r =>
      if c =? BS then [] :: split_bs r
      else match split_bs r with
           | p :: ps => (c :: p) :: ps
           | [] => [[c]]
           end
  end.

(** [str::trim_start_matches('\\')] and [trim_end_matches('\\')]. *)
Fixpoint trim_start_bs (s : list N) : list N :=
  match s with
  | c :: r => if c =? BS then trim_start_bs r else s
  | [] => []
  end.
Definition trim_end_bs (s : list N) : list N := rev (trim_start_bs (rev s)).

(** [&s[0..s.rfind('\\').unwrap_or_default()]]. *)
Fixpoint before_last_bs (s : list N) : list N :=
  match s with
  | [] => []
  | c :: r => if existsb (N.eqb BS) r then c :: before_last_bs r else []
  end.

(** [sort_by] on a slice is stable: insertion sort. [leb x y] is "x does not
    compare greater than y". *)
Fixpoint insert_by {A} (leb : A -> A -> bool) (x : A) (l : list A) : list A :=
  match l with
  | [] => [x]
  | y :: r => if leb x y then x :: y :: r else y :: insert_by leb x r
  end.
Definition sort_by {A} (leb : A -> A -> bool) (l : list A) : list A :=
  fold_right (insert_by leb) [] l.

(** [Option<u32>] and [String] comparison (std). *)
Definition opt_le (a b : option N) : bool :=
  match a, b with
  | None, _ => true
  | Some _, None => false
  | Some x, Some y => x <=? y
  end.
Fixpoint str_le (a b : list N) : bool :=
  match a, b with
  | [], _ => true
  | _ :: _, [] => false
  | x :: a', y :: b' => if x =? y then str_le a' b' else x <? y
  end.

(** ** Filters *)

(** [FilterFlags], src/filter.rs:201-208; the two bits besides
    [FILTER_NO_MATCH] that occur. *)
Inductive filter_flags := NoMatch | IterateKeys | KeyMatch.

Definition f_is_valid (f : filter) : bool := match f with Some _ => true | None => false end.
Definition f_return_sub_keys (f : filter) : bool :=
  match f with Some q => rq_children q | None => false end.

(** One component against one lower-cased path segment, src/filter.rs:173-188. *)
Definition comp_match (c : component) (seg : list N) : bool :=
  match c with
  | ComponentString s => beq s (to_lower seg)
  | ComponentRegex r => r (to_lower seg)
  end.

(** The segment loop of [check_key_match], src/filter.rs:168-197. *)
Fixpoint match_segments (segs : list (list N)) (comps : list component) : filter_flags :=
  match segs with
  | [] => match comps with [] => KeyMatch | _ => IterateKeys end
  | s :: segs' =>
      match comps with
      | [] => NoMatch
      | c :: comps' => if comp_match c s then match_segments segs' comps' else NoMatch
      end
  end.

(** [check_key_match], src/filter.rs:163-198. *)
Definition check_key_match (q : reg_query) (key_path : list N) (root_offset : N)
  : res filter_flags :=
  let root_offset := if rq_has_root q then 0 else root_offset in
  let* p := str_from key_path root_offset in
  Ok (match_segments (split_bs p) (rq_path q)).

(** [State::get_root_path_offset], src/state.rs:169-174. *)
Definition st_get_root_path_offset (st : state) (path : list N) : N * state :=
  if st_root_offset st =? 0
  then let o := get_root_path_offset path in (o, set_root_offset o st)
  else (st_root_offset st, st).

(** [KeyNodeFlags::from_bits_checked], src/cell_key_node.rs:829-858 and
    src/macros.rs:33-58: the known bits, and whether a warning is logged. *)
Definition KEY_FLAGS_ALL : N := 0x53FF.
Definition key_flags (raw : N) : N := N.land raw KEY_FLAGS_ALL.
Definition key_flags_warn (raw : N) : list log_code :=
  if key_flags raw =? raw then [] else [WarningUnrecognizedBitflag].
Definition has_flag (flags bit : N) : bool := negb (N.land flags bit =? 0).

(** [is_key_root], src/cell_key_node.rs:518-522. *)
Definition is_key_root (k : key_node) : bool := has_flag (key_flags (kd_flags (kn_detail k))) 4.

(** [check_cell] / [match_cell] / [match_key], src/filter.rs:40-65. *)
Definition check_cell (f : filter) (st : state) (k : key_node) : res (filter_flags * state) :=
  match f with
  | None => Ok (IterateKeys, st)
  | Some q =>
      if is_key_root k && negb (rq_has_root q) then Ok (IterateKeys, st)
      else
        let p := to_lower (kn_path k) in
        let (o, st) := st_get_root_path_offset st p in
        let* fl := check_key_match q p o in
        Ok (fl, st)
  end.

(** [FilterBuilder], src/filter.rs:82-150: components are added in order. An
    invalid regular expression makes [build] fail; a compiled one is its
    predicate. *)
Definition add_key_path (q : reg_query) (path : list N) : reg_query :=
  mkRQ (rq_path q ++ map (fun s => ComponentString (to_lower s)) (split_bs (trim_end_bs path)))
    (rq_has_root q) (rq_children q).
Definition add_literal_segment (q : reg_query) (s : list N) : reg_query :=
  mkRQ (rq_path q ++ [ComponentString (to_lower (trim_end_bs (trim_start_bs s)))])
    (rq_has_root q) (rq_children q).
Definition add_regex_segment (q : reg_query) (r : list N -> bool) : reg_query :=
  mkRQ (rq_path q ++ [ComponentRegex r]) (rq_has_root q) (rq_children q).
Definition empty_query : reg_query := mkRQ [] false false.
Definition with_has_root (b : bool) (q : reg_query) : reg_query := mkRQ (rq_path q) b (rq_children q).
Definition with_children (b : bool) (q : reg_query) : reg_query := mkRQ (rq_path q) (rq_has_root q) b.

(** ** The nk cell *)

Definition NK : list N := [110; 107].

(** [check_size], src/cell_key_node.rs:768-771. *)
Definition nk_check_size (size : Z) (input_len : N) : bool :=
  (72 <=? unsigned_abs size) && (unsigned_abs size <=? input_len).

(** [CellKeyNode::hash], src/cell_key_node.rs:708-719. *)
Definition kn_hash_of (st : state) (flags time access : N) : N :=
  st_hasher st (enc 2 flags ++ enc 8 time ++ enc 4 access).

(** [CellKeyNode::from_bytes], src/cell_key_node.rs:524-624. *)
Definition kn_from_bytes (st : state) (input : list N) (off : N) (cur_path : list N)
  (seq : option N) : res (key_node * list N) :=
  let pos (i : list N) := len input - len i in
  let* (size, i1) := nom (le_i32 input) in
  if negb (nk_check_size size (len i1 + 4)) then Err
  else
    let* (_, i2) := nom (tag NK i1) in
    let* (flags, i3) := nom (le_u16 i2) in
    let* (time, i4) := nom (le_u64 i3) in
    let* (access, i5) := nom (le_u32 i4) in
    let* (parent, i6) := nom (le_i32 i5) in
    let* (nsub, i7) := nom (le_u32 i6) in
    let* (nvol, i8) := nom (le_u32 i7) in
    let* (sublist, i9) := nom (le_u32 i8) in
    let* (vollist, i10) := nom (le_i32 i9) in
    let* (nvalues, i11) := nom (le_u32 i10) in
    let* (vallist, i12) := nom (le_i32 i11) in
    let* (security, i13) := nom (le_u32 i12) in
    let* (class, i14) := nom (le_i32 i13) in
    let* (mx1, i15) := nom (le_u32 i14) in
    let* (mx2, i16) := nom (le_u32 i15) in
    let* (mx3, i17) := nom (le_u32 i16) in
    let* (mx4, i18) := nom (le_u32 i17) in
    let* (work, i19) := nom (le_u32 i18) in
    let* (name_size, i20) := nom (le_u16 i19) in
    let* (class_size, i21) := nom (le_u16 i20) in
    let* (name_bytes, i22) := nom (take name_size i21) in
    let* (name, w) := string_from_bytes (has_flag (key_flags flags) 0x20) name_bytes name_size in
    let* (slack, i23) := nom (parser_eat_remaining i22 (unsigned_abs size) (pos i22)) in
    Ok ({| kn_offset := off;
           kn_detail :=
             {| kd_size := size; kd_flags := flags; kd_time := time; kd_access := access;
                kd_parent := parent; kd_nsub := nsub; kd_nvol := nvol; kd_sublist := sublist;
                kd_vollist := vollist; kd_nvalues := nvalues; kd_vallist := vallist;
                kd_security := security; kd_class := class; kd_max_name := mx1;
                kd_max_class := mx2; kd_max_value_name := mx3; kd_max_value_data := mx4;
                kd_work := work; kd_name_size := name_size; kd_class_size := class_size;
                kd_slack := slack;
                kd_full :=
                  if st_full st
                  then Some [(pos input, 4); (pos i1, 2); (pos i2, 2); (pos i3, 8); (pos i4, 4);
                             (pos i5, 4); (pos i6, 4); (pos i7, 4); (pos i8, 4); (pos i9, 4);
                             (pos i10, 4); (pos i11, 4); (pos i12, 4); (pos i13, 4);
                             (pos i14, 4); (pos i15, 4); (pos i16, 4); (pos i17, 4);
                             (pos i18, 4); (pos i19, 2); (pos i20, 2); (pos i22, len slack)]
                  else None |};
           kn_name := name;
           kn_path := cur_path ++ [BS] ++ name;
           kn_state := Allocated;
           kn_seq := seq;
           kn_updated_by := None;
           kn_values := [];
           kn_logs := key_flags_warn flags ++ repeat WarningConversion (N.to_nat w);
           kn_sub_offsets := [];
           kn_hash := Some (kn_hash_of st flags time access);
           kn_versions := [];
           kn_deleted := [];
           kn_to_return := 0; kn_track := 0; kn_filter := None; kn_index := 0 |}, i23).

(** [CellKeyNode::default()], derived, src/cell_key_node.rs:95. *)
Definition default_detail : nk_detail :=
  mkKD 0 0 0 0 0 0 0 0 0 0 0 0 0 0 0 0 0 0 0 0 [] None.
Definition default_key : key_node :=
  mkKN 0 default_detail [] [] Allocated None None [] [] [] None [] [] 0 0 None 0.

(** [parse_key_values], src/cell_key_node.rs:469-484. The offset addition is on
    [usize]: a negative offset is sign-extended and the sum wraps in a release
    build ([read_values] only calls it with a positive one). *)
Definition parse_key_values (fi : file_info) (cnt : N) (list_offset : Z) : option (list N) :=
  let? s := get_from (fi_buffer fi) (w64 (i32_as_usize list_offset + fi_hbin fi)) in
  let? (_, s) := le_u32 s in
  let? (l, _) := count le_u32 cnt s in
  Some l.

(** The value loop of [read_values], src/cell_key_node.rs:676-703: the values
    read, the logs added and whether the whole failed ([?]). *)
Fixpoint read_values_loop (fi : file_info) (st : state) (seq : option N) (offs : list N)
  (acc : list key_value) : res (list key_value * list log_code * bool) :=
  match offs with
  | [] => Ok (acc, [], true)
  | val :: r =>
      let offset := val + fi_hbin fi in
      match get_at (fi_buffer fi) offset with
      | None => Ok (acc, [WarningParse], true)
      | Some _ =>
          match get_from (fi_buffer fi) offset with
          | None => Ok (acc, [], false)
          | Some s =>
              match kv_from_bytes s offset seq (st_full st) with
              | Ok (v, _) => read_values_loop fi st seq r (acc ++ [read_value_bytes fi st v])
              | Err => Ok (acc, [], false)
              | Panic => Panic
              | OutOfFuel => OutOfFuel
              end
          end
      end
  end.

(** [read_values], src/cell_key_node.rs:649-706; the flag is [is_ok()]. *)
Definition read_values (fi : file_info) (st : state) (seq : option N) (k : key_node)
  : res (key_node * bool) :=
  let d := kn_detail k in
  if (0 <? kd_vallist d)%Z && (i32_as_usize (kd_vallist d) <? len (fi_buffer fi)) then
    if 1048576 <? kd_nvalues d then Ok (kn_add_log WarningParse k, true)
    else
      match parse_key_values fi (kd_nvalues d) (kd_vallist d) with
      | None => Ok (kn_set_values [] k, false)
      | Some offs =>
          let* (vs, logs, ok) := read_values_loop fi st seq offs [] in
          Ok (kn_set_logs (kn_logs k ++ logs) (kn_set_values vs k), ok)
      end
  else Ok (k, true).

(** [should_read_values], src/cell_key_node.rs:757-766. *)
Definition should_read_values (f : option filter) (fl : filter_flags) (self_match : bool) : bool :=
  self_match ||
  match f with
  | None => true
  | Some f => negb (f_is_valid f) || match fl with KeyMatch => true | _ => false end
  end.

(** Path under which the modified and deleted items of a key are stored,
    src/cell_key_node.rs:722. *)
Definition lookup_path (k : key_node) : list N := if is_key_root k then [] else kn_path k.

(** [update_modified_lists], src/cell_key_node.rs:721-755. The recursion over
    deleted keys is not bounded by the code. *)
Fixpoint update_modified_lists (fuel : nat) (st : state) (k : key_node) : res key_node :=
  match fuel with
  | O => OutOfFuel
  | S fuel' =>
      if is_deleted_primary_file (kn_state k) then Ok k
      else
        let path := lookup_path k in
        let* k :=
          match aget beq path (st_deleted_keys st) with
          | None => Ok k
          | Some dks =>
              let* l :=
                (fix go (dks : list key_node) : res (list key_node) :=
                   match dks with
                   | [] => Ok []
                   | dk :: r =>
                       let* dk' :=
                         if kn_offset dk =? kn_offset k then Ok dk
                         else update_modified_lists fuel' st dk in
                       let* r' := go r in
                       Ok (dk' :: r')
                   end) dks in
              Ok (kn_set_deleted l k)
          end in
        let k :=
          match aget beq path (st_modified_keys st) with
          | None => k
          | Some ms => kn_set_versions (sort_by (fun a b => opt_le (kn_seq b) (kn_seq a)) ms) k
          end in
        let vs :=
          map (fun v =>
                 match aget pair_eqb (path, vd_name (kv_detail v)) (st_modified_values st) with
                 | None => v
                 | Some ms => kv_set_versions (sort_by (fun a b => opt_le (kv_seq b) (kv_seq a)) ms) v
                 end) (kn_values k) in
        let dvs :=
          match aget beq path (st_deleted_values st) with
          | None => []
          | Some dvs =>
              sort_by (fun a b => str_le (vd_name (kv_detail a)) (vd_name (kv_detail b))) dvs
          end in
        Ok (kn_set_values (vs ++ dvs) k)
  end.

(** Fuel for [update_modified_lists]: in the states the parser builds every
    level but the first goes down to a strictly longer path of the map, or
    restarts once at a root-flagged key (see Ends.v). *)
Definition uml_fuel (st : state) : nat := S (S (2 * length (st_deleted_keys st))).

(** [CellKeyNodeReadOptions], src/cell_key_node.rs:120-127. *)
Record read_options := mkOpt {
  op_offset : N;
  op_path : list N;
  op_filter : option filter;
  op_self_match : bool;
  op_seq : option N;
  op_modified : bool
}.

(** [read_from_slice], src/cell_key_node.rs:301-351. *)
Definition read_from_slice (fi : file_info) (st : state) (slice : list N) (o : read_options)
  : res (option key_node * state) :=
  let* (k, _) := kn_from_bytes st slice (op_offset o) (op_path o) (op_seq o) in
  let* (fl, st) :=
    match op_filter o with
    | Some f => check_cell f st k
    | None => Ok (IterateKeys, st)
    end in
  match fl with
  | NoMatch => Ok (None, st)
  | _ =>
      let* k :=
        if (0 <? kd_nvalues (kn_detail k)) && should_read_values (op_filter o) fl (op_self_match o)
        then
          let* (k, ok) := read_values fi st (op_seq o) k in
          Ok (if ok : bool then k else kn_add_log WarningParse k)
        else Ok k in
      let k := match fl with KeyMatch => kn_set_filter (Some MExact) k | _ => k end in
      let* k := if op_modified o then update_modified_lists (uml_fuel st) st k else Ok k in
      Ok (Some k, st)
  end.

(** [read], src/cell_key_node.rs:355-369. An [Err] of the code leaves the
    filter's cached offset in the state; the model returns the state only on
    success, which is the same thing: no [Err] is possible after the filter
    has been evaluated. *)
Definition kn_read (fi : file_info) (st : state) (o : read_options)
  : res (option key_node * state) :=
  let* slice := ok_or (get_from (fi_buffer fi) (op_offset o)) in
  read_from_slice fi st slice o.

(** ** Sub-key lists *)

Definition LF : list N := [108; 102].
Definition LH : list N := [108; 104].
Definition LI : list N := [108; 105].
Definition RI : list N := [114; 105].

(** The head common to the four list cells: size, signature, count. *)
Definition list_header (sig : list N) (i : list N) : option (N * list N) :=
  let? (_, i) := le_i32 i in
  let? (_, i) := tag sig i in
  le_u16 i.

(** [SubKeyListLf], src/sub_key_list_lf.rs:40-98: item = offset and a 4-byte
    name hint (which is not used). The offset addition is on [u32] and wraps in
    a release build. *)
Definition lf_item (i : list N) : option (N * list N) :=
  let? (o, i) := le_u32 i in
  let? (_, i) := take 4 i in
  Some (o, i).
Definition lf_offsets (hbin : N) (i : list N) : option (list N) :=
  let? (cnt, i) := list_header LF i in
  let? (l, _) := count lf_item cnt i in
  Some (map (fun o => w32 (o + w32 hbin)) l).

(** [SubKeyListLh], src/sub_key_list_lh.rs:35-96: [checked_add], items that
    overflow are left out. *)
Definition lh_item (i : list N) : option (N * list N) :=
  let? (o, i) := le_u32 i in
  let? (_, i) := le_u32 i in
  Some (o, i).
Definition lh_offsets (hbin : N) (i : list N) : option (list N) :=
  let? (cnt, i) := list_header LH i in
  let? (l, _) := count lh_item cnt i in
  Some (flat_map (fun o => if o + w32 hbin <? 4294967296 then [o + w32 hbin] else []) l).

(** [SubKeyListLi], src/sub_key_list_li.rs:35-90. *)
Definition li_offsets (hbin : N) (i : list N) : option (list N) :=
  let? (cnt, i) := list_header LI i in
  let? (l, _) := count le_u32 cnt i in
  Some (map (fun o => w32 (o + w32 hbin)) l).

(** [SubKeyListRi::from_bytes], src/sub_key_list_ri.rs:52-67: the relative
    offsets of the sub-lists. *)
Definition ri_from_bytes (i : list N) : option (list N) :=
  let? (cnt, i) := list_header RI i in
  let? (l, _) := count le_u32 cnt i in
  Some l.

(** [parse_sub_key_list], src/cell_key_node.rs:487-512, with
    [SubKeyListRi::parse_offsets], src/sub_key_list_ri.rs:69-84. The recursion
    through ri lists is not bounded by the code. *)
Fixpoint parse_sub_key_list (fuel : nat) (fi : file_info) (list_offset : N) : res (list N) :=
  match fuel with
  | O => OutOfFuel
  | S fuel' =>
      let* slice := ok_or (get_from (fi_buffer fi) (list_offset + fi_hbin fi)) in
      match ri_from_bytes slice with
      | Some items =>
          (fix go (items : list N) : res (list N) :=
             match items with
             | [] => Ok []
             | o :: r =>
                 let* a := parse_sub_key_list fuel' fi o in
                 let* b := go r in
                 Ok (a ++ b)
             end) items
      | None =>
          match lf_offsets (fi_hbin fi) slice with
          | Some l => Ok l
          | None =>
              match lh_offsets (fi_hbin fi) slice with
              | Some l => Ok l
              | None => ok_or (li_offsets (fi_hbin fi) slice)
              end
          end
      end
  end.

(** Fuel: a recursion deeper than the number of positions in the buffer visits
    a list a second time and never ends. *)
Definition list_fuel (fi : file_info) : nat := S (S (length (fi_buffer fi))).

(** [is_filter_match_or_descendent], src/cell_key_node.rs:292-297. *)
Definition is_match_or_desc (k : key_node) : bool :=
  match kn_filter k with Some MExact | Some MDescendent => true | _ => false end.

(** Filter state given to a child, src/cell_key_node.rs:432-444. *)
Definition child_filter_state (self_match : bool) (f : filter) (c : key_node) : key_node :=
  match kn_filter c with
  | None =>
      if self_match then kn_set_filter (Some MDescendent) c
      else if f_is_valid f then kn_set_filter (Some MNone) c
      else c
  | Some _ => c
  end.
Definition is_exact (c : key_node) : bool :=
  match kn_filter c with Some MExact => true | _ => false end.

(** The child loop, src/cell_key_node.rs:409-449. Returns the children, the
    found flag, the logs added to the key and the state. *)
Fixpoint read_children (fi : file_info) (st : state) (path : list N) (self_match : bool)
  (f : filter) (sub_filter : option filter) (seq : option N) (modified : bool) (offs : list N)
  : res (list key_node * bool * list log_code * state) :=
  match offs with
  | [] => Ok ([], false, [], st)
  | o :: r =>
      match kn_read fi st (mkOpt o path sub_filter self_match seq modified) with
      | Err =>
          let* (cs, found, logs, st) := read_children fi st path self_match f sub_filter seq modified r in
          Ok (cs, found, WarningParse :: logs, st)
      | Ok (None, st) => read_children fi st path self_match f sub_filter seq modified r
      | Ok (Some c, st) =>
          let found1 := is_exact c in
          let* (cs, found, logs, st) := read_children fi st path self_match f sub_filter seq modified r in
          Ok (child_filter_state self_match f c :: cs, found1 || found, logs, st)
      | Panic => Panic
      | OutOfFuel => OutOfFuel
      end
  end.

(** [read_sub_keys_internal], src/cell_key_node.rs:371-467: the key itself
    (logs and offsets updated), the children, the found flag, the state. *)
Definition read_sub_keys_internal (fi : file_info) (st : state) (k : key_node) (f : filter)
  (seq : option N) (modified : bool) : res (key_node * list key_node * bool * state) :=
  if is_allocated (kn_state k) then
    if 1048576 <? kd_nsub (kn_detail k) then Ok (kn_add_log WarningParse k, [], false, st)
    else if 0 <? kd_nsub (kn_detail k) then
      match parse_sub_key_list (list_fuel fi) fi (kd_sublist (kn_detail k)) with
      | Ok offs =>
          let self_match := is_match_or_desc k in
          let sub_filter := if self_match && f_return_sub_keys f then None else Some f in
          let* (cs, found, logs, st) :=
            read_children fi st (kn_path k) self_match f sub_filter seq modified offs in
          Ok (kn_set_sub_offsets offs (kn_set_logs (kn_logs k ++ logs) k), cs, found, st)
      | Err => Ok (kn_add_log WarningParse k, [], false, st)
      | Panic => Panic
      | OutOfFuel => OutOfFuel
      end
    else Ok (k, [], false, st)
  else Ok (k, [], false, st).

(** [read_sub_keys], src/cell_key_node.rs:133-142. *)
Definition read_sub_keys (fi : file_info) (st : state) (k : key_node)
  : res (key_node * list key_node * state) :=
  let* (k, cs, _, st) := read_sub_keys_internal fi st k None None true in Ok (k, cs, st).

(** [get_sub_key_internal], src/cell_key_node.rs:626-647; recursion over the
    sub-tree, not bounded by the code. *)
Fixpoint get_sub_key_internal (fuel : nat) (fi : file_info) (st : state) (k : key_node)
  (f : filter) (seq : option N) : res (option key_node * state) :=
  match fuel with
  | O => OutOfFuel
  | S fuel' =>
      let* (_, cs, found, st) := read_sub_keys_internal fi st k f seq false in
      if found : bool then Ok (hd_error cs, st)
      else
        (fix go (cs : list key_node) (st : state) : res (option key_node * state) :=
           match cs with
           | [] => Ok (None, st)
           | c :: r =>
               let* (o, st) := get_sub_key_internal fuel' fi st c f seq in
               match o with
               | Some key => Ok (Some key, st)
               | None => go r st
               end
           end) cs st
  end.

(** [get_sub_key_by_path], src/cell_key_node.rs:144-155. [build] cannot fail
    here: there is no regular expression. *)
Definition get_sub_key_by_path (fuel : nat) (fi : file_info) (st : state) (k : key_node)
  (sub_path : list N) : res (option key_node * state) :=
  match sub_path with
  | [] => Ok (Some k, st)
  | _ =>
      let q := with_has_root true (add_key_path empty_query (kn_path k ++ [BS] ++ sub_path)) in
      get_sub_key_internal fuel fi st k (Some q) None
  end.

(** [get_sub_key_by_index], src/cell_key_node.rs:157-207. *)
Definition get_sub_key_by_index (fi : file_info) (st : state) (k : key_node) (index : N)
  : res (key_node * option key_node * state) :=
  if 0 <? kd_nsub (kn_detail k) then
    match parse_sub_key_list (list_fuel fi) fi (kd_sublist (kn_detail k)) with
    | Ok offs =>
        match get_at offs index with
        | Some o =>
            match kn_read fi st (mkOpt o (kn_path k) None (is_match_or_desc k) None true) with
            | Err => Ok (kn_add_log WarningParse k, None, st)
            | Ok (c, st) => Ok (k, c, st)
            | Panic => Panic
            | OutOfFuel => OutOfFuel
            end
        | None => Ok (k, None, st)
        end
    | Err => Ok (kn_add_log WarningParse k, None, st)
    | Panic => Panic
    | OutOfFuel => OutOfFuel
    end
  else Ok (k, None, st).

(** [next_sub_key], src/cell_key_node.rs:213-221. *)
Definition next_sub_key (fi : file_info) (st : state) (k : key_node)
  : res (key_node * option key_node * state) :=
  let* (k, c, st) := get_sub_key_by_index fi st k (kn_index k) in
  match c with
  | Some c => Ok (kn_set_index (kn_index k + 1) k, Some c, st)
  | None => Ok (k, None, st)
  end.

(** [get_value], src/cell_key_node.rs:223-230. *)
Definition get_value (k : key_node) (name : list N) : option key_value :=
  find (fun v => beq (to_lower (vd_name (kv_detail v))) (to_lower name)) (kn_values k).

(** [next_value], src/cell_key_node.rs:239-247. *)
Definition next_value (k : key_node) (index : N) : option (key_value * N) :=
  match get_at (kn_values k) index with
  | Some v => Some (v, index + 1)
  | None => None
  end.

(** [value_iter], src/cell_key_node.rs:232-237,795-814: repeated [next]. *)
Fixpoint value_iter (fuel : nat) (k : key_node) (index : N) : list key_value :=
  match fuel with
  | O => []
  | S fuel' =>
      match next_value k index with
      | Some (v, i) => v :: value_iter fuel' k i
      | None => []
      end
  end.

(** [get_pretty_path], src/cell_key_node.rs:263-265. *)
Definition kn_pretty_path (k : key_node) : res (list N) :=
  str_from (kn_path k) (get_root_path_offset (kn_path k)).

(** [is_free], [slack_offset_absolute], [get_cell_size],
    src/cell_key_node.rs:280-290. *)
Definition kn_is_free (k : key_node) : bool := (0 <? kd_size (kn_detail k))%Z.
Definition kn_cell_size (k : key_node) : N := unsigned_abs (kd_size (kn_detail k)).
Definition kn_slack_offset (k : key_node) : N :=
  kn_offset k + kn_cell_size k - len (kd_slack (kn_detail k)).

(** [has_or_is_recovered], src/cell_key_node.rs:788-792. *)
Definition kn_has_or_is_recovered (k : key_node) : bool :=
  is_deleted (kn_state k) || is_modified_tx (kn_state k)
  || match kn_versions k with [] => false | _ => true end.

(** ** Security descriptors *)

Definition SK : list N := [115; 107].

(** [CellKeySecurity::from_bytes], src/cell_key_security.rs:57-82: flink and
    the descriptor bytes. *)
Definition sk_from_bytes (i : list N) : option (N * list N) :=
  let? (_, i) := le_i32 i in
  let? (_, i) := tag SK i in
  let? (_, i) := le_u16 i in
  let? (flink, i) := le_u32 i in
  let? (_, i) := le_u32 i in
  let? (_, i) := le_u32 i in
  let? (size, i) := le_u32 i in
  let? (sd, _) := take size i in
  Some (flink, sd).

(** The loop of [read_cell_key_security], src/cell_key_security.rs:85-107.
    [parse_sd] stands for [SecurityDescriptor::from_stream] of the winstructs
    crate. *)
Fixpoint read_security_loop {D} (parse_sd : list N -> option D) (fuel : nat) (buffer : list N)
  (start hbin offset : N) (acc : list D) : res (list D) :=
  match fuel with
  | O => OutOfFuel
  | S fuel' =>
      let* slice := ok_or (get_from buffer (offset + hbin)) in
      let* (flink, sd) := nom (sk_from_bytes slice) in
      let* d := ok_or (parse_sd sd) in
      if flink =? start then Ok (acc ++ [d])
      else read_security_loop parse_sd fuel' buffer start hbin flink (acc ++ [d])
  end.
Definition read_cell_key_security {D} (parse_sd : list N -> option D) (buffer : list N)
  (security_offset hbin : N) : res (list D) :=
  read_security_loop parse_sd (S (S (length buffer))) buffer security_offset hbin security_offset [].
