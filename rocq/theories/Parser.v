(** Model of src/parser.rs: the parser object, iteration and direct access. *)
From Verif Require Import Base Util BaseBlock Types Value Node Recover.

(** [Parser], src/parser.rs:46-54 (without the console flag). *)
Record parser := mkParser {
  ps_file : file_info;
  ps_state : state;
  ps_base_block : option base_block;
  ps_hbin_header : option hbin_header;
  ps_root : option key_node;
  ps_recover : bool
}.
Definition ps_set_file (f : file_info) (p : parser) : parser :=
  mkParser f (ps_state p) (ps_base_block p) (ps_hbin_header p) (ps_root p) (ps_recover p).
Definition ps_set_state (s : state) (p : parser) : parser :=
  mkParser (ps_file p) s (ps_base_block p) (ps_hbin_header p) (ps_root p) (ps_recover p).
Definition ps_set_base_block (b : base_block) (p : parser) : parser :=
  mkParser (ps_file p) (ps_state p) (Some b) (ps_hbin_header p) (ps_root p) (ps_recover p).
Definition ps_set_hbin (h : hbin_header) (p : parser) : parser :=
  mkParser (ps_file p) (ps_state p) (ps_base_block p) (Some h) (ps_root p) (ps_recover p).
Definition ps_set_root (r : option key_node) (p : parser) : parser :=
  mkParser (ps_file p) (ps_state p) (ps_base_block p) (ps_hbin_header p) r (ps_recover p).
Definition ps_buffer (p : parser) : list N := fi_buffer (ps_file p).
Definition ps_hbin (p : parser) : N := fi_hbin (ps_file p).
Definition ps_log (c : log_code) (p : parser) : parser := ps_set_state (add_info c (ps_state p)) p.

(** [init_root], src/parser.rs:73-95. *)
Definition init_root (p : parser) : res parser :=
  let* input := ok_or (get_from (ps_buffer p) (ps_hbin p)) in
  let* (h, rest) := hbin_from_bytes (ps_hbin p) input in
  let p := ps_set_hbin h p in
  let* (root, st) :=
    kn_read (ps_file p) (ps_state p)
      (mkOpt (len (ps_buffer p) - len rest) [] None true None true) in
  Ok (ps_set_root root (ps_set_state st p)).

(** [is_supported_file_type] and [check_base_block], src/parser.rs:107-149: the
    pair (is supported, has a bad checksum). *)
Definition is_supported (b : base_block) : bool :=
  match bb_file_type (bb_base b) with UnknownType => false | _ => true end.
Definition check_base_block (p : parser) (b : base_block) : res (bool * bool * parser) :=
  if is_supported b then
    let base := bb_base b in
    let p := if bb_primary_seq base =? bb_secondary_seq base then p
             else ps_log WarningBaseBlock p in
    let* head := or_panic (get_range (ps_buffer p) 0 0x200) in
    let* checksum := calculate_checksum head in
    if checksum =? bb_checksum base then Ok (true, false, p)
    else Ok (true, true, ps_log WarningBaseBlock p)
  else Ok (false, false, ps_log WarningBaseBlock p).

(** [init_base_block], src/parser.rs:98-104. *)
Definition init_base_block (p : parser) : res (bool * bool * parser) :=
  let* (b, rest) := bb_from_bytes (ps_buffer p) in
  let p := ps_set_file (mkFI (len (ps_buffer p) - len rest) (ps_buffer p)) p in
  check_base_block (ps_set_base_block b p) b.

(** ** Iteration *)

(** [ParserIteratorContext], src/parser.rs:583-591; stacks are lists with the
    top first. *)
Record context := mkCx {
  cx_state : state;
  cx_filter : filter;
  cx_stack : list key_node;
  cx_offsets : list N;
  cx_return : list key_node;
  cx_modified : bool;
  cx_ancestors : bool
}.

(** [ParserIteratorContext::from_parser], src/parser.rs:594-613. *)
Definition from_parser (p : parser) (modified : bool) (f : filter) (ancestors : bool) : context :=
  let root := match ps_root p with Some r => r | None => default_key end in
  mkCx (ps_state p) f [root] [kn_offset root] [] modified ancestors.

(** [push_check_stack_to_traverse], src/parser.rs:615-629. *)
Definition push_check (k : key_node) (cx : context) : context :=
  if existsb (N.eqb (kn_offset k)) (cx_offsets cx) then cx
  else mkCx (cx_state cx) (cx_filter cx) (k :: cx_stack cx) (kn_offset k :: cx_offsets cx)
         (cx_return cx) (cx_modified cx) (cx_ancestors cx).
Definition push (k : key_node) (cx : context) : context :=
  mkCx (cx_state cx) (cx_filter cx) (k :: cx_stack cx) (cx_offsets cx) (cx_return cx)
    (cx_modified cx) (cx_ancestors cx).
Definition cx_set_stack (s : list key_node) (cx : context) : context :=
  mkCx (cx_state cx) (cx_filter cx) s (cx_offsets cx) (cx_return cx) (cx_modified cx)
    (cx_ancestors cx).
Definition cx_set_return (s : list key_node) (cx : context) : context :=
  mkCx (cx_state cx) (cx_filter cx) (cx_stack cx) (cx_offsets cx) s (cx_modified cx)
    (cx_ancestors cx).
Definition cx_set_state (s : state) (cx : context) : context :=
  mkCx s (cx_filter cx) (cx_stack cx) (cx_offsets cx) (cx_return cx) (cx_modified cx)
    (cx_ancestors cx).

(** What both orders do with a popped key, src/parser.rs:409-425 and 457-473:
    read its sub keys, stack them so that the first is on top, then stack its
    deleted keys with the filter state of the key. *)
Definition visit (fi : file_info) (cx : context) (node : key_node) : res (key_node * context) :=
  let* (node, cx) :=
    if 0 <? kd_nsub (kn_detail node) then
      let* (node, cs, _, st) :=
        read_sub_keys_internal fi (cx_state cx) node (cx_filter cx) None (cx_modified cx) in
      Ok (kn_set_to_return (w32 (len cs)) node,
          fold_left (fun cx c => push_check c cx) (rev cs) (cx_set_state st cx))
    else Ok (node, cx) in
  let dks := map (kn_set_filter (kn_filter node)) (kn_deleted node) in
  Ok (kn_set_deleted dks node, fold_left (fun cx d => push d cx) dks cx).

(** [next_key_preorder], src/parser.rs:452-482. *)
Fixpoint next_key_preorder (fuel : nat) (fi : file_info) (cx : context)
  : res (option key_node * context) :=
  match fuel with
  | O => OutOfFuel
  | S fuel' =>
      match cx_stack cx with
      | [] => Ok (None, cx)
      | node :: rest =>
          let* (node, cx) := visit fi (cx_set_stack rest cx) node in
          if cx_ancestors cx || negb (f_is_valid (cx_filter cx)) || is_match_or_desc node
          then Ok (Some node, cx)
          else next_key_preorder fuel' fi cx
      end
  end.

(** [next_key_postorder], src/parser.rs:389-450. *)
Fixpoint next_key_postorder (fuel : nat) (fi : file_info) (cx : context)
  : res (option key_node * context) :=
  match fuel with
  | O => OutOfFuel
  | S fuel' =>
      match cx_stack cx with
      | [] =>
          match cx_return cx with
          | [] => Ok (None, cx)
          | top :: r =>
              let cx := cx_set_return r cx in
              if cx_ancestors cx || negb (match kn_filter top with Some MNone => true | _ => false end)
              then Ok (Some top, cx) else Ok (None, cx)
          end
      | node :: rest =>
          let step :=
            let* (node, cx) := visit fi (cx_set_stack rest cx) node in
            let ret :=
              match cx_return cx with
              | [] => []
              | last :: r => kn_set_track (kn_track last + 1) last :: r
              end in
            next_key_postorder fuel' fi (cx_set_return (node :: ret) cx) in
          match cx_return cx with
          | last :: r =>
              if kn_track last =? kn_to_return last then Ok (Some last, cx_set_return r cx)
              else step
          | [] => step
          end
      end
  end.

(** A whole iteration, src/parser.rs:643-653: [next] until it returns [None]. *)
Fixpoint collect (post : bool) (fuel : nat) (fi : file_info) (cx : context) : res (list key_node) :=
  match fuel with
  | O => OutOfFuel
  | S fuel' =>
      let* (o, cx) := (if post then next_key_postorder else next_key_preorder) fuel fi cx in
      match o with
      | None => Ok []
      | Some k => let* r := collect post fuel' fi cx in Ok (k :: r)
      end
  end.

(** [ParserIterator::new(parser).with_filter(..).filter_include_ancestors(..)
    .get_modified_items(..).postorder_iteration(..).iter()] consumed to its end,
    src/parser.rs:655-688. *)
Definition iterate (fuel : nat) (p : parser) (f : filter) (ancestors modified post : bool)
  : res (list key_node) :=
  collect post fuel (ps_file p) (from_parser p modified f ancestors).

(** [count_all_keys_and_values], src/parser.rs:324-336. *)
Definition count_all (fuel : nat) (p : parser) (f : filter) : res (N * N) :=
  let* ks := iterate fuel p f false true false in
  Ok (len ks, fold_left (fun n k => n + len (kn_values k)) ks 0).

(** ** Direct access *)

(** [get_root_key], src/parser.rs:487-507. *)
Definition get_root_key (p : parser) : res (option key_node * parser) :=
  match ps_base_block p with
  | None => Ok (None, p)
  | Some bb =>
      let* (r, st) :=
        kn_read (ps_file p) (ps_state p)
          (mkOpt (w64 (i32_as_usize (bb_root_offset (bb_base bb)) + ps_hbin p))
             [] None true None true) in
      Ok (r, ps_set_state st p)
  end.

(** [get_key], src/parser.rs:526-552. *)
Definition strip_root (key_path : list N) : list N :=
  match find_byte BS key_path with
  | Some i => skipn (N.to_nat (i + 1)) key_path
  | None => []
  end.
Definition get_key (fuel : nat) (p : parser) (key_path : list N) (has_root : bool)
  : res (option key_node * parser) :=
  match get_root_key p with
  | Ok (Some root, p) =>
      let kp := trim_start_bs key_path in
      let kp := if has_root then strip_root kp else kp in
      let* (k, st) := get_sub_key_by_path fuel (ps_file p) (ps_state p) root kp in
      Ok (k, ps_set_state st p)
  | Ok (None, p) => Ok (None, p)
  | Err => Ok (None, p)
  | Panic => Panic
  | OutOfFuel => OutOfFuel
  end.

(** [get_sub_key], src/parser.rs:509-524. *)
Definition get_sub_key (p : parser) (k : key_node) (name : list N)
  : res (option key_node * parser) :=
  let (o, st) := st_get_root_path_offset (ps_state p) (kn_path k) in
  let* sans_root := str_from (kn_path k) o in
  let f := Some (add_key_path empty_query (sans_root ++ [BS] ++ name)) in
  let* (_, cs, _, st) := read_sub_keys_internal (ps_file p) st k f None false in
  Ok (hd_error cs, ps_set_state st p).

(** [get_parent_key], src/parser.rs:554-579. *)
Definition truncate_last_bs (s : list N) : list N :=
  if existsb (N.eqb BS) s then before_last_bs s else s.
Definition get_parent_key (p : parser) (k : key_node) : res (option key_node * parser) :=
  let path := truncate_last_bs (truncate_last_bs (kn_path k)) in
  let* (r, st) :=
    kn_read (ps_file p) (ps_state p)
      (mkOpt (w64 (i32_as_usize (kd_parent (kn_detail k)) + ps_hbin p)) path None true None true) in
  Ok (r, ps_set_state st p).
