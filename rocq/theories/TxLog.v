(** Model of src/transaction_log.rs: the entries of a log and their
    application, and of Parser::init and its helpers in src/parser.rs. *)
From Verif Require Import Base Util BaseBlock Marvin Types Value Node Recover Parser.

(** ** Entries *)

(** [DirtyPage], src/transaction_log.rs:58-61. *)
Record dirty_page := mkPage { dp_offset : N; dp_bytes : list N }.

(** [LogEntry], src/transaction_log.rs:69-87. *)
Record log_entry := mkEntry {
  le_file_offset : N;
  le_size : N;
  le_flags : N;
  le_seq : N;
  le_hbins_size : N;
  le_page_count : N;
  le_hash1 : N;
  le_hash2 : N;
  le_pages : list dirty_page;
  le_valid_hashes : bool
}.

Definition HVLE : list N := [72; 118; 76; 69].
Definition DEFAULT_SEED : N := 0x82EF4D887A4E55C5.

(** [DirtyPageRef::from_bytes], src/transaction_log.rs:48-55. *)
Definition page_ref (i : list N) : option ((N * N) * list N) :=
  let? (o, i) := le_u32 i in
  let? (s, i) := le_u32 i in
  Some ((o, s), i).

(** The page loop, src/transaction_log.rs:116-124. *)
Fixpoint take_pages (refs : list (N * N)) (i : list N) : option (list dirty_page * list N) :=
  match refs with
  | [] => Some ([], i)
  | (o, s) :: r =>
      let? (b, i) := take s i in
      let? (ps, i) := take_pages r i in
      Some (mkPage o b :: ps, i)
  end.

(** [calc_hash1], [calc_hash2], src/transaction_log.rs:148-164. [len - OFFSET]
    is unsigned: below 40 it aborts (overflow check or capacity overflow). *)
Definition calc_hash1 (raw : list N) (size : N) : res N :=
  let* s := or_panic (get_range raw 40 size) in Ok (marvin32 DEFAULT_SEED s).
Definition calc_hash2 (raw : list N) : res N :=
  let* s := or_panic (get_range raw 0 32) in Ok (marvin32 DEFAULT_SEED s).

(** [LogEntry::from_bytes_internal], src/transaction_log.rs:96-142; [total] is
    the length of the whole log. [&&] does not evaluate the second hash when the
    first differs. *)
Definition entry_from_bytes (total : N) (i0 : list N) : res (log_entry * list N) :=
  let* (_, i) := nom (tag HVLE i0) in
  let* (size, i) := nom (le_u32 i) in
  let* (flags, i) := nom (le_u32 i) in
  let* (seq, i) := nom (le_u32 i) in
  let* (hbins, i) := nom (le_u32 i) in
  let* (cnt, i) := nom (le_u32 i) in
  let* (h1, i) := nom (le_u64 i) in
  let* (h2, i) := nom (le_u64 i) in
  let* (refs, i) := nom (count page_ref cnt i) in
  let* (pages, i) := nom (take_pages refs i) in
  let* (_, i) := nom (parser_eat_remaining i size (len i0 - len i)) in
  let* c1 := calc_hash1 i0 size in
  let* valid := if h1 =? c1 then let* c2 := calc_hash2 i0 in Ok (h2 =? c2) else Ok false in
  Ok (mkEntry (total - len i0) size flags seq hbins cnt h1 h2 pages valid, i).

(** nom's [many0]: stops at the first parser error. *)
Fixpoint many_entries (fuel : nat) (total : N) (i : list N) : res (list log_entry * list N) :=
  match fuel with
  | O => OutOfFuel
  | S fuel' =>
      match entry_from_bytes total i with
      | Err => Ok ([], i)
      | Ok (e, i) =>
          let* (es, i) := many_entries fuel' total i in
          Ok (e :: es, i)
      | Panic => Panic
      | OutOfFuel => OutOfFuel
      end
  end.

(** [TransactionLog], src/transaction_log.rs:167-172. *)
Record transaction_log := mkLog {
  tl_base_block : base_block_base;
  tl_base_bytes : list N;
  tl_entries : list log_entry
}.

(** [TransactionLog::from_bytes], src/transaction_log.rs:175-189. *)
Definition log_from_bytes (input : list N) : res transaction_log :=
  let* (bb, i) := bbb_from_bytes input in
  let* (es, _) := many_entries (S (length i)) (len input) i in
  let* head := or_panic (get_range input 0 BASE_BLOCK_LEN) in
  Ok (mkLog bb head es).

(** [TransactionLog::parse], src/transaction_log.rs:191-220; how the files
    are read is in Source.v. *)
Fixpoint parse_each (files : list (list N)) : res (list transaction_log * list log_code) :=
  match files with
  | [] => Ok ([], [])
  | [] :: r =>
      let* (ls, w) := parse_each r in Ok (ls, WarningParse :: w)
  | f :: r =>
      match log_from_bytes f with
      | Ok l => let* (ls, w) := parse_each r in Ok (l :: ls, w)
      | Err => let* (ls, w) := parse_each r in Ok (ls, WarningParse :: w)
      | Panic => Panic
      | OutOfFuel => OutOfFuel
      end
  end.
Definition log_primary (l : transaction_log) : N := bb_primary_seq (tl_base_block l).
Definition parse_logs (files : list (list N)) : res (list transaction_log * list log_code) :=
  let* (ls, w) := parse_each files in
  Ok (sort_by (fun a b => log_primary a <=? log_primary b) ls, w).

(** ** Analysis of an applied entry *)

(** [RegItemMap], src/transaction_log.rs (key: path and value name, value: hash,
    offset and sequence number). *)
Definition item_key := (list N * option (list N))%type.
Definition item_key_eqb (a b : item_key) : bool :=
  beq (fst a) (fst b)
  && match snd a, snd b with
     | None, None => true
     | Some x, Some y => beq x y
     | _, _ => false
     end.
Record item := mkItem { it_hash : N; it_offset : N; it_seq : N }.
Definition reg_items := amap item_key item.

(** The insertions of one key, src/transaction_log.rs:334-350. *)
Definition must_hash (h : option N) : res N := or_panic h.
Fixpoint insert_values (path : list N) (seq : N) (vs : list key_value) (m : reg_items)
  : res reg_items :=
  match vs with
  | [] => Ok m
  | v :: r =>
      let* h := must_hash (kv_hash v) in
      insert_values path seq r
        (aset item_key_eqb (path, Some (vd_name (kv_detail v))) (mkItem h (kv_offset v) seq) m)
  end.
Fixpoint insert_keys (seq : N) (ks : list key_node) (m : reg_items) : res reg_items :=
  match ks with
  | [] => Ok m
  | k :: r =>
      let* h := must_hash (kn_hash k) in
      let m := aset item_key_eqb (kn_path k, None) (mkItem h (kn_offset k) seq) m in
      let* m := insert_values (kn_path k) seq (kn_values k) m in
      insert_keys seq r m
  end.

(** [get_reg_items], src/transaction_log.rs:325-354. *)
Definition get_reg_items (fuel : nat) (p : parser) (seq : N) : res (reg_items * parser) :=
  if ps_recover p then
    let* p := init_root p in
    let* ks := iterate fuel p None false true false in
    let* m := insert_keys seq ks [] in
    Ok (m, p)
  else Ok ([], p).

(** [RegItemNeeded], src/transaction_log.rs:357-361. *)
Record needed := mkNeeded { nd_path : list N; nd_offset : N; nd_seq : N }.

(** [handle_new_item], src/transaction_log.rs:533-579: the prior items, the
    latest items, the items needed. *)
Definition handle_new_item (new_seq : N) (key : item_key) (h off : N)
  (s : reg_items * reg_items * list needed) : reg_items * reg_items * list needed :=
  let '(prior, latest, need) := s in
  match aget item_key_eqb key prior with
  | Some it =>
      let prior := adel item_key_eqb key prior in
      if h =? it_hash it
      then (prior, aset item_key_eqb key (mkItem h off (it_seq it)) latest, need)
      else (prior, aset item_key_eqb key (mkItem h off new_seq) latest,
            need ++ [mkNeeded (fst key) (it_offset it) (it_seq it)])
  | None => (prior, aset item_key_eqb key (mkItem h off new_seq) latest, need)
  end.

(** The key/value loop of [get_latest_reg_items], src/transaction_log.rs:398-429:
    prior, latest, keys needed, values needed, logs. *)
Fixpoint handle_values (new_seq : N) (path : list N) (vs : list key_value)
  (s : reg_items * reg_items * list needed) (logs : list log_code)
  : res (reg_items * reg_items * list needed * list log_code) :=
  match vs with
  | [] => Ok (s, logs)
  | v :: r =>
      let* h := must_hash (kv_hash v) in
      handle_values new_seq path r
        (handle_new_item new_seq (path, Some (vd_name (kv_detail v))) h (kv_offset v) s)
        (logs ++ kv_logs v)
  end.
Fixpoint handle_keys (new_seq : N) (ks : list key_node) (prior latest : reg_items)
  (nk nv : list needed) (logs : list log_code)
  : res (reg_items * reg_items * list needed * list needed * list log_code) :=
  match ks with
  | [] => Ok (prior, latest, nk, nv, logs)
  | k :: r =>
      let* h := must_hash (kn_hash k) in
      let '(prior, latest, nk) :=
        handle_new_item new_seq (kn_path k, None) h (kn_offset k) (prior, latest, nk) in
      let* (prior, latest, nv, logs) :=
        handle_values new_seq (kn_path k) (kn_values k) (prior, latest, nv) (logs ++ kn_logs k) in
      handle_keys new_seq r prior latest nk nv logs
  end.

(** [add_full_key_to_list], src/transaction_log.rs:581-618. *)
Definition add_full_key (prior_fi : file_info) (new_seq : N) (st : state) (path : list N)
  (off old_seq : N) (deleted : bool) : res state :=
  let parent := before_last_bs path in
  let* (k, st) := kn_read prior_fi st (mkOpt off parent None false (Some old_seq) false) in
  match k with
  | None => Ok st
  | Some k =>
      let k := kn_set_values [] (kn_set_updated new_seq k) in
      Ok (if deleted
          then set_deleted_keys
                 (map_push beq parent (kn_set_state DeletedTransactionLog k) (st_deleted_keys st)) st
          else set_modified_keys
                 (map_push beq path (kn_set_state ModifiedTransactionLog k) (st_modified_keys st)) st)
  end.

(** [add_full_value_to_list], src/transaction_log.rs:620-653. *)
Definition add_full_value (prior_fi : file_info) (new_seq : N) (st : state) (path : list N)
  (off old_seq : N) (deleted : bool) : res state :=
  let* slice := ok_or (get_from (fi_buffer prior_fi) off) in
  let* (v, _) := kv_from_bytes slice off (Some old_seq) (st_full st) in
  let v := kv_set_updated new_seq (read_value_bytes prior_fi st v) in
  Ok (if deleted
      then set_deleted_values
             (map_push beq path (kv_set_state DeletedTransactionLog v) (st_deleted_values st)) st
      else set_modified_values
             (map_push pair_eqb (path, vd_name (kv_detail v)) (kv_set_state ModifiedTransactionLog v)
                (st_modified_values st)) st).

(** One of the loops over needed or left-over items: an [Err] becomes a warning
    in the entry's own logs, src/transaction_log.rs:431-510. *)
Fixpoint add_all {A} (f : state -> A -> res state) (l : list A) (st : state) (logs : list log_code)
  : res (state * list log_code) :=
  match l with
  | [] => Ok (st, logs)
  | x :: r =>
      match f st x with
      | Ok st => add_all f r st logs
      | Err => add_all f r st (logs ++ [WarningTransactionLog])
      | Panic => Panic
      | OutOfFuel => OutOfFuel
      end
  end.

(** The final removal loop, src/transaction_log.rs:513-528. *)
Definition remove_latest (st : state) (e : item_key * item) : state :=
  match snd (fst e) with
  | Some name =>
      set_deleted_values
        (deleted_values_remove (fst (fst e)) name (it_hash (snd e)) (st_deleted_values st)) st
  | None =>
      set_deleted_keys (deleted_keys_remove (fst (fst e)) (it_hash (snd e)) (st_deleted_keys st)) st
  end.

(** [get_latest_reg_items], src/transaction_log.rs:386-531. [order] is the order
    in which a [HashMap] is iterated, which the code does not control. The
    result is the prior items left when the function ends or fails, the latest
    items if it succeeds, the parser and the logs. *)
Definition get_latest_reg_items (order : reg_items -> reg_items) (fuel : nat)
  (prior_fi : file_info) (new_seq : N) (p : parser) (prior : reg_items)
  : res (reg_items * parser * list log_code) :=
  let* p := init_root p in
  let* ks := iterate fuel p None false false false in
  let* (prior, latest, nk, nv, logs) := handle_keys new_seq ks prior [] [] [] [] in
  let* (st, logs) :=
    add_all (fun st n => add_full_key prior_fi new_seq st (nd_path n) (nd_offset n) (nd_seq n) false)
      nk (ps_state p) logs in
  let* (st, logs) :=
    add_all (fun st n => add_full_value prior_fi new_seq st (nd_path n) (nd_offset n) (nd_seq n) false)
      nv st logs in
  let* (st, logs) :=
    add_all (fun st (e : item_key * item) =>
               (match snd (fst e) with Some _ => add_full_value | None => add_full_key end)
                 prior_fi new_seq st (fst (fst e)) (it_offset (snd e)) (it_seq (snd e)) true)
      (order prior) st logs in
  let st := fold_left remove_latest (order latest) st in
  Ok (latest, ps_set_state st p, logs).

(** ** Application *)

(** [copy_from_slice] into [buffer[dst..dst+len]]. *)
Definition overwrite (buffer : list N) (dst : N) (src : list N) : option (list N) :=
  if dst + len src <=? len buffer
  then Some (firstn (N.to_nat dst) buffer ++ src ++ skipn (N.to_nat (dst + len src)) buffer)
  else None.

(** The page loop, src/transaction_log.rs:267-279. *)
Fixpoint apply_pages (hbin : N) (pages : list dirty_page) (buffer : list N) : res (list N) :=
  match pages with
  | [] => Ok buffer
  | pg :: r =>
      let* b := ok_or (overwrite buffer (dp_offset pg + hbin) (dp_bytes pg)) in
      apply_pages hbin r b
  end.

Definition ps_set_buffer (b : list N) (p : parser) : parser :=
  ps_set_file (mkFI (ps_hbin p) b) p.

(** Analysis of an entry after its pages are in place,
    src/transaction_log.rs:281-305. [init_root] is the only step of the
    analysis that can return [Err]; it then leaves the parser's header and root
    as they were or with the new bin header only (not modelled), and the prior
    items untouched. *)
Definition analyze_entry (order : reg_items -> reg_items) (fuel : nat) (prior_fi : file_info)
  (seq : N) (p : parser) (items : reg_items) : res (reg_items * parser) :=
  if ps_recover p then
    match get_latest_reg_items order fuel prior_fi seq p items with
    | Ok (latest, p, logs) =>
        Ok (latest, ps_set_state (set_info (st_info (ps_state p) ++ logs) (ps_state p)) p)
    | Err => Ok (items, ps_log WarningTransactionLog p)
    | Panic => Panic
    | OutOfFuel => OutOfFuel
    end
  else Ok (items, p).

(** [TransactionLog::update_parser], src/transaction_log.rs:223-323:
    [sec_seq] and [hbins] are read once from the primary header. *)
Fixpoint update_entries (order : reg_items -> reg_items) (fuel : nat) (sec_seq hbins : N)
  (es : list log_entry) (new_seq : N) (p : parser) (items : reg_items)
  : res (N * reg_items * parser) :=
  match es with
  | [] => Ok (new_seq, items, p)
  | e :: r =>
      if le_valid_hashes e then
        if le_seq e <? sec_seq then
          update_entries order fuel sec_seq hbins r new_seq (ps_log WarningTransactionLog p) items
        else if negb (le_hbins_size e mod 4096 =? 0) then
          Ok (new_seq, items, ps_log WarningTransactionLog p)
        else if negb (new_seq =? 0) && negb (le_seq e =? w32 (new_seq + 1)) then
          Ok (new_seq, items, ps_log WarningTransactionLog p)
        else
          let buf :=
            if hbins <? le_hbins_size e
            then ps_buffer p ++ repeat 0 (N.to_nat (le_hbins_size e - hbins))
            else ps_buffer p in
          let* b := apply_pages (ps_hbin p) (le_pages e) buf in
          let* (items, p) :=
            analyze_entry order fuel (mkFI (ps_hbin p) buf) (le_seq e) (ps_set_buffer b p) items in
          update_entries order fuel sec_seq hbins r (le_seq e) p items
      else Ok (new_seq, items, ps_log WarningTransactionLog p)
  end.

(** [get_base_block_info], src/parser.rs:311-321. *)
Definition base_block_info (p : parser) : res (N * N) :=
  let* b := or_panic (ps_base_block p) in
  Ok (bb_secondary_seq (bb_base b), bb_hive_bins_data_size (bb_base b)).
Definition update_parser (order : reg_items -> reg_items) (fuel : nat) (l : transaction_log)
  (p : parser) (items : reg_items) : res (N * reg_items * parser) :=
  let* (sec, hbins) := base_block_info p in
  update_entries order fuel sec hbins (tl_entries l) 0 p items.

(** [handle_bad_checksum], src/parser.rs:195-224. *)
Definition handle_bad_checksum (p : parser) (logs : list transaction_log)
  : res (parser * list transaction_log) :=
  let p := ps_log WarningBaseBlock p in
  let* newest := or_panic (last (map Some logs) None) in
  let* _ := ok_or (get_range (ps_buffer p) 0 BASE_BLOCK_LEN) in
  let* b := or_panic (overwrite (ps_buffer p) 0 (tl_base_bytes newest)) in
  let logs := if 1 <? len logs then tl logs else logs in
  let* (_, _, p) := init_base_block (ps_set_buffer b p) in
  Ok (p, logs).

(** [prepare_transaction_logs], src/parser.rs:173-193. *)
Definition prepare_logs (bad_checksum : bool) (p : parser) (logs : list transaction_log)
  : res (bool * parser * list transaction_log) :=
  let* (p, logs) := if bad_checksum then handle_bad_checksum p logs else Ok (p, logs) in
  let* b := or_panic (ps_base_block p) in
  if bb_primary_seq (bb_base b) =? bb_secondary_seq (bb_base b)
  then Ok (false, ps_log WarningTransactionLog p, logs)
  else Ok (true, p, logs).

(** [update_header_after_transaction_logs], src/parser.rs:226-256. *)
Definition update_header (new_seq : N) (p : parser) : res parser :=
  let* b := or_panic (overwrite (ps_buffer p) 4 (enc 4 new_seq)) in
  let* b := or_panic (overwrite b 8 (enc 4 new_seq)) in
  let* head := or_panic (get_range b 0 0x200) in
  let* checksum := calculate_checksum head in
  let* b := or_panic (overwrite b CHECKSUM_OFFSET (enc 4 checksum)) in
  let* (_, _, p) := init_base_block (ps_set_buffer b p) in
  Ok (ps_log LogInfo p).

(** The log loop of [apply_transaction_logs], src/parser.rs:281-305. *)
Fixpoint apply_logs (order : reg_items -> reg_items) (fuel : nat) (sec_seq : N)
  (logs : list transaction_log) (new_seq : N) (p : parser) (items : reg_items)
  : res (N * parser) :=
  match logs with
  | [] => Ok (new_seq, p)
  | l :: r =>
      if sec_seq <=? log_primary l then
        if (new_seq =? 0) || (log_primary l =? w32 (new_seq + 1)) then
          let* (n, items, p) := update_parser order fuel l p items in
          apply_logs order fuel sec_seq r n p items
        else apply_logs order fuel sec_seq r new_seq (ps_log WarningTransactionLog p) items
      else apply_logs order fuel sec_seq r new_seq (ps_log WarningTransactionLog p) items
  end.

(** [apply_transaction_logs], src/parser.rs:258-309. *)
Definition apply_transaction_logs (order : reg_items -> reg_items) (fuel : nat)
  (bad_checksum : bool) (logs : list transaction_log) (p : parser) : res parser :=
  match logs with
  | [] => Ok p
  | _ =>
      let* (go, p, logs) := prepare_logs bad_checksum p logs in
      if go : bool then
        let* (items, p) := get_reg_items fuel p 0 in
        let* (sec, _) := base_block_info p in
        let* (n, p) := apply_logs order fuel sec logs 0 p items in
        update_header n p
      else Ok p
  end.

(** [Parser::init], src/parser.rs:57-71. *)
Definition ps_init (order : reg_items -> reg_items) (fuel : nat) (recover : bool)
  (logs : list transaction_log) (p : parser) : res parser :=
  let* (supported, bad, p) := init_base_block p in
  if supported : bool then
    let* p :=
      if recover then
        let* b := or_panic (ps_base_block p) in
        let* st := find_free_keys_and_values (ps_file p) (ps_state p)
                     (bb_hive_bins_data_size (bb_base b)) in
        Ok (ps_set_state st p)
      else Ok p in
    let* p := apply_transaction_logs order fuel bad logs p in
    init_root p
  else Ok p.

(** [ParserBuilderBase::build], src/parser_builder.rs:132-157. [hash] is blake3;
    the buffer starts with [hbin_offset_absolute] 0; the filter of the builder
    is not used. *)
Definition build (order : reg_items -> reg_items) (fuel : nat) (hash : list N -> N)
  (recover full : bool) (buffer : list N) (log_files : list (list N)) : res parser :=
  let* (logs, w) := parse_logs log_files in
  let st := mkState 0 full [] hash [] [] [] [] in
  let* p := ps_init order fuel recover logs (mkParser (mkFI 0 buffer) st None None None recover) in
  Ok (ps_set_state (set_info (st_info (ps_state p) ++ w) (ps_state p)) p).
