(** Model of what the dump tool writes on the console, src/progress.rs, while a hive
    is opened with [update_console] and exported; console errors are in Sink.v and
    Exit.v. Each function gives the text and what the function of the same name
    without console gives. *)
From Coq Require Import String.
From Verif Require Import Base Util BaseBlock Types Value Node Recover Parser TxLog Log Export Json Dump.
Open Scope string_scope.
Open Scope N_scope.
Open Scope list_scope.

(** [update] of the message of src/transaction_log.rs:232-236, src/progress.rs:50-57:
    the escape sequences of crossterm that save and restore the position (on systems
    with ANSI terminals). *)
Definition say_entry (i total : N) : list N :=
  [27; 55] ++ text "Processing transaction log entry " ++ decimal i ++ text " of " ++ decimal total ++ [27; 56].
(** [write] of the message of src/parser.rs:284-288, src/progress.rs:59-63. *)
Definition say_log (i total : N) : list N :=
  text "Applying transaction log " ++ decimal i ++ text " of " ++ decimal total ++ [10].
(** A text, then what is done with a result, if it is one. *)
Definition after {A B} (t : list N) (x : res A) (f : A -> list N * res B) : list N * res B :=
  match x with
  | Ok a => let (u, y) := f a in (t ++ u, y)
  | Err => (t, Err)
  | Panic => (t, Panic)
  | OutOfFuel => (t, OutOfFuel)
  end.

(** [update_parser], src/transaction_log.rs:223-323; [i] is the number of the entry. *)
Fixpoint told_entries (order : reg_items -> reg_items) (fuel : nat) (sec_seq hbins : N) (es : list log_entry) (new_seq : N) (p : parser) (items : reg_items)
  (i total : N) : list N * res (N * reg_items * parser) :=
  match es with
  | [] => ([], Ok (new_seq, items, p))
  | e :: r =>
      let t := say_entry i total in
      if le_valid_hashes e then
        if le_seq e <? sec_seq then
          after t (Ok tt) (fun _ => told_entries order fuel sec_seq hbins r new_seq (ps_log WarningTransactionLog p) items (i + 1) total)
        else if negb (le_hbins_size e mod 4096 =? 0) then (t, Ok (new_seq, items, ps_log WarningTransactionLog p))
        else if negb (new_seq =? 0) && negb (le_seq e =? w32 (new_seq + 1)) then (t, Ok (new_seq, items, ps_log WarningTransactionLog p))
        else
          let buf :=
            if hbins <? le_hbins_size e
            then ps_buffer p ++ repeat 0 (N.to_nat (le_hbins_size e - hbins))
            else ps_buffer p in
          after t
            (let* b := apply_pages (ps_hbin p) (le_pages e) buf in
             analyze_entry order fuel (mkFI (ps_hbin p) buf) (le_seq e) (ps_set_buffer b p) items)
            (fun x => told_entries order fuel sec_seq hbins r (le_seq e) (snd x) (fst x) (i + 1) total)
      else (t, Ok (new_seq, items, ps_log WarningTransactionLog p))
  end.
(** The console of [update_parser] is dropped at its end: a line feed if there was a
    message, src/progress.rs:66-73. *)
Definition told_parser (order : reg_items -> reg_items) (fuel : nat) (l : transaction_log) (p : parser) (items : reg_items) : list N * res (N * reg_items * parser) :=
  after [] (base_block_info p) (fun x =>
    let (t, y) := told_entries order fuel (fst x) (snd x) (tl_entries l) 0 p items 1 (len (tl_entries l)) in
    (t ++ match t with [] => [] | _ => [10] end, y)).
(** The log loop of [apply_transaction_logs], src/parser.rs:281-305. *)
Fixpoint told_logs (order : reg_items -> reg_items) (fuel : nat) (sec_seq : N) (logs : list transaction_log) (new_seq : N) (p : parser) (items : reg_items)
  (i total : N) : list N * res (N * parser) :=
  match logs with
  | [] => ([], Ok (new_seq, p))
  | l :: r =>
      if sec_seq <=? log_primary l then
        if (new_seq =? 0) || (log_primary l =? w32 (new_seq + 1)) then
          let (t, y) := told_parser order fuel l p items in
          after (say_log i total ++ t) y (fun x => told_logs order fuel sec_seq r (fst (fst x)) (snd x) (snd (fst x)) (i + 1) total)
        else told_logs order fuel sec_seq r new_seq (ps_log WarningTransactionLog p) items (i + 1) total
      else told_logs order fuel sec_seq r new_seq (ps_log WarningTransactionLog p) items (i + 1) total
  end.
(** [apply_transaction_logs], src/parser.rs:258-309. *)
Definition told_transaction_logs (order : reg_items -> reg_items) (fuel : nat) (bad_checksum : bool) (logs : list transaction_log) (p : parser) : list N * res parser :=
  match logs with
  | [] => ([], Ok p)
  | _ =>
      after [] (prepare_logs bad_checksum p logs) (fun x => let '(go, p, logs) := x in
        if go : bool then
          after [] (get_reg_items fuel p 0) (fun y => let (items, p) := y in
          after [] (base_block_info p) (fun z =>
          let (t, w) := told_logs order fuel (fst z) logs 0 p items 1 (len logs) in
          after t w (fun v => ([], update_header (fst v) (snd v)))))
        else ([], Ok p))
  end.
(** [Parser::init], src/parser.rs:57-71, and [build], src/parser_builder.rs:132-157. *)
Definition told_init (order : reg_items -> reg_items) (fuel : nat) (recover : bool) (logs : list transaction_log) (p : parser) : list N * res parser :=
  after [] (init_base_block p) (fun x => let '(supported, bad, p) := x in
    if supported : bool then
      after [] (if recover then
          let* b := or_panic (ps_base_block p) in
          let* st := find_free_keys_and_values (ps_file p) (ps_state p) (bb_hive_bins_data_size (bb_base b)) in
          Ok (ps_set_state st p)
        else Ok p) (fun p =>
      let (t, y) := told_transaction_logs order fuel bad logs p in
      after t y (fun p => ([], init_root p)))
    else ([], Ok p)).
Definition told_build (order : reg_items -> reg_items) (fuel : nat) (hash : list N -> N) (recover full : bool) (buffer : list N) (log_files : list (list N)) : list N * res parser :=
  after [] (parse_logs log_files) (fun x => let (logs, w) := x in
    let st := mkState 0 full [] hash [] [] [] [] in
    let (t, y) := told_init order fuel recover logs (mkParser (mkFI 0 buffer) st None None None recover) in
    after t y (fun p => ([], Ok (ps_set_state (set_info (st_info (ps_state p) ++ w) (ps_state p)) p)))).

(** [update_progress] in the loops over the keys (bin/reg_dump/json_writer.rs:42,
    tsv_writer.rs:56, common_writer.rs:84, xlsx_writer.rs:128), src/progress.rs:42-48:
    [i] is the index of the first key. *)
Fixpoint dots {A} (i : N) (ks : list A) : list N :=
  match ks with
  | [] => []
  | _ :: ks => (if i mod 1000 =? 0 then text "." else []) ++ dots (i + 1) ks
  end.
(** What is on the console after [reg_dump], bin/reg_dump/main.rs:228-261, in the text
    formats, if the export goes through; [shown] is the path of the output in the
    style [{:?}]. *)
Definition dump_console (o : outside) (n : nat) (c : choices) (shown buffer : list N) (logs : list (list N)) : list N * res unit :=
  let (t, y) := told_build (os_order o) n (os_hash o) (ch_recover c) (ch_full c) buffer logs in
  after t y (fun p =>
  after (text "Writing file") (iterate n p (chosen_filter c) false true false) (fun ks =>
    (dots 0 ks ++ [10] ++ text "Finished writing " ++ shown ++ [10], Ok tt))).
