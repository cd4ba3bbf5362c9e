(** C50 and C52: messages are kept, and what a build leaves out is reported. *)
From Coq Require Import String.
From Verif Require Import Base BaseFacts LayoutSpec BaseBlock Types Value Node Parser TxLog TxSpec Log LogSpec LogFacts Demo.

(** C50: any history of additions and merges leaves the earlier messages and then
    those brought, in order. *)
Theorem C50_messages_kept : forall ops l, Forall no_prefix ops ->
  messages (log_history ops l) = messages l ++ brought ops.
Proof. intros ops l. exact (history_app ops l). Qed.
Print Assumptions C50_messages_kept.
(** With prefixes too: one message for each, in order, with its code, and its text
    at the end of the new text. *)
Theorem C50_prefixes : forall ops l,
  Forall2 same_message (messages l ++ brought ops) (messages (log_history ops l)).
Proof. exact history_kept. Qed.
Print Assumptions C50_prefixes.
Theorem C50_has_logs : forall l, has_logs l = true <-> messages l <> [].
Proof. intros [[|m ms]|]; cbn; split; congruence. Qed.
Print Assumptions C50_has_logs.
(** The collection is shown as absent exactly if nothing was ever put in it. *)
Theorem C50_option : forall l, logs_get_option l = None <-> l = None.
Proof. intros [ms|]; split; try reflexivity; discriminate. Qed.
Print Assumptions C50_option.
(** What is written tells the messages: no two collections are written alike, as
    long as no text holds the mark that ends a message (a line break in files, a
    semicolon in the text of the collection). *)
Theorem C50_written : forall l l', Forall (fun m => ~ In 10 (mg_text m)) (messages l) -> Forall (fun m => ~ In 10 (mg_text m)) (messages l') ->
  logs_write l = logs_write l' -> messages l = messages l'.
Proof. exact written_inj. Qed.
Print Assumptions C50_written.
Theorem C50_shown : forall l l', Forall (fun m => ~ In 59 (mg_text m)) (messages l) -> Forall (fun m => ~ In 59 (mg_text m)) (messages l') ->
  logs_string l = logs_string l' -> messages l = messages l'.
Proof. exact string_inj. Qed.
Print Assumptions C50_shown.
(** How the messages are written: the word for the code, a space and the text, each
    on a line, or each followed by a semicolon. *)
Theorem C50_lines : forall l, logs_write l = flat_map (fun m => message_text m ++ [10]) (messages l)
  /\ logs_string l = flat_map (fun m => message_text m ++ [59]) (messages l).
Proof. intros l. split; [apply written_lines|apply string_lines]. Qed.
Print Assumptions C50_lines.
Example C50_example :
  let ops := [Add WarningParse [65]; Merge (Some [mkMsg LogInfo [66]]); Merge None; Prefix [67; 68]; Add WarningOther []] in
  messages (log_history ops None) = [mkMsg WarningParse [67; 68; 65]; mkMsg LogInfo [67; 68; 66]; mkMsg WarningOther []]
  /\ logs_string (log_history ops None) = text "WarningParse CDA;Info CDB;WarningOther ;"%string
  /\ logs_write (log_history ops None) = text "WarningParse CDA"%string ++ [10] ++ text "Info CDB"%string ++ [10] ++ text "WarningOther "%string ++ [10].
Proof. repeat split; reflexivity. Qed.
(** Merging an empty collection makes the collection present but without messages. *)
Theorem C50_empty_merge_refuted : logs_get_option (logs_extend None None) <> None /\ has_logs (logs_extend None None) = false.
Proof. split; [discriminate|reflexivity]. Qed.
Print Assumptions C50_empty_merge_refuted.

(** C52: if any entry of the logs is not applied to a dirty hive, there is a
    warning about the transaction logs. *)
Theorem C52_skips_reported : forall order fuel hash recover full buffer files logs w p es m,
  bytes_ok buffer -> Forall bytes_ok files -> known_file_type buffer -> checksum_right buffer ->
  num_at buffer 4 4 <> num_at buffer 8 4 -> 0 < num_at buffer 8 4 ->
  parse_logs files = Ok (logs, w) -> logs <> [] ->
  build order fuel hash recover full buffer files = Ok p ->
  log_chain (num_at buffer 8 4) 0 logs es m ->
  es = flat_map tl_entries logs \/ In WarningTransactionLog (st_info (ps_state p)).
Proof. exact dirty_reports. Qed.
Print Assumptions C52_skips_reported.
(** On a clean hive no log is used, which is reported too. *)
Theorem C52_clean_reported : forall order fuel hash recover full buffer files logs w p,
  bytes_ok buffer -> Forall bytes_ok files -> known_file_type buffer -> checksum_right buffer ->
  num_at buffer 4 4 = num_at buffer 8 4 ->
  parse_logs files = Ok (logs, w) -> logs <> [] ->
  build order fuel hash recover full buffer files = Ok p ->
  In WarningTransactionLog (st_info (ps_state p)).
Proof. exact clean_reports. Qed.
Print Assumptions C52_clean_reported.
(** Each log file that is not read leaves a warning. *)
Theorem C52_unread_logs : forall order fuel hash recover full buffer files logs w p,
  parse_logs files = Ok (logs, w) -> build order fuel hash recover full buffer files = Ok p ->
  exists before, st_info (ps_state p) = before ++ repeat WarningParse (List.length files - List.length logs).
Proof. exact unread_logs. Qed.
Print Assumptions C52_unread_logs.

(** A run with nothing left out, one that leaves out an old entry, and one with a
    file that is no log. *)
Definition diagnostics (primary secondary : N) (files : list (list N)) : option (list log_code) :=
  match build (fun m => m) 10 (fun _ => 0) false false (small_hive primary secondary) files with
  | Ok p => Some (st_info (ps_state p))
  | _ => None
  end.
Example C52_example :
  known_file_type (small_hive 6 5) /\ checksum_right (small_hive 6 5)
  /\ diagnostics 6 5 [log_file 5 [demo_entry 5 1; demo_entry 6 2]] = Some [WarningBaseBlock; LogInfo]
  /\ diagnostics 6 5 [log_file 5 [demo_entry 4 1; demo_entry 5 2]; [1; 2]] = Some [WarningBaseBlock; WarningTransactionLog; LogInfo; WarningParse]
  /\ diagnostics 5 5 [log_file 5 [demo_entry 5 1]] = Some [WarningTransactionLog].
Proof. vm_compute. repeat split. now left. Qed.
(** What does not look like an entry ends the log without a word: here the second
    of three entries has a damaged signature. *)
Definition damaged_log : list N :=
  let f := log_file 5 [demo_entry 5 1] in
  let g := log_file 5 [demo_entry 6 2; demo_entry 7 3] in
  f ++ [0] ++ skipn 513 g.
Theorem C52_damaged_signature_refuted :
  diagnostics 6 5 [damaged_log] = Some [WarningBaseBlock; LogInfo]
  /\ match log_from_bytes damaged_log with Ok l => len (tl_entries l) = 1 | _ => False end
  /\ len damaged_log = len (log_file 5 [demo_entry 5 1; demo_entry 6 2; demo_entry 7 3]).
Proof. vm_compute. repeat split. Qed.
Print Assumptions C52_damaged_signature_refuted.
