(** What the console says while a hive is opened and exported (property C82). *)
From Coq Require Import String.
From Verif Require Import Base LayoutSpec UtilSpec TxSpec Types Value Node Recover Parser TxLog Log Export ExportSpec Json Dump Console ConsoleSpec ConsoleFacts Demo DemoTree DemoLog DemoExport PropsVersion PropsDump.
Open Scope string_scope.
Open Scope N_scope.
Open Scope list_scope.

(** Whether the console is told or not, opening gives the same. *)
Theorem C82_same : forall order fuel hash recover full buffer files,
  snd (told_build order fuel hash recover full buffer files) = build order fuel hash recover full buffer files.
Proof. exact told_build_snd. Qed.
Print Assumptions C82_same.
(** Opening a dirty hive says which logs are applied and which of their entries are
    looked at; numbers are positions among the logs in the order of their sequence
    numbers, those left out included. *)
Theorem C82_logs : forall order fuel hash recover full buffer files logs w p,
  known_file_type buffer -> checksum_right buffer -> num_at buffer 4 4 <> num_at buffer 8 4 -> parse_logs files = Ok (logs, w) -> logs <> [] ->
  build order fuel hash recover full buffer files = Ok p ->
  narrated (num_at buffer 8 4) (len logs) 1 0 logs (fst (told_build order fuel hash recover full buffer files)).
Proof. exact told_dirty. Qed.
Print Assumptions C82_logs.
(** Opening a clean hive says nothing, whatever comes of it. *)
Theorem C82_clean : forall order fuel hash recover full buffer files,
  known_file_type buffer -> checksum_right buffer -> num_at buffer 4 4 = num_at buffer 8 4 ->
  fst (told_build order fuel hash recover full buffer files) = [].
Proof. exact told_clean. Qed.
Print Assumptions C82_clean.
(** An opening that fails, or any other, with a header of the right checksum: nothing
    is said, or what is said is complete, or it ends with the entry that could not be
    applied. *)
Theorem C82_right : forall order fuel hash recover full buffer files logs w,
  known_file_type buffer -> checksum_right buffer -> parse_logs files = Ok (logs, w) ->
  fst (told_build order fuel hash recover full buffer files) = []
  \/ narrated (num_at buffer 8 4) (len logs) 1 0 logs (fst (told_build order fuel hash recover full buffer files))
  \/ broken_off (num_at buffer 8 4) (len logs) 1 0 logs (fst (told_build order fuel hash recover full buffer files)).
Proof. exact told_right. Qed.
Print Assumptions C82_right.
(** Every file: what is said is of that kind, for all logs or, after a damaged header,
    for all but the first. *)
Theorem C82_any : forall order fuel hash recover full buffer files logs w, parse_logs files = Ok (logs, w) ->
  fst (told_build order fuel hash recover full buffer files) = []
  \/ exists sec ls, (ls = logs \/ ls = tl logs) /\ (narrated sec (len ls) 1 0 ls (fst (told_build order fuel hash recover full buffer files))
     \/ broken_off sec (len ls) 1 0 ls (fst (told_build order fuel hash recover full buffer files))).
Proof. exact told_build_any. Qed.
Print Assumptions C82_any.
Theorem C82_no_logs : forall order fuel hash recover full buffer files, (forall x, parse_logs files <> Ok x) ->
  fst (told_build order fuel hash recover full buffer files) = [].
Proof. exact told_no_logs. Qed.
Print Assumptions C82_no_logs.
(** An export in one of the text formats that goes through shows a dot for every
    thousand keys begun, and the path of the output. *)
Theorem C82_export : forall o n c shown buffer logs out, ch_type c <> XlsxOut -> reg_dump o n c buffer logs = Written out ->
  exists p ks, build (os_order o) n (os_hash o) (ch_recover c) (ch_full c) buffer logs = Ok p /\ iterate n p (chosen_filter c) false true false = Ok ks
    /\ dump_console o n c shown buffer logs
       = (fst (told_build (os_order o) n (os_hash o) (ch_recover c) (ch_full c) buffer logs)
            ++ text "Writing file" ++ repeat 46 (N.to_nat ((len ks + 999) / 1000)) ++ [10] ++ text "Finished writing " ++ shown ++ [10], Ok tt).
Proof. exact written_console. Qed.
Print Assumptions C82_export.
(** The hive with the log of two entries, after an old log that is left out: it is
    log 2 of 2 that is applied. *)
Definition old_and_new : list (list N) := log_file 0 [change_two] :: changed_twice.
Example C82_example :
  known_file_type dirty_hive /\ checksum_right dirty_hive /\ num_at dirty_hive 4 4 <> num_at dirty_hive 8 4
  /\ match told_build keep 20 whole false false dirty_hive old_and_new with
     | (t, Ok p) => t = text "Applying transaction log 2 of 2" ++ [10; 27; 55] ++ text "Processing transaction log entry 1 of 2" ++ [27; 56; 27; 55]
                        ++ text "Processing transaction log entry 2 of 2" ++ [27; 56; 10]
     | _ => False
     end.
Proof. split; [left; reflexivity|]. split; [vm_compute; reflexivity|]. split; [discriminate|]. vm_compute. reflexivity. Qed.
(** Exported as tab separated text, with four keys. *)
Example C82_export_example : exists out, reg_dump h_out 20 (h_choices TsvOut) dirty_hive [] = Written out
  /\ dump_console h_out 20 (h_choices TsvOut) (text """out.tsv""") dirty_hive []
     = (text "Writing file." ++ [10] ++ text "Finished writing ""out.tsv""" ++ [10], Ok tt).
Proof.
  assert (Y : match reg_dump h_out 20 (h_choices TsvOut) dirty_hive [] with Written _ => true | _ => false end = true) by (vm_compute; reflexivity).
  destruct (reg_dump h_out 20 (h_choices TsvOut) dirty_hive []) as [|out| | |]; try discriminate Y. exists out. split; [reflexivity|]. vm_compute. reflexivity.
Qed.
(** An entry with a page beyond the end of the file. *)
Example C82_fails_example :
  match told_build keep 20 whole false false dirty_hive [log_file 2 [mkW 0 2 4096 [(8000, [1])] []]] with
  | (t, Err) => t = text "Applying transaction log 1 of 1" ++ [10; 27; 55] ++ text "Processing transaction log entry 1 of 1" ++ [27; 56; 10]
  | _ => False
  end.
Proof. vm_compute. reflexivity. Qed.
