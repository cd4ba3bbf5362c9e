(** C54: what the dates in the exports say. *)
From Coq Require Import String.
From Verif Require Import Base BaseFacts Util UtilSpec LayoutSpec Types Value Node Parser TxSpec TxLog CellSpec TreeSpec Pure TreeCount TreeSession
  Export ExportSpec Date DateSpec DateFacts DateTree Log Demo DemoTree DemoExport.
Open Scope string_scope.
Open Scope N_scope.
Open Scope list_scope.

(** C54: the text of a FILETIME between 1677 and 2262 names the day, reached by
    counting days from 1601-01-01, and the time of that day, to 100 nanoseconds. *)
Theorem C54_denotes : forall filetime, fits_i64 (filetime_instant filetime) ->
  denotes (format_date_time (get_date_time_from_filetime filetime)) filetime.
Proof. exact date_denotes. Qed.
Print Assumptions C54_denotes.
(** A text denotes one FILETIME. *)
Theorem C54_one_meaning : forall s a b, denotes s a -> denotes s b -> a = b.
Proof. exact denotes_one. Qed.
Print Assumptions C54_one_meaning.
(** Sorting the texts sorts the times. *)
Theorem C54_sorted : forall a b, fits_i64 (filetime_instant a) -> fits_i64 (filetime_instant b) ->
  (a < b <-> text_before (format_date_time (get_date_time_from_filetime a)) (format_date_time (get_date_time_from_filetime b))).
Proof. intros a b A B. apply denotes_order; now apply date_denotes. Qed.
Print Assumptions C54_sorted.
(** No date, of any instant, contains a character that needs quotes. *)
Theorem C54_plain : forall z, plain (format_date_time z).
Proof. exact date_plain. Qed.
Print Assumptions C54_plain.
(** In the export of a hive, every key's date denotes the time stored in its cell. *)
Theorem C54_hive : forall buffer files t p ok p' n r, opens buffer files t p -> used ok p p' ->
  (2 * List.length (positions t) < n)%nat -> exists out rows totals,
  write_common n (with_dates r) p' None = Ok out
  /\ reads_as 44 out (map Comment common_header ++ map Row rows ++ map Comment totals)
  /\ Forall2 tree_row (tree_items t) rows /\ Forall2 (row_dated (ps_buffer p)) (tree_items t) rows.
Proof. exact dated_export. Qed.
Print Assumptions C54_hive.
(** 2021-05-15 11:34:13 and 100 nanoseconds; a leap day; the last FILETIME in range. *)
Example C54_example : fits_i64 (filetime_instant 132655520530000001)
  /\ format_date_time (get_date_time_from_filetime 132655520530000001) = text "2021-05-15T11:34:13.0000001Z"
  /\ format_date_time (get_date_time_from_filetime 125963423999999999) = text "2000-02-29T23:59:59.9999999Z"
  /\ fits_i64 (filetime_instant 208678456368547758)
  /\ format_date_time (get_date_time_from_filetime 208678456368547758) = text "2262-04-11T23:47:16.8547758Z"
  /\ date_after_1601 60 = (1601, 3, 2).
Proof. split; [split; vm_compute; congruence|]. split; [vm_compute; reflexivity|]. split; [vm_compute; reflexivity|].
  split; [split; vm_compute; congruence|]. split; vm_compute; reflexivity. Qed.
Example C54_hive_example : exists p, opens demo_hive [] demo_tree p /\ used (fun _ => False) p p
  /\ fits_i64 (filetime_instant (stored_time (ps_buffer p) demo_tree)).
Proof.
  destruct demo_header as (K & R & H & C).
  destruct (hive_opens keep 0 no_hash false demo_hive demo_tree K R demo_is_hive) as (p & E & B & _).
  exists p. split; [split; [exact K|]; split; [rewrite B; exact demo_is_hive|]; exists keep, O, no_hash, false; exact E|].
  split; [constructor|]. rewrite B. split; vm_compute; congruence.
Qed.
(** Outside that range it is false: a time of zero (1601), which the format uses
    for "never", is shown as a day in 2185. *)
Theorem C54_zero_refuted : format_date_time (get_date_time_from_filetime 0) = text "2185-07-21T23:34:33.709551616Z"
  /\ ~ denotes (format_date_time (get_date_time_from_filetime 0)) 0.
Proof.
  assert (E : format_date_time (get_date_time_from_filetime 0) = text "2185-07-21T23:34:33.709551616Z") by (vm_compute; reflexivity).
  split; [exact E|]. rewrite E. intros D. apply denotes_length in D. discriminate D.
Qed.
Print Assumptions C54_zero_refuted.
