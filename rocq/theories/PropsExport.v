(** C44 and C45: what the text exports contain. *)
From Coq Require Import String.
From Verif Require Import Base BaseFacts Util UtilSpec Types Value Node Parser TxSpec TxLog CellSpec TreeSpec Pure TreeCount TreeSession
  Log Export ExportSpec ExportFacts Demo DemoTree DemoExport.
Open Scope string_scope.
Open Scope N_scope.
Open Scope list_scope.

(** C44: an export is read back as the comments, one row for each key with its
    versions, its values and theirs, and the totals; every total is the number of
    the rows of its kind (the counters are of 32 bits). *)
Theorem C44_export_read : forall r ks out, (forall z, plain (rd_date r z)) -> common_export r ks = Ok out ->
  exists rows totals,
  reads_as 44 out (map Comment common_header ++ map Row rows ++ map Comment totals)
  /\ Forall2 (common_row (fun k => rd_date r (kn_date k))) (flat_map common_items ks) rows
  /\ Forall2 (total_right rows) totals_shown totals.
Proof. exact common_export_read. Qed.
Print Assumptions C44_export_read.
(** It is read in no other way. *)
Theorem C44_one_reading : forall sep s l l', reads_as sep s l -> reads_as sep s l' -> l = l'.
Proof. intros sep s l l' R R'. exact (reads_as_unique sep s l R l' R'). Qed.
Print Assumptions C44_one_reading.
Theorem C44_written : forall r ks, (forall k, In (KeyItem k) (flat_map common_items ks) -> path_shown k) ->
  exists out, common_export r ks = Ok out.
Proof. exact common_export_ok. Qed.
Print Assumptions C44_written.
(** The export of a hive, from the parser as it was built or after any look-ups:
    the rows are the keys of the tree in pre-order with their values. *)
Theorem C44_hive : forall buffer files t p ok p' n r, opens buffer files t p -> used ok p p' ->
  (2 * List.length (positions t) < n)%nat -> (forall z, plain (rd_date r z)) -> exists out rows totals,
  write_common n r p' None = Ok out
  /\ reads_as 44 out (map Comment common_header ++ map Row rows ++ map Comment totals)
  /\ Forall2 tree_row (tree_items t) rows /\ Forall2 (total_right rows) totals_shown totals.
Proof. exact hive_export. Qed.
Print Assumptions C44_hive.
Lemma e_paths : forall k, In (KeyItem k) (flat_map common_items e_keys) -> path_shown k.
Proof.
  set (check := fun k => unused (kn_state k) || match kn_path k with
    | a :: rest => (a =? 92) && match read_utf8 rest with Some _ => true | None => false end | [] => false end).
  assert (C : forallb (fun i => match i with KeyItem k => check k | _ => true end) (flat_map common_items e_keys) = true) by (vm_compute; reflexivity).
  intros k I. rewrite forallb_forall in C. apply C in I. unfold check in I. apply orb_true_iff in I as [I|I]; [now left|right].
  destruct (kn_path k) as [|a rest]; [discriminate I|]. apply andb_true_iff in I as [A I]. apply N.eqb_eq in A as ->.
  destruct (read_utf8 rest) as [c|] eqn:R; [|discriminate I]. exists rest, c. now split.
Qed.
Lemma e_plain : plain_renderer e_show.
Proof.
  assert (G : forall s, forallb (fun c => negb (existsb (N.eqb c) [9; 10; 13; 34; 44])) s = true -> plain s).
  { intros s E. apply Forall_forall. intros c I J. rewrite forallb_forall in E. apply E in I.
    apply negb_true_iff in I. assert (X : existsb (N.eqb c) [9; 10; 13; 34; 44] = true); [|congruence].
    apply existsb_exists. exists c. split; [exact J|apply N.eqb_refl]. }
  repeat split; intros; apply G; vm_compute; reflexivity.
Qed.
(** Two keys in use, one in unused space, one from a log; a value of each kind. *)
Example C44_example : (forall z, plain (rd_date e_show z)) /\ exists out, common_export e_show e_keys = Ok out
  /\ skipn (List.length (lines common_header)) out = lines (map text [
       "key,A,4300,""R\x,y"",,,,1601-01-01T00:00:00Z";
       "key,M,4200,""R\x,y"",,,,1601-01-01T00:00:00Z";
       "value,A,4500,""x,y"",""a""""b"",3,FF,";
       "value,M,5000,""x,y"",""a""""b"",3,01 02,";
       "value,U,4600,,(default),3,10,";
       "key,U,4700,lost,,,,1601-01-01T00:00:00Z";
       "key,A,4800,R\z,,,,1601-01-01T00:00:00Z";
       "## total_keys: 2"; "## total_values: 1"; "## total_unused_keys: 1"; "## total_unused_values: 1";
       "## total_deleted_from_transaction_log_keys: 0"; "## total_deleted_from_transaction_log_values: 0";
       "## total_modified_from_transaction_log_keys: 1"; "## total_modified_from_transaction_log_values: 1"]).
Proof.
  split; [apply e_plain|]. destruct (common_export_ok e_show e_keys e_paths) as (out & E). exists out. split; [exact E|].
  assert (X : match common_export e_show e_keys with Ok o => skipn (List.length (lines common_header)) o | _ => [] end = skipn (List.length (lines common_header)) out) by now rewrite E.
  rewrite <- X. vm_compute. reflexivity.
Qed.
Example C44_hive_example : exists p, opens demo_hive [] demo_tree p /\ used (fun _ => False) p p
  /\ List.length (tree_items demo_tree) = 7%nat.
Proof.
  destruct demo_header as (K & R & H & C).
  destruct (hive_opens keep 0 no_hash false demo_hive demo_tree K R demo_is_hive) as (p & E & B & _).
  exists p. split; [split; [exact K|]; split; [rewrite B; exact demo_is_hive|]; exists keep, O, no_hash, false; exact E|].
  split; [constructor|reflexivity].
Qed.
(** A file of an unknown type opens, but its export panics: the key shown for it
    has no path. *)
Theorem C44_odd_file_refuted : exists p, build keep 0 no_hash false false odd_file [] = Ok p
  /\ write_common 10 e_show p None = Panic.
Proof.
  apply (checked _ (fun p => match write_common 10 e_show p None with Panic => true | _ => false end)).
  - intros p. destruct (write_common 10 e_show p None); [discriminate 1..|reflexivity|discriminate 1].
  - vm_compute. reflexivity.
Qed.
Print Assumptions C44_odd_file_refuted.

(** C45: an export is read back as the column names and one row for each item
    that is kept, numbered from 1, and then the log. *)
Theorem C45_rows : forall r recovered_only ks log, plain_renderer r -> exists rows,
  reads_rows 9 (tsv_export r recovered_only ks log) (tsv_columns :: rows)
    (log_tail log)
  /\ tsv_rows (shown_by r) 1 (List.filter (kept recovered_only) (flat_map tsv_items ks)) rows.
Proof. exact tsv_export_read. Qed.
Print Assumptions C45_rows.
(** The items, and those that are recovered or hold earlier versions. *)
Example C45_example : plain_renderer e_show
  /\ flat_map tsv_items e_keys = [KeyItem e_key; KeyItem e_old_key; ValueItem e_key e_value; ValueItem e_key e_old_value;
       ValueItem e_key e_lost_value; KeyItem e_lost_key; KeyItem e_plain_key]
  /\ List.filter (kept true) (flat_map tsv_items e_keys) = [KeyItem e_key; KeyItem e_old_key; ValueItem e_key e_value; ValueItem e_key e_old_value;
       ValueItem e_key e_lost_value; KeyItem e_lost_key]
  /\ exists rest, tsv_export e_show true e_keys None = tsv_header ++ [49; 9] ++ escape_string (kn_path e_key) ++ rest.
Proof. split; [exact e_plain|]. split; [reflexivity|]. split; [reflexivity|]. eexists. vm_compute. reflexivity. Qed.
