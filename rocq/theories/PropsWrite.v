(** The property that no export aborts: statements only, with a concrete case
    beside each. The specification is AbortSpec.v. *)
From Coq Require Import Permutation.
From Verif Require Import Base BaseFacts Util UtilSpec LayoutSpec LayoutFacts BaseBlock Types Value Node Recover Parser TxLog TxSpec
  Log Export Xlsx Json CellSpec CellList Pure AbortSpec NoAbort ExportSafe Demo DemoCell DemoTree DemoScan DemoLog DemoExport DemoFree BuildBytes.

(** ** C66 *)
(** The path of every key an iteration returns, and of every earlier version of
    it, begins with a backslash, and cutting the root off it succeeds. *)
Theorem C66_paths : forall order fuel hash recover full buffer files p q n f anc m post ks k x,
  (forall m, Permutation (order m) m) -> known_file_type buffer ->
  build order fuel hash recover full buffer files = Ok p -> asked p q ->
  iterate n q f anc m post = Ok ks -> In k ks -> x = k \/ In x (kn_versions k) ->
  hd_error (kn_path x) = Some 92 /\ exists s, kn_pretty_path x = Ok s.
Proof.
  intros order fuel hash recover full buffer files p q n f anc m post ks k x PERM K E A I J X.
  destruct (build_sk order fuel full hash PERM _ _ _ _ K E) as (M & r & R & S).
  destruct (moved_sk _ _ _ (asked_moved _ _ A) M R S) as (M2 & r2 & R2 & S2).
  pose proof (iterate_sk _ _ _ _ _ _ _ _ M2 R2 S2 I) as F. rewrite Forall_forall in F. specialize (F k J).
  assert (L : lead (kn_path x)).
  { inversion F as [y L V D]; subst. destruct X as [->|X]; [exact L|]. rewrite Forall_forall in V. exact (V x X). }
  split; [destruct L as (cs & ->); reflexivity|]. now apply pretty_cut, lead_spelt.
Qed.
Print Assumptions C66_paths.

(** The four formats, of a file just opened: every filter, whatever the texts of
    the messages and whatever cells the spreadsheet library accepts. *)
Theorem C66_exports : forall order fuel hash recover full buffer files p,
  (forall m, Permutation (order m) m) -> known_file_type buffer -> bytes_ok buffer -> Forall bytes_ok files ->
  build order fuel hash recover full buffer files = Ok p -> forall n f,
  (forall r, no_abort (write_common n r p f))
  /\ (forall r recovered_only log, no_abort (write_tsv n r recovered_only p f log))
  /\ (forall il, no_abort (write_json n il p f))
  /\ (forall accepts printable key_logs value_logs recovered_only log,
        no_abort (write_xlsx accepts printable key_logs value_logs recovered_only n p f log)).
Proof.
  intros order fuel hash recover full buffer files p PERM K BB BF E n f. pose proof (build_bytes _ _ _ _ _ _ _ _ BB BF E) as B.
  destruct (build_sk order fuel full hash PERM _ _ _ _ K E) as (M & r0 & R & S). pose proof (build_opened _ _ _ _ _ _ _ _ E) as O.
  pose proof (fresh_iterate _ O B n f false true false) as SI. unfold write_common, write_tsv, write_json, write_xlsx.
  destruct (iterate n p f false true false) as [ks| | |] eqn:I; [|repeat split; discriminate|now elim SI|repeat split; discriminate].
  pose proof (iterate_sk _ _ _ _ _ _ _ _ M R S I) as F. split; [|split; [discriminate|split; [discriminate|intros; apply xlsx_export_safe]]].
  intros r. destruct (common_ok r ks F) as (t & ->). discriminate.
Qed.
Print Assumptions C66_exports.
(** If the iteration ends, so do the exports other than the spreadsheet, and with
    a text. *)
Theorem C66_complete : forall order fuel hash recover full buffer files p q,
  (forall m, Permutation (order m) m) -> known_file_type buffer ->
  build order fuel hash recover full buffer files = Ok p -> asked p q -> forall n f ks,
  iterate n q f false true false = Ok ks ->
  (forall r, exists t, write_common n r q f = Ok t)
  /\ (forall r recovered_only log, exists t, write_tsv n r recovered_only q f log = Ok t)
  /\ (forall il, exists t, write_json n il q f = Ok t).
Proof.
  intros order fuel hash recover full buffer files p q PERM K E A n f ks I.
  destruct (build_sk order fuel full hash PERM _ _ _ _ K E) as (M & r & R & S).
  destruct (moved_sk _ _ _ (asked_moved _ _ A) M R S) as (M2 & r2 & R2 & S2).
  pose proof (iterate_sk _ _ _ _ _ _ _ _ M2 R2 S2 I) as F. unfold write_common, write_tsv, write_json. rewrite I.
  split; [intros; now apply common_ok|]. split; intros; eauto.
Qed.
Print Assumptions C66_complete.
(** The condition on the file type is needed: C44_odd_file_refuted in
    PropsExport.v. *)
Example C66_example : exists p ks, (forall m : reg_items, Permutation (keep m) m) /\ known_file_type (free_hive 0x20)
  /\ bytes_ok (free_hive 0x20) /\ Forall bytes_ok (touches 2)
  /\ build keep 20 whole true false (free_hive 0x20) (touches 2) = Ok p /\ asked p p
  /\ iterate 20 p None false true false = Ok ks /\ Exists (fun k => kn_state k <> Allocated) ks.
Proof.
  assert (X : exists p, build keep 20 whole true false (free_hive 0x20) (touches 2) = Ok p
    /\ exists ks, iterate 20 p None false true false = Ok ks /\ Exists (fun k => kn_state k <> Allocated) ks).
  { refine (checked _ (fun p => match iterate 20 p None false true false with Ok ks => existsb (fun k => negb (is_allocated (kn_state k))) ks | _ => false end) _ _ _); [|vm_compute; reflexivity].
    intros p H. destruct (iterate _ _ _ _ _ _) as [ks| | |]; try discriminate H.
    exists ks. split; [reflexivity|]. apply existsb_exists in H as (k & I & S). apply Exists_exists. exists k. split; [exact I|].
    intros A. rewrite A in S. discriminate S. }
  destruct X as (p & E & ks & I & S). exists p, ks. split; [intros m; apply Permutation_refl|]. split; [left; vm_compute; reflexivity|].
  split; [apply bytes_check; vm_compute; reflexivity|]. split; [apply files_check; vm_compute; reflexivity|].
  repeat (split; [assumption|]). split; [apply asked_not|]. now split.
Qed.
