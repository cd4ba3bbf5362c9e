(** C56: what the contents and the flags in the tab-separated export say. *)
From Coq Require Import String.
From Verif Require Import Base BaseFacts Util UtilSpec UtilText LayoutSpec Types Value Node Parser TxSpec TxLog CellSpec CellData TreeSpec Pure TreeCount TreeSession
  Export ExportSpec Date DateSpec Show ShowSpec ShowFacts Log Demo DemoTree DemoExport DemoCell.
Open Scope string_scope.
Open Scope N_scope.
Open Scope list_scope.

(** C56: the type and the text of a content say what the content is, whatever
    characters count as printable. *)
Theorem C56_content : forall printable v c logs, bytes_ok (data_bytes v) -> get_content v = Ok (c, logs) ->
  says (show_type c) (show_content printable c) c.
Proof. exact content_said. Qed.
Print Assumptions C56_content.
(** A type and a text say one thing. *)
Theorem C56_one_meaning : forall type shown a b, says type shown a -> says type shown b -> a = b.
Proof. exact says_one. Qed.
Print Assumptions C56_one_meaning.
(** The flags are the names of the bits that are set. *)
Theorem C56_flags : forall n,
  tells_bits (text "KeyNodeFlags") key_bits n (show_key_flags n) /\ tells_bits (text "AccessFlags") access_bits n (show_access_flags n).
Proof. intros n. split; [apply key_told|apply access_told]. Qed.
Print Assumptions C56_flags.
(** A text tells one set of bits. *)
Theorem C56_flags_one_meaning : forall type a b shown,
  (tells_bits type key_bits a shown -> tells_bits type key_bits b shown -> forall m k, In (m, k) key_bits -> N.testbit a k = N.testbit b k)
  /\ (tells_bits type access_bits a shown -> tells_bits type access_bits b shown -> forall m k, In (m, k) access_bits -> N.testbit a k = N.testbit b k).
Proof. intros. split; apply bits_one; [apply key_table|apply access_table]. Qed.
Print Assumptions C56_flags_one_meaning.
(** Every row of the export says it of its item. *)
Theorem C56_rows : forall printable key_logs value_logs recovered_only ks log, exists rows,
  reads_rows 9 (tsv_export (as_shown printable key_logs value_logs) recovered_only ks log) (tsv_columns :: rows)
    (log_tail log)
  /\ tsv_rows (shown_by (as_shown printable key_logs value_logs)) 1 (List.filter (kept recovered_only) (flat_map tsv_items ks)) rows
  /\ Forall2 tsv_says (List.filter (kept recovered_only) (flat_map tsv_items ks)) rows.
Proof. exact tsv_says_all. Qed.
Print Assumptions C56_rows.
(** The export of a hive: one row for each stored key and value, in order, that
    says what is stored. *)
Theorem C56_hive : forall printable key_logs value_logs buffer files t p ok p' n log, opens buffer files t p -> used ok p p' ->
  (2 * List.length (positions t) < n)%nat -> exists out rows,
  write_tsv n (as_shown printable key_logs value_logs) false p' None log = Ok out
  /\ reads_rows 9 out (tsv_columns :: rows) (log_tail log)
  /\ tree_tsv_rows (ps_buffer p) 1 (tree_items t) rows.
Proof. exact tsv_hive. Qed.
Print Assumptions C56_hive.
(** A list of two strings, one with a quote, one with a newline and U+200B, which is not printable here. *)
Example C56_example :
  get_content (kv_holding 7 [97; 0; 34; 0; 98; 0; 0; 0; 0x0A; 0; 65; 0; 0x0B; 0x20; 0; 0; 0; 0]) = Ok (CMultiString [[97; 34; 98]; utf8 [10; 65; 0x200B]], [])
  /\ show_content (fun c => c <? 128) (CMultiString [[97; 34; 98]; utf8 [10; 65; 0x200B]])
     = [91; 34; 97; 92; 34; 98; 34; 44; 32; 34; 92; 110; 65; 92; 117; 123; 50; 48; 48; 98; 125; 34; 93]
  /\ show_content (fun _ => true) (CI32 (-20)%Z) = text "-20" /\ show_type (CI32 (-20)%Z) = text "I32"
  /\ show_key_flags 0x24 = text "KeyNodeFlags(KEY_HIVE_ENTRY | KEY_COMP_NAME)" /\ show_access_flags 0 = text "AccessFlags(0x0)"
  /\ stored_content 4 [20; 0; 0; 0] (CU32 20).
Proof.
  split; [vm_compute; reflexivity|]. split; [vm_compute; reflexivity|]. split; [vm_compute; reflexivity|]. split; [reflexivity|].
  split; [vm_compute; reflexivity|]. split; [vm_compute; reflexivity|]. apply (stored_u32 4 20 []); [now left|reflexivity].
Qed.
Example C56_hive_example : exists p, opens demo_hive [] demo_tree p /\ used (fun _ => False) p p
  /\ List.length (tree_items demo_tree) = 7%nat.
Proof.
  destruct demo_header as (K & R & H & C).
  destruct (hive_opens keep 0 no_hash false demo_hive demo_tree K R demo_is_hive) as (p & E & B & _).
  exists p. split; [split; [exact K|]; split; [rewrite B; exact demo_is_hive|]; exists keep, O, no_hash, false; exact E|].
  split; [constructor|]. vm_compute. reflexivity.
Qed.
(** The text alone does not tell the content: the number 1 and the string "1". *)
Theorem C56_text_alone_refuted : exists a b, a <> b /\ forall printable, show_content printable a = show_content printable b.
Proof. exists (CString [49]), (CU32 1). split; [discriminate|]. intros. vm_compute. reflexivity. Qed.
Print Assumptions C56_text_alone_refuted.
(** Bits without a name are not shown: keys that differ in one of them look alike. *)
Theorem C56_unnamed_bits_refuted : exists a b, a < 2 ^ 16 /\ b < 2 ^ 16 /\ a <> b /\ show_key_flags a = show_key_flags b.
Proof. exists 0x24, 0x424. split; [reflexivity|]. split; [reflexivity|]. split; [discriminate|]. vm_compute. reflexivity. Qed.
Print Assumptions C56_unnamed_bits_refuted.
