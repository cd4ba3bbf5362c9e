(** C57: what the spreadsheet export says. *)
From Coq Require Import String.
From Verif Require Import Base BaseFacts Util UtilSpec UtilText LayoutSpec Types Value Node Parser TxSpec TxLog CellSpec CellData TreeSpec Pure TreeCount TreeSession
  Export ExportSpec Date DateSpec Show ShowSpec ShowFacts Log Xlsx XlsxSpec XlsxFacts XlsxRows XlsxAll XlsxSheet XlsxRoom XlsxHive Demo DemoTree DemoExport DemoCell.
Open Scope string_scope.
Open Scope N_scope.
Open Scope list_scope.

(** C57: a spreadsheet export that succeeds has a header, a row for each item that is
    kept, with what the item holds, a row for each message, and nothing else. Texts
    too long for a cell are found in full behind their links. *)
Theorem C57_sheets : forall accepts printable key_logs value_logs recovered_only ks log b, in_sheet accepts ->
  Forall (item_texts key_logs value_logs) (List.filter (kept recovered_only) (flat_map tsv_items ks)) ->
  Forall (fun m => is_text (mg_text m)) (or_default log) ->
  xlsx_export accepts printable key_logs value_logs recovered_only ks log = Ok b ->
  items_sheet (bk_writes b) key_logs value_logs (List.filter (kept recovered_only) (flat_map tsv_items ks)) /\ logs_sheet (bk_writes b) (or_default log).
Proof. exact export_sheets. Qed.
Print Assumptions C57_sheets.
(** A cell has one reading. *)
Theorem C57_one_reading : forall ws s r c t1 t2, reads ws s r c t1 -> reads ws s r c t2 -> t1 = t2.
Proof. exact reads_one. Qed.
Print Assumptions C57_one_reading.
(** No text is written that is longer than a cell may hold, and, if the messages are
    legal, no character that XML forbids. *)
Theorem C57_cells : forall accepts printable key_logs value_logs recovered_only ks log b,
  Forall (item_texts key_logs value_logs) (List.filter (kept recovered_only) (flat_map tsv_items ks)) ->
  Forall (fun m => is_text (mg_text m)) (or_default log) ->
  xlsx_export accepts printable key_logs value_logs recovered_only ks log = Ok b ->
  forall w t, In w (bk_writes b) -> w_what w = Text t ->
  (exists cs, read_utf8 t = Some cs /\ len cs <= 32767)
  /\ ((forall c, printable c = true -> xml_char c) -> Forall (fun m => legal_text (mg_text m)) (or_default log) -> legal_text t).
Proof.
  intros a pr kl vl r ks log b T TL E w t I W. split.
  - assert (F : Forall (fit False) (bk_writes b)).
    { apply (export_fits a pr kl vl r False (fun f => match f with end) ks log); [exact T| |exact E]. eapply Forall_impl; [|exact TL]. intros m M. split; [exact M|contradiction]. }
    rewrite Forall_forall in F. specialize (F w I). unfold fit in F. rewrite W in F. destruct F as (cs & A & B & _). now exists cs.
  - intros P LL. assert (F : Forall (fit True) (bk_writes b)).
    { apply (export_fits a pr kl vl r True (fun _ => P) ks log); [exact T| |exact E]. eapply Forall_impl; [|exact LL]. intros m M. split; [now apply legal_is_text|auto]. }
    rewrite Forall_forall in F. specialize (F w I). unfold fit in F. rewrite W in F. destruct F as (cs & A & _ & B). exists cs. split; [exact A|now apply B].
Qed.
Print Assumptions C57_cells.
(** The export succeeds if the library accepts what fits and there is room. *)
Theorem C57_succeeds : forall accepts, (forall past w, fits_cell past w -> accepts past w = true) ->
  forall printable key_logs value_logs recovered_only ks log,
  Forall (item_texts key_logs value_logs) (List.filter (kept recovered_only) (flat_map tsv_items ks)) ->
  Forall (fun m => is_text (mg_text m)) (or_default log) ->
  has_room printable key_logs value_logs (List.filter (kept recovered_only) (flat_map tsv_items ks)) (or_default log) ->
  exists b, xlsx_export accepts printable key_logs value_logs recovered_only ks log = Ok b.
Proof. exact export_works. Qed.
Print Assumptions C57_succeeds.
(** The export of a hive has a row for each key and each value of its tree, in order. *)
Theorem C57_hive : forall accepts printable key_logs value_logs buffer files t p ok p' n log b,
  opens buffer files t p -> used ok p p' -> (2 * List.length (positions t) < n)%nat ->
  in_sheet accepts -> (forall k, is_text (key_logs k)) -> (forall v, is_text (value_logs v)) -> Forall (fun m => is_text (mg_text m)) (or_default log) ->
  (forall x v, In (x, Some v) (tree_items t) -> bytes_ok (value_data (v_type v mod 4096) (v_data v))) ->
  write_xlsx accepts printable key_logs value_logs false n p' None log = Ok b ->
  tree_items_sheet (ps_buffer p) (bk_writes b) (tree_items t) /\ logs_sheet (bk_writes b) (or_default log).
Proof. exact xlsx_hive. Qed.
Print Assumptions C57_hive.
(** A library that takes what fits, and a key, a value and a message, one with a text
    of 40000 characters. *)
Definition takes (past : list write) (w : write) : bool :=
  (w_row w <? 1048576) && (w_col w <? 16384)
  && match w_what w with
     | Number _ => true
     | Text t => match read_utf8 t with Some cs => len cs <=? 32767 | None => false end
     | Link _ => len (List.filter is_link past) <? 65530
     end.
Definition long_logs (k : key_node) : list N := repeat 65 (N.to_nat 40000).
Definition one_message : logs := Some [mkMsg WarningOther [97]].
Example C57_example :
  in_sheet takes /\ (forall past w, fits_cell past w -> takes past w = true)
  /\ Forall (item_texts long_logs (fun _ => [1])) (List.filter (kept false) (flat_map tsv_items e_keys))
  /\ Forall (fun m => legal_text (mg_text m)) (or_default one_message)
  /\ has_room (fun _ => true) long_logs (fun _ => [1]) (List.filter (kept false) (flat_map tsv_items e_keys)) (or_default one_message)
  /\ List.length (List.filter (kept false) (flat_map tsv_items e_keys)) = 7%nat.
Proof.
  assert (LT : forall k, is_text (long_logs k)).
  { intros k. apply legal_is_text, low_legal. apply Forall_forall. intros c I. apply repeat_spec in I. subst c. lia. }
  assert (LL : forall k, len (long_logs k) = 40000).
  { intros k. unfold len, long_logs. rewrite repeat_length. apply N2Nat.id. }
  assert (FL : forall A (f : A -> bool) l, (List.length (List.filter f l) <= List.length l)%nat).
  { intros A f l. induction l as [|x l IH]; [reflexivity|]. cbn [List.filter List.length]. destruct (f x); cbn [List.length]; lia. }
  revert LT LL. generalize long_logs. intros L LT LL.
  assert (EI : List.filter (kept false) (flat_map tsv_items e_keys)
    = [KeyItem e_key; KeyItem e_old_key; ValueItem e_key e_value; ValueItem e_key e_old_value; ValueItem e_key e_lost_value; KeyItem e_lost_key; KeyItem e_plain_key])
    by (vm_compute; reflexivity).
  assert (RT : forall s cs, read_utf8 s = Some cs -> is_text s) by (intros s cs R; now exists cs).
  split; [|split; [|split; [|split; [|split]]]].
  - intros past w. unfold takes. rewrite !andb_true_iff, !N.ltb_lt. tauto.
  - intros past w (A & B & C). unfold takes. rewrite !andb_true_iff, !N.ltb_lt. split; [now split|]. destruct (w_what w); [reflexivity| |now apply N.ltb_lt].
    destruct C as (cs & -> & C). now apply N.leb_le.
  - rewrite EI.
    repeat (constructor; [cbn [item_texts]; repeat match goal with |- _ /\ _ => split end; first [apply LT|apply bytes_check; vm_compute; reflexivity|eapply RT; vm_compute; reflexivity]|]). constructor.
  - constructor; [|constructor]. apply low_legal. low_text.
  - rewrite EI. split; [vm_compute; reflexivity|]. split; [vm_compute; discriminate|]. split; [|split].
    + match goal with |- 4 * len ?l + len ?m <= _ => assert (A : (List.length l <= 7)%nat) by apply FL; assert (B : (List.length m <= 1)%nat) by apply FL; unfold len; lia end.
    + repeat (constructor; [cbn [item_strings]; repeat (constructor; [first [rewrite LL; vm_compute; discriminate|vm_compute; discriminate]|]); constructor|]). constructor.
    + constructor; [vm_compute; discriminate|constructor].
  - rewrite EI. reflexivity.
Qed.
Example C57_hive_example : exists p, opens demo_hive [] demo_tree p /\ used (fun _ => False) p p
  /\ (forall x v, In (x, Some v) (tree_items demo_tree) -> bytes_ok (value_data (v_type v mod 4096) (v_data v)))
  /\ exists b, write_xlsx takes (fun _ => true) (fun _ => []) (fun _ => []) false 20 p None one_message = Ok b /\ len (bk_writes b) = 61.
Proof.
  destruct demo_header as (K & R & H & C).
  destruct (hive_opens keep 0 no_hash false demo_hive demo_tree K R demo_is_hive) as (p & E & B & _).
  assert (X : exists p, build keep 0 no_hash false false demo_hive [] = Ok p
    /\ exists b, write_xlsx takes (fun _ => true) (fun _ => []) (fun _ => []) false 20 p None one_message = Ok b /\ len (bk_writes b) = 61).
  { apply (checked _ (fun p => match write_xlsx takes (fun _ => true) (fun _ => []) (fun _ => []) false 20 p None one_message with Ok b => len (bk_writes b) =? 61 | _ => false end)).
    - intros q. destruct (write_xlsx _ _ _ _ _ 20 q None one_message) as [b| | |]; try discriminate 1. intros X. exists b. split; [reflexivity|now apply N.eqb_eq].
    - vm_compute. reflexivity. }
  destruct X as (q & EQ & X). rewrite E in EQ. injection EQ as <-.
  exists p. split; [split; [exact K|]; split; [rewrite B; exact demo_is_hive|]; exists keep, O, no_hash, false; exact E|].
  split; [constructor|]. split; [|exact X].
  assert (F : forallb (fun y => match snd y with Some v => forallb (fun x => x <? 256) (value_data (v_type v mod 4096) (v_data v)) | None => true end) (tree_items demo_tree) = true) by (vm_compute; reflexivity).
  intros x v I. rewrite forallb_forall in F. apply bytes_check. exact (F _ I).
Qed.
(** The texts of messages are written as they are, so a character that XML forbids
    reaches the file: messages may quote the paths of keys
    (src/transaction_log.rs:437-445). *)
Theorem C57_log_text_refuted : exists log b, xlsx_export takes (fun _ => true) (fun _ => []) (fun _ => []) false [] log = Ok b
  /\ exists w t, In w (bk_writes b) /\ w_what w = Text t /\ read_utf8 t = Some [97; 1] /\ ~ xml_char 1.
Proof.
  exists (Some [mkMsg WarningTransactionLog [97; 1]]). eexists. split; [vm_compute; reflexivity|].
  exists (mkWrite Logs 0 1 (Text [97; 1])), [97; 1]. split; [vm_compute; tauto|]. split; [reflexivity|]. split; [reflexivity|]. unfold xml_char. lia.
Qed.
Print Assumptions C57_log_text_refuted.
