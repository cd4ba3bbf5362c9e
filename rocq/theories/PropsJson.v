(** C60: what the JSON export says. *)
From Coq Require Import String.
From Verif Require Import Base BaseFacts Util UtilSpec UtilText LayoutSpec Types Value Node Parser TxSpec TxLog CellSpec CellData TreeSpec Pure TreeCount TreeSession
  Export ExportSpec Date DateSpec Show ShowSpec Log Json JsonSpec JsonFacts JsonDoc JsonSays JsonTree Demo DemoTree DemoExport DemoCell.
Open Scope string_scope.
Open Scope N_scope.
Open Scope list_scope.

(** C60: the export is one JSON document a line, one for each key, in order; each
    says what the key, its values and their earlier versions are. *)
Theorem C60_lines : forall il ks, exists js, read_lines (json_export il ks) js /\ Forall2 (says_key (il_key il) (il_value il) (il_content il)) ks js.
Proof. exact export_said. Qed.
Print Assumptions C60_lines.
(** Lines are read in one way. *)
Theorem C60_one_reading : forall out js ks, read_lines out js -> read_lines out ks -> js = ks.
Proof. exact lines_one. Qed.
Print Assumptions C60_one_reading.
(** A document says one thing: exports that are the same are of the same keys. *)
Theorem C60_one_meaning : forall il il' ks ls, json_export il ks = json_export il' ls -> Forall2 same_key ks ls.
Proof. exact export_one. Qed.
Print Assumptions C60_one_meaning.
(** The export of a hive: one document for each stored key, in order, that says
    what is stored. *)
Theorem C60_hive : forall il buffer files t p ok p' n, opens buffer files t p -> used ok p p' -> (2 * List.length (positions t) < n)%nat ->
  exists out js, write_json n il p' None = Ok out /\ read_lines out js /\ Forall2 (tree_doc (ps_buffer p)) (preorder [] t) js.
Proof. exact json_hive. Qed.
Print Assumptions C60_hive.
Definition j_logs : item_logs := mkItemLogs (fun k => Some [mkMsg WarningOther (kn_name k)]) (fun _ => None) (fun _ => Some None).
Example C60_example : exists j vs v,
  read_json (json_key j_logs e_key) = Some j /\ ~ In 10 (json_key j_logs e_key)
  /\ member "path" j = Some (Str (text "\R\x,y")) /\ member "sub_values" j = Some (Arr vs) /\ List.length vs = 2%nat /\ nth_error vs 0 = Some v
  /\ member "value_name" v = Some (Str (text "a""b")) /\ member "value" v = Some (tagged "Binary" (Str (text "FF"))).
Proof.
  destruct (key_line j_logs e_key) as (A & B). exists (doc_key j_logs e_key), (map (doc_value j_logs) (kn_values e_key)), (doc_value j_logs e_value).
  split; [exact A|]. split; [exact B|]. repeat split; vm_compute; reflexivity.
Qed.
(** The reader is that of RFC 8259: escapes, numbers and spaces; a name used twice is no member. *)
Example C60_reader :
  read_json (text " { ""a"" : [ 1 , -20,true ] }") = None
  /\ read_json (text " { ""a"" : [ 1 , -20,null ] , ""b\n"":""é"" } ") = Some (Obj [(text "a", Arr [Num 1; Num (-20)%Z; Null]); ([98; 10], Str [0xC3; 0xA9])])
  /\ read_json (text "[01]") = None /\ read_json (text "[1,]") = None /\ read_json (text "{""a"":1}}") = None
  /\ member "a" (Obj [(text "a", Num 1); (text "a", Num 2)]) = None.
Proof. repeat split; vm_compute; reflexivity. Qed.
Example C60_hive_example : exists p, opens demo_hive [] demo_tree p /\ used (fun _ => False) p p /\ List.length (preorder [] demo_tree) = 4%nat.
Proof.
  destruct demo_header as (K & R & H & C).
  destruct (hive_opens keep 0 no_hash false demo_hive demo_tree K R demo_is_hive) as (p & E & B & _).
  exists p. split; [split; [exact K|]; split; [rewrite B; exact demo_is_hive|]; exists keep, O, no_hash, false; exact E|].
  split; [constructor|]. vm_compute. reflexivity.
Qed.
(** The earlier versions of a key are not in the export, unlike those of a value. *)
Theorem C60_versions_refuted : forall il, (forall k l, kn_name k = kn_name l -> il_key il k = il_key il l) -> exists k l,
  kn_versions k <> [] /\ kn_versions l = [] /\ json_export il [k] = json_export il [l].
Proof.
  intros il H. set (l := show_key 4300 (text "\R\x") (text "x") Allocated [] []). exists (kn_set_versions [e_old_key] l), l.
  split; [discriminate|]. split; [reflexivity|]. unfold json_export. cbn [flat_map].
  unfold json_key. rewrite (H (kn_set_versions [e_old_key] l) l eq_refl). reflexivity.
Qed.
Print Assumptions C60_versions_refuted.
