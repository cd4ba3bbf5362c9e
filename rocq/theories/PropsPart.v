(** The exports of the part of a hive that a path asks for: statements only, with a
    concrete case beside each. The specification is PartSpec.v, with ExportSpec.v,
    JsonSpec.v, ShowSpec.v and XlsxSpec.v. *)
From Coq Require Import String.
From Verif Require Import Base BaseFacts Util UtilSpec UtilText LayoutSpec BaseBlock Types Value Node Recover Parser TxLog TxSpec
  CellSpec TreeSpec TreeOpen TreeCount TreeSession Log Export ExportSpec Show ShowSpec Xlsx XlsxSpec Json JsonSpec PartSpec PartFacts Demo DemoCell DemoTree DemoExport.
Open Scope string_scope.
Open Scope N_scope.
Open Scope list_scope.

(** ** C35 *)
(** The filter that the tools make of a path selects the keys at and below it, in
    their order, with their values. *)
Theorem C35_path : forall segs b buffer files t p m n, opens buffer files t p -> clean_names t -> path_names segs -> segs <> [] -> (2 * List.length (positions t) < n)%nat ->
  exists ks, iterate n p (Some (with_children true (add_key_path empty_query (utf8 (TreeSpec.joined segs ++ repeat 92 b))))) false m false = Ok ks
  /\ shown ks (part segs t).
Proof.
  intros segs b buffer files t p m n O C PN NE L. apply (part_listed (Some _) segs t p m n (opens_opened _ _ _ _ O)); [|intros _; exact C|exact L].
  cbn [asked]. eauto.
Qed.
Print Assumptions C35_path.
Example C35_path_example : exists p, opens demo_hive [] demo_tree p /\ clean_names demo_tree /\ path_names [n_alpha]
  /\ map fst (part [n_alpha] demo_tree) = [[n_root; n_alpha]; [n_root; n_alpha; n_beta]]
  /\ map fst (part [text "aLPHA"; n_beta] demo_tree) = [[n_root; n_alpha; n_beta]] /\ part [n_beta] demo_tree = [].
Proof.
  destruct demo_header as (K & R & H & C). destruct (hive_opens keep 0 no_hash false demo_hive demo_tree K R demo_is_hive) as (p & E & B & _).
  exists p. split; [split; [exact K|]; split; [rewrite B; exact demo_is_hive|]; exists keep, O, no_hash, false; exact E|]. split; [exact C|].
  split; [|split; [|split]; vm_compute; reflexivity].
  split; [repeat constructor|]. split; [constructor; [vm_compute; intuition discriminate|constructor]|]. split; vm_compute; discriminate.
Qed.

(** ** C44, C56, C57, C60 *)
(** The exports hold what is asked for, as they hold a whole hive. *)
Theorem C44_part : forall given segs buffer files t p n r, opens buffer files t p -> asked given segs -> (given <> None -> clean_names t) ->
  (2 * List.length (positions t) < n)%nat -> (forall z, plain (rd_date r z)) -> exists out rows totals,
  write_common n r p (path_filter given) = Ok out
  /\ reads_as 44 out (map Comment common_header ++ map Row rows ++ map Comment totals)
  /\ Forall2 tree_row (part_items segs t) rows /\ Forall2 (total_right rows) totals_shown totals.
Proof. intros given segs buffer files t p n r O A C L. exact (part_common given segs buffer files t p n O A C L r). Qed.
Print Assumptions C44_part.
Theorem C60_part : forall given segs buffer files t p n il, opens buffer files t p -> asked given segs -> (given <> None -> clean_names t) ->
  (2 * List.length (positions t) < n)%nat -> exists out js,
  write_json n il p (path_filter given) = Ok out /\ read_lines out js /\ Forall2 (tree_doc (ps_buffer p)) (part segs t) js.
Proof. intros given segs buffer files t p n il O A C L. exact (part_json given segs buffer files t p n O A C L il). Qed.
Print Assumptions C60_part.
Theorem C56_part : forall given segs buffer files t p n printable key_logs value_logs log, opens buffer files t p -> asked given segs -> (given <> None -> clean_names t) ->
  (2 * List.length (positions t) < n)%nat -> exists out rows,
  write_tsv n (as_shown printable key_logs value_logs) false p (path_filter given) log = Ok out
  /\ reads_rows 9 out (tsv_columns :: rows) (log_tail log)
  /\ tree_tsv_rows (ps_buffer p) 1 (part_items segs t) rows.
Proof. intros given segs buffer files t p n pr kl vl log O A C L. exact (part_tsv given segs buffer files t p n O A C L pr kl vl log). Qed.
Print Assumptions C56_part.
Theorem C57_part : forall given segs buffer files t p n accepts printable key_logs value_logs log b, opens buffer files t p -> asked given segs ->
  (given <> None -> clean_names t) -> (2 * List.length (positions t) < n)%nat ->
  in_sheet accepts -> (forall k, is_text (key_logs k)) -> (forall v, is_text (value_logs v)) -> Forall (fun m => is_text (mg_text m)) (or_default log) ->
  (forall x v, In (x, Some v) (part_items segs t) -> bytes_ok (value_data (v_type v mod 4096) (v_data v))) ->
  write_xlsx accepts printable key_logs value_logs false n p (path_filter given) log = Ok b ->
  tree_items_sheet (ps_buffer p) (bk_writes b) (part_items segs t) /\ logs_sheet (bk_writes b) (or_default log).
Proof. intros given segs buffer files t p n ac pr kl vl log b O A C L. exact (part_xlsx given segs buffer files t p n O A C L ac pr kl vl log b). Qed.
Print Assumptions C57_part.
Example C44_part_example : asked (Some (text "Alpha\")) [text "Alpha"] /\ asked None []
  /\ List.length (part_items [text "Alpha"] demo_tree) = 3%nat /\ List.length (part_items [] demo_tree) = 7%nat.
Proof.
  split; [|split; [reflexivity|split; reflexivity]]. cbn [asked]. split; [discriminate|]. split; [|now exists 1%nat].
  unfold path_names. split; [repeat constructor|]. split; [constructor; [vm_compute; intuition discriminate|constructor]|]. split; vm_compute; discriminate.
Qed.
(** A path that begins with a backslash, as look-up by path takes it, asks for
    nothing. *)
Theorem C35_leading_backslash_refuted : exists p ks, build keep 0 no_hash false false demo_hive [] = Ok p
  /\ iterate 10 p (Some (with_children true (add_key_path empty_query (92 :: n_alpha)))) false true false = Ok []
  /\ iterate 10 p (Some (with_children true (add_key_path empty_query n_alpha))) false true false = Ok ks /\ List.length ks = 2%nat.
Proof.
  assert (X : exists p, build keep 0 no_hash false false demo_hive [] = Ok p /\ exists ks,
    iterate 10 p (Some (with_children true (add_key_path empty_query (92 :: n_alpha)))) false true false = Ok []
    /\ iterate 10 p (Some (with_children true (add_key_path empty_query n_alpha))) false true false = Ok ks /\ List.length ks = 2%nat).
  { refine (checked _ (fun p => match iterate 10 p (Some (with_children true (add_key_path empty_query (92 :: n_alpha)))) false true false with Ok [] => true | _ => false end
      && match iterate 10 p (Some (with_children true (add_key_path empty_query n_alpha))) false true false with Ok [_; _] => true | _ => false end) _ _ _); [|vm_compute; reflexivity].
    intros p H. apply andb_true_iff in H as (H1 & H2).
    destruct (iterate 10 p (Some (with_children true (add_key_path empty_query (92 :: n_alpha)))) false true false) as [[|]| | |]; try discriminate H1.
    destruct (iterate 10 p _ false true false) as [[|a [|b [|]]]| | |]; try discriminate H2. exists [a; b]. auto. }
  destruct X as (p & E & ks & I). exists p, ks. now split.
Qed.
Print Assumptions C35_leading_backslash_refuted.
