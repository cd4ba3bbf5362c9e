(** Lemmas about the part of a hive that a path asks for, and its exports. *)
From Coq Require Import String.
From Verif Require Import Base BaseFacts Util UtilSpec UtilText LayoutSpec Types Value Node Parser TxSpec TxLog CellSpec TreeSpec TreeOpen TreeFilter TreeLook TreeUse Pure TreeCount TreeSession
  LivePlain NavRead Log Export ExportSpec ExportFacts DateTree Show ShowSpec ShowFacts Xlsx XlsxSpec XlsxSheet XlsxHive Json JsonSpec JsonTree CompareTree PartSpec.
Open Scope N_scope.
Open Scope list_scope.

Definition path_filter (given : option (list N)) : filter :=
  match given with Some s => Some (with_children true (add_key_path empty_query s)) | None => None end.

(** ** What the filter selects *)
Lemma leads_same segs : forall names, leads segs names = (len segs <=? len names) && forallb (fun cs => same_name (snd cs) (fst cs)) (combine segs names).
Proof.
  induction segs as [|s segs IH]; intros names; [symmetry; apply andb_true_iff; split; [apply N.leb_le; unfold len; cbn; lia|reflexivity]|]. destruct names as [|n names]; [reflexivity|]. cbn [leads combine forallb fst snd].
  rewrite IH. replace (len (s :: segs) <=? len (n :: names)) with (len segs <=? len names); [destruct (len segs <=? len names), (same_name n s); reflexivity|].
  unfold len. cbn [List.length]. destruct (N.leb_spec (N.of_nat (List.length segs)) (N.of_nat (List.length names))), (N.leb_spec (N.of_nat (S (List.length segs))) (N.of_nat (S (List.length names)))); lia || reflexivity.
Qed.
Lemma lits_agree segs : Forall (Forall scalar) segs -> forall names, Forall (Forall scalar) names ->
  forallb (fun cs => seg_match (fst cs) (snd cs)) (combine (map lit segs) names) = forallb (fun cs => same_name (snd cs) (fst cs)) (combine segs names).
Proof.
  intros S. induction S as [|a segs SA S IH]; intros [|n names] SN; try reflexivity.
  apply Forall_cons_iff in SN as [N SN]. cbn [map combine forallb fst snd]. rewrite lit_match, IH by auto. reflexivity.
Qed.
Lemma path_selects segs b names : path_names segs -> segs <> [] -> Forall (Forall scalar) names -> names <> [] ->
  let q := with_children true (add_key_path empty_query (utf8 (TreeSpec.joined segs ++ repeat 92 b))) in
  selected q false names = leads segs (tl names) /\ (leads segs (tl names) = true -> len (segments q names) <? len (rq_path q) = false).
Proof.
  intros (S & C & F & L) NE SN NN q.
  assert (P : rq_path q = map lit segs).
  { unfold q. cbn [with_children rq_path]. apply literal_components; auto. now split. }
  unfold selected, agrees, segments. rewrite P. cbn [q rq_has_root rq_children with_children add_key_path empty_query]. rewrite len_map, leads_same.
  destruct names as [|r [|n names]]; [contradiction|destruct segs; [contradiction|now split]|]. cbn [tl].
  apply Forall_cons_iff in SN as [_ SN]. rewrite lits_agree by assumption. split.
  - destruct (N.eqb_spec (len (n :: names)) (len segs)) as [E|E], (N.ltb_spec (len (n :: names)) (len segs)), (N.leb_spec (len segs) (len (n :: names))); try lia;
      now rewrite ?andb_true_r, ?andb_false_r.
  - intros E. apply andb_true_iff in E as [E _]. apply N.leb_le in E. now apply N.ltb_ge.
Qed.
Lemma all_part t : part [] t = preorder [] t.
Proof. unfold part. induction (preorder [] t) as [|x l IH]; [reflexivity|]. exact (f_equal (cons x) IH). Qed.
Lemma part_filtered segs b t : path_names segs -> segs <> [] -> Forall (fun x => Forall (Forall scalar) (fst x) /\ fst x <> []) (preorder [] t) ->
  filtered (with_children true (add_key_path empty_query (utf8 (TreeSpec.joined segs ++ repeat 92 b)))) false (preorder [] t) = part segs t.
Proof.
  intros PN NE F. unfold part, filtered. induction F as [|x l (SX & NX) F IH]; [reflexivity|]. cbn [List.filter].
  destruct (path_selects segs b (fst x) PN NE SX NX) as (E & K). rewrite E. destruct (leads segs (tl (fst x))); [|exact IH].
  cbn [map]. rewrite IH. f_equal. unfold as_listed. rewrite (K eq_refl). destruct (fst x) as [|? [|? ?]]; reflexivity.
Qed.
Lemma asked_below given segs q : asked given segs -> path_filter given = Some q -> below_root q.
Proof.
  destruct given as [s|]; [|discriminate]. intros _ [= <-]. unfold below_root. cbn [with_children add_key_path empty_query rq_has_root rq_path app].
  unfold len. rewrite map_length. assert (X : forall s, split_bs s <> []).
  { intros [|b s']; [discriminate|]. cbn [split_bs]. destruct (b =? BS); [discriminate|]. destruct (split_bs s'); discriminate. }
  specialize (X (trim_end_bs s)). destruct (split_bs _); [now elim X|]. cbn [List.length]. lia.
Qed.

(** ** What is listed *)
Lemma tree_scalar t p : opened t p -> Forall (fun x => Forall (Forall scalar) (fst x) /\ fst x <> []) (preorder [] t).
Proof.
  intros O. destruct (opened_iterate t p false true (S (2 * List.length (positions t))) O) as ((ks & _ & SH) & _); [lia|].
  apply Forall_forall. intros x I. split; [|exact (preorder_names t [] x I)].
  unfold shown in SH. induction SH as [|k y ks l K SH IH]; [contradiction|]. destruct I as [->|I]; [|now apply IH].
  apply scalar_spelled. now destruct (shown_path _ _ _ K).
Qed.
Lemma part_listed given segs t p m n : opened t p -> asked given segs -> (given <> None -> clean_names t) -> (2 * List.length (positions t) < n)%nat ->
  exists ks, iterate n p (path_filter given) false m false = Ok ks /\ shown ks (part segs t).
Proof.
  intros O A C L. destruct given as [s|]; cbn [path_filter asked] in *.
  - destruct A as (NE & PN & b & ->). rewrite <- (part_filtered segs b t PN NE (tree_scalar t p O)).
    apply opened_filter; [exact O|now apply C|refine (asked_below (Some _) segs _ _ eq_refl); cbn [asked]; eauto|lia].
  - subst segs. rewrite all_part. now destruct (opened_iterate t p false m n O L) as (X & _).
Qed.
Lemma listed_part given segs t p : opened t p -> asked given segs ->
  match path_filter given with None => preorder [] t | Some q => filtered q false (preorder [] t) end = part segs t.
Proof.
  intros O A. destruct given as [s|]; cbn [path_filter asked] in *.
  - destruct A as (NE & PN & b & ->). exact (part_filtered segs b t PN NE (tree_scalar t p O)).
  - subst segs. now rewrite all_part.
Qed.

(** ** What is written *)
Section Written.
Context (given : option (list N)) (segs : list (list N)) (buffer : list N) (files : list (list N)) (t : key_tree) (p : parser) (n : nat).
Context (O : opens buffer files t p) (A : asked given segs) (C : given <> None -> clean_names t) (L : (2 * List.length (positions t) < n)%nat).
Lemma part_keys : exists ks, iterate n p (path_filter given) false true false = Ok ks /\ shown ks (part segs t)
  /\ Forall clean ks /\ Forall (fun x => fst x <> []) (part segs t) /\ Forall (born (ps_file p)) ks.
Proof.
  destruct (part_listed given segs t p true n (opens_opened _ _ _ _ O) A C L) as (ks & E & SH). exists ks. split; [exact E|]. split; [exact SH|].
  pose proof O as (KF & _ & order & fuel & hash & full & B). split; [exact (iterate_clean _ _ _ _ _ _ _ _ _ _ _ _ _ KF B E)|].
  split; [|exact (fresh_born _ _ _ _ _ _ _ _ _ _ O E)]. apply Forall_forall. intros x I. apply filter_In in I as (I & _). exact (preorder_names t [] x I).
Qed.
Lemma part_common r : (forall z, plain (rd_date r z)) -> exists out rows totals, write_common n r p (path_filter given) = Ok out
  /\ reads_as 44 out (map Comment common_header ++ map Row rows ++ map Comment totals)
  /\ Forall2 tree_row (part_items segs t) rows /\ Forall2 (total_right rows) totals_shown totals.
Proof.
  intros P. destruct part_keys as (ks & E & SH & CK & F & _). unfold write_common. rewrite E. exact (common_shown r ks _ CK SH F P).
Qed.
Lemma part_json il : exists out js, write_json n il p (path_filter given) = Ok out /\ read_lines out js /\ Forall2 (tree_doc (ps_buffer p)) (part segs t) js.
Proof.
  destruct part_keys as (ks & E & SH & _ & _ & BK). unfold write_json. rewrite E. destruct (json_shown il (ps_file p) ks _ SH BK) as (js & R). eexists _, js. split; [reflexivity|exact R].
Qed.
Lemma part_tsv printable kl vl log : exists out rows, write_tsv n (as_shown printable kl vl) false p (path_filter given) log = Ok out
  /\ reads_rows 9 out (tsv_columns :: rows) (log_tail log)
  /\ tree_tsv_rows (ps_buffer p) 1 (part_items segs t) rows.
Proof.
  destruct part_keys as (ks & E & SH & CK & F & BK). unfold write_tsv. rewrite E. destruct (tsv_shown printable kl vl (ps_file p) ks _ log CK SH F BK) as (rows & R).
  eexists _, rows. split; [reflexivity|exact R].
Qed.
Lemma part_xlsx accepts printable kl vl log b : in_sheet accepts -> (forall k, is_text (kl k)) -> (forall v, is_text (vl v)) -> Forall (fun m => is_text (mg_text m)) (or_default log) ->
  (forall x v, In (x, Some v) (part_items segs t) -> bytes_ok (value_data (v_type v mod 4096) (v_data v))) ->
  write_xlsx accepts printable kl vl false n p (path_filter given) log = Ok b ->
  tree_items_sheet (ps_buffer p) (bk_writes b) (part_items segs t) /\ logs_sheet (bk_writes b) (or_default log).
Proof.
  intros IN KT VT LT BT. destruct part_keys as (ks & E & SH & CK & F & BK). unfold write_xlsx. rewrite E. cbv beta iota. intros X.
  exact (xlsx_shown accepts printable kl vl (ps_file p) ks _ log b CK SH F BK IN KT VT LT BT X).
Qed.
End Written.
