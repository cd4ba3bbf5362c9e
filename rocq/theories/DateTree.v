(** The dates in the export of a hive. *)
From Verif Require Import Base BaseFacts Util UtilSpec UtilText LayoutSpec LayoutFacts Types Value Node Parser TxSpec TxLog TxBuild CellSpec TreeSpec
  TreeOpen TreeUse History AnyFile Pure TreeCount TreeSession LivePlain NavRead NavFacts Log Export ExportSpec ExportFacts Date DateSpec DateFacts.

Lemma fresh_born buffer files t p n f anc m post ks : opens buffer files t p -> iterate n p f anc m post = Ok ks -> Forall (born (ps_file p)) ks.
Proof.
  intros O. unfold iterate. apply collect_born. unfold from_parser. destruct (first_born _ _ _ _ O) as (k & R & B). rewrite R.
  split; [apply (od_quiet _ _ (opens_opened _ _ _ _ O))|]. split; [constructor; [exact B|constructor]|constructor].
Qed.
Lemma iterate_born buffer files t p ok p' n anc m post ks : opens buffer files t p -> used ok p p' ->
  iterate n p' None anc m post = Ok ks -> Forall (born (ps_file p)) ks.
Proof.
  intros O U. rewrite (moved_iterate p p' _ _ _ _ (used_moved _ _ _ U)). now apply (fresh_born buffer files t).
Qed.
Lemma items_keys ks P : Forall clean ks -> Forall P ks -> forall k, In (KeyItem k) (flat_map common_items ks) -> P k.
Proof.
  intros C F k I. apply in_flat_map in I as (k0 & I0 & I). rewrite Forall_forall in C, F. rewrite clean_items in I by now apply C.
  destruct I as [I|I]; [injection I as <-; now apply F|]. apply in_map_iff in I as (v & I & _). discriminate I.
Qed.
Lemma row_date r buffer i x row : (forall k, i = KeyItem k -> kd_time (kn_detail k) = num_at buffer (kn_offset k + 8) 8) ->
  item_shown i x -> common_row (fun k => rd_date (with_dates r) (kn_date k)) i row -> row_dated buffer x row.
Proof.
  destruct x as [[names t] o]. unfold item_shown. cbn [fst snd]. intros T H (off & R). destruct o as [y|]; [exact I|].
  destruct i as [k|]; [|contradiction]. destruct H as (K & _). destruct R as (_ & name & _ & ->). cbn [nth row_dated].
  unfold stored_time. destruct K as (<- & _). intros F. cbn [with_dates rd_date]. unfold kn_date. rewrite (T k eq_refl). now apply date_denotes.
Qed.
Lemma forall2_with {A B} (P : A -> Prop) (Q : A -> B -> Prop) l l' : (forall x, In x l -> P x) -> Forall2 Q l l' -> Forall2 (fun x y => P x /\ Q x y) l l'.
Proof. intros H F. induction F as [|x y l l' Q0 F IH]; [constructor|]. constructor; [split; [apply H; now left|exact Q0]|]. apply IH. intros z Z. apply H. now right. Qed.
Lemma dated_export buffer files t p ok p' n r : opens buffer files t p -> used ok p p' -> (2 * length (positions t) < n)%nat ->
  exists out rows totals, write_common n (with_dates r) p' None = Ok out
  /\ reads_as 44 out (map Comment common_header ++ map Row rows ++ map Comment totals)
  /\ Forall2 tree_row (tree_items t) rows /\ Forall2 (row_dated (ps_buffer p)) (tree_items t) rows.
Proof.
  intros O U L. assert (P : forall z, plain (rd_date (with_dates r) z)) by exact date_plain.
  pose proof O as (KF & _ & order & fuel & hash & full & B).
  destruct (session_preorder _ _ _ _ _ _ false true n O (used_not ok p) L) as (ks & E & SH).
  pose proof (iterate_clean _ _ _ _ _ _ _ _ _ _ _ _ _ KF B E) as C.
  pose proof (iterate_born _ _ _ _ _ _ _ _ _ _ _ O (used_not ok p) E) as BK.
  assert (F : Forall (fun x => fst x <> []) (preorder [] t)) by (apply Forall_forall; intros x; apply preorder_names).
  unfold write_common. rewrite (moved_iterate p p' _ _ _ _ (used_moved _ _ _ U)), E. cbv beta iota.
  destruct (common_export_ok (with_dates r) ks) as (out & X); [now apply (shown_paths ks (preorder [] t))|].
  destruct (common_export_read _ ks out P X) as (rows & totals & R1 & R2 & R3). exists out, rows, totals.
  split; [exact X|]. split; [exact R1|].
  pose proof (items_shown _ _ C SH F) as I.
  assert (T : forall i, In i (flat_map common_items ks) -> forall k, i = KeyItem k -> kd_time (kn_detail k) = num_at (ps_buffer p) (kn_offset k + 8) 8).
  { intros i I0 k ->. apply (items_keys ks _ C BK) in I0 as (_ & fl & ->). cbn [nk_detail_at kd_time]. apply num_at_rest. }
  apply (forall2_with _ _ _ _ T) in I. unfold tree_items. clear - R2 I. revert R2. generalize rows.
  induction I as [|i x is xs (T & I0) I IH]; intros rw R; inversion R; subst; (split; [constructor|constructor]);
    try (now apply IH).
  - eapply item_row; eassumption.
  - eapply row_date; eassumption.
Qed.
