(** Proofs about the spreadsheet export: whole hives. *)
From Coq Require Import String.
From Verif Require Import Base BaseFacts Util UtilSpec UtilText LayoutSpec LayoutFacts Types Value Node Parser TxSpec TxLog TxBuild CellSpec CellData TreeSpec TreeRead
  TreeOpen TreeUse History AnyFile Pure TreeCount TreeSession LivePlain NavRead NavFacts Log Export ExportSpec ExportFacts Date DateSpec DateFacts DateTree Show ShowSpec ShowFacts
  Xlsx XlsxSpec XlsxFacts XlsxRows XlsxAll XlsxSheet.
Open Scope string_scope.
Open Scope N_scope.
Open Scope list_scope.

Lemma read_same a b cs : read_utf8 a = Some cs -> read_utf8 b = Some cs -> a = b.
Proof. intros A B. apply read_utf8_exact in A as (_ & ->). now apply read_utf8_exact in B as (_ & ->). Qed.
Lemma stored_exact v t b c : CellData.holds v t b -> stored_content t b c -> exists l, get_content v = Ok (c, l).
Proof.
  intros H S0. destruct S0;
  try (destruct (content_numbers v t r n 0%Z) as (X1 & X2 & X3 & X4 & X5 & _);
       first [rewrite X1 by assumption|rewrite X2 by assumption|rewrite X3 by assumption|rewrite X4 by assumption|rewrite X5 by assumption];
       eexists; reflexivity);
  try (destruct (content_numbers v t r 0 z) as (_ & _ & _ & _ & _ & X1 & X2 & X3);
       first [rewrite X1 by assumption|rewrite X2 by assumption|rewrite X3 by assumption];
       eexists; reflexivity).
  - destruct (content_string v t u tail) as (s' & E & R); try assumption. rewrite E. eexists. do 3 f_equal. eapply read_same; eassumption.
  - destruct (content_multi v t us junk) as (l' & E & R); try assumption. rewrite E. eexists. do 3 f_equal.
    match goal with Q : map read_utf8 l = map Some us |- _ => revert R Q end. clear. revert l us. induction l' as [|x l' IH]; intros [|y l] [|u us] A B; try discriminate; [reflexivity|].
    injection A as A1 A2. injection B as B1 B2. f_equal; [exact (read_same _ _ _ A1 B1)|exact (IH _ _ A2 B2)].
  - rewrite (content_binary v t b H) by assumption. eexists; reflexivity.
  - rewrite (content_short v t b n H) by assumption. eexists; reflexivity.
Qed.
Lemma xml_path s cs : read_utf8 s = Some cs -> forall t, xml_text s t -> exists ds, read_utf8 t = Some ds /\ Forall2 replaced cs ds.
Proof. intros R t (cs' & ds & A & B & C). exists ds. split; [exact B|]. congruence. Qed.
Lemma cell_imp ws s r c (P Q : list N -> Prop) : (forall t, P t -> Q t) -> text_cell ws s r c P -> text_cell ws s r c Q.
Proof. intros H (t & A & B). exists t. split; [exact A|now apply H]. Qed.
Lemma tree_row_xlsx buffer ws kl vl r i x :
  (forall k, i = KeyItem k -> exists full, kn_detail k = nk_detail_at full (rest_at buffer (kn_offset k))) ->
  item_shown i x -> xlsx_row ws kl vl r i -> tree_xlsx_row buffer ws r x.
Proof.
  intros D I (A & _ & R). destruct x as [[names t] o]. unfold item_shown in I. cbn [fst snd] in I.
  destruct i as [k|k v], o as [y|]; try contradiction; unfold tree_xlsx_row; (split; [exact A|]).
  - destruct I as ((KO & KN & KP & KV & KS) & _). destruct (D k eq_refl) as (full & ED). rewrite KS, ED in R. cbn [nk_detail_at kd_time kd_flags kd_access] in R. rewrite !num_at_rest, KO in R.
    destruct R as (R1 & _ & R3 & _ & R5 & R6 & _ & _ & R9 & R10 & _). split; [exact (cell_imp _ _ _ _ _ _ (xml_path _ _ KP) R1)|]. split; [exact R6|].
    split; [exact R3|]. split; [exact R5|]. split; [exact R9|exact R10].
  - destruct I as ((KO & KN & KP & KV & KS) & VN & VT & VB & VS & VK). rewrite VS in R. destruct R as (R1 & _ & R3 & (c & l & E & R4) & _ & R6 & _).
    split; [exact (cell_imp _ _ _ _ _ _ (xml_path _ _ KP) R1)|]. split; [exact R6|]. split.
    + refine (cell_imp _ _ _ _ _ _ (xml_path _ _ _) R3). unfold value_name. destruct (vd_name (kv_detail v)) as [|d nm] eqn:EN.
      * injection VN as <-. vm_compute. reflexivity.
      * rewrite VN. destruct (v_name y) as [|c' n']; [|reflexivity]. apply read_utf8_exact in VN as (_ & VN). discriminate VN.
    + intros c1 S0. destruct (stored_exact v _ _ _ (conj VK VB) S0) as (l1 & E1). rewrite E in E1. now injection E1 as -> _.
Qed.
Lemma forall2_nth {A B} (R : A -> B -> Prop) l m : Forall2 R l m -> forall n y, nth_error m n = Some y -> exists x, nth_error l n = Some x /\ R x y.
Proof.
  induction 1 as [|x y l m H F IH]; intros [|n] z E; try discriminate E; [injection E as <-; now exists x|]. now apply IH.
Qed.
Lemma forall2_length {A B} (R : A -> B -> Prop) l m : Forall2 R l m -> List.length l = List.length m.
Proof. induction 1; cbn; congruence. Qed.
Lemma xlsx_shown accepts printable kl vl fi ks l log b : Forall clean ks -> shown ks l -> Forall (fun x => fst x <> []) l -> Forall (born fi) ks ->
  in_sheet accepts -> (forall k, is_text (kl k)) -> (forall v, is_text (vl v)) -> Forall (fun m => is_text (mg_text m)) (or_default log) ->
  let items := flat_map (fun x => (x, None) :: map (fun v => (x, Some v)) (t_vals (snd x))) l in
  (forall x v, In (x, Some v) items -> bytes_ok (value_data (v_type v mod 4096) (v_data v))) ->
  xlsx_export accepts printable kl vl false ks log = Ok b ->
  tree_items_sheet (fi_buffer fi) (bk_writes b) items /\ logs_sheet (bk_writes b) (or_default log).
Proof.
  intros C SH F BK IN KT VT LT items BT X. unfold items in *. clear items.
  pose proof (items_shown _ _ C SH F) as I.
  assert (EQ : List.filter (kept false) (flat_map tsv_items ks) = flat_map common_items ks).
  { rewrite <- (clean_tsv ks C). clear. induction (flat_map tsv_items ks) as [|x m IH]; [reflexivity|]. cbn [List.filter kept]. now rewrite <- IH at 2. }
  assert (TX : Forall (item_texts kl vl) (flat_map common_items ks)).
  { clear - I KT VT BT. revert BT. induction I as [|i x is xs H I IH]; intros BT; constructor; [|apply IH; intros y v Y; apply (BT y v); now right].
    destruct x as [x o]. unfold item_shown in H. cbn [fst snd] in H. destruct i as [k|k v], o as [y|]; try contradiction; cbn [item_texts].
    - destruct H as ((_ & _ & KP & _) & _). split; [eexists; exact KP|apply KT].
    - destruct H as ((_ & _ & KP & _) & VN & _ & VB & _ & VK). split; [eexists; exact KP|]. split; [eexists; exact VN|]. split; [|apply VT].
      unfold data_bytes. rewrite VB. apply (BT x y). now left. }
  rewrite <- EQ in TX. apply (export_sheets _ _ _ _ _ _ _ _ IN TX LT) in X. rewrite EQ in X. destruct X as ((X1 & X2 & X3) & X4). split; [|exact X4].
  assert (T : forall i, In i (flat_map common_items ks) -> forall k, i = KeyItem k -> exists full, kn_detail k = nk_detail_at full (rest_at (fi_buffer fi) (kn_offset k))).
  { intros i I0 k ->. now apply (items_keys ks _ C BK) in I0 as (_ & I0). }
  split; [exact X1|]. split.
  - intros r x Ex. destruct (forall2_nth _ _ _ I r x Ex) as (i & Ei & Si). apply (tree_row_xlsx _ _ kl vl _ i x); [|exact Si|now apply X2].
    apply T. now apply nth_error_In in Ei.
  - intros r c Lr. apply X3. pose proof (forall2_length _ _ _ I) as FL. unfold len in *. lia.
Qed.
Lemma xlsx_hive accepts printable kl vl buffer files t p ok p' n log b : opens buffer files t p -> used ok p p' -> (2 * List.length (positions t) < n)%nat ->
  in_sheet accepts -> (forall k, is_text (kl k)) -> (forall v, is_text (vl v)) -> Forall (fun m => is_text (mg_text m)) (or_default log) ->
  (forall x v, In (x, Some v) (tree_items t) -> bytes_ok (value_data (v_type v mod 4096) (v_data v))) ->
  write_xlsx accepts printable kl vl false n p' None log = Ok b ->
  tree_items_sheet (ps_buffer p) (bk_writes b) (tree_items t) /\ logs_sheet (bk_writes b) (or_default log).
Proof.
  intros O U L IN KT VT LT BT. pose proof O as (KF & _ & order & fuel & hash & full & B).
  destruct (session_preorder _ _ _ _ _ _ false true n O (used_not ok p) L) as (ks & E & SH).
  pose proof (iterate_clean _ _ _ _ _ _ _ _ _ _ _ _ _ KF B E) as C.
  pose proof (iterate_born _ _ _ _ _ _ _ _ _ _ _ O (used_not ok p) E) as BK.
  assert (F : Forall (fun x => fst x <> []) (preorder [] t)) by (apply Forall_forall; intros x; apply preorder_names).
  unfold write_xlsx. rewrite (moved_iterate p p' _ _ _ _ (used_moved _ _ _ U)), E. cbv beta iota. intros X.
  exact (xlsx_shown accepts printable kl vl (ps_file p) ks _ log b C SH F BK IN KT VT LT BT X).
Qed.
