(** What a document means is one thing; the documents of a whole hive. *)
From Coq Require Import String.
From Verif Require Import Base BaseFacts Util UtilSpec UtilText LayoutSpec LayoutFacts Types Value Node Parser TxSpec TxLog TxBuild CellSpec CellData TreeSpec TreeRead
  TreeOpen TreeUse History AnyFile Pure TreeCount TreeSession LivePlain NavRead NavFacts Log Export ExportSpec ExportFacts Date DateSpec DateFacts DateTree Show ShowSpec ShowFacts
  Json JsonSpec JsonFacts JsonDoc JsonSays.
Open Scope string_scope.
Open Scope N_scope.
Open Scope list_scope.

Lemma num_inj a b : num a = num b -> a = b.
Proof. intros [= E]. now apply N2Z.inj. Qed.
Lemma nums_inj a b : Arr (map num a) = Arr (map num b) -> a = b.
Proof.
  intros [= E]. revert b E. induction a as [|x a IH]; destruct b as [|y b]; intros E; try discriminate; [reflexivity|].
  injection E as X Y. f_equal; [now apply N2Z.inj|now apply IH].
Qed.
Lemma maybe_inj a b : maybe a = maybe b -> a = b.
Proof. destruct a, b; intros E; try discriminate; [|reflexivity]. f_equal. now apply num_inj. Qed.
Lemma called_inj a b : called a = called b -> a = b.
Proof. destruct a, b; intros E; try reflexivity; vm_compute in E; discriminate E. Qed.
Lemma strs_inj a b : Arr (map Str a) = Arr (map Str b) -> a = b.
Proof.
  intros [= E]. revert b E. induction a as [|x a IH]; destruct b as [|y b]; intros E; try discriminate; [reflexivity|].
  injection E as X Y. f_equal; [exact X|now apply IH].
Qed.
Lemma content_one c d j : says_content c j -> says_content d j -> c = d.
Proof.
  destruct c, d; cbn [says_content]; intros A B; try reflexivity;
  repeat match goal with H : exists _, _ |- _ => destruct H as (? & ? & ?) end; subst;
  try (match goal with H : @eq json _ _ |- _ => exfalso; vm_compute in H; discriminate H end);
  try (match goal with H : tagged _ _ = tagged _ _ |- _ => injection H; intros; subst end); try congruence.
  - f_equal. apply strs_inj. now f_equal.
  - f_equal. now apply N2Z.inj.
  - f_equal. now apply N2Z.inj.
Qed.
Lemma nth_same {A} (l m : list A) : (forall i, nth_error l i = nth_error m i) -> l = m.
Proof.
  revert m. induction l as [|x l IH]; destruct m as [|y m]; intros H; [reflexivity|discriminate (H O)|discriminate (H O)|].
  f_equal; [specialize (H O); now injection H|]. apply IH. intros i. exact (H (S i)).
Qed.
Lemma fields_one p q fs gs j : says_fields p fs j -> says_fields q gs j -> map fst fs = map fst gs -> fs = gs.
Proof.
  intros (inner & -> & A) (inner' & E & B) M. assert (inner' = inner) by (unfold tagged in E; congruence). subst inner'.
  apply nth_same. intros i. assert (X := f_equal (fun l => nth_error l i) M). cbv beta in X. rewrite !nth_error_map in X.
  destruct (nth_error fs i) as [[n x]|] eqn:F, (nth_error gs i) as [[m y]|] eqn:G; cbn in X; try discriminate; [|reflexivity].
  injection X as <-. destruct (A _ _ _ F) as (f & P & Q & _), (B _ _ _ G) as (g & R & T & _). congruence.
Qed.
Lemma key_detail_one d e j : says_key_detail d j -> says_key_detail e j -> without_places d = without_places e.
Proof.
  intros (A & _) (B & _). pose proof (fields_one _ _ _ _ _ A B eq_refl) as E. clear A B. unfold key_fields in E.
  injection E; clear E. intros. unfold without_places.
  repeat match goal with
  | H : Z.of_N ?x = Z.of_N ?y |- _ => apply N2Z.inj in H; rewrite H
  | H : map num _ = map num _ |- _ => assert (kd_slack d = kd_slack e) as -> by (apply nums_inj; now f_equal); clear H
  end.
  repeat match goal with H : ?x d = ?x e |- _ => rewrite H; clear H end. reflexivity.
Qed.
Lemma value_detail_one p q d e j : says_fields p (value_fields d) j -> says_fields q (value_fields e) j -> cell_fields d = cell_fields e.
Proof.
  intros A B. pose proof (fields_one _ _ _ _ _ A B eq_refl) as E. clear A B. unfold value_fields in E.
  injection E; clear E. intros. unfold cell_fields.
  repeat match goal with
  | H : Z.of_N ?x = Z.of_N ?y |- _ => apply N2Z.inj in H; rewrite H
  | H : map num _ = map num _ |- _ => assert (vd_slack d = vd_slack e) as -> by (apply nums_inj; now f_equal); clear H
  end.
  repeat match goal with H : ?x d = ?x e |- _ => rewrite H; clear H end. reflexivity.
Qed.
Lemma value_one kl cl kl' cl' v : forall w j, says_value kl cl v j -> says_value kl' cl' w j -> same_value v w.
Proof.
  induction v as [v IH] using kv_ind'. intros w j A B.
  inversion A as [? ? da ? ? ? ca ? c ? vs A1 A2 A3 A4 A5 A6 A7 A8 A9 A10 A11 A12 A13 A14 A15 A16 A17 A18 A19 A20 A21]; subst.
  inversion B as [? ? db ? ? ? cb ? d ? ws B1 B2 B3 B4 B5 B6 B7 B8 B9 B10 B11 B12 B13 B14 B15 B16 B17 B18 B19 B20 B21]; subst.
  constructor.
  - apply num_inj. congruence.
  - assert (db = da) by congruence. subst db. exact (value_detail_one _ _ _ _ _ A3 B3).
  - apply nums_inj. congruence.
  - apply called_inj. congruence.
  - apply maybe_inj. congruence.
  - apply maybe_inj. congruence.
  - intros X Y c' d' lc ld E F. assert (cb = ca) by congruence. subst cb. rewrite E in A15. rewrite F in B15. injection A15 as -> _. injection B15 as -> _.
    exact (content_one _ _ _ (A17 X) (B17 Y)).
  - assert (ws = vs) by congruence. subst ws. clear - IH A21 B21. revert B21. generalize (kv_versions w).
    induction A21 as [|x y xs ys P Q IHQ]; intros l R; inversion R; subst; constructor.
    + apply Forall_inv in IH. eapply IH; eassumption.
    + apply Forall_inv_tail in IH. now apply IHQ.
Qed.
Lemma key_one kl vl cl kl' vl' cl' k l j : says_key kl vl cl k j -> says_key kl' vl' cl' l j -> same_key k l.
Proof.
  intros (A1 & (da & A2 & A3) & A4 & A5 & A6 & A7 & A8 & (vs & A9 & A10) & _) (B1 & (db & B2 & B3) & B4 & B5 & B6 & B7 & B8 & (ws & B9 & B10) & _).
  split; [apply num_inj; congruence|]. split; [assert (db = da) by congruence; subst db; exact (key_detail_one _ _ _ A3 B3)|].
  split; [congruence|]. split; [congruence|]. split; [apply called_inj; congruence|]. split; [apply maybe_inj; congruence|]. split; [apply maybe_inj; congruence|].
  assert (ws = vs) by congruence. subst ws. clear - A10 B10. revert B10. generalize (kn_values l). induction A10 as [|x y xs ys P Q IHQ]; intros m R; inversion R; subst; constructor.
  - eapply value_one; eassumption.
  - now apply IHQ.
Qed.
Lemma lines_one out : forall js ks, read_lines out js -> read_lines out ks -> js = ks.
Proof.
  assert (S0 : forall (a b : list N) r s, ~ In 10 a -> ~ In 10 b -> a ++ 10 :: r = b ++ 10 :: s -> a = b /\ r = s).
  { induction a as [|x a IH]; destruct b as [|y b]; cbn [app]; intros r s A B E.
    - now injection E as ->.
    - injection E as <- _. exfalso. apply B. now left.
    - injection E as -> _. exfalso. apply A. now left.
    - injection E as -> E. destruct (IH b r s) as (-> & ->); [intros X; apply A; now right|intros X; apply B; now right|exact E|auto]. }
  intros js ks A. revert ks. induction A as [|line rest j js NL R A IH]; intros ks B.
  - inversion B as [|l2 r2 j2 js2 ? ? ? E]; [reflexivity|]. destruct l2; discriminate E.
  - inversion B as [E|l2 r2 j2 js2 NL2 R2 B2 E]; subst; [destruct line; discriminate E|]. symmetry in E. cbn [app] in E.
    destruct (S0 _ _ _ _ NL NL2 E) as (-> & ->). f_equal; [congruence|now apply IH].
Qed.
Lemma some_inj {A} (a b : A) : Some a = Some b -> a = b.
Proof. now intros [= ->]. Qed.
Lemma cons_inj {A} (a b : A) l m : a :: l = b :: m -> a = b /\ l = m.
Proof. now intros [= -> ->]. Qed.
Lemma one_meaning il il' k l : json_key il k = json_key il' l -> same_key k l.
Proof.
  intros E. destruct (key_line il k) as (A & _), (key_line il' l) as (B & _). rewrite E, B in A. apply some_inj in A.
  eapply key_one; [apply (key_docs il k)|]. rewrite <- A. apply key_docs.
Qed.
Lemma export_one il il' ks ls : json_export il ks = json_export il' ls -> Forall2 same_key ks ls.
Proof.
  intros E. pose proof (export_lines il ks) as A. rewrite E in A. pose proof (lines_one _ _ _ A (export_lines il' ls)) as M. clear - M.
  revert ls M. induction ks as [|k ks IH]; destruct ls as [|l ls]; intros M; try discriminate; constructor.
  - cbn [map] in M. apply cons_inj in M as (E & _). eapply key_one; [apply (key_docs il k)|]. rewrite E. apply key_docs.
  - apply IH. cbn [map] in M. now apply cons_inj in M as (_ & M).
Qed.

(** ** Hives *)
Lemma stored_content_is v t b c : holds v t b -> stored_content t b c -> exists l, get_content v = Ok (c, l).
Proof.
  intros H S0. destruct S0;
  try (destruct (content_numbers v t r n 0%Z) as (X1 & X2 & X3 & X4 & X5 & _);
       first [rewrite X1 by assumption|rewrite X2 by assumption|rewrite X3 by assumption|rewrite X4 by assumption|rewrite X5 by assumption];
       eexists; reflexivity; fail);
  try (destruct (content_numbers v t r 0 z) as (_ & _ & _ & _ & _ & X1 & X2 & X3);
       first [rewrite X1 by assumption|rewrite X2 by assumption|rewrite X3 by assumption];
       eexists; reflexivity; fail).
  - destruct (content_string v t u tail) as (s' & E & R); try assumption. rewrite E. eexists. repeat f_equal.
    apply read_utf8_exact in R as (_ & ->). now apply read_utf8_exact in H4 as (_ & ->).
  - destruct (content_multi v t us junk) as (l' & E & R); try assumption. rewrite E. eexists. repeat f_equal.
    assert (G : map read_utf8 l' = map read_utf8 l) by congruence. assert (W : forall x, In x l -> exists u, read_utf8 x = Some u).
    { intros x I. match goal with K : map read_utf8 l = map Some us |- _ => apply (in_map read_utf8) in I; rewrite K in I end.
      apply in_map_iff in I as (u & I & _). now exists u. }
    clear - G W. revert l G W. induction l' as [|a l' IH]; destruct l as [|c m]; cbn [map]; intros E W; try discriminate; [reflexivity|].
    apply cons_inj in E as (X & Y). f_equal; [|apply IH; [exact Y|intros x I; apply W; now right]].
    destruct (W c (or_introl eq_refl)) as (u & Q). rewrite Q in X. apply read_utf8_exact in X as (_ & ->). now apply read_utf8_exact in Q as (_ & ->).
  - rewrite (content_binary v t b H) by assumption. eexists. reflexivity.
  - rewrite (content_short v t b n H) by assumption. eexists. reflexivity.
Qed.
Lemma at_fields name x fs places detail (P : Prop) j i : says_fields places fs detail -> nth_error fs i = Some (name, x) -> member "detail" j = Some detail -> at_detail name j x.
Proof.
  intros (inner & -> & A) I M. destruct (A _ _ _ I) as (f & F & V & _). eexists _, inner, f. split; [exact M|]. now split.
Qed.
Lemma tree_value_said vl cl v x j : value_shown v x -> says_value vl cl v j -> tree_value x j.
Proof.
  intros (VN & VT & VB & VS & VK) A.
  inversion A as [? ? da ? ? ? ca ? c ? vs A1 A2 A3 A4 A5 A6 A7 A8 A9 A10 A11 A12 A13 A14 A15 A16 A17 A18 A19 A20 A21]; subst.
  split; [|split; [|split; [|split]]].
  - exists (value_name v). split; [exact A8|]. unfold value_name. destruct (vd_name (kv_detail v)) as [|a nm] eqn:E.
    + injection VN as <-. vm_compute. reflexivity.
    + rewrite VN. destruct (v_name x) as [|c' n']; [|reflexivity]. apply read_utf8_exact in VN as (_ & VN). discriminate VN.
  - rewrite <- VT. apply (at_fields _ _ _ _ _ True j 5 A3); [reflexivity|exact A2].
  - eexists. split; [exact A4|]. now rewrite <- VK.
  - rewrite A14, VS. reflexivity.
  - exists ca. split; [exact A16|]. intros c0 S0 B0.
    assert (DB : data_bytes v = value_data (v_type x mod 4096) (v_data x)) by (unfold data_bytes; now rewrite VB).
    destruct (stored_content_is v _ _ _ (conj VK VB) S0) as (l' & E'). rewrite A15 in E'. injection E' as <- _. apply A17. now rewrite DB.
Qed.
Lemma tree_key_said kl vl cl buffer k x j : key_shown k (fst x) (snd x) -> (exists full, kn_detail k = nk_detail_at full (rest_at buffer (kn_offset k))) ->
  says_key kl vl cl k j -> tree_doc buffer x j.
Proof.
  intros (KO & KN & KP & KV & KS) (full & ED) (A1 & (da & A2 & A3 & _) & A4 & A5 & A6 & _ & _ & (vs & A9 & A10) & _).
  split; [now exists (kn_path k)|]. split; [now exists (kn_name k)|]. split; [now rewrite A1, KO|]. split; [rewrite A6, KS; reflexivity|].
  assert (T : kd_time (kn_detail k) = stored_time buffer (snd x)) by (rewrite ED; cbn [nk_detail_at kd_time]; rewrite !num_at_rest, KO; reflexivity).
  assert (F : kd_flags (kn_detail k) = num_at buffer (t_pos (snd x) + 6) 2) by (rewrite ED; cbn [nk_detail_at kd_flags]; rewrite !num_at_rest, KO; reflexivity).
  assert (G : kd_access (kn_detail k) = num_at buffer (t_pos (snd x) + 16) 4) by (rewrite ED; cbn [nk_detail_at kd_access]; rewrite !num_at_rest, KO; reflexivity).
  split; [rewrite <- T; apply (at_fields _ _ _ _ _ True j 3 A3); [reflexivity|exact A2]|].
  split; [rewrite <- F; apply (at_fields _ _ _ _ _ True j 2 A3); [reflexivity|exact A2]|].
  split; [rewrite <- G; apply (at_fields _ _ _ _ _ True j 4 A3); [reflexivity|exact A2]|].
  exists vs. split; [exact A9|]. clear - KV A10. revert vs A10. induction KV as [|v y ks ys V KV IH]; intros vs A; inversion A; subst; constructor.
  - eapply tree_value_said; eassumption.
  - now apply IH.
Qed.
Lemma json_shown il fi ks l : shown ks l -> Forall (born fi) ks -> exists js, read_lines (json_export il ks) js /\ Forall2 (tree_doc (fi_buffer fi)) l js.
Proof.
  intros SH BK. destruct (export_said il ks) as (js & R1 & R2). exists js. split; [exact R1|].
  clear - SH BK R2. revert js R2. unfold shown in SH. induction SH as [|k x ks l K SH IH]; intros js R; inversion R; subst; constructor.
  - eapply tree_key_said; [exact K| |eassumption]. apply Forall_inv in BK. now destruct BK as (_ & BK).
  - apply IH; [now apply Forall_inv_tail in BK|assumption].
Qed.
Lemma json_hive il buffer files t p ok p' n : opens buffer files t p -> used ok p p' -> (2 * List.length (positions t) < n)%nat ->
  exists out js, write_json n il p' None = Ok out /\ read_lines out js /\ Forall2 (tree_doc (ps_buffer p)) (preorder [] t) js.
Proof.
  intros O U L. pose proof O as (KF & _ & order & fuel & hash & full & B).
  destruct (session_preorder _ _ _ _ _ _ false true n O (used_not ok p) L) as (ks & E & SH).
  pose proof (iterate_born _ _ _ _ _ _ _ _ _ _ _ O (used_not ok p) E) as BK.
  unfold write_json. rewrite (moved_iterate p p' _ _ _ _ (used_moved _ _ _ U)), E. cbv beta iota.
  destruct (json_shown il (ps_file p) ks _ SH BK) as (js & R). eexists _, js. split; [reflexivity|exact R].
Qed.
