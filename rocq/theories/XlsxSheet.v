(** Proofs about the spreadsheet export: what the sheets say. *)
From Coq Require Import String.
From Verif Require Import Base BaseFacts Util UtilSpec UtilText LayoutSpec Types Value Node Parser TxSpec TxLog Log Export ExportSpec ExportFacts
  Date DateSpec DateFacts CellSpec CellData TreeSpec Show ShowSpec ShowFacts Xlsx XlsxSpec XlsxFacts XlsxRows XlsxAll.
Open Scope string_scope.
Open Scope N_scope.
Open Scope list_scope.

(** ** One reading *)
Lemma parts_one ws r p1 : forall c p2, parts_at ws r c p1 -> parts_at ws r c p2 -> p1 = p2.
Proof.
  induction p1 as [|x p1 IH]; intros c [|y p2]; cbn [parts_at]; [reflexivity| | |].
  - intros (A & _) (B & _). congruence.
  - intros (A & _) (B & _). congruence.
  - intros (A1 & _ & A2) (B1 & _ & B2). rewrite A1 in B1. injection B1 as ->. now rewrite (IH (c + 1) p2).
Qed.
Lemma reads_one ws s r c t1 t2 : reads ws s r c t1 -> reads ws s r c t2 -> t1 = t2.
Proof.
  intros H1 H2. destruct H1 as [(A1 & A2)|t1 A1 A2|r1 n1 p1 s1 c1 e1 A1 A2 A3 A4 A5 A6 A7 A8];
    destruct H2 as [(B1 & B2)|t2 B1 B2|r2 n2 p2 s2 c2 e2 B1 B2 B3 B4 B5 B6 B7 B8]; try congruence.
  rewrite A1 in B1. assert (E : text "internal:Overflow!A" ++ r1 = text "internal:Overflow!A" ++ r2) by congruence. apply app_inv_head in E. subst r2.
  assert (E : n1 + 1 = n2 + 1) by exact (numeral_one _ _ _ A2 B2). assert (n1 = n2) by lia. subst n2. f_equal. exact (parts_one _ _ _ _ _ A5 B5).
Qed.

(** ** Sheets *)
Section Sheet.
Context (printable : N -> bool) (key_logs : key_node -> list N) (value_logs : key_value -> list N).
Notation item_cells := (item_row printable key_logs value_logs).
Lemma read_txt o ws s r c t (P : list N -> Prop) : shows o ws s r c (Txt t) -> P t -> text_cell ws s r c P.
Proof. intros H X. exists t. split; [exact (holds_reads _ _ _ _ _ _ H)|exact X]. Qed.
Lemma read_num o ws s r c n : shows o ws s r c (opt_num n) -> number_if_at ws s r c n.
Proof. now destruct n. Qed.
Lemma cells_show o ws r i : item_texts key_logs value_logs i -> (forall c, shows o ws Items r c (entry (item_cells r i) c)) ->
  xlsx_row ws key_logs value_logs r i.
Proof.
  intros T H. split; [destruct i; exact (H 0)|]. split.
  { intros c L. specialize (H c). rewrite entry_none in H; [exact H|]. destruct i; cbn; lia. }
  destruct i as [k|k v]; cbn [item_texts] in T.
  - destruct T as (T1 & T2). split; [apply (read_txt o _ _ _ _ _ _ (H 1)), sanitize_text, T1|]. split; [exact (H 2)|]. split; [exact (H 3)|]. split; [exact (H 4)|].
    split; [apply (read_txt o _ _ _ _ _ _ (H 5)); unfold kn_date; apply date_denotes|]. split; [apply (read_txt o _ _ _ _ _ _ (H 6)); now destruct (kn_state k)|].
    split; [exact (read_num o _ _ _ _ _ (H 7))|]. split; [exact (read_num o _ _ _ _ _ (H 8))|]. split; [apply (read_txt o _ _ _ _ _ _ (H 9)), key_told|].
    split; [apply (read_txt o _ _ _ _ _ _ (H 10)), access_told|]. split; [exact (H 11)|]. apply (read_txt o _ _ _ _ _ _ (H 12)), sanitize_text, T2.
  - destruct T as (T1 & T2 & T3 & T4). split; [apply (read_txt o _ _ _ _ _ _ (H 1)), sanitize_text, T1|]. split; [exact (H 2)|].
    split; [apply (read_txt o _ _ _ _ _ _ (H 3)); rewrite pretty; apply sanitize_text, name_text, T2|]. split.
    { destruct (value_content v T3) as (c & l & E & CE & CT). exists c, l. split; [exact E|]. destruct (cell_text printable c CT) as (_ & Y).
      apply (read_txt o _ _ _ _ _ _ (H 11)). apply (read_txt o _ _ _ _ _ _ (H 4)). rewrite CE. exact Y. }
    split; [exact (H 5)|]. split; [apply (read_txt o _ _ _ _ _ _ (H 6)); now destruct (kv_state v)|].
    split; [exact (read_num o _ _ _ _ _ (H 7))|]. split; [exact (read_num o _ _ _ _ _ (H 8))|]. split; [exact (H 9)|]. split; [exact (H 10)|].
    apply (read_txt o _ _ _ _ _ _ (H 12)), sanitize_text, T4.
Qed.
Lemma item_rows_nth is : forall n r, nth_error (item_rows printable key_logs value_logs n is) r = option_map (item_cells (n + N.of_nat r)) (nth_error is r).
Proof.
  induction is as [|i is IH]; intros n r; destruct r as [|r]; try reflexivity; cbn [item_rows nth_error].
  - cbn [option_map]. do 2 f_equal. lia.
  - rewrite IH. do 2 f_equal. lia.
Qed.
Lemma header_entry n l c : entry (numbered_from n l) c = if c <? n then Nothing else match nth_error l (N.to_nat (c - n)) with Some h => Txt h | None => Nothing end.
Proof.
  revert n. induction l as [|h l IH]; intros n; cbn [numbered_from]; unfold entry in *; cbn [find fst].
  - destruct (c <? n); [reflexivity|]. now destruct (N.to_nat (c - n)).
  - destruct (N.eqb_spec n c) as [->|D].
    + rewrite N.ltb_irrefl, N.sub_diag. reflexivity.
    + rewrite IH. destruct (N.ltb_spec c n).
      * now rewrite (proj2 (N.ltb_lt c (n + 1))) by lia.
      * rewrite (proj2 (N.ltb_ge c (n + 1))) by lia. replace (N.to_nat (c - n)) with (S (N.to_nat (c - (n + 1)))) by lia. reflexivity.
Qed.
Lemma nth_of {A} (l : list (list A)) n : nth n l [] = match nth_error l n with Some x => x | None => [] end.
Proof. revert n. induction l as [|x l IH]; intros [|n]; try reflexivity. apply IH. Qed.
Lemma good_sheets b is ms : Forall (item_texts key_logs value_logs) is ->
  good b (header_cells :: item_rows printable key_logs value_logs 1 is, map message_row ms ++ [[]]) ->
  items_sheet (bk_writes b) key_logs value_logs is /\ logs_sheet (bk_writes b) ms.
Proof.
  intros T [G _ _ _]. split; [split; [|split]|split].
  - intros c. specialize (G Items 0 c (or_introl eq_refl)). change (shows (bk_overflow b) (bk_writes b) Items 0 c (entry (numbered_from 0 tsv_columns) c)) in G. rewrite header_entry in G.
    rewrite (proj2 (N.ltb_ge c 0)), N.sub_0_r in G by lia. destruct (nth_error tsv_columns (N.to_nat c)); [exact (holds_reads _ _ _ _ _ _ G)|exact G].
  - intros r i E. rewrite Forall_forall in T. apply (cells_show (bk_overflow b)); [apply T; now apply nth_error_In in E|]. intros c.
    specialize (G Items (N.of_nat r + 1) c (or_introl eq_refl)). cbn [get fst] in G. replace (N.to_nat (N.of_nat r + 1)) with (S r) in G by lia. cbn [nth] in G.
    rewrite nth_of, item_rows_nth, E in G. cbn [option_map] in G. now replace (N.of_nat r + 1) with (1 + N.of_nat r) at 2 by lia.
  - intros r c L. specialize (G Items r c (or_introl eq_refl)). cbn [get fst] in G. rewrite nth_of in G.
    destruct (N.to_nat r) as [|m] eqn:E; [unfold len in L; lia|]. cbn [nth_error] in G. rewrite item_rows_nth in G.
    rewrite (proj2 (nth_error_None is m)) in G by (unfold len in L; lia). exact G.
  - intros r m E. assert (X : forall c, shows (bk_overflow b) (bk_writes b) Logs (N.of_nat r) c (entry (message_row m) c)).
    { intros c. specialize (G Logs (N.of_nat r) c (or_intror eq_refl)). cbn [get snd] in G. rewrite Nat2N.id, nth_of in G.
      rewrite nth_error_app1, nth_error_map, E in G; [exact G|]. rewrite map_length. apply nth_error_Some. congruence. }
    rewrite <- LogFacts.code_worded. split; [exact (holds_reads _ _ _ _ _ _ (X 0))|]. split; [exact (holds_reads _ _ _ _ _ _ (X 1))|]. intros c L. specialize (X c). rewrite entry_none in X; [exact X|].
    cbn. lia.
  - intros r c L. specialize (G Logs r c (or_intror eq_refl)). cbn [get snd] in G. rewrite nth_of, nth_error_app2 in G by (rewrite map_length; unfold len in L; lia).
    destruct (N.to_nat r - _)%nat as [|[|m]]; exact G.
Qed.
End Sheet.
Lemma export_sheets accepts printable key_logs value_logs recovered_only ks log b : in_sheet accepts ->
  Forall (item_texts key_logs value_logs) (List.filter (kept recovered_only) (flat_map tsv_items ks)) ->
  Forall (fun m => is_text (mg_text m)) (or_default log) ->
  xlsx_export accepts printable key_logs value_logs recovered_only ks log = Ok b ->
  items_sheet (bk_writes b) key_logs value_logs (List.filter (kept recovered_only) (flat_map tsv_items ks)) /\ logs_sheet (bk_writes b) (or_default log).
Proof. intros IN T TL E. apply (export_good _ _ _ _ _ IN) in E; try assumption. exact (good_sheets _ _ _ _ _ _ T E). Qed.

(** ** What is written *)
Lemma digits_small fuel : forall n r, (List.length (digits fuel n r) <= fuel + List.length r)%nat.
Proof. induction fuel as [|fuel IH]; intros n r; cbn [digits]; [lia|]. cbv zeta. destruct (n <? 10); [cbn; lia|]. etransitivity; [apply IH|]. cbn. lia. Qed.
Lemma size_small n : (N.size_nat (w32 n) <= 32)%nat.
Proof.
  assert (H : w32 n < 2 ^ 32) by (unfold w32; apply N.mod_lt; discriminate). destruct (w32 n) as [|p] eqn:E; [cbn; lia|].
  assert (X : N.size (N.pos p) <= 32). { rewrite N.size_log2 by discriminate. assert (N.log2 (N.pos p) < 32); [apply N.log2_lt_pow2; [reflexivity|exact H]|lia]. }
  cbn [N.size_nat N.size] in *. assert (Y : forall q, N.of_nat (Pos.size_nat q) = N.pos (Pos.size q)).
  { intros q. induction q as [q IH|q IH|]; cbn [Pos.size_nat Pos.size]; lia. }
  specialize (Y p). lia.
Qed.
Definition label (o : N) : list N := text " [truncated; row: " ++ decimal (w32 (o + 1)) ++ text "]".
Lemma label_low o : low (label o) /\ (List.length (label o) <= 60)%nat.
Proof.
  unfold label. split.
  - apply Forall_app. split; [low_text|]. apply Forall_app. split; [apply decimal_low|low_text].
  - rewrite !app_length. pose proof (digits_small (S (N.size_nat (w32 (o + 1)))) (w32 (o + 1)) []) as D. fold (decimal (w32 (o + 1))) in D.
    pose proof (size_small (o + 1)). cbn [List.length text map list_ascii_of_string] in *. lia.
Qed.
Section Writes.
Context (accepts : list write -> write -> bool) (L : Prop).
Definition texts_fit (t : list N) : Prop := exists cs, read_utf8 t = Some cs /\ len cs <= 32767 /\ (L -> Forall xml_char cs).
Definition fit (w : write) : Prop := match w_what w with Text t => texts_fit t | _ => True end.
Definition given (t : list N) : Prop := is_text t /\ (L -> legal_text t).
Lemma put_writes s c x b b' : put accepts s c x b = Ok b' -> bk_writes b' = bk_writes b ++ [mkWrite s (row_of s b) c x].
Proof. unfold put. destruct (accepts _ _); [|discriminate]. destruct b. intros [= <-]. reflexivity. Qed.
Lemma put_fits s c x b b' : put accepts s c x b = Ok b' -> fit (mkWrite s 0 c x) -> Forall fit (bk_writes b) -> Forall fit (bk_writes b').
Proof. intros E X F. apply put_writes in E. rewrite E. apply Forall_app. split; [exact F|]. constructor; [exact X|constructor]. Qed.
Lemma texts_low t : low t -> (List.length t <= 500)%nat -> texts_fit t.
Proof.
  intros X N0. exists t. split; [now apply low_read|]. split; [unfold len; lia|]. intros _. eapply Forall_impl; [|exact X]. unfold xml_char. intros c; lia.
Qed.
Lemma texts_part cs : Forall scalar cs -> len cs <= 32767 -> (L -> Forall xml_char cs) -> texts_fit (utf8 cs).
Proof. intros F N0 X. exists cs. split; [now apply read_utf8_utf8|]. now split. Qed.
Lemma chunks_fit : forall fuel cs l, Forall scalar cs -> (L -> Forall xml_char cs) -> chunks fuel (utf8 cs) = Ok l -> Forall texts_fit l.
Proof.
  induction fuel as [|fuel IH]; intros cs l F X E.
  - destruct (utf8 cs); [injection E as <-; constructor|discriminate E].
  - cbn [chunks] in E. destruct (utf8 cs) as [|x u] eqn:U; [injection E as <-; constructor|]. rewrite <- U in E.
    rewrite split_chars in E by exact F. assert (M : N.of_nat (N.to_nat max_excel_cell_len) = 32767) by now rewrite N2Nat.id.
    set (m := N.to_nat max_excel_cell_len) in *. clearbody m. cbv beta iota in E. destruct (chunks fuel (utf8 (skipn _ cs))) as [r| | |] eqn:E1; try discriminate E.
    injection E as <-. assert (XS : L -> Forall xml_char (firstn m cs) /\ Forall xml_char (skipn m cs)).
    { intros l0. apply Forall_app. rewrite firstn_skipn. now apply X. }
    constructor.
    + apply texts_part; [now apply scalar_firstn| |intros l0; now apply XS]. unfold len. rewrite firstn_length. lia.
    + apply (IH _ _ (scalar_skipn _ _ F)) in E1; [exact E1|intros l0; now apply XS].
Qed.
Lemma put_chunks_fit l : forall col b b', put_chunks accepts l col b = Ok b' -> Forall texts_fit l -> Forall fit (bk_writes b) -> Forall fit (bk_writes b').
Proof.
  induction l as [|c l IH]; intros col b b'; cbn [put_chunks]; [now intros [= <-]|]. destruct (65535 <? col); [discriminate|].
  destruct (put accepts Overflow col (Text c) b) as [b1| | |] eqn:E; try discriminate. intros E1 F G. apply Forall_cons_iff in F as (F1 & F2).
  apply (IH _ _ _ E1 F2). now apply (put_fits _ _ _ _ _ E).
Qed.
Lemma next_writes s b : bk_writes (next_row s b) = bk_writes b. Proof. destruct b, s; reflexivity. Qed.
Lemma string_fits s c t b b' : given t -> check_write_string accepts s c t b = Ok b' -> Forall fit (bk_writes b) -> Forall fit (bk_writes b').
Proof.
  intros ((cs & T) & TL) E F. destruct t as [|t0 t']; [now injection E as <-|]. set (t := t0 :: t') in *. unfold check_write_string in E. fold t in E.
  change (match t with [] => Ok b | _ :: _ => write_string_handle_overflow accepts s c t b end) with (write_string_handle_overflow accepts s c t b) in E.
  assert (X : L -> Forall xml_char cs) by (intros l0; destruct (TL l0) as (cs' & A & B); congruence).
  apply read_utf8_exact in T as (SC & T). pose proof (utf8_length cs SC) as UL. rewrite <- T in UL. unfold write_string_handle_overflow in E.
  destruct (N.ltb_spec max_excel_cell_len (len t)) as [LT|LE].
  2:{ apply (put_fits _ _ _ _ _ E); [|exact F]. unfold fit. cbn [w_what]. rewrite T. apply texts_part; [exact SC| |exact X]. unfold len in *. change max_excel_cell_len with 32767 in LE. lia. }
  destruct (chunks (List.length t) t) as [l| | |] eqn:EC; try discriminate E. cbv beta iota zeta in E. fold (label (bk_overflow b)) in E.
  destruct (label_low (bk_overflow b)) as (LB1 & LB2).
  destruct (put accepts Overflow 0 (Text (label (bk_overflow b))) b) as [b1| | |] eqn:E1; try discriminate E. cbv beta iota in E.
  apply put_fits in E1; [|unfold fit; cbn [w_what]; apply texts_low; [exact LB1|lia]|exact F].
  destruct (put_chunks accepts l 1 b1) as [b2| | |] eqn:E2; try discriminate E. cbv beta iota in E.
  apply put_chunks_fit in E2; [|rewrite T in EC at 2; exact (chunks_fit _ _ _ SC X EC)|exact E1].
  destruct (put accepts s c (Link _) (next_row Overflow b2)) as [b3| | |] eqn:E3; try discriminate E. cbv beta iota in E.
  apply put_fits in E3; [|exact I|rewrite next_writes; exact E2].
  apply put_fits in E; [exact E| |exact E3]. unfold fit. cbn [w_what]. rewrite T, truncate_chars by exact SC.
  assert (LC : Forall scalar (label (bk_overflow b)) /\ utf8 (label (bk_overflow b)) = label (bk_overflow b)).
  { apply low_read in LB1. apply read_utf8_exact in LB1 as (A & B). now split. }
  destruct LC as (LC1 & LC2). rewrite <- LC2, <- utf8_app. apply texts_part.
  - apply Forall_app. split; [now apply scalar_firstn|exact LC1].
  - rewrite len_app. unfold len. rewrite firstn_length. change (N.to_nat max_truncated_chars) with 250%nat. lia.
  - intros l0. apply Forall_app. split.
    + specialize (X l0). rewrite <- (firstn_skipn (N.to_nat max_truncated_chars) cs) in X. apply Forall_app in X. tauto.
    + eapply Forall_impl; [|exact LB1]. unfold xml_char. intros x; lia.
Qed.
Definition entry_given (x : N * expected) : Prop := match snd x with Txt t => given t | _ => True end.
Lemma row_fits s es : forall b b', Forall entry_given es -> put_row accepts s es b = Ok b' -> Forall fit (bk_writes b) -> Forall fit (bk_writes b').
Proof.
  induction es as [|[c e] es IH]; intros b b' G E F; cbn [put_row] in E; [now injection E as <-|]. apply Forall_cons_iff in G as (G1 & G2).
  destruct (put_entry accepts s (c, e) b) as [b1| | |] eqn:E1; try discriminate E. apply (IH _ _ G2 E).
  destruct e as [|n|t]; unfold put_entry in E1; cbn [fst snd] in E1.
  - now injection E1 as <-.
  - apply (put_fits _ _ _ _ _ E1); [exact I|exact F].
  - apply (string_fits _ _ _ _ _ G1 E1 F).
Qed.
End Writes.
Lemma given_low L t : low t -> given L t. Proof. intros X. split; [apply legal_is_text|intros _]; now apply low_legal. Qed.
Lemma given_short L t : short t -> given L t. Proof. intros (X & _). now apply given_low. Qed.
Lemma given_safe L t : is_text t -> given L (sanitize t). Proof. intros X. split; [apply legal_is_text|intros _]; now apply sanitize_text. Qed.
Section All.
Context (accepts : list write -> write -> bool) (printable : N -> bool) (key_logs : key_node -> list N) (value_logs : key_value -> list N) (recovered_only : bool) (L : Prop)
  (P : L -> forall c, printable c = true -> xml_char c).
Lemma cells_given n i : item_texts key_logs value_logs i -> Forall (entry_given L) (item_row printable key_logs value_logs n i).
Proof.
  assert (O : forall c o, entry_given L (c, opt_num o)) by now intros c [].
  destruct i as [k|k v]; cbn [item_texts item_row].
  - intros (A & B).
    repeat (constructor; [first [exact I|apply O|unfold entry_given; cbn [snd]; first [apply given_safe; assumption|apply given_short; first [apply date_short|apply state_short|apply key_flags_short|apply access_flags_short]]]|]). constructor.
  - intros (A & B & C & D). destruct (value_content v C) as (c & l & _ & CE & CT). rewrite CE, pretty. apply name_text in B.
    assert (X : given L (sanitize_cell printable c)) by (split; [now apply cell_text|intros l0; apply cell_legal; [now apply P|exact CT]]).
    repeat (constructor; [first [exact I|apply O|unfold entry_given; cbn [snd]; first [exact X|apply given_safe; assumption|apply given_short; first [apply state_short|apply type_short]]]|]). constructor.
Qed.
Lemma each_fits {A} (f : A -> book -> res book) l : (forall x b b', In x l -> f x b = Ok b' -> Forall (fit L) (bk_writes b) -> Forall (fit L) (bk_writes b')) ->
  forall b b', write_each f l b = Ok b' -> Forall (fit L) (bk_writes b) -> Forall (fit L) (bk_writes b').
Proof.
  induction l as [|x l IH]; intros H b b' E F; cbn [write_each] in E; [now injection E as <-|]. destruct (f x b) as [b1| | |] eqn:E1; try discriminate E.
  apply (IH (fun y c c' Y => H y c c' (or_intror Y)) _ _ E). exact (H x _ _ (or_introl eq_refl) E1 F).
Qed.
Lemma export_fits ks log b : Forall (item_texts key_logs value_logs) (List.filter (kept recovered_only) (flat_map tsv_items ks)) ->
  Forall (fun m => given L (mg_text m)) (or_default log) ->
  xlsx_export accepts printable key_logs value_logs recovered_only ks log = Ok b -> Forall (fit L) (bk_writes b).
Proof.
  intros T TL. rewrite export_same. destruct (put_row accepts Items header_cells new_book) as [b0| | |] eqn:E0; try discriminate. cbv beta iota.
  apply (row_fits _ L) in E0; [| |constructor].
  2:{ unfold header_cells. pose proof columns_short as C. revert C. generalize 0, tsv_columns. intros n l C. revert n.
    induction C as [|h l S C IH]; intros n; constructor; [apply (given_short _ _ S)|apply IH]. }
  destruct (write_each _ _ b0) as [b1| | |] eqn:E1; try discriminate. cbv beta iota. rewrite Forall_forall in T, TL.
  apply each_fits in E1; [| |exact E0].
  2:{ intros i x x' I E F. unfold put_item in E. cbv zeta in E. apply (row_fits _ L) in E; [exact E|now apply cells_given, T|now rewrite next_writes]. }
  intros E2. apply each_fits in E2; [exact E2| |exact E1].
  intros m x x' I E F. unfold put_message in E. destruct (put_row accepts Logs _ x) as [y| | |] eqn:E3; try discriminate E. injection E as <-. rewrite next_writes.
  apply (row_fits _ L) in E3; [exact E3| |exact F]. constructor; [apply given_short, code_short|]. constructor; [now apply TL|constructor].
Qed.
End All.
