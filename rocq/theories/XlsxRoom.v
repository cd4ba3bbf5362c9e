(** Proofs about the spreadsheet export: when it succeeds. *)
From Coq Require Import String.
From Verif Require Import Base BaseFacts Util UtilSpec UtilText LayoutSpec Types Value Node Parser TxSpec TxLog Log Export ExportSpec ExportFacts
  Date DateSpec DateFacts CellSpec CellData TreeSpec Show ShowSpec ShowFacts Xlsx XlsxSpec XlsxFacts XlsxRows XlsxAll XlsxSheet.
Open Scope string_scope.
Open Scope N_scope.
Open Scope list_scope.

Definition long (t : list N) : N := if 32767 <? len t then 1 else 0.
Definition handy (t : list N) : Prop := exists cs, read_utf8 t = Some cs /\ len cs <= 536821761.
Definition links (b : book) : N := len (List.filter is_link (bk_writes b)).
Definition need (es : list (N * expected)) : N := fold_right (fun x n => match snd x with Txt t => long t + n | _ => n end) 0 es.
Definition entry_handy (x : N * expected) : Prop := fst x < 16384 /\ match snd x with Txt t => handy t | _ => True end.
Section Room.
Context (accepts : list write -> write -> bool) (OK : forall past w, fits_cell past w -> accepts past w = true).
Definition after (b : book) (w : write) : book := let '(mkBook ws i l o) := b in mkBook (ws ++ [w]) i l o.
Lemma put_works s c x b : fits_cell (bk_writes b) (mkWrite s (row_of s b) c x) -> put accepts s c x b = Ok (after b (mkWrite s (row_of s b) c x)).
Proof. intros F. unfold put. rewrite (OK _ _ F). now destruct b. Qed.
Lemma after_rows b w t : row_of t (after b w) = row_of t b. Proof. destruct b, t; reflexivity. Qed.
Lemma after_links b w : links (after b w) = links b + (if is_link w then 1 else 0).
Proof. unfold links. destruct b as [ws i l o]. unfold after. change (bk_writes (mkBook (ws ++ [w]) i l o)) with (ws ++ [w]). change (bk_writes (mkBook ws i l o)) with ws. rewrite filter_app, len_app. cbn [List.filter]. now destruct (is_link w). Qed.
Lemma chunks_work l : forall col b, Forall chunk_text l -> col + len l <= 16384 -> bk_overflow b < 1048576 ->
  exists b', put_chunks accepts l col b = Ok b' /\ links b' = links b /\ forall t, row_of t b' = row_of t b.
Proof.
  induction l as [|c l IH]; intros col b F L R; cbn [put_chunks]; [exists b; auto|]. apply Forall_cons_iff in F as ((_ & cs & E & SC & LC) & F2). rewrite len_cons in L.
  destruct (N.ltb_spec 65535 col); [lia|]. rewrite put_works.
  2:{ split; [exact R|]. split; [cbn [w_col]; lia|]. cbn [w_what]. exists cs. split; [rewrite E; now apply read_utf8_utf8|exact LC]. }
  cbv beta iota. destruct (IH (col + 1) (after b (mkWrite Overflow (row_of Overflow b) col (Text c))) F2) as (b' & A & B & C).
  - lia.
  - rewrite <- overflow_row, after_rows, overflow_row. exact R.
  - exists b'. split; [exact A|]. split; [rewrite B, after_links; cbn [is_link w_what]; lia|]. intros t. now rewrite C, after_rows.
Qed.
Lemma string_works s c t b : main s -> handy t -> c < 16384 -> row_of s b < 1048576 -> bk_overflow b = links b -> links b + long t <= 65530 ->
  exists b', check_write_string accepts s c t b = Ok b' /\ bk_overflow b' = links b' /\ links b' = links b + long t /\ forall x, main x -> row_of x b' = row_of x b.
Proof.
  intros M (cs & T & LC) C R O K. destruct t as [|t0 t'].
  { exists b. split; [reflexivity|]. split; [exact O|]. split; [change (long []) with 0; lia|reflexivity]. }
  set (t := t0 :: t') in *. unfold check_write_string. fold t.
  change (match t with [] => Ok b | _ :: _ => write_string_handle_overflow accepts s c t b end) with (write_string_handle_overflow accepts s c t b).
  pose proof T as T0. apply read_utf8_exact in T as (SC & T). pose proof (utf8_length cs SC) as UL. rewrite <- T in UL. unfold write_string_handle_overflow, long in *.
  change max_excel_cell_len with 32767. destruct (N.ltb_spec 32767 (len t)) as [LT|LE].
  2:{ rewrite put_works; [|split; [exact R|]; split; [exact C|]; exists cs; split; [exact T0|unfold len in *; lia]].
      eexists. split; [reflexivity|]. rewrite after_links, <- overflow_row, after_rows, overflow_row. cbn [is_link w_what]. split; [lia|]. split; [reflexivity|]. intros; apply after_rows. }
  destruct (chunks_right (List.length t) cs SC) as (l & CH & CC & CT & CN); [lia|]. rewrite <- T in CH. rewrite CH. cbv beta iota zeta.
  fold (label (bk_overflow b)). destruct (label_low (bk_overflow b)) as (LB1 & LB2). assert (OB : bk_overflow b < 65530) by lia.
  rewrite put_works.
  2:{ split; [cbn [w_row row_of]; lia|]. split; [reflexivity|]. exists (label (bk_overflow b)). split; [now apply low_read|unfold len; lia]. }
  cbv beta iota. set (b1 := after b _). assert (O1 : bk_overflow b1 = bk_overflow b) by (subst b1; now rewrite <- overflow_row, after_rows, overflow_row).
  assert (LN : len l <= 16383) by lia.
  destruct (chunks_work l 1 b1 CT) as (b2 & E2 & L2 & R2); [lia|lia|]. rewrite E2. cbv beta iota.
  destruct (next_rows Overflow b2) as (W3 & R3); [rewrite R2, overflow_row; lia|]. set (b3 := next_row Overflow b2) in *.
  assert (K1 : links b3 = links b).
  { unfold links at 1. rewrite W3. fold (links b2). rewrite L2. subst b1. rewrite after_links. cbn [is_link w_what]. lia. }
  assert (R4 : forall x, main x -> row_of x b3 = row_of x b).
  { intros x [-> | ->]; rewrite R3; cbn [same_sheet]; rewrite R2; subst b1; apply after_rows. }
  rewrite put_works.
  2:{ split; [cbn [w_row]; rewrite R4; assumption|]. split; [exact C|]. cbn [w_what]. fold (links b3). lia. }
  cbv beta iota. set (b4 := after b3 _). rewrite put_works.
  2:{ split; [cbn [w_row]; subst b4; rewrite after_rows, R4; assumption|]. split; [exact C|]. cbn [w_what]. rewrite T, truncate_chars by exact SC.
      pose proof (low_read _ LB1) as LR. apply read_utf8_exact in LR as (LC1 & LC2).
      exists (firstn (N.to_nat max_truncated_chars) cs ++ label (bk_overflow b)). rewrite LC2 at 1. split.
      - rewrite <- utf8_app. apply read_utf8_utf8. apply Forall_app. split; [now apply scalar_firstn|exact LC1].
      - rewrite len_app. unfold len. rewrite firstn_length. change (N.to_nat max_truncated_chars) with 250%nat. lia. }
  eexists. split; [reflexivity|]. rewrite <- overflow_row, !after_links, after_rows. subst b4. rewrite after_links, after_rows. cbn [is_link w_what].
  rewrite R3. cbn [same_sheet]. rewrite R2, overflow_row, O1, K1. split; [lia|]. split; [lia|]. intros x Mx. rewrite !after_rows. now apply R4.
Qed.
Lemma row_works s es : main s -> forall b, Forall entry_handy es -> row_of s b < 1048576 -> bk_overflow b = links b -> links b + need es <= 65530 ->
  exists b', put_row accepts s es b = Ok b' /\ bk_overflow b' = links b' /\ links b' = links b + need es /\ forall x, main x -> row_of x b' = row_of x b.
Proof.
  intros M. induction es as [|[c e] es IH]; intros b F R O K; cbn [put_row need fold_right snd] in *.
  { exists b. split; [reflexivity|]. split; [exact O|]. split; [lia|reflexivity]. }
  fold (need es) in *. apply Forall_cons_iff in F as ((F1 & F2) & F3). cbn [fst snd] in F1, F2.
  assert (X : exists b1, put_entry accepts s (c, e) b = Ok b1 /\ bk_overflow b1 = links b1
    /\ links b1 = links b + match e with Txt t => long t | _ => 0 end /\ forall x, main x -> row_of x b1 = row_of x b).
  { unfold put_entry. cbn [fst snd]. destruct e as [|n|t].
    - exists b. split; [reflexivity|]. split; [exact O|]. split; [lia|reflexivity].
    - rewrite put_works by (split; [exact R|]; split; [exact F1|exact I]). eexists. split; [reflexivity|].
      rewrite <- overflow_row, after_rows, overflow_row, after_links. cbn [is_link w_what]. split; [lia|]. split; [lia|]. intros; apply after_rows.
    - apply string_works; try assumption. lia. }
  destruct X as (b1 & E1 & O1 & L1 & R1). rewrite E1. cbv beta iota. destruct (IH b1 F3) as (b' & A & B & C & D).
  - now rewrite R1.
  - exact O1.
  - rewrite L1. destruct e; lia.
  - exists b'. split; [exact A|]. split; [exact B|]. split; [rewrite C, L1; destruct e; lia|]. intros x Mx. rewrite D by exact Mx. now apply R1.
Qed.
End Room.

(** ** Sizes *)
Lemma char_size c : scalar c -> (List.length (utf8_char (safe c)) <= 3 * List.length (utf8_char c))%nat.
Proof.
  intros S0. pose proof (utf8_char_some c S0). unfold safe. destruct (is_legal_xml c); [lia|]. change (List.length (utf8_char 65533)) with 3%nat. lia.
Qed.
Lemma safe_size t : is_text t -> len (sanitize t) <= 3 * len t /\ (len t <= 536821761 -> handy (sanitize t)).
Proof.
  intros (cs & R). apply read_utf8_exact in R as (F & ->). rewrite sanitize_chars by exact F. split.
  - assert (X : (List.length (utf8 (map safe cs)) <= 3 * List.length (utf8 cs))%nat); [|unfold len; lia].
    induction F as [|c cs S0 F IH]; [cbn; lia|]. cbn [map utf8 flat_map]. fold (utf8 (map safe cs)). fold (utf8 cs). rewrite !app_length. pose proof (char_size c S0). lia.
  - intros L. exists (map safe cs). split; [apply read_utf8_utf8, scalar_safe, F|]. pose proof (utf8_length cs F). unfold len in *. rewrite map_length. lia.
Qed.
Lemma text_handy t : is_text t -> len t <= 536821761 -> handy t.
Proof. intros (cs & R) L. exists cs. split; [exact R|]. apply read_utf8_exact in R as (F & ->). pose proof (utf8_length cs F). unfold len in *. lia. Qed.
Lemma short_handy t : short t -> handy t /\ long t = 0.
Proof.
  intros (L & _ & S0). split; [apply text_handy; [apply legal_is_text; now apply low_legal|lia]|]. unfold long. destruct (N.ltb_spec 32767 (len t)); [lia|reflexivity].
Qed.
Lemma long_le t : long t <= 1. Proof. unfold long. destruct (_ <? _); lia. Qed.
Lemma small_long t : len t <= 32767 -> long t = 0. Proof. unfold long. intros L. destruct (N.ltb_spec 32767 (len t)); [lia|reflexivity]. Qed.
Section All.
Context (accepts : list write -> write -> bool) (OK : forall past w, fits_cell past w -> accepts past w = true)
  (printable : N -> bool) (key_logs : key_node -> list N) (value_logs : key_value -> list N) (recovered_only : bool).
Notation item_cells := (item_row printable key_logs value_logs).
Lemma content_size v c l : get_content v = Ok (c, l) -> content_text c -> len (show_content printable c) <= 536821761 ->
  handy (sanitize_cell printable c) /\ (len (show_content printable c) <= 10922 -> long (sanitize_cell printable c) = 0).
Proof.
  intros E T L. destruct (cell_text printable c T) as (X & _). destruct c; cbn [sanitize_cell show_content content_text] in *;
    try (split; [now apply text_handy|intros Y; apply small_long; lia]).
  destruct (safe_size _ T) as (A & B). split; [now apply B|]. intros Y. apply small_long. lia.
Qed.
Lemma cells_handy n i : item_texts key_logs value_logs i -> Forall (fun t => len t <= 16383 * 32767) (item_strings printable key_logs value_logs i) ->
  Forall entry_handy (item_cells n i) /\ need (item_cells n i) <= 4 /\ (small_item printable key_logs value_logs i = true -> need (item_cells n i) = 0).
Proof.
  assert (O : forall c o, c < 16384 -> entry_handy (c, opt_num o)) by now intros c [].
  assert (ON : forall o x, match opt_num o with Txt t => long t + x | _ => x end = x) by now intros [] x.
  assert (SF : forall t, is_text t -> len t <= 10922 -> long (sanitize t) = 0) by (intros t X Y; apply small_long; pose proof (proj1 (safe_size t X)); lia).
  change (16383 * 32767) with 536821761. unfold small_item. destruct i as [k|k v]; cbn [item_texts item_strings item_row forallb].
  - intros (A & B) S. apply Forall_cons_iff in S as (S1 & S). apply Forall_cons_iff in S as (S2 & _). cbv beta in S1, S2. split.
    + repeat (constructor; [first [apply O; reflexivity|split; [reflexivity|cbn [snd]; first [exact I|apply safe_size; assumption|apply short_handy; first [apply date_short|apply state_short|apply key_flags_short|apply access_flags_short]]]]|]). constructor.
    + unfold need. cbn [fold_right snd]. rewrite !ON, (proj2 (short_handy _ (date_short k))), (proj2 (short_handy _ (state_short (kn_state k)))),
        (proj2 (short_handy _ (key_flags_short (kd_flags (kn_detail k))))), (proj2 (short_handy _ (access_flags_short (kd_access (kn_detail k))))).
      pose proof (long_le (sanitize (kn_path k))). pose proof (long_le (sanitize (key_logs k))). split; [lia|]. intros X. rewrite !andb_true_iff, !N.leb_le in X.
      rewrite !SF by tauto. reflexivity.
  - intros (A & B & C & D) S. destruct (value_content v C) as (c & l & E & CE & CT). rewrite E in *. rewrite CE, pretty in *. apply name_text in B.
    apply Forall_cons_iff in S as (S1 & S). apply Forall_cons_iff in S as (S2 & S). apply Forall_cons_iff in S as (S3 & S). apply Forall_cons_iff in S as (S4 & _). cbv beta in S1, S2, S3, S4.
    destruct (content_size v c l E CT S3) as (H1 & H2). split.
    + repeat (constructor; [first [apply O; reflexivity|split; [reflexivity|cbn [snd]; first [exact I|exact H1|apply safe_size; assumption|apply short_handy; first [apply state_short|apply type_short]]]]|]). constructor.
    + unfold need. cbn [fold_right snd]. rewrite !ON, (proj2 (short_handy _ (state_short (kv_state v)))), (proj2 (short_handy _ (type_short c))).
      pose proof (long_le (sanitize (kn_path k))). pose proof (long_le (sanitize (value_logs v))). pose proof (long_le (sanitize (value_name v))). pose proof (long_le (sanitize_cell printable c)).
      split; [lia|]. intros X. rewrite !andb_true_iff, !N.leb_le in X. rewrite !SF, H2 by tauto. reflexivity.
Qed.
Notation big_items is := (len (List.filter (fun i => negb (small_item printable key_logs value_logs i)) is)).
Notation big_messages ms := (len (List.filter (fun m => negb (small_message m)) ms)).
Lemma items_work is : forall b, Forall (item_texts key_logs value_logs) is ->
  Forall (fun i => Forall (fun t => len t <= 16383 * 32767) (item_strings printable key_logs value_logs i)) is ->
  bk_items b + len is < 1048576 -> bk_overflow b = links b -> links b + 4 * big_items is <= 65530 ->
  exists b', write_each (put_item accepts printable key_logs value_logs) is b = Ok b' /\ bk_overflow b' = links b' /\ links b' <= links b + 4 * big_items is /\ bk_logs b' = bk_logs b.
Proof.
  induction is as [|i is IH]; intros b T S R O K; cbn [write_each List.filter] in *.
  { exists b. split; [reflexivity|]. split; [exact O|]. split; [change (len []) with 0; lia|reflexivity]. }
  rewrite len_cons in R. apply Forall_cons_iff in T as (T1 & T2). apply Forall_cons_iff in S as (S1 & S2). cbv beta in S1.
  unfold put_item at 1. cbv zeta. destruct (next_rows Items b) as (W & RO); [cbn [row_of]; lia|]. set (b0 := next_row Items b) in *.
  destruct (cells_handy (bk_items b0) i T1 S1) as (H1 & H2 & H3).
  assert (I0 : bk_items b0 = bk_items b + 1) by exact (RO Items). assert (L0 : links b0 = links b) by (unfold links; now rewrite W).
  assert (G0 : bk_logs b0 = bk_logs b) by exact (RO Logs).
  assert (O0 : bk_overflow b0 = links b0) by (rewrite L0, <- O; exact (RO Overflow)).
  assert (N0 : need (item_cells (bk_items b0) i) + 4 * big_items is <= 4 * len (if negb (small_item printable key_logs value_logs i) then i :: List.filter (fun i => negb (small_item printable key_logs value_logs i)) is else List.filter (fun i => negb (small_item printable key_logs value_logs i)) is)).
  { destruct (small_item _ _ _ i); cbn [negb]; [rewrite H3 by reflexivity; lia|]. rewrite len_cons. lia. }
  destruct (row_works accepts OK Items (item_cells (bk_items b0) i) (or_introl eq_refl) b0 H1) as (b1 & E1 & O1 & L1 & R1); [cbn [row_of]; lia|exact O0|lia|].
  rewrite E1. cbv beta iota. pose proof (R1 Items (or_introl eq_refl)) as RI. pose proof (R1 Logs (or_intror eq_refl)) as RL. cbn [row_of] in RI, RL.
  destruct (IH b1 T2 S2) as (b' & A & B & C & D); [lia|exact O1|lia|]. exists b'. split; [exact A|]. split; [exact B|]. split; [lia|]. lia.
Qed.
Lemma messages_work ms : forall b, Forall (fun m => is_text (mg_text m)) ms -> Forall (fun m => len (mg_text m) <= 16383 * 32767) ms ->
  bk_logs b + len ms <= 1048576 -> bk_overflow b = links b -> links b + big_messages ms <= 65530 ->
  exists b', write_each (put_message accepts) ms b = Ok b'.
Proof.
  induction ms as [|m ms IH]; intros b T S R O K; cbn [write_each List.filter] in *; [now exists b|].
  rewrite len_cons in R. apply Forall_cons_iff in T as (T1 & T2). apply Forall_cons_iff in S as (S1 & S2). cbv beta in S1, T1. change (16383 * 32767) with 536821761 in S1.
  unfold put_message at 1. fold (message_row m). assert (ND : need (message_row m) = long (mg_text m)).
  { unfold need, message_row. cbn [fold_right snd]. rewrite (proj2 (short_handy _ (code_short (mg_code m)))). lia. }
  assert (N0 : long (mg_text m) + big_messages ms <= len (if negb (small_message m) then m :: List.filter (fun m => negb (small_message m)) ms else List.filter (fun m => negb (small_message m)) ms)).
  { unfold small_message at 2. pose proof (long_le (mg_text m)). destruct (N.leb_spec (len (mg_text m)) 32767); cbn [negb]; [rewrite small_long by assumption; lia|]. rewrite len_cons. lia. }
  assert (H : Forall entry_handy (message_row m)).
  { constructor; [split; [reflexivity|apply short_handy, code_short]|]. constructor; [split; [reflexivity|now apply text_handy]|constructor]. }
  destruct (row_works accepts OK Logs (message_row m) (or_intror eq_refl) b H) as (b1 & E1 & O1 & L1 & R1); [cbn [row_of]; lia|exact O|lia|].
  rewrite E1. cbv beta iota. pose proof (R1 Logs (or_intror eq_refl)) as RL. cbn [row_of] in RL.
  destruct (next_rows Logs b1) as (W & RO); [cbn [row_of]; lia|]. set (b2 := next_row Logs b1) in *.
  assert (I0 : bk_logs b2 = bk_logs b1 + 1) by exact (RO Logs). assert (L0 : links b2 = links b1) by (unfold links; now rewrite W).
  assert (O0 : bk_overflow b2 = links b2) by (rewrite L0, <- O1; exact (RO Overflow)).
  apply (IH b2 T2 S2); [lia|exact O0|lia].
Qed.
Lemma export_works ks log : Forall (item_texts key_logs value_logs) (List.filter (kept recovered_only) (flat_map tsv_items ks)) ->
  Forall (fun m => is_text (mg_text m)) (or_default log) ->
  has_room printable key_logs value_logs (List.filter (kept recovered_only) (flat_map tsv_items ks)) (or_default log) ->
  exists b, xlsx_export accepts printable key_logs value_logs recovered_only ks log = Ok b.
Proof.
  intros T TL (H1 & H2 & H3 & H4 & H5). rewrite export_same.
  destruct (row_works accepts OK Items header_cells (or_introl eq_refl) new_book) as (b0 & E0 & O0 & L0 & R0).
  - unfold header_cells, tsv_columns. cbn [map numbered_from]. repeat (constructor; [split; [reflexivity|apply short_handy; short_literal]|]). constructor.
  - reflexivity.
  - reflexivity.
  - vm_compute. discriminate.
  - rewrite E0. cbv beta iota. assert (L : links b0 = 0) by (rewrite L0; vm_compute; reflexivity).
    pose proof (R0 Items (or_introl eq_refl)) as RI. pose proof (R0 Logs (or_intror eq_refl)) as RL. change (bk_items b0 = 0) in RI. change (bk_logs b0 = 0) in RL.
    destruct (items_work _ b0 T H4) as (b1 & E1 & O1 & L1 & R1); [lia|exact O0|lia|]. rewrite E1. cbv beta iota.
    apply messages_work; try assumption; lia.
Qed.
End All.
