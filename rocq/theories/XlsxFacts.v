(** Proofs about the spreadsheet export. *)
From Coq Require Import String.
From Verif Require Import Base BaseFacts Util UtilSpec UtilText LayoutSpec Types Value Node Parser TxSpec TxLog Log Export ExportSpec ExportFacts
  Date DateSpec DateFacts CellSpec CellData TreeSpec Show ShowSpec ShowFacts Xlsx XlsxSpec.
Open Scope string_scope.
Open Scope N_scope.
Open Scope list_scope.

(** ** Cells *)
Lemma cell_snoc ws w s r c : cell_at (ws ++ [w]) s r c =
  if here s r c w then if is_link w then cell_at ws s r c else Some (w_what w) else cell_at ws s r c.
Proof.
  unfold cell_at. rewrite filter_app, map_app. cbn [List.filter]. destruct (here s r c w); cbn [andb map]; [|now rewrite app_nil_r].
  destruct (is_link w); cbn [negb map]; [now rewrite app_nil_r|]. apply last_last.
Qed.
Lemma link_snoc ws w s r c : link_at (ws ++ [w]) s r c =
  if here s r c w then if is_link w then Some (w_what w) else link_at ws s r c else link_at ws s r c.
Proof.
  unfold link_at. rewrite filter_app, map_app. cbn [List.filter]. destruct (here s r c w); cbn [andb map]; [|now rewrite app_nil_r].
  destruct (is_link w); cbn [map]; [apply last_last|now rewrite app_nil_r].
Qed.
Lemma sheet_refl s : same_sheet s s = true. Proof. now destruct s. Qed.
Lemma sheet_eq a b : same_sheet a b = true -> a = b. Proof. destruct a, b; easy. Qed.
Lemma here_iff s r c w : here s r c w = true <-> w_sheet w = s /\ w_row w = r /\ w_col w = c.
Proof.
  unfold here. rewrite !andb_true_iff, !N.eqb_eq. split; [intros ((A & B) & C); now apply sheet_eq in A|intros (-> & -> & ->); now rewrite sheet_refl].
Qed.
Lemma here_self s r c x : here s r c (mkWrite s r c x) = true. Proof. now apply here_iff. Qed.

Inductive expected := Nothing | Num (n : N) | Txt (t : list N).
Inductive holds (o : N) (ws : list write) (s : sheet) (r c : N) : list N -> Prop :=
| holds_empty : blank ws s r c -> holds o ws s r c []
| holds_cell t : cell_at ws s r c = Some (Text t) -> link_at ws s r c = None -> holds o ws s r c t
| holds_link row n parts sample cs rest :
    n < o ->
    link_at ws s r c = Some (Link (text "internal:Overflow!A" ++ row)) -> numeral row (n + 1) ->
    cell_at ws s r c = Some (Text (sample ++ text " [truncated; row: " ++ row ++ text "]")) ->
    cell_at ws Overflow n 0 = Some (Text (text " [truncated; row: " ++ row ++ text "]")) ->
    parts_at ws n 1 parts -> concat parts = sample ++ rest -> read_utf8 sample = Some cs -> len cs = 250 ->
    holds o ws s r c (concat parts).
Lemma holds_reads o ws s r c t : holds o ws s r c t -> reads ws s r c t.
Proof. intros H. destruct H; [now constructor|now constructor 2|eapply reads_link; eassumption]. Qed.
Definition shows (o : N) (ws : list write) (s : sheet) (r c : N) (e : expected) : Prop :=
  match e with
  | Nothing => blank ws s r c
  | Num n => number_at ws s r c n
  | Txt t => holds o ws s r c t
  end.

(** A write to another place, and to a new row of the overflow. *)
Definition away (o : N) (s : sheet) (r c : N) (w : write) : Prop :=
  here s r c w = false /\ (w_sheet w = Overflow -> o <= w_row w).
Lemma parts_away o ws w n : n < o -> (w_sheet w = Overflow -> o <= w_row w) -> forall parts c, parts_at ws n c parts -> parts_at (ws ++ [w]) n c parts.
Proof.
  intros L A. assert (F : forall c, here Overflow n c w = false).
  { intros c. destruct (here Overflow n c w) eqn:E; [|reflexivity]. apply here_iff in E as (E1 & E2 & _). specialize (A E1). lia. }
  induction parts as [|p parts IH]; intros c; cbn [parts_at]; unfold blank; rewrite cell_snoc, link_snoc, F; [auto|].
  intros (X1 & X2 & X3). split; [exact X1|]. split; [exact X2|]. now apply IH.
Qed.
Lemma shows_away o ws w s r c e : away o s r c w -> shows o ws s r c e -> shows o (ws ++ [w]) s r c e.
Proof.
  intros (A & B). destruct e as [|n|t]; cbn [shows]; unfold blank, number_at; rewrite ?cell_snoc, ?link_snoc, ?A; auto.
  intros H. assert (F : forall n, n < o -> here Overflow n 0 w = false).
  { intros n L. destruct (here Overflow n 0 w) eqn:E; [|reflexivity]. apply here_iff in E as (E1 & E2 & _). specialize (B E1). lia. }
  destruct H as [(X1 & X2)|t X1 X2|row n parts sample cs rest L X1 X2 X3 X4 X5 X6 X7 X8].
  - constructor. unfold blank. now rewrite cell_snoc, link_snoc, A.
  - constructor; now rewrite ?cell_snoc, ?link_snoc, A.
  - apply (holds_link o (ws ++ [w]) s r c row n parts sample cs rest); try assumption; rewrite ?cell_snoc, ?link_snoc, ?A, ?(F n L); try assumption.
    now apply (parts_away o).
Qed.
Lemma shows_all_away o more : forall ws s r c e, Forall (away o s r c) more -> shows o ws s r c e -> shows o (ws ++ more) s r c e.
Proof.
  induction more as [|w more IH]; intros ws s r c e F H; [now rewrite app_nil_r|]. apply Forall_cons_iff in F as (F1 & F2).
  replace (ws ++ w :: more) with ((ws ++ [w]) ++ more) by now rewrite <- app_assoc. apply IH; [exact F2|]. now apply shows_away.
Qed.
Lemma shows_more o o' ws s r c e : o <= o' -> shows o ws s r c e -> shows o' ws s r c e.
Proof.
  intros L. destruct e as [|n|t]; cbn [shows]; auto. intros H. destruct H; [now constructor|now constructor 2|].
  eapply holds_link; try eassumption. lia.
Qed.

(** ** Books *)
Definition rows : Type := list (list (N * expected)) * list (list (N * expected)).
Definition get (s : sheet) (R : rows) : list (list (N * expected)) := match s with Items => fst R | _ => snd R end.
Definition set (s : sheet) (R : rows) (x : list (list (N * expected))) : rows :=
  match s with Items => (x, snd R) | _ => (fst R, x) end.
Definition entry (row : list (N * expected)) (c : N) : expected :=
  match find (fun x => fst x =? c) row with Some x => snd x | None => Nothing end.
Lemma entry_none row c : ~ In c (map fst row) -> entry row c = Nothing.
Proof.
  unfold entry. induction row as [|x row IH]; [reflexivity|]. cbn [map In find]. intros N0. destruct (N.eqb_spec (fst x) c); [tauto|]. apply IH. tauto.
Qed.
Lemma entry_snoc row c e d : ~ In c (map fst row) -> entry (row ++ [(c, e)]) d = if d =? c then e else entry row d.
Proof.
  unfold entry. induction row as [|x row IH]; cbn [app map In find].
  - intros _. cbn [fst snd]. rewrite N.eqb_sym. now destruct (d =? c).
  - intros N0. destruct (N.eqb_spec (fst x) d) as [E|D]; [|apply IH; tauto]. destruct (N.eqb_spec d c); [exfalso; apply N0; left; congruence|reflexivity].
Qed.
Lemma nth_last {A} (pre : list A) x y r d : nth r (pre ++ [x]) d = if Nat.eqb r (List.length pre) then x else nth r (pre ++ [y]) d.
Proof.
  destruct (Nat.eqb_spec r (List.length pre)) as [->|D]; [rewrite app_nth2, Nat.sub_diag by lia; reflexivity|].
  destruct (Nat.lt_ge_cases r (List.length pre)); [now rewrite !app_nth1|]. rewrite !app_nth2 by lia.
  destruct (r - List.length pre)%nat as [|[|m]] eqn:E; [lia| |]; cbn [nth]; reflexivity.
Qed.

Definition main (s : sheet) : Prop := s = Items \/ s = Logs.
Record good (b : book) (R : rows) : Prop := mkGood {
  g_shows : forall s r c, main s -> shows (bk_overflow b) (bk_writes b) s r c (entry (nth (N.to_nat r) (get s R) []) c);
  g_rows : forall s, main s -> len (get s R) = row_of s b + 1;
  g_over : Forall (fun w => w_sheet w = Overflow -> w_row w < bk_overflow b) (bk_writes b);
  g_max : forall s, row_of s b <= 1048576
}.
Lemma good_new : good new_book ([[]], [[]]).
Proof.
  constructor; cbn.
  - intros s r c M. assert (E : nth (N.to_nat r) (get s ([[]], [[]])) [] = []).
    { destruct M as [-> | ->]; cbn; destruct (N.to_nat r) as [|[|m]]; reflexivity. }
    rewrite E. cbn. now split.
  - intros s [-> | ->]; reflexivity.
  - constructor.
  - intros []; cbn; lia.
Qed.

Section Xlsx.
Context (accepts : list write -> write -> bool) (IN : in_sheet accepts).

Lemma put_ok s col what b b' : put accepts s col what b = Ok b' ->
  bk_writes b' = bk_writes b ++ [mkWrite s (row_of s b) col what] /\ (forall t, row_of t b' = row_of t b)
  /\ row_of s b < 1048576 /\ col < 16384.
Proof.
  unfold put. destruct (accepts _ _) eqn:A; [|discriminate]. apply IN in A as (A1 & A2). destruct b as [ws i l o]. intros [= <-].
  split; [reflexivity|]. split; [now intros []|]. now split.
Qed.
Lemma overflow_row b : row_of Overflow b = bk_overflow b. Proof. now destruct b. Qed.
Lemma next_rows s b : row_of s b < 1048576 ->
  bk_writes (next_row s b) = bk_writes b /\ forall t, row_of t (next_row s b) = if same_sheet t s then row_of t b + 1 else row_of t b.
Proof.
  intros L. destruct b as [ws i l o]. assert (W : forall x, x < 1048576 -> w32 (x + 1) = x + 1).
  { intros x Hx. unfold w32. rewrite N.mod_small; [reflexivity|]. change (2 ^ 32) with 4294967296. lia. }
  destruct s; cbn in L; (split; [reflexivity|]); intros []; cbn; auto.
Qed.
Lemma get_set s R x : main s -> get s (set s R x) = x. Proof. intros [-> | ->]; reflexivity. Qed.
Lemma get_other s t R x : main s -> main t -> s <> t -> get t (set s R x) = get t R.
Proof. intros [-> | ->] [-> | ->] H; try reflexivity; contradiction. Qed.
Lemma sheet_dec (s t : sheet) : {s = t} + {s <> t}. Proof. decide equality. Qed.

Lemma good_next s b R : main s -> row_of s b < 1048576 -> good b R -> good (next_row s b) (set s R (get s R ++ [[]])).
Proof.
  intros M L [G1 G2 G3 G4]. destruct (next_rows s b L) as (W & RO).
  assert (O : bk_overflow (next_row s b) = bk_overflow b).
  { rewrite <- !overflow_row, RO. now destruct M as [-> | ->]. }
  constructor.
  - intros t r c Mt. rewrite W, O. specialize (G1 t r c Mt). destruct (sheet_dec s t) as [<-|D].
    + rewrite get_set by exact M. replace (nth (N.to_nat r) (get s R ++ [[]]) []) with (nth (N.to_nat r) (get s R) ([] : list (N * expected))); [exact G1|].
      destruct (Nat.lt_ge_cases (N.to_nat r) (List.length (get s R))) as [X|X]; [now rewrite app_nth1|]. rewrite app_nth2 by exact X.
      rewrite (nth_overflow _ _ X). now destruct (N.to_nat r - _)%nat as [|[|m]].
    + now rewrite get_other.
  - intros t Mt. rewrite RO. destruct (sheet_dec s t) as [<-|D].
    + rewrite get_set, sheet_refl by exact M. rewrite len_app, (G2 s M). reflexivity.
    + rewrite get_other by assumption. rewrite (G2 t Mt). destruct (same_sheet t s) eqn:E; [apply sheet_eq in E; congruence|reflexivity].
  - rewrite W, O. exact G3.
  - intros t. rewrite RO. destruct (same_sheet t s) eqn:E; [apply sheet_eq in E; subst; lia|apply G4].
Qed.

(** One more write to the current row of a sheet, at a new column. *)
Lemma good_put s b R pre row col e more b' : main s -> good b R -> get s R = pre ++ [row] -> ~ In col (map fst row) ->
  bk_writes b' = bk_writes b ++ more -> (forall t, row_of t b <= row_of t b' <= 1048576) -> (forall t, main t -> row_of t b' = row_of t b) ->
  Forall (fun w => w_sheet w = Overflow /\ bk_overflow b <= w_row w < bk_overflow b' \/ w_sheet w = s /\ w_row w = row_of s b /\ w_col w = col) more ->
  (blank (bk_writes b) s (row_of s b) col -> shows (bk_overflow b') (bk_writes b') s (row_of s b) col e) ->
  good b' (set s R (pre ++ [row ++ [(col, e)]])).
Proof.
  intros M G ER NI W RM RO F SH. pose proof G as [G1 G2 G3 G4].
  assert (LP : row_of s b = len pre).
  { pose proof (G2 s M) as X. rewrite ER, len_app in X. change (len [row]) with 1 in X. lia. }
  assert (AT : forall x : list (N * expected), nth (N.to_nat (row_of s b)) (pre ++ [x]) [] = x).
  { intros x. rewrite LP, to_nat_len, app_nth2 by apply le_n. now rewrite Nat.sub_diag. }
  assert (OV : bk_overflow b <= bk_overflow b') by (rewrite <- !overflow_row; apply RM).
  constructor.
  - intros t r c Mt. specialize (G1 t r c Mt). destruct (here t r c (mkWrite s (row_of s b) col (Number 0))) eqn:HE.
    + apply here_iff in HE as (<- & <- & <-). cbn [w_sheet w_row w_col] in *. rewrite get_set by exact M. rewrite AT, entry_snoc, N.eqb_refl by exact NI. apply SH.
      rewrite ER, AT, entry_none in G1 by exact NI. exact G1.
    + assert (A : Forall (away (bk_overflow b) t r c) more).
      { apply Forall_forall. intros w Iw. rewrite Forall_forall in F. specialize (F w Iw). split.
        - destruct (here t r c w) eqn:E; [|reflexivity]. apply here_iff in E as (E1 & E2 & E3).
          destruct F as [(F1 & _)|(F1 & F2 & F3)]; [destruct Mt; congruence|].
          rewrite <- HE. symmetry. apply here_iff. cbn. split; [|split]; congruence.
        - intros E. destruct F as [(_ & F2)|(F1 & _)]; [lia|]. destruct M; congruence. }
      rewrite W. apply (shows_more (bk_overflow b)); [exact OV|]. apply shows_all_away; [exact A|].
      replace (entry (nth (N.to_nat r) (get t (set s R (pre ++ [row ++ [(col, e)]]))) []) c) with (entry (nth (N.to_nat r) (get t R) []) c); [exact G1|].
      destruct (sheet_dec s t) as [<-|D]; [|now rewrite get_other]. rewrite get_set, ER by exact M.
      rewrite (nth_last pre row (row ++ [(col, e)])). destruct (Nat.eqb_spec (N.to_nat r) (List.length pre)) as [E|E]; [|reflexivity].
      assert (r = row_of s b) as -> by (rewrite LP; unfold len; lia). rewrite AT, entry_snoc by exact NI.
      destruct (N.eqb_spec c col) as [->|NE]; [|reflexivity]. rewrite here_self in HE. discriminate.
  - intros t Mt. rewrite (RO t Mt). destruct (sheet_dec s t) as [<-|D]; [|now rewrite get_other; [apply G2|..]].
    rewrite get_set by exact M. rewrite len_app, LP. reflexivity.
  - rewrite W. apply Forall_app. split; [eapply Forall_impl; [|exact G3]; intros w X E; specialize (X E); lia|].
    eapply Forall_impl; [|exact F]. intros w [(F1 & F2)|(F1 & _)] E; [lia|]. destruct M; congruence.
  - intros t. apply RM.
Qed.

(** ** Long texts *)
Lemma skipn_firstn_length {A} n (l : list A) : (List.length (skipn n l) + List.length (firstn n l) = List.length l)%nat.
Proof. rewrite skipn_length, firstn_length. lia. Qed.
Lemma utf8_char_some c : scalar c -> (1 <= List.length (utf8_char c) <= 4)%nat.
Proof. unfold scalar, utf8_char. intros H. destruct (c <? 0x80), (c <? 0x800), (c <? 0x10000); cbn; lia. Qed.
Lemma utf8_length cs : Forall scalar cs -> (List.length cs <= List.length (utf8 cs) <= 4 * List.length cs)%nat.
Proof.
  induction 1 as [|c cs S0 F IH]; [cbn; lia|]. cbn [utf8 flat_map]. rewrite app_length. fold (utf8 cs). pose proof (utf8_char_some c S0). cbn [List.length]. lia.
Qed.
Lemma scalar_firstn n cs : Forall scalar cs -> Forall scalar (firstn n cs).
Proof. intros F. rewrite <- (firstn_skipn n cs) in F. now apply Forall_app in F. Qed.
Lemma scalar_skipn n cs : Forall scalar cs -> Forall scalar (skipn n cs).
Proof. intros F. rewrite <- (firstn_skipn n cs) in F. now apply Forall_app in F. Qed.
Lemma split_chars cs m : Forall scalar cs -> safe_split_at (utf8 cs) m = (utf8 (firstn (N.to_nat m) cs), utf8 (skipn (N.to_nat m) cs)).
Proof.
  intros F. unfold safe_split_at. rewrite str_chars_utf8 by exact F. pose proof (utf8_length cs F) as L.
  destruct (N.min_spec m (len (utf8 cs))) as [(_ & ->)|(X & ->)]; [reflexivity|].
  assert (Y : (List.length cs <= N.to_nat (len (utf8 cs)))%nat) by (rewrite to_nat_len; lia).
  assert (Z : (List.length cs <= N.to_nat m)%nat) by lia. now rewrite !firstn_all2, !skipn_all2 by assumption.
Qed.
Lemma truncate_chars cs m : Forall scalar cs -> safe_truncate (utf8 cs) m = utf8 (firstn (N.to_nat m) cs).
Proof. intros F. pose proof (split_chars cs m F) as X. unfold safe_split_at in X. unfold safe_truncate. congruence. Qed.
Lemma utf8_nil cs : Forall scalar cs -> utf8 cs = [] -> cs = [].
Proof. intros F E. pose proof (utf8_length cs F) as L. rewrite E in L. destruct cs; [reflexivity|cbn in L; lia]. Qed.
Definition chunk_text (t : list N) : Prop := t <> [] /\ exists cs, t = utf8 cs /\ Forall scalar cs /\ len cs <= 32767.
Lemma chunks_right : forall fuel cs, Forall scalar cs -> (List.length cs <= fuel)%nat -> exists l, chunks fuel (utf8 cs) = Ok l /\ concat l = utf8 cs
  /\ Forall chunk_text l /\ 32767 * len l < len cs + 32767.
Proof.
  induction fuel as [|fuel IH]; intros cs F L.
  { destruct cs; [|cbn in L; lia]. exists []. split; [reflexivity|]. split; [reflexivity|]. split; [constructor|reflexivity]. }
  destruct cs as [|c cs]; [exists []; split; [reflexivity|]; split; [reflexivity|]; split; [constructor|reflexivity]|].
  set (all := c :: cs) in *. destruct (utf8 all) as [|x u] eqn:EU; [apply utf8_nil in EU; [discriminate EU|exact F]|].
  cbn [chunks]. rewrite <- EU. rewrite (split_chars all _ F). change max_excel_cell_len with 32767.
  set (n := N.to_nat 32767). assert (NP : (0 < n)%nat) by (subst n; lia). assert (NV : N.of_nat n = 32767) by (subst n; lia). clearbody n.
  destruct (IH (skipn n all)) as (l & E & C & FL & LN); [now apply scalar_skipn|rewrite skipn_length; subst all; cbn [List.length] in *; lia|].
  rewrite E. cbv beta iota. exists (utf8 (firstn n all) :: l). split; [reflexivity|]. split.
  { cbn [concat]. rewrite C, <- utf8_app. now rewrite firstn_skipn. }
  split.
  { constructor; [|exact FL]. split.
    - intros Z. apply utf8_nil in Z; [|now apply scalar_firstn]. destruct n; [lia|discriminate Z].
    - exists (firstn n all). split; [reflexivity|]. split; [now apply scalar_firstn|]. unfold len. rewrite firstn_length. lia. }
  rewrite len_cons. unfold len in LN |- *. rewrite skipn_length in LN. destruct (Nat.le_gt_cases n (List.length all)) as [X|X]; [lia|].
  assert (Z : skipn n all = []) by (apply skipn_all2; lia). rewrite Z in C. cbn in C. destruct l as [|y l].
  - cbn. assert (0 < List.length all)%nat by (subst all; cbn; lia). lia.
  - exfalso. apply Forall_cons_iff in FL as ((NE & _) & _). destruct y; [contradiction|discriminate C].
Qed.
Fixpoint chunk_writes (r : N) (col : N) (l : list (list N)) : list write :=
  match l with [] => [] | c :: l => mkWrite Overflow r col (Text c) :: chunk_writes r (col + 1) l end.
Lemma put_chunks_ok l : forall col b b', put_chunks accepts l col b = Ok b' ->
  bk_writes b' = bk_writes b ++ chunk_writes (bk_overflow b) col l /\ forall t, row_of t b' = row_of t b.
Proof.
  induction l as [|c l IH]; intros col b b'; cbn [put_chunks chunk_writes].
  { intros [= <-]. split; [now rewrite app_nil_r|reflexivity]. }
  destruct (65535 <? col); [discriminate|]. destruct (put accepts Overflow col (Text c) b) as [b1| | |] eqn:E; try discriminate.
  apply put_ok in E as (W & RO & _). intros E. apply IH in E as (W1 & R1). rewrite <- (overflow_row b1), RO, overflow_row in W1.
  split; [rewrite W1, W, <- app_assoc; reflexivity|]. intros t. now rewrite R1.
Qed.
Lemma cell_none_app s r c more ws : Forall (fun w => here s r c w = false) ws -> cell_at (ws ++ more) s r c = cell_at more s r c /\ link_at (ws ++ more) s r c = link_at more s r c.
Proof.
  intros F. unfold cell_at, link_at. rewrite !filter_app. assert (E : forall p, List.filter (fun w => here s r c w && p w) ws = []).
  { intros p. induction F as [|w ws H F IH]; [reflexivity|]. cbn [List.filter]. rewrite H. cbn [andb]. exact IH. }
  rewrite !E. now split.
Qed.
Lemma cell_app_none s r c more ws : Forall (fun w => here s r c w = false) more -> cell_at (ws ++ more) s r c = cell_at ws s r c /\ link_at (ws ++ more) s r c = link_at ws s r c.
Proof.
  intros F. revert ws. induction F as [|w more H F IH]; intros ws; [now rewrite app_nil_r|].
  replace (ws ++ w :: more) with ((ws ++ [w]) ++ more) by now rewrite <- app_assoc. destruct (IH (ws ++ [w])) as (-> & ->). now rewrite cell_snoc, link_snoc, H.
Qed.
Lemma chunk_away r c l : forall col, c < col -> Forall (fun w => here Overflow r c w = false) (chunk_writes r col l).
Proof.
  induction l as [|x l IH]; intros col L; cbn [chunk_writes]; constructor; [|apply IH; lia].
  destruct (here _ _ _ _) eqn:E; [|reflexivity]. apply here_iff in E as (_ & _ & E). cbn in E. lia.
Qed.
Lemma chunk_rows r l : forall col, Forall (fun w => w_sheet w = Overflow /\ w_row w = r) (chunk_writes r col l).
Proof. induction l as [|x l IH]; intros col; cbn [chunk_writes]; constructor; [now split|apply IH]. Qed.
Lemma parts_written r l : forall ws col, Forall (fun w => w_sheet w = Overflow -> w_row w = r -> w_col w < col) ws -> parts_at (ws ++ chunk_writes r col l) r col l.
Proof.
  induction l as [|x l IH]; intros ws col F; cbn [chunk_writes parts_at].
  - rewrite app_nil_r. assert (Z : Forall (fun w => here Overflow r col w = false) ws).
    { eapply Forall_impl; [|exact F]. intros w X. destruct (here Overflow r col w) eqn:E; [|reflexivity]. apply here_iff in E as (E1 & E2 & E3). specialize (X E1 E2). lia. }
    destruct (cell_none_app Overflow r col [] ws Z) as (A & B). rewrite app_nil_r in A, B. split; assumption.
  - assert (Z : Forall (fun w => here Overflow r col w = false) ws).
    { eapply Forall_impl; [|exact F]. intros w X. destruct (here Overflow r col w) eqn:E; [|reflexivity]. apply here_iff in E as (E1 & E2 & E3). specialize (X E1 E2). lia. }
    replace (ws ++ mkWrite Overflow r col (Text x) :: chunk_writes r (col + 1) l) with ((ws ++ [mkWrite Overflow r col (Text x)]) ++ chunk_writes r (col + 1) l) by now rewrite <- app_assoc.
    destruct (cell_app_none Overflow r col (chunk_writes r (col + 1) l) (ws ++ [mkWrite Overflow r col (Text x)])) as (-> & ->); [apply chunk_away; lia|].
    destruct (cell_none_app Overflow r col [mkWrite Overflow r col (Text x)] ws Z) as (-> & ->).
    change [mkWrite Overflow r col (Text x)] with ([] ++ [mkWrite Overflow r col (Text x)]) at 1 2. rewrite cell_snoc, link_snoc, here_self. cbn [is_link w_what].
    split; [reflexivity|]. split; [reflexivity|]. apply IH. apply Forall_app. split; [eapply Forall_impl; [|exact F]; intros w X E1 E2; specialize (X E1 E2); lia|].
    constructor; [cbn; intros; lia|constructor].
Qed.

(** ** Writing a text *)
Lemma good_string s b R pre row col t b' : main s -> is_text t -> good b R -> get s R = pre ++ [row] -> ~ In col (map fst row) ->
  check_write_string accepts s col t b = Ok b' ->
  good b' (set s R (pre ++ [row ++ [(col, Txt t)]])) /\ forall x, main x -> row_of x b' = row_of x b.
Proof.
  intros M T G ER NI E. pose proof G as [G1 G2 G3 G4].
  assert (SELF : forall b', bk_writes b' = bk_writes b ++ [] -> (forall x, row_of x b' = row_of x b) -> t = [] -> good b' (set s R (pre ++ [row ++ [(col, Txt t)]]))).
  { intros b1 W RO ->. apply (good_put s b R pre row col (Txt []) [] b1); try assumption; [intros x; rewrite RO; split; [lia|apply G4]|intros; apply RO|constructor|].
    intros BL. rewrite W, app_nil_r. now constructor. }
  destruct t as [|t0 t']; [injection E as <-; split; [apply SELF; [now rewrite app_nil_r|reflexivity|reflexivity]|reflexivity]|].
  clear SELF. set (t := t0 :: t') in *. unfold check_write_string in E. fold t in E. change (match t with [] => Ok b | _ :: _ => write_string_handle_overflow accepts s col t b end) with (write_string_handle_overflow accepts s col t b) in E.
  unfold write_string_handle_overflow in E. destruct (N.ltb_spec max_excel_cell_len (len t)) as [L|L].
  2:{ apply put_ok in E as (W & RO & RL & _). split; [|intros; apply RO].
      apply (good_put s b R pre row col (Txt t) [mkWrite s (row_of s b) col (Text t)] b'); try assumption.
      - intros x. rewrite RO. split; [lia|apply G4].
      - intros; apply RO.
      - constructor; [right; now cbn|constructor].
      - intros (B1 & B2). cbn [shows]. apply holds_cell; rewrite W, ?cell_snoc, ?link_snoc, here_self; cbn [is_link w_what]; [reflexivity|exact B2]. }
  destruct T as (cs & T). apply read_utf8_exact in T as (SC & ET).
  pose proof (utf8_length cs SC) as UL.
  destruct (chunks_right (List.length t) cs SC) as (l & CH & CC & CT & CN); [rewrite ET; lia|].
  rewrite <- ET in CH, CC. rewrite CH in E. cbv beta iota zeta in E.
  set (o := bk_overflow b) in *. set (label := text " [truncated; row: " ++ decimal (w32 (o + 1)) ++ text "]") in *.
  destruct (put accepts Overflow 0 (Text label) b) as [b1| | |] eqn:E1; try discriminate E. apply put_ok in E1 as (W1 & R1 & L1 & _).
  cbv beta iota in E. destruct (put_chunks accepts l 1 b1) as [b2| | |] eqn:E2; try discriminate E. apply put_chunks_ok in E2 as (W2 & R2).
  cbv beta iota in E. rewrite overflow_row in W1, L1. fold o in W1, L1.
  assert (O1 : bk_overflow b1 = o) by (rewrite <- overflow_row, R1; apply overflow_row). rewrite O1 in W2.
  assert (O2 : row_of Overflow b2 < 1048576) by (rewrite R2, R1, overflow_row; exact L1).
  destruct (next_rows Overflow b2 O2) as (W3 & R3). set (b3 := next_row Overflow b2) in *.
  assert (O3 : bk_overflow b3 = o + 1) by (rewrite <- overflow_row, R3, R2, R1, overflow_row; reflexivity). rewrite O3 in E.
  assert (M3 : forall x, main x -> row_of x b3 = row_of x b).
  { intros x [-> | ->]; rewrite R3; cbn [same_sheet]; rewrite R2, R1; reflexivity. }
  destruct (put accepts s col (Link _) b3) as [b4| | |] eqn:E4; try discriminate E. apply put_ok in E4 as (W4 & R4 & L4 & _). cbv beta iota in E.
  apply put_ok in E as (W5 & R5 & _). rewrite R4, (M3 s M) in W5. rewrite (M3 s M) in W4, L4.
  assert (M5 : forall x, main x -> row_of x b' = row_of x b) by (intros x Mx; rewrite R5, R4; now apply M3).
  assert (O5 : bk_overflow b' = o + 1) by (rewrite <- overflow_row, R5, R4, overflow_row; exact O3).
  assert (WRAP : w32 (o + 1) = o + 1) by (unfold w32; rewrite N.mod_small; [reflexivity|change (2 ^ 32) with 4294967296; lia]).
  split; [|exact M5].
  set (wl := mkWrite s (row_of s b) col (Link (text "internal:Overflow!A" ++ decimal (o + 1)))) in *.
  set (wt := mkWrite s (row_of s b) col (Text (safe_truncate t max_truncated_chars ++ label))) in *.
  assert (W : bk_writes b' = bk_writes b ++ [mkWrite Overflow o 0 (Text label)] ++ chunk_writes o 1 l ++ [wl; wt]).
  { rewrite W5, W4, W3, W2, W1. rewrite <- !app_assoc. reflexivity. }
  assert (SO : s <> Overflow) by (destruct M; congruence).
  apply (good_put s b R pre row col (Txt t) _ b' M G ER NI W).
  - intros x. destruct (sheet_dec x Overflow) as [-> | D]; [change (row_of Overflow b) with o; change (row_of Overflow b') with (bk_overflow b'); rewrite O5; split; lia|]. assert (Mx : main x) by (destruct x; unfold main; auto; contradiction). rewrite (M5 x Mx). split; [lia|apply G4].
  - exact M5.
  - rewrite O5. constructor; [left; cbn [w_sheet w_row]; split; [reflexivity|lia]|]. apply Forall_app. split.
    + eapply Forall_impl; [|apply chunk_rows]. intros w (X1 & X2). left. split; [exact X1|]. rewrite X2. split; [apply N.le_refl|lia].
    + constructor; [right; now cbn|]. constructor; [right; now cbn|constructor].
  - intros (B1 & B2). cbn [shows]. rewrite O5.
    assert (HW : here s (row_of s b) col wl = true /\ here s (row_of s b) col wt = true) by (split; apply here_self). destruct HW as (HW1 & HW2).
    set (ws0 := bk_writes b ++ [mkWrite Overflow o 0 (Text label)] ++ chunk_writes o 1 l).
    assert (W' : bk_writes b' = (ws0 ++ [wl]) ++ [wt]) by (rewrite W; subst ws0; rewrite <- !app_assoc; reflexivity).
    assert (FO : forall c, Forall (fun w => here Overflow o c w = false) [wl; wt]).
    { intros c. apply Forall_forall. intros w Iw. destruct (here Overflow o c w) eqn:X; [|reflexivity]. apply here_iff in X as (X & _).
      destruct Iw as [<-|[<-|[]]]; cbn [w_sheet wl wt] in X; congruence. }
    assert (FB : Forall (fun w => w_sheet w = Overflow -> w_row w < o) (bk_writes b)) by exact G3.
    rewrite <- CC.
    assert (PT : parts_at ws0 o 1 l).
    { subst ws0. rewrite app_assoc. apply parts_written. apply Forall_app. split; [eapply Forall_impl; [|exact FB]; intros w X Y Z; specialize (X Y); lia|].
      constructor; [cbn; intros; lia|constructor]. }
    assert (PT' : parts_at (bk_writes b') o 1 l).
    { rewrite W'. apply (parts_away (o + 1)); [lia|intros X; cbn in X; congruence|]. apply (parts_away (o + 1)); [lia|intros X; cbn in X; congruence|exact PT]. }
    apply (holds_link (o + 1) (bk_writes b') s (row_of s b) col (decimal (o + 1)) o l (safe_truncate t max_truncated_chars) (firstn 250 cs) (utf8 (skipn 250 cs))).
    + lia.
    + rewrite W', !link_snoc, HW1, HW2. reflexivity.
    + apply decimal_numeral.
    + rewrite W', cell_snoc, HW2. cbn [is_link w_what wt]. unfold label. rewrite WRAP. reflexivity.
    + rewrite W. replace (bk_writes b ++ [mkWrite Overflow o 0 (Text label)] ++ chunk_writes o 1 l ++ [wl; wt]) with ((bk_writes b ++ [mkWrite Overflow o 0 (Text label)]) ++ (chunk_writes o 1 l ++ [wl; wt])) by (rewrite <- !app_assoc; reflexivity).
      destruct (cell_app_none Overflow o 0 (chunk_writes o 1 l ++ [wl; wt]) (bk_writes b ++ [mkWrite Overflow o 0 (Text label)])) as (-> & _).
      { apply Forall_app. split; [apply chunk_away; lia|apply FO]. }
      rewrite cell_snoc, here_self. cbn [is_link w_what]. unfold label. rewrite WRAP. reflexivity.
    + exact PT'.
    + rewrite CC, ET, truncate_chars by exact SC. change (N.to_nat max_truncated_chars) with 250%nat. now rewrite <- utf8_app, firstn_skipn.
    + rewrite ET, truncate_chars by exact SC. change (N.to_nat max_truncated_chars) with 250%nat. apply read_utf8_utf8. now apply scalar_firstn.
    + change max_excel_cell_len with 32767 in L. rewrite ET in L. unfold len in L |- *. rewrite firstn_length. lia.
Qed.
End Xlsx.
