(** Proofs about the texts of contents and flags. *)
From Coq Require Import String.
From Verif Require Import Base BaseFacts Util UtilSpec UtilText LayoutSpec LayoutFacts Types Value Node Parser TxSpec TxLog TxBuild CellSpec CellData TreeSpec TreeRead
  TreeOpen TreeUse History AnyFile Pure TreeCount TreeSession LivePlain NavRead NavFacts Log Export ExportSpec ExportFacts Date DateSpec DateFacts DateTree Show ShowSpec.
Open Scope list_scope.

(** ** Characters *)
Lemma str_chars_char c r : scalar c -> str_chars (utf8_char c ++ r) = c :: str_chars r.
Proof.
  intros S0. assert (B : c < 0x110000) by (unfold scalar in S0; lia). clear S0. unfold utf8_char.
  destruct (N.ltb_spec c 0x80); [|destruct (N.ltb_spec c 0x800); [|destruct (N.ltb_spec c 0x10000)]]; cbn [app str_chars];
  repeat match goal with |- context [if ?a <? ?b then _ else _] => destruct (N.ltb_spec a b) end; try lia; f_equal; lia.
Qed.
Lemma str_chars_utf8 cs : Forall scalar cs -> str_chars (utf8 cs) = cs.
Proof. intros F. induction F as [|c cs C F IH]; [reflexivity|]. change (utf8 (c :: cs)) with (utf8_char c ++ utf8 cs). rewrite str_chars_char by exact C. now rewrite IH. Qed.

(** ** Decoded text is text *)
Definition unit_ok (u : option N) : Prop := match u with Some u => u < 65536 | None => True end.
Lemma units_ok n : forall s, bytes_ok s -> Forall unit_ok (units n s).
Proof.
  induction n as [|n IH]; intros s B; cbn [units]; [constructor|].
  destruct s as [|a [|b s]]; [repeat constructor..|]. inversion B as [|? ? A B']; subst. inversion B' as [|? ? A' B'']; subst.
  constructor; [|now apply IH]. cbn. unfold byte in *. lia.
Qed.
Lemma decode_scalar n : forall us cs cnt w r, (List.length us <= n)%nat -> Forall unit_ok us -> Forall scalar cs -> decode_until_nul us cs cnt w = Ok r -> Forall scalar (fst (fst r)).
Proof.
  assert (FD : scalar 0xFFFD) by (right; lia).
  induction n as [|n IH]; intros us cs cnt w r L U C; destruct us as [|[u|] us]; cbn [decode_until_nul List.length] in *; try lia.
  1,2: intros [= <-]; now apply Forall_rev.
  2: discriminate. inversion U as [|? ? U0 U']; subst. cbn in U0.
  unfold is_high, is_low. destruct ((0xD800 <=? u) && (u <? 0xDC00)) eqn:H.
  { destruct us as [|[v|] us].
    - intros [= <-]. cbn [fst]. apply (Forall_rev (l := 0xFFFD :: cs)). now constructor.
    - inversion U' as [|? ? V0 U'']; subst. cbn in V0. destruct ((0xDC00 <=? v) && (v <? 0xE000)) eqn:G.
      + apply IH; [cbn [List.length] in L; lia|assumption|constructor; [right; lia|assumption]].
      + apply IH; [cbn [List.length] in *; lia|assumption|now constructor].
    - discriminate. }
  destruct ((0xDC00 <=? u) && (u <? 0xE000)) eqn:G.
  { apply IH; [lia|assumption|now constructor]. }
  destruct (u =? 0); [intros [= <-]; now apply Forall_rev|].
  apply IH; [lia|assumption|]. constructor; [unfold scalar; lia|assumption].
Qed.
Lemma single_scalar s cnt cs k w : bytes_ok s -> from_utf16_le_string_single s cnt = Ok (cs, k, w) -> Forall scalar cs.
Proof.
  intros B. unfold from_utf16_le_string_single. destruct (decode_until_nul _ [] 0 0) as [[[x y] z]| | |] eqn:E; try discriminate.
  intros [= -> _ _]. apply (decode_scalar _ _ _ _ _ _ (le_n _) (units_ok _ s B) (Forall_nil _)) in E. exact E.
Qed.
Lemma string_scalar s cnt r w : bytes_ok s -> from_utf16_le_string s cnt = Ok (r, w) -> exists cs, read_utf8 r = Some cs.
Proof.
  intros B. unfold from_utf16_le_string. destruct (cnt <=? len s); [|discriminate].
  destruct (from_utf16_le_string_single s cnt) as [[[cs k] z]| | |] eqn:E; try discriminate.
  intros [= <- _]. exists cs. apply read_utf8_utf8. exact (single_scalar _ _ _ _ _ B E).
Qed.
Lemma strings_scalar fuel s cnt : bytes_ok s -> forall offset acc w r w', (exists cs, map read_utf8 acc = map Some cs) ->
  utf16_strings_loop fuel s cnt offset acc w = Ok (r, w') -> exists cs, map read_utf8 r = map Some cs.
Proof.
  intros B. induction fuel as [|fuel IH]; intros offset acc w r w' (cs & A); cbn [utf16_strings_loop]; [discriminate|].
  destruct (offset <? cnt).
  2:{ intros [= <- _]. exists (rev cs). now rewrite !map_rev, A. }
  destruct (get_from s offset) as [s'|] eqn:G; cbn [or_panic]; [|discriminate].
  assert (B' : bytes_ok s').
  { unfold get_from in G. destruct (offset <=? len s); [|discriminate]. injection G as <-. now apply bytes_ok_skipn. }
  destruct (from_utf16_le_string_single s' (cnt - offset)) as [[[d k] z]| | |] eqn:E; try discriminate.
  destruct (forallb is_white d).
  { intros [= <- _]. exists (rev cs). now rewrite !map_rev, A. }
  apply IH. exists (d :: cs). cbn [map]. f_equal; [|exact A]. apply read_utf8_utf8. exact (single_scalar _ _ _ _ _ B' E).
Qed.
Definition content_text (c : cell_value) : Prop :=
  match c with
  | CString s => exists cs, read_utf8 s = Some cs
  | CMultiString l => exists cs, map read_utf8 l = map Some cs
  | CBinary b => bytes_ok b
  | _ => True
  end.
Lemma number_text b k f : bytes_ok b -> (forall x, content_text (f x)) -> content_text (fst (number_or_binary b k f)).
Proof. intros B H. unfold number_or_binary. destruct (get_range b 0 k); [apply H|exact B]. Qed.
Lemma content_is_text v c logs : bytes_ok (data_bytes v) -> get_content v = Ok (c, logs) -> content_text c.
Proof.
  unfold data_bytes, get_content. destruct (vd_bytes (kv_detail v)) as [b|]; [|intros _; cbn; now intros [= <- _]].
  intros B. unfold get_value_content. destruct (one_of _ _).
  { destruct (utf16_string_total b (len b)) as (t & w & E); [lia|]. rewrite E. intros [= <- _]. exact (string_scalar _ _ _ _ B E). }
  repeat (match goal with |- context [if ?x then Ok (number_or_binary b ?k ?f) else _] =>
    destruct x; [let H := fresh in assert (H := number_text b k f B (fun _ => I)); intros [= E]; rewrite E in H; exact H|] end).
  destruct (_ =? REG_BIN); [intros [= <- _]; exact B|]. destruct (_ =? REG_MULTI_SZ); [|intros [= <- _]; exact B].
  destruct (multi_total b (len b)) as (t & w & E); [lia|]. rewrite E. intros [= <- _].
  unfold from_utf16_le_strings in E. apply (strings_scalar _ _ _ B) in E; [exact E|now exists []].
Qed.

(** ** Hexadecimal numbers *)
Lemma hex_small_value d : d < 16 -> small_hex (hex_small d) = Some d /\ hex_small d <> 125 /\ hex_small d < 0x80.
Proof.
  intros H. unfold small_hex, hex_small. destruct (N.ltb_spec d 10).
  - replace (48 <=? 48 + d) with true by lia. replace (48 + d <=? 57) with true by lia. cbn [andb]. split; [f_equal; lia|lia].
  - replace (48 <=? 87 + d) with true by lia. replace (87 + d <=? 57) with false by lia.
    replace (97 <=? 87 + d) with true by lia. replace (87 + d <=? 102) with true by lia. cbn [andb]. split; [f_equal; lia|lia].
Qed.
Lemma hex_read fuel : forall n cur r v, n < 16 ^ N.of_nat fuel -> exists k,
  read_strings (Code v cur) (hex_digits fuel n r) = read_strings (Code (16 ^ k * v + n) cur) r.
Proof.
  induction fuel as [|fuel IH]; intros n cur r v L.
  { exists 0. cbn in L. cbn [hex_digits]. do 2 f_equal. cbn. lia. }
  cbn [hex_digits]. destruct (hex_small_value (n mod 16)) as (H & H1 & _); [lia|].
  assert (ST : forall v, read_strings (Code v cur) (hex_small (n mod 16) :: r) = read_strings (Code (16 * v + n mod 16) cur) r).
  { intros v0. cbn [read_strings]. rewrite H. replace (hex_small (n mod 16) =? 125) with false by lia. reflexivity. }
  destruct (N.ltb_spec n 16).
  { exists 1. rewrite ST. do 2 f_equal. change (16 ^ 1) with 16. rewrite N.mod_small by assumption. lia. }
  destruct (IH (n / 16) cur (hex_small (n mod 16) :: r) v) as (k & E).
  { rewrite Nnat.Nat2N.inj_succ, N.pow_succ_r' in L. apply N.div_lt_upper_bound; lia. }
  exists (k + 1). rewrite E, ST. do 2 f_equal. rewrite N.pow_add_r. change (16 ^ 1) with 16. lia.
Qed.
Lemma hex_low fuel : forall n r, Forall (fun c => c < 0x80) r -> Forall (fun c => c < 0x80) (hex_digits fuel n r).
Proof.
  induction fuel as [|fuel IH]; intros n r F; cbn [hex_digits]; [exact F|].
  assert (F' : Forall (fun c => c < 0x80) (hex_small (n mod 16) :: r)) by (constructor; [apply hex_small_value; lia|exact F]).
  destruct (n <? 16); [exact F'|]. now apply IH.
Qed.
Lemma hex_number n cur r v : read_strings (Code 0 cur) (hexadecimal n ++ v :: r) = read_strings (Code n cur) (v :: r).
Proof.
  assert (A : forall fuel n r l, hex_digits fuel n r ++ l = hex_digits fuel n (r ++ l)).
  { induction fuel as [|fuel IH]; intros m s l; cbn [hex_digits]; [reflexivity|]. destruct (m <? 16); [reflexivity|]. now rewrite IH. }
  unfold hexadecimal. rewrite A. cbn [app].
  destruct (hex_read (S (N.size_nat n)) n cur (v :: r) 0) as (k & E); [|rewrite E; do 2 f_equal; lia].
  apply N.lt_le_trans with (2 ^ N.of_nat (N.size_nat n)).
  - destruct n as [|p]; [reflexivity|]. cbn [N.size_nat].
    assert (H := Pos.size_gt p). replace (N.of_nat (Pos.size_nat p)) with (N.pos (Pos.size p)); [exact H|].
    clear H. induction p; cbn [Pos.size_nat Pos.size]; [rewrite Nnat.Nat2N.inj_succ, <- IHp; reflexivity..|reflexivity].
  - rewrite Nnat.Nat2N.inj_succ, N.pow_succ_r'. transitivity (16 ^ N.of_nat (N.size_nat n)); [apply N.pow_le_mono_l; lia|lia].
Qed.

(** ** Lists of strings *)
Section Strings.
Variable printable : N -> bool.
Definition points (c : N) : list N :=
  if c =? 0 then [92; 48]
  else if c =? 9 then [92; 116]
  else if c =? 13 then [92; 114]
  else if c =? 10 then [92; 110]
  else if c =? 92 then [92; 92]
  else if c =? 34 then [92; 34]
  else if printable c then [c]
  else [92; 117; 123] ++ hexadecimal c ++ [125].
Lemma utf8_low s : Forall (fun c => c < 0x80) s -> utf8 s = s.
Proof. intros F. induction F as [|c s C F IH]; [reflexivity|]. change (utf8 (c :: s)) with (utf8_char c ++ utf8 s). rewrite IH. unfold utf8_char. replace (c <? 0x80) with true by lia. reflexivity. Qed.
Lemma low_scalar s : Forall (fun c => c < 0x80) s -> Forall scalar s.
Proof. apply Forall_impl. intros c H. left. lia. Qed.
Lemma points_char c : scalar c -> debug_char printable c = utf8 (points c) /\ Forall scalar (points c).
Proof.
  intros S0. unfold debug_char, points.
  assert (L : forall s, Forall (fun c => c < 0x80) s -> s = utf8 s /\ Forall scalar s) by (intros s F; split; [symmetry; now apply utf8_low|now apply low_scalar]).
  repeat match goal with |- context [if c =? ?b then _ else _] => destruct (c =? b); [apply L; repeat constructor|] end.
  destruct (printable c).
  - split; [|now constructor]. cbn. now rewrite app_nil_r.
  - apply L. cbn [app]. repeat (constructor; [lia|]). apply Forall_app. split; [|repeat constructor; lia].
    apply hex_low. constructor.
Qed.
Lemma points_read c cur r : read_strings (Inside cur) (points c ++ r) = read_strings (Inside (c :: cur)) r.
Proof.
  unfold points.
  destruct (N.eqb_spec c 0); [subst; reflexivity|]. destruct (N.eqb_spec c 9); [subst; reflexivity|].
  destruct (N.eqb_spec c 13); [subst; reflexivity|]. destruct (N.eqb_spec c 10); [subst; reflexivity|].
  destruct (N.eqb_spec c 92); [subst; reflexivity|]. destruct (N.eqb_spec c 34); [subst; reflexivity|].
  destruct (printable c).
  - cbn [app read_strings]. replace (c =? 34) with false by lia. replace (c =? 92) with false by lia. reflexivity.
  - rewrite <- !app_assoc. change ([92; 117; 123] ++ hexadecimal c ++ [125] ++ r) with (92 :: 117 :: 123 :: hexadecimal c ++ 125 :: r).
    transitivity (read_strings (Code 0 cur) (hexadecimal c ++ 125 :: r)); [reflexivity|]. rewrite hex_number. reflexivity.
Qed.
Lemma string_points s : forall cur r, read_strings (Inside cur) (flat_map points s ++ 34 :: r)
  = option_map (cons (rev cur ++ s)) (read_strings After r).
Proof.
  induction s as [|c s IH]; intros cur r; cbn [flat_map].
  - cbn [app read_strings]. now rewrite app_nil_r.
  - rewrite <- app_assoc, points_read, IH. cbn [rev]. now rewrite <- app_assoc.
Qed.
Lemma flat_map_map {A B C} (f : B -> list C) (g : A -> B) l : flat_map f (map g l) = flat_map (fun x => f (g x)) l.
Proof. induction l as [|x l IH]; [reflexivity|]. cbn [map flat_map]. now rewrite IH. Qed.
Definition quoted (s : list N) : list N := [34] ++ flat_map points s ++ [34].
Lemma after_points l : read_strings After (flat_map (fun s => [44; 32] ++ quoted s) l ++ [93]) = Some l.
Proof.
  induction l as [|s l IH]; [reflexivity|]. cbn [flat_map]. unfold quoted. repeat rewrite <- app_assoc.
  transitivity (read_strings (Inside []) (flat_map points s ++ 34 :: flat_map (fun s => [44; 32] ++ quoted s) l ++ [93])); [reflexivity|].
  rewrite string_points, IH. reflexivity.
Qed.
Lemma join_flat sep x l : join sep (x :: l) = x ++ flat_map (fun y => sep ++ y) l.
Proof.
  revert x. induction l as [|y l IH]; intros x; [cbn; now rewrite app_nil_r|].
  change (join sep (x :: y :: l)) with (x ++ sep ++ join sep (y :: l)). rewrite IH. cbn [flat_map]. now rewrite <- app_assoc.
Qed.
Lemma listing_points l : read_listing ([91] ++ join [44; 32] (map quoted l) ++ [93]) = Some l.
Proof.
  destruct l as [|s l]; [reflexivity|]. cbn [map]. rewrite join_flat, flat_map_map.
  change (read_listing ([91] ++ ?x)) with (read_strings First x). unfold quoted at 1. repeat rewrite <- app_assoc.
  transitivity (read_strings (Inside []) (flat_map points s ++ 34 :: flat_map (fun s => [44; 32] ++ quoted s) l ++ [93])); [reflexivity|].
  rewrite string_points, after_points. reflexivity.
Qed.
Lemma quoted_utf8 s cs : read_utf8 s = Some cs -> debug_str printable s = utf8 (quoted cs) /\ Forall scalar (quoted cs).
Proof.
  intros R. apply read_utf8_exact in R as (F & ->). unfold debug_str, quoted. rewrite str_chars_utf8 by exact F.
  assert (H : flat_map (debug_char printable) cs = utf8 (flat_map points cs) /\ Forall scalar (flat_map points cs)).
  { induction F as [|c cs C F (IH & IH')]; [split; [reflexivity|constructor]|]. cbn [flat_map].
    destruct (points_char c C) as (-> & P). rewrite IH, utf8_app. split; [reflexivity|]. apply Forall_app. now split. }
  destruct H as (-> & P). rewrite !utf8_app. split; [reflexivity|].
  constructor; [left; lia|]. apply Forall_app. split; [exact P|]. constructor; [left; lia|constructor].
Qed.
Lemma strings_said l strings : map read_utf8 l = map Some strings -> exists cs,
  read_utf8 (debug_strings printable l) = Some cs /\ read_listing cs = Some strings.
Proof.
  intros E. exists ([91] ++ join [44; 32] (map quoted strings) ++ [93]). split; [|apply listing_points].
  assert (H : join [44; 32] (map (debug_str printable) l) = utf8 (join [44; 32] (map quoted strings)) /\ Forall scalar (join [44; 32] (map quoted strings))).
  { assert (Q : Forall2 (fun s cs => debug_str printable s = utf8 (quoted cs) /\ Forall scalar (quoted cs)) l strings).
    { revert strings E. induction l as [|s l IH]; intros [|cs strings] E; try discriminate; constructor.
      - apply quoted_utf8. now injection E.
      - apply IH. now injection E. }
    clear E. destruct Q as [|s cs l strings (Q0 & Q1) Q]; [split; [reflexivity|constructor]|]. cbn [map]. rewrite !join_flat, !flat_map_map.
    rewrite Q0, utf8_app. induction Q as [|s' cs' l strings (R0 & R1) Q (IH1 & IH2)].
    - split; [reflexivity|]. cbn [flat_map]. now rewrite app_nil_r.
    - cbn [flat_map]. rewrite R0, !utf8_app. apply Forall_app in IH2 as (_ & IH2). apply app_inv_head in IH1. rewrite IH1.
      split; [now rewrite <- !app_assoc|]. apply Forall_app. split; [exact Q1|]. apply Forall_app; split; [|exact IH2]. apply Forall_app; split; [|exact R1].
      repeat (constructor; [left; lia|]). constructor. }
  destruct H as (H1 & H2). unfold debug_strings. rewrite H1.
  replace ([91] ++ utf8 (join [44; 32] (map quoted strings)) ++ [93]) with (utf8 ([91] ++ join [44; 32] (map quoted strings) ++ [93])) by (rewrite !utf8_app; reflexivity).
  apply read_utf8_utf8. constructor; [left; lia|]. apply Forall_app. split; [exact H2|]. constructor; [left; lia|constructor].
Qed.

(** ** Contents *)
Lemma signed_decimal z : signed_numeral (decimal_z z) z.
Proof. unfold signed_numeral, decimal_z. destruct (z <? 0)%Z; [|apply decimal_numeral]. eexists. split; [reflexivity|apply decimal_numeral]. Qed.
Lemma text_said c : content_text c -> says (show_type c) (show_content printable c) c.
Proof.
  destruct c; cbn [content_text says show_type show_content]; intros H; (split; [reflexivity|]); try reflexivity; try apply decimal_numeral; try apply signed_decimal.
  - now apply hex_round_trip.
  - destruct H as (strings & H). destruct (strings_said _ _ H) as (cs & A & B). now exists cs, strings.
Qed.
Lemma content_said v c logs : bytes_ok (data_bytes v) -> get_content v = Ok (c, logs) -> says (show_type c) (show_content printable c) c.
Proof. intros B E. apply text_said. exact (content_is_text _ _ _ B E). Qed.
End Strings.

Lemma numeral_one d a b : numeral d a -> numeral d b -> a = b.
Proof. intros (_ & _ & A) (_ & _ & B). congruence. Qed.
Lemma signed_one d a b : signed_numeral d a -> signed_numeral d b -> a = b.
Proof.
  unfold signed_numeral. destruct (Z.ltb_spec a 0), (Z.ltb_spec b 0).
  - intros (m & -> & A) (m' & E & B). injection E as <-. pose proof (numeral_one _ _ _ A B). lia.
  - intros (m & -> & A) (_ & B & _). inversion B as [|? ? D _]. unfold digit in D. lia.
  - intros (_ & B & _) (m & -> & A). inversion B as [|? ? D _]. unfold digit in D. lia.
  - intros A B. pose proof (numeral_one _ _ _ A B). lia.
Qed.
Lemma says_one type shown a b : says type shown a -> says type shown b -> a = b.
Proof.
  destruct a, b; cbn [says]; intros (A & A') (B & B'); try (exfalso; rewrite A in B; vm_compute in B; discriminate B); try reflexivity; f_equal.
  - congruence.
  - congruence.
  - destruct A' as (cs & ss & R1 & R2 & R3), B' as (cs' & ss' & Q1 & Q2 & Q3). rewrite R1 in Q1. injection Q1 as <-. rewrite R2 in Q2. injection Q2 as <-.
    rewrite <- Q3 in R3. clear - R3 Q3. revert l0 ss R3 Q3. induction l as [|x l IH]; intros [|y l'] ss R Q; try discriminate; [reflexivity|].
    destruct ss as [|s ss]; [discriminate|]. cbn [map] in *. injection R as R0 R. injection Q as Q0 Q. f_equal.
    + rewrite Q0 in R0. apply read_utf8_exact in Q0 as (_ & ->). now apply read_utf8_exact in R0 as (_ & ->).
    + now apply IH with ss.
  - exact (numeral_one _ _ _ A' B').
  - exact (signed_one _ _ _ A' B').
  - exact (numeral_one _ _ _ A' B').
  - exact (signed_one _ _ _ A' B').
Qed.

(** ** Flags *)
Lemma land_bit n b : (N.land n (2 ^ b) =? 2 ^ b) = N.testbit n b.
Proof.
  destruct (N.testbit n b) eqn:T.
  - apply N.eqb_eq. apply N.bits_inj. intros m. rewrite N.land_spec, N.pow2_bits_eqb. destruct (N.eqb_spec b m); [subst; now rewrite T|now rewrite andb_false_r].
  - apply N.eqb_neq. intros E. assert (H : N.testbit (N.land n (2 ^ b)) b = true) by (rewrite E; apply N.pow2_bits_true).
    rewrite N.land_spec, T in H. discriminate H.
Qed.
Lemma flags_told type names bits n : names = map (fun x => (fst x, 2 ^ snd x)) bits -> NoDup (map fst bits) ->
  tells_bits type bits n (show_flags type names n).
Proof.
  intros -> D. unfold show_flags. set (set := List.filter _ _). exists (map fst set).
  assert (ES : set = map (fun x => (fst x, 2 ^ snd x)) (List.filter (fun x => N.testbit n (snd x)) bits)).
  { unfold set. clear. induction bits as [|[m b] bits IH]; [reflexivity|]. cbn [map List.filter fst snd]. rewrite land_bit.
    destruct (N.testbit n b); [cbn [map fst snd]; now rewrite IH|exact IH]. }
  assert (EN : map fst set = map fst (List.filter (fun x => N.testbit n (snd x)) bits)) by (rewrite ES, map_map; reflexivity).
  split; [|split].
  - eexists. split; [reflexivity|]. destruct set as [|f s]; cbn [map]; [reflexivity|]. now rewrite join_flat.
  - rewrite EN. apply Forall_forall. intros m H. apply in_map_iff in H as (x & <- & H). apply filter_In in H as (H & _). now apply in_map.
  - intros m b I. rewrite EN. split.
    + intros H. apply in_map_iff in H as ((m' & b') & E & H). cbn [fst] in E. subst m'. apply filter_In in H as (H & T). cbn [snd] in T.
      replace b with b'; [exact T|]. clear - D I H. induction bits as [|[x y] bits IH]; [contradiction|]. inversion D as [|? ? D0 D']; subst.
      destruct I as [I|I], H as [H|H]; [congruence| | |now apply IH]; [injection I as -> ->|injection H as -> ->].
      * exfalso. apply D0. apply (in_map fst) in H. exact H.
      * exfalso. apply D0. apply (in_map fst) in I. exact I.
    + intros T. apply in_map_iff. exists (m, b). split; [reflexivity|]. apply filter_In. now split.
Qed.
Lemma key_told n : tells_bits (text "KeyNodeFlags") key_bits n (show_key_flags n).
Proof.
  apply flags_told; [reflexivity|].
  repeat (constructor; [cbn [In map fst key_bits]; intros H; repeat (destruct H as [H|H]; [discriminate H|]); exact H|]). constructor.
Qed.
Lemma access_told n : tells_bits (text "AccessFlags") access_bits n (show_access_flags n).
Proof.
  apply flags_told; [reflexivity|].
  repeat (constructor; [cbn [In map fst access_bits]; intros H; repeat (destruct H as [H|H]; [discriminate H|]); exact H|]). constructor.
Qed.
Lemma blank_split (a b c d : list N) : ~ In 32 a -> ~ In 32 b -> a ++ 32 :: c = b ++ 32 :: d -> a = b /\ c = d.
Proof.
  revert b. induction a as [|x a IH]; intros [|y b] A B E; cbn [app] in E.
  - injection E as ->. auto.
  - injection E as <- _. cbn in B. tauto.
  - injection E as -> _. cbn in A. tauto.
  - injection E as -> E. cbn in A, B. destruct (IH b) as (-> & ->); tauto.
Qed.
Lemma names_split l : forall l' n n', Forall (fun m => ~ In 32 m) (n :: l) -> Forall (fun m => ~ In 32 m) (n' :: l') ->
  n ++ flat_map (fun m => text " | " ++ m) l = n' ++ flat_map (fun m => text " | " ++ m) l' -> n :: l = n' :: l'.
Proof.
  assert (NB : forall (a b : list N) r, ~ In 32 a -> a ++ [] = b ++ 32 :: r -> False).
  { intros a b r A E. apply A. rewrite app_nil_r in E. rewrite E. apply in_or_app. right. now left. }
  induction l as [|x l IH]; intros [|y l'] n n' A B E; inversion A as [|? ? A0 A']; subst; inversion B as [|? ? B0 B']; subst.
  - cbn [flat_map] in E. rewrite !app_nil_r in E. now rewrite E.
  - exfalso. exact (NB _ _ _ A0 E).
  - exfalso. symmetry in E. exact (NB _ _ _ B0 E).
  - cbn [flat_map] in E. change (text " | ") with [32; 124; 32] in E at 1 3. cbn [app] in E.
    apply blank_split in E as (-> & E); [|assumption|assumption]. injection E as E. f_equal. now apply IH.
Qed.
Definition bit_table (bits : list (list N * N)) : Prop := Forall (fun x => ~ In 32 (fst x) /\ ~ In 48 (firstn 1 (fst x))) bits.
Lemma bits_one type bits a b shown : bit_table bits -> tells_bits type bits a shown -> tells_bits type bits b shown ->
  forall m k, In (m, k) bits -> N.testbit a k = N.testbit b k.
Proof.
  intros T (na & (ia & Ea & Na) & Ia & Ha) (nb & (ib & Eb & Nb) & Ib & Hb).
  assert (E : na = nb).
  { rewrite Ea in Eb. apply app_inv_head in Eb. injection Eb as Eb. apply app_inj_tail in Eb as (-> & _).
    assert (TF : forall l, Forall (fun m => In m (map fst bits)) l -> Forall (fun m => ~ In 32 m /\ ~ In 48 (firstn 1 m)) l).
    { intros l. apply Forall_impl. intros m I. apply in_map_iff in I as (x & <- & I). unfold bit_table in T. rewrite Forall_forall in T. now apply T. }
    apply TF in Ia, Ib. clear - Na Nb Ia Ib.
    assert (Z : forall m l, ~ In 48 (firstn 1 m) -> ~ In 32 m -> text "0x0" <> m ++ flat_map (fun m => text " | " ++ m) l).
    { intros m l M M' E. destruct m as [|c m]; [|injection E as <- _; apply M; now left]. destruct l; discriminate E. }
    destruct na as [|x na], nb as [|y nb]; [reflexivity| | |].
    - exfalso. inversion Ib; subst. destruct H1. now apply (Z y nb).
    - exfalso. inversion Ia; subst. destruct H1. now apply (Z x na).
    - apply names_split; [eapply Forall_impl; [|exact Ia]; now intros ? []|eapply Forall_impl; [|exact Ib]; now intros ? []|]. congruence. }
  subst nb. intros m k I. specialize (Ha _ _ I). specialize (Hb _ _ I).
  destruct (N.testbit a k) eqn:A, (N.testbit b k) eqn:B; try reflexivity; exfalso; [assert (false = true) by tauto|assert (false = true) by tauto]; discriminate.
Qed.
Lemma key_table : bit_table key_bits.
Proof. repeat (constructor; [split; cbn; intros H; repeat (destruct H as [H|H]; [discriminate H|]); exact H|]). constructor. Qed.
Lemma access_table : bit_table access_bits.
Proof. repeat (constructor; [split; cbn; intros H; repeat (destruct H as [H|H]; [discriminate H|]); exact H|]). constructor. Qed.

(** ** Rows *)
Lemma plain_app a b : plain a -> plain b -> plain (a ++ b).
Proof. intros. now apply Forall_app. Qed.
Ltac plain_text := repeat (constructor; [cbn; lia|]); constructor.
Lemma flags_plain type names n : plain type -> Forall (fun f => plain (fst f)) names -> plain (show_flags type names n).
Proof.
  intros T F. unfold show_flags. apply plain_app; [exact T|]. apply plain_app; [plain_text|]. apply plain_app; [|plain_text].
  assert (G : Forall (fun f => plain (fst f)) (List.filter (fun f => N.land n (snd f) =? snd f) names)).
  { apply Forall_forall. intros x I. apply filter_In in I as (I & _). rewrite Forall_forall in F. now apply F. }
  destruct G as [|x l G0 G]; [plain_text|]. cbn [map]. rewrite join_flat. apply plain_app; [exact G0|].
  induction G as [|y l G1 G IH]; [constructor|]. cbn [map flat_map]. apply plain_app; [|exact IH]. apply plain_app; [plain_text|exact G1].
Qed.
Lemma shown_plain printable kl vl : plain_renderer (as_shown printable kl vl).
Proof.
  split; [exact date_plain|]. split; [|split].
  - intros n. apply flags_plain; [plain_text|]. repeat (constructor; [plain_text|]). constructor.
  - intros n. apply flags_plain; [plain_text|]. repeat (constructor; [plain_text|]). constructor.
  - intros v. cbn [as_shown rd_type]. destruct (content_of_value v); plain_text.
Qed.
Lemma content_of_ok v c l : get_content v = Ok (c, l) -> content_of_value v = c.
Proof. unfold content_of_value. now intros ->. Qed.
Lemma row_says printable kl vl n i row : tsv_row (shown_by (as_shown printable kl vl)) n i row -> tsv_says i row.
Proof.
  intros (ix & _ & sq & up & H). destruct i as [k|k v].
  - destruct H as (_ & _ & sub & _ & ->). cbn [nth tsv_says shown_by sh_date sh_flags sh_access as_shown rd_date rd_flags rd_access].
    split; [unfold kn_date; apply date_denotes|]. split; [apply key_told|apply access_told].
  - destruct H as (_ & _ & ->). cbn [nth tsv_says shown_by sh_content sh_type as_shown rd_content rd_type].
    destruct (content_total v) as (c & l & E). exists c, l. split; [exact E|]. intros B. rewrite (content_of_ok _ _ _ E). exact (content_said printable _ _ _ B E).
Qed.
Lemma rows_say printable kl vl n is rows : tsv_rows (shown_by (as_shown printable kl vl)) n is rows -> Forall2 tsv_says is rows.
Proof. intros H. induction H; constructor; [|assumption]. eapply row_says; eassumption. Qed.
Lemma tsv_says_all printable kl vl o ks log : exists rows,
  reads_rows 9 (tsv_export (as_shown printable kl vl) o ks log) (tsv_columns :: rows)
    (log_tail log)
  /\ tsv_rows (shown_by (as_shown printable kl vl)) 1 (List.filter (kept o) (flat_map tsv_items ks)) rows
  /\ Forall2 tsv_says (List.filter (kept o) (flat_map tsv_items ks)) rows.
Proof.
  destruct (tsv_export_read (as_shown printable kl vl) o ks log (shown_plain _ _ _)) as (rows & A & B). exists rows.
  split; [exact A|]. split; [exact B|]. exact (rows_say _ _ _ _ _ _ B).
Qed.

(** ** Whole hives *)
Lemma stored_content_read v t b c : holds v t b -> stored_content t b c -> exists c' l, get_content v = Ok (c', l) /\ 
  (forall type shown, says type shown c' -> says type shown c).
Proof.
  intros H S0. destruct S0;
  try (destruct (content_numbers v t r n 0%Z) as (X1 & X2 & X3 & X4 & X5 & _);
       first [rewrite X1 by assumption|rewrite X2 by assumption|rewrite X3 by assumption|rewrite X4 by assumption|rewrite X5 by assumption];
       eexists _, _; split; [reflexivity|auto]; fail);
  try (destruct (content_numbers v t r 0 z) as (_ & _ & _ & _ & _ & X1 & X2 & X3);
       first [rewrite X1 by assumption|rewrite X2 by assumption|rewrite X3 by assumption];
       eexists _, _; split; [reflexivity|auto]; fail).
  - destruct (content_string v t u tail) as (s' & E & R); try assumption. rewrite E. eexists _, _. split; [reflexivity|].
    intros ty sh (A & ->). cbn [says]. split; [exact A|]. apply read_utf8_exact in R as (_ & ->). now apply read_utf8_exact in H4 as (_ & ->).
  - destruct (content_multi v t us junk) as (l' & E & R); try assumption. rewrite E. eexists _, _. split; [reflexivity|].
    intros ty sh (A & cs & ss & X & Y & Z). cbn [says]. split; [exact A|]. exists cs, ss. split; [exact X|]. split; [exact Y|]. congruence.
  - rewrite (content_binary v t b H) by assumption. eexists _, _. split; [reflexivity|auto].
  - rewrite (content_short v t b n H) by assumption. eexists _, _. split; [reflexivity|auto].
Qed.
Lemma tree_row_says buffer printable kl vl n i x row :
  (forall k, i = KeyItem k -> exists full, kn_detail k = nk_detail_at full (rest_at buffer (kn_offset k))) ->
  item_shown i x -> tsv_row (shown_by (as_shown printable kl vl)) n i row -> tree_tsv_row buffer n x row.
Proof.
  intros D I R. pose proof (row_says _ _ _ _ _ _ R) as SY. destruct x as [[names t] o]. unfold item_shown in I. cbn [fst snd] in I.
  destruct R as (ix & IX & sq & up & R). destruct i as [k|k v], o as [y|]; try contradiction; unfold tree_tsv_row.
  - destruct R as (_ & _ & sub & _ & ->). cbn [nth] in *. destruct I as ((KO & KN & KP & KV & KS) & _).
    destruct (D k eq_refl) as (full & ED). rewrite KS. split; [exact IX|]. split; [exact KP|]. split; [reflexivity|]. split; [reflexivity|].
    cbn [tsv_says nth] in SY. rewrite ED in SY. cbn [nk_detail_at kd_time kd_flags kd_access] in SY. rewrite !num_at_rest, KO in SY. exact SY.
  - destruct R as (_ & _ & ->). cbn [nth] in *. destruct I as ((KO & KN & KP & KV & KS) & VN & VT & VB & VS & VK).
    rewrite VS. split; [exact IX|]. split; [exact KP|]. split; [reflexivity|]. split.
    + unfold value_name. destruct (vd_name (kv_detail v)) as [|c nm] eqn:E.
      * injection VN as <-. vm_compute. reflexivity.
      * rewrite VN. destruct (v_name y) as [|c' n']; [|reflexivity]. apply read_utf8_exact in VN as (_ & VN). discriminate VN.
    + intros c S0 B. cbn [tsv_says nth] in SY. destruct SY as (c0 & l0 & E0 & SY).
      assert (DB : data_bytes v = value_data (v_type y mod 4096) (v_data y)) by (unfold data_bytes; now rewrite VB).
      rewrite DB in SY. specialize (SY B).
      destruct (stored_content_read v _ _ _ (conj VK VB) S0) as (c' & l' & E' & W). rewrite E0 in E'. injection E' as <- _. now apply W.
Qed.
Lemma clean_tsv ks : Forall clean ks -> flat_map tsv_items ks = flat_map common_items ks.
Proof.
  intros F. induction F as [|k ks C F IH]; [reflexivity|]. cbn [flat_map]. rewrite IH. f_equal. unfold tsv_items, common_items.
  destruct C as (_ & _ & V & _).
  replace (version_items k) with (KeyItem k :: flat_map version_items (kn_versions k)) by now destruct k. now rewrite V.
Qed.
Lemma tsv_shown printable kl vl fi ks l log : Forall clean ks -> shown ks l -> Forall (fun x => fst x <> []) l -> Forall (born fi) ks ->
  exists rows, reads_rows 9 (tsv_export (as_shown printable kl vl) false ks log) (tsv_columns :: rows) (log_tail log)
  /\ tree_tsv_rows (fi_buffer fi) 1 (flat_map (fun x => (x, None) :: map (fun v => (x, Some v)) (t_vals (snd x))) l) rows.
Proof.
  intros C SH F BK.
  destruct (tsv_export_read (as_shown printable kl vl) false ks log (shown_plain _ _ _)) as (rows & R1 & R2).
  exists rows. split; [exact R1|].
  pose proof (items_shown _ _ C SH F) as I.
  assert (T : forall i, In i (flat_map common_items ks) -> forall k, i = KeyItem k -> exists full, kn_detail k = nk_detail_at full (rest_at (fi_buffer fi) (kn_offset k))).
  { intros i I0 k ->. now apply (items_keys ks _ C BK) in I0 as (_ & I0). }
  apply (forall2_with _ _ _ _ T) in I.
  replace (List.filter (kept false) (flat_map tsv_items ks)) with (flat_map common_items ks) in R2.
  2:{ rewrite <- (clean_tsv ks C). clear. induction (flat_map tsv_items ks) as [|x m IH]; [reflexivity|]. cbn [List.filter kept]. now rewrite <- IH. }
  clear - R2 I. revert R2. generalize 1, rows. induction I as [|i x is xs (T & I0) I IH]; intros m rw R; inversion R; subst; constructor.
  - eapply tree_row_says; eassumption.
  - now apply IH.
Qed.
Lemma tsv_hive printable kl vl buffer files t p ok p' n log : opens buffer files t p -> used ok p p' -> (2 * List.length (positions t) < n)%nat ->
  exists out rows, write_tsv n (as_shown printable kl vl) false p' None log = Ok out
  /\ reads_rows 9 out (tsv_columns :: rows) (log_tail log)
  /\ tree_tsv_rows (ps_buffer p) 1 (tree_items t) rows.
Proof.
  intros O U L. pose proof O as (KF & _ & order & fuel & hash & full & B).
  destruct (session_preorder _ _ _ _ _ _ false true n O (used_not ok p) L) as (ks & E & SH).
  pose proof (iterate_clean _ _ _ _ _ _ _ _ _ _ _ _ _ KF B E) as C.
  pose proof (iterate_born _ _ _ _ _ _ _ _ _ _ _ O (used_not ok p) E) as BK.
  assert (F : Forall (fun x => fst x <> []) (preorder [] t)) by (apply Forall_forall; intros x; apply preorder_names).
  unfold write_tsv. rewrite (moved_iterate p p' _ _ _ _ (used_moved _ _ _ U)), E. cbv beta iota.
  destruct (tsv_shown printable kl vl (ps_file p) ks _ log C SH F BK) as (rows & R1 & R2). eexists _, rows. split; [reflexivity|]. now split.
Qed.
