(** Proofs about the spreadsheet export: rows. *)
From Coq Require Import String.
From Verif Require Import Base BaseFacts Util UtilSpec UtilText LayoutSpec Types Value Node Parser TxSpec TxLog Log Export ExportSpec ExportFacts
  Date DateSpec DateFacts CellSpec CellData TreeSpec Show ShowSpec ShowFacts Xlsx XlsxSpec XlsxFacts.
Open Scope string_scope.
Open Scope N_scope.
Open Scope list_scope.

(** ** Short texts *)
Definition low (s : list N) : Prop := Forall (fun c => 0x20 <= c < 0x80) s.
Definition short (s : list N) : Prop := low s /\ s <> [] /\ len s <= 400.
Lemma low_read s : low s -> read_utf8 s = Some s.
Proof.
  intros L. assert (L' : Forall (fun c => c < 0x80) s) by (eapply Forall_impl; [|exact L]; cbv beta; intros; lia).
  rewrite <- (utf8_low (fun _ => true) s L') at 1. apply read_utf8_utf8, (low_scalar (fun _ => true)), L'.
Qed.
Lemma short_text s : short s -> is_text s.
Proof. intros (L & _). exists s. now apply low_read. Qed.
Ltac low_text := repeat (constructor; [cbn; lia|]); constructor.
Ltac short_literal := split; [low_text|split; [discriminate|vm_compute; discriminate]].
Lemma state_short s : short (state_name s). Proof. destruct s; short_literal. Qed.
Lemma code_short c : short (code_name c). Proof. destruct c; short_literal. Qed.
Lemma type_short c : short (show_type c). Proof. destruct c; short_literal. Qed.
Lemma digit_low s : Forall digit s -> low s.
Proof. intros F. eapply Forall_impl; [|exact F]. unfold digit. intros c; lia. Qed.
Lemma flags_short type names n : low type -> len type <= 40 -> Forall (fun f => low (fst f)) names ->
  (List.length (flat_map (fun f => text " | " ++ fst f) names) <= 330)%nat -> short (show_flags type names n).
Proof.
  intros T LT F L. unfold show_flags. set (set := List.filter _ names).
  assert (X : low (match set with [] => text "0x0" | _ :: _ => join (text " | ") (map fst set) end)
              /\ (List.length (match set with [] => text "0x0" | _ :: _ => join (text " | ") (map fst set) end) <= 333)%nat).
  { assert (G : Forall (fun f => low (fst f)) set).
    { apply Forall_forall. intros x I. apply filter_In in I as (I & _). rewrite Forall_forall in F. now apply F. }
    assert (GL : (List.length (flat_map (fun f => text " | " ++ fst f) set) <= 330)%nat).
    { etransitivity; [|exact L]. subst set. clear. induction names as [|x names IH]; [cbn; lia|]. cbn [List.filter flat_map]. destruct (_ =? _); cbn [flat_map]; rewrite ?app_length; lia. }
    destruct set as [|x l]; [split; [low_text|cbn; lia]|]. cbn [map]. rewrite join_flat.
    assert (E : flat_map (fun y => text " | " ++ y) (map fst l) = flat_map (fun f => text " | " ++ fst f) l) by (clear; induction l as [|y l IH]; [reflexivity|]; cbn [map flat_map]; now rewrite IH).
    rewrite E. apply Forall_cons_iff in G as (G1 & G2). cbn [flat_map] in GL. rewrite !app_length in GL. split; [|rewrite app_length; lia].
    apply Forall_app. split; [exact G1|]. clear - G2. induction G2 as [|y l G1 G IH]; [constructor|]. cbn [flat_map]. apply Forall_app. split; [|exact IH]. apply Forall_app. split; [low_text|exact G1]. }
  destruct X as (X1 & X2). split; [|split].
  - apply Forall_app. split; [exact T|]. apply Forall_app. split; [low_text|]. apply Forall_app. split; [exact X1|low_text].
  - destruct type; discriminate.
  - unfold len in LT |- *. rewrite !app_length. cbn [List.length]. lia.
Qed.
Lemma key_flags_short n : short (show_key_flags n).
Proof. apply flags_short; [low_text|vm_compute; discriminate|repeat (constructor; [low_text|]); constructor|apply Nat.leb_le; vm_compute; reflexivity]. Qed.
Lemma access_flags_short n : short (show_access_flags n).
Proof. apply flags_short; [low_text|vm_compute; discriminate|repeat (constructor; [low_text|]); constructor|apply Nat.leb_le; vm_compute; reflexivity]. Qed.
Lemma padded_short w n : (0 <= n < 10 ^ Z.of_nat (S w))%Z -> low (padded (S w) n) /\ List.length (padded (S w) n) = S w.
Proof. intros H. apply padded_digits in H as ((_ & D & _) & L). split; [now apply digit_low|exact L]. Qed.
Lemma date_short k : short (format_date_time (kn_date k)).
Proof.
  unfold kn_date, get_date_time_from_filetime. set (z := (_ - _)%Z). assert (B : (- 9223372036854775808 <= as_i64 z < 9223372036854775808)%Z).
  { unfold as_i64. destruct (Z.ltb_spec (z mod 18446744073709551616) 9223372036854775808); lia. }
  clearbody z. set (t := as_i64 z) in *. clearbody t.
  assert (D : low (date_and_time t) /\ List.length (date_and_time t) = 19%nat).
  { unfold date_and_time. assert (Y := year_bound (t / 1000000000 / 86400) ltac:(lia)). destruct (date_right (t / 1000000000 / 86400)) as (V & _).
    destruct (date_of_days _) as ((y & m) & d). unfold valid in V. assert (LM : (month_length (leap_year y) m <= 31)%Z).
    { destruct V as (V & _). apply month_cases in V. repeat (destruct V as [-> | V]; [destruct (leap_year y); vm_compute; discriminate|]). subst m. vm_compute; discriminate. }
    unfold year_text. rewrite (proj2 (Z.leb_le 0 y)), (proj2 (Z.leb_le y 9999)) by lia. cbn [andb].
    destruct (padded_short 3 y) as (A1 & A2); [lia|]. destruct (padded_short 1 m) as (B1 & B2); [lia|]. destruct (padded_short 1 d) as (C1 & C2); [lia|].
    destruct (padded_short 1 (t / 1000000000 mod 86400 / 3600)) as (D1 & D2); [lia|].
    destruct (padded_short 1 (t / 1000000000 mod 86400 / 60 mod 60)) as (E1 & E2); [lia|].
    destruct (padded_short 1 (t / 1000000000 mod 86400 mod 60)) as (F1 & F2); [lia|].
    split; [|rewrite !app_length, A2, B2, C2, D2, E2, F2; reflexivity].
    repeat (apply Forall_app; split; [first [assumption|low_text]|]). assumption. }
  destruct D as (D1 & D2). unfold format_date_time, fraction. destruct (padded_short 8 (t mod 1000000000)) as (F1 & F2); [lia|].
  assert (NE : date_and_time t <> []) by (intros X; rewrite X in D2; discriminate D2).
  destruct (_ && _ && _)%bool.
  - split; [|split].
    + apply Forall_app. split; [exact D1|]. apply Forall_app. split; [low_text|]. apply Forall_app. split; [|low_text].
      unfold low in F1. rewrite <- (firstn_skipn 7) in F1. now apply Forall_app in F1.
    + destruct (date_and_time t); [congruence|discriminate].
    + unfold len. rewrite !app_length, firstn_length, D2, F2. vm_compute. discriminate.
  - split; [|split].
    + apply Forall_app. split; [exact D1|]. apply Forall_app. split; [low_text|]. apply Forall_app. split; [exact F1|low_text].
    + destruct (date_and_time t); [congruence|discriminate].
    + unfold len. rewrite !app_length, D2, F2. vm_compute. discriminate.
Qed.

(** ** Characters *)
Lemma legal_iff c : is_legal_xml c = true <-> xml_char c.
Proof. unfold is_legal_xml, xml_char. rewrite !orb_true_iff, !andb_true_iff, !N.eqb_eq, !N.leb_le. tauto. Qed.
Lemma legal_not c : is_legal_xml c = false -> ~ xml_char c.
Proof. intros H X. apply legal_iff in X. congruence. Qed.
Definition safe (c : N) : N := if is_legal_xml c then c else 0xFFFD.
Lemma safe_scalar c : scalar c -> scalar (safe c).
Proof. unfold safe. destruct (is_legal_xml c); [auto|]. intros _. right. lia. Qed.
Lemma safe_legal c : xml_char (safe c).
Proof. unfold safe. destruct (is_legal_xml c) eqn:E; [now apply legal_iff|]. unfold xml_char. lia. Qed.
Lemma safe_replaced c : replaced c (safe c).
Proof. unfold safe, replaced. destruct (is_legal_xml c) eqn:E; [left; split; [now apply legal_iff|reflexivity]|right; split; [now apply legal_not|reflexivity]]. Qed.
Lemma position_some cs : match position_illegal cs with
  | None => map safe cs = cs
  | Some i => firstn i cs ++ map safe (skipn i cs) = map safe cs
  end.
Proof.
  induction cs as [|c cs IH]; [reflexivity|]. cbn [position_illegal]. destruct (is_legal_xml c) eqn:E; cbn [negb]; [|reflexivity].
  assert (S0 : safe c = c) by (unfold safe; now rewrite E).
  destruct (position_illegal cs); cbn [option_map firstn skipn app map]; now rewrite S0, IH.
Qed.
Lemma sanitize_chars cs : Forall scalar cs -> sanitize (utf8 cs) = utf8 (map safe cs).
Proof.
  intros F. unfold sanitize. rewrite str_chars_utf8 by exact F. pose proof (position_some cs) as P. fold safe in *.
  destruct (position_illegal cs); [now rewrite <- P|now rewrite P].
Qed.
Lemma scalar_safe cs : Forall scalar cs -> Forall scalar (map safe cs).
Proof. intros F. apply Forall_map. eapply Forall_impl; [|exact F]. exact safe_scalar. Qed.
Lemma sanitize_text s : is_text s -> legal_text (sanitize s) /\ xml_text s (sanitize s).
Proof.
  intros (cs & R). pose proof R as R0. apply read_utf8_exact in R as (F & ->). rewrite sanitize_chars by exact F.
  pose proof (read_utf8_utf8 _ (scalar_safe _ F)) as R1. split.
  - exists (map safe cs). split; [exact R1|]. apply Forall_map. apply Forall_forall. intros c _. apply safe_legal.
  - exists cs, (map safe cs). split; [exact R0|]. split; [exact R1|]. clear. induction cs; constructor; [apply safe_replaced|assumption].
Qed.
Lemma legal_is_text s : legal_text s -> is_text s. Proof. intros (cs & R & _). now exists cs. Qed.
Lemma low_legal s : low s -> legal_text s.
Proof. intros L. exists s. split; [now apply low_read|]. eapply Forall_impl; [|exact L]. unfold xml_char. intros c; lia. Qed.
Lemma legal_app a b : legal_text a -> legal_text b -> legal_text (a ++ b).
Proof.
  intros (x & X1 & X2) (y & Y1 & Y2). exists (x ++ y). split; [|now apply Forall_app]. apply read_utf8_exact in X1 as (X1 & ->). apply read_utf8_exact in Y1 as (Y1 & ->).
  rewrite <- utf8_app. apply read_utf8_utf8. now apply Forall_app.
Qed.
Lemma default_text : is_text (text "(default)").
Proof. apply legal_is_text, low_legal. low_text. Qed.
Lemma hex_text bs : bytes_ok bs -> low (to_hex_string bs).
Proof.
  intros B. unfold to_hex_string.
  assert (R : forall l : list N, low l -> low (removelast l)).
  { intros l H. induction H as [|c l H0 H IH]; [constructor|]. cbn [removelast]. destruct l; [constructor|]. now constructor. }
  assert (H : forall d, d < 16 -> 0x20 <= hex_digit d < 0x80) by (intros d L; unfold hex_digit; destruct (N.ltb_spec d 10); lia).
  apply R. clear R. induction B as [|b bs B0 B IH]; [constructor|]. cbn [flat_map app]. unfold byte in B0.
  constructor; [apply H; lia|]. constructor; [apply H; lia|]. constructor; [lia|exact IH].
Qed.
Lemma decimal_low n : low (decimal n).
Proof. destruct (decimal_numeral n) as (_ & D & _). now apply digit_low. Qed.
Lemma decimal_z_low z : low (decimal_z z).
Proof. unfold decimal_z. destruct (z <? 0)%Z; [constructor; [lia|]|]; apply decimal_low. Qed.
Lemma hexadecimal_low n : low (hexadecimal n).
Proof.
  unfold hexadecimal. assert (H : forall fuel m r, low r -> low (hex_digits fuel m r)); [|apply H; constructor].
  induction fuel as [|fuel IH]; intros m r L; cbn [hex_digits]; [exact L|].
  assert (X : low (hex_small (m mod 16) :: r)).
  { constructor; [|exact L]. unfold hex_small. destruct (N.ltb_spec (m mod 16) 10); lia. }
  destruct (m <? 16); [exact X|now apply IH].
Qed.
Lemma legal_flat {A} (f : A -> list N) l : Forall (fun x => legal_text (f x)) l -> legal_text (flat_map f l).
Proof. induction 1 as [|x l H F IH]; [now exists []|]. cbn [flat_map]. now apply legal_app. Qed.
Lemma debug_legal printable l : (forall c, printable c = true -> xml_char c) -> Forall is_text l -> legal_text (debug_strings printable l).
Proof.
  intros P F. assert (Q : Forall legal_text (map (debug_str printable) l)).
  { apply Forall_map. eapply Forall_impl; [|exact F]. intros s (cs & R). apply read_utf8_exact in R as (SC & ->). unfold debug_str. rewrite str_chars_utf8 by exact SC.
    apply legal_app; [apply low_legal; low_text|]. apply legal_app; [|apply low_legal; low_text]. apply legal_flat. eapply Forall_impl; [|exact SC].
    intros c S0. unfold debug_char.
    repeat match goal with |- context [if c =? ?b then _ else _] => destruct (c =? b); [apply low_legal; low_text|] end.
    destruct (printable c) eqn:E.
    - exists [c]. split; [|constructor; [now apply P|constructor]]. replace (utf8_char c) with (utf8 [c]) by (cbn; apply app_nil_r). apply read_utf8_utf8. now constructor.
    - apply legal_app; [apply low_legal; low_text|]. apply legal_app; [apply low_legal, hexadecimal_low|apply low_legal; low_text]. }
  unfold debug_strings. apply legal_app; [apply low_legal; low_text|]. apply legal_app; [|apply low_legal; low_text].
  destruct Q as [|x q Q0 Q]; [now exists []|]. rewrite join_flat. apply legal_app; [exact Q0|]. apply legal_flat. eapply Forall_impl; [|exact Q].
  intros y Y. apply legal_app; [apply low_legal; low_text|exact Y].
Qed.
Lemma strings_texts l strings : map read_utf8 l = map Some strings -> Forall is_text l.
Proof. revert strings. induction l as [|x l IH]; intros [|s strings] E; try discriminate; constructor; [exists s; now injection E|]. apply (IH strings). now injection E. Qed.
(** The content as it is written. *)
Lemma cell_text printable c : content_text c -> is_text (sanitize_cell printable c) /\ shown_content (show_type c) (sanitize_cell printable c) c.
Proof.
  intros T. assert (Y := text_said printable c T). destruct c; cbn [sanitize_cell shown_content content_text] in *.
  3:{ destruct (sanitize_text _ T) as (A & B). split; [now apply legal_is_text|]. split; [reflexivity|exact B]. }
  all: (split; [|exact Y]); cbn [show_content].
  - now exists [].
  - apply legal_is_text, low_legal. now apply hex_text.
  - destruct Y as (_ & cs & ss & X & _). now exists cs.
  - apply legal_is_text, low_legal, decimal_low.
  - apply legal_is_text, low_legal, decimal_z_low.
  - apply legal_is_text, low_legal, decimal_low.
  - apply legal_is_text, low_legal, decimal_z_low.
  - now exists [].
Qed.
Lemma cell_legal printable c : (forall x, printable x = true -> xml_char x) -> content_text c -> legal_text (sanitize_cell printable c).
Proof.
  intros P T. destruct c; cbn [sanitize_cell show_content content_text] in *.
  - now exists [].
  - apply low_legal. now apply hex_text.
  - now apply sanitize_text.
  - destruct T as (ss & T). apply debug_legal; [exact P|]. exact (strings_texts _ _ T).
  - apply low_legal, decimal_low.
  - apply low_legal, decimal_z_low.
  - apply low_legal, decimal_low.
  - apply low_legal, decimal_z_low.
  - now exists [].
Qed.

(** ** Rows *)
Definition opt_num (n : option N) : expected := match n with Some n => Num n | None => Nothing end.
Section Rows.
Context (accepts : list write -> write -> bool) (printable : N -> bool) (key_logs : key_node -> list N) (value_logs : key_value -> list N) (recovered_only : bool).
Definition item_row (n : N) (i : item) : list (N * expected) :=
  match i with
  | KeyItem k =>
      [(0, Num n); (1, Txt (sanitize (kn_path k))); (2, Num (len (kn_sub_offsets k))); (5, Txt (format_date_time (kn_date k)));
       (6, Txt (state_name (kn_state k))); (7, opt_num (kn_seq k)); (8, opt_num (kn_updated_by k));
       (9, Txt (show_key_flags (kd_flags (kn_detail k)))); (10, Txt (show_access_flags (kd_access (kn_detail k))));
       (12, Txt (sanitize (key_logs k)))]
  | ValueItem k v =>
      [(0, Num n); (1, Txt (sanitize (kn_path k))); (3, Txt (sanitize (kv_pretty_name v)));
       (4, Txt (sanitize_cell printable (content_of_value v)));
       (6, Txt (state_name (kv_state v))); (7, opt_num (kv_seq v)); (8, opt_num (kv_updated_by v));
       (11, Txt (show_type (content_of_value v))); (12, Txt (sanitize (value_logs v)))]
  end.
Definition put_entry (s : sheet) (x : N * expected) (b : book) : res book :=
  match snd x with
  | Nothing => Ok b
  | Num n => put accepts s (fst x) (Number n) b
  | Txt t => check_write_string accepts s (fst x) t b
  end.
Fixpoint put_row (s : sheet) (es : list (N * expected)) (b : book) : res book :=
  match es with [] => Ok b | e :: es => let* b := put_entry s e b in put_row s es b end.
Lemma direct s c t b : short t -> put accepts s c (Text t) b = check_write_string accepts s c t b.
Proof.
  intros (_ & NE & L). unfold check_write_string, write_string_handle_overflow, max_excel_cell_len. destruct t as [|x t]; [congruence|].
  destruct (N.ltb_spec 32767 (len (x :: t))); [lia|reflexivity].
Qed.
Lemma bind_ok {A} (x : res A) : (let* b := x in Ok b) = x. Proof. now destruct x. Qed.
Lemma put_if_entry s c n b : put_if accepts s c n b = put_entry s (c, opt_num n) b. Proof. now destruct n. Qed.
Definition put_item (i : item) (b : book) : res book := let b := next_row Items b in put_row Items (item_row (bk_items b) i) b.
Lemma write_value_row k v b : write_value accepts printable value_logs recovered_only k v b = if kept recovered_only (ValueItem k v) then put_item (ValueItem k v) b else Ok b.
Proof.
  unfold write_value. replace (recovered_only && negb (kv_has_or_is_recovered v)) with (negb (negb recovered_only || kv_has_or_is_recovered v)) by (destruct recovered_only; reflexivity).
  rewrite value_kept with (k := k). destruct (kept recovered_only (ValueItem k v)); cbn [negb]; [|reflexivity].
  unfold put_item, item_row. cbn [put_row]. set (b0 := next_row Items b).
  repeat match goal with |- match ?x with _ => _ end = match put_entry ?s ?e ?b with _ => _ end =>
    replace x with (put_entry s e b) by first [reflexivity|symmetry; apply put_if_entry|symmetry; apply direct, state_short];
    destruct (put_entry s e b); try reflexivity; cbv beta iota end.
  symmetry. apply bind_ok.
Qed.
Lemma write_key_row k m b : write_key accepts printable key_logs value_logs recovered_only k m b =
  let* b := if kept recovered_only (KeyItem k)
            then let* b := put_item (KeyItem k) b in write_each (fun v => write_key accepts printable key_logs value_logs recovered_only v true) (kn_versions k) b
            else Ok b in
  if m then Ok b else write_each (fun v b => let* b := write_value accepts printable value_logs recovered_only k v b in
                                    write_each (write_value accepts printable value_logs recovered_only k) (kv_versions v) b) (values_of k) b.
Proof.
  assert (U : write_key accepts printable key_logs value_logs recovered_only k m b =
    let* b := if negb recovered_only || kn_has_or_is_recovered k then
      let b := next_row Items b in
      let* b := put accepts Items 0 (Number (bk_items b)) b in
      let* b := check_write_string accepts Items 1 (sanitize (kn_path k)) b in
      let* b := put accepts Items 2 (Number (len (kn_sub_offsets k))) b in
      let* b := put accepts Items 5 (Text (format_date_time (kn_date k))) b in
      let* b := put accepts Items 6 (Text (state_name (kn_state k))) b in
      let* b := put_if accepts Items 7 (kn_seq k) b in
      let* b := put_if accepts Items 8 (kn_updated_by k) b in
      let* b := put accepts Items 9 (Text (show_key_flags (kd_flags (kn_detail k)))) b in
      let* b := put accepts Items 10 (Text (show_access_flags (kd_access (kn_detail k)))) b in
      let* b := check_write_string accepts Items 12 (sanitize (key_logs k)) b in
      write_each (fun v => write_key accepts printable key_logs value_logs recovered_only v true) (kn_versions k) b
    else Ok b in
    if m then Ok b else write_each (fun v b => let* b := write_value accepts printable value_logs recovered_only k v b in
                                    write_each (write_value accepts printable value_logs recovered_only k) (kv_versions v) b) (values_of k) b)
    by (destruct k; reflexivity).
  rewrite U, key_kept. clear U. destruct (kept recovered_only (KeyItem k)); [|reflexivity].
  match goal with |- (let* _ := ?x in _) = (let* _ := ?y in _) => enough (x = y) as -> by reflexivity end.
  unfold put_item, item_row. cbn [put_row]. set (b0 := next_row Items b). cbv zeta.
  repeat match goal with |- match ?x with _ => _ end = match (match put_entry ?s ?e ?b with _ => _ end) with _ => _ end =>
    replace x with (put_entry s e b) by first [reflexivity|symmetry; apply put_if_entry|symmetry; apply direct, state_short|symmetry; apply direct, date_short
      |symmetry; apply direct, key_flags_short|symmetry; apply direct, access_flags_short];
    destruct (put_entry s e b); try reflexivity; cbv beta iota end.
Qed.
End Rows.
