(** Lemmas about the text functions of Util. *)
From Verif Require Import Base BaseFacts Util UtilSpec.

Lemma trail_low x : trail (0x80 + x mod 64) = true.
Proof. unfold trail. apply andb_true_iff. rewrite N.leb_le, N.ltb_lt. lia. Qed.
Lemma read_utf8_char c r : scalar c ->
  read_utf8 (utf8_char c ++ r) = option_map (cons c) (read_utf8 r).
Proof.
  intros H. unfold utf8_char, scalar in *.
  destruct (N.ltb_spec c 0x80).
  { cbn [app read_utf8]. destruct (N.ltb_spec c 0x80); [reflexivity|lia]. }
  destruct (N.ltb_spec c 0x800).
  { cbn [app read_utf8].
    destruct (N.ltb_spec (0xC0 + c / 64) 0x80); [lia|].
    destruct (N.ltb_spec (0xC0 + c / 64) 0xC2); [lia|].
    destruct (N.ltb_spec (0xC0 + c / 64) 0xE0); [|lia].
    replace ((0xC0 + c / 64 - 0xC0) * 64 + (0x80 + c mod 64 - 0x80)) with c by lia.
    now rewrite trail_low. }
  destruct (N.ltb_spec c 0x10000).
  { cbn [app read_utf8].
    destruct (N.ltb_spec (0xE0 + c / 4096) 0x80); [lia|].
    destruct (N.ltb_spec (0xE0 + c / 4096) 0xC2); [lia|].
    destruct (N.ltb_spec (0xE0 + c / 4096) 0xE0); [lia|].
    destruct (N.ltb_spec (0xE0 + c / 4096) 0xF0); [|lia].
    replace ((0xE0 + c / 4096 - 0xE0) * 4096 + (0x80 + (c / 64) mod 64 - 0x80) * 64 + (0x80 + c mod 64 - 0x80))
      with c by lia.
    cbv zeta. rewrite !trail_low. replace (0x800 <=? c) with true by (symmetry; apply N.leb_le; lia).
    replace ((c <? 0xD800) || (0xE000 <=? c)) with true; [reflexivity|].
    symmetry. apply orb_true_iff. rewrite N.ltb_lt, N.leb_le. lia. }
  cbn [app read_utf8].
  destruct (N.ltb_spec (0xF0 + c / 262144) 0x80); [lia|].
  destruct (N.ltb_spec (0xF0 + c / 262144) 0xC2); [lia|].
  destruct (N.ltb_spec (0xF0 + c / 262144) 0xE0); [lia|].
  destruct (N.ltb_spec (0xF0 + c / 262144) 0xF0); [lia|].
  replace ((0xF0 + c / 262144 - 0xF0) * 262144 + (0x80 + (c / 4096) mod 64 - 0x80) * 4096
           + (0x80 + (c / 64) mod 64 - 0x80) * 64 + (0x80 + c mod 64 - 0x80)) with c by lia.
  cbv zeta. rewrite !trail_low. replace (0x10000 <=? c) with true by (symmetry; apply N.leb_le; lia).
  replace (c <? 0x110000) with true by (symmetry; apply N.ltb_lt; lia). reflexivity.
Qed.

Lemma read_utf8_utf8 cs : Forall scalar cs -> read_utf8 (utf8 cs) = Some cs.
Proof.
  induction 1 as [|c cs Hc _ IH]; [reflexivity|].
  cbn [utf8 flat_map]. rewrite read_utf8_char by assumption.
  unfold utf8 in IH. now rewrite IH.
Qed.

Lemma trail_inv b : trail b = true -> 0x80 <= b < 0xC0.
Proof. unfold trail. rewrite andb_true_iff, N.leb_le, N.ltb_lt. tauto. Qed.
(** Nothing else is read. *)
Lemma read_utf8_exact s cs : read_utf8 s = Some cs -> Forall scalar cs /\ s = utf8 cs.
Proof.
  remember (length s) as n eqn:E. revert s cs E. induction n as [n IH] using lt_wf_ind. intros s cs -> R.
  assert (G : forall r x pre, (length r < length s)%nat -> s = pre ++ r -> option_map (cons x) (read_utf8 r) = Some cs -> scalar x ->
    utf8_char x = pre -> Forall scalar cs /\ s = utf8 cs).
  { intros r x pre L ES M SC P. destruct (read_utf8 r) as [ds|] eqn:D; [|discriminate M]. injection M as <-.
    destruct (IH _ L r ds eq_refl D) as (F & ->). split; [now constructor|]. rewrite ES, <- P. reflexivity. }
  destruct s as [|a r]; [injection R as <-; now split; [constructor|]|]. cbn [read_utf8] in R.
  destruct (N.ltb_spec a 0x80).
  { apply (G r a [a]); [cbn; lia|reflexivity|exact R|left; lia|]. unfold utf8_char. now destruct (N.ltb_spec a 0x80); [|lia]. }
  destruct (N.ltb_spec a 0xC2); [discriminate R|]. destruct (N.ltb_spec a 0xE0).
  { destruct r as [|b r]; [discriminate R|]. destruct (trail b) eqn:TB; [|discriminate R]. apply trail_inv in TB.
    apply (G r _ [a; b] ltac:(cbn; lia) eq_refl R); [left; lia|]. unfold utf8_char.
    destruct (N.ltb_spec ((a - 0xC0) * 64 + (b - 0x80)) 0x80); [lia|]. destruct (N.ltb_spec ((a - 0xC0) * 64 + (b - 0x80)) 0x800); [|lia].
    repeat f_equal; lia. }
  destruct (N.ltb_spec a 0xF0).
  { destruct r as [|b [|c r]]; try discriminate R. cbv zeta in R.
    match type of R with (if ?b then _ else _) = _ => destruct b eqn:C; [|discriminate R] end.
    rewrite !andb_true_iff, orb_true_iff, !N.leb_le, N.ltb_lt in C. destruct C as (((TB & TC) & L) & U). apply trail_inv in TB, TC.
    apply (G r _ [a; b; c] ltac:(cbn; lia) eq_refl R); [unfold scalar; lia|]. unfold utf8_char.
    set (x := (a - 0xE0) * 4096 + (b - 0x80) * 64 + (c - 0x80)) in *.
    destruct (N.ltb_spec x 0x80); [lia|]. destruct (N.ltb_spec x 0x800); [lia|]. destruct (N.ltb_spec x 0x10000); [|lia].
    repeat f_equal; lia. }
  destruct r as [|b [|c [|d r]]]; try discriminate R. cbv zeta in R.
  match type of R with (if ?b then _ else _) = _ => destruct b eqn:C; [|discriminate R] end.
  rewrite !andb_true_iff, !N.leb_le, N.ltb_lt in C. destruct C as ((((TB & TC) & TD) & L) & U). apply trail_inv in TB, TC, TD.
  apply (G r _ [a; b; c; d] ltac:(cbn; lia) eq_refl R); [unfold scalar; lia|]. unfold utf8_char.
  set (x := (a - 0xF0) * 262144 + (b - 0x80) * 4096 + (c - 0x80) * 64 + (d - 0x80)) in *.
  destruct (N.ltb_spec x 0x80); [lia|]. destruct (N.ltb_spec x 0x800); [lia|]. destruct (N.ltb_spec x 0x10000); [lia|].
  repeat f_equal; lia.
Qed.

Lemma utf8_inj a b : Forall scalar a -> Forall scalar b -> utf8 a = utf8 b -> a = b.
Proof.
  intros Ha Hb E. apply read_utf8_utf8 in Ha, Hb. rewrite E in Ha. congruence.
Qed.

Lemma utf8_app a b : utf8 (a ++ b) = utf8 a ++ utf8 b.
Proof. apply flat_map_app. Qed.

Lemma byte_scalar s : bytes_ok s -> Forall scalar s.
Proof. apply Forall_impl. unfold byte, scalar. intros. lia. Qed.

Lemma utf8_char_bytes c : scalar c -> bytes_ok (utf8_char c).
Proof.
  unfold scalar, utf8_char, bytes_ok, byte. intros H.
  destruct (N.ltb_spec c 0x80); [|destruct (N.ltb_spec c 0x800); [|destruct (N.ltb_spec c 0x10000)]];
    repeat constructor; lia.
Qed.
Lemma utf8_bytes cs : Forall scalar cs -> bytes_ok (utf8 cs).
Proof.
  induction 1; [constructor|]. cbn [utf8 flat_map].
  apply bytes_ok_app. split; [now apply utf8_char_bytes|assumption].
Qed.

(** *** UTF-16 *)

Lemma units_unit_bytes us n tail : (length us <= n)%nat ->
  units n (unit_bytes us ++ tail) = map Some us ++ units (n - length us) tail.
Proof.
  revert n. induction us as [|u us IH]; intros n Hn; cbn [length unit_bytes flat_map app map].
  - now rewrite Nat.sub_0_r.
  - cbn [length] in Hn. destruct n as [|n]; [lia|].
    cbn [units app Nat.sub]. f_equal; [f_equal; lia|].
    apply IH. lia.
Qed.

Lemma len_unit_bytes us : len (unit_bytes us) = 2 * len us.
Proof.
  induction us; [reflexivity|]. cbn [unit_bytes flat_map app].
  rewrite !len_cons. unfold unit_bytes in IHus. rewrite IHus. lia.
Qed.

Lemma decode_text text rest cs cnt w :
  Forall scalar text -> ~ In 0 text ->
  decode_until_nul (map Some (utf16 text) ++ rest) cs cnt w
  = decode_until_nul rest (rev text ++ cs) (cnt + len text) w.
Proof.
  intros H. revert cs cnt. induction H as [|c text Hc _ IH]; intros cs cnt N0.
  - cbn. now rewrite len_nil, N.add_0_r.
  - assert (c <> 0) by (intro; apply N0; now left).
    assert (~ In 0 text) by (intro; apply N0; now right).
    cbn [utf16 flat_map rev]. unfold scalar in Hc.
    rewrite map_app, <- !app_assoc. unfold utf16_char.
    destruct (N.ltb_spec c 0x10000) as [L|L].
    + cbn [map app decode_until_nul].
      replace (is_high c) with false by (unfold is_high; lia).
      replace (is_low c) with false by (unfold is_low; lia).
      replace (c =? 0) with false by lia.
      fold (utf16 text). rewrite IH by assumption.
      rewrite len_cons. cbn [app]. f_equal. lia.
    + cbn [map app decode_until_nul].
      replace (is_high (0xD800 + (c - 0x10000) / 1024)) with true by (unfold is_high; lia).
      replace (is_low (0xDC00 + (c - 0x10000) mod 1024)) with true by (unfold is_low; lia).
      fold (utf16 text). rewrite IH by assumption.
      rewrite len_cons. cbn [app].
      replace (0x10000 + (0xD800 + (c - 0x10000) / 1024 - 0xD800) * 1024 +
               (0xDC00 + (c - 0x10000) mod 1024 - 0xDC00)) with c by lia.
      f_equal. lia.
Qed.

(** What comes after the text: the count ends (possibly with half a unit), or a
    NUL unit follows. *)
Lemma single_text text tail cnt :
  Forall scalar text -> ~ In 0 text ->
  (len (utf16le text) <= cnt <= len (utf16le text) + 1 \/
   (exists junk, tail = 0 :: 0 :: junk) /\ len (utf16le text) + 2 <= cnt) ->
  from_utf16_le_string_single (utf16le text ++ tail) cnt
  = Ok (text,
        if cnt <=? len (utf16le text) + 1 then len text - 1 else len text, 0).
Proof.
  intros Hs H0 Hc. unfold from_utf16_le_string_single, utf16le in *.
  rewrite len_unit_bytes in *. rewrite len_app, len_unit_bytes.
  destruct Hc as [Hc|[[junk ->] Hc]].
  - assert (E : N.min (cnt / 2) (2 * len (utf16 text) + len tail + 1) = len (utf16 text)) by lia.
    rewrite E, to_nat_len, units_unit_bytes by lia.
    rewrite Nat.sub_diag. cbn [units]. rewrite app_nil_r.
    rewrite <- (app_nil_r (map Some (utf16 text))), decode_text by assumption.
    cbn [decode_until_nul]. rewrite app_nil_r, rev_involutive, N.add_0_l.
    destruct (N.leb_spec cnt (2 * len (utf16 text) + 1)); [|lia].
    destruct (N.ltb_spec 0 (len text)); [easy|].
    repeat f_equal; lia.
  - set (n := N.to_nat _). assert (Hn : (S (length (utf16 text)) <= n)%nat).
    { subst n. rewrite !len_cons. rewrite <- to_nat_len. lia. }
    rewrite units_unit_bytes by lia.
    destruct (n - length (utf16 text))%nat as [|m] eqn:Em; [lia|].
    cbn [units]. rewrite decode_text by assumption.
    cbn [decode_until_nul]. replace (0 + 256 * 0) with 0 by lia.
    change (is_high 0) with false. change (is_low 0) with false. cbn [N.eqb].
    rewrite app_nil_r, rev_involutive, N.add_0_l. cbn [N.eqb].
    change (0 =? 0) with true. cbn iota.
    destruct (N.ltb_spec 0 (len text + 1)); [|lia].
    destruct (N.leb_spec cnt (2 * len (utf16 text) + 1)); [lia|].
    repeat f_equal; lia.
Qed.

Lemma utf16_string_text text tail cnt :
  Forall scalar text -> ~ In 0 text ->
  cnt <= len (utf16le text ++ tail) ->
  (len (utf16le text) <= cnt <= len (utf16le text) + 1 \/
   (exists junk, tail = 0 :: 0 :: junk) /\ len (utf16le text) + 2 <= cnt) ->
  exists s, from_utf16_le_string (utf16le text ++ tail) cnt = Ok (s, 0)
            /\ read_utf8 s = Some text.
Proof.
  intros Hs H0 Hl Hc. exists (utf8 text). split; [|now apply read_utf8_utf8].
  unfold from_utf16_le_string. destruct (N.leb_spec cnt (len (utf16le text ++ tail))); [|lia].
  now rewrite single_text.
Qed.

(** Complete characterisation of the warnings. *)
Lemma decode_warn_mono us cs cnt w cs' cnt' w' :
  decode_until_nul us cs cnt w = Ok (cs', cnt', w') -> w <= w'.
Proof.
  revert cs cnt w. 
  assert (G : forall n us cs cnt w, (length us <= n)%nat ->
     decode_until_nul us cs cnt w = Ok (cs', cnt', w') -> w <= w').
  { clear us. induction n; intros us cs cnt w L E.
    - destruct us; [|cbn in L; lia]. cbn in E. injection E as _ _ <-. lia.
    - destruct us as [|[u|] r]; cbn [decode_until_nul] in E; [| |discriminate].
      { injection E as _ _ <-. lia. }
      cbn [length] in L.
      destruct (is_high u).
      { destruct r as [|[v|] r']; [|destruct (is_low v)|discriminate].
        - injection E as _ _ <-. lia.
        - apply IHn in E; [lia|cbn [length] in L; lia].
        - apply IHn in E; [lia|lia]. }
      destruct (is_low u); [apply IHn in E; lia|].
      destruct (u =? 0); [injection E as _ _ <-; lia|].
      apply IHn in E; lia. }
  intros. eapply G; eauto.
Qed.

Lemma decode_no_warn us tail cs cnt cs' cnt' w :
  Forall (fun u => 0 < u /\ u < 65536) us ->
  (tail = [] \/ exists junk, tail = Some 0 :: junk) ->
  decode_until_nul (map Some us ++ tail) cs cnt w = Ok (cs', cnt', w) ->
  exists text, Forall scalar text /\ ~ In 0 text /\ us = utf16 text.
Proof.
  intros H Ht. remember (length us) as n eqn:En.
  assert (Hn : (length us <= n)%nat) by lia. clear En.
  revert us H Hn cs cnt w. induction n; intros us H Hn cs cnt w E.
  - destruct us; [|cbn in Hn; lia]. exists []. cbn. repeat split; try constructor. tauto.
  - destruct us as [|u us]; [exists []; cbn; repeat split; try constructor; tauto|].
    inversion H as [|? ? [Hu1 Hu2] H']; subst. cbn [length] in Hn.
    cbn [map app decode_until_nul] in E.
    destruct (is_high u) eqn:Eh.
    + unfold is_high in Eh.
      destruct us as [|v us].
      * cbn [map app] in E. destruct Ht as [->|[junk ->]].
        { injection E as _ _ E. lia. }
        { change (is_low 0) with false in E. cbn iota in E.
          apply decode_warn_mono in E. lia. }
      * cbn [map app] in E. inversion H' as [|? ? [Hv1 Hv2] H'']; subst.
        destruct (is_low v) eqn:Ev.
        { unfold is_low in Ev. cbn [length] in Hn. apply IHn in E; [|assumption|lia].
          destruct E as (text & T1 & T2 & ->).
          exists (0x10000 + (u - 0xD800) * 1024 + (v - 0xDC00) :: text).
          repeat split.
          - constructor; [|assumption]. unfold scalar. lia.
          - intros [C|C]; [lia|tauto].
          - cbn [utf16 flat_map]. unfold utf16_char.
            destruct (N.ltb_spec (0x10000 + (u - 0xD800) * 1024 + (v - 0xDC00)) 0x10000); [lia|].
            cbn [app]. f_equal; [lia|]. f_equal. lia. }
        { apply decode_warn_mono in E. lia. }
    + destruct (is_low u) eqn:El.
      { apply decode_warn_mono in E. lia. }
      unfold is_high in Eh. unfold is_low in El.
      replace (u =? 0) with false in E by lia.
      apply IHn in E; [|assumption|lia]. destruct E as (text & T1 & T2 & ->).
      exists (u :: text). repeat split.
      * constructor; [|assumption]. unfold scalar. lia.
      * intros [C|C]; [lia|tauto].
      * cbn [utf16 flat_map]. unfold utf16_char.
        destruct (N.ltb_spec u 0x10000); [reflexivity|lia].
Qed.

Lemma units_short n s : len s <= 1 -> (n = 0)%nat -> units n s = [].
Proof. intros _ ->. reflexivity. Qed.

Lemma utf16_warning_iff us tail s w :
  Forall (fun u => 0 < u /\ u < 65536) us ->
  (len tail <= 1 \/ exists junk, tail = 0 :: 0 :: junk) ->
  from_utf16_le_string (unit_bytes us ++ tail) (len (unit_bytes us ++ tail)) = Ok (s, w) ->
  (w = 0 <-> exists text, Forall scalar text /\ us = utf16 text).
Proof.
  intros H Ht E. unfold from_utf16_le_string in E. rewrite N.leb_refl in E.
  unfold from_utf16_le_string_single in E.
  set (n := N.to_nat _) in E.
  assert (Hn : n = N.to_nat ((2 * len us + len tail) / 2)).
  { subst n. f_equal. rewrite len_app, len_unit_bytes. lia. }
  assert (Hge : (length us <= n)%nat) by (rewrite Hn, <- to_nat_len; lia).
  rewrite units_unit_bytes in E by assumption.
  assert (T : units (n - length us) tail = [] \/
              exists junk, units (n - length us) tail = Some 0 :: junk).
  { destruct Ht as [Ht|[junk ->]].
    - left. apply units_short; [assumption|]. rewrite Hn, <- to_nat_len. lia.
    - right. destruct (n - length us)%nat eqn:Em.
      + rewrite Hn, <- to_nat_len, !len_cons in Em. lia.
      + cbn [units]. eexists. reflexivity. }
  destruct (decode_until_nul _ [] 0 0) as [[[cs c] w']| | |] eqn:D; try discriminate.
  injection E as _ <-. split.
  - intros ->. apply decode_no_warn in D; [|assumption|assumption].
    destruct D as (text & ? & ? & ?). eauto.
  - intros (text & Hs & ->).
    assert (H0 : ~ In 0 text).
    { clear -H. intros Hin. apply in_split in Hin as (a & b & ->).
      unfold utf16 in H. rewrite flat_map_app in H. apply Forall_app in H as [_ H].
      cbn in H. inversion H. lia. }
    rewrite decode_text in D by assumption.
    destruct T as [T|[junk T]]; rewrite T in D; cbn [decode_until_nul] in D.
    + injection D. auto.
    + change (is_high 0) with false in D. change (is_low 0) with false in D.
      cbn in D. injection D. auto.
Qed.

(** The decoder is total: no panic and no error on any bytes. *)
Lemma decode_some_total us cs cnt w :
  exists cs' cnt' w', decode_until_nul (map Some us) cs cnt w = Ok (cs', cnt', w').
Proof.
  remember (length us) as n eqn:En. assert (L : (length us <= n)%nat) by lia. clear En.
  revert us L cs cnt w. induction n; intros us L cs cnt w.
  - destruct us; [cbn; eauto|cbn in L; lia].
  - destruct us as [|u us]; [cbn; eauto|]. cbn [length] in L.
    cbn [map decode_until_nul].
    destruct (is_high u).
    + destruct us as [|v us]; [cbn; eauto|]. cbn [map]. cbn [length] in L.
      destruct (is_low v); [apply IHn; lia|].
      change (Some v :: map Some us) with (map Some (v :: us)). apply IHn. cbn; lia.
    + destruct (is_low u); [apply IHn; lia|].
      destruct (u =? 0); [eauto|apply IHn; lia].
Qed.

Lemma units_all_some n s : (2 * n <= length s)%nat -> exists us, units n s = map Some us /\ length us = n.
Proof.
  revert s. induction n; intros s H; [exists []; easy|].
  destruct s as [|a [|b r]]; cbn [length] in H; try lia.
  destruct (IHn r) as (us & E & L); [lia|].
  exists (a + 256 * b :: us). cbn. rewrite E. split; [reflexivity|lia].
Qed.

Lemma single_total s cnt : cnt <= len s ->
  exists cs c w, from_utf16_le_string_single s cnt = Ok (cs, c, w).
Proof.
  intros H. unfold from_utf16_le_string_single.
  destruct (units_all_some (N.to_nat (N.min (cnt / 2) (len s + 1))) s) as (us & -> & _).
  { unfold len in *. lia. }
  destruct (decode_some_total us [] 0 0) as (? & ? & ? & ->). eauto.
Qed.

Lemma utf16_string_total s cnt : cnt <= len s ->
  exists t w, from_utf16_le_string s cnt = Ok (t, w).
Proof.
  intros H. unfold from_utf16_le_string. destruct (N.leb_spec cnt (len s)); [|lia].
  destruct (single_total s cnt H) as (? & ? & ? & ->). eauto.
Qed.

(** *** Multi-strings *)

Lemma is_white_spec c : is_white c = true <-> white_space c.
Proof.
  unfold is_white, white_space. cbn [In].
  rewrite !orb_true_iff, !andb_true_iff, !N.eqb_eq, !N.leb_le. intuition lia.
Qed.

Lemma not_all_white s : ~ Forall white_space s -> forallb is_white s = false.
Proof.
  intros H. apply not_true_is_false. intros E. apply H.
  rewrite forallb_forall in E. apply Forall_forall. intros c Hc.
  apply is_white_spec. auto.
Qed.

Definition bmp (c : N) : Prop := scalar c /\ c < 0x10000 /\ c <> 0.

Lemma utf16_bmp s : Forall bmp s -> utf16 s = s.
Proof.
  induction 1 as [|c s [Hc [Hl _]] _ IH]; [reflexivity|].
  cbn [utf16 flat_map]. unfold utf16_char.
  destruct (N.ltb_spec c 0x10000); [|lia]. cbn [app]. f_equal. exact IH.
Qed.
Lemma bmp_scalar s : Forall bmp s -> Forall scalar s.
Proof. apply Forall_impl. now intros c [? _]. Qed.
Lemma bmp_no0 s : Forall bmp s -> ~ In 0 s.
Proof. intros H C. rewrite Forall_forall in H. destruct (H _ C) as (_ & _ & ?). easy. Qed.
Lemma len_utf16le_bmp s : Forall bmp s -> len (utf16le s) = 2 * len s.
Proof. intros. unfold utf16le. now rewrite len_unit_bytes, utf16_bmp. Qed.

Lemma multi_loop l : forall pre junk fuel acc cnt,
  Forall (fun s => Forall bmp s /\ ~ Forall white_space s) l ->
  (length l < fuel)%nat ->
  cnt = len (pre ++ flat_map (fun s => utf16le s ++ [0; 0]) l ++ junk) ->
  (len junk <= 1 \/ exists j, junk = 0 :: 0 :: j) ->
  utf16_strings_loop fuel (pre ++ flat_map (fun s => utf16le s ++ [0; 0]) l ++ junk)
    cnt (len pre) acc 0
  = Ok (rev acc ++ map utf8 l, 0).
Proof.
  induction l as [|s l IH]; intros pre junk fuel acc cnt H Hf -> Hj;
    (destruct fuel as [|fuel]; [cbn in Hf; lia|]); cbn [utf16_strings_loop flat_map app map].
  - rewrite app_nil_r, len_app. destruct (N.ltb_spec (len pre) (len pre + len junk)).
    2: reflexivity.
    rewrite get_from_app by reflexivity. cbn [or_panic].
    replace (len pre + len junk - len pre) with (len junk) by lia.
    replace junk with (utf16le [] ++ junk) at 1 by reflexivity.
    rewrite single_text; [reflexivity|constructor|easy|].
    change (len (utf16le [])) with 0.
    destruct Hj as [Hj|[j ->]]; [left; lia|right].
    split; [eauto|]. rewrite !len_cons. lia.
  - inversion H as [|? ? [Hs Hw] Hl]; subst.
    rewrite <- !app_assoc. 
    set (rest := flat_map (fun s0 => utf16le s0 ++ [0; 0]) l ++ junk).
    assert (L := len_utf16le_bmp s Hs).
    rewrite !len_app, !len_cons, len_nil.
    destruct (N.ltb_spec (len pre) (len pre + (len (utf16le s) + (0 + 1 + 1 + len rest)))); [|lia].
    rewrite get_from_app by reflexivity. cbn [or_panic].
    rewrite single_text; [|now apply bmp_scalar|now apply bmp_no0|].
    2:{ right. split; [eexists; reflexivity|lia]. }
    destruct (N.leb_spec (len pre + (len (utf16le s) + (0 + 1 + 1 + len rest)) - len pre)
                (len (utf16le s) + 1)); [lia|].
    rewrite not_all_white by assumption.
    replace (pre ++ utf16le s ++ [0; 0] ++ rest)
      with ((pre ++ utf16le s ++ [0; 0]) ++ rest) by now rewrite <- !app_assoc.
    replace (len pre + len s * 2 + 2) with (len (pre ++ utf16le s ++ [0;0]))
      by (rewrite !len_app, !len_cons, len_nil; lia).
    replace (0 + 0) with 0 by lia. subst rest.
    rewrite IH; [|assumption|cbn in Hf; lia| |assumption].
    { cbn [rev]. now rewrite <- app_assoc. }
    lens. lia.
Qed.

Lemma len_flat_ge l : (length l <= length (flat_map (fun s => utf16le s ++ [0%N; 0%N]) l))%nat.
Proof.
  induction l as [|s l IH]; [easy|]. cbn [flat_map length].
  rewrite !app_length. cbn. lia.
Qed.

Lemma multi_round_trip l junk :
  Forall (fun s => Forall bmp s /\ ~ Forall white_space s) l ->
  (len junk <= 1 \/ exists j, junk = 0 :: 0 :: j) ->
  let stored := flat_map (fun s => utf16le s ++ [0; 0]) l ++ junk in
  exists r, from_utf16_le_strings stored (len stored) = Ok (r, 0)
            /\ map read_utf8 r = map Some l.
Proof.
  intros H Hj stored. exists (map utf8 l). split.
  - unfold from_utf16_le_strings.
    pose proof (multi_loop l [] junk (S (length stored)) [] (len stored)) as M.
    cbn [app rev] in M. nil_len. apply M; try assumption.
    + subst stored. rewrite app_length. pose proof (len_flat_ge l). lia.
    + reflexivity.
  - rewrite map_map. apply map_ext_in. intros s Hs.
    rewrite Forall_forall in H. apply read_utf8_utf8, bmp_scalar, H, Hs.
Qed.

(** The loop never runs out of fuel. *)
Lemma decode_count us cs cnt w cs' cnt' w' :
  decode_until_nul us cs cnt w = Ok (cs', cnt', w') ->
  len cs' + cnt <= cnt' + len cs /\ cnt' <= len cs' - len cs + cnt + 1 /\ len cs <= len cs'.
Proof.
  revert cs cnt w.
  assert (G : forall n us cs cnt w, (length us <= n)%nat ->
     decode_until_nul us cs cnt w = Ok (cs', cnt', w') -> len cs' + cnt <= cnt' + len cs
       /\ cnt' <= len cs' - len cs + cnt + 1 /\ len cs <= len cs').
  { clear us. induction n; intros us cs cnt w L E.
    - destruct us; [|cbn in L; lia]. cbn in E. injection E as <- <- <-. rewrite len_rev. lia.
    - destruct us as [|[u|] r]; cbn [decode_until_nul] in E; [| |discriminate].
      { injection E as <- <- <-. rewrite len_rev. lia. }
      cbn [length] in L.
      destruct (is_high u).
      { destruct r as [|[v|] r']; [|destruct (is_low v)|discriminate].
        - injection E as <- <- <-. rewrite len_app, len_rev. rewrite !len_cons, len_nil. lia.
        - apply IHn in E; [rewrite len_cons in E; lia|cbn [length] in L; lia].
        - apply IHn in E; [rewrite len_cons in E; lia|lia]. }
      destruct (is_low u); [apply IHn in E; [rewrite len_cons in E; lia|lia]|].
      destruct (u =? 0); [injection E as <- <- <-; rewrite len_rev; lia|].
      apply IHn in E; [rewrite len_cons in E; lia|lia]. }
  intros. eapply G; eauto.
Qed.

Lemma multi_loop_fuel fuel : forall slice cnt offset acc w,
  offset <= len slice -> len slice - offset < 2 * N.of_nat fuel -> 
  cnt <= len slice ->
  exists r w', utf16_strings_loop fuel slice cnt offset acc w = Ok (r, w').
Proof.
  induction fuel as [|fuel IH]; intros slice cnt offset acc w Ho Hf Hc; [lia|].
  cbn [utf16_strings_loop]. destruct (N.ltb_spec offset cnt); [|eauto].
  unfold get_from. destruct (N.leb_spec offset (len slice)); [|lia]. cbn [or_panic].
  destruct (single_total (skipn (N.to_nat offset) slice) (cnt - offset)) as (cs & sz & w1 & E).
  { rewrite len_skipn. lia. }
  rewrite E. destruct (forallb is_white cs) eqn:W; [eauto|].
  assert (cs <> []) by (intros ->; discriminate W).
  assert (1 <= len cs) by (destruct cs; [easy|]; rewrite len_cons; lia).
  destruct (N.leb_spec (offset + sz * 2 + 2) (len slice)).
  { apply IH; lia. }
  destruct fuel as [|fuel]; [|].
  - (* remaining length is at most 1 *)
    exfalso. unfold from_utf16_le_string_single in E.
    assert (Z : N.min ((cnt - offset) / 2) (len (skipn (N.to_nat offset) slice) + 1) = 0) by lia.
    rewrite Z in E. cbn in E. injection E as E1 _ _. now subst.
  - cbn [utf16_strings_loop]. destruct (N.ltb_spec (offset + sz * 2 + 2) cnt); [lia|eauto].
Qed.

Lemma multi_total slice cnt : cnt <= len slice ->
  exists r w, from_utf16_le_strings slice cnt = Ok (r, w).
Proof.
  intros H. unfold from_utf16_le_strings. apply multi_loop_fuel; unfold len in *; lia.
Qed.

(** *** FILETIME *)
Lemma filetime_exact n :
  get_date_time_from_filetime n = filetime_instant n <-> fits_i64 (filetime_instant n).
Proof.
  unfold get_date_time_from_filetime, filetime_instant, fits_i64, as_i64.
  change (2 ^ 63)%Z with 9223372036854775808%Z.
  replace (134774 * 86400 * 1000000000)%Z with 11644473600000000000%Z by lia.
  replace (11644473600 * 1000000000)%Z with 11644473600000000000%Z by lia.
  set (z := (Z.of_N n * 100 - 11644473600000000000)%Z).
  pose proof (Z.mod_pos_bound z 18446744073709551616).
  destruct (Z.ltb_spec (z mod 18446744073709551616) 9223372036854775808); lia.
Qed.

(** *** Hex *)
Lemma hex_digit_value d : d < 16 -> hex_value (hex_digit d) = Some d.
Proof.
  intros H. unfold hex_digit, hex_value. destruct (N.ltb_spec d 10).
  - replace ((48 <=? 48 + d) && (48 + d <=? 57)) with true by lia. f_equal; lia.
  - replace ((48 <=? 55 + d) && (55 + d <=? 57)) with false by lia.
    replace ((65 <=? 55 + d) && (55 + d <=? 70)) with true by lia. f_equal; lia.
Qed.

Lemma hex_cons b c bs : to_hex_string (b :: c :: bs)
  = hex_digit (b / 16) :: hex_digit (b mod 16) :: 32 :: to_hex_string (c :: bs).
Proof. reflexivity. Qed.

Lemma hex_round_trip bs : bytes_ok bs -> read_hex (to_hex_string bs) = Some bs.
Proof.
  unfold bytes_ok, byte. induction 1 as [|b bs Hb Hbs IH]; [reflexivity|].
  destruct bs as [|c bs].
  - cbn [to_hex_string flat_map app removelast read_hex].
    rewrite !hex_digit_value by lia. do 2 f_equal. lia.
  - rewrite hex_cons. cbn [read_hex]. rewrite !hex_digit_value by lia.
    replace (nonempty (to_hex_string (c :: bs))) with true.
    2:{ destruct bs; reflexivity. }
    change (32 =? 32) with true. cbn [andb]. rewrite IH. cbn [option_map].
    do 2 f_equal. lia.
Qed.

Lemma hex_len bs : len (to_hex_string bs) = 3 * len bs - 1.
Proof.
  induction bs as [|b bs IH]; [reflexivity|]. destruct bs as [|c bs]; [reflexivity|].
  rewrite hex_cons. rewrite !len_cons, IH, !len_cons. lia.
Qed.

(** *** TSV escaping *)
Lemma escape_plain s cur r :
  existsb needs_quotes s = false ->
  forall st, (st = Plain \/ (st = Start)) ->
  read_row_from st cur (s ++ r)
  = match s with [] => read_row_from st cur r | _ => read_row_from Plain (rev s ++ cur) r end.
Proof.
  revert cur. induction s as [|c s IH]; intros cur H st Hst; [reflexivity|].
  cbn [existsb] in H. apply orb_false_iff in H as [Hc H].
  unfold needs_quotes in Hc.
  rewrite !orb_false_iff in Hc. destruct Hc as [[[[H9 H13] H10] H44] H34].
  assert (E : read_row_from st cur ((c :: s) ++ r) = read_row_from Plain (c :: cur) (s ++ r)).
  { destruct Hst as [->| ->]; cbn [app read_row_from]; now rewrite H9, H10, H34. }
  rewrite E, IH by auto. cbn [rev]. rewrite <- app_assoc. cbn [app].
  destruct s; reflexivity.
Qed.

Lemma escape_quoted s : forall cur r,
  read_row_from Quoted cur (flat_map (fun b => if b =? 34 then [34; 34] else [b]) s ++ r)
  = read_row_from Quoted (rev s ++ cur) r.
Proof.
  induction s as [|c s IH]; intros cur r; [reflexivity|].
  cbn [flat_map rev]. destruct (N.eqb_spec c 34).
  - subst. cbn [app read_row_from]. change (34 =? 34) with true. cbn iota.
    rewrite IH, <- app_assoc. reflexivity.
  - cbn [app read_row_from]. apply N.eqb_neq in n. rewrite n.
    rewrite IH, <- app_assoc. reflexivity.
Qed.

Lemma escape_field s r :
  (match r with 9 :: _ | 10 :: _ => True | _ => False end) ->
  read_row_from Start [] (escape_string s ++ r)
  = match r with
    | 9 :: r' => match read_row_from Start [] r' with
                 | Some (fs, rest) => Some (s :: fs, rest) | None => None end
    | 10 :: r' => Some ([s], r')
    | _ => None
    end.
Proof.
  intros Hr. unfold escape_string. destruct (existsb needs_quotes s) eqn:E.
  - cbn [app read_row_from]. change (34 =? 9) with false. change (34 =? 10) with false.
    change (34 =? 34) with true. cbn iota.
    rewrite <- app_assoc, escape_quoted, app_nil_r. cbn [app read_row_from].
    change (34 =? 34) with true. cbn iota.
    destruct r as [|c r]; [easy|].
    assert (D : c = 9 \/ c = 10).
    { destruct c as [|[[[[]|[]|]|[[]|[]|]|]|[[[]|[]|]|[[]|[]|]|]|]]; try easy; auto. }
    destruct D as [->| ->]; cbn [read_row_from];
      rewrite ?N.eqb_refl; change (9 =? 34) with false; change (10 =? 34) with false;
      change (10 =? 9) with false; cbn iota; rewrite rev_involutive; reflexivity.
  - rewrite escape_plain by auto.
    destruct r as [|c r]; [easy|].
    assert (D : c = 9 \/ c = 10).
    { destruct c as [|[[[[]|[]|]|[[]|[]|]|]|[[[]|[]|]|[[]|[]|]|]|]]; try easy; auto. }
    destruct D as [->| ->]; destruct s as [|d s]; cbn [read_row_from];
      rewrite ?N.eqb_refl; change (10 =? 9) with false; cbn iota;
      rewrite ?app_nil_r, ?rev_involutive; reflexivity.
Qed.

Lemma row_round_trip f fs rest :
  read_row (row_text (map escape_string (f :: fs)) ++ rest) = Some (f :: fs, rest).
Proof.
  unfold read_row. revert f. induction fs as [|g fs IH]; intros f.
  - cbn [map row_text]. rewrite <- app_assoc. rewrite escape_field by exact I. reflexivity.
  - specialize (IH g). cbn [map] in IH |- *.
    change (row_text (escape_string f :: escape_string g :: map escape_string fs))
      with (escape_string f ++ [9] ++ row_text (escape_string g :: map escape_string fs)).
    rewrite <- !app_assoc. rewrite escape_field by exact I. cbn [app]. now rewrite IH.
Qed.

(** *** ROT13 *)
Lemma rot13_upper i : i < 26 -> rot13_char (65 + i) = 65 + (i + 13) mod 26.
Proof. intros. unfold rot13_char. destruct (N.ltb_spec i 13).
  - replace (((65 <=? 65 + i) && (65 + i <=? 77)) || _) with true by lia. lia.
  - replace (((65 <=? 65 + i) && (65 + i <=? 77)) || _) with false by lia.
    replace (((78 <=? 65 + i) && (65 + i <=? 90)) || _) with true by lia. lia.
Qed.
Lemma rot13_lower i : i < 26 -> rot13_char (97 + i) = 97 + (i + 13) mod 26.
Proof. intros. unfold rot13_char. destruct (N.ltb_spec i 13).
  - replace (((65 <=? 97 + i) && (97 + i <=? 77)) || _) with true by lia. lia.
  - replace (((65 <=? 97 + i) && (97 + i <=? 77)) || _) with false by lia.
    replace (((78 <=? 97 + i) && (97 + i <=? 90)) || _) with true by lia. lia.
Qed.
Lemma rot13_other c : ~ (65 <= c <= 90) -> ~ (97 <= c <= 122) -> rot13_char c = c.
Proof. intros. unfold rot13_char.
  replace (((65 <=? c) && (c <=? 77)) || _) with false by lia.
  replace (((78 <=? c) && (c <=? 90)) || _) with false by lia. reflexivity.
Qed.
Lemma rot13_involution s : decode_rot13 (decode_rot13 s) = s.
Proof.
  unfold decode_rot13. rewrite map_map. rewrite <- (map_id s) at 2. apply map_ext. intros c.
  destruct (N.leb_spec 65 c).
  2:{ rewrite !rot13_other; try rewrite rot13_other; lia. }
  destruct (N.leb_spec c 90).
  { replace c with (65 + (c - 65)) at 1 by lia. rewrite rot13_upper, rot13_upper by lia. lia. }
  destruct (N.leb_spec 97 c).
  2:{ rewrite !rot13_other; try rewrite rot13_other; lia. }
  destruct (N.leb_spec c 122).
  { replace c with (97 + (c - 97)) at 1 by lia. rewrite rot13_lower, rot13_lower by lia. lia. }
  rewrite !rot13_other; try rewrite rot13_other; lia.
Qed.

(** *** Paths *)
Lemma find_byte_app a b r : ~ In b a -> find_byte b (a ++ b :: r) = Some (len a).
Proof.
  induction a as [|x a IH]; intros H; cbn [app find_byte].
  - rewrite N.eqb_refl. reflexivity.
  - destruct (N.eqb_spec x b); [subst; exfalso; apply H; now left|].
    rewrite IH by (intro; apply H; now right). cbn [option_map].
    rewrite len_cons. f_equal. lia.
Qed.
Lemma find_byte_none a b : ~ In b a -> find_byte b a = None.
Proof.
  induction a as [|x a IH]; intros H; [reflexivity|]. cbn [find_byte].
  destruct (N.eqb_spec x b); [subst; exfalso; apply H; now left|].
  rewrite IH by (intro; apply H; now right). reflexivity.
Qed.
