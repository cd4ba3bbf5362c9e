(** Proofs about the texts of dates. *)
From Verif Require Import Base BaseFacts Util UtilSpec UtilText Export ExportSpec ExportFacts Date DateSpec.
Open Scope Z_scope.

(** ** Digits *)
Lemma digits_length w : forall fuel n r, (n < 10 ^ N.of_nat (S w))%N -> (List.length (digits fuel n r) <= S w + List.length r)%nat.
Proof.
  induction w as [|w IH]; intros [|fuel] n r L; cbn [digits]; try lia.
  - change (10 ^ N.of_nat 1)%N with 10%N in L. apply N.ltb_lt in L. rewrite L. cbn [List.length]. lia.
  - destruct (N.ltb_spec n 10) as [S|S]; [cbn [List.length]; lia|].
    assert (G := IH fuel (n / 10)%N ((48 + n mod 10)%N :: r)). cbn [List.length] in G. etransitivity; [apply G|lia].
    rewrite Nnat.Nat2N.inj_succ, N.pow_succ_r' in L. apply N.div_lt_upper_bound; lia.
Qed.
Lemma zeros_digit k : Forall digit (repeat 48%N k).
Proof. apply Forall_forall. intros x I. apply repeat_spec in I as ->. unfold digit. lia. Qed.
Lemma zeros_value k d : fold_left (fun v c => (10 * v + (c - 48))%N) (repeat 48%N k ++ d) 0%N
  = fold_left (fun v c => (10 * v + (c - 48))%N) d 0%N.
Proof. induction k as [|k IH]; [reflexivity|]. cbn [repeat app fold_left]. exact IH. Qed.
Lemma padded_digits w n : 0 <= n < 10 ^ Z.of_nat (S w) -> digits_of (S w) (Z.to_N n) (padded (S w) n).
Proof.
  intros R. unfold padded. cbv zeta. destruct (decimal_numeral (Z.to_N n)) as (A & B & C).
  assert (L := digits_length w (S (N.size_nat (Z.to_N n))) (Z.to_N n) []). fold (decimal (Z.to_N n)) in L. cbn [List.length] in L.
  rewrite Nat.add_0_r in L. assert (L' : (List.length (decimal (Z.to_N n)) <= S w)%nat).
  { apply L. apply N2Z.inj_lt. rewrite N2Z.inj_pow, nat_N_Z, Z2N.id by lia. exact (proj2 R). }
  split; [split; [|split]|].
  - destruct (decimal (Z.to_N n)); [congruence|]. intros X. apply app_eq_nil in X as [_ X]. discriminate.
  - apply Forall_app. split; [apply zeros_digit|exact B].
  - rewrite zeros_value. exact C.
  - rewrite app_length, repeat_length. lia.
Qed.

(** ** Days *)
Definition leap (y : Z) : Z := if leap_year y then 1 else 0.
Lemma delta_next y : year_delta (y + 1) = year_delta y + leap y.
Proof.
  unfold year_delta, leap, leap_year.
  destruct (Z.eqb_spec (y mod 4) 0), (Z.eqb_spec (y mod 100) 0), (Z.eqb_spec (y mod 400) 0); cbn [andb orb negb]; lia.
Qed.
Lemma yo_of_cycle c : 0 <= c < 146097 -> let (y, o) := cycle_to_yo c in
  0 <= y < 400 /\ 0 <= o < 365 + leap y /\ 365 * y + year_delta y + o = c.
Proof.
  intros R. unfold cycle_to_yo. cbv zeta.
  assert (Y : 0 <= c / 365 <= 400) by lia. assert (O : 0 <= c mod 365 < 365) by lia.
  assert (E : c = 365 * (c / 365) + c mod 365) by lia.
  set (y := c / 365) in *. set (o := c mod 365) in *. clearbody y o.
  assert (D0 : 0 <= year_delta y <= 97) by (unfold year_delta; lia).
  assert (L0 : 0 <= leap y <= 1) by (unfold leap; destruct (leap_year y); lia).
  destruct (Z.ltb_spec o (year_delta y)) as [H|H].
  - assert (N0 := delta_next (y - 1)). replace (y - 1 + 1) with y in N0 by lia.
    assert (Y1 : y <> 0) by (intros ->; change (year_delta 0) with 0 in H; lia).
    assert (D1 : 0 <= year_delta (y - 1) <= 97) by (unfold year_delta; lia).
    repeat split; lia.
  - assert (y <> 400) by (intros ->; change (year_delta 400) with 97 in H; lia). repeat split; lia.
Qed.

(** Days before a month, and the number of a day since year 0. *)
Definition before_month (l : bool) (m : Z) : Z :=
  fold_left Z.add (firstn (Z.to_nat (m - 1)) (month_lengths l)) 0.
Definition month_length (l : bool) (m : Z) : Z := nth (Z.to_nat (m - 1)) (month_lengths l) 0.
Definition valid (x : Z * Z * Z) : Prop :=
  let '(y, m, d) := x in 1 <= m <= 12 /\ 1 <= d <= month_length (leap_year y) m.
Definition day_number (x : Z * Z * Z) : Z :=
  let '(y, m, d) := x in 365 * y + year_delta y + before_month (leap_year y) m + d - 1.

Lemma month_cases m : 1 <= m <= 12 -> m = 1 \/ m = 2 \/ m = 3 \/ m = 4 \/ m = 5 \/ m = 6 \/ m = 7 \/ m = 8 \/ m = 9 \/ m = 10 \/ m = 11 \/ m = 12.
Proof. lia. Qed.
Lemma month_day_right (l : bool) o : 0 <= o < 365 + (if l then 1 else 0) ->
  let (m, d) := month_day (month_lengths l) 1 o in
  1 <= m <= 12 /\ 1 <= d <= month_length l m /\ before_month l m + d - 1 = o.
Proof.
  intros R. unfold month_lengths at 1. cbn [month_day].
  repeat match goal with |- context [if ?a <? ?b then _ else _] => destruct (Z.ltb_spec a b) end;
    destruct l; cbn [Z.add Pos.add Pos.succ Pos.add_carry] in *; try lia;
    match goal with |- 1 <= ?m <= _ /\ _ =>
      match goal with |- context [before_month ?b m] =>
        let x := eval vm_compute in (before_month b m) in change (before_month b m) with x;
        let x := eval vm_compute in (month_length b m) in change (month_length b m) with x end end; lia.
Qed.
Lemma date_right n : valid (date_of_days n) /\ day_number (date_of_days n) = n + 719528.
Proof.
  unfold date_of_days. cbv zeta. set (c := (n + 719528) mod 146097). assert (C : 0 <= c < 146097) by (subst c; lia).
  set (q := (n + 719528) / 146097). assert (E : n + 719528 = 146097 * q + c) by (subst c q; lia). rewrite E. clear E. clearbody c q.
  assert (Y := yo_of_cycle c C). destruct (cycle_to_yo c) as (y & o). destruct Y as (Y & O & S).
  assert (M := month_day_right (leap_year y) o O). destruct (month_day _ 1 o) as (m & d). destruct M as (M & D & B).
  assert (L : leap_year (400 * q + y) = leap_year y).
  { unfold leap_year. replace ((400 * q + y) mod 4) with (y mod 4) by lia. replace ((400 * q + y) mod 100) with (y mod 100) by lia.
    replace ((400 * q + y) mod 400) with (y mod 400) by lia. reflexivity. }
  unfold valid, day_number. rewrite L. split; [split; assumption|].
  replace (year_delta (400 * q + y)) with (97 * q + year_delta y) by (unfold year_delta; lia). lia.
Qed.

(** A date is determined by its number. *)
Lemma before_bounds (l : bool) m : 1 <= m <= 12 -> 0 <= before_month l m /\ before_month l m + month_length l m <= 365 + (if l then 1 else 0)
  /\ 28 <= month_length l m <= 31
  /\ forall m', m < m' <= 12 -> before_month l m + month_length l m <= before_month l m'.
Proof.
  intros M. destruct (month_cases m M) as [->|[->|[->|[->|[->|[->|[->|[->|[->|[->|[->| ->]]]]]]]]]]]; destruct l;
  (split; [vm_compute; discriminate|]; split; [vm_compute; discriminate|]; split; [split; vm_compute; discriminate|];
   intros m' M'; assert (X : 1 <= m' <= 12) by lia;
   destruct (month_cases m' X) as [->|[->|[->|[->|[->|[->|[->|[->|[->|[->|[->| ->]]]]]]]]]]]; try lia; vm_compute; discriminate).
Qed.
Lemma before_next l m : 1 <= m < 12 -> before_month l (m + 1) = before_month l m + month_length l m.
Proof.
  intros M. destruct (month_cases m ltac:(lia)) as [->|[->|[->|[->|[->|[->|[->|[->|[->|[->|[->| ->]]]]]]]]]]]; destruct l; try reflexivity; lia.
Qed.
Lemma delta_mono y y' : y <= y' -> year_delta y <= year_delta y'.
Proof. unfold year_delta. lia. Qed.
Lemma number_bounds y m d : valid (y, m, d) -> 365 * y + year_delta y <= day_number (y, m, d) < 365 * (y + 1) + year_delta (y + 1).
Proof.
  intros (M & D). cbn [day_number]. destruct (before_bounds (leap_year y) m M) as (A & B & C & _). rewrite delta_next. unfold leap. lia.
Qed.
Lemma number_inj x x' : valid x -> valid x' -> day_number x = day_number x' -> x = x'.
Proof.
  destruct x as ((y & m) & d), x' as ((y' & m') & d'). intros V V' E.
  assert (B := number_bounds _ _ _ V). assert (B' := number_bounds _ _ _ V').
  assert (Y : y = y').
  { destruct (Z.lt_trichotomy y y') as [L|[L|L]]; [|exact L|].
    - assert (D := delta_mono (y + 1) y'). lia.
    - assert (D := delta_mono (y' + 1) y). lia. }
  subst y'. cbn [day_number] in E. destruct V as (M & D), V' as (M' & D').
  destruct (before_bounds (leap_year y) m M) as (A & _ & C & N0). destruct (before_bounds (leap_year y) m' M') as (A' & _ & C' & N').
  assert (m = m'). { destruct (Z.lt_trichotomy m m') as [L|[L|L]]; [specialize (N0 m')|exact L|specialize (N' m)]; lia. }
  subst m'. f_equal. lia.
Qed.

(** The day after a day. *)
Definition in_z (x : N * N * N) : Z * Z * Z := let '(y, m, d) := x in (Z.of_N y, Z.of_N m, Z.of_N d).
Lemma is_leap_z y : is_leap y = leap_year (Z.of_N y).
Proof.
  unfold is_leap, leap_year. destruct (N.eqb_spec (y mod 400) 0), (N.eqb_spec (y mod 100) 0), (N.eqb_spec (y mod 4) 0),
    (Z.eqb_spec (Z.of_N y mod 4) 0), (Z.eqb_spec (Z.of_N y mod 100) 0), (Z.eqb_spec (Z.of_N y mod 400) 0); cbn [andb orb negb]; try reflexivity; lia.
Qed.
Lemma days_in_month_z y m : (1 <= m <= 12)%N -> Z.of_N (days_in_month y m) = month_length (leap_year (Z.of_N y)) (Z.of_N m).
Proof.
  intros M. rewrite <- is_leap_z. unfold days_in_month.
  assert (X : 1 <= Z.of_N m <= 12) by lia.
  destruct (month_cases _ X) as [E|[E|[E|[E|[E|[E|[E|[E|[E|[E|[E|E]]]]]]]]]]]; rewrite E;
    (rewrite <- (N2Z.id m), E; cbn [Z.to_N N.eqb Pos.eqb existsb orb]; destruct (is_leap y); reflexivity).
Qed.
Lemma next_day_right x : valid (in_z x) -> valid (in_z (next_day x)) /\ day_number (in_z (next_day x)) = day_number (in_z x) + 1.
Proof.
  destruct x as ((y & m) & d). cbn [in_z valid]. intros (M & D). assert (L := days_in_month_z y m ltac:(lia)). cbn [next_day].
  destruct (N.ltb_spec d (days_in_month y m)) as [H|H]; [|destruct (N.ltb_spec m 12) as [H'|H']].
  - cbn [in_z valid day_number]. rewrite N2Z.inj_add. change (Z.of_N 1) with 1. lia.
  - assert (E : Z.of_N d = month_length (leap_year (Z.of_N y)) (Z.of_N m)) by lia.
    cbn [in_z valid day_number]. rewrite E. rewrite !N2Z.inj_add. change (Z.of_N 1) with 1.
    rewrite before_next by lia. destruct (before_bounds (leap_year (Z.of_N y)) (Z.of_N m + 1) ltac:(lia)) as (_ & _ & C & _). lia.
  - assert (E : Z.of_N d = month_length (leap_year (Z.of_N y)) (Z.of_N m)) by lia. assert (m = 12%N) by lia. subst m.
    cbn [in_z valid day_number]. rewrite E, N2Z.inj_add. change (Z.of_N 1) with 1. change (Z.of_N 12) with 12.
    rewrite delta_next. unfold leap. destruct (leap_year (Z.of_N y)), (leap_year (Z.of_N y + 1));
      (split; [split; [lia|vm_compute; split; discriminate]|]);
      repeat match goal with |- context [before_month ?b ?m] => let x := eval vm_compute in (before_month b m) in change (before_month b m) with x end;
      repeat match goal with |- context [month_length ?b ?m] => let x := eval vm_compute in (month_length b m) in change (month_length b m) with x end; lia.
Qed.
Lemma date_after n : in_z (date_after_1601 n) = date_of_days (Z.of_N n - 134774).
Proof.
  assert (G : valid (in_z (date_after_1601 n)) /\ day_number (in_z (date_after_1601 n)) = Z.of_N n + 584754).
  { unfold date_after_1601. induction n as [|n IH] using N.peano_ind.
    - split; [vm_compute; repeat split; discriminate|reflexivity].
    - rewrite N.iter_succ. destruct IH as (V & E). destruct (next_day_right _ V) as (V' & E'). split; [exact V'|]. rewrite E', E. lia. }
  destruct G as (V & E). destruct (date_right (Z.of_N n - 134774)) as (V' & E'). apply number_inj; [assumption..|]. lia.
Qed.

(** ** The text *)
Definition val (s : list N) : N := fold_left (fun v c => (10 * v + (c - 48))%N) s 0%N.
Lemma val_from s : forall v, fold_left (fun v c => (10 * v + (c - 48))%N) s v = (v * 10 ^ N.of_nat (List.length s) + val s)%N.
Proof.
  unfold val. induction s as [|c s IH]; intros v; [cbn [fold_left List.length]; change (10 ^ N.of_nat 0)%N with 1%N; lia|].
  cbn [fold_left List.length]. rewrite IH. rewrite (IH (10 * 0 + _)%N). rewrite Nnat.Nat2N.inj_succ, N.pow_succ_r'. lia.
Qed.
Lemma val_bound s : Forall digit s -> (val s < 10 ^ N.of_nat (List.length s))%N.
Proof.
  induction 1 as [|c s [A B] _ IH]; [reflexivity|]. unfold val. cbn [fold_left List.length]. rewrite val_from, Nnat.Nat2N.inj_succ, N.pow_succ_r'.
  assert (P : (0 < 10 ^ N.of_nat (List.length s))%N) by (apply N.neq_0_lt_0, N.pow_nonzero; lia). nia.
Qed.
Lemma fraction_units u : 0 <= u < 10000000 -> exists s, digits_of 7 (Z.to_N u) s /\ padded 9 (100 * u) = (s ++ [48; 48])%N%list.
Proof.
  intros R. destruct (padded_digits 8 (100 * u)) as ((_ & D & V) & L); [change (10 ^ Z.of_nat 9) with 1000000000; lia|].
  set (f := padded 9 (100 * u)) in *. clearbody f. rewrite <- (firstn_skipn 7 f) in D, V |- *.
  assert (L1 : List.length (firstn 7 f) = 7%nat) by (rewrite firstn_length; lia). assert (L2 : List.length (skipn 7 f) = 2%nat) by (rewrite skipn_length; lia).
  set (a := firstn 7 f) in *. destruct (skipn 7 f) as [|x [|y [|z b]]]; try discriminate L2. clearbody a.
  apply Forall_app in D as (D & D'). inversion D' as [|? ? (X1 & X2) D2]; subst. inversion D2 as [|? ? (Y1 & Y2) _]; subst.
  rewrite fold_left_app in V. cbn [fold_left] in V. fold (val a) in V.
  assert (E : val a = Z.to_N u /\ x = 48%N /\ y = 48%N).
  { rewrite Z2N.inj_mul in V by lia. change (Z.to_N 100) with 100%N in V. lia. }
  destruct E as (E & -> & ->). exists a. split; [|reflexivity]. split; [|exact L1]. split; [intros ->; discriminate L1|]. split; [exact D|exact E].
Qed.
Lemma year_bound n : -134774 <= n <= 110000 -> let '(y, m, d) := date_of_days n in 1600 <= y <= 2300.
Proof.
  intros R. destruct (date_right n) as (V & E). destruct (date_of_days n) as ((y & m) & d). assert (B := number_bounds y m d V).
  rewrite E in B. unfold year_delta in B. lia.
Qed.
Theorem date_denotes ft : fits_i64 (filetime_instant ft) -> denotes (format_date_time (get_date_time_from_filetime ft)) ft.
Proof.
  intros F. rewrite (proj2 (filetime_exact ft) F). revert F. unfold fits_i64, filetime_instant.
  change (2 ^ 63) with 9223372036854775808. intros F.
  set (u := Z.of_N (ft mod 10000000)). set (S0 := Z.of_N (ft / 10000000) - 134774 * 86400).
  assert (U : 0 <= u < 10000000) by (subst u; lia).
  assert (E : Z.of_N ft * 100 - 134774 * 86400 * 1000000000 = S0 * 1000000000 + 100 * u) by (subst u S0; lia).
  assert (M : (Z.of_N ft * 100 - 134774 * 86400 * 1000000000) mod 1000000000 = 100 * u) by (rewrite E; lia).
  assert (Q : (Z.of_N ft * 100 - 134774 * 86400 * 1000000000) / 1000000000 = S0) by (rewrite E; lia).
  unfold format_date_time, fraction, date_and_time. cbv zeta. rewrite M, Q.
  destruct (fraction_units u U) as (su & DU & FU). rewrite FU. destruct DU as (DU & LU).
  assert (C : (((len (su ++ [48; 48]) =? 9) && (nth 8 (su ++ [48; 48]) 0 =? 48) && (nth 7 (su ++ [48; 48]) 0 =? 48))%N%bool) = true).
  { do 8 (destruct su as [|? su]; try discriminate LU). reflexivity. }
  rewrite C. replace (firstn 7 (su ++ [48; 48])%N) with su by (do 8 (destruct su as [|? su]; try discriminate LU); reflexivity).
  exists (ft / 864000000000)%N, (ft / 36000000000 mod 24)%N, (ft / 600000000 mod 60)%N, (ft / 10000000 mod 60)%N, (ft mod 10000000)%N.
  unfold units_per_second. split; [lia|]. split; [lia|]. split; [lia|]. split; [lia|]. split; [lia|].
  assert (A := date_after (ft / 864000000000)).
  replace (Z.of_N (ft / 864000000000) - 134774) with (S0 / 86400) in A by (subst S0; lia).
  assert (Y := year_bound (S0 / 86400) ltac:(subst S0; lia)).
  destruct (date_right (S0 / 86400)) as (V & _). rewrite <- A in *. destruct (date_after_1601 (ft / 864000000000)) as ((y & m) & d).
  cbn [in_z] in *. destruct V as (M' & D'). destruct (before_bounds (leap_year (Z.of_N y)) (Z.of_N m) M') as (_ & _ & C' & _).
  assert (Z100 : 10 ^ Z.of_nat 2 = 100) by reflexivity.
  exists (padded 4 (Z.of_N y)), (padded 2 (Z.of_N m)), (padded 2 (Z.of_N d)), (padded 2 (S0 mod 86400 / 3600)),
    (padded 2 (S0 mod 86400 / 60 mod 60)), (padded 2 (S0 mod 86400 mod 60)), su.
  assert (P : forall w z n, z = Z.of_N n -> 0 <= z < 10 ^ Z.of_nat (S w) -> digits_of (S w) n (padded (S w) z)).
  { intros w z n -> R. rewrite <- (N2Z.id n) at 1. now apply padded_digits. }
  split; [apply P; [reflexivity|change (10 ^ Z.of_nat 4) with 10000; lia]|].
  split; [apply P; [reflexivity|rewrite Z100; lia]|]. split; [apply P; [reflexivity|rewrite Z100; lia]|].
  split; [apply P; [subst S0; lia|rewrite Z100; lia]|]. split; [apply P; [subst S0; lia|rewrite Z100; lia]|].
  split; [apply P; [subst S0; lia|rewrite Z100; lia]|].
  split; [split; [|exact LU]; replace (ft mod 10000000)%N with (Z.to_N u) by (subst u; apply N2Z.id); exact DU|].
  unfold year_text. replace ((0 <=? Z.of_N y) && (Z.of_N y <=? 9999))%bool with true.
  - rewrite <- !app_assoc. reflexivity.
  - symmetry. apply andb_true_intro. split; apply Z.leb_le; lia.
Qed.

(** ** Order *)
Lemma val_cons c s : val (c :: s) = ((c - 48) * 10 ^ N.of_nat (List.length s) + val s)%N.
Proof. unfold val. cbn [fold_left]. rewrite val_from. reflexivity. Qed.
Lemma digits_before s : forall s', Forall digit s -> Forall digit s' -> List.length s = List.length s' -> (val s < val s')%N ->
  forall r r', text_before (s ++ r) (s' ++ r').
Proof.
  induction s as [|c s IH]; intros [|c' s'] D D' L V r r'; try discriminate L; [now apply N.lt_irrefl in V|].
  inversion D as [|? ? (A & B) D1]; inversion D' as [|? ? (A' & B') D1']; subst. rewrite !val_cons in V.
  assert (V0 := val_bound s D1). assert (V1 := val_bound s' D1'). injection L as L. rewrite <- L in V, V1. cbn [app text_before].
  set (p := (10 ^ N.of_nat (List.length s))%N) in *. clearbody p.
  destruct (N.lt_trichotomy c c') as [H|[H|H]]; [now left| |exfalso].
  - right. split; [exact H|]. subst c'. apply IH; [assumption..|]. lia.
  - assert (X : ((c - 48) * p >= (c' - 48 + 1) * p)%N) by (apply N.le_ge, N.mul_le_mono_r; lia). lia.
Qed.
Lemma digits_same s : forall s', Forall digit s -> Forall digit s' -> List.length s = List.length s' -> val s = val s' -> s = s'.
Proof.
  induction s as [|c s IH]; intros [|c' s'] D D' L V; try discriminate L; [reflexivity|].
  inversion D as [|? ? (A & B) D1]; inversion D' as [|? ? (A' & B') D1']; subst. rewrite !val_cons in V.
  assert (V0 := val_bound s D1). assert (V1 := val_bound s' D1'). injection L as L. rewrite <- L in V, V1.
  set (p := (10 ^ N.of_nat (List.length s))%N) in *. clearbody p.
  destruct (N.lt_trichotomy c c') as [H|[H|H]]; [exfalso| |exfalso].
  - assert (X : ((c' - 48) * p >= (c - 48 + 1) * p)%N) by (apply N.le_ge, N.mul_le_mono_r; lia). lia.
  - subst c'. f_equal. apply IH; [assumption..|]. lia.
  - assert (X : ((c - 48) * p >= (c' - 48 + 1) * p)%N) by (apply N.le_ge, N.mul_le_mono_r; lia). lia.
Qed.
(** One field: smaller, or the same and the rest decides. *)
Lemma field_before w n n' s s' r r' : digits_of w n s -> digits_of w n' s' -> (n < n' \/ n = n' /\ text_before r r')%N ->
  text_before (s ++ r) (s' ++ r').
Proof.
  intros ((_ & D & V) & L) ((_ & D' & V') & L') [H|(E & H)].
  - apply digits_before; [assumption..|congruence|]. unfold val. congruence.
  - replace s' with s; [|apply digits_same; [assumption..|congruence|unfold val; congruence]].
    clear - H. induction s as [|c s IH]; [exact H|]. cbn [app text_before]. right. now split.
Qed.
Lemma same_before c r r' : text_before r r' -> text_before ([c] ++ r) ([c] ++ r').
Proof. intros H. right. now split. Qed.
Lemma before_irrefl s : ~ text_before s s.
Proof. induction s as [|c s IH]; [intros []|]. intros [H|(_ & H)]; [lia|now apply IH]. Qed.
Lemma before_asym s : forall s', text_before s s' -> ~ text_before s' s.
Proof.
  induction s as [|c s IH]; intros [|c' s']; cbn [text_before]; try tauto. intros [H|(E & H)] [H'|(E' & H')]; try lia. now apply (IH s').
Qed.

Lemma after_right n : valid (in_z (date_after_1601 n)) /\ day_number (in_z (date_after_1601 n)) = Z.of_N n + 584754.
Proof. rewrite date_after. destruct (date_right (Z.of_N n - 134774)) as (V & E). split; [exact V|]. rewrite E. lia. Qed.
Lemma date_before n n' : (n < n')%N -> let '(y, m, d) := date_after_1601 n in let '(y', m', d') := date_after_1601 n' in
  (y < y' \/ y = y' /\ (m < m' \/ m = m' /\ d < d'))%N.
Proof.
  intros L. destruct (after_right n) as (V & E), (after_right n') as (V' & E').
  destruct (date_after_1601 n) as ((y & m) & d), (date_after_1601 n') as ((y' & m') & d'). cbn [in_z] in *.
  assert (B := number_bounds _ _ _ V). assert (B' := number_bounds _ _ _ V').
  destruct (N.lt_trichotomy y y') as [H|[H|H]]; [now left|right; split; [exact H|]|exfalso].
  - subst y'. cbn [day_number valid] in *. destruct V as (M & D), V' as (M' & D').
    destruct (before_bounds (leap_year (Z.of_N y)) (Z.of_N m') M') as (_ & _ & C' & N').
    destruct (N.lt_trichotomy m m') as [H|[H|H]]; [now left|right; split; [exact H|]; subst m'; lia|exfalso].
    specialize (N' (Z.of_N m) ltac:(lia)). lia.
  - assert (X := delta_mono (Z.of_N y' + 1) (Z.of_N y) ltac:(lia)). lia.
Qed.
Theorem denotes_before s s' a b : denotes s a -> denotes s' b -> (a < b)%N -> text_before s s'.
Proof.
  intros (q & h & i & j & u & H1 & H2 & H3 & H4 & E & T) (q' & h' & i' & j' & u' & H1' & H2' & H3' & H4' & E' & T') L.
  unfold units_per_second in *.
  assert (O : (q < q' \/ q = q' /\ (h < h' \/ h = h' /\ (i < i' \/ i = i' /\ (j < j' \/ j = j' /\ u < u'))))%N) by lia.
  assert (D : (q < q')%N -> let '(y, m, d) := date_after_1601 q in let '(y', m', d') := date_after_1601 q' in
    (y < y' \/ y = y' /\ (m < m' \/ m = m' /\ d < d'))%N) by apply date_before.
  assert (D' : q = q' -> date_after_1601 q = date_after_1601 q') by congruence.
  destruct (date_after_1601 q) as ((y & m) & d), (date_after_1601 q') as ((y' & m') & d').
  destruct T as (sy & sm & sd & sh & si & ss & su & Y & M & D0 & H & I & S & U & ->).
  destruct T' as (sy' & sm' & sd' & sh' & si' & ss' & su' & Y' & M' & D0' & H' & I' & S' & U' & ->).
  assert (O' : (y < y' \/ y = y' /\ (m < m' \/ m = m' /\ (d < d' \/ d = d' /\ (h < h' \/ h = h' /\ (i < i' \/ i = i' /\ (j < j' \/ j = j' /\ u < u'))))))%N).
  { destruct O as [O|(O & O2)]; [specialize (D O); tauto|]. specialize (D' O). injection D' as -> -> ->. tauto. }
  clear O D D' E E' L.
  destruct O' as [O|(-> & O)]; [apply (field_before _ _ _ _ _ _ _ Y Y'); now left|apply (field_before _ _ _ _ _ _ _ Y Y'); right; split; [reflexivity|apply same_before]].
  destruct O as [O|(-> & O)]; [apply (field_before _ _ _ _ _ _ _ M M'); now left|apply (field_before _ _ _ _ _ _ _ M M'); right; split; [reflexivity|apply same_before]].
  destruct O as [O|(-> & O)]; [apply (field_before _ _ _ _ _ _ _ D0 D0'); now left|apply (field_before _ _ _ _ _ _ _ D0 D0'); right; split; [reflexivity|apply same_before]].
  destruct O as [O|(-> & O)]; [apply (field_before _ _ _ _ _ _ _ H H'); now left|apply (field_before _ _ _ _ _ _ _ H H'); right; split; [reflexivity|apply same_before]].
  destruct O as [O|(-> & O)]; [apply (field_before _ _ _ _ _ _ _ I I'); now left|apply (field_before _ _ _ _ _ _ _ I I'); right; split; [reflexivity|apply same_before]].
  destruct O as [O|(-> & O)]; [apply (field_before _ _ _ _ _ _ _ S S'); now left|apply (field_before _ _ _ _ _ _ _ S S'); right; split; [reflexivity|apply same_before]].
  apply (field_before _ _ _ _ _ _ _ U U'). now left.
Qed.
Theorem denotes_order s s' a b : denotes s a -> denotes s' b -> ((a < b)%N <-> text_before s s').
Proof.
  intros A B. split; [now apply denotes_before|]. intros T. destruct (N.lt_trichotomy a b) as [H|[->|H]]; [exact H|exfalso..].
  - clear - A B T. destruct A as (q & h & i & j & u & H1 & H2 & H3 & H4 & E & X). destruct B as (q' & h' & i' & j' & u' & H1' & H2' & H3' & H4' & E' & X').
    unfold units_per_second in *. assert (q = q' /\ h = h' /\ i = i' /\ j = j' /\ u = u') as (<- & <- & <- & <- & <-) by lia.
    destruct (date_after_1601 q) as ((y & m) & d).
    destruct X as (sy & sm & sd & sh & si & ss & su & Y & M & D0 & H & I & S & U & ->).
    destruct X' as (sy' & sm' & sd' & sh' & si' & ss' & su' & Y' & M' & D0' & H' & I' & S' & U' & ->).
    assert (G : forall w n x x', digits_of w n x -> digits_of w n x' -> x = x').
    { intros w n x x' ((_ & P & V) & L) ((_ & P' & V') & L'). apply digits_same; [assumption..|congruence|unfold val; congruence]. }
    rewrite <- (G _ _ _ _ Y Y'), <- (G _ _ _ _ M M'), <- (G _ _ _ _ D0 D0'), <- (G _ _ _ _ H H'), <- (G _ _ _ _ I I'), <- (G _ _ _ _ S S'), <- (G _ _ _ _ U U') in T.
    now apply before_irrefl in T.
  - apply (before_asym _ _ T). now apply (denotes_before s' s b a).
Qed.
Theorem denotes_one s a b : denotes s a -> denotes s b -> a = b.
Proof.
  intros A B. destruct (N.lt_trichotomy a b) as [H|[H|H]]; [exfalso|exact H|exfalso];
    [apply (denotes_before s s a b A B) in H|apply (denotes_before s s b a B A) in H]; now apply before_irrefl in H.
Qed.

(** ** Dates do not need quotes *)
Lemma padded_plain w z : plain (padded w z).
Proof. apply Forall_app. split; [apply digits_plain, zeros_digit|apply decimal_plain]. Qed.
Theorem date_plain z : plain (format_date_time z).
Proof.
  assert (C : forall c s, ~ In c [9; 10; 13; 34; 44]%N -> plain s -> plain (c :: s)) by (intros; now constructor).
  assert (A : forall s s', plain s -> plain s' -> plain (s ++ s')) by (intros; now apply Forall_app).
  assert (D : plain (date_and_time z)).
  { unfold date_and_time. destruct (date_of_days _) as ((y & m) & d). apply A.
    - unfold year_text. destruct (_ && _)%bool; [apply padded_plain|]. apply C; [destruct (y <? 0); cbn; lia|apply padded_plain].
    - repeat first [apply padded_plain|apply A|apply C; [cbn; lia|]|constructor]. }
  unfold format_date_time. destruct (_ && _ && _)%bool; apply A; try exact D;
    repeat first [apply padded_plain|apply A|apply C; [cbn; lia|]|constructor].
  apply Forall_forall. intros c I. assert (P := padded_plain 9 (z mod 1000000000)). unfold plain in P. rewrite Forall_forall in P. apply P.
  rewrite <- (firstn_skipn 7). apply in_or_app. now left.
Qed.
Lemma denotes_length s a : denotes s a -> List.length s = 28%nat.
Proof.
  intros (q & h & i & j & u & _ & _ & _ & _ & _ & X). destruct (date_after_1601 q) as ((y & m) & d).
  destruct X as (sy & sm & sd & sh & si & ss & su & (_ & Y) & (_ & M) & (_ & D) & (_ & H) & (_ & I) & (_ & S) & (_ & U) & ->).
  rewrite !app_length, Y, M, D, H, I, S, U. reflexivity.
Qed.
