(** Model of the texts of dates: [format_date_time], src/util.rs:166-186, and the
    part of chrono it calls: the calendar and the [%] formats. A [DateTime<Utc>] is
    a number of nanoseconds since 1970 (Util.v). *)
From Verif Require Import Base Util Export.
Open Scope Z_scope.

(** chrono, [YEAR_DELTAS]: the leap days of the years before year [y] of a cycle
    of 400 years. (chrono has a table of 401 numbers.) *)
Definition year_delta (y : Z) : Z := (y + 3) / 4 - (y + 99) / 100 + (y + 399) / 400.

(** chrono, [cycle_to_yo]: year and day of the year, both from 0, of a day of a
    cycle of 400 years. *)
Definition cycle_to_yo (cycle : Z) : Z * Z :=
  let year := cycle / 365 in
  let ordinal := cycle mod 365 in
  let delta := year_delta year in
  if ordinal <? delta then (year - 1, ordinal + (365 - year_delta (year - 1)))
  else (year, ordinal - delta).

(** chrono, [YearFlags] and [OL_TO_MDL]: the month and the day of a day of the
    year. (chrono has tables.) *)
Definition leap_year (y : Z) : bool :=
  ((y mod 4 =? 0) && negb (y mod 100 =? 0) || (y mod 400 =? 0))%bool.
Definition month_lengths (leap : bool) : list Z :=
  [31; if leap then 29 else 28; 31; 30; 31; 30; 31; 31; 30; 31; 30; 31].
Fixpoint month_day (lengths : list Z) (month ordinal : Z) : Z * Z :=
  match lengths with
  | [] => (month, ordinal + 1)
  | l :: r => if ordinal <? l then (month, ordinal + 1) else month_day r (month + 1) (ordinal - l)
  end.

(** chrono, [NaiveDate::checked_add_signed]: year, month and day of a number of
    days since 1970-01-01; 719528 is that date in days since the first of January
    of year 0. *)
Definition date_of_days (days : Z) : Z * Z * Z :=
  let n := days + 719528 in
  let (y, o) := cycle_to_yo (n mod 146097) in
  let (m, d) := month_day (month_lengths (leap_year y)) 1 o in
  (400 * (n / 146097) + y, m, d).

(** [{:0w}] of an unsigned number (std). *)
Definition padded (w : nat) (n : Z) : list N :=
  let d := decimal (Z.to_N n) in
  (repeat 48%N (w - List.length d) ++ d)%list.
(** [%Y]: four digits; a sign in front of years before 0 and after 9999. *)
Definition year_text (y : Z) : list N :=
  if (0 <=? y) && (y <=? 9999) then padded 4 y
  else ((if y <? 0 then 45%N else 43%N) :: padded 4 (Z.abs y))%list.

(** [%Y-%m-%dT%H:%M:%S] *)
Definition date_and_time (t : Z) : list N :=
  let seconds := t / 1000000000 in
  let '(y, m, d) := date_of_days (seconds / 86400) in
  let s := seconds mod 86400 in
  (year_text y ++ [45%N] ++ padded 2 m ++ [45%N] ++ padded 2 d ++ [84%N]
   ++ padded 2 (s / 3600) ++ [58%N] ++ padded 2 (s / 60 mod 60) ++ [58%N] ++ padded 2 (s mod 60))%list.
(** [%9f] *)
Definition fraction (t : Z) : list N := padded 9 (t mod 1000000000).

(** [format_date_time], src/util.rs:166-186. *)
Definition format_date_time (t : Z) : list N :=
  let f := fraction t in
  if ((len f =? 9) && (nth 8 f 0 =? 48) && (nth 7 f 0 =? 48))%N%bool then
    (date_and_time t ++ [46%N] ++ firstn 7 f ++ [90%N])%list
  else (* [to_rfc3339_opts(Nanos, true)] *)
    (date_and_time t ++ [46%N] ++ f ++ [90%N])%list.
