(** The calendar, and what a text says about an instant. *)
From Verif Require Import Base UtilSpec LayoutSpec TreeSpec CellSpec Export ExportSpec Date.
Open Scope N_scope.

(** ** The Gregorian calendar: what day follows a day *)
Definition is_leap (y : N) : bool :=
  if y mod 400 =? 0 then true else if y mod 100 =? 0 then false else y mod 4 =? 0.
Definition days_in_month (y m : N) : N :=
  if existsb (N.eqb m) [4; 6; 9; 11] then 30
  else if m =? 2 then if is_leap y then 29 else 28 else 31.
Definition next_day (date : N * N * N) : N * N * N :=
  let '(y, m, d) := date in
  if d <? days_in_month y m then (y, m, d + 1)
  else if m <? 12 then (y, m + 1, 1)
  else (y + 1, 1, 1).
(** The date that many days after the first of January 1601. *)
Definition date_after_1601 (days : N) : N * N * N := N.iter days next_day (1601, 1, 1).

(** ** Texts of the form yyyy-mm-ddThh:mm:ss.fffffffZ *)

(** [w] digits that denote [n]. *)
Definition digits_of (w : nat) (n : N) (s : list N) : Prop := numeral s n /\ List.length s = w.
(** The text names the date, the time of day and the number of units of 100
    nanoseconds. *)
Definition date_text (date : N * N * N) (hour minute second units : N) (s : list N) : Prop :=
  let '(y, m, d) := date in
  exists sy sm sd sh si ss su,
  digits_of 4 y sy /\ digits_of 2 m sm /\ digits_of 2 d sd /\ digits_of 2 hour sh /\ digits_of 2 minute si
  /\ digits_of 2 second ss /\ digits_of 7 units su
  /\ s = (sy ++ [45] ++ sm ++ [45] ++ sd ++ [84] ++ sh ++ [58] ++ si ++ [58] ++ ss ++ [46] ++ su ++ [90])%list.

(** A FILETIME counts units of 100 nanoseconds since 1601. *)
Definition units_per_second : N := 10000000.
Definition denotes (s : list N) (filetime : N) : Prop :=
  exists days hour minute second units,
  hour < 24 /\ minute < 60 /\ second < 60 /\ units < units_per_second
  /\ filetime = (((days * 24 + hour) * 60 + minute) * 60 + second) * units_per_second + units
  /\ date_text (date_after_1601 days) hour minute second units s.

(** The order in which texts are sorted. *)
Fixpoint text_before (a b : list N) : Prop :=
  match a, b with
  | [], [] => False
  | [], _ => True
  | _, [] => False
  | x :: a, y :: b => x < y \/ x = y /\ text_before a b
  end.

(** ** The dates of a whole export *)

(** The time stored in the cell of a key: eight bytes at byte 8 of the cell. *)
Definition stored_time (buffer : list N) (t : key_tree) : N := num_at buffer (t_pos t + 8) 8.
(** The last field of the row of a key denotes that time, if it lies between the
    years 1677 and 2262. *)
Definition row_dated (buffer : list N) (x : list (list N) * key_tree * option value) (row : list (list N)) : Prop :=
  match x with
  | (_, t, None) => fits_i64 (filetime_instant (stored_time buffer t)) -> denotes (nth 7 row []) (stored_time buffer t)
  | _ => True
  end.
(** A renderer that shows dates as the program does. *)
Definition with_dates (r : renderer) : renderer :=
  mkRender format_date_time (rd_flags r) (rd_access r) (rd_content r) (rd_type r) (rd_key_logs r) (rd_value_logs r).
