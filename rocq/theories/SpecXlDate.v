(** * Specification of the calendar used for spread sheet dates

    The proleptic Gregorian calendar by its leap year rule, independent of the
    Julian day formulas of the code. *)

From Verif Require Import PyBase PyFloat NumPy XlDate.
Open Scope Z_scope.

Definition leap_year (y : Z) : bool :=
  (y mod 4 =? 0) && (negb (y mod 100 =? 0) || (y mod 400 =? 0)).

Definition month_length (y m : Z) : Z :=
  if m =? 2 then (if leap_year y then 29 else 28)
  else if (m =? 4) || (m =? 6) || (m =? 9) || (m =? 11) then 30 else 31.

(** An existing day. *)
Definition is_date (y m d : Z) : Prop := 1 <= m <= 12 /\ 1 <= d <= month_length y m.

Definition is_time (h mi s : Z) : Prop := 0 <= h < 24 /\ 0 <= mi < 60 /\ 0 <= s < 60.

(** The day after. *)
Definition next_day (y m d : Z) : Z * Z * Z :=
  if d <? month_length y m then (y, m, d + 1)
  else if m <? 12 then (y, m + 1, 1)
  else (y + 1, 1, 1).

(** Days in the months before month [m] of year [y]. *)
Definition days_before_month (y m : Z) : Z :=
  fold_right Z.add 0 (map (fun i => month_length y (Z.of_nat i)) (seq 1 (Z.to_nat (m - 1)))).

(** Number of the day, 1 for 0001-01-01. *)
Definition ordinal (y m d : Z) : Z :=
  365 * (y - 1) + (y - 1) / 4 - (y - 1) / 100 + (y - 1) / 400 + days_before_month y m + d.

(** The day with serial number 0: 1899-12-30 in the 1900 system (from March
    1900 on), 1904-01-01 in the 1904 system. *)
Definition day_zero (datemode : Z) : Z :=
  if datemode =? 0 then ordinal 1899 12 30 else ordinal 1904 1 1.

(** First and one past the last serial with a date. *)
Definition first_serial (datemode : Z) : Z := if datemode =? 0 then 61 else 1.
Definition last_serial (datemode : Z) : Z := ordinal 9999 12 31 - day_zero datemode.

(** Order of tuples, as Python compares them. *)
Definition tuple_le (a b : tuple6) : Prop :=
  let '(y1, m1, d1, h1, i1, s1) := a in
  let '(y2, m2, d2, h2, i2, s2) := b in
  y1 < y2 \/ y1 = y2 /\ (m1 < m2 \/ m1 = m2 /\ (d1 < d2 \/ d1 = d2 /\
  (h1 < h2 \/ h1 = h2 /\ (i1 < i2 \/ i1 = i2 /\ s1 <= s2)))).

(** The same moment as a datetime object: day number and microseconds. *)
Definition datetime_of (y m d h mi s : Z) : val :=
  VDateTime (ordinal y m d) (((h * 60 + mi) * 60 + s) * 1000000).
