(** * Model of channelpack/xlrd/xldate.py

    Serial numbers are Python floats (the values of XL_CELL_DATE cells,
    channelpack/xlrd/sheet.py); int arguments behave as the equal float up to
    2^53 and are not modelled separately. *)

From Verif Require Import PyBase PyFloat NumPy.
Open Scope Z_scope.

(** (year, month, day, hour, minute, second), xldate.py l.72. *)
Definition tuple6 := (Z * Z * Z * Z * Z * Z)%type.

(** _JDN_delta, xldate.py l.23. *)
Definition jdn_delta (datemode : Z) : Z :=
  if datemode =? 0 then 2415080 - 61 else 2416482 - 1.

(** _XLDAYS_TOO_LARGE, xldate.py l.32. *)
Definition xldays_too_large (datemode : Z) : Z :=
  if datemode =? 0 then 2958466 else 2958466 - 1462.

(** The Gregorian calendar from a Julian day number, xldate.py l.119-127. *)
Definition jdn_to_date (jdn : Z) : Z * Z * Z :=
  let yreg := ((((jdn * 4 + 274277) / 146097) * 3 / 4) + jdn + 1363) * 4 + 3 in
  let mp := ((yreg mod 1461) / 4) * 535 + 333 in
  let d := ((mp mod 16384) / 535) + 1 in
  let mp := Z.shiftr mp 14 in
  if mp >=? 10 then ((yreg / 1461) - 4715, mp - 9, d)
  else ((yreg / 1461) - 4716, mp + 3, d).

(** xldate_as_tuple, xldate.py l.59-127. *)
Definition xldate_as_tuple (xldate : float) (datemode : Z) : res tuple6 :=
  if negb ((datemode =? 0) || (datemode =? 1)) then Err XLDateBadDatemode
  else if feqb xldate (S754_zero false) then Ok (0, 0, 0, 0, 0, 0)
  else if fltb xldate (S754_zero false) then Err XLDateNegative
  else
    do xldays <- int_of_float xldate;
    let frac := fsub xldate (float_of_Z xldays) in
    do seconds <- round_float (fmul frac (float_of_Z 86400));
    if negb ((0 <=? seconds) && (seconds <=? 86400)) then Err AssertionError
    else
      let '(xldays, hour, minute, second) :=
        if seconds =? 86400 then (xldays + 1, 0, 0, 0)
        else let minutes := seconds / 60 in
             (xldays, minutes / 60, minutes mod 60, seconds mod 60) in
      if xldays >=? xldays_too_large datemode then Err XLDateTooLarge
      else if xldays =? 0 then Ok (0, 0, 0, hour, minute, second)
      else if (xldays <? 61) && (datemode =? 0) then Err XLDateAmbiguous
      else
        let '(y, m, d) := jdn_to_date (xldays + jdn_delta datemode) in
        Ok (y, m, d, hour, minute, second).

(** The epochs as proleptic Gregorian ordinals of datetime
    (datetime(1904, 1, 1), datetime(1899, 12, 31), datetime(1899, 12, 30)),
    xldate.py l.27-29. *)
Definition epoch_1904 : Z := 695056.
(** datetime(1899, 12, 31) (xldate.py l.28). *)
Definition epoch_1900 : Z := 693595.
(** datetime(1899, 12, 30) (xldate.py l.29). *)
Definition epoch_1900_minus_1 : Z := 693594.

(** epoch + timedelta(days, seconds, 0, milliseconds): OverflowError outside
    the years 1 to 9999, whichever of the two constructors raises it
    (xldate.py l.159). The result is an ordinal day and the microsecond of the
    day. *)
Definition epoch_plus (epoch days seconds milliseconds : Z) : res val :=
  let ms := seconds * 1000 + milliseconds in
  let day := epoch + days + ms / 86400000 in
  if (1 <=? day) && (day <=? 3652059)
  then Ok (VDateTime day ((ms mod 86400000) * 1000))
  else Err OverflowError.

(** xldate_as_datetime, xldate.py l.130-159. *)
Definition xldate_as_datetime (xldate : float) (datemode : Z) : res val :=
  let epoch := if negb (datemode =? 0) then epoch_1904
               else if fltb xldate (float_of_Z 60) then epoch_1900
               else epoch_1900_minus_1 in
  do days <- int_of_float xldate;
  let fraction := fsub xldate (float_of_Z days) in
  do seconds <- round_float (fmul fraction (float_of_Z 86400000));
  epoch_plus epoch days (seconds / 1000) (seconds mod 1000).

(** _leap, xldate.py l.164-168. *)
Definition leap (y : Z) : bool :=
  if negb (y mod 4 =? 0) then false
  else if negb (y mod 100 =? 0) then true
  else if negb (y mod 400 =? 0) then false
  else true.

(** _days_in_month, xldate.py l.170, for 1 <= month <= 12. *)
Definition days_in_month (m : Z) : Z :=
  nth (Z.to_nat m) [0; 31; 28; 31; 30; 31; 30; 31; 31; 30; 31; 30; 31] 0.

(** The Julian day number of a date, xldate.py l.203-211. *)
Definition date_to_jdn (year month day : Z) : Z :=
  let '(Yp, Mp) := if month <=? 2 then (year + 4716 - 1, month + 9)
                   else (year + 4716, month - 3) in
  (1461 * Yp / 4) + ((979 * Mp + 16) / 32) + day - 1364 - (((Yp + 184) / 100) * 3 / 4).

(** xldate_from_date_tuple, xldate.py l.173-217. *)
Definition xldate_from_date_tuple (date : Z * Z * Z) (datemode : Z) : res float :=
  let '(year, month, day) := date in
  if negb ((datemode =? 0) || (datemode =? 1)) then Err XLDateBadDatemode
  else if (year =? 0) && (month =? 0) && (day =? 0) then Ok (S754_zero false)
  else if negb ((1900 <=? year) && (year <=? 9999)) then Err XLDateBadTuple
  else if negb ((1 <=? month) && (month <=? 12)) then Err XLDateBadTuple
  else if (day <? 1) || ((days_in_month month <? day) &&
                         negb ((day =? 29) && (month =? 2) && leap year))
  then Err XLDateBadTuple
  else
    let xldays := date_to_jdn year month day - jdn_delta datemode in
    if xldays <=? 0 then Err XLDateBadTuple
    else if (xldays <? 61) && (datemode =? 0) then Err XLDateAmbiguous
    else Ok (float_of_Z xldays).

(** xldate_from_time_tuple, xldate.py l.220-233, for int components. *)
Definition xldate_from_time_tuple (time : Z * Z * Z) : res float :=
  let '(hour, minute, second) := time in
  if (0 <=? hour) && (hour <? 24) && (0 <=? minute) && (minute <? 60) &&
     (0 <=? second) && (second <? 60)
  then Ok (fdiv (fadd (fdiv (fadd (fdiv (float_of_Z second) (float_of_Z 60))
                                  (float_of_Z minute)) (float_of_Z 60))
                      (float_of_Z hour)) (float_of_Z 24))
  else Err XLDateBadTuple.

(** xldate_from_datetime_tuple, xldate.py l.236-248. *)
Definition xldate_from_datetime_tuple (t : tuple6) (datemode : Z) : res float :=
  let '(y, mo, d, h, mi, s) := t in
  do a <- xldate_from_date_tuple (y, mo, d) datemode;
  do b <- xldate_from_time_tuple (h, mi, s);
  Ok (fadd a b).

(** Concrete values; the second is ((59/60+37)/60+13)/24 + 43890 in doubles. *)
Example xldate_as_tuple_ex :
  map (fun z => xldate_as_tuple (float_of_Z z) 0) [0; 1; 60; 61; 2958465; 2958466; -1]
  = [Ok (0, 0, 0, 0, 0, 0); Err XLDateAmbiguous; Err XLDateAmbiguous;
     Ok (1900, 3, 1, 0, 0, 0); Ok (9999, 12, 31, 0, 0, 0); Err XLDateTooLarge;
     Err XLDateNegative].
Proof. vm_compute. reflexivity. Qed.
Example xldate_from_datetime_ex :
  xldate_from_datetime_tuple (2020, 2, 29, 13, 37, 59) 0
  = Ok (S754_finite false 6032273739256421 (-37)).
Proof. vm_compute. reflexivity. Qed.
