(** * Spread sheet dates: the property theorems *)

From Coq Require Import ZifyBool ZifyNat ZifyN QArith.
From Verif Require Import PyBase PyFloat NumPy XlDate SpecXlDate XlCalendar FloatReal XlDateFloat XlDateThms.
Open Scope nat_scope.
From Coq Require Import Reals Lra.
From Flocq Require Import Core Round Relative Sterbenz BinarySingleNaN.
Open Scope Z_scope.

(** Every date from 1900-03-01 (1900 system) or 1904-01-02 (1904 system) to
9999-12-31 encodes to its distance in days from the day with serial 0, and
that serial decodes to the date. *)
Theorem C47_date_round_trip :
forall datemode y m d, datemode = 0 \/ datemode = 1 ->
  1900 <= y <= 9999 -> is_date y m d ->
  first_serial datemode <= ordinal y m d - day_zero datemode ->
  exists x, xldate_from_date_tuple (y, m, d) datemode = Ok x /\
            x = float_of_Z (ordinal y m d - day_zero datemode) /\
            xldate_as_tuple x datemode = Ok (y, m, d, 0, 0, 0).
Proof. exact C47_date_round_trip_proof. Qed.
Print Assumptions C47_date_round_trip.

(** 2020-02-29 is serial 43890, and 42428 in the 1904 system. *)
Example C47_date_ex : is_date 2020 2 29 /\ ordinal 2020 2 29 - day_zero 0 = 43890 /\
  ordinal 2020 2 29 - day_zero 1 = 42428 /\ first_serial 0 = ordinal 1900 3 1 - day_zero 0 /\
  first_serial 1 = ordinal 1904 1 2 - day_zero 1 /\
  xldate_as_tuple (float_of_Z 43890) 0 = Ok (2020, 2, 29, 0, 0, 0).
Proof. vm_compute. repeat split; discriminate. Qed.

(** The same with a time of day: encoding and decoding gives back every date and
time, in spite of the rounding of the intermediate floats. *)
Theorem C47_datetime_round_trip :
forall datemode y m d h mi s, datemode = 0 \/ datemode = 1 ->
  1900 <= y <= 9999 -> is_date y m d -> is_time h mi s ->
  first_serial datemode <= ordinal y m d - day_zero datemode ->
  exists x, xldate_from_datetime_tuple (y, m, d, h, mi, s) datemode = Ok x /\
            xldate_as_tuple x datemode = Ok (y, m, d, h, mi, s).
Proof. exact C47_datetime_round_trip_proof. Qed.
Print Assumptions C47_datetime_round_trip.

Example C47_datetime_ex : is_time 13 37 59 /\
  (do x <- xldate_from_datetime_tuple (2020, 2, 29, 13, 37, 59) 1; xldate_as_tuple x 1)
  = Ok (2020, 2, 29, 13, 37, 59).
Proof. vm_compute. repeat split; discriminate. Qed.

(** A time alone, with the date (0, 0, 0), goes round as well. *)
Theorem C47_time_round_trip :
forall datemode h mi s, datemode = 0 \/ datemode = 1 -> is_time h mi s ->
  exists x, xldate_from_datetime_tuple (0, 0, 0, h, mi, s) datemode = Ok x /\
            xldate_as_tuple x datemode = Ok (0, 0, 0, h, mi, s).
Proof. exact C47_time_round_trip_proof. Qed.
Print Assumptions C47_time_round_trip.

Example C47_time_ex : (do x <- xldate_from_datetime_tuple (0, 0, 0, 23, 59, 59) 0; xldate_as_tuple x 0)
  = Ok (0, 0, 0, 23, 59, 59).
Proof. vm_compute. reflexivity. Qed.

(** Every whole serial from the first to the last one decodes to the existing day
at that distance from the day with serial 0, without a time. *)
Theorem C47_serials_are_days :
forall datemode n, datemode = 0 \/ datemode = 1 ->
  first_serial datemode <= n <= last_serial datemode ->
  exists y m d, xldate_as_tuple (float_of_Z n) datemode = Ok (y, m, d, 0, 0, 0) /\
                is_date y m d /\ 1900 <= y <= 9999 /\
                ordinal y m d = day_zero datemode + n.
Proof. exact C47_serials_are_days_proof. Qed.
Print Assumptions C47_serials_are_days.

Example C47_serials_ex : last_serial 0 = 2958465 /\ last_serial 1 = 2957003 /\
  xldate_as_tuple (float_of_Z 2958465) 0 = Ok (9999, 12, 31, 0, 0, 0) /\
  xldate_as_tuple (float_of_Z 1) 1 = Ok (1904, 1, 2, 0, 0, 0).
Proof. vm_compute. auto. Qed.

(** Consecutive serials are consecutive days of the calendar. *)
Theorem C47_consecutive :
forall datemode n y m d, datemode = 0 \/ datemode = 1 ->
  first_serial datemode <= n < last_serial datemode ->
  xldate_as_tuple (float_of_Z n) datemode = Ok (y, m, d, 0, 0, 0) ->
  xldate_as_tuple (float_of_Z (n + 1)) datemode =
    Ok (let '(y', m', d') := next_day y m d in (y', m', d', 0, 0, 0)).
Proof. exact C47_consecutive_proof. Qed.
Print Assumptions C47_consecutive.

Example C47_consecutive_ex : next_day 1999 12 31 = (2000, 1, 1) /\ next_day 2000 2 28 = (2000, 2, 29) /\
  next_day 2100 2 28 = (2100, 3, 1) /\
  xldate_as_tuple (float_of_Z 73109) 0 = Ok (2100, 2, 28, 0, 0, 0) /\
  xldate_as_tuple (float_of_Z 73110) 0 = Ok (2100, 3, 1, 0, 0, 0).
Proof. vm_compute. auto. Qed.

(** Decoding is monotone on all serials, whole or not: a larger serial never
decodes to an earlier date and time. *)
Theorem C47_monotone :
forall datemode x1 x2 t1 t2, datemode = 0 \/ datemode = 1 ->
  valid x1 = true -> valid x2 = true -> fleb x1 x2 = true ->
  xldate_as_tuple x1 datemode = Ok t1 -> xldate_as_tuple x2 datemode = Ok t2 ->
  tuple_le t1 t2.
Proof. exact C47_monotone_proof. Qed.
Print Assumptions C47_monotone.

(** 43890.25 and 43890.75 are 06:00 and 18:00 of the same day. *)
Example C47_monotone_ex : let a := fdiv (float_of_Z 175561) (float_of_Z 4) in
  let b := fdiv (float_of_Z 175563) (float_of_Z 4) in
  valid a = true /\ valid b = true /\ fleb a b = true /\
  xldate_as_tuple a 0 = Ok (2020, 2, 29, 6, 0, 0) /\ xldate_as_tuple b 0 = Ok (2020, 2, 29, 18, 0, 0).
Proof. vm_compute. auto. Qed.

(** Which exception: an unknown date system first; then negative serials, serials
of the year 10000 or later, and 1 to 60 in the 1900 system; nan and infinity
fail in int(). Every other serial is decoded. *)
Theorem C47_range_errors :
forall datemode x, valid x = true ->
  (datemode <> 0 -> datemode <> 1 -> xldate_as_tuple x datemode = Err XLDateBadDatemode) /\
  (datemode = 0 \/ datemode = 1 ->
    (fltb x (S754_zero false) = true -> xldate_as_tuple x datemode = Err XLDateNegative) /\
    (finite x = true -> fleb (float_of_Z (last_serial datemode + 1)) x = true ->
       xldate_as_tuple x datemode = Err XLDateTooLarge) /\
    (datemode = 0 -> fleb (float_of_Z 1) x = true -> fleb x (float_of_Z 60) = true ->
       xldate_as_tuple x datemode = Err XLDateAmbiguous) /\
    (x = S754_nan -> xldate_as_tuple x datemode = Err ValueError) /\
    (x = S754_infinity false -> xldate_as_tuple x datemode = Err OverflowError) /\
    (fleb (float_of_Z (first_serial datemode)) x = true ->
     fleb x (float_of_Z (last_serial datemode)) = true ->
     exists t, xldate_as_tuple x datemode = Ok t)).
Proof. exact C47_range_errors_proof. Qed.
Print Assumptions C47_range_errors.

Example C47_errors_ex : xldate_as_tuple (float_of_Z 5) 2 = Err XLDateBadDatemode /\
  xldate_as_tuple (float_of_Z (-5)) 0 = Err XLDateNegative /\
  xldate_as_tuple (float_of_Z 2958466) 0 = Err XLDateTooLarge /\
  xldate_as_tuple (float_of_Z 42) 0 = Err XLDateAmbiguous.
Proof. vm_compute. auto. Qed.

(** The documented ambiguous range 1.0 <= xldate < 61.0 is not exact: rounding to
whole seconds comes first, so a serial just below 61 is decoded and one just
below 1 is refused. *)
Theorem C47_documented_range_refuted :
exists x1 x2, valid x1 = true /\ valid x2 = true /\
  fleb (float_of_Z 1) x1 = true /\ fltb x1 (float_of_Z 61) = true /\
  xldate_as_tuple x1 0 = Ok (1900, 3, 1, 0, 0, 0) /\
  fltb x2 (float_of_Z 1) = true /\ xldate_as_tuple x2 0 = Err XLDateAmbiguous.
Proof. exact C47_documented_range_refuted_proof. Qed.
Print Assumptions C47_documented_range_refuted.

(** The encoder accepts exactly (0, 0, 0) and the existing dates of the range; all
other tuples raise XLDateBadTuple, or XLDateAmbiguous for the first sixty days
of the 1900 system. *)
Theorem C47_accepted_tuples :
forall datemode y m d, datemode = 0 \/ datemode = 1 -> (y, m, d) <> (0, 0, 0) ->
  match xldate_from_date_tuple (y, m, d) datemode with
  | Ok x => is_date y m d /\ 1900 <= y <= 9999 /\
            x = float_of_Z (ordinal y m d - day_zero datemode) /\
            first_serial datemode <= ordinal y m d - day_zero datemode
  | Err XLDateAmbiguous => datemode = 0 /\ is_date y m d /\
            ordinal 1900 1 1 <= ordinal y m d < ordinal 1900 3 1
  | Err e => e = XLDateBadTuple /\
            (~ is_date y m d \/ ~ (1900 <= y <= 9999) \/
             datemode = 1 /\ ordinal y m d <= ordinal 1904 1 1)
  end.
Proof. exact C47_accepted_tuples_proof. Qed.
Print Assumptions C47_accepted_tuples.

Example C47_accepted_ex : xldate_from_date_tuple (1900, 2, 29) 0 = Err XLDateBadTuple /\
  xldate_from_date_tuple (1900, 2, 28) 0 = Err XLDateAmbiguous /\
  xldate_from_date_tuple (2000, 2, 29) 0 = Ok (float_of_Z 36585) /\
  xldate_from_date_tuple (1904, 1, 1) 1 = Err XLDateBadTuple.
Proof. vm_compute. auto. Qed.

(** For every whole serial the tuple decoder gives a date for, xldate_as_datetime
gives the datetime of the same date at midnight, in both systems. *)
Theorem C48_integral_agree :
forall datemode n, datemode = 0 \/ datemode = 1 ->
  first_serial datemode <= n <= last_serial datemode ->
  exists y m d, xldate_as_tuple (float_of_Z n) datemode = Ok (y, m, d, 0, 0, 0) /\
                xldate_as_datetime (float_of_Z n) datemode = Ok (datetime_of y m d 0 0 0).
Proof. exact C48_integral_agree_proof. Qed.
Print Assumptions C48_integral_agree.

Example C48_agree_ex : xldate_as_datetime (float_of_Z 43890) 0 = Ok (datetime_of 2020 2 29 0 0 0) /\
  datetime_of 2020 2 29 0 0 0 = VDateTime 737484 0.
Proof. vm_compute. auto. Qed.

(** Serials 59 and 60 of the 1900 system give the same datetime, 1900-02-28, so
the decoding used by sheetpack is not injective there. *)
Theorem C48_serials_59_60 :
xldate_as_datetime (float_of_Z 59) 0 = Ok (datetime_of 1900 2 28 0 0 0) /\
  xldate_as_datetime (float_of_Z 60) 0 = Ok (datetime_of 1900 2 28 0 0 0).
Proof. exact C48_serials_59_60_proof. Qed.
Print Assumptions C48_serials_59_60.

(** Apart from that pair, different whole serials from 0 on give different
datetimes. *)
Theorem C48_injective_elsewhere :
forall datemode n1 n2 v, datemode = 0 \/ datemode = 1 ->
  0 <= n1 < n2 -> n2 <= last_serial datemode ->
  xldate_as_datetime (float_of_Z n1) datemode = Ok v ->
  xldate_as_datetime (float_of_Z n2) datemode = Ok v ->
  datemode = 0 /\ n1 = 59 /\ n2 = 60.
Proof. exact C48_injective_elsewhere_proof. Qed.
Print Assumptions C48_injective_elsewhere.

Example C48_injective_ex : xldate_as_datetime (float_of_Z 0) 0 = Ok (datetime_of 1899 12 31 0 0 0) /\
  xldate_as_datetime (float_of_Z 1) 0 = Ok (datetime_of 1900 1 1 0 0 0).
Proof. vm_compute. auto. Qed.

(** An encoded date and time is decoded by xldate_as_datetime to exactly that
datetime: the milliseconds never show the rounding errors. *)
Theorem C48_datetime_round_trip :
forall datemode y m d h mi s, datemode = 0 \/ datemode = 1 ->
  1900 <= y <= 9999 -> is_date y m d -> is_time h mi s ->
  first_serial datemode <= ordinal y m d - day_zero datemode ->
  exists x, xldate_from_datetime_tuple (y, m, d, h, mi, s) datemode = Ok x /\
            xldate_as_datetime x datemode = Ok (datetime_of y m d h mi s).
Proof. exact C48_datetime_round_trip_proof. Qed.
Print Assumptions C48_datetime_round_trip.

Example C48_round_trip_ex :
  (do x <- xldate_from_datetime_tuple (1999, 12, 31, 23, 59, 59) 0; xldate_as_datetime x 0)
  = Ok (datetime_of 1999 12 31 23 59 59) /\
  datetime_of 1999 12 31 23 59 59 = VDateTime 730119 86399000000.
Proof. vm_compute. auto. Qed.

(** For every serial, whole or not, which the tuple decoder gives a date for,
xldate_as_datetime succeeds and the two differ by at most half a second plus
one millisecond: the tuple has whole seconds, the datetime whole milliseconds. *)
Theorem C48_half_second :
forall datemode x y m d h mi s, datemode = 0 \/ datemode = 1 -> valid x = true ->
  xldate_as_tuple x datemode = Ok (y, m, d, h, mi, s) -> y <> 0 ->
  exists day ms, xldate_as_datetime x datemode = Ok (VDateTime day (ms * 1000)) /\
  0 <= ms < 86400000 /\
  Z.abs ((day * 86400000 + ms) - (ordinal y m d * 86400 + ((h * 60 + mi) * 60 + s)) * 1000) <= 501.
Proof. exact C48_half_second_proof. Qed.
Print Assumptions C48_half_second.

(** 43890.7500040 is 18:00:00.346. *)
Example C48_half_second_ex : let x := fdiv (float_of_Z 43890750004) (float_of_Z 1000000) in
  xldate_as_tuple x 0 = Ok (2020, 2, 29, 18, 0, 0) /\
  xldate_as_datetime x 0 = Ok (VDateTime 737484 64800346000).
Proof. vm_compute. auto. Qed.

