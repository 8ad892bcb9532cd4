(** * Spread sheet dates: proofs of the property theorems *)

From Coq Require Import ZifyBool ZifyNat ZifyN QArith.
From Verif Require Import PyBase PyFloat NumPy XlDate SpecXlDate XlCalendar FloatReal XlDateFloat.
Open Scope nat_scope.
From Coq Require Import Reals Lra.
From Flocq Require Import Core Round Relative Sterbenz BinarySingleNaN.
Open Scope Z_scope.

Ltac Zify.zify_post_hook ::= Z.div_mod_to_equations.

Lemma day_zero_val datemode : datemode = 0 \/ datemode = 1 ->
  day_zero datemode = if datemode =? 0 then 693594 else 695056.
Proof. intros [->| ->]; vm_compute; reflexivity. Qed.

Lemma first_serial_bounds datemode : 1 <= first_serial datemode <= 61.
Proof. unfold first_serial. destruct (datemode =? 0); lia. Qed.

Lemma last_serial_val datemode : datemode = 0 \/ datemode = 1 ->
  last_serial datemode = xldays_too_large datemode - 1.
Proof. intros [->| ->]; vm_compute; reflexivity. Qed.

Lemma last_serial_bounds datemode : datemode = 0 \/ datemode = 1 -> last_serial datemode <= 2958465.
Proof. intros [->| ->]; vm_compute; discriminate. Qed.

Lemma delta_zero datemode : datemode = 0 \/ datemode = 1 ->
  jdn_delta datemode = day_zero datemode + 1721425.
Proof. intros [->| ->]; vm_compute; reflexivity. Qed.

Lemma ordinal_max y m d : is_date y m d -> y <= 9999 -> ordinal y m d <= ordinal 9999 12 31.
Proof.
  intros H Y.
  destruct (Z_lt_le_dec (ordinal 9999 12 31) (ordinal y m d)) as [L|L]; [|exact L].
  assert (M : is_date 9999 12 31) by (vm_compute; repeat split; discriminate).
  apply ordinal_lex in L; [|exact M|exact H]. destruct H as [H1 H2].
  assert (m = 12 /\ y = 9999) as [-> ->] by lia.
  change (month_length 9999 12) with 31 in H2. lia.
Qed.

Lemma from_date_val datemode y m d : datemode = 0 \/ datemode = 1 -> 1900 <= y <= 9999 -> is_date y m d ->
  xldate_from_date_tuple (y, m, d) datemode =
  (let n := ordinal y m d - day_zero datemode in
   if n <=? 0 then Err XLDateBadTuple
   else if (n <? 61) && (datemode =? 0) then Err XLDateAmbiguous
   else Ok (float_of_Z n)).
Proof.
  intros M Y H. unfold xldate_from_date_tuple.
  assert (negb ((datemode =? 0) || (datemode =? 1)) = false) as -> by (destruct M as [->| ->]; reflexivity).
  assert ((y =? 0) && (m =? 0) && (d =? 0) = false) as -> by lia.
  assert (negb ((1900 <=? y) && (y <=? 9999)) = false) as -> by lia.
  assert (negb ((1 <=? m) && (m <=? 12)) = false) as -> by (destruct H; lia).
  rewrite (proj2 (bad_day y m d ltac:(destruct H; assumption)) H).
  cbv zeta. rewrite jdn_ordinal by (destruct H; assumption). rewrite (delta_zero datemode M).
  replace (ordinal y m d + 1721425 - (day_zero datemode + 1721425)) with (ordinal y m d - day_zero datemode) by ring.
  reflexivity.
Qed.

Lemma tuple_of_moment datemode y m d h mi s : datemode = 0 \/ datemode = 1 -> y <= 9999 ->
  is_date y m d -> is_time h mi s -> first_serial datemode <= ordinal y m d - day_zero datemode ->
  tuple_of_seconds datemode ((ordinal y m d - day_zero datemode) * 86400 + ((h * 60 + mi) * 60 + s))
  = Ok (y, m, d, h, mi, s).
Proof.
  intros M Y H T L. pose proof (ordinal_max y m d H Y) as U.
  pose proof (last_serial_val datemode M) as LV. unfold last_serial in LV.
  pose proof (first_serial_bounds datemode) as FB. destruct T as (T1 & T2 & T3).
  unfold tuple_of_seconds. set (n := ordinal y m d - day_zero datemode) in *.
  replace ((n * 86400 + ((h * 60 + mi) * 60 + s)) / 86400) with n by lia.
  replace ((n * 86400 + ((h * 60 + mi) * 60 + s)) mod 86400) with ((h * 60 + mi) * 60 + s) by lia.
  replace (((h * 60 + mi) * 60 + s) / 60 / 60) with h by lia.
  replace (((h * 60 + mi) * 60 + s) / 60 mod 60) with mi by lia.
  replace (((h * 60 + mi) * 60 + s) mod 60) with s by lia.
  cbv zeta.
  assert (n >=? xldays_too_large datemode = false) as -> by lia.
  assert (n =? 0 = false) as -> by lia.
  assert ((n <? 61) && (datemode =? 0) = false) as ->.
  { unfold first_serial in L. destruct (datemode =? 0); lia. }
  rewrite (delta_zero datemode M). unfold n.
  replace (ordinal y m d - day_zero datemode + (day_zero datemode + 1721425)) with (ordinal y m d + 1721425) by ring.
  rewrite jdn_to_date_ordinal by exact H. reflexivity.
Qed.

Lemma serial_positive datemode n : datemode = 0 \/ datemode = 1 -> first_serial datemode <= n <= 2958465 ->
  valid (float_of_Z n) = true /\ finite (float_of_Z n) = true /\ fval (float_of_Z n) = IZR n /\ (0 < IZR n)%R.
Proof.
  intros M L. pose proof (first_serial_bounds datemode) as FB.
  destruct (small_float n ltac:(lia)) as (V & F & E). repeat split; try assumption. apply IZR_lt. lia.
Qed.

Lemma whole_units n f : fval f = IZR n -> 0 <= n -> units 86400 f = n * 86400 /\ units 86400000 f = n * 86400 * 1000.
Proof.
  intros E N. apply encoded_units.
  - rewrite E. apply IZR_le. exact N.
  - rewrite E, mult_IZR. replace (IZR n - IZR n * 86400 / 86400)%R with 0%R by field.
    rewrite Rabs_R0. apply bpow_ge_0.
Qed.

Lemma C47_date_round_trip_proof :
forall datemode y m d, datemode = 0 \/ datemode = 1 ->
  1900 <= y <= 9999 -> is_date y m d ->
  first_serial datemode <= ordinal y m d - day_zero datemode ->
  exists x, xldate_from_date_tuple (y, m, d) datemode = Ok x /\
            x = float_of_Z (ordinal y m d - day_zero datemode) /\
            xldate_as_tuple x datemode = Ok (y, m, d, 0, 0, 0).
Proof.
  intros datemode y m d M Y H L.
  pose proof (ordinal_max y m d H ltac:(lia)) as U.
  pose proof (last_serial_bounds datemode M) as LB. unfold last_serial in LB.
  pose proof (first_serial_bounds datemode) as FB.
  rewrite from_date_val by assumption. cbv zeta.
  set (n := ordinal y m d - day_zero datemode) in *.
  assert (n <=? 0 = false) as -> by lia.
  assert ((n <? 61) && (datemode =? 0) = false) as ->.
  { unfold first_serial in L. destruct (datemode =? 0); lia. }
  exists (float_of_Z n). split; [reflexivity|]. split; [reflexivity|].
  destruct (serial_positive datemode n M ltac:(lia)) as (V & F & E & P).
  rewrite as_tuple_seconds; try assumption; [|rewrite E; exact P].
  rewrite (proj1 (whole_units n _ E ltac:(lia))).
  assert (T0 : is_time 0 0 0) by (repeat split; lia).
  pose proof (tuple_of_moment datemode y m d 0 0 0 M ltac:(lia) H T0 L) as Q. fold n in Q.
  replace (n * 86400) with (n * 86400 + ((0 * 60 + 0) * 60 + 0)) by ring. exact Q.
Qed.

Lemma encode_moment datemode y m d h mi s : datemode = 0 \/ datemode = 1 ->
  1900 <= y <= 9999 -> is_date y m d -> is_time h mi s ->
  first_serial datemode <= ordinal y m d - day_zero datemode ->
  exists x, xldate_from_datetime_tuple (y, m, d, h, mi, s) datemode = Ok x /\
  valid x = true /\ finite x = true /\ ((60.5 < fval x)%R \/ (0.5 < fval x)%R /\ datemode = 1) /\
  units 86400 x = (ordinal y m d - day_zero datemode) * 86400 + ((h * 60 + mi) * 60 + s) /\
  units 86400000 x = ((ordinal y m d - day_zero datemode) * 86400 + ((h * 60 + mi) * 60 + s)) * 1000.
Proof.
  intros M Y H T L.
  pose proof (ordinal_max y m d H ltac:(lia)) as U.
  pose proof (last_serial_bounds datemode M) as LB. unfold last_serial in LB.
  pose proof (first_serial_bounds datemode) as FB.
  unfold xldate_from_datetime_tuple. rewrite from_date_val by assumption. cbv zeta.
  set (n := ordinal y m d - day_zero datemode) in *.
  assert (n <=? 0 = false) as -> by lia.
  assert ((n <? 61) && (datemode =? 0) = false) as ->.
  { unfold first_serial in L. destruct (datemode =? 0); lia. }
  destruct (serial_positive datemode n M ltac:(lia)) as (V & F & E & P).
  destruct (encode_R n h mi s (float_of_Z n) T ltac:(lia) V F E) as (t & Et & Va & Fa & Na & Aa).
  cbn [bind]. rewrite Et. cbn [bind]. exists (fadd (float_of_Z n) t).
  destruct (encoded_units _ _ Na Aa) as [E1 E2].
  split; [reflexivity|]. split; [exact Va|]. split; [exact Fa|]. split; [|split; assumption].
  assert (B : (bpow radix2 (-30) <= / 4)%R) by (simpl; apply Rinv_le; lra).
  apply Rabs_le_inv in Aa. destruct T as (T1 & T2 & T3).
  assert (Q : (0 <= IZR ((h * 60 + mi) * 60 + s))%R) by (apply IZR_le; nia).
  rewrite plus_IZR, mult_IZR in Aa. set (q := IZR ((h * 60 + mi) * 60 + s)) in *.
  set (fx := fval (fadd (float_of_Z n) t)) in *.
  assert (W : (IZR n - / 4 <= fx)%R) by lra.
  unfold first_serial in L. destruct M as [->| ->]; simpl in L.
  - left. assert (61 <= IZR n)%R by (apply IZR_le; lia). lra.
  - right. split; [|reflexivity]. assert (1 <= IZR n)%R by (apply IZR_le; lia). lra.
Qed.

Lemma C47_datetime_round_trip_proof :
forall datemode y m d h mi s, datemode = 0 \/ datemode = 1 ->
  1900 <= y <= 9999 -> is_date y m d -> is_time h mi s ->
  first_serial datemode <= ordinal y m d - day_zero datemode ->
  exists x, xldate_from_datetime_tuple (y, m, d, h, mi, s) datemode = Ok x /\
            xldate_as_tuple x datemode = Ok (y, m, d, h, mi, s).
Proof.
  intros datemode y m d h mi s M Y H T L.
  destruct (encode_moment datemode y m d h mi s M Y H T L) as (x & E & V & F & P & U & _).
  exists x. split; [exact E|].
  rewrite as_tuple_seconds; try assumption; [|lra].
  rewrite U. apply tuple_of_moment; try assumption. lia.
Qed.

Lemma C47_time_round_trip_proof :
forall datemode h mi s, datemode = 0 \/ datemode = 1 -> is_time h mi s ->
  exists x, xldate_from_datetime_tuple (0, 0, 0, h, mi, s) datemode = Ok x /\
            xldate_as_tuple x datemode = Ok (0, 0, 0, h, mi, s).
Proof.
  intros datemode h mi s M T.
  destruct (Z.eq_dec ((h * 60 + mi) * 60 + s) 0) as [Z|Z].
  { destruct T as (T1 & T2 & T3). assert (h = 0 /\ mi = 0 /\ s = 0) as (-> & -> & ->) by nia.
    exists (S754_zero false). destruct M as [->| ->]; split; vm_compute; reflexivity. }
  unfold xldate_from_datetime_tuple, xldate_from_date_tuple.
  assert (negb ((datemode =? 0) || (datemode =? 1)) = false) as -> by (destruct M as [->| ->]; reflexivity).
  cbn [Z.eqb andb bind].
  destruct (encode_R 0 h mi s (S754_zero false) T ltac:(lia) eq_refl eq_refl eq_refl) as (t & Et & Va & Fa & Na & Aa).
  rewrite Et. cbn [bind]. exists (fadd (S754_zero false) t). split; [reflexivity|].
  destruct (encoded_units _ _ Na Aa) as [E1 _].
  destruct T as (T1 & T2 & T3).
  rewrite as_tuple_seconds; try assumption.
  - rewrite E1. unfold tuple_of_seconds.
    replace ((0 * 86400 + ((h * 60 + mi) * 60 + s)) / 86400) with 0 by lia.
    replace ((0 * 86400 + ((h * 60 + mi) * 60 + s)) mod 86400) with ((h * 60 + mi) * 60 + s) by lia.
    replace (((h * 60 + mi) * 60 + s) / 60 / 60) with h by lia.
    replace (((h * 60 + mi) * 60 + s) / 60 mod 60) with mi by lia.
    replace (((h * 60 + mi) * 60 + s) mod 60) with s by lia.
    destruct M as [->| ->]; reflexivity.
  - assert (B : (bpow radix2 (-30) <= / 1000000000)%R) by (simpl; apply Rinv_le; lra).
    apply Rabs_le_inv in Aa. rewrite Z.add_0_l in Aa.
    assert (Q : (1 <= IZR ((h * 60 + mi) * 60 + s))%R) by (apply IZR_le; nia). lra.
Qed.

Lemma ordinal_min y m d : is_date y m d -> ordinal 1900 1 1 <= ordinal y m d -> 1900 <= y.
Proof.
  intros H L. destruct (Z_lt_le_dec y 1900) as [K|K]; [|exact K].
  assert (M : is_date 1900 1 1) by (vm_compute; repeat split; discriminate).
  pose proof (ordinal_lt y m d 1900 1 1 H M (or_introl K)). lia.
Qed.

Lemma ordinal_max_year y m d : is_date y m d -> ordinal y m d <= ordinal 9999 12 31 -> y <= 9999.
Proof.
  intros H L. destruct (Z_lt_le_dec 9999 y) as [K|K]; [|exact K].
  assert (M : is_date 9999 12 31) by (vm_compute; repeat split; discriminate).
  pose proof (ordinal_lt 9999 12 31 y m d M H (or_introl K)). lia.
Qed.

Lemma ordinal_exists o : exists y m d, is_date y m d /\ ordinal y m d = o.
Proof.
  destruct (jdn_to_date_spec (o + 1721425)) as [A B].
  eexists _, _, _. split; [exact A|]. rewrite B. ring.
Qed.

Lemma C47_serials_are_days_proof :
forall datemode n, datemode = 0 \/ datemode = 1 ->
  first_serial datemode <= n <= last_serial datemode ->
  exists y m d, xldate_as_tuple (float_of_Z n) datemode = Ok (y, m, d, 0, 0, 0) /\
                is_date y m d /\ 1900 <= y <= 9999 /\
                ordinal y m d = day_zero datemode + n.
Proof.
  intros datemode n M [L1 L2].
  destruct (ordinal_exists (day_zero datemode + n)) as (y & m & d & H & O).
  exists y, m, d.
  assert (Y2 : y <= 9999).
  { apply (ordinal_max_year y m d H). unfold last_serial in L2. lia. }
  assert (Y1 : 1900 <= y).
  { apply (ordinal_min y m d H). rewrite O. rewrite day_zero_val by exact M.
    change (ordinal 1900 1 1) with 693596. unfold first_serial in L1. destruct (datemode =? 0); lia. }
  split; [|repeat split; try assumption; apply H].
  destruct (C47_date_round_trip_proof datemode y m d M ltac:(lia) H) as (x & _ & E & T).
  { rewrite O. lia. }
  rewrite E in T. replace (ordinal y m d - day_zero datemode) with n in T by lia. exact T.
Qed.

Lemma C47_consecutive_proof :
forall datemode n y m d, datemode = 0 \/ datemode = 1 ->
  first_serial datemode <= n < last_serial datemode ->
  xldate_as_tuple (float_of_Z n) datemode = Ok (y, m, d, 0, 0, 0) ->
  xldate_as_tuple (float_of_Z (n + 1)) datemode =
    Ok (let '(y', m', d') := next_day y m d in (y', m', d', 0, 0, 0)).
Proof.
  intros datemode n y m d M L T.
  destruct (C47_serials_are_days_proof datemode n M ltac:(lia)) as (y1 & m1 & d1 & T1 & H1 & Y1 & O1).
  destruct (C47_serials_are_days_proof datemode (n + 1) M ltac:(lia)) as (y2 & m2 & d2 & T2 & H2 & Y2 & O2).
  rewrite T in T1. injection T1 as <- <- <-. rewrite T2.
  pose proof (next_day_spec y m d H1) as N. destruct (next_day y m d) as [[y3 m3] d3]. destruct N as [H3 O3].
  assert (E : (y2, m2, d2) = (y3, m3, d3)) by (apply ordinal_inj; try assumption; lia).
  congruence.
Qed.

Lemma ok_nonneg datemode x t : valid x = true -> xldate_as_tuple x datemode = Ok t ->
  finite x = true /\ (0 <= fval x)%R.
Proof.
  intros V E. unfold xldate_as_tuple in E.
  destruct (negb ((datemode =? 0) || (datemode =? 1))); [discriminate|].
  destruct x as [s|s| |s m e].
  - split; [reflexivity|]. rewrite fval_zero. lra.
  - destruct s; simpl in E; discriminate.
  - simpl in E. discriminate.
  - split; [reflexivity|]. rewrite feqb_R, fltb_R in E by (assumption || reflexivity).
    rewrite fval_zero in E.
    destruct (Req_bool_spec (fval (S754_finite s m e)) 0) as [Q|Q]; [lra|].
    destruct (Rlt_bool_spec (fval (S754_finite s m e)) 0) as [Q'|Q']; [discriminate|exact Q'].
Qed.

Lemma year_of_serial datemode n : datemode = 0 \/ datemode = 1 -> 0 <= n ->
  1 <= fst (fst (jdn_to_date (n + jdn_delta datemode))).
Proof.
  intros M L. destruct (jdn_to_date_spec (n + jdn_delta datemode)) as [A B].
  set (y := fst (fst (jdn_to_date (n + jdn_delta datemode)))) in *.
  set (m := snd (fst (jdn_to_date (n + jdn_delta datemode)))) in *.
  set (d := snd (jdn_to_date (n + jdn_delta datemode))) in *.
  rewrite (delta_zero datemode M), (day_zero_val datemode M) in B.
  destruct (Z_lt_le_dec y 1) as [K|K]; [|exact K].
  assert (D : is_date 1 1 1) by (vm_compute; repeat split; discriminate).
  pose proof (ordinal_lt y m d 1 1 1 A D (or_introl K)) as W. change (ordinal 1 1 1) with 1 in W.
  destruct (datemode =? 0); lia.
Qed.

Lemma tuple_of_seconds_mono datemode T1 T2 t1 t2 : datemode = 0 \/ datemode = 1 -> 0 <= T1 <= T2 ->
  tuple_of_seconds datemode T1 = Ok t1 -> tuple_of_seconds datemode T2 = Ok t2 -> tuple_le t1 t2.
Proof.
  intros M L E1 E2. unfold tuple_of_seconds in E1, E2.
  assert (D : T1 / 86400 <= T2 / 86400) by lia.
  assert (Dz : 0 <= T1 / 86400) by lia.
  assert (S : T1 / 86400 = T2 / 86400 -> T1 mod 86400 <= T2 mod 86400) by lia.
  assert (B1 : 0 <= T1 mod 86400 < 86400) by lia. assert (B2 : 0 <= T2 mod 86400 < 86400) by lia.
  set (n1 := T1 / 86400) in *. set (n2 := T2 / 86400) in *.
  set (r1 := T1 mod 86400) in *. set (r2 := T2 mod 86400) in *. clearbody n1 n2 r1 r2.
  assert (Q : r1 <= r2 -> r1 / 60 / 60 < r2 / 60 / 60 \/ r1 / 60 / 60 = r2 / 60 / 60 /\
    (r1 / 60 mod 60 < r2 / 60 mod 60 \/ r1 / 60 mod 60 = r2 / 60 mod 60 /\ r1 mod 60 <= r2 mod 60)) by lia.
  destruct (n1 >=? xldays_too_large datemode); [discriminate|].
  destruct (n2 >=? xldays_too_large datemode); [discriminate|].
  pose proof (year_of_serial datemode n2 M ltac:(lia)) as Y2.
  destruct (jdn_to_date_spec (n1 + jdn_delta datemode)) as [A1 O1].
  destruct (jdn_to_date_spec (n2 + jdn_delta datemode)) as [A2 O2].
  destruct (n1 =? 0) eqn:Z1.
  - injection E1 as <-. destruct (n2 =? 0) eqn:Z2.
    + injection E2 as <-. unfold tuple_le. specialize (Q ltac:(lia)). intuition.
    + destruct ((n2 <? 61) && (datemode =? 0)); [discriminate|].
      destruct (jdn_to_date (n2 + jdn_delta datemode)) as [[y m] d]. injection E2 as <-.
      cbn [fst snd] in Y2. unfold tuple_le. lia.
  - destruct (n2 =? 0) eqn:Z2; [lia|].
    destruct ((n1 <? 61) && (datemode =? 0)); [discriminate|].
    destruct ((n2 <? 61) && (datemode =? 0)); [discriminate|].
    destruct (Z.eq_dec n1 n2) as [<-|N].
    + destruct (jdn_to_date (n1 + jdn_delta datemode)) as [[y m] d].
      injection E1 as <-. injection E2 as <-. specialize (Q (S eq_refl)). unfold tuple_le. intuition.
    + destruct (jdn_to_date (n1 + jdn_delta datemode)) as [[y1 m1] d1].
      destruct (jdn_to_date (n2 + jdn_delta datemode)) as [[y2 m2] d2].
      injection E1 as <-. injection E2 as <-. cbn [fst snd] in *.
      pose proof (ordinal_lex _ _ _ _ _ _ A1 A2 ltac:(lia)) as X. unfold tuple_le. intuition.
Qed.

Lemma zero_tuple_least datemode x t : datemode = 0 \/ datemode = 1 -> valid x = true -> finite x = true ->
  (0 <= fval x)%R -> xldate_as_tuple x datemode = Ok t -> tuple_le (0, 0, 0, 0, 0, 0) t.
Proof.
  intros M V F P E.
  destruct (Req_dec (fval x) 0) as [Q|Q].
  - unfold xldate_as_tuple in E. destruct (negb ((datemode =? 0) || (datemode =? 1))); [discriminate|].
    rewrite feqb_R in E by (assumption || reflexivity). rewrite fval_zero, Req_bool_true in E by exact Q.
    injection E as <-. simpl. lia.
  - rewrite as_tuple_seconds in E; try assumption; [|lra].
    assert (U : 0 <= units 86400 x).
    { unfold units. pose proof (sec_bounds x 86400 P ltac:(lia)).
      assert (0 <= Ztrunc (fval x)). { rewrite Ztrunc_floor by exact P. apply Zfloor_lub. exact P. } lia. }
    eapply (tuple_of_seconds_mono datemode 0 (units 86400 x)); try assumption; [lia|].
    destruct M as [->| ->]; reflexivity.
Qed.

Lemma C47_monotone_proof :
forall datemode x1 x2 t1 t2, datemode = 0 \/ datemode = 1 ->
  valid x1 = true -> valid x2 = true -> fleb x1 x2 = true ->
  xldate_as_tuple x1 datemode = Ok t1 -> xldate_as_tuple x2 datemode = Ok t2 ->
  tuple_le t1 t2.
Proof.
  intros datemode x1 x2 t1 t2 M V1 V2 L E1 E2.
  destruct (ok_nonneg datemode x1 t1 V1 E1) as [F1 P1]. destruct (ok_nonneg datemode x2 t2 V2 E2) as [F2 P2].
  rewrite fleb_R in L by assumption.
  destruct (Rle_bool_spec (fval x1) (fval x2)) as [L'|L']; [|discriminate].
  destruct (Req_dec (fval x1) 0) as [Q|Q].
  - unfold xldate_as_tuple in E1. destruct (negb ((datemode =? 0) || (datemode =? 1))); [discriminate|].
    rewrite feqb_R in E1 by (assumption || reflexivity). rewrite fval_zero, Req_bool_true in E1 by exact Q.
    injection E1 as <-. apply (zero_tuple_least datemode x2 t2); assumption.
  - rewrite as_tuple_seconds in E1; try assumption; [|lra].
    rewrite as_tuple_seconds in E2; try assumption; [|lra].
    eapply (tuple_of_seconds_mono datemode); [exact M| |exact E1|exact E2].
    split; [|apply units_mono; try assumption; lia].
    unfold units. pose proof (sec_bounds x1 86400 P1 ltac:(lia)).
    assert (0 <= Ztrunc (fval x1)). { rewrite Ztrunc_floor by exact P1. apply Zfloor_lub. exact P1. } lia.
Qed.

Lemma units_of_Z k n : (1 <= k <= 2 ^ 53) -> 0 <= n <= 4000000 -> units k (float_of_Z n) = n * k.
Proof.
  intros K N. destruct (small_float n N) as (_ & _ & E). unfold units. rewrite E, Ztrunc_IZR.
  replace ((IZR n - IZR n) * IZR k)%R with 0%R by ring.
  rewrite round_0 by auto with typeclass_instances.
  rewrite (Znearest_imp _ 0 0); [ring|]. rewrite Rminus_0_r, Rabs_R0. lra.
Qed.

Lemma between_finite a b x : fleb (float_of_Z a) x = true -> fleb x (float_of_Z b) = true ->
  0 <= a <= 4000000 -> 0 <= b <= 4000000 -> finite x = true.
Proof.
  intros A B Ha Hb. destruct (small_float a Ha) as (_ & Fa & _). destruct (small_float b Hb) as (_ & Fb & _).
  destruct x as [s|s| |s m e]; try reflexivity.
  - destruct s; [destruct (float_of_Z a) as [[]|[]| |[] ? ?]; discriminate|
                 destruct (float_of_Z b) as [[]|[]| |[] ? ?]; discriminate].
  - destruct (float_of_Z b) as [[]|[]| |[] ? ?]; discriminate.
Qed.

Lemma C47_range_errors_proof :
forall datemode x, valid x = true ->
  (datemode <> 0 -> datemode <> 1 -> xldate_as_tuple x datemode = Err XLDateBadDatemode) /\
  (datemode = 0 \/ datemode = 1 ->
    (fltb x (S754_zero false) = true -> xldate_as_tuple x datemode = Err XLDateNegative) /\
    (finite x = true -> fleb (float_of_Z (last_serial datemode + 1)) x = true ->
       xldate_as_tuple x datemode = Err XLDateTooLarge) /\
    (datemode = 0 -> fleb (float_of_Z 1) x = true -> fleb x (float_of_Z 60) = true ->
       xldate_as_tuple x datemode = Err XLDateAmbiguous) /\
    (x = S754_nan -> xldate_as_tuple x datemode = Err ValueError) /\
    (x = S754_infinity false -> xldate_as_tuple x datemode = Err OverflowError) /\
    (fleb (float_of_Z (first_serial datemode)) x = true ->
     fleb x (float_of_Z (last_serial datemode)) = true ->
     exists t, xldate_as_tuple x datemode = Ok t)).
Proof.
  intros datemode x V. split.
  { intros N0 N1. unfold xldate_as_tuple.
    assert (negb ((datemode =? 0) || (datemode =? 1)) = true) as -> by lia. reflexivity. }
  intro M.
  assert (MB : negb ((datemode =? 0) || (datemode =? 1)) = false) by (destruct M as [->| ->]; reflexivity).
  pose proof (first_serial_bounds datemode) as FB. pose proof (last_serial_bounds datemode M) as LB.
  assert (LP : 2957003 <= last_serial datemode) by (destruct M as [->| ->]; vm_compute; discriminate).
  pose proof (last_serial_val datemode M) as LV.
  repeat split.
  - intro L. unfold xldate_as_tuple. rewrite MB.
    destruct x as [s|s| |s m e]; try discriminate L.
    + destruct s; [reflexivity|discriminate].
    + pose proof L as L0. rewrite fltb_R in L by (assumption || reflexivity). rewrite fval_zero in L.
      rewrite feqb_R by (assumption || reflexivity). rewrite fval_zero.
      destruct (Rlt_bool_spec (fval (S754_finite s m e)) 0) as [Q|Q]; [|discriminate].
      rewrite Req_bool_false by lra. rewrite L0. reflexivity.
  - intros F L. destruct (small_float (last_serial datemode + 1) ltac:(lia)) as (Vl & Fl & El).
    rewrite fleb_R in L by assumption. rewrite El in L.
    destruct (Rle_bool_spec (IZR (last_serial datemode + 1)) (fval x)) as [Q|Q]; [|discriminate].
    assert (P : (0 < IZR (last_serial datemode + 1))%R) by (apply IZR_lt; lia).
    rewrite as_tuple_seconds; try assumption; [|lra].
    assert (U : (last_serial datemode + 1) * 86400 <= units 86400 x).
    { rewrite <- units_of_Z by lia. apply units_mono; [lia|rewrite El; lra|rewrite El; exact Q]. }
    unfold tuple_of_seconds. assert (units 86400 x / 86400 >=? xldays_too_large datemode = true) as -> by lia.
    reflexivity.
  - intros -> A B. pose proof (between_finite 1 60 x A B ltac:(lia) ltac:(lia)) as F.
    destruct (small_float 1 ltac:(lia)) as (V1 & F1 & E1). destruct (small_float 60 ltac:(lia)) as (V6 & F6 & E6).
    rewrite fleb_R in A, B by assumption. rewrite E1 in A. rewrite E6 in B.
    destruct (Rle_bool_spec 1 (fval x)) as [Q1|]; [|discriminate].
    destruct (Rle_bool_spec (fval x) 60) as [Q2|]; [|discriminate].
    rewrite as_tuple_seconds; try assumption; [|lra].
    assert (U1 : 1 * 86400 <= units 86400 x).
    { rewrite <- units_of_Z by lia. apply units_mono; [lia|rewrite E1; lra|rewrite E1; exact Q1]. }
    assert (U2 : units 86400 x <= 60 * 86400).
    { rewrite <- units_of_Z by lia. apply units_mono; [lia|lra|rewrite E6; exact Q2]. }
    unfold tuple_of_seconds. change (xldays_too_large 0) with 2958466.
    assert (units 86400 x / 86400 >=? 2958466 = false) as -> by lia.
    assert (units 86400 x / 86400 =? 0 = false) as -> by lia.
    assert (units 86400 x / 86400 <? 61 = true) as -> by lia. reflexivity.
  - intros ->. unfold xldate_as_tuple. rewrite MB. reflexivity.
  - intros ->. unfold xldate_as_tuple. rewrite MB. reflexivity.
  - intros A B. pose proof (between_finite _ _ x A B ltac:(lia) ltac:(lia)) as F.
    destruct (small_float (first_serial datemode) ltac:(lia)) as (V1 & F1 & E1).
    destruct (small_float (last_serial datemode) ltac:(lia)) as (V6 & F6 & E6).
    rewrite fleb_R in A, B by assumption. rewrite E1 in A. rewrite E6 in B.
    destruct (Rle_bool_spec (IZR (first_serial datemode)) (fval x)) as [Q1|]; [|discriminate].
    destruct (Rle_bool_spec (fval x) (IZR (last_serial datemode))) as [Q2|]; [|discriminate].
    assert (P : (1 <= IZR (first_serial datemode))%R) by (apply IZR_le; lia).
    rewrite as_tuple_seconds; try assumption; [|lra].
    assert (U1 : first_serial datemode * 86400 <= units 86400 x).
    { rewrite <- units_of_Z by lia. apply units_mono; [lia|rewrite E1; lra|rewrite E1; exact Q1]. }
    assert (U2 : units 86400 x <= last_serial datemode * 86400).
    { rewrite <- units_of_Z by lia. apply units_mono; [lia|lra|rewrite E6; exact Q2]. }
    unfold tuple_of_seconds.
    assert (units 86400 x / 86400 >=? xldays_too_large datemode = false) as -> by lia.
    assert (units 86400 x / 86400 =? 0 = false) as -> by lia.
    assert ((units 86400 x / 86400 <? 61) && (datemode =? 0) = false) as ->.
    { unfold first_serial in U1. destruct (datemode =? 0); lia. }
    destruct (jdn_to_date (units 86400 x / 86400 + jdn_delta datemode)) as [[y m] d]. eauto.
Qed.

Lemma C47_documented_range_refuted_proof :
exists x1 x2, valid x1 = true /\ valid x2 = true /\
  fleb (float_of_Z 1) x1 = true /\ fltb x1 (float_of_Z 61) = true /\
  xldate_as_tuple x1 0 = Ok (1900, 3, 1, 0, 0, 0) /\
  fltb x2 (float_of_Z 1) = true /\ xldate_as_tuple x2 0 = Err XLDateAmbiguous.
Proof.
  exists (fdiv (float_of_Z 60999999) (float_of_Z 1000000)), (fdiv (float_of_Z 999999) (float_of_Z 1000000)).
  vm_compute. auto 10.
Qed.

Lemma C47_accepted_tuples_proof :
forall datemode y m d, datemode = 0 \/ datemode = 1 -> (y, m, d) <> (0, 0, 0) ->
  match xldate_from_date_tuple (y, m, d) datemode with
  | Ok x => is_date y m d /\ 1900 <= y <= 9999 /\
            x = float_of_Z (ordinal y m d - day_zero datemode) /\
            first_serial datemode <= ordinal y m d - day_zero datemode
  | Err XLDateAmbiguous => datemode = 0 /\ is_date y m d /\
            ordinal 1900 1 1 <= ordinal y m d < ordinal 1900 3 1
  | Err e => e = XLDateBadTuple /\
            (~ is_date y m d \/ ~ (1900 <= y <= 9999) \/
             datemode = 1 /\ ordinal y m d <= ordinal 1904 1 1)
  end.
Proof.
  intros datemode y m d M NZ.
  destruct (Z_le_dec 1900 y) as [Y1|Y1]; [destruct (Z_le_dec y 9999) as [Y2|Y2]|].
  - destruct (Z_le_dec 1 m) as [M1|M1]; [destruct (Z_le_dec m 12) as [M2|M2]|].
    + destruct ((d <? 1) || ((days_in_month m <? d) && negb ((d =? 29) && (m =? 2) && leap y))) eqn:B.
      * assert (N : ~ is_date y m d).
        { intro H. apply (bad_day y m d ltac:(lia)) in H. congruence. }
        unfold xldate_from_date_tuple. rewrite B.
        assert (negb ((datemode =? 0) || (datemode =? 1)) = false) as -> by (destruct M as [->| ->]; reflexivity).
        assert ((y =? 0) && (m =? 0) && (d =? 0) = false) as -> by lia.
        assert (negb ((1900 <=? y) && (y <=? 9999)) = false) as -> by lia.
        assert (negb ((1 <=? m) && (m <=? 12)) = false) as -> by lia. auto.
      * pose proof (proj1 (bad_day y m d ltac:(lia)) B) as H.
        rewrite from_date_val by (assumption || lia). cbv zeta.
        set (n := ordinal y m d - day_zero datemode) in *.
        assert (L : ordinal 1900 1 1 <= ordinal y m d).
        { destruct (Z_lt_le_dec (ordinal y m d) (ordinal 1900 1 1)) as [K|K]; [|exact K].
          apply ordinal_lex in K; [|exact H|vm_compute; repeat split; discriminate].
          destruct H as [_ H]. lia. }
        pose proof (day_zero_val datemode M) as Z0.
        change (ordinal 1900 1 1) with 693596 in *. change (ordinal 1900 3 1) with 693655.
        change (ordinal 1904 1 1) with 695056.
        destruct (n <=? 0) eqn:E1; [|destruct ((n <? 61) && (datemode =? 0)) eqn:E2].
        -- split; [reflexivity|]. right. right. destruct M as [->| ->]; simpl in Z0; unfold n in *; lia.
        -- assert (datemode = 0) as -> by lia. simpl in Z0. unfold n in *. repeat split; try apply H; lia.
        -- repeat split; try apply H; try lia. unfold first_serial. destruct M as [->| ->]; simpl in *; lia.
    + unfold xldate_from_date_tuple.
      assert (negb ((datemode =? 0) || (datemode =? 1)) = false) as -> by (destruct M as [->| ->]; reflexivity).
      assert ((y =? 0) && (m =? 0) && (d =? 0) = false) as -> by lia.
      assert (negb ((1900 <=? y) && (y <=? 9999)) = false) as -> by lia.
      assert (negb ((1 <=? m) && (m <=? 12)) = true) as -> by lia.
      split; [reflexivity|]. left. intros [H _]. lia.
    + unfold xldate_from_date_tuple.
      assert (negb ((datemode =? 0) || (datemode =? 1)) = false) as -> by (destruct M as [->| ->]; reflexivity).
      assert ((y =? 0) && (m =? 0) && (d =? 0) = false) as -> by lia.
      assert (negb ((1900 <=? y) && (y <=? 9999)) = false) as -> by lia.
      assert (negb ((1 <=? m) && (m <=? 12)) = true) as -> by lia.
      split; [reflexivity|]. left. intros [H _]. lia.
  - unfold xldate_from_date_tuple.
    assert (negb ((datemode =? 0) || (datemode =? 1)) = false) as -> by (destruct M as [->| ->]; reflexivity).
    assert ((y =? 0) && (m =? 0) && (d =? 0) = false) as -> by lia.
    assert (negb ((1900 <=? y) && (y <=? 9999)) = true) as -> by lia.
    split; [reflexivity|]. right. left. lia.
  - unfold xldate_from_date_tuple.
    assert (negb ((datemode =? 0) || (datemode =? 1)) = false) as -> by (destruct M as [->| ->]; reflexivity).
    assert ((y =? 0) && (m =? 0) && (d =? 0) = false) as ->.
    { destruct (Z.eq_dec y 0) as [->|]; [|lia]. destruct (Z.eq_dec m 0) as [->|]; [|lia].
      destruct (Z.eq_dec d 0) as [->|]; [congruence|lia]. }
    assert (negb ((1900 <=? y) && (y <=? 9999)) = true) as -> by lia.
    split; [reflexivity|]. right. left. lia.
Qed.

Lemma datetime_moment datemode y m d h mi s x : datemode = 0 \/ datemode = 1 -> y <= 9999 ->
  is_date y m d -> is_time h mi s -> first_serial datemode <= ordinal y m d - day_zero datemode ->
  valid x = true -> finite x = true -> ((60 <= fval x)%R \/ (0 <= fval x)%R /\ datemode = 1) ->
  units 86400000 x = ((ordinal y m d - day_zero datemode) * 86400 + ((h * 60 + mi) * 60 + s)) * 1000 ->
  xldate_as_datetime x datemode = Ok (datetime_of y m d h mi s).
Proof.
  intros M Y H T L V F P U.
  rewrite as_datetime_ms by (assumption || lra). rewrite U.
  pose proof (ordinal_max y m d H Y) as OM. change (ordinal 9999 12 31) with 3652059 in OM.
  pose proof (day_zero_val datemode M) as Z0. pose proof (first_serial_bounds datemode) as FB.
  assert (E : (if negb (datemode =? 0) then epoch_1904
               else if Rlt_bool (fval x) 60 then epoch_1900 else epoch_1900_minus_1) = day_zero datemode).
  { rewrite Z0. destruct M as [->| ->]; simpl; [|reflexivity].
    rewrite Rlt_bool_false by (destruct P as [P|[_ P]]; [exact P|discriminate]). reflexivity. }
  rewrite E. clear E. unfold datetime_of_ms, datetime_of. destruct T as (T1 & T2 & T3).
  set (n := ordinal y m d - day_zero datemode) in *. set (q := (h * 60 + mi) * 60 + s).
  assert (Q : 0 <= q < 86400) by (unfold q; lia). clearbody q.
  replace ((n * 86400 + q) * 1000 / 86400000) with n by lia.
  replace ((n * 86400 + q) * 1000 mod 86400000) with (q * 1000) by lia.
  assert ((1 <=? day_zero datemode + n) && (day_zero datemode + n <=? 3652059) = true) as ->.
  { unfold n in *. destruct (datemode =? 0); lia. }
  do 2 f_equal; [unfold n|]; ring.
Qed.

Lemma C48_integral_agree_proof :
forall datemode n, datemode = 0 \/ datemode = 1 ->
  first_serial datemode <= n <= last_serial datemode ->
  exists y m d, xldate_as_tuple (float_of_Z n) datemode = Ok (y, m, d, 0, 0, 0) /\
                xldate_as_datetime (float_of_Z n) datemode = Ok (datetime_of y m d 0 0 0).
Proof.
  intros datemode n M [L1 L2].
  destruct (C47_serials_are_days_proof datemode n M ltac:(lia)) as (y & m & d & T & H & Y & O).
  exists y, m, d. split; [exact T|].
  pose proof (first_serial_bounds datemode) as FB. pose proof (last_serial_bounds datemode M) as LB.
  destruct (serial_positive datemode n M ltac:(lia)) as (V & F & E & P).
  apply (datetime_moment datemode); try assumption; try lia.
  - repeat split; lia.
  - rewrite E. unfold first_serial in L1. destruct M as [->| ->]; simpl in L1.
    + left. apply IZR_le. lia.
    + right. split; [lra|reflexivity].
  - rewrite (proj2 (whole_units n _ E ltac:(lia))). rewrite O. ring.
Qed.

Lemma C48_serials_59_60_proof :
xldate_as_datetime (float_of_Z 59) 0 = Ok (datetime_of 1900 2 28 0 0 0) /\
  xldate_as_datetime (float_of_Z 60) 0 = Ok (datetime_of 1900 2 28 0 0 0).
Proof.
  vm_compute. auto.
Qed.

Lemma datetime_whole datemode n : datemode = 0 \/ datemode = 1 -> 0 <= n <= 2958465 ->
  xldate_as_datetime (float_of_Z n) datemode =
  (let day := (if negb (datemode =? 0) then epoch_1904 else if n <? 60 then epoch_1900 else epoch_1900_minus_1) + n in
   if (1 <=? day) && (day <=? 3652059) then Ok (VDateTime day 0) else Err OverflowError).
Proof.
  intros M N. destruct (small_float n ltac:(lia)) as (V & F & E).
  rewrite as_datetime_ms by (try assumption; rewrite E; apply IZR_le; lia).
  rewrite units_of_Z by lia. unfold datetime_of_ms.
  replace (n * 86400000 / 86400000) with n by lia. replace (n * 86400000 mod 86400000) with 0 by lia.
  rewrite E. replace (Rlt_bool (IZR n) 60) with (n <? 60); [reflexivity|].
  destruct (Rlt_bool_spec (IZR n) 60) as [Q|Q]; [apply lt_IZR in Q|apply le_IZR in Q]; lia.
Qed.

Lemma C48_injective_elsewhere_proof :
forall datemode n1 n2 v, datemode = 0 \/ datemode = 1 ->
  0 <= n1 < n2 -> n2 <= last_serial datemode ->
  xldate_as_datetime (float_of_Z n1) datemode = Ok v ->
  xldate_as_datetime (float_of_Z n2) datemode = Ok v ->
  datemode = 0 /\ n1 = 59 /\ n2 = 60.
Proof.
  intros datemode n1 n2 v M L1 L2 E1 E2. pose proof (last_serial_bounds datemode M) as LB.
  rewrite datetime_whole in E1 by (assumption || lia). rewrite datetime_whole in E2 by (assumption || lia).
  cbv zeta in E1, E2. unfold epoch_1904, epoch_1900, epoch_1900_minus_1 in *.
  destruct M as [->| ->];
    [change (negb (0 =? 0)) with false in *|change (negb (1 =? 0)) with true in *]; cbv iota in E1, E2.
  - match type of E1 with (if ?c then _ else _) = _ => destruct c end; [|discriminate].
    match type of E2 with (if ?c then _ else _) = _ => destruct c end; [|discriminate].
    assert (Q : (if n1 <? 60 then 693595 else 693594) + n1 = (if n2 <? 60 then 693595 else 693594) + n2) by congruence.
    destruct (n1 <? 60) eqn:A, (n2 <? 60) eqn:B; lia.
  - match type of E1 with (if ?c then _ else _) = _ => destruct c end; [|discriminate].
    match type of E2 with (if ?c then _ else _) = _ => destruct c end; [|discriminate].
    assert (Q : 695056 + n1 = 695056 + n2) by congruence. lia.
Qed.

Lemma C48_datetime_round_trip_proof :
forall datemode y m d h mi s, datemode = 0 \/ datemode = 1 ->
  1900 <= y <= 9999 -> is_date y m d -> is_time h mi s ->
  first_serial datemode <= ordinal y m d - day_zero datemode ->
  exists x, xldate_from_datetime_tuple (y, m, d, h, mi, s) datemode = Ok x /\
            xldate_as_datetime x datemode = Ok (datetime_of y m d h mi s).
Proof.
  intros datemode y m d h mi s M Y H T L.
  destruct (encode_moment datemode y m d h mi s M Y H T L) as (x & E & V & F & P & _ & U).
  exists x. split; [exact E|].
  apply (datetime_moment datemode); try assumption; try lia. destruct P as [P|[P ->]]; [left|right; split; [|reflexivity]]; lra.
Qed.

Lemma C48_half_second_proof :
forall datemode x y m d h mi s, datemode = 0 \/ datemode = 1 -> valid x = true ->
  xldate_as_tuple x datemode = Ok (y, m, d, h, mi, s) -> y <> 0 ->
  exists day ms, xldate_as_datetime x datemode = Ok (VDateTime day (ms * 1000)) /\
  0 <= ms < 86400000 /\
  Z.abs ((day * 86400000 + ms) - (ordinal y m d * 86400 + ((h * 60 + mi) * 60 + s)) * 1000) <= 501.
Proof.
  intros datemode x y m d h mi s M V E YN.
  destruct (ok_nonneg datemode x _ V E) as [F P].
  assert (PP : (0 < fval x)%R).
  { destruct (Req_dec (fval x) 0) as [Q|Q]; [|lra].
    unfold xldate_as_tuple in E. destruct (negb ((datemode =? 0) || (datemode =? 1))); [discriminate|].
    rewrite feqb_R in E by (assumption || reflexivity). rewrite fval_zero, Req_bool_true in E by exact Q. congruence. }
  rewrite as_tuple_seconds in E by assumption.
  pose proof (units_err 86400 17 x ltac:(lia) ltac:(simpl; lra) ltac:(lia) P) as D1.
  pose proof (units_err 86400000 27 x ltac:(lia) ltac:(simpl; lra) ltac:(lia) P) as D2.
  assert (B1 : (bpow radix2 (17 - 53) <= / 1000000)%R) by (simpl; apply Rinv_le; lra).
  assert (B2 : (bpow radix2 (27 - 53) <= / 1000000)%R) by (simpl; apply Rinv_le; lra).
  apply Rabs_le_inv in D1, D2.
  set (T := units 86400 x) in *. set (U := units 86400000 x) in *.
  assert (TU : -501 <= U - T * 1000 <= 501).
  { assert (W : (-502 < IZR (U - T * 1000) < 502)%R) by (rewrite minus_IZR, mult_IZR; lra).
    destruct W as [W1 W2]. apply lt_IZR in W1, W2. lia. }
  unfold tuple_of_seconds in E.
  destruct (T / 86400 >=? xldays_too_large datemode) eqn:E1; [discriminate|].
  destruct (T / 86400 =? 0) eqn:E2; [congruence|].
  destruct ((T / 86400 <? 61) && (datemode =? 0)) eqn:E3; [discriminate|].
  destruct (jdn_to_date_spec (T / 86400 + jdn_delta datemode)) as [A O].
  destruct (jdn_to_date (T / 86400 + jdn_delta datemode)) as [[y' m'] d'].
  assert (y' = y /\ m' = m /\ d' = d /\ T mod 86400 / 60 / 60 = h /\ T mod 86400 / 60 mod 60 = mi /\
          T mod 86400 mod 60 = s) as (-> & -> & -> & Eh & Em & Es) by (repeat split; congruence).
  clear E. cbn [fst snd] in A, O. rewrite (delta_zero datemode M) in O.
  rewrite as_datetime_ms by assumption. fold U.
  pose proof (day_zero_val datemode M) as Z0.
  assert (TP : 0 < T / 86400).
  { assert (0 <= T); [|lia]. unfold T, units. pose proof (sec_bounds x 86400 P ltac:(lia)).
    assert (0 <= Ztrunc (fval x)). { rewrite Ztrunc_floor by exact P. apply Zfloor_lub. exact P. } lia. }
  assert (EP : (if negb (datemode =? 0) then epoch_1904
               else if Rlt_bool (fval x) 60 then epoch_1900 else epoch_1900_minus_1) = day_zero datemode).
  { rewrite Z0. destruct M as [->| ->]; simpl; [|reflexivity].
    rewrite Rlt_bool_false; [reflexivity|].
    assert (W : (61 * 86400 <= T)) by (simpl in E3; lia). apply IZR_le in W. rewrite mult_IZR in W. lra. }
  rewrite EP. unfold datetime_of_ms.
  assert (U0 : 0 <= U).
  { unfold U, units. pose proof (sec_bounds x 86400000 P ltac:(lia)).
    assert (0 <= Ztrunc (fval x)). { rewrite Ztrunc_floor by exact P. apply Zfloor_lub. exact P. } lia. }
  assert (UB : U / 86400000 < xldays_too_large datemode).
  { assert (T < xldays_too_large datemode * 86400) by lia.
    assert (U <= T * 1000 + 501) by lia. lia. }
  assert (XB : day_zero datemode + xldays_too_large datemode = 3652060) by (destruct M as [->| ->]; vm_compute; reflexivity).
  assert ((1 <=? day_zero datemode + U / 86400000) && (day_zero datemode + U / 86400000 <=? 3652059) = true) as ->.
  { destruct (datemode =? 0); lia. }
  exists (day_zero datemode + U / 86400000), (U mod 86400000). split; [reflexivity|]. split; [lia|].
  rewrite O. rewrite <- Eh, <- Em, <- Es.
  replace (T / 86400 + (day_zero datemode + 1721425) - 1721425) with (T / 86400 + day_zero datemode) by ring.
  replace ((T mod 86400 / 60 / 60 * 60 + T mod 86400 / 60 mod 60) * 60 + T mod 86400 mod 60) with (T mod 86400) by lia.
  replace ((day_zero datemode + U / 86400000) * 86400000 + U mod 86400000 -
    ((T / 86400 + day_zero datemode) * 86400 + T mod 86400) * 1000) with (U - T * 1000) by lia.
  lia.
Qed.

