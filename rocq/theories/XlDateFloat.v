(** * Serial numbers as doubles: lemmas *)

From Coq Require Import ZArith Reals Lia Lra Psatz.
From Coq Require Import ZifyBool ZifyNat ZifyN.
From Verif Require Import PyBase PyBaseFacts PyFloat NumPy XlDate SpecXlDate XlCalendar FloatReal.
From Flocq Require Import Core Round Relative Sterbenz BinarySingleNaN.
Local Notation float := spec_float.
Open Scope R_scope.
Ltac Zify.zify_post_hook ::= Z.div_mod_to_equations.

(** Nearest count of units of 1/k day since serial 0, the way the code gets it. *)
Definition units (k : Z) (x : float) : Z :=
  (Ztrunc (fval x) * k + ZnearestE (rnd ((fval x - IZR (Ztrunc (fval x))) * IZR k)))%Z.

Lemma frac_bounds r : 0 <= r -> 0 <= r - IZR (Ztrunc r) < 1.
Proof.
  intro P. rewrite Ztrunc_floor by exact P.
  pose proof (Zfloor_lb r). pose proof (Zfloor_ub r). lra.
Qed.

(** The steps int(x), x - int(x), round((x - int(x)) * k) of both decoders. *)
Lemma decode_steps x k : valid x = true -> finite x = true -> 0 <= fval x -> (1 <= k <= 2 ^ 53)%Z ->
  int_of_float x = Ok (Ztrunc (fval x)) /\
  round_float (fmul (fsub x (float_of_Z (Ztrunc (fval x)))) (float_of_Z k))
  = Ok (ZnearestE (rnd ((fval x - IZR (Ztrunc (fval x))) * IZR k))).
Proof.
  intros V F P K. split; [apply int_of_float_R; exact F|].
  set (n := Ztrunc (fval x)).
  pose proof (frac_bounds _ P) as FB. fold n in FB.
  assert (N0 : 0 <= IZR n).
  { unfold n. rewrite Ztrunc_floor by exact P. apply IZR_le. apply Zfloor_lub. exact P. }
  assert (NR : rnd (IZR n) = IZR n).
  { apply round_generic; auto with typeclass_instances. apply trunc_format; assumption. }
  assert (RN : in_range (IZR n)).
  { unfold in_range. rewrite NR. pose proof (fval_lt_emax x V) as B.
    rewrite Rabs_pos_eq in B by exact P. rewrite Rabs_pos_eq by exact N0. lra. }
  destruct (float_of_Z_R n RN) as (Vn & Fn & En). rewrite NR in En.
  destruct (float_of_Z_exact k ltac:(lia)) as (Vk & Fk & Ek).
  assert (FR : rnd (fval x - IZR n) = fval x - IZR n).
  { apply round_generic; auto with typeclass_instances. apply frac_exact; assumption. }
  assert (RS : in_range (fval x - fval (float_of_Z n))).
  { rewrite En. apply (in_range_pow _ 0); [lia|]. simpl. rewrite Rabs_pos_eq; lra. }
  destruct (fsub_R x (float_of_Z n) V Vn F Fn RS) as (Vf & Ff & Ef). rewrite En, FR in Ef.
  assert (K1 : 1 <= IZR k) by (apply IZR_le; lia).
  assert (K2 : IZR k <= bpow radix2 53).
  { rewrite <- IZR_2pow by lia. apply IZR_le. lia. }
  assert (RM : in_range (fval (fsub x (float_of_Z n)) * fval (float_of_Z k))).
  { rewrite Ef, Ek. apply (in_range_pow _ 53); [lia|].
    rewrite Rabs_pos_eq by (apply Rmult_le_pos; lra). nra. }
  destruct (fmul_R _ _ Vf Vk Ff Fk RM) as (Vm & Fm & Em). rewrite Ef, Ek in Em.
  rewrite round_float_R by exact Fm. rewrite Em. reflexivity.
Qed.

Lemma nearest_bounds r k : 0 <= r <= IZR k -> (1 <= k <= 2 ^ 53)%Z -> (0 <= ZnearestE (rnd r) <= k)%Z.
Proof.
  intros R K.
  assert (L : 0 <= rnd r).
  { apply round_ge_generic; auto with typeclass_instances. apply generic_format_0. lra. }
  assert (U : rnd r <= IZR k).
  { apply round_le_generic; auto with typeclass_instances. apply format_Z. lia. lra. }
  assert (E0 : ZnearestE 0 = 0%Z) by (apply (Znearest_imp _ 0 0); rewrite Rminus_0_r, Rabs_R0; lra).
  assert (Ek : ZnearestE (IZR k) = k).
  { apply Znearest_imp. rewrite Rminus_diag_eq by reflexivity. rewrite Rabs_R0. lra. }
  split.
  - rewrite <- E0. apply Zrnd_le; auto with typeclass_instances.
  - rewrite <- Ek. apply Zrnd_le; auto with typeclass_instances.
Qed.

Lemma sec_bounds x k : 0 <= fval x -> (1 <= k <= 2 ^ 53)%Z ->
  (0 <= ZnearestE (rnd ((fval x - IZR (Ztrunc (fval x))) * IZR k)) <= k)%Z.
Proof.
  intros P K. apply nearest_bounds; [|exact K].
  pose proof (frac_bounds _ P) as FB. assert (0 < IZR k) by (apply IZR_lt; lia).
  split; [apply Rmult_le_pos; lra|nra].
Qed.

(** The count is monotone. *)
Lemma units_mono k x y : (1 <= k <= 2 ^ 53)%Z -> 0 <= fval x -> fval x <= fval y -> (units k x <= units k y)%Z.
Proof.
  intros K P L. unfold units.
  assert (P' : 0 <= fval y) by lra.
  pose proof (sec_bounds x k P K) as Bx. pose proof (sec_bounds y k P' K) as By.
  assert (T : (Ztrunc (fval x) <= Ztrunc (fval y))%Z) by (apply Ztrunc_le; exact L).
  destruct (Z.eq_dec (Ztrunc (fval x)) (Ztrunc (fval y))) as [E|E].
  - rewrite E in *. apply Zplus_le_compat_l. apply Zrnd_le; auto with typeclass_instances.
    apply round_le; auto with typeclass_instances. apply Rmult_le_compat_r; [apply IZR_le; lia|lra].
  - nia.
Qed.

(** The count is the nearest one up to a rounding error. *)
Lemma units_err k j x : (1 <= k)%Z -> IZR k <= bpow radix2 j -> (0 <= j <= 53)%Z -> 0 <= fval x ->
  Rabs (IZR (units k x) - fval x * IZR k) <= / 2 + bpow radix2 (j - 53).
Proof.
  intros K1 K2 J P. unfold units. rewrite plus_IZR, mult_IZR.
  pose proof (frac_bounds _ P) as FB.
  set (f := fval x - IZR (Ztrunc (fval x))) in *.
  assert (K0 : 0 < IZR k) by (apply IZR_lt; lia).
  assert (A : Rabs (f * IZR k) <= bpow radix2 j).
  { rewrite Rabs_pos_eq by (apply Rmult_le_pos; lra). nra. }
  pose proof (rnd_err (f * IZR k) j ltac:(lia) A) as E1.
  pose proof (Znearest_half (fun x => negb (Z.even x)) (rnd (f * IZR k))) as E2.
  replace (IZR (Ztrunc (fval x)) * IZR k + IZR (ZnearestE (rnd (f * IZR k))) - fval x * IZR k)
    with ((rnd (f * IZR k) - f * IZR k) - (rnd (f * IZR k) - IZR (ZnearestE (rnd (f * IZR k))))).
  2:{ unfold f. ring. }
  eapply Rle_trans; [apply Rabs_triang|]. rewrite Rabs_Ropp. lra.
Qed.

(** A serial close to a whole number of units gives that number. *)
Lemma units_close k j x m : (1 <= k)%Z -> IZR k <= bpow radix2 j -> (0 <= j <= 50)%Z -> 0 <= fval x ->
  Rabs (fval x * IZR k - IZR m) <= / 4 -> units k x = m.
Proof.
  intros K1 K2 J P C. pose proof (units_err k j x K1 K2 ltac:(lia) P) as E.
  assert (B : bpow radix2 (j - 53) <= / 8).
  { replace (/ 8) with (bpow radix2 (-3)) by (simpl; lra). apply bpow_le. lia. }
  assert (D : Rabs (IZR (units k x - m)) < 1).
  { rewrite minus_IZR.
    replace (IZR (units k x) - IZR m) with ((IZR (units k x) - fval x * IZR k) + (fval x * IZR k - IZR m)) by ring.
    eapply Rle_lt_trans; [apply Rabs_triang|]. lra. }
  rewrite <- abs_IZR in D. apply lt_IZR in D. lia.
Qed.

(** ** xldate_as_tuple in terms of whole seconds *)

Definition tuple_of_seconds (datemode T : Z) : res tuple6 :=
  (let days := T / 86400 in
   let r := T mod 86400 in
   if days >=? xldays_too_large datemode then Err XLDateTooLarge
   else if days =? 0 then Ok (0, 0, 0, r / 60 / 60, r / 60 mod 60, r mod 60)
   else if (days <? 61) && (datemode =? 0) then Err XLDateAmbiguous
   else let '(y, m, d) := jdn_to_date (days + jdn_delta datemode) in
        Ok (y, m, d, r / 60 / 60, r / 60 mod 60, r mod 60))%Z.

Lemma valid_zero : valid (S754_zero false) = true. Proof. reflexivity. Qed.
Lemma fval_zero s : fval (S754_zero s) = 0. Proof. reflexivity. Qed.

Lemma as_tuple_seconds x datemode : valid x = true -> finite x = true -> 0 < fval x ->
  (datemode = 0 \/ datemode = 1)%Z ->
  xldate_as_tuple x datemode = tuple_of_seconds datemode (units 86400 x).
Proof.
  intros V F P M. unfold xldate_as_tuple.
  assert (negb ((datemode =? 0) || (datemode =? 1))%Z = false) as -> by (destruct M as [->| ->]; reflexivity).
  rewrite feqb_R by (assumption || reflexivity). rewrite fltb_R by (assumption || reflexivity).
  rewrite fval_zero. rewrite Req_bool_false by lra. rewrite Rlt_bool_false by lra.
  destruct (decode_steps x 86400 V F ltac:(lra) ltac:(lia)) as [E1 E2]. rewrite E1. cbn [bind]. rewrite E2. cbn [bind].
  pose proof (sec_bounds x 86400 ltac:(lra) ltac:(lia)) as B.
  unfold tuple_of_seconds, units.
  set (n := Ztrunc (fval x)) in *.
  set (s := ZnearestE (rnd ((fval x - IZR n) * IZR 86400))) in *. clearbody s n.
  assert (negb ((0 <=? s) && (s <=? 86400))%Z = false) as -> by lia.
  destruct (s =? 86400)%Z eqn:E.
  - assert (s = 86400%Z) as -> by lia.
    replace ((n * 86400 + 86400) / 86400)%Z with (n + 1)%Z by lia.
    replace ((n * 86400 + 86400) mod 86400)%Z with 0%Z by lia. reflexivity.
  - replace ((n * 86400 + s) / 86400)%Z with n by lia.
    replace ((n * 86400 + s) mod 86400)%Z with s by lia. reflexivity.
Qed.

(** ** xldate_as_datetime in terms of whole milliseconds *)

Definition datetime_of_ms (epoch T : Z) : res val :=
  (let day := epoch + T / 86400000 in
   if (1 <=? day) && (day <=? 3652059) then Ok (VDateTime day ((T mod 86400000) * 1000))
   else Err OverflowError)%Z.

Lemma as_datetime_ms x datemode : valid x = true -> finite x = true -> 0 <= fval x ->
  xldate_as_datetime x datemode =
  datetime_of_ms (if negb (datemode =? 0)%Z then epoch_1904
                  else if Rlt_bool (fval x) 60 then epoch_1900 else epoch_1900_minus_1)
                 (units 86400000 x).
Proof.
  intros V F P. unfold xldate_as_datetime.
  destruct (decode_steps x 86400000 V F P ltac:(lia)) as [E1 E2]. rewrite E1. cbn [bind]. rewrite E2. cbn [bind].
  destruct (float_of_Z_exact 60 ltac:(lia)) as (V6 & F6 & E6).
  rewrite fltb_R by assumption. rewrite E6.
  pose proof (sec_bounds x 86400000 P ltac:(lia)) as B.
  unfold datetime_of_ms, epoch_plus, units.
  set (n := Ztrunc (fval x)) in *.
  set (s := ZnearestE (rnd ((fval x - IZR n) * IZR 86400000))) in *. clearbody s n.
  set (ep := if negb (datemode =? 0)%Z then _ else _). clearbody ep.
  replace (s / 1000 * 1000 + s mod 1000)%Z with s by lia.
  replace ((n * 86400000 + s) / 86400000)%Z with (n + s / 86400000)%Z by lia.
  replace ((n * 86400000 + s) mod 86400000)%Z with (s mod 86400000)%Z by lia.
  rewrite Z.add_assoc. reflexivity.
Qed.

(** ** Encoding *)

Lemma round_step v k : (-1000 <= k <= 1000)%Z -> Rabs v <= bpow radix2 k ->
  Rabs (rnd v - v) <= bpow radix2 (k - 53) /\ Rabs (rnd v) <= bpow radix2 k /\ in_range v.
Proof.
  intros K H. split; [|split].
  - apply rnd_err; [lia|exact H].
  - apply rnd_le_pow; assumption.
  - apply (in_range_pow v k); assumption.
Qed.

Lemma rnd_nonneg v : 0 <= v -> 0 <= rnd v.
Proof. intro H. apply round_ge_generic; auto with typeclass_instances. apply generic_format_0. Qed.

Lemma small_float z : (0 <= z <= 4000000)%Z ->
  valid (float_of_Z z) = true /\ finite (float_of_Z z) = true /\ fval (float_of_Z z) = IZR z.
Proof. intro H. apply float_of_Z_exact. lia. Qed.

Lemma from_time_R h mi s : is_time h mi s ->
  exists t, xldate_from_time_tuple (h, mi, s) = Ok t /\ valid t = true /\ finite t = true /\
  0 <= fval t <= 2 /\
  Rabs (fval t - IZR ((h * 60 + mi) * 60 + s) / 86400) <= bpow radix2 (-45).
Proof.
  intros (H & M & S). unfold xldate_from_time_tuple.
  assert (((0 <=? h) && (h <? 24) && (0 <=? mi) && (mi <? 60) && (0 <=? s) && (s <? 60))%Z = true) as -> by lia.
  destruct (small_float s ltac:(lia)) as (Vs & Fs & Es). destruct (small_float mi ltac:(lia)) as (Vm & Fm & Em).
  destruct (small_float h ltac:(lia)) as (Vh & Fh & Eh). destruct (small_float 60 ltac:(lia)) as (V6 & F6 & E6).
  destruct (small_float 24 ltac:(lia)) as (V4 & F4 & E4).
  assert (S1 : 0 <= IZR s <= 59) by (split; apply IZR_le; lia).
  assert (M1 : 0 <= IZR mi <= 59) by (split; apply IZR_le; lia).
  assert (H1 : 0 <= IZR h <= 23) by (split; apply IZR_le; lia).
  set (fs := float_of_Z s) in *. set (fm := float_of_Z mi) in *. set (fh := float_of_Z h) in *.
  set (f6 := float_of_Z 60) in *. set (f4 := float_of_Z 24) in *.
  clearbody fs fm fh f6 f4.
  assert (P0 : bpow radix2 0 = 1) by reflexivity. assert (P1 : bpow radix2 1 = 2) by reflexivity.
  assert (P5 : bpow radix2 5 = 32) by (simpl; lra). assert (P6 : bpow radix2 6 = 64) by (simpl; lra).
  (* s / 60 *)
  assert (B1 : Rabs (fval fs / fval f6) <= bpow radix2 0).
  { rewrite Es, E6, P0. rewrite Rabs_pos_eq; lra. }
  destruct (round_step _ 0 ltac:(lia) B1) as (X1 & Y1 & R1).
  destruct (fdiv_R fs f6 Vs V6 Fs ltac:(rewrite E6; lra) R1) as (Va & Fa & Ea).
  rewrite <- Ea in X1, Y1. pose proof (rnd_nonneg (fval fs / fval f6) ltac:(rewrite Es, E6; lra)) as N1.
  rewrite <- Ea in N1. rewrite Es, E6 in X1. set (a := fdiv fs f6) in *. clearbody a.
  rewrite P0 in Y1. rewrite Rabs_pos_eq in Y1 by exact N1.
  (* + minute *)
  assert (B2 : Rabs (fval a + fval fm) <= bpow radix2 6).
  { rewrite Em, P6. rewrite Rabs_pos_eq; lra. }
  destruct (round_step _ 6 ltac:(lia) B2) as (X2 & Y2 & R2).
  destruct (fadd_R a fm Va Vm Fa Fm R2) as (Vb & Fb & Eb).
  rewrite <- Eb in X2, Y2. pose proof (rnd_nonneg (fval a + fval fm) ltac:(rewrite Em; lra)) as N2.
  rewrite <- Eb in N2. rewrite Em in X2. set (b := fadd a fm) in *. clearbody b.
  rewrite P6 in Y2. rewrite Rabs_pos_eq in Y2 by exact N2.
  (* / 60 *)
  assert (B3 : Rabs (fval b / fval f6) <= bpow radix2 1).
  { rewrite E6, P1. rewrite Rabs_pos_eq; lra. }
  destruct (round_step _ 1 ltac:(lia) B3) as (X3 & Y3 & R3).
  destruct (fdiv_R b f6 Vb V6 Fb ltac:(rewrite E6; lra) R3) as (Vc & Fc & Ec).
  rewrite <- Ec in X3, Y3. pose proof (rnd_nonneg (fval b / fval f6) ltac:(rewrite E6; lra)) as N3.
  rewrite <- Ec in N3. rewrite E6 in X3. set (c := fdiv b f6) in *. clearbody c.
  rewrite P1 in Y3. rewrite Rabs_pos_eq in Y3 by exact N3.
  (* + hour *)
  assert (B4 : Rabs (fval c + fval fh) <= bpow radix2 5).
  { rewrite Eh, P5. rewrite Rabs_pos_eq; lra. }
  destruct (round_step _ 5 ltac:(lia) B4) as (X4 & Y4 & R4).
  destruct (fadd_R c fh Vc Vh Fc Fh R4) as (Vd & Fd & Ed).
  rewrite <- Ed in X4, Y4. pose proof (rnd_nonneg (fval c + fval fh) ltac:(rewrite Eh; lra)) as N4.
  rewrite <- Ed in N4. rewrite Eh in X4. set (d := fadd c fh) in *. clearbody d.
  rewrite P5 in Y4. rewrite Rabs_pos_eq in Y4 by exact N4.
  (* / 24 *)
  assert (B5 : Rabs (fval d / fval f4) <= bpow radix2 1).
  { rewrite E4, P1. rewrite Rabs_pos_eq; lra. }
  destruct (round_step _ 1 ltac:(lia) B5) as (X5 & Y5 & R5).
  destruct (fdiv_R d f4 Vd V4 Fd ltac:(rewrite E4; lra) R5) as (Ve & Fe & Ee).
  rewrite <- Ee in X5, Y5. pose proof (rnd_nonneg (fval d / fval f4) ltac:(rewrite E4; lra)) as N5.
  rewrite <- Ee in N5. rewrite E4 in X5. set (e := fdiv d f4) in *. clearbody e.
  rewrite P1 in Y5. rewrite Rabs_pos_eq in Y5 by exact N5.
  exists e. repeat split; try assumption; try lra.
  rewrite !plus_IZR, !mult_IZR, plus_IZR, mult_IZR.
  assert (W1 : bpow radix2 (0 - 53) <= bpow radix2 (-47)) by (apply bpow_le; lia).
  assert (W2 : bpow radix2 (6 - 53) <= bpow radix2 (-47)) by (apply bpow_le; lia).
  assert (W3 : bpow radix2 (1 - 53) <= bpow radix2 (-47)) by (apply bpow_le; lia).
  assert (W4 : bpow radix2 (5 - 53) <= bpow radix2 (-47)) by (apply bpow_le; lia).
  assert (W5 : bpow radix2 (-45) = 4 * bpow radix2 (-47)).
  { change (-45)%Z with (2 + -47)%Z. rewrite bpow_plus. change (bpow radix2 2) with 4. reflexivity. }
  rewrite W5. pose proof (bpow_gt_0 radix2 (-47)) as W6. set (w := bpow radix2 (-47)) in *. clearbody w.
  apply Rabs_le_inv in X1, X2, X3, X4, X5. apply Rabs_le.
  clear - X1 X2 X3 X4 X5 W1 W2 W3 W4 W6. split; lra.
Qed.

Lemma encode_R n h mi s f : is_time h mi s -> (0 <= n <= 2958466)%Z ->
  valid f = true -> finite f = true -> fval f = IZR n ->
  exists t, xldate_from_time_tuple (h, mi, s) = Ok t /\
  valid (fadd f t) = true /\ finite (fadd f t) = true /\ 0 <= fval (fadd f t) /\
  Rabs (fval (fadd f t) - IZR (n * 86400 + ((h * 60 + mi) * 60 + s)) / 86400) <= bpow radix2 (-30).
Proof.
  intros T N V F E. destruct (from_time_R h mi s T) as (t & Et & Vt & Ft & Bt & At).
  exists t. split; [exact Et|].
  assert (N1 : 0 <= IZR n <= 2958466) by (split; apply IZR_le; lia).
  assert (P : bpow radix2 22 = 4194304) by (simpl; lra).
  assert (B : Rabs (fval f + fval t) <= bpow radix2 22).
  { rewrite E, P. rewrite Rabs_pos_eq; lra. }
  destruct (round_step _ 22 ltac:(lia) B) as (X & Y & R).
  destruct (fadd_R f t V Vt F Ft R) as (Va & Fa & Ea).
  pose proof (rnd_nonneg (fval f + fval t) ltac:(rewrite E; lra)) as NN.
  rewrite <- Ea in *. repeat split; try assumption.
  rewrite E in X. rewrite plus_IZR, mult_IZR.
  set (q := ((h * 60 + mi) * 60 + s)%Z) in *. clearbody q.
  assert (W1 : bpow radix2 (22 - 53) = bpow radix2 14 * bpow radix2 (-45)) by (rewrite <- bpow_plus; reflexivity).
  assert (W2 : bpow radix2 (-30) = bpow radix2 15 * bpow radix2 (-45)) by (rewrite <- bpow_plus; reflexivity).
  assert (W3 : bpow radix2 14 = 16384) by (simpl; lra). assert (W4 : bpow radix2 15 = 32768) by (simpl; lra).
  rewrite W1, W3 in X. rewrite W2, W4. pose proof (bpow_gt_0 radix2 (-45)) as W6.
  set (w := bpow radix2 (-45)) in *. clearbody w.
  apply Rabs_le_inv in X, At. apply Rabs_le. lra.
Qed.

(** An encoded moment has the right number of seconds and milliseconds. *)
Lemma encoded_units x S : 0 <= fval x -> Rabs (fval x - IZR S / 86400) <= bpow radix2 (-30) ->
  units 86400 x = S /\ units 86400000 x = (S * 1000)%Z.
Proof.
  intros P A.
  assert (B : bpow radix2 (-30) <= / 1000000000).
  { simpl. apply Rinv_le; lra. }
  apply Rabs_le_inv in A.
  split.
  - apply (units_close 86400 17); try lia; try assumption.
    + simpl. lra.
    + apply Rabs_le. lra.
  - apply (units_close 86400000 27); try lia; try assumption.
    + simpl. lra.
    + rewrite mult_IZR. apply Rabs_le. lra.
Qed.
