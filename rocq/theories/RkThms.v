(** * RK numbers: proofs of the property theorems *)

From Coq Require Import ZifyBool ZifyNat ZifyN QArith.
From Verif Require Import PyBase PyBaseFacts PyFloat Dbf XlStruct SpecRk FloatReal.
Open Scope nat_scope.
From Coq Require Import Reals Lra.
From Flocq Require Import Core BinarySingleNaN.
Open Scope Z_scope.
Local Notation float := spec_float.

Ltac Zify.zify_post_hook ::= Z.div_mod_to_equations.

Lemma byte_flags c : (c < 256)%N ->
  negb (N.land c 1 =? 0)%N = Z.odd (Z.of_N c) /\
  negb (N.land c 2 =? 0)%N = Z.odd (Z.of_N c / 2) /\
  Z.of_N (N.land c 252) = 4 * (Z.of_N c / 4).
Proof.
  intro H.
  assert (T : forallb (fun k => let c := N.of_nat k in
            Bool.eqb (negb (N.land c 1 =? 0)%N) (Z.odd (Z.of_N c)) &&
            Bool.eqb (negb (N.land c 2 =? 0)%N) (Z.odd (Z.of_N c / 2)) &&
            (Z.of_N (N.land c 252) =? 4 * (Z.of_N c / 4))) (seq 0 256) = true) by (vm_compute; reflexivity).
  rewrite forallb_forall in T. specialize (T (N.to_nat c)). cbv zeta in T. rewrite N2Nat.id in T.
  assert (I : In (N.to_nat c) (seq 0 256)) by (apply in_seq; lia). specialize (T I).
  apply andb_true_iff in T. destruct T as [T T3]. apply andb_true_iff in T. destruct T as [T1 T2].
  apply Bool.eqb_prop in T1, T2. split; [exact T1|]. split; [exact T2|]. lia.
Qed.

Lemma odd_mod z : Z.odd z = (z mod 2 =? 1).
Proof. rewrite Zmod_odd. destruct (Z.odd z); reflexivity. Qed.

Lemma word_flags b0 b1 b2 b3 : Z.odd (Z.of_N b0) = hundredths (word b0 b1 b2 b3) /\
  Z.odd (Z.of_N b0 / 2) = integral (word b0 b1 b2 b3).
Proof. unfold hundredths, integral, word. rewrite !odd_mod. split; lia. Qed.

Lemma word_bits b0 b1 b2 b3 : (b0 < 256)%N -> (b1 < 256)%N -> (b2 < 256)%N -> (b3 < 256)%N ->
  0 <= word b0 b1 b2 b3 < 2 ^ 32 /\ le_value [b0; b1; b2; b3] = word b0 b1 b2 b3 /\
  le_value [0; 0; 0; 0; N.land b0 252; b1; b2; b3]%N = 2 ^ 32 * (4 * (word b0 b1 b2 b3 / 4)).
Proof.
  intros H0 H1 H2 H3. destruct (byte_flags b0 H0) as (_ & _ & L). unfold word. cbn [le_value]. rewrite L. clear L. lia.
Qed.

(** ** The double of a pattern *)
Lemma digits_range m k : 2 ^ k <= Zpos m < 2 ^ (k + 1) -> 0 <= k -> Zpos (digits2_pos m) = k + 1.
Proof.
  intros H K. rewrite Zpos_digits2_pos. apply Zdigits_unique.
  change (radix_val radix2) with 2. rewrite Z.abs_eq by lia. replace (k + 1 - 1) with k by lia. exact H.
Qed.

Lemma normal_valid s m e : 2 ^ 52 <= Zpos m < 2 ^ 53 -> -1074 <= e <= 971 -> valid (S754_finite s m e) = true.
Proof.
  intros M E. unfold valid, valid_binary, SpecFloat.bounded, SpecFloat.canonical_mantissa.
  pose proof (digits_range m 52 M ltac:(lia)) as D.
  apply andb_true_intro. split; [|lia].
  apply Zeq_bool_true. rewrite D. unfold SpecFloat.fexp, SpecFloat.emin. lia.
Qed.
Lemma subnormal_valid s m : Zpos m < 2 ^ 52 -> valid (S754_finite s m (-1074)) = true.
Proof.
  intros M. unfold valid, valid_binary, SpecFloat.bounded, SpecFloat.canonical_mantissa.
  apply andb_true_intro. split; [|reflexivity].
  apply Zeq_bool_true. unfold SpecFloat.fexp, SpecFloat.emin.
  assert (Zpos (digits2_pos m) <= 52).
  { rewrite Zpos_digits2_pos. apply Zdigits_le_Zpower. change (radix_val radix2) with 2.
    rewrite Z.abs_eq by lia. exact M. }
  lia.
Qed.

Lemma pattern_parts w : 0 <= w < 2 ^ 32 ->
  (2 ^ 63 <=? 2 ^ 32 * (4 * (w / 4))) = rk_negative w /\
  2 ^ 32 * (4 * (w / 4)) / 2 ^ 52 mod 2 ^ 11 = rk_exponent w /\
  2 ^ 32 * (4 * (w / 4)) mod 2 ^ 52 = 2 ^ 32 * rk_mantissa w /\ 0 <= rk_mantissa w < 2 ^ 20.
Proof.
  intro H. unfold rk_negative, rk_exponent, rk_mantissa. rewrite odd_mod.
  change (2 ^ 63) with (2 ^ 32 * 2 ^ 31). change (2 ^ 52) with (2 ^ 32 * 2 ^ 20).
  rewrite Zdiv_mult_cancel_l by lia. rewrite Zmult_mod_distr_l.
  split; [lia|]. split; [lia|]. split; lia.
Qed.

Lemma bpow_split a b : bpow radix2 (a + b) = (bpow radix2 a * bpow radix2 b)%R.
Proof. apply bpow_plus. Qed.

Lemma rk_double w : 0 <= w < 2 ^ 32 -> integral w = false -> forall x, rk_number w x ->
  let d := double_of_bits (2 ^ 32 * (4 * (w / 4))) in
  valid d = true /\ finite d = true /\ fval d = x.
Proof.
  intros H NI x X. cbv zeta. unfold double_of_bits. cbv zeta.
  destruct (pattern_parts w H) as (P1 & P2 & P3 & P4). rewrite P1, P2, P3. clear P1 P2 P3.
  destruct X as [n I _|_ E|_ E]; [congruence| |].
  - replace (rk_exponent w =? 2047) with false by lia. replace (rk_exponent w =? 0) with false by lia.
    destruct (2 ^ 52 + 2 ^ 32 * rk_mantissa w) as [|m|m] eqn:M; [lia| |lia].
    split; [apply normal_valid; lia|]. split; [reflexivity|].
    rewrite fval_finite. rewrite <- M.
    replace (IZR (2 ^ 52 + 2 ^ 32 * rk_mantissa w) * bpow radix2 (rk_exponent w - 1075))%R
      with ((1 + IZR (rk_mantissa w) / IZR (2 ^ 20)) * bpow radix2 (rk_exponent w - 1023))%R.
    + unfold signed. destruct (rk_negative w); ring.
    + replace (rk_exponent w - 1023) with (52 + (rk_exponent w - 1075)) by lia. rewrite bpow_split.
      rewrite <- (IZR_2pow 52) by lia. rewrite plus_IZR, mult_IZR.
      change (2 ^ 52) with (2 ^ 32 * 2 ^ 20). rewrite mult_IZR. field. apply IZR_neq. lia.
  - rewrite E. cbn [Z.eqb].
    destruct (2 ^ 32 * rk_mantissa w) as [|m|m] eqn:M; [| |lia].
    + assert (rk_mantissa w = 0) as -> by lia. split; [reflexivity|]. split; [reflexivity|].
      unfold fval, SF2R, signed. destruct (rk_negative w); unfold Rdiv; ring.
    + split; [apply subnormal_valid; lia|]. split; [reflexivity|]. rewrite fval_finite. rewrite <- M.
      replace (IZR (2 ^ 32 * rk_mantissa w) * bpow radix2 (-1074))%R
        with (IZR (rk_mantissa w) / IZR (2 ^ 20) * bpow radix2 (-1022))%R.
      * unfold signed. destruct (rk_negative w); ring.
      * replace (-1022) with (52 + -1074) by lia. rewrite bpow_split.
        rewrite <- (IZR_2pow 52) by lia. rewrite mult_IZR.
        change (2 ^ 52) with (2 ^ 32 * 2 ^ 20). rewrite mult_IZR. field. apply IZR_neq. lia.
Qed.

Lemma hundredth d : valid d = true -> finite d = true ->
  valid (fdiv d (float_of_Z 100)) = true /\ finite (fdiv d (float_of_Z 100)) = true /\
  fval (fdiv d (float_of_Z 100)) = rnd (fval d / 100)%R.
Proof.
  intros V F. destruct (float_of_Z_exact 100) as (V1 & F1 & E1); [lia|].
  rewrite <- E1. apply fdiv_R; try assumption.
  - rewrite E1. lra.
  - rewrite E1. unfold in_range.
    apply Rle_lt_trans with (Rabs (fval d)); [|apply fval_lt_emax; exact V].
    apply abs_round_le_generic; auto with typeclass_instances.
    + apply generic_format_abs. apply fval_format. exact V.
    + unfold Rdiv. rewrite Rabs_mult. rewrite <- (Rmult_1_r (Rabs (fval d))) at 2.
      apply Rmult_le_compat_l; [apply Rabs_pos|]. rewrite Rabs_pos_eq; lra.
Qed.

Lemma rk_signed w n : 0 <= w < 2 ^ 32 -> rk_integer w n ->
  Z.shiftr (if 2 * w <? 2 ^ 32 then w else w - 2 ^ 32) 2 = n.
Proof. intros H [A B]. rewrite Z.shiftr_div_pow2 by lia. change (2 ^ 2) with 4. destruct (Z.ltb_spec (2 * w) (2 ^ 32)); lia. Qed.

Lemma C50_number_proof :
forall b0 b1 b2 b3 x, (b0 < 256)%N -> (b1 < 256)%N -> (b2 < 256)%N -> (b3 < 256)%N ->
  rk_number (word b0 b1 b2 b3) x ->
  exists d, unpack_RK [b0; b1; b2; b3] = Ok d /\ valid d = true /\ finite d = true /\
    fval d = if hundredths (word b0 b1 b2 b3) then rnd (x / 100)%R else x.
Proof.
  intros b0 b1 b2 b3 x H0 H1 H2 H3 X.
  destruct (byte_flags b0 H0) as (F1 & F2 & _). destruct (word_flags b0 b1 b2 b3) as [W1 W2].
  destruct (word_bits b0 b1 b2 b3 H0 H1 H2 H3) as (R & L1 & L2).
  unfold unpack_RK. rewrite F1, F2, W1, W2. cbn [app firstn].
  remember (word b0 b1 b2 b3) as w eqn:EW. destruct (integral w) eqn:I.
  - unfold unpack_i. cbn [length Nat.eqb bind]. cbv zeta.
    unfold le_signed. rewrite L1. cbn [length]. change (2 ^ (8 * Z.of_nat 4)) with (2 ^ 32). cbv zeta.
    destruct X as [n _ N|Y _|Y _]; try congruence.
    rewrite (rk_signed w n R N). destruct N as [N _].
    destruct (float_of_Z_exact n) as (V & F & E); [lia|].
    destruct (hundredths w).
    + destruct (hundredth _ V F) as (V2 & F2' & E2). rewrite E in E2. eexists. split; [reflexivity|]. auto.
    + eexists. split; [reflexivity|]. auto.
  - unfold unpack_d. cbn [length Nat.eqb bind]. rewrite L2.
    destruct (rk_double w R I x X) as (V & F & E).
    destruct (hundredths w).
    + destruct (hundredth _ V F) as (V2 & F2' & E2). rewrite E in E2. eexists. split; [reflexivity|]. auto.
    + eexists. split; [reflexivity|]. auto.
Qed.

Lemma unpack_double b0 b1 b2 b3 : (b0 < 256)%N -> (b1 < 256)%N -> (b2 < 256)%N -> (b3 < 256)%N ->
  let w := word b0 b1 b2 b3 in integral w = false ->
  let d := double_of_bits (2 ^ 32 * (4 * (w / 4))) in
  unpack_RK [b0; b1; b2; b3] = Ok (if hundredths w then fdiv d (float_of_Z 100) else d).
Proof.
  intros H0 H1 H2 H3 w I d.
  destruct (byte_flags b0 H0) as (F1 & F2 & _). destruct (word_flags b0 b1 b2 b3) as [W1 W2].
  destruct (word_bits b0 b1 b2 b3 H0 H1 H2 H3) as (R & L1 & L2).
  unfold unpack_RK. rewrite F1, F2, W1, W2. cbn [app firstn]. fold w. rewrite I.
  unfold unpack_d. cbn [length Nat.eqb bind]. rewrite L2. fold w. fold d. destruct (hundredths w); reflexivity.
Qed.

Lemma C50_special_proof :
forall b0 b1 b2 b3, (b0 < 256)%N -> (b1 < 256)%N -> (b2 < 256)%N -> (b3 < 256)%N ->
  let w := word b0 b1 b2 b3 in
  ((exists x, rk_number w x) \/ (integral w = false /\ rk_exponent w = 2047)) /\
  (integral w = false -> rk_exponent w = 2047 ->
     unpack_RK [b0; b1; b2; b3] = Ok (if rk_mantissa w =? 0 then S754_infinity (rk_negative w) else S754_nan)) /\
  (integral w = false -> rk_exponent w = 0 -> rk_mantissa w = 0 ->
     unpack_RK [b0; b1; b2; b3] = Ok (S754_zero (rk_negative w))).
Proof.
  intros b0 b1 b2 b3 H0 H1 H2 H3 w.
  destruct (word_bits b0 b1 b2 b3 H0 H1 H2 H3) as (R & _ & _). fold w in R.
  split; [|split].
  - destruct (integral w) eqn:I.
    + left. exists (IZR (if w / 4 <? 2 ^ 29 then w / 4 else w / 4 - 2 ^ 30)).
      apply rk_int; [exact I|]. unfold rk_integer. destruct (Z.ltb_spec (w / 4) (2 ^ 29)); lia.
    + assert (E : 0 <= rk_exponent w < 2 ^ 11) by (apply Z.mod_pos_bound; lia).
      destruct (Z.eq_dec (rk_exponent w) 2047) as [Z1|Z1]; [right; auto|].
      destruct (Z.eq_dec (rk_exponent w) 0) as [Z2|Z2].
      * left. eexists. apply rk_subnormal; assumption.
      * left. eexists. apply rk_normal; [assumption|lia].
  - intros I E. rewrite unpack_double by assumption. fold w. f_equal.
    destruct (pattern_parts w R) as (P1 & P2 & P3 & P4).
    unfold double_of_bits. cbv zeta. rewrite P1, P2, P3, E. cbn [Z.eqb Pos.eqb].
    replace (2 ^ 32 * rk_mantissa w =? 0) with (rk_mantissa w =? 0) by lia.
    destruct (rk_mantissa w =? 0), (hundredths w); try reflexivity.
    destruct (rk_negative w); vm_compute; reflexivity.
  - intros I E M. rewrite unpack_double by assumption. fold w. f_equal.
    destruct (pattern_parts w R) as (P1 & P2 & P3 & P4).
    unfold double_of_bits. cbv zeta. rewrite P1, P2, P3, E, M. cbn [Z.eqb Z.mul].
    destruct (hundredths w); [|reflexivity]. destruct (rk_negative w); vm_compute; reflexivity.
Qed.

Lemma C50_integers_proof :
forall n, - 2 ^ 29 <= n < 2 ^ 29 -> forall h : bool,
  exists b0 b1 b2 b3 d, (b0 < 256)%N /\ (b1 < 256)%N /\ (b2 < 256)%N /\ (b3 < 256)%N /\
    unpack_RK [b0; b1; b2; b3] = Ok d /\ finite d = true /\
    fval d = if h then rnd (IZR n / 100)%R else IZR n.
Proof.
  intros n H h.
  set (w := 4 * (n mod 2 ^ 30) + 2 + (if h then 1 else 0)).
  assert (R : 0 <= w < 2 ^ 32) by (unfold w; destruct h; lia).
  set (b := fun k => Z.to_N (w / 2 ^ (8 * k) mod 256)).
  assert (B : forall k, (b k < 256)%N) by (intro k; unfold b; pose proof (Z.mod_pos_bound (w / 2 ^ (8 * k)) 256); lia).
  assert (W : word (b 0) (b 1) (b 2) (b 3) = w).
  { unfold word, b. rewrite !Z2N.id by (apply Z.mod_pos_bound; lia).
    change (2 ^ (8 * 0)) with 1. change (2 ^ (8 * 1)) with 256. change (2 ^ (8 * 2)) with 65536.
    change (2 ^ (8 * 3)) with 16777216. clearbody w. lia. }
  assert (N : rk_number w (IZR n)).
  { apply rk_int.
    - unfold integral. rewrite odd_mod. unfold w. destruct h; lia.
    - unfold rk_integer. split; [exact H|]. unfold w. destruct h; lia. }
  rewrite <- W in N. destruct (C50_number_proof (b 0) (b 1) (b 2) (b 3) (IZR n) (B 0) (B 1) (B 2) (B 3) N) as (d & E & V & F & X).
  exists (b 0), (b 1), (b 2), (b 3), d. repeat (split; [apply B|]). split; [exact E|]. split; [exact F|].
  rewrite W in X. assert (HH : hundredths w = h) by (unfold hundredths; rewrite odd_mod; unfold w; destruct h; lia).
  rewrite HH in X. exact X.
Qed.

Lemma C50_short_proof :
forall b, (length b < 4)%nat -> unpack_RK b = Err (match b with [] => IndexError | _ => StructError end).
Proof.
  intros b H. destruct b as [|c b]; [reflexivity|]. unfold unpack_RK.
  destruct (negb (N.land c 2 =? 0)%N).
  - unfold unpack_i. replace (Nat.eqb (length (c :: b)) 4) with false by (symmetry; apply Nat.eqb_neq; lia). reflexivity.
  - unfold unpack_d. replace (Nat.eqb _ 8) with false; [reflexivity|]. symmetry. apply Nat.eqb_neq.
    cbn [app length]. cbn [length] in H. rewrite firstn_length. lia.
Qed.

