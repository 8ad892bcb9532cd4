(** * The doubles of the model as real numbers

    The operations of [PyFloat] are those of Coq.Floats.SpecFloat; here they are
    related to exact real arithmetic followed by one rounding to nearest even,
    using Flocq. Nothing here models code of /repo. *)

From Coq Require Import ZArith Reals Lia Lra Psatz.
From Verif Require Import PyBase PyFloat.
From Flocq Require Import Core Round Relative Sterbenz BinarySingleNaN.
Open Scope R_scope.
Local Notation float := spec_float.

(** A value of a double as it exists in memory: the mantissa and exponent are
    canonical. Every float of a running program satisfies it. *)
Definition valid (x : float) : bool := valid_binary 53 1024 x.
(** Neither infinite nor nan. *)
Definition finite (x : float) : bool := is_finite_SF x.
(** The real number a finite double stands for. *)
Definition fval (x : float) : R := SF2R radix2 x.

#[global] Instance Hprec : Prec_gt_0 53. Proof. reflexivity. Qed.
#[global] Instance Hmax : Prec_lt_emax 53 1024. Proof. reflexivity. Qed.

Notation fexp64 := (SpecFloat.fexp 53 1024).
#[global] Instance fexp64_valid : Valid_exp fexp64 := fexp_correct 53 1024 Hprec.
#[global] Instance fexp64_mono : Monotone_exp fexp64 := fexp_monotone 53 1024.
(** Round to nearest even in binary64. *)
Notation rnd := (round radix2 fexp64 ZnearestE).

Lemma round_nearest_even_equiv s m l :
  round_nearest_even m l = choice_mode mode_NE s m l.
Proof.
  destruct l as [|c]; [reflexivity|]. destruct c; try reflexivity.
  simpl. unfold Round.cond_incr. now case Z.even.
Qed.

Lemma binary_round_aux_equiv sx mx ex lx :
  SpecFloat.binary_round_aux 53 1024 sx mx ex lx
  = binary_round_aux 53 1024 mode_NE sx mx ex lx.
Proof.
  unfold SpecFloat.binary_round_aux, binary_round_aux.
  set (mrse' := shr_fexp _ _ _).
  case mrse'; intros mrs' e'; simpl.
  now rewrite (round_nearest_even_equiv sx).
Qed.

Lemma binary_round_equiv s m e :
  SpecFloat.binary_round 53 1024 s m e = binary_round 53 1024 mode_NE s m e.
Proof.
  unfold SpecFloat.binary_round, binary_round, shl_align_fexp.
  set (mez := shl_align _ _ _); case mez as [mz ez].
  apply binary_round_aux_equiv.
Qed.

Lemma binary_normalize_equiv m e szero :
  SpecFloat.binary_normalize 53 1024 m e szero
  = B2SF (binary_normalize 53 1024 Hprec Hmax mode_NE m e szero).
Proof.
  case m as [ | p | p].
  - now simpl.
  - simpl; rewrite B2SF_SF2B; apply binary_round_equiv.
  - simpl; rewrite B2SF_SF2B; apply binary_round_equiv.
Qed.

Lemma valid_B2SF (b : binary_float 53 1024) : valid (B2SF b) = true.
Proof. apply valid_binary_B2SF. Qed.
Lemma fval_B2SF (b : binary_float 53 1024) : fval (B2SF b) = B2R b.
Proof. apply SF2R_B2SF. Qed.
Lemma finite_B2SF (b : binary_float 53 1024) : finite (B2SF b) = is_finite b.
Proof. apply is_finite_SF_B2SF. Qed.

Lemma valid_inv (x : float) : valid x = true -> exists b : binary_float 53 1024, x = B2SF b.
Proof.
  intro H. exists (SF2B x H). symmetry. apply B2SF_SF2B.
Qed.

Lemma mul_equiv (a b : binary_float 53 1024) : fmul (B2SF a) (B2SF b) = B2SF (Bmult mode_NE a b).
Proof.
  unfold fmul.
  case a as [sx|sx| |sx mx ex Bx]; case b as [sy|sy| |sy my ey By]; [reflexivity.. | ].
  simpl. rewrite B2SF_SF2B. apply binary_round_aux_equiv.
Qed.

Lemma add_equiv (a b : binary_float 53 1024) : fadd (B2SF a) (B2SF b) = B2SF (Bplus mode_NE a b).
Proof.
  unfold fadd.
  case a as [sx|sx| |sx mx ex Bx]; case b as [sy|sy| |sy my ey By];
    [now (trivial || simpl; case Bool.eqb).. | ].
  apply binary_normalize_equiv.
Qed.

Lemma sub_equiv (a b : binary_float 53 1024) : fsub (B2SF a) (B2SF b) = B2SF (Bminus mode_NE a b).
Proof.
  unfold fsub.
  case a as [sx|sx| |sx mx ex Bx]; case b as [sy|sy| |sy my ey By];
    [now (trivial || simpl; case Bool.eqb).. | ].
  simpl. unfold Zminus. rewrite <- cond_Zopp_negb. apply binary_normalize_equiv.
Qed.

Lemma div_equiv (a b : binary_float 53 1024) : fdiv (B2SF a) (B2SF b) = B2SF (Bdiv mode_NE a b).
Proof.
  unfold fdiv.
  case a as [sx|sx| |sx mx ex Bx]; case b as [sy|sy| |sy my ey By];
    [now (trivial || simpl; case Bool.eqb).. | ].
  simpl. rewrite B2SF_SF2B.
  set (melz := SFdiv_core_binary _ _ _ _ _ _).
  case melz as [[mz ez] lz]. apply binary_round_aux_equiv.
Qed.

Lemma IZR_2pow e : (0 <= e)%Z -> IZR (2 ^ e) = bpow radix2 e.
Proof. apply (IZR_Zpower radix2). Qed.

(** ** One rounding *)

Definition in_range (r : R) : Prop := Rabs (rnd r) < bpow radix2 1024.

Lemma fmul_R x y : valid x = true -> valid y = true -> finite x = true -> finite y = true ->
  in_range (fval x * fval y) ->
  valid (fmul x y) = true /\ finite (fmul x y) = true /\ fval (fmul x y) = rnd (fval x * fval y).
Proof.
  intros Vx Vy Fx Fy R. destruct (valid_inv _ Vx) as [a ->]. destruct (valid_inv _ Vy) as [b ->].
  rewrite mul_equiv, valid_B2SF, finite_B2SF, fval_B2SF.
  rewrite finite_B2SF in Fx, Fy. unfold in_range in R. rewrite !fval_B2SF in *.
  generalize (Bmult_correct 53 1024 Hprec Hmax mode_NE a b).
  change (round_mode mode_NE) with ZnearestE. rewrite Rlt_bool_true by exact R.
  intros (H1 & H2 & _). rewrite H2, Fx, Fy. auto.
Qed.

Lemma fadd_R x y : valid x = true -> valid y = true -> finite x = true -> finite y = true ->
  in_range (fval x + fval y) ->
  valid (fadd x y) = true /\ finite (fadd x y) = true /\ fval (fadd x y) = rnd (fval x + fval y).
Proof.
  intros Vx Vy Fx Fy R. destruct (valid_inv _ Vx) as [a ->]. destruct (valid_inv _ Vy) as [b ->].
  rewrite add_equiv, valid_B2SF, finite_B2SF, fval_B2SF.
  rewrite finite_B2SF in Fx, Fy. unfold in_range in R. rewrite !fval_B2SF in *.
  generalize (Bplus_correct 53 1024 Hprec Hmax mode_NE a b Fx Fy).
  change (round_mode mode_NE) with ZnearestE. rewrite Rlt_bool_true by exact R.
  intros (H1 & H2 & _). rewrite H2. auto.
Qed.

Lemma fsub_R x y : valid x = true -> valid y = true -> finite x = true -> finite y = true ->
  in_range (fval x - fval y) ->
  valid (fsub x y) = true /\ finite (fsub x y) = true /\ fval (fsub x y) = rnd (fval x - fval y).
Proof.
  intros Vx Vy Fx Fy R. destruct (valid_inv _ Vx) as [a ->]. destruct (valid_inv _ Vy) as [b ->].
  rewrite sub_equiv, valid_B2SF, finite_B2SF, fval_B2SF.
  rewrite finite_B2SF in Fx, Fy. unfold in_range in R. rewrite !fval_B2SF in *.
  generalize (Bminus_correct 53 1024 Hprec Hmax mode_NE a b Fx Fy).
  change (round_mode mode_NE) with ZnearestE. rewrite Rlt_bool_true by exact R.
  intros (H1 & H2 & _). rewrite H2. auto.
Qed.

Lemma fdiv_R x y : valid x = true -> valid y = true -> finite x = true ->
  fval y <> 0 -> in_range (fval x / fval y) ->
  valid (fdiv x y) = true /\ finite (fdiv x y) = true /\ fval (fdiv x y) = rnd (fval x / fval y).
Proof.
  intros Vx Vy Fx Y R. destruct (valid_inv _ Vx) as [a ->]. destruct (valid_inv _ Vy) as [b ->].
  rewrite div_equiv, valid_B2SF, finite_B2SF, fval_B2SF.
  rewrite finite_B2SF in Fx. unfold in_range in R. rewrite !fval_B2SF in *.
  generalize (Bdiv_correct 53 1024 Hprec Hmax mode_NE a b Y).
  change (round_mode mode_NE) with ZnearestE. rewrite Rlt_bool_true by exact R.
  intros (H1 & H2 & _). rewrite H2, Fx. auto.
Qed.

(** Results of one rounding below 2^k are within half a unit of 2^k. *)
Lemma rnd_err v k : (-1000 <= k)%Z -> Rabs v <= bpow radix2 k -> Rabs (rnd v - v) <= bpow radix2 (k - 53).
Proof.
  intros K H.
  eapply Rle_trans. { apply error_le_half_ulp; auto with typeclass_instances. }
  assert (E : ulp radix2 fexp64 v <= ulp radix2 fexp64 (bpow radix2 k)).
  { apply ulp_le; auto with typeclass_instances. rewrite (Rabs_pos_eq (bpow radix2 k)); [exact H|apply bpow_ge_0]. }
  rewrite ulp_bpow in E.
  replace (fexp64 (k + 1)) with (k - 52)%Z in E.
  2:{ unfold SpecFloat.fexp, SpecFloat.emin. lia. }
  replace (k - 52)%Z with ((k - 53) + 1)%Z in E by lia.
  rewrite bpow_plus in E. change (bpow radix2 1) with 2 in E. lra.
Qed.

Lemma rnd_le_pow v k : (-1000 <= k <= 1000)%Z -> Rabs v <= bpow radix2 k -> Rabs (rnd v) <= bpow radix2 k.
Proof.
  intros K H. rewrite <- round_NE_abs by auto with typeclass_instances.
  apply round_le_generic; auto with typeclass_instances.
  apply generic_format_bpow. unfold SpecFloat.fexp, SpecFloat.emin. lia.
Qed.

Lemma in_range_pow v k : (-1000 <= k <= 1000)%Z -> Rabs v <= bpow radix2 k -> in_range v.
Proof.
  intros K H. unfold in_range. eapply Rle_lt_trans. { apply (rnd_le_pow v k); assumption. }
  apply bpow_lt. lia.
Qed.

(** Integers up to 2^53 are exact. *)
Lemma format_Z z : (Z.abs z <= 2 ^ 53)%Z -> generic_format radix2 fexp64 (IZR z).
Proof.
  intro H. destruct (Z.eq_dec (Z.abs z) (2 ^ 53)) as [E|E].
  - assert (P : generic_format radix2 fexp64 (bpow radix2 53)).
    { apply generic_format_bpow. unfold SpecFloat.fexp, SpecFloat.emin. lia. }
    assert (Q : bpow radix2 53 = IZR (2 ^ 53)) by (rewrite <- IZR_2pow by lia; reflexivity).
    rewrite Q in P. destruct (Z.abs_eq_or_opp z) as [A|A].
    + replace z with (2 ^ 53)%Z by lia. exact P.
    + replace z with (- 2 ^ 53)%Z by lia. rewrite opp_IZR. apply generic_format_opp. exact P.
  - apply (generic_format_FLT radix2 (SpecFloat.emin 53 1024) 53).
    exists (Float radix2 z 0).
    + unfold F2R. simpl. ring.
    + simpl. change (Z.pow_pos 2 53) with (2 ^ 53)%Z. lia.
    + simpl. unfold SpecFloat.emin. lia.
Qed.

Lemma rnd_Z z : (Z.abs z <= 2 ^ 53)%Z -> rnd (IZR z) = IZR z.
Proof. intro H. apply round_generic; auto with typeclass_instances. apply format_Z. exact H. Qed.

Lemma float_of_Z_R z : in_range (IZR z) ->
  valid (float_of_Z z) = true /\ finite (float_of_Z z) = true /\ fval (float_of_Z z) = rnd (IZR z).
Proof.
  intro R. unfold float_of_Z. rewrite binary_normalize_equiv, valid_B2SF, finite_B2SF, fval_B2SF.
  generalize (binary_normalize_correct 53 1024 Hprec Hmax mode_NE z 0 false).
  cbv zeta. change (round_mode mode_NE) with ZnearestE.
  replace (F2R (Float radix2 z 0)) with (IZR z) by (unfold F2R; simpl; ring).
  rewrite Rlt_bool_true by exact R. tauto.
Qed.

Lemma float_of_Z_exact z : (Z.abs z <= 2 ^ 53)%Z ->
  valid (float_of_Z z) = true /\ finite (float_of_Z z) = true /\ fval (float_of_Z z) = IZR z.
Proof.
  intro H. assert (R : in_range (IZR z)).
  { unfold in_range. rewrite rnd_Z by exact H. rewrite <- abs_IZR.
    eapply Rle_lt_trans. { apply IZR_le. exact H. }
    rewrite (IZR_2pow 53) by lia. apply bpow_lt. lia. }
  destruct (float_of_Z_R z R) as (A & B & C). rewrite (rnd_Z z H) in C. auto.
Qed.

(** ** Truncation and rounding to integers *)

Lemma fval_finite s m e : fval (S754_finite s m e) = (if s then -1 else 1) * (IZR (Zpos m) * bpow radix2 e).
Proof.
  unfold fval, SF2R, F2R. cbn [Fnum Fexp]. destruct s; cbn [cond_Zopp].
  - change (Z.neg m) with (- Z.pos m)%Z. rewrite opp_IZR. ring.
  - ring.
Qed.

Lemma bpow_neg_div m e : (e < 0)%Z -> IZR (Zpos m) * bpow radix2 e = IZR (Zpos m) / IZR (2 ^ (- e)).
Proof.
  intro H. unfold Rdiv. f_equal. rewrite IZR_2pow by lia.
  rewrite <- bpow_opp. f_equal. lia.
Qed.

Lemma floor_div (a b : Z) : (0 < b)%Z -> Zfloor (IZR a / IZR b) = (a / b)%Z.
Proof. intro H. apply Zfloor_div. lia. Qed.

Lemma int_of_float_R x : finite x = true -> int_of_float x = Ok (Ztrunc (fval x)).
Proof.
  destruct x as [s|s| |s m e]; intro F; try discriminate; cbn [int_of_float].
  - unfold fval. simpl. now rewrite (Ztrunc_IZR 0).
  - f_equal. rewrite fval_finite.
    set (a := (if 0 <=? e then Z.pos m * 2 ^ e else Z.pos m / 2 ^ (- e))%Z).
    assert (A : Ztrunc (IZR (Z.pos m) * bpow radix2 e) = a).
    { unfold a. destruct (0 <=? e)%Z eqn:E.
      - apply Z.leb_le in E. rewrite <- IZR_2pow by exact E. rewrite <- mult_IZR. apply Ztrunc_IZR.
      - apply Z.leb_gt in E. rewrite bpow_neg_div by exact E.
        rewrite Ztrunc_floor. { apply floor_div. apply Z.pow_pos_nonneg; lia. }
        apply Rmult_le_pos. { apply IZR_le. lia. }
        apply Rlt_le, Rinv_0_lt_compat. apply IZR_lt. apply Z.pow_pos_nonneg; lia. }
    destruct s.
    + replace (-1 * (IZR (Z.pos m) * bpow radix2 e)) with (- (IZR (Z.pos m) * bpow radix2 e)) by ring.
      rewrite Ztrunc_opp, A. reflexivity.
    + rewrite Rmult_1_l. symmetry. exact A.
Qed.

Lemma round_float_R x : finite x = true -> round_float x = Ok (ZnearestE (fval x)).
Proof.
  destruct x as [s|s| |s m e]; intro F; try discriminate; cbn [round_float].
  - unfold fval. simpl. f_equal. symmetry. rewrite (Znearest_imp _ 0 0); [reflexivity|].
    rewrite Rminus_0_r, Rabs_R0. lra.
  - f_equal. rewrite fval_finite.
    set (a := (if 0 <=? e then _ else _)%Z).
    assert (A : ZnearestE (IZR (Z.pos m) * bpow radix2 e) = a).
    { unfold a. destruct (0 <=? e)%Z eqn:E.
      - apply Z.leb_le in E. rewrite <- IZR_2pow by exact E. rewrite <- mult_IZR.
        apply Znearest_imp. rewrite Rminus_diag_eq by reflexivity. rewrite Rabs_R0. lra.
      - apply Z.leb_gt in E. rewrite bpow_neg_div by exact E.
        set (d := (2 ^ (- e))%Z). assert (D : (0 < d)%Z) by (apply Z.pow_pos_nonneg; lia).
        pose proof (Z.div_mod (Z.pos m) d ltac:(lia)) as DM.
        pose proof (Z.mod_pos_bound (Z.pos m) d D) as MB.
        set (q := (Z.pos m / d)%Z) in *. set (r := (Z.pos m mod d)%Z) in *.
        assert (V : IZR (Z.pos m) / IZR d = IZR q + IZR r / IZR d).
        { rewrite DM, plus_IZR, mult_IZR. field. apply not_0_IZR. lia. }
        assert (Dp : 0 < IZR d) by (apply IZR_lt; exact D).
        assert (R0 : 0 <= IZR r / IZR d).
        { apply Rmult_le_pos; [apply IZR_le; lia|apply Rlt_le, Rinv_0_lt_compat, Dp]. }
        destruct (2 * r <? d)%Z eqn:E1; [|destruct (d <? 2 * r)%Z eqn:E2].
        + apply Znearest_imp. rewrite V. replace (IZR q + IZR r / IZR d - IZR q) with (IZR r / IZR d) by ring.
          rewrite Rabs_pos_eq by exact R0. apply Rmult_lt_reg_r with (IZR d); [exact Dp|].
          unfold Rdiv at 1. rewrite Rmult_assoc, Rinv_l, Rmult_1_r by lra.
          apply Z.ltb_lt in E1. apply IZR_lt in E1. rewrite mult_IZR in E1. lra.
        + apply Znearest_imp. rewrite V, plus_IZR.
          replace (IZR q + IZR r / IZR d - (IZR q + 1)) with (- (IZR (d - r) / IZR d)).
          2:{ rewrite minus_IZR. field. lra. }
          rewrite Rabs_Ropp, Rabs_pos_eq.
          2:{ apply Rmult_le_pos; [apply IZR_le; lia|apply Rlt_le, Rinv_0_lt_compat, Dp]. }
          apply Rmult_lt_reg_r with (IZR d); [exact Dp|].
          unfold Rdiv at 1. rewrite Rmult_assoc, Rinv_l, Rmult_1_r by lra.
          apply Z.ltb_lt in E2. apply IZR_lt in E2. rewrite mult_IZR in E2. rewrite minus_IZR. lra.
        + assert (T : (2 * r = d)%Z) by lia.
          assert (H : IZR r / IZR d = / 2).
          { rewrite <- T, mult_IZR. field. apply not_0_IZR. lia. }
          unfold Znearest. rewrite floor_div by exact D. fold q.
          rewrite V, H. replace (IZR q + / 2 - IZR q) with (/ 2) by ring.
          rewrite Rcompare_Eq by reflexivity.
          replace (IZR q + / 2) with (IZR (Z.pos m) / IZR d) by (rewrite V, H; reflexivity).
          rewrite Zceil_floor_neq.
          * rewrite floor_div by exact D. fold q. destruct (Z.even q); reflexivity.
          * rewrite floor_div by exact D. fold q. rewrite V, H. lra. }
    destruct s.
    + replace (-1 * (IZR (Z.pos m) * bpow radix2 e)) with (- (IZR (Z.pos m) * bpow radix2 e)) by ring.
      rewrite <- A. clear A.
      set (y := IZR (Z.pos m) * bpow radix2 e). clearbody y.
      rewrite Znearest_opp. f_equal. unfold Znearest.
      destruct (Rcompare (y - IZR (Zfloor y)) (/ 2)); try reflexivity.
      destruct (Z.even (Zfloor y)) eqn:Ev.
      all: rewrite ?Bool.negb_involutive; try reflexivity.
      all: replace (Z.even (- (Zfloor y + 1))) with (negb (Z.even (Zfloor y)));
        [rewrite Ev; reflexivity|].
      all: rewrite Z.even_opp, Z.even_add; simpl; rewrite Ev; reflexivity.
    + rewrite Rmult_1_l. symmetry. exact A.
Qed.

(** ** Comparison *)

Lemma fltb_R x y : valid x = true -> valid y = true -> finite x = true -> finite y = true ->
  fltb x y = Rlt_bool (fval x) (fval y).
Proof.
  intros Vx Vy Fx Fy. destruct (valid_inv _ Vx) as [a ->]. destruct (valid_inv _ Vy) as [b ->].
  rewrite finite_B2SF in Fx, Fy. rewrite !fval_B2SF.
  rewrite <- (Bltb_correct 53 1024 a b Fx Fy). reflexivity.
Qed.

Lemma fleb_R x y : valid x = true -> valid y = true -> finite x = true -> finite y = true ->
  fleb x y = Rle_bool (fval x) (fval y).
Proof.
  intros Vx Vy Fx Fy. destruct (valid_inv _ Vx) as [a ->]. destruct (valid_inv _ Vy) as [b ->].
  rewrite finite_B2SF in Fx, Fy. rewrite !fval_B2SF.
  rewrite <- (Bleb_correct 53 1024 a b Fx Fy). reflexivity.
Qed.

Lemma feqb_R x y : valid x = true -> valid y = true -> finite x = true -> finite y = true ->
  feqb x y = Req_bool (fval x) (fval y).
Proof.
  intros Vx Vy Fx Fy. destruct (valid_inv _ Vx) as [a ->]. destruct (valid_inv _ Vy) as [b ->].
  rewrite finite_B2SF in Fx, Fy. rewrite !fval_B2SF.
  rewrite <- (Beqb_correct 53 1024 a b Fx Fy). reflexivity.
Qed.

Lemma fval_format x : valid x = true -> generic_format radix2 fexp64 (fval x).
Proof.
  intro V. destruct (valid_inv _ V) as [a ->]. rewrite fval_B2SF. apply generic_format_B2R.
Qed.

(** Two doubles with the same non-zero real value are the same double. *)
Lemma fval_inj x y : valid x = true -> valid y = true -> finite x = true -> finite y = true ->
  fval x <> 0 -> fval x = fval y -> x = y.
Proof.
  intros Vx Vy Fx Fy N E. destruct (valid_inv _ Vx) as [a ->]. destruct (valid_inv _ Vy) as [b ->].
  rewrite !fval_B2SF in *. f_equal.
  apply B2R_inj.
  - destruct a; simpl in *; try congruence; reflexivity.
  - rewrite E in N. destruct b; simpl in *; try congruence; reflexivity.
  - exact E.
Qed.

Lemma fval_lt_emax x : valid x = true -> Rabs (fval x) < bpow radix2 1024.
Proof.
  intro V. destruct (valid_inv _ V) as [a ->]. rewrite fval_B2SF. apply abs_B2R_lt_emax.
Qed.

(** int(x) is representable. *)
Lemma trunc_format x : valid x = true -> 0 <= fval x ->
  generic_format radix2 fexp64 (IZR (Ztrunc (fval x))).
Proof.
  intros V P. pose proof (fval_format x V) as G.
  destruct (Rle_or_lt (fval x) (bpow radix2 53)) as [S|S].
  - assert (N : (0 <= Ztrunc (fval x))%Z).
    { rewrite Ztrunc_floor by exact P. apply Zfloor_lub. exact P. }
    apply format_Z. rewrite Z.abs_eq by exact N. rewrite Ztrunc_floor by exact P.
    apply le_IZR. eapply Rle_trans; [apply Zfloor_lb|]. eapply Rle_trans; [exact S|].
    rewrite <- IZR_2pow by lia. apply Rle_refl.
  - assert (Hx : fval x = IZR (Ztrunc (fval x))).
    { unfold generic_format in G.
      set (c := cexp radix2 fexp64 (fval x)) in *.
      assert (C : (0 <= c)%Z).
      { unfold c, cexp, SpecFloat.fexp. 
        assert (M : (53 < mag radix2 (fval x))%Z).
        { apply mag_gt_bpow. rewrite Rabs_pos_eq by exact P. apply Rlt_le, S. }
        unfold SpecFloat.emin. lia. }
      rewrite G at 2. unfold F2R. cbn [Fnum Fexp].
      rewrite <- (IZR_Zpower radix2) by exact C. rewrite <- mult_IZR, Ztrunc_IZR.
      rewrite mult_IZR, (IZR_Zpower radix2) by exact C. exact G. }
    rewrite <- Hx. exact G.
Qed.

(** x - int(x) is exact for x >= 0. *)
Lemma frac_exact x : valid x = true -> 0 <= fval x ->
  generic_format radix2 fexp64 (fval x - IZR (Ztrunc (fval x))).
Proof.
  intros V P.
  pose proof (fval_format x V) as G. pose proof (trunc_format x V P) as GI.
  rewrite Ztrunc_floor in * by exact P.
  pose proof (Zfloor_lb (fval x)) as L. pose proof (Zfloor_ub (fval x)) as U.
  assert (N : (0 <= Zfloor (fval x))%Z) by (apply Zfloor_lub; exact P).
  destruct (Z.eq_dec (Zfloor (fval x)) 0) as [E|E].
  { rewrite E, Rminus_0_r. exact G. }
  apply sterbenz; auto with typeclass_instances.
  assert (1 <= IZR (Zfloor (fval x))) by (apply IZR_le; lia). lra.
Qed.
