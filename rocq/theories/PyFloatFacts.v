(** * Facts about floats: integers up to 2^53 are represented exactly *)

From Coq Require Import ZifyBool ZifyNat ZifyN QArith.
From Verif Require Import PyBase PyFloat.
Open Scope Z_scope.

Lemma digits2_bounds : forall m, 2 ^ (Zpos (digits2_pos m) - 1) <= Zpos m < 2 ^ Zpos (digits2_pos m).
Proof.
  induction m; simpl digits2_pos.
  - rewrite Pos2Z.inj_succ.
    replace (Z.succ (Zpos (digits2_pos m)) - 1) with (Z.succ (Zpos (digits2_pos m) - 1)) by lia.
    rewrite !Z.pow_succ_r by lia. lia.
  - rewrite Pos2Z.inj_succ.
    replace (Z.succ (Zpos (digits2_pos m)) - 1) with (Z.succ (Zpos (digits2_pos m) - 1)) by lia.
    rewrite !Z.pow_succ_r by lia. lia.
  - simpl. lia.
Qed.

Lemma shift_pos_val : forall k m, Zpos (shift_pos k m) = Zpos m * 2 ^ Zpos k.
Proof. intros. rewrite shift_pos_correct. rewrite Z.mul_comm. f_equal. Qed.

Lemma digits2_shift : forall k m, Zpos (digits2_pos (shift_pos k m)) = Zpos (digits2_pos m) + Zpos k.
Proof.
  intros k m. unfold shift_pos. revert m.
  induction k using Pos.peano_ind; intros m.
  - simpl. lia.
  - rewrite Pos.iter_succ. simpl digits2_pos. rewrite Pos2Z.inj_succ, IHk. lia.
Qed.

Lemma binary_round_at : forall s m, Zpos m < 2 ^ 53 ->
  exists m' e', binary_round 53 1024 s m 0 = S754_finite s m' e' /\ e' = Zpos (digits2_pos m) - 53 /\ e' <= 0 /\
  Zpos m' = Zpos m * 2 ^ (- e').
Proof.
  intros s m Hm.
  assert (Hd : 1 <= Zpos (digits2_pos m) <= 53).
  { split; [lia|]. pose proof (digits2_bounds m) as [H _].
    destruct (Z_le_gt_dec (Zpos (digits2_pos m)) 53); auto.
    assert (2 ^ 53 <= 2 ^ (Zpos (digits2_pos m) - 1)) by (apply Z.pow_le_mono_r; lia). lia. }
  assert (Aux : forall m1 e1, Zpos (digits2_pos m1) + e1 = Zpos (digits2_pos m) -> Zpos (digits2_pos m1) = 53 ->
      binary_round_aux 53 1024 s (Zpos m1) e1 loc_Exact = S754_finite s m1 e1).
  { intros m1 e1 He H53. unfold binary_round_aux, shr_fexp. simpl Zdigits2. rewrite H53.
    assert (F : fexp 53 1024 (53 + e1) - e1 = 0).
    { unfold fexp, emin. lia. }
    rewrite F. cbn [shr shr_record_of_loc shr_m loc_of_shr_record round_nearest_even Zdigits2].
    rewrite H53, F. simpl.
    replace (e1 <=? 971) with true by lia. reflexivity. }
  unfold binary_round, shl_align.
  assert (F : fexp 53 1024 (Zpos (digits2_pos m) + 0) = Zpos (digits2_pos m) - 53).
  { unfold fexp, emin. lia. }
  rewrite F, Z.sub_0_r.
  destruct (Zpos (digits2_pos m) - 53) as [|q|q] eqn:Eq; [| lia |].
  - exists m, 0. rewrite Aux by lia. repeat split; lia.
  - exists (shift_pos q m), (Zneg q).
    pose proof (digits2_shift q m). rewrite Aux by lia.
    repeat split; try lia. rewrite shift_pos_val. reflexivity.
Qed.
Lemma binary_round_small : forall s m, Zpos m < 2 ^ 53 ->
  exists m' e', binary_round 53 1024 s m 0 = S754_finite s m' e' /\ e' <= 0 /\
  Zpos m' = Zpos m * 2 ^ (- e').
Proof. intros s m Hm. destruct (binary_round_at s m Hm) as (m' & e' & A & _ & B). exists m', e'. split; [exact A|exact B]. Qed.
(** They compare as they do as integers, and give them back. *)
Lemma float_of_Z_compare a b : 0 <= a < 2 ^ 53 -> 0 <= b < 2 ^ 53 -> SFcompare (float_of_Z a) (float_of_Z b) = Some (a ?= b).
Proof.
  intros A B. unfold float_of_Z, binary_normalize. destruct a as [|a|a]; [| |lia]; destruct b as [|b|b]; try lia.
  - reflexivity.
  - destruct (binary_round_at false b) as (m & e & -> & _); [lia|]. reflexivity.
  - destruct (binary_round_at false a) as (m & e & -> & _); [lia|]. reflexivity.
  - destruct (binary_round_at false a) as (m & e & -> & E & N & M); [lia|].
    destruct (binary_round_at false b) as (m' & e' & -> & E' & N' & M'); [lia|].
    cbn [SFcompare]. pose proof (digits2_bounds a) as DA. pose proof (digits2_bounds b) as DB. f_equal.
    destruct (Z.compare_spec e e') as [Q|Q|Q].
    + subst e'. assert (P : 0 < 2 ^ (- e)) by (apply Z.pow_pos_nonneg; lia).
      change (Pos.compare_cont Eq m m') with (Zpos m ?= Zpos m'). rewrite M, M', Q.
      symmetry. destruct (Z.compare_spec (Zpos a) (Zpos b)) as [R|R|R].
      * rewrite R. symmetry. apply Z.compare_refl.
      * symmetry. apply Z.compare_lt_iff. rewrite <- Q. nia.
      * symmetry. apply Z.compare_gt_iff. rewrite <- Q. nia.
    + symmetry. apply Z.compare_lt_iff. assert (2 ^ Zpos (digits2_pos a) <= 2 ^ (Zpos (digits2_pos b) - 1)) by (apply Z.pow_le_mono_r; lia). lia.
    + symmetry. apply Z.compare_gt_iff. assert (2 ^ Zpos (digits2_pos b) <= 2 ^ (Zpos (digits2_pos a) - 1)) by (apply Z.pow_le_mono_r; lia). lia.
Qed.
Lemma int_of_float_of_Z a : 0 <= a < 2 ^ 53 -> int_of_float (float_of_Z a) = Ok a.
Proof.
  intros A. unfold float_of_Z, binary_normalize. destruct a as [|a|a]; [reflexivity| |lia].
  destruct (binary_round_at false a) as (m & e & -> & E & N & M); [lia|]. unfold int_of_float. cbv zeta.
  assert (P : 0 < 2 ^ (- e)) by (apply Z.pow_pos_nonneg; lia). destruct (0 <=? e) eqn:Q.
  - assert (e = 0) by lia. clear Q. subst e. rewrite H in *. rewrite M. cbn. f_equal. lia.
  - rewrite M, Z.div_mul by lia. reflexivity.
Qed.

(** Integers of magnitude at most 2^53 survive the conversion to float. *)
Lemma float_of_Z_exact : forall z, - 2 ^ 53 <= z <= 2 ^ 53 ->
  exists q, float_Q (float_of_Z z) = Some q /\ (q == inject_Z z)%Q.
Proof.
  intros z Hz.
  destruct (Z.eq_dec z (2 ^ 53)) as [->|H1].
  { eexists. split; [vm_compute; reflexivity|]. vm_compute. reflexivity. }
  destruct (Z.eq_dec z (- 2 ^ 53)) as [->|H2].
  { eexists. split; [vm_compute; reflexivity|]. vm_compute. reflexivity. }
  unfold float_of_Z, binary_normalize. destruct z as [|m|m].
  - exists 0%Q. split; reflexivity.
  - destruct (binary_round_small false m) as (m' & e' & -> & He & Hm); [lia|].
    cbn [float_Q]. eexists. split; [reflexivity|].
    destruct (0 <=? e') eqn:E.
    + assert (e' = 0) by lia. subst. change (2 ^ (- 0)) with 1 in Hm. rewrite Z.mul_1_r in Hm.
      injection Hm as ->. change (2 ^ 0) with 1. rewrite Z.mul_1_r. reflexivity.
    + unfold Qeq, inject_Z. cbn [Qnum Qden]. rewrite Z2Pos.id by (apply Z.pow_pos_nonneg; lia). lia.
  - destruct (binary_round_small true m) as (m' & e' & -> & He & Hm); [lia|].
    cbn [float_Q]. eexists. split; [reflexivity|].
    destruct (0 <=? e') eqn:E.
    + assert (e' = 0) by lia. subst. change (2 ^ (- 0)) with 1 in Hm. rewrite Z.mul_1_r in Hm.
      injection Hm as ->. change (2 ^ 0) with 1. rewrite Z.mul_1_r. reflexivity.
    + unfold Qeq, inject_Z. cbn [Qnum Qden]. rewrite Z2Pos.id by (apply Z.pow_pos_nonneg; lia). lia.
Qed.

(** Truncation: int(f) for a non-negative float is the largest integer not
    above it. *)
Lemma int_of_float_floor : forall f q z,
  float_Q f = Some q -> (0 <= q)%Q -> int_of_float f = Ok z ->
  (inject_Z z <= q)%Q /\ (q < inject_Z (z + 1))%Q /\ 0 <= z.
Proof.
  intros f q z Hq H0 Hz. destruct f as [s|s| |s m e]; try discriminate.
  - injection Hq as <-. injection Hz as <-. repeat split; try discriminate; lia.
  - unfold float_Q in Hq. unfold int_of_float in Hz. cbv zeta in *.
    destruct (0 <=? e) eqn:E.
    + assert (P : 0 < 2 ^ e) by (apply Z.pow_pos_nonneg; lia).
      destruct s.
      * assert (q = inject_Z (Zneg m * 2 ^ e)) as -> by congruence.
        exfalso. unfold Qle, inject_Z in H0. cbn [Qnum Qden] in H0. nia.
      * assert (q = inject_Z (Zpos m * 2 ^ e)) as -> by congruence.
        assert (z = Zpos m * 2 ^ e) as -> by congruence.
        assert (0 < Zpos m * 2 ^ e) by (apply Z.mul_pos_pos; lia).
        unfold Qle, Qlt, inject_Z. cbn [Qnum Qden].
        revert H. generalize (Zpos m * 2 ^ e). intros. repeat split; lia.
    + assert (P : 0 < 2 ^ (- e)) by (apply Z.pow_pos_nonneg; lia).
      destruct s.
      * assert (q = (Zneg m # Z.to_pos (2 ^ (- e)))) as -> by congruence.
        exfalso. unfold Qle in H0. cbn [Qnum Qden] in H0. lia.
      * assert (q = (Zpos m # Z.to_pos (2 ^ (- e)))) as -> by congruence.
        assert (z = Zpos m / 2 ^ (- e)) as -> by congruence.
        unfold Qle, Qlt, inject_Z. cbn [Qnum Qden]. rewrite Z2Pos.id by lia.
        pose proof (Z.div_mod (Zpos m) (2 ^ (- e)) ltac:(lia)).
        pose proof (Z.mod_pos_bound (Zpos m) (2 ^ (- e)) ltac:(lia)).
        assert (0 <= Zpos m / 2 ^ (- e)) by (apply Z.div_pos; lia).
        repeat split; nia.
Qed.
