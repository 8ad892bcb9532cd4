(** * What an RK word stands for

    A word of 32 bits: bit 0 means hundredths, bit 1 an integer. The other 30
    bits are a signed integer, or sign, exponent and the first 18 bits of the
    mantissa of a double. *)

From Coq Require Import ZArith Reals.
From Flocq Require Import Core.
Open Scope Z_scope.

(** The word of four bytes, low byte first. *)
Definition word (b0 b1 b2 b3 : N) : Z :=
  Z.of_N b0 + 2 ^ 8 * Z.of_N b1 + 2 ^ 16 * Z.of_N b2 + 2 ^ 24 * Z.of_N b3.

Definition hundredths (w : Z) : bool := Z.odd w.
Definition integral (w : Z) : bool := Z.odd (w / 2).

(** The signed integer of the upper 30 bits. *)
Definition rk_integer (w n : Z) : Prop := - 2 ^ 29 <= n < 2 ^ 29 /\ (n - w / 4) mod 2 ^ 30 = 0.

(** Sign, exponent and mantissa (20 bits, the last two 0). *)
Definition rk_negative (w : Z) : bool := Z.odd (w / 2 ^ 31).
Definition rk_exponent (w : Z) : Z := w / 2 ^ 20 mod 2 ^ 11.
Definition rk_mantissa (w : Z) : Z := 4 * (w / 4 mod 2 ^ 18).

Definition signed (neg : bool) (x : R) : R := if neg then Ropp x else x.

(** The number before the division by 100. *)
Inductive rk_number (w : Z) : R -> Prop :=
| rk_int : forall n, integral w = true -> rk_integer w n -> rk_number w (IZR n)
| rk_normal : integral w = false -> 1 <= rk_exponent w <= 2046 ->
    rk_number w (signed (rk_negative w)
      ((1 + IZR (rk_mantissa w) / IZR (2 ^ 20)) * bpow radix2 (rk_exponent w - 1023))%R)
| rk_subnormal : integral w = false -> rk_exponent w = 0 ->
    rk_number w (signed (rk_negative w)
      (IZR (rk_mantissa w) / IZR (2 ^ 20) * bpow radix2 (-1022))%R).
