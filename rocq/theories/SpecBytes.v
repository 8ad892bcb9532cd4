(** * Numbers as bytes *)

From Coq Require Import ZArith.
From Verif Require Import PyBase PyFloat SpecDbf.
Open Scope Z_scope.

Definition size (b : str) : Z := Z.of_nat (length b).
Definition word16 (z : Z) : Prop := 0 <= z < 2 ^ 16.

(** IEEE 754: sign, 11 bits of exponent, 52 bits of mantissa. *)
Definition is_double (f : float) : Prop :=
  match f with
  | S754_finite _ m e => (Zpos m < 2 ^ 52 /\ e = -1074) \/ (2 ^ 52 <= Zpos m < 2 ^ 53 /\ -1074 <= e <= 971)
  | _ => True
  end.
Definition sign_bit (s : bool) : Z := if s then 2 ^ 63 else 0.
Definition double_bits (f : float) : Z :=
  match f with
  | S754_zero s => sign_bit s
  | S754_infinity s => sign_bit s + 2047 * 2 ^ 52
  | S754_nan => 2047 * 2 ^ 52 + 2 ^ 51
  | S754_finite s m e =>
      sign_bit s + if Zpos m <? 2 ^ 52 then Zpos m else (e + 1075) * 2 ^ 52 + (Zpos m - 2 ^ 52)
  end.
Definition double_bytes (f : float) : str := le_bytes 8 (double_bits f).
