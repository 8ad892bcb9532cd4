(** * RK numbers: the property theorems *)

From Coq Require Import ZifyBool ZifyNat ZifyN QArith.
From Verif Require Import PyBase PyBaseFacts PyFloat Dbf XlStruct SpecRk FloatReal RkThms.
Open Scope nat_scope.
From Coq Require Import Reals Lra.
From Flocq Require Import Core BinarySingleNaN.
Open Scope Z_scope.
Local Notation float := spec_float.

(** Every RK word with a finite number is read as that number exactly, or, with the
hundredths flag, as the double nearest to its hundredth. *)
Theorem C50_number :
forall b0 b1 b2 b3 x, (b0 < 256)%N -> (b1 < 256)%N -> (b2 < 256)%N -> (b3 < 256)%N ->
  rk_number (word b0 b1 b2 b3) x ->
  exists d, unpack_RK [b0; b1; b2; b3] = Ok d /\ valid d = true /\ finite d = true /\
    fval d = if hundredths (word b0 b1 b2 b3) then rnd (x / 100)%R else x.
Proof. exact C50_number_proof. Qed.
Print Assumptions C50_number.

(** 0x405EC001: the double 123 and the hundredths flag; 0xFFFFFFF7: -3
    hundredths. *)
Example C50_number_ex :
  rk_exponent (word 1 192 94 64) = 1029 /\ rk_mantissa (word 1 192 94 64) = 966656 /\
  integral (word 1 192 94 64) = false /\ hundredths (word 1 192 94 64) = true /\
  rk_integer (word 247 255 255 255) (-3) /\ integral (word 247 255 255 255) = true /\
  unpack_RK [1; 192; 94; 64]%N = float_of_str (lit "1.23") /\
  unpack_RK [247; 255; 255; 255]%N = float_of_str (lit "-0.03").
Proof.
  repeat match goal with |- _ /\ _ => split end; try (vm_compute; reflexivity).
  unfold rk_integer. split; [lia|vm_compute; reflexivity].
Qed.

(** The words left are those with exponent 2047: infinity of the right sign when
the mantissa is 0, nan otherwise, with or without the hundredths flag. A zero
keeps its sign. So every word is read. *)
Theorem C50_special :
forall b0 b1 b2 b3, (b0 < 256)%N -> (b1 < 256)%N -> (b2 < 256)%N -> (b3 < 256)%N ->
  let w := word b0 b1 b2 b3 in
  ((exists x, rk_number w x) \/ (integral w = false /\ rk_exponent w = 2047)) /\
  (integral w = false -> rk_exponent w = 2047 ->
     unpack_RK [b0; b1; b2; b3] = Ok (if rk_mantissa w =? 0 then S754_infinity (rk_negative w) else S754_nan)) /\
  (integral w = false -> rk_exponent w = 0 -> rk_mantissa w = 0 ->
     unpack_RK [b0; b1; b2; b3] = Ok (S754_zero (rk_negative w))).
Proof. exact C50_special_proof. Qed.
Print Assumptions C50_special.

Example C50_special_ex : unpack_RK [0; 0; 240; 255]%N = Ok (S754_infinity true) /\
  rk_exponent (word 0 0 240 255) = 2047 /\ unpack_RK [1; 0; 0; 128]%N = Ok (S754_zero true).
Proof. vm_compute. auto. Qed.

(** Every integer of 30 bits, and the hundredth of every such integer, has an RK
word that is read as it (the hundredth as the nearest double). *)
Theorem C50_integers :
forall n, - 2 ^ 29 <= n < 2 ^ 29 -> forall h : bool,
  exists b0 b1 b2 b3 d, (b0 < 256)%N /\ (b1 < 256)%N /\ (b2 < 256)%N /\ (b3 < 256)%N /\
    unpack_RK [b0; b1; b2; b3] = Ok d /\ finite d = true /\
    fval d = if h then rnd (IZR n / 100)%R else IZR n.
Proof. exact C50_integers_proof. Qed.
Print Assumptions C50_integers.

Example C50_integers_ex : unpack_RK [3; 0; 0; 128]%N = Ok (fdiv (float_of_Z (-536870912)) (float_of_Z 100)) /\
  unpack_RK [254; 255; 255; 127]%N = Ok (float_of_Z 536870911).
Proof. vm_compute. auto. Qed.

(** Fewer than four bytes are an error, never a number. *)
Theorem C50_short :
forall b, (length b < 4)%nat -> unpack_RK b = Err (match b with [] => IndexError | _ => StructError end).
Proof. exact C50_short_proof. Qed.
Print Assumptions C50_short.

Example C50_short_ex : unpack_RK [2; 255; 255]%N = Err StructError /\ unpack_RK [] = Err IndexError.
Proof. vm_compute. auto. Qed.

