(** * Decimal numbers and the nearest doubles

    A number written in decimal stands for a rational number; a double is
    nearest to it when no other double is closer and, of two equally close,
    its mantissa is even. *)

From Coq Require Import ZArith Reals.
From Verif Require Import PyBase PyFloat SpecPack.
Open Scope Z_scope.

(** ** Decimals *)

Inductive sign_text : str -> bool -> Prop :=
| sg_none : sign_text [] false
| sg_plus : sign_text [43%N] false
| sg_minus : sign_text [45%N] true.

(** The power of ten after e or E. *)
Inductive power_text : str -> Z -> Prop :=
| pw_none : power_text [] 0
| pw_some : forall c sg neg ds, c = 69%N \/ c = 101%N -> sign_text sg neg -> all_digits ds -> ds <> [] ->
    power_text (c :: sg ++ ds) (if neg then - dec_value ds else dec_value ds).

(** Digits with or without a point among or around them. *)
Inductive digits_text : str -> str -> str -> Prop :=
| dg_plain : forall ip, all_digits ip -> ip <> [] -> digits_text ip ip []
| dg_point : forall ip fp, all_digits ip -> all_digits fp -> ip ++ fp <> [] -> digits_text (ip ++ 46%N :: fp) ip fp.

(** [decimal t neg x]: the text is a decimal with the absolute value x. *)
Inductive decimal : str -> bool -> R -> Prop :=
| dec_text : forall sg neg t ip fp pw e, sign_text sg neg -> digits_text t ip fp -> power_text pw e ->
    decimal (sg ++ t ++ pw) neg (IZR (dec_value (ip ++ fp)) * powerRZ 10 (e - Z.of_nat (length fp)))%R.

(** ** Doubles *)

(** Finite doubles: 53 bits of mantissa. *)
Definition finite_double (f : float) : Prop :=
  match f with
  | S754_zero _ => True
  | S754_finite _ m e => (Zpos m < 2 ^ 52 /\ e = -1074) \/ (2 ^ 52 <= Zpos m < 2 ^ 53 /\ -1074 <= e <= 971)
  | _ => False
  end.
Definition real (f : float) : R :=
  match f with
  | S754_finite s m e => ((if s then -1 else 1) * (IZR (Zpos m) * powerRZ 2 e))%R
  | _ => 0%R
  end.
Definition negative (f : float) : bool :=
  match f with S754_zero s | S754_infinity s | S754_finite s _ _ => s | S754_nan => false end.
Definition even_mantissa (f : float) : Prop :=
  match f with S754_finite _ m _ => Z.even (Zpos m) = true | _ => True end.

(** Numbers from here on are infinite: half way between the largest double and
    the next power of two. *)
Definition too_large : R := IZR (2 ^ 1024 - 2 ^ 970).

(** [nearest neg x f]: f is the double for the number with sign neg and
    absolute value x. *)
Definition nearest (neg : bool) (x : R) (f : float) : Prop :=
  negative f = neg /\
  ((too_large <= x)%R /\ f = S754_infinity neg \/
   (x < too_large)%R /\ finite_double f /\
   forall g, finite_double g ->
     let y := if neg then Ropp x else x in
     (Rabs (real f - y) <= Rabs (real g - y))%R /\
     (Rabs (real g - y) = Rabs (real f - y) -> real g <> real f -> even_mantissa f)%R).
