(** * Python floats and numbers

    Binary64 values are the [spec_float] of Coq.Floats.SpecFloat (precision 53,
    emax 1024): ordinary inductive data with executable IEEE operations, no
    primitive floats and no axioms. NaN payloads are not modelled. *)

From Coq Require Export Floats.SpecFloat.
From Coq Require Import QArith.
From Verif Require Import PyBase.
Open Scope nat_scope.

Notation float := spec_float.

(** IEEE multiplication and division on doubles
    ([duration * samplerate], channelpack/pack.py l.345;
    channelpack/xlrd/sheet.py l.2226). *)
Definition fmul : float -> float -> float := SFmul 53 1024.
(** x / y of two doubles, y not zero (channelpack/xlrd/sheet.py l.2226). *)
Definition fdiv : float -> float -> float := SFdiv 53 1024.

(** IEEE addition, subtraction and the order on doubles (xldate - xldays,
    xldate < 0.00; channelpack/xlrd/xldate.py l.93-96). *)
Definition fadd : float -> float -> float := SFadd 53 1024.
(** x - y of two doubles (channelpack/xlrd/xldate.py l.98). *)
Definition fsub : float -> float -> float := SFsub 53 1024.
(** x < y of two doubles (channelpack/xlrd/xldate.py l.95). *)
Definition fltb : float -> float -> bool := SFltb.
(** x <= y of two doubles (channelpack/xlrd/formula.py l.1115). *)
Definition fleb : float -> float -> bool := SFleb.

(** float == float; nan differs from itself (channelpack/pack.py l.322). *)
Definition feqb : float -> float -> bool := SFeqb.

(** numpy.nan (channelpack/datautils.py l.29). *)
Definition fnan : float := S754_nan.

(** float(z) for an int: round to nearest even (numpy upcast of integers,
    channelpack/datautils.py l.29). *)
Definition float_of_Z (z : Z) : float := binary_normalize 53 1024 z 0 false.

(** Truth value of a float: only zeros are false
    (channelpack/datautils.py l.64, 87). *)
Definition float_truthy (f : float) : bool :=
  match f with S754_zero _ => false | _ => true end.

(** int(f) for a float: truncation (channelpack/pack.py l.345). *)
Definition int_of_float (f : float) : res Z :=
  match f with
  | S754_zero _ => Ok 0%Z
  | S754_nan => Err ValueError
  | S754_infinity _ => Err OverflowError
  | S754_finite s m e =>
      let a := (if 0 <=? e then Zpos m * 2 ^ e else Zpos m / 2 ^ (- e))%Z in
      Ok (if s then (- a)%Z else a)
  end.

(** round(f) with one argument: the nearest integer, ties to even
    (channelpack/xlrd/xldate.py l.97, 153). *)
Definition round_float (f : float) : res Z :=
  match f with
  | S754_zero _ => Ok 0%Z
  | S754_nan => Err ValueError
  | S754_infinity _ => Err OverflowError
  | S754_finite s m e =>
      let a := (if 0 <=? e then Zpos m * 2 ^ e
                else let d := 2 ^ (- e) in
                     let q := Zpos m / d in
                     let r := Zpos m mod d in
                     if 2 * r <? d then q
                     else if d <? 2 * r then q + 1
                     else if Z.even q then q else q + 1)%Z in
      Ok (if s then (- a)%Z else a)
  end.

(** A Python number, int or float (arguments of channelpack/pack.py l.324). *)
Inductive pynum := PInt (z : Z) | PFloat (f : float).

(** Conversion of an int operand to float in mixed arithmetic; too large ints
    raise OverflowError (channelpack/pack.py l.345). *)
Definition pynum_float (x : pynum) : res float :=
  match x with
  | PFloat f => Ok f
  | PInt z => match float_of_Z z with
              | S754_infinity _ => Err OverflowError
              | f => Ok f
              end
  end.

(** x * y (channelpack/pack.py l.345). *)
Definition pymul (x y : pynum) : res pynum :=
  match x, y with
  | PInt a, PInt b => Ok (PInt (a * b))
  | _, _ => do a <- pynum_float x; do b <- pynum_float y; Ok (PFloat (fmul a b))
  end.

(** int(x) (channelpack/pack.py l.345). *)
Definition py_int (x : pynum) : res Z :=
  match x with PInt z => Ok z | PFloat f => int_of_float f end.

(** The rational number a finite float stands for. Used in statements only (No
    code: of the floats of channelpack/pack.py l.345). *)
Definition float_Q (f : float) : option Q :=
  match f with
  | S754_zero _ => Some 0%Q
  | S754_finite s m e =>
      let z := if s then Zneg m else Zpos m in
      Some (if (0 <=? e)%Z then inject_Z (z * 2 ^ e) else (z # Z.to_pos (2 ^ (- e))))
  | _ => None
  end.

(** ** float(text) and int(text) *)

(** Underscores are allowed only between two digits (CPython float() and
    int() on text; channelpack/readtext.py l.479, channelpack/dbf.py l.60-65).
    [prev] tells whether the character before [s] is a digit. *)
Fixpoint drop_underscores (prev : bool) (s : str) : option str :=
  match s with
  | [] => Some []
  | c :: s' =>
      if N.eqb c 95 then
        match s' with
        | d :: _ => if prev && is_digit d then drop_underscores false s' else None
        | [] => None
        end
      else match drop_underscores (is_digit c) s' with
           | Some r => Some (c :: r)
           | None => None
           end
  end.

(** Optional sign (part of int() and float(), channelpack/dbf.py l.60-62). *)
Definition take_sign (s : str) : bool * str :=
  match s with
  | c :: s' => if N.eqb c 45 then (true, s') else if N.eqb c 43 then (false, s') else (false, s)
  | [] => (false, [])
  end.

(** int(s) for bytes and for ASCII text (channelpack/dbf.py l.62, 65). *)
Definition int_of_str (s : str) : res Z :=
  match drop_underscores false (strip ws_bytes s) with
  | None => Err ValueError
  | Some t =>
      let '(neg, d) := take_sign t in
      match d with
      | [] => Err ValueError
      | _ => if forallb is_digit d
             then Ok (if neg then - digits_val 0 d else digits_val 0 d)%Z
             else Err ValueError
      end
  end.

(** m * 10^e rounded to nearest even, for a natural number m (part of float(),
    channelpack/dbf.py l.60). *)
Definition dec_round (neg : bool) (m : Z) (e : Z) : float :=
  match m with
  | Zpos p =>
      if (0 <=? e)%Z
      then binary_normalize 53 1024 (if neg then Zneg p * 10 ^ e else Zpos p * 10 ^ e)%Z 0 neg
      else SFdiv 53 1024 (S754_finite neg p 0) (S754_finite false (Z.to_pos (10 ^ (- e))) 0)
  | _ => S754_zero neg
  end.

(** Optional exponent: e or E, optional sign, at least one digit, end (part of
    float(), channelpack/dbf.py l.60). *)
Definition take_exponent (s : str) : option Z :=
  match s with
  | [] => Some 0%Z
  | c :: s' =>
      if (N.eqb c 69 || N.eqb c 101)%bool then
        let '(neg, d) := take_sign s' in
        match d with
        | [] => None
        | _ => if forallb is_digit d
               then Some (if neg then - digits_val 0 d else digits_val 0 d)%Z
               else None
        end
      else None
  end.

(** Lower case of an ASCII letter (part of float(), channelpack/dbf.py l.60).
    *)
Definition lower (c : N) : N := if is_upper c then (c + 32)%N else c.

(** The unsigned part of a float literal (part of float(), channelpack/dbf.py
    l.60). *)
Definition float_body (neg : bool) (s : str) : res float :=
  let l := map lower s in
  if (str_eqb l (lit "inf") || str_eqb l (lit "infinity"))%bool then Ok (S754_infinity neg)
  else if str_eqb l (lit "nan") then Ok S754_nan
  else
    let '(ip, r) := span is_digit s in
    let '(fp, r') := match r with
                     | c :: r1 => if N.eqb c 46 then span is_digit r1 else ([], r)
                     | [] => ([], [])
                     end in
    match ip ++ fp with
    | [] => Err ValueError
    | ds => match take_exponent r' with
            | Some e => Ok (dec_round neg (digits_val 0 ds) (e - Z.of_nat (length fp)))
            | None => Err ValueError
            end
    end.

(** float(s) for bytes and for ASCII text (channelpack/readtext.py l.36,
    459, 479; channelpack/dbf.py l.60, 74). *)
Definition float_of_str (s : str) : res float :=
  match drop_underscores false (strip ws_bytes s) with
  | None => Err ValueError
  | Some t => let '(neg, body) := take_sign t in float_body neg body
  end.

(** float(s) and int(s) for text (channelpack/readtext.py l.31, 459, 479;
    channelpack/readxl.py l.165). *)
Definition float_of_text (s : str) : res float := float_of_str (to_ascii s).
(** int(s) for text (channelpack/readxl.py l.165). *)
Definition int_of_text (s : str) : res Z := int_of_str (to_ascii s).

(** Checks against CPython 3.11 (values printed by the interpreter). *)
Example float_of_str_ex1 :
  float_of_str (lit " -1.5e1 ") = Ok (S754_finite true 8444249301319680 (-49)).
Proof. vm_compute. reflexivity. Qed.
Example float_of_str_ex2 : map float_of_str [lit "1_"; lit "_1"; lit "1__0"; lit "."; lit "1e"; lit "0x10"; lit ""]
  = [Err ValueError; Err ValueError; Err ValueError; Err ValueError; Err ValueError; Err ValueError; Err ValueError].
Proof. vm_compute. reflexivity. Qed.
Example float_of_str_ex3 :
  map float_of_str [lit "1_0"; lit ".5"; lit "5."; lit "-inf"; lit "+NaN"; lit "1e400"; lit "-0"]
  = [Ok (float_of_Z 10); Ok (S754_finite false 4503599627370496 (-53)); Ok (float_of_Z 5);
     Ok (S754_infinity true); Ok S754_nan; Ok (S754_infinity false); Ok (S754_zero true)].
Proof. vm_compute. reflexivity. Qed.
Example float_of_text_ex :
  map float_of_text [[0xa0; 0x661; 46; 0x0cec; 0x2003]%N; [0x661; 95; 50]%N; [0x660; 0xb2]%N; [28; 49]%N; [0x85; 49]%N]
  = [Ok (S754_finite false 7205759403792794 (-52)); Ok (float_of_Z 12); Err ValueError; Err ValueError; Ok (float_of_Z 1)].
Proof. vm_compute. reflexivity. Qed.
(** 0.1 is 0x1.999999999999ap-4 *)
Example float_of_str_ex4 :
  float_of_str (lit "0.1") = Ok (S754_finite false 7205759403792794 (-56)).
Proof. vm_compute. reflexivity. Qed.
Example int_of_str_ex : map int_of_str [lit " 1_0 "; lit "-7"; lit "+"; lit "5."]
  = [Ok 10%Z; Ok (-7)%Z; Err ValueError; Err ValueError].
Proof. vm_compute. reflexivity. Qed.
