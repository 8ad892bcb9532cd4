(** * Numbers in BIFF records: channelpack/xlrd/sheet.py, struct *)

From Coq Require Import ZArith.
From Verif Require Import PyBase PyFloat Dbf.
Open Scope Z_scope.

(** Two's complement of n bytes, little end first (struct codes 'i', 'h';
    channelpack/xlrd/sheet.py l.2223). *)
Definition le_signed (b : str) : Z :=
  let v := le_value b in
  let m := 2 ^ (8 * Z.of_nat (length b)) in
  if 2 * v <? m then v else v - m.

(** unpack('<i', b), sheet.py l.2223. *)
Definition unpack_i (b : str) : res Z :=
  if Nat.eqb (length b) 4 then Ok (le_signed b) else Err StructError.

(** The double with a given 64 bit pattern (IEEE 754 binary64): what struct
    does for code 'd' (sheet.py l.822, 2230). Nans are not told apart. *)
Definition double_of_bits (z : Z) : float :=
  let s := 2 ^ 63 <=? z in
  let e := z / 2 ^ 52 mod 2 ^ 11 in
  let f := z mod 2 ^ 52 in
  if e =? 2047 then (if f =? 0 then S754_infinity s else S754_nan)
  else if e =? 0 then match f with Zpos m => S754_finite s m (-1074) | _ => S754_zero s end
  else match 2 ^ 52 + f with Zpos m => S754_finite s m (e - 1075) | _ => S754_zero s end.

(** unpack('<d', b), sheet.py l.822, 2230. *)
Definition unpack_d (b : str) : res float :=
  if Nat.eqb (length b) 8 then Ok (double_of_bits (le_value b)) else Err StructError.

(** unpack_RK, sheet.py l.2219-2233. *)
Definition unpack_RK (rk : str) : res float :=
  match rk with
  | [] => Err IndexError
  | flags :: rest =>
      if negb (N.land flags 2 =? 0)%N then
        do i <- unpack_i rk;
        let i := Z.shiftr i 2 in
        if negb (N.land flags 1 =? 0)%N then Ok (fdiv (float_of_Z i) (float_of_Z 100))
        else Ok (float_of_Z i)
      else
        do d <- unpack_d ([0; 0; 0; 0]%N ++ [N.land flags 252] ++ firstn 3 rest);
        if negb (N.land flags 1 =? 0)%N then Ok (fdiv d (float_of_Z 100))
        else Ok d
  end.

Example unpack_RK_ex :
  unpack_RK [2; 0; 0; 0]%N = Ok (float_of_Z 0) /\
  unpack_RK [254; 255; 255; 255]%N = Ok (float_of_Z (-1)) /\
  unpack_RK [0; 0; 240; 63]%N = Ok (float_of_Z 1) /\
  unpack_RK [1; 192; 94; 64]%N = Ok (fdiv (float_of_Z 123) (float_of_Z 100)) /\
  unpack_RK [0; 0; 0]%N = Err StructError.
Proof. vm_compute. auto. Qed.
