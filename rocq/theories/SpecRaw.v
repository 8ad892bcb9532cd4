(** * Specification: bytes read without an encoding (C75) *)

From Verif Require Import PyBase PyText NumPy ReadText SpecArray.

(** The same keyword arguments without encoding. *)
Definition without_encoding (a : targs) : targs :=
  mktargs (t_names a) (t_delimiter a) (t_skiprows a) (t_usecols a) (t_hasnames a) None
    (t_converters a) (t_stripstrings a) (t_debug a).

(** A text and bytes that decode to it. *)
Definition text_of (c : codec) (v w : val) : Prop :=
  exists t b, v = VStr t /\ w = VBytes b /\ decode c b = Ok t.

(** The same array, or an array of texts and one of bytes that decode to them,
    element by element, both without NULs at their ends. *)
Definition undecoded (c : codec) (x y : arr) : Prop :=
  x = y \/
  (akind x = KU /\ akind y = KS /\
   Forall2 (fun v w => exists t b ht hb, v = VStr ht /\ w = VBytes hb /\
              padded t ht /\ padded b hb /\ decode c b = Ok t) (aelems x) (aelems y)).
