(** * Specification vocabulary for packs

    Statements about lists and dictionaries, independent of the definitions
    used by the model. *)

From Coq Require Import QArith.
From Verif Require Import PyBase PyFloat NumPy SpecMask SpecChars.
Open Scope nat_scope.

(** Whether a value counts as true in Python: all do but these. *)
Definition counts (v : val) : bool :=
  match v with
  | VNone | VBool false | VInt 0 | VFloat (S754_zero _) | VCplx (S754_zero _) (S754_zero _) | VStr [] | VBytes [] => false
  | _ => true
  end.

(** Elements of [l] at the positions where [m] is true, in order. *)
Definition selected {A} (m : list bool) (l : list A) : list A :=
  map snd (filter fst (combine m l)).

(** The elements a <= i < b of [l]. *)
Definition between {A} (a b : nat) (l : list A) : list A := firstn (b - a) (skipn a l).

(** Elementwise and. *)
Definition ands (m n : list bool) : list bool := map (fun xy => andb (fst xy) (snd xy)) (combine m n).

(** Value of a digit string. *)
Definition dec_value (s : str) : Z :=
  fold_left (fun acc c => (acc * 10 + (Z.of_N c - 48))%Z) s 0%Z.

Definition all_digits (s : str) : Prop := Forall (fun c => (48 <= c <= 57)%N) s.

(** Resolution of a channel reference: what the documentation calls the
    lookup order. [keys] are the keys of the data dict. *)
Inductive resolves (keys : list Z) (names : list (Z * val)) (prefix : str) : str -> Z -> Prop :=
| resolves_name : forall s k pre post,
    names = pre ++ (k, VStr s) :: post ->
    (forall k', ~ In (k', VStr s) pre) ->
    In k keys ->
    resolves keys names prefix s k
| resolves_fallback : forall s k ds rest,
    (forall k', ~ In (k', VStr s) names) ->
    s = prefix ++ ds ++ rest ->
    decimal_text ds k ->
    (forall c r, rest = c :: r -> forall d, ~ digit_of c d) ->
    In k keys ->
    resolves keys names prefix s k.

(** The number a Python number stands for. *)
Definition num_Q (x : pynum) : option Q :=
  match x with PInt z => Some (inject_Z z) | PFloat f => float_Q f end.

(** The double a number is turned into in arithmetic with doubles. *)
Inductive double_of : pynum -> float -> Prop :=
| double_float : forall f, double_of (PFloat f) f
| double_int : forall z f, f = binary_normalize 53 1024 z 0 false ->
    (forall s, f <> S754_infinity s) -> double_of (PInt z) f.

(** The product of two numbers: exact for integers, the product of the doubles
    rounded to a double otherwise. *)
Inductive product : pynum -> pynum -> pynum -> Prop :=
| product_ints : forall a b, product (PInt a) (PInt b) (PInt (a * b))
| product_doubles : forall x y f g,
    ~ (exists a b, x = PInt a /\ y = PInt b) ->
    double_of x f -> double_of y g ->
    product x y (PFloat (SFmul 53 1024 f g)).

(** [z] is the number [q] without its decimals. *)
Definition truncates (q : Q) (z : Z) : Prop :=
  ((0 <= q -> inject_Z z <= q /\ q < inject_Z (z + 1)) /\
   (q <= 0 -> inject_Z (z - 1) < q /\ q <= inject_Z z))%Q.

(** A duration at a samplerate asks for [z] samples. *)
Definition requires (d s : pynum) (z : Z) : Prop :=
  exists x q, product d s x /\ num_Q x = Some q /\ truncates q z.

(** Is it nan? *)
Definition is_nan_val (v : val) : Prop :=
  match v with
  | VFloat f => f = S754_nan
  | VCplx re im => re = S754_nan \/ im = S754_nan
  | _ => False
  end.

(** Element [y] of an upcast array stands for element [x]. *)
Definition same_value (x y : val) : Prop :=
  x = y \/
  (exists z f q, x = VInt z /\ y = VFloat f /\ float_Q f = Some q /\ (q == inject_Z z)%Q).

(** All dict keys different. *)
Definition dict_ok {V} (d : list (Z * V)) : Prop := NoDup (map fst d).

(** Names that fields of a record can have: a letter, then letters, digits,
    underscores and middle dots, and no word reserved by the language. Letters
    are those of ASCII and of Latin 1. *)
Definition letter (c : N) : Prop :=
  (65 <= c <= 90)%N \/ (97 <= c <= 122)%N \/ c = 181%N \/ (192 <= c <= 255)%N /\ c <> 215%N /\ c <> 247%N.
Definition inner (c : N) : Prop := letter c \/ (48 <= c <= 57)%N \/ c = 95%N \/ c = 183%N.
Definition reserved : list str :=
  map lit ["False"; "None"; "True"; "and"; "as"; "assert"; "async"; "await"; "break"; "class";
           "continue"; "def"; "del"; "elif"; "else"; "except"; "finally"; "for"; "from"; "global";
           "if"; "import"; "in"; "is"; "lambda"; "nonlocal"; "not"; "or"; "pass"; "raise";
           "return"; "try"; "while"; "with"; "yield"]%string.
Definition field_name (s : str) : Prop :=
  (exists c r, s = c :: r /\ letter c /\ Forall inner r) /\ ~ In s reserved.

(** Names that they cannot have: nothing, a reserved word, or a text with a
    character in the wrong place, which is not one of the two ordinal
    indicators and not beyond Latin 1. *)
Definition known (c : N) : Prop := (c < 256)%N /\ c <> 170%N /\ c <> 186%N.
Definition bad_name (s : str) : Prop :=
  s = [] \/ In s reserved \/ (exists c r, s = c :: r /\ known c /\ ~ letter c) \/
  (exists c, In c s /\ known c /\ ~ inner c).
