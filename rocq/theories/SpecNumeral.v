(** * Which texts are numbers

    The grammar of the numbers in text files: decimals with or without point and
    power of ten, infinities and nan, with white space around and underscores
    between digits. *)

From Coq Require Import ZArith Reals.
From Verif Require Import PyBase PyFloat ReadText SpecPack SpecDbf SpecChars SpecText SpecNumber.

(** [underscored s t]: [s] is [t], with an underscore between any two digits. *)
Inductive underscored : str -> str -> Prop :=
| un_end : underscored [] []
| un_char : forall c s t, c <> 95%N -> underscored s t -> underscored (c :: s) (c :: t)
| un_score : forall a b s t, (48 <= a <= 57)%N -> (48 <= b <= 57)%N -> underscored (b :: s) t ->
    underscored (a :: 95%N :: b :: s) (a :: t).

(** [w], which is in small letters, in small letters and capitals. *)
Definition spells (w s : str) : Prop := Forall2 (fun d c => c = d \/ (97 <= d <= 122)%N /\ c = (d - 32)%N) w s.

(** The ASCII text is a number, and the double it stands for. *)
Inductive numeral : str -> float -> Prop :=
| nm_decimal : forall l s t r neg x f, Forall space_like l -> Forall space_like r ->
    underscored s t -> decimal t neg x -> nearest neg x f -> numeral (l ++ s ++ r) f
| nm_infinity : forall l sg w r neg, Forall space_like l -> Forall space_like r -> sign_text sg neg ->
    spells (lit "inf") w \/ spells (lit "infinity") w -> numeral (l ++ (sg ++ w) ++ r) (S754_infinity neg)
| nm_nan : forall l sg w r neg, Forall space_like l -> Forall space_like r -> sign_text sg neg ->
    spells (lit "nan") w -> numeral (l ++ (sg ++ w) ++ r) S754_nan.

(** The same for text or bytes: only in text the white space and the digits
    beyond ASCII count as those of ASCII. *)
Definition number_in (m : mode) (s : str) (f : float) : Prop :=
  match m with
  | Text => exists t, Forall2 counts_as s t /\ numeral t f
  | _ => numeral s f
  end.
Definition is_number (m : mode) (s : str) : Prop := exists f, number_in m s f.
