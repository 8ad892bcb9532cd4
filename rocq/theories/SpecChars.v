(** * White space and digits of Unicode

    What Python's text functions take for white space and for decimal digits. *)

From Verif Require Import PyBase.
Open Scope N_scope.

(** Unicode white space beyond ASCII: str.split() and float() know it,
    bytes.split() does not. *)
Definition wide_spaces : list N :=
  [133; 160; 5760; 8192; 8193; 8194; 8195; 8196; 8197; 8198; 8199; 8200; 8201; 8202; 8232; 8233; 8239; 8287; 12288]%N.

(** The zeros of the decimal digits beyond ASCII (Unicode 14); each is followed
    by the other nine. *)
Definition wide_zeros : list N :=
  [1632; 1776; 1984; 2406; 2534; 2662; 2790; 2918; 3046; 3174; 3302; 3430; 3558; 3664; 3792; 3872; 4160; 4240;
   6112; 6160; 6470; 6608; 6784; 6800; 6992; 7088; 7232; 7248; 42528; 43216; 43264; 43472; 43504; 43600; 44016;
   65296; 66720; 68912; 69734; 69872; 69942; 70096; 70384; 70736; 70864; 71248; 71360; 71472; 71904; 72016;
   72784; 73040; 73120; 92768; 92864; 93008; 120782; 120792; 120802; 120812; 120822; 123200; 123632; 125264;
   130032]%N.

(** White space in text. *)
Definition text_space (c : N) : Prop := 9 <= c <= 13 \/ 28 <= c <= 32 \/ In c wide_spaces.

(** The character is a decimal digit, of this value. *)
Inductive digit_of : N -> N -> Prop :=
| digit_ascii : forall d, d < 10 -> digit_of (48 + d) d
| digit_wide : forall z d, In z wide_zeros -> d < 10 -> digit_of (z + d) d.

(** The ASCII character a character of a number counts as. *)
Inductive counts_as : N -> N -> Prop :=
| as_itself : forall c, c < 128 -> counts_as c c
| as_space : forall c, In c wide_spaces -> counts_as c 32
| as_digit : forall c d, digit_of c d -> counts_as c (48 + d).

(** Decimal digits, most significant first, and their number. *)
Definition decimal_text (s : str) (z : Z) : Prop :=
  s <> [] /\ exists vs, Forall2 digit_of s vs /\ fold_left (fun acc d => (acc * 10 + Z.of_N d)%Z) vs 0%Z = z.
