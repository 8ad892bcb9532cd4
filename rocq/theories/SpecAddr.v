(** * Stored addresses and the nearest colour: specification *)

From Coq Require Import ZArith.
From Verif Require Import PyBase SpecRepr SpecXl SpecRange.
Open Scope Z_scope.

(** The number [z] below [n] as it is or, if relative, as the distance from [-n/2]
    up to [n/2] that is the same but for multiples of [n] (OOo docs, 4.3.4; book.py
    l.1375-1391). *)
Definition meant (rel : bool) (n z out : Z) : Prop :=
  rel = false /\ out = z \/ rel = true /\ - n <= 2 * out < n /\ exists k, z = out + n * k.

(** The second word of an address: a byte for the column, six bits of no meaning,
    the flags for the column and for the row. *)
Definition flag (b : bool) : Z := if b then 1 else 0.
(** The word itself, book.py l.1378-1386. *)
Definition packed (byte bits : Z) (relrow relcol : bool) (w : Z) : Prop :=
  0 <= byte < 256 /\ 0 <= bits < 64 /\ w = byte + 256 * bits + 16384 * flag relcol + 32768 * flag relrow.

(** A distance: between parentheses (40, 41), after an asterisk (42), with its sign
    (43 or 45), book.py l.1405. *)
Definition distance (z : Z) (s : str) : Prop :=
  exists d, decimal (Z.abs z) d /\ s = 40%N :: 42%N :: (if z <? 0 then 45%N else 43%N) :: d ++ [41%N].

(** The two parts of an address: 36 is the dollar sign, book.py l.1403-1412. *)
Definition col_part (rel : bool) (c : Z) (s : str) : Prop :=
  rel = true /\ distance c s \/ rel = false /\ exists l, letters c l /\ s = 36%N :: l.
(** The part for the row, book.py l.1404-1407. *)
Definition row_part (rel : bool) (r : Z) (s : str) : Prop :=
  rel = true /\ distance r s \/ rel = false /\ exists d, decimal (r + 1) d /\ s = 36%N :: d.

(** The square of the distance of two colours. *)
Inductive apart : list Z -> list Z -> Z -> Prop :=
| apart_left : forall l, apart [] l 0
| apart_right : forall l, apart l [] 0
| apart_both : forall x y l m d, apart l m d -> apart (x :: l) (y :: m) ((x - y) ^ 2 + d).

(** [k] is the index of the first of the colours of the map that are nearest. *)
Definition nearest (map : list (Z * option (list Z))) (rgb : list Z) (k : Z) : Prop :=
  exists before c after d, map = before ++ (k, Some c) :: after /\ apart rgb c d /\
    (forall k' c' d', In (k', Some c') map -> apart rgb c' d' -> d <= d') /\
    (forall k' c' d', In (k', Some c') before -> apart rgb c' d' -> d < d').

(** Three numbers of a byte. *)
Definition colour (c : list Z) : Prop := length c = 3%nat /\ Forall (fun v => 0 <= v < 256) c.
(** All colours of the map are such. *)
Definition colours (map : list (Z * option (list Z))) : Prop := forall k c, In (k, Some c) map -> colour c.
