(** * Specification of the texts of references *)

From Coq Require Import ZArith.
From Verif Require Import PyBase PyFloat NumPy ReadXl SpecRepr SpecXl.
Open Scope Z_scope.

(** Capital letters for column [c]. *)
Definition letters (c : Z) (l : str) : Prop := l <> [] /\ Forall capital l /\ column_no l = c.

(** $H$6: 36 is the dollar sign. *)
Definition dollar (r c : Z) (s : str) : Prop :=
  exists l d, letters c l /\ decimal (r + 1) d /\ s = (36%N :: l) ++ (36%N :: d).

(** The text of the name [n] with every apostrophe (39) twice. *)
Inductive doubled : str -> str -> Prop :=
| doubled_nil : doubled [] []
| doubled_quote : forall n t, doubled n t -> doubled (39%N :: n) (39%N :: 39%N :: t)
| doubled_other : forall c n t, c <> 39%N -> doubled n t -> doubled (c :: n) (c :: t).

(** Names with an apostrophe or a space stand between apostrophes. *)
Definition shown (n q : str) : Prop :=
  ~ In 39%N n /\ ~ In 32%N n /\ q = n \/
  (In 39%N n \/ In 32%N n) /\ exists t, doubled n t /\ q = 39%N :: t ++ [39%N].

(** [s], or [s] and [t] with a colon (58) between. *)
Definition from_to (one : Prop) (s t u : str) : Prop := one /\ u = s \/ ~ one /\ u = s ++ 58%N :: t.

(** A range of cells, not empty, in the columns the names of which have up to two letters. *)
Definition proper (g : Z * Z * Z * Z) : Prop :=
  let '(rlo, rhi, clo, chi) := g in 0 <= rlo < rhi /\ 0 <= clo < chi /\ chi <= 702.

Definition one_cell (g : Z * Z * Z * Z) : Prop := let '(rlo, rhi, clo, chi) := g in rhi = rlo + 1 /\ chi = clo + 1.

(** The first and the last cell. *)
Definition range_text (g : Z * Z * Z * Z) (u : str) : Prop :=
  let '(rlo, rhi, clo, chi) := g in
  exists s t, dollar rlo clo s /\ dollar (rhi - 1) (chi - 1) t /\ from_to (one_cell g) s t u.

(** Sheets [slo] to [shi], this one excluded. *)
Definition sheets_text (names : list str) (slo shi : Z) (u : str) : Prop :=
  exists n m s t, nth_error names (Z.to_nat slo) = Some n /\ nth_error names (Z.to_nat (shi - 1)) = Some m /\
    shown n s /\ shown m t /\ from_to (slo = shi - 1) s t u.

(** R6, or R[-3], or R for no distance: the letter is [x], the brackets are 91 and 93. *)
Definition axis (x : N) (rel : bool) (z : Z) (s : str) : Prop :=
  rel = false /\ (exists d, decimal (z + 1) d /\ s = x :: d) \/
  rel = true /\ z = 0 /\ s = [x] \/
  rel = true /\ z <> 0 /\ exists d, decimal z d /\ s = x :: 91%N :: d ++ [93%N].

(** Seen from the row [base]: $6 or 6, the sheet being a ring of 65536 rows. *)
Definition row_mark (rel : bool) (base z : Z) (s : str) : Prop :=
  rel = false /\ (exists d, decimal (z + 1) d /\ s = 36%N :: d) \/
  rel = true /\ exists r, 0 <= r < 65536 /\ (exists k, base + z = r + 65536 * k) /\ decimal (r + 1) s.
(** And of 256 columns. *)
Definition col_mark (rel : bool) (base z : Z) (s : str) : Prop :=
  rel = false /\ (exists l, letters z l /\ s = 36%N :: l) \/
  rel = true /\ exists c, 0 <= c < 256 /\ (exists k, base + z = c + 256 * k) /\ letters c s.
