(** * What the cell and the area of a name are: specification *)

From Coq Require Import ZArith.
From Verif Require Import PyBase PyText PyFloat NumPy CompDoc ReadXl XlNames SpecAccess NameArea.
Open Scope Z_scope.

(** The result of a name is one absolute reference (Operand, formula.py
    l.534-623). *)
Definition refers (res : result) (r : ref3d) : Prop := res = Some (oREF, Some [r]).

(** The result is said to be a reference, but nobody knows to what (formula.py
    l.571-574). *)
Definition unknown (res : result) : Prop := res = Some (oREF, None).

(** The reference is to places of one sheet, of the book itself (book.py
    l.226-228, 268). *)
Definition on_sheet (r : ref3d) (k : nat) : Prop := shtxlo r = Z.of_nat k /\ shtxhi r = Z.of_nat k + 1.

(** The reference is to the one place in row [i], column [j] of one sheet
    (book.py l.214-224). *)
Definition on_place (r : ref3d) (k : nat) (i j : Z) : Prop :=
  r = mkref (Z.of_nat k) (Z.of_nat k + 1) i (i + 1) j (j + 1).

(** The sheet has this cell there, sheet.py l.404-416; a negative index counts
    from the end. *)
Definition has_cell (sh : sheet) (i j t : Z) (v : val) : Prop :=
  (exists ts, at_index (sh_types sh) i ts /\ at_index ts j t) /\
  (exists vs, at_index (sh_values sh) i vs /\ at_index vs j v).

(** The indices from [lo] up to [hi] that are below [n], as bounds [a] and [b]:
    what "usable" means, book.py l.249-254. *)
Definition usable (lo hi n a b : Z) : Prop :=
  0 <= a <= b /\ b <= n /\ (lo <= n -> a = lo) /\ forall i, a <= i < b <-> lo <= i < hi /\ 0 <= i < n.

(** Numbers of rows and columns are not negative. *)
Definition sized (wb : book) : Prop := Forall (fun sh => 0 <= sh_nrows sh /\ 0 <= sh_ncols sh) (bk_sheets wb).
