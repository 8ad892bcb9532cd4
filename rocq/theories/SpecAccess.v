(** * Specification of access to cells: indices and slices as of Python lists *)

From Coq Require Import ZArith.
From Verif Require Import PyBase PyFloat NumPy ReadXl.
Open Scope Z_scope.

(** Index [i] of a list of [n] elements means position [k]. *)
Definition means (n i : Z) (k : nat) : Prop :=
  0 <= i < n /\ k = Z.to_nat i \/ - n <= i < 0 /\ k = Z.to_nat (n + i).

(** [x] is the element of [l] with index [i]. *)
Definition at_index {A} (l : list A) (i : Z) (x : A) : Prop :=
  exists k, means (Z.of_nat (length l)) i k /\ nth_error l k = Some x.

(** The bound [i] of a slice lies before position [k] of [n]. *)
Definition lies (n i : Z) (k : nat) : Prop :=
  0 <= i <= n /\ k = Z.to_nat i \/ n < i /\ k = Z.to_nat n \/
  - n <= i < 0 /\ k = Z.to_nat (n + i) \/ i < - n /\ k = 0%nat.

(** [part] is [l] from bound [a] to bound [b], or to the end. *)
Definition sliced {A} (l : list A) (a : Z) (b : option Z) (part : list A) : Prop :=
  exists x y, lies (Z.of_nat (length l)) a x /\
    match b with Some b => lies (Z.of_nat (length l)) b y | None => y = length l end /\
    length part = (y - x)%nat /\ forall k, (k < y - x)%nat -> nth_error part k = nth_error l (x + k).

(** Types and values in the same places, in [nrows] rows that may differ in length. *)
Definition matched (sh : sheet) : Prop :=
  sh_nrows sh = Z.of_nat (length (sh_values sh)) /\
  Forall2 (fun ts vs => length ts = length vs) (sh_types sh) (sh_values sh).

(** [part] are the elements with index [c] of the rows from [a] to [b]. *)
Definition down {A} (g : list (list A)) (c a : Z) (b : option Z) (part : list A) : Prop :=
  exists rows, sliced g a b rows /\ Forall2 (fun row x => at_index row c x) rows part.
(** Some row from [a] to [b] has no element with index [c]. *)
Definition gap {A} (g : list (list A)) (c a : Z) (b : option Z) : Prop :=
  exists rows row, sliced g a b rows /\ In row rows /\ forall x, ~ at_index row c x.

(** [i] is the first position of [name]. *)
Definition first_name (names : list str) (name : str) (i : nat) : Prop :=
  nth_error names i = Some name /\ forall j, (j < i)%nat -> nth_error names j <> Some name.
