(** * Specification of the printed form of a pack

    Written without the definitions of the model: an integer as text is the
    sign and the digits without leading zeros, and a listing is the items of a
    map in ascending order of their keys. *)

From Verif Require Import PyBase.
From Coq Require Import Sorting.Sorted Sorting.Permutation.

(** The number a run of digits stands for, most significant digit first. *)
Definition digits_number (s : str) : Z :=
  fold_left (fun n c => 10 * n + (Z.of_N c - 48))%Z s 0%Z.

(** [s] is the decimal text of the number [z]: digits only, no leading zero
    but for zero itself, a minus sign in front when negative. *)
Definition decimal (z : Z) (s : str) : Prop :=
  exists digits,
    Forall (fun c => 48 <= c <= 57)%N digits /\ digits <> [] /\
    (hd 48%N digits = 48%N -> digits = [48%N]) /\
    digits_number digits = Z.abs z /\
    s = (if (z <? 0)%Z then [45%N] else []) ++ digits.

(** The listing of items: key, colon, blank, value; [sep] between items. *)
Inductive listing {V} (render : V -> str) (sep : str) : list (Z * V) -> str -> Prop :=
| Listing_nil : listing render sep [] []
| Listing_one : forall k v t, decimal k t ->
    listing render sep [(k, v)] (t ++ [58; 32]%N ++ render v)
| Listing_cons : forall k v t kv l s, decimal k t -> listing render sep (kv :: l) s ->
    listing render sep ((k, v) :: kv :: l) (t ++ [58; 32]%N ++ render v ++ sep ++ s).

(** The items of a map in ascending order of their keys. *)
Definition ascending {V} (items : list (Z * V)) (m : list (Z * V)) : Prop :=
  Permutation items m /\ StronglySorted (fun a b => (fst a < fst b)%Z) items.
