(** * Specification vocabulary for masks and parts

    Independent of the model: plain statements about lists of booleans. *)

From Coq Require Import List Arith.
Import ListNotations.

(** [a, b) is a maximal run of true elements of [m]. *)
Definition is_run (m : list bool) (a b : nat) : Prop :=
  a < b /\ b <= length m /\
  (forall i, a <= i < b -> nth i m false = true) /\
  (a = 0 \/ nth (a - 1) m false = false) /\
  (b = length m \/ nth b m false = false).

(** [l] lists all the maximal runs from left to right; two consecutive ones
    are separated by at least one position. *)
Definition lists_runs (m : list bool) (l : list (nat * nat)) : Prop :=
  (forall a b, In (a, b) l <-> is_run m a b) /\
  (forall i x y, nth_error l i = Some x -> nth_error l (S i) = Some y -> snd x < fst y).

(** Start/stop trigger: position [i] is on iff the last trigger at or before
    [i] which is not overridden is a start. *)
Definition trigger_on (start stop : nat -> bool) (i : nat) : Prop :=
  exists j, j <= i /\ start j = true /\ (forall k, j <= k <= i -> stop k = false).

(** [m'] is [m] with the maximal runs rejected by [bad] (given their length)
    made false, nothing else changed. *)
Definition removes_runs (bad : nat -> Prop) (m m' : list bool) : Prop :=
  length m' = length m /\
  forall i, i < length m ->
    (nth i m' false = true <->
     nth i m false = true /\
     forall a b, is_run m a b -> a <= i < b -> ~ bad (b - a)).
