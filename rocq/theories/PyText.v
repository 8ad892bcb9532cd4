(** * Splitting text

    Pieces of Python's str/bytes methods used by the readers. *)

From Verif Require Import PyBase.

(** s.split(c) for one character c: always at least one piece
    (channelpack/readxl.py l.163, 170; channelpack/readtext.py l.472). *)
Fixpoint split_on (c : N) (s : str) : list str :=
  match s with
  | [] => [[]]
  | x :: s' =>
      if N.eqb x c then [] :: split_on c s'
      else match split_on c s' with
           | f :: r => (x :: f) :: r
           | [] => [[x]]                                   (* not reachable *)
           end
  end.

(** range(a, b) (channelpack/readxl.py l.139, 171). *)
Definition zrange (a b : Z) : list Z :=
  map (fun i => (a + Z.of_nat i)%Z) (seq 0 (Z.to_nat (b - a))).
