(** * Model of channelpack/datautils.py *)

From Verif Require Import PyBase PyFloat NumPy.

(** masked(a, b), channelpack/datautils.py l.8-31. *)
Definition masked (a b : arr) : res arr :=
  match akind a with
  | Ki | Ku | Kf | Kc => np_where_fill b a Kf (VFloat fnan)       (* l.28-29 *)
  | _ => np_where_fill b a KO VNone                               (* l.30-31 *)
  end.

(** Loop of startstop_bool, channelpack/datautils.py l.62-75; [started] is
    the loop variable. *)
Fixpoint startstop_loop (started : bool) (l : list (val * val)) : list bool :=
  match l with
  | [] => []
  | (start, stop) :: l' =>
      if truthy stop then                                  (* l.64 *)
        let started := if started then false else started in
        false :: startstop_loop started l'                 (* l.67 *)
      else if truthy start then                            (* l.68 *)
        let started := if negb started then true else started in
        true :: startstop_loop started l'                  (* l.71 *)
      else if started then true :: startstop_loop started l'   (* l.72-73 *)
      else false :: startstop_loop started l'              (* l.75 *)
  end.

(** startstop_bool(startb, stopb), channelpack/datautils.py l.34-75. *)
Definition startstop_bool (startb stopb : list val) : list bool :=
  startstop_loop false (zip startb stopb).

(** Loop state of slicelist: the collected slices, started, start, e
    (channelpack/datautils.py l.83-92). *)
Fixpoint slicelist_loop (i : nat) (b : list val)
    (acc : list (nat * nat)) (started : bool) (start : nat) (e : bool)
  : list (nat * nat) * nat * bool :=
  match b with
  | [] => (acc, start, e)
  | v :: b' =>
      let e := truthy v in
      if (negb started && e)%bool then slicelist_loop (S i) b' acc true i e        (* l.87-89 *)
      else if (started && negb e)%bool then
        slicelist_loop (S i) b' (acc ++ [(start, i)]) false start e                 (* l.90-92 *)
      else slicelist_loop (S i) b' acc started start e
  end.

(** slicelist(b), channelpack/datautils.py l.78-97. At the end of the loop
    i + 1 is the length of b (l.95); a slice is a pair (start, stop). *)
Definition slicelist (b : arr) : list (nat * nat) :=
  let '(acc, start, e) := slicelist_loop 0 (aelems b) [] false 0 false in
  if e then acc ++ [(start, alen b)] else acc.                                      (* l.94-95 *)
