(** * Model of ChannelPack.__repr__ (channelpack/pack.py l.603-616)

    How numpy prints an array and Python a value are not modelled: they are
    the arguments [repr_arr] and [repr_val]. *)

From Verif Require Import PyBase PyFloat NumPy Pack.

(** sep.join(l), channelpack/pack.py l.611, 613. *)
Fixpoint str_join (sep : str) (l : list str) : str :=
  match l with
  | [] => []
  | [s] => s
  | s :: l' => s ++ sep ++ str_join sep l'
  end.

(** sep.join(str(key) + ': ' + repr(d[key]) for key in sorted(d.keys())),
    channelpack/pack.py l.611-614. *)
Definition keyvalstr {V} (rv : V -> str) (sep : str) (d : dict V) : str :=
  str_join sep (map (fun key => str_of_Z key ++ lit ": " ++
                            match dget key d with
                            | Some v => rv v
                            | None => []         (* not reachable: key is a key of d *)
                            end) (zsort (dkeys d))).

(** A newline and blanks, the join strings of channelpack/pack.py l.609-610. *)
Definition datjoinstr : str := lit "," ++ [10%N] ++ lit "      ".
(** The join string of the names (channelpack/pack.py l.610). *)
Definition nmjoinstr : str := lit "," ++ [10%N] ++ lit "       ".

(** __repr__(), channelpack/pack.py l.603-616; the doubled braces of the
    format string (l.608) are single braces in the result. *)
Definition pack_repr (repr_arr : arr -> str) (repr_val : val -> str) (p : pack) : str :=
  lit "ChannelPack(" ++ [10%N] ++ lit "data={" ++ keyvalstr repr_arr datjoinstr (p_data p) ++
  lit "}," ++ [10%N] ++ lit "names={" ++ keyvalstr repr_val nmjoinstr (p_names p) ++ lit "})".
