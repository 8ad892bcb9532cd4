(** * Widths of columns: specification *)

From Coq Require Import ZArith.
From Verif Require Import PyBase SpecView.
Open Scope Z_scope.

(** A COLINFO record (125) that is in order and covers column [c]; the last column may
    be given as 256, sheet.py l.1015-1017. *)
Definition covers (c : Z) (r : Z * str) : Prop :=
  fst r = 125 /\ word (snd r) 0 <= c <= word (snd r) 2 /\ word (snd r) 2 <= 256.
(** DEFCOLWIDTH, STANDARDWIDTH and GCW records. *)
Definition is_default (r : Z * str) : Prop := fst r = 85.
Definition is_standard (r : Z * str) : Prop := fst r = 153.
Definition is_gcw (r : Z * str) : Prop := fst r = 171.

(** What the records tell: the width for column [c], the widths for all columns, and
    whether the bit for [c] is set in the last GCW record, where 32 columns
    make a number of four bytes. *)
Definition own (l : list (Z * str)) (c : Z) (w : option Z) : Prop := told (covers c) l (fun d x => x = Some (word d 4)) None w.
(** From DEFCOLWIDTH, in characters. *)
Definition common (l : list (Z * str)) (w : option Z) : Prop := told is_default l (fun d x => x = Some (word d 0)) None w.
(** From STANDARDWIDTH. *)
Definition standard (l : list (Z * str)) (w : option Z) : Prop := told is_standard l (fun d x => x = Some (word d 0)) None w.
(** From GCW. *)
Definition global (l : list (Z * str)) (c : Z) (b : bool) : Prop :=
  told is_gcw l (fun d x => exists i j, (i < 8)%nat /\ 0 <= j < 32 /\ c = 32 * Z.of_nat i + j /\
    x = Z.testbit (word d (2 + 4 * i) + 65536 * word d (4 + 4 * i)) j) false b.

(** The first width there is: in characters of 256 units, eight if nothing is
    told, sheet.py l.1741-1744, 2344-2372. *)
Inductive first_of : list (option Z) -> option Z -> Z -> Prop :=
| first_here : forall z l d, first_of (Some z :: l) d z
| first_later : forall l d z, first_of l d z -> first_of (None :: l) d z
| first_default : forall d, first_of [] (Some d) (256 * d)
| first_nothing : first_of [] None 2048.
