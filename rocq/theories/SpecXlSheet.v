(** * What a sheet built cell by cell should hold

    Said of the calls alone; [put], [setup] and [mrange] are the argument
    records of XlSheet.v. *)

From Verif Require Import PyBase PyFloat NumPy ReadXl XlSheet.
Open Scope Z_scope.

(** The last call for the cell (r, c). *)
Definition at_cell (r c : Z) (p : put) : bool := (pt_row p =? r) && (pt_col p =? c).
Definition latest (l : list put) (r c : Z) : option put := find (at_cell r c) (rev l).

(** The largest of some numbers, 0 without any. *)
Definition largest (l : list Z) : Z := fold_right Z.max 0 l.

(** One past the largest row and column of the calls, and of those in one row. *)
Definition height (l : list put) : Z := largest (map (fun p => pt_row p + 1) l).
Definition width (l : list put) : Z := largest (map (fun p => pt_col p + 1) l).
Definition row_width (l : list put) (r : Z) : Z := width (filter (fun p => pt_row p =? r) l).

(** One past the largest row and column of merged ranges. *)
Definition range_height (l : list mrange) : Z := largest (map (fun m => let '(_, rhi, _, _) := m in rhi) l).
Definition range_width (l : list mrange) : Z := largest (map (fun m => let '(_, _, _, chi) := m in chi) l).

(** Inside the limits of the file format. *)
Definition inside (su : setup) (p : put) : Prop :=
  0 <= pt_row p < su_max_rows su /\ 0 <= pt_col p < su_max_cols su.

(** The type of the cell: the one given, or the one its format stands for. *)
Inductive typed (su : setup) : put -> Z -> Prop :=
| typed_given : forall r c t v x, typed su (mkput r c (Some t) v x) t
| typed_format : forall r c v x t, dget x (su_types su) = Some t -> typed su (mkput r c None v x) t.

Definition good_put (su : setup) (p : put) : Prop := inside su p /\ exists t, typed su p t.

(** A range that is not empty and inside the limits. *)
Definition good_range (su : setup) (m : mrange) : Prop :=
  let '(rlo, rhi, clo, chi) := m in
  0 <= rlo < rhi /\ rhi <= su_max_rows su /\ 0 <= clo < chi /\ chi <= su_max_cols su.

(** The cell a sheet should show at (r, c). *)
Definition shows_value (l : list put) (r c : Z) (v : val) : Prop :=
  match latest l r c with Some p => v = pt_value p | None => v = VStr [] end.
Definition shows_type (su : setup) (l : list put) (r c t : Z) : Prop :=
  match latest l r c with Some p => typed su p t | None => t = XL_CELL_EMPTY end.
Definition shows_xf (l : list put) (r c x : Z) : Prop :=
  match latest l r c with Some p => x = pt_xf p | None => x = -1 end.

(** The n cells of column c from row r0, value and type. *)
Definition shows_column (su : setup) (l : list put) (c r0 n : Z) (cells : list (val * Z)) : Prop :=
  Z.of_nat (length cells) = n /\
  forall i v t, nth_error cells i = Some (v, t) ->
    shows_value l (r0 + Z.of_nat i) c v /\ shows_type su l (r0 + Z.of_nat i) c t.

(** No cell is put twice. *)
Definition one_call_each (l : list put) : Prop := NoDup (map (fun p => (pt_row p, pt_col p)) l).
