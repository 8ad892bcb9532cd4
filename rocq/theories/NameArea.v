(** * Cells and areas of names

    channelpack/xlrd/book.py l.214-285, channelpack/xlrd/formula.py l.534-689;
    for books of which all sheets are loaded. The dump of the name that goes to
    the log file before XLRDError is raised is left out. *)

From Coq Require Import ZArith.
From Verif Require Import PyBase PyText PyFloat NumPy CompDoc ReadXl XlAccess XlNames.
Open Scope Z_scope.

(** A Ref3D, formula.py l.626-683: the lower bounds are part of it, the upper
    ones not. *)
Record ref3d := mkref {
  shtxlo : Z; shtxhi : Z; rowxlo : Z; rowxhi : Z; colxlo : Z; colxhi : Z }.

(** Name.result, book.py l.206-212, as far as it matters here: None, or the kind
    of an Operand and its value, which is None or, for references, a list of
    Ref3D objects (formula.py l.534-623). The value of another kind is not looked
    at. An Operand is true, as it has no __len__. *)
Definition result : Type := option (okind * option (list ref3d)).

(** kind == oREF and len(value) == 1, with what value[0] is, book.py l.230-231,
    265-266; None if not. *)
Definition only_ref (res : result) : PyBase.res (option ref3d) :=
  match res with
  | None => Ok None
  | Some (kind, value) =>
      if kind_eqb kind oREF then
        match value with
        | None => Err TypeError
        | Some [r] => Ok (Some r)
        | Some _ => Ok None
        end
      else Ok None
  end.

(** Name.cell, book.py l.214-242. *)
Definition name_cell (wb : book) (res : result) : PyBase.res cell :=
  do r <- only_ref res;
  match r with
  | None => Err XLRDError
  | Some r =>
      if ((0 <=? shtxlo r) && (shtxlo r =? shtxhi r - 1)) && (rowxlo r =? rowxhi r - 1) && (colxlo r =? colxhi r - 1) then
        do sh <- sheet_by_index wb (shtxlo r);
        sheet_cell sh (rowxlo r) (colxlo r)
      else Err XLRDError
  end.

(** Name.area2d, book.py l.244-285: the sheet and the bounds of rows and
    columns. *)
Definition name_area2d (wb : book) (res : result) (clipped : bool) : PyBase.res (sheet * (Z * Z * Z * Z)) :=
  do r <- only_ref res;
  match r with
  | None => Err XLRDError
  | Some r =>
      if (0 <=? shtxlo r) && (shtxlo r =? shtxhi r - 1) then
        do sh <- sheet_by_index wb (shtxlo r);
        if negb clipped then Ok (sh, (rowxlo r, rowxhi r, colxlo r, colxhi r))
        else
          let rowlo := Z.min (rowxlo r) (sh_nrows sh) in
          let rowhi := Z.max rowlo (Z.min (rowxhi r) (sh_nrows sh)) in
          let collo := Z.min (colxlo r) (sh_ncols sh) in
          let colhi := Z.max collo (Z.min (colxhi r) (sh_ncols sh)) in
          if negb ((0 <=? rowlo) && (rowlo <=? rowhi) && (rowhi <=? sh_nrows sh)) then Err AssertionError
          else if negb ((0 <=? collo) && (collo <=? colhi) && (colhi <=? sh_ncols sh)) then Err AssertionError
          else Ok (sh, (rowlo, rowhi, collo, colhi))
      else Err XLRDError
  end.
