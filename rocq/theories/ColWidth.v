(** * Widths of columns

    channelpack/xlrd/sheet.py l.1008-1066, 1702-1744, 2340-2398. *)

From Coq Require Import ZArith.
From Verif Require Import PyBase PyText PyFloat NumPy Dbf CompDoc ReadXl XlStruct XlSheet Biff SheetView.
Open Scope Z_scope.

(** The attributes that matter, sheet.py l.100, 201, 213, 252: of colinfo_map the
    columns and widths, those set last in front; defcolwidth, standardwidth
    and gcw, the latter as bools. *)
Record widths := mkwidths {
  w_cols : list (Z * Z); w_default : option Z; w_standard : option Z; w_gcw : list bool }.

(** As in Sheet.__init__, sheet.py l.252, 346-353. *)
Definition new_widths : widths := mkwidths [] None None (repeat false 256).

(** for colx in xrange(first, last+1): if colx > 255: break, sheet.py
    l.1031-1033; [n] is last + 1 - first. *)
Fixpoint set_cols (n : nat) (colx width : Z) (cols : list (Z * Z)) : list (Z * Z) :=
  match n with
  | O => cols
  | S n => if 255 <? colx then cols else set_cols n (colx + 1) width ((colx, width) :: cols)
  end.

(** Dict.get, sheet.py l.1724. *)
Fixpoint get_col (colx : Z) (cols : list (Z * Z)) : option Z :=
  match cols with
  | [] => None
  | (c, w) :: cols => if c =? colx then Some w else get_col colx cols
  end.

(** gcw of the eight numbers of a GCW record, sheet.py l.1057-1063: [n] numbers from
    byte [pos] on. They have a sign in the code, which changes none of
    the 32 bits taken. *)
Fixpoint take_gcw (n : nat) (pos : nat) (data : str) : list bool :=
  match n with
  | O => []
  | S n => take_options 32 (le_value (bytes_at pos 4 data)) ++ take_gcw n (pos + 4) data
  end.

(** The records about widths with formatting_info, sheet.py l.1008-1066; the other
    attributes of a Colinfo are left out. [rc], [len] and [data] are as
    get_record_parts gives them. COLWIDTH and COLUMNDEFAULT, which are read up to
    BIFF4 (l.1440-1485), are not modelled: they change Colinfo objects that
    columns may share. *)
Definition width_record (bv : Z) (w : widths) (rc len : Z) (data : str) : res widths :=
  if rc =? 0x7d then                                                      (* COLINFO *)
    do _ <- sized 10 (bytes_at 0 10 data);
    let first := u16 0 data in
    let last := u16 2 data in
    if negb ((0 <=? first) && (first <=? last) && (last <=? 256)) then Ok w
    else Ok (mkwidths (set_cols (Z.to_nat (last + 1 - first)) first (u16 4 data) (w_cols w)) (w_default w) (w_standard w) (w_gcw w))
  else if rc =? 0x55 then                                                 (* DEFCOLWIDTH *)
    do _ <- sized 2 (bytes_at 0 2 data);
    Ok (mkwidths (w_cols w) (Some (u16 0 data)) (w_standard w) (w_gcw w))
  else if rc =? 0x99 then                                                 (* STANDARDWIDTH *)
    do _ <- sized 2 (bytes_at 0 2 data);
    Ok (mkwidths (w_cols w) (w_default w) (Some (u16 0 data)) (w_gcw w))
  else if rc =? 0xab then                                                 (* GCW *)
    if negb (len =? 34) then Err AssertionError
    else if negb (str_eqb (bytes_at 0 2 data) [32; 0]%N) then Err AssertionError
    else
      do _ <- sized 32 (bytes_at 2 32 data);
      Ok (mkwidths (w_cols w) (w_default w) (w_standard w) (take_gcw 8 2 data))
  else if (bv <=? 45) && ((rc =? 0x24) || (rc =? 0x20)) then Err NotModelled (* COLWIDTH, COLUMNDEFAULT *)
  else Ok w.

(** The loop over the records of a sheet, sheet.py l.811-1501, of which only these
    touch the widths; the length is that of the data. *)
Fixpoint read_widths (bv : Z) (w : widths) (l : list (Z * str)) : res widths :=
  match l with
  | [] => Ok w
  | (rc, data) :: l =>
      do w <- width_record bv w rc (Z.of_nat (length data)) data;
      read_widths bv w l
  end.

(** computed_column_width, sheet.py l.1702-1744. *)
Definition computed_column_width (fmt_info : bool) (bv : Z) (w : widths) (colx : Z) : res Z :=
  let rome := match w_default w with Some d => d * 256 | None => 8 * 256 end in
  let or_rome (x : option Z) := match x with Some z => z | None => rome end in
  if negb fmt_info then Err XLRDError
  else if 80 <=? bv then
    match get_col colx (w_cols w) with
    | Some z => Ok z
    | None => Ok (or_rome (w_standard w))
    end
  else if 40 <=? bv then
    match py_index (w_gcw w) colx with
    | None => Err IndexError
    | Some true => Ok (or_rome (w_standard w))
    | Some false => Ok (or_rome (get_col colx (w_cols w)))
    end
  else if bv =? 30 then Ok (or_rome (get_col colx (w_cols w)))
  else Ok rome.
