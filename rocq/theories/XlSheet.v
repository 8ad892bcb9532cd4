(** * Building a sheet cell by cell: channelpack/xlrd/sheet.py

    The grids of a Sheet under construction, put_cell in its two variants and
    tidy_dimensions. Row and column arguments are ints; negative ones index
    from the end as in Python (no reader makes them: BIFF fields are unsigned
    and xlsx.py l.598, 627 assert). Messages to the logfile are not
    modelled. *)

From Verif Require Import PyBase PyFloat NumPy ReadXl.
Open Scope Z_scope.

(** What a Sheet takes from its book: ragged_rows, formatting_info,
    _xf_index_to_xl_type_map (sheet.py l.330-336), and utter_max_rows,
    utter_max_cols (l.391-395; xlsx.py l.364-365). *)
Record setup := mksetup {
  su_ragged : bool;
  su_fmt : bool;
  su_types : dict Z;
  su_max_rows : Z;
  su_max_cols : Z
}.

(** nrows, ncols, _cell_types, _cell_values, _cell_xf_indexes and
    _first_full_rowx (sheet.py l.337-345, 397). The arrays of types and of
    xf indexes are lists of ints (array 'B' and 'h'; a type outside 0..255 or
    an xf index outside 16 bits would be an OverflowError). *)
Record grid := mkgrid {
  g_nrows : Z;
  g_ncols : Z;
  g_types : list (list Z);
  g_values : list (list val);
  g_xfs : list (list Z);
  g_full : Z
}.

(** A new Sheet, sheet.py l.337-345, 397. *)
Definition new_grid : grid := mkgrid 0 0 [] [] [] (-1).

(** l[i] = x (sheet.py l.721). *)
Definition py_set {A} (l : list A) (i : Z) (x : A) : res (list A) :=
  let n := Z.of_nat (length l) in
  let j := if i <? 0 then i + n else i in
  if (0 <=? j) && (j <? n)
  then Ok (firstn (Z.to_nat j) l ++ x :: skipn (S (Z.to_nat j)) l)
  else Err IndexError.

(** grid[rowx][colx] = x (sheet.py l.721-724, 775-778). *)
Definition cell_set {A} (g : list (list A)) (rowx colx : Z) (x : A) : res (list (list A)) :=
  match py_index g rowx with
  | None => Err IndexError
  | Some row => do row' <- py_set row colx x; py_set g rowx row'
  end.

(** The three assignments in their order, sheet.py l.721-724, 775-778: the
    grid afterwards and the outcome. *)
Definition store (su : setup) (g : grid) (rowx colx ctype : Z) (value : val) (xf : Z)
  : grid * res unit :=
  match cell_set (g_types g) rowx colx ctype with
  | Err e => (g, Err e)
  | Ok ts =>
      let g := mkgrid (g_nrows g) (g_ncols g) ts (g_values g) (g_xfs g) (g_full g) in
      match cell_set (g_values g) rowx colx value with
      | Err e => (g, Err e)
      | Ok vs =>
          let g := mkgrid (g_nrows g) (g_ncols g) ts vs (g_xfs g) (g_full g) in
          if su_fmt su then
            match cell_set (g_xfs g) rowx colx xf with
            | Err e => (g, Err e)
            | Ok xs => (mkgrid (g_nrows g) (g_ncols g) ts vs xs (g_full g), Ok tt)
            end
          else (g, Ok tt)
      end
  end.

(** [x] * n for an int n (sheet.py l.650, 757, 769). *)
Definition times {A} (x : A) (n : Z) : list A := repeat x (Z.to_nat n).

(** row.extend([x] * n) of the row rowx >= 0 (sheet.py l.754-757). *)
Definition extend_row {A} (g : list (list A)) (rowx : Z) (x : A) (n : Z) : list (list A) :=
  let r := Z.to_nat rowx in
  firstn r g ++ match nth_error g r with
                | Some row => (row ++ times x n) :: skipn (S r) g
                | None => []
                end.

(** The value of an empty cell, UNICODE_LITERAL('') (sheet.py l.650, 757). *)
Definition empty_value : val := VStr [].

(** ctype, looked up for a number (sheet.py l.656-658, 715-717). *)
Definition cell_type_in (su : setup) (ctype : option Z) (xf : Z) : res Z :=
  match ctype with
  | Some t => Ok t
  | None => match dget xf (su_types su) with Some t => Ok t | None => Err KeyError end
  end.

(** The extension of the grid, sheet.py l.729-772, after the two asserts. *)
Definition widen (rowx nc nr : Z) (g : grid) : grid :=
  if g_ncols g <? nc then
    mkgrid (g_nrows g) nc (g_types g) (g_values g) (g_xfs g)
      (if nr <? g_nrows g then -2
       else if (g_full g <? rowx) && (-2 <? g_full g) then rowx
       else g_full g)
  else g.
(** Rows added, sheet.py l.766-772. *)
Definition lengthen (su : setup) (rowx nr : Z) (g : grid) : grid :=
  if nr <=? g_nrows g then
    let nextra := g_ncols g - Z.of_nat (length (nth (Z.to_nat rowx) (g_types g) [])) in
    if 0 <? nextra then
      mkgrid (g_nrows g) (g_ncols g)
        (extend_row (g_types g) rowx XL_CELL_EMPTY nextra)
        (extend_row (g_values g) rowx empty_value nextra)
        (if su_fmt su then extend_row (g_xfs g) rowx (-1) nextra else g_xfs g)
        (g_full g)
    else g
  else
    let n := nr - g_nrows g in
    mkgrid nr (g_ncols g)
      (g_types g ++ times (times XL_CELL_EMPTY (g_ncols g)) n)
      (g_values g ++ times (times empty_value (g_ncols g)) n)
      (if su_fmt su then g_xfs g ++ times (times (-1) (g_ncols g)) n else g_xfs g)
      (g_full g).

(** put_cell_unragged, sheet.py l.714-784. *)
Definition put_cell_unragged (su : setup) (rowx colx : Z) (ctype : option Z) (value : val) (xf : Z)
  (g : grid) : grid * res unit :=
  match cell_type_in su ctype xf with
  | Err e => (g, Err e)
  | Ok t =>
      match store su g rowx colx t value xf with
      | (g, Ok _) => (g, Ok tt)
      | (g, Err _) =>                                        (* IndexError, l.725 *)
          let nr := rowx + 1 in
          let nc := colx + 1 in
          if negb ((1 <=? nc) && (nc <=? su_max_cols su)) then (g, Err AssertionError)
          else if negb ((1 <=? nr) && (nr <=? su_max_rows su)) then (g, Err AssertionError)
          else store su (lengthen su rowx nr (widen rowx nc nr g)) rowx colx t value xf
      end
  end.

(** A row after l.684-707 of put_cell_ragged: the value at colx >= 0. *)
Definition ragged_set {A} (empty : A) (row : list A) (colx : Z) (x : A) : list A :=
  let num_empty := colx - Z.of_nat (length row) in
  if num_empty =? 0 then row ++ [x]
  else let row := if 0 <? num_empty then row ++ times empty (num_empty + 1) else row in
       firstn (Z.to_nat colx) row ++ x :: skipn (S (Z.to_nat colx)) row.

(** The row rowx >= 0 of a grid replaced (sheet.py l.678-707). *)
Definition on_row {A} (f : list A -> list A) (g : list (list A)) (rowx : Z) : list (list A) :=
  let r := Z.to_nat rowx in
  firstn r g ++ match nth_error g r with
                | Some row => f row :: skipn (S r) g
                | None => []
                end.

(** put_cell_ragged, sheet.py l.655-712. *)
Definition put_cell_ragged (su : setup) (rowx colx : Z) (ctype : option Z) (value : val) (xf : Z)
  (g : grid) : grid * res unit :=
  match cell_type_in su ctype xf with
  | Err e => (g, Err e)
  | Ok t =>
      if negb ((0 <=? colx) && (colx <? su_max_cols su)) then (g, Err AssertionError)
      else if negb ((0 <=? rowx) && (rowx <? su_max_rows su)) then (g, Err AssertionError)
      else
        let nr := rowx + 1 in
        let g := if g_nrows g <? nr then
                   let n := nr - g_nrows g in
                   mkgrid nr (g_ncols g) (g_types g ++ times [] n) (g_values g ++ times [] n)
                     (if su_fmt su then g_xfs g ++ times [] n else g_xfs g) (g_full g)
                 else g in
        (mkgrid (g_nrows g) (if g_ncols g <=? colx then colx + 1 else g_ncols g)
           (on_row (fun row => ragged_set XL_CELL_EMPTY row colx t) (g_types g) rowx)
           (on_row (fun row => ragged_set empty_value row colx value) (g_values g) rowx)
           (if su_fmt su then on_row (fun row => ragged_set (-1) row colx xf) (g_xfs g) rowx
            else g_xfs g)
           (g_full g), Ok tt)
  end.

(** self.put_cell, sheet.py l.332-335. *)
Definition put_cell (su : setup) := if su_ragged su then put_cell_ragged su else put_cell_unragged su.

(** A call of put_cell (sheet.py l.714). *)
Record put := mkput { pt_row : Z; pt_col : Z; pt_type : option Z; pt_value : val; pt_xf : Z }.

(** Calls one after the other until one raises (sheet.py l.714-784). *)
Fixpoint put_all (su : setup) (l : list put) (g : grid) : grid * res unit :=
  match l with
  | [] => (g, Ok tt)
  | p :: l' =>
      match put_cell su (pt_row p) (pt_col p) (pt_type p) (pt_value p) (pt_xf p) g with
      | (g, Ok _) => put_all su l' g
      | r => r
      end
  end.

(** A merged range (rlo, rhi, clo, chi), sheet.py l.606. *)
Definition mrange := (Z * Z * Z * Z)%type.

(** nr and nc, sheet.py l.601-613; a bad range only gives a message. *)
Definition merged_rows (l : list mrange) : Z :=
  fold_left (fun nr c => let '(rlo, rhi, clo, chi) := c in if nr <? rhi then rhi else nr) l 0.
(** nc, sheet.py l.601-612. *)
Definition merged_cols (l : list mrange) : Z :=
  fold_left (fun nc c => let '(rlo, rhi, clo, chi) := c in if nc <? chi then chi else nc) l 0.

(** row[rlen:] = [x] * nextra for the rows below ubound, sheet.py l.641-653;
    nextra is computed from the row of types. *)
Fixpoint fix_rows {A B} (ubound : nat) (ncols : Z) (x : A) (types : list (list B)) (g : list (list A))
  : list (list A) :=
  match ubound, types, g with
  | S n, trow :: types', row :: g' =>
      let rlen := length trow in
      let nextra := ncols - Z.of_nat rlen in
      (if 0 <? nextra then firstn rlen row ++ times x nextra else row)
        :: fix_rows n ncols x types' g'
  | _, _, _ => g
  end.

(** tidy_dimensions, sheet.py l.594-653. *)
Definition tidy (su : setup) (merged : list mrange) (g : grid) : grid * res unit :=
  let '(g, r) :=
    match merged with
    | [] => (g, Ok tt)
    | _ =>
        let nr := merged_rows merged in
        let nc := merged_cols merged in
        let g := if g_ncols g <? nc
                 then mkgrid (g_nrows g) nc (g_types g) (g_values g) (g_xfs g) (-2)
                 else g in
        if g_nrows g <? nr
        then put_cell su (nr - 1) 0 (Some XL_CELL_EMPTY) empty_value (-1) g
        else (g, Ok tt)
    end in
  match r with
  | Err e => (g, Err e)
  | Ok _ =>
      if su_ragged su then (g, Ok tt)
      else
        let ubound := Z.to_nat (if g_full g =? -2 then g_nrows g else g_full g) in
        (mkgrid (g_nrows g) (g_ncols g)
           (fix_rows ubound (g_ncols g) XL_CELL_EMPTY (g_types g) (g_types g))
           (fix_rows ubound (g_ncols g) empty_value (g_types g) (g_values g))
           (if su_fmt su then fix_rows ubound (g_ncols g) (-1) (g_types g) (g_xfs g) else g_xfs g)
           (g_full g), Ok tt)
  end.

(** A sheet made by a reader: the calls in the order of the file, the merged
    ranges, and the tidying at the end (sheet.py l.789-1505; xlsx.py l.828). *)
Definition build (su : setup) (l : list put) (merged : list mrange) : res grid :=
  match put_all su l new_grid with
  | (_, Err e) => Err e
  | (g, Ok _) => match tidy su merged g with
                 | (_, Err e) => Err e
                 | (g, Ok _) => Ok g
                 end
  end.

(** What readxl.py uses of it (sheet.py l.418-420, 553-587). *)
Definition sheet_of (g : grid) : sheet := mksheet (g_nrows g) (g_ncols g) (g_values g) (g_types g).

(** Cells out of order, one overwritten, a number typed by its format, a
    merged range. *)
Example build_ex :
  match build (mksetup false true [(15, 3)] 65536 256)
          [mkput 1 1 (Some 2) (VInt 7) 0; mkput 0 3 (Some 1) (VStr (lit "a")) 2;
           mkput 1 1 None (VInt 8) 15; mkput 2 0 (Some 2) (VInt 9) 0] [(0, 4, 1, 2)] with
  | Ok g => g_types g = [[0; 0; 0; 1]; [0; 3; 0; 0]; [2; 0; 0; 0]; [0; 0; 0; 0]] /\
            map (fun r => nth 1 r VNone) (g_values g) = [VStr []; VInt 8; VStr []; VStr []] /\
            g_xfs g = [[-1; -1; -1; 2]; [-1; 15; -1; -1]; [0; -1; -1; -1]; [-1; -1; -1; -1]]
  | Err _ => False
  end.
Proof. vm_compute. auto. Qed.
