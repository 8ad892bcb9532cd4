(** * Access to the cells of a sheet

    channelpack/xlrd/sheet.py l.404-589, channelpack/xlrd/book.py l.452-507, for
    books opened as readxl.py does (formatting_info is false, all sheets are
    loaded). *)

From Coq Require Import ZArith.
From Verif Require Import PyBase PyText PyFloat NumPy CompDoc ReadXl.
Open Scope Z_scope.

(** A Cell: ctype and value; xf_index is None (sheet.py l.2324-2327, 408-416). *)
Definition cell : Type := Z * val.

(** sheet.py l.404-416. *)
Definition sheet_cell (sh : sheet) (rowx colx : Z) : res cell :=
  do t <- grid_at (sh_types sh) rowx colx;
  do v <- grid_at (sh_values sh) rowx colx;
  Ok (t, v).

(** sheet.py l.422-428; cell_value, l.418-420, is in ReadXl.v. *)
Definition cell_type (sh : sheet) (rowx colx : Z) : res Z := grid_at (sh_types sh) rowx colx.

(** cell_xf_index without formatting_info, sheet.py l.437, 1702-1704. *)
Definition cell_xf_index (sh : sheet) (rowx colx : Z) : res Z := Err XLRDError.

(** grid[rowx], sheet.py l.469, 477, 506-507, 514-515. *)
Definition grid_row {A} (g : list (list A)) (rowx : Z) : res (list A) :=
  match py_index g rowx with Some row => Ok row | None => Err IndexError end.

(** sheet.py l.461-469. *)
Definition row_len (sh : sheet) (rowx : Z) : res Z :=
  do row <- grid_row (sh_values sh) rowx; Ok (Z.of_nat (length row)).

(** sheet.py l.471-478. *)
Definition sheet_row (sh : sheet) (rowx : Z) : res (list cell) :=
  do n <- row_len sh rowx;
  mapM (sheet_cell sh rowx) (zrange 0 n).

(** sheet.py l.480-492: an index or a pair of them. *)
Definition sheet_item (sh : sheet) (item : Z + Z * Z) : res (list cell + cell) :=
  match item with
  | inl rowx => do cells <- sheet_row sh rowx; Ok (inl cells)
  | inr (rowx, colx) => do c <- sheet_cell sh rowx colx; Ok (inr c)
  end.

(** The rows of get_rows, sheet.py l.494-499; the generator is run to its end. *)
Definition get_rows (sh : sheet) : res (list (list cell)) := mapM (sheet_row sh) (zrange 0 (sh_nrows sh)).

(** l[start:end], with end None or an int, sheet.py l.505-507, 513-515. *)
Definition open_slice {A} (l : list A) (start : Z) (stop : option Z) : list A :=
  match stop with
  | None => pyslice l start (Z.of_nat (length l))
  | Some e => pyslice l start e
  end.

(** sheet.py l.501-507. *)
Definition row_types (sh : sheet) (rowx start : Z) (stop : option Z) : res (list Z) :=
  do row <- grid_row (sh_types sh) rowx; Ok (open_slice row start stop).
(** sheet.py l.509-515. *)
Definition row_values (sh : sheet) (rowx start : Z) (stop : option Z) : res (list val) :=
  do row <- grid_row (sh_values sh) rowx; Ok (open_slice row start stop).

(** The range of indices of row_slice and the three functions for columns,
    sheet.py l.522-532, 540-550, 558-568, 576-586. *)
Definition slice_range (n start : Z) (stop : option Z) : list Z :=
  let start := if start <? 0
               then let s := start + n in if s <? 0 then 0 else s
               else start in
  let stop := match stop with
              | None => n
              | Some e => if n <? e then n else if e <? 0 then e + n else e
              end in
  zrange start stop.

(** sheet.py l.517-533. *)
Definition row_slice (sh : sheet) (rowx start : Z) (stop : option Z) : res (list cell) :=
  do nc <- row_len sh rowx;
  mapM (sheet_cell sh rowx) (slice_range nc start stop).

(** sheet.py l.535-551; the same is col, l.589. *)
Definition col_slice (sh : sheet) (colx start : Z) (stop : option Z) : res (list cell) :=
  mapM (fun rowx => sheet_cell sh rowx colx) (slice_range (sh_nrows sh) start stop).
(** sheet.py l.553-569. With [stop] given this is [ReadXl.col_values]. *)
Definition column_values (sh : sheet) (colx start : Z) (stop : option Z) : res (list val) :=
  mapM (fun rowx => grid_at (sh_values sh) rowx colx) (slice_range (sh_nrows sh) start stop).
(** sheet.py l.571-587. With [stop] given this is [ReadXl.col_types]. *)
Definition column_types (sh : sheet) (colx start : Z) (stop : option Z) : res (list Z) :=
  mapM (fun rowx => grid_at (sh_types sh) rowx colx) (slice_range (sh_nrows sh) start stop).

(** book.py l.478-487. *)
Definition sheet_by_name (wb : book) (name : str) : res sheet :=
  match name_index name (bk_names wb) with
  | Some i => sheet_by_index wb (Z.of_nat i)
  | None => Err XLRDError
  end.

(** book.py l.489-498. *)
Definition book_item (wb : book) (item : Z + str) : res sheet :=
  match item with
  | inl i => sheet_by_index wb i
  | inr name => sheet_by_name wb name
  end.

(** book.py l.470-476, the generator run to its end; nsheets is the length of
    _sheet_list (book.py l.123, xlsx.py l.366-368). *)
Definition book_iter (wb : book) : res (list sheet) :=
  mapM (sheet_by_index wb) (zrange 0 (Z.of_nat (length (bk_sheets wb)))).
