(** * Access to the cells of a sheet: the property theorems *)

From Coq Require Import ZifyBool ZifyNat ZifyN QArith.
From Verif Require Import PyBase PyText PyFloat NumPy CompDoc ReadXl SpecXl XlAccess SpecAccess PyBaseFacts AccessProofs AccessThms.
Open Scope nat_scope.
Open Scope Z_scope.
(** Two rows, the second one shorter. *)
Definition ragged : sheet := mksheet 2 3
  [[VInt 10; VInt 11; VInt 12]; [VInt 20; VInt 21]] [[2; 2; 3]; [2; 4]].
(** Two rows of two cells. *)
Definition square : sheet := mksheet 2 2 [[VInt 10; VInt 11]; [VInt 20; VInt 21]] [[2; 2]; [2; 4]].
(** Three sheets, two of one name. *)
Definition three : book := mkbook [lit "a"; lit "b"; lit "a"] [ragged; square; mksheet 0 0 [] []] 0.

(** The row with index r, whichever its sign: row_values, row_types and row_slice give what a Python
slice of the values, of the types and of their pairs gives, for all bounds; row is the whole row. *)
Theorem C79_rows :
forall sh r ts vs, matched sh -> at_index (sh_types sh) r ts -> at_index (sh_values sh) r vs ->
  row_len sh r = Ok (Z.of_nat (length vs)) /\
  (forall k t v, (exists cells, sheet_row sh r = Ok cells /\ nth_error cells k = Some (t, v)) <->
                 nth_error ts k = Some t /\ nth_error vs k = Some v) /\
  forall a b,
    (forall p, row_values sh r a b = Ok p <-> sliced vs a b p) /\
    (forall p, row_types sh r a b = Ok p <-> sliced ts a b p) /\
    (forall p, row_slice sh r a b = Ok p <-> sliced (combine ts vs) a b p).
Proof. exact C79_rows_proof. Qed.
Print Assumptions C79_rows.

Example C79_rows_ex : matched ragged /\ at_index (sh_values ragged) (-2) [VInt 10; VInt 11; VInt 12] /\
  row_values ragged (-2) (-2) (Some 9) = Ok [VInt 11; VInt 12] /\
  row_slice ragged 1 (-5) (Some (-1)) = Ok [(2, VInt 20)] /\ row_slice ragged 1 7 None = Ok [].
Proof.
  split; [split; [reflexivity|repeat constructor]|]. split; [apply index_iff; reflexivity|].
  split; [reflexivity|]. split; reflexivity.
Qed.

(** And for an index that is of no row each of them raises IndexError. *)
Theorem C79_no_row :
forall sh r a b, matched sh -> ~ (- sh_nrows sh <= r < sh_nrows sh) ->
  row_len sh r = Err IndexError /\ sheet_row sh r = Err IndexError /\
  row_values sh r a b = Err IndexError /\ row_types sh r a b = Err IndexError /\ row_slice sh r a b = Err IndexError.
Proof. exact C79_no_row_proof. Qed.
Print Assumptions C79_no_row.

Example C79_no_row_ex : ~ (- sh_nrows ragged <= -3 < sh_nrows ragged) /\ row_slice ragged (-3) 5 (Some 2) = Err IndexError.
Proof. split; [simpl; lia|reflexivity]. Qed.

(** The column with index c: col_values, col_types and col_slice take the rows of a Python slice and the
element with index c of each, also where rows differ in length; they fail, with IndexError, exactly
when one of these rows has no such element. *)
Theorem C79_columns :
forall sh c a b, matched sh ->
  (forall p, column_values sh c a b = Ok p <-> down (sh_values sh) c a b p) /\
  (forall p, column_types sh c a b = Ok p <-> down (sh_types sh) c a b p) /\
  (forall p, col_slice sh c a b = Ok p <->
     exists pt pv, down (sh_types sh) c a b pt /\ down (sh_values sh) c a b pv /\ p = combine pt pv) /\
  (forall e, column_values sh c a b = Err e <-> e = IndexError /\ gap (sh_values sh) c a b) /\
  (forall e, column_types sh c a b = Err e <-> e = IndexError /\ gap (sh_types sh) c a b) /\
  (forall e, col_slice sh c a b = Err e -> e = IndexError).
Proof. exact C79_columns_proof. Qed.
Print Assumptions C79_columns.

Example C79_columns_ex : column_values ragged (-1) 0 None = Ok [VInt 12; VInt 21] /\
  col_slice ragged 1 (-1) None = Ok [(4, VInt 21)] /\ column_values ragged 2 0 None = Err IndexError /\
  column_values ragged 2 0 (Some (-1)) = Ok [VInt 12] /\ column_values ragged 99 1 (Some 1) = Ok [].
Proof. split; [reflexivity|]. split; [reflexivity|]. split; [reflexivity|]. split; reflexivity. Qed.

(** The column that readxl reads, with the row where it ends, is that column. *)
Theorem C79_readxl :
forall sh c a b, matched sh ->
  (forall p, col_values sh c a b = Ok p <-> down (sh_values sh) c a (Some b) p) /\
  (forall p, col_types sh c a b = Ok p <-> down (sh_types sh) c a (Some b) p).
Proof. exact C79_readxl_proof. Qed.
Print Assumptions C79_readxl.

Example C79_readxl_ex : col_values square (-1) 0 2 = Ok [VInt 11; VInt 21] /\ col_types square 1 (-1) 2 = Ok [4].
Proof. split; reflexivity. Qed.

(** cell, cell_value and cell_type agree with each other and fail with IndexError only; without
formatting_info there is no cell_xf_index. sheet[r] is the row and sheet[r, c] the cell. *)
Theorem C79_cells :
forall sh r c,
  (forall v, cell_value sh r c = Ok v <-> exists row, at_index (sh_values sh) r row /\ at_index row c v) /\
  (forall t, cell_type sh r c = Ok t <-> exists row, at_index (sh_types sh) r row /\ at_index row c t) /\
  (forall t v, sheet_cell sh r c = Ok (t, v) <-> cell_type sh r c = Ok t /\ cell_value sh r c = Ok v) /\
  (forall e, cell_value sh r c = Err e \/ cell_type sh r c = Err e \/ sheet_cell sh r c = Err e -> e = IndexError) /\
  cell_xf_index sh r c = Err XLRDError /\
  (forall cells, sheet_item sh (inl r) = Ok (inl cells) <-> sheet_row sh r = Ok cells) /\
  (forall d, sheet_item sh (inr (r, c)) = Ok (inr d) <-> sheet_cell sh r c = Ok d).
Proof. exact C79_cells_proof. Qed.
Print Assumptions C79_cells.

Example C79_cells_ex : sheet_item ragged (inr (-1, -1)) = Ok (inr (4, VInt 21)) /\
  sheet_item ragged (inl 1) = Ok (inl [(2, VInt 20); (4, VInt 21)]) /\ cell_value ragged 1 2 = Err IndexError.
Proof. split; [reflexivity|]. split; reflexivity. Qed.

(** A sheet iterates over its rows, from the first to the last. *)
Theorem C79_iteration :
forall sh, matched sh -> exists rows, get_rows sh = Ok rows /\ Z.of_nat (length rows) = sh_nrows sh /\
  forall k row, nth_error rows k = Some row <->
    exists ts vs, nth_error (sh_types sh) k = Some ts /\ nth_error (sh_values sh) k = Some vs /\ row = combine ts vs.
Proof. exact C79_iteration_proof. Qed.
Print Assumptions C79_iteration.

Example C79_iteration_ex : get_rows ragged =
  Ok [[(2, VInt 10); (2, VInt 11); (3, VInt 12)]; [(2, VInt 20); (4, VInt 21)]].
Proof. reflexivity. Qed.

(** Of a rectangular sheet every column has a cell of every row, and the cell in row r of column c is
the cell with index c of row r and the one with index r of column c, for indices of either sign. *)
Theorem C79_rectangle :
forall sh c, rectangular sh -> - sh_ncols sh <= c < sh_ncols sh ->
  matched sh /\
  exists col, column_values sh c 0 None = Ok col /\ Z.of_nat (length col) = sh_nrows sh /\
  forall r v, (cell_value sh r c = Ok v <-> at_index col r v) /\
              (cell_value sh r c = Ok v <-> exists row, row_values sh r 0 None = Ok row /\ at_index row c v).
Proof. exact C79_rectangle_proof. Qed.
Print Assumptions C79_rectangle.

Example C79_rectangle_ex : rectangular square /\ - sh_ncols square <= -1 < sh_ncols square /\
  cell_value square (-2) (-1) = Ok (VInt 11).
Proof.
  split; [split; [reflexivity|]; split; [reflexivity|]; split; repeat constructor|]. split; [simpl; lia|reflexivity].
Qed.

(** Of a book: an int is an index of its sheets of either sign, a text is the name of the first sheet
so called; iteration gives all sheets in order. *)
Theorem C79_sheets :
forall wb,
  (forall i sh, book_item wb (inl i) = Ok sh <-> at_index (bk_sheets wb) i sh) /\
  (forall i e, book_item wb (inl i) = Err e -> e = IndexError) /\
  (length (bk_names wb) = length (bk_sheets wb) -> forall s sh,
     book_item wb (inr s) = Ok sh <-> exists k, first_name (bk_names wb) s k /\ nth_error (bk_sheets wb) k = Some sh) /\
  (length (bk_names wb) = length (bk_sheets wb) -> forall s e,
     book_item wb (inr s) = Err e <-> e = XLRDError /\ ~ In s (bk_names wb)) /\
  book_iter wb = Ok (bk_sheets wb).
Proof. exact C79_sheets_proof. Qed.
Print Assumptions C79_sheets.

Example C79_sheets_ex : book_item three (inr (lit "a")) = Ok ragged /\ book_item three (inl (-2)) = Ok square /\
  book_item three (inr (lit "c")) = Err XLRDError /\ book_item three (inl 3) = Err IndexError.
Proof. split; [reflexivity|]. split; [reflexivity|]. split; reflexivity. Qed.

