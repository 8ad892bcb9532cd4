(** * What any workbook that opens should be like

    Whatever bytes a file has: if it opens, the types and the values of its
    cells go together, and its sheets are rectangles. *)

From Coq Require Import ZArith.
From Verif Require Import PyBase PyFloat NumPy SpecArray CompDoc Pack ReadXl SpecXl.
Open Scope Z_scope.

(** ** Cells *)

(** The value that goes with a type: a text, a number, a date (a number still),
    a truth value or an error code (ints), and the empty text for an empty
    cell. *)
Inductive fits : Z -> val -> Prop :=
| fits_empty : fits 0 (VStr [])
| fits_text : forall s, fits 1 (VStr s)
| fits_number : forall f, fits 2 (VFloat f)
| fits_date : forall f, fits 3 (VFloat f)
| fits_truth : forall z, fits 4 (VInt z)
| fits_error : forall z, fits 5 (VInt z).

(** In an .xlsx file the result of a formula with the type of a text may be
    missing; the text is None then. *)
Inductive fits_xml (t : Z) (v : val) : Prop :=
| fx_fits : fits t v -> fits_xml t v
| fx_none : t = 1 -> v = VNone -> fits_xml t v.

(** In a file of Excel 2 to 4 a number may also have the type of a text: when its
    format is not in the file. *)
Inductive fits_early (t : Z) (v : val) : Prop :=
| fe_fits : fits t v -> fits_early t v
| fe_float : forall f, t = 1 -> v = VFloat f -> fits_early t v.

(** The types and values of a sheet, row by row and cell by cell. *)
Definition cells_fit (fit : Z -> val -> Prop) (sh : sheet) : Prop :=
  Forall2 (Forall2 fit) (sh_types sh) (sh_values sh).

(** As many names as sheets, a date system that exists, and such cells. *)
Record sound_book (fit : Z -> val -> Prop) (wb : book) : Prop := {
  sb_names : length (bk_names wb) = length (bk_sheets wb);
  sb_dates : bk_datemode wb = 0 \/ bk_datemode wb = 1;
  sb_cells : Forall (cells_fit fit) (bk_sheets wb)
}.

(** ** The order of records in an .xls stream

    Places in the stream may be negative, as in Python: they come from signed
    numbers in the file. *)

Definition two (a b : N) : Z := Z.of_N a + 256 * Z.of_N b.

(** A record: its code, its bytes, and where it ends. *)
Inductive record_at (mem : str) (pos : Z) : Z -> str -> Z -> Prop :=
| record_here : forall a b c d, pyslice mem pos (pos + 4) = [a; b; c; d] ->
    record_at mem pos (two a b) (pyslice mem (pos + 4) (pos + 4 + two c d)) (pos + 4 + two c d).

Definition end_code : Z := 0x0a.
Definition begin_codes : list Z := [0x809; 0x409; 0x209; 0x9].
Definition dimension_codes : list Z := [0x200; 0x0].
Definition cell_codes : list Z := [0x203; 0xfd; 0x204; 0xd6; 0x27e; 0xbd; 0x6; 0x406; 0x206; 0x205].

(** The place where the records of a substream begin: after a record that begins
    one. *)
Inductive begins (mem : str) : Z -> Prop :=
| begins_after : forall pos a b c d, In (two a b) begin_codes ->
    pyslice mem pos (pos + 2) = [a; b] -> pyslice mem (pos + 2) (pos + 4) = [c; d] ->
    begins mem (pos + 4 + two c d).

(** Records up to an end record, left out. *)
Inductive left_out (mem : str) : Z -> Z -> Prop :=
| lo_end : forall pos data next, record_at mem pos end_code data next -> left_out mem pos next
| lo_more : forall pos code data next last, record_at mem pos code data next -> code <> end_code ->
    left_out mem next last -> left_out mem pos last.

(** The records of a sheet, without substreams inside it (charts). *)
Inductive sheet_records (mem : str) : Z -> list (Z * str) -> Prop :=
| sr_end : forall pos data next, record_at mem pos end_code data next -> sheet_records mem pos []
| sr_inner : forall pos code data next last l, record_at mem pos code data next -> In code begin_codes ->
    left_out mem next last -> sheet_records mem last l -> sheet_records mem pos l
| sr_more : forall pos code data next l, record_at mem pos code data next -> code <> end_code ->
    ~ In code begin_codes -> sheet_records mem next l -> sheet_records mem pos ((code, data) :: l).

(** A record about the dimensions that comes after a cell, which is a record of
    one of these codes. *)
Definition late_among (codes : list Z) (l : list (Z * str)) : Prop :=
  exists a b kind cell data code, l = a ++ (kind, data) :: b /\ In kind dimension_codes /\ data <> [] /\
    In (code, cell) a /\ In code codes.
Definition late_dimension : list (Z * str) -> Prop := late_among cell_codes.

(** In no sheet of the stream a record about the dimensions comes after a
    cell. *)
Definition dimensions_among (codes : list Z) (mem : str) : Prop :=
  forall pos l, begins mem pos -> sheet_records mem pos l -> ~ late_among codes l.
Definition dimensions_first : str -> Prop := dimensions_among cell_codes.

(** The cells of BIFF2 too. *)
Definition early_codes : list Z := [0x3; 0x2; 0x4; 0x5] ++ cell_codes.

(** ** Other places in an .xls stream *)

(** The stream is of BIFF 5 to 8, as its first record says. *)
Definition begins_new (mem : str) (base : Z) : Prop :=
  exists data next minor, record_at mem base 0x809 data next /\ In minor [5; 6]%N /\ firstn 2 data = [0; minor]%N.

(** It has a SHEETHDR record that gives its sheet a negative length. *)
Definition turns_back (mem : str) : Prop :=
  exists pos a b c d rest next, record_at mem pos 0x8f (a :: b :: c :: d :: rest) next /\ 2 ^ 31 <= two a b + 65536 * two c d.

(** ** Packs *)

(** What a pack read from the workbook [wb] may hold: every channel is one column
    of one sheet, from row r0 to row r1, which are the same for all; every name is
    a cell of the sheet in the column of a channel; the mask is as long as the
    channels. *)
Definition pack_of (wb : book) (p : pack) : Prop :=
  exists ws r0 r1, In ws (bk_sheets wb) /\ 0 <= r0 /\ r1 < sh_nrows ws /\ p_data p <> [] /\
    (forall c a, dget c (p_data p) = Some a ->
       0 <= c /\ (r0 <= r1 -> c < sh_ncols ws) /\
       exists out, typed_column (bk_datemode wb) (cells_of ws c r0 r1) out /\ array_of out a) /\
    (forall c v, dget c (p_names p) = Some v ->
       (exists a, dget c (p_data p) = Some a) /\ c < sh_ncols ws /\
       exists r, 0 <= r < sh_nrows ws /\ v = value_at ws r c) /\
    length (aelems (p_mask p)) = Z.to_nat (r1 + 1 - r0).
