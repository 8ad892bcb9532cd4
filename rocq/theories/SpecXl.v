(** * Specification for the spread sheet reader

    Column letters as bijective base 26, addresses, column lists and typed
    columns, stated without the helpers of ReadXl.v. *)

From Verif Require Import PyBase PyFloat NumPy SpecChars SpecPack XlDate ReadXl.
From Verif Require SpecDbf.
Open Scope Z_scope.

(** ** Letters *)

Definition capital (c : N) : Prop := (65 <= c <= 90)%N.
Definition letter (c : N) : Prop := capital c \/ (97 <= c <= 122)%N.

(** 1 for A or a, 26 for Z or z. *)
Definition letter_no (c : N) : Z := Z.of_N c - (if (97 <=? c)%N then 96 else 64).

(** Column number of a letter text, A is 0. *)
Definition column_no (s : str) : Z := fold_left (fun n c => 26 * n + letter_no c) s 0 - 1.

(** Shorter texts first, texts of one length in alphabetical order. *)
Inductive lex_lt : str -> str -> Prop :=
| lex_here : forall x y a b, (x < y)%N -> length a = length b -> lex_lt (x :: a) (y :: b)
| lex_later : forall x a b, lex_lt a b -> lex_lt (x :: a) (x :: b).
Definition shortlex_lt (a b : str) : Prop := (length a < length b)%nat \/ lex_lt a b.

Definition column_text (s : str) : Prop := s <> [] /\ Forall letter s.

(** Letters outside ASCII whose upper case is in A-Z. *)
Definition odd_letters : list N := [223; 305; 383; 64256; 64257; 64258; 64259; 64260; 64261; 64262]%N.

(** ** Addresses *)

(** [refers a r c]: the optional cell address [a] (none is A1) has row r and
    column c, counted from 0. *)
Inductive refers : option str -> Z -> Z -> Prop :=
| refers_none : refers None 0 0
| refers_empty : refers (Some []) 0 0
| refers_cell : forall l d n, column_text l -> decimal_text d n -> 1 <= n ->
    refers (Some (l ++ d)) (n - 1) (column_no l).

(** ** Column lists *)

(** The columns a to b. *)
Definition columns (a b : Z) : list Z := map (fun i => a + Z.of_nat i) (seq 0 (Z.to_nat (b + 1 - a))).

Inductive item := Single (c : str) | Range (a b : str).

Definition item_ok (it : item) : Prop :=
  match it with Single c => column_text c | Range a b => column_text a /\ column_text b end.

Definition item_text (it : item) : str :=
  match it with Single c => c | Range a b => a ++ 58%N :: b end.

Definition item_columns (it : item) : list Z :=
  match it with Single c => [column_no c] | Range a b => columns (column_no a) (column_no b) end.

(** White space of str.strip. *)
Definition blank (c : N) : Prop := text_space c.

(** A field between commas: nothing but white space, or an item surrounded by
    white space. *)
Inductive field_text : list item -> str -> Prop :=
| ft_blank : forall w, Forall blank w -> field_text [] w
| ft_item : forall it l r, item_ok it -> Forall blank l -> Forall blank r ->
    field_text [it] (l ++ item_text it ++ r).

(** Fields separated by commas. *)
Inductive cols_text : list item -> str -> Prop :=
| ct_last : forall its f, field_text its f -> cols_text its f
| ct_more : forall its f rest t, field_text its f -> cols_text rest t ->
    cols_text (its ++ rest) (f ++ 44%N :: t).

(** ** Typed columns *)

Definition missing (t : Z) : Prop := t = XL_CELL_EMPTY \/ t = XL_CELL_ERROR \/ t = XL_CELL_BLANK.

(** One cell of a column with dates, booleans or a mix. *)
Inductive mixed_cell (datemode : Z) : val -> Z -> val -> Prop :=
| mc_date : forall f v, xldate_as_datetime f datemode = Ok v -> mixed_cell datemode (VFloat f) XL_CELL_DATE v
| mc_missing : forall v t, missing t -> mixed_cell datemode v t VNone
| mc_bool : forall z, mixed_cell datemode (VInt z) XL_CELL_BOOLEAN (VBool (z =? 1))
| mc_text : forall v, mixed_cell datemode v XL_CELL_TEXT v
| mc_number : forall v, mixed_cell datemode v XL_CELL_NUMBER v.

(** A cell of a column of one type: the value, or [fill] when missing. *)
Definition plain_cell (fill : val) (v : val) (t : Z) (w : val) : Prop :=
  (missing t /\ w = fill) \/ (~ missing t /\ w = v).

(** [typed_column datemode cells out]: what a column of (value, type) cells
    reads as. *)
Inductive typed_column (datemode : Z) (cells : list (val * Z)) (out : list val) : Prop :=
| tc_numbers : (forall v t, In (v, t) cells -> t = XL_CELL_NUMBER \/ missing t) ->
    Forall2 (fun vt w => plain_cell (VFloat fnan) (fst vt) (snd vt) w) cells out ->
    typed_column datemode cells out
| tc_texts : (exists v, In (v, XL_CELL_TEXT) cells) ->
    (forall v t, In (v, t) cells -> t = XL_CELL_TEXT \/ missing t) ->
    Forall2 (fun vt w => plain_cell (VStr []) (fst vt) (snd vt) w) cells out ->
    typed_column datemode cells out
| tc_mixed : (exists v t, In (v, t) cells /\ t <> XL_CELL_NUMBER /\ ~ missing t) ->
    (exists v t, In (v, t) cells /\ t <> XL_CELL_TEXT /\ ~ missing t) ->
    Forall2 (fun vt w => mixed_cell datemode (fst vt) (snd vt) w) cells out ->
    typed_column datemode cells out.

(** ** Sheets *)

(** A sheet whose two grids have nrows rows of ncols cells. *)
Definition rectangular (sh : sheet) : Prop :=
  sh_nrows sh = Z.of_nat (length (sh_values sh)) /\
  length (sh_types sh) = length (sh_values sh) /\
  Forall (fun row => Z.of_nat (length row) = sh_ncols sh) (sh_values sh) /\
  Forall (fun row => Z.of_nat (length row) = sh_ncols sh) (sh_types sh).

(** The cell in row r, column c. *)
Definition value_at (sh : sheet) (r c : Z) : val := nth (Z.to_nat c) (nth (Z.to_nat r) (sh_values sh) []) VNone.
Definition type_at (sh : sheet) (r c : Z) : Z := nth (Z.to_nat c) (nth (Z.to_nat r) (sh_types sh) []) 0.

(** The cells of column c from row r0 to row r1. *)
Definition cells_of (sh : sheet) (c r0 r1 : Z) : list (val * Z) :=
  map (fun i => (value_at sh (r0 + Z.of_nat i) c, type_at sh (r0 + Z.of_nat i) c))
      (seq 0 (Z.to_nat (r1 + 1 - r0))).

(** The sheet an argument stands for: by position or by name. *)
Inductive chosen_sheet (wb : book) : pyobj -> sheet -> Prop :=
| cs_index : forall i sh, nth_error (bk_sheets wb) i = Some sh -> chosen_sheet wb (OInt (Z.of_nat i)) sh
| cs_name : forall s i sh, nth_error (bk_names wb) i = Some s ->
    (forall j, (j < i)%nat -> nth_error (bk_names wb) j <> Some s) ->
    nth_error (bk_sheets wb) i = Some sh -> chosen_sheet wb (OStr s) sh.

(** The integer an item of a list of columns stands for: floats are cut off, texts
    are decimal, with the white space and the digits of any script. *)
Inductive whole : pyobj -> Z -> Prop :=
| whole_int : forall z, whole (OInt z) z
| whole_truth : forall b : bool, whole (OBool b) (if b then 1 else 0)
| whole_float : forall f q, float_Q f = Some q -> whole (OFloat f) (Z.quot (QArith_base.Qnum q) (Zpos (QArith_base.Qden q)))
| whole_text : forall s l t r z, Forall2 counts_as s (l ++ t ++ r) ->
    Forall SpecDbf.space_like l -> Forall SpecDbf.space_like r -> SpecDbf.int_text z t -> whole (OStr s) z.

(** What is in an argument that can be iterated over; of a dict the keys. *)
Inductive held : pyobj -> list pyobj -> Prop :=
| held_list : forall l, held (OList l) l
| held_tuple : forall l, held (OTuple l) l
| held_set : forall l, held (OSet l) l
| held_iter : forall l, held (OIter l) l
| held_dict : forall l, held (ODict l) (map fst l)
| held_mapping : forall l, held (OMapping l) (map fst l).

(** The columns a usecols argument stands for, given the corner columns. *)
Inductive chosen_columns (c0 c1 : Z) : pyobj -> list Z -> Prop :=
| cc_default : forall u, u = ONone \/ u = OList [] \/ u = OTuple [] \/ u = OStr [] ->
    chosen_columns c0 c1 u (columns c0 c1)
| cc_items : forall u items l, held u items -> items <> [] -> Forall2 whole items l -> chosen_columns c0 c1 u l
| cc_text : forall its t, t <> [] -> cols_text its t -> chosen_columns c0 c1 (OStr t) (flat_map item_columns its).

(** The last row of the range: that of the stop cell, or the last of the sheet. *)
Inductive stops (sh : sheet) : option str -> Z -> Z -> Prop :=
| st_sheet : forall a, a = None \/ a = Some [] -> stops sh a (sh_nrows sh - 1) (sh_ncols sh - 1)
| st_cell : forall a r c, a <> None -> a <> Some [] -> refers a r c -> stops sh a r c.

(** [headed header r0 nr r]: with this header argument and first row r0 of the
    range, the names are in row nr (None: no names) and the data start at r. *)
Inductive headed : pyobj -> Z -> option Z -> Z -> Prop :=
| hd_true : forall r0, headed (OBool true) r0 (Some r0) (r0 + 1)
| hd_cell : forall r0 a r c, a <> [] -> refers (Some a) r c -> headed (OStr a) r0 (Some r) r0
| hd_false : forall r0, headed (OBool false) r0 None r0.
