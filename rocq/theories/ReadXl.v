(** * Model of channelpack/readxl.py

    An open workbook is a record of its date mode, sheet names and sheets; how
    xlrd fills a sheet from a file is the subject of other files. Addresses
    and column texts are str; int() of a digit run has no length limit here
    (CPython refuses more than 4300 digits), and \d is ASCII. *)

From Verif Require Import PyBase PyFloat PyText NumPy Pack XlDate.
Open Scope Z_scope.

(** c.upper() for the characters whose upper case consists of A-Z: the ASCII
    letters and sharp s, dotless i, long s and the ligatures ff fi fl ffi ffl
    and st (two code points). Any other character is returned as it is: both
    it and its real upper case have a character outside A-Z, which is all that
    readxl.py l.209 and xlrd/xlsx.py l.59 look at. *)
Definition upper_char (c : N) : str :=
  if is_lower c then [(c - 32)%N]
  else if (c =? 223)%N then lit "SS"
  else if (c =? 305)%N then lit "I"
  else if (c =? 383)%N then lit "S"
  else if (c =? 64256)%N then lit "FF"
  else if (c =? 64257)%N then lit "FI"
  else if (c =? 64258)%N then lit "FL"
  else if (c =? 64259)%N then lit "FFI"
  else if (c =? 64260)%N then lit "FFL"
  else if (c =? 64261)%N then lit "ST"
  else if (c =? 64262)%N then lit "ST"
  else [c].

(** letters.upper(), readxl.py l.204, xlrd/xlsx.py l.57. *)
Definition upper_str (s : str) : str := flat_map upper_char s.

(** Loop of letter2num, readxl.py l.208-210. *)
Fixpoint letter_loop (weight i : Z) (s : str) (acc : Z) : res Z :=
  match s with
  | [] => Ok acc
  | c :: s' =>
      if is_upper c
      then letter_loop weight (i + 1) s' (acc + (Z.of_N c - 64) * 26 ^ (weight - i))
      else Err AssertionError
  end.

(** letter2num(letters, zbase), readxl.py l.178-213. *)
Definition letter2num (letters : str) (zbase : bool) : res Z :=
  let letters := upper_str letters in
  let weight := Z.of_nat (length letters) - 1 in
  if negb (0 <=? weight) then Err AssertionError
  else do r <- letter_loop weight 0 letters 0;
       Ok (if negb zbase then r else r - 1).

(** CellRef(row, col), readxl.py l.30. *)
Definition cellref := (Z * Z)%type.

(** `not xladdr`, readxl.py l.40, 132. *)
Definition no_text (a : option str) : bool :=
  match a with None | Some [] => true | _ => false end.

(** cellreference(row, col, xladdr), readxl.py l.33-52. *)
Definition cellreference (row col : Z) (xladdr : option str) : res cellref :=
  match xladdr with
  | None | Some [] => Ok (row, col)
  | Some a =>
      let '(letters, rest) := span is_alpha a in
      match letters with
      | [] => Err ValueError
      | _ =>
          match fst (span is_decimal rest) with
          | [] => do c <- letter2num letters true; Ok (row, c)
          | digits =>
              let rownotation := digits_val 0 (to_ascii digits) in
              if rownotation <? 1 then Err ValueError
              else do c <- letter2num letters true; Ok (rownotation - 1, c)
          end
      end
  end.

(** ** normalize_usecols *)

(** int(c), readxl.py l.165. Arrays as elements are not modelled. *)
Definition int_of_obj (o : pyobj) : res Z :=
  match o with
  | OInt z => Ok z
  | OBool b => Ok (if b then 1 else 0)
  | OFloat f => int_of_float f
  | OStr s => int_of_text s
  | OBytes s => int_of_str s
  | OArr _ | OArrN _ => Err OtherError
  | _ => Err TypeError
  end.

(** Iterating a usecols which is not text, readxl.py l.165. The numbers of an
    array are taken as Python numbers. *)
Definition iterate_cols (o : pyobj) : res (list pyobj) :=
  match o with
  | OTuple l | OList l | OSet l | OIter l => Ok l
  | ODict l | OMapping l => Ok (map fst l)
  | OArr a => mapM (fun v => match v with
                             | VInt z => Ok (OInt z)
                             | VBool b => Ok (OBool b)
                             | VFloat f => Ok (OFloat f)
                             | VStr s => Ok (OStr s)
                             | VBytes s => Ok (OBytes s)
                             | VNone => Ok ONone
                             | _ => Err OtherError
                             end) (aelems a)
  | OArrN _ => Err OtherError
  | _ => Err TypeError
  end.

(** One pattern, readxl.py l.169-173. Unpacking needs exactly two pieces. *)
Definition pattern_cols (pattern : str) : res (list Z) :=
  if existsb (N.eqb 58) pattern then
    match split_on 58 pattern with
    | [c1; c2] => do a <- letter2num c1 true;
                  do b <- letter2num c2 true;
                  Ok (zrange a (b + 1))
    | _ => Err ValueError
    end
  else do a <- letter2num pattern true; Ok [a].

(** `if p.strip()`, readxl.py l.163. *)
Definition nonempty (p : str) : bool := match p with [] => false | _ => true end.

(** normalize_usecols(usecols), readxl.py l.159-175. *)
Definition normalize_usecols (usecols : pyobj) : res (list Z) :=
  match usecols with
  | OStr s =>
      let patterns := filter nonempty (map (strip ws_text) (split_on 44 s)) in     (* l.163 *)
      do columns <- mapM pattern_cols patterns;
      Ok (zsort (concat columns))
  | OBytes _ => Err TypeError                              (* b''.split(',') *)
  | _ =>
      do l <- iterate_cols usecols;
      do columns <- mapM int_of_obj l;
      Ok (zsort columns)                                                  (* l.165 *)
  end.

(** ** Sheets *)

(** Cell types, xlrd/biffh.py l.67-75. *)
Definition XL_CELL_EMPTY : Z := 0.
(** xlrd/biffh.py l.69. *)
Definition XL_CELL_TEXT : Z := 1.
(** xlrd/biffh.py l.70. *)
Definition XL_CELL_NUMBER : Z := 2.
(** xlrd/biffh.py l.71. *)
Definition XL_CELL_DATE : Z := 3.
(** xlrd/biffh.py l.72. *)
Definition XL_CELL_BOOLEAN : Z := 4.
(** xlrd/biffh.py l.73. *)
Definition XL_CELL_ERROR : Z := 5.
(** xlrd/biffh.py l.74. *)
Definition XL_CELL_BLANK : Z := 6.

(** nrows, ncols, _cell_values and _cell_types of a Sheet,
    xlrd/sheet.py l.418-428, 553-587. *)
Record sheet := mksheet {
  sh_nrows : Z;
  sh_ncols : Z;
  sh_values : list (list val);
  sh_types : list (list Z)
}.

(** _sheet_names, _sheet_list and datemode of a Book, xlrd/book.py l.463-487;
    all sheets are loaded. *)
Record book := mkbook {
  bk_names : list str;
  bk_sheets : list sheet;
  bk_datemode : Z
}.

(** grid[rowx][colx], xlrd/sheet.py l.420, 567, 585. *)
Definition grid_at {A} (g : list (list A)) (rowx colx : Z) : res A :=
  match py_index g rowx with
  | None => Err IndexError
  | Some row => match py_index row colx with
                | None => Err IndexError
                | Some v => Ok v
                end
  end.

(** cell_value, xlrd/sheet.py l.418-420. *)
Definition cell_value (sh : sheet) (rowx colx : Z) : res val := grid_at (sh_values sh) rowx colx.

(** A column slice: col_values and col_types, xlrd/sheet.py l.553-587, with
    an end row. *)
Definition col_part {A} (nr : Z) (g : list (list A)) (colx start_rowx end_rowx : Z) : res (list A) :=
  let start_rowx := if start_rowx <? 0
                    then let s := start_rowx + nr in if s <? 0 then 0 else s
                    else start_rowx in
  let end_rowx := if nr <? end_rowx then nr
                  else if end_rowx <? 0 then end_rowx + nr else end_rowx in
  mapM (fun rowx => grid_at g rowx colx) (zrange start_rowx end_rowx).
(** col_values, xlrd/sheet.py l.553-569. *)
Definition col_values (sh : sheet) := col_part (sh_nrows sh) (sh_values sh).
(** col_types, xlrd/sheet.py l.571-587. *)
Definition col_types (sh : sheet) := col_part (sh_nrows sh) (sh_types sh).

(** ** sheet_columns *)

(** A type in a set of types (readxl.py l.60-65). *)
Definition in_set (t : Z) (l : list Z) : bool := existsb (Z.eqb t) l.

(** readxl.py l.60-65. *)
Definition numericset := [XL_CELL_NUMBER; XL_CELL_EMPTY; XL_CELL_ERROR; XL_CELL_BLANK].
(** readxl.py l.62-63. *)
Definition textset := [XL_CELL_TEXT; XL_CELL_EMPTY; XL_CELL_ERROR; XL_CELL_BLANK].
(** readxl.py l.64-65. *)
Definition missingtypes := [XL_CELL_EMPTY; XL_CELL_ERROR; XL_CELL_BLANK].

(** value == 1, readxl.py l.91. *)
Definition equals_one (v : val) : bool :=
  match v with
  | VBool b => b
  | VInt z => z =? 1
  | VFloat f => feqb f (float_of_Z 1)
  | VCplx re im => feqb re (float_of_Z 1) && feqb im (S754_zero false)
  | _ => false
  end.

(** Body of the loop over mixed columns, readxl.py l.86-92. The value of a
    date cell is a float in every sheet xlrd makes; other values raise
    TypeError here. *)
Definition mixed_value (datemode : Z) (vt : val * Z) : res val :=
  let '(value, typ) := vt in
  if typ =? XL_CELL_DATE then
    match value with
    | VFloat f => xldate_as_datetime f datemode
    | _ => Err TypeError
    end
  else if in_set typ missingtypes then Ok VNone
  else if typ =? XL_CELL_BOOLEAN then Ok (VBool (equals_one value))
  else Ok value.

(** What sheet_columns yields for one column, readxl.py l.74-94. *)
Definition convert_column (datemode : Z) (values : list val) (types : list Z) : res (list val) :=
  if forallb (fun t => in_set t numericset) types then                    (* l.74 *)
    Ok (map (fun vt => if negb (in_set (snd vt) missingtypes) then fst vt else VFloat fnan)
            (zip values types))
  else if forallb (fun t => in_set t textset) types then                  (* l.78 *)
    Ok (map (fun vt => if negb (in_set (snd vt) missingtypes) then fst vt else VStr [])
            (zip values types))
  else mapM (mixed_value datemode) (zip values types).                    (* l.82-94 *)

(** sheet_columns(ws, startref, stopref, usecols), readxl.py l.55-94, as the
    list of what it yields. *)
Definition sheet_columns (datemode : Z) (ws : sheet) (startref stopref : cellref) (usecols : list Z)
  : res (list (list val)) :=
  mapM (fun colnum =>
          do values <- col_values ws colnum (fst startref) (fst stopref + 1);
          do types <- col_types ws colnum (fst startref) (fst stopref + 1);
          convert_column datemode values types) usecols.

(** ** sheetpack *)

(** Index of the first equal name, xlrd/book.py l.484. *)
Fixpoint name_index (s : str) (names : list str) : option nat :=
  match names with
  | [] => None
  | n :: names' => if str_eqb n s then Some 0%nat
                   else option_map S (name_index s names')
  end.

(** _sheet_list[sheetx], xlrd/book.py l.468. *)
Definition sheet_by_index (wb : book) (z : Z) : res sheet :=
  match py_index (bk_sheets wb) z with Some s => Ok s | None => Err IndexError end.

(** sheet_by_index, or sheet_by_name when the index is no int, readxl.py
    l.128-131, xlrd/book.py l.463-487. *)
Definition find_sheet (wb : book) (which : pyobj) : res sheet :=
  match which with
  | OInt z => sheet_by_index wb z
  | OBool b => sheet_by_index wb (if b then 1 else 0)
  | OStr s => match name_index s (bk_names wb) with
              | Some i => sheet_by_index wb (Z.of_nat i)
              | None => Err XLRDError
              end
  | _ => Err XLRDError
  end.

(** bool(o), readxl.py l.135, 152. *)
Definition obj_truth (o : pyobj) : res bool :=
  match o with
  | ONone => Ok false
  | OBool b => Ok b
  | OInt z => Ok (negb (z =? 0))
  | OFloat f => Ok (float_truthy f)
  | OStr s | OBytes s => Ok (match s with [] => false | _ => true end)
  | OTuple l | OList l | OSet l => Ok (match l with [] => false | _ => true end)
  | ODict l | OMapping l => Ok (match l with [] => false | _ => true end)
  | OIter _ | OOther _ => Ok true
  | OArr a => match aelems a with
              | [] => Ok false
              | [v] => Ok (truthy v)
              | _ => Err ValueError
              end
  | OArrN _ => Err OtherError
  end.

(** The header handling, readxl.py l.141-146: the names (None when the
    variable is never assigned) and the start reference. *)
Definition header_names (ws : sheet) (header : pyobj) (startref : cellref) (usecols : list Z)
  : res (option (list val) * cellref) :=
  match header with
  | OBool true =>
      do names <- mapM (fun col => cell_value ws (fst startref) col) usecols;
      do ref <- cellreference (fst startref + 1) (snd startref) None;
      Ok (Some names, ref)
  | OStr h =>
      do nameref <- cellreference 0 0 (Some h);
      do names <- mapM (fun col => cell_value ws (fst nameref) col) usecols;
      Ok (Some names, startref)
  | _ => Ok (None, startref)
  end.

(** sheetpack(fname, sheet, header, startcell, stopcell, usecols), readxl.py
    l.97-156, on the opened workbook [wb]; [which] is the argument sheet, [fname] is a str. NpDict makes an
    array of each column (channelpack/pack.py l.61-75). *)
Definition sheetpack (wb : book) (fname : str) (which header : pyobj)
    (startcell stopcell : option str) (usecols : pyobj) : res pack :=
  do startref <- cellreference 0 0 startcell;                             (* l.124 *)
  do stopref <- cellreference 0 0 stopcell;
  do ws <- find_sheet wb which;
  do stopref <- (if no_text stopcell
                 then cellreference (sh_nrows ws - 1) (sh_ncols ws - 1) None
                 else Ok stopref);                                        (* l.132-133 *)
  do given <- obj_truth usecols;
  do usecols <- normalize_usecols
                  (if given then usecols
                   else OList (map OInt (zrange (snd startref) (snd stopref + 1))));
  match usecols with
  | [] => Err IndexError                                                  (* usecols[0] *)
  | first :: _ =>
      if (first <? snd startref) || (snd stopref <? last usecols first) then Err ValueError
      else
        do (names, startref) <- header_names ws header startref usecols;
        do columns <- sheet_columns (bk_datemode wb) ws startref stopref usecols;
        let data := dict_of (zip usecols columns) in                      (* l.148-149 *)
        do named <- obj_truth header;
        do chnames <- (if named then
                         match names with
                         | Some ns => Ok (dict_of (zip usecols ns))       (* l.153 *)
                         | None => Err UnboundLocalError
                         end
                       else Ok []);
        Ok (fst (set_fn (OStr fname)
                  (new_pack (map (fun kv => (fst kv, np_array (snd kv))) data) chnames)))
  end.

(** ** Column and cell names of xlrd *)

(** alphabet, xlrd/formula.py l.2102. *)
Definition alphabet : str := lit "ABCDEFGHIJKLMNOPQRSTUVWXYZ".

(** The loop of colname, xlrd/book.py l.1396-1401, on fuel. *)
Fixpoint colname_loop (fuel : nat) (colx : Z) (name : str) : res str :=
  match fuel with
  | O => Err NonTermination
  | S fuel' =>
      let quot := colx / 26 in
      let rem := colx mod 26 in
      let name := nth (Z.to_nat rem) alphabet 0%N :: name in
      if quot =? 0 then Ok name else colname_loop fuel' (quot - 1) name
  end.

(** colname(colx), xlrd/book.py l.1393-1401. The fuel is never used up
    (theorem C42_parse_back). *)
Definition book_colname (colx : Z) : res str :=
  if colx <? 0 then Err AssertionError else colname_loop (S (Z.to_nat colx)) colx [].

(** alphabet[i], xlrd/formula.py l.2104, 2107. *)
Definition alpha_at (i : Z) : res N :=
  match py_index alphabet i with Some c => Ok c | None => Err IndexError end.

(** colname(colx), xlrd/formula.py l.2100-2107. *)
Definition formula_colname (colx : Z) : res str :=
  if colx <=? 25 then do c <- alpha_at colx; Ok [c]
  else do a <- alpha_at (colx / 26 - 1); do b <- alpha_at (colx mod 26); Ok [a; b].

(** cellname(rowx, colx), xlrd/formula.py l.2078-2080. *)
Definition cellname (rowx colx : Z) : res str :=
  do c <- formula_colname colx; Ok (c ++ str_of_Z (rowx + 1)).

(** _UPPERCASE_1_REL_INDEX, xlrd/xlsx.py l.43-47: None is a KeyError. *)
Definition letter_value (c : N) : option Z :=
  if is_upper c then Some (Z.of_N c - 64)
  else if ((49 <=? c) && (c <=? 57))%N then Some 0
  else None.

(** The loop of cell_name_to_rowx_colx, xlrd/xlsx.py l.57-76: the column and
    charx. The exceptions of l.69 and l.76 are plain Exception (OtherError). *)
Fixpoint cell_name_loop (s : str) (charx colx : Z) (allow_no_col : bool) : res (option Z * Z) :=
  match s with
  | [] => Ok (Some colx, charx)
  | c :: s' =>
      let charx := charx + 1 in
      match letter_value c with
      | None => Err OtherError
      | Some lv =>
          if negb (lv =? 0) then cell_name_loop s' charx (colx * 26 + lv) allow_no_col
          else if charx =? 0 then
            if allow_no_col then Ok (None, charx) else Err OtherError
          else if (0 <=? colx - 1) && (colx - 1 <? 2 ^ 14) then Ok (Some (colx - 1), charx)
          else Err AssertionError
      end
  end.

(** s[i:], xlrd/xlsx.py l.77 (i is at least -1). *)
Definition from_index (i : Z) (s : str) : str :=
  if i <? 0 then skipn (Z.to_nat (Z.of_nat (length s) + i)) s else skipn (Z.to_nat i) s.

(** cell_name_to_rowx_colx(cell_name, allow_no_col), xlrd/xlsx.py l.50-78. *)
Definition cell_name_to_rowx_colx (cell_name : str) (allow_no_col : bool) : res (Z * option Z) :=
  do (colx, charx) <- cell_name_loop (upper_str cell_name) (-1) 0 allow_no_col;
  do r <- int_of_text (from_index charx cell_name);
  Ok (r - 1, colx).

Example cellname_ex : cellname 5 7 = Ok (lit "H6") /\ book_colname 16383 = Ok (lit "XFD") /\
  cell_name_to_rowx_colx (lit "XFD12") false = Ok (11, Some 16383) /\
  cellreference 0 0 (Some (lit "amj7 and more")) = Ok (6, 1023) /\
  normalize_usecols (OStr (lit " C:E,, H ")) = Ok [2; 3; 4; 7].
Proof. vm_compute. auto. Qed.
