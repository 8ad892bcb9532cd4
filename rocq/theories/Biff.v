(** * BIFF8 workbooks: xlrd/__init__.py, xlrd/book.py, xlrd/formatting.py, xlrd/sheet.py

    open_workbook of an .xls file with the default arguments, which are what
    readxl.py uses (l.127): formatting_info, on_demand and ragged_rows False,
    verbosity 0, no encoding_override. Of a Book and its Sheets that is kept
    which cells depend on, and what can raise. Not modelled, and
    [Err NotModelled] here: files of other BIFF versions than 8, SHEETHDR
    records (of BIFF4, book.py l.1158-1177) and zip files (.xlsx, for which see
    Xlsx.v). *)

From Coq Require Import ZArith.
From Verif Require Import PyBase PyFloat PyText NumPy Dbf Dicts Pack ReadXl XlStruct CompDoc Sst FmtDate XlSheet XlNames XlObjects.
Open Scope Z_scope.

(** ** Records *)

(** Two bytes as an unsigned number (struct code 'H', book.py l.704). *)
Definition u16 (a : nat) (data : str) : Z := le_value (bytes_at a 2 data).

(** unpack wants as many bytes as its format has (book.py l.704). *)
Definition sized (n : nat) (data : str) : res unit :=
  if Nat.eqb (length data) n then Ok tt else Err StructError.

(** get_record_parts, book.py l.701-708: code, length, data and the position
    afterwards. *)
Definition get_record (mem : str) (pos : Z) : res (Z * Z * str * Z) :=
  let head := pyslice mem pos (pos + 4) in
  do _ <- sized 4 head;
  let length := u16 2 head in
  Ok (u16 0 head, length, pyslice mem (pos + 4) (pos + 4 + length), pos + 4 + length).

(** get2bytes, book.py l.691-699; None is MY_EOF. *)
Definition get2bytes (mem : str) (pos : Z) : option Z * Z :=
  let b := pyslice mem pos (pos + 2) in
  if Z.of_nat (length b) <? 2 then (None, pos + Z.of_nat (length b)) else (Some (le_value b), pos + 2).

(** boflen and bofcodes, biffh.py l.215-216. *)
Definition boflen (code : Z) : option Z :=
  if code =? 0x809 then Some 8 else if code =? 0x409 then Some 6
  else if code =? 0x209 then Some 6 else if code =? 0x9 then Some 4 else None.

(** The version of a BOF record, book.py l.1323-1355. *)
Definition bof_version (opcode : Z) (data : str) : Z :=
  let version2 := u16 0 data in
  let version :=
    if opcode / 256 =? 8 then
      let build := u16 4 data in
      let year := u16 6 data in
      if version2 =? 0x600 then 80
      else if version2 =? 0x500 then
        if (year <? 1994) || (build =? 2412) || (build =? 3218) || (build =? 3321) then 50 else 70
      else if (version2 =? 0) || (version2 =? 7) || (version2 =? 0x200) then 21
      else if version2 =? 0x300 then 30
      else if version2 =? 0x400 then 40
      else 0
    else if opcode / 256 =? 4 then 40
    else if opcode / 256 =? 2 then 30
    else 21 in
  if (version =? 40) && (u16 2 data =? 0x100) then 45 else version.

(** getbof, book.py l.1292-1371: the version and the position afterwards. *)
Definition getbof (mem : str) (pos rqd : Z) : res (Z * Z) :=
  match get2bytes mem pos with
  | (None, _) => Err XLRDError
  | (Some opcode, pos) =>
      match boflen opcode with
      | None => Err XLRDError
      | Some full =>
          match get2bytes mem pos with
          | (None, _) => Err XLRDError
          | (Some len, pos) =>
              if negb ((4 <=? len) && (len <=? 20)) then Err XLRDError
              else
                let data := pyslice mem pos (pos + len) in
                let pos := pos + Z.of_nat (length data) in
                if Z.of_nat (length data) <? len then Err XLRDError
                else
                  let data := data ++ repeat 0%N (Z.to_nat (Z.max 0 (full - len))) in
                  let version := bof_version opcode data in
                  let streamtype := u16 2 data in
                  let got_globals := (streamtype =? 5) || ((version =? 45) && (streamtype =? 0x100)) in
                  if ((rqd =? 5) && got_globals) || (streamtype =? rqd) then Ok (version, pos)
                  else if (version <? 50) && (streamtype =? 0x10) then Ok (version, pos)
                  else Err XLRDError
          end
      end
  end.

(** ** The globals *)

(** What a Book keeps while its globals are read (book.py l.309-350, 583-614;
    formatting.py): encoding only as to whether it is set; format_map as the
    types of the formats; xf_list as the format keys; _sheet_names with
    _sh_abs_posn; the number of _supbook_types (_supbook_count); what names may
    refer to, and the names. *)
Record globals := mkglobals {
  b_codepage : option Z;
  b_encoding : bool;
  b_countries : Z * Z;
  b_datemode : Z;
  b_formats : dict Z;
  b_xfs : list Z;
  b_types : dict Z;
  b_strings : list str;
  b_sheets : list (str * Z);
  b_supbooks : nat;
  b_links : links;
  b_names : list nobj
}.

(** FUN, FDT, FNU, FGE, FTX, biffh.py l.63. *)
Definition FDT : Z := 1.
(** biffh.py l.63. *)
Definition FNU : Z := 2.
(** biffh.py l.63. *)
Definition FGE : Z := 3.
(** biffh.py l.63. *)
Definition FTX : Z := 4.

(** __init__ and initialise_format_info, book.py l.309-350, 583-614, 680-689. *)
Definition new_globals : globals :=
  mkglobals None false (0, 0) 0 [] [] [(0, XL_CELL_NUMBER)] [] [] 0 (mklinks [] [] None None 0 None) [].

(** b with other links (attributes set at book.py l.791, 804, 919, 1124,
    1131). *)
Definition with_links (b : globals) (k : links) : globals :=
  mkglobals (b_codepage b) (b_encoding b) (b_countries b) (b_datemode b) (b_formats b) (b_xfs b) (b_types b)
    (b_strings b) (b_sheets b) (b_supbooks b) k (b_names b).

(** The code pages Python has codecs for: encoding_from_codepage, biffh.py
    l.621-631, and 'cp' + str(codepage). *)
Definition codecs : list Z :=
  [10000; 10006; 10007; 10029; 10079; 10081; 32768; 32769;
   367; 437; 500; 720; 737; 775; 819; 850; 852; 855; 856; 857; 858; 860; 861; 862; 863; 864; 865; 866; 869; 874; 875;
   932; 936; 949; 950; 1006; 1026; 1051; 1125; 1140; 1250; 1251; 1252; 1253; 1254; 1255; 1256; 1257; 1258; 1361].

(** derive_encoding for BIFF8, book.py l.817-860: an unknown codec is a
    LookupError. *)
Definition derive_encoding (b : globals) : res globals :=
  let upd c e := mkglobals (Some c) e (b_countries b) (b_datemode b) (b_formats b) (b_xfs b) (b_types b)
                   (b_strings b) (b_sheets b) (b_supbooks b) (b_links b) (b_names b) in
  match b_codepage b with
  | None => Ok (upd 1200 (b_encoding b))
  | Some c =>
      if c =? 1200 then Ok (upd 1200 true)
      else if existsb (Z.eqb c) [10000; 10006; 10007; 10029; 10079; 10081; 32768; 32769] || ((300 <=? c) && (c <=? 1999))
      then if existsb (Z.eqb c) codecs then Ok (upd c true) else Err OtherError
      else Ok (upd 1200 true)
  end.

(** handle_boundsheet, book.py l.758-808, for BIFF8. *)
Definition handle_boundsheet (base : Z) (data : str) (b : globals) : res globals :=
  do b <- derive_encoding b;
  do _ <- sized 6 (bytes_at 0 6 data);
  let offset := le_signed (bytes_at 0 4 data) in
  let sheet_type := le_value (bytes_at 5 1 data) in
  do name <- unpack_unicode data 6 1;
  let k := b_links b in
  let map_to i n := mklinks (l_map k ++ [i]) (l_externs k) (l_locals k) (l_addins k) n (l_old k) in
  if sheet_type =? 0
  then Ok (mkglobals (b_codepage b) (b_encoding b) (b_countries b) (b_datemode b) (b_formats b) (b_xfs b) (b_types b)
             (b_strings b) (b_sheets b ++ [(name, offset + base)]) (b_supbooks b)
             (map_to (Z.of_nat (l_sheets k)) (S (l_sheets k))) (b_names b))
  else Ok (with_links b (map_to (-1) (l_sheets k))).

(** handle_codepage, book.py l.862-866. *)
Definition handle_codepage (data : str) (b : globals) : res globals :=
  do _ <- sized 2 (bytes_at 0 2 data);
  derive_encoding (mkglobals (Some (u16 0 data)) (b_encoding b) (b_countries b) (b_datemode b) (b_formats b) (b_xfs b)
                     (b_types b) (b_strings b) (b_sheets b) (b_supbooks b) (b_links b) (b_names b)).

(** handle_country, book.py l.868-873. *)
Definition handle_country (data : str) (countries : Z * Z) : res (Z * Z) :=
  do _ <- sized 4 (bytes_at 0 4 data);
  let (x, y) := countries in
  let x' := u16 0 data in
  let y' := u16 2 data in
  if ((x =? 0) && (y =? 0)) || ((x =? x') && (y =? y')) then Ok (x', y') else Err AssertionError.

(** handle_datemode, book.py l.875-880. *)
Definition handle_datemode (data : str) (b : globals) : res globals :=
  do _ <- sized 2 (bytes_at 0 2 data);
  let m := u16 0 data in
  if (m =? 0) || (m =? 1)
  then Ok (mkglobals (b_codepage b) (b_encoding b) (b_countries b) m (b_formats b) (b_xfs b) (b_types b)
             (b_strings b) (b_sheets b) (b_supbooks b) (b_links b) (b_names b))
  else Err AssertionError.

(** handle_externname, book.py l.882-894; the names of add-in functions are not
    kept. *)
Definition handle_externname (data : str) (b : globals) : res globals :=
  do _ <- sized 6 (bytes_at 0 6 data);
  do _ <- unpack_unicode_update_pos data 6 1;
  if Nat.eqb (b_supbooks b) 0 then Err IndexError else Ok b.

(** handle_externsheet, book.py l.896-926: bytes are collected from CONTINUE
    records until there are enough. *)
Fixpoint externsheet_loop (fuel : nat) (mem : str) (pos : Z) (data : str) (reqd : Z) : res (str * Z) :=
  if reqd <=? Z.of_nat (length data) then Ok (data, pos)
  else
    match fuel with
    | O => Err NonTermination
    | S f =>
        do (code, len, data2, pos) <- get_record mem pos;
        if negb (code =? 0x3c) then Err XLRDError
        else externsheet_loop f mem pos (data ++ data2) reqd
    end.
(** The loop over the references, book.py l.916-920. *)
Fixpoint extern_infos (n : nat) (data : str) : list (Z * Z * Z) :=
  match n with
  | O => []
  | S n' => (u16 0 data, u16 2 data, u16 4 data) :: extern_infos n' (skipn 6 data)
  end.
(** handle_externsheet itself, book.py l.896-926. *)
Definition handle_externsheet (mem : str) (pos : Z) (data : str) (b : globals) : res (globals * Z) :=
  do b <- derive_encoding b;
  do _ <- sized 2 (bytes_at 0 2 data);
  let num_refs := u16 0 data in
  do (data, pos) <- externsheet_loop (S (length mem)) mem pos data (num_refs * 6 + 2);
  let k := b_links b in
  let infos := extern_infos (Z.to_nat num_refs) (skipn 2 data) in
  Ok (with_links b (mklinks (l_map k) (l_externs k ++ infos) (l_locals k) (l_addins k) (l_sheets k) (l_old k)), pos).

(** handle_supbook, book.py l.1111-1156: the loop over the sheet names ends
    silently at a struct.error. *)
Fixpoint supbook_names (n : nat) (data : str) (pos : Z) : res unit :=
  match n with
  | O => Ok tt
  | S n' =>
      match unpack_unicode_update_pos data pos 2 with
      | Ok (_, pos) => supbook_names n' data pos
      | Err StructError => Ok tt
      | Err e => Err e
      end
  end.
(** handle_supbook itself, book.py l.1111-1156. *)
Definition handle_supbook (data : str) (b : globals) : res globals :=
  let b := mkglobals (b_codepage b) (b_encoding b) (b_countries b) (b_datemode b) (b_formats b) (b_xfs b) (b_types b)
             (b_strings b) (b_sheets b) (S (b_supbooks b)) (b_links b) (b_names b) in
  do _ <- sized 2 (bytes_at 0 2 data);
  let k := b_links b in
  let this := Some (Z.of_nat (b_supbooks b) - 1) in
  if str_eqb (bytes_at 2 2 data) [1; 4]%N
  then Ok (with_links b (mklinks (l_map k) (l_externs k) this (l_addins k) (l_sheets k) (l_old k)))
  else if str_eqb (bytes_at 0 4 data) [1; 0; 1; 58]%N
  then Ok (with_links b (mklinks (l_map k) (l_externs k) (l_locals k) this (l_sheets k) (l_old k)))
  else
    do (_, pos) <- unpack_unicode_update_pos data 2 2;
    do _ <- supbook_names (Z.to_nat (u16 0 data)) data pos;
    Ok b.

(** handle_name, book.py l.970-1020. *)
Definition handle_name (data : str) (b : globals) : res globals :=
  do b <- derive_encoding b;
  do n <- new_name data;
  Ok (mkglobals (b_codepage b) (b_encoding b) (b_countries b) (b_datemode b) (b_formats b) (b_xfs b) (b_types b)
        (b_strings b) (b_sheets b) (b_supbooks b) (b_links b) (b_names b ++ [n])).

(** The CONTINUE records after an SST record (get_record_parts_conditional,
    book.py l.710-719, in the loop l.1195-1202). *)
Fixpoint continues (fuel : nat) (mem : str) (pos : Z) : res (list str * Z) :=
  let head := pyslice mem pos (pos + 4) in
  do _ <- sized 4 head;
  if negb (u16 0 head =? 0x3c) then Ok ([], pos)
  else
    match fuel with
    | O => Err NonTermination
    | S f =>
        let len := u16 2 head in
        do (l, pos') <- continues f mem (pos + 4 + len);
        Ok (pyslice mem (pos + 4) (pos + 4 + len) :: l, pos')
    end.

(** handle_sst, book.py l.1185-1208. *)
Definition handle_sst (mem : str) (pos : Z) (data : str) (b : globals) : res (globals * Z) :=
  do n <- unpack_i (bytes_at 4 4 data);
  do (more, pos) <- continues (S (length mem)) mem pos;
  do (strings, _) <- unpack_SST_table (data :: more) n;
  Ok (mkglobals (b_codepage b) (b_encoding b) (b_countries b) (b_datemode b) (b_formats b) (b_xfs b) (b_types b)
        strings (b_sheets b) (b_supbooks b) (b_links b) (b_names b), pos).

(** handle_writeaccess, book.py l.1210-1226; the user name is not kept. *)
Definition handle_writeaccess (data : str) : res unit :=
  match unpack_unicode data 0 2 with
  | Err UnicodeError => do _ <- unpack_unicode (strip ws_bytes data) 0 2; Ok tt
  | Err e => Err e
  | Ok _ => Ok tt
  end.

(** ** Formats *)

(** fmt_code_ranges and std_format_code_types, formatting.py l.406-428. *)
Definition fmt_code_ranges : list (Z * Z * Z) :=
  [(0, 0, FGE); (1, 13, FNU); (14, 22, FDT); (27, 36, FDT); (37, 44, FNU); (45, 47, FDT); (48, 48, FNU); (49, 49, FTX);
   (50, 58, FDT); (59, 62, FNU); (67, 70, FNU); (71, 81, FDT)].
(** std_format_code_types, formatting.py l.424-428. *)
Definition std_format_code_types : dict Z :=
  dict_of (flat_map (fun r => let '(lo, hi, ty) := r in map (fun x => (x, ty)) (zrange lo (hi + 1))) fmt_code_ranges).

(** _cellty_from_fmtty, formatting.py l.25-31. *)
Definition cellty_of (ty : Z) : Z := if ty =? FDT then XL_CELL_DATE else XL_CELL_NUMBER.

(** handle_format, formatting.py l.525-573, for BIFF8: the type is given by the
    text of the format alone. *)
Definition handle_format (data : str) (b : globals) : res globals :=
  do b <- (if b_encoding b then Ok b else derive_encoding b);
  do _ <- sized 2 (bytes_at 0 2 data);
  do fmt <- unpack_unicode data 2 2;
  let ty := if is_date_format_string fmt then FDT else FGE in
  Ok (mkglobals (b_codepage b) (b_encoding b) (b_countries b) (b_datemode b) (dset (u16 0 data) ty (b_formats b)) (b_xfs b)
        (b_types b) (b_strings b) (b_sheets b) (b_supbooks b) (b_links b) (b_names b)).

(** fill_in_standard_formats, formatting.py l.689-698. *)
Definition fill_in (formats : dict Z) : dict Z :=
  fold_left (fun d kt => if dmem (fst kt) d then d else dset (fst kt) (snd kt) d) std_format_code_types formats.

(** handle_xf, formatting.py l.700-1014, for BIFF8: of the record only the
    format key is kept; an unknown key becomes 0. *)
Definition handle_xf (data : str) (b : globals) : res globals :=
  let formats := match b_xfs b with [] => fill_in (b_formats b) | _ => b_formats b end in
  do _ <- sized 20 (bytes_at 0 20 data);
  let key := u16 2 data in
  let cellty := match dget key formats with Some ty => cellty_of ty | None => XL_CELL_NUMBER end in
  Ok (mkglobals (b_codepage b) (b_encoding b) (b_countries b) (b_datemode b) formats
        (b_xfs b ++ [if dmem key formats then key else 0])
        (dset (Z.of_nat (length (b_xfs b))) cellty (b_types b)) (b_strings b) (b_sheets b) (b_supbooks b) (b_links b) (b_names b)).

(** xf_epilogue, formatting.py l.1016-1047. *)
Fixpoint epilogue_types (i : Z) (keys : list Z) (formats types : dict Z) : dict Z :=
  match keys with
  | [] => types
  | key :: keys' =>
      let cellty := match dget key formats with Some ty => cellty_of ty | None => XL_CELL_TEXT end in
      epilogue_types (i + 1) keys' formats (dset i cellty types)
  end.
(** xf_epilogue itself, formatting.py l.1016-1047. *)
Definition xf_epilogue (b : globals) : globals :=
  mkglobals (b_codepage b) (b_encoding b) (b_countries b) (b_datemode b) (b_formats b) (b_xfs b)
    (epilogue_types 0 (b_xfs b) (b_formats b) (b_types b)) (b_strings b) (b_sheets b) (b_supbooks b) (b_links b) (b_names b).

(** One record of parse_globals, book.py l.1235-1290, other than EOF: FONT,
    PALETTE and STYLE records are only looked at with formatting_info
    (formatting.py l.262-264, 577-579, 633-635), SHEETHDR is not met in
    BIFF8. *)
Definition globals_record (mem : str) (base rc : Z) (data : str) (pos : Z) (b : globals) : res (globals * Z) :=
  let keep r := do b <- r; Ok (b, pos) in
  if rc =? 0xfc then handle_sst mem pos data b
  else if rc =? 0x41e then keep (handle_format data b)
  else if rc =? 0xe0 then keep (handle_xf data b)
  else if rc =? 0x85 then keep (handle_boundsheet base data b)
  else if rc =? 0x22 then keep (handle_datemode data b)
  else if rc =? 0x42 then keep (handle_codepage data b)
  else if rc =? 0x8c then
    do c <- handle_country data (b_countries b);
    Ok (mkglobals (b_codepage b) (b_encoding b) c (b_datemode b) (b_formats b) (b_xfs b) (b_types b)
          (b_strings b) (b_sheets b) (b_supbooks b) (b_links b) (b_names b), pos)
  else if rc =? 0x23 then keep (handle_externname data b)
  else if rc =? 0x17 then handle_externsheet mem pos data b
  else if rc =? 0x2f then Err XLRDError
  else if rc =? 0x5c then do _ <- handle_writeaccess data; Ok (b, pos)
  else if rc =? 0x8e then do _ <- sized 4 data; Ok (b, pos)
  else if rc =? 0x8f then Err NotModelled
  else if rc =? 0x1ae then keep (handle_supbook data b)
  else if rc =? 0x18 then keep (handle_name data b)
  else Ok (b, pos).

(** parse_globals, book.py l.1228-1290; palette_epilogue has no fonts. Of
    names_epilogue only whether it raises matters. *)
Fixpoint parse_globals (fuel : nat) (mem : str) (base pos : Z) (b : globals) : res globals :=
  match fuel with
  | O => Err NonTermination
  | S f =>
      do (rc, len, data, pos) <- get_record mem pos;
      if rc =? 0x0a then
        let b := xf_epilogue b in
        do _ <- names_epilogue (b_links b) (b_names b);
        if b_encoding b then Ok b else derive_encoding b
      else
        do (b, pos) <- globals_record mem base rc data pos b;
        parse_globals f mem base pos b
  end.

(** ** Sheets *)

(** What a sheet reader changes: the cells of the sheet and the countries of
    the book (sheet.py l.1141). Also where the last link is (hyperlink_list,
    l.1853) and whether saved_obj_id has got a value (l.1116-1118). *)
Record reading := mkreading { r_grid : grid; r_countries : Z * Z; r_link : option (Z * Z * Z * Z); r_drawn : bool }.
(** The cells of the sheet changed (sheet.py l.714-784). *)
Definition with_grid (g : grid) (st : reading) : reading := mkreading g (r_countries st) (r_link st) (r_drawn st).

(** A put_cell that raises ends the reading (sheet.py l.714-784). *)
Definition put1 (su : setup) (p : put) (st : reading) : res reading :=
  match put_cell su (pt_row p) (pt_col p) (pt_type p) (pt_value p) (pt_xf p) (r_grid st) with
  | (g, Ok _) => Ok (with_grid g st)
  | (_, Err e) => Err e
  end.

(** The cells of a MULRK record, sheet.py l.871-876. *)
Fixpoint mulrk_loop (su : setup) (data : str) (pos : Z) (row : Z) (cols : list Z) (st : reading) : res reading :=
  match cols with
  | [] => Ok st
  | colx :: cols' =>
      do _ <- sized 2 (pyslice data pos (pos + 2));
      do d <- unpack_RK (pyslice data (pos + 2) (pos + 6));
      do st <- put1 su (mkput row colx None (VFloat d) (le_value (pyslice data pos (pos + 2)))) st;
      mulrk_loop su data (pos + 6) row cols' st
  end.

(** The runs of an RSTRING record, sheet.py l.857-860. *)
Fixpoint rstring_runs (n : nat) (data : str) (pos : Z) : res Z :=
  match n with
  | O => Ok pos
  | S n' => do _ <- sized 4 (pyslice data pos (pos + 4)); rstring_runs n' data (pos + 4)
  end.

(** string_record_contents for BIFF8, sheet.py l.1510-1538: the text and the
    position afterwards. found counts characters. *)
Fixpoint string_contents (fuel : nat) (mem : str) (data : str) (offset expected found pos : Z) (acc : str)
  : res (str * Z) :=
  do flag <- byte_at data offset;
  let raw := pyslice data (offset + 1) (Z.of_nat (length data)) in
  do chunk <- (if opt_wide flag then utf16_le raw else Ok raw);
  let acc := acc ++ chunk in
  let found := found + Z.of_nat (length chunk) in
  if found =? expected then Ok (acc, pos)
  else if expected <? found then Err XLRDError
  else
    match fuel with
    | O => Err NonTermination
    | S f =>
        do (rc, len, data, pos) <- get_record mem pos;
        if negb (rc =? 0x3c) then Err XLRDError
        else string_contents f mem data 0 expected found pos acc
    end.

(** The STRING record of a formula, sheet.py l.949-981: the text and the
    position afterwards. *)
Definition formula_string (mem : str) (pos : Z) : res (str * Z) :=
  do (rc2, len, data2, pos) <- get_record mem pos;
  do (data2, pos) <-
    (if (rc2 =? 0x207) || (rc2 =? 0x7) then Ok (data2, pos)
     else
       do _ <- (if rc2 =? 0x221 then sized 14 (bytes_at 0 14 data2)
                else if rc2 =? 0x4bc then sized 10 (bytes_at 0 10 data2)
                else if (rc2 =? 0x236) || (rc2 =? 0x37) || (rc2 =? 0x21) || (rc2 =? 0x36) then Ok tt
                else Err XLRDError);
       do (rc2, len, data2, pos) <- get_record mem pos;
       if (rc2 =? 0x207) || (rc2 =? 0x7) then Ok (data2, pos) else Err XLRDError);
  do _ <- sized 2 (bytes_at 0 2 data2);
  string_contents (S (length mem)) mem data2 2 (u16 0 data2) 0 pos [].

(** A FORMULA record, sheet.py l.929-1000. *)
Definition formula_record (su : setup) (mem data : str) (pos : Z) (st : reading) : res (reading * Z) :=
  do _ <- sized 16 (bytes_at 0 16 data);
  let rowx := u16 0 data in
  let colx := u16 2 data in
  let xf := u16 4 data in
  let result := bytes_at 6 8 data in
  let value := VInt (le_value (bytes_at 2 1 result)) in
  let done p := do st <- put1 su p st; Ok (st, pos) in
  if str_eqb (bytes_at 6 2 result) [255; 255]%N then
    let first_byte := le_value (bytes_at 0 1 result) in
    if first_byte =? 0 then
      do (strg, pos) <- formula_string mem pos;
      do st <- put1 su (mkput rowx colx (Some XL_CELL_TEXT) (VStr strg) xf) st;
      Ok (st, pos)
    else if first_byte =? 1 then done (mkput rowx colx (Some XL_CELL_BOOLEAN) value xf)
    else if first_byte =? 2 then done (mkput rowx colx (Some XL_CELL_ERROR) value xf)
    else if first_byte =? 3 then done (mkput rowx colx (Some XL_CELL_TEXT) (VStr []) xf)
    else Err XLRDError
  else
    do d <- unpack_d result;
    done (mkput rowx colx None (VFloat d) xf).

(** The records of an embedded BOF up to its EOF, sheet.py l.1135-1138. *)
Fixpoint skip_embedded (fuel : nat) (mem : str) (pos : Z) : res Z :=
  match fuel with
  | O => Err NonTermination
  | S f => do (code, len, data, pos) <- get_record mem pos;
           if code =? 0x0a then Ok pos else skip_embedded f mem pos
  end.

(** unpack_cell_range_address_list_update_pos with addr_size 8, biffh.py
    l.336-352: the position afterwards. *)
Fixpoint address_loop (n : nat) (data : str) (pos : Z) : res Z :=
  match n with
  | O => Ok pos
  | S n' => do _ <- sized 8 (pyslice data pos (pos + 8)); address_loop n' data (pos + 8)
  end.
(** The list itself, biffh.py l.336-352. *)
Definition address_list (data : str) (pos : Z) : res Z :=
  do _ <- sized 2 (pyslice data pos (pos + 2));
  address_loop (Z.to_nat (le_value (pyslice data pos (pos + 2)))) data (pos + 2).

(** handle_txo, sheet.py l.2014-2062: the position afterwards. The text and its
    runs are not kept. *)
Fixpoint txo_text (fuel : nat) (mem : str) (pos totchars cchText : Z) : res Z :=
  if negb (totchars <? cchText) then Ok pos
  else
    match fuel with
    | O => Err NonTermination
    | S f =>
        do (rc2, data2_len, data2, pos) <- get_record mem pos;
        if negb (rc2 =? 0x3c) then Err AssertionError
        else
          do nb <- byte_at data2 0;
          let nchars := data2_len - 1 in
          do nchars <- (if (nb =? 0)%N then Ok nchars
                        else if nchars mod 2 =? 0 then Ok (nchars / 2) else Err AssertionError);
          do (_, endpos) <- unpack_known data2 0 nchars;
          if endpos =? data2_len then txo_text f mem pos (totchars + nchars) cchText else Err AssertionError
    end.
(** The loop over the runs, sheet.py l.2046-2055. *)
Fixpoint txo_runs (fuel : nat) (mem : str) (pos totruns cbRuns : Z) : res Z :=
  if negb (totruns <? cbRuns) then Ok pos
  else
    match fuel with
    | O => Err NonTermination
    | S f =>
        do (rc3, data3_len, data3, pos) <- get_record mem pos;
        if negb (rc3 =? 0x3c) then Err AssertionError
        else if negb (data3_len mod 8 =? 0) then Err AssertionError
        else if negb (Z.of_nat (length data3) =? data3_len) then Err StructError
        else txo_runs f mem pos (totruns + data3_len) cbRuns
    end.
(** handle_txo itself, sheet.py l.2014-2062. *)
Definition handle_txo (mem data : str) (pos : Z) : res Z :=
  do _ <- sized 16 (bytes_at 0 16 data);
  do pos <- txo_text (S (length mem)) mem pos 0 (u16 10 data);
  txo_runs (S (length mem)) mem pos 0 (u16 12 data).

(** One record of Sheet.read other than EOF, sheet.py l.819-1501, for BIFF8
    without formatting_info, which makes it pass over ROW, COLINFO, GCW, BLANK,
    MULBLANK, CONDFMT, CF, MERGEDCELLS and page break records; of WINDOW2, SCL,
    PANE and other records about the looks only their size matters here.
    MSODRAWING and FEAT11 records do nothing (OBJ_MSO_DEBUG is 0, l.20). *)
Definition sheet_record (su : setup) (mem : str) (strings : list str) (rc len : Z) (data : str) (pos : Z)
  (st : reading) : res (reading * Z) :=
  let done p := do st <- put1 su p st; Ok (st, pos) in
  let check n := do _ <- sized n (bytes_at 0 n data); Ok (st, pos) in
  if rc =? 0x203 then                                                     (* NUMBER *)
    do _ <- sized 14 (bytes_at 0 14 data);
    do d <- unpack_d (bytes_at 6 8 data);
    done (mkput (u16 0 data) (u16 2 data) None (VFloat d) (u16 4 data))
  else if rc =? 0xfd then                                                 (* LABELSST *)
    do _ <- sized 10 data;
    match py_index strings (le_signed (bytes_at 6 4 data)) with
    | None => Err IndexError
    | Some s => done (mkput (u16 0 data) (u16 2 data) (Some XL_CELL_TEXT) (VStr s) (u16 4 data))
    end
  else if rc =? 0x204 then                                                (* LABEL *)
    do _ <- sized 6 (bytes_at 0 6 data);
    do s <- unpack_unicode data 6 2;
    done (mkput (u16 0 data) (u16 2 data) (Some XL_CELL_TEXT) (VStr s) (u16 4 data))
  else if rc =? 0xd6 then                                                 (* RSTRING *)
    do _ <- sized 6 (bytes_at 0 6 data);
    do (s, p) <- unpack_unicode_update_pos data 6 2;
    do _ <- sized 2 (pyslice data p (p + 2));
    do p <- rstring_runs (Z.to_nat (le_value (pyslice data p (p + 2)))) data (p + 2);
    if negb (p =? Z.of_nat (length data)) then Err AssertionError
    else done (mkput (u16 0 data) (u16 2 data) (Some XL_CELL_TEXT) (VStr s) (u16 4 data))
  else if rc =? 0x27e then                                                (* RK *)
    do _ <- sized 6 (bytes_at 0 6 data);
    do d <- unpack_RK (bytes_at 6 4 data);
    done (mkput (u16 0 data) (u16 2 data) None (VFloat d) (u16 4 data))
  else if rc =? 0xbd then                                                 (* MULRK *)
    do _ <- sized 4 (bytes_at 0 4 data);
    let tail := pyslice data (-2) (Z.of_nat (length data)) in
    do _ <- sized 2 tail;
    do st <- mulrk_loop su data 4 (u16 0 data) (zrange (u16 2 data) (le_value tail + 1)) st;
    Ok (st, pos)
  else if (rc =? 0x6) || (rc =? 0x406) || (rc =? 0x206) then formula_record su mem data pos st
  else if rc =? 0x205 then                                                (* BOOLERR *)
    do _ <- sized 8 (bytes_at 0 8 data);
    let v := VInt (le_value (bytes_at 6 1 data)) in
    let is_err := le_value (bytes_at 7 1 data) in
    if is_err =? 0 then done (mkput (u16 0 data) (u16 2 data) (Some XL_CELL_BOOLEAN) v (u16 4 data))
    else if is_err =? 1 then done (mkput (u16 0 data) (u16 2 data) (Some XL_CELL_ERROR) v (u16 4 data))
    else Err IndexError
  else if (rc =? 0x55) || (rc =? 0x99) then check 2%nat                   (* DEFCOLWIDTH, STANDARDWIDTH *)
  else if (rc =? 0x200) || (rc =? 0x0) then                               (* DIMENSION *)
    if len =? 0 then Ok (st, pos)
    else
      do _ <- sized 8 (bytes_at 4 8 data);
      let g := r_grid st in
      Ok (with_grid (mkgrid 0 0 (g_types g) (g_values g) (g_xfs g) (g_full g)) st, pos)
  else if rc =? 0x1b8 then                                                (* HLINK *)
    do k <- handle_hlink data;
    Ok (mkreading (r_grid st) (r_countries st) (Some k) (r_drawn st), pos)
  else if rc =? 0x800 then do _ <- handle_quicktip data (r_link st); Ok (st, pos)
  else if rc =? 0x5d then                                                 (* OBJ *)
    do _ <- handle_obj data;
    Ok (mkreading (r_grid st) (r_countries st) (r_link st) true, pos)
  else if rc =? 0x1b6 then                                                (* TXO *)
    do pos <- handle_txo mem data pos;
    if r_drawn st then Ok (st, pos) else Err UnboundLocalError
  else if rc =? 0x1c then do _ <- handle_note data; Ok (st, pos)
  else if (rc =? 0x809) || (rc =? 0x409) || (rc =? 0x209) || (rc =? 0x9) then
    do _ <- sized 4 (bytes_at 0 4 data);
    do pos <- skip_embedded (S (length mem)) mem pos;
    Ok (st, pos)
  else if rc =? 0x8c then                                                 (* COUNTRY *)
    do c <- handle_country data (r_countries st);
    Ok (mkreading (r_grid st) c (r_link st) (r_drawn st), pos)
  else if rc =? 0x15f then                                                (* LABELRANGES *)
    do p <- address_list data 0;
    do p <- address_list data p;
    if p =? len then Ok (st, pos) else Err AssertionError
  else if rc =? 0x221 then check 14%nat                                   (* ARRAY *)
  else if rc =? 0x4bc then check 10%nat                                   (* SHRFMLA *)
  else if rc =? 0x225 then                                                (* DEFAULTROWHEIGHT *)
    if len =? 4 then check 4%nat else if len =? 2 then check 2%nat else Ok (st, pos)
  else if rc =? 0x23e then                                                (* WINDOW2 *)
    if 14 <=? len then check 14%nat
    else do _ <- sized 6 (bytes_at 0 6 data); do _ <- sized 3 (bytes_at 6 3 data); Ok (st, pos)
  else if rc =? 0xa0 then do _ <- sized 4 data; Ok (st, pos)              (* SCL *)
  else if rc =? 0x41 then check 9%nat                                     (* PANE *)
  else Ok (st, pos).

(** The loop of Sheet.read up to EOF, sheet.py l.811-1501. *)
Fixpoint read_loop (fuel : nat) (su : setup) (mem : str) (strings : list str) (pos : Z) (st : reading) : res reading :=
  match fuel with
  | O => Err NonTermination
  | S f =>
      do (rc, len, data, pos) <- get_record mem pos;
      if rc =? 0x0a then Ok st
      else
        do (st, pos) <- sheet_record su mem strings rc len data pos st;
        read_loop f su mem strings pos st
  end.

(** Sheet.__init__ and Sheet.read, sheet.py l.320-402, 789-1508, for BIFF8;
    without formatting_info there are no merged cells. *)
Definition sheet_setup (b : globals) : setup := mksetup false false (b_types b) 65536 256.
(** Sheet.read itself, sheet.py l.789-1508. *)
Definition read_sheet (b : globals) (mem : str) (pos : Z) (countries : Z * Z) : res (sheet * (Z * Z)) :=
  let su := sheet_setup b in
  do st <- read_loop (S (length mem)) su mem (b_strings b) pos (mkreading new_grid countries None false);
  match tidy su [] (r_grid st) with
  | (_, Err e) => Err e
  | (g, Ok _) => Ok (sheet_of g, r_countries st)
  end.

(** get_sheets, book.py l.721-747. *)
Fixpoint get_sheets (b : globals) (mem : str) (l : list (str * Z)) (countries : Z * Z) : res (list sheet) :=
  match l with
  | [] => Ok []
  | (_, pos) :: l' =>
      do (_, pos) <- getbof mem pos 0x10;
      do (sh, countries) <- read_sheet b mem pos countries;
      do rest <- get_sheets b mem l' countries;
      Ok (sh :: rest)
  end.

(** ** Files *)

(** biff2_8_load, book.py l.616-676, of a file that is not empty: mem and
    base. *)
Definition load (file : str) : res (str * Z) :=
  if negb (str_eqb (bytes_at 0 8 file) SIGNATURE) then Ok (file, 0)
  else
    do cd <- init file false;
    let '(cd, r) := locate_named_stream [lit "Workbook"] cd in
    do found <- r;
    match found with
    | Some ((_ :: _) as mem, base, _) => Ok (mem, base)
    | _ =>
        let '(cd, r) := locate_named_stream [lit "Book"] cd in
        do found <- r;
        match found with
        | Some ((_ :: _) as mem, base, _) => Ok (mem, base)
        | _ => Err XLRDError
        end
    end.

(** open_workbook_xls, book.py l.70-143: every version getbof gives but 0 is
    supported. *)
Definition open_xls (file : str) : res book :=
  match file with
  | [] => Err XLRDError
  | _ =>
      do (mem, base) <- load file;
      do (version, pos) <- getbof mem base 5;
      if version =? 0 then Err XLRDError
      else if negb (version =? 80) then Err NotModelled
      else
        do b <- parse_globals (S (length mem)) mem base pos new_globals;
        do sheets <- get_sheets b mem (b_sheets b) (b_countries b);
        Ok (mkbook (map fst (b_sheets b)) sheets (b_datemode b))
  end.

(** open_workbook, xlrd/__init__.py l.24-160; a file that starts with PK 3 4 is
    a zip file. *)
Definition open_workbook (file : str) : res book :=
  if str_eqb (bytes_at 0 4 file) [80; 75; 3; 4]%N then Err NotModelled else open_xls file.

(** sheetpack on a file, readxl.py l.97-156: the cell references are looked at
    before the file is opened. *)
Definition sheetpack_file (file fname : str) (which header : pyobj) (startcell stopcell : option str) (usecols : pyobj)
  : res pack :=
  do _ <- cellreference 0 0 startcell;
  do _ <- cellreference 0 0 stopcell;
  do wb <- open_workbook file;
  sheetpack wb fname which header startcell stopcell usecols.
