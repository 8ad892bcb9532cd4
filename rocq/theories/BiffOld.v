(** * Workbooks of BIFF 2 to 7: xlrd/book.py, xlrd/formatting.py, xlrd/sheet.py

    What Biff.v leaves out: the streams of Excel 2 to 95, read with the default
    arguments of open_workbook (see there). Their texts are bytes in the
    encoding of a code page. [dec page raw] is unicode(raw, encoding) with the
    encoding of that code page, 'iso-8859-1' for None (book.py l.817-860); what
    codecs do is not modelled, everything here is for any dec. *)

From Coq Require Import ZArith.
From Verif Require Import PyBase PyFloat PyText NumPy Dbf Dicts Pack ReadXl XlStruct CompDoc Sst FmtDate XlSheet XlNames XlObjects Biff.
Open Scope Z_scope.

(** How texts are read (book.py l.817-860). *)
Definition decoder := option Z -> str -> res str.

(** ** What a Book keeps *)

(** codepage; whether encoding is set, which is then that of the code page
    (book.py l.817-866); user_name while raw_user_name is True. *)
Record coding := mkcoding { c_page : option Z; c_set : bool; c_user : option str }.

(** What initialise_format_info sets (book.py l.680-689): format_map as the
    types of the formats, actualfmtcount, xf_list as the format keys,
    _xf_index_to_xl_type_map, _xf_epilogue_done. *)
Record looks := mklooks { k_formats : dict Z; k_count : Z; k_xfs : list Z; k_types : dict Z; k_done : bool }.
(** The values they are given (book.py l.680-689). *)
Definition new_looks : looks := mklooks [] 0 [] [(0, XL_CELL_NUMBER)] false.

(** What names refer to (book.py l.583-614): _all_sheets_map, which is not kept
    in BIFF4W, where there are no names; _externsheet_type_b57, which has as many
    items as _extnsht_count says; _extnsht_name_from_num; name_obj_list. *)
Record refs := mkrefs { f_map : list Z; f_types : list Z; f_names : list (Z * str); f_list : list nobj }.
(** Before any record (book.py l.583-614). *)
Definition new_refs : refs := mkrefs [] [] [] [].

(** A Book (book.py l.309-350, 583-614): of _sheet_names and _sh_abs_posn pairs;
    _sheetsoffset if it has been set; the sheets of SHEETHDR records that have
    been read, as many as _sheethdr_count. *)
Record obook := mkobook {
  o_version : Z;
  o_coding : coding;
  o_looks : looks;
  o_countries : Z * Z;
  o_datemode : Z;
  o_strings : list str;
  o_sheets : list (str * Z);
  o_offset : option Z;
  o_read : list sheet;
  o_refs : refs
}.
(** A Book before any record (book.py l.583-614). *)
Definition new_obook (version : Z) : obook :=
  mkobook version (mkcoding None false None) new_looks (0, 0) 0 [] [] None [] new_refs.

(** b with another value of one attribute (book.py l.862-880, 1158-1226). *)
Definition with_version (v : Z) (b : obook) : obook :=
  mkobook v (o_coding b) (o_looks b) (o_countries b) (o_datemode b) (o_strings b) (o_sheets b) (o_offset b) (o_read b) (o_refs b).
(** codepage and what is derived from it (book.py l.862-866). *)
Definition with_coding (c : coding) (b : obook) : obook :=
  mkobook (o_version b) c (o_looks b) (o_countries b) (o_datemode b) (o_strings b) (o_sheets b) (o_offset b) (o_read b) (o_refs b).
(** format_map, xf_list and the like (formatting.py l.525-560, 700-1014). *)
Definition with_looks (k : looks) (b : obook) : obook :=
  mkobook (o_version b) (o_coding b) k (o_countries b) (o_datemode b) (o_strings b) (o_sheets b) (o_offset b) (o_read b) (o_refs b).
(** countries (book.py l.868-873). *)
Definition with_countries (c : Z * Z) (b : obook) : obook :=
  mkobook (o_version b) (o_coding b) (o_looks b) c (o_datemode b) (o_strings b) (o_sheets b) (o_offset b) (o_read b) (o_refs b).
(** datemode (book.py l.875-880). *)
Definition with_datemode (m : Z) (b : obook) : obook :=
  mkobook (o_version b) (o_coding b) (o_looks b) (o_countries b) m (o_strings b) (o_sheets b) (o_offset b) (o_read b) (o_refs b).
(** _sharedstrings (book.py l.1185-1203). *)
Definition with_strings (l : list str) (b : obook) : obook :=
  mkobook (o_version b) (o_coding b) (o_looks b) (o_countries b) (o_datemode b) l (o_sheets b) (o_offset b) (o_read b) (o_refs b).
(** _sheet_names and _sh_abs_posn (book.py l.804-807). *)
Definition with_sheets (l : list (str * Z)) (b : obook) : obook :=
  mkobook (o_version b) (o_coding b) (o_looks b) (o_countries b) (o_datemode b) (o_strings b) l (o_offset b) (o_read b) (o_refs b).
(** _sheetsoffset (book.py l.1179-1183). *)
Definition with_offset (z : option Z) (b : obook) : obook :=
  mkobook (o_version b) (o_coding b) (o_looks b) (o_countries b) (o_datemode b) (o_strings b) (o_sheets b) z (o_read b) (o_refs b).
(** _sheet_list (book.py l.1174-1175). *)
Definition with_read (l : list sheet) (b : obook) : obook :=
  mkobook (o_version b) (o_coding b) (o_looks b) (o_countries b) (o_datemode b) (o_strings b) (o_sheets b) (o_offset b) l (o_refs b).
(** What names refer to (book.py l.927-946, 970-1022). *)
Definition with_refs (r : refs) (b : obook) : obook :=
  mkobook (o_version b) (o_coding b) (o_looks b) (o_countries b) (o_datemode b) (o_strings b) (o_sheets b) (o_offset b) (o_read b) r.

(** ** Texts *)

(** unpack_string and unpack_string_update_pos, biffh.py l.262-276. *)
Definition old_string (dec : decoder) (page : option Z) (data : str) (pos : Z) (lenlen : nat) : res (str * Z) :=
  let head := pyslice data pos (pos + Z.of_nat lenlen) in
  do _ <- sized lenlen head;
  let pos := pos + Z.of_nat lenlen in
  do s <- dec page (pyslice data pos (pos + le_value head));
  Ok (s, pos + le_value head).

(** derive_encoding below BIFF8, book.py l.817-860: an unknown codec is a
    LookupError. *)
Definition old_derive (dec : decoder) (c : coding) : res coding :=
  do _ <- match c_page c with
          | None => Ok tt
          | Some p => if existsb (Z.eqb p) (1200 :: codecs) then Ok tt else Err OtherError
          end;
  do _ <- match c_user c with
          | None => Ok tt
          | Some u => do _ <- old_string dec (c_page c) u 0 1; Ok tt
          end;
  Ok (mkcoding (c_page c) true None).

(** encoding or derive_encoding() (sheet.py l.844, 1520; formatting.py
    l.530). *)
Definition coded (dec : decoder) (b : obook) : res obook :=
  if c_set (o_coding b) then Ok b else do c <- old_derive dec (o_coding b); Ok (with_coding c b).

(** derive_encoding() in any case (book.py l.761, 898, 1163). *)
Definition derived (dec : decoder) (b : obook) : res obook :=
  do c <- old_derive dec (o_coding b); Ok (with_coding c b).

(** handle_codepage, book.py l.862-866. *)
Definition old_codepage (dec : decoder) (data : str) (b : obook) : res obook :=
  do _ <- sized 2 (bytes_at 0 2 data);
  let c := o_coding b in
  derived dec (with_coding (mkcoding (Some (u16 0 data)) (c_set c) (c_user c)) b).

(** handle_writeaccess, book.py l.1210-1226; a decoded user name is not
    kept. *)
Definition old_writeaccess (dec : decoder) (data : str) (b : obook) : res obook :=
  let c := o_coding b in
  if c_set c then do _ <- old_string dec (c_page c) data 0 1; Ok b
  else Ok (with_coding (mkcoding (c_page c) false (Some data)) b).

(** handle_datemode, book.py l.875-880. *)
Definition old_datemode (data : str) (b : obook) : res obook :=
  do _ <- sized 2 (bytes_at 0 2 data);
  let m := u16 0 data in
  if (m =? 0) || (m =? 1) then Ok (with_datemode m b) else Err AssertionError.

(** ** Formats *)

(** handle_format, formatting.py l.525-573. *)
Definition old_format (dec : decoder) (rc : Z) (data : str) (b : obook) : res obook :=
  let bv := if rc =? 0x1e then Z.min (o_version b) 30 else o_version b in
  do b <- coded dec b;
  let k := o_looks b in
  do key <- (if 50 <=? bv then do _ <- sized 2 (bytes_at 0 2 data); Ok (u16 0 data) else Ok (k_count k));
  do (fmt, _) <- old_string dec (c_page (o_coding b)) data (if bv <=? 30 then 0 else 2) 1;
  let ty := if is_date_format_string fmt then FDT else FGE in
  Ok (with_looks (mklooks (dset key ty (k_formats k)) (k_count k + 1) (k_xfs k) (k_types k) (k_done k)) b).

(** The format key of an XF record: the branches of handle_xf, formatting.py
    l.720-964; no other part of the record matters here. *)
Definition old_xf_key (version : Z) (data : str) : res Z :=
  if 50 <=? version then do _ <- sized 16 (bytes_at 0 16 data); Ok (u16 2 data)
  else if 40 <=? version then do _ <- sized 12 (bytes_at 0 12 data); Ok (le_value (bytes_at 1 1 data))
  else if version =? 30 then do _ <- sized 12 (bytes_at 0 12 data); Ok (le_value (bytes_at 1 1 data))
  else if version =? 21 then do _ <- sized 4 data; Ok (Z.land (le_value (bytes_at 2 1 data)) 0x3f)
  else Err XLRDError.
(** handle_xf, formatting.py l.700-1014. *)
Definition old_xf (data : str) (b : obook) : res obook :=
  let k := o_looks b in
  let formats := match k_xfs k with
                 | [] => if 50 <=? o_version b then fill_in (k_formats k) else k_formats k
                 | _ => k_formats k
                 end in
  do key <- old_xf_key (o_version b) data;
  let cellty := match dget key formats with Some ty => cellty_of ty | None => XL_CELL_NUMBER end in
  Ok (with_looks (mklooks formats (k_count k) (k_xfs k ++ [if dmem key formats then key else 0])
                    (dset (Z.of_nat (length (k_xfs k))) cellty (k_types k)) (k_done k)) b).

(** xf_epilogue, formatting.py l.1016-1047. *)
Definition old_epilogue (b : obook) : obook :=
  let k := o_looks b in
  with_looks (mklooks (k_formats k) (k_count k) (k_xfs k) (epilogue_types 0 (k_xfs k) (k_formats k) (k_types k)) true) b.

(** ** Sheets *)

(** The sheet that is read, its book, _ixfe and _cell_attr_to_xfx (sheet.py
    l.388-389). The countries of the book are in the reading meanwhile. *)
Record osheet := mkosheet { s_reading : reading; s_book : obook; s_ixfe : option Z; s_attrs : list (str * Z) }.
(** The sheet changed (sheet.py l.388-389). *)
Definition with_reading (r : reading) (st : osheet) : osheet := mkosheet r (s_book st) (s_ixfe st) (s_attrs st).
(** Its book changed (sheet.py l.388-389). *)
Definition with_book (b : obook) (st : osheet) : osheet := mkosheet (s_reading st) b (s_ixfe st) (s_attrs st).

(** utter_max_rows and utter_max_cols, sheet.py l.391-395. *)
Definition old_setup (b : obook) : setup := mksetup false false (k_types (o_looks b)) 16384 256.

(** put_cell of a sheet (sheet.py l.710-787). *)
Definition old_put (p : put) (st : osheet) : res osheet :=
  do r <- put1 (old_setup (s_book st)) p (s_reading st);
  Ok (with_reading r st).

(** insert_new_BIFF20_xf with fake_XF_from_BIFF20_cell_attr, sheet.py
    l.1619-1700; FUN is 0. *)
Definition insert_xf (attr : str) (st : osheet) : Z * osheet :=
  let k := o_looks (s_book st) in
  let xfx := Z.of_nat (length (k_xfs k)) in
  let key := Z.land (le_value (bytes_at 1 1 attr)) 0x3f in
  let formats := if dmem key (k_formats k) then k_formats k else dset key 0 (k_formats k) in
  let cellty := match dget key formats with Some ty => cellty_of ty | None => XL_CELL_NUMBER end in
  (xfx, mkosheet (s_reading st)
          (with_looks (mklooks formats (k_count k) (k_xfs k ++ [key]) (dset xfx cellty (k_types k)) (k_done k)) (s_book st))
          (s_ixfe st) ((attr, xfx) :: s_attrs st)).
(** The entry of a cell_attr in _cell_attr_to_xfx, the last one put there
    (sheet.py l.1608). *)
Definition attr_xf (attr : str) (l : list (str * Z)) : option Z :=
  match find (fun e => str_eqb (fst e) attr) l with Some (_, x) => Some x | None => None end.
(** The sixteen XFs of l.1613-1615. *)
Fixpoint insert_styles (n : nat) (st : osheet) : osheet :=
  match n with
  | O => st
  | S n' => insert_styles n' (snd (insert_xf [64; 0; 0]%N st))
  end.
(** fixed_BIFF2_xfindex, sheet.py l.1584-1617, without true_xfx. *)
Definition fixed_xf (attr : str) (st : osheet) : res (Z * osheet) :=
  let slot := Z.land (le_value (bytes_at 0 1 attr)) 0x3f in
  let k := o_looks (s_book st) in
  match k_xfs k with
  | _ :: _ as xfs =>
      if o_version (s_book st) =? 21 then
        if slot =? 0x3f
        then match s_ixfe st with None => Err XLRDError | Some x => Ok (x, st) end
        else Ok (slot, st)
      else if negb (slot =? 0) then Err AssertionError
      else match attr_xf attr (s_attrs st) with Some x => Ok (x, st) | None => Ok (insert_xf attr st) end
  | [] =>
      let st := with_book (with_version (if o_version (s_book st) =? 21 then 20 else o_version (s_book st)) (s_book st)) st in
      if negb (slot =? 0) then Err AssertionError
      else
        match attr_xf attr (s_attrs st) with
        | Some x => Ok (x, st)
        | None => Ok (insert_xf attr (insert_styles 16 st))
        end
  end.

(** The cell of a BIFF2 record: sheet.py l.1379-1396. *)
Definition put_b2 (data : str) (ty : option Z) (v : val) (st : osheet) : res osheet :=
  do (xf, st) <- fixed_xf (bytes_at 4 3 data) st;
  old_put (mkput (u16 0 data) (u16 2 data) ty v xf) st.

(** string_record_contents below BIFF8, sheet.py l.1510-1538: the text and the
    position afterwards; found counts characters. *)
Fixpoint old_contents (fuel : nat) (dec : decoder) (page : option Z) (mem : str) (raw : str) (expected found pos : Z) (acc : str)
  : res (str * Z) :=
  do chunk <- dec page raw;
  let acc := acc ++ chunk in
  let found := found + Z.of_nat (length chunk) in
  if found =? expected then Ok (acc, pos)
  else if expected <? found then Err XLRDError
  else
    match fuel with
    | O => Err NonTermination
    | S f =>
        do (rc, len, data, pos) <- get_record mem pos;
        if negb (rc =? 0x3c) then Err XLRDError
        else old_contents f dec page mem data expected found pos acc
    end.
(** The STRING record of a formula, sheet.py l.949-981: the text, the position
    afterwards and the book, which may have got its encoding. *)
Definition old_formula_string (dec : decoder) (mem : str) (pos : Z) (b : obook) : res (str * Z * obook) :=
  do (rc2, len, data2, pos) <- get_record mem pos;
  do (data2, pos) <-
    (if (rc2 =? 0x207) || (rc2 =? 0x7) then Ok (data2, pos)
     else
       do _ <- (if rc2 =? 0x221 then sized 14 (bytes_at 0 14 data2)
                else if rc2 =? 0x4bc then sized 10 (bytes_at 0 10 data2)
                else if (rc2 =? 0x236) || (rc2 =? 0x37) || (rc2 =? 0x21) || (rc2 =? 0x36) then Ok tt
                else Err XLRDError);
       do (rc2, len, data2, pos) <- get_record mem pos;
       if (rc2 =? 0x207) || (rc2 =? 0x7) then Ok (data2, pos) else Err XLRDError);
  let lenlen := if 30 <=? o_version b then 2%nat else 1%nat in
  do _ <- sized lenlen (bytes_at 0 lenlen data2);
  do b <- coded dec b;
  do (s, pos) <- old_contents (S (length mem)) dec (c_page (o_coding b)) mem (skipn lenlen data2)
                   (le_value (bytes_at 0 lenlen data2)) 0 pos [];
  Ok (s, pos, b).

(** A FORMULA record, sheet.py l.929-1000; bv is the version at the start of the
    sheet. *)
Definition old_formula (dec : decoder) (bv : Z) (mem data : str) (pos : Z) (st : osheet) : res (osheet * Z) :=
  do _ <- sized 16 (bytes_at 0 16 data);
  let rowx := u16 0 data in
  let colx := u16 2 data in
  do (xf, st) <- (if 30 <=? bv then Ok (u16 4 data, st) else fixed_xf (bytes_at 4 3 data) st);
  let result := bytes_at (if 30 <=? bv then 6%nat else 7%nat) 8 data in
  let value := VInt (le_value (bytes_at 2 1 result)) in
  let done p := do st <- old_put p st; Ok (st, pos) in
  if str_eqb (bytes_at 6 2 result) [255; 255]%N then
    let first_byte := le_value (bytes_at 0 1 result) in
    if first_byte =? 0 then
      do (strg, pos, b) <- old_formula_string dec mem pos (s_book st);
      do st <- old_put (mkput rowx colx (Some XL_CELL_TEXT) (VStr strg) xf) (with_book b st);
      Ok (st, pos)
    else if first_byte =? 1 then done (mkput rowx colx (Some XL_CELL_BOOLEAN) value xf)
    else if first_byte =? 2 then done (mkput rowx colx (Some XL_CELL_ERROR) value xf)
    else if first_byte =? 3 then done (mkput rowx colx (Some XL_CELL_TEXT) (VStr []) xf)
    else Err XLRDError
  else
    do d <- unpack_d result;
    done (mkput rowx colx None (VFloat d) xf).

(** The runs of an RSTRING record, sheet.py l.846-850. *)
Fixpoint old_runs (n : nat) (data : str) (pos : Z) : res Z :=
  match n with
  | O => Ok pos
  | S n' => do _ <- sized 2 (pyslice data pos (pos + 2)); old_runs n' data (pos + 2)
  end.

(** handle_note below BIFF8, sheet.py l.1957-1984: the raw text and the position
    afterwards. *)
Fixpoint old_note (fuel : nat) (mem : str) (expected : Z) (acc : str) (pos : Z) : res (str * Z) :=
  if expected <=? 0 then if expected =? 0 then Ok (acc, pos) else Err AssertionError
  else
    match fuel with
    | O => Err NonTermination
    | S f =>
        do (rc2, len2, data2, pos) <- get_record mem pos;
        if negb (rc2 =? 0x1c) then Err AssertionError
        else
          do _ <- sized 6 (bytes_at 0 6 data2);
          let nb := u16 4 data2 in
          if negb (u16 0 data2 =? 0xffff) then Err AssertionError
          else if negb (nb =? len2 - 6) then Err AssertionError
          else old_note f mem (expected - nb) (acc ++ skipn 6 data2) pos
    end.
(** handle_note itself, sheet.py l.1957-1984. *)
Definition old_handle_note (dec : decoder) (mem data : str) (pos : Z) (b : obook) : res (obook * Z) :=
  do _ <- sized 6 (bytes_at 0 6 data);
  let nb := Z.of_nat (length data) - 6 in
  let expected := u16 4 data in
  if negb (nb <=? expected) then Err AssertionError
  else
    do (raw, pos) <- old_note (S (length mem)) mem (expected - nb) (skipn 6 data) pos;
    do b <- coded dec b;
    do _ <- dec (c_page (o_coding b)) raw;
    Ok (b, pos).

(** The records that are only looked at below BIFF5, sheet.py l.1355-1498; None
    for others. Without formatting_info FONT, EFONT and PALETTE records do
    nothing, and BLANK, ROW, COLWIDTH and COLUMNDEFAULT records of BIFF2 are
    passed over. *)
Definition early_record (dec : decoder) (rc len : Z) (data : str) (st : osheet) : option (res osheet) :=
  let onbook r := Some (do b <- r; Ok (with_book b st)) in
  let b := s_book st in
  if (rc =? 0x41e) || (rc =? 0x1e) then onbook (old_format dec rc data b)
  else if (rc =? 0x31) || (rc =? 0x231) || (rc =? 0x92) || (rc =? 0x45) then Some (Ok st)
  else if rc =? 0x293 then onbook (Ok (if k_done (o_looks b) then b else old_epilogue b))
  else if rc =? 0x56 then Some (do _ <- sized 2 (bytes_at 0 2 data); Ok st)
  else if (rc =? 0x443) || (rc =? 0x243) || (rc =? 0x43) then onbook (old_xf data b)
  else if rc =? 0x22 then onbook (old_datemode data b)
  else if rc =? 0x42 then onbook (old_codepage dec data b)
  else if rc =? 0x2f then Some (Err XLRDError)
  else if rc =? 0x5c then onbook (old_writeaccess dec data b)
  else if rc =? 0x44 then
    Some (do _ <- sized 2 data; Ok (mkosheet (s_reading st) b (Some (u16 0 data)) (s_attrs st)))
  else if rc =? 0x3 then                                                  (* NUMBER *)
    Some (do _ <- sized 15 data;
          do d <- unpack_d (bytes_at 7 8 data);
          put_b2 data None (VFloat d) st)
  else if rc =? 0x2 then                                                  (* INTEGER *)
    Some (do _ <- sized 9 data; put_b2 data None (VFloat (float_of_Z (u16 7 data))) st)
  else if rc =? 0x4 then                                                  (* LABEL *)
    Some (do _ <- sized 7 (bytes_at 0 7 data);
          do b <- coded dec b;
          do (s, _) <- old_string dec (c_page (o_coding b)) data 7 1;
          put_b2 data (Some XL_CELL_TEXT) (VStr s) (with_book b st))
  else if rc =? 0x5 then                                                  (* BOOLERR *)
    Some (do _ <- sized 9 data;
          let v := VInt (le_value (bytes_at 7 1 data)) in
          let is_err := le_value (bytes_at 8 1 data) in
          if is_err =? 0 then put_b2 data (Some XL_CELL_BOOLEAN) v st
          else if is_err =? 1 then put_b2 data (Some XL_CELL_ERROR) v st
          else Err IndexError)
  else if (rc =? 0x1) || (rc =? 0x8) || (rc =? 0x24) || (rc =? 0x20) then Some (Ok st)
  else if rc =? 0x3e then                                                 (* WINDOW2 *)
    Some (do _ <- sized 5 (bytes_at 5 5 data); do _ <- sized 3 (bytes_at 10 3 data); Ok st)
  else None.

(** One record of Sheet.read other than EOF, sheet.py l.819-1501: those that are
    read as in BIFF8 go to [sheet_record]. bv is the version at the start of the
    sheet (l.804). OBJ and TXO records do nothing (l.1907-1909, 2014-2016). *)
Definition old_record (dec : decoder) (bv : Z) (mem : str) (rc len : Z) (data : str) (pos : Z) (st : osheet)
  : res (osheet * Z) :=
  let b := s_book st in
  if rc =? 0x204 then                                                     (* LABEL *)
    do _ <- sized 6 (bytes_at 0 6 data);
    do b <- coded dec b;
    do (s, _) <- old_string dec (c_page (o_coding b)) data 6 2;
    do st <- old_put (mkput (u16 0 data) (u16 2 data) (Some XL_CELL_TEXT) (VStr s) (u16 4 data)) (with_book b st);
    Ok (st, pos)
  else if rc =? 0xd6 then                                                 (* RSTRING *)
    do _ <- sized 6 (bytes_at 0 6 data);
    do b <- coded dec b;
    do (s, p) <- old_string dec (c_page (o_coding b)) data 6 2;
    do nrt <- byte_at data p;
    do p <- old_runs (N.to_nat nrt) data (p + 1);
    if negb (p =? Z.of_nat (length data)) then Err AssertionError
    else
      do st <- old_put (mkput (u16 0 data) (u16 2 data) (Some XL_CELL_TEXT) (VStr s) (u16 4 data)) (with_book b st);
      Ok (st, pos)
  else if (rc =? 0x6) || (rc =? 0x406) || (rc =? 0x206) then old_formula dec bv mem data pos st
  else if (rc =? 0x200) || (rc =? 0x0) then                               (* DIMENSION *)
    if len =? 0 then Ok (st, pos)
    else
      do _ <- sized 6 (bytes_at 2 6 data);
      let g := r_grid (s_reading st) in
      let st := with_reading (with_grid (mkgrid 0 0 (g_types g) (g_values g) (g_xfs g) (g_full g)) (s_reading st)) st in
      let late := match k_xfs (o_looks b) with [] => false | _ => negb (k_done (o_looks b)) end in
      Ok (if ((bv =? 21) || (bv =? 30) || (bv =? 40)) && late then with_book (old_epilogue b) st else st, pos)
  else if (rc =? 0x5d) || (rc =? 0x1b6) then Ok (st, pos)                 (* OBJ, TXO *)
  else if rc =? 0x1c then                                                 (* NOTE *)
    do (b, pos) <- old_handle_note dec mem data pos b;
    Ok (with_book b st, pos)
  else if rc =? 0x23e then                                                (* WINDOW2 *)
    if bv <? 30 then Err AssertionError
    else do _ <- sized 6 (bytes_at 0 6 data); do _ <- sized 3 (bytes_at 6 3 data); Ok (st, pos)
  else
    match (if bv <=? 45 then early_record dec rc len data st else None) with
    | Some r => do st <- r; Ok (st, pos)
    | None =>
        do (r, pos) <- sheet_record (old_setup b) mem (o_strings b) rc len data pos (s_reading st);
        Ok (with_reading r st, pos)
    end.

(** The loop of Sheet.read up to EOF, sheet.py l.811-1501. *)
Fixpoint old_loop (fuel : nat) (dec : decoder) (bv : Z) (mem : str) (pos : Z) (st : osheet) : res osheet :=
  match fuel with
  | O => Err NonTermination
  | S f =>
      do (rc, len, data, pos) <- get_record mem pos;
      if rc =? 0x0a then Ok st
      else
        do (st, pos) <- old_record dec bv mem rc len data pos st;
        old_loop f dec bv mem pos st
  end.

(** get_sheet, book.py l.721-740, with Sheet.__init__ and Sheet.read, sheet.py
    l.320-402, 789-1508: the sheet and the book afterwards. *)
Definition old_sheet (dec : decoder) (mem : str) (pos : Z) (b : obook) : res (sheet * obook) :=
  do (_, pos) <- getbof mem pos 0x10;
  do st <- old_loop (S (length mem)) dec (o_version b) mem pos
             (mkosheet (mkreading new_grid (o_countries b) None false) b None []);
  let b := with_countries (r_countries (s_reading st)) (s_book st) in
  match tidy (old_setup b) [] (r_grid (s_reading st)) with
  | (_, Err e) => Err e
  | (g, Ok _) => Ok (sheet_of g, b)
  end.

(** get_sheets, book.py l.742-747. *)
Fixpoint old_sheets (dec : decoder) (mem : str) (l : list (str * Z)) (b : obook) : res (list sheet * obook) :=
  match l with
  | [] => Ok ([], b)
  | (_, pos) :: l' =>
      do (sh, b) <- old_sheet dec mem pos b;
      do (rest, b) <- old_sheets dec mem l' b;
      Ok (sh :: rest, b)
  end.

(** ** Globals *)

(** _all_sheets_map.append(i), book.py l.788, 803. *)
Definition mapped (i : Z) (b : obook) : obook :=
  let r := o_refs b in with_refs (mkrefs (f_map r ++ [i]) (f_types r) (f_names r) (f_list r)) b.

(** handle_boundsheet, book.py l.758-808: a sheet that is no worksheet is not
    kept. In BIFF4W the place is that of SHEETSOFFSET for the first sheet and -1
    for others; _sheetsoffset may be missing (AttributeError). *)
Definition old_boundsheet (dec : decoder) (base : Z) (data : str) (b : obook) : res obook :=
  do b <- derived dec b;
  let page := c_page (o_coding b) in
  if o_version b =? 45 then
    do (name, _) <- old_string dec page data 0 1;
    do place <- match o_sheets b with
                | [] => match o_offset b with Some z => Ok (z + base) | None => Err AttributeError end
                | _ => Ok (-1)
                end;
    Ok (with_sheets (o_sheets b ++ [(name, place)]) b)
  else
    do _ <- sized 6 (bytes_at 0 6 data);
    do (name, _) <- old_string dec page data 6 1;
    if le_value (bytes_at 5 1 data) =? 0
    then Ok (with_sheets (o_sheets b ++ [(name, le_signed (bytes_at 0 4 data) + base)]) (mapped (Z.of_nat (length (o_sheets b))) b))
    else Ok (mapped (-1) b).

(** handle_externsheet below BIFF8, book.py l.896-948. *)
Definition old_externsheet (dec : decoder) (data : str) (b : obook) : res obook :=
  do b <- derived dec b;
  do _ <- sized 2 (bytes_at 0 2 data);
  let r := o_refs b in
  let ty := le_value (bytes_at 1 1 data) in
  do names <- (if ty =? 3
               then do s <- dec (c_page (o_coding b)) (pyslice data 2 (le_value (bytes_at 0 1 data) + 2));
                    Ok (f_names r ++ [(Z.of_nat (length (f_types r)) + 1, s)])
               else Ok (f_names r));
  Ok (with_refs (mkrefs (f_map r) (f_types r ++ [if (1 <=? ty) && (ty <=? 4) then ty else 0]) names (f_list r)) b).

(** handle_name, book.py l.970-1028: does nothing below BIFF5. *)
Definition old_name (dec : decoder) (data : str) (b : obook) : res obook :=
  if o_version b <? 50 then Ok b
  else
    do b <- derived dec b;
    do n <- old_new_name (dec (c_page (o_coding b))) data;
    let r := o_refs b in
    Ok (with_refs (mkrefs (f_map r) (f_types r) (f_names r) (f_list r ++ [n])) b).

(** What names_epilogue, book.py l.1030-1070, uses of the Book. *)
Definition old_links (dec : decoder) (b : obook) : links :=
  let r := o_refs b in
  mklinks (f_map r) [] None None (length (o_sheets b))
    (Some (mkoldlinks (dec (c_page (o_coding b))) (f_types r) (f_names r) (map fst (o_sheets b)))).

(** handle_sheethdr, book.py l.1158-1177: the sheet that follows is read, and
    the next record is where the length says. *)
Definition old_sheethdr (dec : decoder) (mem data : str) (pos : Z) (b : obook) : res (obook * Z) :=
  do b <- derived dec b;
  do _ <- sized 4 (bytes_at 0 4 data);
  do (name, _) <- old_string dec (c_page (o_coding b)) data 4 1;
  match nth_error (o_sheets b) (length (o_read b)) with
  | None => Err IndexError
  | Some (name', _) =>
      if negb (str_eqb name name') then Err AssertionError
      else
        do (sh, b) <- old_sheet dec mem pos (with_looks new_looks b);
        Ok (with_read (o_read b ++ [sh]) b, pos + le_signed (bytes_at 0 4 data))
  end.

(** One record of parse_globals, book.py l.1235-1290, other than EOF. EXTERNNAME
    records do nothing below BIFF8 (l.882-894). *)
Definition old_globals_record (dec : decoder) (mem : str) (base rc : Z) (data : str) (pos : Z) (b : obook)
  : res (obook * Z) :=
  let keep r := do b <- r; Ok (b, pos) in
  if rc =? 0xfc then
    do (g, pos) <- handle_sst mem pos data new_globals;
    Ok (with_strings (b_strings g) b, pos)
  else if rc =? 0x41e then keep (old_format dec rc data b)
  else if rc =? 0xe0 then keep (old_xf data b)
  else if rc =? 0x85 then keep (old_boundsheet dec base data b)
  else if rc =? 0x22 then keep (old_datemode data b)
  else if rc =? 0x42 then keep (old_codepage dec data b)
  else if rc =? 0x8c then
    do c <- handle_country data (o_countries b);
    Ok (with_countries c b, pos)
  else if rc =? 0x17 then keep (old_externsheet dec data b)
  else if rc =? 0x2f then Err XLRDError
  else if rc =? 0x5c then keep (old_writeaccess dec data b)
  else if rc =? 0x8e then do _ <- sized 4 data; Ok (with_offset (Some (le_signed data)) b, pos)
  else if rc =? 0x8f then old_sheethdr dec mem data pos b
  else if rc =? 0x1ae then do _ <- handle_supbook data new_globals; Ok (b, pos)
  else if rc =? 0x18 then keep (old_name dec data b)
  else Ok (b, pos).

(** parse_globals, book.py l.1228-1290. Where the next record is depends on the
    position alone, which is between -n and n for n bytes; so a loop that comes to
    a position again, which only a SHEETHDR record can make it do, goes on for
    ever or until it raises. Here it is [NonTermination] in either case. *)
Fixpoint old_globals (fuel : nat) (dec : decoder) (mem : str) (base pos : Z) (b : obook) : res obook :=
  match fuel with
  | O => Err NonTermination
  | S f =>
      do (rc, len, data, pos) <- get_record mem pos;
      if rc =? 0x0a then
        let b := old_epilogue b in
        do _ <- names_epilogue (old_links dec b) (f_list (o_refs b));
        coded dec b
      else
        do (b, pos) <- old_globals_record dec mem base rc data pos b;
        old_globals f dec mem base pos b
  end.

(** ** Files *)

(** open_workbook_xls, book.py l.86-125, below BIFF8, after getbof. The only
    sheet of BIFF 2 to 4 is at the start of the stream, not at base
    (fake_globals_get_sheet, l.749-756). *)
Definition open_old (dec : decoder) (version : Z) (mem : str) (base pos : Z) : res book :=
  if version <=? 40 then
    do (sh, b) <- old_sheet dec mem 0 (new_obook version);
    Ok (mkbook [lit "Sheet 1"] [sh] (o_datemode b))
  else
    do b <- old_globals (S (2 * length mem)) dec mem base pos (new_obook version);
    if version =? 45 then Ok (mkbook (map fst (o_sheets b)) (o_read b) (o_datemode b))
    else
      do (sheets, b) <- old_sheets dec mem (o_sheets b) b;
      Ok (mkbook (map fst (o_sheets b)) sheets (o_datemode b)).

(** open_workbook_xls, book.py l.70-143, for all versions. *)
Definition open_xls_dec (dec : decoder) (file : str) : res book :=
  match file with
  | [] => Err XLRDError
  | _ =>
      do (mem, base) <- load file;
      do (version, pos) <- getbof mem base 5;
      if version =? 0 then Err XLRDError
      else if version =? 80 then open_xls file
      else open_old dec version mem base pos
  end.

(** open_workbook, xlrd/__init__.py l.24-160, but for zip files. *)
Definition open_workbook_dec (dec : decoder) (file : str) : res book :=
  if str_eqb (bytes_at 0 4 file) [80; 75; 3; 4]%N then Err NotModelled else open_xls_dec dec file.

(** sheetpack on a file, readxl.py l.97-156. *)
Definition sheetpack_dec (dec : decoder) (file fname : str) (which header : pyobj) (startcell stopcell : option str)
  (usecols : pyobj) : res pack :=
  do _ <- cellreference 0 0 startcell;
  do _ <- cellreference 0 0 stopcell;
  do wb <- open_workbook_dec dec file;
  sheetpack wb fname which header startcell stopcell usecols.
