(** * Links, notes and drawn objects of a BIFF8 sheet: channelpack/xlrd/sheet.py

    handle_hlink, handle_quicktip, handle_obj and handle_note for BIFF8. Nothing
    of what they collect reaches the packs of channelpack, but an exception keeps
    the workbook from being opened. Kept is the place of the last link, which
    handle_quicktip compares. *)

From Coq Require Import ZArith.
From Verif Require Import PyBase PyFloat NumPy Dbf XlStruct CompDoc Sst.
Open Scope Z_scope.

(** unpack('<L' or '<i', data[pos:pos+4])[0] (sheet.py l.1758, 1779, 1808, 1812). *)
Definition unpack_l (data : str) (pos : Z) : res Z := unpack_u 4 data pos.
(** The bytes at a position (sheet.py l.1758, 1779, 1808, 1812). *)
Definition unpack_at (data : str) (pos : Z) : res Z := unpack_i (pyslice data pos (pos + 4)).

(** get_nul_terminated_unicode, sheet.py l.1757-1762: the offset afterwards. *)
Definition nul_text (data : str) (ofs : Z) : res Z :=
  do n <- unpack_l data ofs;
  let ofs := ofs + 4 in
  do _ <- utf16_le (pyslice data ofs (ofs + n * 2));
  Ok (ofs + n * 2).

(** The class ids, sheet.py l.1752, 1775, 1798. *)
Definition link_guid : str := [0xD0; 0xC9; 0xEA; 0x79; 0xF9; 0xBA; 0xCE; 0x11; 0x8C; 0x82; 0x00; 0xAA; 0x00; 0x4B; 0xA9; 0x0B]%N.
(** sheet.py l.1775. *)
Definition url_clsid : str := [0xE0; 0xC9; 0xEA; 0x79; 0xF9; 0xBA; 0xCE; 0x11; 0x8C; 0x82; 0x00; 0xAA; 0x00; 0x4B; 0xA9; 0x0B]%N.
(** sheet.py l.1798. *)
Definition file_clsid : str := [0x03; 0x03; 0x00; 0x00; 0x00; 0x00; 0x00; 0x00; 0xC0; 0x00; 0x00; 0x00; 0x00; 0x00; 0x00; 0x46]%N.

(** s.find('\x00'), sheet.py l.1783. *)
Fixpoint find_nul (s : str) (i : Z) : Z :=
  match s with
  | [] => -1
  | c :: s' => if (c =? 0)%N then i else find_nul s' (i + 1)
  end.

(** A URL moniker, sheet.py l.1779-1797: the offset afterwards. *)
Definition url_moniker (data : str) (offset : Z) : res Z :=
  do nbytes <- unpack_l data offset;
  let offset := offset + 4 in
  do url <- utf16_le (pyslice data offset (offset + nbytes));
  let true_nbytes := 2 * (find_nul url 0 + 1) in
  let extra_nbytes := nbytes - true_nbytes in
  if (extra_nbytes =? 24) || (extra_nbytes =? 0) then Ok (offset + true_nbytes + extra_nbytes) else Err AssertionError.

(** A file moniker, sheet.py l.1801-1821: the offset afterwards. *)
Definition file_moniker (data : str) (offset : Z) : res Z :=
  let head := pyslice data offset (offset + 6) in
  if negb (Nat.eqb (length head) 6) then Err StructError
  else
    let nbytes := le_signed (bytes_at 2 4 head) in
    let offset := offset + 6 + nbytes + 24 in
    do sz <- unpack_at data offset;
    let offset := offset + 4 in
    if sz =? 0 then Ok offset
    else
      do xl <- unpack_at data offset;
      let offset := offset + 4 + 2 in
      do _ <- utf16_le (pyslice data offset (offset + xl));
      Ok (offset + xl).

(** options & mask != 0, sheet.py l.1764-1830 (the low bits of a signed int are
    those of its bytes). *)
Definition has (options mask : Z) : bool := negb (Z.land options mask =? 0).

(** handle_hlink, sheet.py l.1746-1856: the rows and columns. *)
Definition handle_hlink (data : str) : res (Z * Z * Z * Z) :=
  let head := bytes_at 0 32 data in
  if negb (Nat.eqb (length head) 32) then Err StructError
  else if negb (str_eqb (bytes_at 8 16 head) link_guid) then Err AssertionError
  else if negb (str_eqb (bytes_at 24 4 head) [2; 0; 0; 0]%N) then Err AssertionError
  else
    let options := le_value (bytes_at 28 4 head) in
    let offset := 32 in
    do offset <- (if has options 0x14 then nul_text data offset else Ok offset);
    do offset <- (if has options 0x80 then nul_text data offset else Ok offset);
    do offset <-
      (if has options 1 && negb (has options 0x100) then
         let clsid := pyslice data offset (offset + 16) in
         if negb (Nat.eqb (length clsid) 16) then Err StructError
         else
           let offset := offset + 16 in
           if str_eqb clsid url_clsid then url_moniker data offset
           else if str_eqb clsid file_clsid then file_moniker data offset
           else Ok offset
       else if Z.land options 0x163 =? 0x103 then nul_text data offset
       else Ok offset);
    do offset <- (if has options 0x8 then nul_text data offset else Ok offset);
    if Z.of_nat (length data) - offset <? 0 then Err XLRDError
    else Ok (le_value (bytes_at 0 2 head), le_value (bytes_at 2 2 head), le_value (bytes_at 4 2 head), le_value (bytes_at 6 2 head)).

(** handle_quicktip, sheet.py l.1858-1865: [last] is where the last link is. *)
Definition handle_quicktip (data : str) (last : option (Z * Z * Z * Z)) : res unit :=
  let head := bytes_at 0 10 data in
  if negb (Nat.eqb (length head) 10) then Err StructError
  else if negb (le_value (bytes_at 0 2 head) =? 0x800) then Err AssertionError
  else
    match last with
    | None => Err AssertionError
    | Some (frowx, lrowx, fcolx, lcolx) =>
        if negb ((le_value (bytes_at 2 2 head) =? frowx) && (le_value (bytes_at 4 2 head) =? lrowx)
                 && (le_value (bytes_at 6 2 head) =? fcolx) && (le_value (bytes_at 8 2 head) =? lcolx)) then Err AssertionError
        else if negb (str_eqb (pyslice data (-2) (Z.of_nat (length data))) [0; 0]%N) then Err AssertionError
        else do _ <- utf16_le (pyslice data 10 (-2)); Ok tt
    end.

(** The loop of handle_obj from the second part on, sheet.py l.1915-1957:
    [autofilter] is the bit of the first part. *)
Fixpoint obj_loop (fuel : nat) (data : str) (pos : Z) (autofilter : bool) : res unit :=
  if negb (pos <? Z.of_nat (length data)) then Ok tt
  else
    match fuel with
    | O => Err NonTermination
    | S f =>
        do ft <- unpack_u 2 data pos;
        do cb <- unpack_u 2 data (pos + 2);
        let next := obj_loop f data (pos + cb + 4) autofilter in
        if ft =? 0x15 then Err AssertionError
        else if ft =? 0x00 then
          if forallb (N.eqb 0) (pyslice data pos (Z.of_nat (length data))) then Ok tt else Err XLRDError
        else if ft =? 0x0C then
          if Nat.eqb (length (pyslice data (pos + 8) (pos + 18))) 10 then next else Err StructError
        else if ft =? 0x13 then if autofilter then Ok tt else next
        else next
    end.
(** handle_obj, sheet.py l.1907-1961, and the id of its object, l.1116-1118;
    the object itself is not kept. An empty record gives an object without id. *)
Definition handle_obj (data : str) : res unit :=
  match data with
  | [] => Err AttributeError
  | _ =>
      do ft <- unpack_u 2 data 0;
      do cb <- unpack_u 2 data 2;
      if negb ((ft =? 0x15) && (cb =? 18)) then Ok tt
      else if negb (Nat.eqb (length (bytes_at 4 6 data)) 6) then Err StructError
      else obj_loop (S (length data)) data 22 (has (le_value (bytes_at 8 2 data)) 0x100)
  end.

(** handle_note, sheet.py l.1963-1969, 1994-2012, for BIFF8; the note is not kept. *)
Definition handle_note (data : str) : res unit :=
  if negb (Nat.eqb (length (bytes_at 0 8 data)) 8) then Err StructError
  else
    do (_, endpos) <- unpack_unicode_update_pos data 8 2;
    let left := Z.of_nat (length data) - endpos in
    if (left =? 0) || (left =? 1) then Ok tt else Err AssertionError.
