(** * Strings in BIFF8 records: xlrd/biffh.py, xlrd/book.py

    unpack_unicode, unpack_unicode_update_pos and unpack_SST_table. Bytes are
    lists of numbers below 256. *)

From Coq Require Import ZArith.
From Verif Require Import PyBase PyFloat Dbf XlStruct CompDoc.
Open Scope Z_scope.

(** unpack('<B' or '<H', data[pos:pos+n])[0] (biffh.py l.264, book.py
    l.1429). *)
Definition unpack_u (n : Z) (data : str) (pos : Z) : res Z :=
  let b := pyslice data pos (pos + n) in
  if Z.of_nat (length b) =? n then Ok (le_value b) else Err StructError.

(** data[pos] (BYTES_ORD is the identity in Python 3; biffh.py l.270). *)
Definition byte_at (data : str) (pos : Z) : res N :=
  match py_index data pos with Some b => Ok b | None => Err IndexError end.

(** options & 0x01, & 0x04, & 0x08 (biffh.py l.273-283). *)
Definition opt_wide (o : N) : bool := negb (N.land o 1 =? 0)%N.
(** options & 0x04 (biffh.py l.273-283). *)
Definition opt_phonetic (o : N) : bool := negb (N.land o 4 =? 0)%N.
(** options & 0x08 (biffh.py l.273-283). *)
Definition opt_rich (o : N) : bool := negb (N.land o 8 =? 0)%N.

(** unpack_unicode, biffh.py l.262-299; decoding latin_1 is the identity. *)
Definition unpack_unicode (data : str) (pos lenlen : Z) : res str :=
  do nchars <- unpack_u lenlen data pos;
  if nchars =? 0 then Ok []
  else
    let pos := pos + lenlen in
    do options <- byte_at data pos;
    let pos := pos + 1 in
    let pos := if opt_rich options then pos + 2 else pos in
    let pos := if opt_phonetic options then pos + 4 else pos in
    if opt_wide options then utf16_le (pyslice data pos (pos + 2 * nchars))
    else Ok (pyslice data pos (pos + nchars)).

(** unpack_unicode_update_pos, biffh.py l.301-334, without known_len. *)
Definition unpack_unicode_update_pos (data : str) (pos lenlen : Z) : res (str * Z) :=
  do nchars <- unpack_u lenlen data pos;
  let pos := pos + lenlen in
  if (nchars =? 0) && Nat.eqb (length (pyslice data pos (Z.of_nat (length data)))) 0 then Ok ([], pos)
  else
    do options <- byte_at data pos;
    let pos := pos + 1 in
    do (rt, pos) <- (if opt_rich options then do rt <- unpack_u 2 data pos; Ok (rt, pos + 2) else Ok (0, pos));
    do (sz, pos) <- (if opt_phonetic options
                     then do sz <- unpack_i (pyslice data pos (pos + 4)); Ok (sz, pos + 4)
                     else Ok (0, pos));
    do (strg, pos) <- (if opt_wide options
                       then do s <- utf16_le (pyslice data pos (pos + 2 * nchars)); Ok (s, pos + 2 * nchars)
                       else Ok (pyslice data pos (pos + nchars), pos + nchars));
    Ok (strg, pos + (if opt_rich options then 4 * rt else 0) + (if opt_phonetic options then sz else 0)).

(** ** The shared string table *)

(** Where the reader is: the current record, the position in it and the records
    to come (data, pos, datatab[datainx+1:] in book.py l.1414-1499; datalen is
    len(data)). *)
Record reader := mkreader { rd_data : str; rd_pos : Z; rd_rest : list str }.

(** datainx += 1; data = datatab[datainx] (book.py l.1470-1472, 1481-1483). *)
Definition next_record (rd : reader) (pos : Z) : res reader :=
  match rd_rest rd with
  | d :: rest => Ok (mkreader d pos rest)
  | [] => Err IndexError
  end.

(** The characters of a string, book.py l.1441-1474: charsneed are left to
    read. *)
Fixpoint sst_chars (data : str) (pos : Z) (rest : list str) (options : N) (charsneed : Z) (acc : str)
  : res (str * reader) :=
  let datalen := Z.of_nat (length data) in
  do (avail, acc, pos) <-
    (if opt_wide options then
       let avail := Z.min (Z.shiftr (datalen - pos) 1) charsneed in
       do t <- utf16_le (pyslice data pos (pos + 2 * avail));
       Ok (avail, acc ++ t, pos + 2 * avail)
     else
       let avail := Z.min (datalen - pos) charsneed in
       Ok (avail, acc ++ pyslice data pos (pos + avail), pos + avail));
  if avail =? charsneed then Ok (acc, mkreader data pos rest)
  else
    match rest with
    | [] => Err IndexError
    | data :: rest =>
        do options <- byte_at data 0;
        sst_chars data 1 rest options (charsneed - avail) acc
    end.

(** The formatting runs of a string, book.py l.1476-1486. *)
Fixpoint sst_runs (rtcount : nat) (rd : reader) : res (list (Z * Z) * reader) :=
  match rtcount with
  | O => Ok ([], rd)
  | S n =>
      do rd <- (if rd_pos rd =? Z.of_nat (length (rd_data rd)) then next_record rd 0 else Ok rd);
      let b := pyslice (rd_data rd) (rd_pos rd) (rd_pos rd + 4) in
      do run <- (if Nat.eqb (length b) 4 then Ok (le_value (firstn 2 b), le_value (skipn 2 b)) else Err StructError);
      do (runs, rd) <- sst_runs n (mkreader (rd_data rd) (rd_pos rd + 4) (rd_rest rd));
      Ok (run :: runs, rd)
  end.

(** One string, book.py l.1428-1498; last tells the last of the loop. The runs
    are given when the dict gets an entry. *)
Definition sst_string (last : bool) (rd : reader) : res (str * option (list (Z * Z)) * reader) :=
  let data := rd_data rd in
  let pos := rd_pos rd in
  do nchars <- unpack_u 2 data pos;
  let pos := pos + 2 in
  do options <- byte_at data pos;
  let pos := pos + 1 in
  do (rtcount, pos) <- (if opt_rich options then do rt <- unpack_u 2 data pos; Ok (rt, pos + 2) else Ok (0, pos));
  do (phosz, pos) <- (if opt_phonetic options
                      then do sz <- unpack_i (pyslice data pos (pos + 4)); Ok (sz, pos + 4)
                      else Ok (0, pos));
  do (strg, rd) <- sst_chars data pos (rd_rest rd) options nchars [];
  do (runs, rd) <- (if rtcount =? 0 then Ok (None, rd)
                    else do (runs, rd) <- sst_runs (Z.to_nat rtcount) rd; Ok (Some runs, rd));
  let pos := rd_pos rd + phosz in
  let datalen := Z.of_nat (length (rd_data rd)) in
  if datalen <=? pos then
    match rd_rest rd with
    | d :: rest => Ok (strg, runs, mkreader d (pos - datalen) rest)
    | [] => if last then Ok (strg, runs, mkreader (rd_data rd) (pos - datalen) []) else Err AssertionError
    end
  else Ok (strg, runs, mkreader (rd_data rd) pos (rd_rest rd)).

(** The loop over nstrings, book.py l.1428-1499; k is the number of strings
    so far, a key of richtext_runs. *)
Fixpoint sst_loop (n : nat) (k : Z) (rd : reader) : res (list str * list (Z * list (Z * Z))) :=
  match n with
  | O => Ok ([], [])
  | S n' =>
      do (x, rd) <- sst_string (Nat.eqb n' 0) rd;
      do (strings, rich) <- sst_loop n' (k + 1) rd;
      Ok (fst x :: strings, match snd x with Some runs => (k, runs) :: rich | None => rich end)
  end.

(** unpack_SST_table, book.py l.1414-1499. *)
Definition unpack_SST_table (datatab : list str) (nstrings : Z) : res (list str * list (Z * list (Z * Z))) :=
  match datatab with
  | [] => Err IndexError
  | data :: rest => sst_loop (Z.to_nat nstrings) 0 (mkreader data 8 rest)
  end.

(** Two strings, the second cut after its first character and then wide. *)
Example unpack_SST_table_ex :
  unpack_SST_table [[0; 0; 0; 0; 2; 0; 0; 0;  2; 0; 0; 97; 98;  3; 0; 8; 1; 0; 99]%N;
                    [1; 172; 32; 100; 0;  5; 0; 6; 0]%N] 2
  = Ok ([lit "ab"; [99; 8364; 100]%N], [(1, [(5, 6)])]).
Proof. vm_compute. reflexivity. Qed.
