(** * The dump of the records of a file

    channelpack/xlrd/biffh.py l.521-596; channelpack/xlrd/__init__.py dump. *)

From Coq Require Import ZArith.
From Verif Require Import PyBase PyText PyFloat NumPy Dbf CompDoc Biff XlCount.
Open Scope Z_scope.

(** A digit of %x, biffh.py l.536, 577. *)
Definition low_digit (z : Z) : N := Z.to_N (if z <? 10 then 48 + z else 87 + z).

(** "%04x", biffh.py l.577, of a number of two bytes. *)
Definition hex4 (z : Z) : str :=
  [low_digit (z / 4096); low_digit (z / 256 mod 16); low_digit (z / 16 mod 16); low_digit (z mod 16)].

(** "%02x ", biffh.py l.536. *)
Definition hex2 (c : N) : str := [low_digit (Z.of_N c / 16); low_digit (Z.of_N c mod 16); 32%N].

(** "%5d: " when numbered, biffh.py l.546-547, 570-571, 575-576, 583-584, 587-588. *)
Definition num_prefix (numbered : bool) (n : Z) : str :=
  if numbered then let d := str_of_Z n in repeat 32%N (5 - length d)%nat ++ d ++ lit ": " else [].

(** A character for a byte, biffh.py l.540-544. *)
Definition char_of (c : N) : N := if N.eqb c 0 then 126%N else if (32 <=? c)%N && (c <=? 126)%N then c else 63%N.

(** hex_char_dump, biffh.py l.521-550, from the position pos, on fuel: the text
    printed to fout; adj is base - ofs. The message of l.530-535 goes to
    sys.stdout and is left out. *)
Fixpoint hex_loop (fuel : nat) (strg : str) (adj pos endpos : Z) (numbered : bool) : str :=
  match fuel with
  | O => []
  | S fuel' =>
      if pos <? endpos then
        let endsub := Z.min (pos + 16) endpos in
        let substrg := pyslice strg pos endsub in
        let lensub := endsub - pos in
        if (lensub <=? 0) || negb (lensub =? Z.of_nat (length substrg)) then []
        else
          let hexd := flat_map hex2 substrg in
          num_prefix numbered (adj + pos) ++ lit "     " ++ hexd ++ repeat 32%N (48 - length hexd)%nat ++ lit " "
            ++ map char_of substrg ++ [10%N] ++ hex_loop fuel' strg adj endsub endpos numbered
      else []
  end.

(** hex_char_dump, biffh.py l.521-550. *)
Definition hex_char_dump (strg : str) (ofs dlen base : Z) (numbered : bool) : str :=
  let endpos := Z.min (ofs + dlen) (Z.of_nat (length strg)) in
  hex_loop (Z.to_nat (endpos - ofs)) strg (base - ofs) ofs endpos numbered.

(** The line for zeros, biffh.py l.569-573, 582-585. *)
Definition zeros_line (numbered : bool) (n dummies : Z) : str :=
  if dummies =? 0 then []
  else num_prefix numbered n ++ lit "---- " ++ str_of_Z dummies ++ lit " zero bytes skipped ----" ++ [10%N].

(** What follows the loop, biffh.py l.582-596; last is the variable length,
    if bound. *)
Definition dump_end (mem : str) (stream_end adj : Z) (numbered : bool) (pos dummies savpos : Z) (last : option Z) : res str :=
  let zeros := zeros_line numbered (adj + savpos) dummies in
  if pos <? stream_end then
    Ok (zeros ++ num_prefix numbered (adj + pos) ++ lit "---- Misc bytes at end ----" ++ [10%N]
        ++ hex_char_dump mem pos (stream_end - pos) (adj + pos) numbered)
  else if stream_end <? pos then
    match last with
    | Some length => Ok (zeros ++ lit "Last dumped record has length (" ++ str_of_Z length ++ lit ") that is too large" ++ [10%N])
    | None => Err UnboundLocalError
    end
  else Ok zeros.

(** The loop, biffh.py l.558-581, and what follows it, on fuel: the text printed
    from here on. *)
Fixpoint dump_loop (fuel : nat) (mem : str) (stream_end adj : Z) (numbered : bool) (pos dummies savpos : Z) (last : option Z)
  : res str :=
  match fuel with
  | O => Err NonTermination
  | S fuel' =>
      if stream_end - pos <? 4 then dump_end mem stream_end adj numbered pos dummies savpos last
      else
        match pyslice mem pos (pos + 4) with
        | [a; b; c; d] =>
            let rc := le_value [a; b] in
            let len := le_value [c; d] in
            if (rc =? 0) && (len =? 0) then
              if str_eqb (pyslice mem pos (Z.of_nat (length mem))) (repeat 0%N (Z.to_nat (stream_end - pos)))
              then dump_end mem stream_end adj numbered stream_end (stream_end - pos) pos (Some len)
              else if dummies =? 0 then dump_loop fuel' mem stream_end adj numbered (pos + 4) 4 pos (Some len)
              else dump_loop fuel' mem stream_end adj numbered (pos + 4) (dummies + 4) savpos (Some len)
            else
              do t <- dump_loop fuel' mem stream_end adj numbered (pos + 4 + len) 0 savpos (Some len);
              Ok (zeros_line numbered (adj + savpos) dummies
                  ++ num_prefix numbered (adj + pos) ++ hex4 rc ++ lit " "
                  ++ (match get_name rc biff_rec_name_dict with Some name => name | None => lit "<UNKNOWN>" end)
                  ++ lit " len = " ++ hex4 len ++ lit " (" ++ str_of_Z len ++ lit ")" ++ [10%N]
                  ++ hex_char_dump mem (pos + 4) len (adj + (pos + 4)) numbered ++ t)
        | _ => Err StructError
        end
  end.

(** biff_dump, biffh.py l.552-596: the text printed. *)
Definition biff_dump (mem : str) (stream_offset stream_len base : Z) (numbered : bool) : res str :=
  dump_loop (S (Z.to_nat stream_len)) mem (stream_offset + stream_len) (base - stream_offset) numbered stream_offset 0 0 None.

(** biff2_8_load, xlrd/book.py l.616-676, with stream_len (as [Biff.load]). *)
Definition load_stream (file : str) : res (str * Z * Z) :=
  match file with
  | [] => Err XLRDError
  | _ =>
      if negb (str_eqb (bytes_at 0 8 file) SIGNATURE) then Ok (file, 0, Z.of_nat (length file))
      else
        do cd <- init file false;
        let '(cd, r) := locate_named_stream [lit "Workbook"] cd in
        do found <- r;
        match found with
        | Some ((_ :: _) as mem, base, len) => Ok (mem, base, len)
        | _ =>
            let '(cd, r) := locate_named_stream [lit "Book"] cd in
            do found <- r;
            match found with
            | Some ((_ :: _) as mem, base, len) => Ok (mem, base, len)
            | _ => Err XLRDError
            end
        end
  end.

(** dump, xlrd/__init__.py l.163-174; the file is its content; messages about the
    compound document are left out. *)
Definition dump (file : str) (unnumbered : bool) : res str :=
  do (m, len) <- load_stream file;
  let '(mem, base) := m in biff_dump mem base len 0 (negb unnumbered).
