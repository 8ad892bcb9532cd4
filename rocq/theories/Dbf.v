(** * Model of channelpack/dbf.py

    A file is its bytes and a position. The generators dbfreader and
    dbfrecords are modelled by what they deliver: the names, the specs, then
    the rows delivered before the generator ends or raises, with the way it
    ends. The open file is modelled at byte level; io errors are not. *)

From Verif Require Import PyBase PyFloat NumPy Pack.

(** A binary file object (channelpack/dbf.py l.180, 193). *)
Record file := mkfile { f_bytes : str; f_pos : nat }.

(** f.read(n), channelpack/dbf.py l.29, 34, 41, 48. *)
Definition fread (n : nat) (f : file) : str * file :=
  let b := firstn n (skipn (f_pos f) (f_bytes f)) in
  (b, mkfile (f_bytes f) (f_pos f + length b)).

(** f.seek(n), channelpack/dbf.py l.128, 162, 196. *)
Definition fseek (n : nat) (f : file) : file := mkfile (f_bytes f) n.

(** n bytes of a buffer from position a (struct fields, channelpack/dbf.py
    l.29, 34). *)
Definition bytes_at (a n : nat) (b : str) : str := firstn n (skipn a b).

(** A little-endian unsigned number (struct codes L and H with '<',
    channelpack/dbf.py l.29). *)
Fixpoint le_value (b : str) : Z :=
  match b with
  | [] => 0
  | c :: b' => Z.of_N c + 256 * le_value b'
  end%Z.

(** struct.unpack('<xxxxLH22x', b), channelpack/dbf.py l.29, 100. *)
Definition unpack_header (b : str) : res (Z * Z) :=
  if length b =? 32 then Ok (le_value (bytes_at 4 4 b), le_value (bytes_at 8 2 b))
  else Err StructError.

(** (lenheader - 33) // 32 as the argument of range, channelpack/dbf.py l.30,
    33, 102, 108. *)
Definition num_fields (lenheader : Z) : nat := Z.to_nat ((lenheader - 33) / 32).

(** (name, typ, size, deci), channelpack/dbf.py l.37. *)
Record field := mkfield { fd_name : str; fd_typ : N; fd_size : nat; fd_deci : N }.

(** One-byte struct fields of a buffer of 32 bytes (codes c and B,
    channelpack/dbf.py l.34). *)
Definition byte_at (a : nat) (b : str) : N := nth a b 0%N.

(** bytes.decode('ascii'), channelpack/dbf.py l.36, 78. *)
Definition decode_ascii (b : str) : res str :=
  if forallb (fun c => N.ltb c 128) b then Ok b else Err UnicodeError.

(** struct.unpack('<11sc4xBB14x', b) and the name without NULs,
    channelpack/dbf.py l.34-37, 108-110. *)
Definition unpack_field (b : str) : res field :=
  if length b =? 32 then
    do name <- decode_ascii (replace1 0 [] (bytes_at 0 11 b));
    Ok (mkfield name (byte_at 11 b) (N.to_nat (byte_at 16 b)) (byte_at 17 b))
  else Err StructError.

(** The loop over the fields, channelpack/dbf.py l.33-37. *)
Fixpoint read_fields (n : nat) (f : file) : res (list field * file) :=
  match n with
  | O => Ok ([], f)
  | S n' =>
      let '(b, f1) := fread 32 f in
      do fd <- unpack_field b;
      do (fds, f2) <- read_fields n' f1;
      Ok (fd :: fds, f2)
  end.

(** channelpack/dbf.py l.29-37 (and l.100-110): number of records and
    fields. *)
Definition read_header (f : file) : res (Z * list field * file) :=
  let '(b, f1) := fread 32 f in
  do (numrec, lenheader) <- unpack_header b;
  do (fds, f2) <- read_fields (num_fields lenheader) f1;
  Ok (numrec, fds, f2).

(** terminator = f.read(1); assert terminator == b'\r', channelpack/dbf.py
    l.41-42, 121-122. *)
Definition read_terminator (f : file) : res file :=
  let '(b, f1) := fread 1 f in
  if str_eqb b [13%N] then Ok f1 else Err AssertionError.

(** ('DeletionFlag', 'C', 1, 0), channelpack/dbf.py l.44, 104. The type is the
    str 'C' in the code, which equals no bytes; the field is skipped before its
    type is looked at. *)
Definition flag_name : str := lit "DeletionFlag".
(** The field itself (channelpack/dbf.py l.44, 104). *)
Definition flag_field : field := mkfield flag_name 67 1 0.

(** struct.calcsize of the record format, channelpack/dbf.py l.45-46. *)
Definition total_size (fields : list field) : nat :=
  fold_right (fun fd n => fd_size fd + n) 0 fields.

(** struct.unpack of consecutive '%ds' codes on a buffer of the right size,
    channelpack/dbf.py l.48. *)
Fixpoint split_fields (fields : list field) (b : str) : list str :=
  match fields with
  | [] => []
  | fd :: fields' => firstn (fd_size fd) b :: split_fields fields' (skipn (fd_size fd) b)
  end.
(** The same, which raises struct.error when the size is another
    (channelpack/dbf.py l.48). *)
Definition unpack_record (fields : list field) (b : str) : res (list str) :=
  if length b =? total_size fields then Ok (split_fields fields b) else Err StructError.

(** Days of a month (datetime.date, channelpack/dbf.py l.66). *)
Definition leap (y : Z) : bool :=
  ((y mod 4 =? 0) && (negb (y mod 100 =? 0) || (y mod 400 =? 0)))%Z%bool.
(** Days of a month (datetime.date, channelpack/dbf.py l.66). *)
Definition days_in_month (y m : Z) : Z :=
  (if m =? 2 then (if leap y then 29 else 28)
   else if (m =? 4) || (m =? 6) || (m =? 9) || (m =? 11) then 30 else 31)%Z.

(** datetime.date(y, m, d), channelpack/dbf.py l.66. *)
Definition make_date (y m d : Z) : res val :=
  if ((1 <=? y) && (y <=? 9999) && (1 <=? m) && (m <=? 12) &&
      (1 <=? d) && (d <=? days_in_month y m))%Z%bool
  then Ok (VDate y m d) else Err ValueError.

(** value in b'...' : substring test (channelpack/dbf.py l.70-71). *)
Fixpoint is_substring (v s : str) : bool :=
  match strip_prefix v s with
  | Some _ => true
  | None => match s with [] => false | _ :: s' => is_substring v s' end
  end.

(** The conversion of one value by type letter, channelpack/dbf.py l.55-78,
    137-160 (the two loops have the same code). *)
Definition conv_numeric (deci : N) (value : str) : res val :=
  match lstrip ws_bytes (replace1 0 [] value) with                       (* l.56 *)
  | [] => Ok (VFloat fnan)                                               (* l.57-58 *)
  | v => if negb (N.eqb deci 0)
         then do x <- float_of_str v; Ok (VFloat x)                      (* l.59-60 *)
         else do z <- int_of_str v; Ok (VInt z)                          (* l.61-62 *)
  end.

(** l.63-68. *)
Definition conv_date (value : str) : res val :=
  match strip ws_bytes value with
  | [] => Ok VNone
  | _ =>
      do y <- int_of_str (bytes_at 0 4 value);
      do m <- int_of_str (bytes_at 4 2 value);
      do d <- int_of_str (bytes_at 6 2 value);
      make_date y m d
  end.

(** l.69-71. *)
Definition conv_logical (value : str) : val :=
  if is_substring value (lit "YyTt") then VStr (lit "T")
  else if is_substring value (lit "NnFf") then VStr (lit "F")
  else VStr (lit "?").

(** l.72-76. *)
Definition conv_float (value : str) : res val :=
  match strip ws_bytes value with
  | [] => Ok (VFloat fnan)
  | _ => do x <- float_of_str value; Ok (VFloat x)
  end.

(** l.55-78; the type bytes are N D L F, anything else is text. *)
Definition conv (typ deci : N) (value : str) : res val :=
  if N.eqb typ 78 then conv_numeric deci value
  else if N.eqb typ 68 then conv_date value
  else if N.eqb typ 76 then Ok (conv_logical value)
  else if N.eqb typ 70 then conv_float value
  else do s <- decode_ascii value; Ok (VStr s).

(** The inner loop, channelpack/dbf.py l.52-79, 134-161. *)
Fixpoint convert_fields (l : list (field * str)) : res (list val) :=
  match l with
  | [] => Ok []
  | (fd, value) :: l' =>
      if str_eqb (fd_name fd) flag_name then convert_fields l'           (* l.53-54 *)
      else do v <- conv (fd_typ fd) (fd_deci fd) value;
           do vs <- convert_fields l';
           Ok (v :: vs)
  end.

(** record[0] != b' ', channelpack/dbf.py l.49, 131. *)
Definition is_deleted (record : list str) : bool :=
  match record with
  | first :: _ => negb (str_eqb first [32%N])
  | [] => true                                   (* not reachable: flag_field *)
  end.

(** The loop over the records, channelpack/dbf.py l.47-80: rows delivered and
    the way the loop ends. *)
Fixpoint reader_loop (n : nat) (fields : list field) (f : file)
  : list (list val) * res file :=
  match n with
  | O => ([], Ok f)
  | S n' =>
      let '(b, f1) := fread (total_size fields) f in
      match unpack_record fields b with
      | Err e => ([], Err e)
      | Ok record =>
          if is_deleted record then reader_loop n' fields f1
          else match convert_fields (zip fields record) with
               | Err e => ([], Err e)
               | Ok row => let '(rows, out) := reader_loop n' fields f1 in (row :: rows, out)
               end
      end
  end.

(** (typ, size, deci), channelpack/dbf.py l.39, 119. *)
Definition spec_of (fd : field) : N * nat * N := (fd_typ fd, fd_size fd, fd_deci fd).

(** What a generator delivers: the first two items, then the rows, then its
    end (position of the file, or the exception) (channelpack/dbf.py l.17-80,
    87-163). *)
Record gen := mkgen {
  g_names : list str;
  g_specs : list (N * nat * N);
  g_rows : list (list val);
  g_end : res file
}.

(** dbfreader(f), channelpack/dbf.py l.17-80. An error here is raised by the
    first next(). *)
Definition dbfreader (f : file) : res gen :=
  do (numrec, fds, f1) <- read_header f;
  let '(rows, out) :=
    match read_terminator f1 with
    | Err e => ([], Err e)
    | Ok f2 => reader_loop (Z.to_nat numrec) (flag_field :: fds) f2
    end in
  Ok (mkgen (map fd_name fds) (map spec_of fds) rows out).

(** FieldInfo, channelpack/dbf.py l.83-84 (fmt and fmtsiz are functions of
    size). *)
Record finfo := mkfi { fi_field : field; fi_keep : bool; fi_seek : nat }.

(** name in names, channelpack/dbf.py l.114, 204. *)
Definition name_in (s : str) (names : list str) : bool := existsb (str_eqb s) names.

(** The FieldInfo list, channelpack/dbf.py l.107-115; [prev] is
    fields[fieldno], the last one made so far. Reading the descriptors is
    [read_fields]. *)
Fixpoint finfos (names : list str) (prev : finfo) (fds : list field) : list finfo :=
  match fds with
  | [] => []
  | fd :: fds' =>
      let fi := mkfi fd (name_in (fd_name fd) names)
                     (fi_seek prev + fd_size (fi_field prev)) in
      fi :: finfos names fi fds'
  end.

(** fields[0], channelpack/dbf.py l.104-105. *)
Definition flag_info : finfo := mkfi flag_field true 0.

(** Reading the selected values of one record, channelpack/dbf.py l.127-129. *)
Fixpoint read_selected (refaddr : nat) (sel : list finfo) (f : file) : res (list str * file) :=
  match sel with
  | [] => Ok ([], f)
  | fi :: sel' =>
      let '(b, f1) := fread (fd_size (fi_field fi)) (fseek (refaddr + fi_seek fi) f) in
      if length b =? fd_size (fi_field fi) then
        do (bs, f2) <- read_selected refaddr sel' f1; Ok (b :: bs, f2)
      else Err StructError
  end.

(** The loop over the records, channelpack/dbf.py l.124-163. [rec_end] is
    fields[-1].seekme + fields[-1].fmtsiz. A deleted record does not reach the
    seek of l.162. *)
Fixpoint records_loop (n : nat) (rec_end : nat) (sel : list finfo) (f : file)
  : list (list val) * res file :=
  match n with
  | O => ([], Ok f)
  | S n' =>
      match read_selected (f_pos f) sel f with
      | Err e => ([], Err e)
      | Ok (record, f1) =>
          if is_deleted record then records_loop n' rec_end sel f1
          else match convert_fields (zip (map fi_field sel) record) with
               | Err e => ([], Err e)
               | Ok row =>
                   let '(rows, out) := records_loop n' rec_end sel (fseek (f_pos f + rec_end) f1) in
                   (row :: rows, out)
               end
      end
  end.

(** dbfrecords(f, names), channelpack/dbf.py l.87-163. *)
Definition dbfrecords (f : file) (names : list str) : res gen :=
  do (numrec, fds, f1) <- read_header f;
  let fields := flag_info :: finfos names flag_info fds in
  let sel := filter fi_keep fields in                                    (* l.117 *)
  let lastf := last fields flag_info in
  let '(rows, out) :=
    match read_terminator f1 with
    | Err e => ([], Err e)
    | Ok f2 => records_loop (Z.to_nat numrec) (fi_seek lastf + fd_size (fi_field lastf)) sel f2
    end in
  Ok (mkgen (map (fun fi => fd_name (fi_field fi)) (tl sel))
            (map (fun fi => spec_of (fi_field fi)) (tl sel)) rows out).

(** zip( *dbfrecs ) exhausts the generator: an exception propagates
    (channelpack/dbf.py l.184, 200). *)
Definition columns_of (g : gen) : res (list (list val)) :=
  do _f <- g_end g; Ok (zipn (g_rows g)).

(** {i: name for i, name in enumerate(fieldnames)}, channelpack/dbf.py l.187. *)
Definition enum_dict {V} (l : list V) : dict V :=
  map (fun iv => (Z.of_nat (fst iv), snd iv)) (enum_from 0 l).

(** dbfpack(dbf, names), channelpack/dbf.py l.166-211, on an open file [f]
    called [fname]; an empty list stands for None as well. contextopen peeks
    one byte and seeks back (channelpack/readtext.py l.222-224), which does not
    show. NpDict turns each column (a tuple) into np.array(column)
    (channelpack/pack.py l.61-75). *)
Definition dbfpack (f : file) (names : list str) (fname : str) : res pack :=
  match names with
  | [] =>
      do g <- dbfreader f;
      do columns <- columns_of g;
      let data := enum_dict (map np_array columns) in                    (* l.186 *)
      let chnames := enum_dict (map VStr (g_names g)) in                 (* l.187 *)
      Ok (fst (set_fn (OStr fname) (new_pack data chnames)))             (* l.188-189 *)
  | _ =>
      do (_, allfields, _) <- read_header f;                             (* l.194-195 *)
      do g <- dbfrecords (fseek 0 f) names;                              (* l.196-199 *)
      do columns <- columns_of g;
      let chnames := filter (fun kv => name_in (snd kv) names)
                            (enum_dict (map fd_name allfields)) in       (* l.202-205 *)
      let data := zip (zsort (dkeys chnames)) (map np_array columns) in  (* l.207 *)
      Ok (fst (set_fn (OStr fname)
                (new_pack data (map (fun kv => (fst kv, VStr (snd kv))) chnames))))
  end.
