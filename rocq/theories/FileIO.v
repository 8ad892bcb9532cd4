(** * What reading does to the file: contextopen, textpack, lazy_textpack, dbfpack

    ReadText.v, Preparse.v and Dbf.v say what is made of the content of a file.
    Here the same functions are written once more, operation by operation on an
    io object: which calls of tell, read, readline, seek and close are made in
    which order, and what becomes of the object when one of them raises. Any
    call but close may raise any exception, as told by a function from the
    number of the call: a codec that meets bad bytes, a disk that fails. A call
    on a closed file raises ValueError. Not modelled: what the garbage collector
    closes later; what a failed call does to the position (it is left alone). *)

From Verif Require Import PyBase PyFloat PyText NumPy Pack ReadText Preparse Dbf.
Open Scope nat_scope.

(** ** Io objects *)

(** An io object (channelpack/readtext.py l.208-224): what it yields (bytes or
    text), its content, fo.tell(), its attribute name ('' if there is none),
    and not fo.closed. *)
Record handle := mkhandle
  { h_bytes : bool;
    h_text : str;
    h_pos : nat;
    h_name : str;
    h_open : bool }.

(** The io object, self.fo of contextopen (readtext.py l.211, 216), and the
    number of calls made on it so far. *)
Record world := mkworld { w_file : handle; w_ops : nat }.

(** Which calls on the io object raise what (the calls of readtext.py l.222-224,
    265, 274-275, 408, 471, 475, 529; dbf.py l.29-162). *)
Definition faults := nat -> option exn.

(** Code that works on the io object (the body of a with statement,
    readtext.py l.259-287, 403-409): what it returns or raises. *)
Definition io (A : Type) := world -> world * res A.

(** A value at hand (e.g. readtext.py l.409). *)
Definition ret {A} (a : A) : io A := fun w => (w, Ok a).

(** Code that does not touch the io object (e.g. readtext.py l.475-518). *)
Definition pure {A} (r : res A) : io A := fun w => (w, r).

(** Statement after statement: an exception ends the sequence (e.g. readtext.py
    l.222-224). *)
Definition andthen {A B} (m : io A) (f : A -> io B) : io B := fun w =>
  match m w with
  | (w', Ok a) => f a w'
  | (w', Err e) => (w', Err e)
  end.

Notation "'let*' x ':=' m 'in' k" := (andthen m (fun x => k))
  (at level 200, x pattern, m at level 100, k at level 200, right associativity).

(** The io object at another position (fo.seek, readtext.py l.224). *)
Definition set_pos (p : nat) (h : handle) : handle :=
  mkhandle (h_bytes h) (h_text h) p (h_name h) (h_open h).

(** One call of a method of the io object (e.g. self.fo.tell(), readtext.py
    l.222). *)
Definition call {A} (fl : faults) (f : handle -> A * nat) : io A := fun w =>
  let h := w_file w in
  match fl (w_ops w) with
  | Some e => (mkworld h (S (w_ops w)), Err e)
  | None =>
      if h_open h
      then let '(a, p) := f h in (mkworld (set_pos p h) (S (w_ops w)), Ok a)
      else (mkworld h (S (w_ops w)), Err ValueError)
  end.

(** fo.tell() (readtext.py l.222; dbf.py l.125). *)
Definition tell (fl : faults) : io nat := call fl (fun h => (h_pos h, h_pos h)).

(** fo.seek(p) (readtext.py l.224, 275; dbf.py l.128, 162, 196). *)
Definition seek (fl : faults) (p : nat) : io unit := call fl (fun _ => (tt, p)).

(** fo.read(n) (readtext.py l.223; dbf.py l.29, 34, 41, 48, 100, 108, 121, 129). *)
Definition read (fl : faults) (n : nat) : io str :=
  call fl (fun h => let b := firstn n (skipn (h_pos h) (h_text h)) in (b, h_pos h + length b)).

(** fo.readline(), and next(fo) of for line in fo, whose end is the empty line
    (readtext.py l.265, 274, 408, 471, 475, 529). *)
Definition read_line (fl : faults) : io str :=
  call fl (fun h => let l := fst (readline (skipn (h_pos h) (h_text h))) in (l, h_pos h + length l)).

(** fo.close() (readtext.py l.231). *)
Definition close (w : world) : world :=
  let h := w_file w in
  mkworld (mkhandle (h_bytes h) (h_text h) (h_pos h) (h_name h) false) (w_ops w).

(** ** contextopen *)

(** contextopen.__init__ after the io object is there: the value of bytehint
    (readtext.py l.222-224). *)
Definition peek (fl : faults) : io bool :=
  let* p := tell fl in
  let* _ := read fl 1 in
  let* _ := seek fl p in
  fun w => (w, Ok (h_bytes (w_file w))).

(** with contextopen(...) as context: body (readtext.py l.208-232). __exit__
    runs after the body, however that ends, but not after a failure of
    __init__. *)
Definition with_context {A} (fl : faults) (closeit : bool) (body : bool -> io A) : io A :=
  let* bytes := peek fl in
  fun w => let '(w', r) := body bytes w in (if closeit then close w' else w', r).

(** io.open(fname, ...) (readtext.py l.211-215): [file] is what the system has
    under that name, or the exception of opening it; then [f] works on it. *)
Definition by_name {A} (bytes : bool) (file : res str) (name : str) (f : io A)
  : option world * res A :=
  match file with
  | Err e => (None, Err e)
  | Ok t => let '(w, r) := f (mkworld (mkhandle bytes t 0 name true) 0) in (Some w, r)
  end.

(** ** textpack *)

(** for i in range(n): fo.readline() (readtext.py l.407-408). *)
Fixpoint skip_io (fl : faults) (n : nat) : io unit :=
  match n with
  | O => ret tt
  | S n' => let* _ := read_line fl in skip_io fl n'
  end.

(** linetuples up to its first yield (readtext.py l.461-520): the names line if
    there is one, the fields of the first line, the functions. *)
Definition head_io (fl : faults) (m : mode) (hasnames : bool) (a : targs)
  : io (list str * list str * list func) :=
  let delim := t_delimiter a in
  let* fieldnames :=
    (if hasnames then
       let* line := read_line fl in
       pure (do fields <- split_line m delim (strip_line delim line);
             Ok (map (strip (ws_of m)) fields))
     else ret []) in
  let* first := read_line fl in
  let* firstvals := pure (split_line m delim (strip_line delim first)) in
  let* funcs := pure (line_funcs m (t_stripstrings a) (t_converters a) firstvals) in
  ret (fieldnames, firstvals, funcs).

(** for line in fo: ... yield (readtext.py l.529-535); [take] is what the
    consumer does with a tuple: zip( *linetupler ) collects them (l.375, 378),
    the debug loop adds them to columndata (l.385-391). [n] bounds the number
    of lines. *)
Fixpoint lines_io {D} (fl : faults) (n : nat) (m : mode) (delim : option str) (funcs : list func)
    (usecols : option (list Z)) (take : D -> list val -> D) (d : D) : io D :=
  match n with
  | O => ret d
  | S n' =>
      let* line := read_line fl in
      match line with
      | [] => ret d
      | _ =>
          match strip_line delim line with
          | [] => lines_io fl n' m delim funcs usecols take d                (* l.531-532 *)
          | s => let* t := pure (do vals <- split_line m delim s; line_tuple m funcs usecols vals) in
                 lines_io fl n' m delim funcs usecols take (take d t)
          end
      end
  end.

(** The whole loop (readtext.py l.529-535); for the bound: a line has a
    character at least. *)
Definition all_lines_io {D} (fl : faults) (m : mode) (delim : option str) (funcs : list func)
    (usecols : option (list Z)) (take : D -> list val -> D) (d : D) : io D :=
  fun w => lines_io fl (S (length (h_text (w_file w)))) m delim funcs usecols take d w.

(** datadict (readtext.py l.357-401). With debug an exception of the first
    tuple ends in KeyError, as debugdict['linum'] is not there yet (l.397). *)
Definition datadict_io (fl : faults) (m : mode) (usecols : option (list Z)) (hasnames : bool)
    (a : targs) : io (dict (list val) * dict val) :=
  let* (fieldnames, firstvals, funcs) := head_io fl m hasnames a in
  let* names :=
    (if hasnames
     then pure (do ns <- names_tuple m usecols fieldnames (length firstvals);
                Ok (dict_of (label usecols ns)))
     else ret []) in
  let* data :=
    (if t_debug a then
       let* t := pure (match line_tuple m funcs usecols firstvals with
                       | Ok t => Ok t
                       | Err _ => Err KeyError
                       end) in
       all_lines_io fl m (t_delimiter a) funcs usecols
         (fun d t => fold_left (fun d kv => dappend kv d) (label usecols t) d)
         (fold_left (fun d kv => dappend kv d) (label usecols t) [])
     else
       let* t := pure (line_tuple m funcs usecols firstvals) in
       let* rows := all_lines_io fl m (t_delimiter a) funcs usecols (fun l t => l ++ [t]) [t] in
       ret (dict_of (label usecols (zipn rows)))) in
  ret (data, names).

(** textpack(fname, ...) (readtext.py l.292-413) on the io object; [closeit]
    tells whether contextopen has opened it. *)
Definition textpack_io (fl : faults) (closeit : bool) (a : targs) : io pack :=
  let usecols := cols_seq (t_usecols a) in
  let '(usecols, hasnames, skiprows) :=
    match t_names a with
    | _ :: _ => (Some (zsort (dkeys (t_names a))), false, t_skiprows a)       (* l.348-350 *)
    | [] => if t_hasnames a then (usecols, true, t_skiprows a - 1)%Z          (* l.351-353 *)
            else (usecols, false, t_skiprows a)
    end in
  let* (data, names) :=
    with_context fl closeit (fun bytes =>
      let* _ := skip_io fl (Z.to_nat skiprows) in
      datadict_io fl (mode_of bytes (t_encoding a)) usecols hasnames a) in
  fun w =>
  (w, Ok (fst (set_fn (OStr (h_name (w_file w)))
        (new_pack (map (fun kv => (fst kv, np_array (snd kv))) data)
                  (match t_names a with [] => names | _ => t_names a end))))).

(** textpack with a name; io.open with the encoding of l.403 delivers text. *)
Definition textpack_named (fl : faults) (file : res str) (name : str) (a : targs)
  : option world * res pack :=
  by_name false file name (textpack_io fl true a).

(** textpack with a stream (readtext.py l.216-220, 403). *)
Definition textpack_stream (fl : faults) (h : handle) (a : targs) : world * res pack :=
  textpack_io fl false a (mkworld h 0).

(** ** lazy_textpack *)

(** [fo.readline() for i in range(n)], each line through [f]
    (readtext.py l.265-266, 274). *)
Fixpoint take_io (fl : faults) (n : nat) (f : str -> res str) : io (list str) :=
  match n with
  | O => ret []
  | S n' =>
      let* line := read_line fl in
      let* t := pure (f line) in
      let* r := take_io fl n' f in
      ret (t :: r)
  end.

(** lazy_textpack (readtext.py l.235-289). *)
Definition lazy_io (fl : faults) (word : N -> bool) (preferred : codec) (closeit : bool)
    (parselines : Z) (k : kwargs) : io pack :=
  with_context fl closeit (fun bytes =>
    let* found :=
      (if bytes then
         let dec := match given (k_encoding k) (Some preferred) with
                    | None => fun _ => Err TypeError                            (* decode(None) *)
                    | Some c => decode c
                    end in
         let* texts := take_io fl (Z.to_nat parselines) dec in
         pure (do d <- preparse (word_first word) texts;
               match d, given (k_encoding k) (Some preferred) with
               | Some d, Some c =>
                   do delim <- match d_delimiter d with
                               | Some x => do b <- encode c x; Ok (Some b)
                               | None => Ok None
                               end;
                   Ok (Some (mkderived (d_skiprows d) delim (d_converters d) (d_names d) (d_usecols d)))
               | _, _ => Ok d
               end)
       else
         let* texts := take_io fl (Z.to_nat parselines) (fun l => Ok l) in
         pure (preparse (word_first word) texts)) in
    let* _ := seek fl 0 in                                                      (* l.275 *)
    let d := match found with Some d => d | None => mkderived 0 None None [] [] end in
    let found := match found with Some _ => true | None => false end in
    let* names := pure (match k_names k, k_usecols k with
                        | Some n, _ => Ok n
                        | None, Some u => names_in u (d_names d)
                        | None, None => Ok (d_names d)
                        end) in
    if negb found && nothing_given k then pure (Err ValueError)                 (* l.285-286 *)
    else textpack_io fl false                                                   (* l.287 *)
         (mktargs names
            (given (k_delimiter k) (d_delimiter d))
            (given (k_skiprows k) (Z.of_nat (d_skiprows d)))
            (given (k_usecols k) (if found then ColsSeq (d_usecols d) else ColsNone))
            (given (k_hasnames k) false)
            (given (k_encoding k) None)
            (given (k_converters k)
               (match d_converters d with Some l => map (fun c => (c, floatit bytes)) l | None => [] end))
            (given (k_stripstrings k) false)
            (given (k_debug k) false))).

(** lazy_textpack with a name, and with a stream (readtext.py l.211-220, 260). *)
Definition lazy_named (fl : faults) (word : N -> bool) (preferred : codec) (file : res str)
    (name : str) (parselines : Z) (k : kwargs) : option world * res pack :=
  by_name false file name (lazy_io fl word preferred true parselines k).

(** The same on a stream (readtext.py l.216-220, 260). *)
Definition lazy_stream (fl : faults) (word : N -> bool) (preferred : codec) (h : handle)
    (parselines : Z) (k : kwargs) : world * res pack :=
  lazy_io fl word preferred false parselines k (mkworld h 0).

(** ** dbfpack *)

(** The field descriptors (dbf.py l.33-37, 107-109). *)
Fixpoint fields_io (fl : faults) (n : nat) : io (list field) :=
  match n with
  | O => ret []
  | S n' =>
      let* b := read fl 32 in
      let* fd := pure (unpack_field b) in
      let* r := fields_io fl n' in
      ret (fd :: r)
  end.

(** dbfreader and dbfrecords up to the first yield (dbf.py l.29-38, 100-118). *)
Definition header_io (fl : faults) : io (Z * list field) :=
  let* b := read fl 32 in
  let* (numrec, lenheader) := pure (unpack_header b) in
  let* fds := fields_io fl (num_fields lenheader) in
  ret (numrec, fds).

(** The terminator (dbf.py l.41-42, 121-122). *)
Definition terminator_io (fl : faults) : io unit :=
  let* b := read fl 1 in
  if str_eqb b [13%N] then ret tt else pure (Err AssertionError).

(** The records of dbfreader (dbf.py l.47-80). *)
Fixpoint reader_io (fl : faults) (n : nat) (fields : list field) : io (list (list val)) :=
  match n with
  | O => ret []
  | S n' =>
      let* b := read fl (total_size fields) in
      let* record := pure (unpack_record fields b) in
      if is_deleted record then reader_io fl n' fields
      else let* row := pure (convert_fields (zip fields record)) in
           let* rows := reader_io fl n' fields in
           ret (row :: rows)
  end.

(** The selected values of one record (dbf.py l.127-129). *)
Fixpoint selected_io (fl : faults) (refaddr : nat) (sel : list finfo) : io (list str) :=
  match sel with
  | [] => ret []
  | fi :: sel' =>
      let* _ := seek fl (refaddr + fi_seek fi) in
      let* b := read fl (fd_size (fi_field fi)) in
      if length b =? fd_size (fi_field fi)
      then let* bs := selected_io fl refaddr sel' in ret (b :: bs)
      else pure (Err StructError)
  end.

(** The records of dbfrecords (dbf.py l.124-163). *)
Fixpoint records_io (fl : faults) (n rec_end : nat) (sel : list finfo) : io (list (list val)) :=
  match n with
  | O => ret []
  | S n' =>
      let* refaddr := tell fl in
      let* record := selected_io fl refaddr sel in
      if is_deleted record then records_io fl n' rec_end sel
      else let* row := pure (convert_fields (zip (map fi_field sel) record)) in
           let* _ := seek fl (refaddr + rec_end) in
           let* rows := records_io fl n' rec_end sel in
           ret (row :: rows)
  end.

(** dbfpack (dbf.py l.166-211) on the io object. *)
Definition dbfpack_io (fl : faults) (closeit : bool) (names : list str) : io pack :=
  match names with
  | [] =>
      let* (fieldnames, columns) :=
        with_context fl closeit (fun _ =>
          let* (numrec, fds) := header_io fl in
          let* _ := terminator_io fl in
          let* rows := reader_io fl (Z.to_nat numrec) (flag_field :: fds) in
          ret (map fd_name fds, zipn rows)) in
      fun w => (w, Ok (fst (set_fn (OStr (h_name (w_file w)))
                 (new_pack (enum_dict (map np_array columns)) (enum_dict (map VStr fieldnames))))))
  | _ =>
      let* (allnames, columns) :=
        with_context fl closeit (fun _ =>
          let* (_, allfields) := header_io fl in                               (* l.194-195 *)
          let* _ := seek fl 0 in                                               (* l.196 *)
          let* (numrec, fds) := header_io fl in                                (* l.197-199 *)
          let fields := flag_info :: finfos names flag_info fds in
          let lastf := last fields flag_info in
          let* _ := terminator_io fl in
          let* rows := records_io fl (Z.to_nat numrec) (fi_seek lastf + fd_size (fi_field lastf))
                         (filter fi_keep fields) in
          ret (map fd_name allfields, zipn rows)) in
      fun w =>
        let chnames := filter (fun kv => name_in (snd kv) names) (enum_dict allnames) in
        (w, Ok (fst (set_fn (OStr (h_name (w_file w)))
              (new_pack (zip (zsort (dkeys chnames)) (map np_array columns))
                        (map (fun kv => (fst kv, VStr (snd kv))) chnames)))))
  end.

(** dbfpack with a name (opened 'rb', dbf.py l.179, 192), and with a stream. *)
Definition dbfpack_named (fl : faults) (file : res str) (name : str) (names : list str)
  : option world * res pack :=
  by_name true file name (dbfpack_io fl true names).

(** The same on a stream (readtext.py l.216-220). *)
Definition dbfpack_stream (fl : faults) (h : handle) (names : list str) : world * res pack :=
  dbfpack_io fl false names (mkworld h 0).
