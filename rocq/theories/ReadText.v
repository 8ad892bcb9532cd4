(** * Reading delimited text: channelpack/readtext.py

    A stream is its characters (code points of a text stream, bytes of a byte
    stream) and a position. Opening a file by name and decoding it with a codec
    is the operating system's and Python's: a text stream is taken as the text
    it delivers, with newlines already translated to LF. Not modelled: the
    printed debug output and iterators passed as usecols (usecols is an int or
    a list or tuple of ints). *)

From Verif Require Import PyBase PyFloat PyText NumPy Pack.
Open Scope nat_scope.

(** ** str and bytes methods *)

(** s.replace(old, new) for a non-empty pattern [old]; the occurrences are
    taken from the left without overlap, [skip] characters are left of the
    last one (readtext.py l.463, 467). *)
Fixpoint replace_str (old new : str) (skip : nat) (s : str) : str :=
  match s with
  | [] => []
  | c :: s' =>
      match skip with
      | S k => replace_str old new k s'
      | O => match strip_prefix old s with
             | Some _ => new ++ replace_str old new (length old - 1) s'
             | None => c :: replace_str old new 0 s'
             end
      end
  end.

(** s.split(sep) for a non-empty separator (readtext.py l.471, 475, 534). *)
Fixpoint split_str (sep : str) (skip : nat) (s : str) : list str :=
  match s with
  | [] => [[]]
  | c :: s' =>
      match skip with
      | S k => split_str sep k s'
      | O => match strip_prefix sep s with
             | Some _ => [] :: split_str sep (length sep - 1) s'
             | None => match split_str sep 0 s' with
                       | f :: r => (c :: f) :: r
                       | [] => [[c]]                          (* not reachable *)
                       end
             end
      end
  end.

(** s.split() : the maximal runs of characters that are no white space
    (readtext.py l.471, 475, 534 with delimiter None). [open] tells whether the
    character before is in a run. *)
Fixpoint split_ws (ws : N -> bool) (s : str) : list str :=
  match s with
  | [] => []
  | c :: s' =>
      if ws c then split_ws ws s'
      else match s' with
           | [] => [[c]]
           | d :: _ => if ws d then [c] :: split_ws ws s'
                       else match split_ws ws s' with
                            | f :: r => (c :: f) :: r
                            | [] => [[c]]                     (* not reachable *)
                            end
           end
  end.

(** string.whitespace (readtext.py l.463, 465). *)
Definition whitespace : str := [32; 9; 10; 13; 11; 12]%N.

(** ** Streams *)

(** A codec name, as its two functions (bytes.decode, str.encode;
    readtext.py l.265, 268, 453). *)
Record codec := mkcodec { decode : str -> res str; encode : str -> res str }.

(** An io object, or the one io.open returns; src_name is its attribute name,
    '' if it has none (readtext.py l.208-224, contextopen). *)
Record source := mksource
  { src_bytes : bool;           (* type(fo.read(1)) is bytes, l.223 *)
    src_text : str;             (* the whole content *)
    src_pos : nat;              (* fo.tell(), l.222, 224 *)
    src_name : str }.

(** fo.readline(): up to and including the next newline
    (readtext.py l.408, 471, 475). *)
Fixpoint readline (s : str) : str * str :=
  match s with
  | [] => ([], [])
  | c :: s' => if N.eqb c 10 then ([c], s')
               else let '(l, r) := readline s' in (c :: l, r)
  end.

(** for line in fo (readtext.py l.529). *)
Fixpoint lines_of (s : str) : list str :=
  match s with
  | [] => []
  | c :: s' => if N.eqb c 10 then [c] :: lines_of s'
               else match lines_of s' with
                    | l :: r => (c :: l) :: r
                    | [] => [[c]]
                    end
  end.

(** for i in range(n): fo.readline() (readtext.py l.407-408). *)
Fixpoint skip_lines (n : nat) (s : str) : str :=
  match n with
  | O => s
  | S n' => skip_lines n' (snd (readline s))
  end.

(** [fo.readline() for i in range(n)] (readtext.py l.265, 274). *)
Fixpoint take_lines (n : nat) (s : str) : list str :=
  match n with
  | O => []
  | S n' => let '(l, r) := readline s in l :: take_lines n' r
  end.

(** ** linetuples *)

(** The argument bytehint: False, True, or the name of a codec
    (readtext.py l.405-406, 433-436). *)
Inductive mode := Text | Raw | Coded (c : codec).

(** white space of .strip() and .split() without argument: str and bytes
    differ (readtext.py l.101, 450, 456, 470). *)
Definition ws_of (m : mode) : N -> bool :=
  match m with Text => ws_text | _ => ws_bytes end.

(** A field as it is: str or bytes (as_is, readtext.py l.446). *)
Definition field_val (m : mode) (s : str) : val :=
  match m with Text => VStr s | _ => VBytes s end.

(** The functions applied to fields (readtext.py l.29-36, 446-459) and those
    given by the caller (l.333). *)
Inductive func :=
| MaybeNan                                                     (* l.458 *)
| FloatIt                                                      (* l.29 and 34 *)
| AsIs | AsIsStripped                                          (* l.446, 449 *)
| AsIsDecode | AsIsStrippedDecode                              (* l.452, 455 *)
| Given (f : str -> res val).

(** float(s), of text or bytes (readtext.py l.31, 36, 459, 479-489). *)
Definition float_of (m : mode) (s : str) : res float :=
  match m with Text => float_of_text s | _ => float_of_str s end.

(** float(s) if s else nan (readtext.py l.31, 36, 459). *)
Definition float_or_nan (m : mode) (s : str) : res val :=
  match s with
  | [] => Ok (VFloat fnan)
  | _ => do f <- float_of m s; Ok (VFloat f)
  end.

(** s.replace(',', '.') (readtext.py l.31, 36, 486, 489). *)
Definition comma_to_dot (s : str) : str := replace1 44 [46%N] s.

(** b.decode(encoding) for the codec of [m]; only called in that mode
    (readtext.py l.453, 456). *)
Definition decode_in (m : mode) (s : str) : res val :=
  match m with
  | Coded c => do t <- decode c s; Ok (VStr t)
  | _ => Err AttributeError
  end.

(** func(val) (readtext.py l.526, 533). *)
Definition apply_func (m : mode) (f : func) (s : str) : res val :=
  match f with
  | MaybeNan => float_or_nan m s
  | FloatIt => match s with
               | [] => Ok (VFloat fnan)
               | _ => do f <- float_of m (comma_to_dot s); Ok (VFloat f)
               end
  | AsIs => Ok (field_val m s)
  | AsIsStripped => Ok (field_val m (strip (ws_of m) s))
  | AsIsDecode => decode_in m s
  | AsIsStrippedDecode => decode_in m (strip ws_bytes s)
  | Given f => f s
  end.

(** readtext.py l.462-467: all white space but the delimiter, or but TAB. *)
Definition strip_chars (delim : option str) : str :=
  replace_str (match delim with Some (c :: d) => c :: d | _ => [9%N] end) [] 0 whitespace.

(** line.strip(stripchars) (readtext.py l.471, 475, 530). *)
Definition strip_line (delim : option str) (line : str) : str :=
  strip (fun c => existsb (N.eqb c) (strip_chars delim)) line.

(** stripped.split(delimiter) (readtext.py l.471, 475, 534). *)
Definition split_line (m : mode) (delim : option str) (line : str) : res (list str) :=
  match delim with
  | None => Ok (split_ws (ws_of m) line)
  | Some [] => Err ValueError                                  (* empty separator *)
  | Some d => Ok (split_str d 0 line)
  end.

(** The function for a field of the first line (readtext.py l.478-502). *)
Definition field_func (m : mode) (stripstrings : bool) (v : str) : func :=
  match float_of m v with
  | Ok _ => MaybeNan
  | Err _ =>
      match float_of m (comma_to_dot v) with
      | Ok _ => FloatIt
      | Err _ =>
          match stripstrings, m with
          | false, Coded _ => AsIsDecode
          | false, _ => AsIs
          | true, Coded _ => AsIsStrippedDecode
          | true, _ => AsIsStripped
          end
      end
  end.

(** func is decfloatfunc (readtext.py l.508). *)
Definition is_floatit (f : func) : bool := match f with FloatIt => true | _ => false end.

(** l[i] = x with Python's negative indices (funcs[key] = ...,
    readtext.py l.514). *)
Definition list_set {A} (l : list A) (i : Z) (x : A) : res (list A) :=
  let n := Z.of_nat (length l) in
  let j := (if i <? 0 then i + n else i)%Z in
  if ((0 <=? j) && (j <? n))%Z
  then Ok (firstn (Z.to_nat j) l ++ x :: skipn (S (Z.to_nat j)) l)
  else Err IndexError.

(** Replace functions with caller functions (readtext.py l.512-514). *)
Fixpoint set_funcs (funcs : list func) (converters : dict (str -> res val)) : res (list func) :=
  match converters with
  | [] => Ok funcs
  | (k, f) :: r => do fs <- list_set funcs k (Given f); set_funcs fs r
  end.

(** funcs of the first line (readtext.py l.476-514). *)
Definition line_funcs (m : mode) (stripstrings : bool) (converters : dict (str -> res val))
    (firstvals : list str) : res (list func) :=
  let funcs := map (field_func m stripstrings) firstvals in
  let funcs := if existsb is_floatit funcs
               then map (fun f => match f with MaybeNan => FloatIt | _ => f end) funcs
               else funcs in
  set_funcs funcs converters.

(** col in usecols; None stands for all columns (readtext.py l.517-518, 524). *)
Definition in_cols (usecols : option (list Z)) (col : nat) : bool :=
  match usecols with
  | None => true
  | Some l => existsb (Z.eqb (Z.of_nat col)) l
  end.

(** tuple(func(val) for func, val, col in zip(funcs, vals, allcols) if col in
    usecols) (readtext.py l.526-527, 533-535). *)
Definition line_tuple (m : mode) (funcs : list func) (usecols : option (list Z)) (vals : list str)
  : res (list val) :=
  mapM (fun cfv => apply_func m (fst (snd cfv)) (snd (snd cfv)))
    (filter (fun cfv => in_cols usecols (fst cfv)) (enum_from 0 (zip funcs vals))).

(** What linetuples yields (readtext.py l.520-535): the functions, the names
    if asked for, and the tuple of each data line, or the exception met there. *)
Record yields := mkyields
  { y_funcs : list func;
    y_names : res (list val);
    y_rows : list (res (list val)) }.

(** One data line: nothing for a blank one (readtext.py l.529-535). *)
Definition data_line (m : mode) (delim : option str) (funcs : list func) (usecols : option (list Z))
    (line : str) : list (res (list val)) :=
  match strip_line delim line with
  | [] => []
  | s => [do vals <- split_line m delim s; line_tuple m funcs usecols vals]
  end.

(** The names tuple (readtext.py l.470-473, 523-524). *)
Definition names_tuple (m : mode) (usecols : option (list Z)) (fieldnames : list str) (width : nat)
  : res (list val) :=
  mapM (fun cn => match m with
                  | Coded _ => decode_in m (strip ws_bytes (snd cn))
                  | _ => Ok (field_val m (strip (ws_of m) (snd cn)))
                  end)
    (filter (fun cn => in_cols usecols (fst cn)) (firstn width (enum_from 0 fieldnames))).

(** linetuples, readtext.py l.416-535, on the rest [s] of the stream. *)
Definition linetuples (s : str) (m : mode) (delim : option str) (usecols : option (list Z))
    (converters : dict (str -> res val)) (stripstrings hasnames : bool) : res yields :=
  do (fieldnames, s) <-
    (if hasnames then
       let '(line, s') := readline s in
       do fields <- split_line m delim (strip_line delim line);
       Ok (map (strip (ws_of m)) fields, s')
     else Ok ([], s));
  let '(first, s) := readline s in
  do firstvals <- split_line m delim (strip_line delim first);
  do funcs <- line_funcs m stripstrings converters firstvals;
  Ok (mkyields funcs
        (names_tuple m usecols fieldnames (length firstvals))
        (line_tuple m funcs usecols firstvals ::
         flat_map (data_line m delim funcs usecols) (lines_of s))).

(** ** textpack *)

(** The argument usecols (readtext.py l.321). *)
Inductive cols := ColsNone | ColsInt (c : Z) | ColsSeq (l : list Z).

(** The keyword arguments of textpack (readtext.py l.292-294). [t_names] and
    [t_converters] None and {} act alike. *)
Record targs := mktargs
  { t_names : dict val;
    t_delimiter : option str;
    t_skiprows : Z;
    t_usecols : cols;
    t_hasnames : bool;
    t_encoding : option codec;
    t_converters : dict (str -> res val);
    t_stripstrings : bool;
    t_debug : bool }.

(** Defaults (readtext.py l.292-294). *)
Definition targs0 : targs := mktargs [] None 0 ColsNone false None [] false false.

(** usecols after l.345-346. *)
Definition cols_seq (u : cols) : option (list Z) :=
  match u with ColsNone => None | ColsInt c => Some [c] | ColsSeq l => Some l end.

(** Keys for the columns: usecols, or 0, 1, ... (readtext.py l.366-370,
    374-378, 388-391). *)
Definition label {A} (usecols : option (list Z)) (l : list A) : list (Z * A) :=
  match usecols with
  | Some u => zip u l
  | None => map (fun ix => (Z.of_nat (fst ix), snd ix)) (enum_from 0 l)
  end.

(** All the tuples, or the first exception: zip( *linetupler) runs the
    generator to its end (readtext.py l.375, 378). *)
Definition all_rows (rows : list (res (list val))) : res (list (list val)) := mapM (fun r => r) rows.

(** columndata[column].append(value), columndata a defaultdict(list)
    (readtext.py l.383-392). *)
Definition dappend (kv : Z * val) (d : dict (list val)) : dict (list val) :=
  dset (fst kv) (match dget (fst kv) d with Some l => l | None => [] end ++ [snd kv]) d.

(** The debug loop, readtext.py l.384-401; [seen] tells whether
    debugdict['linum'] exists: if not, the handler itself raises KeyError
    (l.397). *)
Fixpoint debug_rows (usecols : option (list Z)) (seen : bool) (rows : list (res (list val)))
    (d : dict (list val)) : res (dict (list val)) :=
  match rows with
  | [] => Ok d
  | Ok t :: r => debug_rows usecols true r (fold_left (fun d kv => dappend kv d) (label usecols t) d)
  | Err e :: _ => Err (if seen then e else KeyError)
  end.

(** datadict (readtext.py l.357-401): the data and the names of the names
    line. *)
Definition datadict (s : str) (m : mode) (usecols : option (list Z)) (hasnames : bool) (a : targs)
  : res (dict (list val) * dict val) :=
  do y <- linetuples s m (t_delimiter a) usecols (t_converters a) (t_stripstrings a) hasnames;
  do names <- (if hasnames
               then do ns <- y_names y; Ok (dict_of (label usecols ns))       (* l.365-370 *)
               else Ok []);
  do data <- (if t_debug a then debug_rows usecols false (y_rows y) []
              else do rows <- all_rows (y_rows y);
                   Ok (dict_of (label usecols (zipn rows))));                 (* l.372-378 *)
  Ok (data, names).

(** bytehint (readtext.py l.223, 355, 405-406). *)
Definition mode_of (bytes : bool) (encoding : option codec) : mode :=
  match bytes, encoding with
  | false, _ => Text
  | true, None => Raw
  | true, Some c => Coded c
  end.

(** textpack(fname, ...), readtext.py l.292-413, on the opened stream. *)
Definition textpack (src : source) (a : targs) : res pack :=
  let usecols := cols_seq (t_usecols a) in
  let '(usecols, hasnames, skiprows) :=
    match t_names a with
    | _ :: _ => (Some (zsort (dkeys (t_names a))), false, t_skiprows a)       (* l.348-350 *)
    | [] => if t_hasnames a then (usecols, true, t_skiprows a - 1)%Z          (* l.351-353 *)
            else (usecols, false, t_skiprows a)
    end in
  let s := skip_lines (Z.to_nat skiprows) (skipn (src_pos src) (src_text src)) in
  do (data, names) <- datadict s (mode_of (src_bytes src) (t_encoding a)) usecols hasnames a;
  Ok (fst (set_fn (OStr (src_name src))
        (new_pack (map (fun kv => (fst kv, np_array (snd kv))) data)
                  (match t_names a with [] => names | _ => t_names a end)))).

(** ** Examples *)

Definition text (s : str) : source := mksource false s 0 (lit "f.txt").

(** "a;b" names, numbers with decimal comma, a blank line and an empty field. *)
Example textpack_ex :
  match textpack (text (lit "x;a;b" ++ [10%N] ++ lit "1;1,5;p" ++ [10; 10]%N ++ lit "2;;q "))
          (mktargs [] (Some (lit ";")) 1 ColsNone true None [] false false) with
  | Ok p => p_data p = [(0%Z, mkarr Kf [VFloat (float_of_Z 1); VFloat (float_of_Z 2)]);
                        (1%Z, mkarr Kf [VFloat (S754_finite false 6755399441055744 (-52)); VFloat fnan]);
                        (2%Z, mkarr KU [VStr (lit "p"); VStr (lit "q")])] /\
            p_names p = [(0%Z, VStr (lit "x")); (1%Z, VStr (lit "a")); (2%Z, VStr (lit "b"))]
  | Err _ => False
  end.
Proof. vm_compute. auto. Qed.
