(** * Guessing the format of a text file: preparse and lazy_textpack of
    channelpack/readtext.py

    The regular expressions are the two
    of the source, run by scanners, and the ones built from a line's numbers,
    run by a backtracking matcher. *)

From Verif Require Import PyBase PyFloat PyText NumPy Pack ReadText.
Open Scope nat_scope.

(** ** Regular expressions *)

(** [-+]? (readtext.py l.18-19). *)
Definition opt_sign (s : str) : str * str :=
  match s with
  | c :: s' => if N.eqb c 45 || N.eqb c 43 then ([c], s') else ([], s)
  | [] => ([], [])
  end.

(** Digits, then optionally the decimal sign [x] and digits; or the sign and
    digits (readtext.py l.18-19). *)
Definition mantissa (x : N) (s : str) : option (str * str) :=
  let '(ip, r) := span is_decimal s in
  match ip, r with
  | [], c :: r' => if N.eqb c x then match span is_decimal r' with
                                     | ([], _) => None
                                     | (fp, r'') => Some (c :: fp, r'')
                                     end
                   else None
  | [], [] => None
  | _, c :: r' => if N.eqb c x then let '(fp, r'') := span is_decimal r' in Some (ip ++ c :: fp, r'')
                  else Some (ip, r)
  | _, [] => Some (ip, [])
  end.

(** (?:[eE][-+]?\d+)? (readtext.py l.18-19). *)
Definition opt_exponent (s : str) : str * str :=
  match s with
  | c :: s' =>
      if N.eqb c 69 || N.eqb c 101 then
        let '(sg, r) := opt_sign s' in
        match span is_decimal r with
        | ([], _) => ([], s)
        | (d, r') => (c :: sg ++ d, r')
        end
      else ([], s)
  | [] => ([], [])
  end.

(** A match of DNUMRX ([x] the point) or CNUMRX ([x] the comma) at the start of
    [s]. The parts are greedy, and giving back characters never helps: a part
    that follows is optional, and a sign without mantissa is no match
    (readtext.py l.18-19). *)
Definition match_num (x : N) (s : str) : option (str * str) :=
  let '(sg, r) := opt_sign s in
  match mantissa x r with
  | None => None
  | Some (m, r') => let '(e, r'') := opt_exponent r' in Some (sg ++ m ++ e, r'')
  end.

(** re.findall(NUMRX, line) (readtext.py l.80-81); [skip] characters are left of
    the match before. *)
Fixpoint findall (x : N) (skip : nat) (s : str) : list str :=
  match s with
  | [] => []
  | c :: s' =>
      match skip with
      | S k => findall x k s'
      | O => match match_num x s with
             | Some (m, _) => m :: findall x (length m - 1) s'
             | None => findall x 0 s'
             end
      end
  end.

(** re.split(NUMRX, line) (readtext.py l.142, 144): the text between the
    matches. *)
Fixpoint split_num (x : N) (skip : nat) (s : str) : list str :=
  match s with
  | [] => [[]]
  | c :: s' =>
      match skip with
      | S k => split_num x k s'
      | O => match match_num x s with
             | Some (m, _) => [] :: split_num x (length m - 1) s'
             | None => match split_num x 0 s' with
                       | f :: r => (c :: f) :: r
                       | [] => [[c]]                           (* not reachable *)
                       end
             end
      end
  end.

(** \D (readtext.py l.76). *)
Definition not_digit (c : N) : bool := negb (is_decimal c).

(** The greedy group (\D+) followed by [k] : the longest run of non-digits
    first (readtext.py l.76, 84-85). *)
Fixpoint match_gap (k : str -> option (list str)) (n : nat) (s : str) : option (list str) :=
  match n with
  | O => None
  | S n' => match k (skipn n s) with
            | Some g => Some (firstn n s :: g)
            | None => match_gap k n' s
            end
  end.

(** nodigsrx.join(map(_escape, numbers)) matched at the start of [s]: the
    groups (readtext.py l.22-26, 84-85). Plus signs and points are escaped; a
    number has no other special characters. *)
Fixpoint match_lits (lits : list str) (s : str) : option (list str) :=
  match lits with
  | [] => Some []
  | l :: ls =>
      match strip_prefix l s with
      | None => None
      | Some r =>
          match ls with
          | [] => Some []
          | _ => match_gap (match_lits ls) (length (fst (span not_digit r))) r
          end
      end
  end.

(** re.search(rx, line).groups(), or () without a match
    (readtext.py l.87-97). *)
Fixpoint search_lits (lits : list str) (s : str) : list str :=
  match match_lits lits s with
  | Some g => g
  | None => match s with [] => [] | _ :: s' => search_lits lits s' end
  end.

(** ** preparse *)

(** str.strip() (readtext.py l.101-102, 108, 141-144, 170-171). *)
Definition trim (s : str) : str := strip ws_text s.

(** sep.strip() if sep.strip() else sep (readtext.py l.101-102). *)
Definition strip_sep (s : str) : str := match trim s with [] => s | t => t end.

(** len(set(seps)) (readtext.py l.115-118). *)
Fixpoint distinct (l : list str) : nat :=
  match l with
  | [] => 0
  | s :: r => if existsb (str_eqb s) r then distinct r else S (distinct r)
  end.

(** The numbers and the separators of a line (readtext.py l.78-105). *)
Definition line_result (x : N) (line : str) : list str * list str :=
  let nums := findall x 0 line in
  (nums, map strip_sep (search_lits nums line)).

(** The lines, in reverse, without the trailing blank ones; as many results are
    left when those of blank lines are popped (readtext.py l.107-112). *)
Fixpoint drop_blank (back : list str) : list str :=
  match back with
  | [] => []
  | l :: r => match trim l with [] => drop_blank r | _ => back end
  end.
(** How many results are left (readtext.py l.107-112). *)
Definition pop_blank (lines : list str) : nat := length (drop_blank (rev lines)).

(** Triplet.numcnt (readtext.py l.114-118). *)
Definition numcnt (r : list str * list str) : nat := length (fst r).
(** Triplet.septypcnt (readtext.py l.114-118). *)
Definition septypcnt (r : list str * list str) : nat := distinct (snd r).

(** The dict preparse returns; converters are told by their columns, all of
    them _floatit (readtext.py l.164-165, 178-180). *)
Record derived := mkderived
  { d_skiprows : nat;
    d_delimiter : option str;
    d_converters : option (list Z);
    d_names : dict val;
    d_usecols : list Z }.

(** The number of lines the loop of l.150-156 passes; [results] reversed. *)
Fixpoint data_lines_back (expected : nat) (results : list (list str * list str)) : nat :=
  match results with
  | [] => 0
  | r :: rs =>
      if negb (Nat.eqb (septypcnt r) expected) then 0
      else if Nat.eqb (septypcnt r) 0 && Nat.eqb (numcnt r) 0 then 0
      else S (data_lines_back expected rs)
  end.

(** [field.strip() for field in line.split(delimiter) if field.strip()]
    (readtext.py l.170-171). *)
Definition header_fields (delimiter : option str) (line : str) : res (list str) :=
  do fields <- split_line Text delimiter line;
  Ok (filter (fun f => match f with [] => false | _ => true end) (map trim fields)).

(** The names search over the header lines in reverse; [first] is
    re.match(firstfieldrx, ...) (readtext.py l.167-176). *)
Fixpoint find_names (first : str -> bool) (delimiter : option str) (n : nat) (back : list str) : res (dict val) :=
  match back with
  | [] => Ok []
  | line :: r =>
      do fields <- header_fields delimiter line;
      match fields with
      | f :: _ => if Nat.eqb (length fields) n && first f
                  then Ok (map (fun ix => (Z.of_nat (fst ix), VStr (snd ix))) (enum_from 0 fields))
                  else find_names first delimiter n r
      | [] => find_names first delimiter n r
      end
  end.

(** re.match(r'\w', s), the default firstfieldrx (readtext.py l.39). Which
    characters beyond ASCII are word characters is any function [word]. *)
Definition word_first (word : N -> bool) (s : str) : bool :=
  match s with
  | c :: _ => if N.ltb c 128 then is_digit c || is_upper c || is_lower c || N.eqb c 95 else word c
  | [] => false
  end.

(** preparse(lines, firstfieldrx), readtext.py l.39-182; None is the empty
    dict. A number of fields is never 0 where fields[0] is taken: a line
    without numbers is refused before. *)
Definition preparse (first : str -> bool) (lines : list str) : res (option derived) :=
  let keep := pop_blank lines in
  let dresults := firstn keep (map (line_result 46) lines) in
  let cresults := firstn keep (map (line_result 44) lines) in
  match rev dresults, rev cresults with
  | dlast :: _, clast :: _ =>
      let dot := Nat.leb (numcnt dlast) (numcnt clast) in                      (* l.123-128 *)
      let x := if dot then 46%N else 44%N in
      let results := if dot then dresults else cresults in
      let lastres := if dot then dlast else clast in
      let expected := if Nat.eqb (numcnt lastres) 1 then 0 else 1 in           (* l.130-133 *)
      if negb (Nat.eqb (septypcnt lastres) expected) then Ok None              (* l.135-136 *)
      else if Nat.eqb expected 0 &&
              existsb (fun m => match trim m with [] => false | _ => true end)
                (split_num x 0 (last lines []))                                (* l.138-145 *)
      then Ok None
      else
        let startline := length results - data_lines_back expected (rev results) in
        let delimiter := if Nat.eqb expected 1 then Some (last (snd lastres) []) else None in
        let n := numcnt lastres in
        do names <- find_names first delimiter n (rev (firstn startline lines));
        Ok (Some (mkderived startline delimiter
                    (if dot then None else Some (map Z.of_nat (seq 0 n)))
                    names (map Z.of_nat (seq 0 n))))
  | _, _ => Err IndexError                                                      (* dcounts[-1] *)
  end.

(** ** lazy_textpack *)

(** _floatit and _floatit_bytes as converters (readtext.py l.29-36). *)
Definition floatit (bytes : bool) (s : str) : res val := apply_func (if bytes then Raw else Text) FloatIt s.

(** textkwargs: which keyword arguments are given, and their values
    (readtext.py l.235). names None and {}, converters None and {} act alike.
    parselines is not among them. *)
Record kwargs := mkkwargs
  { k_names : option (dict val);
    k_delimiter : option (option str);
    k_skiprows : option Z;
    k_usecols : option cols;
    k_hasnames : option bool;
    k_encoding : option (option codec);
    k_converters : option (dict (str -> res val));
    k_stripstrings : option bool;
    k_debug : option bool }.

(** textkwargs == {} (readtext.py l.235). *)
Definition no_kwargs : kwargs := mkkwargs None None None None None None None None None.

(** not textkwargs (readtext.py l.285). *)
Definition nothing_given (k : kwargs) : bool :=
  match k with
  | mkkwargs None None None None None None None None None => true
  | _ => false
  end.

(** key in usecols, usecols an int made a tuple (readtext.py l.279-282). *)
Definition in_usecols (u : cols) (key : Z) : res bool :=
  match u with
  | ColsNone => Err TypeError                                   (* argument of type 'NoneType' *)
  | ColsInt c => Ok (Z.eqb key c)
  | ColsSeq l => Ok (existsb (Z.eqb key) l)
  end.

(** The derived names that are in usecols (readtext.py l.278-283). *)
Fixpoint names_in (u : cols) (names : dict val) : res (dict val) :=
  match names with
  | [] => Ok []
  | kv :: r => do b <- in_usecols u (fst kv); do r' <- names_in u r; Ok (if b then kv :: r' else r')
  end.

(** The value of a keyword argument, or its default (readtext.py l.276, 287,
    292-294). *)
Definition given {A} (o : option A) (d : A) : A := match o with Some x => x | None => d end.

(** lazy_textpack(fname, parselines, **textkwargs), readtext.py l.235-289;
    [preferred] is the codec of locale.getpreferredencoding(). *)
Definition lazy_textpack (word : N -> bool) (preferred : codec) (src : source) (parselines : Z) (k : kwargs) : res pack :=
  let lines := take_lines (Z.to_nat parselines) (skipn (src_pos src) (src_text src)) in
  do found <-
    (if src_bytes src then
       match given (k_encoding k) (Some preferred) with
       | None => match lines with
                 | [] => preparse (word_first word) []
                 | _ => Err TypeError                           (* decode(None) *)
                 end
       | Some c =>
           do texts <- mapM (decode c) lines;
           do d <- preparse (word_first word) texts;
           match d with
           | Some d =>
               do delim <- match d_delimiter d with
                           | Some x => do b <- encode c x; Ok (Some b)
                           | None => Ok None
                           end;
               Ok (Some (mkderived (d_skiprows d) delim (d_converters d) (d_names d) (d_usecols d)))
           | None => Ok None
           end
       end
     else preparse (word_first word) lines);
  let d := match found with Some d => d | None => mkderived 0 None None [] [] end in
  let found := match found with Some _ => true | None => false end in
  do names <- match k_names k, k_usecols k with
              | Some n, _ => Ok n
              | None, Some u => names_in u (d_names d)
              | None, None => Ok (d_names d)
              end;
  if negb found && nothing_given k then Err ValueError
  else textpack (mksource (src_bytes src) (src_text src) 0 (src_name src))
         (mktargs names
            (given (k_delimiter k) (d_delimiter d))
            (given (k_skiprows k) (Z.of_nat (d_skiprows d)))
            (given (k_usecols k) (if found then ColsSeq (d_usecols d) else ColsNone))
            (given (k_hasnames k) false)
            (given (k_encoding k) None)
            (given (k_converters k)
               (match d_converters d with Some l => map (fun c => (c, floatit (src_bytes src))) l | None => [] end))
            (given (k_stripstrings k) false)
            (given (k_debug k) false)).

(** ** Examples *)

(** A header, names, decimal commas. *)
Example preparse_ex :
  preparse (word_first (fun _ => true)) [lit "made 2017" ++ [10%N]; lit "t; x ;y" ++ [10%N]; lit "1;2,5;3" ++ [10%N];
                       lit "2; 1,5; -,5" ++ [10%N]; []; []]
  = Ok (Some (mkderived 2 (Some (lit ";")) (Some [0; 1; 2]%Z)
                [(0%Z, VStr (lit "t")); (1%Z, VStr (lit "x")); (2%Z, VStr (lit "y"))] [0; 1; 2]%Z)).
Proof. vm_compute. reflexivity. Qed.

(** Values printed by CPython's re for the two patterns. *)
Example findall_ex :
  (findall 46 0 (lit "a1.5e3,-.5 +7.e-2x--3e+ 1.2.3"),
   findall 44 0 (lit "1,5e3 ,5 1.5 -2,")) =
  ([lit "1.5e3"; lit "-.5"; lit "+7.e-2"; lit "-3"; lit "1.2"; lit ".3"],
   [lit "1,5e3"; lit ",5"; lit "1"; lit "5"; lit "-2,"]).
Proof. vm_compute. reflexivity. Qed.

Example search_ex :
  map (fun s => search_lits (findall 46 0 s) s) [lit "1-2"; lit "1 -2 - 3"; lit "1.5.6"; lit "7"; lit ""]
  = [[]; [lit " "; lit " - "]; []; []; []].
Proof. vm_compute. reflexivity. Qed.
