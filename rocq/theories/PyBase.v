(** * Python base notions shared by all the models

    Nothing in this file models a function of /repo by itself; each definition
    is a piece of Python semantics and cites a place in /repo relying on it. *)

From Coq Require Export String.
From Coq Require Export List Arith ZArith NArith Lia Bool Permutation Sorted.
From Coq Require Import ZifyBool ZifyNat ZifyN.
From Coq Require Ascii.
Export ListNotations.

Set Implicit Arguments.
Generalizable All Variables.

(** ** Exceptions as values *)

(** The exception classes raised in the modelled code, e.g.
    channelpack/pack.py l.25 (TypeError), l.132 (ValueError), l.451 (IndexError),
    l.540 (KeyError), channelpack/dbf.py l.29 (struct.error), l.42
    (AssertionError), channelpack/xlrd/xldate.py (the XLDate* classes),
    channelpack/xlrd/compdoc.py (CompDocError), channelpack/xlrd/formula.py
    (FormulaError); [NotModelled] stands for steps that are not modelled. *)
Inductive exn : Type :=
| ValueError | TypeError | KeyError | IndexError | AttributeError
| AssertionError | OverflowError | StructError | UnicodeError
| UnboundLocalError | XLRDError | CompDocError | NonTermination
| XLDateNegative | XLDateAmbiguous | XLDateTooLarge | XLDateBadDatemode
| XLDateBadTuple | ZeroDivisionError | FormulaError | RecursionError | NotModelled | OtherError.

(** Outcome of a Python expression (any modelled function that can raise,
    e.g. channelpack/pack.py l.518-560). *)
Inductive res (A : Type) : Type :=
| Ok (a : A)
| Err (e : exn).
Arguments Ok {A} a.
Arguments Err {A} e.

(** Sequencing: the first exception propagates
    (statement order of any modelled function, e.g. channelpack/dbf.py l.55). *)
Definition bind {A B} (r : res A) (f : A -> res B) : res B :=
  match r with Ok a => f a | Err e => Err e end.

Notation "'do' x <- r ; k" := (bind r (fun x => k))
  (at level 200, x pattern, r at level 100, k at level 200, right associativity).

(** A list comprehension whose element expression may raise
    (e.g. channelpack/readtext.py l.533, channelpack/readxl.py l.165). *)
Fixpoint mapM {A B} (f : A -> res B) (l : list A) : res (list B) :=
  match l with
  | [] => Ok []
  | x :: l' => do y <- f x; do ys <- mapM f l'; Ok (y :: ys)
  end.

(** Did the expression return normally? (channelpack/pack.py l.448-451, the
    try and except blocks). *)
Definition is_ok {A} (r : res A) : bool :=
  match r with Ok _ => true | Err _ => false end.

(** ** Strings and bytes *)

(** Text and bytes are lists of code points / byte values
    (e.g. the lines handled in channelpack/readtext.py l.475, the records in
    channelpack/dbf.py l.48). *)
Definition str := list N.

(** String literals of the source, e.g. 'ch' in channelpack/pack.py l.214. *)
Fixpoint lit (s : String.string) : str :=
  match s with
  | String.EmptyString => []
  | String.String a s' => Ascii.N_of_ascii a :: lit s'
  end.
Arguments lit _%string_scope.

(** Equality of strings, e.g. channelpack/pack.py l.543. *)
Fixpoint str_eqb (a b : str) : bool :=
  match a, b with
  | [], [] => true
  | x :: a', y :: b' => N.eqb x y && str_eqb a' b'
  | _, _ => false
  end.

(** ASCII decimal digit, what int() and float() take for bytes
    (channelpack/dbf.py l.60-65). *)
Definition is_digit (c : N) : bool := (N.leb 48 c && N.leb c 57)%bool.

(** The zeros of the decimal digits beyond ASCII, each followed by the other
    nine (Unicode 14, that of Python 3.11; \d in channelpack/pack.py l.552,
    channelpack/readtext.py l.18-19, 76, channelpack/readxl.py l.43). *)
Definition decimal_zeros : list N :=
  [1632; 1776; 1984; 2406; 2534; 2662; 2790; 2918; 3046; 3174; 3302; 3430; 3558; 3664; 3792; 3872; 4160; 4240;
   6112; 6160; 6470; 6608; 6784; 6800; 6992; 7088; 7232; 7248; 42528; 43216; 43264; 43472; 43504; 43600; 44016;
   65296; 66720; 68912; 69734; 69872; 69942; 70096; 70384; 70736; 70864; 71248; 71360; 71472; 71904; 72016;
   72784; 73040; 73120; 92768; 92864; 93008; 120782; 120792; 120802; 120812; 120822; 123200; 123632; 125264;
   130032]%N.

(** The value of a decimal digit (int(), channelpack/pack.py l.556). *)
Definition decimal_value (c : N) : option N :=
  if is_digit c then Some (c - 48)%N
  else match find (fun z => (N.leb z c && N.ltb c (z + 10))%bool) decimal_zeros with
       | Some z => Some (c - z)%N
       | None => None
       end.

(** The class \d for text (channelpack/pack.py l.552, channelpack/readtext.py
    l.18-19, 76, channelpack/readxl.py l.43). *)
Definition is_decimal (c : N) : bool := match decimal_value c with Some _ => true | None => false end.

(** ASCII letters (channelpack/readxl.py l.43). *)
Definition is_upper (c : N) : bool := (N.leb 65 c && N.leb c 90)%bool.
(** [a-z] (channelpack/readxl.py l.43). *)
Definition is_lower (c : N) : bool := (N.leb 97 c && N.leb c 122)%bool.
(** [A-Za-z] (channelpack/readxl.py l.43). *)
Definition is_alpha (c : N) : bool := is_upper c || is_lower c.

(** str.upper on ASCII (channelpack/readxl.py l.204). *)
Definition upper (c : N) : N := if is_lower c then (c - 32)%N else c.

(** White space removed by str.strip()/split(): TAB..CR, FS..US, space, next
    line, no-break space and the spaces further on
    (channelpack/readtext.py l.101). *)
Definition ws_text (c : N) : bool :=
  ((N.leb 9 c && N.leb c 13) || (N.leb 28 c && N.leb c 32) || N.eqb c 0x85 || N.eqb c 0xa0 || N.eqb c 0x1680
   || (N.leb 0x2000 c && N.leb c 0x200a) || N.eqb c 0x2028 || N.eqb c 0x2029 || N.eqb c 0x202f
   || N.eqb c 0x205f || N.eqb c 0x3000)%bool.

(** What int() and float() make of a text before they look at it: white space
    and digits beyond ASCII become a space and ASCII digits, anything else
    beyond ASCII a question mark, which is refused (channelpack/readtext.py
    l.31, 459, 479; channelpack/pack.py l.556). *)
Definition to_ascii (s : str) : str :=
  map (fun c => if N.ltb c 128 then c
                else if ws_text c then 32%N
                else match decimal_value c with Some d => (48 + d)%N | None => 63%N end) s.

(** White space removed by bytes.strip(), and [string.whitespace]
    (channelpack/dbf.py l.64, channelpack/readtext.py l.463). *)
Definition ws_bytes (c : N) : bool :=
  ((N.leb 9 c && N.leb c 13) || N.eqb c 32)%bool.

(** s.lstrip(chars) and s.strip(chars) for a set of characters
    (channelpack/readtext.py l.471, channelpack/dbf.py l.56). *)
Fixpoint lstrip (p : N -> bool) (s : str) : str :=
  match s with
  | [] => []
  | c :: s' => if p c then lstrip p s' else s
  end.
(** s.rstrip(chars); part of [strip] (channelpack/readtext.py l.471). *)
Definition rstrip (p : N -> bool) (s : str) : str := rev (lstrip p (rev s)).
(** s.strip(chars) (channelpack/readtext.py l.471, channelpack/dbf.py l.64). *)
Definition strip (p : N -> bool) (s : str) : str := rstrip p (lstrip p s).

(** s.replace(a, b) with a one-character pattern [a]
    (channelpack/readtext.py l.31, channelpack/dbf.py l.35). *)
Definition replace1 (a : N) (b : str) (s : str) : str :=
  flat_map (fun c => if N.eqb c a then b else [c]) s.

(** ** Lists *)

(** Python indexing l[i] with negative wrap-around
    (channelpack/pack.py l.449, [sl[part]]). *)
Definition py_index {A} (l : list A) (i : Z) : option A :=
  let n := Z.of_nat (length l) in
  let j := (if i <? 0 then i + n else i)%Z in
  if ((0 <=? j) && (j <? n))%Z then nth_error l (Z.to_nat j) else None.

(** l[a:b] for 0 <= a, 0 <= b (channelpack/pack.py l.449; the slices are
    those made at channelpack/datautils.py l.91, 95). *)
Definition slice {A} (a b : nat) (l : list A) : list A :=
  firstn (b - a) (skipn a l).

(** ** Dictionaries with insertion order, integer keys *)

(** The contents of an IntKeyDict / NpDict (channelpack/pack.py l.15-132):
    pairs in insertion order, keys pairwise different. *)
Definition dict (V : Type) := list (Z * V).

(** d[k] (channelpack/pack.py l.449). *)
Fixpoint dget {V} (k : Z) (d : dict V) : option V :=
  match d with
  | [] => None
  | (k', v) :: d' => if Z.eqb k k' then Some v else dget k d'
  end.

(** k in d (channelpack/pack.py l.535). *)
Definition dmem {V} (k : Z) (d : dict V) : bool :=
  match dget k d with Some _ => true | None => false end.

(** d[k] = v : an existing key keeps its place, a new key goes last
    (channelpack/pack.py l.297). *)
Fixpoint dset {V} (k : Z) (v : V) (d : dict V) : dict V :=
  match d with
  | [] => [(k, v)]
  | (k', v') :: d' => if Z.eqb k k' then (k', v) :: d' else (k', v') :: dset k v d'
  end.

(** d.keys() (channelpack/pack.py l.294). *)
Definition dkeys {V} (d : dict V) : list Z := map fst d.

(** dict(pairs): later pairs win (channelpack/readtext.py l.374). *)
Definition dict_of {V} (l : list (Z * V)) : dict V :=
  fold_left (fun d kv => dset (fst kv) (snd kv) d) l [].

(** ** sorted() on integers *)

(** Insertion into a sorted list; part of [zsort]
    (sorted, channelpack/pack.py l.321). *)
Fixpoint zinsert (x : Z) (l : list Z) : list Z :=
  match l with
  | [] => [x]
  | y :: l' => if (x <=? y)%Z then x :: l else y :: zinsert x l'
  end.

(** sorted(l) on integers (channelpack/pack.py l.321, l.504, l.507;
    channelpack/readtext.py l.349; channelpack/readxl.py l.165, 175). *)
Fixpoint zsort (l : list Z) : list Z :=
  match l with
  | [] => []
  | x :: l' => zinsert x (zsort l')
  end.

(** ** zip *)

(** zip(a, b): stops at the shorter (channelpack/datautils.py l.63). *)
Fixpoint zip {A B} (a : list A) (b : list B) : list (A * B) :=
  match a, b with
  | x :: a', y :: b' => (x, y) :: zip a' b'
  | _, _ => []
  end.

(** The heads of all the lists, if none is empty; one step of zip over
    several iterables (channelpack/pack.py l.514, channelpack/readtext.py l.375). *)
Fixpoint heads {A} (ls : list (list A)) : option (list A * list (list A)) :=
  match ls with
  | [] => Some ([], [])
  | [] :: _ => None
  | (x :: l) :: ls' =>
      match heads ls' with
      | Some (hs, ts) => Some (x :: hs, l :: ts)
      | None => None
      end
  end.

(** zip over several iterables with [n] steps of fuel; see [zipn]
    (channelpack/pack.py l.514-515). *)
Fixpoint zipn_fuel {A} (n : nat) (ls : list (list A)) : list (list A) :=
  match n with
  | O => []
  | S n' => match heads ls with
            | Some (hs, ts) => hs :: zipn_fuel n' ts
            | None => []
            end
  end.

(** zip( *ls ) : no iterable gives no tuple; else one tuple per element of
    the shortest iterable (channelpack/pack.py l.514, channelpack/readtext.py
    l.375, 378, channelpack/dbf.py l.184). The fuel is the length of the first
    list, which the number of steps cannot exceed. *)
Definition zipn {A} (ls : list (list A)) : list (list A) :=
  match ls with
  | [] => []
  | l :: _ => zipn_fuel (length l) ls
  end.

(** enumerate(l, start=n) (channelpack/datautils.py l.86). *)
Fixpoint enum_from {A} (n : nat) (l : list A) : list (nat * A) :=
  match l with
  | [] => []
  | x :: l' => (n, x) :: enum_from (S n) l'
  end.

(** ** Decimal printing and reading of integers *)

(** Digits of a positive number, most significant first, [n] bounds the number
    of digits; part of [str_of_Z] (channelpack/pack.py l.506). *)
Fixpoint dec_digits (n : nat) (z : Z) : str :=
  match n with
  | O => []
  | S n' => if (z <? 10)%Z then [Z.to_N (z + 48)]
            else dec_digits n' (z / 10) ++ [Z.to_N (z mod 10 + 48)]
  end.

(** str(z) for an int (channelpack/pack.py l.506, 587). *)
Definition str_of_Z (z : Z) : str :=
  if (z <? 0)%Z then 45%N :: dec_digits (S (Z.to_nat (Z.log2 (- z)))) (- z)
  else dec_digits (S (Z.to_nat (Z.log2 z))) z.

(** Value of a run of decimal digits, most significant first
    (int(m.group(1)), channelpack/pack.py l.556). *)
Fixpoint digits_val (acc : Z) (s : str) : Z :=
  match s with
  | [] => acc
  | c :: s' => digits_val (acc * 10 + (Z.of_N c - 48)) s'
  end.

(** The longest prefix of [s] whose characters satisfy [p], and the rest:
    a greedy regular expression class repetition, e.g. (\d+) in
    channelpack/pack.py l.552. *)
Fixpoint span (p : N -> bool) (s : str) : str * str :=
  match s with
  | [] => ([], [])
  | c :: s' => if p c then let '(a, b) := span p s' in (c :: a, b) else ([], s)
  end.

(** s.startswith(p), returning the rest (the literal part of the pattern at
    channelpack/pack.py l.552). *)
Fixpoint strip_prefix (p s : str) : option str :=
  match p, s with
  | [], _ => Some s
  | x :: p', y :: s' => if N.eqb x y then strip_prefix p' s' else None
  | _, [] => None
  end.
