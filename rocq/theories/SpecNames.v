(** * Defined names and their formulas

    A name stands for a formula, written as a sequence of tokens: operands first,
    then what is done with them. Formulas are run when a workbook is opened. Said
    here is how they are written, and of which of them it can be told that nothing
    goes wrong: [harmless]. *)

From Coq Require Import ZArith.
From Verif Require Import PyBase PyFloat SpecDbf SpecSst SpecBytes.
Open Scope Z_scope.

(** ** Formulas *)

(** References and calls have a class: 1 a reference, 2 a value, 3 an array.
    Addresses are 4 bytes for a cell and 8 for an area, in BIFF 5 and 7 they are 3
    and 6. *)
Inductive expr :=
| Ref (cls : N) (link : Z) (area : bool) (addr : str)   (* on some sheet *)
| Here (cls : N) (area : bool) (addr : str)             (* on the sheet in use *)
| Lost (cls : N) (code : N) (rest : str)                (* deleted *)
| Constants (cls : N) (rest : str)                      (* an array *)
| Whole (n : Z)
| Real (f : float)
| Quote (lo : layout)
| Logical (b : bool)
| Failure (code : N)
| Omitted
| Paren (e : expr)
| Mark (sub : N) (w : Z) (e : expr)                     (* spaces, jumps *)
| Trail (e : expr) (sub : N) (w : Z)
| Jumps (n : Z) (table : str) (e : expr)                (* of a CHOOSE *)
| Memo (cls : N) (n : Z) (e : expr)
| Sign (code : N) (e : expr)                            (* 18 +, 19 -, 20 percent *)
| Oper (code : N) (a b : expr)                          (* 3 + 4 - 5 * 6 / 7 ^ 8 & 9 < 10 <= 11 = 12 >= 13 > 14 <> *)
| Union (a b : expr)
| Common (a b : expr)
| Span (a b : expr)
| Total (e : expr) (w : Z)                              (* SUM of one argument *)
| Call (cls : N) (f : Z) (args : list expr)
| Variadic (cls : N) (prompt macro : bool) (f : Z) (args : list expr)
| Other (cls : N) (i : Z) (rest : str)                  (* another name, from 1 *)
| OtherIn (cls : N) (link : Z) (i : Z) (rest : str)
(* In BIFF 5 and 7, in place of Ref, Quote and OtherIn: *)
| RefIn (cls : N) (where_ : str) (area : bool) (addr : str)
| Phrase (raw : str)
| OtherOf (cls : N) (ext : Z) (unused : str) (i : Z) (rest : str).

Definition classed (cls code : N) : N := (32 * cls + code)%N.
Fixpoint formula_bytes (e : expr) : str :=
  match e with
  | Ref cls link area addr => classed cls (if area then 27 else 26) :: le_bytes 2 link ++ addr
  | Here cls area addr => classed cls (if area then 5 else 4) :: addr
  | Lost cls code rest => classed cls code :: rest
  | Constants cls rest => classed cls 0 :: rest
  | Whole n => 30%N :: le_bytes 2 n
  | Real f => 31%N :: double_bytes f
  | Quote lo => 23%N :: string_bytes 1 lo
  | Logical b => [29; if b then 1 else 0]%N
  | Failure code => [28; code]%N
  | Omitted => [22%N]
  | Paren e => formula_bytes e ++ [21%N]
  | Mark sub w e => 25%N :: sub :: le_bytes 2 w ++ formula_bytes e
  | Trail e sub w => formula_bytes e ++ 25%N :: sub :: le_bytes 2 w
  | Jumps n table e => 25%N :: 4%N :: le_bytes 2 n ++ table ++ formula_bytes e
  | Memo cls n e => classed cls 9 :: le_bytes 2 n ++ formula_bytes e
  | Sign code e => formula_bytes e ++ [code]
  | Oper code a b => formula_bytes a ++ formula_bytes b ++ [code]
  | Union a b => formula_bytes a ++ formula_bytes b ++ [16%N]
  | Common a b => formula_bytes a ++ formula_bytes b ++ [15%N]
  | Span a b => formula_bytes a ++ formula_bytes b ++ [17%N]
  | Total e w => formula_bytes e ++ 25%N :: 16%N :: le_bytes 2 w
  | Call cls f args => flat_map formula_bytes args ++ classed cls 1 :: le_bytes 2 f
  | Variadic cls prompt macro f args =>
      flat_map formula_bytes args ++ classed cls 2 :: N.of_nat (length args + if prompt then 128 else 0)
        :: le_bytes 2 (f + if macro then 2 ^ 15 else 0)
  | Other cls i rest => classed cls 3 :: le_bytes 2 i ++ rest
  | OtherIn cls link i rest => classed cls 25 :: le_bytes 2 link ++ le_bytes 2 i ++ rest
  | RefIn cls where_ area addr => classed cls (if area then 27 else 26) :: where_ ++ addr
  | Phrase raw => 23%N :: le_bytes 1 (size raw) ++ raw
  | OtherOf cls ext unused i rest => classed cls 25 :: le_bytes 2 ext ++ unused ++ le_bytes 2 i ++ rest
  end.

(** Functions in use, with the least and the greatest number of arguments. *)
Definition functions : list (Z * (Z * Z)) :=
  [(0, (0, 30)) (* COUNT *); (1, (2, 3)) (* IF *); (2, (1, 1)) (* ISNA *); (3, (1, 1)) (* ISERROR *); (4, (0, 30)) (* SUM *);
   (5, (1, 30)) (* AVERAGE *); (6, (1, 30)) (* MIN *); (7, (1, 30)) (* MAX *); (8, (0, 1)) (* ROW *); (9, (0, 1)) (* COLUMN *);
   (10, (0, 0)) (* NA *); (19, (0, 0)) (* PI *); (20, (1, 1)) (* SQRT *); (24, (1, 1)) (* ABS *); (25, (1, 1)) (* INT *);
   (27, (2, 2)) (* ROUND *); (28, (2, 3)) (* LOOKUP *); (29, (2, 4)) (* INDEX *); (31, (3, 3)) (* MID *); (32, (1, 1)) (* LEN *);
   (33, (1, 1)) (* VALUE *); (36, (1, 30)) (* AND *); (37, (1, 30)) (* OR *); (38, (1, 1)) (* NOT *); (39, (2, 2)) (* MOD *);
   (48, (2, 2)) (* TEXT *); (64, (2, 3)) (* MATCH *); (65, (3, 3)) (* DATE *); (67, (1, 1)) (* DAY *); (68, (1, 1)) (* MONTH *);
   (69, (1, 1)) (* YEAR *); (74, (0, 0)) (* NOW *); (76, (1, 1)) (* ROWS *); (77, (1, 1)) (* COLUMNS *); (78, (3, 5)) (* OFFSET *);
   (100, (2, 30)) (* CHOOSE *); (101, (3, 4)) (* HLOOKUP *); (102, (3, 4)) (* VLOOKUP *); (115, (1, 2)) (* LEFT *);
   (116, (1, 2)) (* RIGHT *); (124, (2, 3)) (* FIND *); (125, (1, 2)) (* CELL *); (148, (1, 2)) (* INDIRECT *);
   (169, (0, 30)) (* COUNTA *); (197, (1, 2)) (* TRUNC *); (219, (2, 5)) (* ADDRESS *); (221, (0, 0)) (* TODAY *);
   (336, (0, 30)) (* CONCATENATE *); (345, (2, 3)) (* SUMIF *); (346, (2, 2)) (* COUNTIF *)].

(** ** What formulas can give *)

Inductive sort :=
| Area | Areas | Link                        (* one area, several, not told *)
| Tiny | Integer                             (* known ints: up to 65535, any *)
| Short | Number                             (* known doubles: whole up to 65535, any *)
| Text | Truth
| FreeNumber | FreeText | FreeTruth          (* not told *)
| Fault | Absent | Unknown.

Definition whole (s : sort) : bool := match s with Tiny | Integer => true | _ => false end.
Definition numeric (s : sort) : bool := match s with Tiny | Integer | Short | Number => true | _ => false end.
Definition known (s : sort) : bool := match s with Tiny | Integer | Short | Number | Text => true | _ => false end.
Definition is_area (s : sort) : bool := match s with Area | Areas => true | _ => false end.
Definition is_link (s : sort) : bool := match s with Area | Areas | Link => true | _ => false end.
Definition is_fault (s : sort) : bool := match s with Fault => true | _ => false end.
Definition sign_sorts (code : N) (s : sort) : list sort :=
  match s with
  | Tiny | Truth => [if (code =? 20)%N then Number else Tiny]
  | Integer => [Integer]
  | Short | Number => [Number]
  | Fault => [if (code =? 20)%N then Number else Tiny; FreeNumber]
  | _ => [FreeNumber]
  end.
Definition oper_sort (code : N) (a b : sort) : sort :=
  let told := known a && known b in
  if (code <=? 7)%N then if told then if whole a && whole b && (code <=? 5)%N then Integer else Number else FreeNumber
  else if (code =? 8)%N then if told then Text else FreeText
  else if told then Truth else FreeTruth.
Definition union_sort (a b : sort) : sort :=
  if is_fault a || is_fault b then Fault else if is_area a && is_area b then Areas else Link.
Definition common_sorts (a b : sort) : list sort :=
  if is_fault a || is_fault b then [Fault] else if is_area a && is_area b then [Area; Link] else [Link].
Definition pairs (f : sort -> sort -> list sort) (l m : list sort) : list sort := flat_map (fun a => flat_map (f a) m) l.
Definition chosen (s : sort) : sort := match s with Absent => Tiny | _ => s end.

(** [names i]: what the name i can give. *)
Fixpoint sorts (names : Z -> list sort) (e : expr) : list sort :=
  match e with
  | Ref cls _ _ _ | RefIn cls _ _ _ => if (cls =? 1)%N then [Area] else [Link]
  | Here cls _ _ => if (cls =? 1)%N then [Area] else [Unknown]
  | Lost _ _ _ | Failure _ => [Fault]
  | Constants _ _ => [Unknown]
  | Whole _ => [Short]
  | Real _ => [Number]
  | Quote _ | Phrase _ => [Text]
  | Logical _ => [Truth]
  | Omitted => [Absent]
  | Paren e | Mark _ _ e | Trail e _ _ | Jumps _ _ e | Memo _ _ e => sorts names e
  | Sign code e => flat_map (sign_sorts code) (sorts names e)
  | Oper code a b => pairs (fun x y => [oper_sort code x y]) (sorts names a) (sorts names b)
  | Union a b => pairs (fun x y => [union_sort x y]) (sorts names a) (sorts names b)
  | Common a b | Span a b => pairs common_sorts (sorts names a) (sorts names b)
  | Total _ _ => [FreeNumber]
  | Call _ _ _ => [Unknown]
  | Variadic _ _ _ f args =>
      if (f =? 1) || (f =? 100) then Unknown :: Truth :: map chosen (match args with _ :: l => flat_map (sorts names) l | [] => [] end)
      else [Unknown]
  | Other _ i _ | OtherIn _ _ i _ | OtherOf _ _ _ i _ => Unknown :: names i
  end.

(** ** Formulas that do no harm *)

Definition good_class (cls : N) : Prop := (1 <= cls <= 3)%N.
(** Where formulas are: in BIFF8 (None), or in BIFF 5 or 7, where it matters which
    bytes can be read as text, and which EXTERNSHEET records there are, as tokens
    refer to them. *)
Record older := mkolder { readable : str -> Prop; present : Z -> Prop }.
Definition in_ (v : option older) {A} (new old : A) : A := match v with None => new | Some _ => old end.
Definition cell_size (v : option older) (area : bool) : nat :=
  if area then in_ v 8%nat 6%nat else in_ v 4%nat 3%nat.
(** Deleted references: the sizes of the tokens. *)
Definition lost_codes (v : option older) : list (N * nat) :=
  let sheet := in_ v 2%nat 14%nat in
  [(7%N, 6%nat); (8%N, 6%nat); (10%N, cell_size v false); (11%N, cell_size v true);
   (28%N, (sheet + cell_size v false)%nat); (29%N, (sheet + cell_size v true)%nat)].
Definition failures : list N := [0; 7; 15; 23; 29; 36; 42]%N.
Definition all_sorts (l : list sort) (ok : sort -> bool) : Prop := forall s, In s l -> ok s = true.
Definition all_pairs (l m : list sort) (ok : sort -> sort -> bool) : Prop :=
  forall a b, In a l -> In b m -> ok a b = true.

(** Two constants: numbers are added, subtracted and multiplied, texts joined,
    and things of a kind compared, or anything for being equal; doubles are not
    added to whole numbers that have been computed, and the like. *)
Definition mixed (a b : sort) : bool :=
  match a, b with Integer, (Number | Short) | (Number | Short), Integer => true | _, _ => false end.
Definition oper_ok (code : N) (a b : sort) : bool :=
  negb (known a && known b) ||
  (if numeric a && numeric b then negb (mixed a b) && (code <=? 5)%N || (9 <=? code)%N
   else if numeric a || numeric b then (code =? 11)%N || (code =? 14)%N
   else (8 <=? code)%N).
(** A divisor that is written down and is not zero. *)
Definition divisor (e : expr) : Prop :=
  match e with
  | Whole n => n <> 0
  | Real f => match f with S754_zero _ => False | _ => True end
  | _ => False
  end.
Definition dividend (s : sort) : bool := match s with Tiny | Short | Number => true | _ => negb (known s) end.
Definition union_ok (a b : sort) : bool := negb (is_area a && match b with Areas => true | _ => false end).
Definition common_ok (a b : sort) : bool :=
  negb (is_area a && is_area b && match a, b with Area, Area => false | _, _ => true end).
Definition sign_ok (code : N) (s : sort) : bool :=
  match s with Text | Area | Areas => false | Integer => negb (code =? 20)%N | _ => true end.
Definition span_ok (a b : sort) : bool := negb (is_fault a || is_fault b) && common_ok a b.
Definition index_ok (s : sort) : bool := match s with Number | FreeNumber => false | _ => true end.

(** [names] as above; [usable i]: the name i may be used; [foreign k]: link k does
    not lead to this workbook, so that names behind it are not looked up. *)
Fixpoint harmless (v : option older) (names : Z -> list sort) (usable foreign : Z -> Prop) (e : expr) : Prop :=
  let this := harmless v names usable foreign in
  match e with
  | Ref cls link area addr => v = None /\ good_class cls /\ word16 link /\ length addr = cell_size v area
  | RefIn cls where_ area addr => v <> None /\ good_class cls /\ length where_ = 14%nat /\ length addr = cell_size v area
  | Here cls area addr => good_class cls /\ length addr = cell_size v area
  | Lost cls code rest => good_class cls /\ In (code, length rest) (lost_codes v)
  | Constants cls rest => good_class cls /\ length rest = 8%nat
  | Whole n => word16 n
  | Real f => is_double f
  | Quote lo => v = None /\ good_layout lo /\ uncut lo /\ total_units lo < 256
  | Phrase raw => match v with None => False | Some o => readable o raw end /\ size raw < 256
  | Logical _ | Omitted => True
  | Failure code => In code failures
  | Paren e => this e
  | Mark sub w e | Trail e sub w => sub <> 4%N /\ sub <> 16%N /\ (sub < 256)%N /\ this e
  | Jumps n table e => word16 n /\ size table = 2 * n + 2 /\ this e
  | Memo cls n e => good_class cls /\ this e
  | Sign code e => (18 <= code <= 20)%N /\ this e /\ all_sorts (sorts names e) (sign_ok code)
  | Oper code a b =>
      (3 <= code <= 14)%N /\ this a /\ this b /\
      (all_pairs (sorts names a) (sorts names b) (oper_ok code) \/
       code = 6%N /\ divisor b /\ all_sorts (sorts names a) dividend)
  | Union a b => this a /\ this b /\ all_pairs (sorts names a) (sorts names b) union_ok
  | Common a b => this a /\ this b /\ all_pairs (sorts names a) (sorts names b) common_ok
  | Span a b => this a /\ this b /\ all_pairs (sorts names a) (sorts names b) span_ok
  | Total e w => this e
  | Call cls f args =>
      good_class cls /\ (exists n m, In (f, (n, m)) functions /\ Z.of_nat (length args) = n) /\
      fold_right and True (map this args)
  | Variadic cls prompt macro f args =>
      good_class cls /\ args <> [] /\
      (exists n m, In (f, (n, m)) functions /\ n <= Z.of_nat (length args) <= m) /\
      (f = 100 -> match args with e :: _ => all_sorts (sorts names e) index_ok | [] => True end) /\
      fold_right and True (map this args)
  | Other cls i rest => good_class cls /\ word16 i /\ length rest = in_ v 2%nat 12%nat /\ usable i
  | OtherIn cls link i rest =>
      v = None /\ good_class cls /\ word16 link /\ word16 i /\ length rest = 2%nat /\ (usable i \/ foreign link)
  | OtherOf cls ext unused i rest =>
      match v with None => False | Some o => present o ext end /\ good_class cls /\ - 2 ^ 15 <= ext < 2 ^ 15 /\
      length unused = 8%nat /\ word16 i /\ length rest = 12%nat /\ (usable i \/ foreign ext)
  end.

(** ** Names *)

(** What a name stands for; macros and binary names (bits 3 and 12 of the
    flags) are not run. *)
Inductive meaning := Nothing | Formula (e : expr) | Opaque (b : str).
Definition meaning_bytes (m : meaning) : str :=
  match m with Nothing => [] | Formula e => formula_bytes e | Opaque b => b end.

Record name_data := mkname {
  nm_flags : Z;
  nm_key : N;
  nm_ext : Z;
  nm_sheet : Z;                      (* 0 for all, or the number of a sheet *)
  nm_sizes : str;
  nm_name : layout;
  nm_meaning : meaning;
  nm_extra : str
}.
Definition macro (n : name_data) : Prop := Z.testbit (nm_flags n) 3 = true \/ Z.testbit (nm_flags n) 12 = true.

(** The record: the length of the name stands apart from it. *)
Definition name_bytes (n : name_data) : str :=
  le_bytes 2 (nm_flags n) ++ [nm_key n] ++ le_bytes 1 (total_units (nm_name n)) ++ le_bytes 2 (size (meaning_bytes (nm_meaning n)))
  ++ le_bytes 2 (nm_ext n) ++ le_bytes 2 (nm_sheet n) ++ nm_sizes n
  ++ skipn 1 (string_bytes 1 (nm_name n)) ++ meaning_bytes (nm_meaning n) ++ nm_extra n.
Definition good_name (n : name_data) : Prop :=
  word16 (nm_flags n) /\ word16 (nm_sheet n) /\ length (nm_sizes n) = 4%nat /\
  good_layout (nm_name n) /\ uncut (nm_name n) /\ total_units (nm_name n) < 256 /\ size (name_bytes n) < 2 ^ 16.

(** Names that do no harm, in a workbook with sheets of which [sheets] tells
    whether they are worksheets: formulas are harmless, names used in them exist,
    are no macros and belong to all sheets or to a worksheet, and there is no
    chain of names, each using the next, of more than eleven. *)
Definition level := Z -> nat.
Definition usable_name (sheets : list bool) (l : list name_data) (depth : level) (i j : Z) : Prop :=
  1 <= j /\ (depth j < depth i)%nat /\
  exists n, nth_error l (Z.to_nat (j - 1)) = Some n /\ ~ macro n /\
    (nm_sheet n = 0 \/ 1 <= nm_sheet n /\ nth_error sheets (Z.to_nat (nm_sheet n - 1)) = Some true).
Definition harmless_meaning (v : option older) (names : Z -> list sort) (usable foreign : Z -> Prop) (m : meaning) (s : list sort) : Prop :=
  match m with
  | Nothing => In Unknown s
  | Formula e => harmless v names usable foreign e /\ incl (sorts names e) s
  | Opaque _ => False
  end.
Definition harmless_names (v : option older) (sheets : list bool) (foreign : Z -> Prop) (l : list name_data) : Prop :=
  exists (names : Z -> list sort) (depth : level), forall i n, nth_error l i = Some n -> ~ macro n ->
    (depth (Z.of_nat i + 1)%Z <= 10)%nat /\
    harmless_meaning v names (usable_name sheets l depth (Z.of_nat i + 1)) foreign (nm_meaning n) (names (Z.of_nat i + 1)).

(** ** Names in BIFF 5 and 7 *)

Record old_name := mkoldname {
  on_flags : Z;
  on_key : N;
  on_ext : Z;                        (* 0 for all sheets, or the number of an EXTERNSHEET record *)
  on_sheet : Z;
  on_sizes : str;
  on_name : str;
  on_meaning : meaning;
  on_extra : str
}.
Definition old_name_bytes (n : old_name) : str :=
  le_bytes 2 (on_flags n) ++ [on_key n] ++ le_bytes 1 (size (on_name n)) ++ le_bytes 2 (size (meaning_bytes (on_meaning n)))
  ++ le_bytes 2 (on_ext n) ++ le_bytes 2 (on_sheet n) ++ on_sizes n
  ++ on_name n ++ meaning_bytes (on_meaning n) ++ on_extra n.
Definition good_old_name (legible : str -> Prop) (n : old_name) : Prop :=
  word16 (on_flags n) /\ word16 (on_ext n) /\ length (on_sizes n) = 4%nat /\ legible (on_name n) /\
  size (on_name n) < 256 /\ size (old_name_bytes n) < 2 ^ 16.
(** The same but for the name itself, where the number of an EXTERNSHEET record
    stands for the sheet. *)
Definition as_name (n : old_name) : name_data :=
  mkname (on_flags n) (on_key n) 0 (on_ext n) (on_sizes n) (mklayout 0 (false, []) [] None None) (on_meaning n) (on_extra n).
