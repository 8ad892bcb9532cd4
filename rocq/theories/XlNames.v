(** * Defined names of a workbook: channelpack/xlrd/formula.py

    evaluate_name_formula and what it uses, for BIFF 5, 7 and 8; there are no
    names in older workbooks (book.py l.973-974). The formulas of the names are run when a workbook is opened; nothing of the outcome reaches the packs
    of channelpack, but an exception keeps the workbook from being opened. Kept
    of an operand is what later steps depend on: its kind and its value, of a
    reference only how many areas there are and which parts are relative. The
    text is not kept: building it does not raise (the names of sheets and
    columns it is made of exist), except that an int in place of an operand has
    no text. [Err NotModelled] stands for steps that are not modelled: powers of
    constants, numbers joined to text, and arithmetic with a unary plus of a text
    or reference. *)

From Coq Require Import ZArith.
From Verif Require Import PyBase PyFloat NumPy Dbf XlStruct CompDoc Sst.
Open Scope Z_scope.

(** ** Operands *)

(** oUNK, oSTRG, oNUM, oBOOL, oERR, oMSNG, oREF, oREL (formula.py l.73-80). *)
Inductive okind := oUNK | oSTRG | oNUM | oBOOL | oERR | oMSNG | oREF | oREL.

(** The value of an operand (formula.py l.534-623): None, a number, a text, or
    the relative flags of each Ref3D (l.626-689). *)
Inductive oval := NoVal | NumVal (n : pynum) | TextVal (s : str) | RefsVal (l : list (list bool)).

(** An Operand, or the int that is put on the stack at formula.py l.956. *)
Inductive operand := Opnd (k : okind) (v : oval) | Bare.

(** Kinds compared (formula.py l.791-792, 875-892). *)
Definition kind_eqb (a b : okind) : bool :=
  match a, b with
  | oUNK, oUNK | oSTRG, oSTRG | oNUM, oNUM | oBOOL, oBOOL | oERR, oERR | oMSNG, oMSNG | oREF, oREF | oREL, oREL => true
  | _, _ => false
  end.

(** x.rank, x.text, x.kind, x.value: an int has none of them (formula.py
    l.780-788, 812-818). *)
Definition the_operand (x : operand) : res (okind * oval) :=
  match x with Opnd k v => Ok (k, v) | Bare => Err AttributeError end.

(** ** Tables *)

(** sztab4, formula.py l.104. *)
Definition sztab4 : list Z :=
  [-2; 5; 5; 1; 1; 1; 1; 1; 1; 1; 1; 1; 1; 1; 1; 1; 1; 1; 1; 1; 1; 1; 1; -1; -1; -1; -2; -2; 2; 2; 3; 9;
   9; 3; 4; 5; 5; 9; 7; 7; 7; 3; 5; 9; 5; 9; 3; 3; -2; -2; -2; -2; -2; -2; -2; -2; -2; 7; 7; 11; 7; 11; -2; -2].

(** sztab3, formula.py l.103, for BIFF 5 and 7 (l.106-115). *)
Definition sztab3 : list Z :=
  [-2; 5; 5; 1; 1; 1; 1; 1; 1; 1; 1; 1; 1; 1; 1; 1; 1; 1; 1; 1; 1; 1; 1; -1; -2; -1; -2; -2; 2; 2; 3; 9;
   9; 3; 4; 15; 4; 7; 7; 7; 7; 3; 4; 7; 4; 7; 3; 3; -2; -2; -2; -2; -2; -2; -2; -2; -2; 25; 18; 21; 18; 21; -2; -2].

(** func_defs, formula.py l.121-383: the numbers of arguments, at least and at
    most. *)
Definition func_defs : list (Z * Z * Z) :=
  [(0, 0, 30); (1, 2, 3); (2, 1, 1); (3, 1, 1); (4, 0, 30); (5, 1, 30); (6, 1, 30); (7, 1, 30); (8, 0, 1); (9, 0,
   1); (10, 0, 0); (11, 2, 30); (12, 1, 30); (13, 1, 2); (14, 2, 3); (15, 1, 1); (16, 1, 1); (17, 1, 1); (18, 1,
   1); (19, 0, 0); (20, 1, 1); (21, 1, 1); (22, 1, 1); (23, 1, 1); (24, 1, 1); (25, 1, 1); (26, 1, 1); (27, 2, 2);
   (28, 2, 3); (29, 2, 4); (30, 2, 2); (31, 3, 3); (32, 1, 1); (33, 1, 1); (34, 0, 0); (35, 0, 0); (36, 1, 30);
   (37, 1, 30); (38, 1, 1); (39, 2, 2); (40, 3, 3); (41, 3, 3); (42, 3, 3); (43, 3, 3); (44, 3, 3); (45, 3, 3);
   (46, 1, 30); (47, 3, 3); (48, 2, 2); (49, 1, 4); (50, 1, 4); (51, 1, 4); (52, 1, 4); (56, 3, 5); (57, 3, 5);
   (58, 3, 5); (59, 3, 5); (60, 3, 6); (61, 3, 3); (62, 1, 2); (63, 0, 0); (64, 2, 3); (65, 3, 3); (66, 3, 3); (67,
   1, 1); (68, 1, 1); (69, 1, 1); (70, 1, 2); (71, 1, 1); (72, 1, 1); (73, 1, 1); (74, 0, 0); (75, 1, 1); (76, 1,
   1); (77, 1, 1); (78, 3, 5); (82, 2, 3); (83, 1, 1); (86, 1, 1); (92, 4, 4); (97, 2, 2); (98, 1, 1); (99, 1, 1);
   (100, 2, 30); (101, 3, 4); (102, 3, 4); (105, 1, 1); (109, 1, 2); (111, 1, 1); (112, 1, 1); (113, 1, 1); (114,
   1, 1); (115, 1, 2); (116, 1, 2); (117, 2, 2); (118, 1, 1); (119, 4, 4); (120, 3, 4); (121, 1, 1); (124, 2, 3);
   (125, 1, 2); (126, 1, 1); (127, 1, 1); (128, 1, 1); (129, 1, 1); (130, 1, 1); (131, 1, 1); (140, 1, 1); (141, 1,
   1); (142, 3, 3); (143, 4, 4); (144, 4, 5); (148, 1, 2); (162, 1, 1); (163, 1, 1); (164, 1, 1); (165, 2, 2);
   (167, 4, 6); (168, 4, 6); (169, 0, 30); (183, 0, 30); (184, 1, 1); (189, 3, 3); (190, 1, 1); (193, 1, 30); (194,
   1, 30); (195, 3, 3); (196, 3, 3); (197, 1, 2); (198, 1, 1); (199, 3, 3); (204, 1, 2); (205, 2, 3); (206, 2, 3);
   (207, 4, 4); (208, 1, 2); (209, 1, 2); (210, 3, 3); (211, 1, 1); (212, 2, 2); (213, 2, 2); (214, 1, 1); (215, 1,
   1); (216, 2, 3); (219, 2, 5); (220, 2, 3); (221, 0, 0); (222, 5, 7); (227, 1, 30); (228, 1, 30); (229, 1, 1);
   (230, 1, 1); (231, 1, 1); (232, 1, 1); (233, 1, 1); (234, 1, 1); (235, 3, 3); (244, 1, 1); (247, 4, 5); (252, 2,
   2); (261, 1, 1); (269, 1, 30); (270, 3, 5); (271, 1, 1); (272, 3, 5); (273, 4, 4); (274, 2, 2); (275, 2, 2);
   (276, 2, 2); (277, 3, 3); (278, 3, 3); (279, 1, 1); (280, 3, 3); (281, 3, 3); (282, 3, 3); (283, 1, 1); (284, 1,
   1); (285, 2, 2); (286, 4, 4); (287, 3, 3); (288, 2, 2); (289, 4, 4); (290, 3, 3); (291, 3, 3); (292, 3, 3);
   (293, 4, 4); (294, 1, 1); (295, 3, 3); (296, 1, 1); (297, 3, 3); (298, 1, 1); (299, 2, 2); (300, 3, 3); (301, 3,
   3); (302, 4, 4); (303, 2, 2); (304, 2, 2); (305, 2, 2); (306, 2, 2); (307, 2, 2); (308, 2, 2); (309, 3, 3);
   (310, 2, 2); (311, 2, 2); (312, 2, 2); (313, 2, 2); (314, 2, 2); (315, 2, 2); (316, 4, 4); (317, 3, 4); (318, 1,
   30); (319, 1, 30); (320, 1, 30); (321, 0, 30); (322, 1, 30); (323, 1, 30); (324, 2, 3); (325, 2, 2); (326, 2,
   2); (327, 2, 2); (328, 2, 2); (329, 2, 3); (330, 1, 30); (331, 2, 2); (332, 2, 2); (336, 0, 30); (337, 2, 2);
   (342, 1, 1); (343, 1, 1); (344, 2, 30); (345, 2, 3); (346, 2, 2); (347, 1, 1); (350, 4, 4); (351, 3, 3); (352,
   1, 1); (353, 2, 2); (354, 1, 2); (358, 2, 2); (359, 1, 2); (360, 1, 1); (361, 1, 30); (362, 1, 30); (363, 1,
   30); (364, 1, 30); (365, 1, 30); (366, 1, 30); (367, 1, 30); (368, 1, 1); (369, 1, 1); (370, 1, 1); (371, 1, 1);
   (372, 1, 1); (373, 1, 1); (374, 1, 1); (375, 1, 1); (376, 1, 1); (377, 1, 1); (378, 1, 1); (379, 2, 5)].
(** func_defs.get(funcx, None), formula.py l.1048, 1075. *)
Definition func_args (funcx : Z) : option (Z * Z) :=
  match find (fun r => fst (fst r) =? funcx) func_defs with Some (_, lo, hi) => Some (lo, hi) | None => None end.

(** The keys of error_text_from_code, biffh.py l.92-100. *)
Definition error_codes : list Z := [0x00; 0x07; 0x0F; 0x17; 0x1D; 0x24; 0x2A].

(** ** What the names refer to *)

(** Of the Book in BIFF 5 and 7 (book.py l.583-614): how texts are read with its
    encoding, _externsheet_type_b57, _extnsht_name_from_num, and the names of
    _sheet_names, from which _sheet_num_from_name is (l.808). *)
Record oldlinks := mkoldlinks {
  ol_dec : str -> res str;
  ol_types : list Z;
  ol_names : list (Z * str);
  ol_tabs : list str
}.
(** Of the Book (book.py l.583-614): _all_sheets_map, _externsheet_info,
    _supbook_locals_inx, _supbook_addins_inx, the number of _sheet_names, and
    the above in BIFF 5 and 7. *)
Record links := mklinks {
  l_map : list Z;
  l_externs : list (Z * Z * Z);
  l_locals : option Z;
  l_addins : option Z;
  l_sheets : nat;
  l_old : option oldlinks
}.
(** szdict[bv], formula.py l.106-115. *)
Definition sizes_of (bk : links) : list Z := match l_old bk with None => sztab4 | Some _ => sztab3 end.

(** A Name (book.py l.982-1022): whether it is a macro or binary, the sheet it
    belongs to (excel_sheet_index in BIFF8, extn_sheet_num before), its formula and the length of the part that is run; once
    evaluated, its stack and any_err. *)
Record nobj := mknobj {
  n_skip : bool;
  n_sheet : Z;
  n_formula : str;
  n_len : Z;
  n_done : option (list operand * bool)
}.

(** _extnsht_name_from_num[i], book.py l.944, 1060. *)
Definition extern_name (o : oldlinks) (i : Z) : option str :=
  match find (fun e => fst e =? i) (ol_names o) with Some (_, s) => Some s | None => None end.
(** _sheet_num_from_name.get(name, -2), book.py l.808, 1061: the last sheet with
    the name. *)
Fixpoint sheet_num (tabs : list str) (i : Z) (name : str) (found : Z) : Z :=
  match tabs with
  | [] => found
  | t :: tabs' => sheet_num tabs' (i + 1) name (if str_eqb t name then i else found)
  end.
(** nobj.scope, book.py l.1045-1063; below BIFF8 it has been checked that there
    is an entry. *)
Definition scope (bk : links) (n : nobj) : Z :=
  let i := n_sheet n in
  if i =? 0 then -1
  else
    match l_old bk with
    | Some o => match extern_name o i with Some s => sheet_num (ol_tabs o) 0 s (-2) | None => -3 end
    | None =>
        if (1 <=? i) && (i <=? Z.of_nat (length (l_map bk))) then
          let j := nth (Z.to_nat (i - 1)) (l_map bk) 0 in if j =? -1 then -2 else j
        else -3
    end.
(** The first loop of names_epilogue, book.py l.1038-1063: whether it raises. *)
Fixpoint check_scopes (bk : links) (l : list nobj) : res unit :=
  match l_old bk, l with
  | None, _ | _, [] => Ok tt
  | Some o, n :: l' =>
      if n_sheet n =? 0 then check_scopes bk l'
      else match extern_name o (n_sheet n) with Some _ => check_scopes bk l' | None => Err KeyError end
  end.

(** get_externsheet_local_range, formula.py l.472-507: the first of the two
    sheets. *)
Definition opt_is (o : option Z) (z : Z) : bool := match o with Some x => x =? z | None => false end.
(** get_externsheet_local_range itself, formula.py l.472-507. *)
Definition local_range (bk : links) (refx : Z) : res Z :=
  match nth_error (l_externs bk) (Z.to_nat refx) with
  | None => Ok (-101)
  | Some (book, first, last) =>
      if opt_is (l_addins bk) book
      then if (first =? 0xFFFE) && (last =? 0xFFFE) then Ok (-5) else Err AssertionError
      else if negb (opt_is (l_locals bk) book) then Ok (-4)
      else if (first =? 0xFFFE) && (last =? 0xFFFE) then Ok (-1)
      else if (first =? 0xFFFF) && (last =? 0xFFFF) then Ok (-2)
      else if negb ((first <=? last) && (last <? Z.of_nat (length (l_map bk)))) then Ok (-102)
      else
        let a := nth (Z.to_nat first) (l_map bk) 0 in
        let b := nth (Z.to_nat last) (l_map bk) 0 in
        if (0 <=? a) && (a <=? b) then Ok a else Ok (-3)
  end.

(** get_externsheet_local_range_b57, formula.py l.509-530: the first of the two
    sheets. *)
Definition local_range_b57 (bk : links) (raw first last : Z) : Z :=
  if 0 <? raw then -4
  else if (first =? -1) && (last =? -1) then -2
  else if negb ((0 <=? first) && (first <=? last) && (last <? Z.of_nat (length (l_map bk)))) then -103
  else
    let a := nth (Z.to_nat first) (l_map bk) 0 in
    let b := nth (Z.to_nat last) (l_map bk) 0 in
    if (0 <=? a) && (a <=? b) then a else -3.
(** unpack of "h" at pos, within bytes that are there (formula.py l.1207,
    1238, 1273). *)
Definition short_at (data : str) (pos : Z) : Z := le_signed (pyslice data pos (pos + 2)).
(** The sheet of tRef3d and tArea3d, formula.py l.1203-1211, 1234-1242. *)
Definition ref_sheet (bk : links) (data : str) (pos : Z) : res Z :=
  match l_old bk with
  | None => do refx <- unpack_u 2 data (pos + 1); local_range bk refx
  | Some _ =>
      do _ <- unpack_u 14 data (pos + 1);
      Ok (local_range_b57 bk (short_at data (pos + 1)) (short_at data (pos + 11)) (short_at data (pos + 13)))
  end.
(** Where the address is in tRef3d and tArea3d (formula.py l.1203, 1207, 1234,
    1238). *)
Definition addr_pos (bk : links) (pos : Z) : Z := match l_old bk with None => pos + 3 | Some _ => pos + 15 end.

(** row_rel and col_rel of a cell address, adjust_cell_addr_biff8 and
    adjust_cell_addr_biff_le7, formula.py l.408-410, 427-428, of the column in
    BIFF8 and the row before; get_cell_addr and get_cell_range_addr, l.443-471. *)
Definition rel_flags (val : Z) : bool * bool := (Z.testbit val 15, Z.testbit val 14).
(** get_cell_addr, formula.py l.443-452. *)
Definition cell_addr (bk : links) (data : str) (pos : Z) : res (bool * bool) :=
  match l_old bk with
  | None =>
      do _ <- unpack_u 2 data pos;
      do col <- unpack_u 2 data (pos + 2);
      Ok (rel_flags col)
  | Some _ =>
      do row <- unpack_u 2 data pos;
      do _ <- unpack_u 1 data (pos + 2);
      Ok (rel_flags row)
  end.
(** get_cell_range_addr, formula.py l.454-470. *)
Definition range_addr (bk : links) (data : str) (pos : Z) : res ((bool * bool) * (bool * bool)) :=
  match l_old bk with
  | None =>
      do _ <- unpack_u 2 data pos;
      do _ <- unpack_u 2 data (pos + 2);
      do col1 <- unpack_u 2 data (pos + 4);
      do col2 <- unpack_u 2 data (pos + 6);
      Ok (rel_flags col1, rel_flags col2)
  | Some _ =>
      do row1 <- unpack_u 2 data pos;
      do row2 <- unpack_u 2 data (pos + 2);
      do _ <- unpack_u 1 data (pos + 4);
      do _ <- unpack_u 1 data (pos + 5);
      Ok (rel_flags row1, rel_flags row2)
  end.

(** ** Operators *)

(** do_binop, formula.py l.775-805, with binop_rules, l.721-738. The stack has
    its top first. *)
Definition binop_kind (op : Z) : okind := if op <=? 7 then oNUM else if op =? 8 then oSTRG else oBOOL.
(** argdict[kind](value) (formula.py l.721, 799-800). *)
Definition number_arg (k : okind) (v : oval) : res pynum :=
  match k, v with
  | oNUM, NumVal n => Ok n
  | oSTRG, TextVal s => do f <- float_of_text s; Ok (PFloat f)
  | _, _ => Err NotModelled
  end.
(** a < b for texts (formula.py l.705-710). *)
Fixpoint str_ltb (a b : str) : bool :=
  match a, b with
  | [], [] => false
  | [], _ :: _ => true
  | _ :: _, [] => false
  | x :: a', y :: b' => (x <? y)%N || ((x =? y)%N && str_ltb a' b')
  end.
(** The relations by opcode from <, = and >, formula.py l.697, 705-710. *)
Definition compare_by (op : Z) (lt eq : bool) (gt : bool) : bool :=
  if op =? 9 then lt else if op =? 10 then lt || eq else if op =? 11 then eq
  else if op =? 12 then gt || eq else if op =? 13 then gt else negb eq.
(** 1 if result else 0, formula.py l.802-803. *)
Definition truth (b : bool) : oval := NumVal (PInt (if b then 1 else 0)).
(** x / y of doubles, formula.py l.729. *)
Definition py_divide (x y : float) : res pynum := if float_truthy y then Ok (PFloat (fdiv x y)) else Err ZeroDivisionError.
(** x / y of ints, formula.py l.729: the double nearest to the quotient, if
    there is one. *)
Definition int_divide (x y : Z) : res pynum :=
  match y with
  | 0 => Err ZeroDivisionError
  | _ =>
      match x with
      | 0 => Ok (PFloat (S754_zero (y <? 0)))
      | _ =>
          match fdiv (S754_finite (x <? 0) (Z.to_pos (Z.abs x)) 0) (S754_finite (y <? 0) (Z.to_pos (Z.abs y)) 0) with
          | S754_infinity _ => Err OverflowError
          | q => Ok (PFloat q)
          end
      end
  end.
(** x + y, x - y, x * y, x / y for ints and floats, by opcode, formula.py
    l.726-730; powers are not modelled. *)
Definition arith (op : Z) (x y : pynum) : res pynum :=
  match x, y with
  | PInt a, PInt b =>
      if op =? 3 then Ok (PInt (a + b))
      else if op =? 4 then Ok (PInt (a - b))
      else if op =? 5 then Ok (PInt (a * b))
      else if op =? 6 then int_divide a b
      else Err NotModelled
  | _, _ =>
      do a <- pynum_float x;
      do b <- pynum_float y;
      if op =? 3 then Ok (PFloat (fadd a b))
      else if op =? 4 then Ok (PFloat (fsub a b))
      else if op =? 5 then Ok (PFloat (fmul a b))
      else if op =? 6 then py_divide a b
      else Err NotModelled
  end.
(** An int compared with a double, exactly, formula.py l.705-710. *)
Definition int_order (z : Z) (f : float) : option comparison :=
  match f with
  | S754_nan => None
  | S754_infinity s => Some (if s then Gt else Lt)
  | S754_zero _ => Some (z ?= 0)
  | S754_finite s m e =>
      let m := if s then Zneg m else Zpos m in
      Some (if 0 <=? e then z ?= m * 2 ^ e else z * 2 ^ (- e) ?= m)
  end.
(** Two numbers compared, formula.py l.705-710; None if one is a nan. *)
Definition number_order (x y : pynum) : option comparison :=
  match x, y with
  | PInt a, PInt b => Some (a ?= b)
  | PInt a, PFloat g => int_order a g
  | PFloat f, PInt b => option_map CompOpp (int_order b f)
  | PFloat f, PFloat g => SFcompare f g
  end.
(** x < y and so on (formula.py l.705-710). *)
Definition compare_numbers (op : Z) (x y : pynum) : bool :=
  match number_order x y with
  | Some Lt => compare_by op true false false
  | Some Eq => compare_by op false true false
  | Some Gt => compare_by op false false true
  | None => compare_by op false false false
  end.
(** func(aval, bval) with the conversions, formula.py l.799-803. *)
Definition binop_value (op : Z) (ka : okind) (a : oval) (kb : okind) (b : oval) : res oval :=
  if op <=? 7 then
    do y <- number_arg kb b;
    do x <- number_arg ka a;
    do z <- arith op x y;
    Ok (NumVal z)
  else if op =? 8 then
    match a, b with
    | TextVal s, TextVal t => Ok (TextVal (s ++ t))
    | _, _ => Err NotModelled
    end
  else
    match a, b with
    | NumVal x, NumVal y => Ok (truth (compare_numbers op x y))
    | TextVal s, TextVal t => Ok (truth (compare_by op (str_ltb s t) (str_eqb s t) (str_ltb t s)))
    | NumVal _, TextVal _ | TextVal _, NumVal _ =>
        if op =? 11 then Ok (truth false) else if op =? 14 then Ok (truth true) else Err TypeError
    | _, _ => Err NotModelled
    end.
(** The kinds in every argdict, formula.py l.721-724, 790-795. *)
Definition takes_arg (k : okind) : bool := kind_eqb k oNUM || kind_eqb k oSTRG.
(** value is not None, formula.py l.796. *)
Definition has_value (v : oval) : bool := match v with NoVal => false | _ => true end.
(** do_binop itself, formula.py l.775-805. *)
Definition do_binop (op : Z) (stack : list operand) : res (list operand) :=
  match stack with
  | y :: x :: rest =>
      do (kx, vx) <- the_operand x;
      do (ky, vy) <- the_operand y;
      if takes_arg ky && takes_arg kx && has_value vy && has_value vx
      then do v <- binop_value op kx vx ky vy; Ok (Opnd (binop_kind op) v :: rest)
      else Ok (Opnd (binop_kind op) NoVal :: rest)
  | _ => Err AssertionError
  end.

(** -x, x, x / 100.0, formula.py l.740-744. *)
Definition unary (op : Z) (x : pynum) : res pynum :=
  if op =? 0x13 then Ok (match x with PInt z => PInt (- z) | PFloat f => PFloat (SFopp f) end)
  else if op =? 0x12 then Ok x
  else do f <- pynum_float x; Ok (PFloat (fdiv f (float_of_Z 100))).
(** do_unaryop, formula.py l.807-821, with unop_rules, l.740-744. *)
Definition do_unaryop (op : Z) (stack : list operand) : res (list operand) :=
  match stack with
  | x :: rest =>
      do (k, v) <- the_operand x;
      do v <- match v with
              | NoVal => Ok NoVal
              | NumVal n => do n <- unary op n; Ok (NumVal n)
              | _ => if op =? 0x12 then Ok v else Err TypeError
              end;
      Ok (Opnd oNUM v :: rest)
  | [] => Err AssertionError
  end.

(** len(value) (formula.py l.887-888, 931-932); a value that is no list has no
    length. *)
Definition areas (v : oval) : res (list (list bool)) :=
  match v with RefsVal l => Ok l | _ => Err NotModelled end.
(** assert len(value) == 1, then value[0], formula.py l.887-891. *)
Definition one_area (v : oval) : res (list bool) :=
  do l <- areas v;
  match l with [x] => Ok x | _ => Err AssertionError end.
(** relfa == relfb, formula.py l.901. *)
Definition flags_eqb (a b : list bool) : bool := if list_eq_dec Bool.bool_dec a b then true else false.
(** relflags of Ref3D(coords), formula.py l.678-679. *)
Definition absolute : list bool := [false; false; false; false; false; false].

(** tIsect and tRange, formula.py l.857-906, 938-978: [bare] tells that of an
    error operand the latter makes an int. *)
Definition do_ranges (bare : bool) (stack : list operand) : res (list operand) :=
  match stack with
  | y :: x :: rest =>
      do (kx, vx) <- the_operand x;
      do (ky, vy) <- the_operand y;
      if kind_eqb ky oERR || kind_eqb kx oERR then Ok ((if bare then Bare else Opnd oERR NoVal) :: rest)
      else if negb bare && (kind_eqb ky oUNK || kind_eqb kx oUNK) then Ok (Opnd oREF NoVal :: rest)
      else if kind_eqb ky oREF && kind_eqb kx oREF then
        if has_value vx && has_value vy then
          do _ <- one_area vx;
          do _ <- one_area vy;
          Ok (Opnd oREF (RefsVal [absolute]) :: rest)
        else Ok (Opnd oREF NoVal :: rest)
      else if kind_eqb ky oREL && kind_eqb kx oREL then
        if has_value vx && has_value vy then
          do fx <- one_area vx;
          do fy <- one_area vy;
          Ok (Opnd oREL (if flags_eqb fx fy then RefsVal [fx] else NoVal) :: rest)
        else Ok (Opnd oREL NoVal :: rest)
      else Ok (Opnd oREF NoVal :: rest)
  | _ => Err AssertionError
  end.

(** tList, formula.py l.907-937. *)
Definition is_ref (k : okind) : bool := kind_eqb k oREF || kind_eqb k oREL.
(** tList itself, formula.py l.907-937. *)
Definition do_list (stack : list operand) : res (list operand) :=
  match stack with
  | y :: x :: rest =>
      do (kx, vx) <- the_operand x;
      do (ky, vy) <- the_operand y;
      if kind_eqb ky oERR || kind_eqb kx oERR then Ok (Opnd oERR NoVal :: rest)
      else if is_ref ky && is_ref kx then
        let k := if kind_eqb kx oREL || kind_eqb ky oREL then oREL else oREF in
        if has_value vx && has_value vy then
          do lx <- areas vx;
          if Nat.eqb (length lx) 0 then Err AssertionError
          else
            do fy <- one_area vy;
            Ok (Opnd k (RefsVal (lx ++ [fy])) :: rest)
        else Ok (Opnd k NoVal :: rest)
      else Ok (Opnd oREF NoVal :: rest)
  | _ => Err AssertionError
  end.

(** ** Functions *)

(** The texts of the arguments are joined (formula.py l.1060, 1088). *)
Fixpoint no_bare (l : list operand) : res unit :=
  match l with
  | [] => Ok tt
  | x :: l' => do _ <- the_operand x; no_bare l'
  end.

(** stack[-n:] and what del stack[-n:] leaves: for n = 0 everything and
    nothing (formula.py l.1088, 1121). *)
Definition last_args (n : Z) (stack : list operand) : list operand :=
  if n =? 0 then stack else firstn (Z.to_nat n) stack.
(** What del stack[-n:] leaves, formula.py l.1062, 1121. *)
Definition drop_args (n : Z) (stack : list operand) : list operand :=
  if n =? 0 then [] else skipn (Z.to_nat n) stack.

(** tFunc, formula.py l.1045-1066. *)
Definition do_func (funcx : Z) (stack : list operand) : res (list operand) :=
  match func_args funcx with
  | None => Ok (Opnd oUNK NoVal :: stack)
  | Some (nargs, _) =>
      if Z.of_nat (length stack) <? nargs then Err AssertionError
      else if nargs =? 0 then Ok (Opnd oUNK NoVal :: stack)
      else
        do _ <- no_bare (last_args nargs stack);
        Ok (Opnd oUNK NoVal :: drop_args nargs stack)
  end.

(** The operand IF or CHOOSE gives when it can be told which (formula.py
    l.1091-1120): stack[-n] is the n-th from the top. *)
Definition from_top (n : Z) (stack : list operand) : res (okind * oval) :=
  match nth_error stack (Z.to_nat (n - 1)) with Some x => the_operand x | None => Err IndexError end.
(** A missing argument counts as 0, formula.py l.1106-1109. *)
Definition chosen_of (x : okind * oval) : operand :=
  let (k, v) := x in if kind_eqb k oMSNG then Opnd oNUM (NumVal (PInt 0)) else Opnd k v.
(** x == z, x >= z, x < z for an int z, and whether x is true (formula.py
    l.1096). *)
Definition num_is (x : pynum) (z : Z) : bool := match x with PInt a => a =? z | PFloat f => feqb f (float_of_Z z) end.
(** 1 <= x, formula.py l.1115. *)
Definition num_from (x : pynum) (z : Z) : bool := match x with PInt a => z <=? a | PFloat f => fleb (float_of_Z z) f end.
(** x < nargs, formula.py l.1115. *)
Definition num_below (x : pynum) (z : Z) : bool := match x with PInt a => a <? z | PFloat f => fltb f (float_of_Z z) end.
(** not x, formula.py l.1100. *)
Definition num_truthy (x : pynum) : bool := match x with PInt a => negb (a =? 0) | PFloat f => float_truthy f end.
(** IF, formula.py l.1091-1111. *)
Definition if_result (nargs : Z) (stack : list operand) : res operand :=
  do (k, v) <- from_top nargs stack;
  match v with
  | NumVal x =>
      if (kind_eqb k oNUM || kind_eqb k oBOOL) && (num_is x 0 || num_is x 1) then
        if (nargs =? 2) && negb (num_truthy x) then Ok (Opnd oBOOL (NumVal (PInt 0)))
        else do i <- py_int x; do y <- from_top (nargs - 2 + i) stack; Ok (chosen_of y)
      else Ok (Opnd oUNK NoVal)
  | _ => Ok (Opnd oUNK NoVal)
  end.
(** CHOOSE, formula.py l.1112-1120. *)
Definition choose_result (nargs : Z) (stack : list operand) : res operand :=
  do (k, v) <- from_top nargs stack;
  if kind_eqb k oNUM then
    match v with
    | NumVal x =>
        if num_from x 1 && num_below x nargs
        then do i <- py_int x; do y <- from_top (nargs - i) stack; Ok (chosen_of y)
        else Ok (Opnd oUNK NoVal)
    | _ => Err TypeError
    end
  else Ok (Opnd oUNK NoVal).

(** tFuncVar, formula.py l.1067-1122. *)
Definition do_funcvar (nargs funcx : Z) (stack : list operand) : res (list operand) :=
  let nargs := nargs mod 128 in
  let funcx := funcx mod 32768 in
  match func_args funcx with
  | None => Ok (Opnd oUNK NoVal :: stack)
  | Some (lo, hi) =>
      if negb ((lo <=? nargs) && (nargs <=? hi)) then Err AssertionError
      else if Z.of_nat (length stack) <? nargs then Err AssertionError
      else
        do _ <- no_bare (last_args nargs stack);
        do x <- (if funcx =? 1 then if_result nargs stack
                 else if funcx =? 100 then choose_result nargs stack
                 else Ok (Opnd oUNK NoVal));
        Ok (x :: drop_args nargs stack)
  end.

(** ** Tokens *)

(** The operand a reference to another name gives, and whether it had errors
    (formula.py l.1123-1152, 1301-1331). [run] evaluates a name. *)
Definition name_operand (run : Z -> list nobj -> res (list nobj)) (bk : links) (namex : Z) (names : list nobj)
  : res (operand * bool * list nobj) :=
  match py_index names namex with
  | None => Err IndexError
  | Some t =>
      do names <- match n_done t with Some _ => Ok names | None => run namex names end;
      match py_index names namex with
      | None => Err IndexError
      | Some t =>
          match n_done t with
          | None => Err AttributeError
          | Some (stack, err) =>
              do (x, bad) <- (if n_skip t || err then Ok (Opnd oUNK NoVal, true)
                              else match stack with [x] => Ok (x, false) | _ => Err AssertionError end);
              do _ <- the_operand x;
              let s := scope bk t in
              let n := Z.of_nat (l_sheets bk) in
              if (s =? -1) || ((- n <=? s) && (s <? n)) then Ok (x, bad, names) else Err IndexError
          end
      end
  end.

(** tStr, formula.py l.988-995, with unpack_string_update_pos, biffh.py
    l.267-276. *)
Definition text_token (bk : links) (data : str) (pos : Z) : res (str * Z) :=
  match l_old bk with
  | None => unpack_unicode_update_pos data pos 1
  | Some o =>
      do n <- unpack_u 1 data pos;
      do s <- ol_dec o (pyslice data (pos + 1) (pos + 1 + n));
      Ok (s, pos + 1 + n)
  end.
(** Tokens without a class, formula.py l.849-1042: the size and the new
    stack. *)
Definition plain_token (bk : links) (data : str) (pos sz opcode : Z) (stack : list operand) : res (Z * list operand) :=
  let keep r := do s <- r; Ok (sz, s) in
  if opcode <=? 0x02 then Err FormulaError
  else if opcode <=? 0x0E then keep (do_binop opcode stack)
  else if opcode =? 0x0F then keep (do_ranges false stack)
  else if opcode =? 0x10 then keep (do_list stack)
  else if opcode =? 0x11 then keep (do_ranges true stack)
  else if opcode <=? 0x14 then keep (do_unaryop opcode stack)
  else if opcode =? 0x15 then Ok (sz, stack)
  else if opcode =? 0x16 then Ok (sz, Opnd oMSNG NoVal :: stack)
  else if opcode =? 0x17 then
    do (strg, newpos) <- text_token bk data (pos + 1);
    Ok (newpos - pos, Opnd oSTRG (TextVal strg) :: stack)
  else if opcode =? 0x18 then Err FormulaError
  else if opcode =? 0x19 then
    do subop <- unpack_u 1 data (pos + 1);
    do nc <- unpack_u 2 data (pos + 2);
    if subop =? 0x04 then Ok (nc * 2 + 6, stack)
    else if subop =? 0x10 then
      match stack with
      | [] => Err AssertionError
      | x :: rest => do _ <- the_operand x; Ok (4, Opnd oNUM NoVal :: rest)
      end
    else Ok (4, stack)
  else if opcode =? 0x1C then
    do v <- unpack_u 1 data (pos + 1);
    if existsb (Z.eqb v) error_codes then Ok (sz, Opnd oERR (NumVal (PInt v)) :: stack) else Err KeyError
  else if opcode =? 0x1D then
    do v <- unpack_u 1 data (pos + 1);
    if v <=? 1 then Ok (sz, Opnd oBOOL (NumVal (PInt v)) :: stack) else Err IndexError
  else if opcode =? 0x1E then
    do v <- unpack_u 2 data (pos + 1);
    Ok (sz, Opnd oNUM (NumVal (PFloat (float_of_Z v))) :: stack)
  else
    do f <- unpack_d (pyslice data (pos + 1) (pos + 9));
    Ok (sz, Opnd oNUM (NumVal (PFloat f)) :: stack).

(** tRef, tArea, tRef3d, tArea3d, formula.py l.1153-1181, 1201-1266: [value]
    tells that the class is 1 (reference). *)
Definition local_ref (value : bool) (flags : list bool) : operand :=
  if value then Opnd oREL (RefsVal [true :: true :: flags]) else Opnd oUNK NoVal.
(** tRef3d and tArea3d, formula.py l.1201-1266. *)
Definition sheet_ref (value : bool) (flags : list bool) : operand :=
  let v := if value then RefsVal [false :: false :: flags] else NoVal in
  if existsb (fun b => b) flags then Opnd oREL v else Opnd oREF v.
(** The flags of one cell, formula.py l.1153-1166. *)
Definition cell_flags (r : bool * bool) : list bool := [fst r; fst r; snd r; snd r].
(** The flags of an area, formula.py l.1167-1181. *)
Definition range_flags (r : (bool * bool) * (bool * bool)) : list bool :=
  let '((r1, c1), (r2, c2)) := r in [r1; r2; c1; c2].

(** tNameX, formula.py l.1267-1300: which name it is, from 0, and whether and
    where that is looked up: None if it is dodgy. *)
Definition name_place (bk : links) (data : str) (pos : Z) : res (Z * option (res Z)) :=
  match l_old bk with
  | None =>
      do refx <- unpack_u 2 data (pos + 1);
      do tgt <- unpack_u 2 data (pos + 3);
      Ok (tgt - 1, Some (local_range bk refx))
  | Some o =>
      do _ <- unpack_u 12 data (pos + 1);
      do tgt <- unpack_u 2 data (pos + 11);
      let refx := short_at data (pos + 1) in
      Ok (tgt - 1,
          if refx =? 0 then None
          else if 0 <? refx then Some (Ok (-4))
          else Some (match nth_error (ol_types o) (Z.to_nat (- refx - 1)) with
                     | Some ty => Ok (if ty =? 4 then -1 else -666)
                     | None => Err IndexError
                     end))
  end.

(** Tokens with a class, formula.py l.1043-1341: the new stack, whether there
    was an error, and the names. *)
Definition class_token (run : Z -> list nobj -> res (list nobj)) (bk : links) (self : Z) (data : str) (pos : Z)
    (opcode : Z) (value : bool) (stack : list operand) (names : list nobj)
  : res (list operand * bool * list nobj) :=
  let push x := Ok (x :: stack, false, names) in
  if opcode =? 0x00 then push (Opnd oUNK NoVal)
  else if opcode =? 0x01 then
    do funcx <- unpack_u 2 data (pos + 1);
    do stack <- do_func funcx stack; Ok (stack, false, names)
  else if opcode =? 0x02 then
    do nargs <- unpack_u 1 data (pos + 1);
    do funcx <- unpack_u 2 data (pos + 2);
    do stack <- do_funcvar nargs funcx stack; Ok (stack, false, names)
  else if opcode =? 0x03 then
    do x <- unpack_u 2 data (pos + 1);
    do (x, bad, names) <- name_operand run bk (x - 1) names;
    Ok (x :: stack, bad, names)
  else if opcode =? 0x04 then
    do r <- cell_addr bk data (pos + 1);
    push (local_ref value (cell_flags r))
  else if opcode =? 0x05 then
    do r <- range_addr bk data (pos + 1);
    push (local_ref value (range_flags r))
  else if opcode =? 0x06 then Err FormulaError
  else if opcode =? 0x09 then
    do _ <- unpack_u 2 data (pos + 1);
    Ok (stack, false, names)
  else if (opcode =? 0x0C) || (opcode =? 0x0D) then Err FormulaError
  else if opcode =? 0x1A then
    do r <- cell_addr bk data (addr_pos bk pos);
    do sh <- ref_sheet bk data pos;
    Ok (sheet_ref value (cell_flags r) :: stack, sh <? -1, names)
  else if opcode =? 0x1B then
    do r <- range_addr bk data (addr_pos bk pos);
    do sh <- ref_sheet bk data pos;
    Ok (sheet_ref value (range_flags r) :: stack, sh <? -1, names)
  else if opcode =? 0x19 then
    do (tgt, place) <- name_place bk data pos;
    if tgt =? self then Ok (Opnd oUNK NoVal :: stack, true, names)
    else
      match place with
      | None => push (Opnd oUNK NoVal)
      | Some place =>
          do sh <- place;
          if sh <? -1 then push (Opnd oUNK NoVal)
          else
            do (x, bad, names) <- name_operand run bk tgt names;
            Ok (x :: stack, bad, names)
      end
  else if existsb (Z.eqb opcode) [0x07; 0x08; 0x0A; 0x0B; 0x1C; 0x1D]
  then Ok (Opnd oERR NoVal :: stack, true, names)
  else Ok (stack, true, names).

(** One token, formula.py l.832-848, 1039-1042, 1339-1341: its size, the stack,
    whether there was an error, and the names. The names of the tokens, l.839,
    are as many as the sizes. *)
Definition one_token (run : Z -> list nobj -> res (list nobj)) (bk : links) (self : Z) (data : str) (pos : Z)
    (stack : list operand) (names : list nobj) : res (Z * list operand * bool * list nobj) :=
  do op <- byte_at data pos;
  let opcode := Z.of_N (N.land op 0x1f) in
  let optype := Z.of_N (N.land op 0x60) / 32 in
  let opx := if optype =? 0 then opcode else opcode + 32 in
  let sz := nth (Z.to_nat opx) (sizes_of bk) 0 in
  if sz =? -2 then Err FormulaError
  else if optype =? 0 then
    do (sz, stack) <- plain_token bk data pos sz opcode stack;
    if sz <=? 0 then Err FormulaError else Ok (sz, stack, false, names)
  else
    do (stack, bad, names) <- class_token run bk self data pos opcode (optype =? 1) stack names;
    if sz <=? 0 then Err FormulaError else Ok (sz, stack, bad, names).

(** The loop, formula.py l.831-1341: sizes are positive, so there are at most
    as many steps as bytes. *)
Fixpoint token_loop (fuel : nat) (run : Z -> list nobj -> res (list nobj)) (bk : links) (self : Z) (data : str) (len pos : Z)
    (stack : list operand) (err : bool) (names : list nobj) : res (list operand * bool * list nobj) :=
  if negb (pos <? len) then Ok (stack, err, names)
  else
    match fuel with
    | O => Err NonTermination
    | S f =>
        do (sz, stack, bad, names) <- one_token run bk self data pos stack names;
        token_loop f run bk self data len (pos + sz) stack (err || bad) names
    end.

(** l[i] = x for an index in range, from the end when negative (the attributes
    of a Name are set in place, formula.py l.1349-1357). *)
Fixpoint set_nth {A} (l : list A) (i : nat) (x : A) : list A :=
  match l, i with
  | [], _ => []
  | _ :: l', O => x :: l'
  | y :: l', S j => y :: set_nth l' j x
  end.
(** The outcome kept in the Name, formula.py l.1349-1357. *)
Definition set_done (names : list nobj) (namex : Z) (d : list operand * bool) : list nobj :=
  match py_index names namex with
  | Some n =>
      set_nth names (Z.to_nat (if namex <? 0 then namex + Z.of_nat (length names) else namex))
        (mknobj (n_skip n) (n_sheet n) (n_formula n) (n_len n) (Some d))
  | None => names
  end.

(** evaluate_name_formula, formula.py l.752-1357: [depth] is 11 - level, so
    that 0 stands for a level above STACK_PANIC_LEVEL. *)
Fixpoint eval_name (depth : nat) (bk : links) (namex : Z) (names : list nobj) : res (list nobj) :=
  match depth with
  | O => Err XLRDError
  | S d =>
      match py_index names namex with
      | None => Err IndexError
      | Some n =>
          let stack := if n_len n =? 0 then [Opnd oUNK NoVal] else [] in
          do (stack, err, names) <-
            token_loop (Z.to_nat (n_len n)) (eval_name d bk) bk namex (n_formula n) (n_len n) 0 stack false names;
          Ok (set_done names namex (stack, err))
      end
  end.

(** ** The names of a workbook *)

(** unpack_unicode_update_pos with known_len, biffh.py l.301-334. *)
Definition unpack_known (data : str) (pos nchars : Z) : res (str * Z) :=
  if (nchars =? 0) && Nat.eqb (length (pyslice data pos (Z.of_nat (length data)))) 0 then Ok ([], pos)
  else
    do options <- byte_at data pos;
    let pos := pos + 1 in
    do (rt, pos) <- (if opt_rich options then do rt <- unpack_u 2 data pos; Ok (rt, pos + 2) else Ok (0, pos));
    do (sz, pos) <- (if opt_phonetic options
                     then do sz <- unpack_i (pyslice data pos (pos + 4)); Ok (sz, pos + 4)
                     else Ok (0, pos));
    do (strg, pos) <- (if opt_wide options
                       then do s <- utf16_le (pyslice data pos (pos + 2 * nchars)); Ok (s, pos + 2 * nchars)
                       else Ok (pyslice data pos (pos + nchars), pos + nchars));
    Ok (strg, pos + (if opt_rich options then 4 * rt else 0) + (if opt_phonetic options then sz else 0)).

(** handle_name after derive_encoding, book.py l.978-1022, for BIFF8; the name
    itself is not kept. *)
Definition new_name (data : str) : res nobj :=
  if (length data <? 14)%nat then Err StructError
  else
    do options <- unpack_u 2 data 0;
    do name_len <- unpack_u 1 data 3;
    do fmla_len <- unpack_u 2 data 4;
    do sheet_index <- unpack_u 2 data 8;
    do (_, pos) <- unpack_known data 14 name_len;
    Ok (mknobj (Z.testbit options 3 || Z.testbit options 12) sheet_index
          (pyslice data pos (Z.of_nat (length data))) fmla_len None).

(** The same for BIFF 5 and 7, where the name is in the encoding of the
    workbook, which [dec] reads (book.py l.978-1022). *)
Definition old_new_name (dec : str -> res str) (data : str) : res nobj :=
  if (length data <? 14)%nat then Err StructError
  else
    do options <- unpack_u 2 data 0;
    do name_len <- unpack_u 1 data 3;
    do fmla_len <- unpack_u 2 data 4;
    do extsht_index <- unpack_u 2 data 6;
    do _ <- dec (pyslice data 14 (14 + name_len));
    Ok (mknobj (Z.testbit options 3 || Z.testbit options 12) extsht_index
          (pyslice data (14 + name_len) (Z.of_nat (length data))) fmla_len None).

(** names_epilogue, book.py l.1030-1070; the dicts made of the names,
    l.1083-1102, are not kept. *)
Fixpoint eval_names (l : list Z) (bk : links) (names : list nobj) : res (list nobj) :=
  match l with
  | [] => Ok names
  | i :: l' =>
      match py_index names i with
      | None => Err IndexError
      | Some n =>
          do names <- (if n_skip n then Ok names
                       else match n_done n with Some _ => Ok names | None => eval_name 11 bk i names end);
          eval_names l' bk names
      end
  end.
(** names_epilogue itself, book.py l.1030-1070. *)
Definition names_epilogue (bk : links) (names : list nobj) : res (list nobj) :=
  do _ <- check_scopes bk names;
  eval_names (map Z.of_nat (seq 0 (length names))) bk names.
