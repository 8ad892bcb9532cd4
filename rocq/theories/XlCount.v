(** * Counting the records of a file

    channelpack/xlrd/biffh.py l.354-519, 598-620; channelpack/xlrd/__init__.py
    count_records. *)

From Coq Require Import ZArith.
From Verif Require Import PyBase PyText PyFloat NumPy Dbf CompDoc Biff.
Open Scope Z_scope.

(** biff_rec_name_dict, biffh.py l.354-519. *)
Definition biff_rec_name_dict : list (Z * str) := [
  (0, lit "DIMENSIONS_B2"); (1, lit "BLANK_B2"); (2, lit "INTEGER_B2_ONLY"); (3, lit "NUMBER_B2");
   (4, lit "LABEL_B2"); (5, lit "BOOLERR_B2"); (6, lit "FORMULA"); (7, lit "STRING_B2"); (8, lit "ROW_B2");
   (9, lit "BOF_B2"); (10, lit "EOF"); (11, lit "INDEX_B2_ONLY"); (12, lit "CALCCOUNT");
   (13, lit "CALCMODE"); (14, lit "PRECISION"); (15, lit "REFMODE"); (16, lit "DELTA");
   (17, lit "ITERATION"); (18, lit "PROTECT"); (19, lit "PASSWORD"); (20, lit "HEADER"); (21, lit "FOOTER");
   (22, lit "EXTERNCOUNT"); (23, lit "EXTERNSHEET"); (24, lit "NAME_B2,5+"); (25, lit "WINDOWPROTECT");
   (26, lit "VERTICALPAGEBREAKS"); (27, lit "HORIZONTALPAGEBREAKS"); (28, lit "NOTE"); (29, lit "SELECTION");
   (30, lit "FORMAT_B2-3"); (31, lit "BUILTINFMTCOUNT_B2"); (32, lit "COLUMNDEFAULT_B2_ONLY");
   (33, lit "ARRAY_B2_ONLY"); (34, lit "DATEMODE"); (35, lit "EXTERNNAME"); (36, lit "COLWIDTH_B2_ONLY");
   (37, lit "DEFAULTROWHEIGHT_B2_ONLY"); (38, lit "LEFTMARGIN"); (39, lit "RIGHTMARGIN");
   (40, lit "TOPMARGIN"); (41, lit "BOTTOMMARGIN"); (42, lit "PRINTHEADERS"); (43, lit "PRINTGRIDLINES");
   (47, lit "FILEPASS"); (49, lit "FONT"); (50, lit "FONT2_B2_ONLY"); (54, lit "TABLEOP_B2");
   (55, lit "TABLEOP2_B2"); (60, lit "CONTINUE"); (61, lit "WINDOW1"); (62, lit "WINDOW2_B2");
   (64, lit "BACKUP"); (65, lit "PANE"); (66, lit "CODEPAGE"); (67, lit "XF_B2"); (68, lit "IXFE_B2_ONLY");
   (69, lit "EFONT_B2_ONLY"); (77, lit "PLS"); (81, lit "DCONREF"); (85, lit "DEFCOLWIDTH");
   (86, lit "BUILTINFMTCOUNT_B3-4"); (89, lit "XCT"); (90, lit "CRN"); (91, lit "FILESHARING");
   (92, lit "WRITEACCESS"); (93, lit "OBJECT"); (94, lit "UNCALCED"); (95, lit "SAVERECALC");
   (99, lit "OBJECTPROTECT"); (125, lit "COLINFO"); (126, lit "RK2_mythical_?"); (128, lit "GUTS");
   (129, lit "WSBOOL"); (130, lit "GRIDSET"); (131, lit "HCENTER"); (132, lit "VCENTER");
   (133, lit "BOUNDSHEET"); (134, lit "WRITEPROT"); (140, lit "COUNTRY"); (141, lit "HIDEOBJ");
   (142, lit "SHEETSOFFSET"); (143, lit "SHEETHDR"); (144, lit "SORT"); (146, lit "PALETTE");
   (153, lit "STANDARDWIDTH"); (155, lit "FILTERMODE"); (156, lit "FNGROUPCOUNT");
   (157, lit "AUTOFILTERINFO"); (158, lit "AUTOFILTER"); (160, lit "SCL"); (161, lit "SETUP");
   (171, lit "GCW"); (189, lit "MULRK"); (190, lit "MULBLANK"); (193, lit "MMS"); (214, lit "RSTRING");
   (215, lit "DBCELL"); (218, lit "BOOKBOOL"); (221, lit "SCENPROTECT"); (224, lit "XF");
   (225, lit "INTERFACEHDR"); (226, lit "INTERFACEEND"); (229, lit "MERGEDCELLS"); (233, lit "BITMAP");
   (235, lit "MSO_DRAWING_GROUP"); (236, lit "MSO_DRAWING"); (237, lit "MSO_DRAWING_SELECTION");
   (239, lit "PHONETIC"); (252, lit "SST"); (253, lit "LABELSST"); (255, lit "EXTSST"); (317, lit "TABID");
   (351, lit "LABELRANGES"); (352, lit "USESELFS"); (353, lit "DSF"); (430, lit "SUPBOOK");
   (431, lit "PROTECTIONREV4"); (432, lit "CONDFMT"); (433, lit "CF"); (434, lit "DVAL"); (438, lit "TXO");
   (439, lit "REFRESHALL"); (440, lit "HLINK"); (444, lit "PASSWORDREV4"); (446, lit "DV");
   (448, lit "XL9FILE"); (449, lit "RECALCID"); (512, lit "DIMENSIONS"); (513, lit "BLANK");
   (515, lit "NUMBER"); (516, lit "LABEL"); (517, lit "BOOLERR"); (518, lit "FORMULA_B3");
   (519, lit "STRING"); (520, lit "ROW"); (521, lit "BOF"); (523, lit "INDEX_B3+"); (536, lit "NAME");
   (545, lit "ARRAY"); (547, lit "EXTERNNAME_B3-4"); (549, lit "DEFAULTROWHEIGHT"); (561, lit "FONT_B3B4");
   (566, lit "TABLEOP"); (574, lit "WINDOW2"); (579, lit "XF_B3"); (638, lit "RK"); (659, lit "STYLE");
   (1030, lit "FORMULA_B4"); (1033, lit "BOF"); (1054, lit "FORMAT"); (1091, lit "XF_B4");
   (1212, lit "SHRFMLA"); (2048, lit "QUICKTIP"); (2057, lit "BOF"); (2146, lit "SHEETLAYOUT");
   (2151, lit "SHEETPROTECTION"); (2152, lit "RANGEPROTECTION")
].

(** biff_rec_name_dict.get(rc, None), biffh.py l.608. *)
Fixpoint get_name (rc : Z) (l : list (Z * str)) : option str :=
  match l with
  | [] => None
  | (c, name) :: l' => if c =? rc then Some name else get_name rc l'
  end.

(** A digit of %X, biffh.py l.610. *)
Definition hex_digit (z : Z) : N := Z.to_N (if z <? 10 then 48 + z else 55 + z).

(** The name, biffh.py l.605-610; rc has two bytes, so that %04X gives four digits. *)
Definition recname (rc len : Z) : str :=
  if (rc =? 0) && (len =? 0) then lit "<Dummy (zero)>"
  else match get_name rc biff_rec_name_dict with
       | Some name => name
       | None => lit "Unknown_0x" ++ [hex_digit (rc / 4096); hex_digit (rc / 256 mod 16); hex_digit (rc / 16 mod 16);
                                      hex_digit (rc mod 16)]
       end.

(** tally[recname] += 1, or = 1, biffh.py l.611-614. *)
Fixpoint bump (name : str) (tally : list (str * Z)) : list (str * Z) :=
  match tally with
  | [] => [(name, 1)]
  | (n, k) :: tally' => if str_eqb n name then (n, k + 1) :: tally' else (n, k) :: bump name tally'
  end.

(** The loop, biffh.py l.602-615, on fuel. *)
Fixpoint count_loop (fuel : nat) (mem : str) (pos stream_end : Z) (tally : list (str * Z)) : res (list (str * Z)) :=
  match fuel with
  | O => Err NonTermination
  | S fuel' =>
      if stream_end - pos <? 4 then Ok tally
      else
        match pyslice mem pos (pos + 4) with
        | [a; b; c; d] =>
            let rc := le_value [a; b] in
            let len := le_value [c; d] in
            if (rc =? 0) && (len =? 0) &&
               str_eqb (pyslice mem pos (Z.of_nat (length mem))) (repeat 0%N (Z.to_nat (stream_end - pos)))
            then Ok tally
            else count_loop fuel' mem (pos + len + 4) stream_end (bump (recname rc len) tally)
        | _ => Err StructError
        end
  end.

(** a <= b for texts, biffh.py l.616; the names in a tally differ, so that
    counts are not compared. *)
Fixpoint text_leb (a b : str) : bool :=
  match a, b with
  | [], _ => true
  | _ :: _, [] => false
  | x :: a', y :: b' => if N.ltb x y then true else if N.eqb x y then text_leb a' b' else false
  end.

(** sorted(tally.items()), biffh.py l.616: by insertion. *)
Fixpoint insert_item (x : str * Z) (l : list (str * Z)) : list (str * Z) :=
  match l with
  | [] => [x]
  | y :: l' => if text_leb (fst x) (fst y) then x :: l else y :: insert_item x l'
  end.
(** biffh.py l.616. *)
Definition sort_items (l : list (str * Z)) : list (str * Z) := fold_right insert_item [] l.

(** "%8d %s" and the end of the line, biffh.py l.618. *)
Definition count_line (x : str * Z) : str :=
  let d := str_of_Z (snd x) in
  repeat 32%N (8 - length d)%nat ++ d ++ lit " " ++ fst x ++ [10%N].

(** biff_count_records, biffh.py l.598-618: the text printed. *)
Definition biff_count_records (mem : str) (stream_offset stream_len : Z) : res str :=
  do tally <- count_loop (S (Z.to_nat stream_len)) mem stream_offset (stream_offset + stream_len) [];
  Ok (flat_map count_line (sort_items tally)).

(** count_records, xlrd/__init__.py l.177-188, and biff2_8_load, xlrd/book.py
    l.616-676 (as [Biff.load], with stream_len); the file is its content;
    messages about the compound document are left out. *)
Definition count_records (file : str) : res str :=
  match file with
  | [] => Err XLRDError
  | _ =>
      if negb (str_eqb (bytes_at 0 8 file) SIGNATURE) then biff_count_records file 0 (Z.of_nat (length file))
      else
        do cd <- init file false;
        let '(cd, r) := locate_named_stream [lit "Workbook"] cd in
        do found <- r;
        match found with
        | Some ((_ :: _) as mem, base, len) => biff_count_records mem base len
        | _ =>
            let '(cd, r) := locate_named_stream [lit "Book"] cd in
            do found <- r;
            match found with
            | Some ((_ :: _) as mem, base, len) => biff_count_records mem base len
            | _ => Err XLRDError
            end
        end
  end.
