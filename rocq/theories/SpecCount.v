(** * Specification of the count of records *)

From Coq Require Import ZArith Sorting.Sorted.
From Verif Require Import PyBase SpecRepr.
Open Scope Z_scope.

(** The names of the records by their codes. *)
Definition code_names : list (Z * str) := [
  (0, lit "DIMENSIONS_B2"); (1, lit "BLANK_B2"); (2, lit "INTEGER_B2_ONLY"); (3, lit "NUMBER_B2");
   (4, lit "LABEL_B2"); (5, lit "BOOLERR_B2"); (6, lit "FORMULA"); (7, lit "STRING_B2"); (8, lit "ROW_B2");
   (9, lit "BOF_B2"); (10, lit "EOF"); (11, lit "INDEX_B2_ONLY"); (12, lit "CALCCOUNT");
   (13, lit "CALCMODE"); (14, lit "PRECISION"); (15, lit "REFMODE"); (16, lit "DELTA");
   (17, lit "ITERATION"); (18, lit "PROTECT"); (19, lit "PASSWORD"); (20, lit "HEADER"); (21, lit "FOOTER");
   (22, lit "EXTERNCOUNT"); (23, lit "EXTERNSHEET"); (24, lit "NAME_B2,5+"); (25, lit "WINDOWPROTECT");
   (26, lit "VERTICALPAGEBREAKS"); (27, lit "HORIZONTALPAGEBREAKS"); (28, lit "NOTE"); (29, lit "SELECTION");
   (30, lit "FORMAT_B2-3"); (31, lit "BUILTINFMTCOUNT_B2"); (32, lit "COLUMNDEFAULT_B2_ONLY");
   (33, lit "ARRAY_B2_ONLY"); (34, lit "DATEMODE"); (35, lit "EXTERNNAME"); (36, lit "COLWIDTH_B2_ONLY");
   (37, lit "DEFAULTROWHEIGHT_B2_ONLY"); (38, lit "LEFTMARGIN"); (39, lit "RIGHTMARGIN");
   (40, lit "TOPMARGIN"); (41, lit "BOTTOMMARGIN"); (42, lit "PRINTHEADERS"); (43, lit "PRINTGRIDLINES");
   (47, lit "FILEPASS"); (49, lit "FONT"); (50, lit "FONT2_B2_ONLY"); (54, lit "TABLEOP_B2");
   (55, lit "TABLEOP2_B2"); (60, lit "CONTINUE"); (61, lit "WINDOW1"); (62, lit "WINDOW2_B2");
   (64, lit "BACKUP"); (65, lit "PANE"); (66, lit "CODEPAGE"); (67, lit "XF_B2"); (68, lit "IXFE_B2_ONLY");
   (69, lit "EFONT_B2_ONLY"); (77, lit "PLS"); (81, lit "DCONREF"); (85, lit "DEFCOLWIDTH");
   (86, lit "BUILTINFMTCOUNT_B3-4"); (89, lit "XCT"); (90, lit "CRN"); (91, lit "FILESHARING");
   (92, lit "WRITEACCESS"); (93, lit "OBJECT"); (94, lit "UNCALCED"); (95, lit "SAVERECALC");
   (99, lit "OBJECTPROTECT"); (125, lit "COLINFO"); (126, lit "RK2_mythical_?"); (128, lit "GUTS");
   (129, lit "WSBOOL"); (130, lit "GRIDSET"); (131, lit "HCENTER"); (132, lit "VCENTER");
   (133, lit "BOUNDSHEET"); (134, lit "WRITEPROT"); (140, lit "COUNTRY"); (141, lit "HIDEOBJ");
   (142, lit "SHEETSOFFSET"); (143, lit "SHEETHDR"); (144, lit "SORT"); (146, lit "PALETTE");
   (153, lit "STANDARDWIDTH"); (155, lit "FILTERMODE"); (156, lit "FNGROUPCOUNT");
   (157, lit "AUTOFILTERINFO"); (158, lit "AUTOFILTER"); (160, lit "SCL"); (161, lit "SETUP");
   (171, lit "GCW"); (189, lit "MULRK"); (190, lit "MULBLANK"); (193, lit "MMS"); (214, lit "RSTRING");
   (215, lit "DBCELL"); (218, lit "BOOKBOOL"); (221, lit "SCENPROTECT"); (224, lit "XF");
   (225, lit "INTERFACEHDR"); (226, lit "INTERFACEEND"); (229, lit "MERGEDCELLS"); (233, lit "BITMAP");
   (235, lit "MSO_DRAWING_GROUP"); (236, lit "MSO_DRAWING"); (237, lit "MSO_DRAWING_SELECTION");
   (239, lit "PHONETIC"); (252, lit "SST"); (253, lit "LABELSST"); (255, lit "EXTSST"); (317, lit "TABID");
   (351, lit "LABELRANGES"); (352, lit "USESELFS"); (353, lit "DSF"); (430, lit "SUPBOOK");
   (431, lit "PROTECTIONREV4"); (432, lit "CONDFMT"); (433, lit "CF"); (434, lit "DVAL"); (438, lit "TXO");
   (439, lit "REFRESHALL"); (440, lit "HLINK"); (444, lit "PASSWORDREV4"); (446, lit "DV");
   (448, lit "XL9FILE"); (449, lit "RECALCID"); (512, lit "DIMENSIONS"); (513, lit "BLANK");
   (515, lit "NUMBER"); (516, lit "LABEL"); (517, lit "BOOLERR"); (518, lit "FORMULA_B3");
   (519, lit "STRING"); (520, lit "ROW"); (521, lit "BOF"); (523, lit "INDEX_B3+"); (536, lit "NAME");
   (545, lit "ARRAY"); (547, lit "EXTERNNAME_B3-4"); (549, lit "DEFAULTROWHEIGHT"); (561, lit "FONT_B3B4");
   (566, lit "TABLEOP"); (574, lit "WINDOW2"); (579, lit "XF_B3"); (638, lit "RK"); (659, lit "STYLE");
   (1030, lit "FORMULA_B4"); (1033, lit "BOF"); (1054, lit "FORMAT"); (1091, lit "XF_B4");
   (1212, lit "SHRFMLA"); (2048, lit "QUICKTIP"); (2057, lit "BOF"); (2146, lit "SHEETLAYOUT");
   (2151, lit "SHEETPROTECTION"); (2152, lit "RANGEPROTECTION")
].

(** The records in the bytes of a stream, after which the memory has [rest]: code and length. Two
    bytes each in the order least significant first, then so many bytes. Up to 3 bytes at the end
    are none, nor are zeros up to the end of the memory; the last record may be cut short. *)
Inductive stream_holds (rest : str) : str -> list (Z * Z) -> Prop :=
| sh_end : forall s, (length s < 4)%nat -> stream_holds rest s []
| sh_zeros : forall s, (4 <= length s)%nat -> Forall (fun x => x = 0%N) s -> rest = [] -> stream_holds rest s []
| sh_record : forall a b c d data s l,
    Z.of_nat (length data) = Z.of_N c + 256 * Z.of_N d ->
    ~ (Forall (fun x => x = 0%N) (a :: b :: c :: d :: data ++ s) /\ rest = []) ->
    stream_holds rest s l ->
    stream_holds rest (a :: b :: c :: d :: data ++ s) ((Z.of_N a + 256 * Z.of_N b, Z.of_N c + 256 * Z.of_N d) :: l)
| sh_cut : forall a b c d data,
    Z.of_nat (length data) < Z.of_N c + 256 * Z.of_N d ->
    stream_holds rest (a :: b :: c :: d :: data) [(Z.of_N a + 256 * Z.of_N b, Z.of_N c + 256 * Z.of_N d)].

(** A hexadecimal digit, with capitals. *)
Definition hexadecimal (c : N) (v : Z) : Prop :=
  (48 <= c <= 57)%N /\ v = Z.of_N c - 48 \/ (65 <= c <= 70)%N /\ v = Z.of_N c - 55.

(** The name a record is counted under. *)
Definition named (r : Z * Z) (name : str) : Prop :=
  r = (0, 0) /\ name = lit "<Dummy (zero)>" \/
  r <> (0, 0) /\ (In (fst r, name) code_names \/
    (forall n, ~ In (fst r, n) code_names) /\
    exists c1 c2 c3 c4 v1 v2 v3 v4, hexadecimal c1 v1 /\ hexadecimal c2 v2 /\ hexadecimal c3 v3 /\ hexadecimal c4 v4 /\
      fst r = 4096 * v1 + 256 * v2 + 16 * v3 + v4 /\ name = lit "Unknown_0x" ++ [c1; c2; c3; c4]).

(** The order of texts. *)
Inductive before : str -> str -> Prop :=
| before_nil : forall y b, before [] (y :: b)
| before_less : forall x y a b, (x < y)%N -> before (x :: a) (y :: b)
| before_same : forall x a b, before a b -> before (x :: a) (x :: b).

(** How often each name occurs, in the order of the names. *)
Definition summary (names : list str) (out : list (str * Z)) : Prop :=
  StronglySorted before (map fst out) /\
  forall name k, In (name, k) out <-> 0 < k /\ k = Z.of_nat (count_occ (list_eq_dec N.eq_dec) names name).

(** A line for each: the number, with blanks (32) before it up to 8 places, a blank and the name. *)
Inductive printed : list (str * Z) -> str -> Prop :=
| printed_nil : printed [] []
| printed_cons : forall name k d out t, decimal k d -> printed out t ->
    printed ((name, k) :: out) (repeat 32%N (8 - length d) ++ d ++ 32%N :: name ++ 10%N :: t).

(** A record as written. *)
Definition written (r : Z * str) (s : str) : Prop :=
  exists a b c d, fst r = Z.of_N a + 256 * Z.of_N b /\ Z.of_nat (length (snd r)) = Z.of_N c + 256 * Z.of_N d /\
    s = a :: b :: c :: d :: snd r.
