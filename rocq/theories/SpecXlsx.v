(** * What an xlsx archive holds

    The parts of an archive are XML documents; what they say is given here as
    relations, without the helpers of Xlsx.v (only the types of elements and
    archives are used). *)

From Coq Require Import ZArith.
From Verif Require Import PyBase PyFloat NumPy SpecPack SpecDbf SpecNumber ReadXl SpecXl XlSheet SpecXlSheet Xlsx.
From Verif Require SpecBiff.
Open Scope Z_scope.

(** ** Elements *)

Definition main_ns : str := lit "{http://schemas.openxmlformats.org/spreadsheetml/2006/main}".
Definition office_ns : str := lit "{http://schemas.openxmlformats.org/officeDocument/2006/relationships}".
Definition package_ns : str := lit "{http://schemas.openxmlformats.org/package/2006/relationships}".
Definition space_name : str := lit "{http://www.w3.org/XML/1998/namespace}space".

(** An element with this name in the main namespace; in the workbook and the
    styles the namespace may be missing. *)
Definition named (n : str) (e : elem) : Prop := e_tag e = main_ns ++ n.
Definition called (n : str) (e : elem) : Prop := e_tag e = n \/ named n e.

(** The value of an attribute, and an attribute that is not there. *)
Definition says (e : elem) (n v : str) : Prop :=
  exists a b, e_attrs e = a ++ (n, v) :: b /\ ~ In n (map fst a).
Definition silent (e : elem) (n : str) : Prop := ~ In n (map fst (e_attrs e)).

(** Descendants. *)
Inductive within : elem -> elem -> Prop :=
| wi_child : forall c e, In c (e_children e) -> within c e
| wi_deeper : forall d c e, In c (e_children e) -> within d c -> within d e.

(** All elements of a tree in the order in which they begin. *)
Inductive listed : elem -> list elem -> Prop :=
| ls_elem : forall e ls, Forall2 listed (e_children e) ls -> listed e (e :: concat ls).

(** The elements with a mark, in the order of the document; none is inside
    another. *)
Inductive marked (m : elem -> Prop) : elem -> list elem -> Prop :=
| mk_here : forall e, m e -> (forall d, within d e -> ~ m d) -> marked m e [e]
| mk_inside : forall e ls, ~ m e -> Forall2 (marked m) (e_children e) ls -> marked m e (concat ls).

(** ** Texts *)

Inductive hex : N -> N -> Prop :=
| hx_digit : forall c, (48 <= c <= 57)%N -> hex c (c - 48)
| hx_upper : forall c, (65 <= c <= 70)%N -> hex c (c - 55)
| hx_lower : forall c, (97 <= c <= 102)%N -> hex c (c - 87).

(** _xHHHH_ stands for the character with that number. *)
Inductive code_text : str -> N -> Prop :=
| ct_code : forall a b c d va vb vc vd, hex a va -> hex b vb -> hex c vc -> hex d vd ->
    code_text [95; 120; a; b; c; d; 95]%N (4096 * va + 256 * vb + 16 * vc + vd).
Inductive escaped : str -> str -> Prop :=
| esc_nil : escaped [] []
| esc_code : forall k n s t, code_text k n -> escaped s t -> escaped (k ++ s) (n :: t)
| esc_char : forall c s t, (forall k n u, code_text k n -> c :: s <> k ++ u) -> escaped s t -> escaped (c :: s) (c :: t).

(** White space of XML, which counts only where xml:space says so. *)
Definition xml_space (c : N) : Prop := c = 9%N \/ c = 10%N \/ c = 13%N \/ c = 32%N.
Inductive trimmed : str -> str -> Prop :=
| tr_white : forall w, Forall xml_space w -> trimmed w []
| tr_one : forall l c r, Forall xml_space l -> Forall xml_space r -> ~ xml_space c -> trimmed (l ++ c :: r) [c]
| tr_more : forall l c t d r, Forall xml_space l -> Forall xml_space r -> ~ xml_space c -> ~ xml_space d ->
    trimmed (l ++ (c :: t ++ [d]) ++ r) (c :: t ++ [d]).

Inductive text_of : elem -> str -> Prop :=
| tx_none : forall e, e_text e = None -> text_of e []
| tx_preserved : forall e t s, e_text e = Some t -> says e space_name (lit "preserve") -> escaped t s -> text_of e s
| tx_trimmed : forall e t u s, e_text e = Some t -> ~ says e space_name (lit "preserve") -> trimmed t u -> escaped u s ->
    text_of e s.

(** A text with its runs: phonetic and other elements do not belong to it. *)
Inductive t_piece : elem -> str -> Prop :=
| tp_text : forall e s, named (lit "t") e -> text_of e s -> t_piece e s
| tp_other : forall e, ~ named (lit "t") e -> t_piece e [].
Inductive si_piece : elem -> str -> Prop :=
| sp_text : forall e s, named (lit "t") e -> text_of e s -> si_piece e s
| sp_run : forall e l, named (lit "r") e -> Forall2 t_piece (e_children e) l -> si_piece e (concat l)
| sp_other : forall e, ~ named (lit "t") e -> ~ named (lit "r") e -> si_piece e [].
Definition string_item (e : elem) (s : str) : Prop := exists l, Forall2 si_piece (e_children e) l /\ s = concat l.

(** ** Attributes *)

Definition digits (d : str) : Prop := d <> [] /\ all_digits d.

Inductive truth : str -> Z -> Prop :=
| tr_no : forall s, In s [lit "0"; lit "false"; lit "off"] -> truth s 0
| tr_yes : forall s, In s [lit "1"; lit "true"; lit "on"] -> truth s 1.
Inductive flag (e : elem) (n : str) : Z -> Prop :=
| fl_silent : silent e n -> flag e n 0
| fl_empty : says e n [] -> flag e n 0
| fl_says : forall s b, says e n s -> truth s b -> flag e n b.
Definition natural_attr (e : elem) (n : str) : Prop := silent e n \/ says e n [] \/ exists d, says e n d /\ digits d.

(** The digits of a row in a cell name begin with one other than 0. *)
Definition row_digits (d : str) : Prop := all_digits d /\ exists x d', d = x :: d' /\ x <> 48%N.

(** A cell name such as B5. *)
Inductive address : str -> Z -> Z -> Prop :=
| ad_name : forall l d, column_text l -> row_digits d -> column_no l < 2 ^ 14 -> address (l ++ d) (dec_value d - 1) (column_no l).

(** ** Cells *)

(** The row of a row element, given that of the one before, and the text of
    the number if there is one. *)
Inductive row_place (prev : Z) (e : elem) : option str -> Z -> Prop :=
| rp_number : forall d, says e (lit "r") d -> digits d -> row_place prev e (Some d) (dec_value d - 1)
| rp_next : silent e (lit "r") -> row_place prev e None (prev + 1).

(** Column letters, with or without the sign of absolute references. *)
Definition dollar_column (s l : str) : Prop := column_text l /\ filter (fun c => negb (c =? 36)%N) s = l.

(** The column of a cell, given that of the one before. The row in its name is
    the row of the row element, written in the same way if that is numbered. *)
Inductive cell_place (number : option str) (r prev : Z) (e : elem) : Z -> Prop :=
| cp_next : silent e (lit "r") -> cell_place number r prev e (prev + 1)
| cp_name : forall s l d, says e (lit "r") (s ++ d) -> dollar_column s l -> row_digits d -> dec_value d = r + 1 ->
    (forall n, number = Some n -> d = n) -> cell_place number r prev e (column_no l).

(** The format of a cell. *)
Inductive cell_xf (e : elem) : Z -> Prop :=
| cx_none : silent e (lit "s") -> cell_xf e 0
| cx_says : forall d, says e (lit "s") d -> digits d -> cell_xf e (dec_value d).

(** The value element of a cell with formulas around it, or none. *)
Definition formulas (l : list elem) : Prop := Forall (named (lit "f")) l.
Inductive holder (n : str) (e : elem) : elem -> Prop :=
| ho_one : forall a v b, e_children e = a ++ v :: b -> formulas a -> formulas b -> named n v -> holder n e v.
Inductive value_text (e : elem) : option str -> Prop :=
| vt_none : formulas (e_children e) -> value_text e None
| vt_some : forall v, holder (lit "v") e v -> value_text e (e_text v).

Inductive error_text : str -> Z -> Prop :=
| er_null : error_text (lit "#NULL!") 0
| er_div0 : error_text (lit "#DIV/0!") 7
| er_value : error_text (lit "#VALUE!") 15
| er_ref : error_text (lit "#REF!") 23
| er_name : error_text (lit "#NAME?") 29
| er_num : error_text (lit "#NUM!") 36
| er_na : error_text (lit "#N/A") 42.

(** The type of a cell. *)
Definition cell_kind (e : elem) (t : str) : Prop := says e (lit "t") t \/ silent e (lit "t") /\ t = lit "n".

(** [holds shared date e c]: the cell element e shows nothing, or a type and a
    value; [date] tells whether its format is that of a date. *)
Inductive holds (shared : list str) (date : Prop) (e : elem) : option (Z * val) -> Prop :=
| ho_blank : forall k t, cell_kind e k -> In k [lit "n"; lit "s"; lit "inlineStr"] -> value_text e t -> t = None \/ t = Some [] ->
    holds shared date e None
| ho_date : forall l t r neg x f, cell_kind e (lit "n") -> value_text e (Some (l ++ t ++ r)) ->
    Forall space_like l -> Forall space_like r -> decimal t neg x -> nearest neg x f -> date ->
    holds shared date e (Some (XL_CELL_DATE, VFloat f))
| ho_number : forall l t r neg x f, cell_kind e (lit "n") -> value_text e (Some (l ++ t ++ r)) ->
    Forall space_like l -> Forall space_like r -> decimal t neg x -> nearest neg x f -> ~ date ->
    holds shared date e (Some (XL_CELL_NUMBER, VFloat f))
| ho_shared : forall d s, cell_kind e (lit "s") -> value_text e (Some d) -> digits d ->
    nth_error shared (Z.to_nat (dec_value d)) = Some s -> holds shared date e (Some (XL_CELL_TEXT, VStr s))
| ho_text : forall v s, cell_kind e (lit "str") -> holder (lit "v") e v -> text_of v s ->
    holds shared date e (Some (XL_CELL_TEXT, VStr s))
| ho_no_text : cell_kind e (lit "str") -> formulas (e_children e) -> holds shared date e (Some (XL_CELL_TEXT, VNone))
| ho_bool : forall s b, cell_kind e (lit "b") -> value_text e (Some s) -> truth s b ->
    holds shared date e (Some (XL_CELL_BOOLEAN, VInt b))
| ho_no_bool : forall t, cell_kind e (lit "b") -> value_text e t -> t = None \/ t = Some [] ->
    holds shared date e (Some (XL_CELL_BOOLEAN, VInt 0))
| ho_error : forall s c, cell_kind e (lit "e") -> value_text e (Some s) -> error_text s c ->
    holds shared date e (Some (XL_CELL_ERROR, VInt c))
| ho_no_error : cell_kind e (lit "e") -> formulas (e_children e) -> holds shared date e (Some (XL_CELL_ERROR, VInt 42))
| ho_inline : forall v s, cell_kind e (lit "inlineStr") -> holder (lit "is") e v -> string_item v s -> s <> [] ->
    holds shared date e (Some (XL_CELL_TEXT, VStr s))
| ho_inline_blank : forall v, cell_kind e (lit "inlineStr") -> holder (lit "is") e v -> string_item v [] ->
    holds shared date e None
| ho_inline_value : forall s, cell_kind e (lit "inlineStr") -> value_text e (Some s) -> s <> [] ->
    holds shared date e (Some (XL_CELL_TEXT, VStr s)).

(** ** Sheets *)

(** The cells of a row as [put]s: row, column, type, value, format. *)
Inductive cells_in (shared : list str) (date : Z -> Prop) (xfs : Z) (number : option str) (r : Z)
  : Z -> list elem -> list put -> Prop :=
| ci_nil : forall prev, cells_in shared date xfs number r prev [] []
| ci_blank : forall prev e es c xf ps, named (lit "c") e -> cell_place number r prev e c -> c < 2 ^ 14 -> cell_xf e xf ->
    holds shared (date xf) e None -> cells_in shared date xfs number r c es ps ->
    cells_in shared date xfs number r prev (e :: es) ps
| ci_cell : forall prev e es c xf t v ps, named (lit "c") e -> cell_place number r prev e c -> c < 2 ^ 14 -> cell_xf e xf ->
    xf < xfs -> holds shared (date xf) e (Some (t, v)) -> cells_in shared date xfs number r c es ps ->
    cells_in shared date xfs number r prev (e :: es) (mkput r c (Some t) v xf :: ps).

(** The cell after the colon, if there is one. *)
Definition colon : N := 58%N.
Inductive range_text : str -> str -> str -> Prop :=
| rt_pair : forall a b, ~ In colon a -> ~ In colon b -> range_text (a ++ colon :: b) a b
| rt_one : forall a, ~ In colon a -> range_text a a a.

(** Rows, the dimension and merged ranges, in the order of the document. *)
Inductive items (shared : list str) (date : Z -> Prop) (xfs : Z) : Z -> list elem -> list put -> list mrange -> Prop :=
| it_nil : forall prev, items shared date xfs prev [] [] []
| it_row : forall prev e es number r ps qs ms, named (lit "row") e -> row_place prev e number r -> 0 <= r < 2 ^ 20 ->
    cells_in shared date xfs number r (-1) (e_children e) ps -> items shared date xfs r es qs ms ->
    items shared date xfs prev (e :: es) (ps ++ qs) ms
| it_size : forall prev e es ps ms, named (lit "dimension") e ->
    (silent e (lit "ref") \/ exists t a b r c, says e (lit "ref") t /\ range_text t a b /\ address b r c) ->
    items shared date xfs prev es ps ms -> items shared date xfs prev (e :: es) ps ms
| it_merged : forall prev e es t a b r0 c0 r1 c1 ps ms, named (lit "mergeCell") e -> says e (lit "ref") t ->
    range_text t a b -> address a r0 c0 -> address b r1 c1 -> r0 <= r1 < 2 ^ 20 -> c0 <= c1 ->
    items shared date xfs prev es ps ms ->
    items shared date xfs prev (e :: es) ps ((r0, r1 + 1, c0, c1 + 1) :: ms).
Definition sheet_part (shared : list str) (date : Z -> Prop) (xfs : Z) (root : elem) (ps : list put) (ms : list mrange) : Prop :=
  exists es, marked (fun e => named (lit "row") e \/ named (lit "dimension") e \/ named (lit "mergeCell") e) root es /\
    items shared date xfs (-1) es ps ms.

(** ** Styles *)

(** Formats: numbers and texts; the last one with a number counts. *)
Inductive formats_in : list elem -> list (Z * str) -> Prop :=
| fi_nil : formats_in [] []
| fi_format : forall e es d code fs, called (lit "numFmt") e -> says e (lit "numFmtId") d -> digits d ->
    says e (lit "formatCode") code -> formats_in es fs -> formats_in (e :: es) ((dec_value d, code) :: fs)
| fi_other : forall e es fs, ~ called (lit "numFmt") e -> formats_in es fs -> formats_in (e :: es) fs.
Inductive xfs_in : list elem -> list Z -> Prop :=
| xi_nil : xfs_in [] []
| xi_xf : forall e es d xs, called (lit "xf") e -> says e (lit "numFmtId") d -> digits d -> xfs_in es xs ->
    xfs_in (e :: es) (dec_value d :: xs)
| xi_plain : forall e es xs, called (lit "xf") e -> silent e (lit "numFmtId") -> xfs_in es xs -> xfs_in (e :: es) (0 :: xs)
| xi_other : forall e es xs, ~ called (lit "xf") e -> xfs_in es xs -> xfs_in (e :: es) xs.
Definition none_called (l : list str) (es : list elem) : Prop :=
  Forall (fun e => Forall (fun n => ~ called n e) l) es.

(** The cell formats are the xf elements in cellXfs; the formats they refer to
    come before them. *)
Inductive styles_part (root : elem) (formats : list (Z * str)) (xfs : list Z) : Prop :=
| sy_xfs : forall pre cx body post later, listed root (pre ++ cx :: body ++ post) -> listed cx (cx :: body) ->
    called (lit "cellXfs") cx -> none_called [lit "cellXfs"] pre -> formats_in pre formats ->
    none_called [lit "cellXfs"; lit "cellStyleXfs"; lit "numFmt"] body -> xfs_in body xfs ->
    none_called [lit "cellXfs"; lit "xf"] post -> formats_in post later -> styles_part root formats xfs
| sy_none : forall es, listed root es -> none_called [lit "cellXfs"] es -> formats_in es formats -> xfs = [] ->
    styles_part root formats xfs.

(** A format is one of dates by its text (as in the older files, C53) or by its
    number. *)
Fixpoint last_format (key : Z) (l : list (Z * str)) : option str :=
  match l with
  | [] => None
  | (k, t) :: l' => match last_format key l' with
                    | Some u => Some u
                    | None => if k =? key then Some t else None
                    end
  end.
Definition date_key (formats : list (Z * str)) (key : Z) : Prop :=
  match last_format key formats with
  | Some t => SpecBiff.date_text t
  | None => 14 <= key <= 22 \/ 45 <= key <= 47
  end.
Definition date_xf (formats : list (Z * str)) (xfs : list Z) (i : Z) : Prop :=
  exists key, 0 <= i /\ nth_error xfs (Z.to_nat i) = Some key /\ date_key formats key.

(** ** Archives *)

(** Names of parts are equal up to the case of letters and the slash. *)
Definition same_char (a b : N) : Prop :=
  a = b \/ (65 <= a <= 90)%N /\ (b = a + 32)%N \/ (65 <= b <= 90)%N /\ (a = b + 32)%N \/
  a = 47%N /\ b = 92%N \/ a = 92%N /\ b = 47%N.
Definition same_name (a b : str) : Prop := Forall2 same_char a b.
Definition missing_part (z : archive) (n : str) : Prop := Forall (fun m => ~ same_name (fst m) n) z.

(** The part with this name, the last one if there are several; and the member
    with exactly this name. *)
Definition part_at (z : archive) (n : str) (e : elem) : Prop :=
  exists a k b, z = a ++ (k, Some e) :: b /\ same_name k n /\ missing_part b n.
Definition member_at (z : archive) (k : str) (e : elem) : Prop :=
  exists a b, z = a ++ (k, Some e) :: b /\ ~ In k (map fst b).

(** Relationships: identifiers, types and targets. The kind is what follows
    the last slash of the type. *)
Record relation := mkrel { rl_id : str; rl_kind : str; rl_target : str }.
Inductive after_slash : str -> str -> Prop :=
| as_all : forall t, ~ In 47%N t -> after_slash t t
| as_last : forall d t, ~ In 47%N t -> after_slash (d ++ 47%N :: t) t.
Inductive relations_in : list elem -> list relation -> Prop :=
| ri_nil : relations_in [] []
| ri_rel : forall e es id type kind target rs, e_tag e = package_ns ++ lit "Relationship" ->
    says e (lit "Id") id -> says e (lit "Type") type -> after_slash type kind -> says e (lit "Target") target ->
    relations_in es rs -> relations_in (e :: es) (mkrel id kind target :: rs)
| ri_other : forall e es rs, e_tag e <> package_ns ++ lit "Relationship" -> relations_in es rs -> relations_in (e :: es) rs.

(** A target is absolute or begins at xl. *)
Definition slash (c : N) : Prop := c = 47%N \/ c = 92%N.
Inductive target_name : str -> str -> Prop :=
| tn_absolute : forall c t, slash c -> target_name (c :: t) t
| tn_relative : forall t, (forall c u, t = c :: u -> ~ slash c) -> target_name t (lit "xl/" ++ t).

(** Defined names must make sense. *)
Definition good_defined_name (e : elem) : Prop :=
  natural_attr e (lit "localSheetId") /\ natural_attr e (lit "functionGroupId") /\
  (exists b, flag e (lit "hidden") b) /\ (exists b, flag e (lit "function") b) /\
  (exists b, flag e (lit "vbProcedure") b) /\ (exists b, flag e (lit "xlm") b).

(** The tabs of the workbook, by name and identifier of the relationship, and
    the date mode, which was [dm] before. *)
Inductive tabs_in : Z -> list elem -> list (str * str) -> Z -> Prop :=
| ti_nil : forall dm, tabs_in dm [] [] dm
| ti_sheet : forall dm e es d name text id ts dm', called (lit "sheet") e -> says e (lit "sheetId") d -> digits d ->
    says e (lit "name") name -> escaped name text -> says e (office_ns ++ lit "id") id -> tabs_in dm es ts dm' ->
    tabs_in dm (e :: es) ((text, id) :: ts) dm'
| ti_mode : forall dm e es b ts dm', called (lit "workbookPr") e -> flag e (lit "date1904") b -> tabs_in b es ts dm' ->
    tabs_in dm (e :: es) ts dm'
| ti_names : forall dm e es ts dm', called (lit "definedNames") e -> Forall good_defined_name (e_children e) ->
    tabs_in dm es ts dm' -> tabs_in dm (e :: es) ts dm'
| ti_other : forall dm e es ts dm', ~ called (lit "sheet") e -> ~ called (lit "workbookPr") e -> ~ called (lit "definedNames") e ->
    tabs_in dm es ts dm' -> tabs_in dm (e :: es) ts dm'.

(** The worksheets among the tabs: names and names of the parts. Sheets of
    other kinds, such as charts, are left out. *)
Inductive worksheets (rels : list relation) : list (str * str) -> list (str * str) -> Prop :=
| ws_nil : worksheets rels [] []
| ws_sheet : forall name id target part ts ws, In (mkrel id (lit "worksheet") target) rels -> target_name target part ->
    worksheets rels ts ws -> worksheets rels ((name, id) :: ts) ((name, part) :: ws)
| ws_other : forall name id kind target ts ws, In (mkrel id kind target) rels -> kind <> lit "worksheet" ->
    worksheets rels ts ws -> worksheets rels ((name, id) :: ts) ws.

(** The worksheets an archive lists. *)
Definition lists_sheets (z : archive) (dm : Z) (ws : list (str * str)) : Prop :=
  exists r rels b es ts,
    part_at z (lit "xl/_rels/workbook.xml.rels") r /\ relations_in (e_children r) rels /\ NoDup (map rl_id rels) /\
    part_at z (lit "xl/workbook.xml") b /\ listed b es /\ tabs_in 0 es ts dm /\ worksheets rels ts ws.

Definition styles_at (z : archive) (formats : list (Z * str)) (xfs : list Z) : Prop :=
  missing_part z (lit "xl/styles.xml") /\ formats = [] /\ xfs = [] \/
  exists root, part_at z (lit "xl/styles.xml") root /\ styles_part root formats xfs.

(** The shared strings are in one place or the other. *)
Inductive shared_at (z : archive) : list str -> Prop :=
| sh_none : missing_part z (lit "xl/sharedStrings.xml") -> missing_part z (lit "sharedStrings.xml") -> shared_at z []
| sh_part : forall here other root es l,
    (here, other) = (lit "xl/sharedStrings.xml", lit "sharedStrings.xml") \/
    (here, other) = (lit "sharedStrings.xml", lit "xl/sharedStrings.xml") ->
    part_at z here root -> missing_part z other -> marked (named (lit "si")) root es -> Forall2 string_item es l ->
    shared_at z l.

(** *** Comments, which must make sense where they are found *)

(** Names without capitals and backslashes. *)
Definition small_name (n : str) : Prop := Forall (fun c => ~ (65 <= c <= 90)%N /\ c <> 92%N) n.

Definition good_comment (authors : Z) (e : elem) : Prop :=
  exists d t r c, says e (lit "authorId") d /\ digits d /\ dec_value d < authors /\ says e (lit "ref") t /\ address t r c.
Definition comments_part (root : elem) : Prop :=
  exists a b rest, e_children root = a :: b :: rest /\ named (lit "authors") a /\ named (lit "commentList") b /\
    forall c, In c (e_children b) -> named (lit "comment") c -> good_comment (Z.of_nat (length (e_children a))) c.

(** Targets relative to xl/worksheets. *)
Definition file_name (x : str) : Prop := ~ In 47%N x /\ ~ In x [[]; lit "."; lit ".."].
Inductive comments_name : str -> str -> Prop :=
| cn_above : forall x, file_name x -> comments_name (lit "../" ++ x) (lit "xl/" ++ x)
| cn_beside : forall x, file_name x -> comments_name x (lit "xl/worksheets/" ++ x).

(** A relationship of a sheet that does no harm: comments are looked for under
    the name as it is written. *)
Inductive harmless (z : archive) (kind target : str) : Prop :=
| ha_other : kind <> lit "comments" -> harmless z kind target
| ha_absolute : forall t, target = 47%N :: t -> Forall (fun m => forall c u, fst m = c :: u -> ~ slash c) z -> harmless z kind target
| ha_missing : forall n, comments_name target n -> missing_part z n \/ ~ small_name n -> harmless z kind target
| ha_comments : forall n root, comments_name target n -> member_at z n root -> comments_part root -> harmless z kind target.

(** The relationships of the sheet in the part called n, if there are any, are
    in a member whose name has no capitals. *)
Inductive after_last (sep : N -> Prop) : str -> str -> Prop :=
| al_all : forall t, Forall (fun c => ~ sep c) t -> after_last sep t t
| al_last : forall d s t, sep s -> Forall (fun c => ~ sep c) t -> after_last sep (d ++ s :: t) t.
Inductive sheet_relations (z : archive) (n : str) : Prop :=
| sr_none : forall x, after_last slash n x -> missing_part z (lit "xl/worksheets/_rels/" ++ x ++ lit ".rels") -> sheet_relations z n
| sr_part : forall x k root, after_last slash n x -> same_name k (lit "xl/worksheets/_rels/" ++ x ++ lit ".rels") ->
    small_name k -> member_at z k root ->
    (forall e, In e (e_children root) -> e_tag e = package_ns ++ lit "Relationship" ->
       exists type kind target, says e (lit "Type") type /\ after_slash type kind /\ says e (lit "Target") target /\
         harmless z kind target) -> sheet_relations z n.

(** ** Workbooks *)

(** A worksheet: its name, its cells and merged ranges. *)
Record content := mkcontent { ct_name : str; ct_cells : list put; ct_merged : list mrange }.

Definition sheet_at (z : archive) (shared : list str) (date : Z -> Prop) (xfs : Z) (w : str * str) (c : content) : Prop :=
  ct_name c = fst w /\ sheet_relations z (snd w) /\
  exists root, part_at z (snd w) root /\ sheet_part shared date xfs root (ct_cells c) (ct_merged c).

Definition xlsx_file (z : archive) (dm : Z) (l : list content) : Prop :=
  exists ws formats xfs shared, lists_sheets z dm ws /\
    (missing_part z (lit "docProps/core.xml") \/ exists e, part_at z (lit "docProps/core.xml") e) /\
    styles_at z formats xfs /\ shared_at z shared /\
    Forall2 (sheet_at z shared (date_xf formats xfs) (Z.max 1 (Z.of_nat (length xfs)))) ws l.

(** The size of a sheet. *)
Definition rows_of (c : content) : Z := Z.max (height (ct_cells c)) (range_height (ct_merged c)).
Definition cols_of (c : content) : Z := Z.max (width (ct_cells c)) (range_width (ct_merged c)).

(** A sheet that shows these cells. *)
Definition shows_sheet (c : content) (sh : sheet) : Prop :=
  sh_nrows sh = rows_of c /\ sh_ncols sh = cols_of c /\ rectangular sh /\
  forall i j, 0 <= i < sh_nrows sh -> 0 <= j < sh_ncols sh ->
    (exists v, grid_at (sh_values sh) i j = Ok v /\ shows_value (ct_cells c) i j v) /\
    (exists t, grid_at (sh_types sh) i j = Ok t /\ SpecBiff.shows_kind (ct_cells c) i j t).

(** A sheet by position, or the first by its name. *)
Inductive picks_sheet (l : list content) : pyobj -> content -> Prop :=
| ps_index : forall i c, nth_error l i = Some c -> picks_sheet l (OInt (Z.of_nat i)) c
| ps_name : forall a c b, l = a ++ c :: b -> ~ In (ct_name c) (map ct_name a) -> picks_sheet l (OStr (ct_name c)) c.

(** ** Cells that cannot be read *)

Inductive bad_cell (shared : list str) (row e : elem) : Prop :=
| bc_kind : forall k, says e (lit "t") k -> ~ In k [lit "n"; lit "s"; lit "str"; lit "b"; lit "e"; lit "inlineStr"] -> bad_cell shared row e
| bc_name : forall n s l d, says row (lit "r") n -> says e (lit "r") (s ++ d) -> dollar_column s l -> row_digits d -> d <> n ->
    bad_cell shared row e
| bc_index : forall d, cell_kind e (lit "s") -> value_text e (Some d) -> digits d -> Z.of_nat (length shared) <= dec_value d ->
    bad_cell shared row e
| bc_bool : forall t, cell_kind e (lit "b") -> value_text e (Some t) -> t <> [] -> (forall b, ~ truth t b) -> bad_cell shared row e
| bc_error : forall t, cell_kind e (lit "e") -> value_text e (Some t) -> (forall c, ~ error_text t c) -> bad_cell shared row e.

(** Some row of a worksheet has such a cell, or is outside the limits. *)
Definition bad_row (shared : list str) (e : elem) : Prop :=
  named (lit "row") e /\
  ((exists d, says e (lit "r") d /\ digits d /\ (dec_value d = 0 \/ 2 ^ 20 < dec_value d)) \/
   exists c, In c (e_children e) /\ named (lit "c") c /\ bad_cell shared e c).
