(** * How a BIFF8 workbook is written

    A stream of records: the globals, with the names and places of the sheets,
    the formats and the shared strings, and for each sheet its cells. What the
    workbook should show is said here of what was written. *)

From Coq Require Import ZArith.
From Verif Require Import PyBase PyFloat NumPy SpecDbf SpecSst SpecFmtDate ReadXl SpecXl XlSheet SpecXlSheet.
From Verif Require SpecCompDoc SpecDoc SpecNames SpecObjects.
From Verif Require Export SpecBytes.
Open Scope Z_scope.

(** A record: its code, the number of its bytes, and these. *)
Definition record (code : Z) (data : str) : str := le_bytes 2 code ++ le_bytes 2 (size data) ++ data.
Definition short (data : str) : Prop := size data < 2 ^ 16.

(** ** Numbers *)

(** Four bytes: an integer of 30 bits or the upper 30 bits of a double, perhaps
    in hundredths. *)
Inductive rk := RkInt (n : Z) (h : bool) | RkTop (f : float) (h : bool).
Definition good_rk (k : rk) : Prop :=
  match k with
  | RkInt n _ => - 2 ^ 29 <= n < 2 ^ 29
  | RkTop f _ => is_double f /\ double_bits f mod 2 ^ 34 = 0
  end.
Definition rk_bytes (k : rk) : str :=
  match k with
  | RkInt n h => le_bytes 4 (4 * n + 2 + Z.b2z h)
  | RkTop f h => le_bytes 4 (double_bits f / 2 ^ 32 + Z.b2z h)
  end.
Definition rk_value (k : rk) : float :=
  match k with
  | RkInt n h => if h then fdiv (float_of_Z n) (float_of_Z 100) else float_of_Z n
  | RkTop f h => if h then fdiv f (float_of_Z 100) else f
  end.

(** ** Cells *)

Record place := mkplace { pl_row : Z; pl_col : Z; pl_xf : Z }.
Definition place_bytes (p : place) : str := le_bytes 2 (pl_row p) ++ le_bytes 2 (pl_col p) ++ le_bytes 2 (pl_xf p).

(** The result of a formula: a number, or a mark with a byte that matters or
    not; the text follows in STRING and CONTINUE records, perhaps after a record
    about the formula. *)
Inductive result :=
| RNumber (f : float)
| RText (junk : str) (between : option (Z * str)) (flags : N) (first : stretch) (more : list (N * stretch))
| RBool (v : N) (x : N) (junk : str)
| RError (v : N) (x : N) (junk : str)
| REmpty (junk : str).

Inductive content :=
| CDouble (f : float) (extra : str)
| CRk (k : rk) (extra : str)
| CShared (i : Z)
| CLabel (lo : layout) (extra : str)
| CRich (lo : layout) (runs : list (Z * Z))
| CLogic (err : bool) (v : N) (extra : str)
| CFormula (code : Z) (r : result) (flags rest : str).

Definition marked (k : N) (b : str) : str := k :: b ++ [255; 255]%N.
Definition result_bytes (r : result) : str :=
  match r with
  | RNumber f => double_bytes f
  | RText junk _ _ _ _ => marked 0 junk
  | RBool v x junk => marked 1 (x :: v :: junk)
  | RError v x junk => marked 2 (x :: v :: junk)
  | REmpty junk => marked 3 junk
  end.
Definition text_units (first : stretch) (more : list (N * stretch)) : Z :=
  units first + fold_right Z.add 0 (map (fun fs => units (snd fs)) more).
Definition result_records (r : result) : str :=
  match r with
  | RText _ between flags first more =>
      match between with Some (code, data) => record code data | None => [] end
      ++ record 0x207 (le_bytes 2 (text_units first more) ++ flags :: stretch_bytes first)
      ++ flat_map (fun fs => record 0x3c (fst fs :: stretch_bytes (snd fs))) more
  | _ => []
  end.

(** The record of a cell and those that belong to it. *)
Definition content_code (c : content) : Z :=
  match c with
  | CDouble _ _ => 0x203 | CRk _ _ => 0x27e | CShared _ => 0xfd | CLabel _ _ => 0x204 | CRich _ _ => 0xd6
  | CLogic _ _ _ => 0x205 | CFormula code _ _ _ => code
  end.
Definition content_bytes (c : content) : str :=
  match c with
  | CDouble f extra => double_bytes f ++ extra
  | CRk k extra => rk_bytes k ++ extra
  | CShared i => le_bytes 4 i
  | CLabel lo extra => string_bytes 2 lo ++ extra
  | CRich lo runs => string_bytes 2 lo ++ le_bytes 2 (Z.of_nat (length runs)) ++ flat_map run_bytes runs
  | CLogic err v extra => v :: (if err then 1%N else 0%N) :: extra
  | CFormula _ r flags rest => result_bytes r ++ flags ++ rest
  end.
Definition content_records (c : content) : str :=
  match c with CFormula _ r _ _ => result_records r | _ => [] end.

(** Characters beyond 65535 are not allowed in the text of a formula. *)
Definition good_text (s : stretch) : Prop := good_stretch s /\ Forall (fun c => (c < 65536)%N) (snd s).
Definition good_between (code : Z) (data : str) : Prop :=
  short data /\
  ((code = 0x221 /\ 14 <= size data) \/ (code = 0x4bc /\ 10 <= size data) \/ In code [0x236; 0x37; 0x21; 0x36]).
Definition good_result (r : result) : Prop :=
  match r with
  | RNumber f => is_double f
  | RText junk between flags first more =>
      length junk = 5%nat /\
      match between with Some (code, data) => good_between code data | None => True end /\
      N.testbit flags 0 = fst first /\ good_text first /\
      Forall (fun fs => N.testbit (fst fs) 0 = fst (snd fs) /\ good_text (snd fs) /\ short (fst fs :: stretch_bytes (snd fs))) more /\
      (more <> [] -> 0 < units (snd (last more (0%N, (false, []))))) /\
      text_units first more < 2 ^ 16 /\ size (stretch_bytes first) + 3 < 2 ^ 16
  | RBool v _ junk | RError v _ junk => length junk = 3%nat /\ (v < 256)%N
  | REmpty junk => length junk = 5%nat
  end.
Definition good_content (shared : list str) (c : content) : Prop :=
  match c with
  | CDouble f _ => is_double f
  | CRk k _ => good_rk k
  | CShared i => 0 <= i < 2 ^ 31 /\ i < Z.of_nat (length shared)
  | CLabel lo _ => good_layout lo /\ uncut lo
  | CRich lo runs => good_layout lo /\ uncut lo /\ Z.of_nat (length runs) < 2 ^ 16
  | CLogic _ v _ => (v < 256)%N
  | CFormula code r flags _ => In code [0x6; 0x206; 0x406] /\ good_result r /\ length flags = 2%nat
  end.

(** What the cell shows: a text, a truth value, an error code, or a number that
    is a date when its format is one. *)
Definition number_type (date : Z -> bool) (xf : Z) : Z := if date xf then XL_CELL_DATE else XL_CELL_NUMBER.
Definition content_value (shared : list str) (c : content) : val :=
  match c with
  | CDouble f _ => VFloat f
  | CRk k _ => VFloat (rk_value k)
  | CShared i => VStr (nth (Z.to_nat i) shared [])
  | CLabel lo _ | CRich lo _ => VStr (text lo)
  | CLogic _ v _ => VInt (Z.of_N v)
  | CFormula _ r _ _ =>
      match r with
      | RNumber f => VFloat f
      | RText _ _ _ first more => VStr (snd first ++ flat_map (fun fs => snd (snd fs)) more)
      | RBool v _ _ | RError v _ _ => VInt (Z.of_N v)
      | REmpty _ => VStr []
      end
  end.
Definition content_type (date : Z -> bool) (xf : Z) (c : content) : Z :=
  match c with
  | CDouble _ _ | CRk _ _ | CFormula _ (RNumber _) _ _ => number_type date xf
  | CShared _ | CLabel _ _ | CRich _ _ | CFormula _ (RText _ _ _ _ _) _ _ | CFormula _ (REmpty _) _ _ => XL_CELL_TEXT
  | CLogic false _ _ | CFormula _ (RBool _ _ _) _ _ => XL_CELL_BOOLEAN
  | CLogic true _ _ | CFormula _ (RError _ _ _) _ _ => XL_CELL_ERROR
  end.

(** ** Sheets *)

Inductive item :=
| Cell (p : place) (c : content)
| Cells (row col : Z) (l : list (Z * rk))         (* numbers side by side *)
| Dimension (data : str)
| Country (x y : Z)
| Ranges (a b : list str)                         (* label ranges *)
| Embedded (code : Z) (data : str) (inner : list (Z * str))
| Link (k : SpecObjects.link)
| Tip (a : SpecObjects.area) (s : str)            (* for the link before it *)
| Note (head : str) (author : layout) (pad : str)
| Drawn (d : SpecObjects.drawing)
| Written (t : SpecObjects.textbox)               (* text in a drawn object *)
| Passed (code : Z) (data : str).                 (* anything that does not matter *)

Definition item_bytes (it : item) : str :=
  match it with
  | Cell p c => record (content_code c) (place_bytes p ++ content_bytes c) ++ content_records c
  | Cells row col l =>
      record 0xbd (le_bytes 2 row ++ le_bytes 2 col ++ flat_map (fun xk => le_bytes 2 (fst xk) ++ rk_bytes (snd xk)) l
                   ++ le_bytes 2 (col + Z.of_nat (length l) - 1))
  | Dimension data => record 0x200 data
  | Country x y => record 0x8c (le_bytes 2 x ++ le_bytes 2 y)
  | Ranges a b => record 0x15f (le_bytes 2 (Z.of_nat (length a)) ++ concat a ++ le_bytes 2 (Z.of_nat (length b)) ++ concat b)
  | Embedded code data inner => record code data ++ flat_map (fun cd => record (fst cd) (snd cd)) inner ++ record 0x0a []
  | Link k => record 0x1b8 (SpecObjects.link_bytes k)
  | Tip a s => record 0x800 (SpecObjects.tip_bytes a s)
  | Note head author pad => record 0x1c (SpecObjects.note_bytes head author pad)
  | Drawn d => record 0x5d (SpecObjects.drawing_bytes d)
  | Written t => record 0x1b6 (SpecObjects.textbox_bytes t) ++ flat_map (record 0x3c) (SpecObjects.textbox_pieces t)
  | Passed code data => record code data
  end.

(** Records with a meaning of their own. *)
Definition bof_codes : list Z := [0x809; 0x409; 0x209; 0x9].
Definition sheet_codes : list Z :=
  [0x203; 0xfd; 0x204; 0xd6; 0x27e; 0xbd; 0x6; 0x206; 0x406; 0x205; 0x200; 0x0; 0xa; 0x8c; 0x15f;
   0x1b8; 0x800; 0x5d; 0x1b6; 0x1c] ++ bof_codes.
Definition good_passed (code : Z) (data : str) : Prop :=
  word16 code /\ short data /\ ~ In code sheet_codes /\
  (code = 0x221 -> 14 <= size data) /\ (code = 0x4bc -> 10 <= size data) /\
  (code = 0x55 -> 2 <= size data) /\ (code = 0x99 -> 2 <= size data) /\
  (code = 0x23e -> 9 <= size data) /\ (code = 0xa0 -> size data = 4) /\ (code = 0x41 -> 9 <= size data).

Definition good_item (country : Z * Z) (shared : list str) (xfs : Z) (it : item) : Prop :=
  match it with
  | Cell p c =>
      word16 (pl_row p) /\ 0 <= pl_col p < 256 /\ 0 <= pl_xf p < xfs /\ word16 (pl_xf p) /\
      good_content shared c /\ short (place_bytes p ++ content_bytes c)
  | Cells row col l =>
      word16 row /\ 0 <= col /\ l <> [] /\ col + Z.of_nat (length l) <= 256 /\
      Forall (fun xk => 0 <= fst xk < xfs /\ word16 (fst xk) /\ good_rk (snd xk)) l
  | Dimension data => short data /\ (data = [] \/ 12 <= size data)
  | Country x y => (x, y) = country
  | Ranges a b =>
      Forall (fun r => length r = 8%nat) (a ++ b) /\ 4 + 8 * Z.of_nat (length (a ++ b)) < 2 ^ 16
  | Embedded code data inner =>
      In code bof_codes /\ short data /\ 4 <= size data /\
      Forall (fun cd => word16 (fst cd) /\ fst cd <> 0xa /\ short (snd cd)) inner
  | Link k => SpecObjects.good_link k
  | Tip a s => SpecObjects.good_tip a s
  | Note head author pad => SpecObjects.good_note head author pad
  | Drawn d => SpecObjects.good_drawing d
  | Written t => SpecObjects.good_textbox t
  | Passed code data => good_passed code data
  end.

(** The cells of an item. *)
Fixpoint row_cells (date : Z -> bool) (row col : Z) (l : list (Z * rk)) : list put :=
  match l with
  | [] => []
  | (xf, k) :: l' => mkput row col (Some (number_type date xf)) (VFloat (rk_value k)) xf :: row_cells date row (col + 1) l'
  end.
Definition item_cells (shared : list str) (date : Z -> bool) (it : item) : list put :=
  match it with
  | Cell p c => [mkput (pl_row p) (pl_col p) (Some (content_type date (pl_xf p) c)) (content_value shared c) (pl_xf p)]
  | Cells row col l => row_cells date row col l
  | _ => []
  end.

(** The record about the dimensions comes before the cells. *)
Definition is_cell (it : item) : bool := match it with Cell _ _ | Cells _ _ _ => true | _ => false end.
Definition is_dimension (it : item) : bool := match it with Dimension (_ :: _) => true | _ => false end.
Definition in_order (l : list item) : Prop :=
  exists a b, l = a ++ b /\ Forall (fun it => is_cell it = false) a /\ Forall (fun it => is_dimension it = false) b.

(** A tip is for the same area as the last link before it, and text is written
    in objects only after one has been drawn. *)
Fixpoint anchored (link : option SpecObjects.area) (drawn : bool) (l : list item) : Prop :=
  match l with
  | [] => True
  | Link k :: l' => anchored (Some (SpecObjects.lk_area k)) drawn l'
  | Tip a _ :: l' => link = Some a /\ anchored link drawn l'
  | Drawn _ :: l' => anchored link true l'
  | Written _ :: l' => drawn = true /\ anchored link drawn l'
  | _ :: l' => anchored link drawn l'
  end.

(** The BOF record says what follows: 5 globals, 16 a sheet. *)
Definition bof (version kind : Z) (more : str) : str := record 0x809 (le_bytes 2 version ++ le_bytes 2 kind ++ more).
Definition eof : str := record 0x0a [].

Record sheet_data := mksheetdata { sd_version : Z; sd_more : str; sd_items : list item }.
Definition sheet_bytes (s : sheet_data) : str :=
  bof (sd_version s) 0x10 (sd_more s) ++ flat_map item_bytes (sd_items s) ++ eof.

(** ** Globals *)

Inductive global :=
| Tab (offset : Z) (visibility kind : N) (name : layout) (extra : str)
| Format (key : Z) (fmt : layout) (extra : str)
| Xf (font : str) (key : Z) (rest : str)
| Datemode (m : Z) (extra : str)
| Codepage (c : Z) (extra : str)
| Nation (x y : Z) (extra : str)
| Shared (total : str) (table : list (layout * bool))
| User (name : layout) (extra : str)
| Books (n : Z) (extra : str)                     (* this workbook itself *)
| Functions (extra : str)                          (* add-in functions *)
| Elsewhere (url : layout) (names : list layout) (extra : str)   (* another workbook, with its sheets *)
| Foreign (head : str) (name : layout) (extra : str)             (* a name in the last of these *)
| References (l : list (Z * Z * Z))                (* a book, its first and last sheet *)
| Named (n : SpecNames.name_data)
| Skipped (code : Z) (data : str).

(** The table of strings: one record and those that continue it. *)
Definition shared_records (total : str) (table : list (layout * bool)) : list str :=
  records (Bytes (total ++ le_bytes 4 (Z.of_nat (length table))) :: table_tokens table).
Definition continued (code : Z) (l : list str) : str :=
  match l with
  | [] => []
  | d :: l' => record code d ++ flat_map (record 0x3c) l'
  end.
Definition reference_bytes (r : Z * Z * Z) : str :=
  let '(book, first, last) := r in le_bytes 2 book ++ le_bytes 2 first ++ le_bytes 2 last.
Definition global_bytes (g : global) : str :=
  match g with
  | Tab offset visibility kind name extra =>
      record 0x85 (le_bytes 4 offset ++ [visibility; kind] ++ string_bytes 1 name ++ extra)
  | Format key fmt extra => record 0x41e (le_bytes 2 key ++ string_bytes 2 fmt ++ extra)
  | Xf font key rest => record 0xe0 (font ++ le_bytes 2 key ++ rest)
  | Datemode m extra => record 0x22 (le_bytes 2 m ++ extra)
  | Codepage c extra => record 0x42 (le_bytes 2 c ++ extra)
  | Nation x y extra => record 0x8c (le_bytes 2 x ++ le_bytes 2 y ++ extra)
  | Shared total table => continued 0xfc (shared_records total table)
  | User name extra => record 0x5c (string_bytes 2 name ++ extra)
  | Books n extra => record 0x1ae (le_bytes 2 n ++ [1; 4]%N ++ extra)
  | Functions extra => record 0x1ae (le_bytes 2 1 ++ [1; 58]%N ++ extra)
  | Elsewhere url names extra =>
      record 0x1ae (le_bytes 2 (Z.of_nat (length names)) ++ string_bytes 2 url ++ flat_map (string_bytes 2) names ++ extra)
  | Foreign head name extra => record 0x23 (head ++ string_bytes 1 name ++ extra)
  | References l => record 0x17 (le_bytes 2 (Z.of_nat (length l)) ++ flat_map reference_bytes l)
  | Named n => record 0x18 (SpecNames.name_bytes n)
  | Skipped code data => record code data
  end.

(** Code pages in use. *)
Definition usual : list Z :=
  [367; 437; 720; 737; 775; 850; 852; 855; 857; 858; 860; 861; 862; 863; 864; 865; 866; 869; 874; 932; 936; 949; 950;
   1200; 1250; 1251; 1252; 1253; 1254; 1255; 1256; 1257; 1258; 1361; 10000; 10006; 10007; 10029; 10079; 10081; 32768; 32769].
(** Records of the globals with a meaning of their own: also FILEPASS, NAME,
    EXTERNNAME, SHEETSOFFSET, SHEETHDR and CONTINUE. *)
Definition global_codes : list Z :=
  [0xfc; 0x41e; 0xe0; 0x85; 0x22; 0x42; 0x8c; 0x23; 0x17; 0x2f; 0x5c; 0x8e; 0x8f; 0x1ae; 0x18; 0xa; 0x3c].
Definition good_global (country : Z * Z) (g : global) : Prop :=
  match g with
  | Tab offset visibility kind name extra =>
      0 <= offset < 2 ^ 31 /\ (kind < 256)%N /\ good_layout name /\ uncut name /\ total_units name < 256 /\
      short (string_bytes 1 name ++ extra ++ repeat 0%N 6)
  | Format key fmt extra => word16 key /\ good_layout fmt /\ uncut fmt /\ short (string_bytes 2 fmt ++ extra ++ repeat 0%N 2)
  | Xf font key rest => length font = 2%nat /\ word16 key /\ 16 <= size rest /\ short (font ++ rest ++ repeat 0%N 2)
  | Datemode m extra => (m = 0 \/ m = 1) /\ short (extra ++ repeat 0%N 2)
  | Codepage c extra => In c usual /\ short (extra ++ repeat 0%N 2)
  | Nation x y extra => (x, y) = country /\ short (extra ++ repeat 0%N 4)
  | Shared total table =>
      length total = 4%nat /\ good_table table /\ Z.of_nat (length table) < 2 ^ 31 /\ Forall short (shared_records total table)
  | User name extra => good_layout name /\ uncut name /\ short (string_bytes 2 name ++ extra)
  | Books n extra => short (extra ++ repeat 0%N 4)
  | Functions extra => short (extra ++ repeat 0%N 4)
  | Elsewhere url names extra =>
      Forall (fun lo => good_layout lo /\ uncut lo) (url :: names) /\
      total_units url <> 0x401 /\ ~ (length names = 1%nat /\ total_units url = 0x3a01) /\
      short (string_bytes 2 url ++ flat_map (string_bytes 2) names ++ extra ++ repeat 0%N 2)
  | Foreign head name extra =>
      length head = 6%nat /\ good_layout name /\ uncut name /\ total_units name < 256 /\
      short (string_bytes 1 name ++ extra ++ repeat 0%N 6)
  | References l =>
      Forall (fun r => let '(book, first, last) := r in word16 book /\ word16 first /\ word16 last) l /\
      6 * Z.of_nat (length l) + 2 < 2 ^ 16
  | Named n => SpecNames.good_name n
  | Skipped code data => word16 code /\ short data /\ ~ In code global_codes
  end.

(** *** What the globals say *)

(** The last of those that say something. *)
Fixpoint last_said {A} (f : global -> option A) (l : list global) : option A :=
  match l with
  | [] => None
  | g :: l' => match last_said f l' with Some x => Some x | None => f g end
  end.
Definition datemode_of (l : list global) : Z :=
  match last_said (fun g => match g with Datemode m _ => Some m | _ => None end) l with Some m => m | None => 0 end.
Definition shared_of (l : list global) : list str :=
  match last_said (fun g => match g with Shared _ table => Some (texts table) | _ => None end) l with Some t => t | None => [] end.

(** The worksheets, of kind 0: names and places. *)
Definition tabs (l : list global) : list (str * Z) :=
  flat_map (fun g => match g with Tab offset _ 0%N name _ => [(text name, offset)] | _ => [] end) l.

(** The defined names, and which of all sheets are worksheets. *)
Definition names_of (l : list global) : list SpecNames.name_data :=
  flat_map (fun g => match g with Named n => [n] | _ => [] end) l.
Definition kinds_of (l : list global) : list bool :=
  flat_map (fun g => match g with Tab _ _ kind _ _ => [(kind =? 0)%N] | _ => [] end) l.

(** The books that are referred to. A link is the number of a reference;
    [foreign k]: it does not lead to this workbook. References to add-in functions
    are to no sheets, and names elsewhere come after the book they are in. *)
Inductive linked := Itself | Addins | Apart.
Definition books_of (l : list global) : list linked :=
  flat_map (fun g => match g with Books _ _ => [Itself] | Functions _ => [Addins] | Elsewhere _ _ _ => [Apart] | _ => [] end) l.
Definition references_of (l : list global) : list (Z * Z * Z) :=
  flat_map (fun g => match g with References r => r | _ => [] end) l.
Definition foreign (l : list global) (k : Z) : Prop :=
  forall book first last, nth_error (references_of l) (Z.to_nat k) = Some (book, first, last) ->
    nth_error (books_of l) (Z.to_nat book) <> Some Itself.
Definition good_links (l : list global) : Prop :=
  (forall book first last, In (book, first, last) (references_of l) ->
     nth_error (books_of l) (Z.to_nat book) = Some Addins -> first = 0xfffe /\ last = 0xfffe) /\
  (forall before head name extra after, l = before ++ Foreign head name extra :: after -> books_of before <> []).

(** Formats: a text is one of a date when more date characters than number
    characters stand outside quotes, escapes and brackets (C53). *)
Definition date_text (t : str) : Prop :=
  exists l e d n, good_format l /\ good_ending e /\ t = format_text l e /\
    counts date_char (plain l) d /\ counts num_char (plain l) n /\ (n < d)%nat.
(** The formats every workbook has: these are dates. *)
Definition standard (key : Z) : Prop :=
  0 <= key <= 22 \/ 27 <= key <= 62 \/ 67 <= key <= 81.
Definition standard_date (key : Z) : Prop :=
  14 <= key <= 22 \/ 27 <= key <= 36 \/ 45 <= key <= 47 \/ 50 <= key <= 58 \/ 71 <= key <= 81.
Definition format_of (key : Z) (l : list global) : option str :=
  last_said (fun g => match g with Format k fmt _ => if k =? key then Some (text fmt) else None | _ => None end) l.
Definition date_key (l : list global) (key : Z) : Prop :=
  match format_of key l with Some t => date_text t | None => standard_date key end.

(** XF records point to formats. [good_xf l i]: XF number i points to a format
    that is standard or came before it. *)
Definition is_xf (g : global) : bool := match g with Xf _ _ _ => true | _ => false end.
Definition xf_count (l : list global) : Z := Z.of_nat (length (filter is_xf l)).
Definition xf_at (l : list global) (i : Z) (before : list global) (key : Z) : Prop :=
  exists font rest after, l = before ++ Xf font key rest :: after /\ xf_count before = i.
(** A date: the format is one; XFs that point nowhere point to format 0. *)
Definition date_xf (l : list global) (i : Z) : Prop :=
  exists before key, xf_at l i before key /\
    ((standard key \/ format_of key before <> None) /\ date_key l key \/
     ~ standard key /\ format_of key before = None /\ date_key l 0).

(** ** Workbooks *)

Record workbook := mkworkbook { wb_more : str; wb_globals : list global; wb_sheets : list sheet_data }.
Definition globals_bytes (W : workbook) : str :=
  bof 0x600 5 (wb_more W) ++ flat_map global_bytes (wb_globals W) ++ eof.

Definition good_bof (more : str) : Prop := size more <= 16.
Definition good_sheet (country : Z * Z) (l : list global) (s : sheet_data) : Prop :=
  word16 (sd_version s) /\ good_bof (sd_more s) /\ in_order (sd_items s) /\ anchored None false (sd_items s) /\
  Forall (good_item country (shared_of l) (xf_count l)) (sd_items s).
Definition good_workbook (country : Z * Z) (W : workbook) : Prop :=
  good_bof (wb_more W) /\ Forall (good_global country) (wb_globals W) /\
  good_links (wb_globals W) /\
  SpecNames.harmless_names None (kinds_of (wb_globals W)) (foreign (wb_globals W)) (names_of (wb_globals W)) /\
  Forall (good_sheet country (wb_globals W)) (wb_sheets W).

(** [holds_at c pos b]: the bytes b are in c at pos. *)
Definition holds_at (c : str) (pos : Z) (b : str) : Prop :=
  exists pre post, c = pre ++ b ++ post /\ size pre = pos.
(** The stream has the globals at its start and the sheets at their places. *)
Definition stored (W : workbook) (c : str) : Prop :=
  holds_at c 0 (globals_bytes W) /\
  Forall2 (fun tab s => holds_at c (snd tab) (sheet_bytes s)) (tabs (wb_globals W)) (wb_sheets W).

(** What is shown: [date] tells the XFs that are dates. *)
Definition tells_dates (l : list global) (date : Z -> bool) : Prop :=
  forall i, 0 <= i < xf_count l -> (date i = true <-> date_xf l i).
Definition cells_of (l : list global) (date : Z -> bool) (s : sheet_data) : list put :=
  flat_map (item_cells (shared_of l) date) (sd_items s).

(** A sheet that shows these cells: as large as needed, and empty where nothing
    was written. *)
Definition shows_cells (l : list put) (sh : sheet) : Prop :=
  sh_nrows sh = height l /\ sh_ncols sh = width l /\ rectangular sh /\
  forall r c, 0 <= r < sh_nrows sh -> 0 <= c < sh_ncols sh ->
    (exists v, grid_at (sh_values sh) r c = Ok v /\ shows_value l r c v) /\
    (exists t, grid_at (sh_types sh) r c = Ok t /\
       match latest l r c with Some p => pt_type p = Some t | None => t = XL_CELL_EMPTY end).

(** The type of a cell, and some cells of a column: n from row r0 on. *)
Definition shows_kind (l : list put) (r c t : Z) : Prop :=
  match latest l r c with Some p => pt_type p = Some t | None => t = XL_CELL_EMPTY end.
Definition column_of (l : list put) (c r0 n : Z) (cells : list (val * Z)) : Prop :=
  Z.of_nat (length cells) = n /\
  forall i v t, nth_error cells i = Some (v, t) ->
    shows_value l (r0 + Z.of_nat i) c v /\ shows_kind l (r0 + Z.of_nat i) c t.

(** A sheet by position, or the first by its name. *)
Inductive picks (W : workbook) : pyobj -> sheet_data -> Prop :=
| pick_index : forall i s, nth_error (wb_sheets W) i = Some s -> picks W (OInt (Z.of_nat i)) s
| pick_name : forall before name offset after s,
    tabs (wb_globals W) = before ++ (name, offset) :: after -> ~ In name (map fst before) ->
    nth_error (wb_sheets W) (length before) = Some s -> picks W (OStr name) s.

(** The last cell of a range in a sheet of h rows and w columns. *)
Inductive stops_at (h w : Z) : option str -> Z -> Z -> Prop :=
| stop_sheet : forall a, a = None \/ a = Some [] -> stops_at h w a (h - 1) (w - 1)
| stop_cell : forall a r c, a <> None -> a <> Some [] -> refers a r c -> stops_at h w a r c.

(** ** Files

    The stream alone, or in a compound document under the name Workbook or,
    without one of that name, Book. *)
Inductive workbook_file (W : workbook) : str -> Prop :=
| file_stream : forall c, stored W c -> workbook_file W c
| file_document : forall D t name d l c,
    SpecDoc.good_document D -> SpecDoc.dir_tree D t -> SpecDoc.distinct_names (SpecDoc.o_entries D) t ->
    Forall (fun n => SpecDoc.no_kelvin (CompDoc.dn_name n)) (SpecDoc.o_entries D) ->
    (name = lit "Workbook" \/ name = lit "Book" /\ SpecDoc.missing (SpecDoc.o_entries D) t [lit "Workbook"]) ->
    SpecDoc.leads_to (SpecDoc.o_entries D) t [name] d -> SpecDoc.stream D d l c -> d <= 249 ->
    NoDup (SpecDoc.system D ++ l) -> stored W c -> workbook_file W (SpecDoc.doc_file D).

(** ** Workbooks without their names

    The same globals but for the names; the sheets may be at other places. *)
Inductive unnamed : list global -> list global -> Prop :=
| un_nil : unnamed [] []
| un_drop : forall n l l', unnamed l l' -> unnamed (Named n :: l) l'
| un_tab : forall o o' v k name extra l l', unnamed l l' -> unnamed (Tab o v k name extra :: l) (Tab o' v k name extra :: l')
| un_keep : forall g l l', (match g with Named _ => False | _ => True end) -> unnamed l l' -> unnamed (g :: l) (g :: l').
(** Sheets of the same cells. *)
Definition same_cells (sh sh' : sheet) : Prop :=
  sh_nrows sh = sh_nrows sh' /\ sh_ncols sh = sh_ncols sh' /\
  forall r c, 0 <= r < sh_nrows sh -> 0 <= c < sh_ncols sh ->
    grid_at (sh_values sh) r c = grid_at (sh_values sh') r c /\ grid_at (sh_types sh) r c = grid_at (sh_types sh') r c.

(** ** Workbooks without links, notes and drawn objects

    The same globals, the sheets perhaps at other places; in the sheets the same
    items but for these. *)
Definition extra_item (it : item) : bool :=
  match it with Link _ | Tip _ _ | Note _ _ _ | Drawn _ | Written _ => true | _ => false end.
Definition without_extras (s : sheet_data) : sheet_data :=
  mksheetdata (sd_version s) (sd_more s) (filter (fun it => negb (extra_item it)) (sd_items s)).
Definition moved_tab (g g' : global) : Prop :=
  match g with
  | Tab o v k name extra => exists o', g' = Tab o' v k name extra
  | _ => g' = g
  end.
