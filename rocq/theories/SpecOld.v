(** * How a workbook of BIFF 5 or 7 is written

    As in BIFF8 (SpecBiff.v), but texts are bytes in a code page, with one or two
    bytes before them for how many they are. What bytes mean in a code page is any
    function [dec]; a text here is given with its bytes. *)

From Coq Require Import ZArith.
From Verif Require Import PyBase PyFloat NumPy SpecDbf SpecSst SpecFmtDate ReadXl SpecXl XlSheet SpecXlSheet SpecBiff.
From Verif Require SpecDoc SpecObjects SpecNames.
Open Scope Z_scope.

Definition coded_text (lenlen : nat) (raw : str) : str := le_bytes lenlen (size raw) ++ raw.

(** ** Sheets *)

(** The result of a formula that is a text: bytes and text of each piece. *)
Inductive result :=
| Plain (r : SpecBiff.result)
| Told (code : Z) (junk : str) (between : option (Z * str)) (first : str * str) (more : list (str * str)).

Inductive item :=
| Same (it : SpecBiff.item)                                 (* as in BIFF8 *)
| Label (p : place) (raw t extra : str)
| Rich (p : place) (raw t : str) (runs : list (N * N))
| Formula (p : place) (code : Z) (r : result) (flags rest : str)
| Extent (code : Z) (data : str)                            (* dimensions *)
| Remark (at_ first : str) (more : list (str * str))        (* a note, in pieces *)
| Object (code : Z) (data : str).

Definition told_length (first : str * str) (more : list (str * str)) : Z :=
  size (snd first) + fold_right Z.add 0 (map (fun p => size (snd p)) more).
Definition result_bytes (r : result) : str :=
  match r with
  | Plain r => SpecBiff.result_bytes r
  | Told _ junk _ _ _ => marked 0 junk
  end.
(** The length of the text is in n bytes. *)
Definition result_records (n : nat) (r : result) : str :=
  match r with
  | Plain _ => []
  | Told code _ between first more =>
      match between with Some (c, data) => record c data | None => [] end
      ++ record code (le_bytes n (told_length first more) ++ fst first)
      ++ flat_map (fun p => record 0x3c (fst p)) more
  end.
Definition remark_length (first : str) (more : list (str * str)) : Z :=
  size first + fold_right Z.add 0 (map (fun p => size (snd p)) more).
Definition item_bytes (it : item) : str :=
  match it with
  | Same it => SpecBiff.item_bytes it
  | Label p raw _ extra => record 0x204 (place_bytes p ++ coded_text 2 raw ++ extra)
  | Rich p raw _ runs =>
      record 0xd6 (place_bytes p ++ coded_text 2 raw ++ [N.of_nat (length runs)] ++ flat_map (fun r => [fst r; snd r]) runs)
  | Formula p code r flags rest => record code (place_bytes p ++ result_bytes r ++ flags ++ rest) ++ result_records 2 r
  | Extent code data => record code data
  | Remark at_ first more =>
      record 0x1c (at_ ++ le_bytes 2 (remark_length first more) ++ first)
      ++ flat_map (fun p => record 0x1c (le_bytes 2 0xffff ++ fst p ++ le_bytes 2 (size (snd p)) ++ snd p)) more
  | Object code data => record code data
  end.

(** What is written as in BIFF8: neither texts nor notes nor drawn objects. There
    are 16384 rows. *)
Definition common (it : SpecBiff.item) : Prop :=
  match it with
  | SpecBiff.Cell p c =>
      pl_row p < 16384 /\ match c with CLabel _ _ | CRich _ _ | CFormula _ _ _ _ => False | _ => True end
  | SpecBiff.Cells row _ _ => row < 16384
  | SpecBiff.Dimension _ | SpecBiff.Note _ _ _ | SpecBiff.Drawn _ | SpecBiff.Written _ => False
  | _ => True
  end.
Definition good_place (xfs : Z) (p : place) : Prop :=
  0 <= pl_row p < 16384 /\ 0 <= pl_col p < 256 /\ 0 <= pl_xf p < xfs /\ word16 (pl_xf p).
Definition good_result (n : nat) (dec : str -> res str) (r : result) : Prop :=
  match r with
  | Plain r => SpecBiff.good_result r /\ match r with RText _ _ _ _ _ => False | _ => True end
  | Told code junk between first more =>
      In code [0x207; 0x7] /\ length junk = 5%nat /\
      match between with Some (c, data) => good_between c data | None => True end /\
      Forall (fun p => dec (fst p) = Ok (snd p)) (first :: more) /\
      (more <> [] -> snd (last more ([], [])) <> []) /\
      short (le_bytes n 0 ++ fst first) /\ Forall (fun p => short (fst p)) more /\ told_length first more < 256 ^ Z.of_nat n
  end.
Definition good_item (dec : str -> res str) (country : Z * Z) (shared : list str) (xfs : Z) (it : item) : Prop :=
  match it with
  | Same it => common it /\ SpecBiff.good_item country shared xfs it
  | Label p raw t extra => good_place xfs p /\ dec raw = Ok t /\ short (place_bytes p ++ coded_text 2 raw ++ extra)
  | Rich p raw t runs =>
      good_place xfs p /\ dec raw = Ok t /\ (length runs < 256)%nat /\
      short (place_bytes p ++ coded_text 2 raw ++ [0%N] ++ flat_map (fun r => [fst r; snd r]) runs)
  | Formula p code r flags rest =>
      good_place xfs p /\ In code [0x6; 0x206; 0x406] /\ good_result 2 dec r /\ length flags = 2%nat /\
      short (place_bytes p ++ result_bytes r ++ flags ++ rest)
  | Extent code data => In code [0x200; 0x0] /\ short data /\ (data = [] \/ 8 <= size data)
  | Remark at_ first more =>
      length at_ = 4%nat /\ (exists t, dec (first ++ concat (map snd more)) = Ok t) /\
      (more <> [] -> snd (last more ([], [])) <> []) /\ Forall (fun p => length (fst p) = 2%nat) more /\
      remark_length first more < 2 ^ 16 /\
      Forall (fun d => short (repeat 0%N 6 ++ d)) (first :: map snd more)
  | Object code data => In code [0x5d; 0x1b6] /\ short data
  end.

(** The cells of an item. *)
Definition result_value (r : result) : val :=
  match r with
  | Plain r => content_value [] (CFormula 6 r [] [])
  | Told _ _ _ first more => VStr (snd first ++ flat_map snd more)
  end.
Definition result_type (date : Z -> bool) (xf : Z) (r : result) : Z :=
  match r with
  | Plain r => content_type date xf (CFormula 6 r [] [])
  | Told _ _ _ _ _ => XL_CELL_TEXT
  end.
Definition cell_at (p : place) (t : Z) (v : val) : put := mkput (pl_row p) (pl_col p) (Some t) v (pl_xf p).
Definition item_cells (shared : list str) (date : Z -> bool) (it : item) : list put :=
  match it with
  | Same it => SpecBiff.item_cells shared date it
  | Label p _ t _ | Rich p _ t _ => [cell_at p XL_CELL_TEXT (VStr t)]
  | Formula p _ r _ _ => [cell_at p (result_type date (pl_xf p) r) (result_value r)]
  | _ => []
  end.

(** The record about the dimensions comes before the cells, and a tip is for the
    same area as the last link before it. *)
Definition is_cell (it : item) : bool :=
  match it with Same it => SpecBiff.is_cell it | Label _ _ _ _ | Rich _ _ _ _ | Formula _ _ _ _ _ => true | _ => false end.
Definition is_extent (it : item) : bool := match it with Extent _ (_ :: _) => true | _ => false end.
Definition in_order (l : list item) : Prop :=
  exists a b, l = a ++ b /\ Forall (fun it => is_cell it = false) a /\ Forall (fun it => is_extent it = false) b.
Fixpoint anchored (link : option SpecObjects.area) (l : list item) : Prop :=
  match l with
  | [] => True
  | Same (SpecBiff.Link k) :: l' => anchored (Some (SpecObjects.lk_area k)) l'
  | Same (SpecBiff.Tip a _) :: l' => link = Some a /\ anchored link l'
  | _ :: l' => anchored link l'
  end.

Record sheet_data := mksheetdata { sd_version : Z; sd_more : str; sd_items : list item }.
Definition sheet_bytes (s : sheet_data) : str :=
  bof (sd_version s) 0x10 (sd_more s) ++ flat_map item_bytes (sd_items s) ++ eof.

(** ** Globals *)

Inductive global :=
| Tab (offset : Z) (visibility kind : N) (raw name extra : str)
| Format (key : Z) (raw fmt extra : str)
| Xf (font : str) (key : Z) (rest : str)
| Datemode (m : Z) (extra : str)
| Codepage (c : Z) (extra : str)
| Nation (x y : Z) (extra : str)
| Shared (total : str) (table : list (layout * bool))
| User (raw extra : str)
| Reference (n kind : N) (rest : str)             (* a sheet, by its name in kind 3 *)
| Named (n : SpecNames.old_name)
| Skipped (code : Z) (data : str).
Definition global_bytes (g : global) : str :=
  match g with
  | Tab offset visibility kind raw _ extra =>
      record 0x85 (le_bytes 4 offset ++ [visibility; kind] ++ coded_text 1 raw ++ extra)
  | Format key raw _ extra => record 0x41e (le_bytes 2 key ++ coded_text 1 raw ++ extra)
  | Xf font key rest => record 0xe0 (font ++ le_bytes 2 key ++ rest)
  | Datemode m extra => record 0x22 (le_bytes 2 m ++ extra)
  | Codepage c extra => record 0x42 (le_bytes 2 c ++ extra)
  | Nation x y extra => record 0x8c (le_bytes 2 x ++ le_bytes 2 y ++ extra)
  | Shared total table => continued 0xfc (shared_records total table)
  | User raw extra => record 0x5c (coded_text 1 raw ++ extra)
  | Reference n kind rest => record 0x17 (n :: kind :: rest)
  | Named n => record 0x18 (SpecNames.old_name_bytes n)
  | Skipped code data => record code data
  end.

(** The code page is that of the last record about it. *)
Definition page_of (l : list global) : option Z :=
  fold_left (fun page g => match g with Codepage c _ => Some c | _ => page end) l None.
Definition used_page (l : list global) (page : option Z) : Prop :=
  page = None \/ exists c extra, page = Some c /\ In (Codepage c extra) l.

(** Records of the globals with a meaning of their own: also EXTERNSHEET,
    FILEPASS, SHEETSOFFSET, SHEETHDR, SUPBOOK, NAME, EOF and CONTINUE. *)
Definition global_codes : list Z :=
  [0xfc; 0x41e; 0xe0; 0x85; 0x22; 0x42; 0x8c; 0x17; 0x2f; 0x5c; 0x8e; 0x8f; 0x1ae; 0x18; 0xa; 0x3c].
(** A record of the globals l after those before. The user's name may be read
    with any code page of the workbook. *)
Definition good_global (dec : option Z -> str -> res str) (country : Z * Z) (l before : list global) (g : global) : Prop :=
  match g with
  | Tab offset visibility kind raw name extra =>
      0 <= offset < 2 ^ 31 /\ (kind < 256)%N /\ dec (page_of before) raw = Ok name /\ size raw < 256 /\
      short (repeat 0%N 7 ++ raw ++ extra)
  | Format key raw fmt extra =>
      word16 key /\ dec (page_of before) raw = Ok fmt /\ size raw < 256 /\ short (repeat 0%N 3 ++ raw ++ extra)
  | Xf font key rest => length font = 2%nat /\ word16 key /\ 12 <= size rest /\ short (repeat 0%N 4 ++ rest)
  | Datemode m extra => (m = 0 \/ m = 1) /\ short (repeat 0%N 2 ++ extra)
  | Codepage c extra => In c usual /\ short (repeat 0%N 2 ++ extra)
  | Nation x y extra => (x, y) = country /\ short (repeat 0%N 4 ++ extra)
  | Shared total table =>
      length total = 4%nat /\ good_table table /\ Z.of_nat (length table) < 2 ^ 31 /\ Forall short (shared_records total table)
  | User raw extra =>
      (forall page, used_page l page -> exists t, dec page raw = Ok t) /\ size raw < 256 /\ short (repeat 0%N 1 ++ raw ++ extra)
  | Reference n kind rest =>
      (n < 256)%N /\ (kind < 256)%N /\
      (kind = 3%N -> exists t, dec (page_of before) (firstn (N.to_nat n) rest) = Ok t) /\ short (repeat 0%N 2 ++ rest)
  | Named n => SpecNames.good_old_name (fun raw => exists t, dec (page_of before) raw = Ok t) n
  | Skipped code data => word16 code /\ short data /\ ~ In code global_codes
  end.

(** What they say is said as in BIFF8. *)
Definition whole (t : str) : layout := mklayout 0 (false, t) [] None None.
Definition as8 (g : global) : SpecBiff.global :=
  match g with
  | Tab offset visibility kind _ name extra => SpecBiff.Tab offset visibility kind (whole name) extra
  | Format key _ fmt extra => SpecBiff.Format key (whole fmt) extra
  | Xf font key rest => SpecBiff.Xf font key rest
  | Datemode m extra => SpecBiff.Datemode m extra
  | Shared total table => SpecBiff.Shared total table
  | _ => SpecBiff.Skipped 0 []
  end.

(** *** Names *)

(** A name belongs to all sheets or to the sheet with the name in a Reference of
    kind 3, which is given by its number; also formulas give References by number. *)
Definition names_of (l : list global) : list SpecNames.name_data :=
  flat_map (fun g => match g with Named n => [SpecNames.as_name n] | _ => [] end) l.
Definition kinds_of (l : list global) : list N :=
  flat_map (fun g => match g with Reference _ kind _ => [kind] | _ => [] end) l.
Definition names_sheet (dec : option Z -> str -> res str) (l : list global) (i : Z) (name : str) : Prop :=
  exists before n rest after, l = before ++ Reference n 3 rest :: after /\ Z.of_nat (length (kinds_of before)) + 1 = i /\
    dec (page_of before) (firstn (N.to_nat n) rest) = Ok name.
Definition in_formulas (dec : option Z -> str -> res str) (l : list global) : SpecNames.older :=
  SpecNames.mkolder (fun raw => exists t, dec (page_of l) raw = Ok t)
    (fun e => 0 <= e \/ - e <= Z.of_nat (length (kinds_of l))).
(** Names behind a Reference are those of this workbook only in kind 4. *)
Definition foreign (l : list global) (e : Z) : Prop := 0 <= e \/ nth_error (kinds_of l) (Z.to_nat (- e - 1)) <> Some 4%N.
Definition good_names (dec : option Z -> str -> res str) (l : list global) : Prop :=
  Forall (fun n => SpecNames.nm_sheet n = 0 \/ exists name, names_sheet dec l (SpecNames.nm_sheet n) name) (names_of l) /\
  exists sheets,
    (forall k, nth_error sheets k = Some true ->
       exists name, names_sheet dec l (Z.of_nat k + 1) name /\ In name (map fst (tabs (map as8 l)))) /\
    SpecNames.harmless_names (Some (in_formulas dec l)) sheets (foreign l) (names_of l).

(** ** Workbooks *)

Record workbook := mkworkbook { wb_more : str; wb_globals : list global; wb_sheets : list sheet_data }.
Definition globals_bytes (W : workbook) : str :=
  bof 0x500 5 (wb_more W) ++ flat_map global_bytes (wb_globals W) ++ eof.
Definition says (W : workbook) : list SpecBiff.global := map as8 (wb_globals W).

Definition good_sheet (dec : option Z -> str -> res str) (country : Z * Z) (l : list global) (s : sheet_data) : Prop :=
  word16 (sd_version s) /\ good_bof (sd_more s) /\ in_order (sd_items s) /\ anchored None (sd_items s) /\
  Forall (good_item (dec (page_of l)) country (shared_of (map as8 l)) (xf_count (map as8 l))) (sd_items s).
Definition good_workbook (dec : option Z -> str -> res str) (country : Z * Z) (W : workbook) : Prop :=
  good_bof (wb_more W) /\
  (forall before g after, wb_globals W = before ++ g :: after -> good_global dec country (wb_globals W) before g) /\
  good_names dec (wb_globals W) /\
  Forall (good_sheet dec country (wb_globals W)) (wb_sheets W).
Definition cells_of (W : workbook) (date : Z -> bool) (s : sheet_data) : list put :=
  flat_map (item_cells (shared_of (says W)) date) (sd_items s).

Definition stored (W : workbook) (c : str) : Prop :=
  holds_at c 0 (globals_bytes W) /\
  Forall2 (fun tab s => holds_at c (snd tab) (sheet_bytes s)) (tabs (says W)) (wb_sheets W).

(** A sheet by position, or the first by its name. *)
Inductive picks (W : workbook) : pyobj -> sheet_data -> Prop :=
| pick_index : forall i s, nth_error (wb_sheets W) i = Some s -> picks W (OInt (Z.of_nat i)) s
| pick_name : forall before name offset after s,
    tabs (says W) = before ++ (name, offset) :: after -> ~ In name (map fst before) ->
    nth_error (wb_sheets W) (length before) = Some s -> picks W (OStr name) s.

(** The stream alone, or in a compound document under the name Workbook or,
    without one of that name, Book. *)
Inductive in_file (c : str) : str -> Prop :=
| file_stream : in_file c c
| file_document : forall D t name d l,
    SpecDoc.good_document D -> SpecDoc.dir_tree D t -> SpecDoc.distinct_names (SpecDoc.o_entries D) t ->
    Forall (fun n => SpecDoc.no_kelvin (CompDoc.dn_name n)) (SpecDoc.o_entries D) ->
    (name = lit "Workbook" \/ name = lit "Book" /\ SpecDoc.missing (SpecDoc.o_entries D) t [lit "Workbook"]) ->
    SpecDoc.leads_to (SpecDoc.o_entries D) t [name] d -> SpecDoc.stream D d l c -> d <= 249 ->
    NoDup (SpecDoc.system D ++ l) -> in_file c (SpecDoc.doc_file D).

(** ** Workbooks without their names

    The same globals but for the names; the sheets may be at other places. *)
Inductive unnamed : list global -> list global -> Prop :=
| un_nil : unnamed [] []
| un_drop : forall n l l', unnamed l l' -> unnamed (Named n :: l) l'
| un_tab : forall o o' v k raw name extra l l', unnamed l l' ->
    unnamed (Tab o v k raw name extra :: l) (Tab o' v k raw name extra :: l')
| un_keep : forall g l l', (match g with Named _ => False | _ => True end) -> unnamed l l' -> unnamed (g :: l) (g :: l').
