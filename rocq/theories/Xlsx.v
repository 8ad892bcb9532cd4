(** * Model of channelpack/xlrd/xlsx.py and of open_workbook on zip files

    An archive is the list of its members, each an XML document that has been
    parsed or something that is no XML: zipfile and ElementTree are not
    modelled. formatting_info, ragged_rows and verbosity have their default
    values (channelpack/readxl.py l.126). Notes, visibilities, sheet ids, core
    properties and the names defined in a workbook are kept nowhere, only the
    exceptions raised on the way to them are modelled. Plain Exception and the
    ParseError of ElementTree are OtherError. *)

From Verif Require Import PyBase PyFloat PyText NumPy ReadXl FmtDate XlSheet.
Open Scope Z_scope.

(** An element of ElementTree: tag, attributes, text and children; the tail is
    never looked at (xlsx.py l.107-131, 225-236). *)
Inductive elem := Elem (tag : str) (attrs : list (str * str)) (text : option str) (children : list elem).
(** elem.tag (xlsx.py l.120). *)
Definition e_tag (e : elem) : str := let 'Elem t _ _ _ := e in t.
(** The attributes (xlsx.py l.111). *)
Definition e_attrs (e : elem) : list (str * str) := let 'Elem _ a _ _ := e in a.
(** elem.text (xlsx.py l.108). *)
Definition e_text (e : elem) : option str := let 'Elem _ _ x _ := e in x.
(** The children (xlsx.py l.118). *)
Definition e_children (e : elem) : list elem := let 'Elem _ _ _ l := e in l.

(** elem.get(name), xlsx.py l.111, 300-302. *)
Fixpoint attr (name : str) (l : list (str * str)) : option str :=
  match l with
  | [] => None
  | (k, v) :: l' => if str_eqb k name then Some v else attr name l'
  end.
(** elem.get(name) itself, xlsx.py l.111, 300-302. *)
Definition get (name : str) (e : elem) : option str := attr name (e_attrs e).

(** Namespaces, xlsx.py l.86-92. *)
Definition U_SSML12 : str := lit "{http://schemas.openxmlformats.org/spreadsheetml/2006/main}".
(** xlsx.py l.87. *)
Definition U_ODREL : str := lit "{http://schemas.openxmlformats.org/officeDocument/2006/relationships}".
(** xlsx.py l.88. *)
Definition U_PKGREL : str := lit "{http://schemas.openxmlformats.org/package/2006/relationships}".
(** xlsx.py l.92. *)
Definition XML_SPACE_ATTR : str := lit "{http://www.w3.org/XML/1998/namespace}space".

(** elem.tag == U_SSML12 + name (e.g. xlsx.py l.96-98, 401, 505), and the keys of a
    tag2meth, which are also there without the namespace (l.38-41, 379-384, 480-486). *)
Definition is_tag (name : str) (e : elem) : bool := str_eqb (e_tag e) (U_SSML12 ++ name).
(** A key of a tag2meth (xlsx.py l.38-41). *)
Definition is_key (name : str) (e : elem) : bool := str_eqb (e_tag e) name || is_tag name e.

(** tree.iter(): an element comes before its children (xlsx.py l.230). *)
Fixpoint iter (e : elem) : list elem := e :: flat_map iter (e_children e).

(** elem.clear(), xlsx.py l.405, 512. *)
Definition clear (e : elem) : elem := Elem (e_tag e) [] None [].

(** An element at its end event of iterparse, when its descendants with the
    tag name were cleared (xlsx.py l.400-408, 509-512). *)
Fixpoint at_end (name : str) (e : elem) : elem :=
  Elem (e_tag e) (e_attrs e) (e_text e)
    (map (fun c => if is_tag name c then clear c else at_end name c) (e_children e)).

(** The end events, xlsx.py l.400, 509. *)
Fixpoint ends (name : str) (e : elem) : list elem :=
  flat_map (ends name) (e_children e) ++ [at_end name e].

(** ** Text *)

(** [0-9A-Fa-f], xlsx.py l.101, and the value of the digit. *)
Definition hex_digit (c : N) : option N :=
  if is_digit c then Some (c - 48)%N
  else if ((65 <=? c) && (c <=? 70))%N then Some (c - 55)%N
  else if ((97 <=? c) && (c <=? 102))%N then Some (c - 87)%N
  else None.
(** int(..., 16) of four digits, xlsx.py l.101-102. *)
Definition hex4 (a b c d : N) : option N :=
  match hex_digit a, hex_digit b, hex_digit c, hex_digit d with
  | Some a, Some b, Some c, Some d => Some (((a * 16 + b) * 16 + c) * 16 + d)%N
  | _, _, _, _ => None
  end.

(** unescape, xlsx.py l.100-105: the matches of _x...._ from the left. *)
Fixpoint unescape (s : str) : str :=
  match s with
  | [] => []
  | u :: s' =>
      match s' with
      | x :: a :: b :: c :: d :: w :: r =>
          match hex4 a b c d with
          | Some z => if ((u =? 95) && (x =? 120) && (w =? 95))%N then z :: unescape r else u :: unescape s'
          | None => u :: unescape s'
          end
      | _ => u :: unescape s'
      end
  end.

(** XML_WHITESPACE, xlsx.py l.93. *)
Definition xml_white (c : N) : bool := ((c =? 9) || (c =? 10) || (c =? 32) || (c =? 13))%N.

(** cooked_text, xlsx.py l.107-113. *)
Definition cooked_text (e : elem) : str :=
  match e_text e with
  | None => []
  | Some t =>
      unescape (match get XML_SPACE_ATTR e with
                | Some v => if str_eqb v (lit "preserve") then t else strip xml_white t
                | None => strip xml_white t
                end)
  end.

(** get_text_from_si_or_is, xlsx.py l.115-131. *)
Definition si_text (e : elem) : str :=
  flat_map (fun child =>
              if is_tag (lit "t") child then cooked_text child
              else if is_tag (lit "r") child
              then flat_map (fun tnode => if is_tag (lit "t") tnode then cooked_text tnode else []) (e_children child)
              else []) (e_children e).

(** ** Conversions *)

(** cnv_xsd_unsignedInt as far as it raises, xlsx.py l.147-152. *)
Definition check_unsigned (s : option str) : res unit :=
  match s with
  | None | Some [] => Ok tt
  | Some t => do v <- int_of_text t; if 0 <=? v then Ok tt else Err AssertionError
  end.

(** cnv_xsd_boolean, xlsx.py l.154-161. *)
Definition cnv_xsd_boolean (s : option str) : res Z :=
  match s with
  | None | Some [] => Ok 0
  | Some t =>
      if existsb (str_eqb t) [lit "1"; lit "true"; lit "on"] then Ok 1
      else if existsb (str_eqb t) [lit "0"; lit "false"; lit "off"] then Ok 0
      else Err ValueError
  end.

(** int(s) for an attribute that may be missing (xlsx.py l.340, 455). *)
Definition int_attr (s : option str) : res Z :=
  match s with None => Err TypeError | Some t => int_of_text t end.

(** ** Relationships *)

(** A dictionary with optional text as keys: relid2path and relid2reltype
    together, filled at the same places (xlsx.py l.303-310, 526-531). *)
Definition relations := list (option str * (str * str)).
(** Keys compared (xlsx.py l.305, 308). *)
Definition same_id (a b : option str) : bool :=
  match a, b with
  | None, None => true
  | Some a, Some b => str_eqb a b
  | _, _ => false
  end.
(** relid2path[id] and relid2reltype[id] (xlsx.py l.344-345). *)
Fixpoint rel_get (id : option str) (r : relations) : option (str * str) :=
  match r with
  | [] => None
  | (k, v) :: r' => if same_id id k then Some v else rel_get id r'
  end.
(** relid2path[id] = and relid2reltype[id] = (xlsx.py l.305-310). *)
Fixpoint rel_set (id : option str) (v : str * str) (r : relations) : relations :=
  match r with
  | [] => [(id, v)]
  | (k, w) :: r' => if same_id id k then (k, v) :: r' else (k, w) :: rel_set id v r'
  end.

(** convert_filename, xlsx.py l.291-292. Lower case is that of ASCII: two
    names that differ in the case of other letters differ here. *)
Definition convert_filename (name : str) : str := map lower (replace1 92 [47%N] name).

(** s.split('/')[-1], s.rsplit('/', 1)[-1] (xlsx.py l.302, 527, 814). *)
Definition last_piece (s : str) : str := last (split_on 47 s) [].

(** tree.findall(tag): children of the root (xlsx.py l.299, 523). *)
Definition relationship (e : elem) : bool := str_eqb (e_tag e) (U_PKGREL ++ lit "Relationship").

(** X12Book.process_rels, xlsx.py l.294-310. *)
Definition add_rel (e : elem) (r : relations) : res relations :=
  match get (lit "Target") e, get (lit "Type") e with
  | Some target, Some type =>
      let target := convert_filename target in
      Ok (rel_set (get (lit "Id") e)
            (last_piece type, match target with 47%N :: rest => rest | _ => lit "xl/" ++ target end) r)
  | _, _ => Err AttributeError
  end.
(** A for loop that an exception leaves (xlsx.py l.299). *)
Fixpoint foldM {A S} (f : A -> S -> res S) (l : list A) (s : S) : res S :=
  match l with
  | [] => Ok s
  | x :: l' => do s <- f x s; foldM f l' s
  end.
(** X12Book.process_rels itself, xlsx.py l.294-310. *)
Definition process_rels (root : elem) : res relations := foldM add_rel (filter relationship (e_children root)) [].

(** ** The workbook part *)

(** Names and targets of the worksheets, and datemode (xlsx.py l.337-377). *)
Record x12book := mkx12 { x_sheets : list (str * str); x_datemode : Z }.

(** do_defined_name as far as it raises, xlsx.py l.312-330, with the map of
    l.164-193. *)
Definition do_defined_name (e : elem) (_ : unit) : res unit :=
  do _ <- check_unsigned (get (lit "localSheetId") e);
  do _ <- cnv_xsd_boolean (get (lit "hidden") e);
  do _ <- cnv_xsd_boolean (get (lit "function") e);
  do _ <- cnv_xsd_boolean (get (lit "vbProcedure") e);
  do _ <- cnv_xsd_boolean (get (lit "xlm") e);
  check_unsigned (get (lit "functionGroupId") e).

(** do_sheet, xlsx.py l.337-370. *)
Definition do_sheet (rels : relations) (e : elem) (x : x12book) : res x12book :=
  do _ <- int_attr (get (lit "sheetId") e);
  match get (lit "name") e with
  | None => Err TypeError                                  (* "_" in None *)
  | Some name =>
      match rel_get (get (U_ODREL ++ lit "id") e) rels with
      | None => Err KeyError
      | Some (type, target) =>
          if str_eqb type (lit "worksheet")
          then Ok (mkx12 (x_sheets x ++ [(unescape name, target)]) (x_datemode x))
          else Ok x
      end
  end.

(** The methods of X12Book by tag, xlsx.py l.225-236, 332-335, 373-384. *)
Definition book_elem (rels : relations) (e : elem) (x : x12book) : res x12book :=
  if is_key (lit "definedNames") e then do _ <- foldM do_defined_name (e_children e) tt; Ok x
  else if is_key (lit "workbookPr") e then
    do d <- cnv_xsd_boolean (get (lit "date1904") e); Ok (mkx12 (x_sheets x) d)
  else if is_key (lit "sheet") e then do_sheet rels e x
  else Ok x.
(** process_stream of X12Book, xlsx.py l.225-236. *)
Definition process_book (rels : relations) (root : elem) : res x12book :=
  foldM (book_elem rels) (iter root) (mkx12 [] 0).

(** ** Styles *)

(** fmt_is_date, _xf_index_to_xl_type_map, xf_type and xf_counts[1]
    (xlsx.py l.434-445). *)
Record styles := mkstyles { y_dates : dict bool; y_types : dict Z; y_kind : option Z; y_count : Z }.

(** X12Styles.__init__, xlsx.py l.434-445. *)
Definition new_styles : styles :=
  mkstyles (map (fun k => (k, true)) (zrange 14 23 ++ zrange 45 48)) [(0, XL_CELL_NUMBER)] None 0.

(** do_numfmt, xlsx.py l.453-461. *)
Definition do_numfmt (e : elem) (y : styles) : res styles :=
  do id <- int_attr (get (lit "numFmtId") e);
  match get (lit "formatCode") e with
  | None => Err TypeError                                  (* for c in None *)
  | Some code => Ok (mkstyles (dset id (is_date_format_string code) (y_dates y)) (y_types y) (y_kind y) (y_count y))
  end.

(** do_xf, xlsx.py l.463-478. *)
Definition do_xf (e : elem) (y : styles) : res styles :=
  match y_kind y with
  | Some 1 =>
      do id <- int_of_text (match get (lit "numFmtId") e with Some t => t | None => lit "0" end);
      let date := match dget id (y_dates y) with Some b => b | None => false end in
      Ok (mkstyles (y_dates y) (dset (y_count y) (if date then XL_CELL_DATE else XL_CELL_NUMBER) (y_types y))
            (y_kind y) (y_count y + 1))
  | _ => Ok y
  end.

(** The methods of X12Styles by tag, xlsx.py l.447-451, 480-486. *)
Definition styles_elem (e : elem) (y : styles) : res styles :=
  if is_key (lit "cellStyleXfs") e then Ok (mkstyles (y_dates y) (y_types y) (Some 0) (y_count y))
  else if is_key (lit "cellXfs") e then Ok (mkstyles (y_dates y) (y_types y) (Some 1) (y_count y))
  else if is_key (lit "numFmt") e then do_numfmt e y
  else if is_key (lit "xf") e then do_xf e y
  else Ok y.
(** process_stream of X12Styles, xlsx.py l.225-236. *)
Definition process_styles (root : elem) : res styles := foldM styles_elem (iter root) new_styles.

(** ** Shared strings: X12SST, xlsx.py l.394-413. *)
Definition process_sst (root : elem) : list str :=
  flat_map (fun e => if is_tag (lit "si") e then [si_text e] else []) (ends (lit "si") root).

(** ** Sheets *)

(** rowx, the grid of the Sheet and its merged_cells (xlsx.py l.490-502). *)
Record xsheet := mkxsheet { s_rowx : Z; s_grid : grid; s_merged : list mrange }.

(** The loop over a cell name in do_row, xlsx.py l.605-630: colx and charx. *)
Fixpoint row_name_loop (s : str) (charx colx : Z) : res (Z * Z) :=
  match s with
  | [] => Ok (colx, charx)
  | c :: s' =>
      let charx := charx + 1 in
      if (c =? 36)%N then row_name_loop s' charx colx
      else match letter_value c with
           | None => Err OtherError
           | Some lv =>
               if negb (lv =? 0) then row_name_loop s' charx (colx * 26 + lv)
               else if (0 <=? colx - 1) && (colx - 1 <? 2 ^ 14) then Ok (colx - 1, charx)
               else Err AssertionError
           end
  end.

(** The column of a cell, xlsx.py l.600-633. *)
Definition cell_column (row_number : option str) (e : elem) (colx : Z) : res Z :=
  match get (lit "r") e with
  | None => Ok (colx + 1)
  | Some name =>
      do (colx, charx) <- row_name_loop (upper_str name) (-1) 0;
      match row_number with
      | Some r => if str_eqb (from_index charx name) r then Ok colx else Err OtherError
      | None => Ok colx
      end
  end.

(** tvalue after the loop over the children of a cell: the last one counts;
    [value] gives it for a child, None is a tag that is not expected
    (xlsx.py l.636-736). *)
Fixpoint children_value (value : elem -> option (option str)) (l : list elem) (tvalue : option str)
  : res (option str) :=
  match l with
  | [] => Ok tvalue
  | c :: l' =>
      match value c with
      | Some v => children_value value l' v
      | None => if is_tag (lit "f") c then children_value value l' tvalue else Err OtherError
      end
  end.
(** tvalue = child.text, xlsx.py l.642-643. *)
Definition v_text (e : elem) : option (option str) := if is_tag (lit "v") e then Some (e_text e) else None.
(** tvalue = cooked_text(self, child), xlsx.py l.679-680. *)
Definition v_cooked (e : elem) : option (option str) := if is_tag (lit "v") e then Some (Some (cooked_text e)) else None.
(** xlsx.py l.723-726. *)
Definition v_inline (e : elem) : option (option str) :=
  if is_tag (lit "is") e then Some (Some (si_text e)) else v_text e.

(** error_code_from_text, xlsx.py l.80-82, biffh.py l.92-100. *)
Definition error_code (s : option str) : res Z :=
  match s with
  | None => Err KeyError
  | Some t =>
      match find (fun ct => str_eqb (snd ct) t)
              [(0, lit "#NULL!"); (7, lit "#DIV/0!"); (15, lit "#VALUE!"); (23, lit "#REF!"); (29, lit "#NAME?");
               (36, lit "#NUM!"); (42, lit "#N/A")] with
      | Some (code, _) => Ok code
      | None => Err KeyError
      end
  end.

(** The value and the type of a cell, xlsx.py l.634-738: None when nothing is
    put. *)
Definition cell_content (sst : list str) (e : elem) : res (option (option Z * val)) :=
  let type := match get (lit "t") e with Some t => t | None => lit "n" end in
  if str_eqb type (lit "n") then
    do v <- children_value v_text (e_children e) None;
    match v with
    | None | Some [] => Ok None
    | Some t => do f <- float_of_text t; Ok (Some (None, VFloat f))
    end
  else if str_eqb type (lit "s") then
    do v <- children_value v_text (e_children e) None;
    match v with
    | None | Some [] => Ok None
    | Some t => do i <- int_of_text t;
                match py_index sst i with
                | Some s => Ok (Some (Some XL_CELL_TEXT, VStr s))
                | None => Err IndexError
                end
    end
  else if str_eqb type (lit "str") then
    do v <- children_value v_cooked (e_children e) None;
    Ok (Some (Some XL_CELL_TEXT, match v with Some t => VStr t | None => VNone end))
  else if str_eqb type (lit "b") then
    do v <- children_value v_text (e_children e) None;
    do b <- cnv_xsd_boolean v; Ok (Some (Some XL_CELL_BOOLEAN, VInt b))
  else if str_eqb type (lit "e") then
    do v <- children_value v_text (e_children e) (Some (lit "#N/A"));
    do c <- error_code v; Ok (Some (Some XL_CELL_ERROR, VInt c))
  else if str_eqb type (lit "inlineStr") then
    do v <- children_value v_inline (e_children e) None;
    match v with
    | None | Some [] => Ok None
    | Some t => Ok (Some (Some XL_CELL_TEXT, VStr t))
    end
  else Err OtherError.

(** One cell of do_row, xlsx.py l.600-738: colx and the grid afterwards. *)
Definition do_cell (su : setup) (sst : list str) (row_number : option str) (rowx : Z) (e : elem) (st : Z * grid)
  : res (Z * grid) :=
  let '(colx, g) := st in
  do colx <- cell_column row_number e colx;
  do xf <- int_of_text (match get (lit "s") e with Some t => t | None => lit "0" end);
  do c <- cell_content sst e;
  match c with
  | None => Ok (colx, g)
  | Some (t, v) =>
      match put_cell su rowx colx t v xf g with
      | (g, Ok _) => Ok (colx, g)
      | (_, Err x) => Err x
      end
  end.

(** do_row, xlsx.py l.583-738. *)
Definition do_row (su : setup) (sst : list str) (e : elem) (st : xsheet) : res xsheet :=
  let row_number := get (lit "r") e in
  do rowx <- match row_number with
             | None => Ok (s_rowx st + 1)
             | Some r => do n <- int_of_text r; Ok (n - 1)
             end;
  if negb ((0 <=? rowx) && (rowx <? 2 ^ 20)) then Err AssertionError
  else do (_, g) <- foldM (do_cell su sst row_number rowx) (e_children e) (-1, s_grid st);
       Ok (mkxsheet rowx g (s_merged st)).

(** do_dimension as far as it raises, xlsx.py l.557-566. *)
Definition do_dimension (e : elem) (st : xsheet) : res xsheet :=
  match get (lit "ref") e with
  | None | Some [] => Ok st
  | Some ref => do _ <- cell_name_to_rowx_colx (last (split_on 58 ref) []) true; Ok st
  end.

(** do_merge_cell, xlsx.py l.568-581. *)
Definition do_merge_cell (e : elem) (st : xsheet) : res xsheet :=
  match get (lit "ref") e with
  | None | Some [] => Ok st
  | Some ref =>
      let '(a, b) := match split_on 58 ref with [a; b] => (a, b) | _ => (ref, ref) end in
      do (r0, c0) <- cell_name_to_rowx_colx a false;
      do (r1, c1) <- cell_name_to_rowx_colx b false;
      match c0, c1 with
      | Some c0, Some c1 => Ok (mkxsheet (s_rowx st) (s_grid st) (s_merged st ++ [(r0, r1 + 1, c0, c1 + 1)]))
      | _, _ => Err TypeError                              (* not reachable *)
      end
  end.

(** own_process_stream, xlsx.py l.504-517. *)
Definition sheet_elem (su : setup) (sst : list str) (e : elem) (st : xsheet) : res xsheet :=
  if is_tag (lit "row") e then do_row su sst e st
  else if is_tag (lit "dimension") e then do_dimension e st
  else if is_tag (lit "mergeCell") e then do_merge_cell e st
  else Ok st.
(** own_process_stream itself, xlsx.py l.504-517. *)
Definition process_sheet (su : setup) (sst : list str) (root : elem) : res xsheet :=
  foldM (sheet_elem su sst) (ends (lit "row") root) (mkxsheet (-1) new_grid []).

(** *** Comments *)

(** os.path.join('xl/worksheets', target) and os.path.normpath of it
    (xlsx.py l.530), as on POSIX systems. *)
Definition join_path (target : str) : str :=
  match target with
  | 47%N :: _ => target
  | _ => lit "xl/worksheets/" ++ target
  end.
(** The components of the path with . and .. taken out (xlsx.py l.531). *)
Fixpoint norm_comps (rooted : bool) (l acc : list str) : list str :=
  match l with
  | [] => rev acc
  | c :: l' =>
      if str_eqb c [] || str_eqb c (lit ".") then norm_comps rooted l' acc
      else if negb (str_eqb c (lit "..")) then norm_comps rooted l' (c :: acc)
      else match acc with
           | [] => norm_comps rooted l' (if rooted then [] else [c])
           | d :: acc' => norm_comps rooted l' (if str_eqb d (lit "..") then c :: acc else acc')
           end
  end.
(** The components joined by slashes (xlsx.py l.531). *)
Fixpoint join_comps (l : list str) : str :=
  match l with
  | [] => []
  | [c] => c
  | c :: l' => c ++ 47%N :: join_comps l'
  end.
(** normpath itself (xlsx.py l.531). *)
Definition normpath (p : str) : str :=
  let root := match p with
              | 47%N :: 47%N :: 47%N :: _ => lit "/"
              | 47%N :: 47%N :: _ => lit "//"
              | 47%N :: _ => lit "/"
              | _ => []
              end in
  match root ++ join_comps (norm_comps (match root with [] => false | _ => true end) (split_on 47 p) []) with
  | [] => lit "."
  | q => q
  end.

(** X12Sheet.process_rels, xlsx.py l.519-531. *)
Definition add_sheet_rel (e : elem) (r : relations) : res relations :=
  match get (lit "Type") e with
  | None => Err AttributeError
  | Some type =>
      match get (lit "Target") e with
      | None => Err TypeError
      | Some target => Ok (rel_set (get (lit "Id") e) (last_piece type, normpath (join_path target)) r)
      end
  end.
(** X12Sheet.process_rels itself, xlsx.py l.519-531. *)
Definition process_sheet_rels (root : elem) : res relations :=
  foldM add_sheet_rel (filter relationship (e_children root)) [].

(** process_comments_stream as far as it raises, xlsx.py l.533-555. *)
Definition do_comment (authors : list (option str)) (e : elem) (_ : unit) : res unit :=
  do i <- int_attr (get (lit "authorId") e);
  match py_index authors i with
  | None => Err IndexError
  | Some _ =>
      match get (lit "ref") e with
      | None => Err AttributeError
      | Some ref => do _ <- cell_name_to_rowx_colx ref false; Ok tt
      end
  end.
(** process_comments_stream itself, xlsx.py l.533-555. *)
Definition process_comments (root : elem) : res unit :=
  match e_children root with
  | [] => Err IndexError
  | a :: rest =>
      if negb (is_tag (lit "authors") a) then Err AssertionError
      else match rest with
           | [] => Err IndexError
           | b :: _ =>
               if negb (is_tag (lit "commentList") b) then Err AssertionError
               else foldM (do_comment (map e_text (e_children a))) (filter (is_tag (lit "comment")) (e_children b)) tt
           end
  end.

(** ** Archives *)

(** A member of a zip file: its name and, if it is XML, its root
    (xlrd/__init__.py l.115-123). *)
Definition archive := list (str * option elem).

(** zf.open(name) and the parsing of what it gives, xlsx.py l.774: of members
    with one name the last is opened. *)
Fixpoint zf_open (z : archive) (name : str) : option (option elem) :=
  match z with
  | [] => None
  | (k, p) :: z' => match zf_open z' name with
                    | Some q => Some q
                    | None => if str_eqb k name then Some p else None
                    end
  end.
(** ET.parse or ET.iterparse of zf.open(name), xlsx.py l.297, 774. *)
Definition parse (z : archive) (name : str) : res elem :=
  match zf_open z name with
  | None => Err KeyError
  | Some None => Err OtherError
  | Some (Some e) => Ok e
  end.

(** component_names, xlrd/__init__.py l.122-123: later members win. *)
Fixpoint component (z : archive) (key : str) : option str :=
  match z with
  | [] => None
  | (k, _) :: z' => match component z' key with
                    | Some q => Some q
                    | None => if str_eqb (convert_filename k) key then Some k else None
                    end
  end.
(** key in component_names, xlrd/__init__.py l.128. *)
Definition has_part (z : archive) (key : str) : bool := match component z key with Some _ => true | None => false end.
(** zf.open(component_names[key]), xlsx.py l.774, 777. *)
Definition part (z : archive) (key : str) : res elem :=
  match component z key with None => Err KeyError | Some name => parse z name end.

(** One sheet, xlsx.py l.805-828. The members with relationships and comments
    are looked for in component_names but opened under the key itself. *)
Definition process_comment_rel (z : archive) (r : option str * (str * str)) (_ : unit) : res unit :=
  let '(_, (type, path)) := r in
  if str_eqb type (lit "comments") && has_part z path
  then do root <- parse z path; process_comments root
  else Ok tt.
(** One turn of the loop, xlsx.py l.805-828. *)
Definition load_sheet (z : archive) (su : setup) (sst : list str) (fname : str) : res sheet :=
  do root <- part z fname;
  do st <- process_sheet su sst root;
  let rels_fname := lit "xl/worksheets/_rels/" ++ last_piece fname ++ lit ".rels" in
  do rels <- (if has_part z rels_fname then do root <- parse z rels_fname; process_sheet_rels root else Ok []);
  do _ <- foldM (process_comment_rel z) rels tt;
  match tidy su (s_merged st) (s_grid st) with
  | (_, Err x) => Err x
  | (g, Ok _) => Ok (sheet_of g)
  end.

(** open_workbook_2007_xml, xlsx.py l.745-830. *)
Definition open_xlsx (z : archive) : res book :=
  do root <- part z (lit "xl/_rels/workbook.xml.rels");
  do rels <- process_rels root;
  do root <- part z (lit "xl/workbook.xml");
  do x <- process_book rels root;
  do _ <- (if has_part z (lit "docprops/core.xml") then do _ <- part z (lit "docprops/core.xml"); Ok tt else Ok tt);
  do y <- (if has_part z (lit "xl/styles.xml") then do root <- part z (lit "xl/styles.xml"); process_styles root
           else Ok new_styles);
  do sst <- foldM (fun key sst => if has_part z key then do root <- part z key; Ok (sst ++ process_sst root) else Ok sst)
              [lit "xl/sharedstrings.xml"; lit "sharedstrings.xml"] [];
  do shs <- mapM (fun s => load_sheet z (mksetup false false (y_types y) (2 ^ 20) (2 ^ 14)) sst (snd s)) (x_sheets x);
  Ok (mkbook (map fst (x_sheets x)) shs (x_datemode x)).

(** open_workbook on a zip file, xlrd/__init__.py l.113-145. *)
Definition open_zip (z : archive) : res book :=
  if has_part z (lit "xl/workbook.xml") then open_xlsx z else Err XLRDError.

(** sheetpack on such a file, readxl.py l.126 and sheetpack of ReadXl.v. *)
Definition sheetpack_zip (z : archive) (fname : str) (which header : pyobj) (startcell stopcell : option str)
  (usecols : pyobj) : res Pack.pack :=
  do _ <- cellreference 0 0 startcell;
  do _ <- cellreference 0 0 stopcell;
  do wb <- open_zip z;
  sheetpack wb fname which header startcell stopcell usecols.
