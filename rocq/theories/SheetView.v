(** * How a sheet is shown

    channelpack/xlrd/sheet.py l.22-46, 364-386, 1269-1317, 1506, 1540-1583, for
    BIFF8 without formatting_info. *)

From Coq Require Import ZArith.
From Verif Require Import PyBase PyText PyFloat NumPy Dbf CompDoc ReadXl XlStruct XlSheet Biff CellAddr.
Open Scope Z_scope.

(** The attributes of WINDOW2 and SCL records, sheet.py l.22-46, 364-386: the
    twelve options in order (0 or 1 in the code, bools here), the first visible row
    and column, the index of the colour of the grid lines, the cached factors for
    page break preview and normal view, and the factor of SCL. *)
Record view := mkview {
  v_options : list bool; v_row : Z; v_col : Z; v_grid : Z; v_preview : Z; v_normal : Z; v_scl : option Z }.

(** Sheet.__init__, sheet.py l.22-46, 362-386. *)
Definition new_view : view :=
  mkview [false; true; true; false; true; true; false; true; false; false; false; false] 0 0 0x40 0 0 None.

(** The loop over _WINDOW2_options, sheet.py l.1301-1303, for [n] of them. *)
Fixpoint take_options (n : nat) (options : Z) : list bool :=
  match n with
  | O => []
  | S n => negb (Z.land options 1 =? 0) :: take_options n (Z.shiftr options 1)
  end.

(** What a WINDOW2 or SCL record does, sheet.py l.1269-1317, when its size is
    right, which sheet_record in Biff.v checks; other records change nothing of
    this. [cmap] is book.colour_map. *)
Definition see (cmap : list (Z * option (list Z))) (v : view) (rc len : Z) (data : str) : view :=
  if rc =? 0x23e then
    if 14 <=? len then
      mkview (take_options 12 (u16 0 data)) (u16 2 data) (u16 4 data) (u16 6 data) (u16 10 data) (u16 12 data) (v_scl v)
    else
      let rgb := [le_value (bytes_at 6 1 data); le_value (bytes_at 7 1 data); le_value (bytes_at 8 1 data)] in
      mkview (take_options 12 (u16 0 data)) (u16 2 data) (u16 4 data) (nearest_colour_index cmap rgb)
             (v_preview v) (v_normal v) (v_scl v)
  else if rc =? 0xa0 then
    let num := u16 0 data in
    let den := u16 2 data in
    let result := if negb (den =? 0) then (num * 100) / den else 0 in
    let result := if negb ((10 <=? result) && (result <=? 400)) then 100 else result in
    mkview (v_options v) (v_row v) (v_col v) (v_grid v) (v_preview v) (v_normal v) (Some result)
  else v.

(** The loop of Sheet.read, sheet.py l.811-1501, with these attributes in
    place of the cells. *)
Fixpoint view_loop (fuel : nat) (su : setup) (cmap : list (Z * option (list Z))) (mem : str) (strings : list str) (pos : Z)
  (st : reading) (v : view) : res view :=
  match fuel with
  | O => Err NonTermination
  | S f =>
      do (rc, len, data, pos) <- get_record mem pos;
      if rc =? 0x0a then Ok v
      else
        do (st, pos) <- sheet_record su mem strings rc len data pos st;
        view_loop f su cmap mem strings pos st (see cmap v rc len data)
  end.

(** The attributes after Sheet.read, sheet.py l.789-1506, of the sheet at [pos]. *)
Definition view_of_sheet (b : globals) (cmap : list (Z * option (list Z))) (mem : str) (pos : Z) (countries : Z * Z) : res view :=
  view_loop (S (length mem)) (sheet_setup b) cmap mem (b_strings b) pos (mkreading new_grid countries None false) new_view.

(** update_cooked_mag_factors, sheet.py l.1540-1583: cooked_page_break_preview_
    mag_factor and cooked_normal_view_mag_factor. *)
Definition cooked (v : view) : Z * Z :=
  let scl := match v_scl v with None => 100 | Some z => z end in
  if nth 11 (v_options v) false then
    let preview := scl in
    let zoom := v_normal v in
    let zoom := if negb ((10 <=? zoom) && (zoom <=? 400)) then preview else zoom in
    (preview, zoom)
  else
    let normal := scl in
    let zoom := v_preview v in
    let zoom := if zoom =? 0 then 60 else if negb ((10 <=? zoom) && (zoom <=? 400)) then normal else zoom in
    (zoom, normal).
