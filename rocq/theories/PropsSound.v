(** * Whatever opens is a proper workbook (C66): the property theorems *)

From Coq Require Import ZifyBool ZifyNat ZifyN QArith.
From Verif Require Import PyBase PyBaseFacts PyFloat PyText NumPy SpecPack Dbf SpecDbf Dicts Pack XlDate ReadXl XlProofs ReadXlThms XlStruct CompDoc SpecSst Sst SpecXl XlSheet SpecXlSheet XlSheetProofs Biff SpecBiff BiffProofs BiffThms Xlsx SpecXlsx XlsxThms SpecSound SoundProofs SoundXml SoundPack SoundThms.
Open Scope nat_scope.
Open Scope Z_scope.

(** A small stream, with one sheet made of these items. *)
Definition sound_sheet (items : list SpecBiff.item) := mksheetdata 0x600 [] items.
Definition sound_stream (items : list SpecBiff.item) : str :=
  let off := Z.of_nat (length (globals_bytes (mkworkbook [] (beyond_globals 0) []))) in
  globals_bytes (mkworkbook [] (beyond_globals off) []) ++ sheet_bytes (sound_sheet items).
Definition seven : SpecBiff.item := Cell (mkplace 0 0 0) (CRk (RkInt 7 false) []).
Definition three_right : SpecBiff.item := Cell (mkplace 2 1 0) (CRk (RkInt 3 false) []).
(** Cells A1 and B3. *)
Definition sound_file : str := sound_stream [Dimension [0; 0; 0; 0; 3; 0; 0; 0; 0; 0; 4; 0; 0; 0]%N; seven; three_right].
(** A record about the dimensions, of four columns, between the cells. *)
Definition late_file : str := sound_stream [seven; Dimension [0; 0; 0; 0; 3; 0; 0; 0; 0; 0; 4; 0; 0; 0]%N; three_right].
(** Row 1 of an .xlsx file: 7, and a text formula without result. *)
Definition none_zip : archive :=
  small_zip [] [Elem (main_ns ++ lit "row") [(lit "r", lit "1")] None
    [small_cell [(lit "r", lit "A1")] (lit "7"); Elem (main_ns ++ lit "c") [(lit "r", lit "B1"); (lit "t", lit "str")] None []]].

(** Whatever bytes a file has: if it opens, it has as many names as sheets, one of the
two date systems, and in all its cells type and value go together; in every row there
are as many types as values. *)
Theorem C66_cells :
forall file wb, open_workbook file = Ok wb -> sound_book fits wb.
Proof. exact C66_cells_proof. Qed.
Print Assumptions C66_cells.

Example C66_cells_ex : exists wb sh, open_workbook sound_file = Ok wb /\ sound_book fits wb /\ bk_sheets wb = [sh] /\
  sh_types sh = [[2; 0]; [0; 0]; [0; 2]].
Proof.
  assert (H : exists wb, open_workbook sound_file = Ok wb /\ exists sh, bk_sheets wb = [sh] /\
    sh_types sh = [[2; 0]; [0; 0]; [0; 2]]).
  { eexists. split; [vm_compute; reflexivity|]. eexists. split; reflexivity. }
  destruct H as (wb & H & sh & E & T). exists wb, sh. split; [exact H|]. split; [exact (C66_cells _ _ H)|auto].
Qed.

(** And if, in the stream of the workbook, no record about the dimensions comes after a cell
of its sheet, then all sheets are rectangles, as large as they say. *)
Theorem C66_shape :
forall file wb, (forall mem base, load file = Ok (mem, base) -> dimensions_first mem) ->
open_workbook file = Ok wb -> Forall rectangular (bk_sheets wb).
Proof. exact C66_shape_proof. Qed.
Print Assumptions C66_shape.

Example C66_shape_ex : (forall mem base, load sound_file = Ok (mem, base) -> dimensions_first mem) /\
  exists wb sh, open_workbook sound_file = Ok wb /\ bk_sheets wb = [sh] /\ sh_nrows sh = 3 /\ sh_ncols sh = 2.
Proof.
  split; [exact sound_file_first|]. eexists. eexists. split; [vm_compute; reflexivity|]. split; [reflexivity|]. split; reflexivity.
Qed.

(** The guard is needed: with the dimensions after a cell a sheet may hold more rows than it
says. *)
Theorem C66_dimension_refuted :
exists file wb sh, open_workbook file = Ok wb /\ bk_sheets wb = [sh] /\ sh_nrows sh = 3 /\ length (sh_values sh) = 4%nat /\
  ~ rectangular sh.
Proof. exact C66_dimension_refuted_proof. Qed.
Print Assumptions C66_dimension_refuted.

(** The same of an .xlsx archive, whatever its parts are: its sheets are rectangles always, and a
text may be None. *)
Theorem C66_xlsx :
forall z wb, open_zip z = Ok wb -> sound_book fits_xml wb /\ Forall rectangular (bk_sheets wb).
Proof. exact C66_xlsx_proof. Qed.
Print Assumptions C66_xlsx.

Example C66_xlsx_ex : exists wb sh, open_zip none_zip = Ok wb /\ bk_sheets wb = [sh] /\ sh_types sh = [[2; 1]] /\
  sh_values sh = [[VFloat (float_of_Z 7); VNone]].
Proof. eexists. eexists. split; [vm_compute; reflexivity|]. split; [reflexivity|]. split; reflexivity. Qed.

(** A text that is None does occur: the cell of a formula with the type of a text, but
without a result. *)
Theorem C66_none_refuted :
exists z wb, open_zip z = Ok wb /\ ~ sound_book fits wb.
Proof. exact C66_none_refuted_proof. Qed.
Print Assumptions C66_none_refuted.

(** So a pack that sheetpack makes from any such file, with any arguments, has at least one channel; every
channel holds a column of one and the same sheet, the same rows of each, typed as in C45; every
name is a cell of the sheet in the column of a channel; the mask is as long as the channels. *)
Theorem C66_pack :
forall file fname which header startcell stopcell usecols p,
(forall mem base, load file = Ok (mem, base) -> dimensions_first mem) ->
sheetpack_file file fname which header startcell stopcell usecols = Ok p ->
exists wb, open_workbook file = Ok wb /\ pack_of wb p.
Proof. exact C66_pack_proof. Qed.
Print Assumptions C66_pack.

Example C66_pack_ex : (forall mem base, load sound_file = Ok (mem, base) -> dimensions_first mem) /\
  exists p, sheetpack_file sound_file (lit "f.xls") (OInt (-1)) (OStr (lit "B3")) (Some (lit "a2")) (Some (lit "C9")) (OStr (lit "B,A")) = Ok p /\
  p_data p = [(0, mkarr Kf [VFloat S754_nan; VFloat S754_nan]); (1, mkarr Kf [VFloat S754_nan; VFloat (float_of_Z 3)])] /\
  p_names p = [(0, VStr []); (1, VFloat (float_of_Z 3))].
Proof. split; [exact sound_file_first|]. eexists. split; [vm_compute; reflexivity|]. vm_compute. auto. Qed.

(** And from any .xlsx archive. *)
Theorem C66_pack_xlsx :
forall z fname which header startcell stopcell usecols p,
sheetpack_zip z fname which header startcell stopcell usecols = Ok p ->
exists wb, open_zip z = Ok wb /\ pack_of wb p.
Proof. exact C66_pack_xlsx_proof. Qed.
Print Assumptions C66_pack_xlsx.

Example C66_pack_xlsx_ex : exists p, sheetpack_zip none_zip (lit "f.xlsx") (OStr (lit "S")) (OBool false) None None ONone = Ok p /\
  p_data p = [(0, mkarr Kf [VFloat (float_of_Z 7)]); (1, mkarr KO [VNone])].
Proof. eexists. split; [vm_compute; reflexivity|]. vm_compute. reflexivity. Qed.

