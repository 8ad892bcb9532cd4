(** * Whatever opens, of any version, is a proper workbook (C66): the property theorems *)

From Coq Require Import ZifyBool ZifyNat ZifyN QArith.
From Verif Require Import PyBase PyBaseFacts PyFloat PyText NumPy SpecPack Dbf SpecDbf Dicts Pack XlDate ReadXl XlProofs ReadXlThms XlStruct CompDoc SpecSst Sst SpecXl XlSheet SpecXlSheet XlSheetProofs Biff SpecBiff BiffProofs BiffThms SpecSound SoundProofs SoundPack SoundThms BiffOld SoundOld SoundAllThms.
Open Scope nat_scope.
Open Scope Z_scope.

Definition a_record (code : Z) (data : str) : str := le_bytes 2 code ++ le_bytes 2 (Z.of_nat (length data)) ++ data.
Definition as_is : decoder := fun _ raw => Ok raw.
Definition number_cell (row col f : Z) : str := a_record 0x203 (le_bytes 2 row ++ le_bytes 2 col ++ le_bytes 2 0 ++ double_bytes (float_of_Z f)).
(** A workbook of BIFF5 with one sheet, made of these records. *)
Definition globals_5 (place : Z) : str :=
  a_record 0x809 [0; 5; 5; 0; 0; 0; 0; 0]%N ++ a_record 0x42 (le_bytes 2 1252)
  ++ a_record 0x85 (le_bytes 4 place ++ [0; 0; 1]%N ++ lit "A") ++ a_record 0x0a [].
Definition book_5 (records : str) : str :=
  globals_5 (Z.of_nat (length (globals_5 0))) ++ a_record 0x809 [0; 5; 16; 0; 0; 0; 0; 0]%N ++ records ++ a_record 0x0a [].
(** Cells A1 and B2. *)
Definition old_sound_file : str := book_5 (a_record 0x200 (repeat 0%N 10) ++ number_cell 0 0 7 ++ number_cell 1 1 3).
(** A sheet of BIFF2, cells A1 (a whole number) and A2 (a text). *)
Definition early_sound_file : str :=
  a_record 0x9 [2; 0; 16; 0]%N ++ a_record 0x1e (7%N :: lit "General") ++ a_record 0x0 (repeat 0%N 8)
  ++ a_record 0x2 ([0; 0; 0; 0; 0; 0; 0]%N ++ le_bytes 2 40) ++ a_record 0x4 ([1; 0; 0; 0; 0; 0; 0; 1]%N ++ lit "t") ++ a_record 0x0a [].
(** The same with the dimensions, of four rows and columns, after the first cell. *)
Definition early_late_file : str :=
  a_record 0x9 [2; 0; 16; 0]%N ++ a_record 0x1e (7%N :: lit "General") 
  ++ a_record 0x2 ([3; 0; 1; 0; 0; 0; 0]%N ++ le_bytes 2 40) ++ a_record 0x0 [0; 0; 4; 0; 0; 0; 4; 0]%N ++ a_record 0x4 ([1; 0; 0; 0; 0; 0; 0; 1]%N ++ lit "t") ++ a_record 0x0a [].
(** A sheet of BIFF4 with an XF whose format is not there. *)
Definition no_format_file : str :=
  a_record 0x409 [0; 0; 16; 0; 0; 0]%N ++ a_record 0x443 (repeat 0%N 12) ++ a_record 0x293 [] ++ number_cell 0 0 5 ++ a_record 0x0a [].
(** A workbook of BIFF4W with the name of a sheet, but without the sheet. *)
Definition named_only_file : str :=
  a_record 0x409 [0; 0; 0; 1; 0; 0]%N ++ a_record 0x42 (le_bytes 2 1252) ++ a_record 0x8e (le_bytes 4 0)
  ++ a_record 0x85 (1%N :: lit "A") ++ a_record 0x0a [].

(** Whatever bytes a file has, of BIFF 2 to 8, and whatever the code pages mean: if it opens, in
all its cells type and value go together, but that in a file of BIFF 2 to 4 a number
may have the type of a text; the date system is one of the two; there are no fewer
names than sheets. *)
Theorem C66_all_cells :
forall dec file wb, open_workbook_dec dec file = Ok wb ->
Forall (cells_fit fits_early) (bk_sheets wb) /\ (bk_datemode wb = 0 \/ bk_datemode wb = 1) /\
(length (bk_sheets wb) <= length (bk_names wb))%nat.
Proof. exact C66_all_cells_proof. Qed.
Print Assumptions C66_all_cells.

Example C66_all_cells_ex : exists wb, open_workbook_dec as_is early_sound_file = Ok wb /\ bk_names wb = [lit "Sheet 1"] /\
  map sh_types (bk_sheets wb) = [[[2]; [1]]] /\ map sh_values (bk_sheets wb) = [[[VFloat (float_of_Z 40)]; [VStr (lit "t")]]].
Proof. eexists. split; [vm_compute; reflexivity|]. split; [reflexivity|]. split; reflexivity. Qed.

(** In a file of BIFF 5 to 8, as the first record of its stream says, a number is never a
text, and there are as many names as sheets. *)
Theorem C66_all_new :
forall dec file mem base wb, load file = Ok (mem, base) -> begins_new mem base -> open_workbook_dec dec file = Ok wb ->
sound_book fits wb.
Proof. exact C66_all_new_proof. Qed.
Print Assumptions C66_all_new.

Example C66_all_new_ex : load old_sound_file = Ok (old_sound_file, 0) /\ begins_new old_sound_file 0 /\
  exists wb, open_workbook_dec as_is old_sound_file = Ok wb /\ bk_names wb = [lit "A"] /\ map sh_types (bk_sheets wb) = [[[2; 0]; [0; 2]]].
Proof.
  split; [vm_compute; reflexivity|]. split.
  - exists [0; 5; 5; 0; 0; 0; 0; 0]%N, 12, 5%N. split; [exact (record_here old_sound_file 0 9 8 8 0 eq_refl)|]. split; [left; reflexivity|reflexivity].
  - eexists. split; [vm_compute; reflexivity|]. split; reflexivity.
Qed.

(** And if no record about the dimensions comes after a cell of its sheet, all sheets
are rectangles. *)
Theorem C66_all_shape :
forall dec file mem base wb, load file = Ok (mem, base) -> dimensions_among early_codes mem ->
open_workbook_dec dec file = Ok wb -> Forall rectangular (bk_sheets wb).
Proof. exact C66_all_shape_proof. Qed.
Print Assumptions C66_all_shape.

Example C66_all_shape_ex : load early_sound_file = Ok (early_sound_file, 0) /\ dimensions_among early_codes early_sound_file /\
  exists wb sh, open_workbook_dec as_is early_sound_file = Ok wb /\ bk_sheets wb = [sh] /\ sh_nrows sh = 2 /\ sh_ncols sh = 1.
Proof.
  split; [vm_compute; reflexivity|]. split; [apply clean_of_first; vm_compute; reflexivity|].
  eexists. eexists. split; [vm_compute; reflexivity|]. split; [reflexivity|]. split; reflexivity.
Qed.

(** So packs from such files are as in C66_pack. *)
Theorem C66_all_pack :
forall dec file mem base fname which header startcell stopcell usecols p,
load file = Ok (mem, base) -> dimensions_among early_codes mem ->
sheetpack_dec dec file fname which header startcell stopcell usecols = Ok p ->
exists wb, open_workbook_dec dec file = Ok wb /\ pack_of wb p.
Proof. exact C66_all_pack_proof. Qed.
Print Assumptions C66_all_pack.

Example C66_all_pack_ex : load old_sound_file = Ok (old_sound_file, 0) /\ dimensions_among early_codes old_sound_file /\
  exists p, sheetpack_dec as_is old_sound_file (lit "f.xls") (OStr (lit "A")) (OBool false) (Some (lit "A2")) None ONone = Ok p /\
  p_data p = [(0, mkarr Kf [VFloat S754_nan]); (1, mkarr Kf [VFloat (float_of_Z 3)])].
Proof.
  split; [vm_compute; reflexivity|]. split; [apply clean_of_first; vm_compute; reflexivity|].
  eexists. split; [vm_compute; reflexivity|]. vm_compute. reflexivity.
Qed.

(** What is left out does occur: a number with the type of a text in a file of BIFF4, fewer sheets
than names in a workbook of BIFF4W, and more rows than a sheet of BIFF2 says, when the
dimensions come after a cell. *)
Theorem C66_early_refuted :
(exists dec file wb, open_workbook_dec dec file = Ok wb /\ length (bk_names wb) = length (bk_sheets wb) /\ ~ Forall (cells_fit fits) (bk_sheets wb)) /\
(exists dec file wb, open_workbook_dec dec file = Ok wb /\ bk_names wb = [lit "A"] /\ bk_sheets wb = []) /\
(exists dec file wb sh, open_workbook_dec dec file = Ok wb /\ bk_sheets wb = [sh] /\ (Z.to_nat (sh_nrows sh) < length (sh_values sh))%nat).
Proof. exact C66_early_refuted_proof. Qed.
Print Assumptions C66_early_refuted.

