(** * Sheets of BIFF 2 to 4, from the file to the pack (C70): proofs of the property theorems *)

From Coq Require Import ZifyBool ZifyNat ZifyN QArith.
From Verif Require Import PyBase PyBaseFacts PyFloat PyText NumPy SpecArray ArrayFacts SpecPack Dbf SpecDbf DbfProofs Dicts Pack XlDate ReadXl XlProofs ReadXlThms XlStruct CompDoc SpecCompDoc CompDocProofs SpecSst Sst SpecDoc DocProofs FmtDate SpecXl XlSheet SpecXlSheet XlSheetProofs SpecFmtDate Biff SpecBiff BiffProofs BiffThms BiffOld SpecOld OldProofs SpecEarly EarlyProofs.
Open Scope nat_scope.
Open Scope Z_scope.

Lemma early_cells_same version d1 d2 : (forall k, d1 k = d2 k) -> forall l before, cells_after version d1 before l = cells_after version d2 before l.
Proof.
  intro E. induction l as [|e l IH]; intro bef; [reflexivity|]. cbn [cells_after]. rewrite IH. f_equal.
  destruct e as [gl|code head raw fmt extra|code front key more|data|x|row col attr c|it|code data]; cbn [entry_cells]; try reflexivity.
  - rewrite E. reflexivity.
  - destruct it as [it|p raw t extra|p raw t runs|p code r flags rest|code data|at_ first more|code data]; cbn [item_cells]; try reflexivity.
    + destruct it as [p c|row col k|data|x y|a b|code data inner|k|ar t|head author pad|d|t|code data]; cbn [SpecBiff.item_cells]; try reflexivity.
      * unfold content_type, number_type. rewrite E. reflexivity.
      * revert col. induction k as [|[xf rk] k IHk]; intro col; [reflexivity|]. cbn [row_cells]. unfold number_type. rewrite E, IHk. reflexivity.
    + unfold result_type, content_type, number_type. rewrite E. reflexivity.
Qed.
Lemma early_file dec country S rest : good_single dec country S -> open_workbook_dec dec (file_bytes S ++ rest) = old_opened dec (file_bytes S ++ rest) 0.
Proof.
  intro G. assert (F : from (file_bytes S ++ rest) 0 (file_bytes S ++ rest)) by (exists []; split; reflexivity).
  pose proof G as (V & LH & SM & _). pose proof F as F1. unfold file_bytes in F1 at 2. rewrite <- !app_assoc in F1.
  destruct (early_bof _ _ _ _ _ _ 5 V LH SM (or_introl eq_refl) F1) as [B _].
  assert (X : exists x c, file_bytes S ++ rest = 9%N :: x :: c /\ (x < 8)%N).
  { unfold file_bytes. destruct V as [<-|[<-|[<-|[]]]]; eexists _, _; (split; [reflexivity|vm_compute; reflexivity]). }
  destruct X as (x & c & EX & LX). rewrite EX in *.
  unfold open_workbook_dec. replace (str_eqb (bytes_at 0 4 (9%N :: x :: c)) [80; 75; 3; 4]%N) with false by reflexivity.
  unfold open_xls_dec, load. replace (str_eqb (bytes_at 0 8 (9%N :: x :: c)) SIGNATURE) with false by reflexivity. cbn [negb bind].
  unfold old_opened. rewrite B. cbn [bind]. destruct V as [<-|[<-|[<-|[]]]]; reflexivity.
Qed.

Lemma C70_opens_proof :
forall dec country S rest, good_single dec country S ->
(exists date, tells (e_entries S) date) /\
forall date, tells (e_entries S) date ->
exists sh, open_workbook_dec dec (file_bytes S ++ rest) = Ok (mkbook [lit "Sheet 1"] [sh] (date_mode (e_entries S))) /\
  shows_cells (cells S date) sh.
Proof.
intros dec country S rest G. pose proof (early_file dec country S rest G) as O.
assert (F : from (file_bytes S ++ rest) 0 (file_bytes S ++ rest)) by (exists []; split; reflexivity).
destruct (early_opened dec country S _ rest G F) as (sh & E & SH). split; [exists (date_key (e_entries S)); apply date_key_tells|].
intros date T. exists sh. split; [rewrite O; exact E|]. unfold cells in *. rewrite (early_cells_same _ date (date_key (e_entries S))); [exact SH|].
intro k. pose proof (T k) as T1. pose proof (date_key_tells (e_entries S) k) as T2.
destruct (date k), (date_key (e_entries S) k); try reflexivity; exfalso.
- pose proof (proj2 T2 (proj1 T1 eq_refl)). discriminate.
- pose proof (proj2 T1 (proj1 T2 eq_refl)). discriminate.
Qed.

Lemma C70_pack_proof :
forall dec country S rest date fname which header startcell stopcell usecols r0 c0 r1 c1 cols nr r values f l,
good_single dec country S -> tells (e_entries S) date ->
which = OInt 0 \/ which = OStr (lit "Sheet 1") -> l = cells S date ->
refers startcell r0 c0 -> stops_at (height l) (width l) stopcell r1 c1 -> c1 < width l ->
chosen_columns c0 c1 usecols cols -> cols <> [] -> Forall (fun c => c0 <= c <= c1) cols ->
headed header r0 nr r -> (forall k, nr = Some k -> k < height l) ->
(forall c, In c cols -> column_of l c r (Z.max 0 (Z.min (r1 + 1) (height l) - r)) (values c) /\
                        typed_column (date_mode (e_entries S)) (values c) (f c)) ->
exists p, sheetpack_dec dec (file_bytes S ++ rest) fname which header startcell stopcell usecols = Ok p /\ p_fn p = fname /\
  (forall c, In c cols -> holds_column (p_data p) c (f c)) /\
  (forall c, ~ In c cols -> dget c (p_data p) = None) /\
  (forall c, In c cols -> match nr with
                          | Some k => exists v, dget c (p_names p) = Some v /\ shows_value l k c v
                          | None => dget c (p_names p) = None
                          end) /\
  (forall c, ~ In c cols -> dget c (p_names p) = None).
Proof.
intros dec country S rest date fname which header startcell stopcell usecols r0 c0 r1 c1 cols nr r values f l G T PK EL RF SP CW CC CN CF HD NR CL.
destruct (proj2 (C70_opens_proof dec country S rest G) date T) as (sh & O & SH). rewrite <- EL in SH.
assert (CH : chosen_sheet (mkbook [lit "Sheet 1"] [sh] (date_mode (e_entries S))) which sh).
{ destruct PK as [->| ->]; [apply (cs_index _ 0 sh); reflexivity|]. apply cs_name with (i := 0%nat); [reflexivity|intros j J; lia|reflexivity]. }
destruct (shown_pack _ fname which sh header startcell stopcell usecols r0 c0 r1 c1 cols nr r values f l SH CH RF SP CW CC CN CF HD NR CL) as (CR & (rc & CS) & P).
unfold sheetpack_dec. rewrite CR, CS. cbn [bind]. rewrite O. exact P.
Qed.

Lemma C70_no_formats_refuted_proof :
exists f : list entry -> str,
(forall l, f l = file_bytes (mksingle 4 [0; 0]%N [] (l ++ [Attr 0x443 [0]%N 0 (repeat 0%N 10); Finish []; Piece (Same (SpecBiff.Cell (mkplace 0 0 0) (CDouble (float_of_Z 5) [])))]))) /\
(exists bk, open_workbook_dec (fun _ raw => Ok raw) (f []) = Ok bk /\
  map sh_values (bk_sheets bk) = [[[VFloat (float_of_Z 5)]]] /\ map sh_types (bk_sheets bk) = [[[XL_CELL_TEXT]]]) /\
(exists bk, open_workbook_dec (fun _ raw => Ok raw) (f [Fmt 0x41e [0; 0]%N (lit "General") (lit "General") []]) = Ok bk /\
  map sh_values (bk_sheets bk) = [[[VFloat (float_of_Z 5)]]] /\ map sh_types (bk_sheets bk) = [[[XL_CELL_NUMBER]]]).
Proof.
eexists. split; [intro l; reflexivity|].
split; (eexists; split; [vm_compute; reflexivity|vm_compute; split; reflexivity]).
Qed.

