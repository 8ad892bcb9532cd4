(** * Defined names in workbooks of BIFF 5 and 7 (C71): the property theorems *)

From Coq Require Import ZifyBool ZifyNat ZifyN QArith.
From Verif Require Import PyBase PyBaseFacts PyFloat PyText NumPy SpecPack Dbf SpecDbf DbfProofs Dicts Pack XlDate ReadXl XlProofs ReadXlThms XlStruct CompDoc SpecCompDoc CompDocProofs SpecSst Sst SpecDoc DocProofs FmtDate SpecXl XlSheet SpecXlSheet XlSheetProofs SpecFmtDate Biff SpecBiff BiffProofs BiffThms BiffOld SpecOld OldProofs OldThms OldNamesThms.
Open Scope nat_scope.
From Verif Require SpecNames XlNames.
From Verif Require PropsOld NamesThms.
Open Scope Z_scope.

(** Harmless names make no difference: the workbook opens, and has the same sheets
with the same cells as the same workbook without names. *)
Theorem C71_same :
forall dec country W W' c c' file file', good_workbook dec country W -> stored W c -> in_file c file ->
unnamed (wb_globals W) (wb_globals W') ->
(forall before g after, wb_globals W' = before ++ g :: after -> good_global dec country (wb_globals W') before g) ->
wb_more W' = wb_more W -> wb_sheets W' = wb_sheets W -> stored W' c' -> in_file c' file' ->
exists bk bk', open_workbook_dec dec file = Ok bk /\ open_workbook_dec dec file' = Ok bk' /\
  bk_names bk = bk_names bk' /\ bk_datemode bk = bk_datemode bk' /\ Forall2 same_cells (bk_sheets bk) (bk_sheets bk').
Proof. exact C71_same_proof. Qed.
Print Assumptions C71_same.

Definition bare_globals (off : Z) : list global :=
  filter (fun g => match g with Named _ => false | _ => true end) (PropsOld.ex_globals off).
Definition bare_off : Z := size (globals_bytes (mkworkbook [] (bare_globals 0) [])).
Definition bare_book : workbook := mkworkbook [] (bare_globals bare_off) [PropsOld.ex_sheet].
Definition bare_stream : str := globals_bytes bare_book ++ sheet_bytes PropsOld.ex_sheet.
Lemma bare_stored : stored bare_book bare_stream.
Proof.
  split; [exists [], (sheet_bytes PropsOld.ex_sheet); split; reflexivity|].
  replace (tabs (says bare_book)) with [([8364; 49]%N, bare_off)] by reflexivity.
  constructor; [|constructor]. exists (globals_bytes bare_book), []. split; [rewrite app_nil_r; reflexivity|vm_compute; reflexivity].
Qed.
Lemma bare_good before g after : wb_globals bare_book = before ++ g :: after -> good_global PropsOld.ex_dec (1, 46) (wb_globals bare_book) before g.
Proof.
  intro E. apply (PropsOld.good_all (1, 46) (wb_globals bare_book) (wb_globals bare_book) []) with (after := after); [reflexivity| |exact E|cbn; lia].
  pose (L := bare_globals bare_off). change (PropsOld.good_from (1, 46) L [] (bare_globals bare_off)). unfold bare_globals, PropsOld.ex_globals, PropsOld.ex_xf. cbn [PropsOld.good_from app good_global filter].
  assert (UP : forall page, used_page L page -> exists t, PropsOld.ex_dec page (lit "me") = Ok t).
  { intros page [->|(c & extra & -> & I)]; [eexists; reflexivity|]. cbn in I. repeat (destruct I as [I|I]; [try discriminate I; injection I as <- <-|]); try destruct I. eexists; reflexivity. }
  unfold word16. repeat split; try lia; try (vm_compute; reflexivity); try exact UP; try (cbn; intuition discriminate); try (unfold size; cbn; lia); try (vm_compute; congruence).
  all: try (eexists; reflexivity); intros; try (eexists; reflexivity); try discriminate.
Qed.
Example C71_same_ex : good_workbook PropsOld.ex_dec (1, 46) PropsOld.ex_book /\ unnamed (wb_globals PropsOld.ex_book) (wb_globals bare_book) /\
  (forall before g after, wb_globals bare_book = before ++ g :: after -> good_global PropsOld.ex_dec (1, 46) (wb_globals bare_book) before g) /\
  stored bare_book bare_stream /\ length (names_of (wb_globals PropsOld.ex_book)) = 4%nat /\
  exists bk, open_workbook_dec PropsOld.ex_dec PropsOld.ex_stream = Ok bk /\ open_workbook_dec PropsOld.ex_dec bare_stream = Ok bk.
Proof.
  split; [exact PropsOld.ex_good|]. split.
  - unfold PropsOld.ex_book, bare_book. cbn [wb_globals]. unfold bare_globals, PropsOld.ex_globals. cbn [filter].
    repeat first [apply SpecOld.un_nil | apply SpecOld.un_drop | apply SpecOld.un_tab | apply SpecOld.un_keep; [exact I|]].
  - split; [exact bare_good|]. split; [exact bare_stored|]. split; [reflexivity|]. eexists. split; vm_compute; reflexivity.
Qed.

(** Not every workbook with names opens. A name that belongs to a sheet gives that
sheet by the number of a Reference; if there is no such Reference, or it is not one
by the name of a sheet, the workbook does not open, however good the rest is. *)
Theorem C71_reference_refuted :
forall dec country W c file, good_bof (wb_more W) ->
(forall before g after, wb_globals W = before ++ g :: after -> good_global dec country (wb_globals W) before g) ->
Exists (fun n => SpecNames.nm_sheet n <> 0 /\ forall name, ~ names_sheet dec (wb_globals W) (SpecNames.nm_sheet n) name) (names_of (wb_globals W)) ->
stored W c -> in_file c file ->
open_workbook_dec dec file = Err KeyError.
Proof. exact C71_reference_refuted_proof. Qed.
Print Assumptions C71_reference_refuted.

(** A name for the sheet of the second Reference, which is for this workbook. *)
Definition lost_globals : list global :=
  [Reference 1 3 [115]%N; Reference 0 4 []; Named (PropsOld.ex_name 2 (lit "n") SpecNames.Nothing)].
Definition lost_book : workbook := mkworkbook [] lost_globals [].
Example C71_reference_refuted_ex : good_bof (wb_more lost_book) /\
  (forall before g after, wb_globals lost_book = before ++ g :: after -> good_global PropsOld.ex_dec (0, 0) (wb_globals lost_book) before g) /\
  Exists (fun n => SpecNames.nm_sheet n <> 0 /\ forall name, ~ names_sheet PropsOld.ex_dec (wb_globals lost_book) (SpecNames.nm_sheet n) name) (names_of (wb_globals lost_book)) /\
  stored lost_book (globals_bytes lost_book) /\
  open_workbook_dec PropsOld.ex_dec (globals_bytes lost_book) = Err KeyError.
Proof.
  split; [unfold good_bof, size; cbn; lia|]. split; [|split; [|split]].
  - intros before g after E. apply (PropsOld.good_all (0, 0) (wb_globals lost_book) (wb_globals lost_book) []) with (after := after); [reflexivity| |exact E|cbn; lia].
    unfold lost_book, lost_globals. cbn [wb_globals PropsOld.good_from app good_global]. repeat split; try lia; try (vm_compute; congruence); intros; try discriminate; eexists; reflexivity.
  - cbn [lost_book wb_globals lost_globals names_of flat_map app]. constructor. split; [vm_compute; discriminate|]. intros name (before & n & rest & after & E & N & _).
    cbn [SpecNames.nm_sheet SpecNames.as_name SpecNames.on_sheet PropsOld.ex_name] in N. unfold lost_book, lost_globals in E. cbn [wb_globals] in E.
    destruct before as [|x [|y [|z before]]]; cbn [app] in E.
    + cbn in N. discriminate N.
    + inversion E.
    + inversion E.
    + inversion E as [[X1 X2 X3 X4]]. destruct before; discriminate X4.
  - split; [exists [], []; split; [rewrite app_nil_r; reflexivity|reflexivity]|constructor].
  - vm_compute. reflexivity.
Qed.

