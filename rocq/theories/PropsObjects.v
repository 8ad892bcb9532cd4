(** * Links, tips, notes, drawn objects and text boxes in BIFF8 sheets (C64): the property theorems *)

From Coq Require Import ZifyBool ZifyNat ZifyN QArith.
From Verif Require Import PyBase PyBaseFacts PyFloat PyText NumPy SpecPack Dbf SpecDbf DbfProofs Dicts Pack XlDate ReadXl XlProofs ReadXlThms XlStruct CompDoc SpecCompDoc SpecSst Sst SstProofs SstThms SpecXl XlSheet SpecXlSheet XlSheetProofs XlSheetThms SpecFmtDate FmtDate Biff SpecBiff BiffProofs BiffThms NamesThms ObjectsThms.
Open Scope nat_scope.
From Verif Require SpecNames SpecObjects.
Open Scope Z_scope.
(** A workbook with one sheet, in it some items and a number in A1. *)
Definition drawn_sheet (items : list item) : sheet_data := mksheetdata 0x600 [] (items ++ [Cell (mkplace 0 0 0) (CRk (RkInt 7 false) [])]).
Definition drawn_globals (off : Z) : list global := [Xf [0; 0]%N 0 (repeat 0%N 16); Tab off 0 0 (mklayout 0 (false, lit "s") [] None None) []].
Definition drawn_book (items : list item) : workbook :=
  mkworkbook [] (drawn_globals (size (globals_bytes (mkworkbook [] (drawn_globals 0) [])))) [drawn_sheet items].
Definition drawn_stream (items : list item) : str := globals_bytes (drawn_book items) ++ sheet_bytes (drawn_sheet items).
(** These items keep the workbook from opening, which opens without. *)
Definition keeps_closed (items : list item) (e : exn) : Prop :=
  stored (drawn_book items) (drawn_stream items) /\ Forall (good_global (0, 0)) (wb_globals (drawn_book items)) /\
  open_workbook (drawn_stream items) = Err e /\
  exists bk, open_workbook (drawn_stream []) = Ok bk /\ map sh_values (bk_sheets bk) = [[[VFloat (float_of_Z 7)]]].
Definition a_box : SpecObjects.textbox := SpecObjects.mktextbox (repeat 0%N 10) [(true, lit "hi")] (repeat 0%N 4) [[repeat 0%N 8; repeat 0%N 8]].
Definition a_link (u : str) : SpecObjects.link := SpecObjects.mklink (0, 0, 0, 0) 3 None None (SpecObjects.Url u []) None [].

(** Links, tips, notes, drawn objects and text boxes make no difference: the workbook
opens, and has the same sheets with the same cells as the same workbook without. *)
Theorem C64_same :
forall country W W' c c', good_workbook country W -> stored W c ->
wb_more W' = wb_more W -> Forall2 moved_tab (wb_globals W) (wb_globals W') -> Forall (good_global country) (wb_globals W') ->
wb_sheets W' = map without_extras (wb_sheets W) -> stored W' c' ->
exists bk bk', open_workbook c = Ok bk /\ open_workbook c' = Ok bk' /\
  bk_names bk = bk_names bk' /\ bk_datemode bk = bk_datemode bk' /\ Forall2 same_cells (bk_sheets bk) (bk_sheets bk').
Proof. exact C64_same_proof. Qed.
Print Assumptions C64_same.

(** A link to a page with a tip, one to a file with a mark, one within the
    workbook, a note, a drawn line of two parts, and a box with text. *)
Definition ex_extras : list item :=
  [Link (SpecObjects.mklink (0, 1, 0, 2) 0x17 (Some (lit "here")) None (SpecObjects.Url (lit "http://e.org/") (repeat 0%N 12)) None []);
   Tip (0, 1, 0, 2) [8364; 128512]%N;
   Link (SpecObjects.mklink (3, 3, 0, 0) 0x89 None (Some (lit "f")) (SpecObjects.Path 1 (lit "a.xls") (repeat 255%N 24) (Some ([3; 0]%N, lit "a.xls"))) (Some (lit "s!A1")) []);
   Link (SpecObjects.mklink (4, 4, 0, 0) 0x8 None None SpecObjects.Inside (Some (lit "s!A1")) []);
   Note (repeat 0%N 8) (mklayout 0 (false, lit "s") [] None None) [0]%N;
   Drawn (SpecObjects.Object 25 1 0 (repeat 0%N 12) [(13, repeat 0%N 22)] (SpecObjects.Zeros 4));
   Written a_box].
Example C64_same_ex : good_workbook (0, 0) (drawn_book ex_extras) /\ stored (drawn_book ex_extras) (drawn_stream ex_extras) /\
  Forall2 moved_tab (wb_globals (drawn_book ex_extras)) (wb_globals (drawn_book [])) /\
  wb_sheets (drawn_book []) = map without_extras (wb_sheets (drawn_book ex_extras)) /\
  exists bk, open_workbook (drawn_stream ex_extras) = Ok bk /\ open_workbook (drawn_stream []) = Ok bk /\
    bk_names bk = [lit "s"] /\ map sh_values (bk_sheets bk) = [[[VFloat (float_of_Z 7)]]].
Proof.
  split; [|split; [apply drawn_stored|split; [|split; [reflexivity|]]]].
  - split; [unfold good_bof, size; cbn; lia|]. split; [apply drawn_good|]. split; [|split].
    + split; [intros ? ? ? []|]. intros before head name extra after E. exfalso.
      assert (X : In (Foreign head name extra) (wb_globals (drawn_book ex_extras))) by (rewrite E; apply in_elt). cbn in X. intuition discriminate.
    + exists (fun _ => []), (fun _ => O). intros [|i] n N; discriminate N.
    + constructor; [|constructor]. split; [unfold word16; cbn; lia|]. split; [unfold good_bof, size; cbn; lia|]. split; [|split; [cbn; auto|]].
      * exists [], (sd_items (drawn_sheet ex_extras)). split; [reflexivity|]. split; repeat constructor.
      * replace (xf_count _) with 1 by reflexivity. unfold ex_extras, drawn_sheet. cbn [sd_items app].
        destruct (plain_layout (lit "s") ltac:(auto)) as [L1 L2].
        repeat (apply Forall_cons || apply Forall_nil); cbn [good_item].
        -- unfold SpecObjects.good_link, SpecObjects.good_area, SpecObjects.good_options, SpecObjects.good_opt, SpecObjects.good_target, SpecObjects.good_wide, word16, scalar, size. cbn.
           repeat (apply Forall_cons || apply Forall_nil || split); try reflexivity; try lia; auto.
        -- unfold SpecObjects.good_tip, SpecObjects.good_area, SpecObjects.good_wide, word16, scalar, size. cbn.
           repeat (apply Forall_cons || apply Forall_nil || split); try reflexivity; try lia; auto.
        -- unfold SpecObjects.good_link, SpecObjects.good_area, SpecObjects.good_options, SpecObjects.good_opt, SpecObjects.good_target, SpecObjects.good_wide, word16, scalar, size. cbn.
           repeat (apply Forall_cons || apply Forall_nil || split); try reflexivity; try lia; auto.
        -- unfold SpecObjects.good_link, SpecObjects.good_area, SpecObjects.good_options, SpecObjects.good_opt, SpecObjects.good_target, SpecObjects.good_wide, word16, scalar, size. cbn.
           repeat (apply Forall_cons || apply Forall_nil || split); try reflexivity; try lia; auto.
        -- split; [reflexivity|]. split; [exact L1|]. split; [exact L2|]. split; [unfold size; cbn; lia|reflexivity].
        -- unfold SpecObjects.good_drawing, SpecObjects.good_part, word16, size. cbn. repeat (apply Forall_cons || apply Forall_nil || split); try reflexivity; try lia; try discriminate.
        -- unfold SpecObjects.good_textbox, good_stretch, units, scalar, size. cbn. repeat (apply Forall_cons || apply Forall_nil || split); try reflexivity; try lia; try discriminate; auto.
        -- cbn. unfold word16. repeat split; try lia; try reflexivity.
  - cbn. repeat constructor. eexists. reflexivity.
  - eexists. split; [vm_compute; reflexivity|]. split; [vm_compute; reflexivity|]. split; reflexivity.
Qed.

(** A URL with a character beyond 65535: the reader takes two bytes for every
character before the zero. With a short character instead the link is fine. *)
Theorem C64_url_refuted :
keeps_closed [Link (a_link [104; 128512]%N)] AssertionError /\
exists bk, open_workbook (drawn_stream [Link (a_link [104; 8364]%N)]) = Ok bk.
Proof. exact C64_url_refuted_proof. Qed.
Print Assumptions C64_url_refuted.

(** Text in a box before any object was drawn: the variable for its number has not
been set. *)
Theorem C64_box_refuted :
keeps_closed [Written a_box] UnboundLocalError /\ SpecObjects.good_textbox a_box.
Proof. exact C64_box_refuted_proof. Qed.
Print Assumptions C64_box_refuted.

(** An object record without anything in it. *)
Theorem C64_object_refuted :
keeps_closed [Passed 0x5d []] AttributeError.
Proof. exact C64_object_refuted_proof. Qed.
Print Assumptions C64_object_refuted.

(** A tip for which there is no link, and one for other cells than the link before
it. *)
Theorem C64_tip_refuted :
keeps_closed [Tip (0, 0, 0, 0) (lit "t")] AssertionError /\
keeps_closed [Link (a_link (lit "http://e.org")); Tip (0, 0, 0, 1) (lit "t")] AssertionError.
Proof. exact C64_tip_refuted_proof. Qed.
Print Assumptions C64_tip_refuted.

(** A mark after a target of a kind the reader does not know (an item moniker, say):
it takes the target for the mark. *)
Theorem C64_mark_refuted :
keeps_closed [Link (SpecObjects.mklink (0, 0, 0, 0) 11 None None (SpecObjects.Other (repeat 4%N 16) [100; 0; 0; 0]%N) (Some (lit "m")) [])] XLRDError.
Proof. exact C64_mark_refuted_proof. Qed.
Print Assumptions C64_mark_refuted.

