(** * Defined names in BIFF8 workbooks (C63): the property theorems *)

From Coq Require Import ZifyBool ZifyNat ZifyN QArith.
From Verif Require Import PyBase PyBaseFacts PyFloat PyText NumPy SpecPack Dbf SpecDbf DbfProofs Dicts Pack XlDate ReadXl XlProofs ReadXlThms XlStruct CompDoc SpecCompDoc SpecSst Sst SstProofs SstThms SpecXl XlSheet SpecXlSheet XlSheetProofs XlSheetThms SpecFmtDate FmtDate Biff SpecBiff BiffProofs BiffThms NamesThms.
Open Scope nat_scope.
From Verif Require SpecNames.
Open Scope Z_scope.
(** A workbook with one sheet and some names. *)
Definition one_sheet : sheet_data := mksheetdata 0x600 [] [Cell (mkplace 0 0 0) (CRk (RkInt 7 false) [])].
Definition plain_name (sheet : Z) (m : SpecNames.meaning) : SpecNames.name_data :=
  SpecNames.mkname 0 0 0 sheet (repeat 0%N 4) (mklayout 0 (false, lit "n") [] None None) m [].
Definition named_globals (off : Z) (l : list SpecNames.meaning) : list global :=
  [Xf [0; 0]%N 0 (repeat 0%N 16); Tab off 0 0 (mklayout 0 (false, lit "s") [] None None) []; Books 1 []; References [(0, 0, 0)]]
  ++ map (fun m => Named (plain_name 0 m)) l.
Definition named_book (l : list SpecNames.meaning) : workbook :=
  mkworkbook [] (named_globals (size (globals_bytes (mkworkbook [] (named_globals 0 l) []))) l) [one_sheet].
Definition named_stream (l : list SpecNames.meaning) : str := globals_bytes (named_book l) ++ sheet_bytes one_sheet.
(** The formulas l as names keep the workbook from opening, which opens without. *)
Definition keeps_shut (l : list SpecNames.expr) (e : exn) : Prop :=
  let ms := map SpecNames.Formula l in
  stored (named_book ms) (named_stream ms) /\ Forall (good_global (0, 0)) (wb_globals (named_book ms)) /\
  good_links (wb_globals (named_book ms)) /\ Forall (good_sheet (0, 0) (wb_globals (named_book ms))) (wb_sheets (named_book ms)) /\
  open_workbook (named_stream ms) = Err e /\
  exists bk, open_workbook (named_stream []) = Ok bk /\ map sh_values (bk_sheets bk) = [[[VFloat (float_of_Z 7)]]].
(** With a chart sheet beside the sheet, and any names: the name n keeps the
    workbook from opening, which opens with the names l alone. *)
Definition charted_globals (off : Z) (l : list SpecNames.name_data) : list global :=
  [Xf [0; 0]%N 0 (repeat 0%N 16); Tab off 0 0 (mklayout 0 (false, lit "s") [] None None) []; Tab 0 0 2 (mklayout 0 (false, lit "n") [] None None) [];
   Books 2 []; References [(0, 0, 0)]] ++ map Named l.
Definition charted_book (l : list SpecNames.name_data) : workbook :=
  mkworkbook [] (charted_globals (size (globals_bytes (mkworkbook [] (charted_globals 0 l) []))) l) [one_sheet].
Definition charted_stream (l : list SpecNames.name_data) : str := globals_bytes (charted_book l) ++ sheet_bytes one_sheet.
Definition shut_by (l : list SpecNames.name_data) (n : SpecNames.name_data) (e : exn) : Prop :=
  let L := l ++ [n] in
  stored (charted_book L) (charted_stream L) /\ Forall (good_global (0, 0)) (wb_globals (charted_book L)) /\
  good_links (wb_globals (charted_book L)) /\ Forall (good_sheet (0, 0) (wb_globals (charted_book L))) (wb_sheets (charted_book L)) /\
  open_workbook (charted_stream L) = Err e /\
  exists bk, open_workbook (charted_stream l) = Ok bk /\ map sh_values (bk_sheets bk) = [[[VFloat (float_of_Z 7)]]].

(** Harmless names make no difference: the workbook opens, and has the same sheets
with the same cells as the same workbook without names. *)
Theorem C63_same :
forall country W W' c c', good_workbook country W -> stored W c ->
unnamed (wb_globals W) (wb_globals W') -> Forall (good_global country) (wb_globals W') ->
wb_more W' = wb_more W -> wb_sheets W' = wb_sheets W -> stored W' c' ->
exists bk bk', open_workbook c = Ok bk /\ open_workbook c' = Ok bk' /\
  bk_names bk = bk_names bk' /\ bk_datemode bk = bk_datemode bk' /\ Forall2 same_cells (bk_sheets bk) (bk_sheets bk').
Proof. exact C63_same_proof. Qed.
Print Assumptions C63_same.

(** SUM(s!A1:B2,s!C3), a name for a constant, and a product that uses it. *)
Definition ex_formulas : list SpecNames.meaning :=
  [SpecNames.Formula (SpecNames.Variadic 2 false false 4 [SpecNames.Ref 1 0 true (repeat 0%N 8); SpecNames.Ref 1 0 false (repeat 0%N 4)]);
   SpecNames.Formula (SpecNames.Whole 3); SpecNames.Nothing;
   SpecNames.Formula (SpecNames.Oper 5 (SpecNames.Paren (SpecNames.Other 2 2 [0; 0]%N)) (SpecNames.Whole 2))].
Example C63_same_ex : good_workbook (0, 0) (named_book ex_formulas) /\ stored (named_book ex_formulas) (named_stream ex_formulas) /\
  unnamed (wb_globals (named_book ex_formulas)) (wb_globals (named_book [])) /\
  exists bk, open_workbook (named_stream ex_formulas) = Ok bk /\ open_workbook (named_stream []) = Ok bk /\
    bk_names bk = [lit "s"] /\ map sh_values (bk_sheets bk) = [[[VFloat (float_of_Z 7)]]].
Proof.
  split; [|split; [apply named_stored|split]].
  - split; [unfold good_bof, size; cbn; lia|]. split; [apply named_good; [vm_compute; split; [discriminate|reflexivity]|repeat constructor]|].
    split; [apply named_links|]. split; [|apply named_sheet].
    exists (fun i => if i =? 2 then [SpecNames.Short] else if i =? 4 then [SpecNames.Number; SpecNames.FreeNumber] else [SpecNames.Unknown]), (fun i => if i =? 4 then 1%nat else 0%nat).
    intros i n N _. destruct i as [|[|[|[|i]]]]; [..|destruct i; discriminate N]; injection N as <-; (split; [cbn; lia|]).
    + split; [|intros ? X; exact X]. cbn. unfold SpecNames.good_class, word16. split; [lia|]. split; [discriminate|]. split; [exists 0, 30; split; [tauto|lia]|]. split; [lia|]. repeat split; try lia; reflexivity.
    + split; [cbn; unfold word16; lia|intros ? X; exact X].
    + cbn. auto.
    + split; [|intros ? X; cbn in *; tauto]. cbn [SpecNames.nm_meaning plain_name ex_formulas SpecNames.harmless]. unfold SpecNames.good_class, word16.
      split; [lia|]. split; [|split; [lia|left; intros ? ? ? ?; cbn in *; intuition (subst; reflexivity)]].
      split; [lia|]. split; [lia|]. split; [reflexivity|]. split; [lia|]. split; [cbn; lia|]. eexists. split; [reflexivity|].
      split; [unfold SpecNames.macro; cbn; intuition discriminate|left; reflexivity].
  - cbn. repeat constructor.
  - eexists. split; [vm_compute; reflexivity|]. split; [vm_compute; reflexivity|]. split; reflexivity.
Qed.

(** A name that divides by zero, as in =1/0. *)
Theorem C63_division_refuted :
keeps_shut [SpecNames.Oper 6 (SpecNames.Whole 1) (SpecNames.Whole 0)] ZeroDivisionError.
Proof. exact C63_division_refuted_proof. Qed.
Print Assumptions C63_division_refuted.

(** A call without arguments of a function that may have some, as in =1+ROW(): it
takes away all that was there. *)
Theorem C63_empty_call_refuted :
keeps_shut [SpecNames.Oper 3 (SpecNames.Whole 1) (SpecNames.Variadic 2 false false 8 [])] AssertionError.
Proof. exact C63_empty_call_refuted_proof. Qed.
Print Assumptions C63_empty_call_refuted.

(** A number that is compared to a text, as in =1<"n". *)
Theorem C63_compare_refuted :
keeps_shut [SpecNames.Oper 9 (SpecNames.Whole 1) (SpecNames.Quote (mklayout 0 (false, lit "n") [] None None))] TypeError.
Proof. exact C63_compare_refuted_proof. Qed.
Print Assumptions C63_compare_refuted.

(** References within references, as in =(s!A1,(s!B1,s!C1)). *)
Theorem C63_union_refuted :
keeps_shut [SpecNames.Union (SpecNames.Ref 1 0 false (repeat 0%N 4)) (SpecNames.Union (SpecNames.Ref 1 0 false (repeat 0%N 4)) (SpecNames.Ref 1 0 false (repeat 0%N 4)))] AssertionError.
Proof. exact C63_union_refuted_proof. Qed.
Print Assumptions C63_union_refuted.

(** CHOOSE with a number that is worked out from cells, as in =CHOOSE(s!A1+1,1,2). *)
Theorem C63_choose_refuted :
keeps_shut [SpecNames.Variadic 2 false false 100 [SpecNames.Oper 3 (SpecNames.Ref 2 0 false (repeat 0%N 4)) (SpecNames.Whole 1); SpecNames.Whole 1; SpecNames.Whole 2]] TypeError.
Proof. exact C63_choose_refuted_proof. Qed.
Print Assumptions C63_choose_refuted.

(** A range with a deleted reference at one end that is then used. *)
Theorem C63_span_refuted :
keeps_shut [SpecNames.Oper 3 (SpecNames.Span (SpecNames.Lost 1 10 (repeat 0%N 4)) (SpecNames.Ref 1 0 false (repeat 0%N 4))) (SpecNames.Whole 1)] AttributeError.
Proof. exact C63_span_refuted_proof. Qed.
Print Assumptions C63_span_refuted.

(** Twelve names of which each uses the next. *)
Theorem C63_chain_refuted :
keeps_shut (map (fun i => SpecNames.Other 2 (Z.of_nat i) [0; 0]%N) (seq 2 11) ++ [SpecNames.Whole 1]) XLRDError.
Proof. exact C63_chain_refuted_proof. Qed.
Print Assumptions C63_chain_refuted.

(** A name that uses itself. *)
Theorem C63_self_refuted :
keeps_shut [SpecNames.Oper 3 (SpecNames.Other 2 1 [0; 0]%N) (SpecNames.Whole 1)] XLRDError.
Proof. exact C63_self_refuted_proof. Qed.
Print Assumptions C63_self_refuted.

(** A text that is no number in arithmetic, as in ="n"+1. *)
Theorem C63_text_refuted :
keeps_shut [SpecNames.Oper 3 (SpecNames.Quote (mklayout 0 (false, lit "n") [] None None)) (SpecNames.Whole 1)] ValueError.
Proof. exact C63_text_refuted_proof. Qed.
Print Assumptions C63_text_refuted.

(** Names for 16, as a sum of truths with a sign, which are whole numbers, and for
powers of it up to one beyond all doubles, which then is added to a double. *)
Theorem C63_huge_refuted :
keeps_shut
  (let four e := SpecNames.Oper 5 (SpecNames.Oper 5 e e) (SpecNames.Oper 5 e e) in
   let one := SpecNames.Sign 19 (SpecNames.Logical true) in
   [fold_right (SpecNames.Oper 3) one (repeat one 15)] ++
   map (fun i => four (SpecNames.Other 2 i [0; 0]%N)) [1; 2; 3; 4] ++
   [SpecNames.Oper 3 (SpecNames.Other 2 5 [0; 0]%N) (SpecNames.Real (S754_finite false 4503599627370496 (-53)))]) OverflowError.
Proof. exact C63_huge_refuted_proof. Qed.
Print Assumptions C63_huge_refuted.

(** A name that uses a name for a chart sheet, in a workbook with one worksheet. *)
Theorem C63_sheetless_refuted :
shut_by [plain_name 2 (SpecNames.Formula (SpecNames.Whole 3))] (plain_name 0 (SpecNames.Formula (SpecNames.Other 2 1 [0; 0]%N))) IndexError.
Proof. exact C63_sheetless_refuted_proof. Qed.
Print Assumptions C63_sheetless_refuted.

(** A name that uses a macro; the macro alone does no harm. *)
Theorem C63_macro_refuted :
shut_by [SpecNames.mkname 8 0 0 0 (repeat 0%N 4) (mklayout 0 (false, lit "n") [] None None) (SpecNames.Opaque [1; 0; 0]%N) []] (plain_name 0 (SpecNames.Formula (SpecNames.Other 2 1 [0; 0]%N))) FormulaError.
Proof. exact C63_macro_refuted_proof. Qed.
Print Assumptions C63_macro_refuted.

