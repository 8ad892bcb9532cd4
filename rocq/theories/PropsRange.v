(** * Texts of references to cells and ranges: the property theorems *)

From Coq Require Import ZifyBool ZifyNat ZifyN QArith.
From Verif Require Import PyBase PyText PyFloat NumPy ReadXl RangeName SpecRepr SpecXl SpecRange PyBaseFacts ReprProofs XlProofs RangeProofs RangeThms.
Open Scope nat_scope.
Open Scope Z_scope.
(** Three sheets. *)
Definition sheets3 : list str := [lit "a"; lit "b c"; lit "d'e!"].

(** cellnameabs gives the letters of the column and the number of the row with a dollar sign before
each, for the 702 columns with names of up to two letters, and raises IndexError for those after
them; in R1C1 style it gives both numbers. *)
Theorem C80_cell :
forall r c, (0 <= c < 702 -> exists s, cellnameabs r c false = Ok s /\ dollar r c s) /\
  (702 <= c -> cellnameabs r c false = Err IndexError) /\
  (exists s t, cellnameabs r c true = Ok (s ++ t) /\ axis 82 false r s /\ axis 67 false c t).
Proof. exact C80_cell_proof. Qed.
Print Assumptions C80_cell.

Example C80_cell_ex : cellnameabs 5 701 false = Ok (lit "$ZZ$6") /\ cellnameabs 5 702 false = Err IndexError /\
  cellnameabs 5 7 true = Ok (lit "R6C8").
Proof. split; [reflexivity|]. split; reflexivity. Qed.

(** rangename3d gives the sheets and the cells, the first and the last of each, or one alone when there
is but one; sheet names with an apostrophe or a space stand between apostrophes, with those inside
twice. *)
Theorem C80_range :
forall names slo shi g, 0 <= slo < shi -> shi <= Z.of_nat (length names) -> proper g ->
  exists u v, rangename3d names slo shi g = Ok (u ++ 33%N :: v) /\ sheets_text names slo shi u /\
    rangename2d g = Ok v /\ range_text g v.
Proof. exact C80_range_proof. Qed.
Print Assumptions C80_range.

Example C80_range_ex : rangename3d sheets3 1 3 (5, 20, 7, 10) = Ok (lit "'b c':'d''e!'!$H$6:$J$20") /\
  rangename3d sheets3 0 1 (5, 6, 7, 8) = Ok (lit "a!$H$6") /\ proper (5, 20, 7, 10).
Proof. split; [reflexivity|]. split; [reflexivity|]. unfold proper. lia. Qed.

(** The text determines sheets and cells, if no two sheets have the same name and no name has a colon. *)
Theorem C80_unique :
forall names slo shi g slo' shi' g' s, NoDup names -> Forall (fun n => ~ In 58%N n) names ->
  0 <= slo < shi -> shi <= Z.of_nat (length names) -> proper g ->
  0 <= slo' < shi' -> shi' <= Z.of_nat (length names) -> proper g' ->
  rangename3d names slo shi g = Ok s -> rangename3d names slo' shi' g' = Ok s ->
  slo = slo' /\ shi = shi' /\ g = g'.
Proof. exact C80_unique_proof. Qed.
Print Assumptions C80_unique.

Example C80_unique_ex : NoDup sheets3 /\ Forall (fun n => ~ In 58%N n) sheets3 /\
  rangename3d sheets3 0 3 (0, 2, 0, 1) = Ok (lit "a:'d''e!'!$A$1:$A$2").
Proof.
  split; [repeat constructor; simpl; intuition discriminate|]. split; [|reflexivity].
  repeat constructor; simpl; intuition discriminate.
Qed.

(** With a colon in a name it does not: a:b may be one sheet or two. *)
Theorem C80_unique_refuted :
NoDup [lit "a"; lit "b"; lit "a:b"] /\
  rangename3d [lit "a"; lit "b"; lit "a:b"] 0 2 (0, 1, 0, 1) = rangename3d [lit "a"; lit "b"; lit "a:b"] 2 3 (0, 1, 0, 1) /\
  rangename3d [lit "a"; lit "b"; lit "a:b"] 2 3 (0, 1, 0, 1) = Ok (lit "a:b!$A$1").
Proof. exact C80_unique_refuted_proof. Qed.
Print Assumptions C80_unique_refuted.

(** Sheets by number: an index outside raises IndexError; different names have different texts. *)
Theorem C80_sheet :
forall names i, 0 <= i ->
  (forall n, nth_error names (Z.to_nat i) = Some n -> exists q, quotedsheetname names i = Ok q /\ shown n q) /\
  (Z.of_nat (length names) <= i -> quotedsheetname names i = Err IndexError) /\
  (forall n m q, shown n q -> shown m q -> n = m).
Proof. exact C80_sheet_proof. Qed.
Print Assumptions C80_sheet.

Example C80_sheet_ex : quotedsheetname sheets3 2 = Ok (lit "'d''e!'") /\ quotedsheetname sheets3 3 = Err IndexError.
Proof. split; reflexivity. Qed.

(** Relative references in R1C1 style, asked for or forced by a missing base: row and column are
numbers when absolute, distances in brackets when relative, nothing for no distance. *)
Theorem C80_r1c1 :
forall r c rr cr br bc r1, r1 = true \/ (rr = true /\ br = None) \/ (cr = true /\ bc = None) ->
  exists s t, cellnamerel r c rr cr br bc r1 = Ok (s ++ t) /\ axis 82 rr r s /\ axis 67 cr c t.
Proof. exact C80_r1c1_proof. Qed.
Print Assumptions C80_r1c1.

Example C80_r1c1_ex : cellnamerel (-32) 12 true false None (Some 5) false = Ok (lit "R[-32]C13") /\
  cellnamerel 0 0 true true (Some 5) (Some 5) true = Ok (lit "RC").
Proof. split; reflexivity. Qed.

(** And such a text, also of a range, tells all of them. *)
Theorem C80_r1c1_unique :
forall g rel br bc g' rel' br' bc' s,
  rangename2drel g rel br bc true = Ok s -> rangename2drel g' rel' br' bc' true = Ok s -> g = g' /\ rel = rel'.
Proof. exact C80_r1c1_unique_proof. Qed.
Print Assumptions C80_r1c1_unique.

Example C80_r1c1_unique_ex : rangename3drel sheets3 0 1 false false (-32, -22, -13, 13) (true, true, true, true) None None false =
  Ok (lit "a!R[-32]C[-13]:R[-23]C[12]").
Proof. reflexivity. Qed.

(** In A1 style, seen from a base cell: absolute parts with a dollar sign, relative ones as the row and
column they lead to, round a sheet of 65536 rows and 256 columns. *)
Theorem C80_a1 :
forall r c rr cr b b', cr = true \/ 0 <= c < 702 ->
  exists s t, cellnamerel r c rr cr (Some b) (Some b') false = Ok (s ++ t) /\ col_mark cr b' c s /\ row_mark rr b r t.
Proof. exact C80_a1_proof. Qed.
Print Assumptions C80_a1.

Example C80_a1_ex : cellnamerel (-1) 3 true false (Some 0) (Some 0) false = Ok (lit "$D65536") /\
  cellnamerel 2 (-1) false true (Some 7) (Some 0) false = Ok (lit "IV$3").
Proof. split; reflexivity. Qed.

(** With one base only the styles mix: the absolute row 6 of the column H seen from column A is written
HR6, which is the text of another cell. *)
Theorem C80_one_base_refuted :
cellnamerel 5 7 false true None (Some 0) false = Ok (lit "HR6") /\ cellname 5 225 = Ok (lit "HR6") /\
  cellreference 0 0 (Some (lit "HR6")) = Ok (5, 225).
Proof. exact C80_one_base_refuted_proof. Qed.
Print Assumptions C80_one_base_refuted.

(** rangename3drel writes sheets and an exclamation mark before the cells when the sheets are absolute
(and not one sheet without a name), the cells alone when both are relative and mean the sheet
itself; else it raises AssertionError, whatever the cells. *)
Theorem C80_relative_sheets :
forall names slo shi a b g rel br bc r1,
  (a = false -> b = false -> 0 <= slo < shi -> shi <= Z.of_nat (length names) ->
   Forall (fun n => n <> []) names ->
   exists u, sheets_text names slo shi u /\
     forall v, (rangename3drel names slo shi a b g rel br bc r1 = Ok (u ++ 33%N :: v) <-> rangename2drel g rel br bc r1 = Ok v)) /\
  (a = true -> b = true -> slo = 0 -> shi = 1 ->
   rangename3drel names slo shi a b g rel br bc r1 = rangename2drel g rel br bc r1) /\
  (a = true \/ b = true -> ~ (a = true /\ b = true /\ slo = 0 /\ shi = 1) ->
   rangename3drel names slo shi a b g rel br bc r1 = Err AssertionError).
Proof. exact C80_relative_sheets_proof. Qed.
Print Assumptions C80_relative_sheets.

Example C80_relative_sheets_ex : rangename3drel sheets3 0 1 true true (0, 1, 2, 3) (true, true, true, true) None None false =
    Ok (lit "RC[2]:RC[2]") /\
  rangename3drel sheets3 0 2 true true (0, 1, 2, 3) (true, true, true, true) None None false = Err AssertionError /\
  rangename3drel sheets3 0 2 false false (0, 1, 2, 3) (true, true, true, true) (Some 0) (Some 0) false = Ok (lit "a:'b c'!C1:C1").
Proof. split; [reflexivity|]. split; reflexivity. Qed.

