(** * Widths of columns: the property theorems *)

From Coq Require Import ZifyBool ZifyNat ZifyN QArith.
From Verif Require Import PyBase PyText PyFloat NumPy Dbf CompDoc ReadXl XlStruct XlSheet Biff CellAddr SheetView SpecView PyBaseFacts SpecAccess AccessProofs AddrThms ViewThms ColWidth SpecWidth WidthThms.
Open Scope nat_scope.
Open Scope Z_scope.
(** Columns 1 to 3 have width 2560, column 2 then 512; others have 10 characters. *)
Definition width_records : list (Z * str) :=
  [(125, [1; 0; 3; 0; 0; 10; 15; 0; 2; 0]%N); (85, [10; 0]%N); (125, [2; 0; 2; 0; 0; 2; 15; 0; 2; 0]%N)].

(** The width of a column, of sheets with formatting: in BIFF8 it is that of the last COLINFO record for the column, or else of STANDARDWIDTH,
or of DEFCOLWIDTH, or 8 characters; in BIFF4 to 7 the first of these counts only if the bit in GCW is clear, and the second only
if it is set; in BIFF3 the second never counts. *)
Theorem C88_width :
forall bv l w c, read_widths bv new_widths l = Ok w -> 0 <= c < 256 ->
  exists i s d g z, own l c i /\ standard l s /\ common l d /\ global l c g /\ computed_column_width true bv w c = Ok z /\
    (80 <= bv -> first_of [i; s] d z) /\
    (40 <= bv < 80 -> g = true -> first_of [s] d z) /\
    (40 <= bv < 80 -> g = false -> first_of [i] d z) /\
    (bv = 30 -> first_of [i] d z).
Proof. exact C88_width_proof. Qed.
Print Assumptions C88_width.

Example C88_width_ex : exists w, read_widths 80 new_widths width_records = Ok w /\ computed_column_width true 80 w 1 = Ok 2560 /\
  computed_column_width true 80 w 2 = Ok 512 /\ computed_column_width true 80 w 4 = Ok 2560 /\ computed_column_width true 30 w 2 = Ok 512 /\
  computed_column_width true 80 new_widths 2 = Ok 2048.
Proof. eexists. split; [reflexivity|]. repeat split; reflexivity. Qed.

(** It is not so in BIFF2: whatever widths the columns have, that of DEFCOLWIDTH or 8 characters is given for all. *)
Theorem C88_biff2_refuted :
forall bv w w' c c', bv < 30 -> w_default w = w_default w' ->
  computed_column_width true bv w c = computed_column_width true bv w' c' /\
  exists z, computed_column_width true bv w c = Ok z /\ first_of [] (w_default w) z.
Proof. exact C88_biff2_refuted_proof. Qed.
Print Assumptions C88_biff2_refuted.

Example C88_biff2_refuted_ex : computed_column_width true 21 (mkwidths [(0, 512)] None None (repeat false 256)) 0 = Ok 2048 /\
  computed_column_width true 30 (mkwidths [(0, 512)] None None (repeat false 256)) 0 = Ok 512.
Proof. split; reflexivity. Qed.

(** Without formatting_info there are no widths: XLRDError is raised; with it, for columns 0 to 255, there always is one. *)
Theorem C88_unformatted :
forall bv w c,
  computed_column_width false bv w c = Err XLRDError /\
  (forall l, read_widths bv new_widths l = Ok w -> 0 <= c < 256 -> exists z, computed_column_width true bv w c = Ok z /\ 0 <= z).
Proof. exact C88_unformatted_proof. Qed.
Print Assumptions C88_unformatted.

Example C88_unformatted_ex : computed_column_width false 80 new_widths 3 = Err XLRDError /\ computed_column_width true 70 new_widths 256 = Err IndexError.
Proof. split; reflexivity. Qed.

