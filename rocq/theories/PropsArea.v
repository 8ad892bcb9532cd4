(** * Cells and areas of names: the property theorems *)

From Coq Require Import ZifyBool ZifyNat ZifyN QArith.
From Verif Require Import PyBase PyText PyFloat NumPy CompDoc ReadXl SpecXl XlAccess XlNames SpecAccess PyBaseFacts AccessProofs NameArea SpecArea AreaThms.
Open Scope nat_scope.
Open Scope Z_scope.
(** A book of two sheets: the first is empty, the second has two rows of two cells. *)
Definition area_book : book := mkbook [lit "a"; lit "b"]
  [mksheet 0 0 [] []; mksheet 2 2 [[VInt 10; VInt 11]; [VInt 20; VInt 21]] [[2; 2]; [2; 4]]] 0.
(** b!$B$1 and b!$B$1:$C$65536. *)
Definition place_b1 : result := Some (oREF, Some [mkref 1 2 0 1 1 2]).
Definition area_b : result := Some (oREF, Some [mkref 1 2 0 65536 1 3]).
(** b!$B$1 and b!$B$2 together. *)
Definition two_places : result := Some (oREF, Some [mkref 1 2 0 1 1 2; mkref 1 2 1 2 1 2]).

(** The cell method gives a cell exactly for a name whose result is one absolute reference, to one place of
one sheet the book has, where that sheet has a cell; and it is that cell. *)
Theorem C84_cell :
forall wb res t v,
  name_cell wb res = Ok (t, v) <->
  exists r k i j sh, refers res r /\ on_place r k i j /\ nth_error (bk_sheets wb) k = Some sh /\ has_cell sh i j t v.
Proof. exact C84_cell_proof. Qed.
Print Assumptions C84_cell.

Example C84_cell_ex : name_cell area_book place_b1 = Ok (2, VInt 11) /\ refers place_b1 (mkref 1 2 0 1 1 2) /\
  on_place (mkref 1 2 0 1 1 2) 1 0 1 /\ exists sh, nth_error (bk_sheets area_book) 1 = Some sh /\ has_cell sh 0 1 2 (VInt 11).
Proof.
  split; [reflexivity|]. split; [reflexivity|]. split; [reflexivity|]. eexists. split; [reflexivity|].
  apply cell_iff. reflexivity.
Qed.

(** Otherwise it fails: with TypeError when the result is a reference to nobody knows what, with IndexError
when the reference is to one place that the book does not have, and with XLRDError in all other cases. *)
Theorem C84_cell_fails :
forall wb res e,
  name_cell wb res = Err e <->
  (e = TypeError /\ unknown res) \/
  (e = XLRDError /\ ~ unknown res /\ ~ exists r k i j, refers res r /\ on_place r k i j) \/
  (e = IndexError /\ exists r k i j, refers res r /\ on_place r k i j /\
     ~ exists sh t v, nth_error (bk_sheets wb) k = Some sh /\ has_cell sh i j t v).
Proof. exact C84_cell_fails_proof. Qed.
Print Assumptions C84_cell_fails.

Example C84_cell_fails_ex : name_cell area_book (Some (oREF, None)) = Err TypeError /\ name_cell area_book two_places = Err XLRDError /\
  name_cell area_book (Some (oREF, Some [mkref 0 1 0 1 0 1])) = Err IndexError /\
  name_cell area_book (Some (oREF, Some [mkref (-1) 0 0 1 0 1])) = Err XLRDError.
Proof.
  repeat split; reflexivity.
Qed.

(** The documentation says XLRDError is raised when the name is no constant absolute reference to a single
cell, or area. It is not so of a name such as =b!$A$1:INDEX(...): of a reference and an operand not known, the
range operator makes a reference without value, and both methods then raise TypeError. *)
Theorem C84_documented_refuted :
do_ranges true [Opnd oUNK NoVal; Opnd oREF (RefsVal [absolute])] = Ok [Opnd oREF NoVal] /\
  forall wb res clipped, res = Some (oREF, None) ->
  name_cell wb res = Err TypeError /\ name_area2d wb res clipped = Err TypeError.
Proof. exact C84_documented_refuted_proof. Qed.
Print Assumptions C84_documented_refuted.

Example C84_documented_refuted_ex : name_area2d area_book (Some (oUNK, None)) true = Err XLRDError /\ name_area2d area_book (Some (oREF, None)) true = Err TypeError.
Proof.
  split; reflexivity.
Qed.

(** Without clipping, area2d gives the bounds of the one reference as they are, with the one sheet it is to,
whatever that sheet has. *)
Theorem C84_area :
forall wb res sh a b c d,
  name_area2d wb res false = Ok (sh, (a, b, c, d)) <->
  exists k, refers res (mkref (Z.of_nat k) (Z.of_nat k + 1) a b c d) /\ nth_error (bk_sheets wb) k = Some sh.
Proof. exact C84_area_proof. Qed.
Print Assumptions C84_area.

Example C84_area_ex : exists sh, name_area2d area_book area_b false = Ok (sh, (0, 65536, 1, 3)) /\ sh_nrows sh = 2 /\ sh_ncols sh = 2.
Proof.
  eexists. split; [reflexivity|]. split; reflexivity.
Qed.

(** Clipped, the rows of the area are those rows of the reference that the sheet has, and the columns alike; the bounds
are in order and within the sheet; the lower bound is the one of the reference unless that is past the sheet. *)
Theorem C84_clipped :
forall wb res sh a b c d,
  name_area2d wb res true = Ok (sh, (a, b, c, d)) ->
  exists r k, refers res r /\ on_sheet r k /\ nth_error (bk_sheets wb) k = Some sh /\
    usable (rowxlo r) (rowxhi r) (sh_nrows sh) a b /\ usable (colxlo r) (colxhi r) (sh_ncols sh) c d.
Proof. exact C84_clipped_proof. Qed.
Print Assumptions C84_clipped.

Example C84_clipped_ex : exists sh, name_area2d area_book area_b true = Ok (sh, (0, 2, 1, 2)) /\ usable 0 65536 2 0 2 /\ usable 1 3 2 1 2.
Proof.
  eexists. split; [reflexivity|]. unfold usable. split; repeat split; intros; lia.
Qed.

(** So in a sheet all rows of which are full, every place of the clipped area has a cell: one that the reference
is to. *)
Theorem C84_places :
forall wb res sh a b c d i j,
  name_area2d wb res true = Ok (sh, (a, b, c, d)) -> rectangular sh -> a <= i < b -> c <= j < d ->
  exists t v, has_cell sh i j t v /\ sheet_cell sh i j = Ok (t, v).
Proof. exact C84_places_proof. Qed.
Print Assumptions C84_places.

Example C84_places_ex : exists sh, name_area2d area_book area_b true = Ok (sh, (0, 2, 1, 2)) /\ rectangular sh /\ sheet_cell sh 1 1 = Ok (4, VInt 21).
Proof.
  eexists. split; [reflexivity|]. split; [|reflexivity]. split; [reflexivity|]. split; [reflexivity|]. split; repeat constructor.
Qed.

(** The failures of area2d: TypeError for a reference to nobody knows what, XLRDError for what is no single reference
to one sheet, IndexError for a sheet the book does not have, and AssertionError exactly when it is
to clip and a lower bound is negative. *)
Theorem C84_area_fails :
forall wb res clipped e, sized wb ->
  (name_area2d wb res clipped = Err e <->
  (e = TypeError /\ unknown res) \/
  (e = XLRDError /\ ~ unknown res /\ ~ exists r k, refers res r /\ on_sheet r k) \/
  (exists r k, refers res r /\ on_sheet r k /\
     (e = IndexError /\ nth_error (bk_sheets wb) k = None \/
      e = AssertionError /\ nth_error (bk_sheets wb) k <> None /\ clipped = true /\ (rowxlo r < 0 \/ colxlo r < 0)))).
Proof. exact C84_area_fails_proof. Qed.
Print Assumptions C84_area_fails.

Example C84_area_fails_ex : sized area_book /\ name_area2d area_book two_places true = Err XLRDError /\
  name_area2d area_book (Some (oREF, Some [mkref 2 3 0 1 0 1])) false = Err IndexError /\
  name_area2d area_book (Some (oREF, Some [mkref 1 2 (-1) 1 0 1])) true = Err AssertionError /\
  exists sh, name_area2d area_book (Some (oREF, Some [mkref 1 2 (-1) 1 0 1])) false = Ok (sh, (-1, 1, 0, 1)).
Proof.
  split; [repeat constructor; simpl; lia|]. split; [reflexivity|]. split; [reflexivity|]. split; [reflexivity|]. eexists. reflexivity.
Qed.

(** A name with a cell has an area, the one place of that cell, and clipping takes nothing from it when the sheet
is full and the bounds are not negative. *)
Theorem C84_agree :
forall wb res t v, name_cell wb res = Ok (t, v) ->
  exists sh i j, name_area2d wb res false = Ok (sh, (i, i + 1, j, j + 1)) /\ has_cell sh i j t v /\
    (rectangular sh -> 0 <= i -> 0 <= j -> name_area2d wb res true = Ok (sh, (i, i + 1, j, j + 1))).
Proof. exact C84_agree_proof. Qed.
Print Assumptions C84_agree.

Example C84_agree_ex : exists sh, name_cell area_book place_b1 = Ok (2, VInt 11) /\ name_area2d area_book place_b1 true = Ok (sh, (0, 1, 1, 2)).
Proof.
  eexists. split; reflexivity.
Qed.

