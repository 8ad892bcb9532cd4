(** * Xlsx workbooks, from the archive to the pack (C61, C62): proofs of the property theorems *)

From Coq Require Import ZifyBool ZifyNat ZifyN QArith.
From Verif Require Import PyBase PyBaseFacts PyFloat PyText NumPy SpecArray ArrayFacts SpecPack Dbf SpecDbf DbfProofs Dicts Pack XlDate ReadXl XlProofs ReadXlThms FmtDate FmtDateThms SpecXl XlSheet SpecXlSheet XlSheetProofs XlSheetThms SpecNumber NumberProofs SpecBiff BiffProofs BiffThms Xlsx SpecXlsx XlsxProofs.
Open Scope nat_scope.
Open Scope Z_scope.

(** A workbook S with one worksheet, of these rows, and these shared strings. *)
Definition small_zip (strings : list str) (rows : list elem) : archive :=
  let e t a x c := Elem (main_ns ++ t) a x c in
  [(lit "xl/_rels/workbook.xml.rels",
    Some (Elem [] [] None [Elem (package_ns ++ lit "Relationship")
      [(lit "Id", lit "i"); (lit "Type", lit "worksheet"); (lit "Target", lit "s.xml")] None []]));
   (lit "xl/workbook.xml",
    Some (e [] [] None [e (lit "sheet") [(lit "name", lit "S"); (lit "sheetId", lit "1"); (office_ns ++ lit "id", lit "i")] None []]));
   (lit "xl/sharedStrings.xml", Some (e [] [] None (map (fun t => e (lit "si") [] None [e (lit "t") [] (Some t) []]) strings)));
   (lit "xl/s.xml", Some (e [] [] None rows))].
Definition small_cell (a : list (str * str)) (v : str) : elem :=
  Elem (main_ns ++ lit "c") a None [Elem (main_ns ++ lit "v") [] (Some v) []].

Lemma C61_opens_proof :
forall z dm l, xlsx_file z dm l ->
exists shs, open_zip z = Ok (mkbook (map ct_name l) shs dm) /\ Forall2 shows_sheet l shs.
Proof.
exact opens_ok.
Qed.

Lemma C61_bad_row_proof :
forall z dm ws w shared root row, lists_sheets z dm ws -> In w ws -> part_at z (snd w) root -> shared_at z shared ->
row = root \/ within row root -> bad_row shared row -> forall b, open_zip z <> Ok b.
Proof.
exact bad_row_refused.
Qed.

Lemma C61_missing_sheet_proof :
forall z dm ws w, lists_sheets z dm ws -> In w ws -> missing_part z (snd w) -> forall b, open_zip z <> Ok b.
Proof.
exact missing_sheet_refused.
Qed.

Lemma C61_no_workbook_proof :
forall z, missing_part z (lit "xl/workbook.xml") -> open_zip z = Err XLRDError.
Proof.
exact no_workbook.
Qed.

Lemma C61_capital_relations_refuted_proof :
forall z dm ws w x k e, lists_sheets z dm ws -> In w ws -> after_last slash (snd w) x ->
In (k, e) z -> same_name k (lit "xl/worksheets/_rels/" ++ x ++ lit ".rels") ->
(forall m, In m z -> same_name (fst m) (lit "xl/worksheets/_rels/" ++ x ++ lit ".rels") -> ~ small_name (fst m)) ->
forall b, open_zip z <> Ok b.
Proof.
exact capital_relations_refused.
Qed.

Lemma C61_unnumbered_row_refuted_proof :
exists sh, open_zip (small_zip [] [Elem (main_ns ++ lit "row") [] None [small_cell [(lit "r", lit "B5")] (lit "7")]]) =
           Ok (mkbook [lit "S"] [sh] 0) /\
  sh_nrows sh = 1 /\ grid_at (sh_values sh) 0 1 = Ok (VFloat (float_of_Z 7)).
Proof.
eexists. split; [vm_compute; reflexivity|]. vm_compute. split; reflexivity.
Qed.

Lemma C61_negative_string_refuted_proof :
exists sh, open_zip (small_zip [lit "a"; lit "b"]
  [Elem (main_ns ++ lit "row") [] None [small_cell [(lit "t", lit "s")] (lit "-1")]]) = Ok (mkbook [lit "S"] [sh] 0) /\
  grid_at (sh_values sh) 0 0 = Ok (VStr (lit "b")).
Proof.
eexists. split; vm_compute; reflexivity.
Qed.

Lemma sheet_column s sh c r n cells : shows_sheet s sh -> column_of (ct_cells s) c r n cells -> 0 <= r -> 0 <= c < cols_of s -> 0 <= n -> r + n <= Z.max r (rows_of s) ->
  SpecXl.cells_of sh c r (r + n - 1) = cells.
Proof.
  intros (H & W & RC & SH) (LC & CC) R C N B. unfold SpecXl.cells_of. apply list_ext. intro i.
  destruct (nth_error cells i) as [[v t]|] eqn:E.
  - assert (Hi : (i < length cells)%nat) by (apply nth_error_Some; congruence).
    rewrite (map_nth_error _ i _ (d := i)).
    + destruct (CC i v t E) as [A1 A2]. destruct (SH (r + Z.of_nat i) c) as ((v' & V1 & V2) & (t' & T1 & T2)); [lia|lia|].
      apply value_shown in V1; [|lia|lia]. apply type_shown in T1; [|lia|lia]. rewrite V1, T1.
      rewrite (shows_value_det _ _ _ _ _ V2 A1). rewrite (kind_det (ct_cells s) (r + Z.of_nat i) c t' t T2 A2). reflexivity.
    + rewrite (nth_error_nth' _ 0%nat) by (rewrite seq_length; lia). rewrite seq_nth by lia. reflexivity.
  - apply nth_error_None in E. apply nth_error_None. rewrite map_length, seq_length. lia.
Qed.
Lemma sheet_picked l which s shs (P : content -> sheet -> Prop) dm : picks_sheet l which s -> Forall2 P l shs ->
  exists sh, P s sh /\ chosen_sheet (mkbook (map ct_name l) shs dm) which sh.
Proof.
  intros H F. destruct H as [i s E|a s b E NI].
  - destruct (nth_forall2 _ _ _ _ _ _ _ F E) as (sh & E' & H). exists sh. split; [exact H|]. apply cs_index. exact E'.
  - assert (E2 : nth_error l (length a) = Some s) by (rewrite E, nth_error_app2, Nat.sub_diag by lia; reflexivity).
    destruct (nth_forall2 _ _ _ _ _ _ _ F E2) as (sh & E' & H). exists sh. split; [exact H|]. apply cs_name with (i := length a); [| |exact E'].
    + cbn [bk_names]. apply map_nth_error. exact E2.
    + intros j J X. cbn [bk_names] in X. rewrite E, map_app in X. rewrite nth_error_app1 in X by (rewrite map_length; lia). apply NI. apply nth_error_In in X. exact X.
Qed.

Lemma C62_pack_proof :
forall z dm l fname which s header startcell stopcell usecols r0 c0 r1 c1 cols nr r cells f,
xlsx_file z dm l -> picks_sheet l which s ->
refers startcell r0 c0 -> stops_at (rows_of s) (cols_of s) stopcell r1 c1 -> c1 < cols_of s ->
chosen_columns c0 c1 usecols cols -> cols <> [] -> Forall (fun c => c0 <= c <= c1) cols ->
headed header r0 nr r -> (forall k, nr = Some k -> k < rows_of s) ->
(forall c, In c cols -> column_of (ct_cells s) c r (Z.max 0 (Z.min (r1 + 1) (rows_of s) - r)) (cells c) /\
                        typed_column dm (cells c) (f c)) ->
exists p, sheetpack_zip z fname which header startcell stopcell usecols = Ok p /\ p_fn p = fname /\
  (forall c, In c cols -> holds_column (p_data p) c (f c)) /\
  (forall c, ~ In c cols -> dget c (p_data p) = None) /\
  (forall c, In c cols -> match nr with
                          | Some k => exists v, dget c (p_names p) = Some v /\ shows_value (ct_cells s) k c v
                          | None => dget c (p_names p) = None
                          end) /\
  (forall c, ~ In c cols -> dget c (p_names p) = None).
Proof.
intros z dm l fname which s header startcell stopcell usecols r0 c0 r1 c1 cols nr r cells f F PK RF SP CW CC CN CF HD NR CL.
destruct (opens_ok z dm l F) as (shs & O & A).
destruct (sheet_picked l which s shs _ dm PK A) as (sh & SH & CH).
pose proof SH as (H & WD & RC & VT). pose proof (refers_nonneg _ _ _ RF) as [P0 P1].
assert (CR : cellreference 0 0 startcell = Ok (r0, c0)) by (apply refers_ref; exact RF).
assert (CS : exists rc, cellreference 0 0 stopcell = Ok rc).
{ destruct SP as [a [->| ->]|a r' c' _ _ R']; [eexists; reflexivity..|]. exists (r', c'). apply refers_ref. exact R'. }
destruct CS as [rc CS]. unfold sheetpack_zip. rewrite CR, CS, O. cbn [bind].
assert (RN : 0 <= r /\ (forall k, nr = Some k -> 0 <= k)).
{ destruct HD as [r0'|r0' a r' c' NA R'|r0']; (split; [lia|]); intros k EK; try discriminate; injection EK as <-; [lia|]. apply refers_nonneg in R'. lia. }
destruct RN as [RN KN].
destruct (C46_rectangle_proof (mkbook (map ct_name l) shs dm) fname which header startcell stopcell usecols sh r0 c0 r1 c1 cols nr r f)
  as (p & E & FN & D1 & D2 & N1 & N2); try assumption.
- destruct SP as [a Ha|a r' c' A1 A2 R']; [rewrite <- H, <- WD; apply st_sheet; exact Ha|apply st_cell; assumption].
- lia.
- intros k EK. specialize (NR k EK). lia.
- intros c I. cbn [bk_datemode]. destruct (CL c I) as [C1 C2]. rewrite Forall_forall in CF. specialize (CF c I).
  replace (SpecXl.cells_of sh c r (Z.min r1 (sh_nrows sh - 1))) with (cells c); [exact C2|]. symmetry.
  destruct (Z.le_gt_cases r (Z.min r1 (sh_nrows sh - 1) + 1)) as [LE|GT].
  + rewrite <- (sheet_column s sh c r _ (cells c) SH C1); [f_equal; lia|lia|lia|lia|lia].
  + destruct C1 as [C1 _]. assert (Z0 : cells c = []) by (apply length_zero_iff_nil; lia). rewrite Z0. unfold SpecXl.cells_of.
    replace (Z.to_nat (Z.min r1 (sh_nrows sh - 1) + 1 - r)) with 0%nat by lia. reflexivity.
- exists p. split; [exact E|]. split; [exact FN|]. split; [exact D1|]. split; [exact D2|]. split; [|exact N2].
  intros c I. rewrite (N1 c I). destruct nr as [k|]; [|reflexivity]. rewrite Forall_forall in CF. specialize (CF c I).
  specialize (NR k eq_refl). specialize (KN k eq_refl). destruct (VT k c) as ((v & V1 & V2) & _); [lia|lia|].
  apply value_shown in V1; [|lia|lia]. exists v. rewrite V1. auto.
Qed.

