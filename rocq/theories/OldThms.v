(** * Workbooks of BIFF 5 and 7, from the file to the pack (C69): proofs of the property theorems *)

From Coq Require Import ZifyBool ZifyNat ZifyN QArith.
From Verif Require Import PyBase PyBaseFacts PyFloat PyText NumPy SpecArray ArrayFacts SpecPack Dbf SpecDbf DbfProofs Dicts Pack XlDate ReadXl XlProofs ReadXlThms XlStruct CompDoc SpecCompDoc CompDocProofs SpecSst Sst SpecDoc DocProofs FmtDate SpecXl XlSheet SpecXlSheet XlSheetProofs SpecFmtDate Biff SpecBiff BiffProofs BiffThms BiffOld SpecOld OldProofs.
Open Scope nat_scope.
From Verif Require SpecNames.
Open Scope Z_scope.

Lemma old_cells_same dec country l d1 d2 (s : sheet_data) shared : tells_dates (map as8 l) d1 -> tells_dates (map as8 l) d2 -> good_sheet dec country l s ->
  flat_map (item_cells shared d1) (sd_items s) = flat_map (item_cells shared d2) (sd_items s).
Proof.
  intros T1 T2 (_ & _ & _ & _ & G). assert (E : forall i, 0 <= i < xf_count (map as8 l) -> d1 i = d2 i).
  { intros i I. pose proof (T1 i I). pose proof (T2 i I). destruct (d1 i), (d2 i); try reflexivity; exfalso; intuition discriminate. }
  induction G as [|it its G1 _ IH]; [reflexivity|]. cbn [flat_map]. rewrite IH. f_equal.
  destruct it as [it|p raw t extra|p raw t runs|p code r flags rest|code data|at_ first more|code data]; cbn [item_cells]; try reflexivity.
  - destruct G1 as [_ G1]. destruct it as [p c|row col k|data|x y|a b|code data inner|k|ar t|head author pad|d|t|code data]; cbn [SpecBiff.item_cells]; try reflexivity.
    + destruct G1 as (_ & _ & X & _). unfold content_type, number_type. rewrite (E _ X). reflexivity.
    + destruct G1 as (_ & _ & _ & _ & G1). apply (row_cells_same (xf_count (map as8 l))); assumption.
  - destruct G1 as ((_ & _ & X & _) & _). unfold result_type, content_type, number_type. rewrite (E _ X). reflexivity.
Qed.
Lemma old_opened_dates dec country W mem base : good_workbook dec country W -> old_stored_at W mem base ->
  (exists date, tells_dates (says W) date) /\
  forall date, tells_dates (says W) date ->
  exists shs, old_opened dec mem base = Ok (mkbook (map fst (tabs (says W))) shs (datemode_of (says W))) /\
    Forall2 (fun s sh => shows_cells (SpecOld.cells_of W date s) sh) (wb_sheets W) shs.
Proof.
  intros G S. destruct (old_opened_ok dec country W mem base G S) as (d & shs & O & T & A). split; [exists d; exact T|].
  intros date TD. exists shs. split; [exact O|]. pose proof G as (_ & _ & _ & GS). clear O G S. revert GS.
  induction A as [|s sh ss shs A1 _ IH]; intro GS; [constructor|].
  inversion GS as [|? ? GS1 GS2]; subst. constructor; [|apply IH; exact GS2]. unfold SpecOld.cells_of in *. rewrite (old_cells_same dec country (wb_globals W) date d s _ TD T GS1). exact A1.
Qed.
Lemma old_file dec W c file : stored W c -> in_file c file ->
  exists m pos, old_stored_at W m pos /\ (forall v q, getbof m pos 5 = Ok (v, q) -> v <> 80 -> open_workbook_dec dec file = old_opened dec m pos).
Proof.
  intros [S1 S2] F.
  assert (NE : c <> []). { destruct S1 as (pre & post & EC & _). intros ->. destruct pre; discriminate EC. }
  destruct F as [|D t name d l GD DT DN K NM L S B ND].
  - exists c, 0. split.
    + split; [exact S1|]. induction S2 as [|tb s ts ss S2 _ IH]; [constructor|]. constructor; [|apply IH]. rewrite Z.add_0_r. exact S2.
    + intros v q E N. destruct S1 as (pre & post & EC & SZ). destruct pre; [|unfold size in SZ; cbn in SZ; lia]. cbn [app] in EC.
      assert (X : exists c', c = 9%N :: 8%N :: c') by (rewrite EC; eexists; reflexivity). destruct X as [c' ->]. clear EC.
      unfold open_workbook_dec. replace (str_eqb (bytes_at 0 4 (9%N :: 8%N :: c')) [80; 75; 3; 4]%N) with false by reflexivity.
      unfold open_xls_dec, load. replace (str_eqb (bytes_at 0 8 (9%N :: 8%N :: c')) SIGNATURE) with false by reflexivity. cbn [negb bind].
      unfold old_opened. rewrite E. cbn [bind]. replace (v =? 80) with false by lia. reflexivity.
  - destruct (document_mem D t name d l c GD DT DN K NM L S B ND NE) as (m & pos & LO & P & C).
    pose proof (cut_holds m pos c P C NE) as H. exists m, pos. split.
    + split; [exact (H 0 _ S1)|]. clear - S2 H. induction S2 as [|tb s ts ss S2 _ IH]; [constructor|]. constructor; [apply H; exact S2|apply IH].
    + intros v q E N. unfold open_workbook_dec. replace (str_eqb (bytes_at 0 4 (doc_file D)) [80; 75; 3; 4]%N) with false by reflexivity.
      unfold open_xls_dec. destruct (doc_file D) as [|x f] eqn:EF; [discriminate EF|]. rewrite LO. cbn [bind].
      unfold old_opened. rewrite E. cbn [bind]. replace (v =? 80) with false by lia. reflexivity.
Qed.

Lemma C69_opens_proof :
forall dec country W c file, good_workbook dec country W -> stored W c -> in_file c file ->
(exists date, tells_dates (says W) date) /\
forall date, tells_dates (says W) date ->
exists shs, open_workbook_dec dec file = Ok (mkbook (map fst (tabs (says W))) shs (datemode_of (says W))) /\
  Forall2 (fun s sh => shows_cells (SpecOld.cells_of W date s) sh) (wb_sheets W) shs.
Proof.
intros dec country W c file G S F. destruct (old_file dec W c file S F) as (m & pos & SA & O).
pose proof (old_opened_dates dec country W m pos G SA) as R.
destruct SA as [H1 _]. apply holds_from in H1. destruct H1 as [post FR]. unfold globals_bytes in FR. rewrite <- !app_assoc in FR.
destruct (old_bof _ _ _ _ (proj1 G) FR) as (v & V & B & _). rewrite (O _ _ B) by lia. exact R.
Qed.

Lemma old_picked W which s shs (P : sheet_data -> sheet -> Prop) dm : picks W which s -> Forall2 P (wb_sheets W) shs ->
  exists sh, P s sh /\ chosen_sheet (mkbook (map fst (tabs (says W))) shs dm) which sh.
Proof.
  intros H F. destruct H as [i s E|before name offset after s E NI E2].
  - destruct (nth_forall2 _ _ _ _ _ _ _ F E) as (sh & E' & H). exists sh. split; [exact H|]. apply cs_index. exact E'.
  - destruct (nth_forall2 _ _ _ _ _ _ _ F E2) as (sh & E' & H). exists sh. split; [exact H|]. apply cs_name with (i := length before); [| |exact E'].
    + cbn [bk_names]. rewrite E, map_app. rewrite nth_error_app2 by (rewrite map_length; lia). rewrite map_length, Nat.sub_diag. reflexivity.
    + intros j J X. cbn [bk_names] in X. rewrite E, map_app in X. rewrite nth_error_app1 in X by (rewrite map_length; lia). apply NI. apply nth_error_In in X. exact X.
Qed.

Lemma C69_pack_proof :
forall dec country W c file date fname which s header startcell stopcell usecols r0 c0 r1 c1 cols nr r cells f l,
good_workbook dec country W -> stored W c -> in_file c file -> tells_dates (says W) date ->
picks W which s -> l = SpecOld.cells_of W date s ->
refers startcell r0 c0 -> stops_at (height l) (width l) stopcell r1 c1 -> c1 < width l ->
chosen_columns c0 c1 usecols cols -> cols <> [] -> Forall (fun c => c0 <= c <= c1) cols ->
headed header r0 nr r -> (forall k, nr = Some k -> k < height l) ->
(forall c, In c cols -> column_of l c r (Z.max 0 (Z.min (r1 + 1) (height l) - r)) (cells c) /\
                        typed_column (datemode_of (says W)) (cells c) (f c)) ->
exists p, sheetpack_dec dec file fname which header startcell stopcell usecols = Ok p /\ p_fn p = fname /\
  (forall c, In c cols -> holds_column (p_data p) c (f c)) /\
  (forall c, ~ In c cols -> dget c (p_data p) = None) /\
  (forall c, In c cols -> match nr with
                          | Some k => exists v, dget c (p_names p) = Some v /\ shows_value l k c v
                          | None => dget c (p_names p) = None
                          end) /\
  (forall c, ~ In c cols -> dget c (p_names p) = None).
Proof.
intros dec country W c file date fname which s header startcell stopcell usecols r0 c0 r1 c1 cols nr r cells f l G S F T PK EL RF SP CW CC CN CF HD NR CL.
destruct (proj2 (C69_opens_proof dec country W c file G S F) date T) as (shs & O & A).
destruct (old_picked W which s shs _ (datemode_of (says W)) PK A) as (sh & SH & CH). rewrite <- EL in SH.
destruct (shown_pack _ fname which sh header startcell stopcell usecols r0 c0 r1 c1 cols nr r cells f l SH CH RF SP CW CC CN CF HD NR CL) as (CR & (rc & CS) & P).
unfold sheetpack_dec. rewrite CR, CS. cbn [bind]. rewrite O. exact P.
Qed.

