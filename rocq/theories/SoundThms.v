(** * Whatever opens is a proper workbook (C66): proofs of the property theorems *)

From Coq Require Import ZifyBool ZifyNat ZifyN QArith.
From Verif Require Import PyBase PyBaseFacts PyFloat PyText NumPy SpecPack Dbf SpecDbf Dicts Pack XlDate ReadXl XlProofs ReadXlThms XlStruct CompDoc SpecSst Sst SpecXl XlSheet SpecXlSheet XlSheetProofs Biff SpecBiff BiffProofs BiffThms Xlsx SpecXlsx XlsxThms SpecSound SoundProofs SoundXml SoundPack.
Open Scope nat_scope.
Open Scope Z_scope.

(** A small stream, with one sheet made of these items. *)
Definition sound_sheet (items : list SpecBiff.item) := mksheetdata 0x600 [] items.
Definition sound_stream (items : list SpecBiff.item) : str :=
  let off := Z.of_nat (length (globals_bytes (mkworkbook [] (beyond_globals 0) []))) in
  globals_bytes (mkworkbook [] (beyond_globals off) []) ++ sheet_bytes (sound_sheet items).
Definition seven : SpecBiff.item := Cell (mkplace 0 0 0) (CRk (RkInt 7 false) []).
Definition three_right : SpecBiff.item := Cell (mkplace 2 1 0) (CRk (RkInt 3 false) []).
(** Cells A1 and B3. *)
Definition sound_file : str := sound_stream [Dimension [0; 0; 0; 0; 3; 0; 0; 0; 0; 0; 4; 0; 0; 0]%N; seven; three_right].
(** A record about the dimensions, of four columns, between the cells. *)
Definition late_file : str := sound_stream [seven; Dimension [0; 0; 0; 0; 3; 0; 0; 0; 0; 0; 4; 0; 0; 0]%N; three_right].
(** Row 1 of an .xlsx file: 7, and a text formula without result. *)
Definition none_zip : archive :=
  small_zip [] [Elem (main_ns ++ lit "row") [(lit "r", lit "1")] None
    [small_cell [(lit "r", lit "A1")] (lit "7"); Elem (main_ns ++ lit "c") [(lit "r", lit "B1"); (lit "t", lit "str")] None []]].

Lemma C66_cells_proof :
forall file wb, open_workbook file = Ok wb -> sound_book fits wb.
Proof.
intros file wb H. exact (proj1 (open_sound file wb H)).
Qed.

(** A check for examples: a sheet that begins at pos has no substream in it and no
    dimensions after cells. *)
Fixpoint clean (fuel : nat) (mem : str) (seen : bool) (pos : Z) : bool :=
  match fuel with
  | O => false
  | S f =>
      match pyslice mem pos (pos + 4) with
      | [a; b; c; d] =>
          let code := two a b in
          let next := pos + 4 + two c d in
          if code =? end_code then true
          else if existsb (Z.eqb code) begin_codes then false
          else if existsb (Z.eqb code) dimension_codes && seen then false
          else clean f mem (seen || existsb (Z.eqb code) cell_codes) next
      | _ => true
      end
  end.
Lemma in_existsb c l : existsb (Z.eqb c) l = true <-> In c l.
Proof.
  rewrite existsb_exists. split; [intros (x & I & E); apply Z.eqb_eq in E; subst; exact I|].
  intro I. exists c. split; [exact I|apply Z.eqb_refl].
Qed.
Lemma clean_no_late mem : forall fuel seen pos l, clean fuel mem seen pos = true -> sheet_records mem pos l ->
  forall a kind data b, l = a ++ (kind, data) :: b -> In kind dimension_codes ->
  seen = false /\ forall code cell, In (code, cell) a -> ~ In code cell_codes.
Proof.
  induction fuel as [|f IH]; intros seen pos l C R a kind data b E K; [discriminate|]. cbn [clean] in C.
  inversion R as [p d0 n0 RA|p code0 d0 n0 la l0 RA IB LO SR|p code0 d0 n0 l0 RA NE NB SR]; subst.
  - destruct a; discriminate.
  - exfalso. inversion RA as [x y z w PS]; subst. rewrite PS in C. cbv zeta in C.
    assert (two x y =? end_code = false) as EN.
    { apply Z.eqb_neq. intro Q. rewrite Q in IB. unfold end_code, begin_codes in IB. cbn in IB. intuition discriminate. }
    rewrite EN in C. apply in_existsb in IB. rewrite IB in C. discriminate.
  - inversion RA as [x y z w PS]; subst. rewrite PS in C. cbv zeta in C.
    assert (two x y =? end_code = false) as EN by (apply Z.eqb_neq; exact NE). rewrite EN in C.
    destruct (existsb (Z.eqb (two x y)) begin_codes) eqn:EB; [discriminate|].
    destruct (existsb (Z.eqb (two x y)) dimension_codes && seen) eqn:ED; [discriminate|].
    match goal with Q : _ :: l0 = _ ++ _ |- _ => rename Q into H end.
    destruct a as [|h a]; cbn [app] in H.
    + injection H as E1 E2 E3. subst kind. apply in_existsb in K. rewrite K in ED. cbn in ED. split; [exact ED|]. intros code cell [].
    + injection H as E1 E2. subst l0 h. destruct (IH _ _ _ C SR a kind data b eq_refl K) as [S1 S2].
      apply Bool.orb_false_iff in S1. destruct S1 as [S1 S3]. split; [exact S1|].
      intros code cell [Q|Q]; [|exact (S2 code cell Q)]. injection Q as <- <-. intro W. apply in_existsb in W. congruence.
Qed.
(** The places, negative ones too, where the codes that begin a substream are. *)
Definition begin_places (mem : str) : list Z :=
  let n := Z.of_nat (length mem) in
  flat_map (fun i => let pos := Z.of_nat i - n in
              match pyslice mem pos (pos + 2), pyslice mem (pos + 2) (pos + 4) with
              | [a; b], [c; d] => if existsb (Z.eqb (two a b)) begin_codes then [pos + 4 + two c d] else []
              | _, _ => []
              end) (seq 0 (2 * length mem)).
Lemma slice_inside (mem : str) pos a b : pyslice mem pos (pos + 2) = [a; b] -> - Z.of_nat (length mem) <= pos < Z.of_nat (length mem).
Proof.
  intro H. assert (L : length (pyslice mem pos (pos + 2)) = 2%nat) by (rewrite H; reflexivity).
  unfold pyslice, py_bound in L. cbv zeta in L. rewrite firstn_length, skipn_length in L. set (n := length mem) in *.
  destruct (pos <? 0) eqn:E1, (pos + 2 <? 0) eqn:E2; lia.
Qed.
Lemma begin_places_all (mem : str) pos : begins mem pos -> In pos (begin_places mem).
Proof.
  intro H. inversion H as [p a b c d I P1 P2]; subst. pose proof (slice_inside _ _ _ _ P1) as B.
  unfold begin_places. cbv zeta. apply in_flat_map. exists (Z.to_nat (p + Z.of_nat (length mem))). split.
  - apply in_seq. lia.
  - replace (Z.of_nat (Z.to_nat (p + Z.of_nat (length mem))) - Z.of_nat (length mem)) with p by lia.
    rewrite P1, P2. apply in_existsb in I. rewrite I. left. reflexivity.
Qed.
Lemma clean_first (mem : str) : forallb (clean (length mem) mem false) (begin_places mem) = true -> dimensions_first mem.
Proof.
  intros H pos l B R (a & b & kind & cell & data & code & E & K & _ & I & C).
  apply begin_places_all in B. rewrite forallb_forall in H. specialize (H pos B).
  destruct (clean_no_late _ _ _ _ _ H R a kind data b E K) as [_ X]. exact (X code cell I C).
Qed.
Lemma sound_file_first mem base : load sound_file = Ok (mem, base) -> dimensions_first mem.
Proof.
  intro H. assert (E : load sound_file = Ok (sound_file, 0)) by (vm_compute; reflexivity).
  rewrite E in H. injection H as <- _. apply clean_first. vm_compute. reflexivity.
Qed.

Lemma C66_shape_proof :
forall file wb, (forall mem base, load file = Ok (mem, base) -> dimensions_first mem) ->
open_workbook file = Ok wb -> Forall rectangular (bk_sheets wb).
Proof.
intros file wb D H. exact (proj2 (open_sound file wb H) D).
Qed.

Lemma C66_dimension_refuted_proof :
exists file wb sh, open_workbook file = Ok wb /\ bk_sheets wb = [sh] /\ sh_nrows sh = 3 /\ length (sh_values sh) = 4%nat /\
  ~ rectangular sh.
Proof.
exists late_file. eexists. eexists. split; [vm_compute; reflexivity|]. split; [reflexivity|]. split; [reflexivity|]. split; [reflexivity|].
intro R. unfold rectangular in R. cbn in R. lia.
Qed.

Lemma C66_xlsx_proof :
forall z wb, open_zip z = Ok wb -> sound_book fits_xml wb /\ Forall rectangular (bk_sheets wb).
Proof.
exact zip_sound.
Qed.

Lemma C66_none_refuted_proof :
exists z wb, open_zip z = Ok wb /\ ~ sound_book fits wb.
Proof.
exists none_zip. eexists. split; [vm_compute; reflexivity|]. intros [_ _ C]. unfold cells_fit in C. cbn in C.
inversion C as [|? ? C1 _]; subst. inversion C1 as [|? ? ? ? C2 _]; subst. inversion C2 as [|? ? ? ? _ C3]; subst.
inversion C3 as [|? ? ? ? C4 _]; subst. inversion C4.
Qed.

Lemma C66_pack_proof :
forall file fname which header startcell stopcell usecols p,
(forall mem base, load file = Ok (mem, base) -> dimensions_first mem) ->
sheetpack_file file fname which header startcell stopcell usecols = Ok p ->
exists wb, open_workbook file = Ok wb /\ pack_of wb p.
Proof.
intros file fname which header startcell stopcell usecols p D H. unfold sheetpack_file in H.
apply bind_ok in H. destruct H as (? & _ & H). apply bind_ok in H. destruct H as (? & _ & H).
apply bind_ok in H. destruct H as (wb & O & H). exists wb. split; [exact O|].
destruct (open_sound _ _ O) as [[_ _ C] R]. exact (pack_from fits _ _ _ _ _ _ _ _ fits_readable (R D) C H).
Qed.

Lemma C66_pack_xlsx_proof :
forall z fname which header startcell stopcell usecols p,
sheetpack_zip z fname which header startcell stopcell usecols = Ok p ->
exists wb, open_zip z = Ok wb /\ pack_of wb p.
Proof.
intros z fname which header startcell stopcell usecols p H. unfold sheetpack_zip in H.
apply bind_ok in H. destruct H as (? & _ & H). apply bind_ok in H. destruct H as (? & _ & H).
apply bind_ok in H. destruct H as (wb & O & H). exists wb. split; [exact O|].
destruct (zip_sound _ _ O) as [[_ _ C] R]. exact (pack_from fits_xml _ _ _ _ _ _ _ _ xml_readable R C H).
Qed.

