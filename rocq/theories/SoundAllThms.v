(** * Whatever opens, of any version, is a proper workbook (C66): proofs of the property theorems *)

From Coq Require Import ZifyBool ZifyNat ZifyN QArith.
From Verif Require Import PyBase PyBaseFacts PyFloat PyText NumPy SpecPack Dbf SpecDbf Dicts Pack XlDate ReadXl XlProofs ReadXlThms XlStruct CompDoc SpecSst Sst SpecXl XlSheet SpecXlSheet XlSheetProofs Biff SpecBiff BiffProofs BiffThms SpecSound SoundProofs SoundPack SoundThms BiffOld SoundOld.
Open Scope nat_scope.
Open Scope Z_scope.

Definition a_record (code : Z) (data : str) : str := le_bytes 2 code ++ le_bytes 2 (Z.of_nat (length data)) ++ data.
Definition as_is : decoder := fun _ raw => Ok raw.
Definition number_cell (row col f : Z) : str := a_record 0x203 (le_bytes 2 row ++ le_bytes 2 col ++ le_bytes 2 0 ++ double_bytes (float_of_Z f)).
(** A workbook of BIFF5 with one sheet, made of these records. *)
Definition globals_5 (place : Z) : str :=
  a_record 0x809 [0; 5; 5; 0; 0; 0; 0; 0]%N ++ a_record 0x42 (le_bytes 2 1252)
  ++ a_record 0x85 (le_bytes 4 place ++ [0; 0; 1]%N ++ lit "A") ++ a_record 0x0a [].
Definition book_5 (records : str) : str :=
  globals_5 (Z.of_nat (length (globals_5 0))) ++ a_record 0x809 [0; 5; 16; 0; 0; 0; 0; 0]%N ++ records ++ a_record 0x0a [].
(** Cells A1 and B2. *)
Definition old_sound_file : str := book_5 (a_record 0x200 (repeat 0%N 10) ++ number_cell 0 0 7 ++ number_cell 1 1 3).
(** A sheet of BIFF2, cells A1 (a whole number) and A2 (a text). *)
Definition early_sound_file : str :=
  a_record 0x9 [2; 0; 16; 0]%N ++ a_record 0x1e (7%N :: lit "General") ++ a_record 0x0 (repeat 0%N 8)
  ++ a_record 0x2 ([0; 0; 0; 0; 0; 0; 0]%N ++ le_bytes 2 40) ++ a_record 0x4 ([1; 0; 0; 0; 0; 0; 0; 1]%N ++ lit "t") ++ a_record 0x0a [].
(** The same with the dimensions, of four rows and columns, after the first cell. *)
Definition early_late_file : str :=
  a_record 0x9 [2; 0; 16; 0]%N ++ a_record 0x1e (7%N :: lit "General") 
  ++ a_record 0x2 ([3; 0; 1; 0; 0; 0; 0]%N ++ le_bytes 2 40) ++ a_record 0x0 [0; 0; 4; 0; 0; 0; 4; 0]%N ++ a_record 0x4 ([1; 0; 0; 0; 0; 0; 0; 1]%N ++ lit "t") ++ a_record 0x0a [].
(** A sheet of BIFF4 with an XF whose format is not there. *)
Definition no_format_file : str :=
  a_record 0x409 [0; 0; 16; 0; 0; 0]%N ++ a_record 0x443 (repeat 0%N 12) ++ a_record 0x293 [] ++ number_cell 0 0 5 ++ a_record 0x0a [].
(** A workbook of BIFF4W with the name of a sheet, but without the sheet. *)
Definition named_only_file : str :=
  a_record 0x409 [0; 0; 0; 1; 0; 0]%N ++ a_record 0x42 (le_bytes 2 1252) ++ a_record 0x8e (le_bytes 4 0)
  ++ a_record 0x85 (1%N :: lit "A") ++ a_record 0x0a [].

Lemma cells_fit_more (fit fit' : Z -> val -> Prop) sh : (forall t v, fit t v -> fit' t v) -> cells_fit fit sh -> cells_fit fit' sh.
Proof.
  intros W F. unfold cells_fit in *. induction F as [|ts vs tss vss F _ IH]; constructor; [|exact IH].
  induction F as [|t v ts vs F _ IH2]; constructor; [|exact IH2]. apply W. exact F.
Qed.
Lemma any_opened dec file wb : open_workbook_dec dec file = Ok wb -> exists mem base version pos,
  load file = Ok (mem, base) /\ getbof mem base 5 = Ok (version, pos) /\
  ((version = 80 /\ open_workbook file = Ok wb) \/ (version <> 80 /\ open_old dec version mem base pos = Ok wb)).
Proof.
  unfold open_workbook_dec. destruct (str_eqb _ _) eqn:PK; [discriminate|]. unfold open_xls_dec. destruct file as [|x f]; [discriminate|].
  intro H. apply bind_ok in H. destruct H as ([mem base] & L & H). apply bind_ok in H. destruct H as ([version pos] & G & H).
  exists mem, base, version, pos. split; [exact L|]. split; [exact G|].
  destruct (version =? 0); [discriminate|]. destruct (Z.eqb_spec version 80) as [->|N].
  - left. split; [reflexivity|]. unfold open_workbook. rewrite PK. exact H.
  - right. split; assumption.
Qed.
Lemma early_loose : loose fits_early.
Proof. intro f. eapply fe_float; reflexivity. Qed.

Lemma C66_all_cells_proof :
forall dec file wb, open_workbook_dec dec file = Ok wb ->
Forall (cells_fit fits_early) (bk_sheets wb) /\ (bk_datemode wb = 0 \/ bk_datemode wb = 1) /\
(length (bk_sheets wb) <= length (bk_names wb))%nat.
Proof.
intros dec file wb H. destruct (any_opened dec file wb H) as (mem & base & version & pos & L & G & [[_ O]|[N O]]).
- destruct (open_sound file wb O) as [[A B C] _]. split; [|split; [exact B|rewrite A; constructor]].
  eapply Forall_impl; [|exact C]. intros sh. apply cells_fit_more. apply fe_fits.
- destruct (open_old_sound fits_early dec version mem base pos wb fe_fits (or_introl early_loose) O) as (A & B & C & _). auto.
Qed.

Lemma skipn_skipn_add {A} (m n : nat) (l : list A) : skipn m (skipn n l) = skipn (m + n) l.
Proof. revert l. induction n as [|n IH]; intro l; [rewrite Nat.add_0_r; reflexivity|]. rewrite Nat.add_succ_r. destruct l; [apply skipn_nil|apply IH]. Qed.
Lemma split_slice (mem : str) pos a b c d : pyslice mem pos (pos + 4) = [a; b; c; d] ->
  pyslice mem pos (pos + 2) = [a; b] /\ pyslice mem (pos + 2) (pos + 4) = [c; d].
Proof.
  intro H. assert (L : length (pyslice mem pos (pos + 4)) = 4%nat) by (rewrite H; reflexivity).
  unfold pyslice in *. cbv zeta in *. rewrite firstn_length, skipn_length in L.
  set (n := Z.of_nat (length mem)) in *. set (s := py_bound n pos) in *.
  assert (B : 0 <= s /\ py_bound n (pos + 2) = s + 2 /\ py_bound n (pos + 4) = s + 4).
  { unfold s, py_bound in *. destruct (pos <? 0) eqn:E1, (pos + 4 <? 0) eqn:E2, (pos + 2 <? 0) eqn:E3; unfold n in *; lia. }
  destruct B as (S0 & -> & E4). rewrite E4 in *. replace (Z.to_nat (s + 4 - s)) with 4%nat in H by lia.
  replace (Z.to_nat (s + 2 - s)) with 2%nat by lia. replace (Z.to_nat (s + 4 - (s + 2))) with 2%nat by lia.
  replace (Z.to_nat (s + 2)) with (2 + Z.to_nat s)%nat by lia.
  rewrite <- skipn_skipn_add. destruct (skipn (Z.to_nat s) mem) as [|x [|y [|z [|w r]]]]; try discriminate H.
  cbn in H. injection H as -> -> -> ->. split; reflexivity.
Qed.
Lemma new_version mem base version pos : begins_new mem base -> getbof mem base 5 = Ok (version, pos) -> 50 <= version.
Proof.
  intros (data & next & minor & R & M & F). inversion R as [a b c d PS E1 E2 E3]. unfold getbof, get2bytes. cbv zeta.
  assert (L4 : length (pyslice mem base (base + 4)) = 4%nat) by (rewrite PS; reflexivity).
  destruct (split_slice mem base a b c d PS) as [P1 P2].
  rewrite P1. cbn [length]. change (Z.of_nat 2 <? 2) with false. cbv iota.
  replace (base + 2 + 2) with (base + 4) by lia. rewrite P2. cbn [length]. change (Z.of_nat 2 <? 2) with false. cbv iota.
  assert (V1 : le_value [a; b] = 0x809) by (rewrite <- E1; unfold two; cbn [le_value]; lia).
  assert (V2 : le_value [c; d] = two c d) by (unfold two; cbn [le_value]; lia).
  rewrite V1, V2. change (boflen 0x809) with (Some 8). cbv iota. destruct (negb _); [discriminate|]. rewrite E2.
  destruct (_ <? _); [discriminate|]. intro H.
  assert (V : bof_version 0x809 (data ++ repeat 0%N (Z.to_nat (Z.max 0 (8 - two c d)))) = version).
  { destruct (_ || _) in H; [congruence|]. destruct (_ && _) in H; [congruence|discriminate]. }
  rewrite <- V. clear H V. set (pad := repeat 0%N _). clearbody pad.
  destruct data as [|x [|y rest]]; [discriminate F|discriminate F|]. cbn [firstn] in F. injection F as -> ->.
  unfold bof_version. cbv zeta. change (0x809 / 256 =? 8) with true. cbv iota.
  destruct M as [<-|[<-|[]]].
  - replace (u16 0 ((0%N :: 5%N :: rest) ++ pad)) with 0x500 by reflexivity. change (0x500 =? 0x600) with false. change (0x500 =? 0x500) with true.
    cbv iota. match goal with |- context [if ?c then 50 else 70] => destruct c end; cbn; lia.
  - replace (u16 0 ((0%N :: 6%N :: rest) ++ pad)) with 0x600 by reflexivity. change (0x600 =? 0x600) with true. cbv iota. cbn. lia.
Qed.

Lemma C66_all_new_proof :
forall dec file mem base wb, load file = Ok (mem, base) -> begins_new mem base -> open_workbook_dec dec file = Ok wb ->
sound_book fits wb.
Proof.
intros dec file mem base wb LD NW H. destruct (any_opened dec file wb H) as (mem' & base' & version & pos & L & G & [[_ O]|[N O]]).
- exact (proj1 (open_sound file wb O)).
- rewrite LD in L. injection L as <- <-. pose proof (new_version mem base version pos NW G) as V.
  destruct (open_old_sound fits dec version mem base pos wb (fun t v F => F) (or_intror V) O) as (A & B & C & D & _).
  constructor; [apply D; lia|exact A|exact B].
Qed.

Lemma early_first mem : dimensions_among early_codes mem -> dimensions_first mem.
Proof.
  intros D pos l B S (a & b & kind & cell & data & code & E & K & N & I & C). apply (D pos l B S).
  exists a, b, kind, cell, data, code. split; [exact E|]. split; [exact K|]. split; [exact N|]. split; [exact I|].
  unfold early_codes. apply in_or_app. right. exact C.
Qed.
(** A check for examples, as in the proof of C66_shape, for other codes. *)
Fixpoint clean_of (codes : list Z) (fuel : nat) (mem : str) (seen : bool) (pos : Z) : bool :=
  match fuel with
  | O => false
  | S f =>
      match pyslice mem pos (pos + 4) with
      | [a; b; c; d] =>
          let code := two a b in
          let next := pos + 4 + two c d in
          if code =? end_code then true
          else if existsb (Z.eqb code) begin_codes then false
          else if existsb (Z.eqb code) dimension_codes && seen then false
          else clean_of codes f mem (seen || existsb (Z.eqb code) codes) next
      | _ => true
      end
  end.
Lemma clean_of_no_late codes mem : forall fuel seen pos l, clean_of codes fuel mem seen pos = true -> sheet_records mem pos l ->
  forall a kind data b, l = a ++ (kind, data) :: b -> In kind dimension_codes ->
  seen = false /\ forall code cell, In (code, cell) a -> ~ In code codes.
Proof.
  induction fuel as [|f IH]; intros seen pos l C R a kind data b E K; [discriminate|]. cbn [clean_of] in C.
  inversion R as [p d0 n0 RA|p code0 d0 n0 la l0 RA IB LO SR|p code0 d0 n0 l0 RA NE NB SR]; subst.
  - destruct a; discriminate.
  - exfalso. inversion RA as [x y z w PS]; subst. rewrite PS in C. cbv zeta in C.
    assert (two x y =? end_code = false) as EN.
    { apply Z.eqb_neq. intro Q. rewrite Q in IB. unfold end_code, begin_codes in IB. cbn in IB. intuition discriminate. }
    rewrite EN in C. apply in_existsb in IB. rewrite IB in C. discriminate.
  - inversion RA as [x y z w PS]; subst. rewrite PS in C. cbv zeta in C.
    assert (two x y =? end_code = false) as EN by (apply Z.eqb_neq; exact NE). rewrite EN in C.
    destruct (existsb (Z.eqb (two x y)) begin_codes) eqn:EB; [discriminate|].
    destruct (existsb (Z.eqb (two x y)) dimension_codes && seen) eqn:ED; [discriminate|].
    match goal with Q : _ :: l0 = _ ++ _ |- _ => rename Q into H end.
    destruct a as [|h a]; cbn [app] in H.
    + injection H as E1 E2 E3. subst kind. apply in_existsb in K. rewrite K in ED. cbn in ED. split; [exact ED|]. intros code cell [].
    + injection H as E1 E2. subst l0 h. destruct (IH _ _ _ C SR a kind data b eq_refl K) as [S1 S2].
      apply Bool.orb_false_iff in S1. destruct S1 as [S1 S3]. split; [exact S1|].
      intros code cell [Q|Q]; [|exact (S2 code cell Q)]. injection Q as <- <-. intro W. apply in_existsb in W. congruence.
Qed.
Lemma clean_of_first codes (mem : str) : forallb (clean_of codes (length mem) mem false) (begin_places mem) = true -> dimensions_among codes mem.
Proof.
  intros H pos l B R (a & b & kind & cell & data & code & E & K & _ & I & C).
  apply begin_places_all in B. rewrite forallb_forall in H. specialize (H pos B).
  destruct (clean_of_no_late codes _ _ _ _ _ H R a kind data b E K) as [_ X]. exact (X code cell I C).
Qed.

Lemma C66_all_shape_proof :
forall dec file mem base wb, load file = Ok (mem, base) -> dimensions_among early_codes mem ->
open_workbook_dec dec file = Ok wb -> Forall rectangular (bk_sheets wb).
Proof.
intros dec file mem base wb LD DF H. destruct (any_opened dec file wb H) as (mem' & base' & version & pos & L & G & [[_ O]|[N O]]).
- apply (proj2 (open_sound file wb O)). intros m b L2. rewrite LD in L2. injection L2 as <- <-. apply early_first. exact DF.
- rewrite LD in L. injection L as <- <-.
  destruct (open_old_sound fits_early dec version mem base pos wb fe_fits (or_introl early_loose) O) as (_ & _ & _ & _ & S). exact (S DF).
Qed.

Lemma C66_all_pack_proof :
forall dec file mem base fname which header startcell stopcell usecols p,
load file = Ok (mem, base) -> dimensions_among early_codes mem ->
sheetpack_dec dec file fname which header startcell stopcell usecols = Ok p ->
exists wb, open_workbook_dec dec file = Ok wb /\ pack_of wb p.
Proof.
intros dec file mem base fname which header startcell stopcell usecols p L D H. unfold sheetpack_dec in H.
apply bind_ok in H. destruct H as (? & _ & H). apply bind_ok in H. destruct H as (? & _ & H).
apply bind_ok in H. destruct H as (wb & O & H). exists wb. split; [exact O|].
destruct (C66_all_cells_proof dec file wb O) as (C & _).
exact (pack_from fits_early _ _ _ _ _ _ _ _ early_readable (C66_all_shape_proof dec file mem base wb L D O) C H).
Qed.

Lemma C66_early_refuted_proof :
(exists dec file wb, open_workbook_dec dec file = Ok wb /\ length (bk_names wb) = length (bk_sheets wb) /\ ~ Forall (cells_fit fits) (bk_sheets wb)) /\
(exists dec file wb, open_workbook_dec dec file = Ok wb /\ bk_names wb = [lit "A"] /\ bk_sheets wb = []) /\
(exists dec file wb sh, open_workbook_dec dec file = Ok wb /\ bk_sheets wb = [sh] /\ (Z.to_nat (sh_nrows sh) < length (sh_values sh))%nat).
Proof.
split; [|split].
- exists as_is, no_format_file. eexists. split; [vm_compute; reflexivity|]. split; [reflexivity|]. cbn [bk_sheets]. intro C.
  inversion C as [|? ? C1 _]; subst. unfold cells_fit in C1. cbn in C1. inversion C1 as [|? ? ? ? C2 _]; subst.
  inversion C2 as [|? ? ? ? C3 _]; subst. inversion C3.
- exists as_is, named_only_file. eexists. split; [vm_compute; reflexivity|]. split; reflexivity.
- exists as_is, early_late_file. eexists. eexists. split; [vm_compute; reflexivity|]. split; [reflexivity|]. vm_compute. lia.
Qed.

