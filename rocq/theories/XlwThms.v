(** * Workbooks of BIFF 4W, from the file to the pack (C72): proofs of the property theorems *)

From Coq Require Import ZifyBool ZifyNat ZifyN QArith.
From Verif Require Import PyBase PyBaseFacts PyFloat PyText NumPy SpecArray ArrayFacts SpecPack Dbf SpecDbf DbfProofs Dicts Pack XlDate ReadXl XlProofs ReadXlThms XlStruct CompDoc SpecCompDoc CompDocProofs SpecSst Sst SpecDoc DocProofs FmtDate SpecXl XlSheet SpecXlSheet XlSheetProofs SpecFmtDate Biff SpecBiff BiffProofs BiffThms BiffOld SpecOld OldProofs SpecEarly EarlyProofs EarlyThms SpecXlw XlwProofs.
Open Scope nat_scope.
Open Scope Z_scope.

Lemma wide_file dec c file : (exists c', c = 9%N :: 4%N :: c') -> in_file c file ->
  exists m pos post, from m pos (c ++ post) /\ (forall v q, getbof m pos 5 = Ok (v, q) -> v <> 80 -> open_workbook_dec dec file = old_opened dec m pos).
Proof.
  intros [c' EC] F. assert (NE : c <> []) by (rewrite EC; discriminate).
  destruct F as [|D t name d l GD DT DN K NM L S B ND].
  - exists c, 0, []. split; [exists []; rewrite app_nil_r; split; reflexivity|].
    intros v q E N. subst c.
    unfold open_workbook_dec. replace (str_eqb (bytes_at 0 4 (9%N :: 4%N :: c')) [80; 75; 3; 4]%N) with false by reflexivity.
    unfold open_xls_dec, load. replace (str_eqb (bytes_at 0 8 (9%N :: 4%N :: c')) SIGNATURE) with false by reflexivity. cbn [negb bind].
    unfold old_opened. rewrite E. cbn [bind]. replace (v =? 80) with false by lia. reflexivity.
  - destruct (document_mem D t name d l c GD DT DN K NM L S B ND NE) as (m & pos & LO & P & C).
    pose proof (cut_holds m pos c P C NE 0 c ltac:(exists [], []; split; [rewrite app_nil_r; reflexivity|reflexivity])) as H.
    apply holds_from in H. destruct H as [post H]. exists m, pos, post. split; [exact H|].
    intros v q E N. unfold open_workbook_dec. replace (str_eqb (bytes_at 0 4 (doc_file D)) [80; 75; 3; 4]%N) with false by reflexivity.
    unfold open_xls_dec. destruct (doc_file D) as [|x f] eqn:EF; [discriminate EF|]. rewrite LO. cbn [bind].
    unfold old_opened. rewrite E. cbn [bind]. replace (v =? 80) with false by lia. reflexivity.
Qed.
Lemma wide_starts W l : exists c', record 0x409 (q_head W ++ le_bytes 2 0x100 ++ q_more W) ++ l = 9%N :: 4%N :: c'.
Proof. eexists. reflexivity. Qed.
Lemma tells_same l d1 d2 : tells l d1 -> tells l d2 -> forall k, d1 k = d2 k.
Proof.
  intros T1 T2 k. specialize (T1 k). specialize (T2 k). destruct (d1 k), (d2 k); try reflexivity; exfalso.
  - pose proof (proj2 T2 (proj1 T1 eq_refl)). discriminate.
  - pose proof (proj2 T1 (proj1 T2 eq_refl)). discriminate.
Qed.

Lemma C72_opens_proof :
forall dec country W rest file, good_book4 dec country W -> in_file (book4_bytes W ++ rest) file ->
exists shs, open_workbook_dec dec file = Ok (mkbook (SpecXlw.names (q_parts W)) shs (mode4 W)) /\
  Forall2 (fun s sh => (exists date, tells (x_entries s) date) /\ forall date, tells (x_entries s) date -> shows_cells (cells4 s date) sh)
    (sheets (q_parts W)) shs.
Proof.
intros dec country W rest file G F.
destruct (wide_file dec (book4_bytes W ++ rest) file ltac:(unfold book4_bytes; rewrite <- app_assoc; apply wide_starts) F) as (m & pos & post & FR & O).
rewrite <- app_assoc in FR.
destruct (wide_opened dec country W m pos (rest ++ post) G FR) as (shs & E & A).
pose proof G as (LH & SM & _). unfold book4_bytes in FR. rewrite <- !app_assoc in FR.
destruct (bof4 _ _ _ _ _ 5 45 LH SM (or_intror (conj eq_refl eq_refl)) FR) as [B _].
exists shs. split; [rewrite (O _ _ B) by lia; exact E|].
clear - A. induction A as [|s sh ss shs A1 _ IH]; constructor; [|exact IH].
split; [exists (date_key (x_entries s)); apply date_key_tells|]. intros date T. unfold cells4 in *.
rewrite (early_cells_same 45 date (date_key (x_entries s))); [exact A1|]. exact (tells_same _ _ _ T (date_key_tells (x_entries s))).
Qed.

Lemma wide_pick {A B} (R : A -> B -> Prop) la lb : Forall2 R la lb -> forall i a, nth_error la i = Some a -> exists b, nth_error lb i = Some b /\ R a b.
Proof.
  induction 1 as [|a b la lb H _ IH]; intros [|i] x E; try discriminate E.
  - injection E as <-. exists b. split; [reflexivity|exact H].
  - exact (IH i x E).
Qed.

Lemma C72_pack_proof :
forall dec country W more file s date fname which header startcell stopcell usecols r0 c0 r1 c1 cols nr r values f l,
good_book4 dec country W -> in_file (book4_bytes W ++ more) file ->
picks4 W which s -> tells (x_entries s) date -> l = cells4 s date ->
refers startcell r0 c0 -> stops_at (height l) (width l) stopcell r1 c1 -> c1 < width l ->
chosen_columns c0 c1 usecols cols -> cols <> [] -> Forall (fun c => c0 <= c <= c1) cols ->
headed header r0 nr r -> (forall k, nr = Some k -> k < height l) ->
(forall c, In c cols -> column_of l c r (Z.max 0 (Z.min (r1 + 1) (height l) - r)) (values c) /\
                        typed_column (mode4 W) (values c) (f c)) ->
exists p, sheetpack_dec dec file fname which header startcell stopcell usecols = Ok p /\ p_fn p = fname /\
  (forall c, In c cols -> holds_column (p_data p) c (f c)) /\
  (forall c, ~ In c cols -> dget c (p_data p) = None) /\
  (forall c, In c cols -> match nr with
                          | Some k => exists v, dget c (p_names p) = Some v /\ shows_value l k c v
                          | None => dget c (p_names p) = None
                          end) /\
  (forall c, ~ In c cols -> dget c (p_names p) = None).
Proof.
intros dec country W more file s date fname which header startcell stopcell usecols r0 c0 r1 c1 cols nr r values f l G IF PK T EL RF SP CW CC CN CF HD NR CL.
destruct (C72_opens_proof dec country W more file G IF) as (shs & O & A).
assert (X : exists sh, chosen_sheet (mkbook (SpecXlw.names (q_parts W)) shs (mode4 W)) which sh /\ shows_cells l sh).
{ destruct PK as [i s N|before name after s EN NI N]; destruct (wide_pick _ _ _ A _ _ N) as (sh & NS & _ & SH); specialize (SH _ T); rewrite <- EL in SH; exists sh; (split; [|exact SH]).
  - apply cs_index. exact NS.
  - apply cs_name with (i := length before); [| |exact NS]; cbn [bk_names]; rewrite EN.
    + rewrite nth_error_app2, Nat.sub_diag by lia. reflexivity.
    + intros j J. rewrite nth_error_app1 by exact J. intro E. apply nth_error_In in E. exact (NI E). }
destruct X as (sh & CH & SH).
destruct (shown_pack _ fname which sh header startcell stopcell usecols r0 c0 r1 c1 cols nr r values f l SH CH RF SP CW CC CN CF HD NR CL) as (CR & (rc & CS) & P).
unfold sheetpack_dec. rewrite CR, CS. cbn [bind]. rewrite O. exact P.
Qed.

Definition rf_fmt (t : str) : entry := Fmt 0x41e [0; 0]%N t t [].
Definition rf_entries (mode : Z) : list entry :=
  [Info (Datemode mode []); rf_fmt (lit "yyyy-mm-dd"); Attr 0x443 [0]%N 0 (repeat 0%N 10);
   Piece (Label (mkplace 0 0 0) (lit "t") (lit "t") []);
   Piece (Same (SpecBiff.Cell (mkplace 1 0 0) (CDouble (float_of_Z 43890) [])))].
Definition rf_sheet (mode : Z) : sheet4 := mksheet4 [0; 0]%N [] (rf_entries mode).
Definition rf_parts (m : Z) : list part :=
  [Start 0; Bound (lit "A") (lit "A") []; Bound (lit "B") (lit "B") []; SpecXlw.Sheet (lit "A") [] (rf_sheet 0) []; SpecXlw.Sheet (lit "B") [] (rf_sheet m) []].
Definition rf_dec : option Z -> str -> res str := fun _ raw => Ok raw.
Fixpoint rf_good (before l : list part) : Prop :=
  match l with
  | [] => True
  | p :: l' => good_part rf_dec (0, 0) before p l' /\ rf_good (before ++ [p]) l'
  end.
Lemma rf_good_all : forall l l0, rf_good l0 l ->
  forall before p after, l = before ++ p :: after -> good_part rf_dec (0, 0) (l0 ++ before) p after.
Proof.
  induction l as [|x l IH]; intros l0 G before p after E; [destruct before; discriminate E|]. destruct G as [G1 G2].
  destruct before as [|y before]; injection E as <- E.
  - rewrite app_nil_r, <- E. exact G1.
  - pose proof (IH _ G2 before p after E) as H. rewrite <- app_assoc in H. exact H.
Qed.
Fixpoint rf_good_from (L P before l : list entry) : Prop :=
  match l with
  | [] => True
  | e :: l' => good_entry rf_dec (0, 0) 45 L (P ++ before) e /\ rf_good_from L P (before ++ [e]) l'
  end.
Lemma rf_from_all L P : forall l l0, rf_good_from L P l0 l ->
  forall before e after, l = before ++ e :: after -> good_entry rf_dec (0, 0) 45 L (P ++ l0 ++ before) e.
Proof.
  induction l as [|x l IH]; intros l0 G before e after E; [destruct before; discriminate E|]. destruct G as [G1 G2].
  destruct before as [|y before]; injection E as <- E.
  - rewrite app_nil_r. exact G1.
  - pose proof (IH _ G2 before e after E) as H. rewrite <- app_assoc in H. exact H.
Qed.
Lemma rf_sheet_good P Q m : m = 0 \/ m = 1 -> good_sheet4 rf_dec (0, 0) P Q (rf_sheet m).
Proof.
  intros M. split; [reflexivity|]. split; [unfold size; cbn; lia|]. split; [|split; [|exact I]].
  - intros b e a E. change (map Info P ++ b) with (map Info P ++ [] ++ b). eapply rf_from_all; [|exact E].
    assert (FP : forall b, fmts (map Info P ++ b) = fmts b) by (intro b0; unfold fmts; rewrite flat_map_app; fold (fmts (map Info P)); rewrite fmts_map; reflexivity).
    assert (KP : forall b, keys 45 (map Info P ++ b) = keys 45 b) by (intro b0; unfold keys; rewrite flat_map_app; fold (keys 45 (map Info P)); rewrite keys_map; reflexivity).
    set (L := map Info P ++ _ ++ map Info Q).
    cbn [rf_sheet x_entries rf_entries rf_good_from app good_entry rf_fmt]. rewrite !FP, !KP.
    cbn [good_global good_item SpecBiff.good_item common pl_row pl_col pl_xf good_content is_cell foreign Z.eqb Pos.eqb fmts keys flat_map length app].
    unfold good_place, word16, rf_dec. repeat split; try exact I; try (unfold short, size; cbn; lia); try lia; try (left; cbn; auto; fail); try (vm_compute; reflexivity); try discriminate; try (cbn; auto; fail).
  - exists (firstn 3 (rf_entries m)), (skipn 3 (rf_entries m)). cbn. split; [reflexivity|]. split; repeat constructor.
Qed.
Lemma rf_book_good m : m = 0 \/ m = 1 -> good_book4 rf_dec (0, 0) (mkbook4 [0; 0]%N [] (rf_parts m)).
Proof.
  intros M. split; [reflexivity|]. split; [unfold size; cbn; lia|]. intros before p after E.
  apply (rf_good_all (rf_parts m) []) with (before := before) (p := p) (after := after) in E; [exact E|]. clear E before p after.
  cbn [rf_parts rf_good app good_part].
  split; [lia|]. split; [split; [reflexivity|split; [unfold size; cbn; lia|split; [unfold short, size; cbn; lia|intros _; exists 0; cbn; auto]]]|].
  split; [split; [reflexivity|split; [unfold size; cbn; lia|split; [unfold short, size; cbn; lia|intro N; discriminate N]]]|].
  split; [split; [exists (lit "A"); split; reflexivity|split; [unfold size; cbn; lia|split; [unfold short, size; cbn; lia|split; [unfold size; vm_compute; reflexivity|apply rf_sheet_good; auto]]]]|].
  split; [split; [exists (lit "B"); split; reflexivity|split; [unfold size; cbn; lia|split; [unfold short, size; cbn; lia|split; [destruct M as [-> | ->]; vm_compute; reflexivity|apply rf_sheet_good; auto]]]]|exact I].
Qed.

Lemma C72_mode_refuted_proof :
exists dec country W0 W1 s,
good_book4 dec country W0 /\ good_book4 dec country W1 /\
(exists before t0 t1 raw extra, q_parts W0 = before ++ [SpecXlw.Sheet raw extra t0 []] /\ q_parts W1 = before ++ [SpecXlw.Sheet raw extra t1 []] /\
   sheets before = [s] /\ date_mode (x_entries s) = 0) /\
exists p0 p1 d,
sheetpack_dec dec (book4_bytes W0) (lit "f") (OInt 0) (OBool true) None None ONone = Ok p0 /\ p_data p0 = [(0, mkarr KO [VDateTime d 0])] /\
sheetpack_dec dec (book4_bytes W1) (lit "f") (OInt 0) (OBool true) None None ONone = Ok p1 /\ p_data p1 = [(0, mkarr KO [VDateTime (d + 1462) 0])].
Proof.
exists rf_dec, (0, 0), (mkbook4 [0; 0]%N [] (rf_parts 0)), (mkbook4 [0; 0]%N [] (rf_parts 1)), (rf_sheet 0).
split; [apply rf_book_good; auto|]. split; [apply rf_book_good; auto|].
split; [exists (firstn 4 (rf_parts 0)), (rf_sheet 0), (rf_sheet 1), (lit "B"), []; repeat split|].
eexists _, _, _. split; [vm_compute; reflexivity|]. split; [vm_compute; reflexivity|]. split; vm_compute; reflexivity.
Qed.

Lemma C72_unplaced_proof :
forall dec country W raw name extra rest file,
good_book4 dec country W -> SpecXlw.names (q_parts W) = [] -> (forall z, ~ In (Start z) (q_parts W)) ->
dec (page_of (said (q_parts W))) raw = Ok name -> size raw < 256 -> short (repeat 0%N 1 ++ raw ++ extra) ->
in_file (record 0x409 (q_head W ++ le_bytes 2 0x100 ++ q_more W) ++ flat_map part_bytes (q_parts W) ++ part_bytes (Bound raw name extra) ++ rest) file ->
open_workbook_dec dec file = Err AttributeError.
Proof.
intros dec country W raw name extra rest file G NN NS D SR S F.
destruct (wide_file dec _ file (wide_starts W _) F) as (m & pos & post & FR & O). rewrite <- !app_assoc in FR.
pose proof G as (LH & SM & _). destruct (bof4 _ _ _ _ _ 5 45 LH SM (or_intror (conj eq_refl eq_refl)) FR) as [B _].
rewrite (O _ _ B) by lia. exact (unplaced_opened dec country W m pos raw name extra (rest ++ post) G NN NS D SR S FR).
Qed.

Lemma C72_misnamed_proof :
forall dec country W n raw name extra rest file,
good_book4 dec country W -> nth_error (SpecXlw.names (q_parts W)) (length (sheets (q_parts W))) <> Some name ->
dec (page_of (said (q_parts W))) raw = Ok name -> size raw < 256 -> short (repeat 0%N 5 ++ raw ++ extra) ->
in_file (record 0x409 (q_head W ++ le_bytes 2 0x100 ++ q_more W) ++ flat_map part_bytes (q_parts W) ++
         record 0x8f (le_bytes 4 n ++ coded_text 1 raw ++ extra) ++ rest) file ->
open_workbook_dec dec file = Err (if Nat.eqb (length (sheets (q_parts W))) (length (SpecXlw.names (q_parts W))) then IndexError else AssertionError).
Proof.
intros dec country W n raw name extra rest file G NN D SR S F.
destruct (wide_file dec _ file (wide_starts W _) F) as (m & pos & post & FR & O). rewrite <- !app_assoc in FR.
pose proof G as (LH & SM & _). destruct (bof4 _ _ _ _ _ 5 45 LH SM (or_intror (conj eq_refl eq_refl)) FR) as [B _].
rewrite (O _ _ B) by lia. apply (misnamed_opened dec country W m pos n raw name extra (rest ++ post)); assumption.
Qed.

