(** * Workbooks of BIFF 4W, from the file to the pack (C72): the property theorems *)

From Coq Require Import ZifyBool ZifyNat ZifyN QArith.
From Verif Require Import PyBase PyBaseFacts PyFloat PyText NumPy SpecArray ArrayFacts SpecPack Dbf SpecDbf DbfProofs Dicts Pack XlDate ReadXl XlProofs ReadXlThms XlStruct CompDoc SpecCompDoc CompDocProofs SpecSst Sst SpecDoc DocProofs FmtDate SpecXl XlSheet SpecXlSheet XlSheetProofs SpecFmtDate Biff SpecBiff BiffProofs BiffThms BiffOld SpecOld OldProofs SpecEarly EarlyProofs EarlyThms SpecXlw XlwProofs XlwThms.
Open Scope nat_scope.
Open Scope Z_scope.

(** A file with a well-formed workbook of BIFF 4W opens, whatever the code pages mean
and whatever follows the workbook in its stream: the book has the names of its
sheets, the date mode said last and, for each sheet, one that shows exactly the
cells written. Each sheet says itself which of its formats are dates. *)
Theorem C72_opens :
forall dec country W rest file, good_book4 dec country W -> in_file (book4_bytes W ++ rest) file ->
exists shs, open_workbook_dec dec file = Ok (mkbook (SpecXlw.names (q_parts W)) shs (mode4 W)) /\
  Forall2 (fun s sh => (exists date, tells (x_entries s) date) /\ forall date, tells (x_entries s) date -> shows_cells (cells4 s date) sh)
    (sheets (q_parts W)) shs.
Proof. exact C72_opens_proof. Qed.
Print Assumptions C72_opens.

(** Code page 1252 has the euro sign at 128; without a code page bytes are
    characters; no other code page is known. *)
Definition ex_dec (page : option Z) (raw : str) : res str :=
  match page with
  | None => Ok raw
  | Some 1252 => Ok (map (fun c => if (c =? 128)%N then 8364%N else c) raw)
  | Some _ => Err UnicodeError
  end.
(** A sheet with a date and one with a number in the same place, by the same XF;
    bytes that are not records after the first. *)
Definition ex_xf (key : N) : entry := Attr 0x443 [0]%N key (repeat 0%N 10).
Definition ex_fmt (t : str) : entry := Fmt 0x41e [0; 0]%N t t [].
Definition ex_entries (t : str) (mode : Z) : list entry :=
  [Info (Datemode mode []); ex_fmt (lit "General"); ex_fmt t; ex_xf 0; ex_xf 1; Piece (Extent 0x200 (repeat 0%N 10));
   Piece (Label (mkplace 0 0 0) [128; 97]%N [8364; 97]%N []);
   Piece (Same (SpecBiff.Cell (mkplace 1 0 1) (CDouble (float_of_Z 43890) [])))].
Definition ex_sheet (t : str) (mode : Z) : sheet4 := mksheet4 [0; 0]%N [0; 0]%N (ex_entries t mode).
Definition ex_parts (m1 m2 : Z) : list part :=
  [Said (User (lit "me") []); Said (Codepage 1252 []); Said (Format 0 (lit "d") (lit "d") []); Said (Nation 1 46 []); Other 0x18 [1; 2]%N; Start 200;
   Bound [128]%N [8364]%N [7]%N; Bound (lit "B") (lit "B") []; Said (Reference 1 3 [66]%N);
   SpecXlw.Sheet [128]%N [] (ex_sheet (lit "yyyy-mm-dd") m1) [1; 2; 3]%N; Other 0x443 (repeat 9%N 12);
   SpecXlw.Sheet (lit "B") [] (ex_sheet (lit "0.00") m2) []].
Definition ex_book (m1 m2 : Z) : book4 := mkbook4 [0; 0]%N [] (ex_parts m1 m2).
Fixpoint good_parts (country : Z * Z) (before l : list part) : Prop :=
  match l with
  | [] => True
  | p :: l' => good_part ex_dec country before p l' /\ good_parts country (before ++ [p]) l'
  end.
Lemma good_parts_all country : forall l l0, good_parts country l0 l ->
  forall before p after, l = before ++ p :: after -> good_part ex_dec country (l0 ++ before) p after.
Proof.
  induction l as [|x l IH]; intros l0 G before p after E; [destruct before; discriminate E|]. destruct G as [G1 G2].
  destruct before as [|y before]; injection E as <- E.
  - rewrite app_nil_r, <- E. exact G1.
  - pose proof (IH _ G2 before p after E) as H. rewrite <- app_assoc in H. exact H.
Qed.
Fixpoint good_entries (country : Z * Z) (L P before l : list entry) : Prop :=
  match l with
  | [] => True
  | e :: l' => good_entry ex_dec country 45 L (P ++ before) e /\ good_entries country L P (before ++ [e]) l'
  end.
Lemma good_entries_all country L P : forall l l0, good_entries country L P l0 l ->
  forall before e after, l = before ++ e :: after -> good_entry ex_dec country 45 L (P ++ l0 ++ before) e.
Proof.
  induction l as [|x l IH]; intros l0 G before e after E; [destruct before; discriminate E|]. destruct G as [G1 G2].
  destruct before as [|y before]; injection E as <- E.
  - rewrite app_nil_r. exact G1.
  - pose proof (IH _ G2 before e after E) as H. rewrite <- app_assoc in H. exact H.
Qed.
Ltac ex_size := vm_compute; reflexivity.
Ltac ex_close :=
  unfold good_place, word16;
  repeat match goal with
  | |- _ /\ _ => split
  | |- short _ => ex_size
  | |- Forall _ (_ :: _) => constructor
  | |- Forall _ [] => constructor
  | |- _ -> _ => intro
  end; try exact I; try reflexivity; try discriminate; try (cbn; auto 20; fail); try (unfold size; cbn; lia); try (cbn; lia); try congruence; try (vm_compute; reflexivity).
Lemma ex_sheet_good country P Q t m : page_of P = Some 1252 -> t = lit "yyyy-mm-dd" \/ t = lit "0.00" -> m = 0 \/ m = 1 ->
  good_sheet4 ex_dec country P Q (ex_sheet t m).
Proof.
  intros PG T M. split; [reflexivity|]. split; [unfold size; cbn; lia|]. split; [|split; [|exact I]].
  - intros b e a E. change (map Info P ++ b) with (map Info P ++ [] ++ b). eapply good_entries_all; [|exact E].
    assert (IP : forall b, infos b = [] \/ infos b = [Datemode m []] -> page_of (infos (map Info P ++ b)) = Some 1252).
    { intros b0 B0. rewrite infos_app, infos_map. unfold page_of in *. rewrite fold_left_app, PG. destruct B0 as [-> | ->]; reflexivity. }
    assert (FP : forall b, fmts (map Info P ++ b) = fmts b) by (intro b0; unfold fmts; rewrite flat_map_app; fold (fmts (map Info P)); rewrite fmts_map; reflexivity).
    assert (KP : forall b, keys 45 (map Info P ++ b) = keys 45 b) by (intro b0; unfold keys; rewrite flat_map_app; fold (keys 45 (map Info P)); rewrite keys_map; reflexivity).
    set (L := map Info P ++ _ ++ map Info Q).
    cbn [ex_sheet x_entries ex_entries good_entries app good_entry ex_fmt ex_xf]. rewrite !FP, !KP, !IP by (cbn; auto).
    cbn [good_global good_item SpecBiff.good_item common pl_row pl_col pl_xf good_content is_cell foreign Z.eqb Pos.eqb fmts keys flat_map length app].
    destruct T as [-> | ->]; ex_close.
  - exists (firstn 6 (ex_entries t m)), (skipn 6 (ex_entries t m)). cbn. split; [reflexivity|]. split; repeat constructor.
Qed.
Lemma ex_good m1 m2 : m1 = 0 \/ m1 = 1 -> m2 = 0 \/ m2 = 1 -> good_book4 ex_dec (1, 46) (ex_book m1 m2).
Proof.
  intros M1 M2. split; [reflexivity|]. split; [unfold size; cbn; lia|]. intros before p after E.
  apply (good_parts_all (1, 46) (ex_parts m1 m2) []) with (before := before) (p := p) (after := after) in E; [exact E|]. clear E before p after.
  cbn [ex_parts good_parts app]. cbn [good_part].
  split; [split; [exact I|]|].
  { split; [|split; ex_size]. intros page [->|(c & extra & -> & J)]; [eexists; reflexivity|].
    destruct M1 as [-> | ->], M2 as [-> | ->]; cbn in J; repeat (destruct J as [J|J]; [try discriminate J; injection J as <- <-|]); try destruct J; eexists; reflexivity. }
  split; [split; [exact I|split; [repeat first [left; reflexivity|right]|ex_size]]|].
  split; [split; [exact I|split; [unfold word16; lia|split; [reflexivity|split; ex_size]]]|].
  split; [split; [exact I|split; [reflexivity|ex_size]]|].
  split; [split; [unfold word16; lia|split; [ex_size|unfold codes4; cbn; lia]]|].
  split; [lia|].
  split; [split; [reflexivity|split; [ex_size|split; [ex_size|intros _; exists 200; cbn; auto 10]]]|].
  split; [split; [reflexivity|split; [ex_size|split; [ex_size|intro N; discriminate N]]]|].
  split; [split; [exact I|]|].
  { split; [lia|]. split; [lia|]. split; [intros _; eexists; reflexivity|ex_size]. }
  split; [split; [exists [8364]%N; split; reflexivity|split; [ex_size|split; [ex_size|split; [destruct M1 as [-> | ->]; ex_size|apply ex_sheet_good; auto]]]]|].
  split; [split; [unfold word16; lia|split; [ex_size|unfold codes4; cbn; lia]]|].
  split; [split; [exists (lit "B"); split; reflexivity|split; [ex_size|split; [ex_size|split; [destruct M2 as [-> | ->]; ex_size|apply ex_sheet_good; auto]]]]|exact I].
Qed.
Example C72_opens_ex : good_book4 ex_dec (1, 46) (ex_book 1 1) /\
  exists bk, open_workbook_dec ex_dec (book4_bytes (ex_book 1 1) ++ [5]%N) = Ok bk /\ bk_datemode bk = 1 /\ bk_names bk = [[8364]%N; lit "B"] /\
    map sh_values (bk_sheets bk) = [[[VStr [8364; 97]%N]; [VFloat (float_of_Z 43890)]]; [[VStr [8364; 97]%N]; [VFloat (float_of_Z 43890)]]] /\
    map sh_types (bk_sheets bk) = [[[1]; [3]]; [[1]; [2]]].
Proof. split; [apply ex_good; auto|]. eexists. split; [vm_compute; reflexivity|]. vm_compute. repeat split. Qed.

(** A pack read from such a file: one channel for each used column, which holds the
cells written in its rows, typed as in C45 and with the date mode said last, under
the name written in the header row. The sheet is chosen by its number or by name. *)
Theorem C72_pack :
forall dec country W more file s date fname which header startcell stopcell usecols r0 c0 r1 c1 cols nr r values f l,
good_book4 dec country W -> in_file (book4_bytes W ++ more) file ->
picks4 W which s -> tells (x_entries s) date -> l = cells4 s date ->
refers startcell r0 c0 -> stops_at (height l) (width l) stopcell r1 c1 -> c1 < width l ->
chosen_columns c0 c1 usecols cols -> cols <> [] -> Forall (fun c => c0 <= c <= c1) cols ->
headed header r0 nr r -> (forall k, nr = Some k -> k < height l) ->
(forall c, In c cols -> column_of l c r (Z.max 0 (Z.min (r1 + 1) (height l) - r)) (values c) /\
                        typed_column (mode4 W) (values c) (f c)) ->
exists p, sheetpack_dec dec file fname which header startcell stopcell usecols = Ok p /\ p_fn p = fname /\
  (forall c, In c cols -> holds_column (p_data p) c (f c)) /\
  (forall c, ~ In c cols -> dget c (p_data p) = None) /\
  (forall c, In c cols -> match nr with
                          | Some k => exists v, dget c (p_names p) = Some v /\ shows_value l k c v
                          | None => dget c (p_names p) = None
                          end) /\
  (forall c, ~ In c cols -> dget c (p_names p) = None).
Proof. exact C72_pack_proof. Qed.
Print Assumptions C72_pack.

Example C72_pack_ex : good_book4 ex_dec (1, 46) (ex_book 0 0) /\ picks4 (ex_book 0 0) (OStr (lit "B")) (ex_sheet (lit "0.00") 0) /\
  (exists p, sheetpack_dec ex_dec (book4_bytes (ex_book 0 0)) (lit "f.xlw") (OInt 0) (OBool true) None None ONone = Ok p /\
    p_data p = [(0, mkarr KO [VDateTime 737484 0])] /\ p_names p = [(0, VStr [8364; 97]%N)]) /\
  (exists p, sheetpack_dec ex_dec (book4_bytes (ex_book 0 0)) (lit "f.xlw") (OStr (lit "B")) (OBool true) None None ONone = Ok p /\
    p_data p = [(0, mkarr Kf [VFloat (float_of_Z 43890)])] /\ p_names p = [(0, VStr [8364; 97]%N)]).
Proof.
  split; [apply ex_good; auto|]. split; [apply (pick4_name _ [[8364]%N] (lit "B") []); [reflexivity|cbn; intuition discriminate|reflexivity]|].
  split; (eexists; split; [vm_compute; reflexivity|]); vm_compute; split; reflexivity.
Qed.

(** That the date mode of a sheet is the one said in it or before it is not so: of two
workbooks with the same first sheet, which says that dates count from 1900, the
dates in the pack of that sheet are 1462 days apart, because the second sheets say
something else. *)
Theorem C72_mode_refuted :
exists dec country W0 W1 s,
good_book4 dec country W0 /\ good_book4 dec country W1 /\
(exists before t0 t1 raw extra, q_parts W0 = before ++ [SpecXlw.Sheet raw extra t0 []] /\ q_parts W1 = before ++ [SpecXlw.Sheet raw extra t1 []] /\
   sheets before = [s] /\ date_mode (x_entries s) = 0) /\
exists p0 p1 d,
sheetpack_dec dec (book4_bytes W0) (lit "f") (OInt 0) (OBool true) None None ONone = Ok p0 /\ p_data p0 = [(0, mkarr KO [VDateTime d 0])] /\
sheetpack_dec dec (book4_bytes W1) (lit "f") (OInt 0) (OBool true) None None ONone = Ok p1 /\ p_data p1 = [(0, mkarr KO [VDateTime (d + 1462) 0])].
Proof. exact C72_mode_refuted_proof. Qed.
Print Assumptions C72_mode_refuted.

Example C72_mode_ex : mode4 (ex_book 0 1) = 1 /\ good_book4 ex_dec (1, 46) (ex_book 0 1).
Proof. split; [reflexivity|apply ex_good; auto]. Qed.

(** A workbook stays shut when the name of its first sheet comes before the place of
the sheets. *)
Theorem C72_unplaced :
forall dec country W raw name extra rest file,
good_book4 dec country W -> SpecXlw.names (q_parts W) = [] -> (forall z, ~ In (Start z) (q_parts W)) ->
dec (page_of (said (q_parts W))) raw = Ok name -> size raw < 256 -> short (repeat 0%N 1 ++ raw ++ extra) ->
in_file (record 0x409 (q_head W ++ le_bytes 2 0x100 ++ q_more W) ++ flat_map part_bytes (q_parts W) ++ part_bytes (Bound raw name extra) ++ rest) file ->
open_workbook_dec dec file = Err AttributeError.
Proof. exact C72_unplaced_proof. Qed.
Print Assumptions C72_unplaced.

Example C72_unplaced_ex : good_book4 ex_dec (1, 46) (mkbook4 [0; 0]%N [] [Other 0x18 []]) /\
  open_workbook_dec ex_dec (book4_bytes (mkbook4 [0; 0]%N [] [Other 0x18 []; Bound (lit "A") (lit "A") []])) = Err AttributeError.
Proof.
  split; [|vm_compute; reflexivity]. split; [reflexivity|]. split; [unfold size; cbn; lia|]. intros before p after E.
  destruct before as [|x [|y before]]; try discriminate E; injection E as <- <-. cbn. unfold word16, short, size. cbn. repeat split; try lia.
Qed.

(** A workbook stays shut when a sheet has another name than the one given for it, or
when there is none. *)
Theorem C72_misnamed :
forall dec country W n raw name extra rest file,
good_book4 dec country W -> nth_error (SpecXlw.names (q_parts W)) (length (sheets (q_parts W))) <> Some name ->
dec (page_of (said (q_parts W))) raw = Ok name -> size raw < 256 -> short (repeat 0%N 5 ++ raw ++ extra) ->
in_file (record 0x409 (q_head W ++ le_bytes 2 0x100 ++ q_more W) ++ flat_map part_bytes (q_parts W) ++
         record 0x8f (le_bytes 4 n ++ coded_text 1 raw ++ extra) ++ rest) file ->
open_workbook_dec dec file = Err (if Nat.eqb (length (sheets (q_parts W))) (length (SpecXlw.names (q_parts W))) then IndexError else AssertionError).
Proof. exact C72_misnamed_proof. Qed.
Print Assumptions C72_misnamed.

Example C72_misnamed_ex :
  open_workbook_dec ex_dec (book4_bytes (mkbook4 [0; 0]%N [] (ex_parts 0 0 ++ [SpecXlw.Sheet (lit "C") [] (ex_sheet (lit "0") 0) []]))) = Err IndexError /\
  open_workbook_dec ex_dec (book4_bytes (mkbook4 [0; 0]%N [] [Start 0; Bound (lit "A") (lit "A") []; SpecXlw.Sheet (lit "C") [] (ex_sheet (lit "0") 0) []])) = Err AssertionError.
Proof. split; vm_compute; reflexivity. Qed.

