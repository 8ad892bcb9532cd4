(** * BIFF8 workbooks, from the file to the pack (C58, C59): the property theorems *)

From Coq Require Import ZifyBool ZifyNat ZifyN QArith.
From Verif Require Import PyBase PyBaseFacts PyFloat PyText NumPy SpecArray ArrayFacts SpecPack Dbf SpecDbf DbfProofs Dicts Pack XlDate ReadXl XlProofs ReadXlThms XlStruct CompDoc SpecCompDoc CompDocProofs CompDocThms SpecSst Sst SstProofs SstThms SpecDoc DocProofs DocThms FmtDate FmtDateThms SpecXl XlSheet SpecXlSheet XlSheetProofs XlSheetThms SpecFmtDate Biff SpecBiff BiffProofs BiffThms.
Open Scope nat_scope.
Open Scope Z_scope.

(** A well-formed stream of records opens: the book has the names of its worksheets,
the date mode and, for each worksheet, a sheet that shows exactly the cells
written. It says itself which XFs are dates. *)
Theorem C58_opens :
forall country W c, good_workbook country W -> stored W c ->
(exists date, tells_dates (wb_globals W) date) /\
forall date, tells_dates (wb_globals W) date ->
exists shs, open_workbook c = Ok (mkbook (map fst (tabs (wb_globals W))) shs (datemode_of (wb_globals W))) /\
  Forall2 (fun s sh => shows_cells (SpecBiff.cells_of (wb_globals W) date s) sh) (wb_sheets W) shs.
Proof. exact C58_opens_proof. Qed.
Print Assumptions C58_opens.

(** A workbook: a date format of its own, three XFs, a worksheet and a chart, and
    shared strings, one of them cut; the sheet has all kinds of cells. *)
Definition narrow (t : str) : layout := mklayout 0 (false, t) [] None None.
Definition ex_xf (key : Z) : global := Xf [0; 0]%N key (repeat 0%N 16).
Definition ex_name (sheet : Z) (name : string) (m : SpecNames.meaning) : SpecNames.name_data :=
  SpecNames.mkname 0 0 0 sheet (repeat 0%N 4) (narrow (lit name)) m [].
(** rate * 2 + SUM(area, FN) *)
Definition ex_total : SpecNames.expr :=
  SpecNames.Oper 3 (SpecNames.Oper 5 (SpecNames.Other 2 2 [0; 0]%N) (SpecNames.Whole 2))
    (SpecNames.Variadic 2 false false 4 [SpecNames.Other 1 1 [0; 0]%N; SpecNames.OtherIn 1 2 1 [0; 0]%N]).
Definition ex_globals (off : Z) : list global :=
  [Skipped 0xe1 [176; 4]%N; User (narrow (lit "me")) (repeat 32%N 5); Codepage 1200 []; Datemode 0 []; Nation 1 46 [];
   Format 164 (narrow (lit "yyyy-mm-dd")) []; ex_xf 0; ex_xf 164; ex_xf 14;
   Books 1 []; Elsewhere (narrow (lit "other.xls")) [narrow (lit "one"); narrow (lit "two")] []; Functions [];
   Foreign (repeat 0%N 6) (narrow (lit "FN")) [2; 0; 28; 23]%N; References [(0, 0, 0); (1, 1, 1); (2, 0xfffe, 0xfffe)];
   Named (ex_name 1 "area" (SpecNames.Formula (SpecNames.Ref 1 0 true (repeat 0%N 8))));
   Named (ex_name 0 "rate" (SpecNames.Formula (SpecNames.Real (float_of_Z 2))));
   Named (ex_name 0 "total" (SpecNames.Formula ex_total));
   Tab off 0 0 (mklayout 1 (true, [8364; 49]%N) [] None None) []; Tab 0 0 2 (narrow (lit "chart")) [];
   Shared (repeat 0%N 4) [(narrow (lit "t"), false); (mklayout 0 (false, lit "v") [(1%N, (true, [8364]%N))] None None, false)]].
Definition ex_items : list SpecBiff.item :=
  [Passed 0x208 (repeat 0%N 16); Dimension (repeat 0%N 14);
   Cell (mkplace 0 0 0) (CShared 0); Cell (mkplace 0 1 0) (CShared 1); Cell (mkplace 0 2 0) (CRich (narrow (lit "m")) [(0, 5)]);
   Cell (mkplace 1 0 1) (CDouble (float_of_Z 43890) []); Cell (mkplace 2 0 2) (CRk (RkInt 43891 false) []);
   Cells 1 1 [(0, RkInt 725 true)]; Cell (mkplace 2 1 0) (CFormula 6 (RNumber (float_of_Z 4)) [0; 0]%N [1; 0; 9]%N);
   Cell (mkplace 1 2 0) (CLogic false 1 []);
   Cell (mkplace 2 2 0) (CFormula 6 (RText (repeat 0%N 5) (Some (0x4bc, repeat 0%N 10)) 0 (false, lit "a") [(1%N, (true, [8364]%N))]) [0; 0]%N []);
   Country 1 46; Embedded 0x809 (repeat 0%N 8) [(0x203, [])]; Passed 0x23e (repeat 0%N 18)].
Definition ex_sheet : sheet_data := mksheetdata 0x600 [16; 0; 0; 0]%N ex_items.
Definition ex_off : Z := size (globals_bytes (mkworkbook [] (ex_globals 0) [])).
Definition ex_book : workbook := mkworkbook [] (ex_globals ex_off) [ex_sheet].
Definition ex_stream : str := globals_bytes ex_book ++ sheet_bytes ex_sheet.
Lemma ex_narrow t : forallb (fun c => (c <? 256)%N) t = true -> Z.of_nat (length t) < 2 ^ 16 -> good_layout (narrow t) /\ uncut (narrow t).
Proof.
  intros A B. split; [|unfold uncut, run_list; cbn; repeat split; constructor]. unfold good_layout, good_stretch, total_units, units, run_list, phonetic_size. cbn.
  repeat split; try (intros; discriminate); try constructor; try lia; try congruence. apply Forall_forall. intros x X. rewrite forallb_forall in A. specialize (A x X). lia.
Qed.
Ltac ex_layout := unfold good_layout, good_stretch, scalar, uncut, total_units, units, run_list, phonetic_size; cbn;
  repeat (apply Forall_cons || apply Forall_nil || split); cbn; intros; try discriminate; try congruence; try lia; auto; try (unfold scalar; lia).
Ltac ex_size := vm_compute; reflexivity.
Lemma ex_stored : stored ex_book ex_stream.
Proof.
  split; [exists [], (sheet_bytes ex_sheet); split; reflexivity|].
  replace (tabs (wb_globals ex_book)) with [([8364; 49]%N, ex_off)] by reflexivity.
  constructor; [|constructor]. exists (globals_bytes ex_book), []. split; [rewrite app_nil_r; reflexivity|vm_compute; reflexivity].
Qed.
Ltac ex_all := intros ? ?; cbn; intuition (subst; reflexivity).
Ltac ex_pairs := intros ? ? ? ?; cbn in *; intuition (subst; reflexivity).
Lemma ex_named sheet name m : word16 sheet -> forallb (fun c => (c <? 256)%N) (lit name) = true -> Z.of_nat (length (lit name)) < 256 ->
  size (SpecNames.name_bytes (ex_name sheet name m)) < 2 ^ 16 -> SpecNames.good_name (ex_name sheet name m).
Proof.
  intros W A L S. destruct (ex_narrow (lit name) A ltac:(lia)). split; [unfold word16; cbn; lia|]. split; [exact W|]. split; [reflexivity|].
  split; [assumption|]. split; [assumption|]. split; [|exact S]. unfold total_units. cbn. lia.
Qed.
Lemma ex_links off : good_links (ex_globals off).
Proof.
  split.
  - intros book first last I. cbn in I. destruct I as [I|[I|[I|[]]]]; injection I as <- <- <-; cbn; intro H; [discriminate H..|auto].
  - intros before head name extra after E B.
    assert (L : (length before <= 20)%nat) by (apply (f_equal (@length global)) in E; rewrite app_length in E; cbn in E; lia).
    do 21 (destruct before as [|? before]; [first [discriminate E|discriminate B]|cbn [app] in E; injection E as <- E; try discriminate B]). all: cbn in L; lia.
Qed.
Lemma ex_harmless off : SpecNames.harmless_names None (kinds_of (ex_globals off)) (foreign (ex_globals off)) (names_of (ex_globals off)).
Proof.
  exists (fun i => if i =? 1 then [SpecNames.Area] else if i =? 2 then [SpecNames.Number] else [SpecNames.FreeNumber]), (fun i => if i =? 3 then 1%nat else 0%nat).
  intros i n N _. destruct i as [|[|[|i]]]; [..|destruct i; discriminate N]; injection N as <-;
    (split; [cbn; lia|split; [|intros ? ?; cbn in *; tauto]]).
  - cbn. split; [reflexivity|]. unfold SpecNames.good_class, word16. lia.
  - vm_compute. right. repeat split; discriminate.
  - cbn [SpecNames.nm_meaning ex_name ex_total SpecNames.harmless].
    assert (U : forall j, j = 1 \/ j = 2 -> SpecNames.usable_name (kinds_of (ex_globals off)) (names_of (ex_globals off))
                  (fun i => if i =? 3 then 1%nat else 0%nat) (Z.of_nat 2 + 1) j).
    { intros j J. split; [lia|]. split; [destruct J as [-> | ->]; cbn; lia|]. destruct J as [-> | ->]; eexists; (split; [reflexivity|]);
        (split; [unfold SpecNames.macro; cbn; intuition discriminate|]); cbn; [right; split; [lia|reflexivity]|left; reflexivity]. }
    unfold SpecNames.good_class, word16.
    split; [lia|]. split; [split; [lia|]; split; [repeat split; try lia; try reflexivity; apply U; auto|]; split; [lia|left; ex_pairs]|].
    split; [|left; ex_pairs]. split; [lia|]. split; [discriminate|]. split; [exists 0, 30; split; [cbn; tauto|cbn; lia]|]. split; [lia|].
    cbn [map fold_right]. split; [repeat split; try lia; try reflexivity; apply U; auto|]. split; [|exact I]. repeat split; try lia; try reflexivity. right.
    intros book first last E. cbn in E. injection E as <- <- <-. discriminate.
Qed.
Lemma ex_good : good_workbook (1, 46) ex_book.
Proof.
  split; [unfold good_bof, size; cbn; lia|]. split; [|split; [apply ex_links|split; [apply ex_harmless|]]].
  - unfold ex_book, ex_globals. cbn [wb_globals].
    repeat match goal with |- Forall _ (_ :: _) => constructor | |- Forall _ [] => constructor end; cbn [good_global ex_xf].
    + split; [unfold word16; lia|]. split; [ex_size|]. cbn; intuition discriminate.
    + destruct (ex_narrow (lit "me") eq_refl eq_refl). split; [assumption|]. split; [assumption|ex_size].
    + split; [cbn; tauto|ex_size].
    + split; [lia|ex_size].
    + split; [reflexivity|ex_size].
    + destruct (ex_narrow (lit "yyyy-mm-dd") eq_refl eq_refl). split; [unfold word16; lia|]. split; [assumption|]. split; [assumption|ex_size].
    + split; [reflexivity|]. split; [unfold word16; lia|]. split; [unfold size; cbn; lia|ex_size].
    + split; [reflexivity|]. split; [unfold word16; lia|]. split; [unfold size; cbn; lia|ex_size].
    + split; [reflexivity|]. split; [unfold word16; lia|]. split; [unfold size; cbn; lia|ex_size].
    + ex_size.
    + destruct (ex_narrow (lit "other.xls") eq_refl eq_refl), (ex_narrow (lit "one") eq_refl eq_refl), (ex_narrow (lit "two") eq_refl eq_refl).
      split; [repeat (apply Forall_cons; [split; assumption|]); apply Forall_nil|]. split; [discriminate|]. split; [intros [X _]; discriminate X|ex_size].
    + ex_size.
    + destruct (ex_narrow (lit "FN") eq_refl eq_refl). split; [reflexivity|]. split; [assumption|]. split; [assumption|]. split; [ex_size|ex_size].
    + split; [unfold word16; repeat (constructor; [lia|]); constructor|ex_size].
    + apply ex_named; [unfold word16; lia|ex_size..].
    + apply ex_named; [unfold word16; lia|ex_size..].
    + apply ex_named; [unfold word16; lia|ex_size..].
    + split; [vm_compute; split; [discriminate|reflexivity]|]. split; [reflexivity|]. split; [ex_layout|]. split; [ex_layout|]. split; [ex_size|ex_size].
    + destruct (ex_narrow (lit "chart") eq_refl eq_refl). split; [lia|]. split; [reflexivity|]. split; [assumption|]. split; [assumption|]. split; [ex_size|ex_size].
    + split; [reflexivity|]. split; [ex_layout|]. split; [ex_size|].
      replace (shared_records _ _) with [(repeat 0 4 ++ [2; 0; 0; 0; 1; 0; 0; 116; 2; 0; 0; 118])%N; [1; 172; 32]%N] by reflexivity.
      constructor; [ex_size|]. constructor; [ex_size|constructor].
  - constructor; [|constructor]. split; [unfold word16; cbn; lia|]. split; [unfold good_bof, size; cbn; lia|]. split.
    + exists (firstn 2 ex_items), (skipn 2 ex_items). split; [reflexivity|]. cbn. split; repeat constructor.
    + split; [exact I|]. cbn [sd_items ex_sheet]. unfold ex_items.
      replace (shared_of (wb_globals ex_book)) with [lit "t"; [118; 8364]%N] by reflexivity. replace (xf_count (wb_globals ex_book)) with 3 by reflexivity.
      assert (NM : good_layout (narrow (lit "m")) /\ uncut (narrow (lit "m"))) by (apply ex_narrow; reflexivity).
      repeat match goal with |- Forall _ (_ :: _) => constructor | |- Forall _ [] => constructor end; cbn [good_item pl_row pl_col pl_xf good_content];
        unfold word16 in *;
        repeat match goal with
        | |- good_passed _ _ => unfold good_passed, word16
        | |- good_rk _ => cbn
        | |- good_result _ => cbn
        | |- _ /\ _ => split
        | |- short _ => ex_size
        | |- ~ In _ _ => cbn; intuition discriminate
        | |- In _ _ => cbn; tauto
        | |- Forall _ (_ :: _) => constructor
        | |- Forall _ [] => constructor
        | |- good_layout _ => tauto
        | |- uncut _ => tauto
        | |- good_text _ => unfold good_text
        | |- good_stretch _ => unfold good_stretch, scalar; cbn
        | |- _ -> _ => intro
        end; try reflexivity; try discriminate; try (unfold size; cbn; lia); try lia; try congruence; try (vm_compute; reflexivity).
      * split; [ex_size|]. right; left. split; [reflexivity|unfold size; cbn; lia].
      * cbn. constructor; [lia|constructor].
      * cbn. constructor; [lia|constructor].
Qed.
Example C58_opens_ex : good_workbook (1, 46) ex_book /\ stored ex_book ex_stream /\
  exists bk, open_workbook ex_stream = Ok bk /\ bk_names bk = [[8364; 49]%N] /\ bk_datemode bk = 0 /\
  map sh_values (bk_sheets bk) =
    [[[VStr (lit "t"); VStr [118; 8364]%N; VStr (lit "m")];
      [VFloat (float_of_Z 43890); VFloat (fdiv (float_of_Z 725) (float_of_Z 100)); VInt 1];
      [VFloat (float_of_Z 43891); VFloat (float_of_Z 4); VStr [97; 8364]%N]]] /\
  map sh_types (bk_sheets bk) = [[[1; 1; 1]; [3; 2; 4]; [3; 2; 1]]].
Proof.
  split; [exact ex_good|]. split; [exact ex_stored|]. eexists. split; [vm_compute; reflexivity|]. vm_compute. repeat split.
Qed.

(** A FILEPASS record among the globals, the mark of an encrypted workbook, is
refused, whatever follows it. *)
Theorem C58_encrypted :
forall country l more data c, good_bof more -> Forall (good_global country) l -> good_links l -> short data ->
holds_at c 0 (bof 0x600 5 more ++ flat_map global_bytes l ++ record 0x2f data) -> open_workbook c = Err XLRDError.
Proof. exact C58_encrypted_proof. Qed.
Print Assumptions C58_encrypted.

Example C58_encrypted_ex : open_workbook (bof 0x600 5 [] ++ flat_map global_bytes (ex_globals 0) ++ record 0x2f (repeat 7%N 54) ++ sheet_bytes ex_sheet) = Err XLRDError.
Proof. vm_compute. reflexivity. Qed.

(** A file that ends between two records of a sheet, before its EOF, is not taken
for a smaller sheet: opening it raises struct.error. *)
Theorem C58_cut :
forall country more l ss sh items c tabs1 tab tabs2,
good_bof more -> Forall (good_global country) l -> good_links l -> SpecNames.harmless_names None (kinds_of l) (foreign l) (names_of l) ->
Forall (good_sheet country l) ss ->
good_sheet country l (mksheetdata (sd_version sh) (sd_more sh) items) ->
holds_at c 0 (bof 0x600 5 more ++ flat_map global_bytes l ++ eof) -> tabs l = tabs1 ++ tab :: tabs2 ->
Forall2 (fun tb s => holds_at c (snd tb) (sheet_bytes s)) tabs1 ss ->
(exists before, c = before ++ bof (sd_version sh) 0x10 (sd_more sh) ++ flat_map item_bytes items /\ size before = snd tab) ->
open_workbook c = Err StructError.
Proof. exact C58_cut_proof. Qed.
Print Assumptions C58_cut.

Example C58_cut_ex : open_workbook (globals_bytes ex_book ++ bof 0x600 0x10 [16; 0; 0; 0]%N ++ flat_map item_bytes (firstn 7 ex_items)) = Err StructError.
Proof. vm_compute. reflexivity. Qed.

(** Opening any file that is not a compound document ends: the loops over records
move on by at least four bytes each time. *)
Theorem C58_ends :
forall c, firstn 8 c <> [208; 207; 17; 224; 161; 177; 26; 225]%N -> open_workbook c <> Err NonTermination.
Proof. exact C58_ends_proof. Qed.
Print Assumptions C58_ends.

Example C58_ends_ex : open_workbook (bof 0x600 5 [] ++ record 0x42 [228; 4]%N ++ record 0x17 [9; 0]%N ++ record 0x3c [] ++ eof) = Err XLRDError /\
  open_workbook (bof 0x600 5 [] ++ record 0xfc [0; 0]%N) = Err StructError /\ open_workbook [9; 8]%N = Err XLRDError.
Proof. vm_compute. auto. Qed.

(** The guard that the text of a formula has no character beyond 65535 is needed:
the reader counts characters where the file counts units of two bytes. *)
Theorem C58_beyond_refuted :
exists first c W, good_stretch first /\ snd first = [97; 128512]%N /\
  wb_sheets W = [mksheetdata 0x600 [] [Cell (mkplace 0 0 0) (CFormula 6 (RText (repeat 0%N 5) None 1 first []) [0; 0]%N [])]] /\
  stored W c /\ good_workbook (0, 0) (mkworkbook (wb_more W) (wb_globals W) []) /\ open_workbook c = Err XLRDError.
Proof. exact C58_beyond_refuted_proof. Qed.
Print Assumptions C58_beyond_refuted.

(** The guard that the record about the dimensions does not come after cells is
needed: it makes the reader forget them. *)
Theorem C58_dimension_refuted :
exists W c bk, stored W c /\ good_workbook (0, 0) (mkworkbook (wb_more W) (wb_globals W) []) /\
  wb_sheets W = [mksheetdata 0x600 [] [Cell (mkplace 0 0 0) (CRk (RkInt 7 false) []); Dimension (repeat 0%N 14)]] /\
  open_workbook c = Ok bk /\ map sh_nrows (bk_sheets bk) = [0].
Proof. exact C58_dimension_refuted_proof. Qed.
Print Assumptions C58_dimension_refuted.

(** The same holds of a file that has the stream alone or in a compound document, in
whatever order its sectors are. *)
Theorem C59_opens :
forall country W file date, good_workbook country W -> workbook_file W file -> tells_dates (wb_globals W) date ->
exists shs, open_workbook file = Ok (mkbook (map fst (tabs (wb_globals W))) shs (datemode_of (wb_globals W))) /\
  Forall2 (fun s sh => shows_cells (SpecBiff.cells_of (wb_globals W) date s) sh) (wb_sheets W) shs.
Proof. exact C59_opens_proof. Qed.
Print Assumptions C59_opens.

(** A pack read from such a file, with any range, header and columns that suit the
sheet: one channel for each used column, which holds the cells written in its rows, typed
as in C45 and with the date mode of the workbook, under the name written in the
header row. *)
Theorem C59_pack :
forall country W file date fname which s header startcell stopcell usecols r0 c0 r1 c1 cols nr r cells f l,
good_workbook country W -> workbook_file W file -> tells_dates (wb_globals W) date ->
picks W which s -> l = SpecBiff.cells_of (wb_globals W) date s ->
refers startcell r0 c0 -> stops_at (height l) (width l) stopcell r1 c1 -> c1 < width l ->
chosen_columns c0 c1 usecols cols -> cols <> [] -> Forall (fun c => c0 <= c <= c1) cols ->
headed header r0 nr r -> (forall k, nr = Some k -> k < height l) ->
(forall c, In c cols -> column_of l c r (Z.max 0 (Z.min (r1 + 1) (height l) - r)) (cells c) /\
                        typed_column (datemode_of (wb_globals W)) (cells c) (f c)) ->
exists p, sheetpack_file file fname which header startcell stopcell usecols = Ok p /\ p_fn p = fname /\
  (forall c, In c cols -> holds_column (p_data p) c (f c)) /\
  (forall c, ~ In c cols -> dget c (p_data p) = None) /\
  (forall c, In c cols -> match nr with
                          | Some k => exists v, dget c (p_names p) = Some v /\ shows_value l k c v
                          | None => dget c (p_names p) = None
                          end) /\
  (forall c, ~ In c cols -> dget c (p_names p) = None).
Proof. exact C59_pack_proof. Qed.
Print Assumptions C59_pack.

(** The workbook of C58_opens_ex in a document with sectors of 256 bytes: the
    table, the directory, and the stream with its second third first. *)
Definition book_entries : list dirnode :=
  [mkdirnode (lit "Root Entry") 5 (-1) (-1) 1 (-2) 0; mkdirnode (lit "WorkBook") 2 (-1) (-1) (-1) 3 691].
Definition book_table : list Z := [-3; -2; 4; 2; -2] ++ repeat (-1) 59.
Definition book_doc : document :=
  mkdocument (repeat 9%N 20) 8 6 (repeat 0%N 10) (1, 0) 100 (0 :: repeat (-1) 108) [] [(0, book_table)] [1] book_entries [] []
    [words book_table; flat_map entry_bytes book_entries; firstn 256 (skipn 256 ex_stream); firstn 256 ex_stream; skipn 512 ex_stream ++ repeat 0%N 77].
Definition book_tree : dtree := Node 1 Nil Nil Nil.
Lemma book_ints l : forallb (fun z => (- 2 ^ 31 <=? z) && (z <? 2 ^ 31)) l = true -> Forall is_int l.
Proof. intro H. apply Forall_forall. intros x X. rewrite forallb_forall in H. specialize (H x X). unfold is_int. lia. Qed.
Lemma book_dir : dir_tree book_doc book_tree.
Proof.
  exists (mkdirnode (lit "Root Entry") 5 (-1) (-1) 1 (-2) 0). split; [reflexivity|]. split; [reflexivity|]. split.
  - eapply unf_other; [cbn; lia|reflexivity|discriminate| |]; constructor; cbn; lia.
  - cbn. repeat (constructor; [cbn; intuition discriminate|]). constructor.
Qed.
Lemma book_present s : (0 <=? s) && (s <? 5) = true -> present book_doc s.
Proof. intro H. unfold present. change (length (o_sectors book_doc)) with 5%nat. lia. Qed.
Lemma book_good : good_document book_doc.
Proof.
  constructor.
  - reflexivity.
  - reflexivity.
  - cbn; lia.
  - cbn; lia.
  - apply book_ints. vm_compute. reflexivity.
  - reflexivity.
  - split; [reflexivity|]. apply book_ints. vm_compute. reflexivity.
  - split; [|intros _; vm_compute; split; [reflexivity|discriminate]]. vm_compute. repeat constructor.
  - exact Coq.Init.Logic.I.
  - vm_compute. reflexivity.
  - constructor; [|constructor]. split; [apply book_present; reflexivity|]. split; [vm_compute; reflexivity|]. split; [vm_compute; reflexivity|apply book_ints; vm_compute; reflexivity].
  - split; [discriminate|]. split; [eapply chain_next; [cbn; lia|reflexivity|]; apply chain_end|]. constructor; [apply book_present; reflexivity|constructor].
  - exists (map entry_bytes book_entries). split; [|vm_compute; reflexivity].
    assert (X : forall e, In e book_entries -> stores_entry e (entry_bytes e)).
    { intros e E. exists (name_field (dn_name e)), (2 * Z.of_nat (length (dn_name e)) + 2), 1%N, (repeat 0%N 36), (repeat 0%N 4).
      split; [reflexivity|]. cbn [book_entries In] in E.
      repeat (destruct E as [<-|E]); try destruct E; (split; [reflexivity|]; split; [reflexivity|]; split; [reflexivity|]; split; [cbn; lia|];
        split; [apply book_ints; vm_compute; reflexivity|]; split; [cbn; repeat (constructor; [unfold scalar; lia|]); constructor|];
        right; eexists; split; [unfold name_field; reflexivity|vm_compute; reflexivity]). }
    cbn [o_entries book_doc]. revert X. generalize book_entries. intros l X. induction l as [|e l IH]; [constructor|].
    cbn [map]. constructor; [apply X; left; reflexivity|]. apply IH. intros e' E'. apply X. right. exact E'.
  - exists book_tree. exact book_dir.
  - split; [cbn; lia|]. split; [split; reflexivity|]. split; constructor.
  - split; [cbn; lia|constructor].
  - cbn. repeat (constructor; [cbn; intuition discriminate|]). constructor.
Qed.
Lemma book_stream : stream book_doc 1 [3; 2; 4] ex_stream.
Proof.
  eexists. split; [lia|]. split; [reflexivity|]. split; [reflexivity|]. split; [cbn; lia|]. split; [vm_compute; reflexivity|].
  cbn [o_min book_doc dn_size Z.leb Z.compare Pos.compare Pos.compare_cont]. split.
  - cbn [dn_first]. do 3 (eapply chain_next; [cbn; lia|reflexivity|]). apply chain_end.
  - split; [do 3 (constructor; [apply book_present; reflexivity|]); constructor|].
    split; [|split; vm_compute; reflexivity]. do 2 (constructor; [vm_compute; reflexivity|]). constructor.
Qed.
Lemma book_file : workbook_file ex_book (doc_file book_doc).
Proof.
  apply (file_document ex_book book_doc book_tree (lit "Workbook") 1 [3; 2; 4] ex_stream).
  - exact book_good.
  - exact book_dir.
  - intros d c C. cbn in C. repeat (destruct C as [C|C]; [injection C as <- <-|]); try destruct C;
    intros d1 n1 d2 n2 A B E F G; cbn in A, B; intuition subst; reflexivity.
  - cbn. repeat (constructor; [unfold no_kelvin; cbn; intuition discriminate|]). constructor.
  - left. reflexivity.
  - eapply lt_stream; [split; [cbn; left; reflexivity|split; [reflexivity|]]|reflexivity]. cbn. repeat (constructor; [unfold same_letter; lia|]). constructor.
  - exact book_stream.
  - lia.
  - cbn. repeat (constructor; [cbn; intuition discriminate|]). constructor.
  - exact ex_stored.
Qed.
Example C59_pack_ex : workbook_file ex_book (doc_file book_doc) /\ picks ex_book (OStr [8364; 49]%N) ex_sheet /\
  exists p, sheetpack_file (doc_file book_doc) (lit "f.xls") (OStr [8364; 49]%N) (OBool true) None None ONone = Ok p /\
  p_data p = [(0, mkarr KO [VDateTime 737484 0; VDateTime 737485 0]);
              (1, mkarr Kf [VFloat (fdiv (float_of_Z 725) (float_of_Z 100)); VFloat (float_of_Z 4)]);
              (2, mkarr KU [VStrOf (VBool true); VStr [97; 8364]%N])] /\
  p_names p = [(0, VStr (lit "t")); (1, VStr [118; 8364]%N); (2, VStr (lit "m"))].
Proof.
  split; [exact book_file|]. split; [apply (pick_name ex_book [] _ ex_off []); [reflexivity|cbn; auto|reflexivity]|].
  eexists. split; [vm_compute; reflexivity|]. vm_compute. split; reflexivity.
Qed.

