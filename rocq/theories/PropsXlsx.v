(** * Xlsx workbooks, from the archive to the pack (C61, C62): the property theorems *)

From Coq Require Import ZifyBool ZifyNat ZifyN QArith.
From Verif Require Import PyBase PyBaseFacts PyFloat PyText NumPy SpecArray ArrayFacts SpecPack Dbf SpecDbf DbfProofs Dicts Pack XlDate ReadXl XlProofs ReadXlThms FmtDate FmtDateThms SpecXl XlSheet SpecXlSheet XlSheetProofs XlSheetThms SpecNumber NumberProofs SpecBiff BiffProofs BiffThms Xlsx SpecXlsx XlsxProofs XlsxThms.
Open Scope nat_scope.
Open Scope Z_scope.

(** A workbook S with one worksheet, of these rows, and these shared strings. *)
Definition small_zip (strings : list str) (rows : list elem) : archive :=
  let e t a x c := Elem (main_ns ++ t) a x c in
  [(lit "xl/_rels/workbook.xml.rels",
    Some (Elem [] [] None [Elem (package_ns ++ lit "Relationship")
      [(lit "Id", lit "i"); (lit "Type", lit "worksheet"); (lit "Target", lit "s.xml")] None []]));
   (lit "xl/workbook.xml",
    Some (e [] [] None [e (lit "sheet") [(lit "name", lit "S"); (lit "sheetId", lit "1"); (office_ns ++ lit "id", lit "i")] None []]));
   (lit "xl/sharedStrings.xml", Some (e [] [] None (map (fun t => e (lit "si") [] None [e (lit "t") [] (Some t) []]) strings)));
   (lit "xl/s.xml", Some (e [] [] None rows))].
Definition small_cell (a : list (str * str)) (v : str) : elem :=
  Elem (main_ns ++ lit "c") a None [Elem (main_ns ++ lit "v") [] (Some v) []].

(** An archive whose parts make sense opens: the book has the names of its worksheets
in the order of the tabs, the date mode and, for each worksheet, a sheet that shows
exactly the cells written, as large as these and the merged ranges together. *)
Theorem C61_opens :
forall z dm l, xlsx_file z dm l ->
exists shs, open_zip z = Ok (mkbook (map ct_name l) shs dm) /\ Forall2 shows_sheet l shs.
Proof. exact C61_opens_proof. Qed.
Print Assumptions C61_opens.

(** A workbook with two worksheets and a chart. *)
Definition el (t : str) (a : list (str * str)) (x : option str) (c : list elem) : elem := Elem (main_ns ++ t) a x c.
Definition val_of (t : str) : list elem := [el (lit "v") [] (Some t) []].
Definition rel (id kind target : str) : elem :=
  Elem (package_ns ++ lit "Relationship") [(lit "Id", id); (lit "Type", lit "http://x/" ++ kind); (lit "Target", target)] None [].
Definition tab (n id name : str) : elem :=
  el (lit "sheet") [(lit "name", name); (lit "sheetId", n); (office_ns ++ lit "id", id)] None [].
Definition ex_rels : elem := Elem (package_ns ++ lit "Relationships") [] None
  [rel (lit "rId1") (lit "worksheet") (lit "worksheets/Sheet1.xml"); rel (lit "rId2") (lit "chartsheet") (lit "chartsheets/sheet1.xml");
   rel (lit "rId3") (lit "worksheet") (lit "/xl/worksheets/sheet2.xml"); rel (lit "rId4") (lit "sharedStrings") (lit "sharedStrings.xml")].
Definition ex_workbook : elem := el (lit "workbook") [] None
  [el (lit "workbookPr") [(lit "date1904", lit "false")] None [];
   el (lit "sheets") [] None [tab (lit "1") (lit "rId1") (lit "Log"); tab (lit "4") (lit "rId2") (lit "Chart"); tab (lit "2") (lit "rId3") (lit "R_x0026_D")];
   el (lit "definedNames") [] None [el (lit "definedName") [(lit "name", lit "top"); (lit "localSheetId", lit "0")] (Some (lit "Log!$A$1")) []]].
Definition ex_styles : elem := el (lit "styleSheet") [] None
  [el (lit "numFmts") [] None [el (lit "numFmt") [(lit "numFmtId", lit "164"); (lit "formatCode", lit "0.0")] None []];
   el (lit "cellStyleXfs") [] None [el (lit "xf") [(lit "numFmtId", lit "0")] None []];
   el (lit "cellXfs") [] None [el (lit "xf") [(lit "numFmtId", lit "0")] None []; el (lit "xf") [(lit "numFmtId", lit "14")] None [];
                               el (lit "xf") [(lit "numFmtId", lit "164")] None []]].
Definition ex_strings : elem := el (lit "sst") [] None
  [el (lit "si") [] None [el (lit "t") [] (Some (lit " t ")) []];
   el (lit "si") [] None [el (lit "r") [] None [el (lit "rPr") [] None []; el (lit "t") [] (Some (lit "v")) []];
                          el (lit "r") [] None [el (lit "t") [] (Some (lit "_x005F_t")) []]]].
Definition ex_a1 := el (lit "c") [(lit "r", lit "A1"); (lit "t", lit "s")] None (val_of (lit "0")).
Definition ex_b1 := el (lit "c") [(lit "r", lit "B1"); (lit "t", lit "s")] None (val_of (lit "1")).
Definition ex_c1 := el (lit "c") [(lit "t", lit "inlineStr")] None [el (lit "is") [] None [el (lit "t") [] (Some (lit "m")) []]].
Definition ex_a2 := el (lit "c") [(lit "r", lit "$A2"); (lit "s", lit "1")] None (val_of (lit "43466")).
Definition ex_b2 := el (lit "c") [(lit "r", lit "B2")] None (el (lit "f") [] (Some (lit "29/4")) [] :: val_of (lit "7.25")).
Definition ex_c2 := el (lit "c") [(lit "r", lit "C2"); (lit "t", lit "b")] None (val_of (lit "1")).
Definition ex_a4 := el (lit "c") [(lit "r", lit "A4"); (lit "s", lit "1")] None (val_of (lit "43467")).
Definition ex_b4 := el (lit "c") [(lit "r", lit "B4")] None (val_of (lit "4")).
Definition ex_c4 := el (lit "c") [(lit "r", lit "C4"); (lit "t", lit "e")] None (val_of (lit "#DIV/0!")).
Definition ex_d4 := el (lit "c") [(lit "s", lit "2")] None [].
Definition ex_row1 := el (lit "row") [(lit "r", lit "1")] None [ex_a1; ex_b1; ex_c1].
Definition ex_row2 := el (lit "row") [] None [ex_a2; ex_b2; ex_c2].
Definition ex_row4 := el (lit "row") [(lit "r", lit "4")] None [ex_a4; ex_b4; ex_c4; ex_d4].
Definition ex_size := el (lit "dimension") [(lit "ref", lit "A1:D4")] None [].
Definition ex_merge := el (lit "mergeCell") [(lit "ref", lit "A6:E6")] None [].
Definition ex_sheet1 : elem := el (lit "worksheet") [] None
  [ex_size; el (lit "sheetData") [] None [ex_row1; ex_row2; ex_row4]; el (lit "mergeCells") [] None [ex_merge]].
Definition ex_sheet2 : elem := el (lit "worksheet") [] None [el (lit "sheetData") [] None []].
Definition ex_sheet_rels : elem := Elem (package_ns ++ lit "Relationships") [] None
  [rel (lit "rId1") (lit "comments") (lit "../comments1.xml"); rel (lit "rId2") (lit "drawing") (lit "../drawings/d.xml")].
Definition ex_comments : elem := el (lit "comments") [] None
  [el (lit "authors") [] None [el (lit "author") [] (Some (lit "me")) []];
   el (lit "commentList") [] None [el (lit "comment") [(lit "ref", lit "B2"); (lit "authorId", lit "0")] None []]].
Definition ex_zip : archive :=
  [(lit "thumb.jpeg", None); (lit "xl/_rels/workbook.xml.rels", Some ex_rels); (lit "xl/workbook.xml", Some ex_workbook);
   (lit "xl/Styles.xml", Some ex_styles); (lit "xl/SharedStrings.xml", Some ex_strings); (lit "xl\worksheets\Sheet1.xml", Some ex_sheet1);
   (lit "xl/worksheets/sheet2.xml", Some ex_sheet2); (lit "xl/worksheets/_rels/sheet1.xml.rels", Some ex_sheet_rels);
   (lit "xl/comments1.xml", Some ex_comments)].
Definition ex_puts : list put :=
  [mkput 0 0 (Some XL_CELL_TEXT) (VStr (lit "t")) 0; mkput 0 1 (Some XL_CELL_TEXT) (VStr (lit "v_t")) 0; mkput 0 2 (Some XL_CELL_TEXT) (VStr (lit "m")) 0;
   mkput 1 0 (Some XL_CELL_DATE) (VFloat (float_of_Z 43466)) 1; mkput 1 1 (Some XL_CELL_NUMBER) (VFloat (fdiv (float_of_Z 29) (float_of_Z 4))) 0;
   mkput 1 2 (Some XL_CELL_BOOLEAN) (VInt 1) 0;
   mkput 3 0 (Some XL_CELL_DATE) (VFloat (float_of_Z 43467)) 1; mkput 3 1 (Some XL_CELL_NUMBER) (VFloat (float_of_Z 4)) 0;
   mkput 3 2 (Some XL_CELL_ERROR) (VInt 7) 0].
Definition ex_contents : list content := [mkcontent (lit "Log") ex_puts [(5, 6, 0, 5)]; mkcontent (lit "R&D") [] []].

Ltac ex_says := apply says_get; reflexivity.
Ltac ex_silent := apply silent_get; reflexivity.
Ltac ex_digits := split; [discriminate|repeat constructor; discriminate].
Ltac ex_part := apply part_by; vm_compute; reflexivity.
Ltac ex_named := unfold named; reflexivity.
Lemma ex_nearest t neg x f : decimal t neg x -> float_of_str t = Ok f -> nearest neg x f.
Proof.
  intros D E. destruct (float_of_decimal [] t [] neg x (Forall_nil _) (Forall_nil _) D) as (f' & E' & H). cbn [app] in E'. rewrite app_nil_r in E'. congruence.
Qed.
Lemma ex_integer t : digits t -> exists x, decimal t false x.
Proof.
  intros [NE D]. eexists. replace t with ([] ++ t ++ []) at 1 by (cbn [app]; apply app_nil_r). apply (dec_text [] false t t [] [] 0); [constructor| |constructor].
  apply dg_plain; assumption.
Qed.
Lemma ex_rels_told : relations_in (e_children ex_rels)
  [mkrel (lit "rId1") (lit "worksheet") (lit "worksheets/Sheet1.xml"); mkrel (lit "rId2") (lit "chartsheet") (lit "chartsheets/sheet1.xml");
   mkrel (lit "rId3") (lit "worksheet") (lit "/xl/worksheets/sheet2.xml"); mkrel (lit "rId4") (lit "sharedStrings") (lit "sharedStrings.xml")].
Proof.
  assert (K : forall k, ~ In 47%N k -> after_slash (lit "http://x/" ++ k) k) by (intros k H; apply (as_last (lit "http:/" ++ lit "/x")); exact H).
  cbn [ex_rels e_children].
  repeat (eapply ri_rel; [reflexivity|ex_says|ex_says|apply K; vm_compute; intuition discriminate|ex_says|]). apply ri_nil.
Qed.
Lemma ex_lists : lists_sheets ex_zip 0 [(lit "Log", lit "xl/worksheets/Sheet1.xml"); (lit "R&D", lit "xl/worksheets/sheet2.xml")].
Proof.
  exists ex_rels. eexists. exists ex_workbook, (iter ex_workbook), [(lit "Log", lit "rId1"); (lit "Chart", lit "rId2"); (lit "R&D", lit "rId3")].
  split; [ex_part|]. split; [exact ex_rels_told|].
  split; [cbn [map rl_id]; repeat (constructor; [vm_compute; intuition discriminate|]); constructor|].
  split; [ex_part|]. split; [apply listed_all|]. split.
  - assert (U : forall s, escaped s (unescape s)) by (intro s; apply (escaped_unescape (S (length s))); lia).
    cbn [iter ex_workbook el e_children flat_map app tab].
    apply ti_other; [intros [H|H]; discriminate H..|].
    apply (ti_mode _ _ _ 0); [right; reflexivity|apply (fl_says _ _ (lit "false")); [ex_says|apply tr_no; right; left; reflexivity]|].
    apply ti_other; [intros [H|H]; discriminate H..|].
    apply ti_sheet with (d := lit "1") (name := lit "Log"); [right; reflexivity|ex_says|ex_digits|ex_says|apply (U (lit "Log"))|ex_says|].
    apply ti_sheet with (d := lit "4") (name := lit "Chart"); [right; reflexivity|ex_says|ex_digits|ex_says|apply (U (lit "Chart"))|ex_says|].
    apply ti_sheet with (d := lit "2") (name := lit "R_x0026_D"); [right; reflexivity|ex_says|ex_digits|ex_says|apply (U (lit "R_x0026_D"))|ex_says|].
    apply ti_names; [right; reflexivity| |].
    + constructor; [|constructor]. split; [right; right; exists (lit "0"); split; [ex_says|ex_digits]|]. split; [left; ex_silent|].
      repeat split; exists 0; apply fl_silent; ex_silent.
    + apply ti_other; [intros [H|H]; discriminate H..|]. apply ti_nil.
  - eapply ws_sheet; [left; reflexivity|apply (tn_relative (lit "worksheets/Sheet1.xml")); intros c u E; injection E as <- <-; intros [H|H]; discriminate H|].
    eapply ws_other; [right; left; reflexivity|discriminate|].
    eapply ws_sheet; [right; right; left; reflexivity|apply (tn_absolute 47%N); left; reflexivity|]. apply ws_nil.
Qed.
Lemma ex_styled : styles_at ex_zip [(164, lit "0.0")] [0; 14; 164].
Proof.
  right. exists ex_styles. split; [ex_part|].
  pose proof (listed_all ex_styles) as L.
  eapply sy_xfs with (pre := firstn 5 (iter ex_styles)) (cx := nth 5 (iter ex_styles) ex_styles) (body := skipn 6 (iter ex_styles)) (post := []) (later := []).
  - exact L.
  - exact (listed_all (nth 5 (iter ex_styles) ex_styles)).
  - right. reflexivity.
  - repeat (constructor; [constructor; [intros [H|H]; discriminate H|constructor]|]). constructor.
  - cbn [iter ex_styles el e_children flat_map app firstn].
    apply fi_other; [intros [H|H]; discriminate H|]. apply fi_other; [intros [H|H]; discriminate H|].
    apply (fi_format _ _ (lit "164")); [right; reflexivity|ex_says|ex_digits|ex_says|].
    repeat (apply fi_other; [intros [H|H]; discriminate H|]). apply fi_nil.
  - repeat (constructor; [repeat (constructor; [intros [H|H]; discriminate H|]); constructor|]). constructor.
  - apply (xi_xf _ _ (lit "0")); [right; reflexivity|ex_says|ex_digits|]. apply (xi_xf _ _ (lit "14")); [right; reflexivity|ex_says|ex_digits|].
    apply (xi_xf _ _ (lit "164")); [right; reflexivity|ex_says|ex_digits|]. apply xi_nil.
  - constructor.
  - apply fi_nil.
Qed.
Lemma ex_shared : shared_at ex_zip [lit "t"; lit "v_t"].
Proof.
  apply (sh_part _ (lit "xl/sharedStrings.xml") (lit "sharedStrings.xml") ex_strings (marks (is_tag (lit "si")) ex_strings)); [left; reflexivity|ex_part|apply missing_by; vm_compute; reflexivity| |].
  - apply marks_ok; [intro e; apply named_iff|vm_compute; reflexivity].
  - constructor; [apply (string_item_all (nth 0 (e_children ex_strings) ex_strings))|].
    constructor; [apply (string_item_all (nth 1 (e_children ex_strings) ex_strings))|constructor].
Qed.
Definition ex_date : Z -> Prop := date_xf [(164, lit "0.0")] [0; 14; 164].
Lemma ex_date_1 : ex_date 1. Proof. exists 14. split; [lia|]. split; [reflexivity|]. cbn. lia. Qed.
Lemma ex_date_0 : ~ ex_date 0. Proof. intros (k & _ & E & H). injection E as <-. cbn in H. lia. Qed.
Lemma ex_value e t : e_children e = val_of t -> value_text e (Some t).
Proof.
  intro E. apply (vt_some e (el (lit "v") [] (Some t) [])). apply (ho_one _ _ [] _ []); [exact E|constructor|constructor|ex_named].
Qed.
Lemma ex_place number r prev e s l d : says e (lit "r") (s ++ d) -> dollar_column s l -> row_digits d -> dec_value d = r + 1 ->
  (forall n, number = Some n -> d = n) -> cell_place number r prev e (column_no l).
Proof. intros. eapply cp_name; eassumption. Qed.
Ltac ex_kind := left; ex_says.
Ltac ex_at s l d := apply (ex_place _ _ _ _ s l d);
  [ex_says|split; [split; [discriminate|repeat constructor; discriminate]|reflexivity]|
   split; [repeat constructor; discriminate|do 2 eexists; split; [reflexivity|discriminate]]|reflexivity|
   let n := fresh in let E := fresh in intros n E; try discriminate E; injection E as <-; reflexivity].
Lemma ex_row1_told : cells_in [lit "t"; lit "v_t"] ex_date 3 (Some (lit "1")) 0 (-1) (e_children ex_row1) (firstn 3 ex_puts).
Proof.
  cbn [ex_row1 el e_children ex_puts firstn].
  eapply ci_cell; [ex_named|ex_at (lit "A") (lit "A") (lit "1")|reflexivity|apply cx_none; ex_silent|reflexivity| |].
  { apply (ho_shared _ _ _ (lit "0")); [ex_kind|apply ex_value; reflexivity|ex_digits|reflexivity]. }
  eapply ci_cell; [ex_named|ex_at (lit "B") (lit "B") (lit "1")|reflexivity|apply cx_none; ex_silent|reflexivity| |].
  { apply (ho_shared _ _ _ (lit "1")); [ex_kind|apply ex_value; reflexivity|ex_digits|reflexivity]. }
  eapply ci_cell; [ex_named|apply cp_next; ex_silent|reflexivity|apply cx_none; ex_silent|reflexivity| |].
  { apply (ho_inline _ _ _ (el (lit "is") [] None [el (lit "t") [] (Some (lit "m")) []]));
      [ex_kind|apply (ho_one _ _ [] _ []); [reflexivity|constructor|constructor|ex_named]|apply (string_item_all (el (lit "is") [] None [el (lit "t") [] (Some (lit "m")) []]))|discriminate]. }
  apply ci_nil.
Qed.
Lemma ex_row2_told : cells_in [lit "t"; lit "v_t"] ex_date 3 None 1 (-1) (e_children ex_row2) (firstn 3 (skipn 3 ex_puts)).
Proof.
  cbn [ex_row2 el e_children ex_puts firstn skipn].
  eapply ci_cell; [ex_named|ex_at (lit "$A") (lit "A") (lit "2")|reflexivity|apply (cx_says _ (lit "1")); [ex_says|ex_digits]|reflexivity| |].
  { destruct (ex_integer (lit "43466")) as (x & D); [ex_digits|]. eapply (ho_date _ _ _ [] (lit "43466") []); [right; split; [ex_silent|reflexivity]|apply ex_value; reflexivity|constructor|constructor|exact D| |exact ex_date_1].
    eapply ex_nearest; [exact D|vm_compute; reflexivity]. }
  eapply ci_cell; [ex_named|ex_at (lit "B") (lit "B") (lit "2")|reflexivity|apply cx_none; ex_silent|reflexivity| |].
  { assert (D : exists x, decimal (lit "7.25") false x).
    { eexists. apply (dec_text [] false (lit "7.25") (lit "7") (lit "25") [] 0); [constructor| |constructor]. apply (dg_point (lit "7") (lit "25")); [| |discriminate]; repeat constructor; discriminate. }
    destruct D as (x & D). eapply (ho_number _ _ _ [] (lit "7.25") []); [right; split; [ex_silent|reflexivity]| |constructor|constructor|exact D|eapply ex_nearest; [exact D|vm_compute; reflexivity]|exact ex_date_0].
    apply (vt_some _ (el (lit "v") [] (Some (lit "7.25")) [])). apply (ho_one _ _ [el (lit "f") [] (Some (lit "29/4")) []] _ []); [reflexivity|constructor; [ex_named|constructor]|constructor|ex_named]. }
  eapply ci_cell; [ex_named|ex_at (lit "C") (lit "C") (lit "2")|reflexivity|apply cx_none; ex_silent|reflexivity| |].
  { apply (ho_bool _ _ _ (lit "1")); [ex_kind|apply ex_value; reflexivity|apply tr_yes; left; reflexivity]. }
  apply ci_nil.
Qed.
Lemma ex_row4_told : cells_in [lit "t"; lit "v_t"] ex_date 3 (Some (lit "4")) 3 (-1) (e_children ex_row4) (skipn 6 ex_puts).
Proof.
  cbn [ex_row4 el e_children ex_puts skipn].
  eapply ci_cell; [ex_named|ex_at (lit "A") (lit "A") (lit "4")|reflexivity|apply (cx_says _ (lit "1")); [ex_says|ex_digits]|reflexivity| |].
  { destruct (ex_integer (lit "43467")) as (x & D); [ex_digits|]. eapply (ho_date _ _ _ [] (lit "43467") []); [right; split; [ex_silent|reflexivity]|apply ex_value; reflexivity|constructor|constructor|exact D| |exact ex_date_1].
    eapply ex_nearest; [exact D|vm_compute; reflexivity]. }
  eapply ci_cell; [ex_named|ex_at (lit "B") (lit "B") (lit "4")|reflexivity|apply cx_none; ex_silent|reflexivity| |].
  { destruct (ex_integer (lit "4")) as (x & D); [ex_digits|]. eapply (ho_number _ _ _ [] (lit "4") []); [right; split; [ex_silent|reflexivity]|apply ex_value; reflexivity|constructor|constructor|exact D| |exact ex_date_0].
    eapply ex_nearest; [exact D|vm_compute; reflexivity]. }
  eapply ci_cell; [ex_named|ex_at (lit "C") (lit "C") (lit "4")|reflexivity|apply cx_none; ex_silent|reflexivity| |].
  { apply (ho_error _ _ _ (lit "#DIV/0!")); [ex_kind|apply ex_value; reflexivity|constructor]. }
  eapply ci_blank; [ex_named|apply cp_next; ex_silent|reflexivity|apply (cx_says _ (lit "2")); [ex_says|ex_digits]| |].
  { apply (ho_blank _ _ _ (lit "n") None); [right; split; [ex_silent|reflexivity]|left; reflexivity|apply vt_none; constructor|left; reflexivity]. }
  apply ci_nil.
Qed.
Lemma ex_address l d r c : column_text l -> row_digits d -> dec_value d - 1 = r -> column_no l = c -> c < 2 ^ 14 -> address (l ++ d) r c.
Proof. intros A B <- <- C. apply ad_name; assumption. Qed.
Ltac ex_addr l d := apply (ex_address l d); [split; [discriminate|repeat constructor; discriminate]|
   split; [repeat constructor; discriminate|do 2 eexists; split; [reflexivity|discriminate]]|reflexivity|reflexivity|reflexivity].
Lemma ex_sheet1_told : sheet_part [lit "t"; lit "v_t"] ex_date 3 ex_sheet1 ex_puts [(5, 6, 0, 5)].
Proof.
  exists [ex_size; ex_row1; ex_row2; ex_row4; ex_merge]. split.
  - assert (P : forall e, is_tag (lit "row") e || is_tag (lit "dimension") e || is_tag (lit "mergeCell") e = true <->
                          named (lit "row") e \/ named (lit "dimension") e \/ named (lit "mergeCell") e).
    { intro e. rewrite !Bool.orb_true_iff, !named_iff. tauto. }
    exact (marks_ok (fun e => is_tag (lit "row") e || is_tag (lit "dimension") e || is_tag (lit "mergeCell") e) _ P ex_sheet1 eq_refl).
  - apply it_size; [ex_named| |].
    { right. exists (lit "A1:D4"), (lit "A1"), (lit "D4"), 3, 3. split; [ex_says|]. split; [apply (rt_pair (lit "A1") (lit "D4")); vm_compute; intuition discriminate|]. ex_addr (lit "D") (lit "4"). }
    change ex_puts with (firstn 3 ex_puts ++ firstn 3 (skipn 3 ex_puts) ++ skipn 6 ex_puts ++ []).
    apply it_row with (number := Some (lit "1")) (r := 0); [ex_named|apply (rp_number _ _ (lit "1")); [ex_says|ex_digits]|lia|exact ex_row1_told|].
    apply it_row with (number := None) (r := 1); [ex_named|apply (rp_next 0); ex_silent|lia|exact ex_row2_told|].
    apply it_row with (number := Some (lit "4")) (r := 3); [ex_named|apply (rp_number _ _ (lit "4")); [ex_says|ex_digits]|lia|exact ex_row4_told|].
    apply (it_merged _ _ _ _ _ _ (lit "A6:E6") (lit "A6") (lit "E6") 5 0 5 4); [ex_named|ex_says|apply (rt_pair (lit "A6") (lit "E6")); vm_compute; intuition discriminate| | |lia|lia|apply it_nil].
    + ex_addr (lit "A") (lit "6").
    + ex_addr (lit "E") (lit "6").
Qed.
Lemma ex_file : xlsx_file ex_zip 0 ex_contents.
Proof.
  do 4 eexists. split; [exact ex_lists|]. split; [left; apply missing_by; vm_compute; reflexivity|]. split; [exact ex_styled|]. split; [exact ex_shared|].
  assert (AL : forall n, Forall (fun c => ~ slash c) n -> after_last slash (lit "xl/worksheets/" ++ n) n).
  { intros n H. apply (al_last _ (lit "xl/worksheets") 47%N n); [left; reflexivity|exact H]. }
  constructor; [|constructor; [|constructor]].
  - split; [reflexivity|]. split.
    + apply (sr_part _ _ (lit "Sheet1.xml") (lit "xl/worksheets/_rels/sheet1.xml.rels") ex_sheet_rels).
      * apply AL. repeat (constructor; [intros [H|H]; discriminate H|]). constructor.
      * apply convert_same. vm_compute. reflexivity.
      * repeat (constructor; [split; [intros [H1 H2]; revert H1 H2; vm_compute; congruence|discriminate]|]). constructor.
      * exists (firstn 7 ex_zip), (skipn 8 ex_zip). split; [reflexivity|]. vm_compute. intuition discriminate.
      * intros e [<-|[<-|[]]] _.
        -- exists (lit "http://x/" ++ lit "comments"), (lit "comments"), (lit "../comments1.xml"). split; [ex_says|].
           split; [apply (as_last (lit "http:/" ++ lit "/x")); vm_compute; intuition discriminate|]. split; [ex_says|].
           apply (ha_comments _ _ _ (lit "xl/comments1.xml") ex_comments).
           ++ apply (cn_above (lit "comments1.xml")). split; vm_compute; intuition discriminate.
           ++ exists (firstn 8 ex_zip), []. split; [reflexivity|intros []].
           ++ exists (nth 0 (e_children ex_comments) ex_comments), (nth 1 (e_children ex_comments) ex_comments), []. split; [reflexivity|]. split; [ex_named|]. split; [ex_named|].
              intros c [<-|[]] _. exists (lit "0"), (lit "B2"), 1, 1. split; [ex_says|]. split; [ex_digits|]. split; [reflexivity|]. split; [ex_says|]. ex_addr (lit "B") (lit "2").
        -- exists (lit "http://x/" ++ lit "drawing"), (lit "drawing"), (lit "../drawings/d.xml"). split; [ex_says|].
           split; [apply (as_last (lit "http:/" ++ lit "/x")); vm_compute; intuition discriminate|]. split; [ex_says|]. apply ha_other. discriminate.
    + exists ex_sheet1. split; [ex_part|]. exact ex_sheet1_told.
  - split; [reflexivity|]. split.
    + apply (sr_none _ _ (lit "sheet2.xml")); [apply AL; repeat (constructor; [intros [H|H]; discriminate H|]); constructor|]. apply missing_by. vm_compute. reflexivity.
    + exists ex_sheet2. split; [ex_part|]. exists []. split; [|apply it_nil].
      assert (P : forall e, is_tag (lit "row") e || is_tag (lit "dimension") e || is_tag (lit "mergeCell") e = true <->
                          named (lit "row") e \/ named (lit "dimension") e \/ named (lit "mergeCell") e).
      { intro e. rewrite !Bool.orb_true_iff, !named_iff. tauto. }
      exact (marks_ok (fun e => is_tag (lit "row") e || is_tag (lit "dimension") e || is_tag (lit "mergeCell") e) _ P ex_sheet2 eq_refl).
Qed.
Example C61_opens_ex : xlsx_file ex_zip 0 ex_contents /\
  exists sh1 sh2, open_zip ex_zip = Ok (mkbook [lit "Log"; lit "R&D"] [sh1; sh2] 0) /\
  sh_nrows sh1 = 6 /\ sh_ncols sh1 = 5 /\ sh_nrows sh2 = 0 /\
  grid_at (sh_values sh1) 0 1 = Ok (VStr (lit "v_t")) /\ grid_at (sh_types sh1) 1 0 = Ok XL_CELL_DATE /\
  grid_at (sh_values sh1) 3 2 = Ok (VInt 7) /\ grid_at (sh_types sh1) 3 3 = Ok XL_CELL_EMPTY.
Proof.
  split; [exact ex_file|]. do 2 eexists. split; [vm_compute; reflexivity|]. vm_compute. repeat split; reflexivity.
Qed.

(** A worksheet that has, anywhere, a row outside the limits of a sheet or a cell of
an unknown type, with a name that contradicts the number of its row, with a shared
string that does not exist or with a text that is no truth value or no error: the
archive is refused. *)
Theorem C61_bad_row :
forall z dm ws w shared root row, lists_sheets z dm ws -> In w ws -> part_at z (snd w) root -> shared_at z shared ->
row = root \/ within row root -> bad_row shared row -> forall b, open_zip z <> Ok b.
Proof. exact C61_bad_row_proof. Qed.
Print Assumptions C61_bad_row.

(** The small workbook lists its sheet. *)
Lemma small_lists strings rows : lists_sheets (small_zip strings rows) 0 [(lit "S", lit "xl/s.xml")].
Proof.
  do 5 eexists. split; [apply part_by; vm_compute; reflexivity|]. split.
  { eapply ri_rel; [reflexivity|ex_says|ex_says|apply (as_all (lit "worksheet")); vm_compute; intuition discriminate|ex_says|apply ri_nil]. }
  split; [repeat constructor; intros []|]. split; [apply part_by; vm_compute; reflexivity|]. split; [apply listed_all|]. split.
  - cbn [iter small_zip flat_map app e_children]. apply ti_other; [intros [H|H]; discriminate H..|].
    apply ti_sheet with (d := lit "1") (name := lit "S"); [right; reflexivity|ex_says|ex_digits|ex_says|apply (escaped_unescape 2 (lit "S")); vm_compute; lia|ex_says|]. apply ti_nil.
  - eapply ws_sheet; [left; reflexivity|apply (tn_relative (lit "s.xml")); intros c u E; injection E as <- <-; intros [H|H]; discriminate H|]. apply ws_nil.
Qed.
Example C61_bad_row_ex :
  let row := Elem (main_ns ++ lit "row") [(lit "r", lit "3")] None [small_cell [(lit "r", lit "A2")] (lit "7")] in
  let z := small_zip [] [row] in
  lists_sheets z 0 [(lit "S", lit "xl/s.xml")] /\ (exists root, part_at z (lit "xl/s.xml") root /\ within row root) /\ shared_at z [] /\
  bad_row [] row /\ open_zip z = Err OtherError.
Proof.
  cbv zeta. split; [apply small_lists|]. split.
  - eexists. split; [ex_part|]. apply wi_child. left. reflexivity.
  - split.
    + eapply (sh_part _ (lit "xl/sharedStrings.xml") (lit "sharedStrings.xml")); [left; reflexivity|ex_part|apply missing_by; vm_compute; reflexivity| |constructor].
      apply (mk_inside _ _ []); [discriminate|constructor].
    + split; [|vm_compute; reflexivity]. split; [ex_named|]. right. eexists. split; [left; reflexivity|]. split; [ex_named|].
      apply (bc_name _ _ _ (lit "3") (lit "A") (lit "A") (lit "2")); [ex_says|ex_says|split; [split; [discriminate|repeat constructor; discriminate]|reflexivity]| |discriminate].
      split; [repeat constructor; discriminate|do 2 eexists; split; [reflexivity|discriminate]].
Qed.

(** A worksheet whose part is missing: the archive is refused. *)
Theorem C61_missing_sheet :
forall z dm ws w, lists_sheets z dm ws -> In w ws -> missing_part z (snd w) -> forall b, open_zip z <> Ok b.
Proof. exact C61_missing_sheet_proof. Qed.
Print Assumptions C61_missing_sheet.

Example C61_missing_sheet_ex : let z := removelast (small_zip [] []) in
  lists_sheets z 0 [(lit "S", lit "xl/s.xml")] /\ missing_part z (lit "xl/s.xml").
Proof.
  cbv zeta. split; [|apply missing_by; vm_compute; reflexivity].
  do 5 eexists. split; [apply part_by; vm_compute; reflexivity|]. split.
  { eapply ri_rel; [reflexivity|ex_says|ex_says|apply (as_all (lit "worksheet")); vm_compute; intuition discriminate|ex_says|apply ri_nil]. }
  split; [repeat constructor; intros []|]. split; [apply part_by; vm_compute; reflexivity|]. split; [apply listed_all|]. split.
  - cbn [iter small_zip flat_map app e_children]. apply ti_other; [intros [H|H]; discriminate H..|].
    apply ti_sheet with (d := lit "1") (name := lit "S"); [right; reflexivity|ex_says|ex_digits|ex_says|apply (escaped_unescape 2 (lit "S")); vm_compute; lia|ex_says|]. apply ti_nil.
  - eapply ws_sheet; [left; reflexivity|apply (tn_relative (lit "s.xml")); intros c u E; injection E as <- <-; intros [H|H]; discriminate H|]. apply ws_nil.
Qed.

(** A zip file without a workbook part is no workbook. *)
Theorem C61_no_workbook :
forall z, missing_part z (lit "xl/workbook.xml") -> open_zip z = Err XLRDError.
Proof. exact C61_no_workbook_proof. Qed.
Print Assumptions C61_no_workbook.

Example C61_no_workbook_ex : missing_part [(lit "content.xml", None)] (lit "xl/workbook.xml").
Proof. apply missing_by. vm_compute. reflexivity. Qed.

(** Names of parts are not case sensitive, but where the relationships of a worksheet are in a
member whose name has a capital letter (or a backslash), and no other member has the same name in small letters,
the archive is refused. *)
Theorem C61_capital_relations_refuted :
forall z dm ws w x k e, lists_sheets z dm ws -> In w ws -> after_last slash (snd w) x ->
In (k, e) z -> same_name k (lit "xl/worksheets/_rels/" ++ x ++ lit ".rels") ->
(forall m, In m z -> same_name (fst m) (lit "xl/worksheets/_rels/" ++ x ++ lit ".rels") -> ~ small_name (fst m)) ->
forall b, open_zip z <> Ok b.
Proof. exact C61_capital_relations_refuted_proof. Qed.
Print Assumptions C61_capital_relations_refuted.

Example C61_capital_relations_ex : let k := lit "xl/worksheets/_rels/S.xml.rels" in
  let z := small_zip [] [] ++ [(k, Some (Elem [] [] None []))] in
  same_name k (lit "xl/worksheets/_rels/" ++ lit "s.xml" ++ lit ".rels") /\ open_zip z = Err KeyError /\
  exists b, open_zip (small_zip [] [] ++ [(lit "xl/worksheets/_rels/s.xml.rels", Some (Elem [] [] None []))]) = Ok b.
Proof. cbv zeta. split; [apply convert_same; vm_compute; reflexivity|]. split; [vm_compute; reflexivity|]. eexists. vm_compute. reflexivity. Qed.

(** In a row without a number the row in the names of its cells is not looked at: a
cell named B5 in the first such row is shown in the first row. *)
Theorem C61_unnumbered_row_refuted :
exists sh, open_zip (small_zip [] [Elem (main_ns ++ lit "row") [] None [small_cell [(lit "r", lit "B5")] (lit "7")]]) =
           Ok (mkbook [lit "S"] [sh] 0) /\
  sh_nrows sh = 1 /\ grid_at (sh_values sh) 0 1 = Ok (VFloat (float_of_Z 7)).
Proof. exact C61_unnumbered_row_refuted_proof. Qed.
Print Assumptions C61_unnumbered_row_refuted.

(** A shared string with a negative number is not refused: -1 is the last one. *)
Theorem C61_negative_string_refuted :
exists sh, open_zip (small_zip [lit "a"; lit "b"]
  [Elem (main_ns ++ lit "row") [] None [small_cell [(lit "t", lit "s")] (lit "-1")]]) = Ok (mkbook [lit "S"] [sh] 0) /\
  grid_at (sh_values sh) 0 0 = Ok (VStr (lit "b")).
Proof. exact C61_negative_string_refuted_proof. Qed.
Print Assumptions C61_negative_string_refuted.

(** A pack read from such a file, with any range, header and columns that suit the
sheet: one channel for each used column, which holds the cells written in its rows, typed
as in C45 and with the date mode of the workbook, under the name written in the
header row. *)
Theorem C62_pack :
forall z dm l fname which s header startcell stopcell usecols r0 c0 r1 c1 cols nr r cells f,
xlsx_file z dm l -> picks_sheet l which s ->
refers startcell r0 c0 -> stops_at (rows_of s) (cols_of s) stopcell r1 c1 -> c1 < cols_of s ->
chosen_columns c0 c1 usecols cols -> cols <> [] -> Forall (fun c => c0 <= c <= c1) cols ->
headed header r0 nr r -> (forall k, nr = Some k -> k < rows_of s) ->
(forall c, In c cols -> column_of (ct_cells s) c r (Z.max 0 (Z.min (r1 + 1) (rows_of s) - r)) (cells c) /\
                        typed_column dm (cells c) (f c)) ->
exists p, sheetpack_zip z fname which header startcell stopcell usecols = Ok p /\ p_fn p = fname /\
  (forall c, In c cols -> holds_column (p_data p) c (f c)) /\
  (forall c, ~ In c cols -> dget c (p_data p) = None) /\
  (forall c, In c cols -> match nr with
                          | Some k => exists v, dget c (p_names p) = Some v /\ shows_value (ct_cells s) k c v
                          | None => dget c (p_names p) = None
                          end) /\
  (forall c, ~ In c cols -> dget c (p_names p) = None).
Proof. exact C62_pack_proof. Qed.
Print Assumptions C62_pack.

Example C62_pack_ex : xlsx_file ex_zip 0 ex_contents /\ picks_sheet ex_contents (OStr (lit "Log")) (nth 0 ex_contents (mkcontent [] [] [])) /\
  exists p, sheetpack_zip ex_zip (lit "f.xlsx") (OStr (lit "Log")) (OBool true) None (Some (lit "B4")) ONone = Ok p /\
  p_data p = [(0, mkarr KO [VDateTime 737060 0; VNone; VDateTime 737061 0]);
              (1, mkarr Kf [VFloat (fdiv (float_of_Z 29) (float_of_Z 4)); VFloat fnan; VFloat (float_of_Z 4)])] /\
  p_names p = [(0, VStr (lit "t")); (1, VStr (lit "v_t"))].
Proof.
  split; [exact ex_file|]. split; [apply (ps_name ex_contents [] (nth 0 ex_contents (mkcontent [] [] [])) (tl ex_contents)); [reflexivity|intros []]|].
  eexists. split; [vm_compute; reflexivity|]. vm_compute. split; reflexivity.
Qed.

