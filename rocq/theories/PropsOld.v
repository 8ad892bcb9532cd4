(** * Workbooks of BIFF 5 and 7, from the file to the pack (C69): the property theorems *)

From Coq Require Import ZifyBool ZifyNat ZifyN QArith.
From Verif Require Import PyBase PyBaseFacts PyFloat PyText NumPy SpecArray ArrayFacts SpecPack Dbf SpecDbf DbfProofs Dicts Pack XlDate ReadXl XlProofs ReadXlThms XlStruct CompDoc SpecCompDoc CompDocProofs SpecSst Sst SpecDoc DocProofs FmtDate SpecXl XlSheet SpecXlSheet XlSheetProofs SpecFmtDate Biff SpecBiff BiffProofs BiffThms BiffOld SpecOld OldProofs OldThms.
Open Scope nat_scope.
From Verif Require SpecNames.
Open Scope Z_scope.

(** A file with a well-formed workbook of BIFF 5 or 7 opens, whatever the code pages
mean: the book has the names of its worksheets, the date mode and, for each
worksheet, a sheet that shows exactly the cells written. The workbook says itself
which XFs are dates. *)
Theorem C69_opens :
forall dec country W c file, good_workbook dec country W -> stored W c -> in_file c file ->
(exists date, tells_dates (says W) date) /\
forall date, tells_dates (says W) date ->
exists shs, open_workbook_dec dec file = Ok (mkbook (map fst (tabs (says W))) shs (datemode_of (says W))) /\
  Forall2 (fun s sh => shows_cells (SpecOld.cells_of W date s) sh) (wb_sheets W) shs.
Proof. exact C69_opens_proof. Qed.
Print Assumptions C69_opens.

(** Code page 1252 has the euro sign at 128; without a code page bytes are
    characters; no other code page is known. *)
Definition ex_dec (page : option Z) (raw : str) : res str :=
  match page with
  | None => Ok raw
  | Some 1252 => Ok (map (fun c => if (c =? 128)%N then 8364%N else c) raw)
  | Some _ => Err UnicodeError
  end.
Definition ex_xf (key : Z) : global := Xf [0; 0]%N key (repeat 0%N 12).
(** Names: one that belongs to a sheet, a text, a number, and the sum of the
    first times 2 and of the third, found by the second EXTERNSHEET record. *)
Definition ex_name (ext : Z) (name : str) (m : SpecNames.meaning) : SpecNames.old_name :=
  SpecNames.mkoldname 0 0 ext 0 (repeat 0%N 4) name m [].
Definition ex_total : SpecNames.expr :=
  SpecNames.Oper 3 (SpecNames.Oper 5 (SpecNames.Other 2 1 (repeat 0%N 12)) (SpecNames.Whole 2))
    (SpecNames.OtherOf 2 (-2) (repeat 0%N 8) 3 (repeat 0%N 12)).
Definition ex_globals (off : Z) : list global :=
  [User (lit "me") (repeat 32%N 5); Codepage 1252 []; Datemode 1 []; Nation 1 46 [];
   Format 164 (lit "yyyy-mm-dd") (lit "yyyy-mm-dd") []; ex_xf 0; ex_xf 164; ex_xf 14; Reference 2 3 [128; 49]%N; Reference 0 4 [];
   Named (ex_name 1 [128]%N (SpecNames.Formula (SpecNames.RefIn 1 (repeat 0%N 14) true (repeat 0%N 6))));
   Named (ex_name 0 (lit "euro") (SpecNames.Formula (SpecNames.Phrase [128]%N)));
   Named (ex_name 0 (lit "rate") (SpecNames.Formula (SpecNames.Whole 7)));
   Named (ex_name 0 (lit "total") (SpecNames.Formula ex_total));
   Tab off 0 0 [128; 49]%N [8364; 49]%N []; Tab 0 0 2 (lit "chart") (lit "chart") []; Skipped 0x31 (repeat 0%N 14)].
Definition ex_items : list item :=
  [Same (SpecBiff.Passed 0x208 (repeat 0%N 16)); Extent 0x200 (repeat 0%N 10);
   Label (mkplace 0 0 0) (lit "t") (lit "t") []; Rich (mkplace 0 1 0) [118; 128]%N [118; 8364]%N [(1, 5)%N];
   Same (SpecBiff.Cell (mkplace 1 0 1) (CDouble (float_of_Z 43890) [])); Same (SpecBiff.Cell (mkplace 2 0 2) (CRk (RkInt 43891 false) []));
   Same (SpecBiff.Cells 1 1 [(0, RkInt 725 true)]);
   Formula (mkplace 2 1 0) 6 (Plain (RNumber (float_of_Z 4))) [0; 0]%N [1; 0; 9]%N;
   Formula (mkplace 0 2 0) 0x206 (Told 0x207 (repeat 0%N 5) (Some (0x4bc, repeat 0%N 10)) (lit "a", lit "a") [([128]%N, [8364]%N)]) [0; 0]%N [];
   Same (SpecBiff.Cell (mkplace 1 2 0) (CLogic false 1 []));
   Remark (repeat 0%N 4) (lit "no") [([0; 0]%N, lit "te")]; Object 0x5d (repeat 0%N 30)].
Definition ex_sheet : sheet_data := mksheetdata 0x500 [16; 0; 0; 0]%N ex_items.
Definition ex_off : Z := size (globals_bytes (mkworkbook [] (ex_globals 0) [])).
Definition ex_book : workbook := mkworkbook [] (ex_globals ex_off) [ex_sheet].
Definition ex_stream : str := globals_bytes ex_book ++ sheet_bytes ex_sheet.
Lemma ex_stored : stored ex_book ex_stream.
Proof.
  split; [exists [], (sheet_bytes ex_sheet); split; reflexivity|].
  replace (tabs (says ex_book)) with [([8364; 49]%N, ex_off)] by reflexivity.
  constructor; [|constructor]. exists (globals_bytes ex_book), []. split; [rewrite app_nil_r; reflexivity|vm_compute; reflexivity].
Qed.
Fixpoint good_from (country : Z * Z) (L before l : list global) : Prop :=
  match l with
  | [] => True
  | g :: l' => good_global ex_dec country L before g /\ good_from country L (before ++ [g]) l'
  end.
Lemma good_all country L : forall l l0, L = l0 ++ l -> good_from country L l0 l ->
  forall before g after, L = before ++ g :: after -> (length l0 <= length before)%nat -> good_global ex_dec country L before g.
Proof.
  induction l as [|x l IH]; intros l0 E G before g after E2 LE.
  - exfalso. rewrite app_nil_r in E. rewrite <- E in LE. rewrite E2 in LE at 1. rewrite app_length in LE. cbn [length] in LE. lia.
  - destruct G as [G1 G2]. destruct (Nat.eq_dec (length l0) (length before)) as [Q|Q].
    + rewrite E in E2 at 1. assert (X : l0 = before /\ x :: l = g :: after).
      { apply (f_equal (firstn (length l0))) in E2 as A. rewrite firstn_app, firstn_all, Nat.sub_diag in A. cbn [firstn] in A. rewrite app_nil_r in A.
        rewrite Q, firstn_app, firstn_all, Nat.sub_diag in A. cbn [firstn] in A. rewrite app_nil_r in A.
        split; [exact A|]. rewrite A in E2. apply app_inv_head in E2. exact E2. }
      destruct X as [-> X]. injection X as <- _. exact G1.
    + apply (IH (l0 ++ [x])) with (after := after); [rewrite <- app_assoc; exact E|exact G2|exact E2|]. rewrite app_length. cbn [length]. lia.
Qed.
Ltac ex_size := vm_compute; reflexivity.
Lemma ex_sheet_named : names_sheet ex_dec (wb_globals ex_book) 1 [8364; 49]%N.
Proof. exists (firstn 8 (wb_globals ex_book)), 2%N, [128; 49]%N, (skipn 9 (wb_globals ex_book)). repeat split; vm_compute; reflexivity. Qed.
Lemma ex_names : good_names ex_dec (wb_globals ex_book).
Proof.
  split.
  - cbn [ex_book wb_globals ex_globals names_of flat_map app SpecNames.as_name ex_name].
    apply Forall_cons; [right; exists [8364; 49]%N; exact ex_sheet_named|]. repeat (apply Forall_cons; [left; reflexivity|]). apply Forall_nil.
  - exists [true]. split.
    + intros [|k] H; [|destruct k; discriminate H]. exists [8364; 49]%N. split; [exact ex_sheet_named|]. left. reflexivity.
    + exists (fun i => if i =? 1 then [SpecNames.Area] else if i =? 2 then [SpecNames.Text] else if i =? 3 then [SpecNames.Short] else [SpecNames.FreeNumber]),
        (fun i => if i =? 4 then 1%nat else 0%nat).
      intros i n N _.
      destruct i as [|[|[|[|i]]]]; [..|destruct i; discriminate N]; injection N as <-; (split; [cbn; lia|split; [|intros ? ?; cbn in *; tauto]]).
      * cbn. unfold SpecNames.good_class. repeat split; try lia; discriminate.
      * cbn. split; [eexists; reflexivity|unfold size; cbn; lia].
      * cbn. unfold word16. lia.
      * assert (U : forall j, j = 1 \/ j = 3 -> SpecNames.usable_name [true] (names_of (wb_globals ex_book)) (fun i => if i =? 4 then 1%nat else 0%nat) (Z.of_nat 3 + 1) j).
        { intros j J. split; [lia|]. split; [destruct J as [-> | ->]; cbn; lia|]. destruct J as [-> | ->]; eexists; (split; [reflexivity|]);
            (split; [unfold SpecNames.macro; cbn; intuition discriminate|]); cbn; [right; split; [lia|reflexivity]|left; reflexivity]. }
        cbn [SpecNames.nm_meaning SpecNames.as_name SpecNames.on_meaning ex_name ex_total SpecNames.harmless]. unfold SpecNames.good_class, word16.
        split; [lia|]. split; [|split].
        -- split; [lia|]. split; [repeat split; try lia; apply U; auto|]. split; [lia|]. left. intros ? ? ? ?; cbn in *; intuition (subst; reflexivity).
        -- split; [right; vm_compute; discriminate|]. repeat split; try lia. left. apply U. auto.
        -- left. intros ? ? ? ?; cbn in *; intuition (subst; reflexivity).
Qed.
Lemma ex_good : good_workbook ex_dec (1, 46) ex_book.
Proof.
  split; [unfold good_bof, size; cbn; lia|]. split; [|split; [exact ex_names|]].
  - intros before g after E. apply (good_all (1, 46) (wb_globals ex_book) (wb_globals ex_book) []) with (after := after); [reflexivity| |exact E|cbn; lia].
    pose (L := ex_globals ex_off). change (good_from (1, 46) L [] (ex_globals ex_off)). unfold ex_globals, ex_xf. cbn [good_from app good_global].
    assert (UP : forall page, used_page L page -> exists t, ex_dec page (lit "me") = Ok t).
    { intros page [->|(c & extra & -> & I)]; [eexists; reflexivity|]. cbn in I. repeat (destruct I as [I|I]; [try discriminate I; injection I as <- <-|]); try destruct I. eexists; reflexivity. }
    unfold word16. repeat split; try lia; try ex_size; try exact UP; try (cbn; intuition discriminate); try (unfold size; cbn; lia); try (vm_compute; congruence).
    all: try (eexists; reflexivity); intros; try (eexists; reflexivity); try discriminate.
  - constructor; [|constructor]. split; [unfold word16; cbn; lia|]. split; [unfold good_bof, size; cbn; lia|]. split.
    + exists (firstn 2 ex_items), (skipn 2 ex_items). split; [reflexivity|]. cbn. split; repeat constructor.
    + split; [exact I|]. cbn [sd_items ex_sheet]. unfold ex_items.
      replace (shared_of (map as8 (wb_globals ex_book))) with (@nil str) by reflexivity. replace (xf_count (map as8 (wb_globals ex_book))) with 3 by reflexivity.
      replace (page_of (wb_globals ex_book)) with (Some 1252) by reflexivity.
      repeat match goal with |- Forall _ (_ :: _) => constructor | |- Forall _ [] => constructor end; cbn [good_item SpecBiff.good_item common pl_row pl_col pl_xf good_content];
        unfold good_place, word16 in *;
        repeat match goal with
        | |- SpecOld.good_result _ _ _ => cbn [SpecOld.good_result]
        | |- SpecBiff.good_result _ => cbn
        | |- good_passed _ _ => unfold good_passed, word16
        | |- good_between _ _ => unfold good_between
        | |- good_rk _ => cbn
        | |- _ /\ _ => split
        | |- short _ => ex_size
        | |- ~ In _ _ => cbn; intuition discriminate
        | |- Forall _ (_ :: _) => constructor
        | |- Forall _ [] => constructor
        | |- _ -> _ => intro
        end; try reflexivity; try discriminate; try (cbn; auto; fail); try (unfold size; cbn; lia); try lia; try congruence; try (vm_compute; reflexivity).
      * eexists. reflexivity.
      * constructor; [ex_size|constructor].
Qed.
Example C69_opens_ex : good_workbook ex_dec (1, 46) ex_book /\ stored ex_book ex_stream /\ in_file ex_stream ex_stream /\
  exists bk, open_workbook_dec ex_dec ex_stream = Ok bk /\ bk_names bk = [[8364; 49]%N] /\ bk_datemode bk = 1 /\
  map sh_values (bk_sheets bk) =
    [[[VStr (lit "t"); VStr [118; 8364]%N; VStr [97; 8364]%N];
      [VFloat (float_of_Z 43890); VFloat (fdiv (float_of_Z 725) (float_of_Z 100)); VInt 1];
      [VFloat (float_of_Z 43891); VFloat (float_of_Z 4); VStr []]]] /\
  map sh_types (bk_sheets bk) = [[[1; 1; 1]; [3; 2; 4]; [3; 2; 0]]].
Proof.
  split; [exact ex_good|]. split; [exact ex_stored|]. split; [constructor|]. eexists. split; [vm_compute; reflexivity|]. vm_compute. repeat split.
Qed.

(** A pack read from such a file: one channel for each used column, which holds the
cells written in its rows, typed as in C45 and with the date mode of the workbook,
under the name written in the header row. *)
Theorem C69_pack :
forall dec country W c file date fname which s header startcell stopcell usecols r0 c0 r1 c1 cols nr r cells f l,
good_workbook dec country W -> stored W c -> in_file c file -> tells_dates (says W) date ->
picks W which s -> l = SpecOld.cells_of W date s ->
refers startcell r0 c0 -> stops_at (height l) (width l) stopcell r1 c1 -> c1 < width l ->
chosen_columns c0 c1 usecols cols -> cols <> [] -> Forall (fun c => c0 <= c <= c1) cols ->
headed header r0 nr r -> (forall k, nr = Some k -> k < height l) ->
(forall c, In c cols -> column_of l c r (Z.max 0 (Z.min (r1 + 1) (height l) - r)) (cells c) /\
                        typed_column (datemode_of (says W)) (cells c) (f c)) ->
exists p, sheetpack_dec dec file fname which header startcell stopcell usecols = Ok p /\ p_fn p = fname /\
  (forall c, In c cols -> holds_column (p_data p) c (f c)) /\
  (forall c, ~ In c cols -> dget c (p_data p) = None) /\
  (forall c, In c cols -> match nr with
                          | Some k => exists v, dget c (p_names p) = Some v /\ shows_value l k c v
                          | None => dget c (p_names p) = None
                          end) /\
  (forall c, ~ In c cols -> dget c (p_names p) = None).
Proof. exact C69_pack_proof. Qed.
Print Assumptions C69_pack.

Example C69_pack_ex : good_workbook ex_dec (1, 46) ex_book /\ stored ex_book ex_stream /\ picks ex_book (OStr [8364; 49]%N) ex_sheet /\
  exists p, sheetpack_dec ex_dec ex_stream (lit "f.xls") (OStr [8364; 49]%N) (OBool true) None None ONone = Ok p /\
  p_data p = [(0, mkarr KO [VDateTime 738946 0; VDateTime 738947 0]);
              (1, mkarr Kf [VFloat (fdiv (float_of_Z 725) (float_of_Z 100)); VFloat (float_of_Z 4)]);
              (2, mkarr KO [VBool true; VNone])] /\
  p_names p = [(0, VStr (lit "t")); (1, VStr [118; 8364]%N); (2, VStr [97; 8364]%N)].
Proof.
  split; [exact ex_good|]. split; [exact ex_stored|]. split; [apply (pick_name ex_book [] _ ex_off []); [reflexivity|cbn; auto|reflexivity]|].
  eexists. split; [vm_compute; reflexivity|]. vm_compute. split; reflexivity.
Qed.

