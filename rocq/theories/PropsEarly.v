(** * Sheets of BIFF 2 to 4, from the file to the pack (C70): the property theorems *)

From Coq Require Import ZifyBool ZifyNat ZifyN QArith.
From Verif Require Import PyBase PyBaseFacts PyFloat PyText NumPy SpecArray ArrayFacts SpecPack Dbf SpecDbf DbfProofs Dicts Pack XlDate ReadXl XlProofs ReadXlThms XlStruct CompDoc SpecCompDoc CompDocProofs SpecSst Sst SpecDoc DocProofs FmtDate SpecXl XlSheet SpecXlSheet XlSheetProofs SpecFmtDate Biff SpecBiff BiffProofs BiffThms BiffOld SpecOld OldProofs SpecEarly EarlyProofs EarlyThms.
Open Scope nat_scope.
Open Scope Z_scope.

(** A file with a well-formed sheet of BIFF 2, 3 or 4 opens, whatever the code pages
mean and whatever follows the sheet: the book has one sheet, named Sheet 1, which
shows exactly the cells written, and the date mode. The sheet says itself which of
its formats are dates. *)
Theorem C70_opens :
forall dec country S rest, good_single dec country S ->
(exists date, tells (e_entries S) date) /\
forall date, tells (e_entries S) date ->
exists sh, open_workbook_dec dec (file_bytes S ++ rest) = Ok (mkbook [lit "Sheet 1"] [sh] (date_mode (e_entries S))) /\
  shows_cells (cells S date) sh.
Proof. exact C70_opens_proof. Qed.
Print Assumptions C70_opens.

(** Code page 1252 has the euro sign at 128; without a code page bytes are
    characters; no other code page is known. *)
Definition ex_dec (page : option Z) (raw : str) : res str :=
  match page with
  | None => Ok raw
  | Some 1252 => Ok (map (fun c => if (c =? 128)%N then 8364%N else c) raw)
  | Some _ => Err UnicodeError
  end.
Definition ex_bof : str := [0; 0]%N.
(** BIFF4: formats and XFs, cells as in BIFF5. *)
Definition ex4 : single := mksingle 4 ex_bof [0; 0]%N
  [Info (User (lit "me") []); Info (Codepage 1252 []); Info (Datemode 1 []); Unread 0x231 (repeat 0%N 7);
   Fmt 0x41e [0; 0]%N (lit "General") (lit "General") []; Fmt 0x41e [0; 0]%N (lit "yyyy-mm-dd") (lit "yyyy-mm-dd") [];
   Attr 0x443 [0]%N 0 (repeat 0%N 10); Finish [0]%N; Attr 0x443 [0]%N 1 (repeat 0%N 10);
   Piece (Extent 0x200 (repeat 0%N 10));
   Piece (Label (mkplace 0 0 0) [128; 97]%N [8364; 97]%N []);
   Piece (Same (SpecBiff.Cell (mkplace 1 0 1) (CDouble (float_of_Z 43890) [])));
   Piece (Formula (mkplace 1 1 0) 0x406 (Plain (RNumber (float_of_Z 4))) [0; 0]%N [])].
(** BIFF2 with XFs. *)
Definition ex2 : single := mksingle 2 ex_bof []
  [Fmt 0x1e [] (lit "General") (lit "General") []; Fmt 0x1e [] (lit "d/m/yy") (lit "d/m/yy") [];
   Attr 0x43 [0; 0]%N 0 [0]%N; Attr 0x43 [0; 0]%N 65 [0]%N; Piece (Extent 0 (repeat 0%N 8)); Chosen 1;
   Cell2 0 0 [0; 0; 0]%N (Words (lit "a") (lit "a") []); Cell2 1 0 [63; 0; 0]%N (Whole 43890);
   Cell2 0 1 [64; 0; 0]%N (Real (float_of_Z 5)); Cell2 1 1 [1; 0; 0]%N (Flag true 7);
   Cell2 2 0 [1; 0; 0]%N (Result (Told 7 (repeat 0%N 5) None (lit "x", lit "x") []) [0]%N); Unread 0x3e (repeat 0%N 14)].
(** BIFF2 without XFs. *)
Definition ex2bare : single := mksingle 2 ex_bof []
  [Fmt 0x1e [] (lit "General") (lit "General") []; Fmt 0x1e [] (lit "d/m/yy") (lit "d/m/yy") [];
   Cell2 0 0 [0; 1; 0]%N (Whole 43890); Cell2 0 1 [0; 0; 0]%N (Whole 8); Cell2 0 2 [64; 65; 9]%N (Real (float_of_Z 5)); Cell2 1 0 [0; 1; 0]%N (Whole 43891)].
Fixpoint good_from (version : Z) (L before l : list entry) : Prop :=
  match l with
  | [] => True
  | e :: l' => good_entry ex_dec (0, 0) version L before e /\ good_from version L (before ++ [e]) l'
  end.
Lemma good_all version L : forall l l0, L = l0 ++ l -> good_from version L l0 l ->
  forall before e after, L = before ++ e :: after -> (length l0 <= length before)%nat -> good_entry ex_dec (0, 0) version L before e.
Proof.
  induction l as [|x l IH]; intros l0 E G before g after E2 LE.
  - exfalso. rewrite app_nil_r in E. rewrite <- E in LE. rewrite E2 in LE at 1. rewrite app_length in LE. cbn [length] in LE. lia.
  - destruct G as [G1 G2]. destruct (Nat.eq_dec (length l0) (length before)) as [Q|Q].
    + rewrite E in E2 at 1. assert (X : l0 = before /\ x :: l = g :: after).
      { apply (f_equal (firstn (length l0))) in E2 as A. rewrite firstn_app, firstn_all, Nat.sub_diag in A. cbn [firstn] in A. rewrite app_nil_r in A.
        rewrite Q, firstn_app, firstn_all, Nat.sub_diag in A. cbn [firstn] in A. rewrite app_nil_r in A.
        split; [exact A|]. rewrite A in E2. apply app_inv_head in E2. exact E2. }
      destruct X as [-> X]. injection X as <- _. exact G1.
    + apply (IH (l0 ++ [x])) with (after := after); [rewrite <- app_assoc; exact E|exact G2|exact E2|]. rewrite app_length. cbn [length]. lia.
Qed.
Ltac ex_size := vm_compute; reflexivity.
Ltac ex_entries :=
  cbn [good_from app good_entry good_global good_item SpecBiff.good_item common pl_row pl_col pl_xf good_content good_content2 is_cell2 is_cell foreign
       Z.eqb Pos.eqb infos fmts keys flat_map chosen fold_left page_of length];
  unfold good_place, word16;
  repeat match goal with
  | |- context [good_result _ _ _] => cbn [SpecOld.good_result]
  | |- _ /\ _ => split
  | |- short _ => ex_size
  | |- SpecBiff.good_result _ => cbn
  | |- Forall _ (_ :: _) => constructor
  | |- Forall _ [] => constructor
  | |- _ -> _ => intro
  end; try exact I; try reflexivity; try discriminate; try (cbn; auto 20; fail); try (unfold size; cbn; lia); try (cbn; lia); try congruence; try (vm_compute; reflexivity).
Ltac ex_sheet n :=
  split; [cbn; auto|]; split; [reflexivity|]; split; [unfold size; cbn; lia|]; split;
  [ intros before e after E;
    match goal with |- good_entry _ _ (e_version ?s) _ _ _ => apply (good_all (e_version s) (e_entries s) (e_entries s) []) with (after := after); [reflexivity| |exact E|cbn; lia]; unfold s; cbn [e_version e_entries] end
  | split; [match goal with |- exists a b, e_entries ?s = _ /\ _ => exists (firstn n (e_entries s)), (skipn n (e_entries s)) end; cbn; split; [reflexivity|split; repeat constructor]|exact I] ].
Lemma ex4_good : good_single ex_dec (0, 0) ex4.
Proof.
  ex_sheet 10%nat. ex_entries.
  match goal with H : used_page _ ?page |- _ => destruct H as [->|(c & extra & -> & I)]; [eexists; reflexivity|] end.
  cbn in I. repeat (destruct I as [I|I]; [try discriminate I; injection I as <- <-|]); try destruct I. eexists; reflexivity.
Qed.
Lemma ex2_good : good_single ex_dec (0, 0) ex2.
Proof. ex_sheet 6%nat. ex_entries. Qed.
Lemma ex2bare_good : good_single ex_dec (0, 0) ex2bare.
Proof. ex_sheet 2%nat. ex_entries. Qed.
Example C70_opens_ex : good_single ex_dec (0, 0) ex4 /\ good_single ex_dec (0, 0) ex2 /\ good_single ex_dec (0, 0) ex2bare /\
  (exists bk, open_workbook_dec ex_dec (file_bytes ex4 ++ [1; 2; 3]%N) = Ok bk /\ bk_datemode bk = 1 /\
    map sh_values (bk_sheets bk) = [[[VStr [8364; 97]%N; VStr []]; [VFloat (float_of_Z 43890); VFloat (float_of_Z 4)]]] /\
    map sh_types (bk_sheets bk) = [[[1; 0]; [3; 2]]]) /\
  (exists bk, open_workbook_dec ex_dec (file_bytes ex2) = Ok bk /\ bk_datemode bk = 0 /\
    map sh_values (bk_sheets bk) = [[[VStr (lit "a"); VFloat (float_of_Z 5)]; [VFloat (float_of_Z 43890); VInt 7]; [VStr (lit "x"); VStr []]]] /\
    map sh_types (bk_sheets bk) = [[[1; 2]; [3; 5]; [1; 0]]]) /\
  (exists bk, open_workbook_dec ex_dec (file_bytes ex2bare) = Ok bk /\
    map sh_types (bk_sheets bk) = [[[3; 2; 3]; [3; 0; 0]]]).
Proof.
  split; [exact ex4_good|]. split; [exact ex2_good|]. split; [exact ex2bare_good|].
  split; [|split]; (eexists; split; [vm_compute; reflexivity|vm_compute; repeat split]).
Qed.

(** A pack read from such a file: one channel for each used column, which holds the
cells written in its rows, typed as in C45 and with the date mode of the file,
under the name written in the header row. The sheet is chosen by 0 or by its name,
Sheet 1. *)
Theorem C70_pack :
forall dec country S rest date fname which header startcell stopcell usecols r0 c0 r1 c1 cols nr r values f l,
good_single dec country S -> tells (e_entries S) date ->
which = OInt 0 \/ which = OStr (lit "Sheet 1") -> l = cells S date ->
refers startcell r0 c0 -> stops_at (height l) (width l) stopcell r1 c1 -> c1 < width l ->
chosen_columns c0 c1 usecols cols -> cols <> [] -> Forall (fun c => c0 <= c <= c1) cols ->
headed header r0 nr r -> (forall k, nr = Some k -> k < height l) ->
(forall c, In c cols -> column_of l c r (Z.max 0 (Z.min (r1 + 1) (height l) - r)) (values c) /\
                        typed_column (date_mode (e_entries S)) (values c) (f c)) ->
exists p, sheetpack_dec dec (file_bytes S ++ rest) fname which header startcell stopcell usecols = Ok p /\ p_fn p = fname /\
  (forall c, In c cols -> holds_column (p_data p) c (f c)) /\
  (forall c, ~ In c cols -> dget c (p_data p) = None) /\
  (forall c, In c cols -> match nr with
                          | Some k => exists v, dget c (p_names p) = Some v /\ shows_value l k c v
                          | None => dget c (p_names p) = None
                          end) /\
  (forall c, ~ In c cols -> dget c (p_names p) = None).
Proof. exact C70_pack_proof. Qed.
Print Assumptions C70_pack.

Example C70_pack_ex : good_single ex_dec (0, 0) ex4 /\
  exists p, sheetpack_dec ex_dec (file_bytes ex4) (lit "f.xls") (OStr (lit "Sheet 1")) (OBool true) None None ONone = Ok p /\
  p_data p = [(0, mkarr KO [VDateTime 738946 0]); (1, mkarr Kf [VFloat (float_of_Z 4)])] /\
  p_names p = [(0, VStr [8364; 97]%N); (1, VStr [])].
Proof. split; [exact ex4_good|]. eexists. split; [vm_compute; reflexivity|]. vm_compute. split; reflexivity. Qed.

(** That XFs have formats that are in the file is needed: with an XF but no format a
number is a text cell, which it is not when the format is General. *)
Theorem C70_no_formats_refuted :
exists f : list entry -> str,
(forall l, f l = file_bytes (mksingle 4 [0; 0]%N [] (l ++ [Attr 0x443 [0]%N 0 (repeat 0%N 10); Finish []; Piece (Same (SpecBiff.Cell (mkplace 0 0 0) (CDouble (float_of_Z 5) [])))]))) /\
(exists bk, open_workbook_dec (fun _ raw => Ok raw) (f []) = Ok bk /\
  map sh_values (bk_sheets bk) = [[[VFloat (float_of_Z 5)]]] /\ map sh_types (bk_sheets bk) = [[[XL_CELL_TEXT]]]) /\
(exists bk, open_workbook_dec (fun _ raw => Ok raw) (f [Fmt 0x41e [0; 0]%N (lit "General") (lit "General") []]) = Ok bk /\
  map sh_values (bk_sheets bk) = [[[VFloat (float_of_Z 5)]]] /\ map sh_types (bk_sheets bk) = [[[XL_CELL_NUMBER]]]).
Proof. exact C70_no_formats_refuted_proof. Qed.
Print Assumptions C70_no_formats_refuted.

Example C70_no_formats_ex : exists bk, open_workbook_dec (fun _ raw => Ok raw)
   (file_bytes (mksingle 4 [0; 0]%N [] [Attr 0x443 [0]%N 0 (repeat 0%N 10); Finish []; Piece (Same (SpecBiff.Cell (mkplace 0 0 0) (CDouble (float_of_Z 5) [])))])) = Ok bk /\
   map sh_types (bk_sheets bk) = [[[XL_CELL_TEXT]]].
Proof. eexists. split; [vm_compute; reflexivity|vm_compute; reflexivity]. Qed.

