(** * Spread sheet addresses, columns and packs: the property theorems *)

From Coq Require Import ZifyBool ZifyNat ZifyN QArith.
From Verif Require Import PyBase PyBaseFacts PyFloat PyText NumPy SpecArray ArrayFacts SpecPack Pack SpecDbf DbfProofs DbfThms SpecChars CharFacts XlDate ReadXl SpecXl XlProofs ReadXlThms.
Open Scope nat_scope.
Open Scope Z_scope.

(** Every non-empty text of ASCII letters has a column number, its bijective base
26 value less one (or not, with zbase=False), in either case. *)
Theorem C41_value :
forall s, s <> [] -> Forall letter s ->
  letter2num s true = Ok (column_no s) /\ letter2num s false = Ok (column_no s + 1) /\ 0 <= column_no s.
Proof. exact C41_value_proof. Qed.
Print Assumptions C41_value.

Example C41_value_ex : letter2num (lit "aMj") true = Ok 1023 /\ letter2num (lit "ZZ") false = Ok 702.
Proof. vm_compute. auto. Qed.

(** Every natural number is the column number of exactly one text of capitals. *)
Theorem C41_bijection :
(forall n, 0 <= n -> exists s, s <> [] /\ Forall capital s /\ letter2num s true = Ok n) /\
  (forall s t n, Forall capital s -> Forall capital t ->
     letter2num s true = Ok n -> letter2num t true = Ok n -> s = t).
Proof. exact C41_bijection_proof. Qed.
Print Assumptions C41_bijection.

Example C41_bijection_ex : letter2num (lit "XFD") true = Ok 16383 /\ Forall capital (lit "XFD").
Proof. split; [vm_compute; reflexivity|]. repeat constructor; vm_compute; discriminate. Qed.

(** Upper and lower case letters are the same. *)
Theorem C41_case :
forall s, Forall letter s -> forall z, letter2num (map upper s) z = letter2num s z.
Proof. exact C41_case_proof. Qed.
Print Assumptions C41_case.

Example C41_case_ex : letter2num (lit "xFd") true = letter2num (lit "XFD") true.
Proof. vm_compute. reflexivity. Qed.

(** The numbers grow in the order of the sheet: shorter texts first, then
alphabetically. *)
Theorem C41_monotone :
forall s t m n, Forall capital s -> Forall capital t -> shortlex_lt s t ->
  letter2num s true = Ok m -> letter2num t true = Ok n -> m < n.
Proof. exact C41_monotone_proof. Qed.
Print Assumptions C41_monotone.

Example C41_monotone_ex : shortlex_lt (lit "Z") (lit "AA") /\ shortlex_lt (lit "AZ") (lit "BA").
Proof. split; [left; cbn; lia|right]. apply lex_here; [reflexivity|reflexivity]. Qed.

(** Empty texts, and texts with a character that is neither an ASCII letter nor
one of ten odd letters whose upper case is in A-Z, raise AssertionError. *)
Theorem C41_rejected :
letter2num [] true = Err AssertionError /\
  forall s c z, In c s -> ~ letter c -> ~ In c odd_letters -> letter2num s z = Err AssertionError.
Proof. exact C41_rejected_proof. Qed.
Print Assumptions C41_rejected.

Example C41_rejected_ex : letter2num (lit "A1") true = Err AssertionError /\
  letter2num (lit "A B") true = Err AssertionError.
Proof. vm_compute. auto. Qed.

(** "Only A-Z and a-z are accepted" is false: the ten odd letters are accepted as the
one, two or three capitals that are their upper case, because the text is made
upper case first. *)
Theorem C41_nonletters_refuted :
map (fun c => letter2num [c] true) odd_letters =
  map (fun t => Ok (column_no (lit t))) ["SS"; "I"; "S"; "FF"; "FI"; "FL"; "FFI"; "FFL"; "ST"; "ST"]%string /\
Forall (fun c => ~ letter c) odd_letters.
Proof. exact C41_nonletters_refuted_proof. Qed.
Print Assumptions C41_nonletters_refuted.

(** The workbook's column name of n consists of capitals and is parsed back to n,
for every n; its loop ends. *)
Theorem C42_parse_back :
forall n, 0 <= n -> exists s, book_colname n = Ok s /\ s <> [] /\ Forall capital s /\ letter2num s true = Ok n.
Proof. exact C42_parse_back_proof. Qed.
Print Assumptions C42_parse_back.

Example C42_parse_back_ex : book_colname 18277 = Ok (lit "ZZZ") /\ book_colname 26 = Ok (lit "AA") /\
  book_colname (-1) = Err AssertionError.
Proof. vm_compute. auto. Qed.

(** The two-letter helper used for cell names agrees with it below 702, and fails
with IndexError from 702 (column AAA) on. *)
Theorem C42_two_letters :
forall n, (0 <= n < 702 -> formula_colname n = book_colname n) /\
  (702 <= n -> formula_colname n = Err IndexError).
Proof. exact C42_two_letters_proof. Qed.
Print Assumptions C42_two_letters.

Example C42_two_letters_ex : formula_colname 701 = Ok (lit "ZZ") /\ formula_colname 702 = Err IndexError /\
  book_colname 702 = Ok (lit "AAA").
Proof. vm_compute. auto. Qed.

(** The two-letter helper does not refuse negative columns as the other one does:
-1 is called Z, the name of column 25. *)
Theorem C42_negative_index_refuted :
formula_colname (-1) = Ok (lit "Z") /\ book_colname (-1) = Err AssertionError.
Proof. exact C42_negative_index_refuted_proof. Qed.
Print Assumptions C42_negative_index_refuted.

(** Letters and digits (of any script), then anything: the row is the number less one, the column
that of the letters, and whatever follows is ignored. Row 0 is an error.
Without digits the row argument is taken. *)
Theorem C43_address :
forall row col l junk, l <> [] -> Forall letter l ->
  (forall c, hd_error junk = Some c -> forall v, ~ digit_of c v) ->
  (forall d n, decimal_text d n -> 1 <= n ->
     cellreference row col (Some (l ++ d ++ junk)) = Ok (n - 1, column_no l)) /\
  (forall d, decimal_text d 0 -> cellreference row col (Some (l ++ d ++ junk)) = Err ValueError) /\
  ((forall c, hd_error junk = Some c -> ~ letter c) ->
     cellreference row col (Some (l ++ junk)) = Ok (row, column_no l)).
Proof. exact C43_address_proof. Qed.
Print Assumptions C43_address.

Example C43_address_ex : cellreference 5 5 (Some (lit "Ba12:C4")) = Ok (11, 52) /\
  cellreference 5 5 (Some (lit "B0")) = Err ValueError /\ cellreference 5 5 (Some (lit "ba")) = Ok (5, 52) /\
  cellreference 5 5 (Some (lit "B" ++ [1637; 50]%N)) = Ok (51, 1) /\ decimal_text [1637; 50]%N 52.
Proof.
  split; [vm_compute; reflexivity|]. split; [vm_compute; reflexivity|]. split; [vm_compute; reflexivity|].
  split; [vm_compute; reflexivity|]. apply decimal_text_iff. split; [discriminate|]. split; [repeat constructor|vm_compute; reflexivity].
Qed.

(** A text not starting with a letter is an error; no text means the arguments. *)
Theorem C43_no_letter :
forall row col s, (s <> [] -> (forall c, hd_error s = Some c -> ~ letter c) ->
    cellreference row col (Some s) = Err ValueError) /\
  cellreference row col None = Ok (row, col) /\ cellreference row col (Some []) = Ok (row, col).
Proof. exact C43_no_letter_proof. Qed.
Print Assumptions C43_no_letter.

Example C43_no_letter_ex : cellreference 0 0 (Some (lit "12")) = Err ValueError /\
  cellreference 0 0 (Some (lit "$B$2")) = Err ValueError.
Proof. vm_compute. auto. Qed.

(** Every address text gives a reference or ValueError, nothing else. *)
Theorem C43_total :
forall row col s, (exists r c, cellreference row col (Some s) = Ok (r, c)) \/
  cellreference row col (Some s) = Err ValueError.
Proof. exact C43_total_proof. Qed.
Print Assumptions C43_total.

(** The cell name parser of the xlsx reader agrees with cellreference on every
address of letters and a row number not starting with 0, for the columns Excel
has; beyond XFD it raises AssertionError. *)
Theorem C43_parsers_agree :
forall l d, l <> [] -> Forall letter l -> d <> [] -> all_digits d -> hd_error d <> Some 48%N ->
  (column_no l < 16384 ->
     cell_name_to_rowx_colx (l ++ d) false = Ok (dec_value d - 1, Some (column_no l)) /\
     cellreference 0 0 (Some (l ++ d)) = Ok (dec_value d - 1, column_no l)) /\
  (16384 <= column_no l -> cell_name_to_rowx_colx (l ++ d) false = Err AssertionError).
Proof. exact C43_parsers_agree_proof. Qed.
Print Assumptions C43_parsers_agree.

Example C43_agree_ex : cell_name_to_rowx_colx (lit "xfd1048576") false = Ok (1048575, Some 16383) /\
  cellreference 0 0 (Some (lit "xfd1048576")) = Ok (1048575, 16383) /\
  cell_name_to_rowx_colx (lit "XFE1") false = Err AssertionError.
Proof. vm_compute. auto. Qed.

(** They do not agree on all addresses: A01 is cell A1 for cellreference and an
error for the xlsx parser; A1_0 has row 0 for the former and row 9 for the
latter. *)
Theorem C43_leading_zero_refuted :
cellreference 0 0 (Some (lit "A01")) = Ok (0, 0) /\
  cell_name_to_rowx_colx (lit "A01") false = Err OtherError /\
  cellreference 0 0 (Some (lit "A1_0")) = Ok (0, 0) /\
  cell_name_to_rowx_colx (lit "A1_0") false = Ok (9, Some 0).
Proof. exact C43_leading_zero_refuted_proof. Qed.
Print Assumptions C43_leading_zero_refuted.

(** Both parsers invert the printer of cell addresses, for every row and the
columns the printer knows. *)
Theorem C43_print_parse :
forall r c, 0 <= r -> 0 <= c < 702 ->
  exists s, cellname r c = Ok s /\ cellreference 0 0 (Some s) = Ok (r, c) /\
            cell_name_to_rowx_colx s false = Ok (r, Some c).
Proof. exact C43_print_parse_proof. Qed.
Print Assumptions C43_print_parse.

Example C43_print_ex : cellname 41 27 = Ok (lit "AB42") /\ cellreference 0 0 (Some (lit "AB42")) = Ok (41, 27) /\
  cell_name_to_rowx_colx (lit "AB42") false = Ok (41, Some 27).
Proof. vm_compute. auto. Qed.

(** The items of a list, tuple, set or iterator, or the keys of a dict, each as an
integer (floats are cut off, texts are decimal), are sorted, nothing added or lost. *)
Theorem C44_items :
forall u items l, held u items -> Forall2 whole items l ->
  exists r, normalize_usecols u = Ok r /\ Permutation l r /\ Sorted Z.le r.
Proof. exact C44_items_proof. Qed.
Print Assumptions C44_items.

Example C44_items_ex : held (ODict [(OInt 7, ONone); (OBool true, ONone); (OFloat (S754_finite true 5 (-1)), ONone); (OStr (lit " 12"), ONone)])
    [OInt 7; OBool true; OFloat (S754_finite true 5 (-1)); OStr (lit " 12")] /\
  Forall2 whole [OInt 7; OBool true; OFloat (S754_finite true 5 (-1)); OStr (lit " 12")] [7; 1; -2; 12] /\
  normalize_usecols (ODict [(OInt 7, ONone); (OBool true, ONone); (OFloat (S754_finite true 5 (-1)), ONone); (OStr (lit " 12"), ONone)]) = Ok [-2; 1; 7; 12].
Proof.
  split; [exact (held_dict [(OInt 7, ONone); (OBool true, ONone); (OFloat (S754_finite true 5 (-1)), ONone); (OStr (lit " 12"), ONone)])|]. split; [|vm_compute; reflexivity].
  constructor; [constructor|]. constructor; [exact (whole_truth true)|]. constructor; [exact (whole_float (S754_finite true 5 (-1)) _ eq_refl)|].
  constructor; [|constructor]. apply (whole_text (lit " 12") (lit " ") (lit "12") [] 12); [repeat constructor|apply Forall_cons; [right; reflexivity|apply Forall_nil]|apply Forall_nil|].
  exists (lit "12"). split; [discriminate|]. split; [repeat constructor; vm_compute; discriminate|]. left. split; reflexivity.
Qed.

(** A text of comma separated columns and column ranges, with white space around
them and empty fields ignored, gives exactly the columns of the items, with
multiplicity, sorted. A reversed range has no columns. *)
Theorem C44_text :
forall its t, cols_text its t ->
  exists r, normalize_usecols (OStr t) = Ok r /\ Permutation (flat_map item_columns its) r /\ Sorted Z.le r.
Proof. exact C44_text_proof. Qed.
Print Assumptions C44_text.

Example C44_text_ex : cols_text [Range (lit "C") (lit "e"); Single (lit "H"); Range (lit "F") (lit "D")]
    (lit " C:e,, H ,F:D") /\
  flat_map item_columns [Range (lit "C") (lit "e"); Single (lit "H"); Range (lit "F") (lit "D")] = [2; 3; 4; 7] /\
  normalize_usecols (OStr (lit " C:e,, H ,F:D")) = Ok [2; 3; 4; 7].
Proof.
  split; [|vm_compute; auto].
  assert (T : forall c, letter c -> column_text [c]).
  { intros c H. split; [discriminate|]. constructor; [exact H|constructor]. }
  assert (L : letter 67%N /\ letter 101%N /\ letter 72%N /\ letter 70%N /\ letter 68%N) by (unfold letter, capital; lia).
  assert (B : blank 32%N) by (apply ws_text_iff; reflexivity).
  apply (ct_more [Range (lit "C") (lit "e")] (lit " C:e") [Single (lit "H"); Range (lit "F") (lit "D")] (lit ", H ,F:D")).
  { apply (ft_item (Range (lit "C") (lit "e")) (lit " ") []); [split; apply T; tauto|first [apply Forall_cons; [exact B|]; apply Forall_nil|apply Forall_nil]|constructor]. }
  apply (ct_more [] [] [Single (lit "H"); Range (lit "F") (lit "D")] (lit " H ,F:D")); [constructor; constructor|].
  apply (ct_more [Single (lit "H")] (lit " H ") [Range (lit "F") (lit "D")] (lit "F:D")).
  { apply (ft_item (Single (lit "H")) (lit " ") (lit " ")); [apply T; tauto|first [apply Forall_cons; [exact B|]; apply Forall_nil|apply Forall_nil]|first [apply Forall_cons; [exact B|]; apply Forall_nil|apply Forall_nil]]. }
  apply ct_last. apply (ft_item (Range (lit "F") (lit "D")) [] []); [split; apply T; tauto|constructor|constructor].
Qed.

(** Whatever the argument, a result is sorted. *)
Theorem C44_sorted :
forall u r, normalize_usecols u = Ok r -> Sorted Z.le r.
Proof. exact C44_sorted_proof. Qed.
Print Assumptions C44_sorted.

(** White space is not allowed around the colon of a range, though it is around
items: the parts of a range are not stripped. *)
Theorem C44_inner_space_refuted :
normalize_usecols (OStr (lit " C:E ")) = Ok [2; 3; 4] /\
  normalize_usecols (OStr (lit "C: E")) = Err AssertionError /\
  normalize_usecols (OStr (lit "C:E:F")) = Err ValueError.
Proof. exact C44_inner_space_refuted_proof. Qed.
Print Assumptions C44_inner_space_refuted.

(** A column of cells as xlrd makes them reads exactly as specified: numbers with
nan, texts with the empty text, or a mixed column with dates and booleans
converted and None. Only failing date conversions raise. *)
Theorem C45_typing :
forall datemode cells, Forall cell_ok cells ->
  (forall out, convert_column datemode (map fst cells) (map snd cells) = Ok out <-> typed_column datemode cells out) /\
  ((forall f, In (VFloat f, XL_CELL_DATE) cells -> exists v, xldate_as_datetime f datemode = Ok v) ->
     exists out, typed_column datemode cells out).
Proof. exact C45_typing_proof. Qed.
Print Assumptions C45_typing.

(** A date, a missing cell, TRUE, a text and a number. *)
Example C45_typing_ex :
  convert_column 0 [VFloat (float_of_Z 43890); VStr []; VInt 1; VStr (lit "a"); VFloat (float_of_Z 7)] [3; 0; 4; 1; 2]
  = Ok [VDateTime 737484 0; VNone; VBool true; VStr (lit "a"); VFloat (float_of_Z 7)] /\
  convert_column 0 [VFloat (float_of_Z 7); VInt 42; VStr []] [2; 5; 0] = Ok [VFloat (float_of_Z 7); VFloat fnan; VFloat fnan] /\
  convert_column 0 [VStr (lit "a"); VInt 42] [1; 5] = Ok [VStr (lit "a"); VStr []].
Proof. vm_compute. auto. Qed.

(** No cell is moved, added or dropped: element i depends on cell i, and the
lengths agree. *)
Theorem C45_positions :
forall datemode cells out, convert_column datemode (map fst cells) (map snd cells) = Ok out ->
  length out = length cells /\
  (forall i v t w, nth_error cells i = Some (v, t) -> nth_error out i = Some w ->
     t = XL_CELL_TEXT \/ t = XL_CELL_NUMBER -> w = v).
Proof. exact C45_positions_proof. Qed.
Print Assumptions C45_positions.

(** For a rectangular sheet, chosen by position or name, the pack has one channel
per used column, keyed by the column of the sheet, holding the typed cells
from the first data row to the stop row (or the last row of the sheet, if that
comes first), and the names of the header row. *)
Theorem C46_rectangle :
forall wb fname which header startcell stopcell usecols ws r0 c0 r1 c1 cols nr r f,
  chosen_sheet wb which ws -> rectangular ws ->
  refers startcell r0 c0 -> stops ws stopcell r1 c1 -> c1 < sh_ncols ws ->
  chosen_columns c0 c1 usecols cols -> cols <> [] -> Forall (fun c => c0 <= c <= c1) cols ->
  headed header r0 nr r -> (forall k, nr = Some k -> k < sh_nrows ws) ->
  (forall c, In c cols ->
     typed_column (bk_datemode wb) (cells_of ws c r (Z.min r1 (sh_nrows ws - 1))) (f c)) ->
  exists p, sheetpack wb fname which header startcell stopcell usecols = Ok p /\
    p_fn p = fname /\
    (forall c, In c cols -> holds_column (p_data p) c (f c)) /\
    (forall c, ~ In c cols -> dget c (p_data p) = None) /\
    (forall c, In c cols -> dget c (p_names p) = match nr with
                                                 | Some k => Some (value_at ws k c)
                                                 | None => None
                                                 end) /\
    (forall c, ~ In c cols -> dget c (p_names p) = None).
Proof. exact C46_rectangle_proof. Qed.
Print Assumptions C46_rectangle.

(** A sheet with a header row and two data rows in three columns; the range
    B1 to the end gives two channels. *)
Definition demo_sheet : sheet := mksheet 3 3
  [[VStr (lit "id"); VStr (lit "t"); VStr (lit "v")];
   [VStr (lit "x"); VFloat (float_of_Z 43890); VFloat (float_of_Z 7)];
   [VStr (lit "y"); VFloat (float_of_Z 43891); VStr []]]
  [[1; 1; 1]; [1; 3; 2]; [1; 3; 0]].
Definition demo_book : book := mkbook [lit "one"] [demo_sheet] 0.

Example C46_rectangle_ex : rectangular demo_sheet /\ chosen_sheet demo_book (OStr (lit "one")) demo_sheet /\
  refers (Some (lit "B1")) 0 1 /\ columns 1 2 = [1; 2] /\
  match sheetpack demo_book (lit "f.xls") (OStr (lit "one")) (OBool true) (Some (lit "B1")) None ONone with
  | Ok p => p_data p = [(1, mkarr KO [VDateTime 737484 0; VDateTime 737485 0]);
                        (2, mkarr Kf [VFloat (float_of_Z 7); VFloat fnan])] /\
            p_names p = [(1, VStr (lit "t")); (2, VStr (lit "v"))]
  | Err _ => False
  end.
Proof.
  split. { repeat split; try (vm_compute; reflexivity); repeat constructor. }
  split. { apply cs_name with (i := 0%nat); [reflexivity|lia|reflexivity]. }
  split. { apply (refers_cell (lit "B") (lit "1") 1); [split; [discriminate|]| |vm_compute; discriminate].
           - repeat constructor; vm_compute; discriminate.
           - apply (ascii_digits_text (lit "1")); [discriminate|]. repeat constructor; vm_compute; discriminate. }
  split; [reflexivity|]. vm_compute. auto.
Qed.

(** Used columns outside the corner columns raise ValueError. *)
Theorem C46_outside :
forall wb fname which header startcell stopcell usecols ws r0 c0 r1 c1 cols,
  chosen_sheet wb which ws -> refers startcell r0 c0 -> stops ws stopcell r1 c1 ->
  chosen_columns c0 c1 usecols cols -> (exists c, In c cols /\ (c < c0 \/ c1 < c)) ->
  sheetpack wb fname which header startcell stopcell usecols = Err ValueError.
Proof. exact C46_outside_proof. Qed.
Print Assumptions C46_outside.

Example C46_outside_ex : sheetpack demo_book (lit "f.xls") (OInt 0) (OBool true) (Some (lit "B1")) None (OStr (lit "A,B"))
  = Err ValueError.
Proof. vm_compute. reflexivity. Qed.

(** A stop cell without a row does not mean the last row: its row is 0, so that no
data row is read. *)
Theorem C46_bare_stop_column_refuted :
exists wb p, sheetpack wb (lit "f.xls") (OInt 0) (OBool true) None (Some (lit "C")) ONone = Ok p /\
  sh_nrows (nth 0 (bk_sheets wb) (mksheet 0 0 [] [])) = 3 /\ p_data p = [(0, mkarr Kf []); (1, mkarr Kf []); (2, mkarr Kf [])].
Proof. exact C46_bare_stop_column_refuted_proof. Qed.
Print Assumptions C46_bare_stop_column_refuted.

(** Without used columns, a stop column left of the start column raises
IndexError. *)
Theorem C46_no_columns :
forall wb fname which header startcell stopcell usecols ws r0 c0 r1 c1,
  chosen_sheet wb which ws -> refers startcell r0 c0 -> stops ws stopcell r1 c1 ->
  chosen_columns c0 c1 usecols (columns c0 c1) -> c1 < c0 ->
  sheetpack wb fname which header startcell stopcell usecols = Err IndexError.
Proof. exact C46_no_columns_proof. Qed.
Print Assumptions C46_no_columns.

Example C46_no_columns_ex : sheetpack demo_book (lit "f.xls") (OInt 0) (OBool true) (Some (lit "C1")) (Some (lit "B9")) ONone
  = Err IndexError.
Proof. vm_compute. reflexivity. Qed.

(** A true header that is neither True nor a text (the documentation allows only
these) does not mean "no header" and is no ValueError: it raises
UnboundLocalError after all cells have been read. *)
Theorem C46_other_header_refuted :
exists wb, sheetpack wb (lit "f.xls") (OInt 0) (OInt 1) None None ONone = Err UnboundLocalError /\
  (exists p, sheetpack wb (lit "f.xls") (OInt 0) (OInt 0) None None ONone = Ok p).
Proof. exact C46_other_header_refuted_proof. Qed.
Print Assumptions C46_other_header_refuted.

(** So does every other integer but 0 and every list or tuple that is not empty,
whenever the pack without header can be read. *)
Theorem C46_other_header :
forall wb fname which header startcell stopcell usecols p,
(exists z, header = OInt z /\ z <> 0) \/ (exists l, l <> [] /\ (header = OList l \/ header = OTuple l)) ->
sheetpack wb fname which (OBool false) startcell stopcell usecols = Ok p ->
sheetpack wb fname which header startcell stopcell usecols = Err UnboundLocalError.
Proof. exact C46_other_header_proof. Qed.
Print Assumptions C46_other_header.

Example C46_other_header_ex : sheetpack demo_book (lit "f.xls") (OInt 0) (OList [OInt 1]) None None ONone = Err UnboundLocalError /\
  exists p, sheetpack demo_book (lit "f.xls") (OInt 0) (OBool false) None None ONone = Ok p.
Proof. split; [vm_compute; reflexivity|]. eexists. vm_compute. reflexivity. Qed.

(** None, 0, and an empty list or tuple as header mean the same as False. *)
Theorem C46_false_header :
forall wb fname which header startcell stopcell usecols,
header = ONone \/ header = OInt 0 \/ header = OList [] \/ header = OTuple [] ->
sheetpack wb fname which header startcell stopcell usecols = sheetpack wb fname which (OBool false) startcell stopcell usecols.
Proof. exact C46_false_header_proof. Qed.
Print Assumptions C46_false_header.

Example C46_false_header_ex : exists p, sheetpack demo_book (lit "f.xls") (OInt 0) ONone None None ONone = Ok p /\ p_names p = [].
Proof. eexists. split; vm_compute; reflexivity. Qed.

(** A sequence of ints is not always accepted as usecols: an array of two or more
columns raises ValueError, whatever they are, and an array with column 0 alone
means all columns from the start column to the stop column. *)
Theorem C46_array_refuted :
(forall wb fname which header startcell stopcell ws r0 c0 r1 c1 kind x y l,
   chosen_sheet wb which ws -> refers startcell r0 c0 -> stops ws stopcell r1 c1 ->
   sheetpack wb fname which header startcell stopcell (OArr (mkarr kind (x :: y :: l))) = Err ValueError) /\
(forall wb fname which header startcell stopcell kind,
   sheetpack wb fname which header startcell stopcell (OArr (mkarr kind [VInt 0])) =
   sheetpack wb fname which header startcell stopcell ONone).
Proof. exact C46_array_refuted_proof. Qed.
Print Assumptions C46_array_refuted.

Example C46_array_ex : sheetpack demo_book (lit "f.xls") (OInt 0) (OBool true) None None (OArr (mkarr Ki [VInt 0; VInt 1])) = Err ValueError /\
  (exists p, sheetpack demo_book (lit "f.xls") (OInt 0) (OBool true) None None (OArr (mkarr Ki [VInt 0])) = Ok p /\ (1 < length (p_data p))%nat) /\
  (exists p, sheetpack demo_book (lit "f.xls") (OInt 0) (OBool true) None None (OList [OInt 0]) = Ok p /\ length (p_data p) = 1%nat).
Proof. split; [vm_compute; reflexivity|]. split; eexists; (split; [vm_compute; reflexivity|]); vm_compute; repeat constructor. Qed.

