(** * DBF files: the property theorems *)

From Coq Require Import ZifyBool ZifyNat ZifyN QArith.
From Verif Require Import PyBase PyBaseFacts PyFloat NumPy SpecArray ArrayFacts Pack PackProofs Dbf SpecPack SpecDbf DbfProofs DbfSelect DbfExamples DbfThms.
Open Scope nat_scope.

(** C36. A file encoding a table gives a pack whose names are the field names
keyed 0..n-1 and whose channel i is the array of the values of field i in the
records which are not deleted, in order; without such records there is no
channel. *)
Theorem C36_dbfpack_inverts_encoding :
forall fds recs b fname, encodes fds recs b ->
  exists p, dbfpack (mkfile b 0) [] fname = Ok p /\
  p_fn p = fname /\
  p_names p = map (fun i => (Z.of_nat i, VStr (nth i (map fd_name fds) []))) (seq 0 (length fds)) /\
  (live recs = [] -> p_data p = []) /\
  (live recs <> [] ->
   holds_columns (p_data p) (map (fun i => (Z.of_nat i,
       map (fun cs => cell_val (nth i (map fd_typ fds) 0%N) (nth i cs CBlank)) (live recs)))
     (seq 0 (length fds)))).
Proof. exact C36_dbfpack_inverts_encoding_proof. Qed.
Print Assumptions C36_dbfpack_inverts_encoding.

Example C36_ex : encodes sample_fields sample_records sample_bytes /\
  live sample_records <> [] /\
  match dbfpack (mkfile sample_bytes 0) [] (lit "f.dbf") with
  | Ok p => p_data p = [(0%Z, np_array [VInt (-7); VFloat fnan]); (1%Z, np_array [VStr (lit "xy"); VStr (lit "z ")]);
                        (2%Z, np_array [VDate 2020 2 29; VNone])]
  | Err _ => False
  end.
Proof. split; [exact sample_encodes|]. split; [discriminate|]. vm_compute. reflexivity. Qed.

(** C37. dbfpack with names returns exactly the channels and names of dbfpack
without names whose field name is in the list, under the same keys, if no
record is deleted or the last field is selected. *)
Theorem C37_selection_is_projection :
  forall b names fname p,
  names <> [] -> dbfpack (mkfile b 0) [] fname = Ok p ->
  let fields := p_names p in
  let wanted := fun k : Z => exists s, In (k, VStr s) fields /\ In s names in
  (forall g, dbfreader (mkfile b 0) = Ok g ->
     g_names g = [] \/ In (last (g_names g) []) names \/
     let start := 33 + 32 * length (g_names g) in
     let len := 1 + list_sum (map (fun x => snd (fst x)) (g_specs g)) in
     forall i, i < Z.to_nat (u32_at b 4) -> space_at b (start + i * len) = true) ->
  exists q, dbfpack (mkfile b 0) names fname = Ok q /\ p_fn q = fname /\
  (forall k v, In (k, v) (p_names q) <-> In (k, v) (p_names p) /\ wanted k) /\
  (forall k a, In (k, a) (p_data q) <-> In (k, a) (p_data p) /\ wanted k) /\
  dict_ok (p_names q) /\ dict_ok (p_data q).
Proof. exact C37_selection_is_projection_proof. Qed.
Print Assumptions C37_selection_is_projection.

Example C37_ex :
  match dbfpack (mkfile sample_bytes 0) [lit "DAY"; lit "B"] [], dbfpack (mkfile sample_bytes 0) [] [] with
  | Ok q, Ok p => p_data q = [(1%Z, np_array [VStr (lit "xy"); VStr (lit "z ")]); (2%Z, np_array [VDate 2020 2 29; VNone])]
                  /\ p_data q = tl (p_data p) /\ dkeys (p_names q) = [1; 2]%Z
  | _, _ => False
  end /\
  In (last (map fd_name sample_fields) []) [lit "DAY"; lit "B"].
Proof. split; [vm_compute; auto|]. left; reflexivity. Qed.

(** C37. Without the condition it fails: with a deleted record and the last field
not selected, the next records are read from wrong offsets. Here a file of
well-formed records gives channel A = [x, y] in full but [z, space] when A alone is
selected. *)
Theorem C37_selection_is_projection_refuted :
  exists fds recs b p q, encodes fds recs b /\
  dbfpack (mkfile b 0) [] [] = Ok p /\ dbfpack (mkfile b 0) [lit "A"] [] = Ok q /\
  dget 0 (p_data p) = Some (np_array [VStr (lit "x"); VStr (lit "y")]) /\
  dget 0 (p_data q) = Some (np_array [VStr (lit "z"); VStr (lit " ")]).
Proof. exact C37_selection_is_projection_refuted_proof. Qed.
Print Assumptions C37_selection_is_projection_refuted.

(** C38. When the full reader ends normally, it has delivered as many rows as
there are records with a space flag, and the position has advanced by exactly
one record length per record. *)
Theorem C38_deleted_records_never_appear :
  forall f g f', dbfreader f = Ok g -> g_end g = Ok f' ->
  let start := f_pos f + 33 + 32 * length (g_names g) in
  let len := 1 + list_sum (map (fun x => snd (fst x)) (g_specs g)) in
  let n := Z.to_nat (u32_at (f_bytes f) (f_pos f + 4)) in
  f_bytes f' = f_bytes f /\
  f_pos f' = start + n * len /\
  length (g_rows g) = length (filter (fun i => space_at (f_bytes f) (start + i * len)) (seq 0 n)) /\
  Forall (fun row => length row = length (g_names g)) (g_rows g).
Proof. exact C38_deleted_records_never_appear_proof. Qed.
Print Assumptions C38_deleted_records_never_appear.

Example C38_ex :
  match dbfreader (mkfile sample_bytes 0) with
  | Ok g => is_ok (g_end g) = true /\ length (g_rows g) = 2 /\
            match g_end g with Ok f' => f_pos f' = 129 + 3 * 14 | _ => False end
  | Err _ => False
  end.
Proof. vm_compute. auto. Qed.

(** C38. Row r holds the converted fields of the r-th record with a space flag,
each taken at its offset in that record. *)
Theorem C38_rows_are_the_live_records :
  forall f g f', dbfreader f = Ok g -> g_end g = Ok f' ->
  let start := f_pos f + 33 + 32 * length (g_names g) in
  let len := 1 + list_sum (map (fun x => snd (fst x)) (g_specs g)) in
  let n := Z.to_nat (u32_at (f_bytes f) (f_pos f + 4)) in
  let alive := filter (fun i => space_at (f_bytes f) (start + i * len)) (seq 0 n) in
  forall r row, nth_error (g_rows g) r = Some row ->
  exists i, nth_error alive r = Some i /\
  forall j typ size deci v, nth_error (g_specs g) j = Some (typ, size, deci) -> nth_error row j = Some v ->
  let offset := 1 + list_sum (firstn j (map (fun x => snd (fst x)) (g_specs g))) in
  conv typ deci (firstn size (skipn (start + i * len + offset) (f_bytes f))) = Ok v.
Proof. exact C38_rows_are_the_live_records_proof. Qed.
Print Assumptions C38_rows_are_the_live_records.

(** C39. Every cut of an encoded file before the end of its records makes the
full reader raise: struct.error (AssertionError when just the terminator is
missing). Rows of the complete records come first, none is made up. *)
Theorem C39_truncated_copy_raises :
  forall fds recs h rb k, encodes_header fds (length recs) h -> encodes_records fds recs rb ->
  k < length h + length rb ->
  (forall fname, dbfpack (mkfile (firstn k (h ++ rb)) 0) [] fname =
     Err (if k =? length h - 1 then AssertionError else StructError)) /\
  (length h <= k -> exists g, dbfreader (mkfile (firstn k (h ++ rb)) 0) = Ok g /\
     g_end g = Err StructError /\
     g_rows g = map (row_vals fds) (live (firstn ((k - length h) / record_length fds) recs))).
Proof. exact C39_truncated_copy_raises_proof. Qed.
Print Assumptions C39_truncated_copy_raises.

Example C39_ex :
  encodes_header sample_fields (length sample_records) (sample_header sample_fields 3) /\
  encodes_records sample_fields sample_records sample_body /\
  dbfpack (mkfile (firstn 160 sample_bytes) 0) [] [] = Err StructError /\
  match dbfreader (mkfile (firstn 160 sample_bytes) 0) with
  | Ok g => length (g_rows g) = 1
  | Err _ => False
  end.
Proof. split; [exact sample_header_ok|]. split; [exact sample_body_ok|]. vm_compute. auto. Qed.

(** C39. For arbitrary bytes: if the header is read but the file is shorter than
header plus the announced records, the full reader ends with an exception; if
that is struct.error, the rows delivered are those of all complete records. *)
Theorem C39_short_file_raises :
  forall f g, dbfreader f = Ok g ->
  let start := f_pos f + 33 + 32 * length (g_names g) in
  let len := 1 + list_sum (map (fun x => snd (fst x)) (g_specs g)) in
  let n := Z.to_nat (u32_at (f_bytes f) (f_pos f + 4)) in
  length (f_bytes f) < start + n * len ->
  exists e, g_end g = Err e /\
  (e = StructError -> start <= length (f_bytes f) ->
   length (g_rows g) = length (filter (fun i => space_at (f_bytes f) (start + i * len))
                                      (seq 0 ((length (f_bytes f) - start) / len)))).
Proof. exact C39_short_file_raises_proof. Qed.
Print Assumptions C39_short_file_raises.

(** C39. The selecting reader also raises on a short file when the last field is
selected (and is not of width 0). *)
Theorem C39_selecting_last_field_raises :
  forall f names g fulln, dbfrecords f names = Ok g -> dbfreader f = Ok fulln ->
  let start := f_pos f + 33 + 32 * length (g_names fulln) in
  let sizes := map (fun x => snd (fst x)) (g_specs fulln) in
  let n := Z.to_nat (u32_at (f_bytes f) (f_pos f + 4)) in
  length (f_bytes f) < start + n * (1 + list_sum sizes) ->
  g_names fulln = [] \/ In (last (g_names fulln) []) names -> last sizes 1 <> 0 ->
  exists e, g_end g = Err e.
Proof. exact C39_selecting_last_field_raises_proof. Qed.
Print Assumptions C39_selecting_last_field_raises.

Example C39_selecting_ex :
  let f := mkfile (firstn 165 sample_bytes) 0 in
  match dbfrecords f [lit "DAY"], dbfreader f with
  | Ok g, Ok full => g_end g = Err StructError /\ In (last (g_names full) []) [lit "DAY"] /\
      (length (f_bytes f) <? 129 + 3 * (1 + list_sum (map (fun x => snd (fst x)) (g_specs full)))) = true
  | _, _ => False
  end.
Proof. vm_compute. repeat split; auto. Qed.

(** C39. The selecting reader does not see that the file is short when the missing
bytes belong to fields which are not selected: the full reader raises on a
truncated copy and the selecting reader delivers all the records of it. *)
Theorem C39_selecting_reader_raises_refuted :
  exists fds recs h rb k p, encodes_header fds (length recs) h /\ encodes_records fds recs rb /\
  k < length h + length rb /\
  dbfpack (mkfile (firstn k (h ++ rb)) 0) [] [] = Err StructError /\
  dbfpack (mkfile (firstn k (h ++ rb)) 0) [lit "A"] [] = Ok p /\
  holds_column (p_data p) 0 (map (fun cs => cell_val 78 (nth 0 cs CBlank)) (live recs)).
Proof. exact C39_selecting_reader_raises_refuted_proof. Qed.
Print Assumptions C39_selecting_reader_raises_refuted.

(** C40. The bytes of a well-formed field convert to the value of the cell they
hold: blank numbers to nan, integers, decimals, dates, blank dates to None,
logicals to T, F or ?, other types to their text. *)
Theorem C40_conversion_of_well_formed_fields :
  forall typ deci c b, holds typ deci c b -> conv typ deci b = Ok (cell_val typ c).
Proof. exact C40_conversion_of_well_formed_fields_proof. Qed.
Print Assumptions C40_conversion_of_well_formed_fields.

Example C40_ex : holds 78 2 (CDec true (lit "1") (lit "50")) (lit "  -1.50") /\
  conv 78 2 (lit "  -1.50") = Ok (VFloat (S754_finite true 6755399441055744 (-52))).
Proof.
  split; [|vm_compute; reflexivity].
  change (lit "  -1.50") with (lit "  " ++ dec_text true (lit "1") (lit "50") ++ []).
  apply holds_N_dec; try discriminate; repeat constructor; try (right; right; reflexivity); discriminate.
Qed.

(** C40. N fields, any bytes: nan exactly for a field of NULs and white space when
there are no decimals; otherwise an int (no decimals) or a float (decimals),
or ValueError. F fields: nan for white space, else a float or ValueError. *)
Theorem C40_numeric_fields_total :
  (forall deci b, Forall pad_like b -> conv 78 deci b = Ok (VFloat fnan)) /\
  (forall b, ~ Forall pad_like b -> (exists z, conv 78 0 b = Ok (VInt z)) \/ conv 78 0 b = Err ValueError) /\
  (forall deci b, deci <> 0%N -> ~ Forall pad_like b ->
     (exists x, conv 78 deci b = Ok (VFloat x)) \/ conv 78 deci b = Err ValueError) /\
  (forall deci b, Forall space_like b -> conv 70 deci b = Ok (VFloat fnan)) /\
  (forall deci b, (exists x, conv 70 deci b = Ok (VFloat x)) \/ conv 70 deci b = Err ValueError).
Proof. exact C40_numeric_fields_total_proof. Qed.
Print Assumptions C40_numeric_fields_total.

Example C40_numeric_ex : conv 78 0 (lit " 1x") = Err ValueError /\ conv 78 0 (lit "  12 ") = Ok (VInt 12) /\
  conv 78 0 [0; 32; 0]%N = Ok (VFloat fnan) /\ conv 70 0 (lit "   ") = Ok (VFloat fnan).
Proof. vm_compute. auto. Qed.

(** C40. D fields, any bytes: None exactly for white space; a date only if it is a
day of the calendar; anything else is ValueError. Eight digits which are not
a day of the calendar are a ValueError. *)
Theorem C40_date_fields_total :
  (forall deci b, conv 68 deci b = Ok VNone <-> Forall space_like b) /\
  (forall deci b, ~ Forall space_like b ->
     (exists y m d, conv 68 deci b = Ok (VDate y m d) /\ calendar_day y m d) \/ conv 68 deci b = Err ValueError) /\
  (forall deci ys ms ds, length ys = 4 -> length ms = 2 -> length ds = 2 ->
     all_digits ys -> all_digits ms -> all_digits ds ->
     (calendar_day (dec_value ys) (dec_value ms) (dec_value ds) ->
      conv 68 deci (ys ++ ms ++ ds) = Ok (VDate (dec_value ys) (dec_value ms) (dec_value ds))) /\
     (~ calendar_day (dec_value ys) (dec_value ms) (dec_value ds) ->
      conv 68 deci (ys ++ ms ++ ds) = Err ValueError)).
Proof. exact C40_date_fields_total_proof. Qed.
Print Assumptions C40_date_fields_total.

Example C40_date_ex : conv 68 0 (lit "20000229") = Ok (VDate 2000 2 29) /\ conv 68 0 (lit "19000229") = Err ValueError /\
  conv 68 0 (lit "2000") = Err ValueError /\ conv 68 0 (lit "        ") = Ok VNone.
Proof. vm_compute. auto. Qed.

(** C40. L fields always give T, F or ?; one byte gives T exactly for Y y T t and F
exactly for N n F f. Other types give their bytes as text, or UnicodeDecodeError
when a byte is not ASCII. *)
Theorem C40_logical_and_text_fields_total :
  (forall deci b, In (conv 76 deci b) [Ok (VStr (lit "T")); Ok (VStr (lit "F")); Ok (VStr (lit "?"))]) /\
  (forall deci c, (conv 76 deci [c] = Ok (VStr (lit "T")) <-> In c (lit "YyTt")) /\
                  (conv 76 deci [c] = Ok (VStr (lit "F")) <-> In c (lit "NnFf"))) /\
  (forall typ deci b, ~ In typ [78; 68; 76; 70]%N -> Forall (fun c => (c < 128)%N) b ->
     conv typ deci b = Ok (VStr b)) /\
  (forall typ deci b, ~ In typ [78; 68; 76; 70]%N -> ~ Forall (fun c => (c < 128)%N) b ->
     conv typ deci b = Err UnicodeError).
Proof. exact C40_logical_and_text_fields_total_proof. Qed.
Print Assumptions C40_logical_and_text_fields_total.

Example C40_logical_ex : conv 76 0 (lit "y") = Ok (VStr (lit "T")) /\ conv 76 0 (lit " ") = Ok (VStr (lit "?")) /\
  conv 67 0 (lit "ab ") = Ok (VStr (lit "ab ")) /\ conv 67 0 [200%N] = Err UnicodeError.
Proof. vm_compute. auto. Qed.

