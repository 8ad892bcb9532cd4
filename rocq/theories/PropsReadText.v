(** * Reading delimited text: the property theorems *)

From Coq Require Import ZifyBool ZifyNat ZifyN QArith.
From Verif Require Import PyBase PyBaseFacts PyFloat PyText NumPy SpecArray ArrayFacts Pack PackProofs SpecDbf DbfProofs DbfThms ReadText SpecChars CharFacts SpecText TextProofs ReadTextThms.
Open Scope nat_scope.
Open Scope nat_scope.

(** Rows written with a one-character delimiter that is no white space, one line
each, are read back: one channel per column, with the value each field stands
for. *)
Theorem C27_round_trip :
forall (x : N) (row0 : list str) (rows : list (list str)) (name : str) (g : nat -> str -> val),
  let a := mktargs [] (Some [x]) 0 ColsNone false None [] false false in
  ~ white x ->
  Forall (fun r => length r = length row0) rows -> 1 <= length row0 ->
  Forall (fun r => Forall (fun f => ~ In x f /\ ~ In 10%N f /\
                     (forall c, hd_error f = Some c -> ~ white c) /\
                     (forall c, hd_error (rev f) = Some c -> ~ white c)) r) (row0 :: rows) ->
  (length row0 = 1 -> Forall (fun r => r <> [[]]) (row0 :: rows)) ->
  (forall r c, In r (row0 :: rows) -> c < length row0 ->
     cell Text false [] row0 c (nth c r []) (g c (nth c r []))) ->
  exists p,
    textpack (mksource false (concat (map (fun r => join [x] r ++ [10%N]) (row0 :: rows))) 0 name) a = Ok p /\
    channels g (seq 0 (length row0)) (row0 :: rows) (p_data p) /\ p_names p = [] /\ p_fn p = name.
Proof. exact C27_round_trip_proof. Qed.
Print Assumptions C27_round_trip.

(** Two numeric columns, the second with an empty field and decimal commas,
    and a text column. *)
Example C27_round_trip_ex :
  match textpack (mksource false (lit "1;1,5;p" ++ [10%N] ++ lit "2;;q,r" ++ [10%N]) 0 (lit "f"))
          (mktargs [] (Some (lit ";")) 0 ColsNone false None [] false false) with
  | Ok p => p_data p = [(0%Z, mkarr Kf [VFloat (float_of_Z 1); VFloat (float_of_Z 2)]);
                        (1%Z, mkarr Kf [VFloat (S754_finite false 6755399441055744 (-52)); VFloat fnan]);
                        (2%Z, mkarr KU [VStr (lit "p"); VStr (lit "q,r")])]
  | Err _ => False
  end /\
  cell Text false [] [lit "1"; lit "1,5"; lit "p"] 1 [] (VFloat fnan) /\
  cell Text false [] [lit "1"; lit "1,5"; lit "p"] 2 (lit "q,r") (VStr (lit "q,r")).
Proof.
  split; [vm_compute; reflexivity|]. split.
  - apply cell_nan; [reflexivity| |reflexivity]. right. apply comma_iff. split.
    + intros (f & F). vm_compute in F. discriminate.
    + eexists. vm_compute. reflexivity.
  - apply cell_text; try reflexivity.
    intros [(f & F)|(_ & f & F)]; apply reads_iff in F; vm_compute in F; discriminate.
Qed.

(** Tables of integers printed in decimal are read back as the floats nearest to
them. *)
Theorem C27_integers :
forall (x : N) (row0 : list Z) (rows : list (list Z)) (name : str),
  let a := mktargs [] (Some [x]) 0 ColsNone false None [] false false in
  let write := fun r => map str_of_Z r in
  ~ white x -> ~ (48 <= x <= 57)%N -> x <> 45%N ->
  Forall (fun r => length r = length row0) rows -> 1 <= length row0 ->
  exists p,
    textpack (mksource false (concat (map (fun r => join [x] (write r) ++ [10%N]) (row0 :: rows))) 0 name) a = Ok p /\
    holds_columns (p_data p) (map (fun c => (Z.of_nat c, map (fun r => VFloat (float_of_Z (nth c r 0%Z))) (row0 :: rows)))
                                 (seq 0 (length row0))).
Proof. exact C27_integers_proof. Qed.
Print Assumptions C27_integers.

Example C27_integers_ex :
  concat (map (fun r => join (lit ";") (map str_of_Z r) ++ [10%N]) [[1; -20]; [0; 345]]%Z)
  = lit "1;-20" ++ [10%N] ++ lit "0;345" ++ [10%N].
Proof. vm_compute. reflexivity. Qed.

(** Whenever a read succeeds without debug, on any text and with any arguments,
all channels have the same number of elements. *)
Theorem C28_equal_length :
forall src a p, t_debug a = false -> textpack src a = Ok p ->
  exists n, 1 <= n /\ forall k ch, dget k (p_data p) = Some ch -> alen ch = n.
Proof. exact C28_equal_length_proof. Qed.
Print Assumptions C28_equal_length.

(** A ragged text. *)
Example C28_equal_length_ex :
  match textpack (text (lit "1 2 3" ++ [10%N] ++ lit "4 5 6 7" ++ [10%N] ++ lit "8 9")) targs0 with
  | Ok p => map (fun kv => alen (snd kv)) (p_data p) = [3; 3]
  | Err _ => False
  end.
Proof. vm_compute. reflexivity. Qed.

(** Reading with strictly ascending usecols gives, for any text that can be read
without usecols, exactly those channels of the unrestricted read, and their
names. *)
Theorem C29_projection :
forall src a p u, t_names a = [] -> t_usecols a = ColsNone -> t_debug a = false ->
  textpack src a = Ok p -> Sorted Z.lt u -> (forall c, In c u -> In c (dkeys (p_data p))) ->
  exists q, textpack src (with_usecols (ColsSeq u) a) = Ok q /\
    dkeys (p_data q) = u /\ (forall c, In c u -> dget c (p_data q) = dget c (p_data p)) /\
    (forall c, dget c (p_names q) = if existsb (Z.eqb c) u then dget c (p_names p) else None).
Proof. exact C29_projection_proof. Qed.
Print Assumptions C29_projection.

Example C29_projection_ex :
  match textpack (text (lit "1 2 3" ++ [10%N] ++ lit "4 5 6" ++ [10%N])) targs0,
        textpack (text (lit "1 2 3" ++ [10%N] ++ lit "4 5 6" ++ [10%N])) (with_usecols (ColsSeq [0; 2]%Z) targs0) with
  | Ok p, Ok q => dkeys (p_data p) = [0; 1; 2]%Z /\ dkeys (p_data q) = [0; 2]%Z /\
                  dget 2%Z (p_data q) = Some (mkarr Kf [VFloat (float_of_Z 3); VFloat (float_of_Z 6)])
  | _, _ => False
  end.
Proof. vm_compute. auto. Qed.

(** Names given by the caller act as usecols: the data is that of a read with the
sorted keys as usecols and without names, whatever usecols and hasnames say,
and the names of the pack are those given. *)
Theorem C29_names_select :
forall src a b, t_names a <> [] ->
  b = with_names [] (with_hasnames false (with_usecols (ColsSeq (zsort (dkeys (t_names a)))) a)) ->
  match textpack src a, textpack src b with
  | Ok p, Ok q => p_data p = p_data q /\ p_names p = t_names a
  | Err e, Err f => e = f
  | _, _ => False
  end.
Proof. exact C29_names_select_proof. Qed.
Print Assumptions C29_names_select.

Example C29_names_select_ex :
  match textpack (text (lit "1 2 3" ++ [10%N] ++ lit "4 5 6" ++ [10%N]))
          (with_names [(2%Z, VStr (lit "c")); (0%Z, VStr (lit "a"))] targs0) with
  | Ok p => dkeys (p_data p) = [0; 2]%Z
  | _ => False
  end.
Proof. vm_compute. auto. Qed.

(** With usecols not ascending the channels are mislabelled: usecols (1, 0) of two
columns gives channel 1 the data of column 0. *)
Theorem C29_unsorted_refuted :
exists src p q, textpack src targs0 = Ok p /\ textpack src (with_usecols (ColsSeq [1; 0]%Z) targs0) = Ok q /\
  dget 1%Z (p_data p) = Some (mkarr Kf [VFloat (float_of_Z 2)]) /\
  dget 1%Z (p_data q) = Some (mkarr Kf [VFloat (float_of_Z 1)]).
Proof. exact C29_unsorted_refuted_proof. Qed.
Print Assumptions C29_unsorted_refuted.

(** A repeated column loses another: usecols (0, 0, 1) of two columns gives a
single channel, 0, with the data of column 1. *)
Theorem C29_duplicate_refuted :
exists src q, textpack src (with_usecols (ColsSeq [0; 0; 1]%Z) targs0) = Ok q /\
  p_data q = [(0%Z, mkarr Kf [VFloat (float_of_Z 2)])].
Proof. exact C29_duplicate_refuted_proof. Qed.
Print Assumptions C29_duplicate_refuted.

(** A table is read column by column, by the meaning the first line gives each
column: converter, number with decimal point, number with decimal comma, text. *)
Theorem C30_columns :
forall src a m row0 rows k cs g,
  m = reading_mode (src_bytes src) (t_encoding a) ->
  t_names a = [] -> t_hasnames a = false -> t_debug a = false ->
  table_after src (Z.to_nat (t_skiprows a)) m (t_delimiter a) row0 rows ->
  converters_ok (t_converters a) row0 ->
  ascending (asked (t_usecols a)) -> narrowest row0 rows k -> columns_below (asked (t_usecols a)) k cs ->
  (forall r c, In r (row0 :: rows) -> c < length row0 -> c < length r ->
     match asked (t_usecols a) with None => True | Some u => In (Z.of_nat c) u end ->
     cell m (t_stripstrings a) (t_converters a) row0 c (nth c r []) (g c (nth c r []))) ->
  exists p, textpack src a = Ok p /\ channels g cs (row0 :: rows) (p_data p) /\
            p_names p = [] /\ p_fn p = src_name src.
Proof. exact C30_columns_proof. Qed.
Print Assumptions C30_columns.

(** Tab and space separated, decimal commas, a converter for column 2, one
    line to skip and a blank line. *)
Example C30_columns_ex :
  match textpack (text (lit "# head" ++ [10%N] ++ lit " 1,5 2 ab" ++ [10; 32; 10]%N ++ lit "3" ++ [9%N] ++ lit "4,25 q"))
          (mktargs [] None 1 ColsNone false None [(2%Z, fun s => Ok (VInt (Z.of_nat (length s))))] false false) with
  | Ok p => p_data p = [(0%Z, mkarr Kf [VFloat (S754_finite false 6755399441055744 (-52)); VFloat (float_of_Z 3)]);
                        (1%Z, mkarr Kf [VFloat (float_of_Z 2); VFloat (S754_finite false 4785074604081152 (-50))]);
                        (2%Z, mkarr Ki [VInt 2; VInt 1])]
  | Err _ => False
  end /\
  table Text None [lit "1,5"; lit "2"; lit "ab"] [[lit "3"; lit "4,25"; lit "q"]]
    (lit " 1,5 2 ab" ++ [10; 32; 10]%N ++ lit "3" ++ [9%N] ++ lit "4,25 q").
Proof.
  split; [vm_compute; reflexivity|]. split; [exact I|].
  assert (SP : forall c : N, white c -> space Text c) by (intros; left; assumption).
  assert (NS : forall c : N, (33 <= c < 127)%N -> ~ space Text c) by (intros c C S; apply space_ws in S; cbn [ws_of] in S; rewrite ws_text_ascii in S by lia; lia).
  assert (F : forall s : str, forallb (fun c => (33 <=? c)%N && (c <? 127)%N) s = true -> Forall (fun c => ~ space Text c) s).
  { intros s S. apply Forall_forall. intros c C. rewrite forallb_forall in S. apply S in C. apply NS. lia. }
  exists (lit " 1,5 2 ab"), (lit " " ++ 10%N :: lit "3" ++ [9%N] ++ lit "4,25 q"). split.
  - split; [cbn; lia|]. split; [discriminate|].
    apply (@sp_field (space Text) (lit " ") (lit "1,5") _ (lit " 2 ab")); [constructor; [apply SP; left; reflexivity|constructor]|discriminate|apply F; reflexivity| |intros c C; injection C as <-; apply SP; left; reflexivity].
    apply (@sp_field (space Text) (lit " ") (lit "2") _ (lit " ab")); [constructor; [apply SP; left; reflexivity|constructor]|discriminate|apply F; reflexivity| |intros c C; injection C as <-; apply SP; left; reflexivity].
    apply (@sp_field (space Text) (lit " ") (lit "ab") _ []); [constructor; [apply SP; left; reflexivity|constructor]|discriminate|apply F; reflexivity|constructor; constructor|discriminate].
  - right. split; [reflexivity|]. apply (@lay_blank Text None (lit " ")); [|cbn; lia|].
    + constructor; [|constructor]. split; [left; reflexivity|]. vm_compute. discriminate.
    + apply lay_row_end. split; [vm_compute; intros X; repeat destruct X as [X|X]; discriminate || contradiction|]. split; [discriminate|].
      apply (@sp_field (space Text) [] (lit "3") _ (9%N :: lit "4,25 q")); [constructor|discriminate|apply F; reflexivity| |intros c C; injection C as <-; apply SP; right; lia].
      apply (@sp_field (space Text) [9%N] (lit "4,25") _ (lit " q")); [constructor; [apply SP; right; lia|constructor]|discriminate|apply F; reflexivity| |intros c C; injection C as <-; apply SP; left; reflexivity].
      apply (@sp_field (space Text) (lit " ") (lit "q") _ []); [constructor; [apply SP; left; reflexivity|constructor]|discriminate|apply F; reflexivity|constructor; constructor|discriminate].
Qed.

(** A stream of bytes read with a codec (here every byte b stands for the
    character b + 1000) gives decoded texts; read without, bytes. *)
Example C30_columns_coded_ex :
  let co := fun s : str => Ok (map (fun b => (b + 1000)%N) s) in
  let src := mksource true (lit "1;ab" ++ [10%N] ++ lit "2;c" ++ [10%N]) 0 (lit "f") in
  match textpack src (mktargs [] (Some (lit ";")) 0 ColsNone false (Some (mkcodec co co)) [] false false) with
  | Ok p => p_data p = [(0%Z, mkarr Kf [VFloat (float_of_Z 1); VFloat (float_of_Z 2)]);
                        (1%Z, mkarr KU [VStr [1097; 1098]%N; VStr [1099]%N])]
  | Err _ => False
  end /\
  match textpack src (mktargs [] (Some (lit ";")) 0 ColsNone false None [] false false) with
  | Ok p => dget 1%Z (p_data p) = Some (mkarr KS [VBytes (lit "ab"); VBytes (lit "c")])
  | Err _ => False
  end.
Proof. split; vm_compute; reflexivity. Qed.

(** The read fails if some field of a column that is read has no meaning there. *)
Theorem C30_fails :
forall src a m row0 rows r c,
  m = reading_mode (src_bytes src) (t_encoding a) ->
  t_names a = [] -> t_hasnames a = false ->
  table_after src (Z.to_nat (t_skiprows a)) m (t_delimiter a) row0 rows ->
  converters_ok (t_converters a) row0 ->
  In r (row0 :: rows) -> c < length row0 -> c < length r ->
  match asked (t_usecols a) with None => True | Some u => In (Z.of_nat c) u end ->
  (forall v, ~ cell m (t_stripstrings a) (t_converters a) row0 c (nth c r []) v) ->
  exists e, textpack src a = Err e.
Proof. exact C30_fails_proof. Qed.
Print Assumptions C30_fails.

(** A word in a column of numbers, and a decimal comma in a column of numbers
    with points. *)
Example C30_fails_ex :
  textpack (text (lit "1 2" ++ [10%N] ++ lit "3 x")) targs0 = Err ValueError /\
  textpack (text (lit "1 2" ++ [10%N] ++ lit "3 4,5")) targs0 = Err ValueError /\
  (forall v, ~ cell Text false [] [lit "1"; lit "2"] 1 (lit "x") v).
Proof.
  split; [vm_compute; reflexivity|]. split; [vm_compute; reflexivity|].
  assert (P : number Text (lit "2")) by (left; apply plain_iff; eexists; vm_compute; reflexivity).
  intros v C. destruct C; try discriminate; try (apply H0; exact P).
  all: match goal with X : reads _ _ _ |- _ => apply reads_iff in X; vm_compute in X; discriminate end.
Qed.

(** Reading text, or bytes without an encoding, without converters fails with
ValueError or not at all. *)
Theorem C30_value_error :
forall src a e, src_bytes src = false \/ t_encoding a = None -> t_converters a = [] -> t_debug a = false ->
  textpack src a = Err e -> e = ValueError.
Proof. exact C30_value_error_proof. Qed.
Print Assumptions C30_value_error.

Example C30_value_error_ex :
  textpack (text (lit "1 2" ++ [10%N] ++ lit "3 x")) targs0 = Err ValueError /\
  textpack (text (lit "1 2" ++ [10%N] ++ lit "3 x")) (with_debug true targs0) = Err ValueError /\
  textpack (text (lit "1 2")) (mktargs [] (Some []) 0 ColsNone false None [] false false) = Err ValueError.
Proof. vm_compute. auto. Qed.

(** A converter for a column that the first line does not have fails the read with
IndexError. *)
Theorem C30_converter_index :
forall src a m row0 rows k,
  m = reading_mode (src_bytes src) (t_encoding a) ->
  t_names a = [] -> t_hasnames a = false ->
  table_after src (Z.to_nat (t_skiprows a)) m (t_delimiter a) row0 rows ->
  In k (dkeys (t_converters a)) -> (Z.of_nat (length row0) <= k \/ k < - Z.of_nat (length row0))%Z ->
  textpack src a = Err IndexError.
Proof. exact C30_converter_index_proof. Qed.
Print Assumptions C30_converter_index.

Example C30_converter_index_ex :
  textpack (text (lit "1 2")) (mktargs [] None 0 ColsNone false None [(2%Z, fun s => Ok (VStr s))] false false)
  = Err IndexError.
Proof. vm_compute. reflexivity. Qed.

(** Without usecols the channels are 0 to k - 1, where k is the smallest number of
fields of a data line, each with one element per data line. *)
Theorem C31_narrowest :
forall src a m row0 rows k p,
  m = reading_mode (src_bytes src) (t_encoding a) ->
  t_names a = [] -> t_hasnames a = false -> t_debug a = false -> t_usecols a = ColsNone ->
  table_after src (Z.to_nat (t_skiprows a)) m (t_delimiter a) row0 rows ->
  narrowest row0 rows k -> textpack src a = Ok p ->
  dkeys (p_data p) = map Z.of_nat (seq 0 k) /\
  forall c ch, dget c (p_data p) = Some ch -> alen ch = S (length rows).
Proof. exact C31_narrowest_proof. Qed.
Print Assumptions C31_narrowest.

Example C31_narrowest_ex :
  narrowest [lit "1"; lit "2"; lit "3"] [[lit "4"; lit "5"]; [lit "6"; lit "7"; lit "8"; lit "9"]] 2 /\
  match textpack (text (lit "1 2 3" ++ [10%N] ++ lit "4 5" ++ [10%N] ++ lit "6 7 8 9")) targs0 with
  | Ok p => dkeys (p_data p) = [0; 1]%Z
  | _ => False
  end.
Proof.
  split; [|vm_compute; reflexivity]. split.
  - eexists. split; [right; left; reflexivity|reflexivity].
  - intros r [<-|[<-|[<-|[]]]]; cbn; lia.
Qed.

(** Blank lines after the first data line make no difference, for any text and any
arguments: t1 are the lines up to the first data line at least. *)
Theorem C31_blank_lines :
forall bytes t1 w t2 name a n,
  whole_lines n t1 -> (Z.max (if t_hasnames a then 1 else 0) (t_skiprows a) < Z.of_nat n)%Z ->
  match t_delimiter a with Some d => ~ In 10%N d | None => True end ->
  Forall (pad (t_delimiter a)) w -> ~ In 10%N w ->
  textpack (mksource bytes (t1 ++ w ++ 10%N :: t2) 0 name) a = textpack (mksource bytes (t1 ++ t2) 0 name) a.
Proof. exact C31_blank_lines_proof. Qed.
Print Assumptions C31_blank_lines.

Example C31_blank_lines_ex :
  whole_lines 3 (lit "a b" ++ 10%N :: lit "1 2" ++ 10%N :: lit "3 4" ++ 10%N :: []) /\
  match textpack (text (lit "a b" ++ 10%N :: lit "1 2" ++ 10%N :: lit "3 4" ++ 10%N :: lit "  " ++ 10%N :: lit "5 6"))
          (with_skiprows 1 targs0) with
  | Ok p => map (fun kv => alen (snd kv)) (p_data p) = [3; 3]
  | Err _ => False
  end.
Proof.
  split; [|vm_compute; reflexivity].
  repeat (apply wl_more; [vm_compute; intros X; repeat destruct X as [X|X]; discriminate || contradiction|]).
  constructor.
Qed.

(** Without a delimiter a line of only a TAB is not blank to the reader: it gives
an empty record, and the whole read has no channels. *)
Theorem C31_tab_line_refuted :
exists s1 s2 p q, textpack (text (s1 ++ s2)) targs0 = Ok p /\
  textpack (text (s1 ++ [9; 10]%N ++ s2)) targs0 = Ok q /\
  length (p_data p) = 2 /\ p_data q = [].
Proof. exact C31_tab_line_refuted_proof. Qed.
Print Assumptions C31_tab_line_refuted.

(** With hasnames the data is the same as without, for any text and arguments with
skiprows at least 1. *)
Theorem C32_same_data :
forall src a p, t_hasnames a = true -> (1 <= t_skiprows a)%Z -> textpack src a = Ok p ->
  exists q, textpack src (with_hasnames false a) = Ok q /\ p_data q = p_data p /\ p_fn q = p_fn p.
Proof. exact C32_same_data_proof. Qed.
Print Assumptions C32_same_data.

Example C32_same_data_ex :
  match textpack (text (lit "a b" ++ [10%N] ++ lit "1 2")) (mktargs [] None 1 ColsNone true None [] false false),
        textpack (text (lit "a b" ++ [10%N] ++ lit "1 2")) (mktargs [] None 1 ColsNone false None [] false false) with
  | Ok p, Ok q => p_data p = p_data q /\ length (p_data p) = 2 /\
                  p_names p = [(0%Z, VStr (lit "a")); (1%Z, VStr (lit "b"))] /\ p_names q = []
  | _, _ => False
  end.
Proof. vm_compute. auto. Qed.

(** The last line skipped is the names line: its fields, without white space
around, are the names of the columns that are read. *)
Theorem C32_names :
forall src a m h l s nrow row0 rows k cs ncs g nm,
  m = reading_mode (src_bytes src) (t_encoding a) ->
  t_names a = [] -> t_hasnames a = true -> t_debug a = false ->
  ahead src = h ++ l ++ 10%N :: s -> whole_lines (Z.to_nat (t_skiprows a - 1)) h ->
  row_line m (t_delimiter a) nrow l -> table m (t_delimiter a) row0 rows s ->
  converters_ok (t_converters a) row0 ->
  ascending (asked (t_usecols a)) -> narrowest row0 rows k -> columns_below (asked (t_usecols a)) k cs ->
  (forall r c, In r (row0 :: rows) -> c < length row0 -> c < length r ->
     match asked (t_usecols a) with None => True | Some u => In (Z.of_nat c) u end ->
     cell m (t_stripstrings a) (t_converters a) row0 c (nth c r []) (g c (nth c r []))) ->
  columns_below (asked (t_usecols a)) (Nat.min (length row0) (length nrow)) ncs ->
  (forall c, In c ncs -> name_cell m (nth c nrow []) (nm c)) ->
  exists p, textpack src a = Ok p /\ channels g cs (row0 :: rows) (p_data p) /\
            p_names p = map (fun c => (Z.of_nat c, nm c)) ncs.
Proof. exact C32_names_proof. Qed.
Print Assumptions C32_names.

(** More names than columns, and one column not read. *)
Example C32_names_ex :
  match textpack (text (lit "head" ++ [10%N] ++ lit " a ; b;c;d" ++ [10%N] ++ lit "1;2;3"))
          (mktargs [] (Some (lit ";")) 2 (ColsSeq [0; 2]%Z) true None [] false false) with
  | Ok p => dkeys (p_data p) = [0; 2]%Z /\ p_names p = [(0%Z, VStr (lit "a")); (2%Z, VStr (lit "c"))]
  | _ => False
  end /\ name_cell Text (lit " a ") (VStr (lit "a")).
Proof.
  split; [vm_compute; auto|]. apply name_text; [reflexivity|]. exists (lit " "), (lit " ").
  split; [reflexivity|]. split; [constructor; [left; left; reflexivity|constructor]|].
  split; [constructor; [left; left; reflexivity|constructor]|].
  split; intros c C S; injection C as <-; apply space_ws in S; discriminate S.
Qed.

(** With hasnames, skiprows 0 or less acts like skiprows 1. *)
Theorem C32_skiprows :
forall src a n, t_names a = [] -> t_hasnames a = true -> (n <= 0)%Z ->
  textpack src (with_skiprows n a) = textpack src (with_skiprows 1 a).
Proof. exact C32_skiprows_proof. Qed.
Print Assumptions C32_skiprows.

Example C32_skiprows_ex :
  match textpack (text (lit "a b" ++ [10%N] ++ lit "1 2")) (mktargs [] None 0 ColsNone true None [] false false) with
  | Ok p => p_names p = [(0%Z, VStr (lit "a")); (1%Z, VStr (lit "b"))]
  | _ => False
  end.
Proof. vm_compute. reflexivity. Qed.

(** If no data line has fewer fields than the first, debug changes neither the
result nor whether the read fails. *)
Theorem C33_debug :
forall src a m row0 rows,
  m = reading_mode (src_bytes src) (t_encoding a) ->
  t_names a = [] -> t_hasnames a = false ->
  table_after src (Z.to_nat (t_skiprows a)) m (t_delimiter a) row0 rows ->
  ascending (asked (t_usecols a)) ->
  Forall (fun r => length row0 <= length r) rows ->
  (forall p, textpack src (with_debug false a) = Ok p -> textpack src (with_debug true a) = Ok p) /\
  (forall e, textpack src (with_debug false a) = Err e -> exists e', textpack src (with_debug true a) = Err e').
Proof. exact C33_debug_proof. Qed.
Print Assumptions C33_debug.

(** A longer line. *)
Example C33_debug_ex :
  textpack (text (lit "1 a" ++ [10%N] ++ lit "2 b 3")) (with_debug true targs0) =
  textpack (text (lit "1 a" ++ [10%N] ++ lit "2 b 3")) targs0 /\
  match textpack (text (lit "1 a" ++ [10%N] ++ lit "2 b 3")) targs0 with
  | Ok p => p_data p = [(0%Z, mkarr Kf [VFloat (float_of_Z 1); VFloat (float_of_Z 2)]);
                        (1%Z, mkarr KU [VStr (lit "a"); VStr (lit "b")])]
  | Err _ => False
  end.
Proof. vm_compute. auto. Qed.

(** With debug a short line makes channels of unequal length where the plain read
drops the channel. *)
Theorem C33_ragged_refuted :
exists src p q, textpack src (with_debug false targs0) = Ok p /\ textpack src (with_debug true targs0) = Ok q /\
  map (fun kv => alen (snd kv)) (p_data p) = [2] /\ map (fun kv => alen (snd kv)) (p_data q) = [2; 1].
Proof. exact C33_ragged_refuted_proof. Qed.
Print Assumptions C33_ragged_refuted.

(** If the first data line itself cannot be converted, debug raises KeyError
instead of the conversion error. *)
Theorem C33_first_line_refuted :
exists src a, textpack src (with_debug false a) = Err ValueError /\ textpack src (with_debug true a) = Err KeyError.
Proof. exact C33_first_line_refuted_proof. Qed.
Print Assumptions C33_first_line_refuted.

