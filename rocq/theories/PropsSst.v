(** * Strings in workbook records (C54): the property theorems *)

From Coq Require Import ZifyBool ZifyNat ZifyN QArith.
From Verif Require Import PyBase PyFloat PyBaseFacts Dbf SpecDbf DbfProofs XlStruct CompDoc SpecCompDoc CompDocProofs Sst SpecSst SstProofs SstThms.
Open Scope nat_scope.
Open Scope Z_scope.
Open Scope string_scope.
Open Scope list_scope.

(** A rich string of five characters, cut after two, the rest in two bytes a
    unit; then one with cut phonetic data; then an empty one. *)
Definition lo1 : layout :=
  mklayout 8 (false, lit "ab") [(1%N, (true, [8364; 128512]%N)); (0%N, (false, lit "c"))]
    (Some [(true, (0, 5)); (false, (3, 6))]) None.
Definition lo2 : layout := mklayout 5 (true, [12354]%N) [] None (Some (lit "xy", Some (lit "z"))).
Definition lo3 : layout := mklayout 0 (false, []) [] None None.
Definition lo4 : layout := mklayout 13 (true, [12354; 97]%N) [] (Some [(false, (1, 2))]) (Some (lit "xy", None)).

(** A shared string table holding any number of strings, each in one or two bytes a
character, with or without formatting runs and phonetic data, split over any
number of records at any of the places where a split is allowed, is read back
as these strings and runs. *)
Theorem C54_table :
forall pre l, length pre = 8%nat -> good_table l ->
  unpack_SST_table (records (Bytes pre :: table_tokens l)) (Z.of_nat (length l)) = Ok (texts l, rich 0 l).
Proof. exact C54_table_proof. Qed.
Print Assumptions C54_table.

Example C54_table_ex :
  good_table [(lo1, true); (lo2, false); (lo3, true); (lo3, false)] /\
  records (Bytes (repeat 0%N 8) :: table_tokens [(lo1, true); (lo2, false); (lo3, true); (lo3, false)])
  = [[0; 0; 0; 0; 0; 0; 0; 0; 6; 0; 8; 2; 0; 97; 98]%N; [1; 172; 32; 61; 216; 0; 222]%N; [0; 99]%N; [0; 0; 5; 0; 3; 0; 6; 0]%N;
     [1; 0; 5; 3; 0; 0; 0; 66; 48; 120; 121]%N; [122; 0; 0; 0]%N; [0; 0; 0]%N] /\
  texts [(lo1, true); (lo2, false); (lo3, true); (lo3, false)] = [[97; 98; 8364; 128512; 99]%N; [12354]%N; []; []] /\
  rich 0 [(lo1, true); (lo2, false); (lo3, true); (lo3, false)] = [(0, [(0, 5); (3, 6)])].
Proof.
  split; [|split; [reflexivity|split; reflexivity]].
  cbn [good_table]. unfold good_layout, good_stretch, scalar, total_units, units, run_list, phonetic_size.
  cbn. repeat (apply Forall_cons || apply Forall_nil || split); cbn; intros; try discriminate; try congruence; try lia; auto.
Qed.

(** Where the records are cut has no influence on the result. *)
Theorem C54_cuts :
forall pre pre' l l', length pre = 8%nat -> length pre' = 8%nat -> good_table l -> good_table l' ->
  map (fun x => (text (fst x), runs_of (fst x))) l = map (fun x => (text (fst x), runs_of (fst x))) l' ->
  unpack_SST_table (records (Bytes pre :: table_tokens l)) (Z.of_nat (length l))
  = unpack_SST_table (records (Bytes pre' :: table_tokens l')) (Z.of_nat (length l')).
Proof. exact C54_cuts_proof. Qed.
Print Assumptions C54_cuts.

Example C54_cuts_ex :
  map (fun x : layout * bool => (text (fst x), runs_of (fst x))) [(lo2, false); (lo3, true); (lo3, false)]
  = map (fun x : layout * bool => (text (fst x), runs_of (fst x)))
      [(mklayout 1 (true, []) [(1%N, (true, [12354]%N))] None None, true); (mklayout 12 (false, []) [] (Some []) (Some ([], None)), false); (lo3, false)].
Proof. reflexivity. Qed.

(** A string in one piece, anywhere in a record and with a count of one or two
bytes, is read back by both readers, runs and phonetic data notwithstanding;
the one that tells the new position tells where the string ends. *)
Theorem C54_unicode :
forall n pre lo post, (n = 1 \/ n = 2)%nat -> good_layout lo -> uncut lo -> total_units lo < 256 ^ Z.of_nat n ->
  unpack_unicode (pre ++ string_bytes n lo ++ post) (Z.of_nat (length pre)) (Z.of_nat n) = Ok (text lo) /\
  unpack_unicode_update_pos (pre ++ string_bytes n lo ++ post) (Z.of_nat (length pre)) (Z.of_nat n)
  = Ok (text lo, Z.of_nat (length pre) + Z.of_nat (length (string_bytes n lo))).
Proof. exact C54_unicode_proof. Qed.
Print Assumptions C54_unicode.

Example C54_unicode_ex :
  good_layout lo4 /\ uncut lo4 /\ text lo4 = [12354; 97]%N /\
  string_bytes 1 lo4 = [2; 13; 1; 0; 2; 0; 0; 0; 66; 48; 97; 0; 1; 0; 2; 0; 120; 121]%N.
Proof.
  split; [|split; [|split; reflexivity]].
  - unfold good_layout, good_stretch, scalar, total_units, units, run_list, phonetic_size. cbn.
    repeat (apply Forall_cons || apply Forall_nil || split); cbn; intros; try discriminate; try congruence; try lia; auto.
  - unfold uncut, run_list. cbn. repeat split; repeat constructor.
Qed.

(** A zero count with nothing after it is the empty string. *)
Theorem C54_unicode_empty :
forall n pre, (n = 1 \/ n = 2)%nat ->
  unpack_unicode (pre ++ le_bytes n 0) (Z.of_nat (length pre)) (Z.of_nat n) = Ok [] /\
  unpack_unicode_update_pos (pre ++ le_bytes n 0) (Z.of_nat (length pre)) (Z.of_nat n)
  = Ok ([], Z.of_nat (length pre) + Z.of_nat n).
Proof. exact C54_unicode_empty_proof. Qed.
Print Assumptions C54_unicode_empty.

Example C54_unicode_empty_ex : unpack_unicode_update_pos [7; 0; 0]%N 1 2 = Ok ([], 3).
Proof. reflexivity. Qed.

(** The guard that a cut does not separate the two units of a character beyond
65535 is needed: the same units, cut between them, make the reader fail. *)
Theorem C54_surrogates_refuted :
exists a b c : str, unpack_SST_table [a ++ b ++ c] 1 = Ok ([[128512]%N], []) /\
  unpack_SST_table [a ++ b; 1%N :: c] 1 = Err UnicodeError.
Proof. exact C54_surrogates_refuted_proof. Qed.
Print Assumptions C54_surrogates_refuted.

(** The guard that there is no cut right after phonetic data that were cut is
needed: the string after it is then read from the wrong place. *)
Theorem C54_phonetic_refuted :
exists a b c : str, unpack_SST_table [a; b ++ c] 2 = Ok ([lit "a"; lit "b"], []) /\
  unpack_SST_table [a; b; c] 2 = Err StructError.
Proof. exact C54_phonetic_refuted_proof. Qed.
Print Assumptions C54_phonetic_refuted.

