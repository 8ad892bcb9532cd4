(** * Sheets read when they are asked for: the property theorems *)

From Coq Require Import ZifyBool ZifyNat ZifyN QArith.
From Verif Require Import PyBase PyText PyFloat NumPy Dbf ReadXl CompDoc XlSheet Biff SpecFmtDate SpecXlSheet SpecDoc SpecBiff SpecAccess XlDemand SpecDemand PyBaseFacts BiffProofs BiffThms AccessProofs DemandProofs DemandThms.
Open Scope nat_scope.
Open Scope Z_scope.
(** Two sheets with a cell each; the countries are told once for the book. *)
Definition ex_two : str := [9; 8; 8; 0; 0; 6; 5; 0; 187; 13; 204; 7; 133; 0; 9; 0; 50; 0; 0; 0; 0; 0; 1; 0; 97; 133; 0; 9; 0; 78; 0; 0; 0; 0; 0; 1; 0; 98; 140; 0; 4; 0; 1; 0; 1; 0; 10; 0; 0; 0;
  9; 8; 8; 0; 0; 6; 16; 0; 187; 13; 204; 7; 5; 2; 8; 0; 0; 0; 0; 0; 0; 0; 1; 0; 10; 0; 0; 0;
  9; 8; 8; 0; 0; 6; 16; 0; 187; 13; 204; 7; 5; 2; 8; 0; 0; 0; 0; 0; 0; 0; 0; 0; 10; 0; 0; 0]%N.
(** Two empty sheets, the first with countries 0, 0 and the second with 1, 1. *)
Definition ex_order : str := [9; 8; 8; 0; 0; 6; 5; 0; 187; 13; 204; 7; 133; 0; 9; 0; 42; 0; 0; 0; 0; 0; 1; 0; 97; 133; 0; 9; 0; 66; 0; 0; 0; 0; 0; 1; 0; 98; 10; 0; 0; 0;
  9; 8; 8; 0; 0; 6; 16; 0; 187; 13; 204; 7; 140; 0; 4; 0; 0; 0; 0; 0; 10; 0; 0; 0;
  9; 8; 8; 0; 0; 6; 16; 0; 187; 13; 204; 7; 140; 0; 4; 0; 1; 0; 1; 0; 10; 0; 0; 0]%N.
(** Countries 1, 1 and a record that is too short in the first sheet, countries 2, 2 in the second. *)
Definition ex_fails : str := [9; 8; 8; 0; 0; 6; 5; 0; 187; 13; 204; 7; 133; 0; 9; 0; 42; 0; 0; 0; 0; 0; 1; 0; 97; 133; 0; 9; 0; 72; 0; 0; 0; 0; 0; 1; 0; 98; 10; 0; 0; 0; 9; 8; 8; 0; 0; 6; 16; 0; 187; 13; 204; 7; 140; 0; 4; 0; 1; 0; 1; 0; 3; 2; 2; 0; 0; 0; 10; 0; 0; 0; 9; 8; 8; 0; 0; 6; 16; 0; 187; 13; 204; 7; 140; 0; 4; 0; 2; 0; 2; 0; 10; 0; 0; 0]%N.
Definition ex_a : sheet := mksheet 1 1 [[VInt 1]] [[4]].
Definition ex_b : sheet := mksheet 1 1 [[VInt 0]] [[4]].
(** The book, if the file opens on demand. *)
Definition ex_book_of (file : str) : obook :=
  match open_book file true with Ok a => a | Err _ => mkobook [] new_globals (0, 0) [] true 0 end.
(** What calls on a file opened on demand give. *)
Definition on_demand (file : str) (cs : list call) : list (res answer) :=
  match open_book file true with Ok a => snd (run a cs) | Err e => [Err e] end.

(** Without on_demand the book has the sheets that open_workbook reads, numbered in order, and fails
with the same exception; with on_demand it opens at least as often. *)
Theorem C83_opens :
forall file,
  match open_xls file with
  | Ok wb => (exists a, open_book file true = Ok a) /\
      exists e xs, open_book file false = Ok e /\
        snd (run e [CNames; CCount; CSheets]) = [Ok (ANames (bk_names wb)); Ok (ANum (Z.of_nat (length (bk_names wb)))); Ok (AList (map Some xs))] /\
        map l_sheet xs = bk_sheets wb /\ map l_name xs = bk_names wb /\ map l_number xs = map Z.of_nat (seq 0 (length (bk_names wb)))
  | Err x => open_book file false = Err x
  end.
Proof. exact C83_opens_proof. Qed.
Print Assumptions C83_opens.

Example C83_opens_ex : open_xls ex_two = Ok (mkbook [lit "a"; lit "b"] [ex_a; ex_b] 0) /\
  option_map (fun e => snd (run e [CIter])) (match open_book ex_two false with Ok e => Some e | Err _ => None end) =
    Some [Ok (AIter [mkloaded 0 0 (lit "a") ex_a; mkloaded 1 1 (lit "b") ex_b])].
Proof. split; vm_compute; reflexivity. Qed.

(** If all sheets can be read one after another, and reading them does not change the countries or
these are known before, then whatever calls are made on the book opened on demand, each sheet given
is the one that reading all sheets gives; it is given unless the resources were released before it
was asked for or after it was unloaded. *)
Theorem C83_answers :
forall file wb a e, open_xls file = Ok wb -> open_book file true = Ok a -> open_book file false = Ok e ->
  ob_countries a = ob_countries e \/ ob_countries a <> (0, 0) ->
  forall cs, explained (bk_names wb) (fun k sh => nth_error (bk_sheets wb) k = Some sh) [] cs (snd (run a cs)).
Proof. exact C83_answers_proof. Qed.
Print Assumptions C83_answers.

Example C83_answers_ex :
  on_demand ex_two [CCount; CByName (lit "b"); CLoaded (inl 1); CLoaded (inr (lit "a")); CRelease; CItem (inl 0); CSheets; CItem (inl (-1)); CItem (inl 2); CByName (lit "c")] =
  [Ok (ANum 2); Ok (ASheet (mkloaded 0 1 (lit "b") ex_b)); Ok (ABool true); Ok (ABool false); Ok ANone; Err XLRDError; Err XLRDError;
   Ok (ASheet (mkloaded 0 1 (lit "b") ex_b)); Err IndexError; Err XLRDError] /\
  exists a, open_book ex_two true = Ok a /\ ob_countries a <> (0, 0).
Proof. split; [vm_compute; reflexivity|]. exists (ex_book_of ex_two). split; [vm_compute; reflexivity|]. vm_compute. discriminate. Qed.

(** Without the condition on the countries it may depend on the order of the calls whether a sheet can
be read. *)
Theorem C83_country_refuted :
exists file wb x, open_xls file = Ok wb /\
  (exists a y, open_book file true = Ok a /\ snd (run a [CByIndex 0; CByIndex 1]) = [Ok (ASheet y); Ok (ASheet x)]) /\
  (exists a y, open_book file true = Ok a /\ snd (run a [CByIndex 1; CByIndex 0]) = [Ok (ASheet y); Err AssertionError]).
Proof. exact C83_country_refuted_proof. Qed.
Print Assumptions C83_country_refuted.

Example C83_country_refuted_ex : on_demand ex_order [CByIndex 1; CByIndex 0; CLoaded (inl 0); CLoaded (inl 1)] =
  [Ok (ASheet (mkloaded 0 1 (lit "b") (mksheet 0 0 [] []))); Err AssertionError; Ok (ABool false); Ok (ABool true)].
Proof. vm_compute. reflexivity. Qed.

(** A book opened without on_demand answers as one of which all sheets were asked for and whose
resources were then released. *)
Theorem C83_eager :
forall file wb e, open_xls file = Ok wb -> open_book file false = Ok e ->
  forall cs, explained (bk_names wb) (fun k sh => nth_error (bk_sheets wb) k = Some sh) [CRelease; CSheets] cs (snd (run e cs)).
Proof. exact C83_eager_proof. Qed.
Print Assumptions C83_eager.

Example C83_eager_ex : match open_book ex_two false with
  | Ok e => snd (run e [CLoaded (inl 1); CUnload (inr (lit "a")); CItem (inl 0); CIter; CByIndex (-1)])
  | Err x => [Err x]
  end = [Ok (ABool true); Ok ANone; Err XLRDError; Err XLRDError; Ok (ASheet (mkloaded 1 1 (lit "b") ex_b))].
Proof. vm_compute. reflexivity. Qed.

(** A well-formed stream of records opens on demand, and whatever calls are made the sheets given show
exactly the cells written. *)
Theorem C83_stored :
forall country W c, good_workbook country W -> stored W c ->
  exists a, open_book c true = Ok a /\
    forall date, tells_dates (wb_globals W) date -> forall cs,
      explained (map fst (tabs (wb_globals W)))
        (fun k sh => exists s, nth_error (wb_sheets W) k = Some s /\ shows_cells (SpecBiff.cells_of (wb_globals W) date s) sh)
        [] cs (snd (run a cs)).
Proof. exact C83_stored_proof. Qed.
Print Assumptions C83_stored.

Example C83_stored_ex : on_demand ex_two [CByIndex 1; CByIndex 0; CIter] =
  [Ok (ASheet (mkloaded 0 1 (lit "b") ex_b)); Ok (ASheet (mkloaded 1 0 (lit "a") ex_a));
   Ok (AIter [mkloaded 1 0 (lit "a") ex_a; mkloaded 0 1 (lit "b") ex_b])].
Proof. vm_compute. reflexivity. Qed.

(** Asking again for a sheet gives the same object, as long as it is not unloaded. *)
Theorem C83_same :
forall file od bk before c1 key1 x between c2 key2 k names,
  open_book file od = Ok bk -> snd (respond bk CNames) = Ok (ANames names) ->
  asks c1 key1 -> stands names key1 k -> asks c2 key2 -> stands names key2 k ->
  (forall c, In c between -> ~ drops names c k) ->
  snd (respond (fst (run bk before)) c1) = Ok (ASheet x) ->
  snd (respond (fst (run bk (before ++ c1 :: between))) c2) = Ok (ASheet x).
Proof. exact C83_same_proof. Qed.
Print Assumptions C83_same.

Example C83_same_ex : on_demand ex_two [CItem (inl 1); CUnload (inl 0); CSheets; CRelease; CByName (lit "b")] =
  [Ok (ASheet (mkloaded 0 1 (lit "b") ex_b)); Ok ANone;
   Ok (AList [Some (mkloaded 1 0 (lit "a") ex_a); Some (mkloaded 0 1 (lit "b") ex_b)]); Ok ANone; Ok (ASheet (mkloaded 0 1 (lit "b") ex_b))].
Proof. vm_compute. reflexivity. Qed.

(** Once it has been unloaded, asking for a sheet gives another object, if any. *)
Theorem C83_new :
forall file od bk before c1 key1 x between c2 key2 k names y,
  open_book file od = Ok bk -> snd (respond bk CNames) = Ok (ANames names) ->
  asks c1 key1 -> stands names key1 k -> asks c2 key2 -> stands names key2 k ->
  (exists c, In c between /\ drops names c k) ->
  snd (respond (fst (run bk before)) c1) = Ok (ASheet x) ->
  snd (respond (fst (run bk (before ++ c1 :: between))) c2) = Ok (ASheet y) -> l_id x <> l_id y.
Proof. exact C83_new_proof. Qed.
Print Assumptions C83_new.

Example C83_new_ex : on_demand ex_two [CItem (inl 1); CUnload (inr (lit "b")); CLoaded (inl 1); CItem (inl 1); CItem (inl (-1))] =
  [Ok (ASheet (mkloaded 0 1 (lit "b") ex_b)); Ok ANone; Ok (ABool false);
   Ok (ASheet (mkloaded 1 1 (lit "b") ex_b)); Ok (ASheet (mkloaded 1 1 (lit "b") ex_b))].
Proof. vm_compute. reflexivity. Qed.

(** Whatever is in the file: after release_resources exactly the sheets that were loaded then, and have
not been unloaded since, are given. *)
Theorem C83_released :
forall file od bk before between c key k names,
  open_book file od = Ok bk -> snd (respond bk CNames) = Ok (ANames names) -> asks c key -> stands names key k ->
  let was := snd (respond (fst (run bk before)) (CLoaded key)) in
  let now := snd (respond (fst (run bk (before ++ CRelease :: between))) c) in
  was = Ok (ABool true) /\ (forall d, In d between -> ~ drops names d k) /\ (exists x, now = Ok (ASheet x)) \/
  (was = Ok (ABool false) \/ exists d, In d between /\ drops names d k) /\ now = Err XLRDError.
Proof. exact C83_released_proof. Qed.
Print Assumptions C83_released.

Example C83_released_ex : on_demand ex_two [CItem (inl 0); CRelease; CItem (inl 0); CItem (inl 1); CUnload (inl 0); CItem (inl 0)] =
  [Ok (ASheet (mkloaded 0 0 (lit "a") ex_a)); Ok ANone; Ok (ASheet (mkloaded 0 0 (lit "a") ex_a)); Err XLRDError; Ok ANone; Err XLRDError].
Proof. vm_compute. reflexivity. Qed.

(** A sheet asked for by a negative index keeps that as its number. *)
Theorem C83_number_refuted :
exists file a x, open_book file true = Ok a /\ snd (run a [CByIndex (-1); CByIndex 1]) = [Ok (ASheet x); Ok (ASheet x)] /\ l_number x = -1.
Proof. exact C83_number_refuted_proof. Qed.
Print Assumptions C83_number_refuted.

Example C83_number_refuted_ex : on_demand ex_two [CByIndex (-1); CIter] =
  [Ok (ASheet (mkloaded 0 (-1) (lit "b") ex_b)); Ok (AIter [mkloaded 1 0 (lit "a") ex_a; mkloaded 0 (-1) (lit "b") ex_b])].
Proof. vm_compute. reflexivity. Qed.

(** If no index asked for is negative, the number of a sheet is its place. *)
Theorem C83_numbers :
forall file bk before c key x k names,
  open_book file true = Ok bk -> snd (respond bk CNames) = Ok (ANames names) ->
  (forall d i, In d (before ++ [c]) -> asks d (inl i) -> 0 <= i) -> asks c key -> stands names key k ->
  snd (respond (fst (run bk before)) c) = Ok (ASheet x) -> l_number x = Z.of_nat k.
Proof. exact C83_numbers_proof. Qed.
Print Assumptions C83_numbers.

Example C83_numbers_ex : on_demand ex_two [CByIndex 1; CUnload (inl (-1)); CByName (lit "b")] =
  [Ok (ASheet (mkloaded 0 1 (lit "b") ex_b)); Ok ANone; Ok (ASheet (mkloaded 1 1 (lit "b") ex_b))].
Proof. vm_compute. reflexivity. Qed.

(** A sheet that cannot be read may spoil the reading of another. *)
Theorem C83_failing_refuted :
exists file a x e, open_book file true = Ok a /\ snd (run a [CByIndex 1]) = [Ok (ASheet x)] /\
  snd (run a [CByIndex 0; CByIndex 1]) = [Err e; Err AssertionError].
Proof. exact C83_failing_refuted_proof. Qed.
Print Assumptions C83_failing_refuted.

Example C83_failing_refuted_ex : on_demand ex_fails [CByIndex 0; CLoaded (inl 0); CByIndex 1; CSheets] =
  [Err StructError; Ok (ABool false); Err AssertionError; Err StructError].
Proof. vm_compute. reflexivity. Qed.

(** Whatever the file and the calls, countries that are known never change, whether or not sheets can
be read. *)
Theorem C83_countries :
forall file od bk before cs, open_book file od = Ok bk -> ob_countries (fst (run bk before)) <> (0, 0) ->
  ob_countries (fst (run bk (before ++ cs))) = ob_countries (fst (run bk before)).
Proof. exact C83_countries_proof. Qed.
Print Assumptions C83_countries.

Example C83_countries_ex : match open_book ex_fails true with
  | Ok a => (ob_countries a, map (fun cs => ob_countries (fst (run a cs))) [[CByIndex 0]; [CByIndex 0; CByIndex 1]; [CByIndex 1; CByIndex 0]])
  | Err _ => ((0, 0), [])
  end = ((0, 0), [(1, 1); (1, 1); (2, 2)]).
Proof. vm_compute. reflexivity. Qed.

(** Opening a file that is not a compound document ends (for these see C65), and every call ends. *)
Theorem C83_ends :
forall file od, (firstn 8 file <> [208; 207; 17; 224; 161; 177; 26; 225]%N -> open_book file od <> Err NonTermination) /\
  forall bk, open_book file od = Ok bk -> forall cs, Forall (fun r => r <> Err NonTermination) (snd (run bk cs)).
Proof. exact C83_ends_proof. Qed.
Print Assumptions C83_ends.

Example C83_ends_ex : on_demand (firstn 80 ex_two) [CByIndex 0; CByIndex 1; CSheets] =
  [Ok (ASheet (mkloaded 0 0 (lit "a") ex_a)); Err XLRDError; Err XLRDError].
Proof. vm_compute. reflexivity. Qed.

