(** * The count of the records of a file: the property theorems *)

From Coq Require Import ZifyBool ZifyNat ZifyN QArith.
From Verif Require Import PyBase PropsDoc PyText PyFloat NumPy Dbf CompDoc Biff XlCount SpecRepr SpecCompDoc SpecDoc SpecCount PyBaseFacts ReprProofs CompDocProofs DocProofs DocThms BiffThms CountProofs CountThms.
Open Scope nat_scope.
Open Scope Z_scope.
(** BOF, two unknown records, a dummy and EOF, then zeros. *)
Definition ex_stream : str := [9; 8; 2; 0; 0; 6; 171; 15; 0; 0; 171; 15; 1; 0; 7; 0; 0; 0; 0; 10; 0; 0; 0]%N.

(** A part of the memory is taken as records one after another, each of which counts under its name;
what is printed is a line for each name that occurs, in the order of the names, with how often it
does. *)
Theorem C81_counts :
forall mem off len, 0 <= off -> 0 <= len -> off + len <= Z.of_nat (length mem) ->
  Forall (fun x => (x < 256)%N) (firstn (Z.to_nat len) (skipn (Z.to_nat off) mem)) ->
  exists recs names out text,
    stream_holds (skipn (Z.to_nat (off + len)) mem) (firstn (Z.to_nat len) (skipn (Z.to_nat off) mem)) recs /\
    Forall2 named recs names /\ summary names out /\ printed out text /\ biff_count_records mem off len = Ok text.
Proof. exact C81_counts_proof. Qed.
Print Assumptions C81_counts.

Example C81_counts_ex : biff_count_records ([1; 2]%N ++ ex_stream ++ repeat 0%N 9) 2 32 =
  Ok (lit "       1 <Dummy (zero)>" ++ [10%N] ++ lit "       1 BOF" ++ [10%N] ++ lit "       1 EOF" ++ [10%N] ++
      lit "       2 Unknown_0x0FAB" ++ [10%N]).
Proof. reflexivity. Qed.

(** The records, their names and the counts are told by the bytes. *)
Theorem C81_one :
(forall rest s recs recs', stream_holds rest s recs -> stream_holds rest s recs' -> recs = recs') /\
(forall r n n', named r n -> named r n' -> n = n') /\
(forall names out out', summary names out -> summary names out' -> out = out').
Proof. exact C81_one_proof. Qed.
Print Assumptions C81_one.

Example C81_one_ex : named (0x209, 16) (lit "BOF") /\ named (0x809, 16) (lit "BOF") /\ named (0, 0) (lit "<Dummy (zero)>") /\
  named (0, 4) (lit "DIMENSIONS_B2") /\ named (0xfab, 0) (lit "Unknown_0x0FAB").
Proof.
  split; [apply (recname_named 0x209 16); lia|]. split; [apply (recname_named 0x809 16); lia|].
  split; [apply (recname_named 0 0); lia|]. split; [apply (recname_named 0 4); lia|]. apply (recname_named 0xfab 0). lia.
Qed.

(** Records written one after another are taken as just these, whatever is in them, with up to three
bytes after them, or with zeros up to the end of the memory if the last is no zero record. *)
Theorem C81_written :
forall rest recs bytes tail, Forall2 written recs bytes ->
  (forall l r, recs = l ++ [r] -> fst r <> 0 \/ snd r <> []) ->
  ((length tail < 4)%nat \/ Forall (fun x => x = 0%N) tail /\ rest = []) ->
  stream_holds rest (concat bytes ++ tail) (map (fun r => (fst r, Z.of_nat (length (snd r)))) recs).
Proof. exact C81_written_proof. Qed.
Print Assumptions C81_written.

Example C81_written_ex :
  stream_holds [] (ex_stream ++ repeat 0%N 9) [(0x809, 2); (0xfab, 0); (0xfab, 1); (0, 0); (10, 0)].
Proof.
  apply (C81_written [] [(0x809, [0; 6]%N); (0xfab, []); (0xfab, [7%N]); (0, []); (10, [])]
    [[9; 8; 2; 0; 0; 6]; [171; 15; 0; 0]; [171; 15; 1; 0; 7]; [0; 0; 0; 0]; [10; 0; 0; 0]]%N (repeat 0%N 9)).
  - constructor; [exists 9%N, 8%N, 2%N, 0%N; auto|]. constructor; [exists 171%N, 15%N, 0%N, 0%N; auto|].
    constructor; [exists 171%N, 15%N, 1%N, 0%N; auto|]. constructor; [exists 0%N, 0%N, 0%N, 0%N; auto|].
    constructor; [exists 10%N, 0%N, 0%N, 0%N; auto|constructor].
  - intros l r E. apply (f_equal (@rev _)) in E. rewrite rev_app_distr in E. cbn in E. injection E as <- _. left. discriminate.
  - right. split; [cbn; repeat (constructor; [reflexivity|]); constructor|reflexivity].
Qed.

(** Zeros at the end of the stream are counted as records when the memory goes on after the stream, as
it does when the stream is found in one piece in a file. *)
Theorem C81_padding_refuted :
exists mem off len, 0 <= off /\ off + len <= Z.of_nat (length mem) /\ skipn (Z.to_nat (off + 4)) (firstn (Z.to_nat (off + len)) mem) = repeat 0%N 8 /\
  biff_count_records (firstn (Z.to_nat (off + len)) mem) off len = Ok (lit "       1 EOF" ++ [10%N]) /\
  biff_count_records mem off len = Ok (lit "       2 <Dummy (zero)>" ++ [10%N] ++ lit "       1 EOF" ++ [10%N]).
Proof. exact C81_padding_refuted_proof. Qed.
Print Assumptions C81_padding_refuted.

(** Counting ends, with the text or, where the memory ends before the stream does, possibly with
struct.error. *)
Theorem C81_ends :
forall mem off len, (exists t, biff_count_records mem off len = Ok t) \/ biff_count_records mem off len = Err StructError.
Proof. exact C81_ends_proof. Qed.
Print Assumptions C81_ends.

Example C81_ends_ex : biff_count_records ex_stream 0 30 = Err StructError /\
  (exists t, biff_count_records ex_stream 0 26 = Ok t) /\ exists t, biff_count_records ex_stream 5 2 = Ok t.
Proof. split; [reflexivity|]. split; eexists; reflexivity. Qed.

(** count_records counts the records of the whole file if it does not begin as a compound document;
an empty file is refused. *)
Theorem C81_file :
count_records [] = Err XLRDError /\
forall file, file <> [] -> firstn 8 file <> [208; 207; 17; 224; 161; 177; 26; 225]%N -> Forall (fun x => (x < 256)%N) file ->
  exists recs names out text, stream_holds [] file recs /\ Forall2 named recs names /\ summary names out /\ printed out text /\
    count_records file = Ok text.
Proof. exact C81_file_proof. Qed.
Print Assumptions C81_file.

Example C81_file_ex : count_records (ex_stream ++ repeat 0%N 9) =
  Ok (lit "       1 <Dummy (zero)>" ++ [10%N] ++ lit "       1 BOF" ++ [10%N] ++ lit "       1 EOF" ++ [10%N] ++
      lit "       2 Unknown_0x0FAB" ++ [10%N]).
Proof. reflexivity. Qed.

(** Of a compound document the records of the stream Workbook are counted or, without it, those of the
stream Book. *)
Theorem C81_document :
forall D t name d l c, good_document D -> dir_tree D t -> distinct_names (o_entries D) t ->
  Forall (fun n => no_kelvin (dn_name n)) (o_entries D) ->
  (name = lit "Workbook" \/ name = lit "Book" /\ SpecDoc.missing (o_entries D) t [lit "Workbook"]) ->
  leads_to (o_entries D) t [name] d -> stream D d l c -> d <= 249 -> NoDup (system D ++ l) -> c <> [] ->
  Forall (fun x => (x < 256)%N) c ->
  exists rest recs names out text, stream_holds rest c recs /\ Forall2 named recs names /\ summary names out /\ printed out text /\
    count_records (doc_file D) = Ok text.
Proof. exact C81_document_proof. Qed.
Print Assumptions C81_document.

Example C81_document_ex :
  let D := PropsDoc.ex_doc in let t := Node 2 (Node 1 Nil Nil Nil) Nil (Node 3 Nil Nil Nil) in
  good_document D /\ dir_tree D t /\ distinct_names (o_entries D) t /\ Forall (fun n => no_kelvin (dn_name n)) (o_entries D) /\
  SpecDoc.missing (o_entries D) t [lit "Workbook"] /\ leads_to (o_entries D) t [lit "Book"] 1 /\
  stream D 1 [8; 7] (map N.of_nat (seq 0 140)) /\ NoDup (system D ++ [8; 7]) /\
  count_records (doc_file D) = Ok (lit "       1 Unknown_0x0100" ++ [10%N]).
Proof.
  cbv zeta. pose proof PropsDoc.C56_opens_ex as G. pose proof PropsDoc.ex_tree as T. pose proof PropsDoc.ex_distinct as DN.
  pose proof PropsDoc.ex_kelvin as K. pose proof PropsDoc.ex_book as B. pose proof (proj1 PropsDoc.C57_reads_ex) as ND.
  pose proof T as (root & T1 & T2 & T3 & T4).
  assert (exists k, family_of (o_entries PropsDoc.ex_doc) = Ok k /\ dir_search [lit "Workbook"] (o_entries PropsDoc.ex_doc) k 0 = Ok None /\
    dir_search [lit "Book"] (o_entries PropsDoc.ex_doc) k 0 = Ok (Some 1)) as (k & FA & S1 & S2).
  { eexists. split; [vm_compute; reflexivity|]. split; vm_compute; reflexivity. }
  assert (R0 : nth_error (o_entries PropsDoc.ex_doc) 0 = Some root) by exact T1.
  assert (PW : Forall SpecDoc.plain [lit "Workbook"]) by (constructor; [unfold SpecDoc.plain; cbn; repeat (constructor; [lia|]); constructor|constructor]).
  assert (PB : Forall SpecDoc.plain [lit "Book"]) by (constructor; [unfold SpecDoc.plain; cbn; repeat (constructor; [lia|]); constructor|constructor]).
  split; [exact G|]. split; [exact T|]. split; [exact DN|]. split; [exact K|]. split.
  { destruct (C57_search _ root _ k _ R0 T3 T4 FA DN K PW ltac:(discriminate)) as (_ & H & _). apply H. exact S1. }
  split.
  { destruct (C57_search _ root _ k _ R0 T3 T4 FA DN K PB ltac:(discriminate)) as (H & _). apply H in S2 as (p & q & E & LD).
    destruct p as [|n [|n' p]]; [inversion LD|injection E as <- _; exact LD|discriminate E]. }
  split; [exact B|]. split; [exact ND|]. vm_compute. reflexivity.
Qed.

