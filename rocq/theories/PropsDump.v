(** * The dump of the records of a file: the property theorems *)

From Coq Require Import ZifyBool ZifyNat ZifyN QArith.
From Verif Require Import PyBase PropsDoc PyText PyFloat NumPy Dbf CompDoc Biff XlCount XlDump SpecRepr SpecCompDoc SpecDoc SpecCount SpecDump PyBaseFacts ReprProofs CompDocProofs DocProofs DocThms BiffThms CountProofs DumpProofs DumpThms.
Open Scope nat_scope.
Open Scope Z_scope.
(** BOF, an unknown record, zeros and a record with 20 bytes, the last two missing. *)
Definition ex_stream : str :=
  [9; 8; 2; 0; 0; 6; 171; 15; 0; 0; 0; 0; 0; 0; 10; 0; 20; 0]%N ++ map N.of_nat (seq 65 17) ++ [0%N].

(** The dump of a part of the memory has, in the order of the bytes, a line for each record with its
place, code, name and length, and its bytes below it, sixteen to a line in hexadecimal and as
characters; one line for zeros in place of records; the up to three bytes left at the end; and a
remark if the last record is longer than what is left. *)
Theorem C82_text :
forall mem off len base numbered, 0 <= off -> 0 <= len -> off + len <= Z.of_nat (length mem) ->
  Forall (fun x => (x < 256)%N) (skipn (Z.to_nat off) mem) ->
  exists text, biff_dump mem off len base numbered = Ok text /\
    dump_text numbered (skipn (Z.to_nat (off + len)) mem) base (firstn (Z.to_nat len) (skipn (Z.to_nat off) mem)) text.
Proof. exact C82_text_proof. Qed.
Print Assumptions C82_text.

Example C82_text_ex : biff_dump (7%N :: ex_stream) 1 36 0 true = Ok (concat (map (fun l => l ++ [10%N]) [
  lit "    0: 0809 BOF len = 0002 (2)";
  lit "    4:      00 06                                            ~?";
  lit "    6: 0fab <UNKNOWN> len = 0000 (0)";
  lit "   10: ---- 4 zero bytes skipped ----";
  lit "   14: 000a EOF len = 0014 (20)";
  lit "   18:      41 42 43 44 45 46 47 48 49 4a 4b 4c 4d 4e 4f 50  ABCDEFGHIJKLMNOP";
  lit "   34:      51 00                                            Q~";
  lit "Last dumped record has length (20) that is too large"])) /\
  biff_dump [255; 0; 0; 0; 1]%N 0 5 3 false = Ok (concat (map (fun l => l ++ [10%N]) [
  lit "00ff EXTSST len = 0000 (0)"; lit "---- Misc bytes at end ----"; lit "     01                                               ?"])).
Proof. split; reflexivity. Qed.

(** A dump, numbered or not, can be read back: it shows all bytes of the stream in order, and none but
those after it that belong to a last record that is too long, which is then remarked. *)
Theorem C82_reads :
forall mem off len base numbered, 0 <= off -> 0 <= len -> off + len <= Z.of_nat (length mem) ->
  Forall (fun x => (x < 256)%N) (skipn (Z.to_nat off) mem) ->
  exists text k, biff_dump mem off len base numbered = Ok text /\ len <= k /\ off + k <= Z.of_nat (length mem) /\
    read_dump numbered text = firstn (Z.to_nat k) (skipn (Z.to_nat off) mem) /\
    (len < k -> exists u n, text = u ++ lit "Last dumped record has length (" ++ n ++ lit ") that is too large" ++ [10%N]).
Proof. exact C82_reads_proof. Qed.
Print Assumptions C82_reads.

Example C82_reads_ex : exists t u, biff_dump (7%N :: ex_stream) 1 36 0 true = Ok t /\ read_dump true t = ex_stream /\
  biff_dump (7%N :: ex_stream) 1 30 0 false = Ok u /\ read_dump false u = ex_stream.
Proof. do 2 eexists. split; [reflexivity|]. split; [reflexivity|]. split; reflexivity. Qed.

(** The dump of a stream that is not of negative length ends, with the text or, where the memory ends
before the stream, possibly with struct.error. *)
Theorem C82_ends :
forall mem off len base numbered, 0 <= len -> (exists t, biff_dump mem off len base numbered = Ok t) \/ biff_dump mem off len base numbered = Err StructError.
Proof. exact C82_ends_proof. Qed.
Print Assumptions C82_ends.

Example C82_ends_ex : biff_dump (firstn 12 ex_stream) 0 30 0 true = Err StructError /\ exists t, biff_dump (firstn 9 ex_stream) 0 9 0 true = Ok t.
Proof. split; [reflexivity|]. eexists. reflexivity. Qed.

(** A negative length makes biff_dump use the length of a record it has not read. *)
Theorem C82_negative_refuted :
forall mem off len base numbered, len < 0 -> biff_dump mem off len base numbered = Err UnboundLocalError.
Proof. exact C82_negative_refuted_proof. Qed.
Print Assumptions C82_negative_refuted.

Example C82_negative_ex : biff_dump ex_stream 4 (-1) 0 true = Err UnboundLocalError.
Proof. reflexivity. Qed.

(** The dump of a file that does not begin as a compound document is that of the whole file: reading it
gives the file back, so that different files have different dumps. An empty file is refused. *)
Theorem C82_file :
(forall unnumbered, dump [] unnumbered = Err XLRDError) /\
forall file unnumbered, file <> [] -> firstn 8 file <> [208; 207; 17; 224; 161; 177; 26; 225]%N -> Forall (fun x => (x < 256)%N) file ->
  exists text, dump file unnumbered = Ok text /\ dump_text (negb unnumbered) [] 0 file text /\ read_dump (negb unnumbered) text = file.
Proof. exact C82_file_proof. Qed.
Print Assumptions C82_file.

Example C82_file_ex : exists t u, dump ex_stream false = Ok t /\ read_dump true t = ex_stream /\
  dump ex_stream true = Ok u /\ read_dump false u = ex_stream.
Proof. do 2 eexists. split; [reflexivity|]. split; [reflexivity|]. split; reflexivity. Qed.

(** The dump of a compound document is that of the stream Workbook or, without it, of the stream Book:
reading it gives the bytes of the stream, and no others but those of a last record that is too long. *)
Theorem C82_document :
forall D t name d l c unnumbered, good_document D -> dir_tree D t -> distinct_names (o_entries D) t ->
  Forall (fun n => no_kelvin (dn_name n)) (o_entries D) ->
  (name = lit "Workbook" \/ name = lit "Book" /\ SpecDoc.missing (o_entries D) t [lit "Workbook"]) ->
  leads_to (o_entries D) t [name] d -> stream D d l c -> d <= 249 -> NoDup (system D ++ l) -> c <> [] ->
  Forall (fun x => (x < 256)%N) (doc_file D) ->
  exists text rest more, dump (doc_file D) unnumbered = Ok text /\ dump_text (negb unnumbered) rest 0 c text /\
    read_dump (negb unnumbered) text = c ++ more /\
    (more <> [] -> exists u n, text = u ++ lit "Last dumped record has length (" ++ n ++ lit ") that is too large" ++ [10%N]).
Proof. exact C82_document_proof. Qed.
Print Assumptions C82_document.

Example C82_document_ex : exists text, dump (doc_file PropsDoc.ex_doc) false = Ok text /\
  firstn 140 (read_dump true text) = map N.of_nat (seq 0 140) /\ firstn 38 text = lit "    0: 0100 <UNKNOWN> len = 0302 (770)" /\
  Forall (fun x => (x < 256)%N) (doc_file PropsDoc.ex_doc) /\ SpecDoc.stream PropsDoc.ex_doc 1 [8; 7] (map N.of_nat (seq 0 140)).
Proof. eexists. split; [vm_compute; reflexivity|]. split; [vm_compute; reflexivity|]. split; [vm_compute; reflexivity|].
  split; [|exact PropsDoc.ex_book]. assert (forallb (fun x => (x <? 256)%N) (doc_file PropsDoc.ex_doc) = true) as F by (vm_compute; reflexivity).
  apply Forall_forall. intros x X. rewrite forallb_forall in F. specialize (F x X). lia.
Qed.

