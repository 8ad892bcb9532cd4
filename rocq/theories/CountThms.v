(** * The count of the records of a file: proofs of the property theorems *)

From Coq Require Import ZifyBool ZifyNat ZifyN QArith.
From Verif Require Import PyBase PropsDoc PyText PyFloat NumPy Dbf CompDoc Biff XlCount SpecRepr SpecCompDoc SpecDoc SpecCount PyBaseFacts ReprProofs CompDocProofs DocProofs DocThms BiffThms CountProofs.
Open Scope nat_scope.
Open Scope Z_scope.
(** BOF, two unknown records, a dummy and EOF, then zeros. *)
Definition ex_stream : str := [9; 8; 2; 0; 0; 6; 171; 15; 0; 0; 171; 15; 1; 0; 7; 0; 0; 0; 0; 10; 0; 0; 0]%N.

Lemma C81_counts_proof :
forall mem off len, 0 <= off -> 0 <= len -> off + len <= Z.of_nat (length mem) ->
  Forall (fun x => (x < 256)%N) (firstn (Z.to_nat len) (skipn (Z.to_nat off) mem)) ->
  exists recs names out text,
    stream_holds (skipn (Z.to_nat (off + len)) mem) (firstn (Z.to_nat len) (skipn (Z.to_nat off) mem)) recs /\
    Forall2 named recs names /\ summary names out /\ printed out text /\ biff_count_records mem off len = Ok text.
Proof.
exact count_records_is.
Qed.

Lemma C81_one_proof :
(forall rest s recs recs', stream_holds rest s recs -> stream_holds rest s recs' -> recs = recs') /\
(forall r n n', named r n -> named r n' -> n = n') /\
(forall names out out', summary names out -> summary names out' -> out = out').
Proof.
split; [exact holds_one|]. split; [exact named_one|exact summary_one].
Qed.

Lemma C81_written_proof :
forall rest recs bytes tail, Forall2 written recs bytes ->
  (forall l r, recs = l ++ [r] -> fst r <> 0 \/ snd r <> []) ->
  ((length tail < 4)%nat \/ Forall (fun x => x = 0%N) tail /\ rest = []) ->
  stream_holds rest (concat bytes ++ tail) (map (fun r => (fst r, Z.of_nat (length (snd r)))) recs).
Proof.
exact written_holds.
Qed.

Lemma C81_padding_refuted_proof :
exists mem off len, 0 <= off /\ off + len <= Z.of_nat (length mem) /\ skipn (Z.to_nat (off + 4)) (firstn (Z.to_nat (off + len)) mem) = repeat 0%N 8 /\
  biff_count_records (firstn (Z.to_nat (off + len)) mem) off len = Ok (lit "       1 EOF" ++ [10%N]) /\
  biff_count_records mem off len = Ok (lit "       2 <Dummy (zero)>" ++ [10%N] ++ lit "       1 EOF" ++ [10%N]).
Proof.
exists (10%N :: repeat 0%N 12), 0, 12. split; [lia|]. split; [cbn; lia|]. split; [reflexivity|]. split; reflexivity.
Qed.

Lemma C81_ends_proof :
forall mem off len, (exists t, biff_count_records mem off len = Ok t) \/ biff_count_records mem off len = Err StructError.
Proof.
exact biff_count_ends.
Qed.

Lemma C81_file_proof :
count_records [] = Err XLRDError /\
forall file, file <> [] -> firstn 8 file <> [208; 207; 17; 224; 161; 177; 26; 225]%N -> Forall (fun x => (x < 256)%N) file ->
  exists recs names out text, stream_holds [] file recs /\ Forall2 named recs names /\ summary names out /\ printed out text /\
    count_records file = Ok text.
Proof.
split; [reflexivity|]. intros file NE NS B.
destruct (count_records_is file 0 (Z.of_nat (length file)) ltac:(lia) ltac:(lia) ltac:(lia)) as (recs & names & out & text & H & A & S1 & P & E).
{ rewrite Nat2Z.id. cbn [Z.to_nat skipn]. rewrite firstn_all. exact B. }
exists recs, names, out, text. rewrite Z.add_0_l, Nat2Z.id, skipn_all in H. cbn [Z.to_nat skipn] in H. rewrite firstn_all in H.
split; [exact H|]. split; [exact A|]. split; [exact S1|]. split; [exact P|].
unfold count_records. destruct file as [|x file]; [congruence|].
replace (str_eqb (bytes_at 0 8 (x :: file)) SIGNATURE) with false; [exact E|]. symmetry.
destruct (str_eqb _ _) eqn:Q; [|reflexivity]. apply str_eqb_eq in Q. destruct NS. exact Q.
Qed.

Lemma document_count D t name d l c : good_document D -> dir_tree D t -> distinct_names (o_entries D) t ->
  Forall (fun n => no_kelvin (dn_name n)) (o_entries D) ->
  (name = lit "Workbook" \/ name = lit "Book" /\ SpecDoc.missing (o_entries D) t [lit "Workbook"]) ->
  leads_to (o_entries D) t [name] d -> stream D d l c -> d <= 249 -> NoDup (system D ++ l) -> c <> [] ->
  exists m pos, count_records (doc_file D) = biff_count_records m pos (Z.of_nat (length c)) /\ 0 <= pos /\
    firstn (length c) (skipn (Z.to_nat pos) m) = c.
Proof.
  intros G T DN K NM L S B ND NE. destruct (init_ok D false G) as (seen & k & E & FA & U).
  change (init (doc_file D) false = Ok (DocProofs.opened D false k seen)) in E.
  pose proof T as (root & T1 & T2 & T3 & T4).
  assert (R0 : nth_error (o_entries D) 0 = Some root) by (destruct (o_entries D); exact T1).
  assert (PW : Forall SpecDoc.plain [lit "Workbook"]) by (constructor; [unfold SpecDoc.plain; cbn; repeat (constructor; [lia|]); constructor|constructor]).
  assert (PB : Forall SpecDoc.plain [lit "Book"]) by (constructor; [unfold SpecDoc.plain; cbn; repeat (constructor; [lia|]); constructor|constructor]).
  destruct (NoDup_app_parts _ _ _ ND) as (_ & _ & ND3).
  assert (FR : forall s, In s l -> ~ In s (system D)) by (intros s S1 S2; exact (ND3 s S2 S1)).
  assert (SR : forall nm, Forall SpecDoc.plain [nm] -> leads_to (o_entries D) t [nm] d -> dir_search [nm] (o_entries D) k 0 = Ok (Some d)).
  { intros nm P LD. destruct (C57_search_proof (o_entries D) root t k [nm] R0 T3 T4 FA DN K P ltac:(discriminate)) as (H & _). apply H. exists [nm], []. split; [reflexivity|exact LD]. }
  unfold count_records. replace (str_eqb (bytes_at 0 8 (doc_file D)) SIGNATURE) with true by reflexivity. cbn [negb].
  destruct (doc_file D) as [|x0 f0] eqn:EF; [discriminate EF|]. rewrite E. cbn [bind]. clear EF.
  destruct NM as [->|[-> MI]].
  - destruct (locate_ok D false k seen _ d l c (system D) G (SR _ PW L) S B U FR) as (seen' & m & pos & R & _ & P' & C').
      rewrite R. cbn [bind]. destruct m as [|x m]; [exfalso; apply NE; rewrite <- C', skipn_nil, firstn_nil; reflexivity|]. exists (x :: m), pos. split; [reflexivity|split; assumption].
  - assert (SN : dir_search [lit "Workbook"] (o_entries D) k 0 = Ok None).
      { destruct (C57_search_proof (o_entries D) root t k [lit "Workbook"] R0 T3 T4 FA DN K PW ltac:(discriminate)) as (_ & H & _). apply H. exact MI. }
      assert (LN : locate_named_stream [lit "Workbook"] (DocProofs.opened D false k seen) = (DocProofs.opened D false k seen, Ok None)).
      { unfold locate_named_stream. change (cd_dirlist (DocProofs.opened D false k seen)) with (o_entries D). change (cd_kin (DocProofs.opened D false k seen)) with k.
        rewrite SN. reflexivity. }
      rewrite LN. cbn [bind].
      destruct (locate_ok D false k seen _ d l c (system D) G (SR _ PB L) S B U FR) as (seen' & m & pos & R & _ & P' & C').
      rewrite R. cbn [bind]. destruct m as [|x m]; [exfalso; apply NE; rewrite <- C', skipn_nil, firstn_nil; reflexivity|]. exists (x :: m), pos. split; [reflexivity|split; assumption].
Qed.

Lemma C81_document_proof :
forall D t name d l c, good_document D -> dir_tree D t -> distinct_names (o_entries D) t ->
  Forall (fun n => no_kelvin (dn_name n)) (o_entries D) ->
  (name = lit "Workbook" \/ name = lit "Book" /\ SpecDoc.missing (o_entries D) t [lit "Workbook"]) ->
  leads_to (o_entries D) t [name] d -> stream D d l c -> d <= 249 -> NoDup (system D ++ l) -> c <> [] ->
  Forall (fun x => (x < 256)%N) c ->
  exists rest recs names out text, stream_holds rest c recs /\ Forall2 named recs names /\ summary names out /\ printed out text /\
    count_records (doc_file D) = Ok text.
Proof.
intros D t name d l c G T DN K NM L S B ND NE BC.
destruct (document_count D t name d l c G T DN K NM L S B ND NE) as (m & pos & E & P & C).
assert (length c <= length (skipn (Z.to_nat pos) m))%nat as LL.
{ rewrite <- C at 1. rewrite firstn_length. lia. }
assert (length c <> 0%nat) as LC by (destruct c; [congruence|discriminate]).
rewrite skipn_length in LL.
destruct (count_records_is m pos (Z.of_nat (length c)) P ltac:(lia) ltac:(lia)) as (recs & names & out & text & H & A & S1 & PR & Q).
{ rewrite Nat2Z.id, C. exact BC. }
rewrite Nat2Z.id, C in H. exists (skipn (Z.to_nat (pos + Z.of_nat (length c))) m), recs, names, out, text.
split; [exact H|]. split; [exact A|]. split; [exact S1|]. split; [exact PR|]. rewrite E. exact Q.
Qed.

