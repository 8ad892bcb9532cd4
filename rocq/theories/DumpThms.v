(** * The dump of the records of a file: proofs of the property theorems *)

From Coq Require Import ZifyBool ZifyNat ZifyN QArith.
From Verif Require Import PyBase PropsDoc PyText PyFloat NumPy Dbf CompDoc Biff XlCount XlDump SpecRepr SpecCompDoc SpecDoc SpecCount SpecDump PyBaseFacts ReprProofs CompDocProofs DocProofs DocThms BiffThms CountProofs DumpProofs.
Open Scope nat_scope.
Open Scope Z_scope.
(** BOF, an unknown record, zeros and a record with 20 bytes, the last two missing. *)
Definition ex_stream : str :=
  [9; 8; 2; 0; 0; 6; 171; 15; 0; 0; 0; 0; 0; 0; 10; 0; 20; 0]%N ++ map N.of_nat (seq 65 17) ++ [0%N].

Lemma C82_text_proof :
forall mem off len base numbered, 0 <= off -> 0 <= len -> off + len <= Z.of_nat (length mem) ->
  Forall (fun x => (x < 256)%N) (skipn (Z.to_nat off) mem) ->
  exists text, biff_dump mem off len base numbered = Ok text /\
    dump_text numbered (skipn (Z.to_nat (off + len)) mem) base (firstn (Z.to_nat len) (skipn (Z.to_nat off) mem)) text.
Proof.
exact dump_is.
Qed.

Lemma C82_reads_proof :
forall mem off len base numbered, 0 <= off -> 0 <= len -> off + len <= Z.of_nat (length mem) ->
  Forall (fun x => (x < 256)%N) (skipn (Z.to_nat off) mem) ->
  exists text k, biff_dump mem off len base numbered = Ok text /\ len <= k /\ off + k <= Z.of_nat (length mem) /\
    read_dump numbered text = firstn (Z.to_nat k) (skipn (Z.to_nat off) mem) /\
    (len < k -> exists u n, text = u ++ lit "Last dumped record has length (" ++ n ++ lit ") that is too large" ++ [10%N]).
Proof.
intros mem off len base numbered O0 L0 LE B. destruct (dump_is mem off len base numbered O0 L0 LE B) as (text & E & D).
set (rest := skipn (Z.to_nat (off + len)) mem) in *. set (s := firstn (Z.to_nat len) (skipn (Z.to_nat off) mem)) in *.
assert (skipn (Z.to_nat off) mem = s ++ rest) as ES.
{ unfold s, rest. rewrite <- (firstn_skipn (Z.to_nat len) (skipn (Z.to_nat off) mem)) at 1. f_equal.
  replace (Z.to_nat (off + len)) with (Z.to_nat off + Z.to_nat len)%nat by lia. clear.
  revert mem. induction (Z.to_nat off) as [|k IH]; intro mem; [reflexivity|]. destruct mem; [|exact (IH _)].
  simpl. destruct (Z.to_nat len); reflexivity. }
assert (Z.of_nat (length s) = len) as LS by (unfold s; rewrite firstn_length, skipn_length; lia).
assert (Z.of_nat (length rest) = Z.of_nat (length mem) - off - len) as LR by (unfold rest; rewrite skipn_length; lia).
destruct (dump_read _ _ _ _ _ D) as (j & R & J). { rewrite ES in B. apply Forall_app in B as (B & _). exact B. }
exists text, (len + Z.of_nat (length (firstn j rest))). split; [exact E|]. split; [lia|].
split; [rewrite firstn_length; lia|]. split.
- rewrite R, ES. replace (Z.to_nat (len + Z.of_nat (length (firstn j rest)))) with (length s + length (firstn j rest))%nat by lia.
  rewrite firstn_app_2. f_equal. rewrite firstn_length. destruct (Nat.min_spec j (length rest)) as [(_ & ->)|(X & ->)]; [reflexivity|].
  rewrite firstn_all. first [apply firstn_all2; exact X|symmetry; apply firstn_all2; exact X].
- intro X. apply J. intro Q. rewrite Q in X. cbn [length] in X. lia.
Qed.

Lemma C82_ends_proof :
forall mem off len base numbered, 0 <= len -> (exists t, biff_dump mem off len base numbered = Ok t) \/ biff_dump mem off len base numbered = Err StructError.
Proof.
intros mem off len base numbered H. unfold biff_dump. apply dump_ends; lia.
Qed.

Lemma C82_negative_refuted_proof :
forall mem off len base numbered, len < 0 -> biff_dump mem off len base numbered = Err UnboundLocalError.
Proof.
intros mem off len base numbered H. unfold biff_dump. replace (Z.to_nat len) with 0%nat by lia. cbn [dump_loop].
match goal with |- context [if ?x <? 4 then _ else _] => destruct (Z.ltb_spec x 4); [|lia] end.
unfold dump_end. cbv zeta. match goal with |- context [if ?x <? ?y then _ else if ?y <? ?x then _ else _] =>
  destruct (Z.ltb_spec x y) as [G|G]; [lia|]; destruct (Z.ltb_spec y x) as [G'|G']; [|lia] end. reflexivity.
Qed.

Lemma C82_file_proof :
(forall unnumbered, dump [] unnumbered = Err XLRDError) /\
forall file unnumbered, file <> [] -> firstn 8 file <> [208; 207; 17; 224; 161; 177; 26; 225]%N -> Forall (fun x => (x < 256)%N) file ->
  exists text, dump file unnumbered = Ok text /\ dump_text (negb unnumbered) [] 0 file text /\ read_dump (negb unnumbered) text = file.
Proof.
split; [reflexivity|]. intros file unnumbered NE NS B.
destruct (dump_is file 0 (Z.of_nat (length file)) 0 (negb unnumbered) ltac:(lia) ltac:(lia) ltac:(lia) B) as (text & E & D).
rewrite Z.add_0_l, Nat2Z.id, skipn_all in D. cbn [Z.to_nat skipn] in D. rewrite firstn_all in D.
exists text. split; [|split; [exact D|]].
- unfold dump, load_stream. destruct file as [|x file]; [congruence|].
  replace (str_eqb (bytes_at 0 8 (x :: file)) SIGNATURE) with false; [exact E|]. symmetry.
  destruct (str_eqb _ _) eqn:Q; [|reflexivity]. apply str_eqb_eq in Q. destruct NS. exact Q.
- destruct (dump_read _ _ _ _ _ D B) as (j & R & _). rewrite R, firstn_nil. apply app_nil_r.
Qed.

Lemma document_stream D t name d l c : good_document D -> dir_tree D t -> distinct_names (o_entries D) t ->
  Forall (fun n => no_kelvin (dn_name n)) (o_entries D) ->
  (name = lit "Workbook" \/ name = lit "Book" /\ SpecDoc.missing (o_entries D) t [lit "Workbook"]) ->
  leads_to (o_entries D) t [name] d -> stream D d l c -> d <= 249 -> NoDup (system D ++ l) -> c <> [] ->
  exists m pos, load_stream (doc_file D) = Ok (m, pos, Z.of_nat (length c)) /\ 0 <= pos /\
    firstn (length c) (skipn (Z.to_nat pos) m) = c.
Proof.
  intros G T DN K NM L S B ND NE. destruct (init_ok D false G) as (seen & k & E & FA & U).
  change (init (doc_file D) false = Ok (DocProofs.opened D false k seen)) in E.
  pose proof T as (root & T1 & T2 & T3 & T4).
  assert (R0 : nth_error (o_entries D) 0 = Some root) by (destruct (o_entries D); exact T1).
  assert (PW : Forall SpecDoc.plain [lit "Workbook"]) by (constructor; [unfold SpecDoc.plain; cbn; repeat (constructor; [lia|]); constructor|constructor]).
  assert (PB : Forall SpecDoc.plain [lit "Book"]) by (constructor; [unfold SpecDoc.plain; cbn; repeat (constructor; [lia|]); constructor|constructor]).
  destruct (NoDup_app_parts _ _ _ ND) as (_ & _ & ND3).
  assert (FR : forall s, In s l -> ~ In s (system D)) by (intros s S1 S2; exact (ND3 s S2 S1)).
  assert (SR : forall nm, Forall SpecDoc.plain [nm] -> leads_to (o_entries D) t [nm] d -> dir_search [nm] (o_entries D) k 0 = Ok (Some d)).
  { intros nm P LD. destruct (C57_search_proof (o_entries D) root t k [nm] R0 T3 T4 FA DN K P ltac:(discriminate)) as (H & _). apply H. exists [nm], []. split; [reflexivity|exact LD]. }
  unfold load_stream. replace (str_eqb (bytes_at 0 8 (doc_file D)) SIGNATURE) with true by reflexivity. cbn [negb].
  destruct (doc_file D) as [|x0 f0] eqn:EF; [discriminate EF|]. rewrite E. cbn [bind]. clear EF.
  destruct NM as [->|[-> MI]].
  - destruct (locate_ok D false k seen _ d l c (system D) G (SR _ PW L) S B U FR) as (seen' & m & pos & R & _ & P' & C').
      rewrite R. cbn [bind]. destruct m as [|x m]; [exfalso; apply NE; rewrite <- C', skipn_nil, firstn_nil; reflexivity|]. exists (x :: m), pos. split; [reflexivity|split; assumption].
  - assert (SN : dir_search [lit "Workbook"] (o_entries D) k 0 = Ok None).
      { destruct (C57_search_proof (o_entries D) root t k [lit "Workbook"] R0 T3 T4 FA DN K PW ltac:(discriminate)) as (_ & H & _). apply H. exact MI. }
      assert (LN : locate_named_stream [lit "Workbook"] (DocProofs.opened D false k seen) = (DocProofs.opened D false k seen, Ok None)).
      { unfold locate_named_stream. change (cd_dirlist (DocProofs.opened D false k seen)) with (o_entries D). change (cd_kin (DocProofs.opened D false k seen)) with k.
        rewrite SN. reflexivity. }
      rewrite LN. cbn [bind].
      destruct (locate_ok D false k seen _ d l c (system D) G (SR _ PB L) S B U FR) as (seen' & m & pos & R & _ & P' & C').
      rewrite R. cbn [bind]. destruct m as [|x m]; [exfalso; apply NE; rewrite <- C', skipn_nil, firstn_nil; reflexivity|]. exists (x :: m), pos. split; [reflexivity|split; assumption].
Qed.

Lemma C82_document_proof :
forall D t name d l c unnumbered, good_document D -> dir_tree D t -> distinct_names (o_entries D) t ->
  Forall (fun n => no_kelvin (dn_name n)) (o_entries D) ->
  (name = lit "Workbook" \/ name = lit "Book" /\ SpecDoc.missing (o_entries D) t [lit "Workbook"]) ->
  leads_to (o_entries D) t [name] d -> stream D d l c -> d <= 249 -> NoDup (system D ++ l) -> c <> [] ->
  Forall (fun x => (x < 256)%N) (doc_file D) ->
  exists text rest more, dump (doc_file D) unnumbered = Ok text /\ dump_text (negb unnumbered) rest 0 c text /\
    read_dump (negb unnumbered) text = c ++ more /\
    (more <> [] -> exists u n, text = u ++ lit "Last dumped record has length (" ++ n ++ lit ") that is too large" ++ [10%N]).
Proof.
intros D t name d l c unnumbered G T DN K NM L S B ND NE BF.
destruct (document_stream D t name d l c G T DN K NM L S B ND NE) as (m & pos & E & P & C).
pose proof (load_keeps (fun x => (x < 256)%N) _ _ _ _ BF E) as BM.
assert (Forall (fun x => (x < 256)%N) (skipn (Z.to_nat pos) m)) as BC.
{ rewrite <- (firstn_skipn (Z.to_nat pos) m) in BM. apply Forall_app in BM as (_ & BM). exact BM. }
assert (length c <= length (skipn (Z.to_nat pos) m))%nat as LL.
{ rewrite <- C at 1. rewrite firstn_length. lia. }
assert (length c <> 0%nat) as LC by (destruct c; [congruence|discriminate]).
rewrite skipn_length in LL.
destruct (dump_is m pos (Z.of_nat (length c)) 0 (negb unnumbered) P ltac:(lia) ltac:(lia) BC) as (text & Q & DT).
rewrite Nat2Z.id, C in DT. destruct (dump_read _ _ _ _ _ DT) as (j & R & J).
{ rewrite <- (firstn_skipn (length c) (skipn (Z.to_nat pos) m)), C in BC. apply Forall_app in BC as (BC & _). exact BC. }
exists text, (skipn (Z.to_nat (pos + Z.of_nat (length c))) m), (firstn j (skipn (Z.to_nat (pos + Z.of_nat (length c))) m)).
split; [unfold dump; rewrite E; exact Q|]. split; [exact DT|]. split; [exact R|exact J].
Qed.

