(** * Opening any file ends (C65): the property theorems *)

From Coq Require Import ZifyBool ZifyNat ZifyN QArith.
From Verif Require Import PyBase PyFloat PyBaseFacts Dbf SpecDbf DbfProofs XlStruct CompDoc SpecCompDoc CompDocProofs CompDocThms SpecSst Sst SpecDoc DocProofs DocThms ReadXl SpecBiff Biff BiffProofs EndsThms.
Open Scope nat_scope.
Open Scope nat_scope.
Open Scope Z_scope.

(** Following the table from s never ends: it comes back to a sector. *)
Definition goes_round (sat : list Z) (s : Z) : Prop := exists l t, path sat s l t /\ In t l.

(** The 128 bytes of a directory entry. *)
Definition entry_text (e : dirnode) : str :=
  flat_map (fun c => le_bytes 2 (Z.of_N c)) (dn_name e) ++ repeat 0%N (64 - 2 * length (dn_name e))
  ++ le_bytes 2 (2 * Z.of_nat (length (dn_name e)) + 2) ++ [Z.to_N (dn_etype e); 1%N]
  ++ words [dn_left e; dn_right e; dn_root e] ++ repeat 0%N 36 ++ words [dn_first e; dn_size e] ++ repeat 0%N 4.
(** A document with sectors of 128 bytes: the table in sector 0, the directory
    in 1 and 2, the container in 3, its table in 4. The directory entry of the
    stream has left to its left, its second piece of the container leads to
    next. *)
Definition tiny_doc (left : Z) (name : str) (next : Z) : document :=
  let es := [mkdirnode (lit "Root Entry") 5 (-1) (-1) 1 3 128; mkdirnode name 2 left (-1) (-1) 0 70] in
  let tab := [-3; 2; -2; -2; -2] ++ repeat (-1) 27 in
  let mini := [1; next] ++ repeat (-1) 30 in
  mkdocument (repeat 9%N 20) 7 6 (repeat 0%N 10) (1, 0) 4096 (0 :: repeat (-1) 108) [] [(0, tab)] [1; 2] es [3] [(4, mini)]
    ([words tab] ++ map entry_text es ++ [repeat 7%N 128; words mini]).

(** Opening ends for every file: when it does not, the file is a compound document
whose stream Workbook or Book is a short one, and its chain in the table of the
short streams goes round. *)
Theorem C65_ends :
forall file, open_workbook file = Err NonTermination ->
exists cd d name, firstn 8 file = [208; 207; 17; 224; 161; 177; 26; 225]%N /\ init file false = Ok cd /\
  In d (cd_dirlist cd) /\ dn_etype d = 2 /\ In name [lit "workbook"; lit "book"] /\ lower_name (dn_name d) = name /\
  dn_size d < cd_min_std cd /\ goes_round (cd_SSAT cd) (dn_first d).
Proof. exact C65_ends_proof. Qed.
Print Assumptions C65_ends.

Example C65_ends_ex : open_workbook (doc_file (tiny_doc (-1) (lit "Workbook") (-2))) = Err XLRDError /\
  open_workbook (doc_file (tiny_doc (-1) (lit "Workbook") 5)) = Err AssertionError /\
  open_workbook (doc_file (tiny_doc 1 (lit "Workbook") (-2))) = Err RecursionError.
Proof. vm_compute. auto. Qed.

(** And then it does not end: in every document whose stream Workbook is a short one
with a chain that goes round, the reader follows it without end. *)
Theorem C65_hangs_refuted :
forall D t d e, good_document D -> dir_tree D t -> distinct_names (o_entries D) t ->
Forall (fun n => no_kelvin (dn_name n)) (o_entries D) ->
leads_to (o_entries D) t [lit "Workbook"] d -> nth_error (o_entries D) (Z.to_nat d) = Some e ->
dn_size e < o_min D -> dn_size e + 512 <= Z.of_nat (length (doc_file D)) -> goes_round (minitable D) (dn_first e) ->
open_workbook (doc_file D) = Err NonTermination.
Proof. exact C65_hangs_refuted_proof. Qed.
Print Assumptions C65_hangs_refuted.

(** A file of 1152 bytes that is read without end. *)
Definition round_doc : document := tiny_doc (-1) (lit "Workbook") 0.
Lemma round_ints l : forallb (fun z => (- 2 ^ 31 <=? z) && (z <? 2 ^ 31)) l = true -> Forall is_int l.
Proof. intro H. apply Forall_forall. intros x X. rewrite forallb_forall in H. specialize (H x X). unfold is_int. lia. Qed.
Lemma round_present D l : forallb (fun z => (0 <=? z) && (z <? Z.of_nat (length (o_sectors D)))) l = true -> Forall (present D) l.
Proof. intro H. apply Forall_forall. intros x X. rewrite forallb_forall in H. specialize (H x X). unfold present. lia. Qed.
Lemma round_tree : dir_tree round_doc (Node 1 Nil Nil Nil).
Proof.
  eexists. split; [reflexivity|]. split; [reflexivity|]. split.
  - eapply unf_other; [cbn; lia|reflexivity|discriminate| |]; constructor; cbn; lia.
  - cbn. repeat (constructor; [cbn; intuition discriminate|]). constructor.
Qed.
Lemma round_holds s l : (0 <=? s) && (s <? 5) = true -> sector_of round_doc s = words l -> Z.of_nat (length l) = 32 ->
  forallb (fun z => (- 2 ^ 31 <=? z) && (z <? 2 ^ 31)) l = true -> holds round_doc s l.
Proof. intros A B C E. split; [unfold present; change (length (o_sectors round_doc)) with 5%nat; lia|]. split; [exact B|]. split; [exact C|exact (round_ints _ E)]. Qed.
Ltac round_chain := repeat (eapply chain_next; [cbn; lia|reflexivity|]); apply chain_end.
Lemma round_good : good_document round_doc.
Proof.
  constructor.
  - reflexivity.
  - reflexivity.
  - cbn; lia.
  - cbn; lia.
  - apply round_ints. vm_compute. reflexivity.
  - reflexivity.
  - split; [reflexivity|]. apply round_ints. vm_compute. reflexivity.
  - split; [|intros _; vm_compute; split; [reflexivity|discriminate]].
    vm_compute. repeat constructor.
  - exact I.
  - vm_compute. reflexivity.
  - constructor; [apply round_holds; vm_compute; reflexivity|constructor].
  - split; [discriminate|]. split; [round_chain|]. apply round_present. vm_compute. reflexivity.
  - exists (map entry_text (o_entries round_doc)). split; [|vm_compute; reflexivity].
    assert (X : forall e, In e (o_entries round_doc) -> stores_entry e (entry_text e)).
    { intros e E. exists (flat_map (fun c => le_bytes 2 (Z.of_N c)) (dn_name e) ++ repeat 0%N (64 - 2 * length (dn_name e))), (2 * Z.of_nat (length (dn_name e)) + 2), 1%N, (repeat 0%N 36), (repeat 0%N 4).
      split; [unfold entry_text; rewrite <- app_assoc; reflexivity|]. cbn [round_doc tiny_doc o_entries In] in E.
      repeat (destruct E as [<-|E]); try destruct E; (split; [reflexivity|]; split; [reflexivity|]; split; [reflexivity|]; split; [cbn; lia|];
        split; [apply round_ints; vm_compute; reflexivity|]; split; [cbn; repeat (constructor; [unfold scalar; lia|]); constructor|];
        right; eexists; split; [vm_compute; reflexivity|vm_compute; reflexivity]). }
    revert X. generalize (o_entries round_doc). intros l X. induction l as [|e l IH]; [constructor|].
    cbn [map]. constructor; [apply X; left; reflexivity|]. apply IH. intros e' E'. apply X. right. exact E'.
  - eexists. exact round_tree.
  - split; [cbn; lia|]. split; [|split; [apply round_present; vm_compute; reflexivity|constructor]].
    cbn. split; [discriminate|]. round_chain.
  - split; [intros _; round_chain|]. constructor; [apply round_holds; vm_compute; reflexivity|constructor].
  - cbn. repeat (constructor; [cbn; intuition discriminate|]). constructor.
Qed.
Example C65_hangs_refuted_ex : good_document round_doc /\ dir_tree round_doc (Node 1 Nil Nil Nil) /\
  leads_to (o_entries round_doc) (Node 1 Nil Nil Nil) [lit "Workbook"] 1 /\ goes_round (minitable round_doc) 0 /\
  length (doc_file round_doc) = 1152%nat /\ open_workbook (doc_file round_doc) = Err NonTermination.
Proof.
  split; [exact round_good|]. split; [exact round_tree|]. split.
  - eapply (lt_stream _ _ _ 1 (mkdirnode (lit "Workbook") 2 (-1) (-1) (-1) 0 70)); [|reflexivity]. split; [left; reflexivity|]. split; [reflexivity|]. unfold same_name. cbn. repeat (constructor; [left; reflexivity|]). constructor.
  - split; [|split; vm_compute; reflexivity].
    exists [0; 1], 0. split; [|left; reflexivity]. eapply path_next; [lia|reflexivity|]. eapply path_next; [lia|reflexivity|]. constructor.
Qed.

