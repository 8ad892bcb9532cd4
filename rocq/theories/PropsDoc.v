(** * Compound documents: opening one and reading its streams by name (C56, C57): the property theorems *)

From Coq Require Import ZifyBool ZifyNat ZifyN QArith.
From Verif Require Import PyBase PyFloat PyBaseFacts Dbf SpecDbf DbfProofs XlStruct CompDoc SpecCompDoc CompDocProofs CompDocThms SpecSst Sst SstProofs SpecDoc DocProofs DocThms.
Open Scope nat_scope.
Open Scope nat_scope.
Open Scope Z_scope.

(** A request for a stream: by locate_named_stream or by get_named_stream,
    whose bytes are the whole of what it returns. *)
Definition ask (q : bool * list str) (cd : cdoc) : cdoc * res (option (str * Z * Z)) :=
  if fst q then locate_named_stream (snd q) cd
  else let '(cd, r) := get_named_stream (snd q) cd in
       (cd, do o <- r; Ok (match o with Some b => Some (b, 0, Z.of_nat (length b)) | None => None end)).
Fixpoint answers (qs : list (bool * list str)) (cd : cdoc) : list (res (option (str * Z * Z))) :=
  match qs with
  | [] => []
  | q :: qs' => let '(cd, r) := ask q cd in r :: answers qs' cd
  end.
(** The answer gives the bytes c. *)
Definition delivers (r : res (option (str * Z * Z))) (c : str) : Prop :=
  exists m pos, r = Ok (Some (m, pos, Z.of_nat (length c))) /\ 0 <= pos /\ firstn (length c) (skipn (Z.to_nat pos) m) = c.

(** An example: sectors of 128 bytes; the table in sector 0, the directory in 1
    to 4, the container in 5, its table in 6, the stream Book in 8 and 7, and
    a last one that is cut short; the storage Data has the short stream s in the pieces 1 and 0 of the
    container. *)
Definition name_field (nm : str) : str :=
  flat_map (le_bytes 2) (flat_map utf16 nm) ++ [0; 0]%N ++ repeat 0%N (62 - 2 * length nm).
Definition entry_bytes (e : dirnode) : str :=
  name_field (dn_name e) ++ le_bytes 2 (2 * Z.of_nat (length (dn_name e)) + 2) ++ [Z.to_N (dn_etype e); 1%N]
  ++ words [dn_left e; dn_right e; dn_root e] ++ repeat 0%N 36 ++ words [dn_first e; dn_size e] ++ repeat 0%N 4.
Definition ex_entries : list dirnode :=
  [mkdirnode (lit "Root Entry") 5 (-1) (-1) 2 5 128; mkdirnode (lit "Book") 2 (-1) (-1) (-1) 8 140;
   mkdirnode (lit "Data") 1 1 (-1) 3 0 0; mkdirnode (lit "s") 2 (-1) (-1) (-1) 1 70].
Definition ex_table : list Z := [-3; 2; 3; 4; -2; -2; -2; -2; 7] ++ repeat (-1) 23.
Definition ex_minitable : list Z := [-2; 0] ++ repeat (-1) 30.
Definition ex_doc : document :=
  mkdocument (repeat 9%N 20) 7 6 (repeat 0%N 10) (1, 0) 100 (0 :: repeat (-1) 108) [] [(0, ex_table)] [1; 2; 3; 4] ex_entries
    [5] [(6, ex_minitable)]
    ([words ex_table] ++ map entry_bytes ex_entries
     ++ [map N.of_nat (seq 0 128); words ex_minitable; map N.of_nat (seq 128 128); map N.of_nat (seq 0 128); [7%N]]).

(** Numbers in a file. *)
Definition word_at (mem : str) (a : nat) (z : Z) : Prop := firstn 4 (skipn a mem) = le_bytes 4 z /\ is_int z.

(** A well-formed document opens: the allocation table is put together from its
sectors, with those listed in the extension of the master table; the directory
is read along its chain and the container and its table along theirs. *)
Theorem C56_opens :
forall D ignore, good_document D ->
exists cd, init (doc_file D) ignore = Ok cd /\
  cd_SAT cd = table D /\ cd_SSAT cd = minitable D /\ (0 < root_size D -> cd_SSCS cd = Some (container D)) /\
  cd_dirlist cd = o_entries D /\ cd_sec_size cd = 2 ^ o_shift D /\ cd_short_sec_size cd = 2 ^ o_short_shift D /\
  cd_min_std cd = o_min D /\ cd_ignore cd = ignore.
Proof. exact C56_opens_proof. Qed.
Print Assumptions C56_opens.

Lemma ex_ints l : forallb (fun z => (- 2 ^ 31 <=? z) && (z <? 2 ^ 31)) l = true -> Forall is_int l.
Proof. intro H. apply Forall_forall. intros x X. rewrite forallb_forall in H. specialize (H x X). unfold is_int. lia. Qed.
Lemma ex_present D l : forallb (fun z => (0 <=? z) && (z <? Z.of_nat (length (o_sectors D)))) l = true -> Forall (present D) l.
Proof. intro H. apply Forall_forall. intros x X. rewrite forallb_forall in H. specialize (H x X). unfold present. lia. Qed.
Lemma ex_tree : dir_tree ex_doc (Node 2 (Node 1 Nil Nil Nil) Nil (Node 3 Nil Nil Nil)).
Proof.
  exists (mkdirnode (lit "Root Entry") 5 (-1) (-1) 2 5 128). split; [reflexivity|]. split; [reflexivity|]. split.
  - eapply unf_storage; [cbn; lia|reflexivity|reflexivity| | |].
    + eapply unf_other; [cbn; lia|reflexivity|discriminate| |]; constructor; cbn; lia.
    + constructor. cbn. lia.
    + eapply unf_other; [cbn; lia|reflexivity|discriminate| |]; constructor; cbn; lia.
  - cbn. repeat (constructor; [cbn; intuition discriminate|]). constructor.
Qed.
Lemma ex_holds s l : (0 <=? s) && (s <? 10) = true -> sector_of ex_doc s = words l -> Z.of_nat (length l) = 32 ->
  forallb (fun z => (- 2 ^ 31 <=? z) && (z <? 2 ^ 31)) l = true -> holds ex_doc s l.
Proof. intros A B C E. split; [unfold present; change (length (o_sectors ex_doc)) with 10%nat; lia|]. split; [exact B|]. split; [exact C|exact (ex_ints _ E)]. Qed.
Ltac ex_chain := repeat (eapply chain_next; [cbn; lia|reflexivity|]); apply chain_end.
Example C56_opens_ex : good_document ex_doc.
Proof.
  assert (H0 : holds ex_doc 0 ex_table) by (apply ex_holds; vm_compute; reflexivity).
  assert (H6 : holds ex_doc 6 ex_minitable) by (apply ex_holds; vm_compute; reflexivity).
  constructor.
  - reflexivity.
  - reflexivity.
  - cbn; lia.
  - cbn; lia.
  - apply ex_ints. vm_compute. reflexivity.
  - reflexivity.
  - split; [reflexivity|]. apply ex_ints. vm_compute. reflexivity.
  - split; [|intros _; vm_compute; split; [reflexivity|discriminate]].
    vm_compute. repeat constructor.
  - exact I.
  - vm_compute. reflexivity.
  - constructor; [exact H0|constructor].
  - split; [discriminate|]. split; [ex_chain|]. apply ex_present. vm_compute. reflexivity.
  - exists (map entry_bytes ex_entries). split; [|vm_compute; reflexivity].
    assert (X : forall e, In e ex_entries -> stores_entry e (entry_bytes e)).
    { intros e E. exists (name_field (dn_name e)), (2 * Z.of_nat (length (dn_name e)) + 2), 1%N, (repeat 0%N 36), (repeat 0%N 4).
      split; [reflexivity|]. cbn [ex_entries In] in E.
      repeat (destruct E as [<-|E]); try destruct E; (split; [reflexivity|]; split; [reflexivity|]; split; [reflexivity|]; split; [cbn; lia|];
        split; [apply ex_ints; vm_compute; reflexivity|]; split; [cbn; repeat (constructor; [unfold scalar; lia|]); constructor|];
        right; eexists; split; [unfold name_field; reflexivity|vm_compute; reflexivity]). }
    cbn [o_entries ex_doc]. revert X. generalize ex_entries. intros l X. induction l as [|e l IH]; [constructor|].
    cbn [map]. constructor; [apply X; left; reflexivity|]. apply IH. intros e' E'. apply X. right. exact E'.
  - exists (Node 2 (Node 1 Nil Nil Nil) Nil (Node 3 Nil Nil Nil)). exact ex_tree.
  - split; [cbn; lia|]. split; [|split; [apply ex_present; vm_compute; reflexivity|constructor]].
    cbn. split; [discriminate|]. ex_chain.
  - split; [intros _; ex_chain|]. constructor; [exact H6|constructor].
  - cbn. repeat (constructor; [cbn; intuition discriminate|]). constructor.
Qed.

(** Looking for a path, whose names are of ASCII characters: a stream is found when
the path, or a first part of it, leads through storages to it, with names
compared without regard to case; nothing is found when a storage on the way has
no entry of that name; everything else, a path that ends at a storage or comes
to an entry that is neither, is reported. *)
Theorem C57_search :
forall dl root t k path, nth_error dl 0 = Some root -> unfolds dl (dn_root root) t -> NoDup (0 :: entries t) ->
family_of dl = Ok k -> distinct_names dl t -> Forall (fun n => no_kelvin (dn_name n)) dl -> Forall plain path -> path <> [] ->
(forall d, dir_search path dl k 0 = Ok (Some d) <-> exists p q, path = p ++ q /\ leads_to dl t p d) /\
(dir_search path dl k 0 = Ok None <-> missing dl t path) /\
((forall p q d, path = p ++ q -> ~ leads_to dl t p d) -> ~ missing dl t path -> dir_search path dl k 0 = Err CompDocError).
Proof. exact C57_search_proof. Qed.
Print Assumptions C57_search.

Example C57_search_ex :
  exists k, family_of ex_entries = Ok k /\ dir_search [lit "dATA"; lit "S"] ex_entries k 0 = Ok (Some 3) /\
  leads_to ex_entries (Node 2 (Node 1 Nil Nil Nil) Nil (Node 3 Nil Nil Nil)) [lit "dATA"; lit "S"] 3 /\
  dir_search [lit "Data"; lit "x"] ex_entries k 0 = Ok None /\ dir_search [lit "Data"] ex_entries k 0 = Err CompDocError /\
  dir_search [lit "Book"; lit "x"] ex_entries k 0 = Ok (Some 1).
Proof.
  eexists. split; [vm_compute; reflexivity|]. split; [vm_compute; reflexivity|]. split; [|repeat split].
  apply (lt_storage _ _ (lit "dATA") 2 (nth 2 ex_entries (nth 0 ex_entries (mkdirnode [] 0 0 0 0 0 0))) (Node 3 Nil Nil Nil)).
  - split; [cbn; auto|]. split; [reflexivity|]. cbn. repeat (constructor; [unfold same_letter; lia|]). constructor.
  - reflexivity.
  - cbn; auto.
  - apply (lt_stream _ _ (lit "S") 3 (nth 3 ex_entries (nth 0 ex_entries (mkdirnode [] 0 0 0 0 0 0)))); [|reflexivity].
    split; [cbn; auto|]. split; [reflexivity|]. cbn. repeat (constructor; [unfold same_letter; lia|]). constructor.
Qed.

(** Streams of a document, asked for one after another in any order and in either
way, are delivered as they were written, as long as no stream with sectors of
its own is asked for twice; short streams may be. *)
Theorem C57_reads :
forall D t ignore cd (rs : list (bool * list str * Z * list Z * str)), good_document D -> dir_tree D t -> distinct_names (o_entries D) t ->
Forall (fun n => no_kelvin (dn_name n)) (o_entries D) -> init (doc_file D) ignore = Ok cd ->
Forall (fun '(_, path, d, l, c) => leads_to (o_entries D) t path d /\ Forall plain path /\ stream D d l c /\ d <= 249) rs ->
NoDup (system D ++ flat_map (fun '(_, _, _, l, _) => l) rs) ->
Forall2 delivers (answers (map (fun '(way, path, _, _, _) => (way, path)) rs) cd) (map (fun '(_, _, _, _, c) => c) rs).
Proof. exact C57_reads_proof. Qed.
Print Assumptions C57_reads.

Lemma ex_kelvin : Forall (fun n => no_kelvin (dn_name n)) (o_entries ex_doc).
Proof. cbn. repeat (constructor; [unfold no_kelvin; cbn; intuition discriminate|]). constructor. Qed.
Lemma ex_distinct : distinct_names (o_entries ex_doc) (Node 2 (Node 1 Nil Nil Nil) Nil (Node 3 Nil Nil Nil)).
Proof.
  intros d c C. cbn in C. repeat (destruct C as [C|C]; [injection C as <- <-|]); try destruct C;
  intros d1 n1 d2 n2 A B E F G; cbn in A, B; intuition subst; try reflexivity;
  cbn in E, F; injection E as <-; injection F as <-; exfalso; cbn in G; inversion G; subst; unfold same_letter in *; lia.
Qed.
(** Book and the short stream, the latter twice; then Book again. *)
Lemma ex_book : stream ex_doc 1 [8; 7] (map N.of_nat (seq 0 140)).
Proof.
  eexists. split; [lia|]. split; [reflexivity|]. split; [reflexivity|]. split; [cbn; lia|]. split; [reflexivity|].
  cbn [Z.leb Z.compare dn_size o_min ex_doc]. cbn. split; [ex_chain|]. split; [apply ex_present; vm_compute; reflexivity|].
  split; [|split; vm_compute; reflexivity]. repeat constructor.
Qed.
Lemma ex_short : stream ex_doc 3 [] (map N.of_nat (seq 64 64 ++ seq 0 6)).
Proof.
  eexists. split; [lia|]. split; [reflexivity|]. split; [reflexivity|]. split; [cbn; lia|]. split; [reflexivity|].
  cbn. split; [reflexivity|]. exists [1; 0]. split; [ex_chain|]. split; [|vm_compute; reflexivity]. repeat constructor. vm_compute. discriminate.
Qed.
Example C57_reads_ex :
  NoDup (system ex_doc ++ [8; 7]) /\
  exists cd, init (doc_file ex_doc) false = Ok cd /\
  answers [(false, [lit "Data"; lit "s"]); (true, [lit "book"]); (true, [lit "data"; lit "S"]); (false, [lit "Book"])] cd
  = [Ok (Some (map N.of_nat (seq 64 64 ++ seq 0 6), 0, 70));
     Ok (Some (map N.of_nat (seq 0 256), 0, 140));
     Ok (Some (map N.of_nat (seq 64 64 ++ seq 0 6), 0, 70)); Err CompDocError].
Proof.
  split; [cbn; repeat (constructor; [cbn; intuition discriminate|]); constructor|].
  eexists. split; [vm_compute; reflexivity|]. vm_compute. reflexivity.
Qed.

(** A stream with sectors of its own can be asked for once: the second time its
sectors are marked as used, and the document is reported as corrupt, unless it
was opened to ignore that and the stream is located. *)
Theorem C57_twice_refuted :
forall D t ignore cd way1 way2 path d l c, good_document D -> dir_tree D t -> distinct_names (o_entries D) t ->
Forall (fun n => no_kelvin (dn_name n)) (o_entries D) -> init (doc_file D) ignore = Ok cd ->
leads_to (o_entries D) t path d -> Forall plain path -> stream D d l c -> d <= 249 -> NoDup (system D ++ l) -> l <> [] ->
ignore = false \/ way2 = false ->
exists r, answers [(way1, path); (way2, path)] cd = [r; Err CompDocError] /\ delivers r c.
Proof. exact C57_twice_refuted_proof. Qed.
Print Assumptions C57_twice_refuted.

(** A file that does not start with the signature, or has no mark of little-endian
numbers, is refused. *)
Theorem C56_refuses :
forall mem ignore, firstn 8 mem <> [208; 207; 17; 224; 161; 177; 26; 225]%N \/ firstn 2 (skipn 28 mem) <> [254; 255]%N ->
  init mem ignore = Err CompDocError.
Proof. exact C56_refuses_proof. Qed.
Print Assumptions C56_refuses.

(** Whatever opens has no sector in two uses: the sectors of the extension of the
master table, of the table, of the directory, of the container and of its table
are all different, and the tables and the directory are what these sectors
hold. *)
Theorem C56_disjoint :
forall mem ignore cd dirstart, init mem ignore = Ok cd -> Forall (fun b => (b < 256)%N) mem -> word_at mem 48 dirstart ->
exists ext tab dir mini minitab, NoDup (ext ++ tab ++ dir ++ mini ++ minitab) /\
  words (cd_SAT cd) = flat_map (sector mem 512 (cd_sec_size cd)) tab /\
  words (cd_SSAT cd) = flat_map (sector mem 512 (cd_sec_size cd)) minitab /\
  chain (cd_SAT cd) dirstart dir /\
  (exists root es, cd_dirlist cd = root :: es /\ (0 < dn_size root -> 0 <= dn_first root -> chain (cd_SAT cd) (dn_first root) mini)) /\
  (exists bs, concat bs = flat_map (sector mem 512 (cd_sec_size cd)) dir /\ mapM dirnode_of bs = Ok (cd_dirlist cd)).
Proof. exact C56_disjoint_proof. Qed.
Print Assumptions C56_disjoint.

Example C56_disjoint_ex :
  exists cd, init (doc_file ex_doc) false = Ok cd /\ Forall (fun b => (b < 256)%N) (doc_file ex_doc) /\ word_at (doc_file ex_doc) 48 1 /\
  cd_SAT cd = ex_table /\
  (* with the table listed twice in the header it does not open *)
  init (firstn 80 (doc_file ex_doc) ++ [0; 0; 0; 0]%N ++ skipn 84 (doc_file ex_doc)) false = Err CompDocError.
Proof.
  eexists. split; [vm_compute; reflexivity|]. split.
  - apply Forall_forall. intros b B. assert (X : forallb (fun b => b <? 256)%N (doc_file ex_doc) = true) by (vm_compute; reflexivity).
    rewrite forallb_forall in X. apply N.ltb_lt. exact (X b B).
  - split; [split; [vm_compute; reflexivity|unfold is_int; lia]|]. split; vm_compute; reflexivity.
Qed.

