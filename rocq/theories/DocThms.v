(** * Compound documents: opening one and reading its streams by name (C56, C57): proofs of the property theorems *)

From Coq Require Import ZifyBool ZifyNat ZifyN QArith.
From Verif Require Import PyBase PyFloat PyBaseFacts Dbf SpecDbf DbfProofs XlStruct CompDoc SpecCompDoc CompDocProofs CompDocThms SpecSst Sst SstProofs SpecDoc DocProofs.
Open Scope nat_scope.
Open Scope nat_scope.
Open Scope Z_scope.

(** A request for a stream: by locate_named_stream or by get_named_stream,
    whose bytes are the whole of what it returns. *)
Definition ask (q : bool * list str) (cd : cdoc) : cdoc * res (option (str * Z * Z)) :=
  if fst q then locate_named_stream (snd q) cd
  else let '(cd, r) := get_named_stream (snd q) cd in
       (cd, do o <- r; Ok (match o with Some b => Some (b, 0, Z.of_nat (length b)) | None => None end)).
Fixpoint answers (qs : list (bool * list str)) (cd : cdoc) : list (res (option (str * Z * Z))) :=
  match qs with
  | [] => []
  | q :: qs' => let '(cd, r) := ask q cd in r :: answers qs' cd
  end.
(** The answer gives the bytes c. *)
Definition delivers (r : res (option (str * Z * Z))) (c : str) : Prop :=
  exists m pos, r = Ok (Some (m, pos, Z.of_nat (length c))) /\ 0 <= pos /\ firstn (length c) (skipn (Z.to_nat pos) m) = c.

(** An example: sectors of 128 bytes; the table in sector 0, the directory in 1
    to 4, the container in 5, its table in 6, the stream Book in 8 and 7, and
    a last one that is cut short; the storage Data has the short stream s in the pieces 1 and 0 of the
    container. *)
Definition name_field (nm : str) : str :=
  flat_map (le_bytes 2) (flat_map utf16 nm) ++ [0; 0]%N ++ repeat 0%N (62 - 2 * length nm).
Definition entry_bytes (e : dirnode) : str :=
  name_field (dn_name e) ++ le_bytes 2 (2 * Z.of_nat (length (dn_name e)) + 2) ++ [Z.to_N (dn_etype e); 1%N]
  ++ words [dn_left e; dn_right e; dn_root e] ++ repeat 0%N 36 ++ words [dn_first e; dn_size e] ++ repeat 0%N 4.
Definition ex_entries : list dirnode :=
  [mkdirnode (lit "Root Entry") 5 (-1) (-1) 2 5 128; mkdirnode (lit "Book") 2 (-1) (-1) (-1) 8 140;
   mkdirnode (lit "Data") 1 1 (-1) 3 0 0; mkdirnode (lit "s") 2 (-1) (-1) (-1) 1 70].
Definition ex_table : list Z := [-3; 2; 3; 4; -2; -2; -2; -2; 7] ++ repeat (-1) 23.
Definition ex_minitable : list Z := [-2; 0] ++ repeat (-1) 30.
Definition ex_doc : document :=
  mkdocument (repeat 9%N 20) 7 6 (repeat 0%N 10) (1, 0) 100 (0 :: repeat (-1) 108) [] [(0, ex_table)] [1; 2; 3; 4] ex_entries
    [5] [(6, ex_minitable)]
    ([words ex_table] ++ map entry_bytes ex_entries
     ++ [map N.of_nat (seq 0 128); words ex_minitable; map N.of_nat (seq 128 128); map N.of_nat (seq 0 128); [7%N]]).

(** Numbers in a file. *)
Definition word_at (mem : str) (a : nat) (z : Z) : Prop := firstn 4 (skipn a mem) = le_bytes 4 z /\ is_int z.

Lemma C56_opens_proof :
forall D ignore, good_document D ->
exists cd, init (doc_file D) ignore = Ok cd /\
  cd_SAT cd = table D /\ cd_SSAT cd = minitable D /\ (0 < root_size D -> cd_SSCS cd = Some (container D)) /\
  cd_dirlist cd = o_entries D /\ cd_sec_size cd = 2 ^ o_shift D /\ cd_short_sec_size cd = 2 ^ o_short_shift D /\
  cd_min_std cd = o_min D /\ cd_ignore cd = ignore.
Proof.
intros D ignore G. destruct (init_ok D ignore G) as (seen & k & E & _). eexists. split; [exact E|]. cbn.
repeat (split; [reflexivity|]). split; [|repeat split].
intro R. destruct (Z.eqb_spec (root_size D) 0); [lia|reflexivity].
Qed.

Lemma tree_kids dl root t k : nth_error dl 0 = Some root -> unfolds dl (dn_root root) t -> NoDup (0 :: entries t) ->
  family_of dl = Ok k -> kids k t.
Proof.
  intros R U N F. destruct (C52_tree_proof dl root t R U N) as (k' & K & _ & _ & H & _). rewrite F in K. injection K as <-.
  intros d c I0. exact (proj1 (H d c I0)).
Qed.

Lemma C57_search_proof :
forall dl root t k path, nth_error dl 0 = Some root -> unfolds dl (dn_root root) t -> NoDup (0 :: entries t) ->
family_of dl = Ok k -> distinct_names dl t -> Forall (fun n => no_kelvin (dn_name n)) dl -> Forall plain path -> path <> [] ->
(forall d, dir_search path dl k 0 = Ok (Some d) <-> exists p q, path = p ++ q /\ leads_to dl t p d) /\
(dir_search path dl k 0 = Ok None <-> missing dl t path) /\
((forall p q d, path = p ++ q -> ~ leads_to dl t p d) -> ~ missing dl t path -> dir_search path dl k 0 = Err CompDocError).
Proof.
intros dl root t k path R U N F DN K P NE. pose proof (tree_kids dl root t k R U N F) as KI.
pose proof (unfolds_entries dl _ t U) as E. assert (S0 : In (0, t) ((0, t) :: storages t)) by (left; reflexivity).
pose proof (search_sound dl k t KI K E path t 0 S0 P NE) as SO. split; [|split].
- intro d. split.
  + intro H. rewrite H in SO. exact SO.
  + intros (p & q & -> & L). apply (search_found dl k t KI K E DN t p d L 0 q S0). apply Forall_app in P. apply P.
- split; [intro H; rewrite H in SO; exact SO|]. intro M. exact (search_missing dl k t KI K E DN t path M 0 S0 P).
- intros A B. destruct (dir_search path dl k 0) as [[d|]|e].
  + exfalso. destruct SO as (p & q & Q & L). exact (A p q d Q L).
  + exfalso. exact (B SO).
  + rewrite SO. reflexivity.
Qed.

Lemma answers_ok D t ignore k : good_document D -> dir_tree D t -> distinct_names (o_entries D) t ->
  Forall (fun n => no_kelvin (dn_name n)) (o_entries D) -> family_of (o_entries D) = Ok k ->
  forall rs : list (bool * list str * Z * list Z * str),
  Forall (fun '(_, path, d, l, c) => leads_to (o_entries D) t path d /\ Forall plain path /\ stream D d l c /\ d <= 249) rs ->
  forall seen u, in_use D seen u -> NoDup (flat_map (fun '(_, _, _, l, _) => l) rs) ->
  (forall s, In s (flat_map (fun '(_, _, _, l, _) => l) rs) -> ~ In s u) ->
  Forall2 delivers (answers (map (fun '(way, path, _, _, _) => (way, path)) rs) (opened D ignore k seen)) (map (fun '(_, _, _, _, c) => c) rs).
Proof.
  intros G T DN K F rs. pose proof T as (root & T1 & T2 & T3 & T4).
  assert (R0 : nth_error (o_entries D) 0 = Some root) by (destruct (o_entries D); exact T1).
  pose proof (tree_kids _ root t k R0 T3 T4 F) as KI. pose proof (unfolds_entries _ _ t T3) as E.
  induction 1 as [|[[[[way path] d] l] c] rs (L & P & S & B) _ IH]; intros seen u U ND FR; [constructor|].
  cbn [map flat_map] in *. destruct (NoDup_app_parts _ _ _ ND) as (N1 & N2 & N3).
  assert (DS : dir_search path (o_entries D) k 0 = Ok (Some d)).
  { rewrite <- (app_nil_r path). exact (search_found _ k t KI K E DN t path d L 0 [] (or_introl eq_refl) P). }
  assert (FR1 : forall s, In s l -> ~ In s u) by (intros s S1; apply FR; apply in_or_app; left; exact S1).
  assert (FR2 : forall s, In s (flat_map (fun '(_, _, _, l, _) => l) rs) -> ~ In s (l ++ u)).
  { intros s S1 S2. apply in_app_iff in S2. destruct S2 as [S2|S2]; [exact (N3 s S2 S1)|]. apply (FR s); [apply in_or_app; right; exact S1|exact S2]. }
  cbn [answers]. unfold ask. cbn [fst snd]. destruct way.
  - destruct (locate_ok D ignore k seen path d l c u G DS S B U FR1) as (seen' & m & pos & R & U' & P' & C'). rewrite R.
    constructor; [exists m, pos; repeat split; assumption|]. exact (IH seen' (l ++ u) U' N2 FR2).
  - destruct (get_ok D ignore k seen path d l c u G DS S B U FR1) as (seen' & R & U'). rewrite R. cbn [bind].
    constructor; [exists c, 0; repeat split; [lia|apply firstn_all]|]. exact (IH seen' (l ++ u) U' N2 FR2).
Qed.

Lemma C57_reads_proof :
forall D t ignore cd (rs : list (bool * list str * Z * list Z * str)), good_document D -> dir_tree D t -> distinct_names (o_entries D) t ->
Forall (fun n => no_kelvin (dn_name n)) (o_entries D) -> init (doc_file D) ignore = Ok cd ->
Forall (fun '(_, path, d, l, c) => leads_to (o_entries D) t path d /\ Forall plain path /\ stream D d l c /\ d <= 249) rs ->
NoDup (system D ++ flat_map (fun '(_, _, _, l, _) => l) rs) ->
Forall2 delivers (answers (map (fun '(way, path, _, _, _) => (way, path)) rs) cd) (map (fun '(_, _, _, _, c) => c) rs).
Proof.
intros D t ignore cd rs G T DN K I0 F ND. destruct (init_ok D ignore G) as (seen & k & E & FA & U). rewrite E in I0. injection I0 as <-.
destruct (NoDup_app_parts _ _ _ ND) as (_ & N2 & N3).
apply (answers_ok D t ignore k G T DN K FA rs F seen (system D) U N2). intros s S1 S2. exact (N3 s S2 S1).
Qed.

Lemma again_get D ignore k seen path d l c u : good_document D -> dir_search path (o_entries D) k 0 = Ok (Some d) ->
  stream D d l c -> d <= 249 -> in_use D seen (l ++ u) -> l <> [] ->
  snd (get_named_stream path (opened D ignore k seen)) = Err CompDocError /\
  (ignore = false -> snd (locate_named_stream path (opened D ignore k seen)) = Err CompDocError).
Proof.
  intros G DS ST B [UL U] NE. pose proof ST as (n & P0 & N & ET & S0 & LC & H). pose proof (size_pos _ G).
  pose proof (stream_bound D d l c n G ST N) as BD.
  destruct (Z.leb_spec (o_min D) (dn_size n)) as [M|M]; [|destruct H as [H _]; congruence].
  destruct H as (C & P & F & L & E). inversion C as [|s0 s' l0 C1 C2 C3 C0]; subst; [congruence|].
  set (s := dn_first n) in *.
  assert (S1 : exists v, nth_error seen (Z.to_nat s) = Some v /\ v <> 0).
  { pose proof (Forall_inv P) as Ps. specialize (U s Ps). destruct (nth_error seen (Z.to_nat s)) as [v|] eqn:V.
    - exists v. split; [reflexivity|]. intros ->. apply (proj1 U eq_refl). left. reflexivity.
    - exfalso. apply nth_error_None in V. destruct Ps. lia. }
  destruct S1 as (v & V1 & V2). split.
  - unfold get_named_stream. cbn [opened cd_dirlist cd_kin]. rewrite DS, py_index_pos by exact P0. rewrite N.
    cbn [opened cd_min_std cd_mem cd_SAT cd_sec_size cd_seen]. destruct (Z.leb_spec (o_min D) (dn_size n)) as [M'|M']; [|lia]. fold s.
    pose proof (C51_cycle_proof (doc_file D) 512 (table D) (size_of D) s [] s (d + 6) seen (Some (dn_size n)) (path_here _ s) ltac:(lia) (NoDup_nil _) (Forall_nil _) C1 (or_intror (ex_intro _ v (conj V1 V2)))) as Q.
    destruct (get_stream (doc_file D) 512 (table D) (size_of D) s (Some (dn_size n)) (Some (d + 6)) seen) as [seen' r]. cbn [snd] in Q. rewrite Q. reflexivity.
  - intros ->. unfold locate_named_stream. cbn [opened cd_dirlist cd_kin]. rewrite DS, py_index_pos by exact P0. rewrite N.
    cbn [opened cd_min_std cd_data_len cd_mem cd_SAT cd_sec_size cd_seen cd_ignore].
    destruct (Z.of_nat (length (doc_file D)) - 512 <? dn_size n) eqn:BB; [lia|].
    destruct (Z.leb_spec (o_min D) (dn_size n)) as [M'|M']; [|lia]. fold s. unfold locate_stream.
    destruct (s <? 0) eqn:S2; [lia|]. cbv zeta. cbn [locate_loop]. rewrite S2, py_index_pos by exact C1. rewrite V1.
    destruct (negb (v =? 0) && negb false) eqn:V3; [reflexivity|lia].
Qed.

Lemma C57_twice_refuted_proof :
forall D t ignore cd way1 way2 path d l c, good_document D -> dir_tree D t -> distinct_names (o_entries D) t ->
Forall (fun n => no_kelvin (dn_name n)) (o_entries D) -> init (doc_file D) ignore = Ok cd ->
leads_to (o_entries D) t path d -> Forall plain path -> stream D d l c -> d <= 249 -> NoDup (system D ++ l) -> l <> [] ->
ignore = false \/ way2 = false ->
exists r, answers [(way1, path); (way2, path)] cd = [r; Err CompDocError] /\ delivers r c.
Proof.
intros D t ignore cd way1 way2 path d l c G T DN K I0 L P S B ND NE W.
destruct (init_ok D ignore G) as (seen & k & E & FA & U). rewrite E in I0. injection I0 as <-.
change (mkcdoc _ _ _ _ _ _ _ _ _ _ _ seen) with (opened D ignore k seen).
pose proof T as (root & T1 & T2 & T3 & T4).
assert (R0 : nth_error (o_entries D) 0 = Some root) by (destruct (o_entries D); exact T1).
pose proof (tree_kids _ root t k R0 T3 T4 FA) as KI. pose proof (unfolds_entries _ _ t T3) as EN.
assert (DS : dir_search path (o_entries D) k 0 = Ok (Some d)).
{ rewrite <- (app_nil_r path). exact (search_found _ k t KI K EN DN t path d L 0 [] (or_introl eq_refl) P). }
destruct (NoDup_app_parts _ _ _ ND) as (_ & _ & N3).
assert (FR1 : forall s, In s l -> ~ In s (system D)) by (intros s S1 S2; exact (N3 s S2 S1)).
assert (X : exists r seen', ask (way1, path) (opened D ignore k seen) = (opened D ignore k seen', r) /\ delivers r c /\ in_use D seen' (l ++ system D)).
{ unfold ask. cbn [fst snd]. destruct way1.
  - destruct (locate_ok D ignore k seen path d l c (system D) G DS S B U FR1) as (seen' & m & pos & R & U' & P' & C').
    exists (Ok (Some (m, pos, Z.of_nat (length c)))), seen'. rewrite R. split; [reflexivity|]. split; [exists m, pos; repeat split; assumption|exact U'].
  - destruct (get_ok D ignore k seen path d l c (system D) G DS S B U FR1) as (seen' & R & U'). rewrite R. cbn [bind].
    eexists _, seen'. split; [reflexivity|]. split; [exists c, 0; repeat split; [lia|apply firstn_all]|exact U']. }
destruct X as (r & seen' & X1 & X2 & X3). exists r. split; [|exact X2]. cbn [answers]. rewrite X1.
destruct (again_get D ignore k seen' path d l c (system D) G DS S B X3 NE) as [A1 A2].
unfold ask. cbn [fst snd]. destruct way2.
- destruct W as [W|W]; [|discriminate W]. specialize (A2 W).
  destruct (locate_named_stream path (opened D ignore k seen')) as [cd' r']. cbn [snd] in A2. rewrite A2. reflexivity.
- destruct (get_named_stream path (opened D ignore k seen')) as [cd' r']. cbn [snd] in A1. rewrite A1. reflexivity.
Qed.

Lemma C56_refuses_proof :
forall mem ignore, firstn 8 mem <> [208; 207; 17; 224; 161; 177; 26; 225]%N \/ firstn 2 (skipn 28 mem) <> [254; 255]%N ->
  init mem ignore = Err CompDocError.
Proof.
intros mem ignore H. unfold init. destruct (str_eqb (bytes_at 0 8 mem) SIGNATURE) eqn:A; [|reflexivity].
destruct (str_eqb (bytes_at 28 2 mem) [254; 255]%N) eqn:B; [|reflexivity].
apply str_eqb_eq in A. apply str_eqb_eq in B. destruct H as [H|H]; exfalso; apply H; [exact A|exact B].
Qed.

Definition taken (n : nat) (seen u : list Z) : Prop :=
  length seen = n /\ forall s, 0 <= s < Z.of_nat n -> (nth_error seen (Z.to_nat s) = Some 0 <-> ~ In s u).
Lemma taken_mark n seen u s id seen' x : taken n seen u -> 0 <= s -> id <> 0 -> mark seen (Some id) s = (seen', Ok x) ->
  ~ In s u /\ taken n seen' (s :: u) /\ s < Z.of_nat n.
Proof.
  intros [L U] S I0 M. apply mark_seen_ok in M; [|exact S]. destruct M as (M1 & M2 & ->).
  assert (LS : (Z.to_nat s < length seen)%nat) by (apply nth_error_Some; congruence).
  split; [apply U; [lia|exact M1]|]. split; [|lia]. split; [rewrite set_length; assumption|]. intros y Y. rewrite nth_error_set by exact LS.
  destruct (Nat.eqb_spec (Z.to_nat y) (Z.to_nat s)) as [Q|Q].
  - assert (y = s) by lia. subst y. split; [intro X; injection X; lia|]. intro X. exfalso. apply X. left. reflexivity.
  - rewrite (U y Y). cbn [In]. split; intros A B; apply A; [destruct B as [->|B]; [congruence|exact B]|right; exact B].
Qed.
Definition grows (n : nat) (seen u l seen' : list Z) : Prop :=
  NoDup l /\ (forall s, In s l -> ~ In s u) /\ taken n seen' (l ++ u).
Lemma grows_cons n seen u s seen1 l seen' : ~ In s u -> grows n seen1 (s :: u) l seen' -> grows n seen u (s :: l) seen'.
Proof.
  intros N (A & B & [C1 C2]). split; [constructor; [intro X; apply (B s X); left; reflexivity|exact A]|]. split.
  - intros y [<-|Y]; [exact N|]. intro X. apply (B y Y). right. exact X.
  - split; [exact C1|]. intros y Y. rewrite (C2 y Y). cbn [app In]. rewrite !in_app_iff. cbn [In]. tauto.
Qed.
Lemma grows_nil n seen u : taken n seen u -> grows n seen u [] seen.
Proof. intro T. split; [constructor|]. split; [intros s []|exact T]. Qed.

Lemma le_bytes_step n c y : (c < 256)%N -> le_bytes (S n) (Z.of_N c + 256 * y) = c :: le_bytes n y.
Proof.
  intro C. cbn [le_bytes]. rewrite (Z.mul_comm 256), Z.mod_add, Z.div_add by lia. rewrite Z.mod_small, Z.div_small by lia. rewrite N2Z.id. reflexivity.
Qed.
Lemma word_bytes b : length b = 4%nat -> Forall (fun x => (x < 256)%N) b -> le_bytes 4 (le_signed b) = b.
Proof.
  intros L F. destruct b as [|b0 [|b1 [|b2 [|b3 [|]]]]]; try discriminate L.
  inversion F as [|? ? F0 Fa]; subst. inversion Fa as [|? ? F1 Fb]; subst. inversion Fb as [|? ? F2 Fc]; subst. inversion Fc as [|? ? F3 _]; subst.
  assert (X : exists k, le_signed [b0; b1; b2; b3] = Z.of_N b0 + 256 * (Z.of_N b1 + 256 * (Z.of_N b2 + 256 * (Z.of_N b3 + 256 * k)))).
  { unfold le_signed. cbn [le_value length]. change (2 ^ (8 * Z.of_nat 4)) with 4294967296.
    destruct (2 * _ <? 4294967296); [exists 0|exists (-1)]; lia. }
  destruct X as [k ->]. rewrite !le_bytes_step by assumption. reflexivity.
Qed.
Lemma words_ints n : forall b, length b = (4 * n)%nat -> Forall (fun x => (x < 256)%N) b -> words (ints n b) = b.
Proof.
  induction n as [|n IH]; intros b L F; [destruct b; [reflexivity|discriminate L]|]. cbn [ints].
  change (words (le_signed (firstn 4 b) :: ints n (skipn 4 b))) with (le_bytes 4 (le_signed (firstn 4 b)) ++ words (ints n (skipn 4 b))).
  rewrite word_bytes, IH; [apply firstn_skipn|rewrite skipn_length; lia|rewrite <- (firstn_skipn 4 b) in F; apply Forall_app in F; apply F|
    rewrite firstn_length; lia|rewrite <- (firstn_skipn 4 b) in F; apply Forall_app in F; apply F].
Qed.
Lemma unpack_sound k b l : unpack_ints k b = Ok l -> 0 <= k -> Forall (fun x => (x < 256)%N) b -> words l = b.
Proof.
  intros H K F. unfold unpack_ints in H. destruct (Z.eqb_spec (Z.of_nat (length b)) (4 * k)) as [E|E]; [|discriminate H].
  injection H as <-. apply words_ints; [lia|exact F].
Qed.
Lemma bytes_part (mem : str) a n : Forall (fun x => (x < 256)%N) mem -> Forall (fun x => (x < 256)%N) (firstn n (skipn a mem)).
Proof.
  intro F. rewrite <- (firstn_skipn a mem) in F. apply Forall_app in F. destruct F as [_ F].
  rewrite <- (firstn_skipn n (skipn a mem)) in F. apply Forall_app in F. apply F.
Qed.

Lemma msatx_sound n mem sz : forall f seen u sid msat msat' seen', taken n seen u ->
  msatx_loop f mem sz seen sid msat = Ok (msat', seen') -> exists l, grows n seen u l seen'.
Proof.
  induction f as [|f IH]; intros seen u sid msat msat' seen' T H; cbn [msatx_loop] in H;
    (destruct ((sid =? EOCSID) || (sid =? FREESID) || (sid =? MSATSID));
     [injection H as <- <-; exists []; exact (grows_nil _ _ _ T)|]);
    destruct (Z.of_nat (length seen) <=? sid); try discriminate H; destruct (Z.ltb_spec sid 0); try discriminate H.
  destruct (mark seen (Some 1) sid) as [seen1 [x|]] eqn:M; [|discriminate H]. cbv zeta in H.
  destruct (unpack_ints _ _) as [more|]; [|discriminate H]. cbn [bind] in H.
  destruct (taken_mark n seen u sid 1 seen1 x T ltac:(lia) ltac:(discriminate) M) as (A & B & _).
  destruct (IH _ _ _ _ _ _ B H) as (l & G). exists (sid :: l). eapply grows_cons; eassumption.
Qed.
Lemma sat_sound n mem sz : 0 < sz -> Forall (fun x => (x < 256)%N) mem -> forall ids seen u sat seen', taken n seen u ->
  sat_loop mem sz seen ids = Ok (sat, seen') ->
  exists l, grows n seen u l seen' /\ words sat = flat_map (sector mem 512 sz) l.
Proof.
  intros SZ F. induction ids as [|i ids IH]; intros seen u sat seen' T H; cbn [sat_loop] in H.
  - injection H as <- <-. exists []. split; [exact (grows_nil _ _ _ T)|reflexivity].
  - destruct ((i =? FREESID) || (i =? EOCSID)) eqn:C1; [exact (IH _ _ _ _ T H)|].
    destruct (Z.of_nat (length seen) <=? i); [exact (IH _ _ _ _ T H)|]. destruct (Z.ltb_spec i (-2)); [discriminate H|].
    destruct (mark seen (Some 2) i) as [seen1 [x|]] eqn:M; [|discriminate H]. cbv zeta in H.
    destruct (unpack_ints _ _) as [sids|] eqn:UP; [|discriminate H]. cbn [bind] in H.
    destruct (sat_loop mem sz seen1 ids) as [[rest seen2]|] eqn:R; [|discriminate H]. cbn [bind] in H. injection H as <- <-.
    assert (I0 : 0 <= i) by (unfold FREESID, EOCSID in C1; lia).
    destruct (taken_mark n seen u i 2 seen1 x T I0 ltac:(discriminate) M) as (A & B & _).
    destruct (IH _ _ _ _ B R) as (l & G & W). exists (i :: l). split; [eapply grows_cons; eassumption|].
    rewrite words_app, W. cbn [flat_map]. f_equal.
    rewrite pyslice_nonneg in UP by nia. apply unpack_sound in UP; [|apply Z.div_pos; lia|apply bytes_part; exact F].
    rewrite UP. unfold sector. rewrite (Z.mul_comm i). reflexivity.
Qed.
Lemma ssat_sound n mem sat sz : 0 < sz -> Forall (fun x => (x < 256)%N) mem -> forall k seen u s ssat seen', taken n seen u ->
  ssat_loop k mem sat sz seen s = Ok (ssat, seen') ->
  exists l, grows n seen u l seen' /\ words ssat = flat_map (sector mem 512 sz) l.
Proof.
  intros SZ F. induction k as [|k IH]; intros seen u s ssat seen' T H; cbn [ssat_loop] in H.
  - destruct (s =? EOCSID); [|discriminate H]. injection H as <- <-. exists []. split; [exact (grows_nil _ _ _ T)|reflexivity].
  - destruct (Z.ltb_spec s 0); [discriminate H|]. destruct (mark seen (Some 5) s) as [seen1 [x|]] eqn:M; [|discriminate H]. cbv zeta in H.
    destruct (unpack_ints _ _) as [news|] eqn:UP; [|discriminate H]. cbn [bind] in H.
    destruct (py_index sat s) as [s'|]; [|discriminate H].
    destruct (ssat_loop k mem sat sz seen1 s') as [[rest seen2]|] eqn:R; [|discriminate H]. cbn [bind] in H. injection H as <- <-.
    destruct (taken_mark n seen u s 5 seen1 x T ltac:(lia) ltac:(discriminate) M) as (A & B & _).
    destruct (IH _ _ _ _ _ B R) as (l & G & W). exists (s :: l). split; [eapply grows_cons; eassumption|].
    rewrite words_app, W. cbn [flat_map]. f_equal.
    rewrite pyslice_nonneg in UP by nia. apply unpack_sound in UP; [|apply Z.div_pos; lia|apply bytes_part; exact F].
    rewrite UP. reflexivity.
Qed.
Lemma get_takes n mem base sat sz id : id <> 0 -> forall f seen u s todo acc seen' b, taken n seen u ->
  get_loop f mem base sat sz (Some id) seen s todo acc = Some (seen', Ok b) ->
  exists l, chain sat s l /\ grows n seen u l seen'.
Proof.
  intros ID. induction f as [|f IH]; intros seen u s todo acc seen' b T H; cbn [get_loop] in H;
    (destruct (Z.ltb_spec s 0);
     [injection H as <- H; destruct (Z.eqb_spec s EOCSID) as [->|]; [|discriminate H]; exists []; split; [constructor|exact (grows_nil _ _ _ T)]|]);
    [discriminate H|].
  destruct (mark seen (Some id) s) as [seen1 [x|]] eqn:M; [|discriminate H]. cbv zeta in H.
  destruct (py_index sat s) as [s'|] eqn:P; [|discriminate H]. rewrite py_index_pos in P by assumption.
  destruct (taken_mark n seen u s id seen1 x T ltac:(lia) ID M) as (A & B & _).
  destruct (IH _ _ _ _ _ _ _ B H) as (l & C & G). exists (s :: l). split; [econstructor; eassumption|]. eapply grows_cons; eassumption.
Qed.
Lemma get_stream_takes n mem base sat sz id seen u s size seen' b : id <> 0 -> taken n seen u ->
  get_stream mem base sat sz s size (Some id) seen = (seen', Ok b) -> exists l, chain sat s l /\ grows n seen u l seen'.
Proof.
  intros ID T H. unfold get_stream in H. destruct (get_loop _ _ _ _ _ _ _ _ _ _) as [[s1 [b1|]]|] eqn:E; try discriminate H.
  injection H as <- <-. exact (get_takes n mem base sat sz id ID _ _ _ _ _ _ _ _ T E).
Qed.
Lemma chunks_all n : (0 < n)%nat -> forall f b, (length b <= f)%nat -> concat (chunks f n b) = b.
Proof.
  intro N. induction f as [|f IH]; intros b L; [destruct b; [reflexivity|cbn in L; lia]|].
  destruct b as [|c b]; [reflexivity|]. change (chunks (S f) n (c :: b)) with (firstn n (c :: b) :: chunks f n (skipn n (c :: b))).
  cbn [concat]. rewrite IH; [apply firstn_skipn|]. rewrite skipn_length. cbn [length] in *. lia.
Qed.

Lemma C56_disjoint_proof :
forall mem ignore cd dirstart, init mem ignore = Ok cd -> Forall (fun b => (b < 256)%N) mem -> word_at mem 48 dirstart ->
exists ext tab dir mini minitab, NoDup (ext ++ tab ++ dir ++ mini ++ minitab) /\
  words (cd_SAT cd) = flat_map (sector mem 512 (cd_sec_size cd)) tab /\
  words (cd_SSAT cd) = flat_map (sector mem 512 (cd_sec_size cd)) minitab /\
  chain (cd_SAT cd) dirstart dir /\
  (exists root es, cd_dirlist cd = root :: es /\ (0 < dn_size root -> 0 <= dn_first root -> chain (cd_SAT cd) (dn_first root) mini)) /\
  (exists bs, concat bs = flat_map (sector mem 512 (cd_sec_size cd)) dir /\ mapM dirnode_of bs = Ok (cd_dirlist cd)).
Proof.
intros mem ignore cd ds H F WD. unfold init in H.
destruct (negb (str_eqb (bytes_at 0 8 mem) SIGNATURE)); [discriminate H|].
destruct (negb (str_eqb (bytes_at 28 2 mem) [254; 255]%N)); [discriminate H|].
destruct (negb (length (bytes_at 30 4 mem) =? 4)%nat); [discriminate H|]. cbv zeta in H.
destruct (negb (length (bytes_at 44 32 mem) =? 32)%nat); [discriminate H|].
set (ssz := if 20 <? le_value (bytes_at 30 2 mem) then 9 else le_value (bytes_at 30 2 mem)) in *.
set (sz := 2 ^ ssz) in *.
set (n := Z.to_nat ((Z.of_nat (length mem) - 512) / sz + (if (Z.of_nat (length mem) - 512) mod sz =? 0 then 0 else 1))) in *.
destruct (unpack_ints 109 (bytes_at 76 436 mem)) as [msat|]; [|discriminate H]. cbn [bind] in H.
destruct (Z.leb_spec (sz / 4) 1) as [Q|Q]; [discriminate H|].
assert (SZ : 0 < sz) by (destruct (Z.lt_ge_cases 0 sz) as [|X]; [assumption|exfalso; assert (sz / 4 <= 0) by (apply Z.div_le_upper_bound; lia); lia]).
cbn [Nat.add Nat.mul] in H. destruct WD as [WD WI].
assert (W1 : le_signed (bytes_at 48 4 mem) = ds).
{ change (bytes_at 48 4 mem) with (firstn 4 (skipn 48 mem)). rewrite WD. apply le_signed_bytes. exact WI. }
rewrite W1 in H.
assert (T0 : taken n (repeat 0 n) []).
{ split; [apply repeat_length|]. intros s S. split; [intros _ []|]. intros _. apply nth_error_repeat. lia. }
match type of H with bind ?e _ = _ => destruct e as [[msat1 seen1]|] eqn:MX; [|discriminate H] end. cbn [bind] in H.
assert (X1 : exists l, grows n (repeat 0 n) [] l seen1).
{ destruct (_ && _) in MX; [injection MX as <- <-; exists []; exact (grows_nil _ _ _ T0)|]. exact (msatx_sound n mem sz _ _ _ _ _ _ _ T0 MX). }
destruct X1 as (ext & E1 & E2 & E3).
destruct (sat_loop mem sz seen1 msat1) as [[sat seen2]|] eqn:S2; [|discriminate H]. cbn [bind] in H.
destruct (sat_sound n mem sz SZ F _ _ _ _ _ E3 S2) as (tab & (T1 & T2 & T3) & TW).
destruct (get_stream mem 512 sat sz ds None (Some 3) seen2) as [seen3 [dbytes|]] eqn:G3; [|discriminate H]. cbn [bind] in H.
destruct (get_stream_takes n mem 512 sat sz 3 seen2 _ ds None seen3 dbytes ltac:(discriminate) T3 G3) as (dir & D1 & D2 & D3 & D4).
destruct (C51_sound_proof mem 512 sat sz ds 3 seen2 seen3 None dbytes ltac:(lia) SZ ltac:(discriminate) G3 I) as (dir' & D5 & _ & _ & D6).
pose proof (chain_det _ _ _ D1 _ D5) as <-.
destruct (mapM dirnode_of (chunks (length dbytes) 128 dbytes)) as [dl|] eqn:DM; [|discriminate H]. cbn [bind] in H.
destruct (family_of dl) as [k|]; [|discriminate H]. cbn [bind] in H.
destruct (py_index dl 0) as [root|] eqn:RT; [|discriminate H].
destruct (negb (dn_etype root =? 5)); [discriminate H|].
match type of H with (let '(_, _) := ?e in _) = _ => destruct e as [seen4 [sscs|]] eqn:G4; [|discriminate H] end. cbn [bind] in H.
assert (X4 : exists l, (0 < dn_size root -> 0 <= dn_first root -> chain sat (dn_first root) l) /\ grows n seen3 (dir ++ tab ++ ext ++ []) l seen4).
{ destruct ((dn_first root <? 0) || (dn_size root =? 0)) eqn:B.
  - injection G4 as <- <-. exists []. split; [intros A1 A2; lia|exact (grows_nil _ _ _ D4)].
  - destruct (get_stream mem 512 sat sz (dn_first root) (Some (dn_size root)) (Some 4) seen3) as [seen4' [b|]] eqn:G4'; [|discriminate G4].
    cbn [bind] in G4. injection G4 as <- <-.
    destruct (get_stream_takes n mem 512 sat sz 4 seen3 _ _ _ _ _ ltac:(discriminate) D4 G4') as (l & C1 & C2). exists l. split; [intros; exact C1|exact C2]. }
destruct X4 as (mini & M1 & M2 & M3 & M4).
match type of H with bind ?e _ = _ => destruct e as [[ssat seen5]|] eqn:S5; [|discriminate H] end. cbn [bind] in H.
assert (X5 : exists l, grows n seen4 (mini ++ dir ++ tab ++ ext ++ []) l seen5 /\ words ssat = flat_map (sector mem 512 sz) l).
{ destruct (0 <? dn_size root); [|injection S5 as <- <-; exists []; split; [exact (grows_nil _ _ _ M4)|reflexivity]].
  destruct (_ <? 0) in S5; [discriminate S5|]. exact (ssat_sound n mem sat sz SZ F _ _ _ _ _ _ M4 S5). }
destruct X5 as (mt & (Y1 & Y2 & Y3) & Y4).
injection H as <-. cbn [cd_SAT cd_SSAT cd_sec_size cd_dirlist].
exists ext, tab, dir, mini, mt. rewrite app_nil_r in *. split; [|split; [exact TW|split; [exact Y4|split; [exact D1|split]]]].
- assert (AP : forall a b : list Z, NoDup a -> NoDup b -> (forall s, In s b -> ~ In s a) -> NoDup (a ++ b)).
  { intros a b A B C. induction A as [|x a X A IH]; [exact B|]. cbn [app]. constructor.
    - intro Z1. apply in_app_iff in Z1. destruct Z1 as [Z1|Z1]; [exact (X Z1)|]. apply (C x Z1). left. reflexivity.
    - apply IH. intros s S1 S9. apply (C s S1). right. exact S9. }
  assert (MEM : forall s, In s (tab ++ dir ++ mini ++ mt) -> ~ In s ext).
  { intros s S1 S3. rewrite !in_app_iff in S1. destruct S1 as [S1|[S1|[S1|S1]]].
    - exact (T2 s S1 S3).
    - apply (D3 s S1). rewrite in_app_iff. tauto.
    - apply (M3 s S1). rewrite !in_app_iff. tauto.
    - apply (Y2 s S1). rewrite !in_app_iff. tauto. }
  apply AP; [exact E1| |exact MEM]. apply AP; [exact T1| |].
  + apply AP; [exact D2| |].
    * apply AP; [exact M2|exact Y1|]. intros s S1 S3. apply (Y2 s S1). rewrite !in_app_iff. tauto.
    * intros s S1 S3. rewrite in_app_iff in S1. destruct S1 as [S1|S1]; [apply (M3 s S1)|apply (Y2 s S1)]; rewrite !in_app_iff; tauto.
  + intros s S1 S3. rewrite !in_app_iff in S1. destruct S1 as [S1|[S1|S1]]; [apply (D3 s S1)|apply (M3 s S1)|apply (Y2 s S1)]; rewrite !in_app_iff; tauto.
- destruct dl as [|r es]; [discriminate RT|]. cbn in RT. injection RT as ->. exists root, es. split; [reflexivity|exact M1].
- exists (chunks (length dbytes) 128 dbytes). rewrite chunks_all by lia. split; [exact D6|exact DM].
Qed.

