(** * Opening any file ends (C65): proofs of the property theorems *)

From Coq Require Import ZifyBool ZifyNat ZifyN QArith.
From Verif Require Import PyBase PyFloat PyBaseFacts Dbf SpecDbf DbfProofs XlStruct CompDoc SpecCompDoc CompDocProofs CompDocThms SpecSst Sst SpecDoc DocProofs DocThms ReadXl SpecBiff Biff BiffProofs.
Open Scope nat_scope.
Open Scope nat_scope.
Open Scope Z_scope.

(** Following the table from s never ends: it comes back to a sector. *)
Definition goes_round (sat : list Z) (s : Z) : Prop := exists l t, path sat s l t /\ In t l.

(** The 128 bytes of a directory entry. *)
Definition entry_text (e : dirnode) : str :=
  flat_map (fun c => le_bytes 2 (Z.of_N c)) (dn_name e) ++ repeat 0%N (64 - 2 * length (dn_name e))
  ++ le_bytes 2 (2 * Z.of_nat (length (dn_name e)) + 2) ++ [Z.to_N (dn_etype e); 1%N]
  ++ words [dn_left e; dn_right e; dn_root e] ++ repeat 0%N 36 ++ words [dn_first e; dn_size e] ++ repeat 0%N 4.
(** A document with sectors of 128 bytes: the table in sector 0, the directory
    in 1 and 2, the container in 3, its table in 4. The directory entry of the
    stream has left to its left, its second piece of the container leads to
    next. *)
Definition tiny_doc (left : Z) (name : str) (next : Z) : document :=
  let es := [mkdirnode (lit "Root Entry") 5 (-1) (-1) 1 3 128; mkdirnode name 2 left (-1) (-1) 0 70] in
  let tab := [-3; 2; -2; -2; -2] ++ repeat (-1) 27 in
  let mini := [1; next] ++ repeat (-1) 30 in
  mkdocument (repeat 9%N 20) 7 6 (repeat 0%N 10) (1, 0) 4096 (0 :: repeat (-1) 108) [] [(0, tab)] [1; 2] es [3] [(4, mini)]
    ([words tab] ++ map entry_text es ++ [repeat 7%N 128; words mini]).

Lemma path_app sat a : forall s b t, path sat s (a ++ b) t -> exists u, path sat s a u /\ path sat u b t.
Proof.
  induction a as [|x a IH]; intros s b t P; cbn [app] in P.
  - exists s. split; [constructor|exact P].
  - inversion P as [|? s' ? ? H E Q]; subst. destruct (IH _ _ _ Q) as (u & U1 & U2). exists u. split; [|exact U2].
    econstructor; eassumption.
Qed.
Lemma twice (l : list Z) : ~ NoDup l -> exists a x b c, l = a ++ x :: b ++ x :: c.
Proof.
  induction l as [|y l IH]; intro H; [exfalso; apply H; constructor|].
  destruct (in_dec Z.eq_dec y l) as [I|N].
  - apply in_split in I. destruct I as (b & c & ->). exists [], y, b, c. reflexivity.
  - destruct IH as (a & x & b & c & ->).
    + intro D. apply H. constructor; assumption.
    + exists (y :: a), x, b, c. reflexivity.
Qed.
Lemma round_of sat s l t : path sat s l t -> ~ NoDup l -> goes_round sat s.
Proof.
  intros P N. destruct (twice l N) as (a & x & b & c & ->).
  change (a ++ x :: b ++ x :: c) with (a ++ (x :: b) ++ x :: c) in P. rewrite app_assoc in P.
  apply path_app in P. destruct P as (u & P1 & P2). inversion P2; subst.
  exists (a ++ x :: b), x. split; [exact P1|]. apply in_or_app. right. left. reflexivity.
Qed.
Lemma unmarked_round mem base sat sz s size seen :
  snd (get_stream mem base sat sz s size None seen) = Err NonTermination -> goes_round sat s.
Proof.
  intro H. destruct (C51_terminates_proof mem base sat sz s size seen) as (_ & _ & X). apply X with (f := S (length sat)) in H.
  destruct (get_loop_none _ mem base sat sz None seen s size [] I H) as (l & t & P & L & _).
  apply (round_of sat s l t P). apply (path_repeats sat s l t P). lia.
Qed.
Lemma short_round cd d : snd (short_stream cd d) = Err NonTermination -> goes_round (cd_SSAT cd) (dn_first d).
Proof.
  unfold short_stream. destruct (cd_SSCS cd) as [b|]; [apply unmarked_round|].
  destruct (get_stream _ _ _ _ _ _ _ _) as [seen r] eqn:E. cbn [snd]. intro H. apply (unmarked_round [] 0 _ (cd_short_sec_size cd) _ (Some (dn_size d)) (cd_seen cd)).
  rewrite E. cbn [snd]. destruct r as [b|e]; cbn [bind] in H; [destruct (dn_first d <? 0); discriminate H|congruence].
Qed.
Lemma marked_ends mem base sat sz s size i seen : i <> 0 -> ends (snd (get_stream mem base sat sz s size (Some i) seen)).
Proof. intro NZ. destruct (C51_terminates_proof mem base sat sz s size seen) as (X & _). exact (proj2 (X i NZ)). Qed.
Lemma mark_ends seen id s : ends (snd (mark seen id s)).
Proof.
  unfold mark. destruct id as [id|]; [|discriminate]. destruct (py_index seen s) as [v|]; [|discriminate].
  destruct (negb (v =? 0)); [discriminate|]. destruct ((id <? 0) || (255 <? id)); discriminate.
Qed.
Lemma ints_ends n b : ends (unpack_ints n b).
Proof. unfold unpack_ints. fin. Qed.
Lemma msatx_ends mem sz : forall fuel seen sid msat, ends (msatx_loop fuel mem sz seen sid msat).
Proof.
  induction fuel as [|f IH]; intros seen sid msat; cbn [msatx_loop].
  - destruct (_ || _); [discriminate|]. destruct (_ <=? _); [discriminate|]. destruct (_ <? _); discriminate.
  - destruct (_ || _); [discriminate|]. destruct (_ <=? _); [discriminate|]. destruct (_ <? _); [discriminate|].
    destruct (mark seen (Some 1) sid) as [s' r] eqn:M. pose proof (mark_ends seen (Some 1) sid) as E. rewrite M in E. cbn [snd] in E.
    destruct r as [u|e]; [|intro Q; apply E; congruence]. cbv zeta. apply ends_bind; [apply ints_ends|]. intros more _. apply IH.
Qed.
Lemma sat_ends mem sz : forall msat seen, ends (sat_loop mem sz seen msat).
Proof.
  induction msat as [|m msat IH]; intro seen; cbn [sat_loop]; [discriminate|].
  destruct (_ || _); [apply IH|]. destruct (_ <=? _); [apply IH|]. destruct (m <? -2); [discriminate|].
  destruct (mark seen (Some 2) m) as [s' r] eqn:M. pose proof (mark_ends seen (Some 2) m) as E. rewrite M in E. cbn [snd] in E.
  destruct r as [u|e]; [|intro Q; apply E; congruence]. cbv zeta. apply ends_bind; [apply ints_ends|]. intros sids _.
  apply ends_bind; [apply IH|]. intros [a b] _. discriminate.
Qed.
Lemma ssat_ends mem sat sz : forall n seen sid, ends (ssat_loop n mem sat sz seen sid).
Proof.
  induction n as [|n IH]; intros seen sid; cbn [ssat_loop]; [destruct (sid =? EOCSID); discriminate|].
  destruct (sid <? 0); [discriminate|].
  destruct (mark seen (Some 5) sid) as [s' r] eqn:M. pose proof (mark_ends seen (Some 5) sid) as E. rewrite M in E. cbn [snd] in E.
  destruct r as [u|e]; [|intro Q; apply E; congruence]. cbv zeta. apply ends_bind; [apply ints_ends|]. intros news _.
  destruct (py_index sat sid) as [sid'|]; [|discriminate]. apply ends_bind; [apply IH|]. intros [a b] _. discriminate.
Qed.
Lemma mapM_ends A B (f : A -> res B) l : (forall x, ends (f x)) -> ends (mapM f l).
Proof. intro H. induction l as [|x l IH]; cbn [mapM]; [discriminate|]. apply ends_bind; [apply H|]. intros y _. apply ends_bind; [exact IH|]. discriminate. Qed.
Lemma entry_ends d : ends (dirnode_of d).
Proof. unfold dirnode_of. cbv zeta. fin. apply utf16_ends. Qed.
Lemma family_ends fuel : forall dl p x k, family fuel dl p x k <> Some (Err NonTermination).
Proof.
  induction fuel as [|f IH]; intros dl p x k H; cbn [family] in H; destruct (x <? 0); try discriminate H.
  destruct (py_index dl x) as [n|]; [|discriminate H].
  destruct (family f dl p (dn_left n) k) as [[k1|e]|] eqn:E1; [|rewrite H in E1; exact (IH _ _ _ _ E1)|discriminate H].
  destruct (family f dl p (dn_right n) (adopt p x k1)) as [[k2|e]|] eqn:E2; [|rewrite H in E2; exact (IH _ _ _ _ E2)|discriminate H].
  destruct (dn_etype n =? 1); [exact (IH _ _ _ _ H)|discriminate H].
Qed.
Lemma tree_ends dl : ends (family_of dl).
Proof.
  unfold family_of. destruct (py_index dl 0) as [r|]; [|discriminate]. destruct (family _ dl 0 _ _) as [x|] eqn:E; [|discriminate].
  intro H. subst x. exact (family_ends _ _ _ _ _ E).
Qed.
Lemma init_ends mem ignore : ends (init mem ignore).
Proof.
  unfold init. cbv zeta. destruct (negb _); [discriminate|]. destruct (negb _); [discriminate|]. destruct (negb _); [discriminate|].
  destruct (negb _); [discriminate|]. apply ends_bind; [apply ints_ends|]. intros msat _. destruct (_ <=? 1); [discriminate|].
  apply ends_bind. { destruct (_ && _); [discriminate|apply msatx_ends]. }
  intros [msat' seen] _. apply ends_bind; [apply sat_ends|]. intros [sat seen'] _.
  match goal with |- context [get_stream ?a ?b ?c ?d ?e ?f (Some 3) ?g] => pose proof (marked_ends a b c d e f 3 g ltac:(lia)) as E; destruct (get_stream a b c d e f (Some 3) g) as [s1 r1] end.
  cbn [snd] in E. apply ends_bind; [exact E|]. intros db _. apply ends_bind; [apply mapM_ends, entry_ends|]. intros dl _.
  apply ends_bind; [apply tree_ends|]. intros k _. destruct (py_index dl 0) as [root|]; [|discriminate]. destruct (negb _); [discriminate|].
  destruct (_ || _).
  - apply ends_bind; [discriminate|]. intros sscs _. apply ends_bind; [|intros [a b] _; discriminate].
    destruct (0 <? _); [|discriminate]. destruct (_ <? 0); [discriminate|apply ssat_ends].
  - match goal with |- context [get_stream ?a ?b ?c ?d ?e ?f (Some 4) ?g] => pose proof (marked_ends a b c d e f 4 g ltac:(lia)) as E4; destruct (get_stream a b c d e f (Some 4) g) as [s2 r2] end.
    cbn [snd] in E4. apply ends_bind. { apply ends_bind; [exact E4|discriminate]. }
    intros sscs _. apply ends_bind; [|intros [a b] _; discriminate].
    destruct (0 <? _); [|discriminate]. destruct (_ <? 0); [discriminate|apply ssat_ends].
Qed.
Lemma locate_loop_ends ignore base sat sz id lim : forall fuel seen s p a b sl tot, ends (snd (locate_loop fuel ignore base sat sz id lim seen s p a b sl tot)).
Proof.
  induction fuel as [|f IH]; intros seen s p a b sl tot; cbn [locate_loop]; destruct (s <? 0); try discriminate.
  destruct (py_index seen s) as [v|]; [|discriminate]. destruct (_ && _); [discriminate|]. destruct (_ || _); [discriminate|]. cbv zeta.
  destruct (lim <? _); [discriminate|]. destruct (s =? p + 1).
  - destruct (py_index sat s); [|discriminate]. apply IH.
  - destruct (py_index sat s); [|discriminate]. apply IH.
Qed.
Lemma locate_ends ignore mem base sat sz s n id seen : ends (snd (locate_stream ignore mem base sat sz s n id seen)).
Proof.
  unfold locate_stream. destruct (s <? 0); [discriminate|]. cbv zeta.
  match goal with |- context [locate_loop ?a ?b ?c ?d ?e ?f ?g ?h ?i ?j ?k ?l ?m ?n] => pose proof (locate_loop_ends b c d e f g a h i j k l m n) as E; destruct (locate_loop a b c d e f g h i j k l m n) as [s1 [[[[[x1 x2] x3] x4] x5]|e1]] end; cbn [snd] in *.
  - destruct (negb _); [discriminate|]. destruct (negb _); [discriminate|]. destruct x3; discriminate.
  - intro Q. apply E. congruence.
Qed.
Lemma search_found name dl k : match dir_search [name] dl k 0 with
  | Ok (Some c) => exists d, py_index dl c = Some d /\ dn_etype d = 2 /\ lower_name (dn_name d) = lower_name name
  | Ok None => True
  | Err e => e <> NonTermination
  end.
Proof.
  cbn [dir_search]. destruct (find _ _) as [c|] eqn:F; [|exact I]. apply find_some in F. destruct F as [_ F].
  destruct (py_index dl c) as [d|] eqn:P; [|discriminate F]. apply str_eqb_eq in F.
  destruct (dn_etype d =? 2) eqn:T; [exists d; split; [exact P|]; split; [lia|exact F]|]. destruct (dn_etype d =? 1); discriminate.
Qed.
Lemma index_in A (l : list A) i x : py_index l i = Some x -> In x l.
Proof.
  unfold py_index. cbv zeta. destruct (_ && _); [apply nth_error_In|discriminate].
Qed.
Lemma named_round name cd : snd (locate_named_stream [name] cd) = Err NonTermination ->
  exists d, In d (cd_dirlist cd) /\ dn_etype d = 2 /\ lower_name (dn_name d) = lower_name name /\
    dn_size d < cd_min_std cd /\ goes_round (cd_SSAT cd) (dn_first d).
Proof.
  unfold locate_named_stream. pose proof (search_found name (cd_dirlist cd) (cd_kin cd)) as S1.
  destruct (dir_search _ _ _ _) as [[did|]|e]; cbn [snd]; [|discriminate|intro H; exfalso; apply S1; congruence].
  destruct S1 as (d & P & T & L). rewrite P. destruct (_ <? dn_size d); [discriminate|].
  destruct (_ <=? dn_size d) eqn:M.
  - match goal with |- context [locate_stream ?a ?b ?c ?d ?e ?f ?g ?h ?i] => pose proof (locate_ends a b c d e f g h i) as E; destruct (locate_stream a b c d e f g h i) as [s1 r1] end.
    cbn [snd] in *. intro H. exfalso. apply E. destruct r1; cbn [bind] in H; congruence.
  - pose proof (short_round cd d) as R. destruct (short_stream cd d) as [s1 r1]. cbn [snd] in *. intro H.
    exists d. split; [apply (index_in _ _ _ _ P)|]. split; [exact T|]. split; [exact L|]. split; [lia|]. apply R.
    destruct r1; cbn [bind] in H; congruence.
Qed.
Lemma kept_doc name cd : cd_dirlist (fst (locate_named_stream [name] cd)) = cd_dirlist cd /\
  cd_min_std (fst (locate_named_stream [name] cd)) = cd_min_std cd /\ cd_SSAT (fst (locate_named_stream [name] cd)) = cd_SSAT cd.
Proof.
  unfold locate_named_stream. destruct (dir_search _ _ _ _) as [[did|]|e]; [|auto|auto].
  destruct (py_index _ _) as [d|]; [|auto]. destruct (_ <? _); [auto|].
  match goal with |- context [let '(_, _) := ?x in _] => destruct x as [s1 r1] end. cbn. auto.
Qed.
Lemma load_ends file : load file = Err NonTermination ->
  exists cd d name, firstn 8 file = [208; 207; 17; 224; 161; 177; 26; 225]%N /\ init file false = Ok cd /\
    In d (cd_dirlist cd) /\ dn_etype d = 2 /\ In name [lit "workbook"; lit "book"] /\ lower_name (dn_name d) = name /\
    dn_size d < cd_min_std cd /\ goes_round (cd_SSAT cd) (dn_first d).
Proof.
  unfold load. destruct (str_eqb (bytes_at 0 8 file) SIGNATURE) eqn:SG; [|discriminate]. cbn [negb].
  apply str_eqb_eq in SG. assert (SG' : firstn 8 file = SIGNATURE) by exact SG. clear SG.
  pose proof (init_ends file false) as IE. destruct (init file false) as [cd|e]; cbn [bind]; [|intro H; exfalso; apply IE; congruence].
  assert (K : forall cd', cd_dirlist cd' = cd_dirlist cd -> cd_min_std cd' = cd_min_std cd -> cd_SSAT cd' = cd_SSAT cd ->
    forall name, In (lower_name name) [lit "workbook"; lit "book"] -> snd (locate_named_stream [name] cd') = Err NonTermination ->
    exists cd d name, firstn 8 file = [208; 207; 17; 224; 161; 177; 26; 225]%N /\ Ok cd = Ok cd /\
    In d (cd_dirlist cd) /\ dn_etype d = 2 /\ In name [lit "workbook"; lit "book"] /\ lower_name (dn_name d) = name /\
    dn_size d < cd_min_std cd /\ goes_round (cd_SSAT cd) (dn_first d) /\ True).
  { intros cd' D M T name NM H. apply named_round in H. destruct H as (d & H1 & H2 & H3 & H4 & H5). rewrite D in H1. rewrite M in H4. rewrite T in H5.
    exists cd, d, (lower_name name). auto 12. }
  assert (K' : forall cd', cd_dirlist cd' = cd_dirlist cd -> cd_min_std cd' = cd_min_std cd -> cd_SSAT cd' = cd_SSAT cd ->
    forall name, In (lower_name name) [lit "workbook"; lit "book"] -> snd (locate_named_stream [name] cd') = Err NonTermination ->
    exists cd0 d name, firstn 8 file = [208; 207; 17; 224; 161; 177; 26; 225]%N /\ Ok cd = Ok cd0 /\
    In d (cd_dirlist cd0) /\ dn_etype d = 2 /\ In name [lit "workbook"; lit "book"] /\ lower_name (dn_name d) = name /\
    dn_size d < cd_min_std cd0 /\ goes_round (cd_SSAT cd0) (dn_first d)).
  { intros cd' D M T name NM H. apply named_round in H. destruct H as (d & H1 & H2 & H3 & H4 & H5). rewrite D in H1. rewrite M in H4. rewrite T in H5.
    exists cd, d, (lower_name name). auto 12. }
  clear K. destruct (locate_named_stream [lit "Workbook"] cd) as [cd1 r1] eqn:L1.
  pose proof (kept_doc (lit "Workbook") cd) as (Q1 & Q2 & Q3). rewrite L1 in Q1, Q2, Q3. cbn [fst] in Q1, Q2, Q3.
  pose proof (K' cd eq_refl eq_refl eq_refl (lit "Workbook") ltac:(left; reflexivity)) as KA. rewrite L1 in KA. cbn [snd] in KA.
  destruct r1 as [f1|e1]; cbn [bind]; [|intro H; apply KA; congruence]. clear KA.
  assert (KB : (let '(cd, r) := locate_named_stream [lit "Book"] cd1 in
        do found <- r;
        match found with
        | Some ((_ :: _) as mem, base, _) => Ok (mem, base)
        | _ => Err XLRDError
        end) = Err NonTermination -> exists cd0 d name, firstn 8 file = [208; 207; 17; 224; 161; 177; 26; 225]%N /\ Ok cd = Ok cd0 /\
    In d (cd_dirlist cd0) /\ dn_etype d = 2 /\ In name [lit "workbook"; lit "book"] /\ lower_name (dn_name d) = name /\
    dn_size d < cd_min_std cd0 /\ goes_round (cd_SSAT cd0) (dn_first d)).
  { pose proof (K' cd1 Q1 Q2 Q3 (lit "Book") ltac:(right; left; reflexivity)) as KA.
    destruct (locate_named_stream [lit "Book"] cd1) as [cd2 [f2|e2]]; cbn [bind snd] in *; [|intro H; apply KA; congruence].
    destruct f2 as [[[[|x m] b] n]|]; discriminate. }
  destruct f1 as [[[[|x m] b] n]|]; [exact KB|discriminate|exact KB].
Qed.

Lemma C65_ends_proof :
forall file, open_workbook file = Err NonTermination ->
exists cd d name, firstn 8 file = [208; 207; 17; 224; 161; 177; 26; 225]%N /\ init file false = Ok cd /\
  In d (cd_dirlist cd) /\ dn_etype d = 2 /\ In name [lit "workbook"; lit "book"] /\ lower_name (dn_name d) = name /\
  dn_size d < cd_min_std cd /\ goes_round (cd_SSAT cd) (dn_first d).
Proof.
intros file. unfold open_workbook. destruct (str_eqb _ _); [discriminate|]. unfold open_xls. destruct file as [|x c]; [discriminate|].
destruct (load (x :: c)) as [[mem base]|e] eqn:L.
- cbn [bind]. intro H. exfalso. exact (opened_ends mem base H).
- cbn [bind]. intro H. apply load_ends. congruence.
Qed.

Lemma doc_front D : exists more, doc_file D = SIGNATURE ++ more.
Proof. unfold doc_file, doc_header. rewrite <- app_assoc. eexists. reflexivity. Qed.

Lemma C65_hangs_refuted_proof :
forall D t d e, good_document D -> dir_tree D t -> distinct_names (o_entries D) t ->
Forall (fun n => no_kelvin (dn_name n)) (o_entries D) ->
leads_to (o_entries D) t [lit "Workbook"] d -> nth_error (o_entries D) (Z.to_nat d) = Some e ->
dn_size e < o_min D -> dn_size e + 512 <= Z.of_nat (length (doc_file D)) -> goes_round (minitable D) (dn_first e) ->
open_workbook (doc_file D) = Err NonTermination.
Proof.
intros D t d e G T DN NK LT NE SM SZ (l & u & P & IN).
destruct (init_ok D false G) as (seen & k & E & FK & _).
pose proof T as (root & R0 & RT & UF & ND).
assert (N0 : nth_error (o_entries D) 0 = Some root) by (destruct (o_entries D); [discriminate R0|exact R0]).
assert (DS : dir_search [lit "Workbook"] (o_entries D) k 0 = Ok (Some d)).
{ destruct (C57_search_proof (o_entries D) root t k [lit "Workbook"] N0 UF ND FK DN NK) as (X & _).
  - constructor; [|constructor]. unfold plain. repeat constructor.
  - discriminate.
  - apply X. exists [lit "Workbook"], []. split; [reflexivity|exact LT]. }
assert (D0 : 0 <= d).
{ inversion LT as [nm d' n (SB & _) ET|nm d' n i pth d'' NM ET ST LT']; subst.
  - pose proof (unfolds_entries _ _ _ UF) as B; rewrite Forall_forall in B; apply (B d), siblings_entries, SB.
  - inversion LT'. }
assert (L : load (doc_file D) = Err NonTermination).
{ unfold load. destruct (doc_front D) as [more FR].
  replace (str_eqb (bytes_at 0 8 (doc_file D)) SIGNATURE) with true by (rewrite FR; reflexivity). cbn [negb]. rewrite E. cbn [bind].
  unfold locate_named_stream at 1. cbn [cd_dirlist cd_kin]. rewrite DS, py_index_pos by exact D0. rewrite NE. cbn [cd_data_len cd_min_std].
  replace (_ - 512 <? dn_size e) with false by lia. replace (o_min D <=? dn_size e) with false by lia.
  unfold short_stream. cbn [cd_SSCS cd_SSAT cd_short_sec_size cd_seen].
  assert (SP : 0 < short_size D) by (unfold short_size; pose proof (g_short _ G); apply Z.pow_pos_nonneg; lia).
  destruct (root_size D =? 0).
  - destruct (C51_short_streams_proof [] 0 (minitable D) (short_size D) (dn_first e) seen (Some (dn_size e)) ltac:(lia) SP) as (_ & X).
    destruct (X l u P IN) as (_ & Y). destruct (get_stream _ _ _ _ _ _ _ _) as [s1 r1]. cbn [snd] in Y. subst r1. reflexivity.
  - destruct (C51_short_streams_proof (container D) 0 (minitable D) (short_size D) (dn_first e) seen (Some (dn_size e)) ltac:(lia) SP) as (_ & X).
    destruct (X l u P IN) as (_ & Y). destruct (get_stream _ _ _ _ _ _ _ _) as [s1 r1]. cbn [snd] in Y. subst r1. reflexivity. }
unfold open_workbook. replace (str_eqb _ _) with false by (destruct (doc_front D) as [more ->]; reflexivity).
unfold open_xls. destruct (doc_file D) as [|x c] eqn:F; [destruct (doc_front D) as [more FR]; rewrite F in FR; discriminate FR|].
rewrite L. reflexivity.
Qed.

