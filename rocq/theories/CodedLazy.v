(** * Proofs about text kept as bytes: lazy_textpack *)

From Coq Require Import ZifyBool ZifyNat ZifyN.
From Verif Require Import PyBase PyBaseFacts PyFloat PyText NumPy Pack SpecDbf DbfProofs DbfThms ReadText SpecChars CharFacts SpecText TextProofs ReadTextThms NumberThms.
From Verif Require Import Preparse SpecPreparse PreparseProofs PreparseThms SpecCoded CodedProofs CodedText.
Open Scope nat_scope.

(** ** The ends of lines make no difference to preparse *)

Definition nl (c : N) : Prop := c = 10%N \/ c = 13%N.

Lemma nl_silent x c : decimal x -> nl c -> silent x c.
Proof. intros X [-> | ->]; destruct X as [-> | ->]; (split; [apply no_digit; lia|cbn [In]; lia]). Qed.

Lemma nl_ws c : nl c -> ws_text c = true.
Proof. intros [-> | ->]; reflexivity. Qed.

Lemma nl_not_digit c : nl c -> not_digit c = true.
Proof. intros [-> | ->]; reflexivity. Qed.

Definition apart (w l : str) : Prop := forall c, In c w -> ~ In c l.

Lemma match_chars x s m r c : match_num x s = Some (m, r) -> silent x c -> ~ In c m.
Proof.
  intros M S I. pose proof (match_num_eq x s m r M) as [E _]. apply in_split in I. destruct I as (a & b & ->).
  rewrite E in M. rewrite <- app_assoc in M. cbn [app] in M. rewrite match_num_stop in M by exact S.
  destruct (match_num x a) as [[m' r']|] eqn:Q; [|discriminate]. injection M as M _. apply match_num_eq in Q. destruct Q as [Q _].
  apply (f_equal (@length N)) in Q. apply (f_equal (@length N)) in M. rewrite app_length in *. cbn [length] in M. lia.
Qed.

Lemma findall_chars x s c : silent x c -> forall k, Forall (fun l => l <> [] /\ ~ In c l) (findall x k s).
Proof.
  intro S. induction s as [|y s IH]; intro k; [constructor|]. cbn [findall]. destruct k as [|k]; [|apply IH].
  destruct (match_num x (y :: s)) as [[m r]|] eqn:M; [|apply IH]. constructor; [|apply IH].
  split; [apply (match_num_eq x _ _ _ M)|apply (match_chars x (y :: s) m r c M S)].
Qed.

Lemma strip_prefix_post l w : apart w l -> forall s, strip_prefix l (s ++ w) = option_map (fun r => r ++ w) (strip_prefix l s).
Proof.
  induction l as [|x l IH]; intros A s; [destruct s, w; reflexivity|].
  destruct s as [|y s].
  - cbn [app]. destruct w as [|y w]; [reflexivity|]. cbn [strip_prefix].
    assert ((x =? y)%N = false) as ->; [|reflexivity]. apply N.eqb_neq. intros ->. apply (A y); left; reflexivity.
  - cbn [app strip_prefix]. destruct (x =? y)%N; [|reflexivity]. apply IH. intros c C I. apply (A c C). right. exact I.
Qed.

Definition lits_ok (w : str) (lits : list str) : Prop := Forall (fun l => l <> [] /\ apart w l) lits.

Lemma apart_suffix w1 w2 l : apart (w1 ++ w2) l -> apart w2 l.
Proof. intros A c C. apply A. apply in_or_app. right. exact C. Qed.

Lemma match_none w l ls : l <> [] -> apart w l -> match_lits (l :: ls) w = None.
Proof.
  intros NE A. cbn [match_lits]. pose proof (strip_prefix_post l w A []) as P. cbn [app] in P. rewrite P.
  destruct l; [congruence|reflexivity].
Qed.

Lemma gap_short k k' w r : (forall q, k' (q ++ w) = k q) -> forall n, n <= length r -> match_gap k' n (r ++ w) = match_gap k n r.
Proof.
  intro K. induction n as [|n IH]; intro L; [reflexivity|]. cbn [match_gap].
  rewrite skipn_app, firstn_app. replace (S n - length r) with 0 by lia.
  change (skipn 0 w) with w. rewrite K. change (firstn 0 w) with (@nil N). rewrite app_nil_r.
  destruct (k (skipn (S n) r)); [reflexivity|]. apply IH. lia.
Qed.

Lemma gap_long k w r : (forall w1 w2, w = w1 ++ w2 -> k w2 = None) -> forall n, match_gap k (length r + n) (r ++ w) = match_gap k (length r) (r ++ w).
Proof.
  intro K. induction n as [|n IH]; [rewrite Nat.add_0_r; reflexivity|]. rewrite Nat.add_succ_r. cbn [match_gap].
  rewrite skipn_app, skipn_all2 by lia. cbn [app]. rewrite (K (firstn (S (length r + n) - length r) w)) by (symmetry; apply firstn_skipn).
  exact IH.
Qed.

Lemma span_post r w : Forall (fun c => not_digit c = true) w ->
  length (fst (span not_digit (r ++ w))) = length (fst (span not_digit r)) \/
  (length (fst (span not_digit (r ++ w))) = length r + length w /\ length (fst (span not_digit r)) = length r).
Proof.
  intro W. induction r as [|c r IH].
  - cbn [app]. right. split; [|reflexivity]. induction W as [|c w C W IH]; [reflexivity|]. cbn [span]. rewrite C.
    destruct (span not_digit w). cbn [fst length] in *. lia.
  - cbn [app span]. destruct (not_digit c); [|left; reflexivity]. destruct (span not_digit (r ++ w)), (span not_digit r).
    cbn [fst length] in *. lia.
Qed.

Lemma span_length p s : length (fst (span p s)) <= length s.
Proof. rewrite (span_eq p s) at 2. rewrite app_length. lia. Qed.

Lemma match_lits_post w lits : Forall nl w -> lits_ok w lits -> forall s, match_lits lits (s ++ w) = match_lits lits s.
Proof.
  intros W. induction 1 as [|l ls (NE & A) F IH]; intro s; [reflexivity|]. cbn [match_lits].
  rewrite strip_prefix_post by exact A. destruct (strip_prefix l s) as [r|]; [|reflexivity]. cbn [option_map].
  destruct ls as [|l2 ls]; [reflexivity|].
  assert (WD : Forall (fun c => not_digit c = true) w) by (eapply Forall_impl; [|exact W]; exact nl_not_digit).
  destruct (span_post r w WD) as [-> | (-> & ->)].
  - apply gap_short; [exact IH|apply span_length].
  - rewrite gap_long; [apply gap_short; [exact IH|lia]|]. intros w1 w2 ->. inversion F as [|? ? (NE2 & A2) F2]; subst.
    apply match_none; [exact NE2|apply (apart_suffix w1 w2 l2 A2)].
Qed.

Lemma search_none l ls w : l <> [] -> apart w l -> search_lits (l :: ls) w = [].
Proof.
  intros NE. induction w as [|c w IH]; intro A; pose proof (match_none _ l ls NE A) as Q; cbn [search_lits]; rewrite Q; [reflexivity|].
  apply IH. apply (apart_suffix [c] w l A).
Qed.

Lemma search_post w lits : Forall nl w -> lits_ok w lits -> forall s, search_lits lits (s ++ w) = search_lits lits s.
Proof.
  intros W F. induction s as [|c s IH].
  - cbn [app]. destruct lits as [|l ls]; [destruct w; reflexivity|]. inversion F as [|? ? (NE & A) F']; subst.
    transitivity (@nil str); [exact (search_none l ls w NE A)|symmetry; apply (search_none l ls [] NE); intros c []].
  - cbn [app search_lits]. change (c :: s ++ w) with ((c :: s) ++ w). rewrite match_lits_post by assumption. rewrite IH. reflexivity.
Qed.

Lemma line_result_post x u w : decimal x -> Forall nl w -> line_result x (u ++ w) = line_result x u.
Proof.
  intros X W. unfold line_result. rewrite findall_post by (eapply Forall_impl; [|exact W]; intros c C; apply nl_silent; assumption).
  f_equal. f_equal. apply search_post; [exact W|].
  assert (S : forall c, In c w -> silent x c) by (intros c C; rewrite Forall_forall in W; apply nl_silent; auto).
  clear W. unfold lits_ok. apply Forall_forall. intros l L. split.
  - destruct w as [|c w].
    + pose proof (findall_chars x u 10%N (nl_silent x 10 X (or_introl eq_refl)) 0) as F. rewrite Forall_forall in F. apply (F l L).
    + pose proof (findall_chars x u c (S c (or_introl eq_refl)) 0) as F. rewrite Forall_forall in F. apply (F l L).
  - intros c C. pose proof (findall_chars x u c (S c C) 0) as F. rewrite Forall_forall in F. apply (F l L).
Qed.

Lemma trim_post u w : Forall nl w -> trim (u ++ w) = trim u.
Proof. intro W. apply strip_post. eapply Forall_impl; [|exact W]. exact nl_ws. Qed.

Lemma split_num_post x w : decimal x -> Forall nl w -> forall u k, k <= length u ->
  exists a f, split_num x k u = a ++ [f] /\ split_num x k (u ++ w) = a ++ [f ++ w].
Proof.
  intros X W. assert (S : Forall (silent x) w) by (eapply Forall_impl; [|exact W]; intros c C; apply nl_silent; assumption).
  induction u as [|c u IH]; intros k K.
  - cbn [length] in K. assert (k = 0) as -> by lia. exists [], []. split; [reflexivity|]. cbn [app]. apply split_num_none. exact S.
  - cbn [app split_num]. destruct k as [|k]; [|apply IH; cbn [length] in K; lia].
    assert (M : match_num x (c :: u ++ w) = match match_num x (c :: u) with Some (m, r) => Some (m, r ++ w) | None => None end).
    { destruct S as [|y w S1 S2]; [rewrite app_nil_r; destruct (match_num x (c :: u)) as [[m r]|]; [rewrite app_nil_r|]; reflexivity|].
      apply (match_num_stop x (c :: u) y w S1). }
    rewrite M. destruct (match_num x (c :: u)) as [[m r]|] eqn:Q.
    + apply match_num_eq in Q. destruct Q as [Q _]. apply (f_equal (@length N)) in Q. rewrite app_length in Q. cbn [length] in Q.
      destruct (IH (length m - 1) ltac:(lia)) as (a & f & -> & ->). exists ([] :: a), f. split; reflexivity.
    + destruct (IH 0 ltac:(lia)) as (a & f & -> & ->). destruct a as [|g a]; cbn [app].
      * exists [], (c :: f). split; reflexivity.
      * exists ((c :: g) :: a), f. split; reflexivity.
Qed.

Lemma split_str_post d w : d <> [] -> apart w d -> forall u k, k <= length u ->
  exists a f, split_str d k u = a ++ [f] /\ split_str d k (u ++ w) = a ++ [f ++ w].
Proof.
  intros NE A. induction u as [|c u IH]; intros k K.
  - cbn [length] in K. assert (k = 0) as -> by lia. exists [], []. split; [reflexivity|]. cbn [app].
    rewrite <- (app_nil_r w) at 1. rewrite split_field by (exact NE || exact A). cbn [split_str]. rewrite app_nil_r. reflexivity.
  - cbn [app split_str]. destruct k as [|k]; [|apply IH; cbn [length] in K; lia].
    pose proof (strip_prefix_post d w A (c :: u)) as M. cbn [app] in M. rewrite M.
    destruct (strip_prefix d (c :: u)) as [r|] eqn:Q; cbn [option_map].
    + apply strip_prefix_app in Q. apply (f_equal (@length N)) in Q. rewrite app_length in Q. cbn [length] in Q.
      destruct (IH (length d - 1) ltac:(lia)) as (a & f & -> & ->). exists ([] :: a), f. split; reflexivity.
    + destruct (IH 0 ltac:(lia)) as (a & f & -> & ->). destruct a as [|g a]; cbn [app].
      * exists [], (c :: f). split; reflexivity.
      * exists ((c :: g) :: a), f. split; reflexivity.
Qed.

Definition no_nl (s : str) : Prop := Forall (fun c => ~ nl c) s.

Lemma nl_apart w d : Forall nl w -> no_nl d -> apart w d.
Proof. intros W D c C I. unfold no_nl in D. rewrite Forall_forall in *. exact (D c I (W c C)). Qed.

Lemma header_fields_post d u w : match d with Some s => no_nl s | None => True end -> Forall nl w ->
  header_fields d (u ++ w) = header_fields d u.
Proof.
  intros D W. unfold header_fields, split_line. destruct d as [[|x d]|]; [reflexivity| |].
  - destruct (split_str_post (x :: d) w ltac:(discriminate) (nl_apart w _ W D) u 0 ltac:(lia)) as (a & f & -> & ->). cbn [bind].
    rewrite !map_app. cbn [map]. rewrite trim_post by exact W. reflexivity.
  - cbn [ws_of]. rewrite split_ws_trailing by (eapply Forall_impl; [|exact W]; exact nl_ws). reflexivity.
Qed.

(** ** Groups are parts of the line *)

Definition inside (s g : str) : Prop := forall c, In c g -> In c s.

Lemma gap_inside k s : (forall q g, k q = Some g -> Forall (inside q) g) -> forall n g, match_gap k n s = Some g -> Forall (inside s) g.
Proof.
  intro K. induction n as [|n IH]; intros g G; [discriminate|]. cbn [match_gap] in G.
  destruct (k (skipn (S n) s)) as [g'|] eqn:Q; [|apply IH; exact G]. injection G as <-. constructor.
  - intros c C. rewrite <- (firstn_skipn (S n) s). apply in_or_app. left. exact C.
  - apply K in Q. eapply Forall_impl; [|exact Q]. intros x X c C. apply X in C. rewrite <- (firstn_skipn (S n) s).
    apply in_or_app. right. exact C.
Qed.

Lemma lits_inside lits : forall s g, match_lits lits s = Some g -> Forall (inside s) g.
Proof.
  induction lits as [|l ls IH]; intros s g G; [injection G as <-; constructor|]. cbn [match_lits] in G.
  destruct (strip_prefix l s) as [r|] eqn:P; [|discriminate]. apply strip_prefix_app in P.
  destruct ls as [|l2 ls]; [injection G as <-; constructor|]. apply (gap_inside _ r IH) in G.
  eapply Forall_impl; [|exact G]. intros x X c C. rewrite P. apply in_or_app. right. apply X. exact C.
Qed.

Lemma search_inside lits s : Forall (inside s) (search_lits lits s).
Proof.
  induction s as [|c s IH]; cbn [search_lits].
  - destruct (match_lits lits []) eqn:M; [apply (lits_inside _ _ _ M)|constructor].
  - destruct (match_lits lits (c :: s)) eqn:M; [apply (lits_inside _ _ _ M)|].
    eapply Forall_impl; [|exact IH]. intros g G y Y. right. apply G. exact Y.
Qed.

Lemma strip_sep_inside s : inside s (strip_sep s).
Proof.
  unfold strip_sep, trim. assert (Q : inside s (strip ws_text s)).
  { intros c C. destruct (strip_split ws_text s) as (a & b & E & _). rewrite E. apply in_or_app. right. apply in_or_app. left. exact C. }
  destruct (strip ws_text s); [intros c C; exact C|exact Q].
Qed.

Lemma result_inside x l : Forall (inside l) (snd (line_result x l)).
Proof.
  cbn [line_result snd]. apply Forall_map. eapply Forall_impl; [|apply search_inside]. intros g G c C.
  apply G, strip_sep_inside, C.
Qed.

(** ** preparse *)

Definition bare (l u : str) : Prop := exists w, l = u ++ w /\ Forall nl w /\ no_nl u.

Lemma bare_last ls us : Forall2 bare ls us -> bare (last ls []) (last us []).
Proof.
  induction 1 as [|l u ls us B F IH]; [exists []; repeat split; constructor|].
  destruct F as [|l2 u2 ls us B2 F]; [exact B|exact IH].
Qed.

Lemma pop_bare ls us : Forall2 bare ls us -> pop_blank ls = pop_blank us.
Proof.
  intro F. unfold pop_blank. assert (R : Forall2 bare (rev ls) (rev us)).
  { induction F; [constructor|]. cbn [rev]. apply Forall2_app; [assumption|]. constructor; [assumption|constructor]. }
  induction R as [|l u r s (w & -> & W & _) R IH]; [reflexivity|]. cbn [drop_blank]. rewrite trim_post by exact W.
  destruct (trim u); [exact IH|]. cbn [length]. clear IH. f_equal. induction R; cbn [length]; congruence.
Qed.

Lemma results_bare x ls us : decimal x -> Forall2 bare ls us -> map (line_result x) ls = map (line_result x) us.
Proof.
  intros X. induction 1 as [|l u ls us (w & -> & W & _) F IH]; [reflexivity|]. cbn [map]. rewrite IH, line_result_post by assumption. reflexivity.
Qed.

Lemma names_bare first d n ls us : match d with Some s => no_nl s | None => True end -> Forall2 bare ls us ->
  find_names first d n ls = find_names first d n us.
Proof.
  intro D. induction 1 as [|l u ls us (w & -> & W & _) F IH]; [reflexivity|]. cbn [find_names].
  rewrite header_fields_post by assumption. destruct (header_fields d u) as [[|f fs]|]; cbn [bind]; [exact IH| |reflexivity].
  destruct (_ && _)%bool; [reflexivity|exact IH].
Qed.

Lemma Forall2_firstn {A B} (R : A -> B -> Prop) l k n : Forall2 R l k -> Forall2 R (firstn n l) (firstn n k).
Proof. intro F. revert n. induction F; intros [|n]; cbn [firstn]; constructor; auto. Qed.

Lemma Forall2_rev {A B} (R : A -> B -> Prop) l k : Forall2 R l k -> Forall2 R (rev l) (rev k).
Proof. induction 1; [constructor|]. cbn [rev]. apply Forall2_app; [assumption|]. constructor; [assumption|constructor]. Qed.

(** The characters of the delimiter are those of a line. *)
Definition from_lines (us : list str) (d : option str) : Prop :=
  match d with Some s => Forall (fun c => exists u, In u us /\ In c u) s | None => True end.

Lemma last_result_from x us keep r rs : rev (firstn keep (map (line_result x) us)) = r :: rs ->
  Forall (fun c => exists u, In u us /\ In c u) (last (snd r) []).
Proof.
  intro E. assert (I : In r (firstn keep (map (line_result x) us))) by (apply in_rev; rewrite E; left; reflexivity).
  assert (J : In r (map (line_result x) us)) by (rewrite <- (firstn_skipn keep (map (line_result x) us)); apply in_or_app; left; exact I).
  apply in_map_iff in J. destruct J as (u & <- & U). pose proof (result_inside x u) as F.
  assert (G : inside u (last (snd (line_result x u)) [])).
  { induction F as [|g gs G F IH]; [intros c []|]. destruct gs; [exact G|exact IH]. }
  apply Forall_forall. intros c C. exists u. split; [exact U|apply G; exact C].
Qed.

Lemma preparse_bare first ls us : Forall2 bare ls us ->
  preparse first ls = preparse first us /\
  (forall d, preparse first us = Ok (Some d) -> from_lines us (d_delimiter d)).
Proof.
  intro F. unfold preparse. rewrite (pop_bare ls us F). rewrite !(results_bare _ ls us) by (assumption || (left; reflexivity) || (right; reflexivity)).
  set (keep := pop_blank us).
  destruct (rev (firstn keep (map (line_result 46) us))) as [|dlast dr] eqn:ED; [split; [reflexivity|discriminate]|].
  destruct (rev (firstn keep (map (line_result 44) us))) as [|clast cr] eqn:EC; [split; [reflexivity|discriminate]|].
  set (dot := (numcnt dlast <=? numcnt clast)).
  set (lastres := if dot then dlast else clast).
  assert (FROM : Forall (fun c => exists u, In u us /\ In c u) (last (snd lastres) [])).
  { subst lastres. destruct dot; [apply (last_result_from 46 us keep dlast dr ED)|apply (last_result_from 44 us keep clast cr EC)]. }
  clearbody lastres. set (expected := if numcnt lastres =? 1 then 0 else 1). clearbody expected.
  destruct (negb (septypcnt lastres =? expected)); [split; [reflexivity|discriminate]|].
  assert (SP : existsb (fun m => match trim m with [] => false | _ => true end) (split_num (if dot then 46%N else 44%N) 0 (last ls []))
             = existsb (fun m => match trim m with [] => false | _ => true end) (split_num (if dot then 46%N else 44%N) 0 (last us []))).
  { destruct (bare_last ls us F) as (w & -> & W & _).
    assert (X : decimal (if dot then 46%N else 44%N)) by (destruct dot; [left|right]; reflexivity).
    destruct (split_num_post _ w X W (last us []) 0 ltac:(lia)) as (a & f & -> & ->). rewrite !existsb_app. cbn [existsb].
    rewrite trim_post by exact W. reflexivity. }
  rewrite SP. destruct ((expected =? 0) && _)%bool; [split; [reflexivity|discriminate]|].
  match goal with |- context [find_names first ?d ?n (rev (firstn ?k us))] => set (dl := d); set (nn := n); set (st := k) end.
  assert (NN : from_lines us dl) by (subst dl; destruct (expected =? 1); [exact FROM|exact I]).
  split.
  - rewrite (names_bare first dl nn (rev (firstn st ls)) (rev (firstn st us))); [reflexivity| |apply Forall2_rev, Forall2_firstn, F].
    destruct dl as [s|]; [|exact I]. cbn [from_lines] in NN. eapply Forall_impl; [|exact NN]. intros c (u & U & C).
    assert (B : no_nl u). { clear - F U. induction F as [|l v ls us (w & _ & _ & B) F IH]; [destruct U|]. destruct U as [<-|U]; [exact B|apply IH; exact U]. }
    unfold no_nl in B. rewrite Forall_forall in B. apply B. exact C.
  - intros d. destruct (find_names first dl nn (rev (firstn st us))); cbn [bind]; [|discriminate].
    intro E. injection E as <-. cbn [d_delimiter]. exact NN.
Qed.

(** ** lazy_textpack *)

Lemma lines_bare c enc ok ls lbs : encoding c enc ok -> Forall2 (line_rel enc ok) ls lbs ->
  exists us ts, Forall2 bare ls us /\ mapM (decode c) lbs = Ok ts /\ Forall2 bare ts us /\ Forall (Forall (good ok)) us.
Proof.
  intros EN. induction 1 as [|l lb ls lbs (u & w & wb & -> & -> & G & NL & W) F (us & ts & B1 & M & B2 & GG)].
  - exists [], []. repeat split; constructor.
  - assert (A : flat_map enc wb = wb /\ Forall ok wb /\ Forall nl wb /\ Forall nl w).
    { assert (E10 := en_ascii c enc ok EN 10%N eq_refl). assert (E13 := en_ascii c enc ok EN 13%N eq_refl).
      destruct W as [(-> & ->)|(-> & [-> | ->])]; cbn [flat_map]; rewrite ?(proj2 E10), ?(proj2 E13);
        (split; [reflexivity|]); (split; [repeat (apply Forall_cons || apply Forall_nil); tauto|]); split; repeat (apply Forall_cons || apply Forall_nil); unfold nl; auto. }
    destruct A as (A & OB & NB & NW).
    assert (NU : no_nl u).
    { unfold no_nl. rewrite Forall_forall in *. intros c0 C [-> | ->]; [exact (NL C)|]. destruct (G _ C) as (_ & _ & X & _). congruence. }
    exists (u :: us), ((u ++ wb) :: ts). split; [constructor; [exists w; auto|exact B1]|]. split.
    + cbn [mapM]. rewrite <- A at 1. rewrite <- flat_map_app. rewrite (en_decode c enc ok EN).
      2: { apply Forall_app. split; [apply good_ok; exact G|exact OB]. }
      rewrite M. reflexivity.
    + split; [constructor; [exists wb; auto|exact B2]|constructor; assumption].
Qed.

Lemma floatit_enc c enc ok s : encoding c enc ok -> Forall (good ok) s -> floatit true (flat_map enc s) = floatit false s.
Proof.
  intros EN O. pose proof (good_shape c enc ok s EN O) as S.
  unfold floatit. cbn [apply_func float_of]. rewrite (comma_float c enc ok s EN O).
  destruct s as [|x s]; [reflexivity|]. destruct (flat_map enc (x :: s)) eqn:Z; [apply flat_nil in Z; [discriminate|exact S]|reflexivity].
Qed.

Lemma written_app enc t1 b1 t2 b2 : written enc t1 b1 -> written enc t2 b2 -> written enc (t1 ++ t2) (b1 ++ b2).
Proof.
  intros W1 W2. induction W1; cbn [app]; [exact W2| |constructor; assumption|constructor; assumption].
  rewrite <- app_assoc. constructor; assumption.
Qed.

Lemma lazy_enc word c enc ok pref prefb t1 t2 b1 b2 name n k kb : encoding c enc ok -> Forall (good ok) (t1 ++ t2) ->
  written enc t1 b1 -> written enc t2 b2 -> same_kwargs c enc ok k kb ->
  lazy_textpack word prefb (mksource true (b1 ++ b2) (length b1) name) n kb =
  lazy_textpack word pref (mksource false (t1 ++ t2) (length t1) name) n k.
Proof.
  intros EN G W1 W2 (KN & KS & KU & KH & KST & KD & KE & KE' & DL & CV).
  assert (SK : forall (x y : str), skipn (length x) (x ++ y) = y).
  { intros x y. rewrite skipn_app, skipn_all, Nat.sub_diag. reflexivity. }
  unfold lazy_textpack. cbn [src_bytes src_text src_pos src_name]. rewrite !SK, KN, KU, KE, KS, KH, KST, KD. cbn [given].
  assert (G2 : Forall (good ok) t2) by (apply Forall_app in G; tauto).
  destruct (lines_bare c enc ok _ _ EN (take_written c enc ok (Z.to_nat n) EN t2 b2 G2 W2)) as (us & ts & B1 & -> & B2 & GU).
  cbn [bind]. destruct (preparse_bare (word_first word) _ us B1) as [-> D]. destruct (preparse_bare (word_first word) _ us B2) as [-> _].
  assert (NG : nothing_given k = false) by (destruct k as [? ? ? ? ? [e|] ? ? ?]; [destruct k_names, k_delimiter, k_skiprows, k_usecols, k_hasnames; reflexivity|cbn in KE'; congruence]).
  assert (NGB : nothing_given kb = false) by (destruct kb as [? ? ? ? ? [e|] ? ? ?]; [destruct k_names, k_delimiter, k_skiprows, k_usecols, k_hasnames; reflexivity|cbn in KE; congruence]).
  rewrite NG, NGB.
  assert (DD : forall d, preparse (word_first word) us = Ok (Some d) -> forall x, d_delimiter d = Some x -> Forall (fun y => ok y /\ alike y /\ y <> 10%N) x).
  { intros d P x X. specialize (D d P). rewrite X in D. cbn [from_lines] in D. eapply Forall_impl; [|exact D]. intros y (u & U & Y).
    rewrite Forall_forall in GU. specialize (GU u U). rewrite Forall_forall in GU. destruct (GU y Y) as [O A]. split; [exact O|]. split; [exact A|].
    intros ->. assert (NB : no_nl u). { clear - B1 U. induction B1 as [|l v ls us (w & _ & _ & B) F IH]; [destruct U|]. destruct U as [<-|U]; [exact B|apply IH; exact U]. }
    unfold no_nl in NB. rewrite Forall_forall in NB. apply (NB _ Y). left. reflexivity. }
  assert (FIN : forall names dl dlb cv cvb sk uc hn ss db, same_delimiter enc ok dl dlb -> same_converters enc ok cv cvb ->
    textpack (mksource true (b1 ++ b2) 0 name) (mktargs names dlb sk uc hn (Some c) cvb ss db) =
    textpack (mksource false (t1 ++ t2) 0 name) (mktargs names dl sk uc hn (given (k_encoding k) None) cv ss db)).
  { intros. apply (textpack_enc c enc ok [] (t1 ++ t2) [] (b1 ++ b2)); [exact EN|exact G|apply written_app; assumption|].
    unfold same_args. cbn [t_names t_skiprows t_usecols t_hasnames t_stripstrings t_debug t_encoding t_delimiter t_converters].
    repeat split; assumption. }
  assert (CVS : forall l, same_converters enc ok (given (k_converters k) (map (fun c => (c, floatit false)) l)) (given (k_converters kb) (map (fun c => (c, floatit true)) l))).
  { intro l. destruct (k_converters k), (k_converters kb); cbn [given same_opt] in *; try tauto.
    induction l; constructor; [|assumption]. split; [reflexivity|]. intros s O. apply (floatit_enc c enc ok); assumption. }
  assert (DLS : forall x y, same_delimiter enc ok x y -> same_delimiter enc ok (given (k_delimiter k) x) (given (k_delimiter kb) y)).
  { intros x y XY. destruct (k_delimiter k), (k_delimiter kb); cbn [given same_opt] in *; try tauto. }
  destruct (preparse (word_first word) us) as [[d|]|e]; cbn [bind]; [| |reflexivity].
  - specialize (DD d eq_refl). destruct (d_delimiter d) as [x|] eqn:X.
    + specialize (DD x eq_refl). rewrite (en_encode c enc ok EN) by (eapply Forall_impl; [|exact DD]; intros y Y; apply Y). cbn [bind].
      cbn [d_names d_delimiter d_skiprows d_converters d_usecols]. match goal with |- bind ?q _ = _ => destruct q as [names|e] end; [|reflexivity].
      cbn [bind negb andb]. rewrite ?X. apply FIN; [apply DLS; split; [reflexivity|exact DD]|].
      destruct (d_converters d); [apply CVS|apply (CVS [])].
    + cbn [bind]. cbn [d_names d_delimiter d_skiprows d_converters d_usecols]. match goal with |- bind ?q _ = _ => destruct q as [names|e] end; [|reflexivity].
      cbn [bind negb andb]. rewrite ?X. apply FIN; [apply DLS; exact I|].
      destruct (d_converters d); [apply CVS|apply (CVS [])].
  - cbn [d_names d_delimiter d_skiprows d_converters d_usecols]. match goal with |- bind ?q _ = _ => destruct q as [names|e] end; [|reflexivity].
    cbn [bind negb andb]. apply FIN; [apply DLS; exact I|apply (CVS [])].
Qed.

(** ** UTF-8 and Latin-1 *)

Ltac Zify.zify_post_hook ::= Z.div_mod_to_equations.

Lemma utf8_cases x : scalar x ->
  ((x < 128)%N /\ utf8 x = [x]) \/
  (exists a b, (194 <= a < 224 /\ 128 <= b < 192 /\ x = (a - 192) * 64 + (b - 128))%N /\ utf8 x = [a; b]) \/
  (exists a b c, (224 <= a < 240 /\ 128 <= b < 192 /\ 128 <= c < 192 /\ 2048 <= x /\ x = (a - 224) * 4096 + (b - 128) * 64 + (c - 128))%N /\ utf8 x = [a; b; c]) \/
  (exists a b c d, (240 <= a < 245 /\ 128 <= b < 192 /\ 128 <= c < 192 /\ 128 <= d < 192 /\ 65536 <= x /\ x = (a - 240) * 262144 + (b - 128) * 4096 + (c - 128) * 64 + (d - 128))%N /\ utf8 x = [a; b; c; d]).
Proof.
  intros (U & _). unfold utf8. destruct (x <? 128)%N eqn:A; [left; split; [lia|reflexivity]|right].
  destruct (x <? 2048)%N eqn:B; [left; do 2 eexists; split; [|reflexivity]; lia|right].
  destruct (x <? 65536)%N eqn:C; [left; do 3 eexists; split; [|reflexivity]|right; do 4 eexists; split; [|reflexivity]].
  - assert (x / 64 / 64 = x / 4096)%N by (rewrite N.div_div by lia; reflexivity). lia.
  - assert (x / 64 / 64 = x / 4096)%N by (rewrite N.div_div by lia; reflexivity).
    assert (x / 4096 / 64 = x / 262144)%N by (rewrite N.div_div by lia; reflexivity). lia.
Qed.

Ltac Zify.zify_post_hook ::= idtac.

Lemma utf8_decode_all s : Forall scalar s -> utf8_decode (flat_map utf8 s) = Ok s.
Proof.
  induction 1 as [|x s S F IH]; [reflexivity|]. cbn [flat_map].
  destruct (utf8_cases x S) as [(A & ->)|[(a & b & R & ->)|[(a & b & c & R & ->)|(a & b & c & d & R & ->)]]]; cbn [app utf8_decode]; rewrite IH; cbn [bind].
  - assert ((x <? 128)%N = true) as -> by lia. reflexivity.
  - assert ((a <? 128)%N = false) as -> by lia. assert ((a <? 224)%N = true) as -> by lia. do 2 f_equal. lia.
  - assert ((a <? 128)%N = false) as -> by lia. assert ((a <? 224)%N = false) as -> by lia. assert ((a <? 240)%N = true) as -> by lia. do 2 f_equal. lia.
  - assert ((a <? 128)%N = false) as -> by lia. assert ((a <? 224)%N = false) as -> by lia. assert ((a <? 240)%N = false) as -> by lia. do 2 f_equal. lia.
Qed.

Lemma utf8_encoding : encoding utf8_codec utf8 scalar.
Proof.
  split.
  - intros x L. split; [unfold scalar; lia|]. unfold utf8. assert ((x <? 128)%N = true) as -> by lia. reflexivity.
  - intros x S G. destruct (utf8_cases x S) as [(A & _)|[(a & b & R & ->)|[(a & b & c & R & ->)|(a & b & c & d & R & ->)]]]; [lia| | |];
      (split; [discriminate|repeat constructor; lia]).
  - intros x y b0 r SX SY E I.
    assert (B : (b0 < 128 \/ 194 <= b0)%N).
    { destruct (utf8_cases x SX) as [(A & Q)|[(a & b & R & Q)|[(a & b & c & R & Q)|(a & b & c & d & R & Q)]]];
        rewrite Q in E; injection E as <- _; lia. }
    destruct (utf8_cases y SY) as [(A & Q)|[(a & b & R & Q)|[(a & b & c & R & Q)|(a & b & c & d & R & Q)]]];
      rewrite Q in I; cbn [tl In] in I; lia.
  - intros x y r SX SY E.
    destruct (utf8_cases x SX) as [(A & Q)|[(a & b & R & Q)|[(a & b & c & R & Q)|(a & b & c & d & R & Q)]]]; rewrite Q in E;
    destruct (utf8_cases y SY) as [(A' & Q')|[(a' & b' & R' & Q')|[(a' & b' & c' & R' & Q')|(a' & b' & c' & d' & R' & Q')]]]; rewrite Q' in E;
      cbn [app] in E; injection E; intros; subst; try discriminate; try lia.
  - exact utf8_decode_all.
  - intros s _. reflexivity.
Qed.

Lemma latin1_encoding : encoding latin1 (fun x => [x]) (fun x => (x < 256)%N).
Proof.
  assert (I : forall s : str, flat_map (fun x => [x]) s = s) by (induction s as [|x s IH]; [reflexivity|]; cbn [flat_map app]; rewrite IH; reflexivity).
  split.
  - intros x L. split; [lia|reflexivity].
  - intros x S G. split; [discriminate|]. constructor; [exact G|constructor].
  - intros x y b r _ _ E []. 
  - intros x y r _ _ E. injection E as E _. exact E.
  - intros s _. cbn. rewrite I. reflexivity.
  - intros s _. cbn. rewrite I. reflexivity.
Qed.
