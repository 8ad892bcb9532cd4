(** * Lemmas on the text reader *)

From Coq Require Import ZifyBool ZifyNat ZifyN.
From Verif Require Import PyBase PyBaseFacts PyFloat PyText NumPy SpecArray ArrayFacts Pack PackProofs SpecDbf DbfProofs DbfThms ReadText SpecChars CharFacts SpecText.
Open Scope nat_scope.

(** ** Lines *)

Lemma readline_line l s : ~ In 10%N l -> readline (l ++ 10%N :: s) = (l ++ [10%N], s).
Proof.
  induction l as [|c l IH]; intro H; [reflexivity|]. cbn [app readline].
  assert ((c =? 10)%N = false) as -> by (apply N.eqb_neq; intros ->; apply H; left; reflexivity).
  rewrite IH by (intro I; apply H; right; exact I). reflexivity.
Qed.

Lemma readline_end l : ~ In 10%N l -> readline l = (l, []).
Proof.
  induction l as [|c l IH]; intro H; [reflexivity|]. cbn [readline].
  assert ((c =? 10)%N = false) as -> by (apply N.eqb_neq; intros ->; apply H; left; reflexivity).
  rewrite IH by (intro I; apply H; right; exact I). reflexivity.
Qed.

Lemma lines_of_line l s : ~ In 10%N l -> lines_of (l ++ 10%N :: s) = (l ++ [10%N]) :: lines_of s.
Proof.
  induction l as [|c l IH]; intro H; [reflexivity|]. cbn [app lines_of].
  assert ((c =? 10)%N = false) as -> by (apply N.eqb_neq; intros ->; apply H; left; reflexivity).
  rewrite IH by (intro I; apply H; right; exact I). reflexivity.
Qed.

Lemma lines_of_end l : ~ In 10%N l -> lines_of l = match l with [] => [] | _ => [l] end.
Proof.
  induction l as [|c l IH]; intro H; [reflexivity|]. cbn [lines_of].
  assert ((c =? 10)%N = false) as -> by (apply N.eqb_neq; intros ->; apply H; left; reflexivity).
  rewrite IH by (intro I; apply H; right; exact I). destruct l; reflexivity.
Qed.

(** ** Characters stripped from lines *)

Lemma white_in c : In c whitespace <-> white c.
Proof. unfold whitespace, white. cbn [In]. lia. Qed.

Lemma strip_prefix_one x s : strip_prefix [x] s = match s with
                                                 | c :: s' => if N.eqb x c then Some s' else None
                                                 | [] => None
                                                 end.
Proof. destruct s as [|c s]; [reflexivity|]. cbn [strip_prefix]. destruct (N.eqb x c), s; reflexivity. Qed.

Lemma replace_one x s : replace_str [x] [] 0 s = filter (fun c => negb (N.eqb x c)) s.
Proof.
  induction s as [|c s IH]; [reflexivity|]. cbn [replace_str filter]. rewrite strip_prefix_one.
  destruct (N.eqb x c); cbn [negb app length Nat.sub]; rewrite IH; reflexivity.
Qed.

Lemma replace_incl old s : forall k c, In c (replace_str old [] k s) -> In c s.
Proof.
  induction s as [|x s IH]; intros k c H; [exact H|]. cbn [replace_str] in H.
  destruct k as [|k]; [|right; apply (IH k); exact H].
  destruct (strip_prefix old (x :: s)).
  - cbn [app] in H. right. eapply IH. exact H.
  - destruct H as [->|H]; [left; reflexivity|right; eapply IH; exact H].
Qed.

Lemma strip_prefix_app p s r : strip_prefix p s = Some r -> s = p ++ r.
Proof.
  revert s. induction p as [|x p IH]; intros s H; [injection H as ->; reflexivity|].
  destruct s as [|y s]; [discriminate|]. cbn [strip_prefix] in H.
  destruct (N.eqb x y) eqn:E; [|discriminate]. apply N.eqb_eq in E. subst y. cbn [app]. f_equal. apply IH. exact H.
Qed.

Lemma strip_prefix_id p r : strip_prefix p (p ++ r) = Some r.
Proof. induction p as [|x p IH]; [reflexivity|]. cbn [app strip_prefix]. rewrite N.eqb_refl. exact IH. Qed.

(** Characters not in the pattern stay; [p] is the rest of an occurrence. *)
Lemma replace_keeps old s : old <> [] -> forall p c, ~ In c old -> (forall x, In x p -> In x old) ->
  (exists r, s = p ++ r) -> In c s -> In c (replace_str old [] (length p) s).
Proof.
  intro NE. induction s as [|x s IH]; intros p c N P (r & E) I; [destruct I|].
  destruct p as [|y p].
  - cbn [length replace_str]. destruct (strip_prefix old (x :: s)) as [r'|] eqn:F.
    + apply strip_prefix_app in F. destruct old as [|o old]; [congruence|].
      injection F as -> ->. cbn [app length]. replace (S (length old) - 1) with (length old) by lia.
      apply (IH old); [exact N|intros z Z; right; exact Z|eexists; reflexivity|].
      destruct I as [->|I]; [|exact I]. exfalso. apply N. left. reflexivity.
    + destruct I as [->|I]; [left; reflexivity|right]. apply (IH [] c N); [intros z []|exists s; reflexivity|exact I].
  - injection E as <- ->. cbn [length replace_str]. apply (IH p); [exact N|intros z Z; apply P; right; exact Z|eexists; reflexivity|].
    destruct I as [->|I]; [|exact I]. exfalso. apply N, P. left. reflexivity.
Qed.

Definition stripped (d : option str) (c : N) : bool := existsb (N.eqb c) (strip_chars d).

Lemma stripped_in d c : stripped d c = true <-> In c (strip_chars d).
Proof.
  unfold stripped. rewrite existsb_exists. split.
  - intros (x & I & E). apply N.eqb_eq in E. subst x. exact I.
  - intro I. exists c. split; [exact I|apply N.eqb_refl].
Qed.

Lemma stripped_edge d c : delim_ok d -> stripped d c = true -> edge d c.
Proof.
  intros D H. apply stripped_in in H. destruct d as [d|]; unfold strip_chars in H.
  - destruct D as [NE _]. destruct d as [|x d]; [congruence|]. split.
    + apply white_in. eapply replace_incl. exact H.
    + intro E. injection E as -> ->. rewrite replace_one in H. apply filter_In in H. destruct H as [_ H].
      rewrite N.eqb_refl in H. discriminate.
  - rewrite replace_one in H. apply filter_In in H. destruct H as [H1 H2]. split; [apply white_in; exact H1|].
    intros ->. discriminate.
Qed.

Lemma pad_stripped d c : delim_ok d -> pad d c -> stripped d c = true.
Proof.
  intros D P. apply stripped_in. destruct d as [d|]; unfold strip_chars.
  - destruct D as [NE _]. destruct P as [W N]. destruct d as [|x d]; [congruence|].
    apply (@replace_keeps (x :: d) whitespace NE [] c N); [intros z []|exists whitespace; reflexivity|apply white_in; exact W].
  - destruct P as [W N]. rewrite replace_one. apply filter_In. split; [apply white_in; exact W|].
    apply Bool.negb_true_iff, N.eqb_neq. congruence.
Qed.

Lemma newline_stripped d : delim_ok d -> stripped d 10%N = true.
Proof.
  intro D. apply pad_stripped; [exact D|]. destruct d as [d|]; cbn; unfold white.
  - destruct D. split; [lia|assumption].
  - lia.
Qed.

(** ** strip *)

Lemma lstrip_all p a s : Forall (fun c => p c = true) a -> lstrip p (a ++ s) = lstrip p s.
Proof. induction 1 as [|c a H1 H2 IH]; [reflexivity|]. cbn [app lstrip]. rewrite H1. exact IH. Qed.

Lemma lstrip_stop p s : (forall c, hd_error s = Some c -> p c = false) -> lstrip p s = s.
Proof. destruct s as [|c s]; [reflexivity|]. intro H. cbn [lstrip]. rewrite (H c eq_refl). reflexivity. Qed.

Lemma rev_Forall {A} (P : A -> Prop) l : Forall P l -> Forall P (rev l).
Proof. intro H. apply Forall_forall. intros x I. apply in_rev in I. rewrite Forall_forall in H. auto. Qed.

Lemma strip_around p a t b : Forall (fun c => p c = true) a -> Forall (fun c => p c = true) b ->
  (forall c, hd_error t = Some c -> p c = false) -> (forall c, hd_error (rev t) = Some c -> p c = false) ->
  strip p (a ++ t ++ b) = t.
Proof.
  intros A B H1 H2. unfold strip, rstrip. rewrite lstrip_all by exact A.
  destruct t as [|x t].
  - cbn [app]. rewrite <- (app_nil_r b) at 1. rewrite lstrip_all by exact B. reflexivity.
  - rewrite (@lstrip_stop p ((x :: t) ++ b)) by exact H1. rewrite rev_app_distr, lstrip_all by (apply rev_Forall; exact B).
    rewrite lstrip_stop by exact H2. apply rev_involutive.
Qed.

Lemma strip_all p s : Forall (fun c => p c = true) s -> strip p s = [].
Proof.
  intro H. pose proof (@strip_around p s [] [] H (Forall_nil _)) as E. cbn [app] in E.
  rewrite app_nil_r in E. apply E; discriminate.
Qed.

Lemma strip_split p s : exists a b, s = a ++ strip p s ++ b /\
  Forall (fun c => p c = true) a /\ Forall (fun c => p c = true) b /\
  (forall c, hd_error (strip p s) = Some c -> p c = false) /\
  (forall c, hd_error (rev (strip p s)) = Some c -> p c = false).
Proof.
  assert (L : forall s, exists a, s = a ++ lstrip p s /\ Forall (fun c => p c = true) a /\
                (forall c, hd_error (lstrip p s) = Some c -> p c = false)).
  { induction s0 as [|c s' (a & E & F & H)]; [exists []; repeat split; [constructor|discriminate]|].
    cbn [lstrip]. destruct (p c) eqn:P.
    - exists (c :: a). split; [cbn; congruence|]. split; [constructor; assumption|exact H].
    - exists []. repeat split; [constructor|]. intros x X. injection X as <-. exact P. }
  destruct (L s) as (a & E & F & H).
  destruct (L (rev (lstrip p s))) as (b & E2 & F2 & H2).
  assert (R : lstrip p s = strip p s ++ rev b).
  { unfold strip, rstrip. rewrite <- (rev_involutive (lstrip p s)) at 1. rewrite E2 at 1. apply rev_app_distr. }
  exists a, (rev b). rewrite <- R. split; [exact E|]. split; [exact F|]. split; [apply rev_Forall; exact F2|].
  split.
  - intros c C. apply H. rewrite R. destruct (strip p s); [discriminate|exact C].
  - intros c C. apply H2. unfold strip, rstrip in C. rewrite rev_involutive in C. exact C.
Qed.

(** ** split *)

Lemma split_str_nonempty d s : forall k, split_str d k s <> [].
Proof.
  induction s as [|c s IH]; intros k; [discriminate|]. cbn [split_str]. destruct k as [|k]; [|apply IH].
  destruct (strip_prefix d (c :: s)); [discriminate|]. destruct (split_str d 0 s); discriminate.
Qed.

Lemma split_skip d p s : split_str d (length p) (p ++ s) = split_str d 0 s.
Proof. induction p as [|c p IH]; [reflexivity|]. exact IH. Qed.

Lemma split_field d f s : d <> [] -> (forall c, In c f -> ~ In c d) ->
  split_str d 0 (f ++ s) = match split_str d 0 s with
                           | g :: r => (f ++ g) :: r
                           | [] => []
                           end.
Proof.
  intros NE. induction f as [|c f IH]; intro H.
  - cbn [app]. destruct (split_str d 0 s); reflexivity.
  - cbn [app split_str]. destruct d as [|x d]; [congruence|].
    assert (strip_prefix (x :: d) (c :: f ++ s) = None) as ->.
    { cbn [strip_prefix]. assert ((x =? c)%N = false) as ->; [|reflexivity].
      apply N.eqb_neq. intros ->. apply (H c); left; reflexivity. }
    rewrite IH by (intros y Y; apply H; right; exact Y).
    pose proof (@split_str_nonempty (x :: d) s 0). destruct (split_str (x :: d) 0 s); [congruence|reflexivity].
Qed.

Lemma split_sep d s : d <> [] -> split_str d 0 (d ++ s) = [] :: split_str d 0 s.
Proof.
  intro NE. destruct d as [|x d]; [congruence|]. cbn [app]. cbn [split_str].
  rewrite (strip_prefix_id (x :: d) s : strip_prefix (x :: d) (x :: d ++ s) = Some s).
  f_equal. cbn [length]. replace (S (length d) - 1) with (length d) by lia. apply split_skip.
Qed.

Lemma split_join d row : d <> [] -> row <> [] -> Forall (fun f => forall c, In c f -> ~ In c d) row ->
  split_str d 0 (join d row) = row.
Proof.
  intros NE. induction row as [|f row IH]; intros N F; [congruence|]. inversion F; subst.
  destruct row as [|g row].
  - cbn [join]. rewrite <- (app_nil_r f) at 1. rewrite split_field by assumption. cbn [split_str].
    rewrite app_nil_r. reflexivity.
  - change (join d (f :: g :: row)) with (f ++ d ++ join d (g :: row)).
    rewrite split_field by assumption. rewrite split_sep by exact NE. rewrite app_nil_r. f_equal.
    apply IH; [discriminate|assumption].
Qed.

Lemma split_ws_skip ws w s : Forall (fun c => ws c = true) w -> split_ws ws (w ++ s) = split_ws ws s.
Proof. induction 1 as [|c w H1 H2 IH]; [reflexivity|]. cbn [app split_ws]. rewrite H1. exact IH. Qed.

Lemma split_ws_field ws f s : f <> [] -> Forall (fun c => ws c = false) f ->
  (forall c, hd_error s = Some c -> ws c = true) -> split_ws ws (f ++ s) = f :: split_ws ws s.
Proof.
  intros NE F H. induction F as [|c f H1 H2 IH]; [congruence|]. clear NE. cbn [app split_ws]. rewrite H1.
  destruct f as [|d f].
  - cbn [app]. destruct s as [|e s]; [reflexivity|]. rewrite (H e eq_refl). reflexivity.
  - cbn [app]. inversion H2; subst. rewrite H4.
    change (d :: f ++ s) with ((d :: f) ++ s). rewrite IH by discriminate. reflexivity.
Qed.

Lemma split_ws_trailing ws s w : Forall (fun c => ws c = true) w -> split_ws ws (s ++ w) = split_ws ws s.
Proof.
  intro W. induction s as [|c s IH].
  - cbn [app]. rewrite <- (app_nil_r w). rewrite split_ws_skip by exact W. reflexivity.
  - cbn [app split_ws]. destruct (ws c); [exact IH|].
    destruct s as [|d s].
    + cbn [app]. destruct W as [|e w H1 H2]; [reflexivity|]. rewrite H1. f_equal. exact IH.
    + cbn [app]. rewrite <- IH. cbn [app]. reflexivity.
Qed.

Lemma split_ws_strip ws p s : (forall c, p c = true -> ws c = true) -> split_ws ws (strip p s) = split_ws ws s.
Proof.
  intro H. destruct (strip_split p s) as (a & b & E & A & B & _). rewrite E at 2.
  assert (I : forall l, Forall (fun c => p c = true) l -> Forall (fun c => ws c = true) l).
  { intros l F. eapply Forall_impl; [|exact F]. exact H. }
  rewrite split_ws_skip by (apply I; exact A). rewrite split_ws_trailing by (apply I; exact B). reflexivity.
Qed.

Lemma space_ws m c : ws_of m c = true <-> space m c.
Proof.
  unfold space, ws_of. destruct m.
  - rewrite ws_text_iff. split; [auto|]. intros [H|[_ H]]; [|exact H]. unfold white, text_space in *. lia.
  - unfold white, ws_bytes. split; [intro H; left; lia|]. intros [H|[E _]]; [lia|discriminate].
  - unfold white, ws_bytes. split; [intro H; left; lia|]. intros [H|[E _]]; [lia|discriminate].
Qed.

Lemma space_not m c : ~ space m c <-> ws_of m c = false.
Proof. rewrite <- space_ws. destruct (ws_of m c); intuition congruence. Qed.

Lemma spaced_split m row l : spaced (space m) row l -> split_ws (ws_of m) l = row.
Proof.
  induction 1 as [w H|w f r s H1 H2 H3 H4 IH H5].
  - rewrite <- (app_nil_r w). rewrite split_ws_skip; [reflexivity|].
    eapply Forall_impl; [|exact H]. intro c. apply space_ws.
  - rewrite split_ws_skip by (eapply Forall_impl; [|exact H1]; intro c; apply space_ws).
    rewrite split_ws_field; [rewrite IH; reflexivity|exact H2| |].
    + eapply Forall_impl; [|exact H3]. intro c. apply space_not.
    + intros c C. apply space_ws, H5, C.
Qed.

(** ** One line of a table *)

Lemma strip_line_eq d l : strip_line d l = strip (stripped d) l.
Proof. reflexivity. Qed.

Lemma row_text m d row l n : delim_ok d -> row_line m d row l -> n = [] \/ n = [10%N] ->
  strip_line d (l ++ n) <> [] /\ split_line m d (strip_line d (l ++ n)) = Ok row.
Proof.
  intros D (NL & R) Nn. rewrite strip_line_eq.
  assert (FN : Forall (fun c => stripped d c = true) n).
  { destruct Nn as [->| ->]; [constructor|]. constructor; [apply newline_stripped; exact D|constructor]. }
  destruct d as [d|].
  - destruct R as (a & b & -> & (NE & RN & JN & F & E1 & E2) & PA & PB).
    assert (S : strip (stripped (Some d)) ((a ++ join d row ++ b) ++ n) = join d row).
    { rewrite <- !app_assoc. apply strip_around.
      - eapply Forall_impl; [|exact PA]. intro c. apply pad_stripped, D.
      - apply Forall_app. split; [|exact FN]. eapply Forall_impl; [|exact PB]. intro c. apply pad_stripped, D.
      - intros c C. destruct (stripped (Some d) c) eqn:Q; [|reflexivity]. destruct (E1 c C). apply stripped_edge; assumption.
      - intros c C. destruct (stripped (Some d) c) eqn:Q; [|reflexivity]. destruct (E2 c C). apply stripped_edge; assumption. }
    rewrite S. split; [exact JN|]. unfold split_line. destruct d as [|x d]; [congruence|].
    rewrite split_join by assumption. reflexivity.
  - destruct R as (RN & R).
    assert (I : forall c, stripped None c = true -> ws_of m c = true).
    { intros c C. apply stripped_edge in C; [|exact I]. destruct C as [W _]. apply space_ws. left. exact W. }
    assert (S : split_ws (ws_of m) (strip (stripped None) (l ++ n)) = row).
    { rewrite split_ws_strip by exact I. rewrite split_ws_trailing; [apply spaced_split; exact R|].
      eapply Forall_impl; [|exact FN]. exact I. }
    unfold split_line. rewrite S. split; [|reflexivity]. intro E. rewrite E in S. cbn in S. congruence.
Qed.

Lemma blank_text d w n : delim_ok d -> Forall (pad d) w -> n = [] \/ n = [10%N] -> strip_line d (w ++ n) = [].
Proof.
  intros D P N. rewrite strip_line_eq. apply strip_all. apply Forall_app. split.
  - eapply Forall_impl; [|exact P]. intro c. apply pad_stripped, D.
  - destruct N as [->| ->]; [constructor|]. constructor; [apply newline_stripped; exact D|constructor].
Qed.

Lemma layout_rows m d rows s funcs u : delim_ok d -> layout m d rows s ->
  flat_map (data_line m d funcs u) (lines_of s) = map (line_tuple m funcs u) rows.
Proof.
  intros D L. induction L as [|w rows s P N L IH|w P N|row l rows s R L IH|row l R].
  - reflexivity.
  - rewrite lines_of_line by exact N. cbn [flat_map]. unfold data_line at 1.
    rewrite blank_text by auto. exact IH.
  - rewrite lines_of_end by exact N. destruct w as [|c w]; [reflexivity|]. cbn [flat_map]. unfold data_line.
    pose proof (@blank_text d (c :: w) [] D P (or_introl eq_refl)) as E. rewrite app_nil_r in E. rewrite E. reflexivity.
  - rewrite lines_of_line by apply R. cbn [flat_map map]. unfold data_line at 1.
    destruct (@row_text m d row l [10%N] D R (or_intror eq_refl)) as [E1 E2].
    destruct (strip_line d (l ++ [10%N])); [congruence|]. rewrite E2, IH. reflexivity.
  - rewrite lines_of_end by apply R.
    destruct (@row_text m d row l [] D R (or_introl eq_refl)) as [E1 E2]. rewrite app_nil_r in E1, E2.
    destruct l as [|c l]; [cbn in E1; congruence|]. cbn [flat_map map]. unfold data_line.
    destruct (strip_line d (c :: l)); [congruence|]. rewrite E2. reflexivity.
Qed.

Lemma table_tuples m d row0 rows s u conv st : table m d row0 rows s ->
  linetuples s m d u conv st false =
  do funcs <- line_funcs m st conv row0;
  Ok (mkyields funcs (Ok []) (map (line_tuple m funcs u) (row0 :: rows))).
Proof.
  intros (D & l & s' & R & [[-> ->]|[-> L]]); unfold linetuples; cbn [bind].
  - rewrite readline_end by apply R.
    destruct (@row_text m d row0 l [] D R (or_introl eq_refl)) as [E1 E2]. rewrite app_nil_r in E2. rewrite E2.
    cbn [bind]. destruct (line_funcs m st conv row0); cbn [bind]; [|reflexivity].
    unfold names_tuple. cbn [enum_from]. rewrite firstn_nil. cbn. reflexivity.
  - rewrite readline_line by apply R.
    destruct (@row_text m d row0 l [10%N] D R (or_intror eq_refl)) as [E1 E2]. rewrite E2.
    cbn [bind]. destruct (line_funcs m st conv row0); cbn [bind]; [|reflexivity].
    unfold names_tuple. cbn [enum_from]. rewrite firstn_nil. cbn [filter mapM map].
    rewrite (@layout_rows m d rows s' a u D L). reflexivity.
Qed.

(** ** Functions for the columns *)

Lemma dots_eq s : comma_to_dot s = dots s.
Proof.
  unfold comma_to_dot, dots, replace1. induction s as [|c s IH]; [reflexivity|]. cbn [flat_map map]. rewrite IH.
  destruct (N.eq_dec c 44) as [->|E]; [reflexivity|]. apply N.eqb_neq in E. rewrite E. reflexivity.
Qed.

Lemma reads_iff m s f : reads m s f <-> float_of m s = Ok f.
Proof. destruct m; cbn [reads float_of]; [symmetry; apply float_of_text_iff|reflexivity|reflexivity]. Qed.

Lemma plain_iff m s : plain_number m s <-> exists f, float_of m s = Ok f.
Proof. unfold plain_number. split; intros (f & H); exists f; apply reads_iff; exact H. Qed.

Lemma comma_iff m s : comma_number m s <-> ~ (exists f, float_of m s = Ok f) /\ exists f, float_of m (dots s) = Ok f.
Proof.
  unfold comma_number. rewrite plain_iff. split; (intros [A (f & H)]; split; [exact A|exists f; apply reads_iff; exact H]).
Qed.

Lemma field_func_floatit m st v : field_func m st v = FloatIt <-> comma_number m v.
Proof.
  rewrite comma_iff. unfold field_func. rewrite dots_eq. destruct (float_of m v) as [f|e].
  - split; [discriminate|]. intros [H _]. destruct H. eauto.
  - destruct (float_of m (dots v)) as [f|e'].
    + split; [|reflexivity]. intros _. split; [intros (x & X); discriminate|eauto].
    + split; [destruct st, m; discriminate|]. intros (_ & x & X). discriminate.
Qed.

Lemma field_func_maybenan m st v : field_func m st v = MaybeNan <-> plain_number m v.
Proof.
  rewrite plain_iff. unfold field_func. rewrite dots_eq. destruct (float_of m v) as [f|e]; [split; eauto|].
  split; [|intros (x & X); discriminate].
  destruct (float_of m (dots v)) as [f|e']; [discriminate|]. destruct st, m; discriminate.
Qed.

Definition text_func (m : mode) (st : bool) : func :=
  match st, m with
  | false, Coded _ => AsIsDecode
  | false, _ => AsIs
  | true, Coded _ => AsIsStrippedDecode
  | true, _ => AsIsStripped
  end.

Lemma field_func_text m st v : ~ number m v -> field_func m st v = text_func m st.
Proof.
  unfold number, field_func, text_func. rewrite dots_eq, plain_iff, comma_iff. intro H.
  destruct (float_of m v) as [f|e]; [destruct H; left; eauto|].
  destruct (float_of m (dots v)) as [f|e'].
  - destruct H. right. split; [intros (x & X); discriminate|eauto].
  - destruct st, m; reflexivity.
Qed.

Lemma number_dec m v : {number m v} + {~ number m v}.
Proof.
  destruct (float_of m v) as [f|e] eqn:E; [left; left; apply plain_iff; eauto|].
  destruct (float_of m (dots v)) as [f|e'] eqn:E'.
  - left. right. apply comma_iff. split; [intros (x & X); congruence|eauto].
  - right. intros [P|P]; [apply plain_iff in P; destruct P as (x & X)|apply comma_iff in P; destruct P as (_ & x & X)]; congruence.
Qed.

Definition commas (m : mode) (row0 : list str) : bool := existsb is_floatit (map (field_func m false) row0).

Lemma is_floatit_eq f : is_floatit f = true <-> f = FloatIt.
Proof. destruct f; cbn; split; congruence. Qed.

Lemma commas_mode m st row0 : existsb is_floatit (map (field_func m st) row0) = commas m row0.
Proof.
  unfold commas. induction row0 as [|v row0 IH]; [reflexivity|]. cbn [map existsb]. rewrite IH. f_equal.
  apply Bool.eq_true_iff_eq. rewrite !is_floatit_eq, !field_func_floatit. reflexivity.
Qed.

Lemma commas_spec m row0 : commas m row0 = true <-> comma_table m row0.
Proof.
  unfold commas, comma_table. rewrite existsb_exists. split.
  - intros (f & I & E). apply in_map_iff in I. destruct I as (v & <- & I). exists v. split; [exact I|].
    apply is_floatit_eq in E. apply field_func_floatit in E. exact E.
  - intros (v & I & C). exists (field_func m false v). split; [apply in_map; exact I|].
    apply is_floatit_eq, field_func_floatit. exact C.
Qed.

Definition column_func (m : mode) (st : bool) (row0 : list str) (c : nat) : func :=
  if number_dec m (nth c row0 []) then (if commas m row0 then FloatIt else MaybeNan) else text_func m st.

Definition base_funcs (m : mode) (st : bool) (row0 : list str) : list func :=
  let funcs := map (field_func m st) row0 in
  if existsb is_floatit funcs
  then map (fun f => match f with MaybeNan => FloatIt | _ => f end) funcs
  else funcs.

Lemma base_funcs_length m st row0 : length (base_funcs m st row0) = length row0.
Proof. unfold base_funcs. destruct (existsb _ _); rewrite ?map_length; reflexivity. Qed.

Lemma base_funcs_nth m st row0 c : c < length row0 ->
  nth c (base_funcs m st row0) AsIs = column_func m st row0 c.
Proof.
  intro C. unfold base_funcs, column_func. rewrite commas_mode.
  assert (E : nth c (map (field_func m st) row0) AsIs = field_func m st (nth c row0 [])).
  { apply nth_map_lt. exact C. }
  destruct (number_dec m (nth c row0 [])) as [N|N].
  - destruct (commas m row0) eqn:K.
    + rewrite (nth_map_lt (fun f => match f with MaybeNan => FloatIt | _ => f end) _ AsIs AsIs) by (rewrite map_length; exact C).
      rewrite E. destruct N as [N|N].
      * apply (field_func_maybenan m st) in N. rewrite N. reflexivity.
      * apply (field_func_floatit m st) in N. rewrite N. reflexivity.
    + rewrite E. destruct N as [N|N].
      * apply (field_func_maybenan m st) in N. exact N.
      * exfalso. assert (commas m row0 = true); [|congruence]. apply commas_spec. exists (nth c row0 []).
        split; [apply nth_In; exact C|exact N].
  - destruct (commas m row0).
    + rewrite (nth_map_lt (fun f => match f with MaybeNan => FloatIt | _ => f end) _ AsIs AsIs) by (rewrite map_length; exact C).
      rewrite E, field_func_text by exact N. destruct m, st; reflexivity.
    + rewrite E. apply field_func_text. exact N.
Qed.

Lemma list_set_in {A} (l : list A) k x : (0 <= k < Z.of_nat (length l))%Z ->
  exists l', list_set l k x = Ok l' /\ length l' = length l /\
    forall c d, nth c l' d = if Z.eqb k (Z.of_nat c) then x else nth c l d.
Proof.
  intro K. unfold list_set. assert (k <? 0 = false)%Z as -> by lia.
  assert (((0 <=? k) && (k <? Z.of_nat (length l)))%Z = true) as -> by lia.
  eexists. split; [reflexivity|]. set (j := Z.to_nat k). assert (J : j < length l) by lia.
  split.
  { rewrite app_length, firstn_length. cbn [length]. rewrite skipn_length. lia. }
  intros c d. destruct (k =? Z.of_nat c)%Z eqn:E.
  - assert (c = j) as -> by lia. rewrite app_nth2; rewrite firstn_length; [|lia].
    replace (j - Nat.min j (length l)) with 0 by lia. reflexivity.
  - destruct (Nat.lt_ge_cases c j) as [L|L].
    + rewrite app_nth1 by (rewrite firstn_length; lia). rewrite <- (firstn_skipn j l) at 2.
      rewrite app_nth1 by (rewrite firstn_length; lia). reflexivity.
    + rewrite app_nth2 by (rewrite firstn_length; lia). rewrite firstn_length.
      replace (c - Nat.min j (length l)) with (S (c - S j)) by lia. cbn [nth].
      rewrite <- (firstn_skipn (S j) l) at 2. rewrite app_nth2 by (rewrite firstn_length; lia).
      rewrite firstn_length. f_equal. lia.
Qed.

Lemma set_funcs_ok conv : forall fs, NoDup (dkeys conv) ->
  (forall k, In k (dkeys conv) -> 0 <= k < Z.of_nat (length fs))%Z ->
  exists fs', set_funcs fs conv = Ok fs' /\ length fs' = length fs /\
    forall c, nth c fs' AsIs = match dget (Z.of_nat c) conv with Some f => Given f | None => nth c fs AsIs end.
Proof.
  induction conv as [|[k f] conv IH]; intros fs N B; [exists fs; repeat split|].
  cbn [set_funcs]. cbn [dkeys map fst] in N. inversion N as [|? ? N1 N2]; subst.
  destruct (@list_set_in _ fs k (Given f) (B k (or_introl eq_refl))) as (fs1 & E1 & L1 & H1). rewrite E1. cbn [bind].
  destruct (IH fs1 N2) as (fs2 & E2 & L2 & H2).
  { intros k' K'. rewrite L1. apply B. right. exact K'. }
  exists fs2. split; [exact E2|]. split; [congruence|]. intro c. rewrite H2. cbn [dget].
  destruct (Z.of_nat c =? k)%Z eqn:E.
  - assert (dget (Z.of_nat c) conv = None) as ->.
    { destruct (dget (Z.of_nat c) conv) eqn:G; [|reflexivity]. exfalso. apply N1. assert (k = Z.of_nat c) as -> by lia.
      apply dget_Some_In. eauto. }
    rewrite H1. assert (k =? Z.of_nat c = true)%Z as -> by lia. reflexivity.
  - destruct (dget (Z.of_nat c) conv); [reflexivity|]. rewrite H1. assert (k =? Z.of_nat c = false)%Z as -> by lia. reflexivity.
Qed.

Lemma trims_strip m s t : trims (space m) s t <-> t = strip (ws_of m) s.
Proof.
  split.
  - intros (a & b & -> & A & B & H1 & H2). symmetry. apply strip_around.
    + eapply Forall_impl; [|exact A]. intro c. apply space_ws.
    + eapply Forall_impl; [|exact B]. intro c. apply space_ws.
    + intros c C. apply space_not, H1, C.
    + intros c C. apply space_not, H2, C.
  - intros ->. destruct (strip_split (ws_of m) s) as (a & b & E & A & B & H1 & H2).
    exists a, b. split; [exact E|]. split; [eapply Forall_impl; [|exact A]; intro c; apply space_ws|].
    split; [eapply Forall_impl; [|exact B]; intro c; apply space_ws|].
    split; intros c C; apply space_not; auto.
Qed.

Lemma floatit_apply m s v : apply_func m FloatIt s = Ok v <->
  (s = [] /\ v = VFloat fnan) \/ (exists x, reads m (dots s) x /\ v = VFloat x).
Proof.
  cbn [apply_func]. rewrite dots_eq. setoid_rewrite reads_iff. destruct s as [|c s].
  - split; [intro H; left; split; congruence|]. intros [[_ ->]|(x & X & _)]; [reflexivity|]. destruct m; vm_compute in X; discriminate.
  - split.
    + intro H. right. destruct (float_of m (dots (c :: s))) as [x|]; cbn [bind] in H; [|discriminate].
      exists x. split; [reflexivity|congruence].
    + intros [[X _]|(x & X & ->)]; [discriminate|]. rewrite X. reflexivity.
Qed.

Lemma maybenan_apply m s v : apply_func m MaybeNan s = Ok v <->
  (s = [] /\ v = VFloat fnan) \/ (exists x, reads m s x /\ v = VFloat x).
Proof.
  cbn [apply_func]. unfold float_or_nan. setoid_rewrite reads_iff. destruct s as [|c s].
  - split; [intro H; left; split; congruence|]. intros [[_ ->]|(x & X & _)]; [reflexivity|]. destruct m; vm_compute in X; discriminate.
  - split.
    + intro H. right. destruct (float_of m (c :: s)) as [x|]; cbn [bind] in H; [|discriminate].
      exists x. split; [reflexivity|congruence].
    + intros [[X _]|(x & X & ->)]; [discriminate|]. rewrite X. reflexivity.
Qed.

Lemma text_apply m st s v : apply_func m (text_func m st) s = Ok v <->
  (exists t, m = Text /\ trims_if st (space m) s t /\ v = VStr t) \/
  (exists t, m = Raw /\ trims_if st (space m) s t /\ v = VBytes t) \/
  (exists co t u, m = Coded co /\ trims_if st (space m) s t /\ decode co t = Ok u /\ v = VStr u).
Proof.
  assert (T : forall t, trims_if st (space m) s t <-> t = if st then strip (ws_of m) s else s).
  { intro t. destruct st; [apply trims_strip|reflexivity]. }
  split.
  - intro H. destruct m as [| |co].
    + left. eexists. split; [reflexivity|]. split; [apply T; reflexivity|]. destruct st; cbn in H |- *; congruence.
    + right. left. eexists. split; [reflexivity|]. split; [apply T; reflexivity|]. destruct st; cbn in H |- *; congruence.
    + right. right. exists co. destruct st; cbn in H.
      * destruct (decode co (strip ws_bytes s)) as [u|] eqn:E; cbn in H; [|discriminate].
        exists (strip ws_bytes s), u. split; [reflexivity|]. split; [apply T; reflexivity|]. split; [exact E|congruence].
      * destruct (decode co s) as [u|] eqn:E; cbn in H; [|discriminate].
        exists s, u. split; [reflexivity|]. split; [apply T; reflexivity|]. split; [exact E|congruence].
  - intros [(t & -> & X & ->)|[(t & -> & X & ->)|(co & t & u & -> & X & D & ->)]]; apply T in X; subst t.
    + destruct st; reflexivity.
    + destruct st; reflexivity.
    + destruct st; cbn in *; rewrite D; reflexivity.
Qed.

(** The functions do what the cells stand for. *)
Lemma column_func_cell m st row0 c s v : c < length row0 ->
  apply_func m (column_func m st row0 c) s = Ok v <-> cell m st [] row0 c s v.
Proof.
  intro C. unfold column_func. destruct (number_dec m (nth c row0 [])) as [N|N].
  - destruct (commas m row0) eqn:K.
    + assert (CT : comma_table m row0) by (apply commas_spec; exact K). rewrite floatit_apply. split.
      * intros [[-> ->]|(x & X & ->)]; [apply cell_nan; auto|apply cell_comma; auto].
      * intro H. destruct H; try discriminate; try contradiction; eauto.
    + assert (CT : ~ comma_table m row0) by (rewrite <- commas_spec; congruence). rewrite maybenan_apply. split.
      * intros [[-> ->]|(x & X & ->)]; [apply cell_nan; auto|apply cell_plain; auto].
      * intro H. destruct H; try discriminate; try contradiction; eauto.
  - rewrite text_apply. split.
    + intros [(t & E & X & ->)|[(t & E & X & ->)|(co & t & u & E & X & D & ->)]].
      * apply cell_text; auto.
      * apply cell_bytes; auto.
      * eapply cell_decoded; eauto.
    + intro H. destruct H; try discriminate; try contradiction; eauto 10.
Qed.

Lemma cell_conv m st conv row0 c s v : 
  cell m st conv row0 c s v <->
  match dget (Z.of_nat c) conv with
  | Some f => f s = Ok v
  | None => cell m st [] row0 c s v
  end.
Proof.
  destruct (dget (Z.of_nat c) conv) as [f|] eqn:E; split; intro H.
  - destruct H; congruence.
  - eapply cell_converter; eauto.
  - destruct H; try congruence.
    + apply cell_nan; auto.
    + apply cell_plain; auto.
    + apply cell_comma; auto.
    + apply cell_text; auto.
    + apply cell_bytes; auto.
    + eapply cell_decoded; eauto.
  - destruct H; try discriminate.
    + apply cell_nan; auto.
    + apply cell_plain; auto.
    + apply cell_comma; auto.
    + apply cell_text; auto.
    + apply cell_bytes; auto.
    + eapply cell_decoded; eauto.
Qed.

Lemma line_funcs_ok m st conv row0 : converters_ok conv row0 ->
  exists funcs, line_funcs m st conv row0 = Ok funcs /\ length funcs = length row0 /\
    forall c s v, c < length row0 -> apply_func m (nth c funcs AsIs) s = Ok v <-> cell m st conv row0 c s v.
Proof.
  intros (N & B). unfold line_funcs. fold (base_funcs m st row0).
  destruct (@set_funcs_ok conv (base_funcs m st row0) N) as (fs & E & L & H).
  { intros k K. rewrite base_funcs_length. apply B. exact K. }
  exists fs. split; [exact E|]. rewrite base_funcs_length in L. split; [exact L|].
  intros c s v C. rewrite H, cell_conv. destruct (dget (Z.of_nat c) conv) as [f|]; [reflexivity|].
  rewrite base_funcs_nth by exact C. apply column_func_cell. exact C.
Qed.

(** ** Tuples *)

Lemma enum_zip_seq {A B} (da : A) (db : B) : forall (a : list A) (b : list B) n,
  enum_from n (zip a b) = map (fun c => (c, (nth (c - n) a da, nth (c - n) b db))) (seq n (Nat.min (length a) (length b))).
Proof.
  induction a as [|x a IH]; intros [|y b] n; try reflexivity. cbn [zip enum_from length Nat.min seq map].
  rewrite Nat.sub_diag. f_equal. rewrite IH. apply map_ext_in. intros c I. apply in_seq in I.
  replace (c - n) with (S (c - S n)) by lia. reflexivity.
Qed.

Lemma filter_map {A B} (f : A -> B) p l : filter p (map f l) = map f (filter (fun x => p (f x)) l).
Proof. induction l as [|x l IH]; [reflexivity|]. cbn. destruct (p (f x)); cbn; rewrite IH; reflexivity. Qed.

Lemma mapM_map {A B C} (f : A -> B) (g : B -> res C) l : mapM g (map f l) = mapM (fun x => g (f x)) l.
Proof. induction l as [|x l IH]; [reflexivity|]. cbn. rewrite IH. reflexivity. Qed.

Definition chosen (u : option (list Z)) (n : nat) : list nat := filter (in_cols u) (seq 0 n).

Lemma mapM_ext_in {A B} (f g : A -> res B) l : (forall x, In x l -> f x = g x) -> mapM f l = mapM g l.
Proof.
  induction l as [|x l IH]; intro H; [reflexivity|]. cbn [mapM]. rewrite (H x (or_introl eq_refl)).
  rewrite IH by (intros y Y; apply H; right; exact Y). reflexivity.
Qed.

Lemma line_tuple_seq m funcs u vals : line_tuple m funcs u vals =
  mapM (fun c => apply_func m (nth c funcs AsIs) (nth c vals []))
    (chosen u (Nat.min (length funcs) (length vals))).
Proof.
  unfold line_tuple, chosen. rewrite (enum_zip_seq AsIs ([] : str)). rewrite filter_map, mapM_map. cbn [fst snd].
  apply mapM_ext_in. intros c _. rewrite Nat.sub_0_r. reflexivity.
Qed.

Lemma line_tuple_ok m funcs u vals (g : nat -> val) :
  (forall c, In c (chosen u (Nat.min (length funcs) (length vals))) ->
     apply_func m (nth c funcs AsIs) (nth c vals []) = Ok (g c)) ->
  line_tuple m funcs u vals = Ok (map g (chosen u (Nat.min (length funcs) (length vals)))).
Proof. intro H. rewrite line_tuple_seq. apply mapM_all_ok. exact H. Qed.

Lemma chosen_all n : chosen None n = seq 0 n.
Proof. unfold chosen. generalize (seq 0 n). induction l as [|x l IH]; [reflexivity|]. cbn. f_equal. exact IH. Qed.

Lemma zipn_minlen {A} (d : A) (rows : list (list A)) :
  zipn rows = map (fun j => map (fun r => nth j r d) rows) (seq 0 (minlen rows)).
Proof.
  apply nth_ext_eq with (d := []).
  - rewrite map_length, seq_length. apply zipn_length.
  - intros i Hi. rewrite zipn_length in Hi.
    assert (exists row, nth_error (zipn rows) i = Some row) as [row Hrow].
    { destruct (nth_error (zipn rows) i) eqn:E; eauto. apply nth_error_None in E. rewrite zipn_length in E. lia. }
    destruct (zipn_nth _ _ Hrow) as (R1 & R2).
    rewrite nth_error_nth_default, Hrow.
    rewrite (nth_map_lt (fun j => map (fun r => nth j r d) rows) (seq 0 (minlen rows)) [] 0)
      by (rewrite seq_length; lia).
    rewrite seq_nth by lia. cbn [Nat.add].
    apply nth_ext_eq with (d := d); [rewrite map_length; auto|].
    intros j Hj. rewrite R1 in Hj. destruct (R2 _ Hj) as (x & Hx & Hn).
    rewrite nth_error_nth_default, Hx.
    rewrite (nth_map_lt (fun r => nth i r d) rows d []) by lia.
    rewrite nth_error_nth_default, Hn. reflexivity.
Qed.

Lemma label_none {A} (l : list A) d : label None l = map (fun c => (Z.of_nat c, nth c l d)) (seq 0 (length l)).
Proof.
  unfold label. assert (W : forall (l : list A) n, map (fun ix => (Z.of_nat (fst ix), snd ix)) (enum_from n l) =
    map (fun c => (Z.of_nat c, nth (c - n) l d)) (seq n (length l))).
  { clear l. induction l as [|x l IH]; intro n; [reflexivity|]. cbn [enum_from map length seq]. rewrite Nat.sub_diag.
    cbn [fst snd nth]. f_equal. rewrite IH. apply map_ext_in. intros c I. apply in_seq in I.
    replace (c - n) with (S (c - S n)) by lia. reflexivity. }
  rewrite W. apply map_ext. intro c. rewrite Nat.sub_0_r. reflexivity.
Qed.

Lemma seq_keys_NoDup {A} (f : nat -> A) n : NoDup (map fst (map (fun c => (Z.of_nat c, f c)) (seq 0 n))).
Proof.
  rewrite map_map. cbn [fst]. apply FinFun.Injective_map_NoDup; [intros a b; lia|]. apply seq_NoDup.
Qed.

(** ** Skipped lines *)

Lemma skip_lines_line n l s : ~ In 10%N l -> skip_lines (S n) (l ++ 10%N :: s) = skip_lines n s.
Proof. intro N. cbn [skip_lines]. rewrite readline_line by exact N. reflexivity. Qed.

(** ** Rows of any text *)

Definition line_vals (m : mode) (d : option str) (line : str) : list (res (list str)) :=
  match strip_line d line with
  | [] => []
  | s => [split_line m d s]
  end.

Lemma data_lines m d funcs u ls : flat_map (data_line m d funcs u) ls =
  map (fun r => do v <- r; line_tuple m funcs u v) (flat_map (line_vals m d) ls).
Proof.
  induction ls as [|l ls IH]; [reflexivity|]. cbn [flat_map]. rewrite map_app, IH. f_equal.
  unfold data_line, line_vals. destruct (strip_line d l); reflexivity.
Qed.

(** All rows of a successful read. *)
Lemma all_rows_ok rows l : all_rows rows = Ok l <-> rows = map Ok l.
Proof.
  unfold all_rows. rewrite mapM_ok_Forall2. split.
  - induction 1 as [|x y xs ys H1 H2 IH]; [reflexivity|]. cbn. congruence.
  - intros ->. induction l as [|x l IH]; constructor; auto.
Qed.

(** ** Strictly ascending columns *)

Lemma sorted_lt_strong l : Sorted lt l -> StronglySorted lt l.
Proof. apply Sorted_StronglySorted. intros a b c. apply Nat.lt_trans. Qed.

Lemma strong_ext l1 : forall l2 : list nat, StronglySorted lt l1 -> StronglySorted lt l2 ->
  (forall c, In c l1 <-> In c l2) -> l1 = l2.
Proof.
  induction l1 as [|x l1 IH]; intros [|y l2] S1 S2 H.
  - reflexivity.
  - exfalso. apply (H y). left. reflexivity.
  - exfalso. apply (H x). left. reflexivity.
  - inversion S1 as [|? ? S1a S1b]; subst. inversion S2 as [|? ? S2a S2b]; subst.
    rewrite Forall_forall in S1b, S2b.
    assert (x = y).
    { destruct (proj1 (H x) (or_introl eq_refl)) as [->|I]; [reflexivity|].
      destruct (proj2 (H y) (or_introl eq_refl)) as [->|J]; [reflexivity|].
      apply S2b in I. apply S1b in J. lia. }
    subst y. f_equal. apply IH; [assumption|assumption|]. intro c. split; intro I.
    + destruct (proj1 (H c) (or_intror I)) as [<-|J]; [apply S1b in I; lia|exact J].
    + destruct (proj2 (H c) (or_intror I)) as [<-|J]; [apply S2b in I; lia|exact J].
Qed.

Lemma seq_strong n : forall k, StronglySorted lt (seq k n).
Proof.
  induction n as [|n IH]; intro k; cbn [seq]; constructor; [apply IH|]. apply Forall_forall. intros c I.
  apply in_seq in I. lia.
Qed.

Lemma filter_strong p l : StronglySorted lt l -> StronglySorted lt (filter p l).
Proof.
  induction 1 as [|x l S IH F]; [constructor|]. cbn [filter]. destruct (p x); [|exact IH]. constructor; [exact IH|].
  apply Forall_forall. intros c I. apply filter_In in I. rewrite Forall_forall in F. apply F, I.
Qed.

Lemma in_cols_spec u c : in_cols u c = true <-> match u with None => True | Some l => In (Z.of_nat c) l end.
Proof.
  destruct u as [l|]; cbn; [|intuition]. rewrite existsb_exists. split.
  - intros (x & I & E). assert (Z.of_nat c = x) as -> by lia. exact I.
  - intro I. exists (Z.of_nat c). split; [exact I|lia].
Qed.

Lemma columns_below_chosen u k cs : columns_below u k cs -> cs = chosen u k.
Proof.
  intros (S & H). apply strong_ext; [apply sorted_lt_strong; exact S|apply filter_strong, seq_strong|].
  intro c. rewrite H. unfold chosen. rewrite filter_In, in_seq, in_cols_spec. intuition lia.
Qed.

Lemma chosen_columns_below u k : columns_below u k (chosen u k).
Proof.
  split.
  - apply StronglySorted_Sorted, filter_strong, seq_strong.
  - intro c. unfold chosen. rewrite filter_In, in_seq, in_cols_spec. intuition lia.
Qed.

Lemma chosen_prefix u k n : k <= n -> chosen u n = chosen u k ++ filter (in_cols u) (seq k (n - k)).
Proof.
  intro L. unfold chosen. rewrite <- filter_app. f_equal. replace n with (k + (n - k)) at 1 by lia. apply seq_app.
Qed.

Lemma chosen_length_mono u k n : k <= n -> length (chosen u k) <= length (chosen u n).
Proof. intro L. rewrite (chosen_prefix u k n L), app_length. lia. Qed.

(** Keys of the columns. *)
Lemma zip_prefix {A} (f : nat -> A) : forall (cs : list nat) (l t : list Z), l = map Z.of_nat cs ++ t ->
  zip l (map f cs) = map (fun c => (Z.of_nat c, f c)) cs.
Proof.
  induction cs as [|c cs IH]; intros l t ->.
  - destruct t; reflexivity.
  - cbn [map app zip]. f_equal. apply (IH _ t). reflexivity.
Qed.

Lemma zsorted_strong l : Sorted Z.lt l -> StronglySorted Z.lt l.
Proof. apply Sorted_StronglySorted. intros a b c. apply Z.lt_trans. Qed.

Lemma chosen_is_prefix l k : Sorted Z.lt l -> Forall (fun c => 0 <= c)%Z l ->
  exists t, l = map Z.of_nat (chosen (Some l) k) ++ t.
Proof.
  intros S P. apply zsorted_strong in S.
  assert (W : exists cs t, l = map Z.of_nat cs ++ t /\ StronglySorted lt cs /\ Forall (fun c => c < k) cs /\
                           Forall (fun c => Z.of_nat k <= c)%Z t).
  { induction S as [|x l S IH F]; [exists [], []; repeat split; constructor|]. inversion P; subst.
    destruct (Z.lt_ge_cases x (Z.of_nat k)) as [L|L].
    - destruct (IH H2) as (cs & t & E & S1 & F1 & F2). exists (Z.to_nat x :: cs), t.
      split; [cbn; rewrite Z2Nat.id by assumption; congruence|]. split.
      + constructor; [exact S1|]. apply Forall_forall. intros c I. rewrite Forall_forall in F.
        assert (In (Z.of_nat c) l) as J by (rewrite E; apply in_or_app; left; apply in_map; exact I).
        apply F in J. lia.
      + split; [constructor; [lia|exact F1]|exact F2].
    - exists [], (x :: l). repeat split; [constructor|constructor|]. constructor; [exact L|].
      eapply Forall_impl; [|exact F]. cbn. intros c C. lia. }
  destruct W as (cs & t & E & S1 & F1 & F2). exists t. rewrite E at 1. f_equal. f_equal.
  apply strong_ext; [exact S1|apply filter_strong, seq_strong|]. intro c. unfold chosen.
  rewrite filter_In, in_seq, in_cols_spec. rewrite Forall_forall in F1, F2. split.
  - intro I. specialize (F1 c I). split; [lia|]. rewrite E. apply in_or_app. left. apply in_map. exact I.
  - intros [B I]. rewrite E in I. apply in_app_or in I. destruct I as [I|I].
    + apply in_map_iff in I. destruct I as (c' & E' & I). assert (c' = c) as <- by lia. exact I.
    + apply F2 in I. lia.
Qed.

Lemma label_chosen {A} u (f : nat -> A) k : ascending u ->
  label u (map f (chosen u k)) = map (fun c => (Z.of_nat c, f c)) (chosen u k).
Proof.
  intro H. destruct u as [l|].
  - destruct H as (S & P). destruct (@chosen_is_prefix l k S P) as (t & E). cbn [label].
    apply (zip_prefix f _ _ t E).
  - rewrite chosen_all. destruct k as [|k]; [reflexivity|].
    rewrite (label_none _ (f 0)). rewrite map_length, seq_length. apply map_ext_in. intros c I.
    rewrite (nth_map_lt f (seq 0 (S k)) (f 0) 0) by (rewrite seq_length; apply in_seq in I; lia).
    rewrite seq_nth by (apply in_seq in I; lia). reflexivity.
Qed.

Lemma chosen_keys_NoDup {A} u (f : nat -> A) k : NoDup (map fst (map (fun c => (Z.of_nat c, f c)) (chosen u k))).
Proof.
  rewrite map_map. cbn [fst]. apply FinFun.Injective_map_NoDup; [intros a b; lia|].
  apply NoDup_filter, seq_NoDup.
Qed.

Lemma nth_chosen u k n j : k <= n -> j < length (chosen u k) -> nth j (chosen u n) 0 = nth j (chosen u k) 0.
Proof. intros L J. rewrite (chosen_prefix u k n L). apply app_nth1. exact J. Qed.

(** Transposing ragged tuples of chosen columns. *)
Lemma zipn_chosen {R} u (w : R -> nat) (g : R -> nat -> val) (rows : list R) k :
  (exists r, In r rows /\ w r = k) -> (forall r, In r rows -> k <= w r) ->
  zipn (map (fun r => map (g r) (chosen u (w r))) rows) = map (fun c => map (fun r => g r c) rows) (chosen u k).
Proof.
  intros (r0 & I0 & E0) H. rewrite (zipn_minlen VNone).
  assert (M : minlen (map (fun r => map (g r) (chosen u (w r))) rows) = length (chosen u k)).
  { apply Nat.le_antisymm.
    - assert (I : In (map (g r0) (chosen u (w r0))) (map (fun r => map (g r) (chosen u (w r))) rows)).
      { apply in_map_iff. exists r0. auto. }
      apply minlen_le in I. rewrite map_length, E0 in I. exact I.
    - apply minlen_glb; [destruct rows; [destruct I0|discriminate]|].
      intros t T. apply in_map_iff in T. destruct T as (r & <- & R1). rewrite map_length.
      apply chosen_length_mono, H, R1. }
  rewrite M. rewrite <- (map_id (chosen u k)) at 2. 
  apply nth_ext_eq with (d := []); [rewrite !map_length, seq_length; reflexivity|].
  intros j J. rewrite map_length, seq_length in J.
  rewrite (nth_map_lt (fun j => map (fun r => nth j r VNone) (map (fun r => map (g r) (chosen u (w r))) rows)) (seq 0 (length (chosen u k))) [] 0) by (rewrite seq_length; exact J).
  rewrite seq_nth by exact J. cbn [Nat.add].
  rewrite map_map. rewrite map_map.
  rewrite (nth_map_lt (fun c => map (fun r => g r c) rows) (chosen u k) [] 0) by exact J.
  apply map_ext_in. intros r R1.
  rewrite (nth_map_lt (g r) (chosen u (w r)) VNone 0).
  - rewrite (@nth_chosen u k (w r) j) by auto. reflexivity.
  - pose proof (chosen_length_mono u k (w r) (H r R1)). lia.
Qed.

(** ** textpack on tables *)

Lemma whole_lines_skip n h s : whole_lines n h -> skip_lines n (h ++ s) = s.
Proof.
  induction 1 as [|n l h N W IH]; [reflexivity|]. rewrite <- app_assoc. cbn [app].
  rewrite skip_lines_line by exact N. exact IH.
Qed.

Definition make (src : source) (data : dict (list val)) (names : dict val) : pack :=
  fst (set_fn (OStr (src_name src)) (new_pack (map (fun kv => (fst kv, np_array (snd kv))) data) names)).

Definition gather (debug : bool) (u : option (list Z)) (rows : list (res (list val))) : res (dict (list val)) :=
  if debug then debug_rows u false rows []
  else do rs <- all_rows rows; Ok (dict_of (label u (zipn rs))).

Lemma textpack_table src a m row0 rows :
  m = mode_of (src_bytes src) (t_encoding a) ->
  t_names a = [] -> t_hasnames a = false ->
  table_after src (Z.to_nat (t_skiprows a)) m (t_delimiter a) row0 rows ->
  textpack src a =
  do funcs <- line_funcs m (t_stripstrings a) (t_converters a) row0;
  do data <- gather (t_debug a) (cols_seq (t_usecols a))
               (map (line_tuple m funcs (cols_seq (t_usecols a))) (row0 :: rows));
  Ok (make src data []).
Proof.
  intros M N H (h & s & E & W & T). unfold textpack. rewrite N, H. fold (ahead src). rewrite E.
  rewrite (whole_lines_skip _ _ s W). unfold datadict. rewrite <- M.
  rewrite (table_tuples m _ row0 rows s (cols_seq (t_usecols a)) (t_converters a) (t_stripstrings a) T).
  destruct (line_funcs m (t_stripstrings a) (t_converters a) row0) as [funcs|e]; cbn [bind]; [|reflexivity].
  cbn [y_rows]. unfold gather. destruct (t_debug a).
  - destruct (debug_rows _ _ _ _); reflexivity.
  - destruct (all_rows _); reflexivity.
Qed.

(** Every cell read. *)
Definition cells_read (m : mode) (a : targs) (row0 : list str) (rows : list (list str)) (cs : nat -> bool)
    (g : nat -> str -> val) : Prop :=
  forall r c, In r (row0 :: rows) -> c < length row0 -> c < length r -> cs c = true ->
    cell m (t_stripstrings a) (t_converters a) row0 c (nth c r []) (g c (nth c r [])).

Lemma narrowest_min row0 rows k : narrowest row0 rows k ->
  (exists r, In r (row0 :: rows) /\ Nat.min (length row0) (length r) = k) /\
  (forall r, In r (row0 :: rows) -> k <= Nat.min (length row0) (length r)).
Proof.
  intros ((r & I & E) & H). pose proof (H row0 (or_introl eq_refl)). split.
  - exists r. split; [exact I|]. lia.
  - intros r' I'. specialize (H r' I'). lia.
Qed.

Lemma tuples_ok m a row0 rows funcs u g :
  length funcs = length row0 ->
  (forall c s v, c < length row0 -> apply_func m (nth c funcs AsIs) s = Ok v <->
     cell m (t_stripstrings a) (t_converters a) row0 c s v) ->
  cells_read m a row0 rows (in_cols u) g ->
  map (line_tuple m funcs u) (row0 :: rows) =
  map Ok (map (fun r => map (fun c => g c (nth c r [])) (chosen u (Nat.min (length row0) (length r)))) (row0 :: rows)).
Proof.
  intros L F C. rewrite map_map. apply map_ext_in. intros r I.
  rewrite (@line_tuple_ok m funcs u r (fun c => g c (nth c r []))); rewrite L; [reflexivity|].
  intros c X. unfold chosen in X. apply filter_In in X. destruct X as [X1 X2]. apply in_seq in X1.
  destruct X1 as [_ X1]. cbn [Nat.add] in X1. apply Nat.min_glb_lt_iff in X1. destruct X1 as [X1 X3].
  apply F; [exact X1|]. apply C; [exact I|exact X1|exact X3|exact X2].
Qed.

Lemma channels_iff g cs rows d : channels g cs rows d <->
  d = map (fun c => (Z.of_nat c, np_array (map (fun r => g c (nth c r [])) rows))) cs.
Proof. unfold channels. rewrite columns_iff, map_map. reflexivity. Qed.

Lemma read_table src a m row0 rows k cs g :
  m = mode_of (src_bytes src) (t_encoding a) ->
  t_names a = [] -> t_hasnames a = false -> t_debug a = false ->
  table_after src (Z.to_nat (t_skiprows a)) m (t_delimiter a) row0 rows ->
  converters_ok (t_converters a) row0 ->
  ascending (cols_seq (t_usecols a)) -> narrowest row0 rows k -> columns_below (cols_seq (t_usecols a)) k cs ->
  cells_read m a row0 rows (in_cols (cols_seq (t_usecols a))) g ->
  exists p, textpack src a = Ok p /\ channels g cs (row0 :: rows) (p_data p) /\ p_names p = [] /\ p_fn p = src_name src.
Proof.
  intros M N H D T CO A NW CB CR. rewrite (@textpack_table src a m row0 rows M N H T).
  destruct (@line_funcs_ok m (t_stripstrings a) (t_converters a) row0 CO) as (funcs & E & L & F). rewrite E.
  cbn [bind]. unfold gather. rewrite D. set (u := cols_seq (t_usecols a)) in *.
  rewrite (@tuples_ok m a row0 rows funcs u g L F CR).
  rewrite (proj2 (all_rows_ok _ _) eq_refl). cbn [bind].
  apply narrowest_min in NW. destruct NW as [W1 W2].
  rewrite (@zipn_chosen _ u (fun r => Nat.min (length row0) (length r)) (fun r c => g c (nth c r [])) (row0 :: rows) k W1 W2).
  rewrite label_chosen by exact A.
  rewrite dict_of_id by apply chosen_keys_NoDup.
  eexists. split; [reflexivity|]. unfold make.
  match goal with |- context [new_pack ?d ?n] => destruct (pack_parts d n (src_name src)) as (-> & -> & ->) end.
  split; [|auto]. rewrite (columns_below_chosen _ _ _ CB). apply channels_iff. rewrite map_map. reflexivity.
Qed.

(** ** Any text *)

Definition split_total (m : mode) (d : option str) (line : str) : list str :=
  match split_line m d (strip_line d line) with Ok v => v | Err _ => [] end.

Definition filled (d : option str) (line : str) : bool :=
  match strip_line d line with [] => false | _ => true end.

Definition first_row (m : mode) (d : option str) (s : str) : list str := split_total m d (fst (readline s)).
Definition more_rows (m : mode) (d : option str) (s : str) : list (list str) :=
  map (split_total m d) (filter (filled d) (lines_of (snd (readline s)))).

Lemma split_ok m d l : d <> Some [] -> split_line m d (strip_line d l) = Ok (split_total m d l).
Proof.
  intro N. unfold split_total, split_line. destruct d as [[|x d]|]; [congruence|reflexivity|reflexivity].
Qed.

Lemma data_lines_any m d funcs u ls : d <> Some [] ->
  flat_map (data_line m d funcs u) ls = map (line_tuple m funcs u) (map (split_total m d) (filter (filled d) ls)).
Proof.
  intro N. induction ls as [|l ls IH]; [reflexivity|]. cbn [flat_map filter]. rewrite IH.
  unfold data_line, filled. pose proof (split_ok m d l N) as S.
  destruct (strip_line d l) as [|x t] eqn:E; [reflexivity|]. cbn [map app]. rewrite S. reflexivity.
Qed.

Lemma linetuples_any s m d u conv st : d <> Some [] ->
  linetuples s m d u conv st false =
  do funcs <- line_funcs m st conv (first_row m d s);
  Ok (mkyields funcs (names_tuple m u [] (length (first_row m d s)))
       (map (line_tuple m funcs u) (first_row m d s :: more_rows m d s))).
Proof.
  intro N. unfold linetuples. cbn [bind]. unfold first_row, more_rows. destruct (readline s) as [l r]. cbn [fst snd].
  rewrite split_ok by exact N. cbn [bind]. destruct (line_funcs _ _ _ _) as [funcs|e]; cbn [bind]; [|reflexivity].
  rewrite data_lines_any by exact N. reflexivity.
Qed.

Lemma linetuples_names s m d u conv st : d <> Some [] ->
  linetuples s m d u conv st true =
  let s' := snd (readline s) in
  do funcs <- line_funcs m st conv (first_row m d s');
  Ok (mkyields funcs (names_tuple m u (map (strip (ws_of m)) (first_row m d s)) (length (first_row m d s')))
       (map (line_tuple m funcs u) (first_row m d s' :: more_rows m d s'))).
Proof.
  intro N. unfold linetuples, first_row, more_rows. destruct (readline s) as [l0 s']. cbn [fst snd].
  rewrite split_ok by exact N. cbn [bind]. destruct (readline s') as [l r]. cbn [fst snd].
  rewrite split_ok by exact N. cbn [bind]. destruct (line_funcs _ _ _ _) as [funcs|e]; cbn [bind]; [|reflexivity].
  rewrite data_lines_any by exact N. reflexivity.
Qed.

Lemma skip_lines_S n : forall s, skip_lines (S n) s = snd (readline (skip_lines n s)).
Proof. induction n as [|n IH]; intro s; [reflexivity|]. cbn [skip_lines] in *. apply IH. Qed.

(** The columns read, and the key the caller gets. *)
Definition read_cols (a : targs) : option (list Z) :=
  match t_names a with [] => cols_seq (t_usecols a) | _ => Some (zsort (dkeys (t_names a))) end.

(** Whether a names line is read. *)
Definition names_line (a : targs) : bool := match t_names a with [] => t_hasnames a | _ => false end.

Definition data_start (src : source) (a : targs) : str :=
  skip_lines (Z.to_nat (Z.max (if names_line a then 1 else 0) (t_skiprows a))) (ahead src).

Definition found_names (src : source) (a : targs) (m : mode) (w : nat) : res (dict val) :=
  match t_names a with
  | [] => if t_hasnames a
          then do ns <- names_tuple m (cols_seq (t_usecols a))
                 (map (strip (ws_of m)) (first_row m (t_delimiter a)
                    (skip_lines (Z.to_nat (t_skiprows a - 1)) (ahead src)))) w;
               Ok (dict_of (label (cols_seq (t_usecols a)) ns))
          else Ok []
  | ns => Ok ns
  end.

Lemma textpack_any src a m :
  m = mode_of (src_bytes src) (t_encoding a) -> t_delimiter a <> Some [] ->
  textpack src a =
  let s := data_start src a in
  let row0 := first_row m (t_delimiter a) s in
  do funcs <- line_funcs m (t_stripstrings a) (t_converters a) row0;
  do names <- found_names src a m (length row0);
  do data <- gather (t_debug a) (read_cols a)
               (map (line_tuple m funcs (read_cols a)) (row0 :: more_rows m (t_delimiter a) s));
  Ok (make src data names).
Proof.
  intros M N. unfold textpack, data_start, found_names, read_cols, names_line. fold (ahead src). rewrite <- M.
  assert (G : forall rows, (if t_debug a then debug_rows (cols_seq (t_usecols a)) false rows []
            else do rs <- all_rows rows; Ok (dict_of (label (cols_seq (t_usecols a)) (zipn rs)))) =
            gather (t_debug a) (cols_seq (t_usecols a)) rows) by reflexivity.
  assert (MX : Z.to_nat (Z.max 0 (t_skiprows a)) = Z.to_nat (t_skiprows a)) by lia.
  destruct (t_names a) as [|n0 ns] eqn:NM; [destruct (t_hasnames a) eqn:H|].
  - unfold datadict. rewrite linetuples_names by exact N.
    replace (Z.to_nat (Z.max 1 (t_skiprows a))) with (S (Z.to_nat (t_skiprows a - 1))) by lia.
    rewrite skip_lines_S. cbv zeta. destruct (line_funcs _ _ _ _) as [funcs|e]; cbn [bind]; [|reflexivity].
    cbn [y_names y_rows]. destruct (names_tuple _ _ _ _) as [nms|e]; cbn [bind]; [|reflexivity].
    rewrite G. destruct (gather _ _ _); reflexivity.
  - unfold datadict. rewrite linetuples_any by exact N. rewrite MX. cbv zeta.
    destruct (line_funcs _ _ _ _) as [funcs|e]; cbn [bind]; [|reflexivity].
    cbn [y_names y_rows]. rewrite G. destruct (gather _ _ _); reflexivity.
  - unfold datadict. rewrite linetuples_any by exact N. rewrite MX. cbv zeta.
    destruct (line_funcs _ _ _ _) as [funcs|e]; cbn [bind]; [|reflexivity].
    cbn [y_names y_rows]. unfold gather. destruct (t_debug a).
    + destruct (debug_rows _ _ _ _); reflexivity.
    + destruct (all_rows _); reflexivity.
Qed.

Lemma textpack_empty_delim src a : t_delimiter a = Some [] -> textpack src a = Err ValueError.
Proof.
  intro D. unfold textpack, datadict, linetuples. rewrite D.
  destruct (t_names a); [destruct (t_hasnames a)|]; cbn [bind];
    match goal with |- context [readline ?s] => destruct (readline s) end; reflexivity.
Qed.

(** ** The rows of a table *)

Lemma layout_more m d rows s : delim_ok d -> layout m d rows s ->
  map (split_total m d) (filter (filled d) (lines_of s)) = rows.
Proof.
  intros D L. induction L as [|w rows s P N L IH|w P N|row l rows s R L IH|row l R].
  - reflexivity.
  - rewrite lines_of_line by exact N. cbn [filter]. unfold filled at 1. rewrite blank_text by auto. exact IH.
  - rewrite lines_of_end by exact N. destruct w as [|c w]; [reflexivity|]. cbn [filter]. unfold filled.
    pose proof (@blank_text d (c :: w) [] D P (or_introl eq_refl)) as E. rewrite app_nil_r in E. rewrite E. reflexivity.
  - rewrite lines_of_line by apply R. cbn [filter]. unfold filled at 1.
    destruct (@row_text m d row l [10%N] D R (or_intror eq_refl)) as [E1 E2].
    destruct (strip_line d (l ++ [10%N])) eqn:E; [congruence|]. cbn [map]. rewrite IH. f_equal.
    unfold split_total. rewrite E, E2. reflexivity.
  - rewrite lines_of_end by apply R.
    destruct (@row_text m d row l [] D R (or_introl eq_refl)) as [E1 E2]. rewrite app_nil_r in E1, E2.
    destruct l as [|c l]; [cbn in E1; congruence|]. cbn [filter]. unfold filled.
    destruct (strip_line d (c :: l)) eqn:E; [congruence|]. cbn [map]. f_equal.
    unfold split_total. rewrite E, E2. reflexivity.
Qed.

Lemma table_rows m d row0 rows s : table m d row0 rows s -> first_row m d s = row0 /\ more_rows m d s = rows.
Proof.
  intros (D & l & s' & R & [[-> ->]|[-> L]]); unfold first_row, more_rows.
  - rewrite readline_end by apply R. cbn [fst snd].
    destruct (@row_text m d row0 l [] D R (or_introl eq_refl)) as [E1 E2]. rewrite app_nil_r in E2.
    split; [unfold split_total; rewrite E2|]; reflexivity.
  - rewrite readline_line by apply R. cbn [fst snd].
    destruct (@row_text m d row0 l [10%N] D R (or_intror eq_refl)) as [E1 E2].
    split; [unfold split_total; rewrite E2; reflexivity|]. apply layout_more; assumption.
Qed.

Lemma table_delim m d row0 rows s : table m d row0 rows s -> d <> Some [].
Proof. intros (D & _). destruct d as [d|]; [|discriminate]. intro E. injection E as ->. destruct D. congruence. Qed.

Lemma table_start src a m row0 rows : names_line a = false ->
  table_after src (Z.to_nat (t_skiprows a)) m (t_delimiter a) row0 rows ->
  first_row m (t_delimiter a) (data_start src a) = row0 /\ more_rows m (t_delimiter a) (data_start src a) = rows /\
  t_delimiter a <> Some [].
Proof.
  intros N (h & s & E & W & T). unfold data_start. rewrite N, E.
  replace (Z.to_nat (Z.max 0 (t_skiprows a))) with (Z.to_nat (t_skiprows a)) by lia.
  rewrite (whole_lines_skip _ _ s W). destruct (table_rows _ _ _ _ _ T). split; [assumption|]. split; [assumption|].
  exact (table_delim _ _ _ _ _ T).
Qed.

(** ** Tuples of a read that succeeds *)

Definition cell_of (m : mode) (funcs : list func) (r : list str) (c : nat) : val :=
  match apply_func m (nth c funcs AsIs) (nth c r []) with Ok v => v | Err _ => VNone end.

Lemma cell_of_ok m funcs (r : list str) c v : apply_func m (nth c funcs AsIs) (nth c r []) = Ok v -> cell_of m funcs r c = v.
Proof. unfold cell_of. intros ->. reflexivity. Qed.

Lemma least_width {R} (w : R -> nat) (rows : list R) : rows <> [] ->
  exists k, (exists r, In r rows /\ w r = k) /\ forall r, In r rows -> k <= w r.
Proof.
  induction rows as [|r rows IH]; [congruence|]. intros _. destruct rows as [|r' rows].
  - exists (w r). split; [exists r; split; [left; reflexivity|reflexivity]|]. intros x [<-|[]]. lia.
  - destruct IH as (k & (x & X1 & X2) & K); [discriminate|]. destruct (Nat.le_gt_cases (w r) k) as [L|L].
    + exists (w r). split; [exists r; split; [left; reflexivity|reflexivity]|]. intros y [<-|Y]; [lia|].
      specialize (K y Y). lia.
    + exists k. split; [exists x; split; [right; exact X1|exact X2]|]. intros y [<-|Y]; [lia|exact (K y Y)].
Qed.

Lemma mapM_ok_in {A B} (f : A -> res B) l r x : mapM f l = Ok r -> In x l -> exists y, f x = Ok y.
Proof.
  intros H. apply mapM_ok_Forall2 in H. induction H as [|a b l r H1 H2 IH]; intros []; [subst; eauto|auto].
Qed.

Lemma tuples_of m funcs u' (rows : list (list str)) ts : all_rows (map (line_tuple m funcs u') rows) = Ok ts ->
  forall u, (forall c, in_cols u c = true -> in_cols u' c = true) ->
  map (line_tuple m funcs u) rows =
  map Ok (map (fun r => map (cell_of m funcs r) (chosen u (Nat.min (length funcs) (length r)))) rows).
Proof.
  intros H u U. rewrite map_map. apply map_ext_in. intros r I. apply line_tuple_ok. intros c C.
  unfold chosen in C. apply filter_In in C. destruct C as [C1 C2].
  unfold all_rows in H. rewrite mapM_map in H. destruct (mapM_ok_in _ _ _ r H I) as (t & T).
  rewrite line_tuple_seq in T. destruct (mapM_ok_in _ _ _ c T) as (v & V).
  { unfold chosen. apply filter_In. split; [exact C1|]. apply U. exact C2. }
  rewrite (cell_of_ok _ _ _ _ _ V). exact V.
Qed.

Lemma gathered m funcs u' (rows : list (list str)) data : rows <> [] ->
  gather false u' (map (line_tuple m funcs u') rows) = Ok data ->
  exists k, k <= length funcs /\ (forall r, In r rows -> k <= length r) /\
    (exists r, In r rows /\ Nat.min (length funcs) (length r) = k) /\
    forall u, ascending u -> (forall c, in_cols u c = true -> in_cols u' c = true) ->
    gather false u (map (line_tuple m funcs u) rows) =
    Ok (map (fun c => (Z.of_nat c, map (fun r => cell_of m funcs r c) rows)) (chosen u k)).
Proof.
  intros NE G. unfold gather in G. destruct (all_rows (map (line_tuple m funcs u') rows)) as [ts|] eqn:A; [|discriminate].
  destruct (@least_width _ (fun r : list str => Nat.min (length funcs) (length r)) rows NE) as (k & K1 & K2).
  exists k. split; [destruct K1 as (r & _ & <-); apply Nat.le_min_l|].
  split; [intros r I; specialize (K2 r I); apply (Nat.min_glb_r _ _ _ K2)|]. split; [exact K1|].
  intros u AS U. unfold gather. rewrite (tuples_of _ _ _ _ _ A u U).
  rewrite (proj2 (all_rows_ok _ _) eq_refl). cbn [bind].
  rewrite (@zipn_chosen _ u (fun r : list str => Nat.min (length funcs) (length r)) (cell_of m funcs) rows k K1 K2).
  rewrite label_chosen by exact AS. rewrite dict_of_id by apply chosen_keys_NoDup. reflexivity.
Qed.

(** ** Names *)

Lemma names_seq m u fields w : names_tuple m u fields w =
  mapM (fun c => match m with
                 | Coded _ => decode_in m (strip ws_bytes (nth c fields []))
                 | _ => Ok (field_val m (strip (ws_of m) (nth c fields [])))
                 end) (chosen u (Nat.min w (length fields))).
Proof.
  unfold names_tuple, chosen.
  assert (E : forall (l : list str) n w, firstn w (enum_from n l) =
             map (fun c => (c, nth (c - n) l [])) (seq n (Nat.min w (length l)))).
  { clear. induction l as [|x l IH]; intros n w; [destruct w; reflexivity|]. destruct w as [|w]; [reflexivity|].
    cbn [enum_from firstn length Nat.min seq map]. rewrite Nat.sub_diag. cbn [nth]. f_equal. rewrite IH. apply map_ext_in. intros c I.
    apply in_seq in I. replace (c - n) with (S (c - S n)) by lia. reflexivity. }
  rewrite E, filter_map, mapM_map. cbn [fst snd]. apply mapM_ext_in. intros c _. rewrite Nat.sub_0_r. reflexivity.
Qed.

(** ** The debug loop *)

Lemma dget_app_r {V} (k : Z) (d e : dict V) : ~ In k (dkeys d) -> dget k (d ++ e) = dget k e.
Proof.
  induction d as [|[k' v] d IH]; intro N; [reflexivity|]. cbn [app dget]. cbn in N.
  destruct (k =? k')%Z eqn:E; [exfalso; apply N; left; lia|]. apply IH. tauto.
Qed.

Lemma dset_app_r {V} (k : Z) (v : V) (d e : dict V) : ~ In k (dkeys d) -> dset k v (d ++ e) = d ++ dset k v e.
Proof.
  induction d as [|[k' v'] d IH]; intro N; [reflexivity|]. cbn [app dset]. cbn in N.
  destruct (k =? k')%Z eqn:E; [exfalso; apply N; left; lia|]. f_equal. apply IH. tauto.
Qed.

Lemma dappend_first (f : nat -> val) cs : forall pre, NoDup (dkeys pre ++ map Z.of_nat cs) ->
  fold_left (fun d kv => dappend kv d) (map (fun c => (Z.of_nat c, f c)) cs) pre =
  pre ++ map (fun c => (Z.of_nat c, [f c])) cs.
Proof.
  induction cs as [|c cs IH]; intros pre N; [rewrite app_nil_r; reflexivity|]. cbn [map fold_left].
  cbn [map] in N. pose proof (NoDup_remove_2 _ _ _ N) as NI.
  assert (NP : ~ In (Z.of_nat c) (dkeys pre)) by (intro I; apply NI; apply in_or_app; left; exact I).
  unfold dappend at 2. cbn [fst snd].
  pose proof (@dget_app_r _ (Z.of_nat c) pre [] NP) as G. rewrite app_nil_r in G. rewrite G. cbn [dget app].
  pose proof (@dset_app_r _ (Z.of_nat c) [f c] pre [] NP) as S. rewrite app_nil_r in S. rewrite S. cbn [dset].
  rewrite IH.
  - rewrite <- app_assoc. reflexivity.
  - unfold dkeys. rewrite map_app. cbn [map fst]. rewrite <- app_assoc. exact N.
Qed.

Lemma dappend_next (f : nat -> val) (L : nat -> list val) cs : forall pre, NoDup (dkeys pre ++ map Z.of_nat cs) ->
  fold_left (fun d kv => dappend kv d) (map (fun c => (Z.of_nat c, f c)) cs)
    (pre ++ map (fun c => (Z.of_nat c, L c)) cs) =
  pre ++ map (fun c => (Z.of_nat c, L c ++ [f c])) cs.
Proof.
  induction cs as [|c cs IH]; intros pre N; [reflexivity|]. cbn [map fold_left].
  cbn [map] in N. pose proof (NoDup_remove_2 _ _ _ N) as NI.
  assert (NP : ~ In (Z.of_nat c) (dkeys pre)) by (intro I; apply NI; apply in_or_app; left; exact I).
  unfold dappend at 2. cbn [fst snd].
  rewrite dget_app_r by exact NP. cbn [dget]. rewrite Z.eqb_refl. cbn [app].
  rewrite dset_app_r by exact NP. cbn [dset]. rewrite Z.eqb_refl.
  change (pre ++ (Z.of_nat c, L c ++ [f c]) :: map (fun c => (Z.of_nat c, L c)) cs)
    with (pre ++ [(Z.of_nat c, L c ++ [f c])] ++ map (fun c => (Z.of_nat c, L c)) cs).
  rewrite app_assoc, IH.
  - rewrite <- app_assoc. reflexivity.
  - unfold dkeys. rewrite map_app. cbn [map fst]. rewrite <- app_assoc. exact N.
Qed.

Lemma debug_same {R} u (f : R -> nat -> val) k (rows : list R) : ascending u -> forall seen (done : list R), done <> [] ->
  debug_rows u seen (map Ok (map (fun r => map (f r) (chosen u k)) rows))
    (map (fun c => (Z.of_nat c, map (fun r => f r c) done)) (chosen u k)) =
  Ok (map (fun c => (Z.of_nat c, map (fun r => f r c) (done ++ rows))) (chosen u k)).
Proof.
  intro A. induction rows as [|r rows IH]; intros seen done D.
  - rewrite app_nil_r. reflexivity.
  - cbn [map debug_rows]. rewrite label_chosen by exact A.
    assert (ND : NoDup (dkeys ([] : dict (list val)) ++ map Z.of_nat (chosen u k))).
    { pose proof (@chosen_keys_NoDup val u (fun _ => VNone) k) as N. rewrite map_map in N. exact N. }
    pose proof (@dappend_next (f r) (fun c => map (fun r => f r c) done) (chosen u k) [] ND) as E.
    cbn [app] in E. rewrite E.
    replace (map (fun c => (Z.of_nat c, map (fun r0 => f r0 c) done ++ [f r c])) (chosen u k))
      with (map (fun c => (Z.of_nat c, map (fun r0 => f r0 c) (done ++ [r]))) (chosen u k))
      by (apply map_ext; intro c; rewrite map_app; reflexivity).
    rewrite (IH true (done ++ [r])) by (destruct done; discriminate). rewrite <- app_assoc. reflexivity.
Qed.

Lemma debug_all {R} u (f : R -> nat -> val) k (r : R) (rows : list R) : ascending u ->
  debug_rows u false (map Ok (map (fun r => map (f r) (chosen u k)) (r :: rows))) [] =
  Ok (map (fun c => (Z.of_nat c, map (fun r => f r c) (r :: rows))) (chosen u k)).
Proof.
  intro A. cbn [map debug_rows]. rewrite label_chosen by exact A.
  assert (ND : NoDup (dkeys ([] : dict (list val)) ++ map Z.of_nat (chosen u k))).
  { pose proof (@chosen_keys_NoDup val u (fun _ => VNone) k) as N. rewrite map_map in N. exact N. }
  pose proof (@dappend_first (f r) (chosen u k) [] ND) as E. cbn [app] in E. rewrite E.
  change (map (fun c => (Z.of_nat c, [f r c])) (chosen u k))
    with (map (fun c => (Z.of_nat c, map (fun r0 => f r0 c) [r])) (chosen u k)).
  rewrite (@debug_same R u f k rows A true [r]) by discriminate. reflexivity.
Qed.

Lemma debug_err u rows : forall seen d, (exists e, debug_rows u seen rows d = Err e) <-> exists e, all_rows rows = Err e.
Proof.
  induction rows as [|[t|e] rows IH]; intros seen d; cbn [debug_rows all_rows mapM bind].
  - split; intros (e & E); discriminate.
  - rewrite (IH true _). unfold all_rows. destruct (mapM (fun r => r) rows); cbn [bind];
      split; intros (e0 & E); eauto; discriminate.
  - split; eauto.
Qed.

Lemma delim_case (d : option str) : d = Some [] \/ d <> Some [].
Proof. destruct d as [[|x d]|]; [left; reflexivity|right; discriminate|right; discriminate]. Qed.

Lemma ok_inj {A} (x y : A) : Ok x = Ok y -> x = y.
Proof. congruence. Qed.
