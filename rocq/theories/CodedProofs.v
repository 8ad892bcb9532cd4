(** * Proofs about text kept as bytes *)

From Coq Require Import ZifyBool ZifyNat ZifyN.
From Verif Require Import PyBase PyBaseFacts PyFloat PyText NumPy Pack SpecDbf DbfProofs DbfThms ReadText SpecChars CharFacts SpecText TextProofs ReadTextThms NumberThms.
From Verif Require Import Preparse SpecPreparse PreparseProofs PreparseThms SpecCoded.
Open Scope nat_scope.

Definition good (ok : N -> Prop) (x : N) : Prop := ok x /\ alike x.

(** ** Numbers have ASCII characters only *)

Lemma take_sign_high : forall (c : N) s neg b, (128 <= c)%N -> take_sign s = (neg, b) -> In c s -> In c b.
Proof.
  intros c s neg b C T I. unfold take_sign in T. destruct s as [|y s']; [destruct I|].
  destruct (N.eqb y 45) eqn:A; [injection T as _ <-; apply N.eqb_eq in A; destruct I as [->|I]; [lia|auto]|].
  destruct (N.eqb y 43) eqn:B; injection T as _ <-; auto.
  apply N.eqb_eq in B. destruct I as [->|I]; [lia|auto].
Qed.

Lemma high_digit c : (128 <= c)%N -> is_digit c = false.
Proof. intro C. destruct (is_digit c) eqn:D; [|reflexivity]. unfold is_digit in D. lia. Qed.

Lemma take_exponent_high : forall c s e, (128 <= c)%N -> take_exponent s = Some e -> ~ In c s.
Proof.
  intros c [|y s] e C H I; [destruct I|]. simpl in H.
  destruct (N.eqb y 69 || N.eqb y 101)%bool eqn:E; [|discriminate].
  destruct I as [->|I]; [lia|].
  destruct (take_sign s) as [neg d] eqn:T. pose proof (take_sign_high c s neg d C T I) as J.
  destruct d as [|z d]; [discriminate|]. destruct (forallb is_digit (z :: d)) eqn:F; [|discriminate].
  rewrite forallb_forall in F. apply F in J. rewrite high_digit in J by exact C. discriminate.
Qed.

Lemma lower_high c : (128 <= c)%N -> lower c = c.
Proof. intro C. unfold lower, is_upper. destruct ((65 <=? c)%N && (c <=? 90)%N)%bool eqn:E; [lia|reflexivity]. Qed.

Lemma float_body_high : forall neg c s f, (128 <= c)%N -> float_body neg s = Ok f -> ~ In c s.
Proof.
  intros neg c s f C H I. unfold float_body in H.
  assert (L : forall w, Forall (fun x => x < 128)%N (lit w) -> str_eqb (map lower s) (lit w) = false).
  { intros w N. destruct (str_eqb (map lower s) (lit w)) eqn:E; [|reflexivity]. apply str_eqb_eq in E. exfalso.
    rewrite <- E in N. rewrite Forall_forall in N. specialize (N (lower c) (in_map lower s c I)).
    rewrite lower_high in N by exact C. lia. }
  rewrite !L in H by (cbn; repeat constructor). cbn [orb] in H.
  destruct (span is_digit s) as [ip r] eqn:E1. apply span_split in E1. destruct E1 as [-> F1].
  apply in_app_or in I. destruct I as [I|I]; [exact (not_in_digits c _ F1 (high_digit c C) I)|].
  destruct (match r with [] => ([], []) | c :: r1 => if N.eqb c 46 then span is_digit r1 else ([], r) end) as [fp r'] eqn:E2.
  assert (J : In c r').
  { destruct r as [|y r1]; [destruct I|]. destruct (N.eqb y 46) eqn:P.
    - apply N.eqb_eq in P. destruct I as [->|I]; [lia|]. apply span_split in E2. destruct E2 as [-> F2].
      apply in_app_or in I. destruct I as [I|I]; auto. exfalso. exact (not_in_digits c _ F2 (high_digit c C) I).
    - injection E2 as _ <-. exact I. }
  destruct (ip ++ fp); [discriminate|]. destruct (take_exponent r') as [e|] eqn:E; [|discriminate].
  exact (take_exponent_high _ _ _ C E J).
Qed.

Lemma float_of_str_high : forall c s, (128 <= c)%N -> In c s -> float_of_str s = Err ValueError.
Proof.
  intros c s C I. destruct (float_of_str_cases s) as [(f & H)|H]; [exfalso|exact H]. unfold float_of_str in H.
  assert (I1 : In c (strip ws_bytes s)) by (apply strip_keeps; [unfold ws_bytes; lia|exact I]).
  destruct (drop_underscores false (strip ws_bytes s)) as [t|] eqn:E; [|discriminate].
  assert (I2 : In c t) by (eapply drop_underscores_keeps; eauto; lia).
  destruct (take_sign t) as [neg b] eqn:T.
  apply (float_body_high neg c b f C) in H. apply H. exact (take_sign_high c t neg b C T I2).
Qed.

(** float() makes of such characters in a text what it makes of them in bytes. *)
Lemma alike_ascii x : alike x -> (128 <= x)%N -> ascii_of x = 63%N.
Proof.
  intros (_ & _ & W & Z) G. unfold ascii_of. assert ((x <? 128)%N = false) as -> by lia.
  assert (ws_text x = false) as ->.
  { destruct (ws_text x) eqn:E; [|reflexivity]. apply wide_space_iff in E; [contradiction|exact G]. }
  destruct (decimal_value x) as [d|] eqn:E; [|reflexivity]. apply decimal_value_iff in E. destruct E as [d L|z d I L]; [lia|].
  destruct Z. exists z. split; [exact I|lia].
Qed.

Lemma alike_float s : Forall alike s -> float_of_text s = float_of_str s.
Proof.
  intro A. unfold float_of_text. destruct (existsb (fun x => 128 <=? x)%N s) eqn:E.
  - apply existsb_exists in E. destruct E as (x & I & X). assert (X' : (128 <= x)%N) by lia.
    rewrite (float_of_str_high x s X' I). destruct (float_of_str_cases (to_ascii s)) as [(f & H)|H]; [exfalso|exact H].
    rewrite Forall_forall in A. refine (float_of_str_odd 63 (to_ascii s) f (or_introl eq_refl) _ H).
    rewrite to_ascii_map. apply in_map_iff. exists x. split; [|exact I]. apply alike_ascii; auto.
  - rewrite to_ascii_low; [reflexivity|]. apply Forall_forall. intros x I. destruct (N.lt_ge_cases x 128) as [L|G]; [exact L|].
    exfalso. rewrite <- not_true_iff_false in E. apply E. apply existsb_exists. exists x. split; [exact I|lia].
Qed.

(** ** Bytes of characters *)

Definition shape (enc : N -> str) (x : N) : Prop :=
  ((x < 128)%N /\ enc x = [x]) \/ ((128 <= x)%N /\ enc x <> [] /\ Forall (fun b => (128 <= b)%N) (enc x)).

Lemma ok_shape c enc ok x : encoding c enc ok -> ok x -> shape enc x.
Proof.
  intros [A H _ _ _ _] O. destruct (N.lt_ge_cases x 128) as [L|G].
  - left. split; [exact L|]. apply A. exact L.
  - right. split; [exact G|]. apply H; assumption.
Qed.

Lemma shape_rev enc x : shape enc x -> shape (fun y => rev (enc y)) x.
Proof.
  intros [(L & E)|(G & N & F)]; [left; split; [exact L|rewrite E; reflexivity]|right]. split; [exact G|]. split; [|apply rev_Forall; exact F].
  intro R. apply N. rewrite <- (rev_involutive (enc x)), R. reflexivity.
Qed.

Lemma rev_flat_map (enc : N -> str) (s : str) : rev (flat_map enc s) = flat_map (fun y => rev (enc y)) (rev s).
Proof.
  induction s as [|x s IH]; [reflexivity|]. cbn [flat_map rev]. rewrite rev_app_distr, IH, flat_map_app.
  cbn [flat_map]. rewrite app_nil_r. reflexivity.
Qed.

Lemma lstrip_enc p enc s : (forall b, (128 <= b)%N -> p b = false) -> Forall (shape enc) s ->
  lstrip p (flat_map enc s) = flat_map enc (lstrip p s).
Proof.
  intros P. induction 1 as [|x s S F IH]; [reflexivity|]. cbn [flat_map lstrip].
  destruct S as [(L & E)|(G & N & H)].
  - rewrite E. cbn [app lstrip]. destruct (p x); [exact IH|]. cbn [flat_map]. rewrite E. reflexivity.
  - rewrite (P x G). cbn [flat_map]. destruct (enc x) as [|b r]; [congruence|]. cbn [app lstrip].
    inversion H; subst. rewrite P by assumption. reflexivity.
Qed.

Lemma lstrip_Forall (P : N -> Prop) p s : Forall P s -> Forall P (lstrip p s).
Proof. induction 1 as [|x s X F IH]; [constructor|]. cbn [lstrip]. destruct (p x); [exact IH|constructor; assumption]. Qed.

Lemma strip_Forall (P : N -> Prop) p s : Forall P s -> Forall P (strip p s).
Proof. intro F. unfold strip, rstrip. apply rev_Forall, lstrip_Forall, rev_Forall, lstrip_Forall, F. Qed.

Lemma strip_enc p enc s : (forall b, (128 <= b)%N -> p b = false) -> Forall (shape enc) s ->
  strip p (flat_map enc s) = flat_map enc (strip p s).
Proof.
  intros P F. unfold strip, rstrip. rewrite lstrip_enc by assumption. rewrite rev_flat_map, lstrip_enc.
  - rewrite rev_flat_map.
    assert (X : forall l, flat_map (fun y => rev (rev (enc y))) l = flat_map enc l)
      by (intro l; apply flat_map_ext; intro; apply rev_involutive).
    apply X.
  - exact P.
  - apply rev_Forall, lstrip_Forall. eapply Forall_impl; [|exact F]. intro; apply shape_rev.
Qed.

Lemma strip_post p u w : Forall (fun c => p c = true) w -> strip p (u ++ w) = strip p u.
Proof.
  intro W. destruct (strip_split p u) as (a & b & E & A & B & H1 & H2). rewrite E at 1. rewrite <- !app_assoc.
  apply strip_around; try assumption. apply Forall_app. split; assumption.
Qed.

Lemma flat_nil enc s : Forall (shape enc) s -> flat_map enc s = [] -> s = [].
Proof.
  intros [|x l S F] E; [reflexivity|]. cbn [flat_map] in E. apply app_eq_nil in E. destruct E as [E _].
  destruct S as [(_ & S)|(_ & S & _)]; congruence.
Qed.

Lemma enc_ascii enc s : Forall (shape enc) s -> Forall (fun x => x < 128)%N s -> flat_map enc s = s.
Proof.
  induction 1 as [|x s S F IH]; intro A; [reflexivity|]. inversion A; subst. cbn [flat_map].
  destruct S as [(_ & ->)|(S & _)]; [|lia]. cbn [app]. f_equal. apply IH. assumption.
Qed.

Lemma high_or_ascii (s : str) : Forall (fun x => x < 128)%N s \/ exists x, In x s /\ (128 <= x)%N.
Proof.
  induction s as [|x s [IH|(y & I & Y)]]; [left; constructor| |right; exists y; split; [right|]; assumption].
  destruct (N.lt_ge_cases x 128); [left; constructor; assumption|right; exists x; split; [left; reflexivity|assumption]].
Qed.

Lemma float_enc enc s : Forall (shape enc) s -> float_of_str (flat_map enc s) = float_of_str s.
Proof.
  intro F. destruct (high_or_ascii s) as [A|(x & I & X)]; [rewrite enc_ascii by assumption; reflexivity|].
  rewrite (float_of_str_high x s X I). rewrite Forall_forall in F. destruct (F x I) as [(L & _)|(_ & N & H)]; [lia|].
  destruct (enc x) as [|b r] eqn:E; [congruence|]. inversion H; subst.
  apply (float_of_str_high b); [assumption|]. apply in_flat_map. exists x. rewrite E. split; [exact I|left; reflexivity].
Qed.

Lemma comma_enc enc s : Forall (shape enc) s -> shape enc 46%N -> comma_to_dot (flat_map enc s) = flat_map enc (comma_to_dot s).
Proof.
  intros F [(_ & D)|(D & _)]; [|lia]. unfold comma_to_dot, replace1.
  induction F as [|x s S F IH]; [reflexivity|]. cbn [flat_map]. rewrite !flat_map_app. f_equal; [|exact IH].
  destruct S as [(L & E)|(G & N & H)].
  - rewrite E. cbn [flat_map]. rewrite app_nil_r. destruct (x =? 44)%N; cbn [flat_map]; [rewrite D|rewrite E]; reflexivity.
  - assert ((x =? 44)%N = false) as -> by lia. cbn [flat_map]. rewrite app_nil_r.
    clear N. induction H as [|b r B H IHr]; [reflexivity|]. cbn [flat_map].
    assert ((b =? 44)%N = false) as -> by lia. cbn [app]. f_equal. exact IHr.
Qed.

Lemma comma_Forall (P : N -> Prop) s : P 46%N -> Forall P s -> Forall P (comma_to_dot s).
Proof.
  intros D. unfold comma_to_dot, replace1. induction 1 as [|x s X F IH]; [constructor|]. cbn [flat_map].
  apply Forall_app. split; [|exact IH]. destruct (x =? 44)%N; constructor; auto.
Qed.

(** ** Splitting *)

Lemma split_ws_block ws h s : h <> [] -> Forall (fun c => ws c = false) h ->
  split_ws ws (h ++ s) = match s with
                         | [] => [h]
                         | d :: _ => if ws d then h :: split_ws ws s
                                     else match split_ws ws s with f :: r => (h ++ f) :: r | [] => [h] end
                         end.
Proof.
  intros NE F. induction F as [|c h C F IH]; [congruence|]. clear NE. cbn [app split_ws]. rewrite C.
  destruct h as [|d h].
  - cbn [app]. destruct s as [|e s]; [reflexivity|]. destruct (ws e); [reflexivity|]. destruct (split_ws ws (e :: s)); reflexivity.
  - cbn [app]. inversion F as [|? ? D F']; subst. rewrite D. change (d :: h ++ s) with ((d :: h) ++ s).
    rewrite IH by discriminate. destruct s as [|e s]; [reflexivity|]. destruct (ws e); [reflexivity|].
    destruct (split_ws ws (e :: s)); reflexivity.
Qed.

Lemma split_ws_enc ws enc s : (forall b, (128 <= b)%N -> ws b = false) -> Forall (shape enc) s ->
  split_ws ws (flat_map enc s) = map (flat_map enc) (split_ws ws s).
Proof.
  intros W. induction 1 as [|x s S F IH]; [reflexivity|]. cbn [flat_map].
  destruct (ws x) eqn:X.
  - destruct S as [(L & E)|(G & _)]; [|rewrite W in X by exact G; discriminate].
    rewrite E. cbn [app split_ws]. rewrite X. exact IH.
  - assert (NE : enc x <> []) by (destruct S as [(_ & E)|(_ & N & _)]; [rewrite E; discriminate|exact N]).
    assert (H : Forall (fun b => ws b = false) (enc x)).
    { destruct S as [(_ & E)|(_ & _ & H)]; [rewrite E; constructor; [exact X|constructor]|].
      eapply Forall_impl; [|exact H]. exact W. }
    rewrite split_ws_block by assumption. cbn [split_ws]. rewrite X.
    destruct s as [|d s]; [cbn [flat_map map]; rewrite app_nil_r; reflexivity|].
    inversion F as [|? ? D F']; subst.
    assert (Q : exists b r, flat_map enc (d :: s) = b :: r /\ ws b = ws d).
    { cbn [flat_map]. destruct D as [(_ & E)|(G & N & H')]; [rewrite E; exists d; eexists; split; reflexivity|].
      destruct (enc d) as [|b r]; [congruence|]. inversion H'; subst. exists b. eexists. split; [reflexivity|].
      rewrite !W by assumption. reflexivity. }
    destruct Q as (b & r & Q & B). rewrite Q, B, <- Q. rewrite IH.
    destruct (ws d); [cbn [map flat_map]; rewrite app_nil_r; reflexivity|].
    destruct (split_ws ws (d :: s)); cbn [map flat_map]; [rewrite app_nil_r|]; reflexivity.
Qed.

Lemma app_meet {A} (a b c d : list A) : a ++ b = c ++ d -> (exists r, a = c ++ r) \/ (exists r, c = a ++ r).
Proof.
  revert c. induction a as [|x a IH]; intros [|y c] H; [left; exists []; reflexivity|right; eexists; reflexivity|left; eexists; reflexivity|].
  cbn [app] in H. injection H as -> H. destruct (IH c H) as [(r & ->)|(r & ->)]; [left|right]; exists r; reflexivity.
Qed.

Lemma strip_prefix_same p a b : strip_prefix (p ++ a) (p ++ b) = strip_prefix a b.
Proof. induction p as [|x p IH]; [reflexivity|]. cbn [app strip_prefix]. rewrite N.eqb_refl. exact IH. Qed.

Lemma prefix_enc c enc ok d s : encoding c enc ok -> Forall ok d -> Forall ok s ->
  strip_prefix (flat_map enc d) (flat_map enc s) = option_map (flat_map enc) (strip_prefix d s).
Proof.
  intros EN FD. revert s. induction FD as [|x d X FD IH]; intros s FS; [destruct s; reflexivity|].
  assert (NE : enc x <> []) by (destruct (ok_shape c enc ok x EN X) as [(_ & E)|(_ & N & _)]; [rewrite E; discriminate|exact N]).
  destruct s as [|y s].
  - cbn [flat_map]. destruct (enc x); [congruence|reflexivity].
  - inversion FS as [|? ? Y FS']; subst. cbn [flat_map strip_prefix]. destruct (N.eqb x y) eqn:E.
    + apply N.eqb_eq in E. subst y. rewrite strip_prefix_same. apply IH. exact FS'.
    + apply N.eqb_neq in E. cbn [option_map].
      destruct (strip_prefix (enc x ++ flat_map enc d) (enc y ++ flat_map enc s)) as [r|] eqn:P; [|reflexivity].
      apply strip_prefix_app in P. rewrite <- app_assoc in P. destruct (app_meet _ _ _ _ P) as [(q & Q)|(q & Q)].
      * apply (en_prefix c enc ok EN) in Q; congruence.
      * apply (en_prefix c enc ok EN) in Q; congruence.
Qed.

Lemma split_none_block D h R :
  (forall h1 h2, h = h1 ++ h2 -> h2 <> [] -> strip_prefix D (h2 ++ R) = None) ->
  split_str D 0 (h ++ R) = match split_str D 0 R with f :: r => (h ++ f) :: r | [] => [] end.
Proof.
  induction h as [|b h IH]; intro H; [cbn [app]; destruct (split_str D 0 R); reflexivity|]. cbn [app split_str].
  pose proof (H [] (b :: h) eq_refl ltac:(discriminate)) as P. cbn [app] in P. rewrite P.
  rewrite IH; [|intros h1 h2 E N; apply (H (b :: h1) h2); [rewrite E; reflexivity|exact N]].
  pose proof (split_str_nonempty D R 0) as Z. destruct (split_str D 0 R); [congruence|reflexivity].
Qed.

Lemma split_enc c enc ok d s : encoding c enc ok -> d <> [] -> Forall ok d -> Forall ok s ->
  split_str (flat_map enc d) 0 (flat_map enc s) = map (flat_map enc) (split_str d 0 s).
Proof.
  intros EN ND FD. remember (length s) as n eqn:L. assert (L' : length s <= n) by lia. clear L. revert s L'.
  assert (NE : flat_map enc d <> []).
  { intro Z. apply ND. apply (flat_nil enc); [|exact Z]. eapply Forall_impl; [|exact FD]. intro. apply (ok_shape c enc ok _ EN). }
  induction n as [|n IH]; intros s L FS; [destruct s; [reflexivity|cbn in L; lia]|].
  destruct s as [|x s]; [reflexivity|].
  pose proof (prefix_enc c enc ok d (x :: s) EN FD FS) as P.
  destruct (strip_prefix d (x :: s)) as [r|] eqn:Q.
  - apply strip_prefix_app in Q. rewrite Q. rewrite flat_map_app, !split_sep by assumption. cbn [map flat_map]. f_equal.
    apply IH; [|rewrite Q in FS; apply Forall_app in FS; tauto].
    apply (f_equal (@length N)) in Q. rewrite app_length in Q. destruct d; [congruence|]. cbn [length] in *. lia.
  - inversion FS as [|? ? X FS']; subst. cbn [flat_map]. rewrite split_none_block.
    + cbn [split_str]. rewrite Q. rewrite IH by (cbn [length] in L; lia || assumption).
      pose proof (split_str_nonempty d s 0). destruct (split_str d 0 s); [congruence|reflexivity].
    + intros h1 h2 E N. destruct h1 as [|b0 h1].
      * cbn [app] in E. subst h2. cbn [flat_map] in P. exact P.
      * destruct h2 as [|b h2]; [congruence|]. destruct d as [|y d]; [congruence|]. inversion FD as [|? ? Y FD']; subst.
        cbn [flat_map]. destruct (enc y) as [|b1 r1] eqn:E1.
        { exfalso. destruct (ok_shape c enc ok y EN Y) as [(_ & Z)|(_ & Z & _)]; congruence. }
        cbn [app strip_prefix]. destruct (N.eqb b1 b) eqn:E2; [exfalso|reflexivity]. apply N.eqb_eq in E2. subst b1.
        apply (en_begin c enc ok EN y x b r1 Y X E1). rewrite E. cbn [app tl]. apply in_or_app. right. left. reflexivity.
Qed.
