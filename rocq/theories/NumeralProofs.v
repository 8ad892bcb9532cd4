(** * Proofs about the grammar of numbers *)

From Coq Require Import ZArith Reals Lia ZifyBool ZifyNat ZifyN.
From Verif Require Import PyBase PyBaseFacts PyFloat PyFloatFacts TextProofs SpecPack SpecNumber SpecDbf DbfProofs FloatReal NumberProofs
  ReadText SpecChars CharFacts SpecText SpecNumeral.
Open Scope nat_scope.

(** ** Underscores *)

Lemma drop_underscored s t : underscored s t -> forall prev, drop_underscores prev s = Some t.
Proof.
  induction 1 as [|c s t N U IH|a b s t A B U IH]; intro prev; [reflexivity| |].
  - cbn [drop_underscores]. assert ((c =? 95)%N = false) as -> by lia. rewrite IH. reflexivity.
  - assert (Q : drop_underscores prev (a :: 95%N :: b :: s) =
      match (if is_digit a && is_digit b then drop_underscores false (b :: s) else None) with Some r => Some (a :: r) | None => None end).
    { cbn [drop_underscores]. assert ((a =? 95)%N = false) as -> by lia. reflexivity. }
    rewrite Q, IH. assert (is_digit a = true) as -> by (apply digit_spec; exact A).
    assert (is_digit b = true) as -> by (apply digit_spec; exact B). reflexivity.
Qed.

Lemma drop_split s :
  (forall prev u, drop_underscores prev s = Some u -> hd_error s <> Some 95%N -> underscored s u) /\
  (forall prev u r, s = 95%N :: r -> drop_underscores prev s = Some u ->
     prev = true /\ exists b r', r = b :: r' /\ (48 <= b <= 57)%N /\ underscored r u).
Proof.
  induction s as [|c s [IH1 IH2]]; [split; [intros prev u H _; injection H as <-; constructor|discriminate]|]. split.
  - intros prev u H N. cbn [drop_underscores] in H. assert (C : c <> 95%N) by (intros ->; apply N; reflexivity).
    assert ((c =? 95)%N = false) as E by lia. rewrite E in H.
    destruct (drop_underscores (is_digit c) s) as [v|] eqn:D; [|discriminate]. injection H as <-.
    destruct s as [|d s]; [constructor; [exact C|]; apply (IH1 _ _ D); discriminate|].
    destruct (N.eq_dec d 95) as [->|Nd].
    + destruct (IH2 _ _ s eq_refl D) as (P & b & r' & -> & B & U). apply digit_spec in P. apply un_score; assumption.
    + constructor; [exact C|]. apply (IH1 _ _ D). cbn. congruence.
  - intros prev u r E H. injection E as -> ->. cbn [drop_underscores] in H. cbn [N.eqb Pos.eqb] in H.
    destruct r as [|d r]; [discriminate|]. destruct (prev && is_digit d)%bool eqn:Q; [|discriminate].
    apply andb_prop in Q. destruct Q as [-> Q]. apply digit_spec in Q. split; [reflexivity|]. exists d, r.
    split; [reflexivity|]. split; [exact Q|]. apply (IH1 _ _ H). cbn. intro E. injection E as ->. lia.
Qed.

Lemma drop_iff s t : drop_underscores false s = Some t <-> underscored s t.
Proof.
  split; [|intro U; apply drop_underscored; exact U]. intro H. destruct (drop_split s) as [A B].
  destruct s as [|c s]; [injection H as <-; constructor|]. destruct (N.eq_dec c 95) as [->|N].
  - destruct (B _ _ s eq_refl H) as [E _]. discriminate E.
  - apply (A _ _ H). cbn. congruence.
Qed.

Lemma underscored_words s t : underscored s t -> Forall (fun c => ~ (48 <= c <= 57)%N) t -> s = t.
Proof.
  induction 1 as [|c s t N U IH|a b s t A B U IH]; intro F; [reflexivity| |]; inversion F; subst; [f_equal; auto|contradiction].
Qed.

Lemma underscored_self t : Forall (fun c => c <> 95%N) t -> underscored t t.
Proof. induction 1; constructor; assumption. Qed.

(** First and last characters stay. *)
Lemma underscored_ends s t (P : N -> Prop) : underscored s t -> t <> [] -> Forall P t ->
  (forall c, hd_error s = Some c -> P c) /\ (forall c, hd_error (rev s) = Some c -> P c).
Proof.
  intros U N F. split.
  - intros c H. destruct U; [congruence| |]; cbn in H; injection H as <-; inversion F; assumption.
  - assert (L : forall s t, underscored s t -> forall c, hd_error (rev s) = Some c -> In c t).
    { clear. induction 1 as [|c s t N U IH|a b s t A B U IH]; intros x H; [discriminate| |].
      - cbn [rev] in H. destruct s as [|d s]; [cbn in H; injection H as <-; left; reflexivity|]. right. apply IH.
        destruct (rev (d :: s)) as [|y l] eqn:E; [|exact H]. apply (f_equal (@length _)) in E. rewrite rev_length in E. discriminate E.
      - right. apply IH. change (rev (a :: 95%N :: b :: s)) with ((rev (b :: s) ++ [95%N]) ++ [a]) in H.
        destruct (rev (b :: s)) as [|y l] eqn:E; [|exact H]. apply (f_equal (@length _)) in E. rewrite rev_length in E. discriminate E. }
    intros c H. rewrite Forall_forall in F. apply F. eapply L; eauto.
Qed.

(** ** Words *)

Lemma spells_lower w s : Forall (fun d => 97 <= d <= 122)%N w -> spells w s <-> map lower s = w.
Proof.
  intro W. split.
  - intro S. induction S as [|d c w s H S IH]; [reflexivity|]. inversion W; subst. cbn [map]. rewrite IH by assumption. f_equal.
    unfold lower, is_upper. destruct H as [->|[_ ->]]; destruct (_ && _)%bool eqn:E; lia.
  - revert s. induction W as [|d w D W IH]; intros [|c s] E; try discriminate; [constructor|]. cbn [map] in E. injection E as E1 E2.
    constructor; [|apply IH; exact E2]. revert E1. unfold lower, is_upper. destruct (_ && _)%bool eqn:Q; lia.
Qed.

Lemma small_words : Forall (fun d => 97 <= d <= 122)%N (lit "inf") /\ Forall (fun d => 97 <= d <= 122)%N (lit "infinity") /\
  Forall (fun d => 97 <= d <= 122)%N (lit "nan").
Proof. repeat split; apply Forall_forall; intros c I; cbn in I; lia. Qed.

Lemma word_spelt s : str_eqb (map lower s) (lit "inf") = true <-> spells (lit "inf") s.
Proof. rewrite str_eqb_eq, spells_lower; [reflexivity|apply small_words]. Qed.
Lemma infinity_spelt s : str_eqb (map lower s) (lit "infinity") = true <-> spells (lit "infinity") s.
Proof. rewrite str_eqb_eq, spells_lower; [reflexivity|apply small_words]. Qed.
Lemma nan_spelt s : str_eqb (map lower s) (lit "nan") = true <-> spells (lit "nan") s.
Proof. rewrite str_eqb_eq, spells_lower; [reflexivity|apply small_words]. Qed.

Definition letters (s : str) : Prop := s <> [] /\ Forall (fun c => 65 <= c <= 122 /\ c <> 95)%N s.

Lemma spells_letters w s : w <> [] -> Forall (fun d => 97 <= d <= 122)%N w -> spells w s -> letters s.
Proof.
  intros N W S. split; [intros ->; inversion S; congruence|]. clear N. induction S as [|d c w s H S IH]; [constructor|].
  inversion W; subst. constructor; [lia|auto].
Qed.

(** ** Signs, digits, powers *)

Lemma take_sign_split t neg b : take_sign t = (neg, b) -> exists sg, t = sg ++ b /\ sign_text sg neg.
Proof.
  unfold take_sign. destruct t as [|c t]; [intro E; injection E as <- <-; exists []; split; [reflexivity|constructor]|].
  destruct (N.eqb_spec c 45) as [->|N1].
  - intro E. injection E as <- <-. exists [45%N]. split; [reflexivity|constructor].
  - destruct (N.eqb_spec c 43) as [->|N2]; intro E; injection E as <- <-; [exists [43%N]|exists []]; (split; [reflexivity|constructor]).
Qed.

Lemma forallb_digits s : forallb is_digit s = true -> all_digits s.
Proof. intro H. apply Forall_forall. intros c I. rewrite forallb_forall in H. apply digit_spec. auto. Qed.

Lemma exponent_text pw e : take_exponent pw = Some e -> power_text pw e.
Proof.
  unfold take_exponent. destruct pw as [|c pw]; [intro E; injection E as <-; constructor|].
  destruct ((c =? 69) || (c =? 101))%N eqn:C; [|discriminate]. destruct (take_sign pw) as [neg d] eqn:T.
  apply take_sign_split in T. destruct T as (sg & -> & S). destruct d as [|x d]; [discriminate|].
  destruct (forallb is_digit (x :: d)) eqn:F; [|discriminate]. intro E.
  assert (e = if neg then (- dec_value (x :: d))%Z else dec_value (x :: d)) as -> by (rewrite digits_val_eq in E; congruence).
  apply pw_some; [lia|exact S|apply forallb_digits; exact F|discriminate].
Qed.

Lemma span_digits_split s a r : span is_digit s = (a, r) -> s = a ++ r /\ all_digits a.
Proof. intro H. apply span_spec in H. destruct H as (-> & F & _). split; [reflexivity|]. eapply Forall_impl; [|exact F]. intro c. apply digit_spec. Qed.

Lemma float_body_text neg b f : float_body neg b = Ok f ->
  (spells (lit "inf") b \/ spells (lit "infinity") b) /\ f = S754_infinity neg \/
  spells (lit "nan") b /\ f = S754_nan \/
  exists t ip fp pw e, b = t ++ pw /\ digits_text t ip fp /\ power_text pw e /\
    f = dec_round neg (dec_value (ip ++ fp)) (e - Z.of_nat (length fp)).
Proof.
  unfold float_body. destruct (str_eqb (map lower b) (lit "inf")) eqn:E1.
  { cbn [orb]. intro E. injection E as <-. left. split; [left; apply word_spelt; exact E1|reflexivity]. }
  destruct (str_eqb (map lower b) (lit "infinity")) eqn:E2.
  { cbn [orb]. intro E. injection E as <-. left. split; [right; apply infinity_spelt; exact E2|reflexivity]. }
  cbn [orb]. destruct (str_eqb (map lower b) (lit "nan")) eqn:E3.
  { intro E. injection E as <-. right. left. split; [apply nan_spelt; exact E3|reflexivity]. }
  intro H. right. right. destruct (span is_digit b) as [ip r] eqn:S. apply span_digits_split in S. destruct S as [-> I].
  destruct r as [|c r].
  - destruct (ip ++ []) as [|x q] eqn:Q; [discriminate|]. cbn [take_exponent] in H.
    exists ip, ip, [], [], 0%Z. rewrite !app_nil_r in *. split; [congruence|]. split; [constructor; [exact I|congruence]|]. split; [constructor|].
    rewrite digits_val_eq in H. rewrite Q. cbn [length] in *. congruence.
  - destruct (N.eqb_spec c 46) as [->|C].
    + destruct (span is_digit r) as [fp pw] eqn:S. apply span_digits_split in S. destruct S as [-> F].
      destruct (ip ++ fp) as [|x q] eqn:Q; [discriminate|]. destruct (take_exponent pw) as [e|] eqn:P; [|discriminate].
      exists (ip ++ 46%N :: fp), ip, fp, pw, e. split; [rewrite <- app_assoc; reflexivity|].
      split; [constructor; [exact I|exact F|congruence]|]. split; [apply exponent_text; exact P|].
      rewrite digits_val_eq in H. rewrite Q. congruence.
    + destruct (ip ++ []) as [|x q] eqn:Q; [discriminate|]. destruct (take_exponent (c :: r)) as [e|] eqn:P; [|discriminate].
      exists ip, ip, [], (c :: r), e. rewrite !app_nil_r in *. split; [reflexivity|]. split; [constructor; [exact I|congruence]|].
      split; [apply exponent_text; exact P|]. rewrite digits_val_eq in H. rewrite Q. cbn [length] in *. congruence.
Qed.

(** ** Numbers *)

Lemma strip_spaces s : exists l r, s = l ++ strip ws_bytes s ++ r /\ Forall space_like l /\ Forall space_like r.
Proof.
  destruct (TextProofs.strip_split ws_bytes s) as (l & r & E & L & R & _). exists l, r. split; [exact E|].
  split; eapply Forall_impl; try (exact L || exact R); intro c; apply ws_bytes_spec.
Qed.

Lemma strip_inner l m r : Forall space_like l -> Forall space_like r -> m <> [] ->
  (forall c, hd_error m = Some c -> ~ space_like c) -> (forall c, hd_error (rev m) = Some c -> ~ space_like c) ->
  strip ws_bytes (l ++ m ++ r) = m.
Proof.
  intros L R N A B. assert (W : forall c, ~ space_like c -> ws_bytes c = false).
  { intros c H. destruct (ws_bytes c) eqn:E; [|reflexivity]. apply ws_bytes_spec in E. contradiction. }
  apply strip_pad; auto.
  - eapply Forall_impl; [|exact L]. intro. apply ws_bytes_spec.
  - eapply Forall_impl; [|exact R]. intro. apply ws_bytes_spec.
Qed.

Lemma word_read l sg w r neg f : Forall space_like l -> Forall space_like r -> sign_text sg neg -> letters w ->
  float_body neg w = Ok f -> float_of_str (l ++ (sg ++ w) ++ r) = Ok f.
Proof.
  intros L R S [N W] H.
  assert (P : Forall (fun c => ~ space_like c /\ c <> 95)%N (sg ++ w)).
  { apply Forall_app. split; [destruct S; repeat constructor; unfold space_like; lia|].
    eapply Forall_impl; [|exact W]. intros c C. cbv beta in C. unfold space_like. lia. }
  assert (NE : sg ++ w <> []) by (destruct S; [exact N|discriminate|discriminate]).
  assert (U : underscored (sg ++ w) (sg ++ w)) by (apply underscored_self; eapply Forall_impl; [|exact P]; intros c C; apply C).
  destruct (underscored_ends _ _ (fun c => ~ space_like c) U NE) as [A B]; [eapply Forall_impl; [|exact P]; intros c C; apply C|].
  unfold float_of_str. rewrite strip_inner by assumption. rewrite (proj2 (drop_iff _ _) U).
  rewrite (take_sign_text sg neg w S); [exact H|]. intros c s ->. inversion W; subst. lia.
Qed.

Theorem float_numeral s f : float_of_str s = Ok f <-> numeral s f.
Proof.
  split.
  - unfold float_of_str. destruct (strip_spaces s) as (l & r & E & L & R). rewrite E at 2. generalize dependent (strip ws_bytes s). intros m E H.
    destruct (drop_underscores false m) as [t|] eqn:D; [|discriminate]. apply drop_iff in D.
    destruct (take_sign t) as [neg b] eqn:T. apply take_sign_split in T. destruct T as (sg & -> & S).
    assert (NS : Forall (fun c => ~ (48 <= c <= 57)%N) sg) by (destruct S; repeat constructor; lia).
    assert (ND : forall w, spells w b -> Forall (fun d => 97 <= d <= 122)%N w -> m = sg ++ b).
    { intros w W F. apply (underscored_words _ _ D). apply Forall_app. split; [exact NS|]. clear -W F.
      induction W as [|d c w s Q W IH]; [constructor|]. inversion F; subst. constructor; [lia|auto]. }
    destruct (float_body_text _ _ _ H) as [[W ->]|[[W ->]|(t & ip & fp & pw & e & -> & DT & PT & ->)]].
    + assert (m = sg ++ b) as -> by (destruct W as [W|W]; apply (ND _ W); apply small_words).
      apply nm_infinity; assumption.
    + assert (m = sg ++ b) as -> by (apply (ND _ W); apply small_words). eapply nm_nan; eauto.
    + pose proof (SpecNumber.dec_text sg neg t ip fp pw e S DT PT) as DC. eapply nm_decimal; eauto.
      apply rounded_nearest; [apply (decimal_nonneg _ _ _ DC)|apply dec_round_rounded].
      apply dec_value_nonneg. destruct DT; [rewrite app_nil_r; auto|apply Forall_app; auto].
  - intros [l m t r neg x f' L R U D N|l sg w r neg L R S W|l sg w r neg L R S W].
    + destruct (float_of_decimal [] t [] neg x) as (g & G & NG); [constructor|constructor|exact D|].
      rewrite (nearest_unique _ _ _ _ (decimal_nonneg _ _ _ D) N NG). rewrite <- G. rewrite app_nil_r. cbn [app].
      destruct (decimal_chars _ _ _ D) as [C NE].
      destruct (underscored_ends _ _ (fun c => ~ space_like c) U NE) as [A B].
      { eapply Forall_impl; [|exact C]. unfold dchar, space_like. intros c Q. lia. }
      assert (U' : underscored t t) by (apply underscored_self; eapply Forall_impl; [|exact C]; unfold dchar; intros c Q; lia).
      destruct (underscored_ends _ _ (fun c => ~ space_like c) U' NE) as [A' B'].
      { eapply Forall_impl; [|exact C]. unfold dchar, space_like. intros c Q. lia. }
      unfold float_of_str. rewrite strip_inner; try assumption; [|intros ->; inversion U; subst; congruence].
      replace (strip ws_bytes t) with t by (symmetry; rewrite <- (app_nil_r t) at 1; apply (strip_inner [] t []); (constructor || assumption)).
      rewrite (proj2 (drop_iff _ _) U), (proj2 (drop_iff _ _) U'). reflexivity.
    + assert (LW : letters w) by (destruct W as [W|W]; revert W; apply spells_letters; (discriminate || apply small_words)).
      apply (word_read l sg w r neg); try assumption. unfold float_body.
      destruct W as [W|W]; [apply word_spelt in W|apply infinity_spelt in W]; rewrite W; [reflexivity|rewrite orb_true_r; reflexivity].
    + assert (LW : letters w) by (revert W; apply spells_letters; (discriminate || apply small_words)).
      apply (word_read l sg w r neg); try assumption. unfold float_body. apply nan_spelt in W. rewrite W.
      apply str_eqb_eq in W. rewrite W. reflexivity.
Qed.

Theorem number_reads m s f : number_in m s f <-> reads m s f.
Proof.
  destruct m; cbn [number_in reads]; [|symmetry; apply float_numeral|symmetry; apply float_numeral].
  split; intros (t & C & H); exists t; (split; [exact C|apply float_numeral; exact H]).
Qed.

Lemma is_number_iff m s : is_number m s <-> plain_number m s.
Proof. split; intros (f & H); exists f; apply number_reads; exact H. Qed.
