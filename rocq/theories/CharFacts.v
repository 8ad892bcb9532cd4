(** * White space and digits of Unicode: the model agrees with the specification *)

From Coq Require Import ZifyBool ZifyNat ZifyN Sorted.
From Verif Require Import PyBase PyBaseFacts PyFloat SpecChars.
Open Scope N_scope.

(** ** White space *)

Lemma ws_text_iff c : ws_text c = true <-> text_space c.
Proof. unfold ws_text, text_space, wide_spaces. cbn [In]. lia. Qed.

Lemma wide_space_high c : In c wide_spaces -> 128 <= c.
Proof. unfold wide_spaces. cbn [In]. lia. Qed.

Lemma wide_space_iff c : 128 <= c -> ws_text c = true <-> In c wide_spaces.
Proof. intro H. rewrite ws_text_iff. unfold text_space. split; [|auto]. intros [A|[A|A]]; [lia|lia|exact A]. Qed.

Lemma ws_text_ascii c : c < 128 -> ws_text c = ((9 <=? c) && (c <=? 13) || (28 <=? c) && (c <=? 32))%bool.
Proof. intro H. unfold ws_text. lia. Qed.

(** ** Digits *)

Lemma zeros_same : decimal_zeros = wide_zeros.
Proof. reflexivity. Qed.

Lemma zeros_sorted : StronglySorted (fun a b => a + 10 <= b) wide_zeros.
Proof.
  apply Sorted_StronglySorted; [intros x y z; lia|].
  unfold wide_zeros. repeat (constructor; [|try (constructor; lia)]); constructor.
Qed.

Lemma sorted_apart l : StronglySorted (fun a b => a + 10 <= b) l ->
  forall a b c, In a l -> In b l -> a <= c < a + 10 -> b <= c < b + 10 -> a = b.
Proof.
  induction 1 as [|x l S IH F]; intros a b c A B C D; [destruct A|]. rewrite Forall_forall in F.
  destruct A as [->|A], B as [->|B]; [reflexivity| | |exact (IH a b c A B C D)].
  - specialize (F b B). lia.
  - specialize (F a A). lia.
Qed.

Lemma zeros_high z : In z wide_zeros -> 1632 <= z.
Proof.
  intro H. pose proof zeros_sorted as S. unfold wide_zeros in S, H. inversion S as [|x l _ F E]. subst x l.
  destruct H as [<-|H]; [lia|]. rewrite Forall_forall in F. specialize (F z H). lia.
Qed.

Lemma decimal_value_iff c d : decimal_value c = Some d <-> digit_of c d.
Proof.
  unfold decimal_value. rewrite zeros_same. split.
  - destruct (is_digit c) eqn:D.
    + intro E. injection E as <-. unfold is_digit in D. replace c with (48 + (c - 48)) at 1 by lia. constructor. lia.
    + destruct (find _ wide_zeros) as [z|] eqn:F; [|discriminate]. intro E. injection E as <-.
      apply find_some in F. destruct F as [I B]. replace c with (z + (c - z)) at 1 by lia. constructor; [exact I|lia].
  - intros [d' L|z d' I L].
    + assert (is_digit (48 + d') = true) as -> by (unfold is_digit; lia). f_equal. lia.
    + pose proof (zeros_high z I) as H. assert (is_digit (z + d') = false) as -> by (unfold is_digit; lia).
      destruct (find _ wide_zeros) as [z'|] eqn:F.
      * apply find_some in F. destruct F as [I' B].
        assert (z = z') as -> by (apply (sorted_apart _ zeros_sorted z z' (z + d')); [exact I|exact I'|lia|lia]).
        f_equal. lia.
      * exfalso. apply find_none with (x := z) in F; [lia|exact I].
Qed.

Lemma is_decimal_iff c : is_decimal c = true <-> exists d, digit_of c d.
Proof.
  unfold is_decimal. split.
  - destruct (decimal_value c) as [d|] eqn:E; [|discriminate]. intros _. exists d. apply decimal_value_iff. exact E.
  - intros (d & H). apply decimal_value_iff in H. rewrite H. reflexivity.
Qed.

Lemma digit_value_small c d : digit_of c d -> d < 10.
Proof. intros [d' L|z d' I L]; exact L. Qed.

(** A digit is an ASCII digit or far beyond ASCII. *)
Lemma digit_where c d : digit_of c d -> (48 <= c <= 57 /\ c = 48 + d) \/ 1632 <= c.
Proof. intros [d' L|z d' I L]; [left; lia|right]. apply zeros_high in I. lia. Qed.

Lemma decimal_where c : is_decimal c = true -> is_digit c = true \/ 1632 <= c.
Proof.
  intro H. apply is_decimal_iff in H. destruct H as (d & H). apply digit_where in H. unfold is_digit. lia.
Qed.

Lemma digit_decimal c : is_digit c = true -> is_decimal c = true.
Proof. intro H. unfold is_decimal, decimal_value. rewrite H. reflexivity. Qed.

Lemma ascii_decimal c : c < 1632 -> is_decimal c = is_digit c.
Proof.
  intro L. destruct (is_digit c) eqn:D; [apply digit_decimal; exact D|].
  destruct (is_decimal c) eqn:E; [|reflexivity]. apply decimal_where in E. destruct E as [E|E]; [congruence|lia].
Qed.

Lemma space_no_digit c d : text_space c -> ~ digit_of c d.
Proof.
  intros S D. apply decimal_value_iff in D. destruct S as [S|[S|S]].
  - assert (E : is_decimal c = true) by (unfold is_decimal; rewrite D; reflexivity). rewrite ascii_decimal in E by lia. unfold is_digit in E. lia.
  - assert (E : is_decimal c = true) by (unfold is_decimal; rewrite D; reflexivity). rewrite ascii_decimal in E by lia. unfold is_digit in E. lia.
  - unfold wide_spaces in S. cbn [In] in S.
    repeat (destruct S as [<-|S]; [vm_compute in D; discriminate D|]). destruct S.
Qed.

Lemma decimal_no_space c : is_decimal c = true -> ws_text c = false.
Proof.
  intro H. apply is_decimal_iff in H. destruct H as (d & H). destruct (ws_text c) eqn:W; [|reflexivity].
  apply ws_text_iff in W. destruct (space_no_digit c d W H).
Qed.

(** ** Text as ASCII *)

Definition ascii_of (c : N) : N :=
  if c <? 128 then c
  else if ws_text c then 32
  else match decimal_value c with Some d => 48 + d | None => 63 end.

Lemma to_ascii_map s : to_ascii s = map ascii_of s.
Proof. reflexivity. Qed.

Lemma ascii_of_low c : c < 128 -> ascii_of c = c.
Proof. intro H. unfold ascii_of. destruct (N.ltb_spec c 128); [reflexivity|lia]. Qed.

Lemma to_ascii_low s : Forall (fun c => c < 128) s -> to_ascii s = s.
Proof. rewrite to_ascii_map. induction 1 as [|c s H _ IH]; [reflexivity|]. cbn [map]. rewrite IH, ascii_of_low by exact H. reflexivity. Qed.

Lemma ascii_of_space c : In c wide_spaces -> ascii_of c = 32.
Proof.
  intro I. pose proof (wide_space_high c I). unfold ascii_of. destruct (N.ltb_spec c 128); [lia|].
  assert (ws_text c = true) as -> by (apply wide_space_iff; assumption). reflexivity.
Qed.

Lemma ascii_of_digit c d : digit_of c d -> ascii_of c = 48 + d.
Proof.
  intro D. destruct (digit_where c d D) as [[A B]|A]; [rewrite ascii_of_low by lia; exact B|].
  unfold ascii_of. destruct (N.ltb_spec c 128); [lia|].
  destruct (ws_text c) eqn:W; [apply ws_text_iff in W; destruct (space_no_digit c d W D)|].
  apply decimal_value_iff in D. rewrite D. reflexivity.
Qed.

Lemma ascii_digit c : is_decimal c = true -> is_digit (ascii_of c) = true.
Proof.
  intro H. apply is_decimal_iff in H. destruct H as (d & H). rewrite (ascii_of_digit c d H).
  apply digit_value_small in H. unfold is_digit. lia.
Qed.

Lemma counts_as_ascii c a : counts_as c a -> a = ascii_of c.
Proof.
  intros [c' L|c' I|c' d D]; [rewrite ascii_of_low by exact L; reflexivity|rewrite ascii_of_space by exact I; reflexivity|].
  rewrite (ascii_of_digit c' d D). reflexivity.
Qed.

Lemma ascii_cases c : counts_as c (ascii_of c) \/ (128 <= c /\ ascii_of c = 63 /\ forall a, ~ counts_as c a).
Proof.
  destruct (N.ltb_spec c 128) as [L|L]; [left; rewrite ascii_of_low by exact L; constructor; exact L|].
  destruct (ws_text c) eqn:W.
  - left. apply wide_space_iff in W; [|exact L]. rewrite ascii_of_space by exact W. constructor. exact W.
  - destruct (decimal_value c) as [d|] eqn:D.
    + left. apply decimal_value_iff in D. rewrite (ascii_of_digit c d D). apply as_digit. exact D.
    + right. split; [exact L|]. split.
      * unfold ascii_of. destruct (N.ltb_spec c 128); [lia|]. rewrite W, D. reflexivity.
      * intros a X. inversion X as [c' L'|c' I|c' d D']; subst; [lia| |].
        -- apply wide_space_iff in I; [congruence|exact L].
        -- apply decimal_value_iff in D'. congruence.
Qed.

Lemma ascii_is_low c : ascii_of c < 128.
Proof.
  unfold ascii_of. destruct (N.ltb_spec c 128); [assumption|]. destruct (ws_text c); [reflexivity|].
  destruct (decimal_value c) as [d|] eqn:D; [|reflexivity]. apply decimal_value_iff, digit_value_small in D. lia.
Qed.

Lemma counts_forall s t : Forall2 counts_as s t -> t = to_ascii s.
Proof. rewrite to_ascii_map. induction 1 as [|c a s t C _ IH]; [reflexivity|]. cbn [map]. rewrite <- IH. f_equal. apply counts_as_ascii. exact C. Qed.

Lemma ascii_forall s : Forall2 counts_as s (to_ascii s) \/ (In 63 (to_ascii s) /\ forall t, ~ Forall2 counts_as s t).
Proof.
  rewrite to_ascii_map. induction s as [|c s IH]; [left; constructor|]. cbn [map].
  destruct (ascii_cases c) as [C|(L & Q & N)].
  - destruct IH as [IH|[I N]]; [left; constructor; assumption|]. right. split; [right; exact I|].
    intros t F. inversion F as [|x y l l' _ F' E1 E2]. exact (N l' F').
  - right. split; [left; exact Q|]. intros t F. inversion F as [|x y l l' C _ E1 E2]. exact (N y C).
Qed.

(** ** Characters numbers never have *)

Definition odd (c : N) : Prop := c = 63 \/ 128 <= c.

Lemma odd_digit c : odd c -> is_digit c = false.
Proof. unfold odd, is_digit. lia. Qed.

Lemma lstrip_keeps p (c : N) s : p c = false -> In c s -> In c (lstrip p s).
Proof.
  intro P. induction s as [|d s IH]; simpl; auto. intros [->|H].
  - rewrite P. left; auto.
  - destruct (p d); auto. right; auto.
Qed.

Lemma strip_keeps p (c : N) s : p c = false -> In c s -> In c (strip p s).
Proof.
  intros P H. unfold strip, rstrip. apply in_rev. rewrite rev_involutive.
  apply lstrip_keeps; auto. apply in_rev. rewrite rev_involutive. apply lstrip_keeps; auto.
Qed.

Lemma underscores_keep : forall s b t c, c <> 95 -> drop_underscores b s = Some t -> In c s -> In c t.
Proof.
  induction s as [|d s IH]; intros b t c N H I; [destruct I|]. simpl in H.
  destruct (N.eqb d 95) eqn:E.
  - apply N.eqb_eq in E. destruct I as [->|I]; [congruence|].
    destruct s as [|y s']; [discriminate|]. destruct (b && is_digit y)%bool; [|discriminate].
    eapply IH; eauto.
  - destruct (drop_underscores (is_digit d) s) as [u|] eqn:U; [|discriminate]. injection H as <-.
    destruct I as [->|I]; [left; auto|right; eapply IH; eauto].
Qed.

Lemma span_parts : forall p (s a b : str), span p s = (a, b) -> s = (a ++ b)%list /\ Forall (fun c => p c = true) a.
Proof.
  intros p s. induction s as [|c s IH]; intros a b H; simpl in H.
  - injection H as <- <-. auto.
  - destruct (p c) eqn:P.
    + destruct (span p s) as [a' b'] eqn:Q. injection H as <- <-. destruct (IH _ _ eq_refl) as [-> F].
      split; auto.
    + injection H as <- <-. auto.
Qed.

Lemma no_odd_digits c a : odd c -> Forall (fun c => is_digit c = true) a -> ~ In c a.
Proof. intros O F I. rewrite Forall_forall in F. apply F in I. rewrite odd_digit in I by exact O. discriminate. Qed.

Lemma take_sign_odd c s neg b : odd c -> take_sign s = (neg, b) -> In c s -> In c b.
Proof.
  intros O T I. unfold take_sign, odd in *. destruct s as [|y s']; [destruct I|].
  destruct (N.eqb y 45) eqn:A; [injection T as _ <-; apply N.eqb_eq in A; destruct I as [->|I]; [lia|auto]|].
  destruct (N.eqb y 43) eqn:B; injection T as _ <-; auto.
  apply N.eqb_eq in B. destruct I as [->|I]; [lia|auto].
Qed.

Lemma take_exponent_odd c s e : odd c -> take_exponent s = Some e -> ~ In c s.
Proof.
  intros O H I. destruct s as [|y s]; [destruct I|]. simpl in H.
  destruct (N.eqb y 69 || N.eqb y 101)%bool eqn:E; [|discriminate].
  destruct I as [->|I]; [unfold odd in O; lia|].
  destruct (take_sign s) as [neg d] eqn:T. pose proof (take_sign_odd c s neg d O T I) as J.
  destruct d as [|z d]; [discriminate|]. destruct (forallb is_digit (z :: d)) eqn:F; [|discriminate].
  rewrite forallb_forall in F. apply F in J. rewrite odd_digit in J by exact O. discriminate.
Qed.

Lemma lower_odd c : odd c -> lower c = c.
Proof. intro C. unfold lower, is_upper, odd in *. destruct ((65 <=? c) && (c <=? 90))%bool eqn:E; [lia|reflexivity]. Qed.

Lemma float_body_odd neg c s f : odd c -> float_body neg s = Ok f -> ~ In c s.
Proof.
  intros C H I. unfold float_body in H.
  assert (L : forall w, Forall (fun x => 64 <= x < 128) (lit w) -> str_eqb (map lower s) (lit w) = false).
  { intros w N. destruct (str_eqb (map lower s) (lit w)) eqn:E; [|reflexivity]. apply str_eqb_eq in E. exfalso.
    rewrite <- E in N. rewrite Forall_forall in N. specialize (N (lower c) (in_map lower s c I)).
    rewrite lower_odd in N by exact C. unfold odd in C. lia. }
  rewrite !L in H by (cbn; repeat (constructor; [lia|]); constructor). cbn [orb] in H.
  destruct (span is_digit s) as [ip r] eqn:E1. apply span_parts in E1. destruct E1 as [-> F1].
  apply in_app_or in I. destruct I as [I|I]; [exact (no_odd_digits c _ C F1 I)|].
  destruct (match r with [] => ([], []) | c :: r1 => if N.eqb c 46 then span is_digit r1 else ([], r) end) as [fp r'] eqn:E2.
  assert (J : In c r').
  { destruct r as [|y r1]; [destruct I|]. destruct (N.eqb y 46) eqn:P.
    - apply N.eqb_eq in P. destruct I as [->|I]; [unfold odd in C; lia|]. apply span_parts in E2. destruct E2 as [-> F2].
      apply in_app_or in I. destruct I as [I|I]; auto. exfalso. exact (no_odd_digits c _ C F2 I).
    - injection E2 as _ <-. exact I. }
  destruct (ip ++ fp)%list; [discriminate|]. destruct (take_exponent r') as [e|] eqn:E; [|discriminate].
  exact (take_exponent_odd _ _ _ C E J).
Qed.

Lemma float_of_str_odd c s f : odd c -> In c s -> float_of_str s <> Ok f.
Proof.
  intros C I H. unfold float_of_str in H.
  assert (I1 : In c (strip ws_bytes s)) by (apply strip_keeps; [unfold ws_bytes, odd in *; lia|exact I]).
  destruct (drop_underscores false (strip ws_bytes s)) as [t|] eqn:E; [|discriminate].
  assert (I2 : In c t) by (eapply underscores_keep; eauto; unfold odd in C; lia).
  destruct (take_sign t) as [neg b] eqn:T.
  apply (float_body_odd neg c b f C) in H. apply H. exact (take_sign_odd c t neg b C T I2).
Qed.

Lemma int_of_str_odd c s z : odd c -> In c s -> int_of_str s <> Ok z.
Proof.
  intros C I H. unfold int_of_str in H.
  assert (I1 : In c (strip ws_bytes s)) by (apply strip_keeps; [unfold ws_bytes, odd in *; lia|exact I]).
  destruct (drop_underscores false (strip ws_bytes s)) as [t|] eqn:E; [|discriminate].
  assert (I2 : In c t) by (eapply underscores_keep; eauto; unfold odd in C; lia).
  destruct (take_sign t) as [neg b] eqn:T. pose proof (take_sign_odd c t neg b C T I2) as J.
  destruct b as [|y b]; [discriminate|]. destruct (forallb is_digit (y :: b)) eqn:F; [|discriminate].
  rewrite forallb_forall in F. apply F in J. rewrite odd_digit in J by exact C. discriminate.
Qed.

Lemma float_of_text_iff s f : float_of_text s = Ok f <-> exists t, Forall2 counts_as s t /\ float_of_str t = Ok f.
Proof.
  unfold float_of_text. split.
  - intro H. destruct (ascii_forall s) as [A|[I _]]; [eauto|]. destruct (float_of_str_odd 63 (to_ascii s) f (or_introl eq_refl) I H).
  - intros (t & F & H). apply counts_forall in F. rewrite <- F. exact H.
Qed.

Lemma int_of_text_iff s z : int_of_text s = Ok z <-> exists t, Forall2 counts_as s t /\ int_of_str t = Ok z.
Proof.
  unfold int_of_text. split.
  - intro H. destruct (ascii_forall s) as [A|[I _]]; [eauto|]. destruct (int_of_str_odd 63 (to_ascii s) z (or_introl eq_refl) I H).
  - intros (t & F & H). apply counts_forall in F. rewrite <- F. exact H.
Qed.

Lemma float_of_text_low s : Forall (fun c => c < 128) s -> float_of_text s = float_of_str s.
Proof. intro H. unfold float_of_text. rewrite to_ascii_low by exact H. reflexivity. Qed.

Lemma int_of_text_low s : Forall (fun c => c < 128) s -> int_of_text s = int_of_str s.
Proof. intro H. unfold int_of_text. rewrite to_ascii_low by exact H. reflexivity. Qed.

(** ** Runs of digits *)

Lemma digits_value_ascii s vs : Forall2 digit_of s vs -> forall acc,
  digits_val acc (to_ascii s) = fold_left (fun acc d => (acc * 10 + Z.of_N d)%Z) vs acc.
Proof.
  rewrite to_ascii_map. induction 1 as [|c d s vs D _ IH]; intro acc; [reflexivity|]. cbn [map digits_val fold_left].
  rewrite (ascii_of_digit c d D), IH. f_equal. lia.
Qed.

Lemma decimal_values s : Forall (fun c => is_decimal c = true) s -> exists vs, Forall2 digit_of s vs.
Proof.
  induction 1 as [|c s D _ (vs & IH)]; [exists []; constructor|].
  apply is_decimal_iff in D. destruct D as (d & D). exists (d :: vs). constructor; assumption.
Qed.

Lemma values_decimal s vs : Forall2 digit_of s vs -> Forall (fun c => is_decimal c = true) s.
Proof. induction 1 as [|c d s vs D _ IH]; constructor; [apply is_decimal_iff; exists d; exact D|exact IH]. Qed.

Lemma decimal_text_iff s z : decimal_text s z <->
  s <> [] /\ Forall (fun c => is_decimal c = true) s /\ digits_val 0 (to_ascii s) = z.
Proof.
  unfold decimal_text. split.
  - intros (N & vs & F & E). split; [exact N|]. split; [exact (values_decimal s vs F)|].
    rewrite (digits_value_ascii s vs F). exact E.
  - intros (N & F & E). split; [exact N|]. destruct (decimal_values s F) as (vs & G). exists vs. split; [exact G|].
    rewrite <- (digits_value_ascii s vs G). exact E.
Qed.

Lemma ascii_digits_text s : s <> [] -> Forall (fun c => 48 <= c <= 57) s -> decimal_text s (digits_val 0 s).
Proof.
  intros N F. apply decimal_text_iff. split; [exact N|]. split.
  - eapply Forall_impl; [|exact F]. cbv beta. intros c C. apply digit_decimal. unfold is_digit. lia.
  - rewrite to_ascii_low; [reflexivity|]. eapply Forall_impl; [|exact F]. cbv beta. intros c C. lia.
Qed.
