(** * Auxiliary facts about the DBF model *)

From Coq Require Import ZifyBool ZifyNat ZifyN.
From Verif Require Import PyBase PyBaseFacts PyFloat NumPy Pack Dbf SpecPack SpecDbf.
Open Scope nat_scope.

(** ** Text *)

Lemma ws_bytes_spec : forall c, ws_bytes c = true <-> space_like c.
Proof. intros c. unfold ws_bytes, space_like. lia. Qed.

Lemma digit_spec : forall c, is_digit c = true <-> (48 <= c <= 57)%N.
Proof. intros c. unfold is_digit. lia. Qed.

Lemma lstrip_all : forall p l s, Forall (fun c => p c = true) l -> lstrip p (l ++ s) = lstrip p s.
Proof. induction l; intros s H; auto. inversion H; subst. simpl. rewrite H2. auto. Qed.

Lemma lstrip_id : forall p c s, p c = false -> lstrip p (c :: s) = c :: s.
Proof. intros p c s H. simpl. rewrite H. reflexivity. Qed.

Lemma lstrip_nil : forall p s, lstrip p s = [] <-> Forall (fun c => p c = true) s.
Proof.
  induction s as [|c s IH]; simpl; split; intros H; auto.
  - destruct (p c) eqn:E; [|discriminate]. constructor; auto. apply IH; auto.
  - inversion H; subst. rewrite H2. apply IH; auto.
Qed.

Lemma strip_nil : forall p s, strip p s = [] <-> Forall (fun c => p c = true) s.
Proof.
  intros p s. unfold strip, rstrip. split; intros H.
  - assert (E : lstrip p (rev (lstrip p s)) = []).
    { destruct (lstrip p (rev (lstrip p s))); auto. simpl in H. destruct (rev s0); discriminate. }
    apply (proj1 (lstrip_nil p _)) in E. apply Forall_rev in E. rewrite rev_involutive in E.
    destruct (lstrip p s) as [|c t] eqn:El; [apply (proj1 (lstrip_nil p _)); auto|].
    inversion E; subst. exfalso. clear - El H2. induction s as [|x s IH]; simpl in El; [discriminate|].
    destruct (p x) eqn:Ex; auto. injection El as -> ->. congruence.
  - rewrite (proj2 (lstrip_nil p s)) by auto. reflexivity.
Qed.

(** Stripping the padding on both sides. *)
Lemma strip_pad : forall p l m r, Forall (fun c => p c = true) l -> Forall (fun c => p c = true) r ->
  (forall c, hd_error m = Some c -> p c = false) ->
  (forall c, hd_error (rev m) = Some c -> p c = false) -> m <> [] ->
  strip p (l ++ m ++ r) = m.
Proof.
  intros p l m r Hl Hr Hh Ht Hne. unfold strip, rstrip. rewrite lstrip_all by auto.
  destruct m as [|c m']; [congruence|]. cbn [app]. rewrite lstrip_id by (apply Hh; reflexivity).
  change (c :: m' ++ r) with ((c :: m') ++ r). set (m := c :: m') in *. clearbody m.
  rewrite rev_app_distr, lstrip_all by (apply Forall_rev; auto).
  destruct (rev m) as [|x t] eqn:E.
  - apply (f_equal (@rev N)) in E. rewrite rev_involutive in E. subst. reflexivity.
  - rewrite lstrip_id by (apply Ht; reflexivity). rewrite <- E. apply rev_involutive.
Qed.

Lemma lstrip_pad : forall p l m, Forall (fun c => p c = true) l ->
  (forall c, hd_error m = Some c -> p c = false) -> lstrip p (l ++ m) = m.
Proof.
  intros p l m Hl Hh. rewrite lstrip_all by auto. destruct m as [|c m]; auto.
  apply lstrip_id. apply Hh. reflexivity.
Qed.

Lemma drop_underscores_id : forall s b, Forall (fun c => c <> 95%N) s -> drop_underscores b s = Some s.
Proof.
  induction s as [|c s IH]; intros b H; auto. inversion H; subst. simpl.
  replace (N.eqb c 95) with false by lia. rewrite IH by auto. reflexivity.
Qed.

Lemma all_digits_forallb : forall s, all_digits s -> forallb is_digit s = true.
Proof.
  intros s H. apply forallb_forall. intros c Hc. apply digit_spec.
  exact (proj1 (Forall_forall _ _) H c Hc).
Qed.

Lemma digits_val_dec_value : forall s acc,
  digits_val acc s = fold_left (fun acc c => (acc * 10 + (Z.of_N c - 48))%Z) s acc.
Proof. induction s; simpl; intros; auto. Qed.

Lemma digits_val_eq : forall s, digits_val 0 s = dec_value s.
Proof. intros. apply digits_val_dec_value. Qed.

(** Characters of numbers. *)
Definition numchar (c : N) : Prop := c = 45%N \/ c = 46%N \/ (48 <= c <= 57)%N.

Lemma numchar_not_ws : forall c, numchar c -> ws_bytes c = false.
Proof. intros c. unfold numchar, ws_bytes. lia. Qed.

Lemma hd_In : forall A (l : list A) x, hd_error l = Some x -> In x l.
Proof. intros A [|y l] x H; [discriminate|]. injection H as ->. left; auto. Qed.

Lemma strip_number : forall l m r, Forall space_like l -> Forall space_like r ->
  Forall numchar m -> m <> [] -> strip ws_bytes (l ++ m ++ r) = m.
Proof.
  intros l m r Hl Hr Hm Hne. apply strip_pad; auto.
  - eapply Forall_impl; [|exact Hl]. intros; apply ws_bytes_spec; auto.
  - eapply Forall_impl; [|exact Hr]. intros; apply ws_bytes_spec; auto.
  - intros c H. apply numchar_not_ws. apply hd_In in H. exact (proj1 (Forall_forall _ _) Hm c H).
  - intros c H. apply numchar_not_ws. apply hd_In in H. apply in_rev in H.
    exact (proj1 (Forall_forall _ _) Hm c H).
Qed.

Lemma numchar_no_underscore : forall m, Forall numchar m -> Forall (fun c => c <> 95%N) m.
Proof. intros m H. eapply Forall_impl; [|exact H]. unfold numchar. intros; lia. Qed.

Lemma digits_numchar : forall m, all_digits m -> Forall numchar m.
Proof. intros m H. eapply Forall_impl; [|exact H]. unfold numchar. intros; lia. Qed.

Lemma int_text_numchar : forall z t, int_text z t -> Forall numchar t /\ t <> [].
Proof.
  intros z t (ds & Hne & Hd & [[-> _]|[-> _]]).
  - split; auto. apply digits_numchar; auto.
  - split; [|discriminate]. constructor; [left; auto|]. apply digits_numchar; auto.
Qed.

Lemma take_sign_digits : forall ds, all_digits ds -> take_sign ds = (false, ds).
Proof.
  intros [|c ds] H; auto. inversion H; subst. simpl.
  replace (N.eqb c 45) with false by lia. replace (N.eqb c 43) with false by lia. reflexivity.
Qed.

(** int() of a decimal integer with white space around it. *)
Lemma int_of_padded : forall z t l r, Forall space_like l -> Forall space_like r -> int_text z t ->
  int_of_str (l ++ t ++ r) = Ok z.
Proof.
  intros z t l r Hl Hr Ht. unfold int_of_str.
  destruct (int_text_numchar _ _ Ht) as (Hn & Hne).
  rewrite strip_number by auto. rewrite drop_underscores_id by (apply numchar_no_underscore; auto).
  destruct Ht as (ds & Dne & Hd & [[-> ->]|[-> ->]]).
  - rewrite take_sign_digits by auto. destruct ds; [congruence|].
    rewrite all_digits_forallb by auto. rewrite digits_val_eq. reflexivity.
  - cbn [take_sign]. change (N.eqb 45 45) with true. cbv iota. destruct ds; [congruence|].
    rewrite all_digits_forallb by auto. rewrite digits_val_eq. reflexivity.
Qed.

Lemma span_digits : forall ip c r, all_digits ip -> is_digit c = false ->
  span is_digit (ip ++ c :: r) = (ip, c :: r).
Proof.
  induction ip as [|x ip IH]; intros c r H Hc; simpl.
  - rewrite Hc. reflexivity.
  - inversion H; subst. rewrite (proj2 (digit_spec x)) by auto. rewrite IH; auto.
Qed.

Lemma span_digits_all : forall ip, all_digits ip -> span is_digit ip = (ip, []).
Proof.
  induction ip as [|x ip IH]; intros H; simpl; auto.
  inversion H; subst. rewrite (proj2 (digit_spec x)) by auto. rewrite IH; auto.
Qed.

Lemma lower_first : forall c s t, (46 <= c <= 57)%N -> str_eqb (map lower (c :: s)) (lit t) = true ->
  exists d s', lit t = d :: s' /\ d = c.
Proof.
  intros c s t Hc H. simpl in H. destruct (lit t) as [|d s']; [discriminate|].
  exists d, s'. split; auto. apply andb_true_iff in H. destruct H as [H _].
  unfold lower, is_upper in H. replace (N.leb 65 c && N.leb c 90)%bool with false in H by lia. lia.
Qed.

Lemma float_body_text : forall neg ip fp, all_digits ip -> all_digits fp -> ip ++ fp <> [] ->
  float_body neg (ip ++ 46%N :: fp) =
  Ok (dec_round neg (dec_value (ip ++ fp)) (- Z.of_nat (length fp))).
Proof.
  intros neg ip fp Hi Hf Hne. unfold float_body.
  assert (Hd : exists c s, ip ++ 46%N :: fp = c :: s /\ (46 <= c <= 57)%N).
  { destruct ip as [|x ip]; [exists 46%N; eexists; split; [reflexivity|lia]|].
    inversion Hi; subst. exists x. eexists. split; [reflexivity|lia]. }
  assert (K : str_eqb (map lower (ip ++ 46%N :: fp)) (lit "inf") = false /\
              str_eqb (map lower (ip ++ 46%N :: fp)) (lit "infinity") = false /\
              str_eqb (map lower (ip ++ 46%N :: fp)) (lit "nan") = false).
  { destruct Hd as (c & s & -> & Hc).
    repeat split; match goal with |- str_eqb ?a (lit ?t) = false => destruct (str_eqb a (lit t)) eqn:E; auto end;
      apply lower_first in E; auto; destruct E as (d & s' & E & ->); simpl in E; injection E as <-; lia. }
  destruct K as (-> & -> & ->). cbn [orb].
  rewrite span_digits by (auto; reflexivity).
  change (N.eqb 46 46) with true. cbv iota beta. rewrite span_digits_all by auto.
  destruct (ip ++ fp) as [|x t] eqn:E; [congruence|].
  cbn [take_exponent]. rewrite digits_val_eq. reflexivity.
Qed.

Lemma dec_text_numchar : forall neg ip fp, all_digits ip -> all_digits fp ->
  Forall numchar (dec_text neg ip fp) /\ dec_text neg ip fp <> [].
Proof.
  intros neg ip fp Hi Hf. unfold dec_text. split.
  - apply Forall_app. split; [destruct neg; repeat constructor|].
    apply Forall_app. split; [apply digits_numchar; auto|].
    constructor; [right; left; auto|apply digits_numchar; auto].
  - destruct neg; [discriminate|]. destruct ip; discriminate.
Qed.

(** float() of a decimal with a point and white space around it. *)
Lemma float_of_padded : forall neg ip fp l r, Forall space_like l -> Forall space_like r ->
  all_digits ip -> all_digits fp -> ip ++ fp <> [] ->
  float_of_str (l ++ dec_text neg ip fp ++ r) =
  Ok (dec_round neg (dec_value (ip ++ fp)) (- Z.of_nat (length fp))).
Proof.
  intros neg ip fp l r Hl Hr Hi Hf Hne. unfold float_of_str.
  destruct (dec_text_numchar neg ip fp Hi Hf) as (Hn & Hn').
  rewrite strip_number by auto. rewrite drop_underscores_id by (apply numchar_no_underscore; auto).
  unfold dec_text. destruct neg.
  - cbn [app take_sign]. change (N.eqb 45 45) with true. cbv iota. apply float_body_text; auto.
  - cbn [app]. replace (take_sign (ip ++ 46%N :: fp)) with (false, ip ++ 46%N :: fp).
    + apply float_body_text; auto.
    + destruct ip as [|x ip]; [reflexivity|]. inversion Hi; subst. simpl.
      replace (N.eqb x 45) with false by lia. replace (N.eqb x 43) with false by lia. reflexivity.
Qed.

(** Removing the NULs. *)
Lemma replace_nul_app : forall a b, replace1 0 [] (a ++ b) = replace1 0 [] a ++ replace1 0 [] b.
Proof. intros. unfold replace1. apply flat_map_app. Qed.

Lemma replace_nul_id : forall m, Forall (fun c => c <> 0%N) m -> replace1 0 [] m = m.
Proof.
  induction m as [|c m IH]; intros H; auto. inversion H; subst. unfold replace1 in *. simpl.
  replace (N.eqb c 0) with false by lia. simpl. f_equal. auto.
Qed.

Lemma replace_nul_pad : forall l, Forall pad_like l -> Forall space_like (replace1 0 [] l).
Proof.
  induction l as [|c l IH]; intros H; [constructor|]. inversion H; subst. unfold replace1 in *. simpl.
  destruct (N.eqb c 0) eqn:E; simpl; auto. constructor; auto.
  destruct H2; auto. subst. discriminate.
Qed.

Lemma numchar_no_nul : forall m, Forall numchar m -> Forall (fun c => c <> 0%N) m.
Proof. intros m H. eapply Forall_impl; [|exact H]. unfold numchar. intros; lia. Qed.

Lemma numeric_pad : forall l m r, Forall pad_like l -> Forall pad_like r -> Forall numchar m -> m <> [] ->
  exists r', Forall space_like r' /\ lstrip ws_bytes (replace1 0 [] (l ++ m ++ r)) = m ++ r'.
Proof.
  intros l m r Hl Hr Hm Hne. exists (replace1 0 [] r). split; [apply replace_nul_pad; auto|].
  rewrite !replace_nul_app. rewrite (replace_nul_id m) by (apply numchar_no_nul; auto).
  apply lstrip_pad.
  - eapply Forall_impl; [|apply (replace_nul_pad l Hl)]. intros; apply ws_bytes_spec; auto.
  - intros c H. apply numchar_not_ws. destruct m as [|x m]; [congruence|].
    injection H as ->. inversion Hm; auto.
Qed.

Lemma fixed_digits_spec : forall w z, (0 <= z < 10 ^ Z.of_nat w)%Z ->
  length (fixed_digits w z) = w /\ all_digits (fixed_digits w z) /\ dec_value (fixed_digits w z) = z.
Proof.
  induction w as [|w IH]; intros z Hz.
  - change (10 ^ Z.of_nat 0)%Z with 1%Z in Hz. repeat split; [constructor|].
    assert (z = 0)%Z as -> by lia. reflexivity.
  - rewrite Nat2Z.inj_succ, Z.pow_succ_r in Hz by lia.
    pose proof (Z.div_mod z 10 ltac:(lia)). pose proof (Z.mod_pos_bound z 10 ltac:(lia)).
    assert (0 <= z / 10 < 10 ^ Z.of_nat w)%Z.
    { split; [apply Z.div_pos; lia|apply Z.div_lt_upper_bound; lia]. }
    destruct (IH (z / 10)%Z) as (A & B & C); auto. cbn [fixed_digits].
    repeat split.
    + rewrite app_length, A. simpl. lia.
    + apply Forall_app. split; auto. constructor; [|constructor].
      remember (z mod 10)%Z as k. clear - H0. lia.
    + unfold dec_value in *. rewrite fold_left_app, C. cbn [fold_left].
      remember (z mod 10)%Z as k. clear - H H0. lia.
Qed.

Lemma leap_spec : forall y, leap y = true <->
  (exists k, y = 4 * k)%Z /\ ((exists k, y = 400 * k) \/ ~ exists k, y = 100 * k)%Z.
Proof.
  intros y. unfold leap.
  assert (M : forall n, (0 < n)%Z -> (y mod n =? 0)%Z = true <-> exists k, (y = n * k)%Z).
  { intros n Hn. rewrite Z.eqb_eq, Z.mod_divide by lia. unfold Z.divide. split; intros [k Hk]; exists k; lia. }
  rewrite andb_true_iff, orb_true_iff, negb_true_iff, (M 4%Z), (M 400%Z) by lia.
  rewrite <- not_true_iff_false, (M 100%Z) by lia. tauto.
Qed.

Lemma month_days_spec : forall y m n, (1 <= m <= 12)%Z -> days_in_month y m = n <-> month_days y m n.
Proof.
  intros y m n Hm. split.
  - intros <-. unfold days_in_month. destruct (m =? 2)%Z eqn:E2.
    + assert (m = 2)%Z as -> by lia. destruct (leap y) eqn:EL.
      * apply leap_spec in EL. apply m29; tauto.
      * assert (~ leap y = true) as NL by congruence. rewrite leap_spec in NL. apply m28.
        assert (M : forall n, (0 < n)%Z -> (exists k, (y = n * k)%Z) \/ ~ exists k, (y = n * k)%Z).
        { intros n Hn. destruct (Z.eq_dec (y mod n) 0) as [Q|Q].
          - left. exists (y / n)%Z. pose proof (Z.div_mod y n). lia.
          - right. intros [k Hk]. apply Q. subst. rewrite Z.mul_comm. apply Z.mod_mul. lia. }
        destruct (M 4%Z); destruct (M 400%Z); destruct (M 100%Z); try lia; tauto.
    + destruct ((m =? 4) || (m =? 6) || (m =? 9) || (m =? 11))%Z%bool eqn:E30.
      * apply m30. simpl. lia.
      * apply m31. simpl. lia.
  - intros H. unfold days_in_month. inversion H; subst.
    + simpl in H0. repeat (destruct H0 as [<-|H0]; [reflexivity|]). destruct H0.
    + simpl in H0. repeat (destruct H0 as [<-|H0]; [reflexivity|]). destruct H0.
    + cbn. replace (leap y) with true; auto. symmetry. apply leap_spec. tauto.
    + cbn. replace (leap y) with false; auto. symmetry. apply not_true_iff_false. rewrite leap_spec. tauto.
Qed.

Lemma month_range : forall y m n, month_days y m n -> (1 <= m <= 12)%Z.
Proof.
  intros y m n H. inversion H; subst; try lia.
  - simpl in H0. lia.
  - simpl in H0. lia.
Qed.

Lemma make_date_ok : forall y m d, calendar_day y m d <-> make_date y m d = Ok (VDate y m d).
Proof.
  intros y m d. unfold make_date. split.
  - intros (Hy & n & Hn & Hd). pose proof (month_range _ _ _ Hn) as Hm.
    apply month_days_spec in Hn; auto.
    match goal with |- (if ?b then _ else _) = _ => replace b with true by lia end. reflexivity.
  - match goal with |- (if ?b then _ else _) = _ -> _ => destruct b eqn:E end; [|discriminate].
    intros _. split; [lia|]. exists (days_in_month y m). split; [|lia].
    apply month_days_spec; auto. lia.
Qed.

Lemma make_date_cases : forall y m d, make_date y m d = Ok (VDate y m d) \/ make_date y m d = Err ValueError.
Proof. intros. unfold make_date. match goal with |- context [if ?b then _ else _] => destruct b end; auto. Qed.

Lemma int_of_digits : forall ds, ds <> [] -> all_digits ds -> int_of_str ds = Ok (dec_value ds).
Proof.
  intros ds Hne Hd.
  pose proof (int_of_padded (dec_value ds) ds [] [] ltac:(constructor) ltac:(constructor)) as H.
  rewrite app_nil_r in H. apply H. exists ds. auto.
Qed.

(** A piece of a buffer. *)
Lemma bytes_at_mid : forall a b c i n, length a = i -> length b = n -> bytes_at i n (a ++ b ++ c) = b.
Proof.
  intros a b c i n <- <-. unfold bytes_at. rewrite skipn_app, Nat.sub_diag, skipn_all. cbn [app skipn].
  rewrite firstn_app, Nat.sub_diag, firstn_all. cbn [firstn]. apply app_nil_r.
Qed.

(** ** One field: what the bytes hold is what the conversion returns *)
Lemma conv_holds : forall typ deci c b, holds typ deci c b -> conv typ deci b = Ok (cell_val typ c).
Proof.
  intros typ deci c b H. inversion H; subst; clear H.
  - change (conv 78 deci b) with (conv_numeric deci b). unfold conv_numeric.
    replace (lstrip ws_bytes (replace1 0 [] b)) with (@nil N); [reflexivity|].
    symmetry. apply lstrip_nil. eapply Forall_impl; [|apply replace_nul_pad; exact H0].
    intros; apply ws_bytes_spec; auto.
  - change (conv 78 0 (l ++ t ++ r)) with (conv_numeric 0 (l ++ t ++ r)). unfold conv_numeric.
    destruct (int_text_numchar _ _ H2) as (Hn & Hne).
    destruct (numeric_pad l t r) as (r' & Hr' & ->); auto.
    destruct (t ++ r') as [|x s] eqn:E; [destruct t; [congruence|discriminate]|].
    rewrite <- E. cbn [negb N.eqb].
    change (t ++ r') with ([] ++ t ++ r'). rewrite (int_of_padded z) by auto. reflexivity.
  - change (conv 78 deci (l ++ dec_text neg ip fp ++ r))
      with (conv_numeric deci (l ++ dec_text neg ip fp ++ r)). unfold conv_numeric.
    destruct (dec_text_numchar neg ip fp) as (Hn & Hne); auto.
    destruct (numeric_pad l (dec_text neg ip fp) r) as (r' & Hr' & ->); auto.
    destruct (dec_text neg ip fp ++ r') as [|x s] eqn:E;
      [destruct (dec_text neg ip fp); [congruence|discriminate]|].
    rewrite <- E. replace (N.eqb deci 0) with false by lia. cbn [negb].
    change (dec_text neg ip fp ++ r') with ([] ++ dec_text neg ip fp ++ r').
    rewrite float_of_padded by auto. reflexivity.
  - change (conv 70 deci b) with (conv_float b). unfold conv_float.
    replace (strip ws_bytes b) with (@nil N); [reflexivity|].
    symmetry. apply strip_nil. eapply Forall_impl; [|exact H0]. intros; apply ws_bytes_spec; auto.
  - change (conv 70 deci (l ++ dec_text neg ip fp ++ r))
      with (conv_float (l ++ dec_text neg ip fp ++ r)). unfold conv_float.
    destruct (dec_text_numchar neg ip fp) as (Hn & Hne); auto.
    rewrite strip_number by auto. destruct (dec_text neg ip fp) as [|x s] eqn:E; [congruence|].
    rewrite <- E. rewrite float_of_padded by auto. reflexivity.
  - change (conv 68 deci b) with (conv_date b). unfold conv_date.
    replace (strip ws_bytes b) with (@nil N); [reflexivity|].
    symmetry. apply strip_nil. eapply Forall_impl; [|exact H0]. intros; apply ws_bytes_spec; auto.
  - change (conv 68 deci ?x) with (conv_date x).
    assert (Hy : (0 <= y < 10 ^ Z.of_nat 4)%Z) by (destruct H0 as (Hy & _); cbn; lia).
    assert (Hm : (0 <= m < 10 ^ Z.of_nat 2)%Z).
    { destruct H0 as (_ & n & Hn & _). apply month_range in Hn. cbn. lia. }
    assert (Hd : (0 <= d < 10 ^ Z.of_nat 2)%Z).
    { destruct H0 as (_ & n & Hn & Hd). pose proof (month_range _ _ _ Hn).
      inversion Hn; subst; cbn; lia. }
    destruct (fixed_digits_spec 4 y Hy) as (Ly & Dy & Vy).
    destruct (fixed_digits_spec 2 m Hm) as (Lm & Dm & Vm).
    destruct (fixed_digits_spec 2 d Hd) as (Ld & Dd & Vd).
    set (a := fixed_digits 4 y) in *. set (b := fixed_digits 2 m) in *. set (c := fixed_digits 2 d) in *.
    clearbody a b c.
    pose proof (bytes_at_mid [] a (b ++ c) 0 4 eq_refl Ly) as E1.
    pose proof (bytes_at_mid a b c 4 2 Ly Lm) as E2.
    pose proof (bytes_at_mid (a ++ b) c [] 6 2 ltac:(rewrite app_length; lia) Ld) as E3.
    rewrite app_nil_r, <- app_assoc in E3. cbn [app] in E1.
    unfold conv_date. rewrite E1, E2, E3.
    rewrite (int_of_digits a), (int_of_digits b), (int_of_digits c)
      by (auto; intros ->; discriminate).
    rewrite Vy, Vm, Vd. cbn [bind].
    rewrite (proj1 (make_date_ok _ _ _) H0).
    destruct (strip ws_bytes (a ++ b ++ c)) eqn:E; [|reflexivity].
    apply (proj1 (strip_nil _ _)) in E. destruct a as [|x a]; [discriminate|].
    inversion E; subst. inversion Dy; subst. unfold ws_bytes in H2. lia.
  - change (conv 76 deci [c0]) with (@Ok val (conv_logical [c0])).
    cbn in H0. repeat (destruct H0 as [<-|H0]; [reflexivity|]). destruct H0.
  - change (conv 76 deci [c0]) with (@Ok val (conv_logical [c0])).
    cbn in H0. repeat (destruct H0 as [<-|H0]; [reflexivity|]). destruct H0.
  - change (conv 76 deci [c0]) with (@Ok val (conv_logical [c0])). unfold conv_logical.
    assert (S : forall s, ~ In c0 s -> is_substring [c0] s = false).
    { induction s as [|x s IH]; intros Hn; [reflexivity|]. cbn.
      destruct (N.eqb c0 x) eqn:E; [exfalso; apply Hn; left; lia|]. apply IH. intros Hi; apply Hn; right; auto. }
    change (lit "YyTtNnFf") with (lit "YyTt" ++ lit "NnFf") in H0. rewrite in_app_iff in H0.
    rewrite !S by tauto. reflexivity.
  - unfold conv. cbn in H0.
    replace (N.eqb typ 78) with false by lia. replace (N.eqb typ 68) with false by lia.
    replace (N.eqb typ 76) with false by lia. replace (N.eqb typ 70) with false by lia.
    unfold decode_ascii. replace (forallb (fun c => N.ltb c 128) b) with true; [reflexivity|].
    symmetry. apply forallb_forall. intros x Hx. apply N.ltb_lt. exact (proj1 (Forall_forall _ _) H1 x Hx).
Qed.

(** ** Reading *)

Lemma fread_spec : forall n f b f', fread n f = (b, f') ->
  b = bytes_at (f_pos f) n (f_bytes f) /\ f_bytes f' = f_bytes f /\ f_pos f' = f_pos f + length b.
Proof. intros n f b f' H. unfold fread in H. injection H as <- <-. auto. Qed.

Lemma bytes_at_length : forall a n b, length (bytes_at a n b) = min n (length b - a).
Proof. intros. unfold bytes_at. rewrite firstn_length, skipn_length. reflexivity. Qed.

Lemma fread_mid : forall a b c n i, length a = i -> length b = n ->
  fread n (mkfile (a ++ b ++ c) i) = (b, mkfile (a ++ b ++ c) (i + n)).
Proof.
  intros a b c n i Ha Hb. unfold fread. cbn [f_bytes f_pos].
  change (firstn n (skipn i (a ++ b ++ c))) with (bytes_at i n (a ++ b ++ c)).
  rewrite bytes_at_mid by auto. rewrite Hb. reflexivity.
Qed.

Lemma le_value_bytes : forall n z, (0 <= z < 256 ^ Z.of_nat n)%Z -> le_value (le_bytes n z) = z.
Proof.
  induction n as [|n IH]; intros z Hz.
  - change (256 ^ Z.of_nat 0)%Z with 1%Z in Hz. simpl. lia.
  - rewrite Nat2Z.inj_succ, Z.pow_succ_r in Hz by lia.
    pose proof (Z.div_mod z 256 ltac:(lia)). pose proof (Z.mod_pos_bound z 256 ltac:(lia)).
    cbn [le_bytes le_value]. rewrite IH.
    + rewrite Z2N.id by lia. lia.
    + split; [apply Z.div_pos; lia|apply Z.div_lt_upper_bound; lia].
Qed.

Lemma le_bytes_length : forall n z, length (le_bytes n z) = n.
Proof. induction n; intros; simpl; auto. Qed.

Lemma unpack_field_enc : forall fd fill4 fill14, good_field fd -> length fill4 = 4 -> length fill14 = 14 ->
  unpack_field (fd_name fd ++ repeat 0%N (11 - length (fd_name fd)) ++ [fd_typ fd] ++ fill4 ++
       [N.of_nat (fd_size fd); fd_deci fd] ++ fill14) = Ok fd.
Proof.
  intros [name typ size deci] fill4 fill14 [Hl Hc] H4 H14. cbn [fd_name fd_typ fd_size fd_deci] in *.
  set (b := name ++ repeat 0%N (11 - length name) ++ [typ] ++ fill4 ++ [N.of_nat size; deci] ++ fill14).
  assert (Lb : length b = 32).
  { unfold b. rewrite !app_length, repeat_length, H4, H14. cbn [length]. lia. }
  unfold unpack_field. rewrite Lb. cbn [Nat.eqb].
  assert (E0 : bytes_at 0 11 b = name ++ repeat 0%N (11 - length name)).
  { unfold b. rewrite app_assoc. apply (bytes_at_mid []); auto. rewrite app_length, repeat_length. lia. }
  rewrite E0, replace_nul_app, replace_nul_id.
  2:{ eapply Forall_impl; [|exact Hc]. intros; cbv beta in *; lia. }
  assert (R : forall k, replace1 0 [] (repeat 0%N k) = []).
  { induction k; auto. }
  rewrite R, app_nil_r. unfold decode_ascii.
  replace (forallb (fun c => N.ltb c 128) name) with true.
  2:{ symmetry. apply forallb_forall. intros x Hx. pose proof (proj1 (Forall_forall _ _) Hc x Hx). cbv beta in *. lia. }
  cbn [bind]. unfold byte_at.
  assert (Eb : b = (name ++ repeat 0%N (11 - length name)) ++ typ :: fill4 ++ [N.of_nat size; deci] ++ fill14)
    by (unfold b; rewrite <- app_assoc; reflexivity).
  assert (Lp : length (name ++ repeat 0%N (11 - length name)) = 11)
    by (rewrite app_length, repeat_length; lia).
  assert (N11 : nth 11 b 0%N = typ).
  { rewrite Eb, app_nth2 by lia. rewrite Lp. reflexivity. }
  assert (N16 : nth 16 b 0%N = N.of_nat size).
  { rewrite Eb, app_nth2 by lia. rewrite Lp. cbn [Nat.sub nth]. rewrite app_nth2 by lia. rewrite H4. reflexivity. }
  assert (N17 : nth 17 b 0%N = deci).
  { rewrite Eb, app_nth2 by lia. rewrite Lp. cbn [Nat.sub nth]. rewrite app_nth2 by lia. rewrite H4. reflexivity. }
  rewrite N11, N16, N17, Nat2N.id. reflexivity.
Qed.

Lemma encodes_fields_length : forall fds b, encodes_fields fds b -> length b = 32 * length fds.
Proof.
  intros fds b H. induction H; [reflexivity|]. destruct H as [Hl _].
  rewrite !app_length, repeat_length. cbn [length]. lia.
Qed.

Lemma read_fields_enc : forall fds b, encodes_fields fds b -> forall pre post i, length pre = i ->
  read_fields (length fds) (mkfile (pre ++ b ++ post) i) =
  Ok (fds, mkfile (pre ++ b ++ post) (i + 32 * length fds)).
Proof.
  intros fds b H. induction H as [|fd fds fill4 fill14 b Hg H4 H14 He IH]; intros pre post i Hi.
  - cbn [length read_fields]. rewrite Nat.mul_0_r, Nat.add_0_r. reflexivity.
  - cbn [length read_fields].
    set (d := fd_name fd ++ repeat 0%N (11 - length (fd_name fd)) ++ [fd_typ fd] ++ fill4 ++
       [N.of_nat (fd_size fd); fd_deci fd] ++ fill14).
    assert (E : fd_name fd ++ repeat 0%N (11 - length (fd_name fd)) ++ [fd_typ fd] ++ fill4 ++
       [N.of_nat (fd_size fd); fd_deci fd] ++ fill14 ++ b = d ++ b).
    { unfold d. rewrite <- !app_assoc. reflexivity. }
    rewrite E. rewrite <- app_assoc.
    assert (Ld : length d = 32).
    { unfold d. destruct Hg as [Hl _]. rewrite !app_length, repeat_length, H4, H14. cbn [length]. lia. }
    rewrite fread_mid by auto. unfold d at 1. rewrite unpack_field_enc by auto. cbn [bind].
    replace (pre ++ d ++ b ++ post) with ((pre ++ d) ++ b ++ post) by (rewrite <- !app_assoc; reflexivity).
    rewrite IH by (rewrite app_length; lia). cbn [bind]. do 3 f_equal. lia.
Qed.

Lemma header_enc : forall fds n h rest, encodes_header fds n h ->
  exists f1, read_header (mkfile (h ++ rest) 0) = Ok (Z.of_nat n, fds, f1) /\
  read_terminator f1 = Ok (mkfile (h ++ rest) (length h)).
Proof.
  intros fds n h rest (pre & fill & fb & Lp & Lf & He & Hn & Hf & ->).
  set (z := (33 + 32 * Z.of_nat (length fds))%Z) in *.
  pose proof (encodes_fields_length _ _ He) as Lfb.
  set (hd := pre ++ le_bytes 4 (Z.of_nat n) ++ le_bytes 2 z ++ fill).
  assert (Lhd : length hd = 32).
  { unfold hd. rewrite !app_length, !le_bytes_length, Lp, Lf. reflexivity. }
  assert (E : (pre ++ le_bytes 4 (Z.of_nat n) ++ le_bytes 2 z ++ fill ++ fb ++ [13%N]) ++ rest
              = hd ++ fb ++ [13%N] ++ rest).
  { unfold hd. rewrite <- !app_assoc. reflexivity. }
  assert (El : length (pre ++ le_bytes 4 (Z.of_nat n) ++ le_bytes 2 z ++ fill ++ fb ++ [13%N])
               = 32 + length fb + 1).
  { rewrite !app_length, !le_bytes_length, Lp, Lf. simpl. lia. }
  rewrite E, El. clear E El.
  exists (mkfile (hd ++ fb ++ [13%N] ++ rest) (32 + 32 * length fds)). split.
  - unfold read_header.
    change (hd ++ fb ++ [13%N] ++ rest) with ([] ++ hd ++ (fb ++ [13%N] ++ rest)).
    rewrite fread_mid by auto. unfold unpack_header. rewrite Lhd. cbn [Nat.eqb bind app].
    assert (E1 : bytes_at 4 4 hd = le_bytes 4 (Z.of_nat n)).
    { unfold hd. apply bytes_at_mid; auto. }
    assert (E2 : bytes_at 8 2 hd = le_bytes 2 z).
    { unfold hd. rewrite app_assoc. apply bytes_at_mid; auto. rewrite app_length, le_bytes_length. lia. }
    rewrite E1, E2, !le_value_bytes.
    2:{ change (256 ^ Z.of_nat 2)%Z with (2 ^ 16)%Z. unfold z in *. lia. }
    2:{ change (256 ^ Z.of_nat 4)%Z with (2 ^ 32)%Z. lia. }
    assert (num_fields z = length fds) as ->.
    { unfold num_fields, z. replace (33 + 32 * Z.of_nat (length fds) - 33)%Z with (Z.of_nat (length fds) * 32)%Z by lia.
      rewrite Z.div_mul by lia. lia. }
    cbn [bind Nat.add].
    pose proof (read_fields_enc fds fb He hd ([13%N] ++ rest) 32 Lhd) as RF. cbn [app] in RF.
    rewrite RF. reflexivity.
  - unfold read_terminator.
    replace (hd ++ fb ++ [13%N] ++ rest) with ((hd ++ fb) ++ [13%N] ++ rest) by (rewrite <- app_assoc; reflexivity).
    rewrite fread_mid by (rewrite ?app_length; auto; lia). rewrite str_eqb_refl.
    do 2 f_equal. lia.
Qed.

(** ** Records *)

Lemma total_size_sum : forall fds, total_size fds = list_sum (map fd_size fds).
Proof. induction fds; simpl; auto. Qed.

Lemma name_not_flag : forall s, length s <= 11 -> str_eqb s flag_name = false.
Proof.
  intros s H. destruct (str_eqb s flag_name) eqn:E; auto. apply str_eqb_eq in E. subst.
  cbn in H. lia.
Qed.

Lemma encodes_row_length : forall fds cs b, encodes_row fds cs b -> length b = list_sum (map fd_size fds).
Proof.
  intros fds cs b H. induction H as [|fd fds c cs b bs Hh Hl He IH]; auto.
  rewrite app_length, IH, Hl. reflexivity.
Qed.

Lemma split_row : forall fds cs b, encodes_row fds cs b -> Forall good_field fds ->
  convert_fields (zip fds (split_fields fds b)) = Ok (row_vals fds cs).
Proof.
  intros fds cs b H. induction H as [|fd fds c cs b bs Hh Hl He IH]; intros Hg; [reflexivity|].
  inversion Hg; subst. cbn [split_fields zip convert_fields].
  rewrite name_not_flag by (destruct H1; auto).
  assert (E1 : firstn (fd_size fd) (b ++ bs) = b).
  { rewrite <- Hl, firstn_app, Nat.sub_diag, firstn_all. cbn [firstn]. apply app_nil_r. }
  assert (E2 : skipn (fd_size fd) (b ++ bs) = bs).
  { rewrite <- Hl, skipn_app, Nat.sub_diag, skipn_all. reflexivity. }
  rewrite E1, E2.
  rewrite (conv_holds _ _ _ _ Hh). cbn [bind]. rewrite IH by auto. reflexivity.
Qed.

Lemma encodes_fields_good : forall fds b, encodes_fields fds b -> Forall good_field fds.
Proof. intros fds b H. induction H; constructor; auto. Qed.

Lemma encodes_records_length : forall fds recs b, encodes_records fds recs b ->
  length b = length recs * record_length fds.
Proof.
  intros fds recs b H. unfold record_length. induction H; auto.
  - cbn [length]. rewrite app_length, IHencodes_records, (encodes_row_length _ _ _ H). lia.
  - cbn [length]. rewrite app_length, IHencodes_records, H0. lia.
Qed.

Lemma is_deleted_flag : forall fds c b,
  is_deleted (split_fields (flag_field :: fds) (c :: b)) = negb (N.eqb c 32).
Proof. intros. cbn [split_fields flag_field fd_size firstn is_deleted str_eqb]. rewrite andb_true_r. reflexivity. Qed.

(** One complete record. *)
Lemma reader_step : forall fds c b rest pre n, length b = list_sum (map fd_size fds) ->
  reader_loop (S n) (flag_field :: fds) (mkfile (pre ++ (c :: b) ++ rest) (length pre)) =
  let f1 := mkfile (pre ++ (c :: b) ++ rest) (length pre + record_length fds) in
  if N.eqb c 32 then
    match convert_fields (zip fds (split_fields fds b)) with
    | Err e => ([], Err e)
    | Ok row => let '(rows, out) := reader_loop n (flag_field :: fds) f1 in (row :: rows, out)
    end
  else reader_loop n (flag_field :: fds) f1.
Proof.
  intros fds c b rest pre n Hl. cbn [reader_loop].
  assert (T : total_size (flag_field :: fds) = record_length fds).
  { unfold record_length. cbn [total_size fold_right flag_field fd_size]. change (fold_right _ 0 fds) with (total_size fds).
    rewrite total_size_sum. reflexivity. }
  rewrite T. rewrite fread_mid by (auto; unfold record_length; simpl; lia).
  unfold unpack_record. rewrite T.
  replace (length (c :: b) =? record_length fds) with true
    by (symmetry; apply Nat.eqb_eq; unfold record_length; simpl; lia).
  rewrite is_deleted_flag. cbv zeta. destruct (N.eqb c 32); cbn [negb]; [|reflexivity].
  cbn [split_fields flag_field fd_size firstn skipn zip convert_fields fd_name].
  rewrite str_eqb_refl. reflexivity.
Qed.

Lemma reader_records : forall fds, Forall good_field fds -> forall recs rb, encodes_records fds recs rb ->
  forall pre tail,
  reader_loop (length recs) (flag_field :: fds) (mkfile (pre ++ rb ++ tail) (length pre)) =
  (map (row_vals fds) (live recs), Ok (mkfile (pre ++ rb ++ tail) (length pre + length rb))).
Proof.
  intros fds Hg recs rb H. induction H as [|cs b recs bs Hr Hrs IH|c b recs bs Hc Hb Hrs IH]; intros pre tail.
  - cbn. rewrite Nat.add_0_r. reflexivity.
  - pose proof (encodes_row_length _ _ _ Hr) as Lb.
    replace (pre ++ (32%N :: b ++ bs) ++ tail) with (pre ++ (32%N :: b) ++ (bs ++ tail))
      by (cbn [app]; rewrite <- app_assoc; reflexivity).
    cbn [length]. rewrite reader_step by auto. cbv zeta. cbn [N.eqb Pos.eqb].
    rewrite (split_row _ _ _ Hr) by auto.
    replace (pre ++ (32%N :: b) ++ bs ++ tail) with ((pre ++ 32%N :: b) ++ bs ++ tail)
      by (rewrite <- app_assoc; reflexivity).
    replace (length pre + record_length fds) with (length (pre ++ 32%N :: b))
      by (rewrite app_length; unfold record_length; simpl; lia).
    rewrite IH. cbn [live map]. do 3 f_equal. rewrite !app_length. simpl. rewrite ?app_length. lia.
  - replace (pre ++ (c :: b ++ bs) ++ tail) with (pre ++ (c :: b) ++ (bs ++ tail))
      by (cbn [app]; rewrite <- app_assoc; reflexivity).
    cbn [length]. rewrite reader_step by auto. cbv zeta. replace (N.eqb c 32) with false by lia.
    replace (pre ++ (c :: b) ++ bs ++ tail) with ((pre ++ c :: b) ++ bs ++ tail)
      by (rewrite <- app_assoc; reflexivity).
    replace (length pre + record_length fds) with (length (pre ++ c :: b))
      by (rewrite app_length; unfold record_length; simpl; lia).
    rewrite IH. cbn [live]. do 3 f_equal. rewrite !app_length. simpl. rewrite ?app_length. lia.
Qed.

(** The record section cut at [k] bytes. *)
Lemma reader_truncated : forall fds, Forall good_field fds -> forall recs rb, encodes_records fds recs rb ->
  forall pre k, k < length rb ->
  reader_loop (length recs) (flag_field :: fds) (mkfile (pre ++ firstn k rb) (length pre)) =
  (map (row_vals fds) (live (firstn (k / record_length fds) recs)), Err StructError).
Proof.
  intros fds Hg.
  assert (T : total_size (flag_field :: fds) = record_length fds).
  { unfold record_length. cbn [total_size fold_right flag_field fd_size]. change (fold_right _ 0 fds) with (total_size fds).
    rewrite total_size_sum. reflexivity. }
  assert (Short : forall n b pre k, k < record_length fds ->
    reader_loop (S n) (flag_field :: fds) (mkfile (pre ++ firstn k b) (length pre)) = ([], Err StructError)).
  { intros n b pre k Hk. cbn [reader_loop]. destruct (fread _ _) as [b' f'] eqn:E. apply fread_spec in E.
    destruct E as (-> & _ & _). unfold unpack_record. rewrite T.
    replace (_ =? record_length fds) with false; [reflexivity|].
    symmetry. apply Nat.eqb_neq. rewrite bytes_at_length. cbn [f_bytes f_pos].
    rewrite app_length, firstn_length. lia. }
  assert (Full : forall n c b bs pre k, length b = list_sum (map fd_size fds) -> record_length fds <= k ->
    reader_loop (S n) (flag_field :: fds) (mkfile (pre ++ firstn k (c :: b ++ bs)) (length pre)) =
    let f1 := mkfile ((pre ++ c :: b) ++ firstn (k - record_length fds) bs) (length (pre ++ c :: b)) in
    if N.eqb c 32 then
      match convert_fields (zip fds (split_fields fds b)) with
      | Err e => ([], Err e)
      | Ok row => let '(rows, out) := reader_loop n (flag_field :: fds) f1 in (row :: rows, out)
      end
    else reader_loop n (flag_field :: fds) f1).
  { intros n c b bs pre k Hb Hk.
    assert (E : firstn k (c :: b ++ bs) = (c :: b) ++ firstn (k - record_length fds) bs).
    { change (c :: b ++ bs) with ((c :: b) ++ bs). rewrite firstn_app.
      rewrite firstn_all2 by (unfold record_length in *; simpl; lia).
      f_equal. f_equal. unfold record_length. simpl. lia. }
    rewrite E, reader_step by auto. cbv zeta.
    replace (pre ++ (c :: b) ++ firstn (k - record_length fds) bs)
      with ((pre ++ c :: b) ++ firstn (k - record_length fds) bs) by (rewrite <- app_assoc; reflexivity).
    replace (length pre + record_length fds) with (length (pre ++ c :: b))
      by (rewrite app_length; unfold record_length; simpl; lia).
    reflexivity. }
  assert (Div : forall k, record_length fds <= k ->
    k / record_length fds = S ((k - record_length fds) / record_length fds)).
  { intros k Hk. assert (record_length fds <> 0) by (unfold record_length; lia).
    replace k with ((k - record_length fds) + 1 * record_length fds) at 1 by lia.
    rewrite Nat.div_add by auto. lia. }
  intros recs rb H. induction H as [|cs b recs bs Hr Hrs IH|c b recs bs Hc Hb Hrs IH]; intros pre k Hk.
  - cbn in Hk. lia.
  - pose proof (encodes_row_length _ _ _ Hr) as Lb. cbn [length].
    destruct (le_lt_dec (record_length fds) k) as [Hge|Hlt].
    + rewrite Full by auto. cbv zeta. cbn [N.eqb Pos.eqb]. rewrite (split_row _ _ _ Hr) by auto.
      rewrite IH by (cbn [length] in Hk; rewrite app_length in Hk; unfold record_length in *; lia).
      rewrite (Div k) by auto. reflexivity.
    + rewrite Short by auto. rewrite Nat.div_small by auto. reflexivity.
  - cbn [length]. destruct (le_lt_dec (record_length fds) k) as [Hge|Hlt].
    + rewrite Full by auto. cbv zeta. replace (N.eqb c 32) with false by lia.
      rewrite IH by (cbn [length] in Hk; rewrite app_length in Hk; unfold record_length in *; lia).
      rewrite (Div k) by auto. reflexivity.
    + rewrite Short by auto. rewrite Nat.div_small by auto. reflexivity.
Qed.

(** ** Arbitrary files *)

Lemma unpack_field_name : forall b fd, unpack_field b = Ok fd -> length b = 32 /\ length (fd_name fd) <= 11.
Proof.
  intros b fd H. unfold unpack_field in H. destruct (length b =? 32) eqn:E; [|discriminate].
  apply Nat.eqb_eq in E. split; auto. unfold decode_ascii in H.
  destruct (forallb _ _); [|discriminate]. cbn [bind] in H. injection H as <-. cbn [fd_name].
  assert (R : forall s, length (replace1 0 [] s) <= length s).
  { induction s as [|c s IH]; auto. unfold replace1 in *. simpl. destruct (N.eqb c 0); simpl; lia. }
  eapply Nat.le_trans; [apply R|]. rewrite bytes_at_length. lia.
Qed.

Definition named (fds : list field) : Prop := Forall (fun fd => length (fd_name fd) <= 11) fds.

Lemma read_fields_ok : forall n f fds f', read_fields n f = Ok (fds, f') ->
  length fds = n /\ f_bytes f' = f_bytes f /\ f_pos f' = f_pos f + 32 * n /\ named fds.
Proof.
  induction n as [|n IH]; intros f fds f' H.
  - injection H as <- <-. repeat split; try lia. constructor.
  - cbn [read_fields] in H. destruct (fread 32 f) as [b f1] eqn:E. apply fread_spec in E.
    destruct E as (_ & Eb & Ep). destruct (unpack_field b) as [fd|e] eqn:Eu; [|discriminate]. cbn [bind] in H.
    destruct (read_fields n f1) as [[fds1 f2]|e] eqn:Er; [|discriminate]. cbn [bind] in H. injection H as <- <-.
    apply unpack_field_name in Eu. destruct Eu as (L32 & Hn).
    destruct (IH _ _ _ Er) as (H1 & H2 & H3 & H4). cbn [length].
    repeat split; try congruence; try lia. constructor; auto.
Qed.

Lemma le_value4 : forall b p, length (bytes_at p 4 b) = 4 -> le_value (bytes_at p 4 b) = u32_at b p.
Proof.
  intros b p H. unfold bytes_at in *. rewrite firstn_length, skipn_length in H.
  unfold u32_at. rewrite <- !nth_skipn with (l := b) (a := p).
  assert (L : 4 <= length (skipn p b)) by (rewrite skipn_length; lia).
  destruct (skipn p b) as [|x0 [|x1 [|x2 [|x3 s]]]]; simpl in L; try lia.
  cbn [firstn le_value nth]. lia.
Qed.

Lemma bytes_at_at : forall a n c m b, c + m <= n -> bytes_at c m (bytes_at a n b) = bytes_at (a + c) m b.
Proof.
  intros. unfold bytes_at. rewrite skipn_firstn_comm, firstn_firstn, Nat.min_l by lia. f_equal.
  revert b. induction a as [|a IH]; intros b; [reflexivity|].
  destruct b; cbn [skipn Nat.add]; [apply skipn_nil|apply IH].
Qed.

Lemma read_header_ok : forall f numrec fds f1, read_header f = Ok (numrec, fds, f1) ->
  numrec = u32_at (f_bytes f) (f_pos f + 4) /\ f_bytes f1 = f_bytes f /\
  f_pos f1 = f_pos f + 32 + 32 * length fds /\ named fds.
Proof.
  intros f numrec fds f1 H. unfold read_header in H. destruct (fread 32 f) as [b f'] eqn:E.
  apply fread_spec in E. destruct E as (Eb & E1 & E2). unfold unpack_header in H.
  destruct (length b =? 32) eqn:El; [|discriminate]. apply Nat.eqb_eq in El. cbn [bind] in H.
  destruct (read_fields _ f') as [[fds' f2]|e] eqn:Er; [|discriminate]. cbn [bind] in H.
  destruct (read_fields_ok _ _ _ _ Er) as (H1 & H2 & H3 & H4).
  assert (fds' = fds /\ f2 = f1 /\ numrec = le_value (bytes_at 4 4 b)) as (-> & -> & ->) by (repeat split; congruence).
  repeat split; auto; try congruence; try lia.
  rewrite Eb. rewrite bytes_at_at by lia. apply le_value4. rewrite Eb in El.
  rewrite bytes_at_length in *. lia.
Qed.

Lemma read_terminator_ok : forall f f', read_terminator f = Ok f' ->
  f_bytes f' = f_bytes f /\ f_pos f' = f_pos f + 1.
Proof.
  intros f f' H. unfold read_terminator in H. destruct (fread 1 f) as [b f1] eqn:E. apply fread_spec in E.
  destruct E as (_ & E1 & E2). destruct (str_eqb b [13%N]) eqn:Es; [|discriminate].
  apply str_eqb_eq in Es. subst b. injection H as <-. auto.
Qed.

Lemma flag_at : forall fds b p, length (bytes_at p (record_length fds) b) = record_length fds ->
  exists rest, bytes_at p (record_length fds) b = nth p b 0%N :: rest /\
    rest = bytes_at (p + 1) (list_sum (map fd_size fds)) b.
Proof.
  intros fds b p H. unfold bytes_at in *. rewrite firstn_length, skipn_length in H.
  unfold record_length in *.
  assert (N0 : nth p b 0%N = nth 0 (skipn p b) 0%N) by (rewrite nth_skipn, Nat.add_0_r; reflexivity).
  assert (S1 : skipn (p + 1) b = skipn 1 (skipn p b)).
  { clear. revert b. induction p as [|p IH]; intros b; [reflexivity|].
    destruct b; [reflexivity|]. cbn [skipn Nat.add]. rewrite IH. reflexivity. }
  rewrite N0, S1. assert (L : 1 <= length (skipn p b)) by (rewrite skipn_length; lia).
  destruct (skipn p b) as [|c s]; [simpl in L; lia|]. cbn [firstn nth skipn Nat.add]. eauto.
Qed.

Lemma total_record : forall fds, total_size (flag_field :: fds) = record_length fds.
Proof.
  intros. unfold record_length. cbn [total_size fold_right flag_field fd_size].
  change (fold_right _ 0 fds) with (total_size fds). rewrite total_size_sum. reflexivity.
Qed.

(** One step of the full reader on an arbitrary file. *)
Lemma reader_loop_step : forall n fds b p,
  reader_loop (S n) (flag_field :: fds) (mkfile b p) =
  if p + record_length fds <=? length b then
    if space_at b p then
      match convert_fields (zip fds (split_fields fds (bytes_at (p + 1) (list_sum (map fd_size fds)) b))) with
      | Err e => ([], Err e)
      | Ok row => let '(rows, out) := reader_loop n (flag_field :: fds) (mkfile b (p + record_length fds)) in
                  (row :: rows, out)
      end
    else reader_loop n (flag_field :: fds) (mkfile b (p + record_length fds))
  else ([], Err StructError).
Proof.
  intros n fds b p. cbn [reader_loop]. rewrite total_record.
  destruct (fread _ _) as [r f1] eqn:E. destruct (fread_spec _ _ _ _ E) as (Er & Eb & Ep).
  cbn [f_bytes f_pos] in *. unfold unpack_record. rewrite total_record.
  pose proof (bytes_at_length p (record_length fds) b) as L.
  destruct (p + record_length fds <=? length b) eqn:Ele.
  - apply Nat.leb_le in Ele. assert (L' : length r = record_length fds) by (rewrite Er, L; lia).
    rewrite L', Nat.eqb_refl.
    destruct (flag_at fds b p) as (rest & Hr & Hrest); [rewrite <- Er; auto|].
    rewrite <- Er in Hr. rewrite Hr. rewrite is_deleted_flag. fold (space_at b p).
    assert (f1 = mkfile b (p + record_length fds)) as -> by (destruct f1; cbn in *; congruence).
    destruct (space_at b p); cbn [negb]; [|reflexivity].
    cbn [split_fields flag_field fd_size firstn skipn zip convert_fields fd_name].
    rewrite str_eqb_refl, Hrest. reflexivity.
  - apply Nat.leb_gt in Ele. replace (length r =? record_length fds) with false; [reflexivity|].
    symmetry. apply Nat.eqb_neq. rewrite Er, L. unfold record_length in *. lia.
Qed.

Lemma convert_fields_length : forall fds ps row, named fds -> convert_fields (zip fds ps) = Ok row ->
  length row = length (zip fds ps).
Proof.
  induction fds as [|fd fds IH]; intros ps row Hn H; [injection H as <-; reflexivity|].
  destruct ps as [|q ps]; [injection H as <-; reflexivity|]. inversion Hn; subst.
  cbn [zip convert_fields] in H. rewrite name_not_flag in H by auto.
  destruct (conv _ _ q) as [v|e]; [|discriminate]. cbn [bind] in H.
  destruct (convert_fields (zip fds ps)) as [vs|e] eqn:E; [|discriminate]. injection H as <-.
  cbn [zip length]. f_equal. eauto.
Qed.

Lemma split_fields_length : forall fds b, length (split_fields fds b) = length fds.
Proof. induction fds; intros; simpl; auto. Qed.

(** Number of records with a space flag. *)
Definition live_count (b : str) (start len n : nat) : nat :=
  length (filter (fun i => space_at b (start + i * len)) (seq 0 n)).

Lemma live_count_S : forall b s len n,
  live_count b s len (S n) = (if space_at b s then 1 else 0) + live_count b (s + len) len n.
Proof.
  intros. unfold live_count. cbn [seq filter]. rewrite Nat.mul_0_l, Nat.add_0_r.
  rewrite <- seq_shift.
  assert (E : forall l, length (filter (fun i => space_at b (s + i * len)) (map S l)) =
                        length (filter (fun i => space_at b (s + len + i * len)) l)).
  { induction l as [|x l IH]; [reflexivity|]. cbn [map filter].
    replace (s + S x * len) with (s + len + x * len) by lia.
    destruct (space_at b (s + len + x * len)); cbn [length]; auto. }
  destruct (space_at b s); cbn [length]; rewrite E; reflexivity.
Qed.

Lemma reader_loop_ok : forall n fds b p rows f', named fds ->
  reader_loop n (flag_field :: fds) (mkfile b p) = (rows, Ok f') ->
  f' = mkfile b (p + n * record_length fds) /\
  length rows = live_count b p (record_length fds) n /\
  (n <> 0 -> p + n * record_length fds <= length b) /\
  Forall (fun row => length row = length fds) rows.
Proof.
  induction n as [|n IH]; intros fds b p rows f' Hn H.
  - injection H as <- <-. repeat split; auto; try (f_equal; lia); intros; congruence.
  - rewrite reader_loop_step in H. rewrite live_count_S.
    destruct (p + record_length fds <=? length b) eqn:Ele; [|discriminate]. apply Nat.leb_le in Ele.
    destruct (space_at b p).
    + destruct (convert_fields _) as [row|e] eqn:Ec; [|discriminate].
      destruct (reader_loop n _ _) as [rows1 out] eqn:El. injection H as <- ->.
      destruct (IH _ _ _ _ _ Hn El) as (H1 & H2 & H3 & H4).
      apply convert_fields_length in Ec; auto. rewrite zip_length, split_fields_length, Nat.min_id in Ec.
      repeat split.
      * rewrite H1. f_equal. lia.
      * cbn [length]. lia.
      * intros _. destruct n; lia.
      * constructor; auto.
    + destruct (IH _ _ _ _ _ Hn H) as (H1 & H2 & H3 & H4). repeat split; auto.
      * rewrite H1. f_equal. lia.
      * intros _. destruct n; lia.
Qed.

(** Too few bytes: the loop does not end normally; a struct.error comes after
    the rows of all the complete records. *)
Lemma reader_loop_short : forall n fds b p rows out, named fds ->
  reader_loop n (flag_field :: fds) (mkfile b p) = (rows, out) ->
  length b < p + n * record_length fds -> n <> 0 ->
  exists e, out = Err e /\
  (e = StructError -> p <= length b ->
   length rows = live_count b p (record_length fds) ((length b - p) / record_length fds)).
Proof.
  intros n fds b p rows out Hn. revert p rows out.
  assert (R0 : record_length fds <> 0) by (unfold record_length; lia).
  assert (CE : forall ps e, convert_fields ps = Err e -> e <> StructError).
  { induction ps as [|[fd v] ps IHp]; intros e H; [discriminate|]. cbn [convert_fields] in H.
    destruct (str_eqb _ _); [eauto|].
    destruct (conv _ _ v) as [x|e'] eqn:Ex; cbn [bind] in H.
    - destruct (convert_fields ps) eqn:Ep; [discriminate|]. injection H as <-. eauto.
    - injection H as <-. intros ->. unfold conv, conv_numeric, conv_date, conv_float, decode_ascii, float_of_str, int_of_str, float_body in Ex.
      repeat match type of Ex with
             | context [if ?c then _ else _] => destruct c
             | context [match ?c with _ => _ end] => destruct c eqn:?
             | _ => discriminate
             | _ => progress cbn [bind] in Ex
             end; try discriminate.
      all: try (unfold make_date in *; destruct (_ && _)%bool in *; congruence).
      all: congruence. }
  induction n as [|n IH]; intros p rows out H Hs Hz; [congruence|].
  rewrite reader_loop_step in H. destruct (p + record_length fds <=? length b) eqn:Ele.
  - apply Nat.leb_le in Ele. assert (n <> 0) by (destruct n; lia).
    assert (D : (length b - p) / record_length fds = S ((length b - (p + record_length fds)) / record_length fds)).
    { replace (length b - p) with ((length b - (p + record_length fds)) + 1 * record_length fds) by lia.
      rewrite Nat.div_add by auto. lia. }
    destruct (space_at b p) eqn:Esp.
    + destruct (convert_fields _) as [row|e] eqn:Ec.
      * destruct (reader_loop n _ _) as [rows1 out1] eqn:El. injection H as <- <-.
        destruct (IH _ _ _ El) as (e & -> & He); [lia|auto|].
        exists e. split; auto. intros -> Hp. rewrite D, live_count_S, Esp. cbn [length]. rewrite He by auto. lia.
      * injection H as <- <-. exists e. split; auto. intros -> _. exfalso. eapply CE; eauto.
    + destruct (IH _ _ _ H) as (e & -> & He); [lia|auto|].
      exists e. split; auto. intros -> Hp. rewrite D, live_count_S, Esp. rewrite He by auto. lia.
  - apply Nat.leb_gt in Ele. injection H as <- <-. exists StructError. split; auto. intros _ Hp.
    rewrite Nat.div_small by lia. reflexivity.
Qed.
