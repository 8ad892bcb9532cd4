(** * Proofs about decimal numbers read as doubles *)

From Coq Require Import ZArith Reals Lia Lra Psatz ZifyBool ZifyNat ZifyN.
From Verif Require Import PyBase PyFloat PyFloatFacts SpecPack SpecNumber SpecDbf DbfProofs FloatReal.
From Flocq Require Import Core Round Relative BinarySingleNaN.
Open Scope R_scope.
Local Notation float := spec_float.

(** ** Doubles *)

Lemma powerRZ_bpow : forall e, powerRZ 2 e = bpow radix2 e.
Proof. intros e. rewrite bpow_powerRZ. reflexivity. Qed.

Lemma real_fval : forall f, real f = fval f.
Proof.
  intros [s|s| |s m e]; try reflexivity.
  rewrite fval_finite. unfold real. rewrite powerRZ_bpow. reflexivity.
Qed.

Lemma finite_double_valid : forall f, finite_double f <-> valid f = true /\ finite f = true.
Proof.
  intros [s|s| |s m e]; unfold valid, finite; simpl.
  - tauto.
  - split; [tauto|intros [_ H]; discriminate].
  - split; [tauto|intros [_ H]; discriminate].
  - unfold SpecFloat.bounded, SpecFloat.canonical_mantissa, SpecFloat.fexp, SpecFloat.emin.
    pose proof (digits2_bounds m) as D.
    set (d := Zpos (digits2_pos m)) in *.
    assert (Hd : (1 <= d)%Z) by lia.
    split.
    + intros H. split; auto. rewrite andb_true_iff. rewrite <- Zeq_is_eq_bool.
      destruct H as [[H1 H2]|[H1 H2]].
      * assert (d <= 52)%Z; [|lia].
        destruct (Z.leb_spec d 52) as [|G]; auto. exfalso.
        assert (2 ^ 52 <= 2 ^ (d - 1))%Z by (apply Z.pow_le_mono_r; lia). lia.
      * assert (d = 53)%Z; [|lia].
        assert (d <= 53)%Z.
        { destruct (Z.leb_spec d 53) as [|G]; auto. exfalso.
          assert (2 ^ 53 <= 2 ^ (d - 1))%Z by (apply Z.pow_le_mono_r; lia). lia. }
        assert (52 < d)%Z; [|lia].
        destruct (Z.ltb_spec 52 d) as [|G]; auto. exfalso.
        assert (2 ^ d <= 2 ^ 52)%Z by (apply Z.pow_le_mono_r; lia). lia.
    + intros [H _]. rewrite andb_true_iff in H. rewrite <- Zeq_is_eq_bool in H.
      destruct H as [H1 H2]. apply Zle_bool_imp_le in H2.
      destruct (Z.eq_dec d 53) as [E|E].
      * right. rewrite E in D. simpl (53 - 1)%Z in D. lia.
      * left. assert (d <= 52)%Z by lia. split; [|lia].
        assert (2 ^ d <= 2 ^ 52)%Z by (apply Z.pow_le_mono_r; lia). lia.
Qed.

Lemma too_large_not_in_range : ~ in_range too_large.
Proof.
  intros H. unfold too_large in H. destruct (float_of_Z_R _ H) as (_ & F & _).
  revert F. vm_compute. discriminate.
Qed.

Definition max_double : R := IZR (2 ^ 1024 - 2 ^ 971).

Lemma max_double_format : generic_format radix2 fexp64 max_double.
Proof.
  assert (E : max_double = fval (S754_finite false (2 ^ 53 - 1) 971)).
  { rewrite fval_finite. unfold max_double. rewrite <- IZR_2pow by lia. rewrite Rmult_1_l.
    rewrite <- mult_IZR. f_equal. }
  rewrite E. apply fval_format. reflexivity.
Qed.

Lemma in_range_iff : forall x, 0 <= x -> (in_range x <-> x < too_large).
Proof.
  intros x Hx. split.
  - intros H. apply Rnot_le_lt. intros G. apply too_large_not_in_range.
    unfold in_range in *.
    assert (0 <= too_large) by (unfold too_large; apply IZR_le; lia).
    assert (rnd too_large <= rnd x) by (apply round_le; auto with typeclass_instances).
    assert (0 <= rnd too_large) by (apply round_ge_generic; auto with typeclass_instances; apply generic_format_0).
    rewrite Rabs_pos_eq in * by lra. lra.
  - intros H. unfold in_range.
    assert (P : 0 <= rnd x) by (apply round_ge_generic; auto with typeclass_instances; apply generic_format_0).
    rewrite Rabs_pos_eq by auto. apply Rnot_le_lt. intros G.
    pose proof max_double_format as FM.
    assert (M1 : max_double + IZR (2 ^ 971) = bpow radix2 1024).
    { unfold max_double. rewrite <- IZR_2pow by lia. rewrite <- plus_IZR. f_equal. }
    assert (M2 : too_large + IZR (2 ^ 970) = bpow radix2 1024).
    { unfold too_large. rewrite <- IZR_2pow by lia. rewrite <- plus_IZR. f_equal. }
    assert (M3 : IZR (2 ^ 971) = 2 * IZR (2 ^ 970)).
    { rewrite <- mult_IZR. f_equal. }
    assert (M4 : 0 < IZR (2 ^ 970)) by (apply IZR_lt; reflexivity).
    destruct (Rle_or_lt x max_double) as [L|L].
    + assert (rnd x <= max_double) by (apply round_le_generic; auto with typeclass_instances). lra.
    + pose proof (round_N_pt radix2 fexp64 (fun z => negb (Z.even z)) x) as [_ N].
      specialize (N _ FM). rewrite (Rabs_pos_eq (round _ _ _ x - x)) in N by lra.
      rewrite Rabs_left in N by lra. lra.
Qed.

(** ** Rounding a decimal *)

Definition signed (neg : bool) (x : R) : R := if neg then Ropp x else x.

Lemma rnd_signed : forall neg x, rnd (signed neg x) = signed neg (rnd x).
Proof. intros [|] x; simpl; auto. apply round_NE_opp. Qed.

Lemma in_range_signed : forall neg x, in_range (signed neg x) <-> in_range x.
Proof.
  intros neg x. unfold in_range. rewrite rnd_signed. destruct neg; simpl; [rewrite Rabs_Ropp|]; tauto.
Qed.

Definition radix10 : radix := Build_radix 10 eq_refl.

Lemma power_nonneg : forall e, (0 <= e)%Z -> powerRZ 10 e = IZR (10 ^ e).
Proof.
  intros e H. change 10 with (IZR radix10). rewrite <- bpow_powerRZ. symmetry. apply (IZR_Zpower radix10). exact H.
Qed.

Lemma power_opp : forall e, powerRZ 10 (- e) = / powerRZ 10 e.
Proof. intros e. change 10 with (IZR radix10). rewrite <- !bpow_powerRZ. apply bpow_opp. Qed.

Lemma power_pos : forall e, 0 < powerRZ 10 e.
Proof. intros e. change 10 with (IZR radix10). rewrite <- bpow_powerRZ. apply bpow_gt_0. Qed.

(** What a correctly rounded double is. *)
Definition rounded (neg : bool) (x : R) (f : float) : Prop :=
  valid f = true /\ negative f = neg /\
  (in_range x -> finite f = true /\ fval f = rnd (signed neg x)) /\
  (~ in_range x -> f = S754_infinity neg).

Lemma negative_sign : forall f, negative f = sign_SF f.
Proof. intros [s|s| |s m e]; reflexivity. Qed.

Lemma Bsign_B2SF_eq : forall b : binary_float 53 1024, Bsign b = sign_SF (B2SF b).
Proof. intros [s|s| |s m e H]; reflexivity. Qed.

Lemma in_range_dec : forall x, in_range x \/ ~ in_range x.
Proof. intros x. unfold in_range. destruct (Rlt_dec (Rabs (rnd x)) (bpow radix2 1024)); auto. Qed.

Lemma dec_round_pos : forall neg p e, (0 <= e)%Z ->
  rounded neg (IZR (Zpos p) * powerRZ 10 e) (dec_round neg (Zpos p) e).
Proof.
  intros neg p e He. unfold dec_round. replace (0 <=? e)%Z with true by lia.
  set (z := (if neg then Z.neg p * 10 ^ e else Z.pos p * 10 ^ e)%Z).
  set (x := IZR (Z.pos p) * powerRZ 10 e).
  assert (Ex : IZR z = signed neg x).
  { unfold z, x, signed. rewrite power_nonneg by exact He. destruct neg; [|apply mult_IZR].
    change (Z.neg p) with (- Z.pos p)%Z. rewrite mult_IZR, opp_IZR. ring. }
  assert (Px : 0 < x) by (unfold x; apply Rmult_lt_0_compat; [apply IZR_lt; reflexivity|apply power_pos]).
  rewrite binary_normalize_equiv. unfold rounded. rewrite valid_B2SF, finite_B2SF, fval_B2SF, negative_sign.
  generalize (binary_normalize_correct 53 1024 Hprec Hmax mode_NE z 0 neg).
  cbv zeta. change (round_mode mode_NE) with ZnearestE.
  replace (F2R (Float radix2 z 0)) with (signed neg x) by (unfold F2R; simpl; rewrite Ex; ring).
  assert (Sg : Rlt_bool (signed neg x) 0 = neg).
  { destruct neg; simpl; [apply Rlt_bool_true|apply Rlt_bool_false]; lra. }
  assert (Cm : match Rcompare (signed neg x) 0 with Eq => neg | Lt => true | Gt => false end = neg).
  { destruct neg; simpl; [rewrite Rcompare_Lt by lra|rewrite Rcompare_Gt by lra]; reflexivity. }
  destruct (in_range_dec x) as [H|H].
  - rewrite Rlt_bool_true by (apply in_range_signed; exact H).
    intros (A & B & C). rewrite Cm in C. split; [reflexivity|]. split; [|split; [|tauto]].
    + rewrite <- Bsign_B2SF_eq. exact C.
    + intros _. split; [exact B|exact A].
  - rewrite Rlt_bool_false.
    2:{ apply Rnot_lt_le. intros G. apply H. apply (proj1 (in_range_signed neg x)). exact G. }
    intros A. rewrite A, Sg. split; auto. split; [reflexivity|]. split; [tauto|reflexivity].
Qed.

Lemma dec_round_neg : forall neg p e, (e < 0)%Z ->
  rounded neg (IZR (Zpos p) * powerRZ 10 e) (dec_round neg (Zpos p) e).
Proof.
  intros neg p e He. unfold dec_round. replace (0 <=? e)%Z with false by lia.
  set (x := IZR (Z.pos p) * powerRZ 10 e).
  assert (Pt : (0 < 10 ^ (- e))%Z) by (apply Z.pow_pos_nonneg; lia).
  set (q := Z.to_pos (10 ^ (- e))).
  assert (Eq : Zpos q = (10 ^ (- e))%Z) by (unfold q; apply Z2Pos.id; exact Pt).
  generalize (Bdiv_correct_aux 53 1024 Hprec Hmax mode_NE neg p 0 false q 0).
  cbv zeta. cbn [SFdiv]. rewrite Bool.xorb_false_r.
  replace (F2R (Float radix2 (cond_Zopp neg (Z.pos p)) 0) / F2R (Float radix2 (cond_Zopp false (Z.pos q)) 0))
    with (signed neg x).
  2:{ unfold F2R. cbn [Fnum Fexp bpow cond_Zopp]. rewrite Eq, <- power_nonneg by lia.
      rewrite power_opp. unfold x. pose proof (power_pos e). rewrite !Rmult_1_r.
      unfold Rdiv. rewrite Rinv_inv.
      destruct neg; simpl cond_Zopp; simpl signed; [|reflexivity].
      change (Z.neg p) with (- Z.pos p)%Z. rewrite opp_IZR. ring. }
  destruct (SFdiv_core_binary 53 1024 (Z.pos p) 0 (Z.pos q) 0) as [[mz ez] lz].
  rewrite binary_round_aux_equiv.
  set (f := binary_round_aux 53 1024 mode_NE neg mz ez lz).
  change (round_mode mode_NE) with ZnearestE.
  intros [V K]. unfold rounded. split; [exact V|]. rewrite negative_sign.
  destruct (in_range_dec x) as [H|H].
  - rewrite Rlt_bool_true in K by (apply in_range_signed; exact H). destruct K as (A & B & C).
    repeat split; auto; tauto.
  - rewrite Rlt_bool_false in K.
    2:{ apply Rnot_lt_le. intros G. apply H. apply (proj1 (in_range_signed neg x)). exact G. }
    rewrite K. split; [reflexivity|]. split; [tauto|reflexivity].
Qed.

Lemma dec_round_rounded : forall neg m e, (0 <= m)%Z ->
  rounded neg (IZR m * powerRZ 10 e) (dec_round neg m e).
Proof.
  intros neg [|p|p] e Hm; [| |lia].
  - rewrite Rmult_0_l. unfold rounded. simpl.
    assert (Z0 : rnd 0 = 0) by (apply round_0; auto with typeclass_instances).
    split; [reflexivity|]. split; [reflexivity|]. split.
    + intros _. split; [reflexivity|]. rewrite rnd_signed, Z0. unfold fval. simpl. destruct neg; simpl; ring.
    + intros H. exfalso. apply H. unfold in_range. rewrite Z0, Rabs_R0. apply bpow_gt_0.
  - destruct (Z.leb_spec 0 e); [apply dec_round_pos|apply dec_round_neg]; auto.
Qed.

Lemma exists_NE64 : Exists_NE radix2 fexp64.
Proof. apply (exists_NE_FLT radix2 (SpecFloat.emin 53 1024) 53). right. reflexivity. Qed.

Lemma rounded_nearest : forall neg x f, 0 <= x -> rounded neg x f -> nearest neg x f.
Proof.
  intros neg x f Hx (V & S & A & B). split; [exact S|].
  destruct (in_range_dec x) as [H|H].
  - right. destruct (A H) as [F E]. split; [apply in_range_iff; auto|].
    split; [apply finite_double_valid; auto|].
    intros g Hg. cbv zeta. fold (signed neg x). set (y := signed neg x) in *.
    rewrite !real_fval. apply finite_double_valid in Hg. destruct Hg as [Vg Fg].
    pose proof (fval_format g Vg) as FMg.
    pose proof exists_NE64.
    destruct (round_NE_pt radix2 fexp64 y) as [[FMr N] P].
    rewrite <- E in *. split; [apply N; exact FMg|].
    intros Eq Ne. destruct P as [(h & H1 & H2 & H3)|P].
    + destruct f as [s|s| |s m e]; simpl; auto.
      assert (C : canonical radix2 fexp64 (Float radix2 (cond_Zopp s (Z.pos m)) e)).
      { apply (canonical_bounded 53 1024). exact V. }
      assert (D : h = Float radix2 (cond_Zopp s (Z.pos m)) e).
      { apply (canonical_unique radix2 fexp64); auto. }
      subst h. cbn [Fnum] in H3. destruct s; simpl in H3; exact H3.
    + exfalso. apply Ne. apply P. split; auto. intros k Hk. rewrite Eq. apply N. exact Hk.
  - left. split; [|apply B; exact H]. apply Rnot_lt_le. intros G. apply H. apply in_range_iff; auto.
Qed.

(** ** The text *)

Definition dchar (c : N) : Prop := (48 <= c <= 57 \/ c = 43 \/ c = 45 \/ c = 46 \/ c = 69 \/ c = 101)%N.

Lemma digits_dchar : forall m, all_digits m -> Forall dchar m.
Proof. intros m H. eapply Forall_impl; [|exact H]. unfold dchar. intros; lia. Qed.

Lemma sign_dchar : forall sg neg, sign_text sg neg -> Forall dchar sg.
Proof. intros sg neg []; repeat constructor; unfold dchar; lia. Qed.

Lemma power_dchar : forall pw e, power_text pw e -> Forall dchar pw.
Proof.
  intros pw e []; [constructor|]. constructor; [unfold dchar; lia|].
  apply Forall_app. split; [eapply sign_dchar; eauto|apply digits_dchar; auto].
Qed.

Lemma digits_text_dchar : forall t ip fp, digits_text t ip fp -> Forall dchar t /\ t <> [].
Proof.
  intros t ip fp [ip' H N|ip' fp' H1 H2 N].
  - split; auto. apply digits_dchar; auto.
  - split; [|destruct ip'; discriminate]. apply Forall_app. split; [apply digits_dchar; auto|].
    constructor; [unfold dchar; lia|apply digits_dchar; auto].
Qed.

Lemma decimal_chars : forall t neg v, decimal t neg v -> Forall dchar t /\ t <> [].
Proof.
  intros t neg v [sg neg' t' ip fp pw e Hs Ht Hp]. destruct (digits_text_dchar _ _ _ Ht) as [D N]. split.
  - apply Forall_app. split; [eapply sign_dchar; eauto|]. apply Forall_app. split; auto. eapply power_dchar; eauto.
  - intros E. apply app_eq_nil in E. destruct E as [_ E]. apply app_eq_nil in E. tauto.
Qed.

Lemma strip_decimal : forall l m r, Forall space_like l -> Forall space_like r ->
  Forall dchar m -> m <> [] -> strip ws_bytes (l ++ m ++ r) = m.
Proof.
  assert (W : forall c, dchar c -> ws_bytes c = false).
  { intros c H. destruct (ws_bytes c) eqn:E; auto. exfalso. revert E H. unfold ws_bytes, dchar. lia. }
  intros l m r Hl Hr Hm Hne. apply strip_pad; auto.
  - eapply Forall_impl; [|exact Hl]. intros; apply ws_bytes_spec; auto.
  - eapply Forall_impl; [|exact Hr]. intros; apply ws_bytes_spec; auto.
  - intros c H. apply W. apply hd_In in H. exact (proj1 (Forall_forall _ _) Hm c H).
  - intros c H. apply W. apply hd_In in H. apply in_rev in H.
    exact (proj1 (Forall_forall _ _) Hm c H).
Qed.

Lemma take_sign_text : forall sg neg t, sign_text sg neg -> (forall c s, t = c :: s -> (46 <= c)%N) ->
  take_sign (sg ++ t) = (neg, t).
Proof.
  intros sg neg t [] H; try reflexivity. destruct t as [|c s]; [reflexivity|].
  specialize (H c s eq_refl). simpl. replace (N.eqb c 45) with false by lia. replace (N.eqb c 43) with false by lia. reflexivity.
Qed.

Lemma power_not_digit : forall pw e, power_text pw e -> forall a, all_digits a -> span is_digit (a ++ pw) = (a, pw).
Proof.
  intros pw e [] a Ha.
  - rewrite app_nil_r. apply span_digits_all; auto.
  - apply span_digits; auto. unfold is_digit. lia.
Qed.

Lemma take_exponent_text : forall pw e, power_text pw e -> take_exponent pw = Some e.
Proof.
  intros pw e []; [reflexivity|]. simpl. replace (N.eqb c 69 || N.eqb c 101)%bool with true by lia.
  erewrite take_sign_text; eauto.
  - destruct ds; [congruence|]. rewrite all_digits_forallb by auto. rewrite digits_val_eq. reflexivity.
  - intros x s ->. match goal with H : all_digits (_ :: _) |- _ => inversion H; subst end. lia.
Qed.

Lemma float_body_decimal : forall neg t ip fp pw e, digits_text t ip fp -> power_text pw e ->
  float_body neg (t ++ pw) = Ok (dec_round neg (dec_value (ip ++ fp)) (e - Z.of_nat (length fp))).
Proof.
  intros neg t ip fp pw e Ht Hp. unfold float_body.
  assert (Hd : exists c s, t ++ pw = c :: s /\ (46 <= c <= 57)%N).
  { destruct Ht as [ip' H N|ip' fp' H1 H2 N].
    - destruct ip' as [|x ip']; [congruence|]. inversion H; subst. exists x. eexists. split; [reflexivity|lia].
    - destruct ip' as [|x ip']; [exists 46%N; eexists; split; [reflexivity|lia]|].
      inversion H1; subst. exists x. eexists. split; [reflexivity|lia]. }
  assert (K : str_eqb (map lower (t ++ pw)) (lit "inf") = false /\
              str_eqb (map lower (t ++ pw)) (lit "infinity") = false /\
              str_eqb (map lower (t ++ pw)) (lit "nan") = false).
  { destruct Hd as (c & s & -> & Hc).
    repeat split; match goal with |- str_eqb ?a (lit ?t) = false => destruct (str_eqb a (lit t)) eqn:E; auto end;
      apply lower_first in E; auto; destruct E as (d & s' & E & ->); simpl in E; injection E as <-; lia. }
  destruct K as (-> & -> & ->). cbn [orb].
  destruct Ht as [ip' H N|ip' fp' H1 H2 N].
  - rewrite (power_not_digit _ _ Hp) by auto.
    assert (Q : match pw with [] => ([], []) | c :: r1 => if N.eqb c 46 then span is_digit r1 else ([], pw) end = ([], pw)).
    { destruct Hp; [reflexivity|]. replace (N.eqb c 46) with false by lia. reflexivity. }
    rewrite Q. rewrite app_nil_r. destruct ip' as [|x q]; [congruence|].
    rewrite (take_exponent_text _ _ Hp). rewrite digits_val_eq. reflexivity.
  - rewrite <- app_assoc. cbn [app]. rewrite span_digits by (auto; reflexivity).
    change (N.eqb 46 46) with true. cbv iota beta. rewrite (power_not_digit _ _ Hp) by auto.
    destruct (ip' ++ fp') as [|x q] eqn:E; [congruence|].
    rewrite (take_exponent_text _ _ Hp). rewrite digits_val_eq. reflexivity.
Qed.

Lemma dec_value_nonneg : forall ds, all_digits ds -> (0 <= dec_value ds)%Z.
Proof.
  assert (K : forall ds acc, all_digits ds -> (0 <= acc)%Z ->
    (0 <= fold_left (fun acc c => (acc * 10 + (Z.of_N c - 48))%Z) ds acc)%Z).
  { induction ds as [|c ds IH]; intros acc H Ha; simpl; auto. inversion H; subst. apply IH; auto. lia. }
  intros ds H. apply K; auto. lia.
Qed.

Lemma float_of_decimal : forall l t r neg x, Forall space_like l -> Forall space_like r -> decimal t neg x ->
  exists f, float_of_str (l ++ t ++ r) = Ok f /\ nearest neg x f.
Proof.
  intros l t r neg x Hl Hr Hd. destruct Hd as [sg neg t ip fp pw e Hs Ht Hp].
  eexists. split; [|apply rounded_nearest; [|apply dec_round_rounded]].
  - unfold float_of_str. destruct (digits_text_dchar _ _ _ Ht) as [Dt Nt].
    assert (D : Forall dchar (sg ++ t ++ pw)).
    { apply Forall_app. split; [eapply sign_dchar; eauto|]. apply Forall_app. split; auto. eapply power_dchar; eauto. }
    rewrite strip_decimal; auto.
    2:{ intros E. apply app_eq_nil in E. destruct E as [_ E]. apply app_eq_nil in E. tauto. }
    rewrite drop_underscores_id.
    2:{ eapply Forall_impl; [|exact D]. unfold dchar. intros; lia. }
    rewrite (take_sign_text sg neg); auto.
    + apply float_body_decimal; eauto.
    + intros c s E. destruct Ht as [ip' H N|ip' fp' H1 H2 N].
      * destruct ip' as [|y ip']; [congruence|]. inversion H; subst. injection E as -> _. lia.
      * destruct ip' as [|y ip']; [injection E as -> _; lia|].
        inversion H1; subst. injection E as -> _. lia.
  - apply Rmult_le_pos; [|apply Rlt_le, power_pos].
    apply IZR_le. apply dec_value_nonneg. destruct Ht; [rewrite app_nil_r; auto|apply Forall_app; auto].
  - apply dec_value_nonneg. destruct Ht; [rewrite app_nil_r; auto|apply Forall_app; auto].
Qed.

(** ** There is one nearest double *)

Lemma nearest_rounded : forall neg x f, 0 <= x -> nearest neg x f -> in_range x -> fval f = rnd (signed neg x).
Proof.
  intros neg x f Hx [S [[L _]|(L & Fd & N)]] H.
  - exfalso. apply in_range_iff in H; auto. lra.
  - fold (signed neg x) in N. cbv zeta in N. set (y := signed neg x) in *.
    pose proof exists_NE64 as NE.
    destruct (proj1 (finite_double_valid f) Fd) as [V F].
    assert (Ry : generic_format radix2 fexp64 (rnd y)) by (apply generic_format_round; auto with typeclass_instances).
    assert (G : exists g, finite_double g /\ fval g = rnd y).
    { set (m := Ztrunc (scaled_mantissa radix2 fexp64 (rnd y))). set (e := cexp radix2 fexp64 (rnd y)).
      generalize (binary_normalize_correct 53 1024 Hprec Hmax mode_NE m e false). cbv zeta.
      assert (Em : F2R (Float radix2 m e) = rnd y) by (symmetry; exact Ry).
      rewrite Em. change (round_mode mode_NE) with ZnearestE. rewrite (round_generic _ _ _ (rnd y)) by exact Ry.
      rewrite Rlt_bool_true by (apply in_range_signed; exact H). intros (A & B & _).
      exists (B2SF (binary_normalize 53 1024 Hprec Hmax mode_NE m e false)).
      split; [apply finite_double_valid; split; [apply valid_B2SF|rewrite finite_B2SF; exact B]|].
      rewrite fval_B2SF. exact A. }
    destruct G as (g & Gd & Gv). destruct (N g Gd) as [N1 N2]. rewrite !real_fval, Gv in N1, N2.
    destruct (round_NE_pt radix2 fexp64 y) as [[_ M] _].
    pose proof (M _ (fval_format f V)) as M1.
    assert (Eq : Rabs (rnd y - y) = Rabs (fval f - y)) by lra.
    destruct (Req_dec (rnd y) (fval f)) as [E|E]; [auto|]. specialize (N2 Eq E).
    apply (round_unique _ (Rnd_NE_pt_monotone radix2 fexp64) y); [|apply round_NE_pt; auto with typeclass_instances].
    split.
    + split; [apply fval_format; exact V|]. intros k Hk. rewrite <- Eq. apply M. exact Hk.
    + left. destruct f as [s|s| |s m e]; try (simpl in Fd; contradiction).
      * exists (Float radix2 0 (fexp64 (mag radix2 0))). split; [unfold fval; simpl; rewrite F2R_0; reflexivity|].
        split; [apply canonical_0|reflexivity].
      * exists (Float radix2 (cond_Zopp s (Z.pos m)) e). split; [reflexivity|].
        split; [apply (canonical_bounded 53 1024); exact V|].
        simpl in N2. destruct s; exact N2.
Qed.

Lemma nearest_unique : forall neg x f g, 0 <= x -> nearest neg x f -> nearest neg x g -> f = g.
Proof.
  intros neg x f g Hx Hf Hg. destruct (in_range_dec x) as [H|H].
  - pose proof (nearest_rounded _ _ _ Hx Hf H) as Ef. pose proof (nearest_rounded _ _ _ Hx Hg H) as Eg.
    apply in_range_iff in H; auto.
    destruct Hf as [Sf [[L _]|(_ & Fd & _)]]; [lra|]. destruct Hg as [Sg [[L _]|(_ & Gd & _)]]; [lra|].
    destruct (proj1 (finite_double_valid f) Fd) as [Vf Ff]. destruct (proj1 (finite_double_valid g) Gd) as [Vg Fg].
    destruct (Req_dec (fval f) 0) as [Z|Z].
    + assert (Zg : fval g = 0) by congruence.
      assert (K : forall h, finite_double h -> fval h = 0 -> h = S754_zero (negative h)).
      { intros [s|s| |s m e] D E; try (simpl in D; contradiction); [reflexivity|].
        exfalso. unfold fval, SF2R in E. apply eq_0_F2R in E. simpl in E. destruct s; discriminate. }
      rewrite (K f Fd Z), (K g Gd Zg). congruence.
    + apply fval_inj; auto. congruence.
  - rewrite in_range_iff in H by auto.
    destruct Hf as [_ [[_ ->]|(L & _)]]; [|lra]. destruct Hg as [_ [[_ ->]|(L & _)]]; [|lra]. reflexivity.
Qed.

Lemma decimal_nonneg : forall t neg x, decimal t neg x -> 0 <= x.
Proof.
  intros t neg x [sg neg' t' ip fp pw e Hs Ht Hp].
  apply Rmult_le_pos; [|apply Rlt_le, power_pos].
  apply IZR_le. apply dec_value_nonneg. destruct Ht; [rewrite app_nil_r; auto|apply Forall_app; auto].
Qed.
