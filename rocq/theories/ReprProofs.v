(** * Lemmas about the printed form of a pack *)

From Verif Require Import PyBase PyBaseFacts PyFloat NumPy Pack PackRepr SpecPack SpecRepr.
From Coq Require Import Sorting.Sorted Sorting.Permutation.

Lemma digits_number_val : forall s, digits_number s = digits_val 0 s.
Proof.
  intros s. unfold digits_number. generalize 0%Z as a. induction s as [|c s IH]; intros a; simpl; auto.
  rewrite IH, (Z.mul_comm a 10). reflexivity.
Qed.

Lemma dec_digits_lead : forall n z, (0 <= z < 2 ^ Z.of_nat n)%Z -> (0 < n)%nat ->
  hd 48%N (dec_digits n z) = 48%N -> dec_digits n z = [48%N] /\ z = 0%Z.
Proof.
  induction n as [|n IH]; intros z Hz Hn H; [lia|]. cbn [dec_digits] in *.
  destruct (z <? 10)%Z eqn:E.
  - cbn [hd] in H. assert (z = 0)%Z by lia. subst. auto.
  - exfalso. destruct n as [|n].
    + simpl in Hz. lia.
    + assert (B : (0 <= z / 10 < 2 ^ Z.of_nat (S n))%Z).
      { replace (Z.of_nat (S (S n))) with (Z.succ (Z.of_nat (S n))) in Hz by lia.
        rewrite Z.pow_succ_r in Hz by lia. split; [apply Z.div_pos; lia|].
        apply Z.div_lt_upper_bound; lia. }
      destruct (dec_digits_spec (S n) B) as (_ & _ & N). specialize (N ltac:(lia)).
      assert (X : hd 48%N (dec_digits (S n) (z / 10)) = 48%N).
      { destruct (dec_digits (S n) (z / 10)) as [|c l]; [congruence|exact H]. }
      apply IH in X; [|auto|lia]. destruct X as [_ X].
      assert (0 < z / 10)%Z by (apply Z.div_str_pos; lia). lia.
Qed.

Lemma str_of_Z_decimal : forall z, decimal z (str_of_Z z).
Proof.
  intros z. unfold decimal, str_of_Z.
  set (a := Z.abs z).
  assert (D : exists n, (0 <= a < 2 ^ Z.of_nat (S n))%Z /\
    (if (z <? 0)%Z then 45%N :: dec_digits (S (Z.to_nat (Z.log2 (- z)))) (- z)
     else dec_digits (S (Z.to_nat (Z.log2 z))) z) =
    (if (z <? 0)%Z then [45%N] else []) ++ dec_digits (S n) a).
  { exists (Z.to_nat (Z.log2 a)). split; [apply log2_bound; subst a; lia|].
    destruct (z <? 0)%Z eqn:E; subst a.
    - replace (Z.abs z) with (- z)%Z by lia. reflexivity.
    - replace (Z.abs z) with z by lia. reflexivity. }
  destruct D as (n & B & X). exists (dec_digits (S n) a).
  destruct (dec_digits_spec (S n) B) as (V & F & N). split; [|split; [|split; [|split]]].
  - eapply Forall_impl; [|exact F]. cbv beta. unfold is_digit. intros c H. lia.
  - apply N. lia.
  - intros H. apply dec_digits_lead in H; [apply H|auto|lia].
  - rewrite digits_number_val. exact V.
  - exact X.
Qed.

Lemma listing_join : forall {V} (rv : V -> str) sep l,
  listing rv sep l (str_join sep (map (fun kv => str_of_Z (fst kv) ++ lit ": " ++ rv (snd kv)) l)).
Proof.
  intros V rv sep l. induction l as [|[k v] l IH]; [constructor|].
  destruct l as [|kv l].
  - simpl. apply Listing_one, str_of_Z_decimal.
  - pose proof (Listing_cons rv sep k v _ kv l _ (str_of_Z_decimal k) IH) as X.
    eapply eq_rect; [exact X|]. cbn [map str_join fst snd]. rewrite <- !app_assoc. reflexivity.
Qed.

Lemma dget_key : forall {V} (d : dict V) k, In k (map fst d) -> exists v, dget k d = Some v.
Proof.
  intros V d k. induction d as [|[k' v'] d IH]; intros H; [destruct H|].
  cbn [dget]. destruct (Z.eqb k k') eqn:E; [eauto|]. cbn [map fst] in H.
  destruct H as [H|H]; [lia|auto].
Qed.

Definition items_sorted {V} (d : dict V) : list (Z * V) :=
  flat_map (fun k => match dget k d with Some v => [(k, v)] | None => [] end) (zsort (dkeys d)).

Lemma keyvalstr_items : forall {V} (rv : V -> str) sep (d : dict V),
  keyvalstr rv sep d = str_join sep (map (fun kv => str_of_Z (fst kv) ++ lit ": " ++ rv (snd kv)) (items_sorted d)).
Proof.
  intros V rv sep d. unfold keyvalstr, items_sorted. f_equal.
  assert (A : forall k, In k (zsort (dkeys d)) -> exists v, dget k d = Some v).
  { intros k H. rewrite zsort_In in H. apply dget_key. exact H. }
  induction (zsort (dkeys d)) as [|k l IH]; [reflexivity|].
  destruct (A k (or_introl eq_refl)) as [v Hv]. simpl. rewrite Hv. simpl. f_equal.
  apply IH. intros. apply A. right. auto.
Qed.

Lemma items_sorted_keys : forall {V} (d : dict V), map fst (items_sorted d) = zsort (dkeys d).
Proof.
  intros V d. unfold items_sorted.
  assert (A : forall k, In k (zsort (dkeys d)) -> exists v, dget k d = Some v).
  { intros k H. rewrite zsort_In in H. apply dget_key. exact H. }
  induction (zsort (dkeys d)) as [|k l IH]; [reflexivity|].
  destruct (A k (or_introl eq_refl)) as [v Hv]. simpl. rewrite Hv. simpl. f_equal.
  apply IH. intros. apply A. right. auto.
Qed.

Lemma dget_In_ok : forall {V} (d : dict V) k v, dict_ok d -> (dget k d = Some v <-> In (k, v) d).
Proof.
  intros V d k v D. induction d as [|[k' v'] d IH]; simpl; [split; [discriminate|easy]|].
  unfold dict_ok in D. simpl in D. inversion D as [|? ? N D']; subst. destruct (Z.eqb k k') eqn:E.
  - apply Z.eqb_eq in E. subst k'. split; [intros H; injection H as ->; auto|].
    intros [H|H]; [congruence|]. exfalso. apply N. change k with (fst (k, v)). apply in_map. auto.
  - rewrite (IH D'). split; [auto|]. intros [H|H]; auto. exfalso. injection H as -> ->. lia.
Qed.

Lemma Sorted_lt : forall l, Sorted Z.le l -> NoDup l -> StronglySorted Z.lt l.
Proof.
  intros l S N. apply Sorted_StronglySorted in S; [|intros x y z; lia].
  induction S as [|a l S IH F]; [constructor|]. inversion N; subst. constructor; auto.
  apply Forall_forall. intros x X. rewrite Forall_forall in F. specialize (F x X).
  assert (a <> x) by (intros ->; auto). lia.
Qed.

Lemma items_sorted_ascending : forall {V} (d : dict V), dict_ok d -> ascending (items_sorted d) d.
Proof.
  intros V d D. split.
  - apply NoDup_Permutation.
    + apply (NoDup_map_inv fst). rewrite items_sorted_keys. apply zsort_NoDup. exact D.
    + apply (NoDup_map_inv fst). exact D.
    + intros [k v]. unfold items_sorted. rewrite in_flat_map. split.
      * intros (x & _ & H). destruct (dget x d) eqn:E; [|easy].
        destruct H as [H|[]]. injection H as -> ->. apply dget_In_ok; auto.
      * intros H. exists k. split.
        { apply zsort_In. change k with (fst (k, v)). apply in_map. exact H. }
        apply dget_In_ok in H; auto. rewrite H. left. reflexivity.
  - assert (S : StronglySorted Z.lt (map fst (items_sorted d))).
    { rewrite items_sorted_keys. apply Sorted_lt; [apply zsort_sorted|]. apply zsort_NoDup. exact D. }
    induction (items_sorted d) as [|kv l IH]; [constructor|].
    simpl in S. inversion S as [|? ? S' F]; subst. constructor; auto.
    apply Forall_forall. intros x X. rewrite Forall_forall in F. apply F, in_map, X.
Qed.

Lemma ascending_unique : forall {V} (a b m n : list (Z * V)),
  ascending a m -> ascending b n -> Permutation m n -> a = b.
Proof.
  intros V a b m n [PA SA] [PB SB] P.
  assert (Q : Permutation a b).
  { eapply perm_trans; [exact PA|]. eapply perm_trans; [exact P|]. apply Permutation_sym. exact PB. }
  clear PA PB P m n. revert b SB Q. induction SA as [|x a SA IH F]; intros b SB Q.
  - apply Permutation_nil in Q. auto.
  - destruct SB as [|y b SB G]; [apply Permutation_sym, Permutation_nil in Q; discriminate|].
    assert (x = y).
    { assert (I : In x (y :: b)) by (eapply Permutation_in; [exact Q|left; auto]).
      assert (J : In y (x :: a)) by (eapply Permutation_in; [apply Permutation_sym; exact Q|left; auto]).
      destruct I as [I|I]; [auto|]. destruct J as [J|J]; [auto|]. exfalso.
      rewrite Forall_forall in F, G. specialize (F y J). specialize (G x I). cbv beta in F, G. lia. }
    subst y. f_equal. apply IH; auto. eapply Permutation_cons_inv. exact Q.
Qed.
