(** * Calendar arithmetic: lemmas *)

From Coq Require Import ZifyBool ZifyNat ZifyN.
From Verif Require Import PyBase PyBaseFacts PyFloat NumPy XlDate SpecXlDate.
Open Scope Z_scope.
Ltac Zify.zify_post_hook ::= Z.div_mod_to_equations.

(** ** Calendar *)

Lemma leap_year_days y :
  (if leap_year y then 1 else 0) = (y / 4 - y / 100 + y / 400) - ((y - 1) / 4 - (y - 1) / 100 + (y - 1) / 400).
Proof.
  unfold leap_year.
  destruct (y mod 4 =? 0) eqn:A; destruct (y mod 100 =? 0) eqn:B; destruct (y mod 400 =? 0) eqn:C;
    simpl; lia.
Qed.

Lemma month_cases m : 1 <= m <= 12 ->
  m = 1 \/ m = 2 \/ m = 3 \/ m = 4 \/ m = 5 \/ m = 6 \/ m = 7 \/ m = 8 \/ m = 9 \/ m = 10 \/ m = 11 \/ m = 12.
Proof. lia. Qed.

Ltac each_month H := destruct (month_cases _ H) as [->|[->|[->|[->|[->|[->|[->|[->|[->|[->|[->| ->]]]]]]]]]]].

Lemma days_before_month_val y m : 1 <= m <= 12 ->
  days_before_month y m =
  nth (Z.to_nat m) [0; 0; 31; 59; 90; 120; 151; 181; 212; 243; 273; 304; 334] 0
  + (if (2 <? m) && leap_year y then 1 else 0).
Proof.
  intro H. unfold days_before_month, month_length. generalize (leap_year y). intro b.
  each_month H; destruct b; reflexivity.
Qed.

Lemma ordinal_val y m d : 1 <= m <= 12 ->
  ordinal y m d = 365 * (y - 1) + (y - 1) / 4 - (y - 1) / 100 + (y - 1) / 400 +
  (nth (Z.to_nat m) [0; 0; 31; 59; 90; 120; 151; 181; 212; 243; 273; 304; 334] 0
  + (if (2 <? m) && leap_year y then 1 else 0)) + d.
Proof. intro H. unfold ordinal. rewrite days_before_month_val by exact H. reflexivity. Qed.

(** Years counted from March: no leap day before the end of the year. *)
Lemma jdn_ordinal y m d : 1 <= m <= 12 -> date_to_jdn y m d = ordinal y m d + 1721425.
Proof.
  intro H. rewrite ordinal_val by exact H. unfold date_to_jdn.
  pose proof (leap_year_days y) as L.
  assert (C : (y + 4716 + 184) / 100 * 3 / 4 = y / 100 - y / 400 + 36) by lia.
  assert (C' : (y + 4716 - 1 + 184) / 100 * 3 / 4 = (y - 1) / 100 - (y - 1) / 400 + 36) by lia.
  assert (A : 1461 * (y + 4716) / 4 = 365 * y + y / 4 + 1722519) by lia.
  assert (A' : 1461 * (y + 4716 - 1) / 4 = 365 * (y - 1) + (y - 1) / 4 + 1722519) by lia.
  each_month H; 
   match goal with |- context [?a <=? 2] => let b := eval vm_compute in (a <=? 2) in change (a <=? 2) with b end;
   match goal with |- context [2 <? ?a] => let b := eval vm_compute in (2 <? a) in change (2 <? a) with b end;
   match goal with |- context [nth ?a ?l 0] => let b := eval vm_compute in (nth a l 0) in change (nth a l 0) with b end;
   cbv beta iota zeta; cbn [andb]; rewrite ?C, ?C', ?A, ?A'; destruct (leap_year y); lia.
Qed.

Lemma leap_year_400 y k : leap_year (y + 400 * k) = leap_year y.
Proof.
  unfold leap_year.
  replace ((y + 400 * k) mod 4) with (y mod 4) by lia.
  replace ((y + 400 * k) mod 100) with (y mod 100) by lia.
  replace ((y + 400 * k) mod 400) with (y mod 400) by lia. reflexivity.
Qed.

Lemma month_length_400 y k m : month_length (y + 400 * k) m = month_length y m.
Proof. unfold month_length. rewrite leap_year_400. reflexivity. Qed.

Lemma ordinal_400 y k m d : ordinal (y + 400 * k) m d = ordinal y m d + 146097 * k.
Proof.
  unfold ordinal, days_before_month.
  rewrite (map_ext (fun i => month_length (y + 400 * k) (Z.of_nat i)) (fun i => month_length y (Z.of_nat i))).
  2:{ intro i. apply month_length_400. }
  generalize (fold_right Z.add 0 (map (fun i => month_length y (Z.of_nat i)) (seq 1 (Z.to_nat (m - 1))))).
  intro q. lia.
Qed.

Lemma jdn_to_date_400 j k :
  jdn_to_date (j + 146097 * k) = (fst (fst (jdn_to_date j)) + 400 * k, snd (fst (jdn_to_date j)), snd (jdn_to_date j)).
Proof.
  unfold jdn_to_date.
  set (yreg := ((j * 4 + 274277) / 146097 * 3 / 4 + j + 1363) * 4 + 3).
  replace ((((j + 146097 * k) * 4 + 274277) / 146097 * 3 / 4 + (j + 146097 * k) + 1363) * 4 + 3)
    with (yreg + 1461 * (400 * k)) by (unfold yreg; lia).
  replace ((yreg + 1461 * (400 * k)) mod 1461) with (yreg mod 1461) by lia.
  replace ((yreg + 1461 * (400 * k)) / 1461) with (yreg / 1461 + 400 * k) by lia.
  destruct (Z.shiftr (yreg mod 1461 / 4 * 535 + 333) 14 >=? 10); cbn [fst snd]; (apply (f_equal2 pair); [apply (f_equal2 pair); [ring|reflexivity]|reflexivity]).
Qed.

Definition jdn_ok (j : Z) : bool :=
  let '(y, m, d) := jdn_to_date j in
  (1 <=? m) && (m <=? 12) && (1 <=? d) && (d <=? month_length y m) && (ordinal y m d =? j - 1721425).

(** [f] holds on the integers from [z] to [z + p - 1]. *)
Fixpoint all_from (f : Z -> bool) (p : positive) (z : Z) : bool :=
  match p with
  | xH => f z
  | xO q => all_from f q z && all_from f q (z + Zpos q)
  | xI q => f z && all_from f q (z + 1) && all_from f q (z + 1 + Zpos q)
  end.

Lemma all_from_spec f p : forall z, all_from f p z = true -> forall i, z <= i < z + Zpos p -> f i = true.
Proof.
  induction p as [q IH|q IH|]; intros z H i R; simpl in H.
  - apply andb_prop in H. destruct H as [H H3]. apply andb_prop in H. destruct H as [H1 H2].
    destruct (Z.eq_dec i z) as [->|N]; [exact H1|].
    destruct (Z_lt_le_dec i (z + 1 + Zpos q)) as [L|L].
    + apply (IH _ H2). lia.
    + apply (IH _ H3). lia.
  - apply andb_prop in H. destruct H as [H1 H2].
    destruct (Z_lt_le_dec i (z + Zpos q)) as [L|L].
    + apply (IH _ H1). lia.
    + apply (IH _ H2). lia.
  - replace i with z by lia. exact H.
Qed.

(** One whole cycle of 400 years. *)
Lemma one_cycle : all_from jdn_ok 146097 2415021 = true.
Proof. vm_compute. reflexivity. Qed.

Lemma jdn_to_date_spec j :
  is_date (fst (fst (jdn_to_date j))) (snd (fst (jdn_to_date j))) (snd (jdn_to_date j)) /\
  ordinal (fst (fst (jdn_to_date j))) (snd (fst (jdn_to_date j))) (snd (jdn_to_date j)) = j - 1721425.
Proof.
  pose (k := (j - 2415021) / 146097). pose (j0 := j - 146097 * k).
  assert (R : 2415021 <= j0 < 2415021 + 146097) by (unfold j0, k; lia).
  pose proof (all_from_spec _ _ _ one_cycle j0 R) as H.
  replace j with (j0 + 146097 * k) by (unfold j0; lia).
  rewrite jdn_to_date_400. unfold jdn_ok in H.
  destruct (jdn_to_date j0) as [[y m] d]. cbn [fst snd].
  apply andb_prop in H. destruct H as [H E]. apply andb_prop in H. destruct H as [H D2].
  apply andb_prop in H. destruct H as [H D1]. apply andb_prop in H. destruct H as [M1 M2].
  unfold is_date. rewrite month_length_400, ordinal_400.
  apply Z.eqb_eq in E. apply Z.leb_le in D1, D2, M1, M2. rewrite E. repeat split; try assumption. clear. lia.
Qed.

(** ** The ordinal is injective and ordered on dates *)

Definition year_base (y : Z) : Z := 365 * (y - 1) + (y - 1) / 4 - (y - 1) / 100 + (y - 1) / 400.

Lemma year_base_step y : year_base (y + 1) = year_base y + 365 + (if leap_year y then 1 else 0).
Proof.
  rewrite leap_year_days. unfold year_base. replace (y + 1 - 1) with y by ring. lia.
Qed.

Lemma year_base_mono a b : a <= b -> year_base a <= year_base b.
Proof. unfold year_base. lia. Qed.

Lemma month_room y a b : 1 <= a < b -> b <= 12 ->
  days_before_month y a + month_length y a <= days_before_month y b.
Proof.
  intros A B. rewrite !days_before_month_val by lia. unfold month_length. generalize (leap_year y). intro q.
  assert (HA : 1 <= a <= 12) by lia. assert (HB : 1 <= b <= 12) by lia. revert A.
  each_month HA; each_month HB; intro A; try lia; destruct q; vm_compute; discriminate.
Qed.

Lemma month_fits y m : 1 <= m <= 12 ->
  0 <= days_before_month y m /\
  days_before_month y m + month_length y m <= 365 + (if leap_year y then 1 else 0).
Proof.
  intro H. rewrite !days_before_month_val by lia. unfold month_length. generalize (leap_year y). intro q.
  each_month H; destruct q; vm_compute; split; discriminate.
Qed.

Lemma ordinal_base y m d : ordinal y m d = year_base y + days_before_month y m + d.
Proof. reflexivity. Qed.

(** Later in the calendar is later in the count. *)
Lemma ordinal_lt y1 m1 d1 y2 m2 d2 : is_date y1 m1 d1 -> is_date y2 m2 d2 ->
  y1 < y2 \/ y1 = y2 /\ (m1 < m2 \/ m1 = m2 /\ d1 < d2) ->
  ordinal y1 m1 d1 < ordinal y2 m2 d2.
Proof.
  intros [M1 D1] [M2 D2] [Y|[<- [M|[<- D]]]]; rewrite !ordinal_base.
  - pose proof (month_fits y1 m1 M1) as F1. pose proof (month_fits y2 m2 M2) as F2.
    pose proof (year_base_step y1) as S. pose proof (year_base_mono (y1 + 1) y2 ltac:(lia)) as B.
    destruct (leap_year y1); lia.
  - pose proof (month_room y1 m1 m2 ltac:(lia) ltac:(lia)) as R. lia.
  - lia.
Qed.

Lemma ordinal_lex y1 m1 d1 y2 m2 d2 : is_date y1 m1 d1 -> is_date y2 m2 d2 ->
  ordinal y1 m1 d1 < ordinal y2 m2 d2 ->
  y1 < y2 \/ y1 = y2 /\ (m1 < m2 \/ m1 = m2 /\ d1 < d2).
Proof.
  intros H1 H2 L.
  assert (T : (y1 < y2 \/ y1 = y2 /\ (m1 < m2 \/ m1 = m2 /\ d1 < d2)) \/
              (y2 < y1 \/ y2 = y1 /\ (m2 < m1 \/ m2 = m1 /\ d2 < d1)) \/
              (y1 = y2 /\ m1 = m2 /\ d1 = d2)) by lia.
  destruct T as [T|[T|(-> & -> & ->)]]; [exact T| |lia].
  pose proof (ordinal_lt _ _ _ _ _ _ H2 H1 T). lia.
Qed.

Lemma ordinal_inj y1 m1 d1 y2 m2 d2 : is_date y1 m1 d1 -> is_date y2 m2 d2 ->
  ordinal y1 m1 d1 = ordinal y2 m2 d2 -> (y1, m1, d1) = (y2, m2, d2).
Proof.
  intros H1 H2 E.
  assert (T : (y1 < y2 \/ y1 = y2 /\ (m1 < m2 \/ m1 = m2 /\ d1 < d2)) \/
              (y2 < y1 \/ y2 = y1 /\ (m2 < m1 \/ m2 = m1 /\ d2 < d1)) \/
              (y1 = y2 /\ m1 = m2 /\ d1 = d2)) by lia.
  destruct T as [T|[T|(-> & -> & ->)]]; [| |reflexivity].
  - pose proof (ordinal_lt _ _ _ _ _ _ H1 H2 T). lia.
  - pose proof (ordinal_lt _ _ _ _ _ _ H2 H1 T). lia.
Qed.

Lemma jdn_to_date_ordinal y m d : is_date y m d -> jdn_to_date (ordinal y m d + 1721425) = (y, m, d).
Proof.
  intro H. destruct (jdn_to_date_spec (ordinal y m d + 1721425)) as [A B].
  destruct (jdn_to_date (ordinal y m d + 1721425)) as [[y' m'] d']. cbn [fst snd] in A, B.
  apply ordinal_inj; [exact A|exact H|]. lia.
Qed.

Lemma month_step y m : 1 <= m < 12 -> days_before_month y (m + 1) = days_before_month y m + month_length y m.
Proof.
  intro H. rewrite !days_before_month_val by lia. unfold month_length. generalize (leap_year y). intro q.
  assert (M : 1 <= m <= 12) by lia. revert H. each_month M; intro H; try lia; destruct q; reflexivity.
Qed.

Lemma next_day_spec y m d : is_date y m d ->
  let '(y', m', d') := next_day y m d in is_date y' m' d' /\ ordinal y' m' d' = ordinal y m d + 1.
Proof.
  intros [M D]. unfold next_day.
  assert (P : forall a b, 28 <= month_length a b).
  { intros a b. unfold month_length. destruct (b =? 2), (leap_year a); try lia;
      destruct ((b =? 4) || (b =? 6) || (b =? 9) || (b =? 11)); lia. }
  destruct (d <? month_length y m) eqn:E1; [|destruct (m <? 12) eqn:E2].
  - split; [split; lia|]. rewrite !ordinal_base. lia.
  - pose proof (P y (m + 1)). split; [split; lia|]. rewrite !ordinal_base.
    assert (d = month_length y m) as -> by lia.
    rewrite month_step by lia. ring.
  - pose proof (P (y + 1) 1). split; [split; lia|]. rewrite !ordinal_base.
    assert (d = month_length y m) as -> by lia. assert (m = 12) as -> by lia.
    rewrite year_base_step. rewrite !days_before_month_val by lia. 
    change (month_length y 12) with 31. cbn [Z.ltb Z.compare Pos.compare Pos.compare_cont andb].
    change (nth (Z.to_nat 1) [0; 0; 31; 59; 90; 120; 151; 181; 212; 243; 273; 304; 334] 0) with 0.
    change (nth (Z.to_nat 12) [0; 0; 31; 59; 90; 120; 151; 181; 212; 243; 273; 304; 334] 0) with 334.
    destruct (leap_year y); lia.
Qed.

Lemma leap_is_leap_year y : leap y = leap_year y.
Proof. unfold leap, leap_year. destruct (y mod 4 =? 0), (y mod 100 =? 0), (y mod 400 =? 0); reflexivity. Qed.

Lemma bad_day y m d : 1 <= m <= 12 ->
  (d <? 1) || ((days_in_month m <? d) && negb ((d =? 29) && (m =? 2) && leap y)) = false <-> is_date y m d.
Proof.
  intro M. rewrite leap_is_leap_year. unfold is_date, month_length, days_in_month.
  assert (T : forall a b c, (d <? 1) || ((a <? d) && negb ((d =? 29) && b && c)) = false <->
    1 <= d /\ (d <= a \/ d = 29 /\ b = true /\ c = true)) by (intros a b c; destruct b, c; lia).
  rewrite T. generalize (leap_year y). intro q.
  each_month M; destruct q; 
    match goal with |- context [nth ?a ?l 0] => let b := eval vm_compute in (nth a l 0) in change (nth a l 0) with b end;
    cbn [Z.eqb Pos.eqb orb]; lia.
Qed.
