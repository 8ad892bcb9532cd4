(** * Numbers in text and dBASE files: proofs of the property theorems *)

From Coq Require Import ZifyBool ZifyNat ZifyN QArith.
From Verif Require Import PyBase PyBaseFacts PyFloat PyText NumPy SpecArray ArrayFacts Pack PackProofs Dbf SpecPack SpecDbf DbfProofs DbfExamples DbfThms ReadText SpecChars CharFacts SpecText TextProofs ReadTextThms SpecNumber NumberProofs.
Open Scope nat_scope.
From Coq Require Import Reals Lra.
Open Scope nat_scope.

Lemma C60_one_nearest_proof :
forall t neg x, decimal t neg x -> exists f, nearest neg x f /\ forall g, nearest neg x g -> g = f.
Proof.
intros t neg x H. destruct (float_of_decimal [] t [] neg x (Forall_nil _) (Forall_nil _) H) as (f & _ & N).
exists f. split; [exact N|]. intros g G. apply (nearest_unique neg x); auto. apply (decimal_nonneg _ _ _ H).
Qed.

(** A text with a comma is no number. *)
Lemma lstrip_keeps : forall p (c : N) s, p c = false -> In c s -> In c (lstrip p s).
Proof.
  intros p c s P. induction s as [|d s IH]; simpl; auto. intros [->|H].
  - rewrite P. left; auto.
  - destruct (p d); auto. right; auto.
Qed.

Lemma strip_keeps : forall p (c : N) s, p c = false -> In c s -> In c (strip p s).
Proof.
  intros p c s P H. unfold strip, rstrip. apply in_rev. rewrite rev_involutive.
  apply lstrip_keeps; auto. apply in_rev. rewrite rev_involutive. apply lstrip_keeps; auto.
Qed.

Lemma drop_underscores_keeps : forall s b t c, c <> 95%N -> drop_underscores b s = Some t -> In c s -> In c t.
Proof.
  induction s as [|d s IH]; intros b t c N H I; [destruct I|]. simpl in H.
  destruct (N.eqb d 95) eqn:E.
  - apply N.eqb_eq in E. destruct I as [->|I]; [congruence|].
    destruct s as [|y s']; [discriminate|]. destruct (b && is_digit y)%bool; [|discriminate].
    eapply IH; eauto.
  - destruct (drop_underscores (is_digit d) s) as [u|] eqn:U; [|discriminate]. injection H as <-.
    destruct I as [->|I]; [left; auto|right; eapply IH; eauto].
Qed.

Lemma span_split : forall p (s a b : str), span p s = (a, b) -> s = a ++ b /\ Forall (fun c => p c = true) a.
Proof.
  intros p s. induction s as [|c s IH]; intros a b H; simpl in H.
  - injection H as <- <-. auto.
  - destruct (p c) eqn:P.
    + destruct (span p s) as [a' b'] eqn:Q. injection H as <- <-. destruct (IH _ _ eq_refl) as [-> F].
      split; auto.
    + injection H as <- <-. auto.
Qed.

Lemma not_in_digits : forall c a, Forall (fun c => is_digit c = true) a -> is_digit c = false -> ~ In c a.
Proof. intros c a F D I. rewrite Forall_forall in F. apply F in I. congruence. Qed.

Lemma take_exponent_comma : forall s e, take_exponent s = Some e -> ~ In 44%N s.
Proof.
  intros [|c s] e H I; [destruct I|]. simpl in H.
  destruct (N.eqb c 69 || N.eqb c 101)%bool eqn:E; [|discriminate].
  destruct I as [->|I]; [discriminate|].
  destruct (take_sign s) as [neg d] eqn:T.
  assert (J : In 44%N d).
  { unfold take_sign in T. destruct s as [|y s']; [destruct I|].
    destruct (N.eqb y 45) eqn:A; [injection T as _ <-; apply N.eqb_eq in A; destruct I as [->|I]; [discriminate|auto]|].
    destruct (N.eqb y 43) eqn:B; injection T as _ <-; auto.
    apply N.eqb_eq in B. destruct I as [->|I]; [discriminate|auto]. }
  destruct d as [|y d]; [discriminate|]. destruct (forallb is_digit (y :: d)) eqn:F; [|discriminate].
  rewrite forallb_forall in F. apply F in J. discriminate.
Qed.

Lemma float_body_comma : forall neg s f, float_body neg s = Ok f -> ~ In 44%N s.
Proof.
  intros neg s f H I. unfold float_body in H.
  assert (L : forall w, ~ In 44%N (lit w) -> str_eqb (map lower s) (lit w) = true -> False).
  { intros w N E. apply N. apply str_eqb_eq in E. rewrite <- E. apply in_map_iff. exists 44%N. auto. }
  assert (L1 : str_eqb (map lower s) (lit "inf") = false).
  { destruct (str_eqb (map lower s) (lit "inf")) eqn:E; auto. exfalso. eapply L; [|exact E]. simpl. lia. }
  assert (L2 : str_eqb (map lower s) (lit "infinity") = false).
  { destruct (str_eqb (map lower s) (lit "infinity")) eqn:E; auto. exfalso. eapply L; [|exact E]. simpl. lia. }
  assert (L3 : str_eqb (map lower s) (lit "nan") = false).
  { destruct (str_eqb (map lower s) (lit "nan")) eqn:E; auto. exfalso. eapply L; [|exact E]. simpl. lia. }
  rewrite L1, L2, L3 in H. cbn [orb] in H.
  destruct (span is_digit s) as [ip r] eqn:E1. apply span_split in E1. destruct E1 as [-> F1].
  apply in_app_or in I. destruct I as [I|I]; [exact (not_in_digits 44 _ F1 eq_refl I)|].
  destruct (match r with [] => ([], []) | c :: r1 => if N.eqb c 46 then span is_digit r1 else ([], r) end) as [fp r'] eqn:E2.
  assert (J : In 44%N r').
  { destruct r as [|c r1]; [destruct I|]. destruct (N.eqb c 46) eqn:P.
    - apply N.eqb_eq in P. destruct I as [->|I]; [discriminate|]. apply span_split in E2. destruct E2 as [-> F2].
      apply in_app_or in I. destruct I as [I|I]; auto. exfalso. exact (not_in_digits 44 _ F2 eq_refl I).
    - injection E2 as _ <-. exact I. }
  destruct (ip ++ fp); [discriminate|]. destruct (take_exponent r') as [e|] eqn:E; [|discriminate].
  exact (take_exponent_comma _ _ E J).
Qed.

Lemma float_of_str_comma : forall s f, float_of_str s = Ok f -> ~ In 44%N s.
Proof.
  intros s f H I. unfold float_of_str in H.
  assert (I1 : In 44%N (strip ws_bytes s)) by (apply strip_keeps; auto).
  destruct (drop_underscores false (strip ws_bytes s)) as [t|] eqn:E; [|discriminate].
  assert (I2 : In 44%N t) by (eapply drop_underscores_keeps; eauto; discriminate).
  destruct (take_sign t) as [neg b] eqn:T.
  apply float_body_comma in H. apply H. unfold take_sign in T. destruct t as [|y t']; [destruct I2|].
  destruct (N.eqb y 45) eqn:A; [injection T as _ <-; apply N.eqb_eq in A; destruct I2 as [->|I2]; [discriminate|auto]|].
  destruct (N.eqb y 43) eqn:B; injection T as _ <-; auto.
  apply N.eqb_eq in B. destruct I2 as [->|I2]; [discriminate|auto].
Qed.

Lemma text_comma : forall s f, float_of_text s = Ok f -> ~ In 44%N s.
Proof.
  intros s f H I. apply (float_of_str_comma _ _ H). rewrite to_ascii_map. apply in_map_iff. exists 44%N. auto.
Qed.

Lemma decimal_float : forall t neg v, decimal t neg v -> exists f, float_of_text t = Ok f /\ nearest neg v f.
Proof.
  intros t neg v H. destruct (float_of_decimal [] t [] neg v (Forall_nil _) (Forall_nil _) H) as (f & E & N).
  cbn [app] in E. rewrite app_nil_r in E. exists f. split; [|exact N]. rewrite float_of_text_low; [exact E|].
  eapply Forall_impl; [|exact (proj1 (decimal_chars _ _ _ H))]. unfold dchar. intros; lia.
Qed.

Definition commas (comma : bool) (t : str) : str :=
  map (fun c => if comma then if N.eq_dec c 46 then 44%N else c else c) t.

Lemma dots_commas : forall comma t, Forall dchar t -> dots (commas comma t) = t.
Proof.
  intros comma t H. unfold dots, commas. rewrite map_map. induction H as [|c t D H IH]; [reflexivity|].
  cbn [map]. f_equal; [|exact IH]. unfold dchar in D. destruct comma.
  - destruct (N.eq_dec c 46) as [->|E]; [reflexivity|]. destruct (N.eq_dec c 44); [lia|reflexivity].
  - destruct (N.eq_dec c 44); [lia|reflexivity].
Qed.

Lemma commas_chars : forall comma t c, Forall dchar t -> In c (commas comma t) ->
  (comma = true /\ c = 44%N) \/ (dchar c /\ (comma = true -> c <> 46%N)).
Proof.
  intros comma t c H I. unfold commas in I. apply in_map_iff in I. destruct I as (d & E & I).
  rewrite Forall_forall in H. apply H in I. destruct comma; [|subst; right; split; [exact I|discriminate]].
  destruct (N.eq_dec d 46); [left; auto|]. subst. right; split; [exact I|intros _; exact n].
Qed.

Lemma dots_no_comma : forall s, ~ In 44%N s -> dots s = s.
Proof.
  induction s as [|c s IH]; intros N; [reflexivity|]. unfold dots in *. cbn [map].
  destruct (N.eq_dec c 44) as [->|E]; [exfalso; apply N; left; auto|]. f_equal. apply IH. intros I. apply N. right; auto.
Qed.

Lemma commas_false : forall t, commas false t = t.
Proof. intros t. unfold commas. apply map_id. Qed.

Lemma commas_none : forall t, ~ In 46%N t -> commas true t = t.
Proof.
  induction t as [|c t IH]; intros N; [reflexivity|]. unfold commas in *. cbn [map].
  destruct (N.eq_dec c 46) as [->|E]; [exfalso; apply N; left; auto|]. f_equal. apply IH. intros I. apply N. right; auto.
Qed.

Lemma decimal_number : forall comma t neg v, decimal t neg v -> number Text (commas comma t).
Proof.
  intros comma t neg v D. destruct (decimal_float _ _ _ D) as (f & E & _).
  destruct (decimal_chars _ _ _ D) as [C _].
  destruct (in_dec N.eq_dec 44%N (commas comma t)) as [I|I].
  - right. apply comma_iff. split; [intros (g & G); exact (text_comma _ _ G I)|].
    exists f. cbn [float_of]. rewrite dots_commas by exact C. exact E.
  - left. apply plain_iff. exists f. cbn [float_of]. rewrite <- (dots_no_comma _ I), dots_commas by exact C. exact E.
Qed.

Lemma promote_floats : forall l, Forall (fun v => exists f, v = VFloat f) l ->
  np_array l = mkarr Kf l.
Proof.
  intros [|v l] H; [reflexivity|]. inversion H as [|? ? [f ->] H']; subst. unfold np_array.
  assert (K : fold_left (fun k w => promote k (kind_of_val w)) l Kf = Kf).
  { clear H. induction H' as [|w l [g ->] H' IH]; [reflexivity|]. exact IH. }
  cbn [kind_of_val]. rewrite K. f_equal. rewrite <- (map_id (VFloat f :: l)) at 2. apply map_ext_in.
  intros w I. rewrite Forall_forall in H. apply H in I. destruct I as [g ->]. reflexivity.
Qed.

Lemma nth_error_nth_map {A B} (f : A -> B) (l : list A) i : nth_error (map f l) i = option_map f (nth_error l i).
Proof. revert i. induction l as [|x l IH]; intros [|i]; simpl; auto. Qed.

Lemma C60_text_decimals_proof :
forall (x : N) (comma : bool) (row0 : list str) (rows : list (list str)) (name : str),
  let a := mktargs [] (Some [x]) 0 ColsNone false None [] false false in
  let write := map (map (fun c => if comma then if N.eq_dec c 46 then 44%N else c else c)) in
  ~ white x -> ~ In x (lit "0123456789+-eE") -> x <> (if comma then 44%N else 46%N) ->
  Forall (fun r => length r = length row0) rows -> 1 <= length row0 ->
  Forall (Forall (fun t => exists neg v, decimal t neg v)) (row0 :: rows) ->
  (comma = true -> exists t, In t row0 /\ In 46%N t) ->
  exists p,
    textpack (mksource false (concat (map (fun r => join [x] r ++ [10%N]) (map write (row0 :: rows)))) 0 name) a = Ok p /\
    map fst (p_data p) = map Z.of_nat (seq 0 (length row0)) /\
    forall c r row t neg v, nth_error (row0 :: rows) r = Some row -> nth_error row c = Some t -> decimal t neg v ->
      exists ch f, dget (Z.of_nat c) (p_data p) = Some ch /\ akind ch = Kf /\ length (aelems ch) = S (length rows) /\
                   nth_error (aelems ch) r = Some (VFloat f) /\ nearest neg v f.
Proof.
intros x comma row0 rows name a write X Xc Xp R L D C.
change write with (map (commas comma)) in *. clear write.
set (write := map (commas comma)).
set (g := fun (c : nat) (s : str) => VFloat (match float_of_text (dots s) with Ok f => f | Err _ => fnan end)).
assert (Dr : forall row t, In row (row0 :: rows) -> In t row -> exists neg v, decimal t neg v).
{ intros row t I J. rewrite Forall_forall in D. apply D in I. rewrite Forall_forall in I. apply I, J. }
assert (Wl : forall row, length (write row) = length row) by (intros; apply map_length).
destruct (@C27_round_trip_proof x (write row0) (map write rows) name g X) as (p & E & Dp & _).
- apply Forall_forall. intros r I. apply in_map_iff in I. destruct I as (r' & <- & I). rewrite !Wl.
  rewrite Forall_forall in R. apply R, I.
- rewrite Wl. exact L.
- change (write row0 :: map write rows) with (map write (row0 :: rows)).
  apply Forall_forall. intros r I. apply in_map_iff in I. destruct I as (r' & <- & I).
  apply Forall_forall. intros f F. apply in_map_iff in F. destruct F as (t & <- & F).
  destruct (Dr _ _ I F) as (neg & v & Dt). destruct (decimal_chars _ _ _ Dt) as [Ct Nt].
  assert (K : forall c, In c (commas comma t) -> c <> x /\ c <> 10%N /\ ~ white c).
  { intros c J. destruct (commas_chars _ _ _ Ct J) as [[-> ->]|[K1 K2]].
    - split; [congruence|]. split; [discriminate|]. unfold white. lia.
    - unfold dchar in K1. split; [|split; [lia|unfold white; lia]]. intros ->.
      destruct (N.eq_dec x 46) as [->|N46].
      + destruct comma; [apply K2; auto|congruence].
      + apply Xc. simpl. lia. }
  repeat split.
  + intros J. apply K in J. tauto.
  + intros J. apply K in J. tauto.
  + intros c J. apply hd_In in J. apply K in J. tauto.
  + intros c J. apply hd_In in J. apply in_rev in J. apply K in J. tauto.
- intros _. change (write row0 :: map write rows) with (map write (row0 :: rows)).
  apply Forall_forall. intros r I. apply in_map_iff in I. destruct I as (r' & <- & I). intros E.
  unfold write in E. destruct r' as [|t [|y r']]; try discriminate. injection E as E.
  destruct (Dr _ t I (or_introl eq_refl)) as (neg & v & Dt). destruct (decimal_chars _ _ _ Dt) as [_ Nt].
  destruct t; [congruence|discriminate].
- intros r c I Hc. rewrite Wl in Hc.
  change (write row0 :: map write rows) with (map write (row0 :: rows)) in I.
  apply in_map_iff in I. destruct I as (row & <- & I).
  assert (Lr : length row = length row0).
  { destruct I as [<-|I]; auto. rewrite Forall_forall in R. apply R, I. }
  unfold write at 2 3. rewrite (nth_map_lt (commas comma) row [] []) by lia.
  assert (J : In (nth c row []) row) by (apply nth_In; lia).
  destruct (Dr _ _ I J) as (neg & v & Dt). destruct (decimal_chars _ _ _ Dt) as [Ct Nt].
  destruct (decimal_float _ _ _ Dt) as (f & Ef & _).
  assert (Nc : number Text (nth c (write row0) [])).
  { unfold write. rewrite (nth_map_lt (commas comma) row0 [] []) by lia.
    destruct (Dr row0 (nth c row0 []) (or_introl eq_refl)) as (n0 & v0 & D0); [apply nth_In; lia|].
    eapply decimal_number; eauto. }
  unfold g. rewrite dots_commas by exact Ct. rewrite Ef. destruct comma.
  + apply cell_comma; auto; [|apply reads_iff; cbn [float_of]; rewrite dots_commas by exact Ct; exact Ef].
    destruct (C eq_refl) as (t & I1 & I2). exists (commas true t). split; [apply in_map; exact I1|].
    destruct (Dr row0 t (or_introl eq_refl) I1) as (n0 & v0 & D0). destruct (decimal_chars _ _ _ D0) as [C0 _].
    destruct (decimal_float _ _ _ D0) as (f0 & E0 & _). apply comma_iff. split.
    * intros (h & H). apply (text_comma _ _ H). unfold commas. apply in_map_iff. exists 46%N. auto.
    * exists f0. cbn [float_of]. rewrite dots_commas by exact C0. exact E0.
  + apply cell_plain; auto.
    * intros (s & I1 & I2 & _). apply in_map_iff in I1. destruct I1 as (t & <- & I1). apply I2.
      destruct (Dr row0 t (or_introl eq_refl) I1) as (n0 & v0 & D0).
      destruct (decimal_float _ _ _ D0) as (f0 & E0 & _). apply plain_iff. exists f0. rewrite commas_false. exact E0.
    * apply reads_iff. rewrite commas_false. exact Ef.
- exists p. split; [exact E|].
  change (write row0 :: map write rows) with (map write (row0 :: rows)) in Dp. rewrite Wl in Dp. apply channels_iff in Dp.
  split. { rewrite Dp. rewrite map_map. reflexivity. }
  intros c r row t neg v Hr Ht Dt.
  assert (I : In row (row0 :: rows)) by (eapply nth_error_In; eauto).
  assert (Lr : length row = length row0).
  { destruct I as [<-|I]; auto. rewrite Forall_forall in R. apply R, I. }
  assert (Hc : c < length row) by (apply nth_error_Some; congruence).
  destruct (decimal_chars _ _ _ Dt) as [Ct _]. destruct (decimal_float _ _ _ Dt) as (f & Ef & Nf).
  set (col := map (fun r => g c (nth c r [])) (map write (row0 :: rows))).
  exists (mkarr Kf col), f.
  assert (Ec : np_array col = mkarr Kf col).
  { apply promote_floats. apply Forall_forall. intros w J. unfold col in J. apply in_map_iff in J.
    destruct J as (q & <- & _). unfold g. eauto. }
  split.
  { rewrite Dp. rewrite dget_map_nat. rewrite Nat2Z.id.
    replace (existsb (fun i => (Z.of_nat c =? Z.of_nat i)%Z) (seq 0 (length row0))) with true.
    - f_equal. exact Ec.
    - symmetry. apply existsb_exists. exists c. split; [apply in_seq; lia|apply Z.eqb_refl]. }
  split; [reflexivity|]. split; [unfold col; cbn [aelems]; rewrite !map_length; reflexivity|].
  split; [|exact Nf]. cbn [aelems]. unfold col. rewrite !nth_error_nth_map, Hr. cbn [option_map].
  f_equal. unfold g, write. rewrite (nth_map_lt (commas comma) row [] []) by exact Hc.
  match goal with |- context [commas comma ?u] => replace u with t by (symmetry; apply nth_error_nth; exact Ht) end.
  rewrite dots_commas by exact Ct. rewrite Ef. reflexivity.
Qed.

Lemma row_holds : forall fds cs b, encodes_row fds cs b -> forall i fd c, nth_error fds i = Some fd ->
  nth_error cs i = Some c -> exists bs, holds (fd_typ fd) (fd_deci fd) c bs.
Proof.
  intros fds cs b H. induction H; intros [|i] fd' c' Hf Hc; try discriminate; simpl in *.
  - injection Hf as <-. injection Hc as <-. eauto.
  - eauto.
Qed.

Lemma row_width : forall fds cs b, encodes_row fds cs b -> length cs = length fds.
Proof. intros fds cs b H. induction H; simpl; auto. Qed.

Lemma records_rows : forall fds recs b, encodes_records fds recs b -> forall cs, In cs (live recs) ->
  exists rb, encodes_row fds cs rb.
Proof.
  intros fds recs b H. induction H; intros cs' I; simpl in *; eauto; [contradiction|].
  destruct I as [<-|I]; eauto.
Qed.

Lemma decimal_field : forall typ deci neg ip fp b, holds typ deci (CDec neg ip fp) b ->
  all_digits ip /\ all_digits fp /\ (typ = 78%N /\ deci <> 0%N \/ typ = 70%N).
Proof. intros typ deci neg ip fp b H. inversion H; subst; auto. Qed.

Lemma float_field : forall typ deci c b, (typ = 78%N /\ deci <> 0%N \/ typ = 70%N) -> holds typ deci c b ->
  exists f, cell_val typ c = VFloat f.
Proof.
  intros typ deci c b T H. inversion H; subst; try (exfalso; destruct T as [[T1 T2]|T1]; congruence || discriminate).
  all: try (eexists; reflexivity).
  exfalso. match goal with X : ~ In _ _ |- _ => apply X end. simpl. destruct T as [[-> _]| ->]; auto.
Qed.

Lemma C60_dbase_decimals_proof :
forall fds recs b fname i r cs neg ip fp, encodes fds recs b -> i < length fds ->
  nth_error (live recs) r = Some cs -> nth_error cs i = Some (CDec neg ip fp) ->
  exists p ch f, dbfpack (mkfile b 0) [] fname = Ok p /\
    dget (Z.of_nat i) (p_data p) = Some ch /\ akind ch = Kf /\ length (aelems ch) = length (live recs) /\
    nth_error (aelems ch) r = Some (VFloat f) /\
    nearest neg (IZR (dec_value (ip ++ fp)) * powerRZ 10 (- Z.of_nat (length fp))) f.
Proof.
intros fds recs b fname i r cs neg ip fp En Hi Hr Hc.
destruct (C36_arrays fds recs b fname En) as (p & E & _ & _ & _ & D).
destruct En as (h & rb & tail & _ & En & _).
assert (L : live recs <> []) by (intros Z; rewrite Z in Hr; destruct r; discriminate).
specialize (D L). set (typ := nth i (map fd_typ fds) 0%N) in *.
set (col := map (fun cs => cell_val (nth i (map fd_typ fds) 0%N) (nth i cs CBlank)) (live recs)).
destruct (nth_error fds i) as [fd|] eqn:Ef; [|apply nth_error_None in Ef; lia].
assert (Et : nth i (map fd_typ fds) 0%N = fd_typ fd).
{ apply nth_error_nth. rewrite nth_error_nth_map, Ef. reflexivity. }
destruct (records_rows _ _ _ En cs (nth_error_In _ _ Hr)) as (rb0 & Rw).
destruct (row_holds _ _ _ Rw i fd _ Ef Hc) as (bs & Hh).
destruct (decimal_field _ _ _ _ _ _ Hh) as (A1 & A2 & A3).
assert (F : Forall (fun v => exists f, v = VFloat f) col).
{ apply Forall_forall. intros v I. unfold col in I. apply in_map_iff in I. destruct I as (cs' & <- & I).
  destruct (records_rows _ _ _ En cs' I) as (rb1 & Rw1). pose proof (row_width _ _ _ Rw1) as W1.
  destruct (nth_error cs' i) as [c'|] eqn:Ec'; [|apply nth_error_None in Ec'; lia].
  destruct (row_holds _ _ _ Rw1 i fd _ Ef Ec') as (bs1 & Hh1).
  rewrite (nth_error_nth _ _ CBlank Ec'), Et. eapply float_field; eauto. }
exists p, (mkarr Kf col). eexists. split; [exact E|]. split.
{ rewrite D. rewrite dget_map_nat. rewrite Nat2Z.id.
  replace (existsb (fun j => (Z.of_nat i =? Z.of_nat j)%Z) (seq 0 (length fds))) with true.
  - f_equal. apply promote_floats. exact F.
  - symmetry. apply existsb_exists. exists i. split; [apply in_seq; lia|apply Z.eqb_refl]. }
split; [reflexivity|]. split; [cbn [aelems]; apply map_length|]. split.
{ cbn [aelems]. unfold col. rewrite nth_error_nth_map, Hr. cbn [option_map].
  rewrite (nth_error_nth _ _ CBlank Hc). cbn [cell_val]. reflexivity. }
apply rounded_nearest.
- apply Rmult_le_pos; [|apply Rlt_le, power_pos]. apply IZR_le, dec_value_nonneg, Forall_app; auto.
- apply dec_round_rounded. apply dec_value_nonneg, Forall_app; auto.
Qed.

