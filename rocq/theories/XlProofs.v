(** * Lemmas on the spread sheet reader model *)

From Coq Require Import ZifyBool ZifyNat ZifyN.
From Verif Require Import PyBase PyBaseFacts PyFloat PyText NumPy SpecPack Pack PackProofs SpecDbf DbfProofs SpecChars CharFacts XlDate ReadXl SpecXl.
Open Scope Z_scope.

(** ** Letters *)

(** Bijective base 26 value, A is 1. *)
Definition hn (s : str) : Z := fold_left (fun n c => 26 * n + letter_no c) s 0.

Lemma column_no_hn s : column_no s = hn s - 1.
Proof. reflexivity. Qed.

Lemma hn_from s : forall n, fold_left (fun n c => 26 * n + letter_no c) s n = n * 26 ^ Z.of_nat (length s) + hn s.
Proof.
  unfold hn. induction s as [|c s IH]; intro n.
  - cbn. lia.
  - cbn [fold_left length]. rewrite IH, (IH (26 * 0 + letter_no c)).
    rewrite Nat2Z.inj_succ, Z.pow_succ_r by lia. ring.
Qed.

Lemma hn_cons c s : hn (c :: s) = letter_no c * 26 ^ Z.of_nat (length s) + hn s.
Proof. unfold hn at 1. cbn [fold_left]. rewrite hn_from. ring. Qed.

Lemma hn_snoc s c : hn (s ++ [c]) = 26 * hn s + letter_no c.
Proof. unfold hn. rewrite fold_left_app. reflexivity. Qed.

Lemma letter_no_range c : letter c -> 1 <= letter_no c <= 26.
Proof. unfold letter, capital, letter_no. intros [H|H]; destruct (97 <=? c)%N eqn:E; lia. Qed.

Lemma capital_letter c : capital c -> letter c.
Proof. left. assumption. Qed.

Lemma capitals_letters s : Forall capital s -> Forall letter s.
Proof. apply Forall_impl. exact capital_letter. Qed.

Lemma letter_no_inj c d : capital c -> capital d -> letter_no c = letter_no d -> c = d.
Proof. unfold capital, letter_no. intros H1 H2. destruct (97 <=? c)%N eqn:E, (97 <=? d)%N eqn:F; lia. Qed.

Lemma hn_pos s : Forall letter s -> 0 <= hn s.
Proof.
  induction s as [|c s IH]; intro H; [cbn; lia|].
  inversion H; subst. rewrite hn_cons. pose proof (letter_no_range c H2).
  assert (0 < 26 ^ Z.of_nat (length s)) by (apply Z.pow_pos_nonneg; lia). specialize (IH H3). nia.
Qed.

Lemma hn_nonempty s : Forall letter s -> s <> [] -> 1 <= hn s.
Proof.
  destruct s as [|c s]; [congruence|]. intros H _. inversion H; subst. rewrite hn_cons.
  pose proof (letter_no_range c H2).
  assert (0 < 26 ^ Z.of_nat (length s)) by (apply Z.pow_pos_nonneg; lia).
  pose proof (hn_pos s H3). nia.
Qed.

Lemma is_upper_capital c : is_upper c = true <-> capital c.
Proof. unfold is_upper, capital. lia. Qed.

Lemma is_alpha_letter c : is_alpha c = true <-> letter c.
Proof. unfold is_alpha, is_upper, is_lower, letter, capital. lia. Qed.

Lemma upper_char_letter c : letter c -> exists u, upper_char c = [u] /\ capital u /\ letter_no u = letter_no c.
Proof.
  unfold letter, capital, upper_char, letter_no. intro H.
  destruct (is_lower c) eqn:E; unfold is_lower in E.
  - eexists. split; [reflexivity|]. split; [lia|].
    destruct (97 <=? c - 32)%N eqn:F, (97 <=? c)%N eqn:G; lia.
  - repeat match goal with |- context [if (c =? ?n)%N then _ else _] =>
      assert ((c =? n)%N = false) as -> by lia end.
    eexists. split; [reflexivity|]. split; lia.
Qed.

Lemma upper_str_letters s : Forall letter s ->
  Forall capital (upper_str s) /\ length (upper_str s) = length s /\ hn (upper_str s) = hn s.
Proof.
  induction 1 as [|c s H1 H2 (I1 & I2 & I3)]; [cbn; auto|].
  destruct (upper_char_letter c H1) as (u & E & C & L).
  change (upper_str (c :: s)) with (upper_char c ++ upper_str s). rewrite E. cbn [app].
  repeat split; [constructor; assumption|cbn; lia|]. rewrite !hn_cons, I2, I3, L. reflexivity.
Qed.

Lemma upper_str_capitals s : Forall capital s -> upper_str s = s.
Proof.
  induction 1 as [|c s H1 H2 IH]; [reflexivity|].
  change (upper_str (c :: s)) with (upper_char c ++ upper_str s). rewrite IH.
  unfold capital in H1. unfold upper_char.
  assert (is_lower c = false) as -> by (unfold is_lower; lia).
  repeat match goal with |- context [if (c =? ?n)%N then _ else _] =>
      assert ((c =? n)%N = false) as -> by lia end. reflexivity.
Qed.

Lemma letter_loop_ok s : forall i acc, Forall capital s ->
  letter_loop (i + Z.of_nat (length s) - 1) i s acc = Ok (acc + hn s).
Proof.
  induction s as [|c s IH]; intros i acc H.
  - cbn. f_equal. lia.
  - inversion H; subst. cbn [letter_loop length].
    rewrite (proj2 (is_upper_capital c) H2).
    replace (i + Z.of_nat (S (length s)) - 1) with (i + 1 + Z.of_nat (length s) - 1) by lia.
    rewrite IH by assumption. rewrite hn_cons.
    replace (i + 1 + Z.of_nat (length s) - 1 - i) with (Z.of_nat (length s)) by lia.
    f_equal. unfold letter_no. unfold capital in H2. assert ((97 <=? c)%N = false) as -> by lia. ring.
Qed.

Lemma letter_loop_bad s : forall w i acc, ~ Forall capital s -> letter_loop w i s acc = Err AssertionError.
Proof.
  induction s as [|c s IH]; intros w i acc H; [exfalso; apply H; constructor|].
  cbn. destruct (is_upper c) eqn:E; [|reflexivity].
  apply IH. intro F. apply H. constructor; [apply is_upper_capital; exact E|exact F].
Qed.

Lemma letter2num_zbase s z : letter2num s z =
  (if (0 <? Z.of_nat (length (upper_str s))) && forallb is_upper (upper_str s)
   then Ok (hn (upper_str s) - (if z then 1 else 0)) else Err AssertionError).
Proof.
  unfold letter2num. cbv zeta. set (u := upper_str s).
  destruct (0 <=? Z.of_nat (length u) - 1) eqn:E; cbn [negb].
  - assert (0 <? Z.of_nat (length u) = true) as -> by lia. cbn [andb].
    destruct (forallb is_upper u) eqn:F.
    + replace (Z.of_nat (length u) - 1) with (0 + Z.of_nat (length u) - 1) by lia.
      rewrite letter_loop_ok.
      * cbn [bind]. destruct z; cbn [negb]; f_equal; lia.
      * rewrite forallb_forall in F. apply Forall_forall. intros c Hc. apply is_upper_capital. apply F. exact Hc.
    + rewrite letter_loop_bad; [reflexivity|]. intro H.
      assert (forallb is_upper u = true); [|congruence].
      apply forallb_forall. intros c Hc. apply is_upper_capital. rewrite Forall_forall in H. apply H. exact Hc.
  - assert (0 <? Z.of_nat (length u) = false) as -> by lia. reflexivity.
Qed.

Lemma letter2num_ok s z : column_text s -> letter2num s z = Ok (column_no s + (if z then 0 else 1)).
Proof.
  intros [N L]. destruct (upper_str_letters s L) as (C & Len & V).
  rewrite letter2num_zbase, Len, V.
  assert (0 <? Z.of_nat (length s) = true) as -> by (destruct s; [congruence|cbn; lia]).
  assert (forallb is_upper (upper_str s) = true) as ->.
  { apply forallb_forall. intros c Hc. apply is_upper_capital. rewrite Forall_forall in C. apply C. exact Hc. }
  cbn [andb]. rewrite column_no_hn. f_equal. destruct z; lia.
Qed.


Lemma hn_surj_nat n : exists s, Forall capital s /\ hn s = Z.of_nat n.
Proof.
  induction n as [n IH] using lt_wf_ind. destruct n as [|m].
  - exists []. split; [constructor|reflexivity].
  - pose proof (Z.div_mod (Z.of_nat m) 26 ltac:(lia)) as D.
    pose proof (Z.mod_pos_bound (Z.of_nat m) 26 ltac:(lia)) as B.
    destruct (IH (Z.to_nat (Z.of_nat m / 26))) as (p & P & V); [lia|].
    exists (p ++ [Z.to_N (Z.of_nat m mod 26 + 65)]). split.
    + apply Forall_app. split; [exact P|]. constructor; [|constructor]. unfold capital. lia.
    + rewrite hn_snoc, V. unfold letter_no.
      assert ((97 <=? Z.to_N (Z.of_nat m mod 26 + 65))%N = false) as -> by lia.
      rewrite Z2N.id by lia. lia.
Qed.

Lemma hn_inj s : forall t, Forall capital s -> Forall capital t -> hn s = hn t -> s = t.
Proof.
  induction s as [|c s IH] using rev_ind; intros t Hs Ht E.
  - destruct t as [|d t]; [reflexivity|].
    pose proof (hn_nonempty (d :: t) (capitals_letters _ Ht) ltac:(discriminate)). cbn in E. cbn in H. lia.
  - apply Forall_app in Hs. destruct Hs as [Hs Hc]. inversion Hc; subst.
    destruct t as [|d t _] using rev_ind.
    + pose proof (hn_nonempty (s ++ [c]) (capitals_letters _ (proj2 (Forall_app _ _ _) (conj Hs Hc))) ltac:(destruct s; discriminate)).
      change (hn []) with 0 in E. lia.
    + apply Forall_app in Ht. destruct Ht as [Ht Hd]. inversion Hd; subst.
      rewrite !hn_snoc in E.
      pose proof (letter_no_range c (capital_letter c H1)). pose proof (letter_no_range d (capital_letter d H3)).
      assert (hn s = hn t) by lia. assert (letter_no c = letter_no d) by lia.
      rewrite (IH t Hs Ht H5). rewrite (letter_no_inj c d H1 H3 H6). reflexivity.
Qed.

Lemma hn_same_length a : forall b, Forall letter a -> Forall letter b -> length a = length b ->
  hn a - hn b <= 26 ^ Z.of_nat (length a) - 1.
Proof.
  induction a as [|x a IH]; intros [|y b] Ha Hb L; try discriminate L; [cbn; lia|].
  inversion Ha; inversion Hb; subst. injection L as L. rewrite !hn_cons, <- L.
  specialize (IH b H2 H6 L). pose proof (letter_no_range x H1). pose proof (letter_no_range y H5).
  cbn [length]. rewrite Nat2Z.inj_succ, Z.pow_succ_r by lia.
  assert (0 < 26 ^ Z.of_nat (length a)) by (apply Z.pow_pos_nonneg; lia). nia.
Qed.

Lemma lex_length a b : lex_lt a b -> length a = length b.
Proof. induction 1; cbn; congruence. Qed.

Lemma hn_lex a b : lex_lt a b -> Forall capital a -> Forall capital b -> hn a < hn b.
Proof.
  induction 1 as [x y a b L E|x a b H IH]; intros Ha Hb; inversion Ha; inversion Hb; subst; rewrite !hn_cons.
  - pose proof (hn_same_length a b (capitals_letters _ H2) (capitals_letters _ H6) E) as D. rewrite <- E.
    assert (letter_no x < letter_no y).
    { unfold letter_no. unfold capital in *. destruct (97 <=? x)%N eqn:X, (97 <=? y)%N eqn:Y; lia. }
    assert (0 < 26 ^ Z.of_nat (length a)) by (apply Z.pow_pos_nonneg; lia). nia.
  - specialize (IH H3 H7). rewrite (lex_length a b H). lia.
Qed.

Lemma hn_length b : forall a, Forall letter a -> Forall letter b -> (length a < length b)%nat -> hn a < hn b.
Proof.
  induction b as [|d b IH] using rev_ind; intros a Ha Hb L; [cbn in L; lia|].
  destruct a as [|c a _] using rev_ind.
  - pose proof (hn_nonempty _ Hb ltac:(destruct b; discriminate)). change (hn []) with 0. lia.
  - apply Forall_app in Ha, Hb. destruct Ha as [Ha Hc], Hb as [Hb Hd]. inversion Hc; inversion Hd; subst.
    rewrite !app_length in L. cbn in L. specialize (IH a Ha Hb ltac:(lia)). rewrite !hn_snoc.
    pose proof (letter_no_range c H1). pose proof (letter_no_range d H5). lia.
Qed.

(** ** Addresses *)

Lemma span_alpha l r : Forall letter l -> (forall c, hd_error r = Some c -> ~ letter c) ->
  span is_alpha (l ++ r) = (l, r).
Proof.
  intros H N. apply span_app.
  - eapply Forall_impl; [|exact H]. intros c. apply is_alpha_letter.
  - destruct r as [|c r]; [exact I|].
    destruct (is_alpha c) eqn:E; [|reflexivity]. exfalso. apply (N c eq_refl). apply is_alpha_letter. exact E.
Qed.

Lemma span_digit d r : Forall (fun c => is_decimal c = true) d -> (forall c, hd_error r = Some c -> forall v, ~ digit_of c v) ->
  span is_decimal (d ++ r) = (d, r).
Proof.
  intros H N. apply span_app; [exact H|].
  destruct r as [|c r]; [exact I|].
  destruct (is_decimal c) eqn:E; [|reflexivity]. exfalso. apply is_decimal_iff in E. destruct E as (v & E). exact (N c eq_refl v E).
Qed.

Lemma digit_not_letter c : is_decimal c = true -> ~ letter c.
Proof. intro H. apply decimal_where in H. unfold letter, capital, is_digit in *. lia. Qed.

(** The reference of letters, digits and anything else. *)
Lemma cellreference_spec row col l d junk : column_text l -> Forall (fun c => is_decimal c = true) d ->
  (forall c, hd_error junk = Some c -> forall v, ~ digit_of c v) ->
  (d = [] -> forall c, hd_error junk = Some c -> ~ letter c) ->
  cellreference row col (Some (l ++ d ++ junk)) =
  match d with
  | [] => Ok (row, column_no l)
  | _ => if digits_val 0 (to_ascii d) <? 1 then Err ValueError else Ok (digits_val 0 (to_ascii d) - 1, column_no l)
  end.
Proof.
  intros [N L] D J1 J2. unfold cellreference.
  destruct l as [|x l']; [congruence|]. cbn [app].
  change (x :: l' ++ d ++ junk) with ((x :: l') ++ (d ++ junk)).
  rewrite span_alpha; [|exact L|].
  2: { intros c Hc. destruct d as [|y d]; [apply J2; [reflexivity|exact Hc]|].
       cbn in Hc. injection Hc as <-. inversion D; subst. apply digit_not_letter. assumption. }
  rewrite span_digit by assumption. cbn [fst].
  rewrite (letter2num_ok (x :: l') true) by (split; assumption).
  destruct d as [|y d]; cbn [bind].
  - rewrite Z.add_0_r. reflexivity.
  - rewrite Z.add_0_r. reflexivity.
Qed.

Lemma refers_ref a r c : refers a r c -> cellreference 0 0 a = Ok (r, c).
Proof.
  intros [| |l d n T D P]; try reflexivity. apply decimal_text_iff in D. destruct D as (N & D & V).
  pose proof (cellreference_spec 0 0 l d [] T D ltac:(discriminate) ltac:(discriminate)) as E.
  rewrite app_nil_r in E. rewrite E. destruct d; [congruence|].
  rewrite V. assert (n <? 1 = false) as -> by lia. reflexivity.
Qed.

(** ** Column lists *)

Lemma split_on_nonempty c s : split_on c s <> [].
Proof. destruct s as [|x s]; cbn; [discriminate|]. destruct (x =? c)%N; [discriminate|]. destruct (split_on c s); discriminate. Qed.

Lemma split_on_none c s : Forall (fun x => x <> c) s -> split_on c s = [s].
Proof.
  induction 1 as [|x s H1 H2 IH]; [reflexivity|]. cbn. assert ((x =? c)%N = false) as -> by lia.
  rewrite IH. reflexivity.
Qed.

Lemma split_on_app c a b : Forall (fun x => x <> c) a -> split_on c (a ++ c :: b) = a :: split_on c b.
Proof.
  induction 1 as [|x s H1 H2 IH]; cbn.
  - rewrite N.eqb_refl. reflexivity.
  - assert ((x =? c)%N = false) as -> by lia. rewrite IH. reflexivity.
Qed.

Lemma ws_text_blank c : ws_text c = true <-> blank c.
Proof. apply ws_text_iff. Qed.

Lemma letter_not_blank c : letter c -> ws_text c = false.
Proof.
  intro H. rewrite ws_text_ascii by (unfold letter, capital in H; lia). unfold letter, capital in H. lia.
Qed.

Definition item_char (c : N) : Prop := letter c \/ c = 58%N.

Lemma item_chars it : item_ok it -> Forall item_char (item_text it) /\ item_text it <> [].
Proof.
  assert (W : forall s, Forall letter s -> Forall item_char s).
  { intro s. apply Forall_impl. intros c H. left. exact H. }
  destruct it as [c|a b]; cbn.
  - intros [N L]. split; [apply W; exact L|exact N].
  - intros [[Na La] [Nb Lb]]. split; [|destruct a; discriminate].
    apply Forall_app. split; [apply W; exact La|]. constructor; [right; reflexivity|apply W; exact Lb].
Qed.

Lemma item_char_not_ws c : item_char c -> ws_text c = false.
Proof. intros [H| ->]; [apply letter_not_blank; exact H|reflexivity]. Qed.

Lemma item_char_not_comma c : item_char c -> c <> 44%N.
Proof. unfold item_char, letter, capital. lia. Qed.

Lemma blank_not_comma c : blank c -> c <> 44%N.
Proof. intros H ->. apply ws_text_blank in H. discriminate. Qed.

Lemma field_no_comma its f : field_text its f -> Forall (fun x => x <> 44%N) f.
Proof.
  intros [w H|it l r O L R].
  - eapply Forall_impl; [|exact H]. apply blank_not_comma.
  - apply Forall_app. split; [eapply Forall_impl; [|exact L]; apply blank_not_comma|].
    apply Forall_app. split; [|eapply Forall_impl; [|exact R]; apply blank_not_comma].
    eapply Forall_impl; [|exact (proj1 (item_chars it O))]. apply item_char_not_comma.
Qed.

Lemma strip_field its f : field_text its f ->
  filter nonempty [strip ws_text f] = map item_text its.
Proof.
  intros [w H|it l r O L R].
  - assert (strip ws_text w = []) as ->; [|reflexivity].
    apply strip_nil. eapply Forall_impl; [|exact H]. intro c. apply ws_text_blank.
  - destruct (item_chars it O) as [C N].
    rewrite strip_pad.
    + cbn [filter map]. destruct (item_text it); [congruence|reflexivity].
    + eapply Forall_impl; [|exact L]. intro c. apply ws_text_blank.
    + eapply Forall_impl; [|exact R]. intro c. apply ws_text_blank.
    + intros c Hc. apply item_char_not_ws. apply hd_In in Hc. rewrite Forall_forall in C. apply C. exact Hc.
    + intros c Hc. apply item_char_not_ws. apply hd_In in Hc. apply in_rev in Hc. rewrite Forall_forall in C. apply C. exact Hc.
    + exact N.
Qed.

Lemma patterns_of_text its t : cols_text its t ->
  filter nonempty (map (strip ws_text) (split_on 44 t)) = map item_text its.
Proof.
  induction 1 as [its f F|its f rest t F C IH].
  - rewrite split_on_none by (eapply field_no_comma; exact F). apply strip_field. exact F.
  - rewrite split_on_app by (eapply field_no_comma; exact F).
    cbn [map]. rewrite map_app, <- IH, <- (strip_field its f F). cbn [filter].
    destruct (strip ws_text f); reflexivity.
Qed.

Lemma zrange_columns a b : zrange a (b + 1) = columns a b.
Proof. reflexivity. Qed.

Lemma letters_no_colon s : Forall letter s -> Forall (fun x => x <> 58%N) s.
Proof. apply Forall_impl. unfold letter, capital. lia. Qed.

Lemma pattern_item it : item_ok it -> pattern_cols (item_text it) = Ok (item_columns it).
Proof.
  unfold pattern_cols. destruct it as [c|a b]; cbn [item_ok item_text item_columns].
  - intros [N L]. assert (existsb (N.eqb 58) c = false) as ->.
    { apply letters_no_colon in L. apply Bool.not_true_is_false. intro E. apply existsb_exists in E.
      destruct E as (x & I & E). rewrite Forall_forall in L. apply (L x I). lia. }
    rewrite letter2num_ok by (split; assumption). cbn [bind]. rewrite Z.add_0_r. reflexivity.
  - intros [[Na La] [Nb Lb]]. rewrite existsb_app. cbn [existsb]. rewrite N.eqb_refl, orb_true_r.
    rewrite split_on_app by (apply letters_no_colon; exact La).
    rewrite split_on_none by (apply letters_no_colon; exact Lb).
    rewrite !letter2num_ok by (split; assumption). cbn [bind]. rewrite !Z.add_0_r, zrange_columns. reflexivity.
Qed.

Lemma cols_text_ok its t : cols_text its t -> Forall item_ok its.
Proof.
  assert (W : forall its f, field_text its f -> Forall item_ok its).
  { intros ? ? [|]; repeat constructor; assumption. }
  induction 1 as [its f F|its f rest t F C IH]; [eapply W; exact F|].
  apply Forall_app. split; [eapply W; exact F|exact IH].
Qed.

Lemma normalize_text its t : cols_text its t ->
  normalize_usecols (OStr t) = Ok (zsort (flat_map item_columns its)).
Proof.
  intro C. unfold normalize_usecols. cbv zeta. rewrite (patterns_of_text its t C).
  assert (E : mapM pattern_cols (map item_text its) = Ok (map item_columns its)).
  { pose proof (cols_text_ok its t C) as O. clear C. induction O as [|it its H1 H2 IH]; [reflexivity|].
    cbn [map mapM]. rewrite (pattern_item it H1). cbn [bind]. rewrite IH. reflexivity. }
  rewrite E. cbn [bind]. rewrite flat_map_concat_map. reflexivity.
Qed.

Lemma int_objs l : mapM int_of_obj (map OInt l) = Ok l.
Proof. induction l as [|z l IH]; [reflexivity|]. cbn. rewrite IH. reflexivity. Qed.

Lemma normalize_ints l : normalize_usecols (OList (map OInt l)) = Ok (zsort l) /\
  normalize_usecols (OTuple (map OInt l)) = Ok (zsort l).
Proof. cbn. rewrite int_objs. cbn. auto. Qed.

Lemma whole_int_of o z : whole o z -> int_of_obj o = Ok z.
Proof.
  intros [z'|b|f q E|s l t r z' A L R T]; [reflexivity|reflexivity| |].
  2: { cbn [int_of_obj]. apply int_of_text_iff. exists (l ++ t ++ r). split; [exact A|exact (int_of_padded z' t l r L R T)]. }
  cbn [int_of_obj]. destruct f as [s|s| |s m e]; try discriminate E.
  - injection E as <-. reflexivity.
  - unfold float_Q in E. unfold int_of_float. cbv zeta in *. destruct (0 <=? e) eqn:Q.
    + destruct s; injection E as <-; cbn [QArith_base.inject_Z QArith_base.Qnum QArith_base.Qden]; rewrite Z.quot_1_r; try reflexivity; destruct (2 ^ e); reflexivity.
    + assert (P : 0 < 2 ^ (- e)) by (apply Z.pow_pos_nonneg; lia).
      destruct s; injection E as <-; cbn [QArith_base.Qnum QArith_base.Qden]; rewrite Z2Pos.id by lia; f_equal.
      * change (Z.neg m) with (- Z.pos m). rewrite Z.quot_opp_l by lia. rewrite Z.quot_div_nonneg by lia. reflexivity.
      * rewrite Z.quot_div_nonneg by lia. reflexivity.
Qed.
Lemma whole_ints items l : Forall2 whole items l -> mapM int_of_obj items = Ok l.
Proof. induction 1 as [|o z items l W _ IH]; [reflexivity|]. cbn [mapM]. rewrite (whole_int_of o z W), IH. reflexivity. Qed.
Lemma normalize_held u items l : held u items -> Forall2 whole items l -> normalize_usecols u = Ok (zsort l).
Proof. intros H W. apply whole_ints in W. destruct H; cbn [normalize_usecols iterate_cols bind]; rewrite W; reflexivity. Qed.

(** ** Typed columns *)

Lemma missing_spec t : in_set t missingtypes = true <-> missing t.
Proof. unfold in_set, missingtypes, missing. cbn. unfold XL_CELL_EMPTY, XL_CELL_ERROR, XL_CELL_BLANK. lia. Qed.

Lemma numeric_spec t : in_set t numericset = true <-> t = XL_CELL_NUMBER \/ missing t.
Proof. unfold in_set, numericset, missing. cbn. unfold XL_CELL_NUMBER, XL_CELL_EMPTY, XL_CELL_ERROR, XL_CELL_BLANK. lia. Qed.

Lemma text_spec t : in_set t textset = true <-> t = XL_CELL_TEXT \/ missing t.
Proof. unfold in_set, textset, missing. cbn. unfold XL_CELL_TEXT, XL_CELL_EMPTY, XL_CELL_ERROR, XL_CELL_BLANK. lia. Qed.

Lemma zip_map_fst_snd {A B} (l : list (A * B)) : zip (map fst l) (map snd l) = l.
Proof. induction l as [|[a b] l IH]; [reflexivity|]. cbn. rewrite IH. reflexivity. Qed.

Lemma plain_map fill (cells : list (val * Z)) out :
  Forall2 (fun vt w => plain_cell fill (fst vt) (snd vt) w) cells out ->
  map (fun vt => if negb (in_set (snd vt) missingtypes) then fst vt else fill) cells = out.
Proof.
  induction 1 as [|[v t] w cells out H1 H2 IH]; [reflexivity|]. cbn [map fst snd]. rewrite IH. f_equal.
  cbn [fst snd] in H1. destruct H1 as [[M ->]|[M ->]].
  - rewrite (proj2 (missing_spec t) M). reflexivity.
  - assert (in_set t missingtypes = false) as ->; [|reflexivity].
    apply Bool.not_true_is_false. intro E. apply M. apply missing_spec. exact E.
Qed.

Lemma plain_map_inv fill (cells : list (val * Z)) :
  Forall2 (fun vt w => plain_cell fill (fst vt) (snd vt) w) cells
    (map (fun vt => if negb (in_set (snd vt) missingtypes) then fst vt else fill) cells).
Proof.
  induction cells as [|[v t] cells IH]; [constructor|]. cbn [map fst snd]. constructor; [|exact IH]. cbn [fst snd].
  destruct (in_set t missingtypes) eqn:E; cbn [negb]; [left|right]; split; try reflexivity.
  - apply missing_spec. exact E.
  - intro M. apply missing_spec in M. congruence.
Qed.

Lemma mixed_missing datemode v t : missing t -> mixed_value datemode (v, t) = Ok VNone.
Proof.
  intro M. unfold mixed_value.
  assert (t =? XL_CELL_DATE = false) as ->.
  { unfold missing, XL_CELL_EMPTY, XL_CELL_ERROR, XL_CELL_BLANK, XL_CELL_DATE in *. lia. }
  rewrite (proj2 (missing_spec t) M). reflexivity.
Qed.

Lemma mixed_cell_value datemode v t w : mixed_cell datemode v t w -> mixed_value datemode (v, t) = Ok w.
Proof.
  intros [f x E|x y M|z|x|x]; try reflexivity.
  - unfold mixed_value. rewrite Z.eqb_refl. exact E.
  - apply mixed_missing. exact M.
Qed.

Lemma mixed_map datemode cells out :
  Forall2 (fun vt w => mixed_cell datemode (fst vt) (snd vt) w) cells out ->
  mapM (mixed_value datemode) cells = Ok out.
Proof.
  induction 1 as [|[v t] w cells out H1 H2 IH]; [reflexivity|]. cbn [mapM].
  rewrite (mixed_cell_value datemode v t w H1). cbn [bind]. rewrite IH. reflexivity.
Qed.

Lemma forallb_types (P : Z -> bool) (cells : list (val * Z)) :
  forallb P (map snd cells) = true <-> (forall v t, In (v, t) cells -> P t = true).
Proof.
  rewrite forallb_forall. split.
  - intros H v t I. apply H. apply in_map_iff. exists (v, t). auto.
  - intros H t I. apply in_map_iff in I. destruct I as ([v t'] & E & I). cbn in E. subst t'. eapply H. exact I.
Qed.

Lemma typed_convert datemode cells out : typed_column datemode cells out ->
  convert_column datemode (map fst cells) (map snd cells) = Ok out.
Proof.
  unfold convert_column. rewrite zip_map_fst_snd. intros [A F|(v & E) A F|(v & t & I & N1 & N2) (v' & t' & I' & N1' & N2') F].
  - assert (forallb (fun t => in_set t numericset) (map snd cells) = true) as ->.
    { apply forallb_types. intros v t I. apply numeric_spec. eapply A. exact I. }
    rewrite (plain_map _ _ _ F). reflexivity.
  - assert (forallb (fun t => in_set t numericset) (map snd cells) = false) as ->.
    { apply Bool.not_true_is_false. intro Q. rewrite forallb_types in Q. specialize (Q v _ E). discriminate. }
    assert (forallb (fun t => in_set t textset) (map snd cells) = true) as ->.
    { apply forallb_types. intros w t I. apply text_spec. eapply A. exact I. }
    rewrite (plain_map _ _ _ F). reflexivity.
  - assert (forallb (fun t => in_set t numericset) (map snd cells) = false) as ->.
    { apply Bool.not_true_is_false. intro Q. rewrite forallb_types in Q. specialize (Q v t I).
      apply numeric_spec in Q. tauto. }
    assert (forallb (fun t => in_set t textset) (map snd cells) = false) as ->.
    { apply Bool.not_true_is_false. intro Q. rewrite forallb_types in Q. specialize (Q v' t' I').
      apply text_spec in Q. tauto. }
    apply mixed_map. exact F.
Qed.

(** The cell values xlrd gives for each type. *)
Definition cell_ok (vt : val * Z) : Prop :=
  let '(v, t) := vt in
  0 <= t <= 6 /\ (t = XL_CELL_DATE -> exists f, v = VFloat f) /\ (t = XL_CELL_BOOLEAN -> exists z, v = VInt z).

Lemma mixed_value_cell datemode v t w : cell_ok (v, t) -> mixed_value datemode (v, t) = Ok w ->
  mixed_cell datemode v t w.
Proof.
  intros (R & D & B) E. unfold mixed_value in E.
  destruct (t =? XL_CELL_DATE) eqn:T1.
  { apply Z.eqb_eq in T1. subst t. destruct (D eq_refl) as (f & ->). constructor. exact E. }
  destruct (in_set t missingtypes) eqn:T2.
  { injection E as <-. constructor. apply missing_spec. exact T2. }
  destruct (t =? XL_CELL_BOOLEAN) eqn:T3.
  { apply Z.eqb_eq in T3. subst t. destruct (B eq_refl) as (z & ->). injection E as <-. constructor. }
  injection E as <-.
  assert (t = XL_CELL_TEXT \/ t = XL_CELL_NUMBER) as [-> | ->]; [|constructor|constructor].
  unfold in_set, missingtypes in T2. cbn in T2.
  unfold XL_CELL_DATE, XL_CELL_BOOLEAN, XL_CELL_EMPTY, XL_CELL_ERROR, XL_CELL_BLANK, XL_CELL_TEXT, XL_CELL_NUMBER in *. lia.
Qed.

Lemma forallb_false_ex {A} (P : A -> bool) l : forallb P l = false -> exists x, In x l /\ P x = false.
Proof.
  induction l as [|x l IH]; cbn; [discriminate|]. destruct (P x) eqn:E.
  - intro H. destruct (IH H) as (y & I & F). eauto.
  - eauto.
Qed.

Lemma convert_typed datemode cells out : Forall cell_ok cells ->
  convert_column datemode (map fst cells) (map snd cells) = Ok out -> typed_column datemode cells out.
Proof.
  intros O E. unfold convert_column in E. rewrite zip_map_fst_snd in E.
  destruct (forallb (fun t => in_set t numericset) (map snd cells)) eqn:F1.
  { injection E as <-. apply tc_numbers; [|apply plain_map_inv].
    rewrite forallb_types in F1. intros v t I. apply numeric_spec. eapply F1. exact I. }
  apply forallb_false_ex in F1. destruct F1 as (t1 & I1 & F1). apply in_map_iff in I1.
  destruct I1 as ([v1 t1'] & Q1 & I1). cbn in Q1. subst t1'.
  destruct (forallb (fun t => in_set t textset) (map snd cells)) eqn:F2.
  { injection E as <-. rewrite forallb_types in F2. apply tc_texts; [| |apply plain_map_inv].
    - exists v1. specialize (F2 v1 t1 I1). apply text_spec in F2. destruct F2 as [->|M]; [exact I1|].
      assert (in_set t1 numericset = true) by (apply numeric_spec; right; exact M). congruence.
    - intros v t I. apply text_spec. eapply F2. exact I. }
  apply forallb_false_ex in F2. destruct F2 as (t2 & I2 & F2). apply in_map_iff in I2.
  destruct I2 as ([v2 t2'] & Q2 & I2). cbn in Q2. subst t2'.
  apply tc_mixed.
  - exists v1, t1. split; [exact I1|]. split; intro X.
    + assert (in_set t1 numericset = true) by (apply numeric_spec; left; exact X). congruence.
    + assert (in_set t1 numericset = true) by (apply numeric_spec; right; exact X). congruence.
  - exists v2, t2. split; [exact I2|]. split; intro X.
    + assert (in_set t2 textset = true) by (apply text_spec; left; exact X). congruence.
    + assert (in_set t2 textset = true) by (apply text_spec; right; exact X). congruence.
  - clear I1 I2 F1 F2. apply mapM_ok_Forall2 in E. induction E as [|[v t] w cells out H1 H2 IH]; [constructor|].
    inversion O; subst. constructor; [|apply IH; assumption]. cbn [fst snd]. apply mixed_value_cell; assumption.
Qed.

(** ** Sheets *)

Lemma grid_at_in {A} (d : A) (g : list (list A)) nc r c :
  Forall (fun row => Z.of_nat (length row) = nc) g -> 0 <= r < Z.of_nat (length g) -> 0 <= c < nc ->
  grid_at g r c = Ok (nth (Z.to_nat c) (nth (Z.to_nat r) g []) d).
Proof.
  intros F R C. unfold grid_at. rewrite py_index_nonneg by lia.
  rewrite (nth_error_nth' g []) by lia. 
  assert (L : Z.of_nat (length (nth (Z.to_nat r) g [])) = nc).
  { rewrite Forall_forall in F. apply F. apply nth_In. lia. }
  rewrite py_index_nonneg by lia. rewrite (nth_error_nth' _ d) by lia. reflexivity.
Qed.

Lemma mapM_map_ok {A B C} (f : B -> res C) (h : A -> B) (g : A -> C) l :
  (forall x, In x l -> f (h x) = Ok (g x)) -> mapM f (map h l) = Ok (map g l).
Proof.
  induction l as [|x l IH]; intro H; [reflexivity|]. cbn. rewrite H by (left; reflexivity). cbn.
  rewrite IH; [reflexivity|]. intros y I. apply H. right. exact I.
Qed.

Lemma col_part_rect {A} (d : A) (g : list (list A)) nr nc c r0 r1 : nr = Z.of_nat (length g) ->
  Forall (fun row => Z.of_nat (length row) = nc) g -> 0 <= c < nc -> 0 <= r0 -> -1 <= r1 ->
  col_part nr g c r0 (r1 + 1) =
  Ok (map (fun i => nth (Z.to_nat c) (nth (Z.to_nat (r0 + Z.of_nat i)) g []) d)
          (seq 0 (Z.to_nat (Z.min r1 (nr - 1) + 1 - r0)))).
Proof.
  intros N F C R0 R1. unfold col_part.
  assert (r0 <? 0 = false) as -> by lia.
  assert ((if nr <? r1 + 1 then nr else if r1 + 1 <? 0 then r1 + 1 + nr else r1 + 1) = Z.min r1 (nr - 1) + 1) as ->.
  { destruct (nr <? r1 + 1) eqn:E; [lia|]. assert (r1 + 1 <? 0 = false) as -> by lia. lia. }
  unfold zrange. apply mapM_map_ok.
  intros i I. apply in_seq in I. apply grid_at_in with (nc := nc); [exact F|lia|exact C].
Qed.

Lemma column_cells sh c r0 r1 : rectangular sh -> 0 <= c < sh_ncols sh -> 0 <= r0 -> -1 <= r1 ->
  col_values sh c r0 (r1 + 1) = Ok (map fst (cells_of sh c r0 (Z.min r1 (sh_nrows sh - 1)))) /\
  col_types sh c r0 (r1 + 1) = Ok (map snd (cells_of sh c r0 (Z.min r1 (sh_nrows sh - 1)))).
Proof.
  intros (N & L & F1 & F2) C R0 R1. unfold col_values, col_types, cells_of. rewrite !map_map. split.
  - rewrite (col_part_rect VNone _ _ (sh_ncols sh)) by (assumption || lia). reflexivity.
  - rewrite (col_part_rect 0 _ _ (sh_ncols sh)) by (assumption || lia). reflexivity.
Qed.

Lemma sheet_columns_ok datemode sh r0 c0 r1 c1 cols (f : Z -> list val) :
  rectangular sh -> 0 <= r0 -> -1 <= r1 -> Forall (fun c => 0 <= c < sh_ncols sh) cols ->
  (forall c, In c cols -> typed_column datemode (cells_of sh c r0 (Z.min r1 (sh_nrows sh - 1))) (f c)) ->
  sheet_columns datemode sh (r0, c0) (r1, c1) cols = Ok (map f cols).
Proof.
  intros R R0 R1 C T. unfold sheet_columns. cbn [fst].
  rewrite <- (map_id cols) at 1. apply mapM_map_ok. intros c I.
  rewrite Forall_forall in C. destruct (column_cells sh c r0 r1 R (C c I) R0 R1) as [-> ->]. cbn [bind].
  apply typed_convert. apply T. exact I.
Qed.

Lemma dict_of_dget {V} (f : Z -> V) l : forall d k,
  dget k (fold_left (fun d kv => dset (fst kv) (snd kv) d) (zip l (map f l)) d) =
  if existsb (Z.eqb k) l then Some (f k) else dget k d.
Proof.
  induction l as [|x l IH]; intros d k; [reflexivity|]. cbn [zip map fold_left fst snd existsb].
  rewrite IH, dget_dset. destruct (k =? x) eqn:E.
  - apply Z.eqb_eq in E. subst x. destruct (existsb (Z.eqb k) l); reflexivity.
  - reflexivity.
Qed.

Lemma find_name_index s names : forall i, nth_error names i = Some s ->
  (forall j, (j < i)%nat -> nth_error names j <> Some s) -> name_index s names = Some i.
Proof.
  induction names as [|n names IH]; intros [|i] H N; cbn in *; try discriminate.
  - injection H as ->. rewrite str_eqb_refl. reflexivity.
  - destruct (str_eqb n s) eqn:E.
    + apply str_eqb_eq in E. subst n. exfalso. apply (N 0%nat); [lia|reflexivity].
    + rewrite (IH i H); [reflexivity|]. intros j J. apply (N (S j)). lia.
Qed.

Lemma chosen_sheet_find wb which sh : chosen_sheet wb which sh -> find_sheet wb which = Ok sh.
Proof.
  assert (W : forall i sh, nth_error (bk_sheets wb) i = Some sh -> sheet_by_index wb (Z.of_nat i) = Ok sh).
  { intros i s E. unfold sheet_by_index. rewrite py_index_nonneg by lia. rewrite Nat2Z.id, E. reflexivity. }
  intros [i s E|s i s' E1 E2 E3]; cbn; [apply W; exact E|].
  rewrite (find_name_index s _ i E1 E2). apply W. exact E3.
Qed.

Lemma columns_truth u c0 c1 cols : chosen_columns c0 c1 u cols ->
  exists given, obj_truth u = Ok given /\
  normalize_usecols (if given then u else OList (map OInt (zrange c0 (c1 + 1)))) = Ok (zsort cols).
Proof.
  intros [u' D|u' items l H N W|its t N C].
  - exists false. split; [destruct D as [->|[->|[->| ->]]]; reflexivity|].
    rewrite zrange_columns. apply normalize_ints.
  - exists true. split; [|exact (normalize_held _ _ _ H W)].
    destruct H as [l0|l0|l0|l0|l0|l0]; cbn [obj_truth]; try (destruct l0; [cbn in N; congruence|reflexivity]); reflexivity.
  - exists true. split; [destruct t; [congruence|reflexivity]|]. apply normalize_text. exact C.
Qed.

Lemma sorted_bounds l : forall x, Sorted Z.le (x :: l) -> forall y, In y (x :: l) -> x <= y <= last (x :: l) x.
Proof.
  induction l as [|z l IH]; intros x S y I.
  - destruct I as [->|[]]. cbn. lia.
  - inversion S; subst. inversion H2; subst. 
    change (last (x :: z :: l) x) with (last (z :: l) x).
    assert (L : last (z :: l) x = last (z :: l) z).
    { assert (W : forall l z d d', last (z :: l) d = last (z :: l) d' :> Z).
      { clear. induction l as [|w l IH]; intros z d d'; [reflexivity|]. exact (IH w d d'). }
      apply W. }
    rewrite L. destruct I as [->|I].
    + specialize (IH z H1 z (or_introl eq_refl)). lia.
    + specialize (IH z H1 y I). lia.
Qed.

Lemma last_In {A} (l : list A) x : In (last (x :: l) x) (x :: l).
Proof.
  assert (W : forall (l : list A) x d, In (last (x :: l) d) (x :: l)).
  { clear. induction l as [|y l IH]; intros x d; [left; reflexivity|]. right. exact (IH y d). }
  apply W.
Qed.

Lemma refers_nonneg a r c : refers a r c -> 0 <= r /\ 0 <= c.
Proof.
  intros [| |l d n [N L] D P]; try lia. pose proof (hn_nonempty l L N). rewrite column_no_hn. lia.
Qed.

Lemma names_row ws k cols : rectangular ws -> 0 <= k < sh_nrows ws -> Forall (fun c => 0 <= c < sh_ncols ws) cols ->
  mapM (fun col => cell_value ws k col) cols = Ok (map (value_at ws k) cols).
Proof.
  intros (N & L & F1 & F2) K C. rewrite <- (map_id cols) at 1. apply mapM_map_ok. intros c I.
  rewrite Forall_forall in C. unfold cell_value. apply grid_at_in with (nc := sh_ncols ws); try assumption; [lia|].
  apply C. exact I.
Qed.
