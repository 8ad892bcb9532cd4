(** * Stored addresses of cells and the choice of a colour: proofs of the property theorems *)

From Coq Require Import ZifyBool ZifyNat ZifyN QArith.
From Verif Require Import PyBase PyText PyFloat NumPy CompDoc ReadXl SpecRepr SpecXl SpecRange PyBaseFacts ReprProofs XlProofs ReadXlThms RangeProofs CellAddr SpecAddr.
Open Scope nat_scope.
Open Scope Z_scope.
(** A palette with a system colour, which has no numbers, and one colour twice. *)
Definition palette : list (Z * option (list Z)) :=
  [(0, Some [0; 0; 0]); (64, None); (8, Some [0; 0; 0]); (10, Some [255; 0; 0]); (9, Some [255; 255; 255])].

Lemma land_bit w n : 0 <= n -> (Z.land w (2 ^ n) =? 0) = negb (Z.testbit w n).
Proof.
  intro N. destruct (Z.testbit w n) eqn:T; simpl.
  - apply Z.eqb_neq. intro E. assert (F : Z.testbit (Z.land w (2 ^ n)) n = false) by (rewrite E; apply Z.bits_0).
    rewrite Z.land_spec, T, Z.pow2_bits_true in F by exact N. discriminate.
  - apply Z.eqb_eq. apply Z.bits_inj'. intros m M. rewrite Z.land_spec, Z.bits_0, Z.pow2_bits_eqb by exact N.
    destruct (n =? m) eqn:Q; [|apply andb_false_r]. apply Z.eqb_eq in Q. subst m. rewrite T. reflexivity.
Qed.
Lemma packed_bits byte bits rr rc w : packed byte bits rr rc w ->
  Z.land w 0xFF = byte /\ (Z.land w 0x8000 =? 0) = negb rr /\ (Z.land w 0x4000 =? 0) = negb rc.
Proof.
  intros (B & C & ->). change 0xFF with (Z.ones 8). rewrite Z.land_ones by lia.
  change 0x8000 with (2 ^ 15). change 0x4000 with (2 ^ 14). rewrite !land_bit by lia. rewrite !Z.testbit_odd, !Z.shiftr_div_pow2 by lia.
  change (2 ^ 8) with 256. change (2 ^ 15) with 32768. change (2 ^ 14) with 16384.
  split; [|split].
  - destruct rr, rc; unfold flag; lia.
  - f_equal. replace (_ / 32768) with (flag rr) by (destruct rr, rc; unfold flag; lia). destruct rr; reflexivity.
  - f_equal. replace (_ / 16384) with (flag rc + 2 * flag rr) by (destruct rr, rc; unfold flag; lia). destruct rr, rc; reflexivity.
Qed.

Lemma C85_expand_proof :
forall inrow w byte bits relrow relcol, 0 <= inrow < 65536 -> packed byte bits relrow relcol w ->
  exists outrow outcol, expand_cell_address inrow w = (outrow, outcol, relrow, relcol) /\
    meant relrow 65536 inrow outrow /\ meant relcol 256 byte outcol.
Proof.
intros inrow w byte bits rr rc I P. destruct (packed_bits _ _ _ _ _ P) as (B & R & C). destruct P as (P1 & _ & _).
unfold expand_cell_address. rewrite B, R, C, !negb_involutive. eexists _, _. split; [reflexivity|]. unfold meant. split.
- destruct rr; cbn [andb]; [right|left; auto]. split; [reflexivity|]. destruct (32768 <=? inrow) eqn:E.
  + split; [lia|]. exists 1. lia.
  + split; [lia|]. exists 0. lia.
- destruct rc; cbn [andb]; [right|left; auto]. split; [reflexivity|]. destruct (128 <=? byte) eqn:E.
  + split; [lia|]. exists 1. lia.
  + split; [lia|]. exists 0. lia.
Qed.

Lemma C85_words_proof :
forall w, 0 <= w < 65536 ->
  exists byte bits relrow relcol, packed byte bits relrow relcol w /\
    forall byte' bits' relrow' relcol', packed byte' bits' relrow' relcol' w ->
      byte' = byte /\ bits' = bits /\ relrow' = relrow /\ relcol' = relcol.
Proof.
intros w W. exists (w mod 256), (w / 256 mod 64), (32768 <=? w), (1 <=? w / 16384 mod 2). split.
- unfold packed, flag. destruct (32768 <=? w) eqn:E, (1 <=? w / 16384 mod 2) eqn:F; lia.
- intros a b r c (A & B & E). destruct r, c; unfold flag in E; (split; [lia|]; split; [lia|]; split; lia).
Qed.

Lemma meant_back rel n z z' out : 0 <= z < n -> 0 <= z' < n -> meant rel n z out -> meant rel n z' out -> z = z'.
Proof.
  intros Z1 Z2 [(-> & ->)|(-> & B & k & E)] [(? & F)|(? & _ & k' & F)]; try congruence.
  subst z z'. assert (k = k') by nia. subst k'. reflexivity.
Qed.
Lemma meant_one rel n z out out' : meant rel n z out -> meant rel n z out' -> out = out'.
Proof.
  intros [(-> & ->)|(-> & B & k & E)] [(? & F)|(? & B' & k' & F)]; try congruence.
  subst z. assert (k = k') by nia. subst k'. lia.
Qed.

Lemma C85_lossless_proof :
forall r1 w1 r2 w2, 0 <= r1 < 65536 -> 0 <= w1 < 65536 -> 0 <= r2 < 65536 -> 0 <= w2 < 65536 ->
  (expand_cell_address r1 w1 = expand_cell_address r2 w2 <->
   r1 = r2 /\ w1 mod 256 = w2 mod 256 /\ w1 / 16384 = w2 / 16384).
Proof.
intros r1 w1 r2 w2 R1 W1 R2 W2.
destruct (C85_words_proof w1 W1) as (b1 & x1 & rr1 & rc1 & P1 & _). destruct (C85_words_proof w2 W2) as (b2 & x2 & rr2 & rc2 & P2 & _).
destruct (C85_expand_proof r1 w1 b1 x1 rr1 rc1 R1 P1) as (o1 & c1 & E1 & M1 & N1).
destruct (C85_expand_proof r2 w2 b2 x2 rr2 rc2 R2 P2) as (o2 & c2 & E2 & M2 & N2).
rewrite E1, E2. destruct P1 as (A1 & B1 & P1), P2 as (A2 & B2 & P2). split.
- intro E. injection E as -> -> -> ->. pose proof (meant_back _ _ _ _ _ R1 R2 M1 M2). pose proof (meant_back _ _ _ _ _ A1 A2 N1 N2).
  split; [assumption|]. subst b2. destruct rr2, rc2; unfold flag in *; lia.
- intros (-> & E & F). assert (b1 = b2) by (destruct rr1, rc1, rr2, rc2; unfold flag in *; lia). subst b2.
  assert (rr1 = rr2 /\ rc1 = rc2) as (-> & ->) by (destruct rr1, rc1, rr2, rc2; unfold flag in *; split; try reflexivity; lia).
  rewrite (meant_one _ _ _ _ _ M1 M2), (meant_one _ _ _ _ _ N1 N2). reflexivity.
Qed.

Lemma distance_is z : distance z (relative_part z).
Proof.
  exists (str_of_Z (Z.abs z)). split; [apply str_of_Z_decimal|]. unfold relative_part.
  destruct (z <? 0); reflexivity.
Qed.

Lemma C85_display_proof :
forall r c relrow relcol,
  (relcol = true \/ 0 <= c -> exists a b, display_cell_address r c relrow relcol = Ok (a ++ b) /\ col_part relcol c a /\ row_part relrow r b) /\
  (relcol = false -> c < 0 -> display_cell_address r c relrow relcol = Err AssertionError).
Proof.
intros r c rr rc. split.
- intro H. assert (R : row_part rr r (if rr then relative_part r else lit "$" ++ str_of_Z (r + 1))).
  { destruct rr; [left; split; [reflexivity|apply distance_is]|right]. split; [reflexivity|].
    exists (str_of_Z (r + 1)). split; [apply str_of_Z_decimal|reflexivity]. }
  unfold display_cell_address. destruct rc; cbn [bind].
  + eexists _, _. split; [reflexivity|]. split; [left; split; [reflexivity|apply distance_is]|exact R].
  + destruct H as [H|H]; [discriminate|]. destruct (book_colname_spec c H) as (s & E & NE & Cs & V). rewrite E. cbn [bind].
    eexists _, _. split; [reflexivity|]. split; [|exact R]. right. split; [reflexivity|]. exists s. split; [|reflexivity].
    split; [exact NE|]. split; [exact Cs|]. rewrite column_no_hn. lia.
- intros -> C. unfold display_cell_address, book_colname. replace (c <? 0) with true by lia. reflexivity.
Qed.

Lemma distance_one z z' a b a' b' : distance z a -> distance z' a' -> a ++ b = a' ++ b' -> z = z' /\ b = b'.
Proof.
  intros (d & D & ->) (d' & D' & ->) E. simpl in E. injection E as S E. rewrite <- !app_assoc in E. simpl in E.
  apply split_first in E as (-> & ->).
  - pose proof (decimal_one _ _ _ D D'). split; [|reflexivity]. destruct (z <? 0) eqn:X, (z' <? 0) eqn:Y; try discriminate; lia.
  - intro H. apply (decimal_chars _ _ _ D) in H. lia.
  - intro H. apply (decimal_chars _ _ _ D') in H. lia.
Qed.
Lemma row_one rel r rel' r' b : row_part rel r b -> row_part rel' r' b -> r = r' /\ rel = rel'.
Proof.
  intros [(-> & D)|(-> & d & D & ->)] [(-> & D')|(-> & d' & D' & E)].
  - split; [|reflexivity]. exact (proj1 (distance_one r r' b [] b [] D D' eq_refl)).
  - destruct D as (? & _ & ->). discriminate.
  - destruct D' as (? & _ & ?). discriminate.
  - injection E as <-. split; [|reflexivity]. pose proof (decimal_one _ _ _ D D'). lia.
Qed.
Lemma letters_end c c' l l' b b' : letters c l -> letters c' l' -> (forall x t, b = x :: t -> x = 36%N \/ x = 40%N) ->
  (forall x t, b' = x :: t -> x = 36%N \/ x = 40%N) -> l ++ b = l' ++ b' -> l = l' /\ b = b'.
Proof.
  intros (_ & L & _) (_ & L' & _) B B'. revert l' L'. induction l as [|x l IH]; intros l' L' E.
  - destruct l' as [|y l']; [auto|]. simpl in E. specialize (B y (l' ++ b') E). inversion L'; subst. unfold capital in *. lia.
  - destruct l' as [|y l'].
    + simpl in E. specialize (B' x (l ++ b) (eq_sym E)). inversion L; subst. unfold capital in *. lia.
    + simpl in E. injection E as <- E. inversion L; subst. inversion L'; subst. destruct (IH ltac:(assumption) l') as (-> & ->); auto.
Qed.
Lemma row_head rel r b x t : row_part rel r b -> b = x :: t -> x = 36%N \/ x = 40%N.
Proof.
  intros [(_ & d & _ & ->)|(_ & d & _ & ->)] E; injection E as <- _; auto.
Qed.
Lemma parts_one rr r rc c rr' r' rc' c' a b a' b' : col_part rc c a -> row_part rr r b -> col_part rc' c' a' -> row_part rr' r' b' ->
  a ++ b = a' ++ b' -> r = r' /\ c = c' /\ rr = rr' /\ rc = rc'.
Proof.
  intros [(-> & D)|(-> & l & L & ->)] R [(-> & D')|(-> & l' & L' & ->)] R' E.
  - destruct (distance_one c c' a b a' b' D D' E) as (-> & <-). destruct (row_one _ _ _ _ _ R R') as (-> & ->). auto.
  - destruct D as (? & _ & ->). discriminate.
  - destruct D' as (? & _ & ->). discriminate.
  - simpl in E. injection E as E. destruct (letters_end c c' l l' b b' L L') as (<- & <-); auto.
    + intros x t. exact (row_head _ _ _ _ _ R).
    + intros x t. exact (row_head _ _ _ _ _ R').
    + destruct (row_one _ _ _ _ _ R R') as (-> & ->). destruct L as (_ & _ & <-), L' as (_ & _ & <-). auto.
Qed.
Lemma display_parts r c rr rc s : display_cell_address r c rr rc = Ok s -> exists a b, s = a ++ b /\ col_part rc c a /\ row_part rr r b.
Proof.
  intro E. destruct (C85_display_proof r c rr rc) as (P & Q). destruct rc.
  - destruct (P (or_introl eq_refl)) as (a & b & F & A & B). exists a, b. split; [congruence|auto].
  - destruct (Z_lt_le_dec c 0) as [N|N]; [rewrite (Q eq_refl N) in E; discriminate|].
    destruct (P (or_intror N)) as (a & b & F & A & B). exists a, b. split; [congruence|auto].
Qed.

Lemma C85_texts_proof :
forall r c relrow relcol r' c' relrow' relcol' s,
  display_cell_address r c relrow relcol = Ok s -> display_cell_address r' c' relrow' relcol' = Ok s ->
  r = r' /\ c = c' /\ relrow = relrow' /\ relcol = relcol'.
Proof.
intros r c rr rc r' c' rr' rc' s E E'. apply display_parts in E as (a & b & -> & A & B). apply display_parts in E' as (a' & b' & E & A' & B').
exact (parts_one _ _ _ _ _ _ _ _ _ _ _ _ A B A' B' E).
Qed.

Lemma C85_stored_proof :
forall r1 w1 r2 w2, 0 <= r1 < 65536 -> 0 <= w1 < 65536 -> 0 <= r2 < 65536 -> 0 <= w2 < 65536 ->
  let text r w := let '(a, b, x, y) := expand_cell_address r w in display_cell_address a b x y in
  (exists s, text r1 w1 = Ok s) /\
  (text r1 w1 = text r2 w2 <-> r1 = r2 /\ w1 mod 256 = w2 mod 256 /\ w1 / 16384 = w2 / 16384).
Proof.
intros r1 w1 r2 w2 R1 W1 R2 W2 text.
assert (T : forall r w, 0 <= r < 65536 -> 0 <= w < 65536 -> exists s, text r w = Ok s).
{ intros r w R W. unfold text. destruct (C85_words_proof w W) as (b & x & rr & rc & P & _).
  destruct (C85_expand_proof r w b x rr rc R P) as (o & c & -> & _ & N).
  destruct (proj1 (C85_display_proof o c rr rc)) as (a & d & -> & _); [|eauto].
  destruct rc; [auto|right]. destruct N as [(_ & ->)|(? & _)]; [destruct P as (? & _); lia|discriminate]. }
split; [apply T; assumption|]. rewrite <- (C85_lossless_proof r1 w1 r2 w2 R1 W1 R2 W2). split.
- intro E. destruct (T r1 w1 R1 W1) as (s & S). rewrite S in E. symmetry in E. unfold text in S, E.
  destruct (expand_cell_address r1 w1) as [[[a b] x] y], (expand_cell_address r2 w2) as [[[a' b'] x'] y'].
  destruct (C85_texts_proof _ _ _ _ _ _ _ _ _ S E) as (-> & -> & -> & ->). reflexivity.
- intro E. unfold text. rewrite E. reflexivity.
Qed.

Lemma metric_is rgb : forall c acc, exists d, apart rgb c d /\ metric_loop rgb c acc = acc + d.
Proof.
  induction rgb as [|x rgb IH]; intros c acc; [exists 0; split; [constructor|simpl; lia]|].
  destruct c as [|y c]; [exists 0; split; [constructor|simpl; lia]|].
  destruct (IH c (acc + (x - y) * (x - y))) as (d & A & E). exists ((x - y) ^ 2 + d). split; [constructor; exact A|].
  simpl metric_loop. rewrite E. lia.
Qed.
Lemma apart_one l m d d' : apart l m d -> apart l m d' -> d = d'.
Proof.
  intro A. revert d'. induction A; intros d' A'; inversion A'; subst; try reflexivity. f_equal. apply IHA. assumption.
Qed.
Lemma apart_pos l m d : apart l m d -> 0 <= d.
Proof. induction 1; nia. Qed.
Lemma metric_apart rgb c : apart rgb c (metric_loop rgb c 0).
Proof. destruct (metric_is rgb c 0) as (d & A & E). rewrite E. exact A. Qed.
(** The colour chosen among [items], none of which needs be nearer than [m]. *)
Lemma loop_is rgb items : forall m k0,
  (exists k before c after d, nearest_loop items rgb m k0 = k /\ items = before ++ (k, Some c) :: after /\ apart rgb c d /\ d < m /\
    (forall k' c' d', In (k', Some c') items -> apart rgb c' d' -> d <= d') /\
    (forall k' c' d', In (k', Some c') before -> apart rgb c' d' -> d < d')) \/
  nearest_loop items rgb m k0 = k0 /\ forall k c d, In (k, Some c) items -> apart rgb c d -> m <= d.
Proof.
  induction items as [|(k, [c|]) items IH]; intros m k0.
  - right. split; [reflexivity|]. intros ? ? ? [].
  - simpl nearest_loop. pose proof (metric_apart rgb c) as A. set (d := metric_loop rgb c 0) in *. destruct (d <? m) eqn:L.
    + assert (D : forall k' c' d', (k', Some c') = (k, Some c) -> apart rgb c' d' -> d' = d).
      { intros k' c' d' E F. injection E as -> ->. exact (apart_one _ _ _ _ F A). }
      destruct (d =? 0) eqn:Z0.
      * left. exists k, [], c, items, d. split; [reflexivity|]. split; [reflexivity|]. split; [exact A|]. split; [lia|].
        split; [|intros ? ? ? []]. intros k' c' d' _ F. apply apart_pos in F. lia.
      * destruct (IH d k) as [(k1 & before & c1 & after & d1 & E & -> & A1 & L1 & M1 & F1)|(E & M1)].
        { left. exists k1, ((k, Some c) :: before), c1, after, d1. split; [exact E|]. split; [reflexivity|]. split; [exact A1|].
          split; [lia|]. split.
          - intros k' c' d' [H|H] F; [rewrite (D k' c' d' (eq_sym H) F); lia|eauto].
          - intros k' c' d' [H|H] F; [rewrite (D k' c' d' (eq_sym H) F); lia|eauto]. }
        { left. exists k, [], c, items, d. split; [exact E|]. split; [reflexivity|]. split; [exact A|]. split; [lia|].
          split; [|intros ? ? ? []]. intros k' c' d' [H|H] F; [rewrite (D k' c' d' (eq_sym H) F); lia|eauto]. }
    + destruct (IH m k0) as [(k1 & before & c1 & after & d1 & E & -> & A1 & L1 & M1 & F1)|(E & M1)].
      * left. exists k1, ((k, Some c) :: before), c1, after, d1. split; [exact E|]. split; [reflexivity|]. split; [exact A1|].
        split; [lia|]. split; intros k' c' d' [H|H] F; eauto; injection H as -> ->; rewrite (apart_one _ _ _ _ F A); lia.
      * right. split; [exact E|]. intros k' c' d' [H|H] F; [|eauto]. injection H as -> ->. rewrite (apart_one _ _ _ _ F A). lia.
  - simpl nearest_loop. destruct (IH m k0) as [(k1 & before & c1 & after & d1 & E & -> & A1 & L1 & M1 & F1)|(E & M1)].
    + left. exists k1, ((k, None) :: before), c1, after, d1. split; [exact E|]. split; [reflexivity|]. split; [exact A1|].
      split; [lia|]. split; intros k' c' d' [H|H] F; eauto; discriminate.
    + right. split; [exact E|]. intros k' c' d' [H|H] F; [discriminate|eauto].
Qed.

Lemma C86_nearest_proof :
forall map rgb,
  nearest map rgb (nearest_colour_index map rgb) \/
  nearest_colour_index map rgb = 0 /\ forall k c d, In (k, Some c) map -> apart rgb c d -> 3 * 256 * 256 <= d.
Proof.
intros map rgb. unfold nearest_colour_index. destruct (loop_is rgb map (3 * 256 * 256) 0) as [(k & before & c & after & d & -> & M & A & L & M1 & F1)|(E & M1)].
- left. exists before, c, after, d. auto.
- right. split; [exact E|exact M1].
Qed.

Lemma apart_colours a b d : colour a -> colour b -> apart a b d -> d < 3 * 256 * 256.
Proof.
  intros (L & A) (M & B) D.
  destruct a as [|a1 [|a2 [|a3 [|]]]]; try discriminate. destruct b as [|b1 [|b2 [|b3 [|]]]]; try discriminate.
  repeat match goal with H : Forall _ (_ :: _) |- _ => inversion H; clear H; subst end.
  assert (E : d = (a1 - b1) ^ 2 + ((a2 - b2) ^ 2 + ((a3 - b3) ^ 2 + 0))) by (eapply apart_one; [exact D|repeat constructor]).
  assert (forall x y, 0 <= x < 256 -> 0 <= y < 256 -> (x - y) ^ 2 <= 255 * 255) by (intros; nia).
  assert ((a1 - b1) ^ 2 <= 255 * 255) by auto. assert ((a2 - b2) ^ 2 <= 255 * 255) by auto. assert ((a3 - b3) ^ 2 <= 255 * 255) by auto. lia.
Qed.

Lemma C86_colours_proof :
forall map rgb k c, colours map -> colour rgb -> In (k, Some c) map -> nearest map rgb (nearest_colour_index map rgb).
Proof.
intros map rgb k c C R I. destruct (C86_nearest_proof map rgb) as [N|(_ & F)]; [exact N|]. exfalso.
pose proof (metric_apart rgb c) as A. pose proof (F _ _ _ I A). pose proof (apart_colours _ _ _ R (C _ _ I) A). lia.
Qed.

Lemma apart_self l : apart l l 0.
Proof. induction l as [|x l IH]; [constructor|]. replace 0 with ((x - x) ^ 2 + 0) by lia. constructor. exact IH. Qed.
Lemma apart_zero l m : apart l m 0 -> length m = length l -> m = l.
Proof.
  intro A. remember 0 as z eqn:Z0. induction A; intro L; try (destruct l; [reflexivity|discriminate]).
  pose proof (apart_pos _ _ _ A). assert (d = 0) by nia. assert (x = y) by nia. subst. simpl in L. f_equal. apply IHA; [reflexivity|lia].
Qed.

Lemma C86_exact_proof :
forall map rgb k, (forall k' c, In (k', Some c) map -> length c = length rgb) -> In (k, Some rgb) map ->
  In (nearest_colour_index map rgb, Some rgb) map.
Proof.
intros map rgb k L I. destruct (C86_nearest_proof map rgb) as [(before & c & after & d & M & A & N & _)|(_ & F)].
- pose proof (N _ _ _ I (apart_self rgb)). pose proof (apart_pos _ _ _ A). assert (d = 0) by lia. subst d.
  assert (J : In (nearest_colour_index map rgb, Some c) map) by (rewrite M at 2; apply in_or_app; right; left; reflexivity).
  pose proof (apart_zero _ _ A (L _ _ J)). subst c. exact J.
- pose proof (F _ _ _ I (apart_self rgb)). lia.
Qed.

Lemma chosen map rgb k c d : In (k, Some c) map -> apart rgb c d -> d < 3 * 256 * 256 ->
  (forall k' c' d', In (k', Some c') map -> apart rgb c' d' -> k' = k \/ d < d') -> nearest_colour_index map rgb = k.
Proof.
  intros I A D U. destruct (C86_nearest_proof map rgb) as [(before & c1 & after & d1 & M & A1 & N & _)|(_ & F)].
  - assert (J : In (nearest_colour_index map rgb, Some c1) map) by (rewrite M at 2; apply in_or_app; right; left; reflexivity).
    destruct (U _ _ _ J A1) as [E|E]; [exact E|]. pose proof (N _ _ _ I A). lia.
  - pose proof (F _ _ _ I A). lia.
Qed.

Lemma C86_order_proof :
forall map map' rgb k c d, Permutation map map' -> In (k, Some c) map -> apart rgb c d -> d < 3 * 256 * 256 ->
  (forall k' c' d', In (k', Some c') map -> apart rgb c' d' -> k' = k \/ d < d') ->
  nearest_colour_index map rgb = k /\ nearest_colour_index map' rgb = k.
Proof.
intros map map' rgb k c d P I A D U. split; [eapply chosen; eauto|]. eapply chosen; [|exact A|exact D|].
- exact (Permutation_in _ P I).
- intros k' c' d' J. apply U. exact (Permutation_in _ (Permutation_sym P) J).
Qed.

