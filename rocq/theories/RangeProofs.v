(** * Proofs about the texts of references *)

From Coq Require Import ZArith Lia ZifyBool ZifyNat ZifyN.
From Verif Require Import PyBase PyText PyFloat NumPy ReadXl RangeName SpecRepr SpecXl SpecRange PyBaseFacts ReprProofs XlProofs ReadXlThms.
Open Scope Z_scope.

Lemma colname_letters c : 0 <= c < 702 -> exists l, formula_colname c = Ok l /\ letters c l.
Proof.
  intro C. rewrite (proj1 (C42_two_letters_proof c)) by exact C.
  destruct (book_colname_spec c ltac:(lia)) as (s & E & NE & Cs & V). exists s. split; [exact E|].
  split; [exact NE|]. split; [exact Cs|]. rewrite column_no_hn. lia.
Qed.

Lemma colname_far c : 702 <= c -> formula_colname c = Err IndexError.
Proof.
  intro C. unfold formula_colname. destruct (c <=? 25) eqn:E; [lia|].
  unfold alpha_at at 1. assert (26 <= c / 26 - 1) by lia.
  rewrite (proj2 (py_index_None alphabet (c / 26 - 1))); [reflexivity|]. simpl. lia.
Qed.

Lemma abs_dollar r c : 0 <= c < 702 -> exists s, cellnameabs r c false = Ok s /\ dollar r c s.
Proof.
  intro C. destruct (colname_letters c C) as (l & E & L). unfold cellnameabs. rewrite E. cbn [bind].
  eexists. split; [reflexivity|]. exists l, (str_of_Z (r + 1)). split; [exact L|]. split; [apply str_of_Z_decimal|reflexivity].
Qed.

(** ** The specification tells references apart *)

Lemma split_first {A} (x : A) a b a' b' : ~ In x a -> ~ In x a' -> a ++ x :: b = a' ++ x :: b' -> a = a' /\ b = b'.
Proof.
  revert a'. induction a as [|u a IH]; intros [|u' a'] H H' E; simpl in *.
  - injection E as ->. auto.
  - injection E as -> E. destruct H'. left. reflexivity.
  - injection E as <- E. destruct H. left. reflexivity.
  - injection E as <- E. destruct (IH a') as (-> & ->); auto.
Qed.

Lemma split_last {A} (x : A) a b a' b' : ~ In x b -> ~ In x b' -> a ++ x :: b = a' ++ x :: b' -> a = a' /\ b = b'.
Proof.
  intros H H' E. apply (f_equal (@rev A)) in E. rewrite !rev_app_distr in E. simpl in E. rewrite <- !app_assoc in E. simpl in E.
  apply split_first in E as (X & Y).
  - apply (f_equal (@rev A)) in X, Y. rewrite !rev_involutive in X, Y. auto.
  - rewrite <- in_rev. exact H.
  - rewrite <- in_rev. exact H'.
Qed.

Lemma decimal_one z z' s : decimal z s -> decimal z' s -> z = z'.
Proof.
  intros (d & D & NE & _ & V & ->) (d' & D' & NE' & _ & V' & E).
  destruct (z <? 0) eqn:Z1, (z' <? 0) eqn:Z2; simpl in E.
  - injection E as <-. lia.
  - subst d'. inversion D'; subst. lia.
  - subst d. inversion D; subst. lia.
  - subst d'. lia.
Qed.

Lemma decimal_chars z s c : decimal z s -> In c s -> (48 <= c <= 57)%N \/ c = 45%N.
Proof.
  intros (d & D & _ & _ & _ & ->) H. apply in_app_or in H as [H|H].
  - destruct (z <? 0); [|destruct H]. destruct H as [<-|[]]. right. reflexivity.
  - left. exact (proj1 (Forall_forall _ _) D c H).
Qed.

Lemma decimal_some z s : decimal z s -> s <> [].
Proof. intros (d & _ & N0 & _ & _ & ->). destruct (z <? 0); [discriminate|exact N0]. Qed.

Lemma letters_chars c l x : letters c l -> In x l -> (65 <= x <= 90)%N.
Proof. intros (_ & F & _) H. exact (proj1 (Forall_forall _ _) F x H). Qed.

Lemma dollar_chars r c s x : dollar r c s -> In x s -> (65 <= x <= 90)%N \/ (48 <= x <= 57)%N \/ x = 45%N \/ x = 36%N.
Proof.
  intros (l & d & L & D & ->) H. apply in_app_or in H as [[<-|H]|[<-|H]]; auto.
  - left. exact (letters_chars c l x L H).
  - destruct (decimal_chars _ _ _ D H); auto.
Qed.

Lemma dollar_one r c r' c' s : dollar r c s -> dollar r' c' s -> r = r' /\ c = c'.
Proof.
  intros (l & d & L & D & ->) (l' & d' & L' & D' & E). simpl in E. injection E as E.
  apply split_first in E as (<- & <-).
  - pose proof (decimal_one _ _ _ D D'). destruct L as (_ & _ & <-). destruct L' as (_ & _ & <-). lia.
  - intro H. pose proof (letters_chars _ _ _ L H). lia.
  - intro H. pose proof (letters_chars _ _ _ L' H). lia.
Qed.

Lemma range_one g g' u : range_text g u -> range_text g' u -> g = g'.
Proof.
  destruct g as [[[rlo rhi] clo] chi], g' as [[[rlo' rhi'] clo'] chi'].
  intros (s & t & S1 & T1 & F) (s' & t' & S2 & T2 & F').
  assert (forall r c v, dollar r c v -> ~ In 58%N v) as NC.
  { intros r c v D H. destruct (dollar_chars _ _ _ _ D H) as [|[|[|]]]; lia. }
  pose proof (NC _ _ _ S1) as A1. pose proof (NC _ _ _ S2) as A2.
  destruct F as [(O1 & ->)|(O1 & ->)], F' as [(O2 & E)|(O2 & E)].
  - subst s'. destruct (dollar_one _ _ _ _ _ S1 S2) as (-> & ->). simpl in O1, O2.
    destruct O1 as (-> & ->), O2 as (-> & ->). reflexivity.
  - destruct A1. rewrite E. apply in_or_app. right. left. reflexivity.
  - destruct A2. rewrite <- E. apply in_or_app. right. left. reflexivity.
  - apply split_first in E as (<- & <-); [|exact A1|exact A2].
    destruct (dollar_one _ _ _ _ _ S1 S2) as (-> & ->). destruct (dollar_one _ _ _ _ _ T1 T2) as (X & Y).
    assert (rhi = rhi') as -> by lia. assert (chi = chi') as -> by lia. reflexivity.
Qed.

Lemma range_is g : proper g -> exists u, rangename2d g = Ok u /\ range_text g u.
Proof.
  destruct g as [[[rlo rhi] clo] chi]. intros (R & C & M). unfold rangename2d, range_text, one_cell.
  destruct (abs_dollar rlo clo ltac:(lia)) as (s & E & D).
  destruct (abs_dollar (rhi - 1) (chi - 1) ltac:(lia)) as (t & E' & D').
  rewrite E, E'. cbn [bind]. destruct (_ && _) eqn:X.
  - exists s. split; [reflexivity|]. exists s, t. split; [exact D|]. split; [exact D'|]. left. split; [lia|reflexivity].
  - exists (s ++ lit ":" ++ t). split; [reflexivity|]. exists s, t. split; [exact D|]. split; [exact D'|].
    right. split; [lia|reflexivity].
Qed.

(** ** Sheets *)

Lemma doubled_is n : doubled n (replace1 39 [39; 39]%N n).
Proof.
  induction n as [|c n IH]; [constructor|]. unfold replace1 in *. cbn [flat_map].
  destruct (N.eqb c 39) eqn:E.
  - assert (c = 39%N) as -> by lia. exact (doubled_quote _ _ IH).
  - refine (doubled_other c _ _ _ IH). lia.
Qed.

Lemma doubled_none n : ~ In 39%N n -> doubled n n.
Proof.
  induction n as [|c n IH]; intro H; [constructor|]. apply doubled_other.
  - intros ->. apply H. left. reflexivity.
  - apply IH. intro K. apply H. right. exact K.
Qed.

Lemma doubled_one n m t : doubled n t -> doubled m t -> n = m.
Proof.
  intro D. revert m. induction D as [|n t D IH|c n t C D IH]; intros m E; inversion E; subst; try congruence.
  - f_equal. apply IH. assumption.
  - f_equal. apply IH. assumption.
Qed.

Lemma doubled_chars n t c : doubled n t -> In c t -> In c n.
Proof. induction 1; simpl; intros; intuition. Qed.

Lemma existsb_in c n : existsb (N.eqb c) n = true <-> In c n.
Proof.
  rewrite existsb_exists. split.
  - intros (x & H & E). assert (x = c) as <- by lia. exact H.
  - intro H. exists c. split; [exact H|lia].
Qed.

Lemma shown_is names i n : 0 <= i -> nth_error names (Z.to_nat i) = Some n ->
  exists q, quotedsheetname names i = Ok q /\ shown n q.
Proof.
  intros P H. unfold quotedsheetname. destruct (0 <=? i) eqn:E; [|lia].
  rewrite py_index_nonneg, H by exact P. cbn [bind]. eexists. split; [reflexivity|].
  pose proof (existsb_in 39 n) as Q. pose proof (existsb_in 32 n) as B.
  destruct (existsb (N.eqb 39) n).
  - right. split; [left; apply Q; reflexivity|]. exists (replace1 39 [39; 39]%N n). split; [apply doubled_is|reflexivity].
  - assert (~ In 39%N n) as NQ. { intro K. apply Q in K. discriminate. }
    destruct (existsb (N.eqb 32) n).
    + right. split; [right; apply B; reflexivity|]. exists n. split; [apply doubled_none; exact NQ|reflexivity].
    + left. split; [exact NQ|]. split; [|reflexivity]. intro K. apply B in K. discriminate.
Qed.

Lemma shown_one n m q : shown n q -> shown m q -> n = m.
Proof.
  intros [(A & B & E)|(A & t & D & E)] [(A' & B' & E')|(A' & t' & D' & E')].
  - congruence.
  - subst. destruct A. left. reflexivity.
  - subst. destruct A'. left. reflexivity.
  - subst q. injection E' as E'. apply app_inj_tail in E' as (<- & _). exact (doubled_one _ _ _ D D').
Qed.

Lemma shown_colon n q : ~ In 58%N n -> shown n q -> ~ In 58%N q.
Proof.
  intros H [(_ & _ & ->)|(_ & t & D & ->)]; [exact H|].
  intros [K|K]; [discriminate|]. apply in_app_or in K as [K|[K|[]]]; [|discriminate].
  apply H. exact (doubled_chars _ _ _ D K).
Qed.

Lemma sheets_is names slo shi : 0 <= slo < shi -> shi <= Z.of_nat (length names) ->
  exists u, sheetrange names slo shi = Ok u /\ sheets_text names slo shi u.
Proof.
  intros B L.
  destruct (nth_error names (Z.to_nat slo)) as [n|] eqn:X; [|apply nth_error_None in X; lia].
  destruct (nth_error names (Z.to_nat (shi - 1))) as [m|] eqn:Y; [|apply nth_error_None in Y; lia].
  destruct (shown_is names slo n ltac:(lia) X) as (s & E & S1).
  destruct (shown_is names (shi - 1) m ltac:(lia) Y) as (t & E' & T1).
  unfold sheetrange. rewrite E, E'. cbn [bind]. destruct (slo =? shi - 1) eqn:Q; cbn [negb].
  - exists s. split; [reflexivity|]. exists n, m, s, t. split; [exact X|]. split; [exact Y|]. split; [exact S1|].
    split; [exact T1|]. left. split; [lia|reflexivity].
  - exists (s ++ lit ":" ++ t). split; [reflexivity|]. exists n, m, s, t. split; [exact X|]. split; [exact Y|]. split; [exact S1|].
    split; [exact T1|]. right. split; [lia|reflexivity].
Qed.

Lemma sheets_one names slo shi slo' shi' u : NoDup names -> Forall (fun n => ~ In 58%N n) names ->
  0 <= slo < shi -> 0 <= slo' < shi' ->
  sheets_text names slo shi u -> sheets_text names slo' shi' u -> slo = slo' /\ shi = shi'.
Proof.
  intros ND NC B B' (n & m & s & t & X & Y & S1 & T1 & F) (n' & m' & s' & t' & X' & Y' & S2 & T2 & F').
  rewrite Forall_forall in NC.
  assert (forall i n q, nth_error names i = Some n -> shown n q -> ~ In 58%N q) as C.
  { intros i a q H K. apply (shown_colon a); [|exact K]. apply NC. exact (nth_error_In _ _ H). }
  assert (forall i j a, 0 <= i -> 0 <= j -> nth_error names (Z.to_nat i) = Some a -> nth_error names (Z.to_nat j) = Some a -> i = j) as U.
  { intros i j a I0 J0 H K. assert (Z.to_nat i = Z.to_nat j); [|lia].
    apply (proj1 (NoDup_nth_error names) ND); [apply nth_error_Some; congruence|congruence]. }
  pose proof (C _ _ _ X S1) as A1. pose proof (C _ _ _ X' S2) as A2.
  destruct F as [(O1 & ->)|(O1 & ->)], F' as [(O2 & E)|(O2 & E)].
  - subst s'. pose proof (shown_one _ _ _ S1 S2). subst n'. pose proof (U slo slo' n ltac:(lia) ltac:(lia) X X'). lia.
  - destruct A1. rewrite E. apply in_or_app. right. left. reflexivity.
  - destruct A2. rewrite <- E. apply in_or_app. right. left. reflexivity.
  - apply split_first in E as (<- & <-); [|exact A1|exact A2].
    pose proof (shown_one _ _ _ S1 S2). pose proof (shown_one _ _ _ T1 T2). subst n' m'.
    pose proof (U slo slo' n ltac:(lia) ltac:(lia) X X'). pose proof (U (shi - 1) (shi' - 1) m ltac:(lia) ltac:(lia) Y Y'). lia.
Qed.

Lemma range_bang g u : range_text g u -> ~ In 33%N u.
Proof.
  destruct g as [[[rlo rhi] clo] chi]. intros (s & t & S1 & T1 & F) H.
  assert (forall r c v, dollar r c v -> ~ In 33%N v) as NC.
  { intros r c v D K. destruct (dollar_chars _ _ _ _ D K) as [|[|[|]]]; lia. }
  destruct F as [(_ & ->)|(_ & ->)]; [exact (NC _ _ _ S1 H)|].
  apply in_app_or in H as [H|[H|H]]; [exact (NC _ _ _ S1 H)|discriminate|exact (NC _ _ _ T1 H)].
Qed.

(** ** Relative references *)

Lemma col_axis c cr bc r1 : (r1 = true \/ bc = None) -> exists s, colnamerel c cr bc r1 = Ok s /\ axis 67 cr c s.
Proof.
  intro H. unfold colnamerel.
  assert ((match bc with None => true | Some _ => r1 end) = true) as ->. { destruct bc; [destruct H; congruence|reflexivity]. }
  cbv zeta. unfold axis. destruct cr; cbn [negb].
  - destruct (c =? 0) eqn:E; cbn [negb]; eexists; (split; [reflexivity|]).
    + right. left. split; [reflexivity|]. split; [lia|reflexivity].
    + right. right. split; [reflexivity|]. split; [lia|]. exists (str_of_Z c). split; [apply str_of_Z_decimal|reflexivity].
  - eexists. split; [reflexivity|]. left. split; [reflexivity|]. exists (str_of_Z (c + 1)). split; [apply str_of_Z_decimal|reflexivity].
Qed.

Lemma row_axis r rr br r1 : (r1 = true \/ br = None) -> axis 82 rr r (rownamerel r rr br r1).
Proof.
  intro H. unfold rownamerel.
  assert ((match br with None => true | Some _ => r1 end) = true) as ->. { destruct br; [destruct H; congruence|reflexivity]. }
  cbv zeta. unfold axis. destruct rr; cbn [negb].
  - destruct (r =? 0) eqn:E; cbn [negb].
    + right. left. split; [reflexivity|]. split; [lia|reflexivity].
    + right. right. split; [reflexivity|]. split; [lia|]. exists (str_of_Z r). split; [apply str_of_Z_decimal|reflexivity].
  - left. split; [reflexivity|]. exists (str_of_Z (r + 1)). split; [apply str_of_Z_decimal|reflexivity].
Qed.

Lemma axis_one x rel z rel' z' s : axis x rel z s -> axis x rel' z' s -> rel = rel' /\ z = z'.
Proof.
  assert (forall z d, decimal z d -> forall c l, d = c :: l -> c <> 91%N) as NB.
  { intros y d D c l -> ->. destruct (decimal_chars _ _ 91%N D (or_introl eq_refl)); lia. }
  intros [(-> & d & D & ->)|[(-> & -> & ->)|(-> & Z0 & d & D & ->)]]
         [(-> & d' & D' & E)|[(-> & -> & E)|(-> & Z1 & d' & D' & E)]]; try discriminate.
  - injection E as <-. split; [reflexivity|]. pose proof (decimal_one _ _ _ D D'). lia.
  - injection E as E. destruct (decimal_some _ _ D E).
  - injection E as E. destruct (NB _ _ D _ _ E eq_refl).
  - injection E as E. destruct (decimal_some _ _ D' (eq_sym E)).
  - split; reflexivity.
  - injection E as E. destruct (NB _ _ D' _ _ (eq_sym E) eq_refl).
  - injection E as E. apply app_inj_tail in E as (<- & _). split; [reflexivity|]. exact (decimal_one _ _ _ D D').
Qed.

Lemma axis_chars x rel z s c : axis x rel z s -> In c s -> c = x \/ (48 <= c <= 57)%N \/ c = 45%N \/ c = 91%N \/ c = 93%N.
Proof.
  intros [(-> & d & D & ->)|[(-> & -> & ->)|(-> & Z0 & d & D & ->)]] H.
  - destruct H as [<-|H]; auto. destruct (decimal_chars _ _ _ D H); auto.
  - destruct H as [<-|[]]; auto.
  - destruct H as [<-|[<-|H]]; auto. apply in_app_or in H as [H|[<-|[]]]; auto 6. destruct (decimal_chars _ _ _ D H); auto.
Qed.

Lemma axis_head x rel z s : axis x rel z s -> exists t, s = x :: t.
Proof. intros [(_ & d & _ & ->)|[(_ & _ & ->)|(_ & _ & d & _ & ->)]]; eexists; reflexivity. Qed.

Lemma r1c1_is r c rr cr br bc r1 : r1 = true \/ (rr = true /\ br = None) \/ (cr = true /\ bc = None) ->
  exists s t, cellnamerel r c rr cr br bc r1 = Ok (s ++ t) /\ axis 82 rr r s /\ axis 67 cr c t.
Proof.
  intro H. unfold cellnamerel. destruct (negb rr && negb cr) eqn:A.
  - assert (rr = false) as -> by (destruct rr; [discriminate|reflexivity]).
    assert (cr = false) as -> by (destruct cr; [discriminate|reflexivity]).
    assert (r1 = true) as -> by (destruct H as [H|[(H & _)|(H & _)]]; [exact H|discriminate|discriminate]).
    unfold cellnameabs. exists (lit "R" ++ str_of_Z (r + 1)), (lit "C" ++ str_of_Z (c + 1)).
    rewrite <- !app_assoc. split; [reflexivity|]. split; left; (split; [reflexivity|]); eexists; (split; [apply str_of_Z_decimal|reflexivity]).
  - assert ((if (rr && is_none br) || (cr && is_none bc) then true else r1) = true) as ->.
    { destruct H as [->|[(-> & ->)|(-> & ->)]]; simpl; [destruct (_ || _); reflexivity|reflexivity|rewrite orb_true_r; reflexivity]. }
    cbv zeta. destruct (col_axis c cr bc true (or_introl eq_refl)) as (t & E & T). rewrite E. cbn [bind].
    eexists. exists t. split; [reflexivity|]. split; [|exact T]. apply row_axis. left. reflexivity.
Qed.

Lemma r1c1_one r c rr cr r' c' rr' cr' s t s' t' : axis 82 rr r s -> axis 67 cr c t -> axis 82 rr' r' s' -> axis 67 cr' c' t' ->
  s ++ t = s' ++ t' -> r = r' /\ c = c' /\ rr = rr' /\ cr = cr'.
Proof.
  intros S1 T1 S2 T2 E.
  destruct (axis_head _ _ _ _ T1) as (u & ->). destruct (axis_head _ _ _ _ T2) as (u' & ->).
  apply split_first in E as (<- & <-).
  - destruct (axis_one _ _ _ _ _ _ S1 S2) as (-> & ->). destruct (axis_one _ _ _ _ _ _ T1 T2) as (-> & ->). auto.
  - intro H. destruct (axis_chars _ _ _ _ _ S1 H) as [|[|[|[|]]]]; lia.
  - intro H. destruct (axis_chars _ _ _ _ _ S2 H) as [|[|[|[|]]]]; lia.
Qed.

Lemma a1_is r c rr cr b b' : cr = true \/ 0 <= c < 702 ->
  exists s t, cellnamerel r c rr cr (Some b) (Some b') false = Ok (s ++ t) /\ col_mark cr b' c s /\ row_mark rr b r t.
Proof.
  intro H.
  assert (exists s, colnamerel c cr (Some b') false = Ok s /\ col_mark cr b' c s) as (s & E & S1).
  { unfold colnamerel, col_mark. destruct cr; cbn [negb].
    - assert (0 <= (b' + c) mod 256 < 256) as M by (apply Z.mod_pos_bound; lia).
      destruct (colname_letters ((b' + c) mod 256)) as (l & E & L); [lia|]. exists l. split; [exact E|]. right. split; [reflexivity|].
      exists ((b' + c) mod 256). split; [exact M|]. split; [|exact L]. exists ((b' + c) / 256).
      pose proof (Z.div_mod (b' + c) 256 ltac:(lia)). lia.
    - destruct H as [H|H]; [discriminate|]. destruct (colname_letters c H) as (l & E & L). rewrite E. cbn [bind].
      eexists. split; [reflexivity|]. left. split; [reflexivity|]. exists l. split; [exact L|reflexivity]. }
  assert (row_mark rr b r (rownamerel r rr (Some b) false)) as T1.
  { unfold rownamerel, row_mark. destruct rr; cbn [negb].
    - assert (0 <= (b + r) mod 65536 < 65536) as M by (apply Z.mod_pos_bound; lia).
      right. split; [reflexivity|]. exists ((b + r) mod 65536). split; [exact M|]. split; [|apply str_of_Z_decimal].
      exists ((b + r) / 65536). pose proof (Z.div_mod (b + r) 65536 ltac:(lia)). lia.
    - left. split; [reflexivity|]. exists (str_of_Z (r + 1)). split; [apply str_of_Z_decimal|reflexivity]. }
  unfold cellnamerel. destruct (negb rr && negb cr) eqn:A.
  - assert (rr = false) as -> by (destruct rr; [discriminate|reflexivity]).
    assert (cr = false) as -> by (destruct cr; [discriminate|reflexivity]).
    unfold colnamerel, rownamerel in *. cbn [negb] in *. unfold cellnameabs.
    destruct (formula_colname c) as [l|e]; [|discriminate]. cbn [bind] in *.
    assert (s = lit "$" ++ l) as -> by congruence.
    exists (lit "$" ++ l), (lit "$" ++ str_of_Z (r + 1)). rewrite <- !app_assoc. split; [reflexivity|]. split; assumption.
  - cbv zeta. replace ((rr && is_none (Some b)) || (cr && is_none (Some b'))) with false by (destruct rr, cr; reflexivity).
    rewrite E. cbn [bind]. exists s. eexists. split; [reflexivity|]. split; [exact S1|exact T1].
Qed.
