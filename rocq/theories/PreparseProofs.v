(** * Proofs about the number scanners and preparse *)

From Verif Require Import PyBase PyBaseFacts PyFloat NumPy Pack SpecDbf DbfProofs ReadText SpecChars CharFacts SpecText TextProofs ReadTextThms Preparse SpecPreparse.
From Coq Require Import ZifyBool ZifyNat ZifyN.
Open Scope nat_scope.

(** ** Scanning past characters that belong to no number *)

Definition silent (x c : N) : Prop := ~ digit c /\ c <> x /\ ~ In c [43; 45; 101; 69]%N.

Lemma quiet_silent x c : x = 46%N \/ x = 44%N -> quiet c -> silent x c.
Proof. unfold quiet, silent. cbn [In]. intros [-> | ->] (H & I); repeat split; tauto || (intros ->; tauto). Qed.

Lemma digit_is c : is_decimal c = true <-> digit c.
Proof. apply is_decimal_iff. Qed.

(** A digit is an ASCII digit or far beyond ASCII. *)
Lemma digit_range c : digit c -> (48 <= c <= 57 \/ 1632 <= c)%N.
Proof. intros (d & D). apply digit_where in D. lia. Qed.

Lemma no_digit c : (c < 48 \/ 57 < c < 1632)%N -> ~ digit c.
Proof. intros L D. apply digit_range in D. lia. Qed.

Lemma span_stop a c b : ~ digit c ->
  span is_decimal (a ++ c :: b) = (fst (span is_decimal a), snd (span is_decimal a) ++ c :: b).
Proof.
  intro D. induction a as [|y a IH]; cbn [app span].
  - destruct (is_decimal c) eqn:E; [destruct (D (proj1 (digit_is c) E))|reflexivity].
  - destruct (is_decimal y); [|reflexivity]. rewrite IH. destruct (span is_decimal a). reflexivity.
Qed.

Lemma opt_sign_stop x a c b : silent x c ->
  opt_sign (a ++ c :: b) = (fst (opt_sign a), snd (opt_sign a) ++ c :: b).
Proof.
  intros (_ & _ & I). destruct a as [|y a]; cbn [app opt_sign].
  - assert ((c =? 45)%N || (c =? 43)%N = false) as -> by (cbn [In] in I; lia). reflexivity.
  - destruct ((y =? 45)%N || (y =? 43)%N); reflexivity.
Qed.

Lemma mantissa_stop x a c b : silent x c ->
  mantissa x (a ++ c :: b) = match mantissa x a with Some (m, r) => Some (m, r ++ c :: b) | None => None end.
Proof.
  intros (D & X & _). unfold mantissa. rewrite span_stop by exact D.
  destruct (span is_decimal a) as [ip r]. cbn [fst snd].
  destruct ip as [|i ip]; destruct r as [|y r]; cbn [app].
  - assert ((c =? x)%N = false) as -> by lia. reflexivity.
  - destruct (y =? x)%N; [|reflexivity]. rewrite span_stop by exact D. destruct (span is_decimal r) as [fp r']. cbn [fst snd].
    destruct fp; reflexivity.
  - assert ((c =? x)%N = false) as -> by lia. reflexivity.
  - destruct (y =? x)%N; [|reflexivity]. rewrite span_stop by exact D. destruct (span is_decimal r) as [fp r']. reflexivity.
Qed.

Lemma opt_exponent_stop x a c b : silent x c ->
  opt_exponent (a ++ c :: b) = (fst (opt_exponent a), snd (opt_exponent a) ++ c :: b).
Proof.
  intros S. pose proof S as (D & X & I). destruct a as [|y a]; cbn [app opt_exponent].
  - assert ((c =? 69)%N || (c =? 101)%N = false) as -> by (cbn [In] in I; lia). reflexivity.
  - destruct ((y =? 69)%N || (y =? 101)%N); [|reflexivity].
    rewrite (opt_sign_stop x) by exact S. destruct (opt_sign a) as [sg r]. cbn [fst snd].
    rewrite span_stop by exact D. destruct (span is_decimal r) as [d r']. cbn [fst snd]. destruct d; reflexivity.
Qed.

Lemma match_num_stop x a c b : silent x c ->
  match_num x (a ++ c :: b) = match match_num x a with Some (m, r) => Some (m, r ++ c :: b) | None => None end.
Proof.
  intro S. unfold match_num. rewrite (opt_sign_stop x) by exact S. destruct (opt_sign a) as [sg r]. cbn [fst snd].
  rewrite mantissa_stop by exact S. destruct (mantissa x r) as [[m r']|]; [|reflexivity].
  rewrite (opt_exponent_stop x) by exact S. destruct (opt_exponent r') as [e r'']. reflexivity.
Qed.

(** Matches are prefixes, and not empty. *)
Lemma span_eq p s : s = fst (span p s) ++ snd (span p s).
Proof. induction s as [|c s IH]; [reflexivity|]. cbn [span]. destruct (p c); [|reflexivity]. destruct (span p s). cbn in *. congruence. Qed.

Lemma opt_sign_eq s : s = fst (opt_sign s) ++ snd (opt_sign s).
Proof. destruct s as [|c s]; [reflexivity|]. cbn [opt_sign]. destruct (_ || _); reflexivity. Qed.

Lemma mantissa_eq x s m r : mantissa x s = Some (m, r) -> s = m ++ r /\ m <> [].
Proof.
  unfold mantissa. pose proof (span_eq is_decimal s) as E. destruct (span is_decimal s) as [ip r0]. cbn [fst snd] in E.
  destruct ip as [|i ip]; destruct r0 as [|c r0]; try discriminate.
  - destruct (c =? x)%N; [|discriminate]. pose proof (span_eq is_decimal r0) as E2. destruct (span is_decimal r0) as [fp r']. cbn [fst snd] in E2.
    destruct fp; [discriminate|]. intro H. injection H as <- <-. split; [cbn in *; congruence|discriminate].
  - intro H. injection H as <- <-. split; [exact E|discriminate].
  - destruct (c =? x)%N.
    + pose proof (span_eq is_decimal r0) as E2. destruct (span is_decimal r0) as [fp r']. cbn [fst snd] in E2.
      intro H. injection H as <- <-. split; [|discriminate]. rewrite E, E2. cbn. rewrite <- app_assoc. reflexivity.
    + intro H. injection H as <- <-. split; [exact E|discriminate].
Qed.

Lemma opt_exponent_eq s : s = fst (opt_exponent s) ++ snd (opt_exponent s).
Proof.
  destruct s as [|c s]; [reflexivity|]. cbn [opt_exponent]. destruct (_ || _); [|reflexivity].
  pose proof (opt_sign_eq s) as E. destruct (opt_sign s) as [sg r]. cbn [fst snd] in E.
  pose proof (span_eq is_decimal r) as E2. destruct (span is_decimal r) as [d r']. cbn [fst snd] in E2.
  destruct d; [reflexivity|]. cbn [fst snd app]. rewrite <- app_assoc, E, E2. reflexivity.
Qed.

Lemma match_num_eq x s m r : match_num x s = Some (m, r) -> s = m ++ r /\ m <> [].
Proof.
  unfold match_num. pose proof (opt_sign_eq s) as E. destruct (opt_sign s) as [sg r1]. cbn [fst snd] in E.
  destruct (mantissa x r1) as [[m1 r2]|] eqn:M; [|discriminate]. apply mantissa_eq in M. destruct M as [M N].
  pose proof (opt_exponent_eq r2) as E2. destruct (opt_exponent r2) as [e r3]. cbn [fst snd] in E2.
  intro H. injection H as <- <-. split.
  - rewrite E, M, E2, <- !app_assoc. reflexivity.
  - destruct sg; [|discriminate]. destruct m1; [congruence|discriminate].
Qed.

Lemma findall_stop x c b : silent x c -> forall a k, k <= length a ->
  findall x k (a ++ c :: b) = findall x k a ++ findall x 0 b.
Proof.
  intro S. induction a as [|y a IH]; intros k K.
  - cbn [length] in K. assert (k = 0) as -> by lia. cbn [app findall].
    pose proof (match_num_stop x [] c b S) as M. cbn in M. cbn [app] in M. rewrite M. reflexivity.
  - cbn [app findall]. destruct k as [|k]; [|apply IH; cbn in K; lia].
    pose proof (match_num_stop x (y :: a) c b S) as M. cbn [app] in M. rewrite M.
    destruct (match_num x (y :: a)) as [[m r]|] eqn:Q.
    + cbn [app]. f_equal. apply IH. apply match_num_eq in Q. destruct Q as [Q _].
      apply (f_equal (@length N)) in Q. rewrite app_length in Q. cbn in Q. lia.
    + apply IH. lia.
Qed.

Lemma findall_quiet x q b : Forall (silent x) q -> forall a, q <> [] -> findall x 0 (a ++ q ++ b) = findall x 0 a ++ findall x 0 b.
Proof.
  induction 1 as [|c q S F IH]; intros a N; [congruence|]. cbn [app].
  rewrite findall_stop by (assumption || lia). f_equal. destruct q as [|c' q]; [reflexivity|].
  apply (IH []). discriminate.
Qed.

Lemma findall_pre x q b : Forall (silent x) q -> findall x 0 (q ++ b) = findall x 0 b.
Proof. intro F. destruct q as [|c q]; [reflexivity|]. apply (findall_quiet x (c :: q) b F []). discriminate. Qed.

Lemma findall_post x q a : Forall (silent x) q -> findall x 0 (a ++ q) = findall x 0 a.
Proof.
  intro F. destruct q as [|c q]; [rewrite app_nil_r; reflexivity|].
  pose proof (findall_quiet x (c :: q) [] F a ltac:(discriminate)) as E. rewrite !app_nil_r in E. exact E.
Qed.

(** ** Numerals *)

Lemma span_digits d r : Forall digit d -> match r with c :: _ => ~ digit c | [] => True end ->
  span is_decimal (d ++ r) = (d, r).
Proof.
  intros D R. apply span_app.
  - eapply Forall_impl; [|exact D]. intros c. apply digit_is.
  - destruct r as [|c r]; [exact I|]. destruct (is_decimal c) eqn:E; [destruct (R (proj1 (digit_is c) E))|reflexivity].
Qed.

Lemma exponent_head e : exponent_of e -> match e with c :: _ => c = 101%N \/ c = 69%N | [] => True end.
Proof. intros [->|(c & sg & d & -> & C & _)]; [exact I|exact C]. Qed.

Lemma digits_sign sg d r : sign sg -> Forall digit d -> d <> [] -> opt_sign (sg ++ d ++ r) = (sg, d ++ r).
Proof.
  intros S D N. destruct d as [|c d]; [congruence|]. inversion D as [|? ? D1 D2]; subst. apply digit_range in D1.
  destruct S as [->|[->| ->]]; cbn [app opt_sign].
  - assert ((c =? 45)%N || (c =? 43)%N = false) as -> by lia. reflexivity.
  - reflexivity.
  - reflexivity.
Qed.

Lemma exponent_scan e : exponent_of e -> opt_exponent e = (e, []).
Proof.
  intros [->|(c & sg & d & -> & C & S & D & N)]; [reflexivity|]. cbn [opt_exponent].
  assert ((c =? 69)%N || (c =? 101)%N = true) as -> by lia.
  pose proof (digits_sign sg d [] S D N) as E. rewrite app_nil_r in E. rewrite E.
  pose proof (span_digits d [] D I) as E2. rewrite app_nil_r in E2. rewrite E2. destruct d; [congruence|reflexivity].
Qed.

Definition decimal (x : N) : Prop := x = 46%N \/ x = 44%N.

Lemma mantissa_scan x m e : decimal x -> mantissa_of x m -> exponent_of e -> mantissa x (m ++ e) = Some (m, e).
Proof.
  intros X M E. pose proof (exponent_head e E) as H. unfold mantissa.
  assert (ND : match e with c :: _ => ~ digit c | [] => True end) by (destruct e; [exact I|apply no_digit; lia]).
  destruct M as [[N D]|(a & b & -> & A & B & AB)].
  - rewrite span_digits by assumption. destruct m as [|c m]; [congruence|]. destruct e as [|y e]; [reflexivity|].
    assert ((y =? x)%N = false) as -> by (destruct X; lia). reflexivity.
  - rewrite <- app_assoc. cbn [app]. rewrite span_digits; [|assumption|destruct X; apply no_digit; lia].
    rewrite N.eqb_refl. rewrite span_digits by assumption.
    destruct a as [|c a]; [|reflexivity]. destruct b; [cbn in AB; congruence|reflexivity].
Qed.

Lemma mantissa_no_sign x m e : decimal x -> mantissa_of x m -> opt_sign (m ++ e) = ([], m ++ e).
Proof.
  intros X M. assert (H : exists c r, m = c :: r /\ (digit c \/ c = x)).
  { destruct M as [[N D]|(a & b & -> & A & _)].
    - destruct D as [|c m D1 D2]; [congruence|]. exists c, m. auto.
    - destruct A as [|c a A1 A2]; [exists x, b; auto|]. cbn. exists c, (a ++ x :: b). auto. }
  destruct H as (c & r & -> & C). cbn [app opt_sign].
  assert ((c =? 45)%N || (c =? 43)%N = false) as -> by (destruct C as [C|C]; [apply digit_range in C; lia|destruct X; lia]). reflexivity.
Qed.

Lemma numeral_scan x n : decimal x -> numeral x n -> match_num x n = Some (n, []).
Proof.
  intros X (sg & m & e & -> & S & M & E). unfold match_num.
  assert (O : opt_sign (sg ++ m ++ e) = (sg, m ++ e)).
  { destruct S as [->|[->| ->]]; [exact (mantissa_no_sign x m e X M)|reflexivity|reflexivity]. }
  rewrite O, mantissa_scan by assumption. rewrite exponent_scan by assumption. reflexivity.
Qed.

Lemma findall_skip x s : forall k, length s <= k -> findall x k s = [].
Proof.
  induction s as [|c s IH]; intros k K; [reflexivity|]. cbn [length] in K. destruct k as [|k]; [lia|]. cbn [findall]. apply IH. lia.
Qed.

Lemma numeral_nonempty x n : numeral x n -> n <> [].
Proof.
  intros (sg & m & e & -> & S & M & E) H. apply app_eq_nil in H. destruct H as [_ H]. apply app_eq_nil in H. destruct H as [-> _].
  destruct M as [[N _]|(a & b & H & _)]; [congruence|]. destruct a; discriminate.
Qed.

Lemma findall_numeral x n : decimal x -> numeral x n -> findall x 0 n = [n].
Proof.
  intros X H. pose proof (numeral_scan x n X H) as M. pose proof (numeral_nonempty x n H) as N.
  destruct n as [|c n]; [congruence|]. cbn [findall]. rewrite M. rewrite findall_skip by (cbn [length]; lia). reflexivity.
Qed.

Lemma mantissa_of_exists x m : mantissa_of x m -> Exists digit m.
Proof.
  intros [[N D]|(a & b & -> & A & B & AB)].
  - destruct D; [congruence|]. constructor. assumption.
  - apply Exists_app. destruct A; [right|left; constructor; assumption]. right. destruct B; [cbn in AB; congruence|].
    constructor. assumption.
Qed.

Lemma numeral_digit x n : numeral x n -> Exists digit n.
Proof.
  intros (sg & m & e & -> & S & M & E). apply Exists_app. right. apply Exists_app. left.
  apply (mantissa_of_exists x). exact M.
Qed.

Lemma digit_match x c s : digit c -> match_num x (c :: s) <> None.
Proof.
  intro D. unfold match_num. cbn [opt_sign]. assert ((c =? 45)%N || (c =? 43)%N = false) as -> by (pose proof (digit_range c D); lia).
  unfold mantissa. cbn [span]. rewrite (proj2 (digit_is c) D). destruct (span is_decimal s) as [a r].
  destruct r as [|y r]; [destruct (opt_exponent []); discriminate|]. destruct (y =? x)%N.
  - destruct (span is_decimal r) as [fp r']. destruct (opt_exponent r'). discriminate.
  - destruct (opt_exponent (y :: r)). discriminate.
Qed.

Lemma findall_some x s : Exists digit s -> findall x 0 s <> [].
Proof.
  induction s as [|c s IH]; intro H; [inversion H|]. cbn [findall].
  destruct (match_num x (c :: s)) as [[m r]|] eqn:M; [discriminate|].
  inversion H; subst; [|auto]. destruct (digit_match x c s); assumption.
Qed.

Lemma span_none s : Forall (fun c => ~ digit c) s -> span is_decimal s = ([], s).
Proof. intro F. apply (span_digits [] s (Forall_nil _)). destruct F; [exact I|assumption]. Qed.

Lemma match_num_none x s : Forall (fun c => ~ digit c) s -> match_num x s = None.
Proof.
  intro F. unfold match_num. assert (G : Forall (fun c => ~ digit c) (snd (opt_sign s))).
  { destruct F as [|c s F1 F2]; [constructor|]. cbn [opt_sign]. destruct (_ || _); [exact F2|constructor; assumption]. }
  destruct (opt_sign s) as [sg r]. cbn [snd] in G. unfold mantissa. rewrite span_none by exact G.
  destruct G as [|c r G1 G2]; [reflexivity|]. destruct (c =? x)%N; [|reflexivity]. rewrite span_none by exact G2. reflexivity.
Qed.

Lemma findall_none x s : Forall (fun c => ~ digit c) s -> findall x 0 s = [].
Proof.
  intro F. induction F as [|c s F1 F2 IH]; [reflexivity|]. cbn [findall].
  rewrite match_num_none by (constructor; assumption). exact IH.
Qed.

(** ** The numbers of a line *)

Lemma separator_silent x d g : decimal x -> separator d g -> Forall (silent x) g /\ g <> [].
Proof. intros X (N & Q & _). split; [|exact N]. eapply Forall_impl; [|exact Q]. intro c. apply quiet_silent. exact X. Qed.

Lemma findall_gapped x y d nums mid : decimal y -> gapped d nums mid ->
  (forall n, In n nums -> findall y 0 n = findall x 0 n) -> findall y 0 mid = flat_map (findall x 0) nums.
Proof.
  intros Y G. induction G as [n|n g ns s S G IH]; intro H.
  - cbn. rewrite app_nil_r. apply H. left. reflexivity.
  - destruct (separator_silent y d g Y S) as [F N]. rewrite (findall_quiet y g s F n N). cbn [flat_map]. f_equal.
    + apply H. left. reflexivity.
    + apply IH. intros m M. apply H. right. exact M.
Qed.

Lemma line_numbers y d nums l : decimal y -> (exists x, number_line x d nums l) ->
  findall y 0 l = flat_map (findall y 0) nums.
Proof.
  intros Y (x & _ & pre & mid & post & -> & P1 & P2 & G).
  assert (S : forall q, Forall quiet q -> Forall (silent y) q) by (intros q Q; eapply Forall_impl; [|exact Q]; intro; apply quiet_silent, Y).
  rewrite findall_pre by auto. rewrite findall_post by auto. apply (findall_gapped y y d); auto.
Qed.

Lemma flat_numerals x nums : decimal x -> Forall (numeral x) nums -> flat_map (findall x 0) nums = nums.
Proof.
  intros X F. induction F as [|n nums F1 F2 IH]; [reflexivity|]. cbn [flat_map].
  rewrite findall_numeral by assumption. cbn. congruence.
Qed.

Lemma flat_at_least y (nums : list str) : Forall (Exists digit) nums -> length nums <= length (flat_map (findall y 0) nums).
Proof.
  induction 1 as [|n nums F1 F2 IH]; [reflexivity|]. cbn [flat_map length]. rewrite app_length.
  pose proof (findall_some y n F1). destruct (findall y 0 n); [congruence|]. cbn [length]. lia.
Qed.

Lemma flat_more (nums : list str) : Forall (Exists digit) nums -> Exists (fractional 44) nums ->
  length nums < length (flat_map (findall 46 0) nums).
Proof.
  intros F E. induction E as [n nums (a & b & -> & A & B)|n nums E IH]; inversion F as [|? ? F1 F2]; subst.
  - cbn [flat_map length]. rewrite app_length, findall_stop, app_length by (lia || (split; [apply no_digit; lia|cbn; lia])).
    pose proof (findall_some 46 a A). pose proof (findall_some 46 b B). pose proof (flat_at_least 46 nums F2).
    destruct (findall 46 0 a); [congruence|]. destruct (findall 46 0 b); [congruence|]. cbn [length]. lia.
  - cbn [flat_map length]. rewrite app_length. pose proof (findall_some 46 n F1). specialize (IH F2).
    destruct (findall 46 0 n); [congruence|]. cbn [length]. lia.
Qed.

(** ** The separators of a line *)

Lemma match_gap_find (k : str -> option (list str)) g t gs : g <> [] -> k t = Some gs -> forall j,
  (forall i, 1 <= i <= j -> k (skipn i t) = None) -> match_gap k (length g + j) (g ++ t) = Some (g :: gs).
Proof.
  intros G K. induction j as [|j IH]; intro H.
  - rewrite Nat.add_0_r. destruct g as [|c g]; [congruence|]. cbn [length match_gap].
    rewrite skipn_app. replace (S (length g)) with (length (c :: g)) by reflexivity.
    rewrite skipn_all, Nat.sub_diag. change ([] ++ skipn 0 t) with t. rewrite K.
    rewrite firstn_app, firstn_all, Nat.sub_diag. change (firstn 0 t) with (@nil N). rewrite app_nil_r. reflexivity.
  - rewrite Nat.add_succ_r. cbn [match_gap]. rewrite skipn_app.
    rewrite skipn_all2 by lia. replace (S (length g + j) - length g) with (S j) by lia. cbn [app].
    rewrite H by lia. apply IH. intros i I. apply H. lia.
Qed.

Lemma span_not_digit p c s : Forall (fun c => ~ digit c) p -> digit c -> span not_digit (p ++ c :: s) = (p, c :: s).
Proof.
  intros P D. apply span_app.
  - eapply Forall_impl; [|exact P]. intros y Y. unfold not_digit. destruct (is_decimal y) eqn:E; [destruct (Y (proj1 (digit_is y) E))|reflexivity].
  - unfold not_digit. rewrite (proj2 (digit_is c) D). reflexivity.
Qed.

(** A numeral: what comes before its first digit differs from its first
    character. *)
Lemma numeral_shape x n : decimal x -> numeral x n ->
  exists p c r, n = p ++ c :: r /\ digit c /\ Forall (fun y => ~ digit y) p /\
    (forall y, hd_error p = Some y -> Forall (fun z => z <> y) (tl p)) /\
    (forall y, hd_error n = Some y -> ~ quiet y).
Proof.
  intros X (sg & m & e & -> & S & M & E).
  assert (MS : exists p c r, m = p ++ c :: r /\ digit c /\ (p = [] \/ p = [x])).
  { destruct M as [[N D]|(a & b & -> & A & B & AB)].
    - destruct D as [|c m D1 D2]; [congruence|]. exists [], c, m. auto.
    - destruct A as [|c a A1 A2]; [|exists [], c, (a ++ x :: b); auto].
      destruct B as [|c b B1 B2]; [cbn in AB; congruence|]. exists [x], c, b. auto. }
  destruct MS as (p & c & r & -> & D & P). exists (sg ++ p), c, (r ++ e).
  split; [rewrite <- !app_assoc; reflexivity|]. split; [exact D|].
  assert (NX : ~ digit x) by (apply no_digit; destruct X; lia).
  assert (N1 : ~ digit 45) by (apply no_digit; lia). assert (N2 : ~ digit 43) by (apply no_digit; lia).
  assert (Q : ~ quiet x) by (unfold quiet; cbn [In]; destruct X; intros (_ & Q); apply Q; auto).
  assert (Q1 : ~ quiet 45) by (unfold quiet; cbn [In]; intros (_ & H); apply H; auto).
  assert (Q2 : ~ quiet 43) by (unfold quiet; cbn [In]; intros (_ & H); apply H; auto).
  assert (Q3 : ~ quiet c) by (unfold quiet; tauto).
  assert (X1 : x <> 45%N) by (destruct X; lia). assert (X2 : x <> 43%N) by (destruct X; lia).
  destruct S as [->|[->| ->]]; destruct P as [->| ->]; cbn [app hd_error tl];
    (split; [repeat constructor; assumption|]); split; intros y Y; try discriminate; injection Y as <-; repeat constructor; assumption.
Qed.

Lemma strip_prefix_first a l b s : a <> b -> strip_prefix (a :: l) (b :: s) = None.
Proof. intro N. cbn [strip_prefix]. assert ((a =? b)%N = false) as -> by lia. reflexivity. Qed.

Lemma match_lits_no ls y n s z t : n = y :: s -> y <> z -> match_lits (n :: ls) (z :: t) = None.
Proof. intros -> N. cbn [match_lits]. rewrite strip_prefix_first by exact N. reflexivity. Qed.

Lemma skip_into (p : str) c r : forall i, 1 <= i <= length p -> exists z t, skipn i (p ++ c :: r) = z :: t /\ (In z (tl p) \/ z = c).
Proof.
  intros i I. destruct p as [|y p]; [cbn in I; lia|]. destruct i as [|i]; [lia|]. cbn [app skipn tl]. cbn [length] in I.
  assert (L : i <= length p) by lia. clear I. revert i L. induction p as [|w p IH]; intros i L.
  - cbn in L. assert (i = 0) as -> by lia. exists c, r. auto.
  - destruct i as [|i]; [exists w, (p ++ c :: r); cbn; auto|]. cbn [app skipn]. cbn in L.
    destruct (IH i ltac:(lia)) as (z & t & E & [Z|Z]); exists z, t; cbn; auto.
Qed.

Inductive gaps (d : str) : list str -> str -> list str -> Prop :=
| gaps_one : forall n, gaps d [n] n []
| gaps_more : forall n g ns s gs, separator d g -> gaps d ns s gs -> gaps d (n :: ns) (n ++ g ++ s) (g :: gs).

Lemma gapped_gaps d ns s : gapped d ns s -> exists gs, gaps d ns s gs /\ Forall (separator d) gs /\ S (length gs) = length ns.
Proof.
  induction 1 as [n|n g ns s S G (gs & G1 & G2 & G3)].
  - exists []. split; [constructor|]. split; [constructor|reflexivity].
  - exists (g :: gs). split; [constructor; assumption|]. split; [constructor; assumption|]. cbn. congruence.
Qed.

Lemma gaps_first d ns s gs : gaps d ns s gs -> exists n r s', ns = n :: r /\ s = n ++ s'.
Proof.
  intros [n|n g ns' s' gs' S G].
  - exists n, [], []. rewrite app_nil_r. auto.
  - exists n, ns', (g ++ s'). auto.
Qed.

Lemma match_gaps x d ns s gs post : decimal x -> Forall (numeral x) ns -> gaps d ns s gs ->
  match_lits ns (s ++ post) = Some gs.
Proof.
  intros X F G. revert F. induction G as [n|n g ns s gs S G IH]; intro F.
  - cbn [match_lits]. rewrite strip_prefix_id. reflexivity.
  - inversion F as [|? ? F1 F2]; subst. cbn [match_lits]. rewrite <- !app_assoc, strip_prefix_id.
    destruct (gaps_first _ _ _ _ G) as (n2 & r & s' & -> & ->). inversion F2 as [|? ? F3 F4]; subst.
    destruct (numeral_shape x n2 X F3) as (p & c & r' & N2 & D & P & H & _).
    destruct S as (GN & GQ & _).
    replace (g ++ (n2 ++ s') ++ post) with (g ++ p ++ c :: r' ++ s' ++ post) by (rewrite N2, <- !app_assoc; reflexivity).
    rewrite app_assoc, span_not_digit; [|apply Forall_app; split; [eapply Forall_impl; [|exact GQ]; intros y (Y & _); exact Y|exact P]|exact D].
    cbn [fst]. rewrite app_length, <- app_assoc. apply match_gap_find; [exact GN| |].
    + replace (p ++ c :: r' ++ s' ++ post) with ((n2 ++ s') ++ post) by (rewrite N2, <- !app_assoc; reflexivity).
      apply IH. constructor; assumption.
    + intros i I. destruct (skip_into p c (r' ++ s' ++ post) i I) as (z & t & E & Z). rewrite E.
      destruct p as [|y p]; [cbn in I; lia|]. cbn [app] in N2. apply (match_lits_no r y n2 (p ++ c :: r') z t N2).
      specialize (H y eq_refl). rewrite Forall_forall in H. inversion P; subst. cbn [tl] in *. destruct Z as [Z| ->].
      * intros ->. exact (H z Z eq_refl).
      * intros ->. contradiction.
Qed.

Lemma search_pre n ns pre s : (exists y r, n = y :: r /\ ~ quiet y) -> Forall quiet pre ->
  search_lits (n :: ns) (pre ++ s) = search_lits (n :: ns) s.
Proof.
  intros (y & r & N & Q) F. induction F as [|c pre F1 F2 IH]; [reflexivity|]. cbn [app search_lits].
  rewrite (match_lits_no ns y n r c (pre ++ s) N); [exact IH|]. intros ->. contradiction.
Qed.

Lemma search_now lits s g : match_lits lits s = Some g -> search_lits lits s = g.
Proof. destruct s; cbn [search_lits]; intros ->; reflexivity. Qed.

Lemma line_seps x d nums l : decimal x -> nums <> [] -> number_line x d nums l ->
  exists gs, search_lits nums l = gs /\ Forall (separator d) gs /\ S (length gs) = length nums.
Proof.
  intros X NE (F & pre & mid & post & -> & P1 & P2 & G).
  destruct (gapped_gaps d nums mid G) as (gs & G1 & G2 & G3). exists gs. split; [|auto].
  destruct nums as [|n ns]; [congruence|]. inversion F as [|? ? F1 F2]; subst.
  rewrite search_pre; [|destruct (numeral_shape x n X F1) as (p & c & r & N & _ & _ & _ & Q)|exact P1].
  - assert (M : match_lits (n :: ns) (mid ++ post) = Some gs) by (apply (match_gaps x d); assumption).
    apply search_now. exact M.
  - destruct n as [|y r0]; [destruct p; discriminate|]. exists y, r0. split; [reflexivity|]. apply Q. reflexivity.
Qed.

Lemma strip_sep_ok d s : separator d s -> strip_sep s = d.
Proof.
  intros (N & Q & [[D T]|[W ->]]); unfold strip_sep, trim.
  - apply (proj1 (trims_strip Text s d)) in T. cbn [ws_of] in T. rewrite <- T. destruct d; [congruence|reflexivity].
  - rewrite strip_all; [reflexivity|]. eapply Forall_impl; [|exact W]. intro c. apply (space_ws Text c).
Qed.

Lemma distinct_one d l : l <> [] -> (forall s, In s l -> s = d) -> distinct l = 1.
Proof.
  induction l as [|s l IH]; [congruence|]. intros _ H. cbn [distinct].
  rewrite (H s (or_introl eq_refl)). destruct l as [|s' l]; [reflexivity|].
  rewrite (H s' (or_intror (or_introl eq_refl))) at 1. cbn [existsb]. rewrite str_eqb_refl. cbn [orb].
  apply IH; [discriminate|]. intros t T. apply H. right. exact T.
Qed.

Lemma number_line_result x d nums l : decimal x -> nums <> [] -> number_line x d nums l ->
  line_result x l = (nums, repeat d (length nums - 1)).
Proof.
  intros X NE L. unfold line_result. rewrite (line_numbers x d nums l X) by eauto.
  rewrite flat_numerals by (assumption || apply L).
  destruct (line_seps x d nums l X NE L) as (gs & -> & G1 & G2). f_equal.
  replace (length nums - 1) with (length gs) by lia. clear - G1.
  induction G1 as [|g gs G1 G2 IH]; [reflexivity|]. cbn [map length repeat]. rewrite (strip_sep_ok d g G1), IH. reflexivity.
Qed.

Lemma repeat_distinct (d : str) n : distinct (repeat d (S n)) = 1.
Proof. apply (distinct_one d); [discriminate|]. intros s S. apply repeat_spec in S. exact S. Qed.

Lemma plain_line_result x l : Forall (fun c => ~ digit c) l -> line_result x l = ([], []).
Proof. intro F. unfold line_result. rewrite findall_none by exact F. destruct l; reflexivity. Qed.

(** ** The lines *)

Lemma blank_trim l : blank l -> trim l = [].
Proof. intro B. unfold trim. apply strip_all. eapply Forall_impl; [|exact B]. intro c. apply (space_ws Text c). Qed.

Lemma digit_trim l : Exists digit l -> trim l <> [].
Proof.
  intros E H. unfold trim in H. destruct (strip_split ws_text l) as (a & b & S & A & B & _). rewrite H in S. cbn [app] in S.
  apply Exists_exists in E. destruct E as (c & C & D). rewrite S in C. apply in_app_or in C.
  rewrite Forall_forall in A, B. assert (W : ws_text c = true) by (destruct C; auto).
  apply digit_is in D. rewrite (decimal_no_space c D) in W. discriminate.
Qed.

Lemma drop_blank_app b l : Forall blank b -> drop_blank (b ++ l) = drop_blank l.
Proof. induction 1 as [|x b B1 B2 IH]; [reflexivity|]. cbn [app drop_blank]. rewrite blank_trim by exact B1. exact IH. Qed.

Lemma keep_lines (front : list str) l blanks : Exists digit l -> Forall blank blanks ->
  pop_blank ((front ++ [l]) ++ blanks) = length (front ++ [l]).
Proof.
  intros D B. unfold pop_blank. rewrite rev_app_distr. rewrite drop_blank_app by (apply Forall_rev; exact B).
  rewrite rev_app_distr. cbn [rev app drop_blank]. pose proof (digit_trim l D) as T. destruct (trim l); [congruence|].
  cbn [length]. rewrite rev_length, app_length. cbn. lia.
Qed.

Lemma number_line_digit x d nums l : decimal x -> nums <> [] -> number_line x d nums l -> Exists digit l.
Proof.
  intros X NE (F & pre & mid & post & -> & _ & _ & G). apply Exists_app. right. apply Exists_app. left.
  destruct F as [|n ns F1 F2]; [congruence|]. apply numeral_digit in F1. inversion G; subst; [assumption|].
  apply Exists_app. left. exact F1.
Qed.

Lemma back_run e (good : list (list str * list str)) rest :
  Forall (fun r => septypcnt r = e /\ numcnt r <> 0) good ->
  data_lines_back e (good ++ rest) = length good + data_lines_back e rest.
Proof.
  induction 1 as [|r good (S & N) F IH]; [reflexivity|]. cbn [app data_lines_back length].
  rewrite S, Nat.eqb_refl. cbn [negb]. assert (numcnt r =? 0 = false) as -> by (apply Nat.eqb_neq; exact N).
  rewrite Bool.andb_false_r. rewrite IH. reflexivity.
Qed.

Lemma back_header x e header : e <= 1 -> header_end header ->
  data_lines_back e (rev (map (line_result x) header)) = 0.
Proof.
  intros E [->|(h & l & -> & D)]; [reflexivity|]. rewrite map_app, rev_app_distr. cbn [map rev app data_lines_back].
  rewrite plain_line_result by exact D. unfold septypcnt, numcnt. cbn [fst snd distinct length Nat.eqb].
  destruct e as [|e]; reflexivity.
Qed.

(** ** Names *)

Lemma trims_all raw ts : Forall2 (trims (space Text)) raw ts -> map trim raw = ts.
Proof.
  induction 1 as [|r t raw ts T F IH]; [reflexivity|]. cbn [map]. rewrite IH. f_equal.
  apply (proj1 (trims_strip Text r t)) in T. symmetry. exact T.
Qed.

Lemma split_ws_nonempty ws s : Forall (fun f => f <> [] /\ Forall (fun c => ws c = false) f) (split_ws ws s).
Proof.
  induction s as [|c s IH]; [constructor|]. cbn [split_ws]. destruct (ws c) eqn:C; [exact IH|].
  destruct s as [|d s]; [constructor; [split; [discriminate|constructor; [exact C|constructor]]|constructor]|].
  destruct (ws d) eqn:D.
  - constructor; [split; [discriminate|constructor; [exact C|constructor]]|exact IH].
  - destruct (split_ws ws (d :: s)) as [|f r]; [constructor; [split; [discriminate|constructor; [exact C|constructor]]|constructor]|].
    inversion IH as [|? ? (I1 & I2) I3]; subst. constructor; [|exact I3]. split; [discriminate|constructor; assumption].
Qed.

Lemma trim_word f : Forall (fun c => ws_text c = false) f -> trim f = f.
Proof.
  intro F. unfold trim. pose proof (strip_around ws_text [] f [] (Forall_nil _) (Forall_nil _)) as E.
  rewrite app_nil_r in E. apply E.
  - intros c C. destruct f; [discriminate|]. injection C as <-. inversion F; subst. assumption.
  - intros c C. apply (@Forall_rev _ _ f) in F. destruct (rev f); [discriminate|]. injection C as <-. inversion F; subst. assumption.
Qed.

Lemma words_kept fs : Forall (fun f => f <> [] /\ Forall (fun c => ws_text c = false) f) fs ->
  filter (fun f : str => match f with [] => false | _ => true end) (map trim fs) = fs.
Proof.
  induction 1 as [|f fs (N1 & N2) N3 IH]; [reflexivity|]. cbn [map filter]. rewrite trim_word by exact N2.
  destruct f; [congruence|]. f_equal. exact IH.
Qed.

Lemma header_fields_ok d l fs : line_fields d l fs -> header_fields d l = Ok fs.
Proof.
  intro L. unfold header_fields. destruct d as [d|].
  - destruct L as (raw & ts & D & R & -> & F & T & ->). unfold split_line. destruct d as [|x d]; [congruence|].
    rewrite split_join by (assumption || discriminate). cbn [bind]. rewrite (trims_all raw ts T). reflexivity.
  - cbn [line_fields] in L. cbn [split_line bind]. rewrite (spaced_split Text fs l L). f_equal.
    pose proof (split_ws_nonempty (ws_of Text) l) as N. rewrite (spaced_split Text fs l L) in N.
    apply words_kept. exact N.
Qed.

Lemma line_fields_unique d l fs gs : line_fields d l fs -> line_fields d l gs -> fs = gs.
Proof. intros F G. apply header_fields_ok in F, G. rewrite F in G. apply ok_inj in G. exact G. Qed.

Lemma number_names (fs : list str) : forall k,
  map (fun ix => (Z.of_nat (fst ix), VStr (snd ix))) (enum_from k fs)
  = map (fun c => (Z.of_nat c, VStr (nth (c - k) fs []))) (seq k (length fs)).
Proof.
  induction fs as [|f fs IH]; intro k; [reflexivity|]. cbn [enum_from map length seq fst snd]. rewrite Nat.sub_diag. cbn [nth].
  f_equal. rewrite IH. apply map_ext_in. intros c C. apply in_seq in C.
  replace (c - k) with (S (c - S k)) by lia. reflexivity.
Qed.

Lemma find_names_none first d n back : 0 < n -> (forall l, In l back -> exists fs, line_fields d l fs) ->
  (forall l fs, In l back -> ~ title first d n l fs) -> find_names first d n back = Ok [].
Proof.
  intros N. induction back as [|l back IH]; intros T H; [reflexivity|]. cbn [find_names].
  destruct (T l (or_introl eq_refl)) as (fs & F). rewrite (header_fields_ok d l fs F). cbn [bind].
  assert (R : find_names first d n back = Ok []) by (apply IH; intros; [apply T|apply H]; right; assumption).
  destruct fs as [|f fs]; [exact R|]. destruct (Nat.eqb (length (f :: fs)) n && first f) eqn:E; [|exact R].
  destruct (H l (f :: fs) (or_introl eq_refl)). apply andb_prop in E. destruct E as [E1 E2]. apply Nat.eqb_eq in E1.
  split; [exact F|]. split; [exact E1|exact E2].
Qed.

Lemma find_names_ok first d n header names : 0 < n -> (forall l, In l header -> exists fs, line_fields d l fs) ->
  header_names first d n header names -> find_names first d n (rev header) = Ok names.
Proof.
  intros N T [(h1 & l & h2 & fs & -> & (L & E & W) & H & ->)|(H & ->)].
  - rewrite rev_app_distr. cbn [rev]. rewrite <- app_assoc. cbn [app].
    assert (T2 : forall l, In l (rev h2) -> exists fs, line_fields d l fs).
    { intros l' I. apply T. apply in_rev in I. apply in_or_app. right. right. exact I. }
    assert (H2 : forall l' fs', In l' (rev h2) -> ~ title first d n l' fs') by (intros l' fs' I; apply H; apply in_rev; exact I).
    revert T2 H2. generalize (rev h2). intro back. induction back as [|b back IH]; intros T2 H2.
    + cbn [app find_names]. rewrite (header_fields_ok d l fs L). cbn [bind]. destruct fs as [|f fs]; [cbn in E; lia|].
      cbn [hd] in W. rewrite W. assert (Nat.eqb (length (f :: fs)) n = true) as -> by (apply Nat.eqb_eq; exact E). cbn [andb].
      rewrite (number_names (f :: fs) 0), E. apply (f_equal (@Ok (dict val))). apply map_ext. intro c. rewrite Nat.sub_0_r. reflexivity.
    + cbn [app find_names]. destruct (T2 b (or_introl eq_refl)) as (gs & F). rewrite (header_fields_ok d b gs F). cbn [bind].
      assert (R := IH (fun l' I => T2 l' (or_intror I)) (fun l' fs' I => H2 l' fs' (or_intror I))).
      destruct gs as [|f gs]; [exact R|]. destruct (Nat.eqb (length (f :: gs)) n && first f) eqn:Q; [|exact R].
      destruct (H2 b (f :: gs) (or_introl eq_refl)). apply andb_prop in Q. destruct Q as [Q1 Q2]. apply Nat.eqb_eq in Q1.
      split; [exact F|]. split; [exact Q1|exact Q2].
  - apply find_names_none; [exact N| |]; intros l; [intro I|intros fs I]; apply in_rev in I; auto.
Qed.

(** Header lines can be split by a delimiter of one character, whatever they are. *)
Lemma trims_some s : exists t, trims (space Text) s t.
Proof. exists (strip ws_text s). apply trims_strip. reflexivity. Qed.

Lemma trims_some_all raw : exists ts, Forall2 (trims (space Text)) raw ts.
Proof. induction raw as [|s raw (ts & IH)]; [exists []; constructor|]. destruct (trims_some s) as (t & T). exists (t :: ts). constructor; assumption. Qed.

Lemma split_char_join x (s : str) : exists raw, raw <> [] /\ s = join [x] raw /\ Forall (fun f => forall c, In c f -> ~ In c [x]) raw.
Proof.
  induction s as [|c s (raw & N & E & F)].
  - exists [[]]. split; [discriminate|]. split; [reflexivity|]. repeat constructor. intros c [].
  - destruct raw as [|f raw]; [congruence|]. destruct (N.eq_dec c x) as [->|NE].
    + exists ([] :: f :: raw). split; [discriminate|]. split; [rewrite E; reflexivity|]. constructor; [intros c []|exact F].
    + exists ((c :: f) :: raw). split; [discriminate|]. inversion F as [|? ? F1 F2]; subst. split.
      * destruct raw; reflexivity.
      * constructor; [|exact F2]. intros y [<-|Y]; [intros [->|[]]; congruence|apply F1; exact Y].
Qed.

Lemma line_fields_char x l : exists fs, line_fields (Some [x]) l fs.
Proof.
  destruct (split_char_join x l) as (raw & N & E & F). destruct (trims_some_all raw) as (ts & T).
  eexists. exists raw, ts. repeat (split; [first [discriminate|eassumption]|]). reflexivity.
Qed.

(** ** preparse *)

Lemma numbers_result x d n rows data : decimal x -> 2 <= n ->
  Forall2 (number_line x d) rows data -> Forall (fun r : list str => length r = n) rows ->
  map (line_result x) data = map (fun r => (r, repeat d (n - 1))) rows.
Proof.
  intros X N F. induction F as [|r l rows data L F IH]; intro W; [reflexivity|]. inversion W as [|? ? W1 W2]; subst. cbn [map].
  rewrite IH by exact W2. rewrite (number_line_result x d r l X) by (destruct r; [cbn in N; lia|discriminate] || exact L).
  reflexivity.
Qed.

Lemma last_line {A B} (R : A -> B -> Prop) rows data : Forall2 R rows data -> rows <> [] ->
  exists rows' r data' l, rows = rows' ++ [r] /\ data = data' ++ [l] /\ R r l /\ Forall2 R rows' data'.
Proof.
  intros F N. destruct (exists_last N) as (rows' & r & ->). apply Forall2_app_inv_l in F.
  destruct F as (data' & l2 & F1 & F2 & ->). inversion F2 as [|? l ? ? R1 R2]; subst. inversion R2; subst.
  exists rows', r, data', l. auto.
Qed.

Lemma fold_results x (lines : list str) blanks : firstn (length lines) (map (line_result x) (lines ++ blanks)) = map (line_result x) lines.
Proof.
  rewrite map_app. replace (length lines) with (length (map (line_result x) lines)) by apply map_length.
  rewrite firstn_app, firstn_all, Nat.sub_diag. cbn [firstn]. apply app_nil_r.
Qed.

Lemma last_repeat {A} (d e : A) n : last (repeat d (S n)) e = d.
Proof. induction n as [|n IH]; [reflexivity|]. cbn [repeat] in *. exact IH. Qed.

Lemma preparse_rows x first d n header (rows : list (list str)) data blanks names :
  decimal x -> 2 <= n ->
  header_end header -> rows <> [] ->
  Forall2 (number_line x d) rows data -> Forall (fun r : list str => length r = n) rows -> Forall blank blanks ->
  (forall l, In l header -> exists fs, line_fields (Some d) l fs) ->
  header_names first (Some d) n header names ->
  (x = 44%N -> Exists (fractional 44) (last rows [])) ->
  preparse first (header ++ data ++ blanks)
  = Ok (Some (mkderived (length header) (Some d) (if N.eqb x 46 then None else Some (map Z.of_nat (seq 0 n))) names
                (map Z.of_nat (seq 0 n)))).
Proof.
  intros X N HE NE F W B T HN C. destruct (last_line _ _ _ F NE) as (rows' & r & data' & l & -> & -> & L & F').
  rewrite last_last in C. apply Forall_app in W. destruct W as [W' W]. inversion W as [|? ? Wr _]; subst.
  assert (RN : r <> []) by (intros ->; cbn in N; lia).
  unfold preparse. rewrite !app_assoc.
  assert (D : Exists digit l) by (apply (number_line_digit x d r); assumption).
  rewrite keep_lines by assumption. rewrite !fold_results.
  rewrite <- (app_assoc header data' [l]). set (lines := header ++ data' ++ [l]).
  assert (R : forall y, rev (map (line_result y) lines) = line_result y l :: rev (map (line_result y) (header ++ data'))).
  { intro y. unfold lines. rewrite app_assoc, map_app, rev_app_distr. reflexivity. }
  rewrite !R.
  assert (LR := number_line_result x d r l X RN L).
  assert (LN : forall y, decimal y -> numcnt (line_result y l) = length (flat_map (findall y 0) r)).
  { intros y Y. unfold numcnt, line_result. cbn [fst]. rewrite (line_numbers y d r l Y) by eauto. reflexivity. }
  assert (DR : Forall (Exists digit) r) by (eapply Forall_impl; [|apply L]; intro s; apply numeral_digit).
  assert (DOT : Nat.leb (numcnt (line_result 46 l)) (numcnt (line_result 44 l)) = N.eqb x 46).
  { rewrite !LN by (unfold decimal; auto). destruct X as [-> | ->].
    - cbn [N.eqb Pos.eqb]. apply Nat.leb_le. rewrite (flat_numerals 46 r) by (unfold decimal; auto; apply L).
      apply flat_at_least. exact DR.
    - cbn [N.eqb Pos.eqb]. apply Nat.leb_gt. rewrite (flat_numerals 44 r) by (unfold decimal; auto; apply L).
      apply flat_more; [exact DR|apply C; reflexivity]. }
  rewrite DOT.
  assert (X2 : (if N.eqb x 46 then 46 else 44)%N = x) by (destruct X as [-> | ->]; reflexivity).
  assert (RS : (if N.eqb x 46 then map (line_result 46) lines else map (line_result 44) lines) = map (line_result x) lines).
  { destruct X as [-> | ->]; reflexivity. }
  assert (LS : (if N.eqb x 46 then line_result 46 l else line_result 44 l) = line_result x l) by (destruct X as [-> | ->]; reflexivity).
  rewrite RS, LS, LR. change (numcnt (r, repeat d (length r - 1))) with (length r).
  assert (Nat.eqb (length r) 1 = false) as -> by (apply Nat.eqb_neq; lia).
  assert (SP : forall (s : list str), 2 <= length s -> septypcnt (s, repeat d (length s - 1)) = 1).
  { intros s S2. unfold septypcnt. cbn [snd]. replace (length s - 1) with (S (length s - 2)) by lia. apply repeat_distinct. }
  rewrite SP by lia. cbn [Nat.eqb negb andb].
  assert (BACK : data_lines_back 1 (rev (map (line_result x) lines)) = length (data' ++ [l])).
  { unfold lines. rewrite map_app, rev_app_distr. rewrite back_run.
    - rewrite (back_header x 1 header) by (lia || assumption). rewrite rev_length, map_length. lia.
    - apply Forall_rev. rewrite (numbers_result x d (length r) (rows' ++ [r]) (data' ++ [l])); try assumption.
      + apply Forall_forall. intros q Q. apply in_map_iff in Q. destruct Q as (s & <- & S).
        assert (LS2 : length s = length r).
        { apply in_app_or in S. destruct S as [S|[<-|[]]]; [|reflexivity]. rewrite Forall_forall in W'. apply W'. exact S. }
        rewrite <- LS2. split; [apply SP; lia|]. unfold numcnt. cbn [fst]. lia.
      + apply Forall_app. split; [exact W'|exact W]. }
  rewrite BACK.
  assert (ST : length (map (line_result x) lines) - length (data' ++ [l]) = length header).
  { unfold lines. rewrite map_length, app_length. lia. }
  rewrite ST. unfold numcnt. cbn [fst snd].
  assert (FL : firstn (length header) (lines ++ blanks) = header).
  { unfold lines. rewrite <- app_assoc, firstn_app, firstn_all, Nat.sub_diag. cbn [firstn]. apply app_nil_r. }
  rewrite FL.
  replace (length r - 1) with (S (length r - 2)) by lia. rewrite last_repeat.
  rewrite (find_names_ok first (Some d) (length r) header names) by (lia || assumption). cbn [bind].
  destruct X as [-> | ->]; reflexivity.
Qed.

(** ** Single columns *)

Lemma split_num_pre x q s : Forall (silent x) q -> exists f r, split_num x 0 s = f :: r /\ split_num x 0 (q ++ s) = (q ++ f) :: r.
Proof.
  intro F. assert (NE : exists f r, split_num x 0 s = f :: r).
  { assert (G : forall k, exists f r, split_num x k s = f :: r); [|apply G]. clear. induction s as [|c s IH]; intro k; [cbn; eauto|].
    cbn [split_num]. destruct k; [|apply IH]. destruct (match_num x (c :: s)) as [[m ?]|]; [eauto|].
    destruct (IH 0) as (f & r & ->). eauto. }
  destruct NE as (f & r & E). exists f, r. split; [exact E|].
  induction F as [|c q S F IH]; [exact E|]. cbn [app split_num].
  pose proof (match_num_stop x [] c (q ++ s) S) as M. cbn [app] in M. rewrite M. cbn [match_num opt_sign mantissa span].
  rewrite IH. reflexivity.
Qed.

Lemma split_num_skip x p s : split_num x (length p) (p ++ s) = split_num x 0 s.
Proof. induction p as [|c p IH]; [reflexivity|]. cbn [length app split_num]. exact IH. Qed.

Lemma split_num_none x s : Forall (silent x) s -> split_num x 0 s = [s].
Proof.
  intro F. destruct (split_num_pre x s [] F) as (f & r & E & G). rewrite app_nil_r in G. cbn in E. injection E as <- <-.
  rewrite app_nil_r in G. exact G.
Qed.

Lemma split_num_one x n post : decimal x -> numeral x n -> Forall (silent x) post -> split_num x 0 (n ++ post) = [[]; post].
Proof.
  intros X N P. assert (M : match_num x (n ++ post) = Some (n, post)).
  { destruct P as [|c post P1 P2]; [rewrite app_nil_r; apply numeral_scan; assumption|].
    rewrite match_num_stop by exact P1. rewrite (numeral_scan x n X N). reflexivity. }
  pose proof (numeral_nonempty x n N) as NN. destruct n as [|c n]; [congruence|]. cbn [app split_num] in *. rewrite M.
  cbn [length]. rewrite Nat.sub_succ, Nat.sub_0_r, split_num_skip, split_num_none by exact P. reflexivity.
Qed.

Lemma white_quiet c : space Text c -> quiet c.
Proof.
  intro H. apply space_ws in H. cbn [ws_of] in H. split.
  - intro D. apply digit_is in D. rewrite (decimal_no_space c D) in H. discriminate.
  - cbn [In]. intro I. rewrite ws_text_ascii in H by lia. lia.
Qed.

Lemma white_not_digit c : space Text c -> ~ digit c.
Proof. intro H. exact (proj1 (white_quiet c H)). Qed.

Lemma lone_number_line x n l : lone_line x n l -> number_line x [] [n] l.
Proof.
  intros (N & pre & post & -> & P1 & P2). split; [constructor; [exact N|constructor]|]. exists pre, n, post. split; [reflexivity|].
  split; [eapply Forall_impl; [|exact P1]; intro; apply white_quiet|].
  split; [eapply Forall_impl; [|exact P2]; intro; apply white_quiet|]. constructor.
Qed.

Lemma all_blank x l : decimal x -> blank l -> split_num x 0 l = [l].
Proof. intros X B. apply split_num_none. eapply Forall_impl; [|exact B]. intros c C. apply quiet_silent; [exact X|apply white_quiet, C]. Qed.

Lemma preparse_lone x first header (nums : list str) data blanks names :
  decimal x -> header_end header -> nums <> [] ->
  Forall2 (lone_line x) nums data -> Forall blank blanks ->
  (forall l, In l header -> exists fs, line_fields None l fs) ->
  header_names first None 1 header names ->
  (x = 44%N -> fractional 44 (last nums [])) ->
  preparse first (header ++ data ++ blanks)
  = Ok (Some (mkderived (length header) None (if N.eqb x 46 then None else Some [0%Z]) names [0%Z])).
Proof.
  intros X HE NE F B T HN C. destruct (last_line _ _ _ F NE) as (nums' & r & data' & l & -> & -> & L & F').
  rewrite last_last in C. unfold preparse. rewrite !app_assoc.
  assert (LL := lone_number_line x r l L).
  assert (D : Exists digit l) by (apply (number_line_digit x [] [r]); [assumption|discriminate|assumption]).
  rewrite keep_lines by assumption. rewrite !fold_results.
  rewrite <- (app_assoc header data' [l]). set (lines := header ++ data' ++ [l]).
  assert (R : forall y, rev (map (line_result y) lines) = line_result y l :: rev (map (line_result y) (header ++ data'))).
  { intro y. unfold lines. rewrite app_assoc, map_app, rev_app_distr. reflexivity. }
  rewrite !R.
  assert (LR := number_line_result x [] [r] l X ltac:(discriminate) LL). cbn [length Nat.sub repeat] in LR.
  assert (LN : forall y, decimal y -> numcnt (line_result y l) = length (flat_map (findall y 0) [r])).
  { intros y Y. unfold numcnt, line_result. cbn [fst]. rewrite (line_numbers y [] [r] l Y) by eauto. reflexivity. }
  assert (DR : Forall (Exists digit) [r]) by (constructor; [apply (numeral_digit x), L|constructor]).
  assert (DOT : Nat.leb (numcnt (line_result 46 l)) (numcnt (line_result 44 l)) = N.eqb x 46).
  { rewrite !LN by (unfold decimal; auto). destruct X as [-> | ->].
    - cbn [N.eqb Pos.eqb]. apply Nat.leb_le. rewrite (flat_numerals 46 [r]) by (unfold decimal; auto; apply LL).
      apply flat_at_least. exact DR.
    - cbn [N.eqb Pos.eqb]. apply Nat.leb_gt. rewrite (flat_numerals 44 [r]) by (unfold decimal; auto; apply LL).
      apply flat_more; [exact DR|constructor; apply C; reflexivity]. }
  rewrite DOT.
  assert (RS : (if N.eqb x 46 then map (line_result 46) lines else map (line_result 44) lines) = map (line_result x) lines).
  { destruct X as [-> | ->]; reflexivity. }
  assert (LS : (if N.eqb x 46 then line_result 46 l else line_result 44 l) = line_result x l) by (destruct X as [-> | ->]; reflexivity).
  assert (X2 : (if N.eqb x 46 then 46 else 44)%N = x) by (destruct X as [-> | ->]; reflexivity).
  rewrite RS, LS, LR, X2. change (numcnt ([r], [])) with 1. change (septypcnt ([r], [])) with 0. cbn [Nat.eqb negb andb].
  assert (BL : forall s, blank s -> (match trim s with [] => false | _ => true end) = false) by (intros s S; rewrite blank_trim by exact S; reflexivity).
  assert (LAST : existsb (fun m => match trim m with [] => false | _ => true end) (split_num x 0 (last (lines ++ blanks) [])) = false).
  { destruct blanks as [|b blanks'] eqn:EB.
    - rewrite app_nil_r. unfold lines. rewrite app_assoc, last_last.
      destruct L as (N & pre & post & -> & P1 & P2).
      destruct (split_num_pre x pre (r ++ post)) as (f & q & E1 & E2).
      { eapply Forall_impl; [|exact P1]. intros c H. apply quiet_silent; [exact X|apply white_quiet, H]. }
      rewrite split_num_one in E1; [|exact X|exact N|eapply Forall_impl; [|exact P2]; intros c H; apply quiet_silent; [exact X|apply white_quiet, H]].
      injection E1 as <- <-. rewrite E2, app_nil_r. cbn [existsb]. rewrite !BL by assumption. reflexivity.
    - destruct (@exists_last _ (b :: blanks') ltac:(discriminate)) as (bs & e & E). rewrite E in *. clear E.
      rewrite app_assoc, last_last. apply Forall_app in B. destruct B as [_ B]. inversion B; subst.
      rewrite all_blank by assumption. cbn [existsb]. rewrite BL by assumption. reflexivity. }
  rewrite LAST. cbv iota.
  assert (BACK : data_lines_back 0 (rev (map (line_result x) lines)) = length (data' ++ [l])).
  { unfold lines. rewrite map_app, rev_app_distr. rewrite back_run.
    - rewrite (back_header x 0 header) by (lia || assumption). rewrite rev_length, map_length. lia.
    - apply Forall_rev. apply Forall_forall. intros q Q. apply in_map_iff in Q. destruct Q as (s & <- & S).
      assert (exists n, lone_line x n s) as (n & LN').
      { assert (F2 : Forall2 (lone_line x) (nums' ++ [r]) (data' ++ [l])) by exact F. clear - F2 S.
        induction F2; [destruct S|]. destruct S as [<-|S]; eauto. }
      rewrite (number_line_result x [] [n] s X ltac:(discriminate) (lone_number_line _ _ _ LN')).
      split; [reflexivity|]. discriminate. }
  rewrite BACK.
  assert (ST : length (map (line_result x) lines) - length (data' ++ [l]) = length header).
  { unfold lines. rewrite map_length, app_length. lia. }
  rewrite ST.
  assert (FL : firstn (length header) (lines ++ blanks) = header).
  { unfold lines. rewrite <- app_assoc, firstn_app, firstn_all, Nat.sub_diag. cbn [firstn]. apply app_nil_r. }
  rewrite FL. rewrite (find_names_ok first None 1 header names) by (lia || assumption). cbn [bind].
  destruct X as [-> | ->]; reflexivity.
Qed.

(** ** Numerals and float *)

Lemma no_underscore s : ~ In 95%N s -> forall b, drop_underscores b s = Some s.
Proof.
  induction s as [|c s IH]; intros N b; [reflexivity|]. cbn [drop_underscores].
  assert ((c =? 95)%N = false) as -> by (apply N.eqb_neq; intros ->; apply N; left; reflexivity).
  rewrite IH; [reflexivity|]. intro H. apply N. right. exact H.
Qed.

Definition nchar (c : N) : Prop := digit c \/ In c [46; 44; 43; 45; 101; 69]%N.

Lemma nchar_quiet c : nchar c <-> ~ quiet c.
Proof.
  unfold nchar, quiet. split.
  - intros H [A B]. destruct H; contradiction.
  - intro H. destruct (is_decimal c) eqn:E; [left; apply digit_is; exact E|]. right.
    destruct (in_dec N.eq_dec c [46; 44; 43; 45; 101; 69]%N) as [I|I]; [exact I|]. destruct H. split; [|exact I].
    intro D. apply digit_is in D. congruence.
Qed.

Lemma numeral_chars x s : decimal x -> numeral x s -> Forall nchar s.
Proof.
  intros X (sg & m & e & -> & S & M & E).
  assert (SG : forall t, sign t -> Forall nchar t).
  { intros t [->|[->| ->]]; repeat constructor; right; cbn; auto. }
  assert (DG : forall t, Forall digit t -> Forall nchar t) by (intros t D; eapply Forall_impl; [|exact D]; intros c C; left; exact C).
  apply Forall_app. split; [apply SG; exact S|]. apply Forall_app. split.
  - destruct M as [[_ D]|(a & b & -> & A & B & _)]; [apply DG; exact D|]. apply Forall_app. split; [apply DG; exact A|].
    constructor; [|apply DG; exact B]. right. destruct X as [-> | ->]; cbn; auto.
  - destruct E as [->|(c & sg' & d & -> & C & S' & D & _)]; [constructor|]. constructor; [right; destruct C as [-> | ->]; cbn; auto 7|].
    apply Forall_app. split; [apply SG; exact S'|apply DG; exact D].
Qed.

Lemma dots_digits d : Forall digit d -> dots d = d.
Proof.
  induction 1 as [|c d D1 D2 IH]; [reflexivity|]. unfold dots in *. cbn [map]. rewrite IH.
  destruct (N.eq_dec c 44) as [->|]; [apply digit_range in D1; lia|reflexivity].
Qed.

Lemma dots_app a b : dots (a ++ b) = dots a ++ dots b.
Proof. apply map_app. Qed.

Lemma dots_numeral x s : decimal x -> numeral x s -> numeral 46 (dots s).
Proof.
  intros X (sg & m & e & -> & S & M & E).
  assert (SG : forall t, sign t -> dots t = t) by (intros t [->|[->| ->]]; reflexivity).
  rewrite !dots_app. exists sg, (dots m), e. rewrite (SG sg S).
  assert (DE : dots e = e).
  { destruct E as [->|(c & sg' & d & -> & C & S' & D & _)]; [reflexivity|]. change (dots (c :: sg' ++ d)) with (dots [c] ++ dots (sg' ++ d)).
    rewrite dots_app, (SG sg' S'), (dots_digits d D). destruct C as [-> | ->]; reflexivity. }
  rewrite DE. split; [reflexivity|]. split; [exact S|]. split; [|exact E].
  destruct M as [[N D]|(a & b & -> & A & B & AB)].
  - left. rewrite dots_digits by exact D. auto.
  - right. exists a, b. rewrite dots_app. change (dots (x :: b)) with (dots [x] ++ dots b).
    rewrite (dots_digits a A), (dots_digits b B). split; [|auto]. destruct X as [-> | ->]; reflexivity.
Qed.

Lemma dots_46 s : numeral 46 s -> dots s = s.
Proof.
  intro N. assert (F : ~ In 44%N s).
  { destruct N as (sg & m & e & -> & S & M & E). intro H.
    assert (DG : forall t, Forall digit t -> ~ In 44%N t) by (intros t D I; rewrite Forall_forall in D; apply D in I; apply digit_range in I; lia).
    assert (SG : forall t, sign t -> ~ In 44%N t) by (intros t [->|[->| ->]]; cbn [In]; lia).
    apply in_app_or in H. destruct H as [H|H]; [exact (SG _ S H)|]. apply in_app_or in H. destruct H as [H|H].
    - destruct M as [[_ D]|(a & b & -> & A & B & _)]; [exact (DG _ D H)|]. apply in_app_or in H.
      destruct H as [H|[H|H]]; [exact (DG _ A H)|lia|exact (DG _ B H)].
    - destruct E as [->|(c & sg' & d & -> & C & S' & D & _)]; [destruct H|]. destruct H as [H|H]; [lia|].
      apply in_app_or in H. destruct H as [H|H]; [exact (SG _ S' H)|exact (DG _ D H)]. }
  unfold dots. rewrite <- (map_id s) at 2. apply map_ext_in. intros c C. destruct (N.eq_dec c 44) as [->|]; [contradiction|reflexivity].
Qed.

(** What float() makes of a numeral: the same with ASCII digits. *)
Definition low (c : N) : Prop := (c < 128)%N.

Lemma low_digit c : low c -> digit c -> (48 <= c <= 57)%N.
Proof. unfold low. intros L D. apply digit_range in D. lia. Qed.

Lemma low_digits d : Forall low d -> Forall digit d -> Forall (fun c => 48 <= c <= 57)%N d.
Proof. intros L D. rewrite Forall_forall in *. intros c I. apply low_digit; auto. Qed.

Lemma span_low d r : Forall low d -> Forall digit d -> match r with c :: _ => ~ digit c | [] => True end ->
  span is_digit (d ++ r) = (d, r).
Proof.
  intros L D R. apply span_app.
  - eapply Forall_impl; [|exact (low_digits d L D)]. cbv beta. intros c. apply digit_spec.
  - destruct r as [|c r]; [exact I|]. destruct (is_digit c) eqn:E; [|reflexivity].
    destruct R. apply digit_is, digit_decimal. exact E.
Qed.

Lemma ascii_digit_is c : digit c -> digit (ascii_of c).
Proof. intro D. apply digit_is, digit_decimal, ascii_digit, digit_is. exact D. Qed.

Lemma ascii_digits d : Forall digit d -> Forall digit (to_ascii d).
Proof.
  rewrite to_ascii_map. induction 1 as [|c d D _ IH]; [constructor|]. cbn [map]. constructor; [apply ascii_digit_is; exact D|exact IH].
Qed.

Lemma to_ascii_app a b : to_ascii (a ++ b) = to_ascii a ++ to_ascii b.
Proof. rewrite !to_ascii_map. apply map_app. Qed.

Lemma to_ascii_nil s : to_ascii s = [] -> s = [].
Proof. rewrite to_ascii_map. destruct s; [reflexivity|discriminate]. Qed.

Lemma ascii_sign sg : sign sg -> to_ascii sg = sg.
Proof. intros [->|[->| ->]]; reflexivity. Qed.

Lemma ascii_numeral x s : decimal x -> numeral x s -> numeral x (to_ascii s).
Proof.
  intros X (sg & m & e & -> & S & M & E). exists sg, (to_ascii m), (to_ascii e).
  rewrite !to_ascii_app, (ascii_sign sg S). split; [reflexivity|]. split; [exact S|]. split.
  - destruct M as [[N D]|(a & b & -> & A & B & AB)].
    + left. split; [|apply ascii_digits; exact D]. intro H. apply to_ascii_nil in H. contradiction.
    + right. exists (to_ascii a), (to_ascii b). split.
      * rewrite to_ascii_app. f_equal. destruct X as [-> | ->]; reflexivity.
      * split; [apply ascii_digits; exact A|]. split; [apply ascii_digits; exact B|].
        rewrite <- to_ascii_app. intro H. apply to_ascii_nil in H. contradiction.
  - destruct E as [->|(c & sg' & d & -> & C & S' & D & N)]; [left; reflexivity|].
    right. exists c, sg', (to_ascii d). split.
    + change (c :: sg' ++ d) with ([c] ++ sg' ++ d). rewrite !to_ascii_app, (ascii_sign sg' S').
      destruct C as [-> | ->]; reflexivity.
    + split; [exact C|]. split; [exact S'|]. split; [apply ascii_digits; exact D|].
      intro H. apply to_ascii_nil in H. contradiction.
Qed.

Lemma to_ascii_is_low s : Forall low (to_ascii s).
Proof. rewrite to_ascii_map. apply Forall_forall. intros c I. apply in_map_iff in I. destruct I as (d & <- & _). apply ascii_is_low. Qed.

Lemma take_exponent_ok e : Forall low e -> exponent_of e -> exists z, take_exponent e = Some z.
Proof.
  intros L [->|(c & sg & d & -> & C & S & D & N)]; [exists 0%Z; reflexivity|]. cbn [take_exponent].
  assert ((c =? 69)%N || (c =? 101)%N = true) as -> by lia.
  assert (TS : exists b, take_sign (sg ++ d) = (b, d)).
  { destruct S as [->|[->| ->]]; [|eexists; reflexivity|eexists; reflexivity].
    exists false. destruct D as [|y d D1 D2]; [congruence|]. cbn [app take_sign]. apply digit_range in D1.
    assert ((y =? 45)%N = false) as -> by lia. assert ((y =? 43)%N = false) as -> by lia. reflexivity. }
  destruct TS as (b & ->). destruct d as [|y d]; [congruence|].
  assert (forallb is_digit (y :: d) = true) as ->.
  { inversion L as [|? ? _ L1]; subst. apply Forall_app in L1. pose proof (low_digits _ (proj2 L1) D) as F. rewrite Forall_forall in F.
    apply forallb_forall. intros z Z. apply digit_spec. exact (F z Z). }
  eexists. reflexivity.
Qed.

Lemma float_body_numeral neg m e : Forall low m -> Forall low e -> mantissa_of 46 m -> exponent_of e -> exists f, float_body neg (m ++ e) = Ok f.
Proof.
  intros LM LE M E.
  assert (H : exists c r, m = c :: r /\ (digit c \/ c = 46%N)).
  { destruct M as [[N D]|(a & b & -> & A & _)].
    - destruct D as [|c m D1 D2]; [congruence|]. exists c, m. auto.
    - destruct A as [|c a A1 A2]; [exists 46%N, b; auto|]. cbn. exists c, (a ++ 46%N :: b). auto. }
  destruct H as (c & r & EM & C). unfold float_body.
  assert (I : forall s, hd_error s = Some 105%N \/ hd_error s = Some 110%N -> str_eqb (map lower (m ++ e)) s = false).
  { intros s S. rewrite EM. cbn [app map]. destruct s as [|y s]; [destruct S; discriminate|]. cbn [str_eqb].
    assert ((lower c =? y)%N = false) as ->; [|reflexivity]. 
    assert (C' : (46 <= c <= 57)%N).
    { destruct C as [C|C]; [|lia]. rewrite EM in LM. inversion LM; subst. assert (48 <= c <= 57)%N by (apply low_digit; assumption). lia. }
    unfold lower, is_upper in *. cbn [hd_error] in S.
    destruct S as [S|S]; injection S as ->; destruct (_ && _) eqn:Q; lia. }
  rewrite !I by (change (lit "inf") with [105;110;102]%N; change (lit "infinity") with [105;110;102;105;110;105;116;121]%N;
    change (lit "nan") with [110;97;110]%N; cbn; auto). cbn [orb].
  pose proof (exponent_head e E) as H. destruct (take_exponent_ok e LE E) as (z & TE).
  assert (ND : match e with c :: _ => ~ digit c | [] => True end) by (destruct e; [trivial|apply no_digit; lia]).
  destruct M as [[N D]|(a & b & EM2 & A & B & AB)].
  - rewrite span_low by assumption.
    assert (R : match e with c :: r1 => if N.eqb c 46 then span is_digit r1 else ([], e) | [] => ([], []) end = ([], e)).
    { destruct e as [|y e]; [reflexivity|]. assert ((y =? 46)%N = false) as -> by lia. reflexivity. }
    change (exists f : float, (let '(fp, r') := match e with c :: r1 => if N.eqb c 46 then span is_digit r1 else ([], e) | [] => ([], []) end in
      match m ++ fp with
      | [] => Err ValueError
      | ds => match take_exponent r' with
              | Some e0 => Ok (dec_round neg (digits_val 0 ds) (e0 - Z.of_nat (length fp)))
              | None => Err ValueError
              end
      end) = Ok f). rewrite R, app_nil_r, TE. destruct m; [congruence|]. eexists. reflexivity.
  - rewrite EM2, <- app_assoc. cbn [app]. 
    rewrite EM2 in LM. apply Forall_app in LM. destruct LM as [LA LB]. inversion LB as [|? ? _ LB']; subst.
    rewrite span_low; [|assumption|assumption|apply no_digit; lia].
    rewrite N.eqb_refl. rewrite span_low by assumption. rewrite TE. destruct (a ++ b); [congruence|]. eexists. reflexivity.
Qed.

Lemma numeral_float x s : decimal x -> numeral x s -> exists f, float_of_text (dots s) = Ok f.
Proof.
  intros X N. apply (dots_numeral x s X), (ascii_numeral 46 _ (or_introl eq_refl)) in N. unfold float_of_text.
  pose proof (to_ascii_is_low (dots s)) as L. revert L N. generalize (to_ascii (dots s)). clear s. intros s L N.
  pose proof (numeral_chars 46 s (or_introl eq_refl) N) as CH.
  assert (ST : strip ws_bytes s = s).
  { assert (W : forall c, nchar c -> ws_bytes c = false) by (intros c [C|C]; [apply digit_range in C; unfold ws_bytes; lia|cbn [In] in C; unfold ws_bytes; lia]).
    pose proof (strip_around ws_bytes [] s [] (Forall_nil _) (Forall_nil _)) as E. rewrite app_nil_r in E. apply E.
    - intros c C. destruct CH; [discriminate|]. injection C as <-. auto.
    - intros c C. apply (@Forall_rev _ _ s) in CH. destruct CH; [discriminate|]. injection C as <-. auto. }
  unfold float_of_str. rewrite ST, no_underscore.
  - destruct N as (sg & m & e & -> & S & M & E).
    assert (TS : exists b, take_sign (sg ++ m ++ e) = (b, m ++ e)).
    { destruct S as [->|[->| ->]]; [|eexists; reflexivity|eexists; reflexivity]. exists false.
      pose proof (mantissa_no_sign 46 m e (or_introl eq_refl) M) as O. cbn [app] in *. destruct (m ++ e) as [|y t]; [reflexivity|].
      cbn [opt_sign take_sign] in *. destruct (y =? 45)%N; [discriminate|]. destruct (y =? 43)%N; [discriminate|]. reflexivity. }
    destruct TS as (b & ->). apply Forall_app in L. destruct L as [_ L]. apply Forall_app in L. destruct L as [L1 L2].
    apply float_body_numeral; assumption.
  - intro H. rewrite Forall_forall in CH. apply CH in H. destruct H as [H|H]; [apply digit_range in H|cbn [In] in H]; lia.
Qed.
