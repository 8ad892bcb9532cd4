(** * Spread sheet addresses, columns and packs: proofs of the property theorems *)

From Coq Require Import ZifyBool ZifyNat ZifyN QArith.
From Verif Require Import PyBase PyBaseFacts PyFloat PyText NumPy SpecArray ArrayFacts SpecPack Pack SpecDbf DbfProofs DbfThms SpecChars CharFacts XlDate ReadXl SpecXl XlProofs.
Open Scope nat_scope.
Open Scope Z_scope.

Lemma C41_value_proof :
forall s, s <> [] -> Forall letter s ->
  letter2num s true = Ok (column_no s) /\ letter2num s false = Ok (column_no s + 1) /\ 0 <= column_no s.
Proof.
  intros s N L. rewrite !letter2num_ok by (split; assumption). rewrite Z.add_0_r.
  split; [reflexivity|]. split; [reflexivity|]. rewrite column_no_hn. pose proof (hn_nonempty s L N). lia.
Qed.

Lemma ok_nonempty s n : letter2num s true = Ok n -> s <> [].
Proof. intros E ->. discriminate. Qed.

Lemma C41_bijection_proof :
(forall n, 0 <= n -> exists s, s <> [] /\ Forall capital s /\ letter2num s true = Ok n) /\
  (forall s t n, Forall capital s -> Forall capital t ->
     letter2num s true = Ok n -> letter2num t true = Ok n -> s = t).
Proof.
  split.
  - intros n N. destruct (hn_surj_nat (Z.to_nat (n + 1))) as (s & C & V). exists s.
    assert (NE : s <> []) by (intros ->; cbn in V; lia). split; [exact NE|]. split; [exact C|].
    rewrite letter2num_ok by (split; [exact NE|apply capitals_letters; exact C]).
    f_equal. rewrite column_no_hn. lia.
  - intros s t n Hs Ht E1 E2. pose proof (ok_nonempty s n E1) as N1. pose proof (ok_nonempty t n E2) as N2.
    rewrite letter2num_ok in E1 by (split; [exact N1|apply capitals_letters; exact Hs]).
    rewrite letter2num_ok in E2 by (split; [exact N2|apply capitals_letters; exact Ht]).
    apply hn_inj; try assumption. rewrite column_no_hn in E1, E2. assert (hn s - 1 + 0 = hn t - 1 + 0) by congruence. lia.
Qed.

Lemma C41_case_proof :
forall s, Forall letter s -> forall z, letter2num (map upper s) z = letter2num s z.
Proof.
  intros s L z. rewrite !letter2num_zbase.
  assert (E : upper_str (map upper s) = upper_str s); [|rewrite E; reflexivity].
  induction L as [|c s H1 H2 IH]; [reflexivity|].
  change (upper_str (map upper (c :: s))) with (upper_char (upper c) ++ upper_str (map upper s)).
  change (upper_str (c :: s)) with (upper_char c ++ upper_str s). rewrite IH. f_equal.
  unfold letter, capital in H1. unfold upper, upper_char.
  destruct (is_lower c) eqn:E; unfold is_lower in E.
  - assert (is_lower (c - 32) = false) as -> by (unfold is_lower; lia).
    repeat match goal with |- context [if (?x =? ?n)%N then _ else _] =>
      assert ((x =? n)%N = false) as -> by lia end. reflexivity.
  - assert (is_lower c = false) as -> by (unfold is_lower; lia). reflexivity.
Qed.

Lemma C41_monotone_proof :
forall s t m n, Forall capital s -> Forall capital t -> shortlex_lt s t ->
  letter2num s true = Ok m -> letter2num t true = Ok n -> m < n.
Proof.
  intros s t m n Hs Ht L E1 E2. pose proof (ok_nonempty s m E1) as N1. pose proof (ok_nonempty t n E2) as N2.
  rewrite letter2num_ok in E1 by (split; [exact N1|apply capitals_letters; exact Hs]).
  rewrite letter2num_ok in E2 by (split; [exact N2|apply capitals_letters; exact Ht]).
  rewrite column_no_hn in E1, E2.
  assert (hn s < hn t).
  { destruct L as [L|L]; [apply hn_length; try apply capitals_letters; assumption|apply hn_lex; assumption]. }
  assert (m = hn s - 1 + 0) by congruence. assert (n = hn t - 1 + 0) by congruence. lia.
Qed.

Lemma C41_rejected_proof :
letter2num [] true = Err AssertionError /\
  forall s c z, In c s -> ~ letter c -> ~ In c odd_letters -> letter2num s z = Err AssertionError.
Proof.
  split; [reflexivity|]. intros s c z I L O. rewrite letter2num_zbase.
  assert (forallb is_upper (upper_str s) = false) as ->; [|rewrite andb_false_r; reflexivity].
  apply Bool.not_true_is_false. intro F. rewrite forallb_forall in F.
  assert (C : In c (upper_str s)).
  { unfold upper_str. apply in_flat_map. exists c. split; [exact I|].
    unfold letter, capital in L. unfold upper_char.
    assert (is_lower c = false) as -> by (unfold is_lower; lia).
    cbn in O.
    repeat match goal with |- context [if (c =? ?n)%N then _ else _] =>
      assert ((c =? n)%N = false) as -> by lia end. left. reflexivity. }
  apply F in C. apply L. left. apply is_upper_capital. exact C.
Qed.

Lemma C41_nonletters_refuted_proof :
map (fun c => letter2num [c] true) odd_letters =
  map (fun t => Ok (column_no (lit t))) ["SS"; "I"; "S"; "FF"; "FI"; "FL"; "FFI"; "FFL"; "ST"; "ST"]%string /\
Forall (fun c => ~ letter c) odd_letters.
Proof.
  split; [vm_compute; reflexivity|]. unfold odd_letters. repeat (constructor; [unfold letter, capital; lia|]). constructor.
Qed.

Ltac Zify.zify_post_hook ::= Z.div_mod_to_equations.

Lemma alphabet_nth r : 0 <= r < 26 -> nth (Z.to_nat r) alphabet 0%N = Z.to_N (r + 65).
Proof.
  intro R. assert (r = Z.of_nat (Z.to_nat r)) by lia. set (k := Z.to_nat r) in *. clearbody k. subst r.
  assert (K : (k < 26)%nat) by lia. clear R.
  do 26 (destruct k as [|k]; [reflexivity|]). lia.
Qed.

Lemma colname_spec fuel : forall n name, 0 <= n -> (Z.to_nat n < fuel)%nat ->
  exists s, colname_loop fuel n name = Ok (s ++ name) /\ s <> [] /\ Forall capital s /\ hn s = n + 1.
Proof.
  induction fuel as [|fuel IH]; intros n name N F; [lia|].
  cbn [colname_loop]. cbv zeta. rewrite alphabet_nth by lia.
  assert (C : capital (Z.to_N (n mod 26 + 65))) by (unfold capital; lia).
  assert (L : letter_no (Z.to_N (n mod 26 + 65)) = n mod 26 + 1).
  { unfold letter_no. assert ((97 <=? Z.to_N (n mod 26 + 65))%N = false) as -> by lia. lia. }
  destruct (n / 26 =? 0) eqn:Q.
  - eexists [_]. split; [reflexivity|]. split; [discriminate|]. split; [constructor; [exact C|constructor]|].
    unfold hn. cbn [fold_left]. rewrite L. lia.
  - destruct (IH (n / 26 - 1) (Z.to_N (n mod 26 + 65) :: name)) as (s & E & NE & Cs & V); [lia|lia|].
    exists (s ++ [Z.to_N (n mod 26 + 65)]). rewrite <- app_assoc. split; [exact E|].
    split; [destruct s; discriminate|]. split.
    + apply Forall_app. split; [exact Cs|]. constructor; [exact C|constructor].
    + rewrite hn_snoc, V, L. lia.
Qed.

Lemma book_colname_spec n : 0 <= n ->
  exists s, book_colname n = Ok s /\ s <> [] /\ Forall capital s /\ hn s = n + 1.
Proof.
  intro N. unfold book_colname. assert (n <? 0 = false) as -> by lia.
  destruct (colname_spec (S (Z.to_nat n)) n [] N ltac:(lia)) as (s & E & R).
  rewrite app_nil_r in E. exists s. split; [exact E|exact R].
Qed.

Lemma C42_parse_back_proof :
forall n, 0 <= n -> exists s, book_colname n = Ok s /\ s <> [] /\ Forall capital s /\ letter2num s true = Ok n.
Proof.
  intros n N. destruct (book_colname_spec n N) as (s & E & NE & C & V).
  exists s. split; [exact E|]. split; [exact NE|]. split; [exact C|].
  rewrite letter2num_ok by (split; [exact NE|apply capitals_letters; exact C]).
  rewrite column_no_hn, V. f_equal. lia.
Qed.

Lemma alpha_at_in i : 0 <= i < 26 -> alpha_at i = Ok (Z.to_N (i + 65)).
Proof.
  intro I. unfold alpha_at. rewrite py_index_nonneg by lia.
  rewrite (nth_error_nth' alphabet 0%N) by (change (length alphabet) with 26%nat; lia).
  rewrite alphabet_nth by exact I. reflexivity.
Qed.

Lemma C42_two_letters_proof :
forall n, (0 <= n < 702 -> formula_colname n = book_colname n) /\
  (702 <= n -> formula_colname n = Err IndexError).
Proof.
  intro n. split; intro H.
  - unfold formula_colname, book_colname. assert (n <? 0 = false) as -> by lia.
    cbn [colname_loop]. cbv zeta. rewrite alphabet_nth by lia.
    destruct (n <=? 25) eqn:E.
    + rewrite alpha_at_in by lia. cbn [bind]. assert (n / 26 =? 0 = true) as -> by lia.
      replace (n mod 26) with n by lia. reflexivity.
    + rewrite !alpha_at_in by lia. cbn [bind]. assert (n / 26 =? 0 = false) as -> by lia.
      destruct (Z.to_nat n) as [|k] eqn:K; [lia|]. cbn [colname_loop]. cbv zeta. rewrite alphabet_nth by lia.
      assert ((n / 26 - 1) / 26 =? 0 = true) as -> by lia.
      replace ((n / 26 - 1) mod 26) with (n / 26 - 1) by lia. reflexivity.
  - unfold formula_colname. assert (n <=? 25 = false) as -> by lia.
    unfold alpha_at at 1. rewrite py_index_nonneg by lia.
    rewrite (proj2 (nth_error_None alphabet (Z.to_nat (n / 26 - 1)))); [reflexivity|].
    change (length alphabet) with 26%nat. lia.
Qed.

Lemma C42_negative_index_refuted_proof :
formula_colname (-1) = Ok (lit "Z") /\ book_colname (-1) = Err AssertionError.
Proof.
  vm_compute. auto.
Qed.

Lemma C43_address_proof :
forall row col l junk, l <> [] -> Forall letter l ->
  (forall c, hd_error junk = Some c -> forall v, ~ digit_of c v) ->
  (forall d n, decimal_text d n -> 1 <= n ->
     cellreference row col (Some (l ++ d ++ junk)) = Ok (n - 1, column_no l)) /\
  (forall d, decimal_text d 0 -> cellreference row col (Some (l ++ d ++ junk)) = Err ValueError) /\
  ((forall c, hd_error junk = Some c -> ~ letter c) ->
     cellreference row col (Some (l ++ junk)) = Ok (row, column_no l)).
Proof.
  intros row col l junk N L J.
  assert (T : column_text l) by (split; assumption).
  split; [|split].
  - intros d n D P. apply decimal_text_iff in D. destruct D as (ND & D & V). rewrite cellreference_spec; try assumption; [|congruence].
    destruct d; [congruence|]. rewrite V. assert (n <? 1 = false) as -> by lia. reflexivity.
  - intros d D. apply decimal_text_iff in D. destruct D as (ND & D & V). rewrite cellreference_spec; try assumption; [|congruence].
    destruct d; [congruence|]. rewrite V. reflexivity.
  - intros J'. apply (cellreference_spec row col l [] junk); try assumption; [constructor|]. intros _. exact J'.
Qed.

Lemma C43_no_letter_proof :
forall row col s, (s <> [] -> (forall c, hd_error s = Some c -> ~ letter c) ->
    cellreference row col (Some s) = Err ValueError) /\
  cellreference row col None = Ok (row, col) /\ cellreference row col (Some []) = Ok (row, col).
Proof.
  intros row col s. repeat split. intros N H. unfold cellreference. destruct s as [|c s]; [congruence|].
  pose proof (span_alpha [] (c :: s) (Forall_nil _) H) as E. cbn [app] in E. rewrite E. reflexivity.
Qed.

Lemma C43_total_proof :
forall row col s, (exists r c, cellreference row col (Some s) = Ok (r, c)) \/
  cellreference row col (Some s) = Err ValueError.
Proof.
  intros row col s. unfold cellreference. destruct s as [|x s']; [left; eauto|].
  destruct (span is_alpha (x :: s')) as [l r] eqn:E. apply span_spec in E. destruct E as (_ & F & _).
  destruct l as [|y l]; [right; reflexivity|].
  assert (T : column_text (y :: l)).
  { split; [discriminate|]. eapply Forall_impl; [|exact F]. intro c. apply is_alpha_letter. }
  rewrite (letter2num_ok _ true T). destruct (fst (span is_decimal r)) as [|d ds]; [left; eexists _, _; reflexivity|].
  destruct (digits_val 0 (to_ascii (d :: ds)) <? 1); [right; reflexivity|left; eexists _, _; reflexivity].
Qed.

Lemma letter_value_capital c : capital c -> letter_value c = Some (letter_no c).
Proof.
  intro C. unfold letter_value. rewrite (proj2 (is_upper_capital c) C).
  unfold letter_no. unfold capital in C. assert ((97 <=? c)%N = false) as -> by lia. reflexivity.
Qed.

Lemma name_loop_letters u : forall charx colx tail b, Forall capital u ->
  cell_name_loop (u ++ tail) charx colx b =
  cell_name_loop tail (charx + Z.of_nat (length u)) (fold_left (fun n c => 26 * n + letter_no c) u colx) b.
Proof.
  induction u as [|c u IH]; intros charx colx tail b C.
  - cbn [app length fold_left]. f_equal. lia.
  - inversion C; subst. cbn [app cell_name_loop]. cbv zeta. rewrite (letter_value_capital c H1).
    pose proof (letter_no_range c (capital_letter c H1)).
    assert (letter_no c =? 0 = false) as -> by lia. cbn [negb]. rewrite IH by assumption.
    cbn [length fold_left]. f_equal; [lia|]. f_equal. lia.
Qed.

Lemma upper_str_app a b : upper_str (a ++ b) = upper_str a ++ upper_str b.
Proof. apply flat_map_app. Qed.

Lemma upper_str_digits d : all_digits d -> upper_str d = d.
Proof.
  induction 1 as [|c s H1 H2 IH]; [reflexivity|].
  change (upper_str (c :: s)) with (upper_char c ++ upper_str s). rewrite IH. unfold upper_char.
  assert (is_lower c = false) as -> by (unfold is_lower; lia).
  repeat match goal with |- context [if (c =? ?n)%N then _ else _] =>
      assert ((c =? n)%N = false) as -> by lia end. reflexivity.
Qed.

Lemma cell_name_spec l d b : l <> [] -> Forall letter l -> d <> [] -> all_digits d -> hd_error d <> Some 48%N ->
  cell_name_to_rowx_colx (l ++ d) b =
  if column_no l <? 16384 then Ok (dec_value d - 1, Some (column_no l)) else Err AssertionError.
Proof.
  intros N L ND D Z. unfold cell_name_to_rowx_colx.
  destruct (upper_str_letters l L) as (C & Len & V).
  rewrite upper_str_app, (upper_str_digits d D), name_loop_letters by exact C. rewrite Len.
  change (fold_left (fun n c => 26 * n + letter_no c) (upper_str l) 0) with (hn (upper_str l)). rewrite V.
  destruct d as [|x d]; [congruence|]. cbn [cell_name_loop]. cbv zeta.
  assert (X : (49 <= x <= 57)%N).
  { inversion D; subst. assert (x <> 48%N) by (intros ->; apply Z; reflexivity). lia. }
  assert (letter_value x = Some 0) as ->.
  { unfold letter_value. assert (is_upper x = false) as -> by (unfold is_upper; lia).
    assert (((49 <=? x) && (x <=? 57))%N = true) as -> by lia. reflexivity. }
  cbn [Z.eqb negb]. assert (0 < Z.of_nat (length l)) by (destruct l; [congruence|cbn; lia]).
  assert (-1 + Z.of_nat (length l) + 1 =? 0 = false) as -> by lia.
  pose proof (hn_nonempty l L N). rewrite column_no_hn. change (2 ^ 14) with 16384.
  destruct (hn l - 1 <? 16384) eqn:E.
  - assert ((0 <=? hn l - 1) && true = true) as -> by lia. cbn [bind].
    unfold from_index. assert (-1 + Z.of_nat (length l) + 1 <? 0 = false) as -> by lia.
    replace (Z.to_nat (-1 + Z.of_nat (length l) + 1)) with (length l) by lia.
    rewrite skipn_app, skipn_all, Nat.sub_diag. cbn [app skipn].
    rewrite int_of_text_low; [|eapply Forall_impl; [|exact D]; cbv beta; lia].
    rewrite int_of_digits by assumption. reflexivity.
  - rewrite andb_false_r. reflexivity.
Qed.

Lemma C43_parsers_agree_proof :
forall l d, l <> [] -> Forall letter l -> d <> [] -> all_digits d -> hd_error d <> Some 48%N ->
  (column_no l < 16384 ->
     cell_name_to_rowx_colx (l ++ d) false = Ok (dec_value d - 1, Some (column_no l)) /\
     cellreference 0 0 (Some (l ++ d)) = Ok (dec_value d - 1, column_no l)) /\
  (16384 <= column_no l -> cell_name_to_rowx_colx (l ++ d) false = Err AssertionError).
Proof.
  intros l d N L ND D Z. rewrite (cell_name_spec l d false N L ND D Z). split; intro H.
  - assert (column_no l <? 16384 = true) as -> by lia. split; [reflexivity|].
    apply refers_ref. constructor; [split; assumption|rewrite <- digits_val_eq; apply ascii_digits_text; assumption|].
    destruct d as [|x d]; [congruence|]. inversion D; subst.
    assert (x <> 48%N) by (intros ->; apply Z; reflexivity).
    rewrite <- digits_val_eq. cbn [digits_val].
    assert (W : forall s acc, 1 <= acc -> all_digits s -> 1 <= digits_val acc s).
    { clear. induction s as [|c s IH]; intros acc A S; [exact A|]. inversion S; subst. cbn [digits_val]. apply IH; [lia|assumption]. }
    apply W; [lia|assumption].
  - assert (column_no l <? 16384 = false) as -> by lia. reflexivity.
Qed.

Lemma C43_leading_zero_refuted_proof :
cellreference 0 0 (Some (lit "A01")) = Ok (0, 0) /\
  cell_name_to_rowx_colx (lit "A01") false = Err OtherError /\
  cellreference 0 0 (Some (lit "A1_0")) = Ok (0, 0) /\
  cell_name_to_rowx_colx (lit "A1_0") false = Ok (9, Some 0).
Proof.
  vm_compute. auto.
Qed.

Lemma dec_digits_head n : forall z c, (0 < z < 2 ^ Z.of_nat n)%Z -> hd_error (dec_digits n z) = Some c -> c <> 48%N.
Proof.
  induction n as [|n IH]; intros z c B H; [discriminate|]. cbn [dec_digits] in H.
  destruct (z <? 10) eqn:E.
  - injection H as <-. lia.
  - assert (z / 10 < 2 ^ Z.of_nat n).
    { rewrite Nat2Z.inj_succ, Z.pow_succ_r in B by lia. lia. }
    destruct (dec_digits n (z / 10)) as [|x l] eqn:Q.
    + clear IH.
      destruct n as [|n']; [cbn in H0; lia|]. cbn [dec_digits] in Q.
      destruct (z / 10 <? 10); [discriminate|]. destruct (dec_digits n' (z / 10 / 10)); discriminate.
    + cbn in H. injection H as <-. apply (IH (z / 10)); [lia|]. rewrite Q. reflexivity.
Qed.

Lemma row_text r : 0 <= r -> let d := str_of_Z (r + 1) in
  d <> [] /\ all_digits d /\ dec_value d = r + 1 /\ hd_error d <> Some 48%N.
Proof.
  intros R d. destruct (@str_of_Z_nonneg (r + 1) ltac:(lia)) as (A & B & C). fold d in A, B, C.
  split; [exact C|]. split.
  { eapply Forall_impl; [|exact B]. intros c. apply digit_spec. }
  split; [rewrite <- digits_val_eq; exact A|].
  intro H. unfold d, str_of_Z in H. assert (r + 1 <? 0 = false) as E by lia. rewrite E in H.
  apply dec_digits_head in H; [congruence|]. pose proof (@log2_bound (r + 1) ltac:(lia)). lia.
Qed.

Lemma C43_print_parse_proof :
forall r c, 0 <= r -> 0 <= c < 702 ->
  exists s, cellname r c = Ok s /\ cellreference 0 0 (Some s) = Ok (r, c) /\
            cell_name_to_rowx_colx s false = Ok (r, Some c).
Proof.
  intros r c R C. unfold cellname.
  rewrite (proj1 (C42_two_letters_proof c)) by exact C.
  destruct (book_colname_spec c ltac:(lia)) as (s & E & NE & Cs & V). rewrite E. cbn [bind].
  destruct (row_text r R) as (D1 & D2 & D3 & D4).
  exists (s ++ str_of_Z (r + 1)). split; [reflexivity|].
  pose proof (capitals_letters s Cs) as L.
  destruct (C43_parsers_agree_proof s (str_of_Z (r + 1)) NE L D1 D2 D4) as [P _].
  assert (K : column_no s = c) by (rewrite column_no_hn; lia). rewrite K, D3 in P.
  replace (r + 1 - 1) with r in P by ring. destruct (P ltac:(lia)). auto.
Qed.

Lemma C44_items_proof :
forall u items l, held u items -> Forall2 whole items l ->
  exists r, normalize_usecols u = Ok r /\ Permutation l r /\ Sorted Z.le r.
Proof.
  intros u items l H W. exists (zsort l). split; [exact (normalize_held u items l H W)|]. split; [apply zsort_perm|apply zsort_sorted].
Qed.

Lemma C44_text_proof :
forall its t, cols_text its t ->
  exists r, normalize_usecols (OStr t) = Ok r /\ Permutation (flat_map item_columns its) r /\ Sorted Z.le r.
Proof.
  intros its t C. exists (zsort (flat_map item_columns its)).
  split; [apply normalize_text; exact C|]. split; [apply zsort_perm|apply zsort_sorted].
Qed.

Lemma C44_sorted_proof :
forall u r, normalize_usecols u = Ok r -> Sorted Z.le r.
Proof.
  intros u r H.
  assert (W : forall (A : Type) (e : res A) (f : A -> list Z), (do x <- e; Ok (zsort (f x))) = Ok r -> Sorted Z.le r).
  { intros A e f E. destruct e; cbn in E; [|discriminate]. injection E as <-. apply zsort_sorted. }
  destruct u; cbn [normalize_usecols] in H; try discriminate H;
    try (cbn [iterate_cols bind] in H; try discriminate H; apply (W _ _ (fun x => x)) in H; exact H).
  - apply W in H. exact H.
  - destruct (iterate_cols (OArr a)) as [l|e]; cbn [bind] in H; [|discriminate]. apply (W _ _ (fun x => x)) in H. exact H.
Qed.

Lemma C44_inner_space_refuted_proof :
normalize_usecols (OStr (lit " C:E ")) = Ok [2; 3; 4] /\
  normalize_usecols (OStr (lit "C: E")) = Err AssertionError /\
  normalize_usecols (OStr (lit "C:E:F")) = Err ValueError.
Proof.
  vm_compute. auto.
Qed.

Lemma C45_typing_proof :
forall datemode cells, Forall cell_ok cells ->
  (forall out, convert_column datemode (map fst cells) (map snd cells) = Ok out <-> typed_column datemode cells out) /\
  ((forall f, In (VFloat f, XL_CELL_DATE) cells -> exists v, xldate_as_datetime f datemode = Ok v) ->
     exists out, typed_column datemode cells out).
Proof.
  intros datemode cells O. split.
  - intro out. split; [apply convert_typed; exact O|apply typed_convert].
  - intro D. 
    assert (E : exists out, convert_column datemode (map fst cells) (map snd cells) = Ok out).
    { unfold convert_column. rewrite zip_map_fst_snd.
      destruct (forallb _ (map snd cells)); [eauto|]. destruct (forallb _ (map snd cells)); [eauto|].
      induction O as [|[v t] cells H1 H2 IH]; [exists []; reflexivity|].
      destruct IH as (out & E); [intros f I; apply D; right; exact I|].
      assert (exists w, mixed_value datemode (v, t) = Ok w) as (w & W).
      { unfold mixed_value. destruct (t =? XL_CELL_DATE) eqn:T.
        - apply Z.eqb_eq in T. subst t. destruct H1 as (_ & H1 & _). destruct (H1 eq_refl) as (f & ->).
          apply D. left. reflexivity.
        - destruct (in_set t missingtypes); [eauto|]. destruct (t =? XL_CELL_BOOLEAN); eauto. }
      exists (w :: out). cbn [mapM]. rewrite W. cbn [bind]. rewrite E. reflexivity. }
    destruct E as (out & E). exists out. apply convert_typed; assumption.
Qed.

Lemma plain_positions fill cells out i v t w :
  Forall2 (fun vt w => plain_cell fill (fst vt) (snd vt) w) cells out ->
  nth_error cells i = Some (v, t) -> nth_error out i = Some w -> t = XL_CELL_TEXT \/ t = XL_CELL_NUMBER -> w = v.
Proof.
  intro F. revert i. induction F as [|[v' t'] w' cells out H1 H2 IH]; intros [|i] E1 E2 T; try discriminate.
  - cbn in E1, E2. injection E1 as -> ->. injection E2 as ->. cbn in H1. destruct H1 as [[M _]|[_ E]]; [|exact E].
    unfold missing, XL_CELL_TEXT, XL_CELL_NUMBER, XL_CELL_EMPTY, XL_CELL_ERROR, XL_CELL_BLANK in *. lia.
  - exact (IH i E1 E2 T).
Qed.

Lemma C45_positions_proof :
forall datemode cells out, convert_column datemode (map fst cells) (map snd cells) = Ok out ->
  length out = length cells /\
  (forall i v t w, nth_error cells i = Some (v, t) -> nth_error out i = Some w ->
     t = XL_CELL_TEXT \/ t = XL_CELL_NUMBER -> w = v).
Proof.
  intros datemode cells out E. unfold convert_column in E. rewrite zip_map_fst_snd in E.
  destruct (forallb (fun t => in_set t numericset) (map snd cells)).
  { injection E as <-. split; [apply map_length|]. intros i v t w. apply plain_positions with (fill := VFloat fnan).
    apply plain_map_inv. }
  destruct (forallb (fun t => in_set t textset) (map snd cells)).
  { injection E as <-. split; [apply map_length|]. intros i v t w. apply plain_positions with (fill := VStr []).
    apply plain_map_inv. }
  split; [apply mapM_ok_length in E; exact E|].
  intros i v t w E1 E2 T. apply mapM_ok_Forall2 in E. revert i E1 E2.
  induction E as [|vt w' cells out H1 H2 IH]; intros [|i] E1 E2; try discriminate.
  - cbn in E1, E2. injection E1 as ->. injection E2 as ->. destruct T as [-> | ->]; cbn in H1; congruence.
  - exact (IH i E1 E2).
Qed.

Lemma stop_ref ws stopcell r1 c1 : stops ws stopcell r1 c1 ->
  exists ref, cellreference 0 0 stopcell = Ok ref /\
  (if no_text stopcell then cellreference (sh_nrows ws - 1) (sh_ncols ws - 1) None else Ok ref) = Ok (r1, c1).
Proof.
  intros [a D|a r c N1 N2 R].
  - exists (0, 0). destruct D as [-> | ->]; split; reflexivity.
  - exists (r, c). split; [apply refers_ref; exact R|]. destruct a as [[|x s]|]; [congruence|reflexivity|congruence].
Qed.

Lemma stops_row ws stopcell r1 c1 : rectangular ws -> stops ws stopcell r1 c1 -> -1 <= r1.
Proof.
  intros (N & _) [a D|a r c N1 N2 R]; [lia|]. apply refers_nonneg in R. lia.
Qed.

Lemma sorted_first_last cols c0 c1 : cols <> [] -> Forall (fun c => c0 <= c <= c1) cols ->
  exists x l, zsort cols = x :: l /\ c0 <= x /\ last (x :: l) x <= c1.
Proof.
  intros N F. destruct (zsort cols) as [|x l] eqn:E.
  - pose proof (zsort_length cols) as L. rewrite E in L. destruct cols; [congruence|discriminate].
  - exists x, l. split; [reflexivity|]. rewrite Forall_forall in F.
    assert (G : forall y, In y (x :: l) -> c0 <= y <= c1).
    { intros y I. apply F. apply zsort_In. rewrite E. exact I. }
    split; [apply G; left; reflexivity|]. apply G. apply last_In.
Qed.

Lemma dict_of_zip {V} (f : Z -> V) l k :
  (In k l -> dget k (dict_of (zip l (map f l))) = Some (f k)) /\
  (~ In k l -> dget k (dict_of (zip l (map f l))) = None).
Proof.
  unfold dict_of. rewrite dict_of_dget. split; intro I.
  - assert (existsb (Z.eqb k) l = true) as ->; [|reflexivity].
    apply existsb_exists. exists k. split; [exact I|lia].
  - assert (existsb (Z.eqb k) l = false) as ->; [|reflexivity].
    apply Bool.not_true_is_false. intro E. apply existsb_exists in E. destruct E as (x & X & E).
    apply I. assert (k = x) as -> by lia. exact X.
Qed.

Lemma dget_map {V W} (g : V -> W) (d : dict V) k :
  dget k (map (fun kv => (fst kv, g (snd kv))) d) = option_map g (dget k d).
Proof. induction d as [|[k' v] d IH]; [reflexivity|]. cbn. destruct (k =? k'); [reflexivity|exact IH]. Qed.

Lemma header_rows ws header r0 nr r c0 cols : rectangular ws -> 0 <= r0 ->
  headed header r0 nr r -> (forall k, nr = Some k -> k < sh_nrows ws) ->
  Forall (fun c => 0 <= c < sh_ncols ws) cols ->
  0 <= r /\
  header_names ws header (r0, c0) cols = Ok (option_map (fun k => map (value_at ws k) cols) nr, (r, c0)) /\
  obj_truth header = Ok (match nr with Some _ => true | None => false end).
Proof.
  intros R R0 H NR C. destruct H as [r0|r0 a r c NE RF|r0].
  - split; [lia|]. split; [|reflexivity]. unfold header_names. cbn [fst snd].
    rewrite names_row; [reflexivity|exact R|specialize (NR r0 eq_refl); lia|exact C].
  - split; [exact R0|]. split; [|destruct a; [congruence|reflexivity]].
    unfold header_names. cbv beta iota. change (@Some str a) with (@Some (list N) a). rewrite (refers_ref _ _ _ RF). cbn [bind fst snd].
    apply refers_nonneg in RF. rewrite names_row; [reflexivity|exact R|specialize (NR r eq_refl); lia|exact C].
  - split; [exact R0|]. split; reflexivity.
Qed.

Lemma C46_rectangle_proof :
forall wb fname which header startcell stopcell usecols ws r0 c0 r1 c1 cols nr r f,
  chosen_sheet wb which ws -> rectangular ws ->
  refers startcell r0 c0 -> stops ws stopcell r1 c1 -> c1 < sh_ncols ws ->
  chosen_columns c0 c1 usecols cols -> cols <> [] -> Forall (fun c => c0 <= c <= c1) cols ->
  headed header r0 nr r -> (forall k, nr = Some k -> k < sh_nrows ws) ->
  (forall c, In c cols ->
     typed_column (bk_datemode wb) (cells_of ws c r (Z.min r1 (sh_nrows ws - 1))) (f c)) ->
  exists p, sheetpack wb fname which header startcell stopcell usecols = Ok p /\
    p_fn p = fname /\
    (forall c, In c cols -> holds_column (p_data p) c (f c)) /\
    (forall c, ~ In c cols -> dget c (p_data p) = None) /\
    (forall c, In c cols -> dget c (p_names p) = match nr with
                                                 | Some k => Some (value_at ws k c)
                                                 | None => None
                                                 end) /\
    (forall c, ~ In c cols -> dget c (p_names p) = None).
Proof.
  intros wb fname which header startcell stopcell usecols ws r0 c0 r1 c1 cols nr r f
    CS R RF ST C1 CC NE F H N T.
  pose proof (refers_nonneg _ _ _ RF) as [R0 C0].
  pose proof (stops_row ws stopcell r1 c1 R ST) as R1.
  unfold sheetpack. rewrite (refers_ref _ _ _ RF). cbn [bind].
  destruct (stop_ref ws stopcell r1 c1 ST) as (ref & E1 & E2). rewrite E1. cbn [bind].
  rewrite (chosen_sheet_find _ _ _ CS). cbn [bind]. rewrite E2. cbn [bind snd].
  destruct (columns_truth usecols c0 c1 cols CC) as (given & G1 & G2). rewrite G1. cbn [bind]. rewrite G2. cbn [bind].
  destruct (sorted_first_last cols c0 c1 NE F) as (x & l & E & B1 & B2). 
  assert (Fs : Forall (fun c => 0 <= c < sh_ncols ws) (zsort cols)).
  { apply Forall_forall. intros c I. apply (proj1 (zsort_In c cols)) in I. rewrite Forall_forall in F. specialize (F c I). lia. }
  destruct (header_rows ws header r0 nr r c0 (zsort cols) R R0 H N Fs) as (Rr & HN & HT).
  assert (COL : sheet_columns (bk_datemode wb) ws (r, c0) (r1, c1) (zsort cols) = Ok (map f (zsort cols))).
  { apply sheet_columns_ok; try assumption. intros c I. apply T. apply (proj1 (zsort_In c cols)). exact I. }
  remember (zsort cols) as us eqn:U. rewrite E. rewrite <- E.
  assert ((x <? c0) || (c1 <? last us x) = false) as -> by (rewrite E; lia).
  rewrite HN. cbn [bind]. rewrite COL. cbn [bind]. rewrite HT. cbn [bind].
  destruct nr as [k|]; cbn [option_map bind].
  - eexists. split; [reflexivity|].
    destruct (pack_parts (map (fun kv => (fst kv, np_array (snd kv))) (dict_of (zip us (map f us))))
                (dict_of (zip us (map (value_at ws k) us))) fname) as (P1 & P2 & P3).
    rewrite P1, P2, P3. split; [reflexivity|].
    repeat split; intros c I; try (apply column_iff); rewrite ?dget_map; rewrite <- zsort_In, <- U in I;
      match goal with |- context [map ?g us] => destruct (dict_of_zip g us c) as [D1 D2] end;
      first [rewrite (D1 I)|rewrite (D2 I)]; reflexivity.
  - eexists. split; [reflexivity|].
    destruct (pack_parts (map (fun kv => (fst kv, np_array (snd kv))) (dict_of (zip us (map f us)))) [] fname) as (P1 & P2 & P3).
    rewrite P1, P2, P3. split; [reflexivity|].
    repeat split; intros c I; try (apply column_iff); rewrite ?dget_map; rewrite <- zsort_In, <- U in I; try reflexivity;
      match goal with |- context [map ?g us] => destruct (dict_of_zip g us c) as [D1 D2] end;
      first [rewrite (D1 I)|rewrite (D2 I)]; reflexivity.
Qed.

Lemma C46_outside_proof :
forall wb fname which header startcell stopcell usecols ws r0 c0 r1 c1 cols,
  chosen_sheet wb which ws -> refers startcell r0 c0 -> stops ws stopcell r1 c1 ->
  chosen_columns c0 c1 usecols cols -> (exists c, In c cols /\ (c < c0 \/ c1 < c)) ->
  sheetpack wb fname which header startcell stopcell usecols = Err ValueError.
Proof.
  intros wb fname which header startcell stopcell usecols ws r0 c0 r1 c1 cols CS RF ST CC (c & I & O).
  unfold sheetpack. rewrite (refers_ref _ _ _ RF). cbn [bind].
  destruct (stop_ref ws stopcell r1 c1 ST) as (ref & E1 & E2). rewrite E1. cbn [bind].
  rewrite (chosen_sheet_find _ _ _ CS). cbn [bind]. rewrite E2. cbn [bind snd].
  destruct (columns_truth usecols c0 c1 cols CC) as (given & G1 & G2). rewrite G1. cbn [bind]. rewrite G2. cbn [bind].
  apply (proj2 (zsort_In c cols)) in I. pose proof (zsort_sorted cols) as S. destruct (zsort cols) as [|x l]; [destruct I|].
  pose proof (sorted_bounds l x S c I) as B.
  assert ((x <? c0) || (c1 <? last (x :: l) x) = true) as -> by lia. reflexivity.
Qed.

Lemma C46_bare_stop_column_refuted_proof :
exists wb p, sheetpack wb (lit "f.xls") (OInt 0) (OBool true) None (Some (lit "C")) ONone = Ok p /\
  sh_nrows (nth 0 (bk_sheets wb) (mksheet 0 0 [] [])) = 3 /\ p_data p = [(0, mkarr Kf []); (1, mkarr Kf []); (2, mkarr Kf [])].
Proof.
  exists (mkbook [lit "one"] [mksheet 3 3
  [[VStr (lit "id"); VStr (lit "t"); VStr (lit "v")];
   [VStr (lit "x"); VFloat (float_of_Z 43890); VFloat (float_of_Z 7)];
   [VStr (lit "y"); VFloat (float_of_Z 43891); VStr []]]
  [[1; 1; 1]; [1; 3; 2]; [1; 3; 0]]] 0). eexists. split; [vm_compute; reflexivity|]. vm_compute. auto.
Qed.

Lemma C46_no_columns_proof :
forall wb fname which header startcell stopcell usecols ws r0 c0 r1 c1,
  chosen_sheet wb which ws -> refers startcell r0 c0 -> stops ws stopcell r1 c1 ->
  chosen_columns c0 c1 usecols (columns c0 c1) -> c1 < c0 ->
  sheetpack wb fname which header startcell stopcell usecols = Err IndexError.
Proof.
  intros wb fname which header startcell stopcell usecols ws r0 c0 r1 c1 CS RF ST CC L.
  unfold sheetpack. rewrite (refers_ref _ _ _ RF). cbn [bind].
  destruct (stop_ref ws stopcell r1 c1 ST) as (ref & E1 & E2). rewrite E1. cbn [bind].
  rewrite (chosen_sheet_find _ _ _ CS). cbn [bind]. rewrite E2. cbn [bind snd].
  destruct (columns_truth usecols c0 c1 _ CC) as (given & G1 & G2). rewrite G1. cbn [bind]. rewrite G2. cbn [bind].
  unfold columns. replace (Z.to_nat (c1 + 1 - c0)) with 0%nat by lia. reflexivity.
Qed.

Lemma C46_other_header_refuted_proof :
exists wb, sheetpack wb (lit "f.xls") (OInt 0) (OInt 1) None None ONone = Err UnboundLocalError /\
  (exists p, sheetpack wb (lit "f.xls") (OInt 0) (OInt 0) None None ONone = Ok p).
Proof.
  exists (mkbook [lit "one"] [mksheet 1 1 [[VStr (lit "id")]] [[1]]] 0). split; [vm_compute; reflexivity|].
  eexists. vm_compute. reflexivity.
Qed.

Lemma C46_other_header_proof :
forall wb fname which header startcell stopcell usecols p,
(exists z, header = OInt z /\ z <> 0) \/ (exists l, l <> [] /\ (header = OList l \/ header = OTuple l)) ->
sheetpack wb fname which (OBool false) startcell stopcell usecols = Ok p ->
sheetpack wb fname which header startcell stopcell usecols = Err UnboundLocalError.
Proof.
intros wb fname which header startcell stopcell usecols p H E.
assert (T : obj_truth header = Ok true).
{ destruct H as [(z & -> & NZ)|(l & NL & [-> | ->])]; cbn [obj_truth]; [replace (z =? 0) with false by lia; reflexivity| |]; destruct l; congruence. }
assert (HN : forall ws r u, header_names ws header r u = Ok (None, r)) by (destruct H as [(z & -> & _)|(l & _ & [-> | ->])]; reflexivity).
unfold sheetpack in *. destruct (cellreference 0 0 startcell); cbn [bind] in *; [|discriminate E].
destruct (cellreference 0 0 stopcell); cbn [bind] in *; [|discriminate E].
destruct (find_sheet wb which) as [ws|]; cbn [bind] in *; [|discriminate E].
destruct (if no_text stopcell then _ else _); cbn [bind] in *; [|discriminate E].
destruct (obj_truth usecols); cbn [bind] in *; [|discriminate E].
destruct (normalize_usecols _) as [[|c cols]|]; cbn [bind] in *; try discriminate E.
destruct (_ || _)%bool; [discriminate E|]. rewrite HN. cbn [header_names bind] in *.
destruct (sheet_columns _ _ _ _ _); cbn [bind] in *; [|discriminate E]. rewrite T. reflexivity.
Qed.

Lemma C46_false_header_proof :
forall wb fname which header startcell stopcell usecols,
header = ONone \/ header = OInt 0 \/ header = OList [] \/ header = OTuple [] ->
sheetpack wb fname which header startcell stopcell usecols = sheetpack wb fname which (OBool false) startcell stopcell usecols.
Proof.
intros wb fname which header startcell stopcell usecols [->|[->|[->| ->]]]; reflexivity.
Qed.

Lemma C46_array_refuted_proof :
(forall wb fname which header startcell stopcell ws r0 c0 r1 c1 kind x y l,
   chosen_sheet wb which ws -> refers startcell r0 c0 -> stops ws stopcell r1 c1 ->
   sheetpack wb fname which header startcell stopcell (OArr (mkarr kind (x :: y :: l))) = Err ValueError) /\
(forall wb fname which header startcell stopcell kind,
   sheetpack wb fname which header startcell stopcell (OArr (mkarr kind [VInt 0])) =
   sheetpack wb fname which header startcell stopcell ONone).
Proof.
split; [|reflexivity]. intros wb fname which header startcell stopcell ws r0 c0 r1 c1 kind x y l CS RF ST.
unfold sheetpack. rewrite (refers_ref _ _ _ RF). cbn [bind].
destruct (stop_ref ws stopcell r1 c1 ST) as (ref & E1 & E2). rewrite E1. cbn [bind].
rewrite (chosen_sheet_find _ _ _ CS). cbn [bind]. rewrite E2. reflexivity.
Qed.

