(** * Proofs about the values of DBF fields *)

From Coq Require Import ZArith Reals Lia ZifyBool ZifyNat ZifyN.
From Verif Require Import PyBase PyBaseFacts PyFloat PyFloatFacts NumPy Dbf SpecPack SpecNumber SpecDbf DbfProofs DbfSelect DbfThms
  NumberProofs TextProofs SpecNumeral NumeralProofs SpecField.
Open Scope nat_scope.

(** ** Integers *)

Theorem integer_iff s z : int_of_str s = Ok z <-> integer_text s z.
Proof.
  split.
  - unfold int_of_str. destruct (strip_spaces s) as (l & r & E & L & R). rewrite E at 2.
    generalize dependent (strip ws_bytes s). intros m E H.
    destruct (drop_underscores false m) as [t|] eqn:D; [|discriminate]. apply drop_iff in D.
    destruct (take_sign t) as [neg d] eqn:T. apply take_sign_split in T. destruct T as (sg & -> & S).
    destruct d as [|c d]; [discriminate|]. destruct (forallb is_digit (c :: d)) eqn:F; [|discriminate].
    apply forallb_digits in F. rewrite digits_val_eq in H. apply ok_inj in H. subst z.
    apply (it_digits l m sg neg (c :: d) r); (assumption || discriminate).
  - intros [l m sg neg ds r L R U S N D]. unfold int_of_str.
    assert (P : Forall (fun c => ~ space_like c) (sg ++ ds)).
    { apply Forall_app. split; [destruct S; repeat constructor; unfold space_like; lia|].
      eapply Forall_impl; [|exact D]. intros c C. cbv beta in C. unfold space_like. lia. }
    assert (NE : sg ++ ds <> []) by (destruct S; [exact N|discriminate|discriminate]).
    destruct (underscored_ends _ _ _ U NE P) as [A B].
    rewrite strip_inner; try assumption; [|intros ->; inversion U as [Q| |]; apply NE; symmetry; assumption].
    rewrite (proj2 (drop_iff _ _) U). rewrite (take_sign_text sg neg ds S).
    + destruct ds as [|c ds]; [congruence|]. rewrite all_digits_forallb by exact D. rewrite digits_val_eq. reflexivity.
    + intros c t ->. inversion D; subst. lia.
Qed.

(** ** Fields *)

Lemma nuls_gone b : replace1 0 [] b = without_nuls b.
Proof.
  unfold replace1, without_nuls. induction b as [|c b IH]; [reflexivity|]. cbn [flat_map filter]. rewrite IH.
  destruct (N.eqb c 0); reflexivity.
Qed.

Lemma blank_iff b : lstrip ws_bytes (without_nuls b) = [] <-> Forall pad_like b.
Proof.
  rewrite lstrip_nil. unfold without_nuls. split.
  - induction b as [|c b IH]; cbn [filter]; intro H; [constructor|].
    destruct (N.eqb c 0) eqn:E; cbn [negb] in H.
    + constructor; [left; lia|]. auto.
    + inversion H; subst. constructor; [right; apply ws_bytes_spec; assumption|]. auto.
  - induction 1 as [|c b P F IH]; cbn [filter]; [constructor|]. destruct (N.eqb c 0) eqn:E; cbn [negb]; [exact IH|].
    constructor; [|exact IH]. destruct P as [->|P]; [discriminate|]. apply ws_bytes_spec. exact P.
Qed.

Lemma lstrip_strip s : strip ws_bytes (lstrip ws_bytes s) = strip ws_bytes s.
Proof.
  assert (Q : lstrip ws_bytes (lstrip ws_bytes s) = lstrip ws_bytes s); [|unfold strip; rewrite Q; reflexivity].
  induction s as [|c s IH]; [reflexivity|]. cbn [lstrip]. destruct (ws_bytes c) eqn:E; [exact IH|].
  cbn [lstrip]. rewrite E. reflexivity.
Qed.

Lemma float_lstrip s : float_of_str (lstrip ws_bytes s) = float_of_str s.
Proof. unfold float_of_str. rewrite lstrip_strip. reflexivity. Qed.
Lemma int_lstrip s : int_of_str (lstrip ws_bytes s) = int_of_str s.
Proof. unfold int_of_str. rewrite lstrip_strip. reflexivity. Qed.

Lemma numeral_inked s f : numeral s f -> ~ Forall space_like s.
Proof.
  intros H F. apply float_numeral in H. unfold float_of_str in H.
  assert (E : strip ws_bytes s = []).
  { apply strip_nil. eapply Forall_impl; [|exact F]. intro c. apply ws_bytes_spec. }
  rewrite E in H. discriminate H.
Qed.
Lemma integer_inked s z : integer_text s z -> ~ Forall space_like s.
Proof.
  intros H F. apply integer_iff in H. unfold int_of_str in H.
  assert (E : strip ws_bytes s = []).
  { apply strip_nil. eapply Forall_impl; [|exact F]. intro c. apply ws_bytes_spec. }
  rewrite E in H. discriminate H.
Qed.

Lemma pads_spaces b : Forall pad_like b -> Forall space_like (without_nuls b).
Proof.
  intro H. unfold without_nuls. induction H as [|c b P F IH]; cbn [filter]; [constructor|].
  destruct (N.eqb c 0) eqn:E; cbn [negb]; [exact IH|]. constructor; [|exact IH]. destruct P as [->|P]; [discriminate|exact P].
Qed.

Lemma prefix_part v s : (exists r, strip_prefix v s = Some r) <-> exists r, s = v ++ r.
Proof.
  revert s. induction v as [|x v IH]; intro s; [split; intros _; [exists s|exists s]; reflexivity|].
  destruct s as [|y s]; cbn [strip_prefix app].
  - split; intros (r & H); discriminate.
  - destruct (N.eqb x y) eqn:E.
    + apply N.eqb_eq in E. subst y. rewrite IH. split; intros (r & H); exists r; congruence.
    + apply N.eqb_neq in E. split; intros (r & H); [discriminate|congruence].
Qed.

Lemma substring_iff v s : is_substring v s = true <-> part_of v s.
Proof.
  induction s as [|y s IH].
  - cbn [is_substring]. destruct (strip_prefix v []) as [r|] eqn:E.
    + split; [|reflexivity]. intros _. destruct (proj1 (prefix_part v [])) as (r' & H); [eauto|]. exists [], r'. exact H.
    + split; [discriminate|]. intros (l & r & H). destruct l; [|discriminate].
      destruct (proj2 (prefix_part v [])) as (r' & H'); [exists r; exact H|congruence].
  - cbn [is_substring]. destruct (strip_prefix v (y :: s)) as [r|] eqn:E.
    + split; [|reflexivity]. intros _. destruct (proj1 (prefix_part v (y :: s))) as (r' & H); [eauto|]. exists [], r'. exact H.
    + rewrite IH. split; intros (l & r & H).
      * exists (y :: l), r. rewrite H. reflexivity.
      * destruct l as [|z l]; [|injection H as -> H; exists l, r; exact H].
        destruct (proj2 (prefix_part v (y :: s))) as (r' & H'); [exists r; exact H|congruence].
Qed.

Lemma substring_not v s : is_substring v s = false <-> ~ part_of v s.
Proof. rewrite <- substring_iff. destruct (is_substring v s); split; congruence. Qed.

Theorem conv_value typ deci b v : conv typ deci b = Ok v <-> field_value typ deci b v.
Proof.
  split.
  - unfold conv. destruct (N.eqb typ 78) eqn:EN; [apply N.eqb_eq in EN; subst typ|].
    { unfold conv_numeric. rewrite nuls_gone. pose proof (blank_iff b) as BI.
      destruct (lstrip ws_bytes (without_nuls b)) as [|c t] eqn:E.
      - intro H. apply ok_inj in H. subst v. apply fv_N_blank. apply BI. reflexivity.
      - rewrite <- E. rewrite float_lstrip, int_lstrip. destruct (N.eqb deci 0) eqn:ED; cbn [negb].
        + apply N.eqb_eq in ED. subst deci. destruct (int_of_str (without_nuls b)) as [z|e] eqn:I; [|discriminate].
          cbn [bind]. intro H. apply ok_inj in H. subst v. apply fv_N_int. apply integer_iff. exact I.
        + apply N.eqb_neq in ED. destruct (float_of_str (without_nuls b)) as [z|e] eqn:I; [|discriminate].
          cbn [bind]. intro H. apply ok_inj in H. subst v. apply fv_N_dec; [exact ED|]. apply float_numeral. exact I. }
    destruct (N.eqb typ 68) eqn:EDt; [apply N.eqb_eq in EDt; subst typ|].
    { unfold conv_date. pose proof (strip_nil ws_bytes b) as BI. destruct (strip ws_bytes b) as [|c t] eqn:E.
      - intro H. apply ok_inj in H. subst v. apply fv_D_blank. eapply Forall_impl; [|apply BI; reflexivity]. intro. apply ws_bytes_spec.
      - destruct (int_of_str (bytes_at 0 4 b)) as [y|] eqn:Y; [|discriminate]. cbn [bind].
        destruct (int_of_str (bytes_at 4 2 b)) as [m|] eqn:M; [|discriminate]. cbn [bind].
        destruct (int_of_str (bytes_at 6 2 b)) as [d|] eqn:D; [|discriminate]. cbn [bind]. intro H.
        destruct (make_date_cases y m d) as [Q|Q]; rewrite Q in H; [|discriminate]. apply ok_inj in H. subst v.
        apply fv_D; try (apply integer_iff; assumption). apply make_date_ok. exact Q. }
    destruct (N.eqb typ 76) eqn:EL; [apply N.eqb_eq in EL; subst typ|].
    { unfold conv_logical. intro H. apply ok_inj in H. subst v.
      destruct (is_substring b (lit "YyTt")) eqn:A; [apply fv_L_true, substring_iff, A|]. apply substring_not in A.
      destruct (is_substring b (lit "NnFf")) eqn:B; [apply fv_L_false; [exact A|apply substring_iff, B]|].
      apply fv_L_other; [exact A|apply substring_not, B]. }
    destruct (N.eqb typ 70) eqn:EF; [apply N.eqb_eq in EF; subst typ|].
    { unfold conv_float. pose proof (strip_nil ws_bytes b) as BI. destruct (strip ws_bytes b) as [|c t] eqn:E.
      - intro H. apply ok_inj in H. subst v. apply fv_F_blank. eapply Forall_impl; [|apply BI; reflexivity]. intro. apply ws_bytes_spec.
      - destruct (float_of_str b) as [f|] eqn:F; [|discriminate]. cbn [bind]. intro H. apply ok_inj in H. subst v.
        apply fv_F. apply float_numeral. exact F. }
    destruct (decode_ascii b) as [t|] eqn:A; [|discriminate]. cbn [bind]. intro H. apply ok_inj in H. subst v.
    unfold decode_ascii in A. destruct (forallb _ b) eqn:F; [|discriminate]. apply ok_inj in A. subst t.
    apply fv_text.
    + cbn [In]. lia.
    + apply Forall_forall. intros c C. rewrite forallb_forall in F. specialize (F c C). lia.
  - intros [d b' P|b' z I|d b' f D F|d b' S|d b' f F|d b' S|d b' y m dd Y M D C|d b' A|d b' A B|d b' A B|ty d b' T A].
    + destruct (C40_numeric_fields_total_proof) as (H & _). apply H. exact P.
    + unfold conv, conv_numeric. cbn [N.eqb Pos.eqb]. rewrite nuls_gone. destruct (lstrip ws_bytes (without_nuls b')) as [|c t] eqn:E.
      * apply blank_iff, pads_spaces in E. destruct (integer_inked _ _ I E).
      * rewrite <- E, int_lstrip. apply integer_iff in I. cbn [N.eqb negb]. rewrite I. reflexivity.
    + unfold conv, conv_numeric. cbn [N.eqb Pos.eqb]. rewrite nuls_gone. destruct (lstrip ws_bytes (without_nuls b')) as [|c t] eqn:E.
      * apply blank_iff, pads_spaces in E. destruct (numeral_inked _ _ F E).
      * rewrite <- E, float_lstrip. apply float_numeral in F. apply N.eqb_neq in D. rewrite D. cbn [negb]. rewrite F. reflexivity.
    + destruct (C40_numeric_fields_total_proof) as (_ & _ & _ & H & _). apply H. exact S.
    + unfold conv, conv_float. cbn [N.eqb Pos.eqb]. destruct (strip ws_bytes b') as [|c t] eqn:E.
      * destruct (numeral_inked _ _ F). apply strip_nil in E. eapply Forall_impl; [|exact E]. intro. apply ws_bytes_spec.
      * apply float_numeral in F. rewrite F. reflexivity.
    + destruct (C40_date_fields_total_proof) as (H & _). apply H. exact S.
    + unfold conv, conv_date. cbn [N.eqb Pos.eqb]. destruct (strip ws_bytes b') as [|c t] eqn:E.
      * destruct (integer_inked _ _ Y). apply Forall_forall. intros c I. apply strip_nil in E. rewrite Forall_forall in E.
        apply ws_bytes_spec, E. rewrite <- (firstn_skipn 4 b'). apply in_or_app. left. exact I.
      * apply integer_iff in Y, M, D. change (firstn 4 b') with (bytes_at 0 4 b') in Y.
        change (firstn 2 (skipn 4 b')) with (bytes_at 4 2 b') in M. change (firstn 2 (skipn 6 b')) with (bytes_at 6 2 b') in D.
        rewrite Y. cbn [bind]. rewrite M. cbn [bind]. rewrite D. cbn [bind].
        apply make_date_ok. exact C.
    + unfold conv, conv_logical. cbn [N.eqb Pos.eqb]. apply substring_iff in A. rewrite A. reflexivity.
    + unfold conv, conv_logical. cbn [N.eqb Pos.eqb]. apply substring_not in A. apply substring_iff in B. rewrite A, B. reflexivity.
    + unfold conv, conv_logical. cbn [N.eqb Pos.eqb]. apply substring_not in A, B. rewrite A, B. reflexivity.
    + apply C40_logical_and_text_fields_total_proof; [|exact A]. intro I. apply T. cbn [In] in *. lia.
Qed.

(** The exception for a field without value. *)
Lemma conv_error typ deci b : (forall v, ~ field_value typ deci b v) ->
  conv typ deci b = Err (if existsb (N.eqb typ) [78; 70; 68]%N then ValueError else UnicodeError).
Proof.
  intro H. destruct (conv typ deci b) as [v|e] eqn:E; [destruct (H v); apply conv_value; exact E|]. f_equal.
  destruct (N.eq_dec typ 78) as [->|N1].
  { cbn [existsb N.eqb Pos.eqb orb]. destruct C40_numeric_fields_total_proof as (A & B & C & _).
    destruct (N.eq_dec deci 0) as [->|D].
    - destruct (Forall_dec pad_like) with (l := b) as [P|P].
      + intro c. unfold pad_like, space_like. destruct (N.eq_dec c 0); [left; auto|]. destruct (ws_bytes c) eqn:W; [left; right; apply ws_bytes_spec; exact W|].
        right. intros [Q|Q]; [contradiction|]. apply ws_bytes_spec in Q. congruence.
      + rewrite (A 0%N b P) in E. discriminate.
      + destruct (B b P) as [(z & Q)|Q]; congruence.
    - destruct (Forall_dec pad_like) with (l := b) as [P|P].
      + intro c. unfold pad_like, space_like. destruct (N.eq_dec c 0); [left; auto|]. destruct (ws_bytes c) eqn:W; [left; right; apply ws_bytes_spec; exact W|].
        right. intros [Q|Q]; [contradiction|]. apply ws_bytes_spec in Q. congruence.
      + rewrite (A deci b P) in E. discriminate.
      + destruct (C deci b D P) as [(z & Q)|Q]; congruence. }
  destruct (N.eq_dec typ 70) as [->|N2].
  { cbn [existsb N.eqb Pos.eqb orb]. destruct C40_numeric_fields_total_proof as (_ & _ & _ & _ & A).
    destruct (A deci b) as [(x & Q)|Q]; congruence. }
  destruct (N.eq_dec typ 68) as [->|N3].
  { cbn [existsb N.eqb Pos.eqb orb]. destruct C40_date_fields_total_proof as (A & B & _).
    destruct (strip ws_bytes b) eqn:S.
    - assert (P : Forall space_like b) by (apply strip_nil in S; eapply Forall_impl; [|exact S]; intro; apply ws_bytes_spec).
      rewrite (proj2 (A deci b) P) in E. discriminate.
    - assert (P : ~ Forall space_like b).
      { intro P. assert (Q : strip ws_bytes b = []) by (apply strip_nil; eapply Forall_impl; [|exact P]; intro; apply ws_bytes_spec). congruence. }
      destruct (B deci b P) as [(y & m & d & Q & _)|Q]; congruence. }
  assert (existsb (N.eqb typ) [78; 70; 68]%N = false) as -> by (cbn [existsb]; lia).
  destruct (N.eq_dec typ 76) as [->|N4].
  { unfold conv in E. cbn [N.eqb Pos.eqb] in E. discriminate. }
  destruct C40_logical_and_text_fields_total_proof as (_ & _ & A & B).
  assert (T : ~ In typ [78; 68; 76; 70]%N) by (cbn [In]; lia).
  destruct (Forall_dec (fun c => (c < 128)%N)) with (l := b) as [P|P].
  + intro c. destruct (N.ltb c 128) eqn:Q; [left|right]; lia.
  + rewrite (A typ deci b T P) in E. discriminate.
  + rewrite (B typ deci b T P) in E. congruence.
Qed.

(** ** Records *)

Lemma convert_all fds b : named fds ->
  (forall j fd, nth_error fds j = Some fd -> exists v,
     conv (fd_typ fd) (fd_deci fd) (firstn (fd_size fd) (skipn (list_sum (firstn j (map fd_size fds))) b)) = Ok v) ->
  exists row, convert_fields (zip fds (split_fields fds b)) = Ok row.
Proof.
  revert b. induction fds as [|fd fds IH]; intros b Hn H; [exists []; reflexivity|]. inversion Hn; subst.
  cbn [split_fields zip convert_fields]. rewrite name_not_flag by auto.
  destruct (H 0 fd eq_refl) as (v & V). cbn [firstn map list_sum fold_right skipn] in V. rewrite V. cbn [bind].
  destruct (IH (skipn (fd_size fd) b)) as (row & R); [assumption| |].
  - intros j g J. destruct (H (S j) g J) as (w & W). exists w. cbn [map firstn list_sum fold_right] in W.
    change (fold_right Nat.add 0 ?l) with (list_sum l) in W. rewrite <- skipn_skipn_add in W. exact W.
  - rewrite R. cbn [bind]. eauto.
Qed.

Lemma convert_first fds b j fd e : named fds -> nth_error fds j = Some fd ->
  conv (fd_typ fd) (fd_deci fd) (firstn (fd_size fd) (skipn (list_sum (firstn j (map fd_size fds))) b)) = Err e ->
  (forall k g, k < j -> nth_error fds k = Some g -> exists v,
     conv (fd_typ g) (fd_deci g) (firstn (fd_size g) (skipn (list_sum (firstn k (map fd_size fds))) b)) = Ok v) ->
  convert_fields (zip fds (split_fields fds b)) = Err e.
Proof.
  revert b j. induction fds as [|fd0 fds IH]; intros b j Hn J E H; [destruct j; discriminate|]. inversion Hn; subst.
  cbn [split_fields zip convert_fields]. rewrite name_not_flag by auto. destruct j as [|j].
  - injection J as ->. cbn [firstn map list_sum fold_right skipn] in E. rewrite E. reflexivity.
  - destruct (H 0 fd0 ltac:(lia) eq_refl) as (v & V). cbn [firstn map list_sum fold_right skipn] in V. rewrite V. cbn [bind].
    cbn [nth_error] in J. cbn [map firstn list_sum fold_right] in E. change (fold_right Nat.add 0 ?l) with (list_sum l) in E.
    rewrite <- skipn_skipn_add in E. rewrite (IH _ j); [reflexivity|assumption|exact J|exact E|].
    intros k g K G. destruct (H (S k) g ltac:(lia) G) as (w & W). exists w. cbn [map firstn list_sum fold_right] in W.
    change (fold_right Nat.add 0 ?l) with (list_sum l) in W. rewrite <- skipn_skipn_add in W. exact W.
Qed.

Definition record_of (fds : list field) (b : str) (p i : nat) : res (list val) :=
  convert_fields (zip fds (split_fields fds (bytes_at (p + i * record_length fds + 1) (list_sum (map fd_size fds)) b))).

Lemma loop_all fds b : forall n p rows out, reader_loop n (flag_field :: fds) (mkfile b p) = (rows, out) ->
  p + n * record_length fds <= length b ->
  (forall i, i < n -> space_at b (p + i * record_length fds) = true -> exists row, record_of fds b p i = Ok row) ->
  exists f', out = Ok f'.
Proof.
  induction n as [|n IH]; intros p rows out H L A; [injection H as <- <-; eauto|].
  rewrite reader_loop_step in H. assert ((p + record_length fds <=? length b) = true) as E by (apply Nat.leb_le; lia). rewrite E in H.
  assert (A' : forall i, i < n -> space_at b (p + record_length fds + i * record_length fds) = true ->
    exists row, record_of fds b (p + record_length fds) i = Ok row).
  { intros i I Sp. destruct (A (S i) ltac:(lia)) as (row & R).
    - replace (p + S i * record_length fds) with (p + record_length fds + i * record_length fds) by lia. exact Sp.
    - exists row. unfold record_of in *. replace (p + record_length fds + i * record_length fds) with (p + S i * record_length fds) by lia. exact R. }
  destruct (space_at b p) eqn:S0.
  - destruct (A 0 ltac:(lia)) as (row & R); [rewrite Nat.add_0_r; exact S0|]. unfold record_of in R. rewrite Nat.mul_0_l, Nat.add_0_r in R.
    rewrite R in H. destruct (reader_loop n _ _) as [rows1 out1] eqn:Q. injection H as <- <-.
    apply (IH _ _ _ Q); [lia|exact A'].
  - apply (IH _ _ _ H); [lia|exact A'].
Qed.

Lemma loop_first fds b e : forall n p rows out i, reader_loop n (flag_field :: fds) (mkfile b p) = (rows, out) ->
  p + n * record_length fds <= length b -> i < n -> space_at b (p + i * record_length fds) = true -> record_of fds b p i = Err e ->
  (forall k, k < i -> space_at b (p + k * record_length fds) = true -> exists row, record_of fds b p k = Ok row) ->
  out = Err e /\ length rows = live_count b p (record_length fds) i.
Proof.
  induction n as [|n IH]; intros p rows out i H L I Sp R A; [lia|].
  rewrite reader_loop_step in H. assert ((p + record_length fds <=? length b) = true) as E by (apply Nat.leb_le; lia). rewrite E in H.
  destruct i as [|i].
  - rewrite Nat.mul_0_l, Nat.add_0_r in Sp. rewrite Sp in H. unfold record_of in R. rewrite Nat.mul_0_l, Nat.add_0_r in R. rewrite R in H.
    injection H as <- <-. split; reflexivity.
  - assert (P : p + S i * record_length fds = p + record_length fds + i * record_length fds) by lia.
    assert (A' : forall k, k < i -> space_at b (p + record_length fds + k * record_length fds) = true ->
      exists row, record_of fds b (p + record_length fds) k = Ok row).
    { intros k K Sp'. destruct (A (S k) ltac:(lia)) as (row & R').
      - replace (p + S k * record_length fds) with (p + record_length fds + k * record_length fds) by lia. exact Sp'.
      - exists row. unfold record_of in *. replace (p + record_length fds + k * record_length fds) with (p + S k * record_length fds) by lia. exact R'. }
    rewrite live_count_S. rewrite P in Sp. unfold record_of in R. rewrite P in R. destruct (space_at b p) eqn:S0.
    + destruct (A 0 ltac:(lia)) as (row & R0); [rewrite Nat.add_0_r; exact S0|]. unfold record_of in R0. rewrite Nat.mul_0_l, Nat.add_0_r in R0.
      rewrite R0 in H. destruct (reader_loop n _ _) as [rows1 out1] eqn:Q. injection H as <- <-.
      destruct (IH _ _ _ i Q ltac:(lia) ltac:(lia) Sp R A') as [O LR]. split; [exact O|]. cbn [length]. lia.
    + destruct (IH _ _ _ i H ltac:(lia) ltac:(lia) Sp R A') as [O LR]. split; [exact O|]. exact LR.
Qed.

(** ** Selected fields *)

Lemma split_nth fds b j fd : nth_error fds j = Some fd ->
  nth j (split_fields fds b) [] = firstn (fd_size fd) (skipn (list_sum (firstn j (map fd_size fds))) b).
Proof.
  revert b j. induction fds as [|fd0 fds IH]; intros b j J; [destruct j; discriminate|]. destruct j as [|j].
  - injection J as ->. reflexivity.
  - cbn [split_fields nth nth_error] in *. rewrite (IH _ _ J). rewrite skipn_skipn_add. reflexivity.
Qed.

Definition no_field : field := mkfield [] 0 0 0.

Lemma convert_chosen fds ps : named fds -> forall js, Forall (fun j => j < length fds) js ->
  (forall row, convert_fields (zip (map (fun j => nth j fds no_field) js) (map (fun j => nth j ps []) js)) = Ok row ->
     Forall2 (fun j v => conv (fd_typ (nth j fds no_field)) (fd_deci (nth j fds no_field)) (nth j ps []) = Ok v) js row) /\
  (Forall (fun j => exists v, conv (fd_typ (nth j fds no_field)) (fd_deci (nth j fds no_field)) (nth j ps []) = Ok v) js ->
   exists row, convert_fields (zip (map (fun j => nth j fds no_field) js) (map (fun j => nth j ps []) js)) = Ok row).
Proof.
  intros Hn js F. induction F as [|j js J F IH].
  - split; [intros row H; injection H as <-; constructor|intros _; exists []; reflexivity].
  - cbn [map zip convert_fields].
    assert (NM : str_eqb (fd_name (nth j fds no_field)) flag_name = false).
    { apply name_not_flag. unfold named in Hn. rewrite Forall_forall in Hn. apply Hn. apply nth_In. exact J. }
    rewrite NM. destruct IH as [IH1 IH2]. split.
    + intros row H. destruct (conv _ _ (nth j ps [])) as [v|e] eqn:V; [|discriminate]. cbn [bind] in H.
      destruct (convert_fields _) as [vs|e] eqn:E; [|discriminate]. cbn [bind] in H. injection H as <-.
      constructor; [exact V|]. apply IH1. reflexivity.
    + intro H. inversion H as [|? ? (v & V) H']; subst. rewrite V. cbn [bind]. destruct (IH2 H') as (row & R). rewrite R. cbn [bind]. eauto.
Qed.

Definition selection_of (names : list str) (fds : list field) (b : str) (p i : nat) : res (list val) :=
  convert_fields (zip (selected (keeps names fds) fds)
    (selected (keeps names fds) (split_fields fds (bytes_at (p + i * record_length fds + 1) (list_sum (map fd_size fds)) b)))).

Lemma selecting_all names fds b : forall n p, p + n * record_length fds <= length b ->
  (last (keeps names fds) true = true \/ forall i, i < n -> space_at b (p + i * record_length fds) = true) ->
  (forall i, i < n -> space_at b (p + i * record_length fds) = true -> exists row, selection_of names fds b p i = Ok row) ->
  exists rows f', records_loop n (record_length fds) (sel_of names fds) (mkfile b p) = (rows, Ok f') /\
    Forall2 (fun i row => selection_of names fds b p i = Ok row)
      (filter (fun i => space_at b (p + i * record_length fds)) (seq 0 n)) rows.
Proof.
  induction n as [|n IH]; intros p L C A; [exists [], (mkfile b p); split; [reflexivity|constructor]|].
  destruct (records_loop_step names n fds b p ltac:(lia)) as (q & Q & E).
  assert (P : forall i, p + S i * record_length fds = p + record_length fds + i * record_length fds) by (intro; lia).
  destruct (IH (p + record_length fds)) as (rows & f' & R & F).
  - lia.
  - destruct C as [C|C]; [left; exact C|right]. intros i I. rewrite <- P. apply C. lia.
  - intros i I Sp. rewrite <- P in Sp. destruct (A (S i) ltac:(lia) Sp) as (row & R). exists row. unfold selection_of in *. rewrite <- P. exact R.
  - assert (F' : Forall2 (fun i row => selection_of names fds b p i = Ok row)
      (filter (fun i => space_at b (p + i * record_length fds)) (seq 1 n)) rows).
    { rewrite <- seq_shift. clear -F P. revert rows F. generalize (seq 0 n) as l. induction l as [|x l IHl]; intros rows F; [inversion F; constructor|].
      cbn [map filter] in *. rewrite P. destruct (space_at b (p + record_length fds + x * record_length fds)); [|auto].
      inversion F; subst. constructor; [|auto]. unfold selection_of in *. rewrite P. assumption. }
    cbn [seq filter]. rewrite Nat.mul_0_l, Nat.add_0_r. destruct (space_at b p) eqn:S0.
    + destruct (A 0 ltac:(lia)) as (row & R0); [rewrite Nat.add_0_r; exact S0|]. exists (row :: rows), f'.
      pose proof R0 as R1. unfold selection_of in R1. rewrite Nat.mul_0_l, Nat.add_0_r in R1. rewrite E, R1, R. split; [reflexivity|].
      constructor; [exact R0|exact F'].
    + destruct C as [C|C]; [|specialize (C 0 ltac:(lia)); rewrite Nat.mul_0_l, Nat.add_0_r in C; congruence].
      rewrite E, (Q C), R. exists rows, f'. split; [reflexivity|exact F'].
Qed.
