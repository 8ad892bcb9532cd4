(** * Widths of columns: proofs of the property theorems *)

From Coq Require Import ZifyBool ZifyNat ZifyN QArith.
From Verif Require Import PyBase PyText PyFloat NumPy Dbf CompDoc ReadXl XlStruct XlSheet Biff CellAddr SheetView SpecView PyBaseFacts SpecAccess AccessProofs AddrThms ViewThms ColWidth SpecWidth.
Open Scope nat_scope.
Open Scope Z_scope.
(** Columns 1 to 3 have width 2560, column 2 then 512; others have 10 characters. *)
Definition width_records : list (Z * str) :=
  [(125, [1; 0; 3; 0; 0; 10; 15; 0; 2; 0]%N); (85, [10; 0]%N); (125, [2; 0; 2; 0; 0; 2; 15; 0; 2; 0]%N)].

Lemma told_widths {A} bv (p : Z * str -> Prop) (get : widths -> A) (f : str -> A -> Prop) : (forall r, p r \/ ~ p r) ->
  (forall w r w', width_record bv w (fst r) (Z.of_nat (length (snd r))) (snd r) = Ok w' ->
     (p r -> f (snd r) (get w')) /\ (~ p r -> get w' = get w)) ->
  forall l w w', read_widths bv w l = Ok w' -> told p l f (get w) (get w').
Proof.
  intros D S. induction l as [|[rc data] l IH]; intros w w' E; cbn [read_widths] in E.
  - injection E as <-. right. auto.
  - destruct (width_record bv w rc _ data) as [w1|e] eqn:R; [|discriminate]. cbn [bind] in E.
    destruct (S w (rc, data) w1 R) as (Y & N).
    destruct (IH w1 w' E) as [(d & L & F)|(M & G)].
    + left. exists d. split; [apply last_cons; auto|exact F].
    + destruct (D (rc, data)) as [P|P].
      * left. exists data. split; [apply last_cons; auto|]. rewrite G. exact (Y P).
      * right. split; [constructor; assumption|]. rewrite G. exact (N P).
Qed.
Lemma set_get n : forall first width cols c, c < 256 ->
  get_col c (set_cols n first width cols) = if (first <=? c) && (c <? first + Z.of_nat n) then Some width else get_col c cols.
Proof.
  induction n as [|n IH]; intros first width cols c C; cbn [set_cols].
  - replace ((first <=? c) && (c <? first + Z.of_nat 0)) with false by lia. reflexivity.
  - destruct (255 <? first) eqn:B.
    + replace (first <=? c) with false by lia. reflexivity.
    + rewrite IH by exact C. cbn [get_col]. destruct (first =? c) eqn:E.
      * replace ((first + 1 <=? c) && _) with false by lia. replace ((first <=? c) && _) with true by lia. reflexivity.
      * replace ((first + 1 <=? c) && (c <? first + 1 + Z.of_nat n)) with ((first <=? c) && (c <? first + Z.of_nat (S n))) by lia. reflexivity.
Qed.
Lemma okj {A} (a b : A) : Ok a = Ok b -> a = b.
Proof. congruence. Qed.
Lemma word_nonneg d k : 0 <= word d k.
Proof. unfold word, byte. lia. Qed.
(** What a record does, by its kind. *)
Lemma record_does bv w rc len data w' : width_record bv w rc len data = Ok w' ->
  (forall c, c < 256 -> get_col c (w_cols w') =
     if (rc =? 125) && (word data 0 <=? c) && (c <=? word data 2) && (word data 2 <=? 256) then Some (word data 4) else get_col c (w_cols w)) /\
  w_default w' = (if rc =? 85 then Some (word data 0) else w_default w) /\
  w_standard w' = (if rc =? 153 then Some (word data 0) else w_standard w) /\
  w_gcw w' = (if rc =? 171 then take_gcw 8 2 data else w_gcw w).
Proof.
  unfold width_record. rewrite !word_is. destruct (rc =? 125) eqn:K1.
  { destruct (sized 10 _); [|discriminate]. cbn [bind]. cbv zeta. replace (rc =? 85) with false by lia. replace (rc =? 153) with false by lia.
    replace (rc =? 171) with false by lia. destruct (negb _) eqn:B; intro E; injection E as <-; cbn [w_cols w_default w_standard w_gcw];
      (split; [|auto]); intros c C.
    - match goal with |- _ = (if ?b then _ else _) => destruct b eqn:X end; [|reflexivity]. pose proof (word_nonneg data 0). lia.
    - rewrite set_get by exact C. match goal with |- (if ?a then _ else _) = (if ?b then _ else _) => replace b with a by lia end. reflexivity. }
  cbn [andb]. destruct (rc =? 85) eqn:K2.
  { destruct (sized 2 _); [|discriminate]. cbn [bind]. replace (rc =? 153) with false by lia. replace (rc =? 171) with false by lia.
    intro E; injection E as <-. auto. }
  destruct (rc =? 153) eqn:K3.
  { destruct (sized 2 _); [|discriminate]. cbn [bind]. replace (rc =? 171) with false by lia. intro E; injection E as <-. auto. }
  destruct (rc =? 171) eqn:K4.
  { destruct (negb (len =? 34)); [discriminate|]. destruct (negb _); [discriminate|]. destruct (sized 32 _); [|discriminate].
    cbn [bind]. intro E. apply okj in E. subst w'. cbn [w_cols w_default w_standard w_gcw]. auto. }
  destruct ((bv <=? 45) && _); [discriminate|]. intro E; injection E as <-. auto.
Qed.
Lemma own_told bv l w c : read_widths bv new_widths l = Ok w -> c < 256 -> own l c (get_col c (w_cols w)).
Proof.
  intros E C. refine (told_widths bv (covers c) (fun w => get_col c (w_cols w)) (fun d x => x = Some (word d 4)) _ _ l new_widths w E).
  - intro r. unfold covers. lia.
  - intros w1 [rc data] w2 R. cbn [fst snd] in R. apply record_does in R as (R & _). specialize (R c C). cbv beta. rewrite R. unfold covers. cbn [fst snd]. split; intro P.
    + match goal with |- (if ?b then _ else _) = _ => replace b with true by lia end. reflexivity.
    + match goal with |- (if ?b then _ else _) = _ => destruct b eqn:X end; [|reflexivity]. destruct P. lia.
Qed.
Lemma common_told bv l w : read_widths bv new_widths l = Ok w -> common l (w_default w).
Proof.
  intro E. refine (told_widths bv is_default w_default (fun d x => x = Some (word d 0)) _ _ l new_widths w E).
  - intro r. unfold is_default. lia.
  - intros w1 [rc data] w2 R. cbn [fst snd] in R. apply record_does in R as (_ & R & _). cbv beta. rewrite R. unfold is_default. cbn [fst snd]. split; intro P.
    + rewrite P. reflexivity.
    + replace (rc =? 85) with false by lia. reflexivity.
Qed.
Lemma standard_told bv l w : read_widths bv new_widths l = Ok w -> standard l (w_standard w).
Proof.
  intro E. refine (told_widths bv is_standard w_standard (fun d x => x = Some (word d 0)) _ _ l new_widths w E).
  - intro r. unfold is_standard. lia.
  - intros w1 [rc data] w2 R. cbn [fst snd] in R. apply record_does in R as (_ & _ & R & _). cbv beta. rewrite R. unfold is_standard. cbn [fst snd]. split; intro P.
    + rewrite P. reflexivity.
    + replace (rc =? 153) with false by lia. reflexivity.
Qed.
Lemma long_is a (d : str) : le_value (bytes_at a 4 d) = word d a + 65536 * word d (a + 2).
Proof.
  unfold word, byte, bytes_at. revert d. induction a as [|a IH]; intros [|c d]; try reflexivity.
  - destruct d as [|c1 [|c2 [|c3 d]]]; cbn [skipn firstn le_value nth Nat.add]; lia.
  - exact (IH d).
Qed.
Lemma gcw_nth n : forall pos data i j, (i < n)%nat -> (j < 32)%nat ->
  nth_error (take_gcw n pos data) (32 * i + j) = Some (Z.testbit (le_value (bytes_at (pos + 4 * i) 4 data)) (Z.of_nat j)).
Proof.
  induction n as [|n IH]; intros pos data i j I J; [lia|]. cbn [take_gcw]. destruct i as [|i].
  - rewrite nth_error_app1 by (rewrite options_len; lia). rewrite Nat.mul_0_r, Nat.add_0_l. rewrite options_nth by exact J.
    rewrite Nat.add_0_r. reflexivity.
  - rewrite nth_error_app2 by (rewrite options_len; lia). rewrite options_len.
    replace (32 * S i + j - 32)%nat with (32 * i + j)%nat by lia. rewrite IH by lia. do 4 f_equal. lia.
Qed.
Lemma gcw_len n : forall pos data, length (take_gcw n pos data) = (32 * n)%nat.
Proof. induction n as [|n IH]; intros pos data; [reflexivity|]. cbn [take_gcw]. rewrite app_length, options_len, IH. lia. Qed.
Lemma global_told bv l w c : read_widths bv new_widths l = Ok w -> 0 <= c < 256 -> global l c (nth (Z.to_nat c) (w_gcw w) false).
Proof.
  intros E C. unfold global.
  assert (Z0 : nth (Z.to_nat c) (w_gcw new_widths) false = false).
  { unfold new_widths. cbn [w_gcw]. generalize (Z.to_nat c). generalize 256%nat. induction n as [|n IH]; intros [|k]; try reflexivity. apply IH. }
  rewrite <- Z0 at 1.
  refine (told_widths bv is_gcw (fun w => nth (Z.to_nat c) (w_gcw w) false) _ _ _ l new_widths w E).
  - intro r. unfold is_gcw. lia.
  - intros w1 [rc data] w2 R. cbn [fst snd] in R. apply record_does in R as (_ & _ & _ & R). cbv beta. rewrite R. unfold is_gcw. cbn [fst snd]. split; intro P.
    + rewrite P. change (171 =? 171) with true. cbv iota.
      exists (Z.to_nat c / 32)%nat, (Z.of_nat (Z.to_nat c mod 32)).
      pose proof (Nat.div_mod (Z.to_nat c) 32 ltac:(lia)) as DM. pose proof (Nat.mod_upper_bound (Z.to_nat c) 32 ltac:(lia)) as MB.
      set (i := (Z.to_nat c / 32)%nat) in *. set (j := (Z.to_nat c mod 32)%nat) in *.
      split; [lia|]. split; [lia|]. split; [lia|]. rewrite DM at 1.
      rewrite (nth_error_nth _ _ _ (gcw_nth 8 2 data i j ltac:(lia) MB)). rewrite long_is.
      replace (2 + 4 * i + 2)%nat with (4 + 4 * i)%nat by lia. reflexivity.
    + replace (rc =? 171) with false by lia. reflexivity.
Qed.
Lemma gcw_always bv : forall l w w', length (w_gcw w) = 256%nat -> read_widths bv w l = Ok w' -> length (w_gcw w') = 256%nat.
Proof.
  induction l as [|[rc data] l IH]; intros w w' L E; cbn [read_widths] in E; [congruence|].
  destruct (width_record bv w rc _ data) as [w1|e] eqn:R; [|discriminate]. cbn [bind] in E. apply (IH w1 w'); [|exact E].
  apply record_does in R as (_ & _ & _ & ->). destruct (rc =? 171); [apply gcw_len|exact L].
Qed.
Lemma rome_is d : first_of [] d (match d with Some d => d * 256 | None => 8 * 256 end).
Proof. destruct d as [d|]; [rewrite Z.mul_comm; constructor|constructor]. Qed.
Lemma or_rome x d : first_of [x] d (match x with Some z => z | None => match d with Some d => d * 256 | None => 8 * 256 end end).
Proof. destruct x; [constructor|constructor; apply rome_is]. Qed.
Lemma or_rome2 y x d : first_of [y; x] d
  (match y with Some z => z | None => match x with Some z => z | None => match d with Some d => d * 256 | None => 8 * 256 end end end).
Proof. destruct y; [constructor|constructor; apply or_rome]. Qed.

Lemma C88_width_proof :
forall bv l w c, read_widths bv new_widths l = Ok w -> 0 <= c < 256 ->
  exists i s d g z, own l c i /\ standard l s /\ common l d /\ global l c g /\ computed_column_width true bv w c = Ok z /\
    (80 <= bv -> first_of [i; s] d z) /\
    (40 <= bv < 80 -> g = true -> first_of [s] d z) /\
    (40 <= bv < 80 -> g = false -> first_of [i] d z) /\
    (bv = 30 -> first_of [i] d z).
Proof.
intros bv l w c E C.
exists (get_col c (w_cols w)), (w_standard w), (w_default w), (nth (Z.to_nat c) (w_gcw w) false).
pose proof (own_told bv l w c E ltac:(lia)) as O. pose proof (standard_told bv l w E) as S. pose proof (common_told bv l w E) as D.
pose proof (global_told bv l w c E C) as G. pose proof (gcw_always bv l new_widths w eq_refl E) as L.
assert (I : py_index (w_gcw w) c = Some (nth (Z.to_nat c) (w_gcw w) false)).
{ replace c with (Z.of_nat (Z.to_nat c)) at 1 by lia. rewrite AccessProofs.index_nat. apply nth_error_nth'. lia. }
pose proof (or_rome2 (get_col c (w_cols w)) (w_standard w) (w_default w)) as F1.
pose proof (or_rome (w_standard w) (w_default w)) as F2. pose proof (or_rome (get_col c (w_cols w)) (w_default w)) as F3.
unfold computed_column_width. cbn [negb]. cbv zeta.
destruct (80 <=? bv) eqn:B1; [|destruct (40 <=? bv) eqn:B2; [|destruct (bv =? 30) eqn:B3]].
- eexists. split; [exact O|]. split; [exact S|]. split; [exact D|]. split; [exact G|].
  split; [instantiate (1 := match get_col c (w_cols w) with Some z => z | None => _ end); destruct (get_col c (w_cols w)); reflexivity|].
  split; [intros _; exact F1|]. repeat split; intros; lia.
- rewrite I. destruct (nth (Z.to_nat c) (w_gcw w) false).
  + eexists. split; [exact O|]. split; [exact S|]. split; [exact D|]. split; [exact G|]. split; [reflexivity|].
    split; [lia|]. split; [intros _ _; exact F2|]. split; [discriminate|lia].
  + eexists. split; [exact O|]. split; [exact S|]. split; [exact D|]. split; [exact G|]. split; [reflexivity|].
    split; [lia|]. split; [discriminate|]. split; [intros _ _; exact F3|lia].
- eexists. split; [exact O|]. split; [exact S|]. split; [exact D|]. split; [exact G|]. split; [reflexivity|].
  split; [lia|]. split; [lia|]. split; [lia|]. intros _. exact F3.
- eexists. split; [exact O|]. split; [exact S|]. split; [exact D|]. split; [exact G|]. split; [reflexivity|]. repeat split; intros; lia.
Qed.

Lemma C88_biff2_refuted_proof :
forall bv w w' c c', bv < 30 -> w_default w = w_default w' ->
  computed_column_width true bv w c = computed_column_width true bv w' c' /\
  exists z, computed_column_width true bv w c = Ok z /\ first_of [] (w_default w) z.
Proof.
intros bv w w' c c' B E. unfold computed_column_width. cbn [negb]. replace (80 <=? bv) with false by lia. replace (40 <=? bv) with false by lia.
replace (bv =? 30) with false by lia. rewrite E. split; [reflexivity|]. eexists. split; [reflexivity|]. apply rome_is.
Qed.

Lemma told_some p l k : forall z, told p l (fun d x => x = Some (word d k)) None (Some z) -> 0 <= z.
Proof. intros z [(d & _ & E)|(_ & E)]; [injection E as ->; apply word_nonneg|discriminate]. Qed.

Lemma C88_unformatted_proof :
forall bv w c,
  computed_column_width false bv w c = Err XLRDError /\
  (forall l, read_widths bv new_widths l = Ok w -> 0 <= c < 256 -> exists z, computed_column_width true bv w c = Ok z /\ 0 <= z).
Proof.
intros bv w c. split; [reflexivity|]. intros l E C.
pose proof (own_told bv l w c E ltac:(lia)) as O. pose proof (standard_told bv l w E) as S. pose proof (common_told bv l w E) as D.
pose proof (gcw_always bv l new_widths w eq_refl E) as L.
assert (I : py_index (w_gcw w) c = Some (nth (Z.to_nat c) (w_gcw w) false)).
{ replace c with (Z.of_nat (Z.to_nat c)) at 1 by lia. rewrite AccessProofs.index_nat. apply nth_error_nth'. lia. }
assert (R : 0 <= match w_default w with Some d => d * 256 | None => 8 * 256 end).
{ destruct (w_default w) as [d|]; [apply told_some in D|]; lia. }
assert (X : forall x, (forall z, x = Some z -> 0 <= z) -> 0 <= match x with Some z => z | None => match w_default w with Some d => d * 256 | None => 8 * 256 end end).
{ intros [x|] H; [apply H; reflexivity|exact R]. }
assert (HO : forall z, get_col c (w_cols w) = Some z -> 0 <= z) by (intros z H; rewrite H in O; exact (told_some _ _ _ _ O)).
assert (HS : forall z, w_standard w = Some z -> 0 <= z) by (intros z H; rewrite H in S; exact (told_some _ _ _ _ S)).
unfold computed_column_width. cbn [negb]. cbv zeta. rewrite I.
destruct (80 <=? bv); [|destruct (40 <=? bv); [|destruct (bv =? 30)]].
- destruct (get_col c (w_cols w)); eexists; (split; [reflexivity|]); auto.
- destruct (nth (Z.to_nat c) (w_gcw w) false); eexists; (split; [reflexivity|]); auto.
- eexists. split; [reflexivity|]. auto.
- eexists. split; [reflexivity|]. exact R.
Qed.

