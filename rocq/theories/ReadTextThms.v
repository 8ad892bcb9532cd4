(** * Reading delimited text: proofs of the property theorems *)

From Coq Require Import ZifyBool ZifyNat ZifyN QArith.
From Verif Require Import PyBase PyBaseFacts PyFloat PyText NumPy SpecArray ArrayFacts Pack PackProofs SpecDbf DbfProofs DbfThms ReadText SpecChars CharFacts SpecText TextProofs.
Open Scope nat_scope.
Open Scope nat_scope.

Lemma join_nil x row : join [x] row = [] -> length row = 1 -> row = [[]].
Proof. destruct row as [|f [|g r]]; try discriminate. cbn. intros -> _. reflexivity. Qed.

Lemma join_two x f g r : join [x] (f :: g :: r) = f ++ x :: join [x] (g :: r).
Proof. reflexivity. Qed.

Lemma join_In d row c : In c (join d row) -> (exists f, In f row /\ In c f) \/ In c d.
Proof.
  induction row as [|f row IH]; intro H; [destruct H|]. destruct row as [|g row].
  - left. exists f. split; [left; reflexivity|exact H].
  - change (join d (f :: g :: row)) with (f ++ d ++ join d (g :: row)) in H.
    apply in_app_or in H. destruct H as [H|H]; [left; exists f; split; [left; reflexivity|exact H]|].
    apply in_app_or in H. destruct H as [H|H]; [right; exact H|].
    destruct (IH H) as [(f' & I & J)|J]; [left; exists f'; split; [right; exact I|exact J]|right; exact J].
Qed.

Lemma join_head x row c : hd_error (join [x] row) = Some c ->
  c = x \/ exists f, In f row /\ hd_error f = Some c.
Proof.
  destruct row as [|f [|g r]]; intro H.
  - discriminate.
  - right. exists f. split; [left; reflexivity|exact H].
  - rewrite join_two in H. destruct f as [|y f]; cbn in H.
    + left. congruence.
    + right. exists (y :: f). split; [left; reflexivity|exact H].
Qed.

Lemma join_tail x row c : hd_error (rev (join [x] row)) = Some c ->
  c = x \/ exists f, In f row /\ hd_error (rev f) = Some c.
Proof.
  induction row as [|f row IH]; intro H; [discriminate|]. destruct row as [|g r].
  - right. exists f. split; [left; reflexivity|exact H].
  - rewrite join_two in H. rewrite rev_app_distr in H. cbn [rev] in H. rewrite <- app_assoc in H.
    destruct (rev (join [x] (g :: r))) as [|y l] eqn:E.
    + cbn in H. left. congruence.
    + cbn in H. destruct IH as [->|(f' & I & J)]; [exact H|left; reflexivity|].
      right. exists f'. split; [right; exact I|exact J].
Qed.

Lemma row_writable x row : ~ white x -> 1 <= length row ->
  Forall (fun f => ~ In x f /\ ~ In 10%N f /\
                     (forall c, hd_error f = Some c -> ~ white c) /\
                     (forall c, hd_error (rev f) = Some c -> ~ white c)) row ->
  (length row = 1 -> row <> [[]]) -> row_line Text (Some [x]) row (join [x] row).
Proof.
  intros X L F N. rewrite Forall_forall in F. split.
  - intro I. apply join_In in I. destruct I as [(f & I & J)|J].
    + apply F in I. tauto.
    + destruct J as [->|[]]. apply X. unfold white. lia.
  - exists [], []. rewrite app_nil_r. split; [reflexivity|]. split; [|split; constructor].
    repeat split; try discriminate.
    + destruct row; [cbn in L; lia|discriminate].
    + intro E. destruct row as [|f [|g r]]; [cbn in L; lia| |].
      * apply N; [reflexivity|]. apply join_nil with (x := x); [exact E|reflexivity].
      * rewrite join_two in E. destruct f; discriminate.
    + apply Forall_forall. intros f I c C [->|[]]. apply F in I. tauto.
    + intros c C [W _]. apply join_head in C. destruct C as [->|(f & I & J)]; [contradiction|].
      apply F in I. destruct I as (_ & _ & I & _). exact (I c J W).
    + intros c C [W _]. apply join_tail in C. destruct C as [->|(f & I & J)]; [contradiction|].
      apply F in I. destruct I as (_ & _ & _ & I). exact (I c J W).
Qed.

Lemma rows_layout m d (f : list str -> str) rows : Forall (fun r => row_line m d r (f r)) rows ->
  layout m d rows (concat (map (fun r => f r ++ [10%N]) rows)).
Proof.
  induction 1 as [|r rows H1 H2 IH]; [constructor|]. cbn [map concat]. rewrite <- app_assoc. cbn [app].
  apply lay_row; assumption.
Qed.

Lemma narrowest_rect (row0 : list str) rows : Forall (fun r => length r = length row0) rows ->
  narrowest row0 rows (length row0).
Proof.
  intro F. rewrite Forall_forall in F. split.
  - exists row0. split; [left; reflexivity|reflexivity].
  - intros r [<-|I]; [lia|]. rewrite (F r I). lia.
Qed.

Lemma no_converters row0 : converters_ok [] row0.
Proof. split; [constructor|intros k []]. Qed.

Lemma columns_below_all k : columns_below None k (seq 0 k).
Proof. pose proof (chosen_columns_below None k) as H. rewrite chosen_all in H. exact H. Qed.

Lemma C27_round_trip_proof :
forall (x : N) (row0 : list str) (rows : list (list str)) (name : str) (g : nat -> str -> val),
  let a := mktargs [] (Some [x]) 0 ColsNone false None [] false false in
  ~ white x ->
  Forall (fun r => length r = length row0) rows -> 1 <= length row0 ->
  Forall (fun r => Forall (fun f => ~ In x f /\ ~ In 10%N f /\
                     (forall c, hd_error f = Some c -> ~ white c) /\
                     (forall c, hd_error (rev f) = Some c -> ~ white c)) r) (row0 :: rows) ->
  (length row0 = 1 -> Forall (fun r => r <> [[]]) (row0 :: rows)) ->
  (forall r c, In r (row0 :: rows) -> c < length row0 ->
     cell Text false [] row0 c (nth c r []) (g c (nth c r []))) ->
  exists p,
    textpack (mksource false (concat (map (fun r => join [x] r ++ [10%N]) (row0 :: rows))) 0 name) a = Ok p /\
    channels g (seq 0 (length row0)) (row0 :: rows) (p_data p) /\ p_names p = [] /\ p_fn p = name.
Proof.
  intros x row0 rows name g a X R L F N C.
  apply (@read_table (mksource false (concat (map (fun r => join [x] r ++ [10%N]) (row0 :: rows))) 0 name) a Text row0 rows
           (length row0) (seq 0 (length row0)) g); try reflexivity.
  - exists [], (concat (map (fun r => join [x] r ++ [10%N]) (row0 :: rows))). split; [reflexivity|].
    split; [constructor|]. split; [split; [discriminate|]|].
    { intros [->|[]]. apply X. unfold white. lia. }
    assert (RW : forall r, In r (row0 :: rows) -> row_line Text (Some [x]) r (join [x] r)).
    { intros r I. assert (LR : length r = length row0).
      { destruct I as [<-|I]; [reflexivity|]. rewrite Forall_forall in R. apply R, I. }
      apply row_writable; [exact X|exact (eq_ind_r (fun n => 1 <= n) L LR)| |].
      - rewrite Forall_forall in F. apply F. exact I.
      - intro L1. specialize (N (eq_trans (eq_sym LR) L1)). rewrite Forall_forall in N. apply N. exact I. }
    exists (join [x] row0), (concat (map (fun r => join [x] r ++ [10%N]) rows)). split; [apply RW; left; reflexivity|].
    right. cbn [map concat]. rewrite <- app_assoc. split; [reflexivity|].
    apply (rows_layout Text (Some [x]) (join [x]) rows). apply Forall_forall. intros r I. apply RW. right. exact I.
  - apply no_converters.
  - apply narrowest_rect. exact R.
  - apply columns_below_all.
  - intros r c I C1 C2 _. apply C; assumption.
Qed.

Lemma digits_no_underscore s : forall b, Forall (fun c => is_digit c = true) s -> drop_underscores b s = Some s.
Proof.
  intros b H. revert b. induction H as [|c s H1 H2 IH]; intro b; [reflexivity|]. cbn [drop_underscores].
  assert ((c =? 95)%N = false) as -> by (unfold is_digit in H1; lia). rewrite IH. reflexivity.
Qed.

Lemma str_of_Z_chars z : Forall (fun c => (48 <= c <= 57)%N \/ c = 45%N) (str_of_Z z) /\ str_of_Z z <> [] /\
  (forall c, hd_error (rev (str_of_Z z)) = Some c -> (48 <= c <= 57)%N).
Proof.
  destruct (Z.lt_ge_cases z 0) as [L|L].
  - assert (E : str_of_Z z = 45%N :: str_of_Z (- z)).
    { unfold str_of_Z. assert (z <? 0 = true)%Z as -> by lia. assert (- z <? 0 = false)%Z as -> by lia. reflexivity. }
    destruct (@str_of_Z_nonneg (- z) ltac:(lia)) as (_ & D & N). rewrite E.
    split; [constructor; [right; reflexivity|]|split; [discriminate|]].
    { eapply Forall_impl; [|exact D]. intros c C. left. apply digit_spec. exact C. }
    intros c C. cbn [rev] in C. destruct (rev (str_of_Z (- z))) as [|y l] eqn:R.
    { apply (f_equal (@rev _)) in R. rewrite rev_involutive in R. contradiction. }
    cbn in C. injection C as ->. apply digit_spec. rewrite Forall_forall in D. apply D. apply in_rev. rewrite R. left. reflexivity.
  - destruct (@str_of_Z_nonneg z ltac:(lia)) as (_ & D & N).
    split; [eapply Forall_impl; [|exact D]; intros c C; left; apply digit_spec; exact C|]. split; [exact N|].
    intros c C. apply digit_spec. rewrite Forall_forall in D. apply D. apply in_rev.
    destruct (rev (str_of_Z z)); [discriminate|]. injection C as ->. left. reflexivity.
Qed.

Lemma float_body_digits neg d : Forall (fun c => is_digit c = true) d -> d <> [] ->
  float_body neg d = Ok (dec_round neg (digits_val 0 d) 0).
Proof.
  intros D N. destruct d as [|c d]; [congruence|]. unfold float_body.
  inversion D; subst.
  assert (Lc : lower c = c) by (unfold lower; assert (is_upper c = false) as -> by (unfold is_upper, is_digit in *; lia); reflexivity).
  cbn [map]. rewrite Lc.
  assert (I1 : (str_eqb (c :: map lower d) (lit "inf") || str_eqb (c :: map lower d) (lit "infinity")) = false).
  { change (lit "inf") with [105;110;102]%N. change (lit "infinity") with [105;110;102;105;110;105;116;121]%N. cbn [str_eqb]. assert ((c =? 105)%N = false) as -> by (unfold is_digit in *; lia). reflexivity. }
  rewrite I1.
  assert (I2 : str_eqb (c :: map lower d) (lit "nan") = false).
  { change (lit "nan") with [110;97;110]%N. cbn [str_eqb]. assert ((c =? 110)%N = false) as -> by (unfold is_digit in *; lia). reflexivity. }
  rewrite I2.
  assert (S : span is_digit (c :: d) = (c :: d, [])).
  { pose proof (@span_app is_digit (c :: d) []) as S. rewrite app_nil_r in S. apply S; [assumption|exact I]. }
  rewrite S. rewrite app_nil_r. cbn [take_exponent length]. reflexivity.
Qed.

Lemma float_of_int z : float_of_str (str_of_Z z) = Ok (float_of_Z z).
Proof.
  assert (P : forall y, (0 <= y)%Z -> drop_underscores false (str_of_Z y) = Some (str_of_Z y)).
  { intros y Y. apply digits_no_underscore. apply (@str_of_Z_nonneg y Y). }
  assert (NS : strip ws_bytes (str_of_Z z) = str_of_Z z).
  { destruct (str_of_Z_chars z) as (C & N & T).
    pose proof (@strip_around ws_bytes [] (str_of_Z z) [] (Forall_nil _) (Forall_nil _)) as E.
    rewrite app_nil_r in E. cbn [app] in E. apply E.
    - intros c H. destruct (str_of_Z z) as [|y l]; [discriminate|]. inversion C; subst. injection H as ->.
      unfold ws_bytes. lia.
    - intros c H. apply T in H. unfold ws_bytes. lia. }
  unfold float_of_str. rewrite NS. destruct (Z.lt_ge_cases z 0) as [L|L].
  - assert (E : str_of_Z z = 45%N :: str_of_Z (- z)).
    { unfold str_of_Z. assert (z <? 0 = true)%Z as -> by lia. assert (- z <? 0 = false)%Z as -> by lia. reflexivity. }
    rewrite E. cbn [drop_underscores]. change (45 =? 95)%N with false. cbv iota. change (is_digit 45) with false. rewrite P by lia.
    cbn [take_sign]. change (45 =? 45)%N with true. cbv iota.
    destruct (@str_of_Z_nonneg (- z) ltac:(lia)) as (V & D & N). rewrite float_body_digits by assumption. rewrite V.
    destruct z as [|p|p]; [lia|lia|]. cbn [Z.opp dec_round]. change (0 <=? 0)%Z with true. cbv iota.
    rewrite Z.pow_0_r, Z.mul_1_r. reflexivity.
  - rewrite P by lia. destruct (@str_of_Z_nonneg z ltac:(lia)) as (V & D & N).
    assert (TS : take_sign (str_of_Z z) = (false, str_of_Z z)).
    { destruct (str_of_Z z) as [|c s]; [congruence|]. inversion D; subst. cbn [take_sign].
      unfold is_digit in *. assert ((c =? 45)%N = false) as -> by lia. assert ((c =? 43)%N = false) as -> by lia. reflexivity. }
    rewrite TS, float_body_digits by assumption. rewrite V. destruct z as [|p|p]; [reflexivity| |lia].
    cbn [dec_round]. change (0 <=? 0)%Z with true. cbv iota. rewrite Z.pow_0_r, Z.mul_1_r. reflexivity.
Qed.

Lemma text_of_int z : float_of_text (str_of_Z z) = Ok (float_of_Z z).
Proof.
  rewrite float_of_text_low; [apply float_of_int|]. eapply Forall_impl; [|apply (str_of_Z_chars z)]. cbv beta. intros c C. lia.
Qed.

Lemma int_cell row0 c z : c < length row0 ->
  cell Text false [] (map str_of_Z row0) c (str_of_Z z) (VFloat (float_of_Z z)).
Proof.
  intro C. assert (P : forall s, In s (map str_of_Z row0) -> plain_number Text s).
  { intros s I. apply in_map_iff in I. destruct I as (y & <- & _). exists (float_of_Z y). apply reads_iff, text_of_int. }
  apply cell_plain; [reflexivity| | |apply reads_iff, text_of_int].
  - left. apply P, nth_In. rewrite map_length. exact C.
  - intros (s & I & N & _). apply N, P, I.
Qed.

Lemma C27_integers_proof :
forall (x : N) (row0 : list Z) (rows : list (list Z)) (name : str),
  let a := mktargs [] (Some [x]) 0 ColsNone false None [] false false in
  let write := fun r => map str_of_Z r in
  ~ white x -> ~ (48 <= x <= 57)%N -> x <> 45%N ->
  Forall (fun r => length r = length row0) rows -> 1 <= length row0 ->
  exists p,
    textpack (mksource false (concat (map (fun r => join [x] (write r) ++ [10%N]) (row0 :: rows))) 0 name) a = Ok p /\
    holds_columns (p_data p) (map (fun c => (Z.of_nat c, map (fun r => VFloat (float_of_Z (nth c r 0%Z))) (row0 :: rows)))
                                 (seq 0 (length row0))).
Proof.
  intros x row0 rows name a write X X1 X2 R L.
  set (g := fun (c : nat) (s : str) => VFloat (match float_of_text s with Ok f => f | Err _ => fnan end)).
  destruct (@C27_round_trip_proof x (write row0) (map write rows) name g X) as (p & E & D & _).
  - apply Forall_forall. intros r I. apply in_map_iff in I. destruct I as (r' & <- & I). unfold write. rewrite !map_length.
    rewrite Forall_forall in R. apply R, I.
  - unfold write. rewrite map_length. exact L.
  - apply Forall_forall. intros r I.
    assert (exists r', r = write r') as (r' & ->).
    { destruct I as [<-|I]; [eauto|]. apply in_map_iff in I. destruct I as (r' & <- & _). eauto. }
    apply Forall_forall. intros f F. apply in_map_iff in F. destruct F as (z & <- & _).
    destruct (str_of_Z_chars z) as (C1 & C2 & C3). rewrite Forall_forall in C1. repeat split.
    + intro J. apply C1 in J. lia.
    + intro J. apply C1 in J. lia.
    + intros c J. assert (In c (str_of_Z z)) as K by (destruct (str_of_Z z); [discriminate|injection J as ->; left; reflexivity]).
      apply C1 in K. unfold white. lia.
    + intros c J. apply C3 in J. unfold white. lia.
  - intros _. apply Forall_forall. intros r I.
    assert (exists r', r = write r') as (r' & ->).
    { destruct I as [<-|I]; [eauto|]. apply in_map_iff in I. destruct I as (r' & <- & _). eauto. }
    intro E. unfold write in E. destruct r' as [|z [|y r']]; try discriminate. injection E as E.
    destruct (str_of_Z_chars z) as (_ & C2 & _). contradiction.
  - intros r c I C. unfold write in C. rewrite map_length in C.
    assert (exists r', r = write r' /\ length r' = length row0) as (r' & -> & Lr).
    { destruct I as [<-|I]; [eauto|]. apply in_map_iff in I. destruct I as (r' & <- & J). exists r'. split; [reflexivity|].
      rewrite Forall_forall in R. apply R, J. }
    unfold write. rewrite (nth_map_lt str_of_Z r' [] 0%Z) by lia. unfold g. rewrite text_of_int.
    apply int_cell. exact C.
  - exists p. split.
    + rewrite <- E. f_equal. f_equal. f_equal. cbn [map]. f_equal. rewrite map_map. reflexivity.
    + apply channels_iff in D. apply columns_iff. rewrite D, map_map. cbn [fst snd]. unfold write. rewrite map_length. apply map_ext_in. intros c I. apply in_seq in I.
      f_equal. f_equal.
      change (map str_of_Z row0 :: map (fun r => map str_of_Z r) rows) with (map (fun r => map str_of_Z r) (row0 :: rows)).
      rewrite map_map. apply map_ext_in. intros r J.
      assert (length r = length row0) as Lr by (destruct J as [<-|J]; [reflexivity|]; rewrite Forall_forall in R; apply R, J).
      rewrite (nth_map_lt str_of_Z r [] 0%Z) by lia. unfold g. rewrite text_of_int. reflexivity.
Qed.

Lemma np_array_length l : alen (np_array l) = length l.
Proof. destruct l as [|v l]; [reflexivity|]. unfold np_array, alen. cbn [aelems]. apply map_length. Qed.

Lemma dict_of_values {V} (P : V -> Prop) (l : list (Z * V)) : Forall (fun kv => P (snd kv)) l ->
  Forall (fun kv => P (snd kv)) (dict_of l).
Proof.
  intro F. assert (S : forall k (v : V) d, P v -> Forall (fun kv => P (snd kv)) d -> Forall (fun kv => P (snd kv)) (dset k v d)).
  { intros k v d Pv. induction d as [|[k' v'] d IH]; intro D; [constructor; [exact Pv|constructor]|].
    inversion D; subst. cbn [dset]. destruct (k =? k')%Z; constructor; auto. }
  unfold dict_of. assert (G : forall d, Forall (fun kv => P (snd kv)) d ->
    Forall (fun kv => P (snd kv)) (fold_left (fun d kv => dset (fst kv) (snd kv) d) l d)).
  { induction F as [|kv l F1 F2 IH]; intros d D; [exact D|]. cbn [fold_left]. apply IH. apply S; assumption. }
  apply G. constructor.
Qed.

Lemma zip_values {A B} (P : B -> Prop) (a : list A) : forall b, Forall P b -> Forall (fun kv => P (snd kv)) (zip a b).
Proof.
  induction a as [|x a IH]; intros b F; [constructor|]. destruct F as [|y b F1 F2]; constructor; [exact F1|].
  apply IH. exact F2.
Qed.

Lemma label_values {A} (P : A -> Prop) u (l : list A) : Forall P l -> Forall (fun kv => P (snd kv)) (label u l).
Proof.
  intro F. destruct u as [u|]; cbn [label]; [apply zip_values; exact F|].
  generalize 0. induction F as [|x l F1 F2 IH]; intro n; constructor; auto.
Qed.

Lemma textpack_inv src a p : textpack src a = Ok p ->
  exists u s data names y, p = make src data (match t_names a with [] => names | _ => t_names a end) /\
    datadict s (mode_of (src_bytes src) (t_encoding a)) u y a = Ok (data, names).
Proof.
  unfold textpack. destruct (t_names a) as [|n l] eqn:N; [destruct (t_hasnames a)|];
    match goal with |- context [datadict ?s ?m ?u ?y a] => destruct (datadict s m u y a) as [[data names]|] eqn:E; cbn [bind]; [|discriminate] end;
    intro H; injection H as <-; repeat eexists; eassumption.
Qed.

Lemma datadict_inv s m u y a data names : t_debug a = false -> datadict s m u y a = Ok (data, names) ->
  exists ys rows, linetuples s m (t_delimiter a) u (t_converters a) (t_stripstrings a) y = Ok ys /\
    y_rows ys = map Ok rows /\ rows <> [] /\ data = dict_of (label u (zipn rows)).
Proof.
  intros D E. unfold datadict in E. rewrite D in E.
  destruct (linetuples s m (t_delimiter a) u (t_converters a) (t_stripstrings a) y) as [ys|] eqn:L; cbn [bind] in E; [|discriminate].
  match type of E with (do _ <- ?r; _) = _ => destruct r as [nm|]; cbn [bind] in E; [|discriminate] end.
  destruct (all_rows (y_rows ys)) as [rows|] eqn:R; cbn [bind] in E; [|discriminate].
  apply all_rows_ok in R. injection E as <- <-. exists ys, rows. split; [reflexivity|]. split; [exact R|].
  split; [|reflexivity]. intros ->. unfold linetuples in L.
  match type of L with (do _ <- ?r; _) = _ => destruct r as [[? ?]|]; cbn [bind] in L; [|discriminate] end.
  match type of L with context [readline ?s] => destruct (readline s) end.
  match type of L with (do _ <- ?r; _) = _ => destruct r as [?|]; cbn [bind] in L; [|discriminate] end.
  match type of L with (do _ <- ?r; _) = _ => destruct r as [?|]; cbn [bind] in L; [|discriminate] end.
  injection L as <-. discriminate R.
Qed.

Lemma C28_equal_length_proof :
forall src a p, t_debug a = false -> textpack src a = Ok p ->
  exists n, 1 <= n /\ forall k ch, dget k (p_data p) = Some ch -> alen ch = n.
Proof.
  intros src a p D E. apply textpack_inv in E. destruct E as (u & s & data & names & y & -> & E).
  apply (datadict_inv _ _ _ _ _ _ _ D) in E. destruct E as (ys & rows & _ & _ & NE & ->).
  exists (length rows). split; [destruct rows; [congruence|cbn; lia]|].
  intros k ch G. unfold make in G.
  match type of G with context [new_pack ?d ?n] => destruct (pack_parts d n (src_name src)) as (PD & _) end.
  rewrite PD in G. apply dget_In in G. apply in_map_iff in G. destruct G as ([k' l] & G & I). cbn [fst snd] in G.
  injection G as _ <-. rewrite np_array_length.
  assert (F : Forall (fun kv => length (snd kv) = length rows) (dict_of (label u (zipn rows)))).
  { apply (dict_of_values (fun l => length l = length rows)). apply (label_values (fun l => length l = length rows)).
    rewrite (zipn_minlen VNone). apply Forall_forall. intros c C. apply in_map_iff in C. destruct C as (j & <- & _).
    apply map_length. }
  rewrite Forall_forall in F. exact (F _ I).
Qed.

Lemma chosen_is_all u k : Sorted Z.lt u -> (forall c, In c u -> (0 <= c < Z.of_nat k)%Z) ->
  u = map Z.of_nat (chosen (Some u) k).
Proof.
  intros S B. destruct (@chosen_is_prefix u k S) as (t & T).
  { apply Forall_forall. intros c C. apply B in C. lia. }
  rewrite T at 1. destruct t as [|x t]; [rewrite app_nil_r; reflexivity|]. exfalso.
  assert (I : In x u) by (rewrite T; apply in_or_app; right; left; reflexivity).
  pose proof (B x I) as X.
  assert (J : In x (map Z.of_nat (chosen (Some u) k))).
  { apply in_map_iff. exists (Z.to_nat x). split; [lia|]. unfold chosen. apply filter_In. split; [apply in_seq; lia|].
    apply in_cols_spec. rewrite Z2Nat.id by lia. exact I. }
  apply zsorted_strong in S. rewrite T in S. clear - S J.
  revert S J. generalize (map Z.of_nat (chosen (Some u) k)) as l. induction l as [|y l IH]; intros S J; [destruct J|].
  cbn [app] in S. inversion S as [|? ? S1 S2]; subst. destruct J as [->|J]; [|apply IH; assumption].
  rewrite Forall_forall in S2. assert (x < x)%Z; [|lia]. apply S2. apply in_or_app. right. left. reflexivity.
Qed.

Lemma dget_map_nat {V} (f : nat -> V) cs c : dget c (map (fun c => (Z.of_nat c, f c)) cs) =
  if existsb (fun i => Z.eqb c (Z.of_nat i)) cs then Some (f (Z.to_nat c)) else None.
Proof.
  induction cs as [|i cs IH]; [reflexivity|]. cbn [map dget existsb].
  destruct (c =? Z.of_nat i)%Z eqn:E; cbn [orb]; [|exact IH]. f_equal. f_equal. lia.
Qed.

Lemma dget_chosen {V} (f : nat -> V) u k c :
  dget c (map (fun c => (Z.of_nat c, f c)) (chosen (Some u) k)) =
  if existsb (Z.eqb c) u then dget c (map (fun c => (Z.of_nat c, f c)) (seq 0 k)) else None.
Proof.
  rewrite !dget_map_nat.
  destruct (existsb (Z.eqb c) u) eqn:U.
  - assert (existsb (fun i => Z.eqb c (Z.of_nat i)) (chosen (Some u) k) = existsb (fun i => Z.eqb c (Z.of_nat i)) (seq 0 k)) as ->; [|reflexivity].
    apply eq_true_iff_eq. rewrite !existsb_exists. split; intros (i & I & E); exists i; (split; [|exact E]).
    + unfold chosen in I. apply filter_In in I. tauto.
    + unfold chosen. apply filter_In. split; [exact I|]. cbn [in_cols]. replace (Z.of_nat i) with c by lia. exact U.
  - destruct (existsb (fun i => Z.eqb c (Z.of_nat i)) (chosen (Some u) k)) eqn:E; [|reflexivity].
    apply existsb_exists in E. destruct E as (i & I & E). unfold chosen in I. apply filter_In in I. destruct I as [_ I].
    cbn [in_cols] in I. replace (Z.of_nat i) with c in I by lia. congruence.
Qed.

Lemma map_keys {A B} (f : A -> B) (cs : list nat) (g : nat -> A) :
  map (fun kv => (fst kv, f (snd kv))) (map (fun c => (Z.of_nat c, g c)) cs) = map (fun c => (Z.of_nat c, f (g c))) cs.
Proof. rewrite map_map. reflexivity. Qed.

Lemma names_sub m fields w ns : names_tuple m None fields w = Ok ns ->
  exists f, forall u, names_tuple m u fields w = Ok (map f (chosen u (Nat.min w (length fields)))).
Proof.
  intro N. rewrite names_seq in N.
  set (h := fun c : nat => match m with
                 | Coded _ => decode_in m (strip ws_bytes (nth c fields []))
                 | _ => Ok (field_val m (strip (ws_of m) (nth c fields []))) end) in *.
  exists (fun c => match h c with Ok v => v | Err _ => VNone end). intro u. rewrite names_seq. fold h.
  apply mapM_all_ok. intros c C. unfold chosen in C. apply filter_In in C. destruct C as [C _].
  destruct (mapM_ok_in _ _ _ c N) as (v & V); [rewrite chosen_all; exact C|]. rewrite V. reflexivity.
Qed.

Lemma C29_projection_proof :
forall src a p u, t_names a = [] -> t_usecols a = ColsNone -> t_debug a = false ->
  textpack src a = Ok p -> Sorted Z.lt u -> (forall c, In c u -> In c (dkeys (p_data p))) ->
  exists q, textpack src (with_usecols (ColsSeq u) a) = Ok q /\
    dkeys (p_data q) = u /\ (forall c, In c u -> dget c (p_data q) = dget c (p_data p)) /\
    (forall c, dget c (p_names q) = if existsb (Z.eqb c) u then dget c (p_names p) else None).
Proof.
  intros src a p u NM UC DB E S B.
  destruct (delim_case (t_delimiter a)) as [DL|D1].
  { rewrite textpack_empty_delim in E by exact DL. discriminate. }
  set (m := mode_of (src_bytes src) (t_encoding a));
  rewrite (textpack_any src a m eq_refl D1) in E;
  rewrite (textpack_any src (with_usecols (ColsSeq u) a) m eq_refl D1);
  change (data_start src (with_usecols (ColsSeq u) a)) with (data_start src a);
  change (t_delimiter (with_usecols (ColsSeq u) a)) with (t_delimiter a);
  change (t_stripstrings (with_usecols (ColsSeq u) a)) with (t_stripstrings a);
  change (t_converters (with_usecols (ColsSeq u) a)) with (t_converters a);
  change (t_debug (with_usecols (ColsSeq u) a)) with (t_debug a);
  cbv zeta in *;
  set (row0 := first_row m (t_delimiter a) (data_start src a)) in *;
  set (rows := more_rows m (t_delimiter a) (data_start src a)) in *;
  destruct (line_funcs m (t_stripstrings a) (t_converters a) row0) as [funcs|]; cbn [bind] in *; [|discriminate];
  unfold read_cols, found_names in *; cbn [with_usecols t_names t_usecols t_hasnames t_skiprows t_delimiter] in *;
  rewrite NM, UC, DB in *; cbn [cols_seq] in *;
  (match type of E with (do _ <- ?n; _) = _ => destruct n as [names|] eqn:FN; cbn [bind] in E; [|discriminate] end);
  (destruct (gather false None (map (line_tuple m funcs None) (row0 :: rows))) as [data|] eqn:G; cbn [bind] in E; [|discriminate]);
  injection E as <-;
  (destruct (@gathered m funcs None (row0 :: rows) data ltac:(discriminate) G) as (k & K1 & K2 & _ & K));
  rewrite (K None I ltac:(intros; reflexivity)) in G; apply ok_inj in G; subst data;
  unfold make in B;
  (match type of B with context [new_pack ?d ?n] => destruct (pack_parts d n (src_name src)) as (PD & PN & _) end);
  rewrite PD in B; rewrite map_keys, chosen_all in B;
  (assert (B' : forall c, In c u -> (0 <= c < Z.of_nat k)%Z);
   [intros c C; specialize (B c C); unfold dkeys in B; rewrite map_map in B; cbn [fst] in B;
    apply in_map_iff in B; destruct B as (i & <- & I); apply in_seq in I; lia|]);
  (assert (AS : ascending (Some u));
   [split; [exact S|]; apply Forall_forall; intros c C; apply B' in C; lia|]);
  (assert (NS : exists nq, (if t_hasnames a then do ns <- names_tuple m (Some u)
                 (map (strip (ws_of m)) (first_row m (t_delimiter a)
                    (skip_lines (Z.to_nat (t_skiprows a - 1)) (ahead src)))) (length row0);
               Ok (dict_of (label (Some u) ns)) else Ok []) = Ok nq /\
             forall c, dget c nq = if existsb (Z.eqb c) u then dget c names else None);
   [destruct (t_hasnames a);
    [ match type of FN with (do _ <- ?r; _) = _ => destruct r as [ns|] eqn:NT; cbn [bind] in FN; [|discriminate] end;
      assert (names = dict_of (label None ns)) by congruence; subst names; clear FN; destruct (@names_sub _ _ _ _ NT) as (f & F);
      rewrite (F (Some u)); rewrite (F None) in NT; injection NT as <-; cbn [bind]; eexists; split; [reflexivity|];
      intro c; rewrite !label_chosen by (exact I || exact AS);
      rewrite !dict_of_id by apply chosen_keys_NoDup; rewrite chosen_all; apply dget_chosen
    | injection FN as <-; eexists; split; [reflexivity|]; intro c; destruct (existsb (Z.eqb c) u); reflexivity]|]);
  destruct NS as (nq & N1 & N2); rewrite N1; cbn [bind];
  rewrite (K (Some u) AS ltac:(intros; reflexivity)); cbn [bind]; eexists; split; [reflexivity|];
  unfold make; rewrite PD, PN;
  (match goal with |- context [new_pack ?d nq] => destruct (pack_parts d nq (src_name src)) as (PD' & PN' & _) end);
  rewrite PD', PN'; rewrite !map_keys;
  (split; [unfold dkeys; rewrite map_map; cbn [fst]; symmetry; apply chosen_is_all; assumption|]);
  (split; [|exact N2]); intros c C; rewrite dget_chosen, chosen_all;
  (assert (existsb (Z.eqb c) u = true) as -> by (apply existsb_exists; exists c; split; [exact C|lia])); reflexivity.
Qed.

Lemma C29_names_select_proof :
forall src a b, t_names a <> [] ->
  b = with_names [] (with_hasnames false (with_usecols (ColsSeq (zsort (dkeys (t_names a)))) a)) ->
  match textpack src a, textpack src b with
  | Ok p, Ok q => p_data p = p_data q /\ p_names p = t_names a
  | Err e, Err f => e = f
  | _, _ => False
  end.
Proof.
  intros src a b N ->. destruct (delim_case (t_delimiter a)) as [DL|D1].
  { rewrite !textpack_empty_delim by exact DL. reflexivity. }
  rewrite (textpack_any src a _ eq_refl D1);
  match goal with |- context [textpack src ?b] => set (b' := b) end;
  rewrite (textpack_any src b' _ eq_refl D1); cbv zeta;
  (assert (DS : data_start src b' = data_start src a) by
     (unfold data_start, names_line; cbn; destruct (t_names a); [congruence|reflexivity])); rewrite DS;
  (assert (RC : read_cols b' = read_cols a) by
     (unfold read_cols; cbn; destruct (t_names a); [congruence|reflexivity])); rewrite RC;
  cbn [b' with_names with_hasnames with_usecols t_delimiter t_stripstrings t_converters t_debug t_encoding];
  (destruct (line_funcs _ _ _ _) as [funcs|e]; cbn [bind]; [|reflexivity]);
  unfold found_names; cbn [b' with_names with_hasnames with_usecols t_names t_hasnames];
  (destruct (t_names a) as [|nv ns] eqn:NM; [congruence|]); cbn [bind];
  (destruct (gather _ _ _) as [data|e]; cbn [bind]; [|reflexivity]); unfold make;
  (match goal with |- context [new_pack ?d (nv :: ns)] => destruct (pack_parts d (nv :: ns) (src_name src)) as (-> & -> & _) end);
  (match goal with |- context [new_pack ?d []] => destruct (pack_parts d [] (src_name src)) as (-> & _ & _) end); auto.
Qed.

Lemma C29_unsorted_refuted_proof :
exists src p q, textpack src targs0 = Ok p /\ textpack src (with_usecols (ColsSeq [1; 0]%Z) targs0) = Ok q /\
  dget 1%Z (p_data p) = Some (mkarr Kf [VFloat (float_of_Z 2)]) /\
  dget 1%Z (p_data q) = Some (mkarr Kf [VFloat (float_of_Z 1)]).
Proof.
  eexists (text (lit "1 2")), _, _. split; [vm_compute; reflexivity|]. split; [vm_compute; reflexivity|].
  split; vm_compute; reflexivity.
Qed.

Lemma C29_duplicate_refuted_proof :
exists src q, textpack src (with_usecols (ColsSeq [0; 0; 1]%Z) targs0) = Ok q /\
  p_data q = [(0%Z, mkarr Kf [VFloat (float_of_Z 2)])].
Proof.
  eexists (text (lit "1 2")), _. split; vm_compute; reflexivity.
Qed.

Ltac unfold_asked := repeat match goal with
  | H : context [asked ?x] |- _ => change (asked x) with (cols_seq x) in H
  | H : context [reading_mode ?x ?y] |- _ => change (reading_mode x y) with (mode_of x y) in H
  end; try change asked with cols_seq.

Lemma C30_columns_proof :
forall src a m row0 rows k cs g,
  m = reading_mode (src_bytes src) (t_encoding a) ->
  t_names a = [] -> t_hasnames a = false -> t_debug a = false ->
  table_after src (Z.to_nat (t_skiprows a)) m (t_delimiter a) row0 rows ->
  converters_ok (t_converters a) row0 ->
  ascending (asked (t_usecols a)) -> narrowest row0 rows k -> columns_below (asked (t_usecols a)) k cs ->
  (forall r c, In r (row0 :: rows) -> c < length row0 -> c < length r ->
     match asked (t_usecols a) with None => True | Some u => In (Z.of_nat c) u end ->
     cell m (t_stripstrings a) (t_converters a) row0 c (nth c r []) (g c (nth c r []))) ->
  exists p, textpack src a = Ok p /\ channels g cs (row0 :: rows) (p_data p) /\
            p_names p = [] /\ p_fn p = src_name src.
Proof.
  intros src a m row0 rows k cs g M N H D T CO A NW CB CR. unfold_asked. eapply read_table; eauto.
  intros r c R C1 C2 C3. apply CR; auto. apply in_cols_spec. exact C3.
Qed.

Lemma C30_fails_proof :
forall src a m row0 rows r c,
  m = reading_mode (src_bytes src) (t_encoding a) ->
  t_names a = [] -> t_hasnames a = false ->
  table_after src (Z.to_nat (t_skiprows a)) m (t_delimiter a) row0 rows ->
  converters_ok (t_converters a) row0 ->
  In r (row0 :: rows) -> c < length row0 -> c < length r ->
  match asked (t_usecols a) with None => True | Some u => In (Z.of_nat c) u end ->
  (forall v, ~ cell m (t_stripstrings a) (t_converters a) row0 c (nth c r []) v) ->
  exists e, textpack src a = Err e.
Proof.
  intros src a m row0 rows r c M N H T CO R C1 C2 U NC. unfold_asked. rewrite (@textpack_table src a m row0 rows M N H T).
  destruct (@line_funcs_ok m (t_stripstrings a) (t_converters a) row0 CO) as (funcs & E & L & F). rewrite E.
  cbn [bind].
  assert (AE : exists e, all_rows (map (line_tuple m funcs (cols_seq (t_usecols a))) (row0 :: rows)) = Err e).
  { destruct (all_rows (map (line_tuple m funcs (cols_seq (t_usecols a))) (row0 :: rows))) as [ts|e] eqn:A; [|eauto].
    exfalso. unfold all_rows in A. rewrite mapM_map in A. destruct (mapM_ok_in _ _ _ r A R) as (t & T').
    rewrite line_tuple_seq in T'. destruct (mapM_ok_in _ _ _ c T') as (v & V).
    - unfold chosen. apply filter_In. split; [apply in_seq; rewrite L; apply Nat.min_case; cbn [Nat.add]; split; (apply Nat.le_0_l || assumption)|].
      apply in_cols_spec. exact U.
    - apply (NC v). apply F; [exact C1|exact V]. }
  unfold gather. destruct (t_debug a).
  - destruct (proj2 (debug_err (cols_seq (t_usecols a)) _ false []) AE) as (e & X). exists e. rewrite X. reflexivity.
  - destruct AE as (e & X). exists e. rewrite X. reflexivity.
Qed.

Lemma float_of_str_err s e : float_of_str s = Err e -> e = ValueError.
Proof.
  unfold float_of_str. destruct (drop_underscores false (strip ws_bytes s)) as [t|]; [|congruence].
  destruct (take_sign t) as [neg b]. unfold float_body.
  destruct (_ || _); [discriminate|]. destruct (str_eqb _ _); [discriminate|].
  destruct (span is_digit b) as [ip r].
  match goal with |- context [let '(_, _) := ?x in _] => destruct x as [fp r'] end.
  destruct (ip ++ fp); [congruence|]. destruct (take_exponent r'); congruence.
Qed.

Lemma float_of_err m s e : float_of m s = Err e -> e = ValueError.
Proof. destruct m; apply float_of_str_err. Qed.

Lemma mapM_err {A B} (f : A -> res B) l e : mapM f l = Err e -> exists x, In x l /\ f x = Err e.
Proof.
  induction l as [|x l IH]; [discriminate|]. cbn [mapM]. destruct (f x) as [y|e'] eqn:E; cbn [bind].
  - destruct (mapM f l); cbn [bind]; [discriminate|]. intro H. injection H as ->.
    destruct IH as (z & Z1 & Z2); [reflexivity|]. exists z. split; [right; exact Z1|exact Z2].
  - intro H. injection H as ->. exists x. split; [left; reflexivity|exact E].
Qed.

Lemma base_funcs_err m st row0 c s e : (m = Text \/ m = Raw) ->
  apply_func m (nth c (base_funcs m st row0) AsIs) s = Err e -> e = ValueError.
Proof.
  intros M H. destruct (nth c (base_funcs m st row0) AsIs) eqn:F; cbn [apply_func] in H.
  - unfold float_or_nan in H. destruct s as [|x s]; [discriminate|].
    destruct (float_of m (x :: s)) eqn:Q; cbn [bind] in H; [discriminate|]. injection H as ->. eapply float_of_err; eauto.
  - destruct s as [|x s]; [discriminate|].
    destruct (float_of m (comma_to_dot (x :: s))) eqn:Q; cbn [bind] in H; [discriminate|]. injection H as ->. eapply float_of_err; eauto.
  - discriminate.
  - discriminate.
  - exfalso. assert (I : In AsIsDecode (base_funcs m st row0)).
    { rewrite <- F. apply nth_In. destruct (Nat.lt_ge_cases c (length (base_funcs m st row0))); [assumption|].
      rewrite nth_overflow in F by assumption. discriminate. }
    unfold base_funcs in I. destruct (existsb _ _).
    + apply in_map_iff in I. destruct I as (f & E & I). apply in_map_iff in I. destruct I as (v & <- & _).
      unfold field_func in E. destruct (float_of _ v); [discriminate|]. destruct (float_of _ (comma_to_dot v)); [discriminate|].
      destruct st, M as [-> | ->]; discriminate.
    + apply in_map_iff in I. destruct I as (v & E & _).
      unfold field_func in E. destruct (float_of _ v); [discriminate|]. destruct (float_of _ (comma_to_dot v)); [discriminate|].
      destruct st, M as [-> | ->]; discriminate.
  - exfalso. assert (I : In AsIsStrippedDecode (base_funcs m st row0)).
    { rewrite <- F. apply nth_In. destruct (Nat.lt_ge_cases c (length (base_funcs m st row0))); [assumption|].
      rewrite nth_overflow in F by assumption. discriminate. }
    unfold base_funcs in I. destruct (existsb _ _).
    + apply in_map_iff in I. destruct I as (f & E & I). apply in_map_iff in I. destruct I as (v & <- & _).
      unfold field_func in E. destruct (float_of _ v); [discriminate|]. destruct (float_of _ (comma_to_dot v)); [discriminate|].
      destruct st, M as [-> | ->]; discriminate.
    + apply in_map_iff in I. destruct I as (v & E & _).
      unfold field_func in E. destruct (float_of _ v); [discriminate|]. destruct (float_of _ (comma_to_dot v)); [discriminate|].
      destruct st, M as [-> | ->]; discriminate.
  - exfalso. assert (I : In (Given f) (base_funcs m st row0)).
    { rewrite <- F. apply nth_In. destruct (Nat.lt_ge_cases c (length (base_funcs m st row0))); [assumption|].
      rewrite nth_overflow in F by assumption. discriminate. }
    unfold base_funcs in I. destruct (existsb _ _).
    + apply in_map_iff in I. destruct I as (g & E & I). apply in_map_iff in I. destruct I as (v & <- & _).
      unfold field_func in E. destruct (float_of _ v); [discriminate|]. destruct (float_of _ (comma_to_dot v)); [discriminate|].
      destruct st, M as [-> | ->]; discriminate.
    + apply in_map_iff in I. destruct I as (v & E & _).
      unfold field_func in E. destruct (float_of _ v); [discriminate|]. destruct (float_of _ (comma_to_dot v)); [discriminate|].
      destruct st, M as [-> | ->]; discriminate.
Qed.

Lemma names_tuple_ok m u fields w : m = Text \/ m = Raw -> exists ns, names_tuple m u fields w = Ok ns.
Proof.
  intro M. rewrite names_seq. eexists. apply mapM_all_ok with (g := fun c => field_val m (strip (ws_of m) (nth c fields []))).
  intros c _. destruct M as [-> | ->]; reflexivity.
Qed.

Lemma C30_value_error_proof :
forall src a e, src_bytes src = false \/ t_encoding a = None -> t_converters a = [] -> t_debug a = false ->
  textpack src a = Err e -> e = ValueError.
Proof.
  intros src a e M C D E. destruct (delim_case (t_delimiter a)) as [DL|D1].
  { rewrite textpack_empty_delim in E by exact DL. congruence. }
  rewrite (textpack_any src a _ eq_refl D1) in E;
  set (m := mode_of (src_bytes src) (t_encoding a)) in E;
  (assert (M' : m = Text \/ m = Raw);
   [unfold m, mode_of; destruct M as [-> | ->]; [auto|destruct (src_bytes src); auto]|]);
  rewrite C in E; cbv zeta in E; unfold line_funcs in E; cbn [set_funcs bind] in E;
  fold (base_funcs m (t_stripstrings a) (first_row m (t_delimiter a) (data_start src a))) in E;
  (match type of E with (do _ <- found_names ?s ?a ?m ?w; _) = _ => assert (FN : exists ns, found_names s a m w = Ok ns) end;
   [unfold found_names; destruct (t_names a); [|eauto]; destruct (t_hasnames a); [|eauto];
    match goal with |- context [names_tuple ?m ?u ?f ?w] => destruct (names_tuple_ok m u f w M') as (ns & ->) end; cbn [bind]; eauto|]);
  destruct FN as (ns & FN); rewrite FN in E; cbn [bind] in E; rewrite D in E; unfold gather in E;
  (match type of E with context [all_rows ?r] => destruct (all_rows r) as [ts|e'] eqn:A; cbn [bind] in E; [discriminate|] end);
  injection E as ->; unfold all_rows in A; rewrite mapM_map in A; apply mapM_err in A; destruct A as (r & _ & A);
  rewrite line_tuple_seq in A; apply mapM_err in A; destruct A as (c & _ & A); eapply base_funcs_err; eauto.
Qed.

Lemma set_funcs_out conv k : In k (dkeys conv) -> forall fs : list func,
  (Z.of_nat (length fs) <= k \/ k < - Z.of_nat (length fs))%Z -> set_funcs fs conv = Err IndexError.
Proof.
  induction conv as [|[k' f] conv IH]; [intros []|]. intros I fs O. cbn [set_funcs].
  unfold list_set. match goal with |- context [if ?b then Ok _ else Err _] => destruct b eqn:B end; [|reflexivity].
  cbn [bind]. destruct I as [<-|I].
  - cbn [fst] in *. exfalso. destruct (k' <? 0)%Z eqn:Q; lia.
  - apply IH; [exact I|]. rewrite app_length. cbn [length]. rewrite firstn_length, skipn_length.
    destruct (k' <? 0)%Z eqn:Q; lia.
Qed.

Lemma C30_converter_index_proof :
forall src a m row0 rows k,
  m = reading_mode (src_bytes src) (t_encoding a) ->
  t_names a = [] -> t_hasnames a = false ->
  table_after src (Z.to_nat (t_skiprows a)) m (t_delimiter a) row0 rows ->
  In k (dkeys (t_converters a)) -> (Z.of_nat (length row0) <= k \/ k < - Z.of_nat (length row0))%Z ->
  textpack src a = Err IndexError.
Proof.
  intros src a m row0 rows k M N H T I O. unfold_asked. rewrite (@textpack_table src a m row0 rows M N H T).
  unfold line_funcs. fold (base_funcs m (t_stripstrings a) row0).
  rewrite (set_funcs_out _ k I); [reflexivity|]. rewrite base_funcs_length. exact O.
Qed.

Lemma C31_narrowest_proof :
forall src a m row0 rows k p,
  m = reading_mode (src_bytes src) (t_encoding a) ->
  t_names a = [] -> t_hasnames a = false -> t_debug a = false -> t_usecols a = ColsNone ->
  table_after src (Z.to_nat (t_skiprows a)) m (t_delimiter a) row0 rows ->
  narrowest row0 rows k -> textpack src a = Ok p ->
  dkeys (p_data p) = map Z.of_nat (seq 0 k) /\
  forall c ch, dget c (p_data p) = Some ch -> alen ch = S (length rows).
Proof.
  intros src a m row0 rows k p M N H D U T NW E. unfold_asked.
  assert (NL : names_line a = false) by (unfold names_line; rewrite N; exact H).
  destruct (table_start _ _ _ _ _ NL T) as (R0 & R1 & D1). rewrite (textpack_any src a m M D1) in E. cbv zeta in E.
  rewrite R0, R1 in E. unfold read_cols, found_names in E. rewrite N, H, U, D in E. cbn [cols_seq] in E.
  destruct (line_funcs m (t_stripstrings a) (t_converters a) row0) as [funcs|] eqn:LF; cbn [bind] in E; [|discriminate].
  assert (FL : length funcs = length row0).
  { unfold line_funcs in LF. fold (base_funcs m (t_stripstrings a) row0) in LF.
    rewrite <- (base_funcs_length m (t_stripstrings a) row0). revert LF. generalize (base_funcs m (t_stripstrings a) row0).
    induction (t_converters a) as [|[c f] conv IH]; intros fs LF; cbn [set_funcs] in LF; [congruence|].
    unfold list_set in LF. match type of LF with context [if ?b then Ok _ else Err _] => destruct b eqn:B end; [|discriminate].
    cbn [bind] in LF. apply IH in LF. rewrite LF, app_length. cbn [length]. rewrite firstn_length, skipn_length.
    destruct (c <? 0)%Z eqn:Q; lia. }
  destruct (gather false None (map (line_tuple m funcs None) (row0 :: rows))) as [data|] eqn:G; cbn [bind] in E; [|discriminate].
  injection E as <-. destruct (@gathered m funcs None (row0 :: rows) data ltac:(discriminate) G) as (k' & K1 & K2 & (r & K3 & K4) & K).
  rewrite (K None I ltac:(intros; reflexivity)) in G. apply ok_inj in G. subst data. rewrite chosen_all.
  assert (KK : k' = k).
  { destruct NW as ((r' & I' & L') & W). pose proof (K2 r' I') as X1.
    assert (X2 : k <= Nat.min (length funcs) (length r)).
    { apply Nat.min_glb; [rewrite FL|]; apply W; [left; reflexivity|exact K3]. }
    rewrite L' in X1. rewrite K4 in X2. lia. }
  rewrite KK. unfold make.
  match goal with |- context [new_pack ?d ?n] => destruct (pack_parts d n (src_name src)) as (-> & _) end.
  rewrite map_keys. split; [unfold dkeys; rewrite map_map; reflexivity|].
  intros c ch C. apply dget_In in C. apply in_map_iff in C. destruct C as (j & C & _).
  apply (f_equal snd) in C. cbn [snd] in C. rewrite <- C, np_array_length, map_length. reflexivity.
Qed.

Lemma whole_lines_more n : forall t j x, whole_lines n t -> j < n ->
  exists l t', ~ In 10%N l /\ whole_lines (n - S j) t' /\ forall y, skip_lines j (t ++ y) = l ++ 10%N :: t' ++ y /\
    skip_lines j (t ++ x) = l ++ 10%N :: t' ++ x.
Proof.
  induction n as [|n IH]; intros t j x W J; [lia|]. inversion W as [|? l h L H]; subst. destruct j as [|j].
  - exists l, h. rewrite Nat.sub_0_r || replace (S n - 1) with n by lia. split; [exact L|]. split; [exact H|].
    intro y. cbn [skip_lines]. rewrite <- !app_assoc. split; reflexivity.
  - destruct (IH h j x H ltac:(lia)) as (l' & t' & L' & W' & E). exists l', t'. split; [exact L'|].
    split; [exact W'|]. intro y. rewrite <- !app_assoc. cbn [app]. rewrite !skip_lines_line by exact L. apply E.
Qed.

Lemma lines_of_whole n : forall t y, whole_lines n t -> lines_of (t ++ y) = lines_of t ++ lines_of y.
Proof.
  induction n as [|n IH]; intros t y W; inversion W as [|? l h L H]; subst; [reflexivity|].
  rewrite <- app_assoc. cbn [app]. rewrite !lines_of_line by exact L. rewrite (IH h y H). reflexivity.
Qed.

Lemma C31_blank_lines_proof :
forall bytes t1 w t2 name a n,
  whole_lines n t1 -> (Z.max (if t_hasnames a then 1 else 0) (t_skiprows a) < Z.of_nat n)%Z ->
  match t_delimiter a with Some d => ~ In 10%N d | None => True end ->
  Forall (pad (t_delimiter a)) w -> ~ In 10%N w ->
  textpack (mksource bytes (t1 ++ w ++ 10%N :: t2) 0 name) a = textpack (mksource bytes (t1 ++ t2) 0 name) a.
Proof.
  intros bytes t1 w t2 name a n W B DL P N10. destruct (delim_case (t_delimiter a)) as [DE|D1].
  { rewrite !textpack_empty_delim by exact DE. reflexivity. }
  rewrite !(fun s => textpack_any (mksource bytes s 0 name) a _ eq_refl D1);
  (assert (DO : delim_ok (t_delimiter a)) by (destruct (t_delimiter a) as [d|]; [split; [intros ->; apply D1; reflexivity|exact DL]|exact I]));
  cbn [src_bytes]; set (m := mode_of bytes (t_encoding a)); unfold data_start, found_names, ahead; cbn [src_pos src_text skipn];
  set (j := Z.to_nat (Z.max (if names_line a then 1 else 0) (t_skiprows a)));
  (assert (J : j < n) by (unfold j, names_line; destruct (t_names a), (t_hasnames a); lia));
  destruct (@whole_lines_more n t1 j [] W J) as (l & t' & L & W' & E);
  rewrite !(fun y => proj1 (E y));
  (assert (FR : forall y, first_row m (t_delimiter a) (l ++ 10%N :: y) = split_total m (t_delimiter a) (l ++ [10%N]))
    by (intro y; unfold first_row; rewrite readline_line by exact L; reflexivity));
  (assert (MR : more_rows m (t_delimiter a) (l ++ 10%N :: t' ++ w ++ 10%N :: t2) = more_rows m (t_delimiter a) (l ++ 10%N :: t' ++ t2));
   [unfold more_rows; rewrite !readline_line by exact L; cbn [snd];
    rewrite !(lines_of_whole _ _ _ W'), lines_of_line by exact N10; rewrite !filter_app, !map_app; f_equal; cbn [filter];
    unfold filled at 1; rewrite blank_text by auto; reflexivity|]);
  rewrite MR, !FR; cbv zeta;
  (destruct (line_funcs _ _ _ _) as [funcs|e]; cbn [bind]; [|reflexivity]);
  (assert (NF : t_names a = [] -> t_hasnames a = true ->
     first_row m (t_delimiter a) (skip_lines (Z.to_nat (t_skiprows a - 1)) (t1 ++ w ++ 10%N :: t2)) =
     first_row m (t_delimiter a) (skip_lines (Z.to_nat (t_skiprows a - 1)) (t1 ++ t2)));
   [intros _ HN; rewrite HN in B;
    destruct (@whole_lines_more n t1 (Z.to_nat (t_skiprows a - 1)) [] W ltac:(lia)) as (l' & t'' & L' & _ & E');
    rewrite !(fun y => proj1 (E' y)); unfold first_row; rewrite !readline_line by exact L'; reflexivity|]);
  destruct (t_names a); [destruct (t_hasnames a); [rewrite NF by reflexivity|]|]; reflexivity.
Qed.

Lemma C31_tab_line_refuted_proof :
exists s1 s2 p q, textpack (text (s1 ++ s2)) targs0 = Ok p /\
  textpack (text (s1 ++ [9; 10]%N ++ s2)) targs0 = Ok q /\
  length (p_data p) = 2 /\ p_data q = [].
Proof.
  eexists (lit "1 2" ++ [10%N]), (lit "3 4"), _, _. split; [vm_compute; reflexivity|].
  split; [vm_compute; reflexivity|]. split; vm_compute; reflexivity.
Qed.

Lemma C32_same_data_proof :
forall src a p, t_hasnames a = true -> (1 <= t_skiprows a)%Z -> textpack src a = Ok p ->
  exists q, textpack src (with_hasnames false a) = Ok q /\ p_data q = p_data p /\ p_fn q = p_fn p.
Proof.
  intros src a p H S E. destruct (delim_case (t_delimiter a)) as [DL|D1].
  { rewrite textpack_empty_delim in E by exact DL. discriminate. }
  rewrite (textpack_any src a _ eq_refl D1) in E;
  rewrite (textpack_any src (with_hasnames false a) _ eq_refl D1); cbv zeta in *;
  (assert (DS : data_start src (with_hasnames false a) = data_start src a);
   [unfold data_start, names_line; cbn [with_hasnames t_names t_hasnames t_skiprows]; rewrite H; destruct (t_names a);
    [|reflexivity]; f_equal; lia|]); rewrite DS;
  change (read_cols (with_hasnames false a)) with (read_cols a);
  cbn [with_hasnames t_delimiter t_stripstrings t_converters t_debug t_encoding];
  (destruct (line_funcs _ _ _ _) as [funcs|e]; cbn [bind] in *; [|discriminate]);
  (match type of E with (do _ <- ?f; _) = _ => destruct f as [names|]; cbn [bind] in E; [|discriminate] end);
  (assert (FN : exists ns, found_names src (with_hasnames false a) (mode_of (src_bytes src) (t_encoding a))
                (length (first_row (mode_of (src_bytes src) (t_encoding a)) (t_delimiter a) (data_start src a))) = Ok ns);
   [unfold found_names; cbn [with_hasnames t_names t_hasnames]; destruct (t_names a); eauto|]);
  destruct FN as (ns & ->); cbn [bind];
  (destruct (gather _ _ _) as [data|e]; cbn [bind] in *; [|discriminate]); apply ok_inj in E; subst p; eexists; split; [reflexivity|];
  unfold make.
  (match goal with |- context [new_pack ?d names] => destruct (pack_parts d names (src_name src)) as (-> & _ & ->) end);
  (match goal with |- context [new_pack ?d ns] => destruct (pack_parts d ns (src_name src)) as (-> & _ & ->) end); auto.
Qed.

Lemma name_value m s v : name_cell m s v ->
  match m with
  | Coded _ => decode_in m (strip ws_bytes (strip (ws_of m) s))
  | _ => Ok (field_val m (strip (ws_of m) (strip (ws_of m) s)))
  end = Ok v.
Proof.
  assert (I : forall t, trims (space m) s t -> strip (ws_of m) (strip (ws_of m) s) = t).
  { intros t T. rewrite <- (proj1 (trims_strip m s t) T). symmetry. apply trims_strip.
    destruct T as (a & b & _ & _ & _ & T1 & T2). exists [], []. rewrite app_nil_r.
    split; [reflexivity|]. repeat split; auto. }
  intro H. destruct H as [t M T|t M T|co t u M T D]; specialize (I t T); rewrite M in *; cbn [ws_of] in *.
  - rewrite I. reflexivity.
  - rewrite I. reflexivity.
  - rewrite I. cbn [decode_in]. rewrite D. reflexivity.
Qed.

Lemma C32_names_proof :
forall src a m h l s nrow row0 rows k cs ncs g nm,
  m = reading_mode (src_bytes src) (t_encoding a) ->
  t_names a = [] -> t_hasnames a = true -> t_debug a = false ->
  ahead src = h ++ l ++ 10%N :: s -> whole_lines (Z.to_nat (t_skiprows a - 1)) h ->
  row_line m (t_delimiter a) nrow l -> table m (t_delimiter a) row0 rows s ->
  converters_ok (t_converters a) row0 ->
  ascending (asked (t_usecols a)) -> narrowest row0 rows k -> columns_below (asked (t_usecols a)) k cs ->
  (forall r c, In r (row0 :: rows) -> c < length row0 -> c < length r ->
     match asked (t_usecols a) with None => True | Some u => In (Z.of_nat c) u end ->
     cell m (t_stripstrings a) (t_converters a) row0 c (nth c r []) (g c (nth c r []))) ->
  columns_below (asked (t_usecols a)) (Nat.min (length row0) (length nrow)) ncs ->
  (forall c, In c ncs -> name_cell m (nth c nrow []) (nm c)) ->
  exists p, textpack src a = Ok p /\ channels g cs (row0 :: rows) (p_data p) /\
            p_names p = map (fun c => (Z.of_nat c, nm c)) ncs.
Proof.
  intros src a m h l s nrow row0 rows k cs ncs g nm M N H D A W RL T CO AS NW CB CR NCB NC. unfold_asked.
  assert (D1 := table_delim _ _ _ _ _ T). destruct (table_rows _ _ _ _ _ T) as (R0 & R1).
  rewrite (textpack_any src a m M D1). cbv zeta.
  assert (DS : data_start src a = s).
  { unfold data_start, names_line. rewrite N, H, A.
    replace (Z.to_nat (Z.max 1 (t_skiprows a))) with (S (Z.to_nat (t_skiprows a - 1))) by lia.
    rewrite skip_lines_S, (whole_lines_skip _ _ _ W), readline_line by apply RL. reflexivity. }
  rewrite DS, R0, R1. unfold read_cols, found_names. rewrite N, H, A, D, (whole_lines_skip _ _ _ W).
  assert (F1 : first_row m (t_delimiter a) (l ++ 10%N :: s) = nrow).
  { unfold first_row. rewrite readline_line by apply RL. cbn [fst]. unfold split_total.
    destruct T as (DO & _). destruct (@row_text m _ nrow l [10%N] DO RL (or_intror eq_refl)) as [_ ->]. reflexivity. }
  rewrite F1. destruct (@line_funcs_ok m (t_stripstrings a) (t_converters a) row0 CO) as (funcs & E & L & F). rewrite E.
  cbn [bind]. set (u := cols_seq (t_usecols a)) in *.
  assert (NT : names_tuple m u (map (strip (ws_of m)) nrow) (length row0) = Ok (map nm (chosen u (Nat.min (length row0) (length nrow))))).
  { rewrite names_seq, map_length. apply mapM_all_ok. intros c C.
    rewrite <- (columns_below_chosen _ _ _ NCB) in C. pose proof (NC c C) as V. apply name_value in V.
    apply (proj2 NCB) in C. destruct C as [C _].
    rewrite (nth_map_lt (strip (ws_of m)) nrow [] []) by (apply Nat.min_glb_lt_iff in C; apply C). exact V. }
  rewrite NT. cbn [bind]. rewrite label_chosen by exact AS. rewrite dict_of_id by apply chosen_keys_NoDup.
  rewrite <- (columns_below_chosen _ _ _ NCB). unfold gather.
  assert (CR' : cells_read m a row0 rows (in_cols u) g).
  { intros r c R C1 C2 C3. apply CR; auto. apply in_cols_spec. exact C3. }
  rewrite (@tuples_ok m a row0 rows funcs u g L F CR').
  rewrite (proj2 (all_rows_ok _ _) eq_refl). cbn [bind].
  apply narrowest_min in NW. destruct NW as [W1 W2].
  rewrite (@zipn_chosen _ u (fun r => Nat.min (length row0) (length r)) (fun r c => g c (nth c r [])) (row0 :: rows) k W1 W2).
  rewrite label_chosen by exact AS. rewrite dict_of_id by apply chosen_keys_NoDup.
  eexists. split; [reflexivity|]. unfold make.
  match goal with |- context [new_pack ?d ?n] => destruct (pack_parts d n (src_name src)) as (-> & -> & _) end.
  split; [|reflexivity]. rewrite (columns_below_chosen _ _ _ CB). apply channels_iff. rewrite map_map. reflexivity.
Qed.

Lemma C32_skiprows_proof :
forall src a n, t_names a = [] -> t_hasnames a = true -> (n <= 0)%Z ->
  textpack src (with_skiprows n a) = textpack src (with_skiprows 1 a).
Proof.
  intros src a n N H L. unfold textpack. cbn [with_skiprows t_names t_hasnames t_skiprows t_usecols]. rewrite N, H.
  replace (Z.to_nat (n - 1)) with 0 by lia. reflexivity.
Qed.

Lemma debug_gather m funcs u (row0 : list str) rows data : ascending u -> length funcs = length row0 ->
  Forall (fun r : list str => length row0 <= length r) rows ->
  gather false u (map (line_tuple m funcs u) (row0 :: rows)) = Ok data ->
  gather true u (map (line_tuple m funcs u) (row0 :: rows)) = Ok data.
Proof.
  intros A L F G. pose proof G as G'. destruct (@gathered m funcs u (row0 :: rows) data ltac:(discriminate) G) as (k & K1 & K2 & (r & K3 & K4) & K).
  rewrite (K u A ltac:(auto)) in G. apply ok_inj in G. subst data.
  assert (KE : k = length row0).
  { rewrite <- K4, L. destruct K3 as [<-|K3]; [apply Nat.min_id|]. rewrite Forall_forall in F. apply Nat.min_l. apply F. exact K3. }
  unfold gather in *. destruct (all_rows (map (line_tuple m funcs u) (row0 :: rows))) as [ts|] eqn:AR; [|discriminate].
  rewrite (tuples_of _ _ _ _ _ AR u ltac:(auto)).
  replace (map (fun r : list str => map (cell_of m funcs r) (chosen u (Nat.min (length funcs) (length r)))) (row0 :: rows))
    with (map (fun r : list str => map (cell_of m funcs r) (chosen u k)) (row0 :: rows)).
  - apply (@debug_all (list str) u (cell_of m funcs) k row0 rows A).
  - apply map_ext_in. intros r' I'. assert (Nat.min (length funcs) (length r') = k) as ->; [|reflexivity].
    rewrite KE, L. destruct I' as [<-|I']; [apply Nat.min_id|]. rewrite Forall_forall in F. apply Nat.min_l. apply F. exact I'.
Qed.

Lemma line_funcs_length m st conv row0 funcs : line_funcs m st conv row0 = Ok funcs -> length funcs = length row0.
Proof.
  intro LF. unfold line_funcs in LF. fold (base_funcs m st row0) in LF.
  rewrite <- (base_funcs_length m st row0). revert LF. generalize (base_funcs m st row0).
  induction conv as [|[c f] conv IH]; intros fs LF; cbn [set_funcs] in LF; [congruence|].
  unfold list_set in LF. match type of LF with context [if ?b then Ok _ else Err _] => destruct b eqn:B end; [|discriminate].
  cbn [bind] in LF. apply IH in LF. rewrite LF, app_length. cbn [length]. rewrite firstn_length, skipn_length.
  destruct (c <? 0)%Z eqn:Q; lia.
Qed.

Lemma C33_debug_proof :
forall src a m row0 rows,
  m = reading_mode (src_bytes src) (t_encoding a) ->
  t_names a = [] -> t_hasnames a = false ->
  table_after src (Z.to_nat (t_skiprows a)) m (t_delimiter a) row0 rows ->
  ascending (asked (t_usecols a)) ->
  Forall (fun r => length row0 <= length r) rows ->
  (forall p, textpack src (with_debug false a) = Ok p -> textpack src (with_debug true a) = Ok p) /\
  (forall e, textpack src (with_debug false a) = Err e -> exists e', textpack src (with_debug true a) = Err e').
Proof.
  intros src a m row0 rows M N H T A F. unfold_asked.
  rewrite !(fun b => @textpack_table src (with_debug b a) m row0 rows M N H T).
  cbn [with_debug t_stripstrings t_converters t_debug t_usecols].
  destruct (line_funcs m (t_stripstrings a) (t_converters a) row0) as [funcs|e0] eqn:LF; cbn [bind].
  2: { split; intros x X; [discriminate|eauto]. }
  pose proof (line_funcs_length _ _ _ _ _ LF) as L. set (u := cols_seq (t_usecols a)) in *. split.
  - intros p E. destruct (gather false u _) as [data|] eqn:G; cbn [bind] in E; [|discriminate].
    rewrite (debug_gather _ _ _ _ _ _ A L F G). exact E.
  - intros e E. destruct (gather false u _) as [data|e1] eqn:G; cbn [bind] in E; [discriminate|].
    unfold gather in *. destruct (all_rows (map (line_tuple m funcs u) (row0 :: rows))) as [|e2] eqn:AR; [discriminate|].
    destruct (proj2 (debug_err u (map (line_tuple m funcs u) (row0 :: rows)) false [])) as (e' & X); [eauto|].
    exists e'. rewrite X. reflexivity.
Qed.

Lemma C33_ragged_refuted_proof :
exists src p q, textpack src (with_debug false targs0) = Ok p /\ textpack src (with_debug true targs0) = Ok q /\
  map (fun kv => alen (snd kv)) (p_data p) = [2] /\ map (fun kv => alen (snd kv)) (p_data q) = [2; 1].
Proof.
  eexists (text (lit "1 2" ++ [10%N] ++ lit "3")), _, _. split; [vm_compute; reflexivity|].
  split; [vm_compute; reflexivity|]. split; vm_compute; reflexivity.
Qed.

Lemma C33_first_line_refuted_proof :
exists src a, textpack src (with_debug false a) = Err ValueError /\ textpack src (with_debug true a) = Err KeyError.
Proof.
  exists (text (lit "a")), (mktargs [] None 0 ColsNone false None [(0%Z, fun s => do f <- float_of_str s; Ok (VFloat f))] false false).
  split; vm_compute; reflexivity.
Qed.

