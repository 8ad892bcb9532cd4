(** * Masks, parts and lookups of a pack: proofs of the property theorems *)

From Coq Require Import ZifyBool ZifyNat ZifyN QArith.
From Verif Require Import PyBase PyBaseFacts PyFloat PyFloatFacts SpecChars CharFacts NumPy DataUtils Pack SpecMask SpecPack MaskProofs PackProofs SpecArray ArrayFacts.
Open Scope nat_scope.

Lemma C01_parts_are_maximal_runs_bits :
forall p a, p_mindur p = None ->
  exists p' l,
    set_mask (OArr a) p = (p', Ok tt) /\ p_mask p' = a /\
    lists_runs (map truthy (aelems a)) l /\
    parts p' = seq 0 (length l) /\
    forall k s e, nth_error l k = Some (s, e) ->
    forall ch key x nof, datakey p' ch = Ok key -> dget key (p_data p') = Some x ->
      call p' ch (Some (Z.of_nat k)) nof = Ok (mkarr (akind x) (between s e (aelems x))).
Proof.
  intros p a Hm. exists (with_cache (with_mask p a) (slicelist a)), (slicelist a).
  split.
  { simpl. unfold set_mask_arr, apply_mindur. simpl. rewrite Hm. reflexivity. }
  split; [reflexivity|]. split; [apply slicelist_lists_runs|]. split; [reflexivity|].
  intros k s e Hk ch key x nof Hd Hx.
  unfold call. rewrite Hd. simpl bind. unfold get_data. simpl p_data in *. rewrite Hx. simpl bind.
  simpl p_cache. rewrite py_index_nonneg by lia. rewrite Nat2Z.id, Hk. reflexivity.
Qed.

Lemma C01_parts_are_maximal_runs_proof :
forall p a, p_mindur p = None ->
  exists p' l,
    set_mask (OArr a) p = (p', Ok tt) /\ p_mask p' = a /\
    lists_runs (map counts (aelems a)) l /\
    parts p' = seq 0 (length l) /\
    forall k s e, nth_error l k = Some (s, e) ->
    forall ch key x nof, datakey p' ch = Ok key -> dget key (p_data p') = Some x ->
      call p' ch (Some (Z.of_nat k)) nof = Ok (mkarr (akind x) (between s e (aelems x))).
Proof.
setoid_rewrite map_counts. exact C01_parts_are_maximal_runs_bits.
Qed.

Lemma C01_runs_list_is_unique_proof :
  forall m l l', lists_runs m l -> lists_runs m l' -> l = l'.
Proof.
  exact lists_runs_unique.
Qed.

Lemma C01_true_index_in_exactly_one_part_proof :
  forall m l, lists_runs m l ->
  (forall i, nth i m false = true -> exists k s e, nth_error l k = Some (s, e) /\ s <= i < e /\
     forall k' s' e', nth_error l k' = Some (s', e') -> s' <= i < e' -> k' = k) /\
  (forall k s e i, nth_error l k = Some (s, e) -> s < e /\ e <= length m /\
     (s <= i < e -> nth i m false = true)).
Proof.
  intros m l Hl. pose proof Hl as [H1 H2].
  assert (ND : forall k k' x, nth_error l k = Some x -> nth_error l k' = Some x -> k = k').
  { assert (SS : StronglySorted seg_lt l).
    { apply adjacent_ssorted; auto. intros [a b] Hin. apply H1 in Hin. destruct Hin. simpl. auto. }
    assert (W : Forall (fun x => fst x < snd x) l).
    { apply Forall_forall. intros [a b] Hin. apply H1 in Hin. destruct Hin. simpl. auto. }
    clear -SS W. induction SS as [|y l SS IH F]; intros k k' x Hk Hk'; [destruct k; discriminate|].
    inversion W; subst.
    assert (G : forall j, nth_error l j = Some x -> x = y -> False).
    { intros j Hj ->. apply nth_error_In in Hj. rewrite Forall_forall in F. apply F in Hj.
      unfold seg_lt in Hj. lia. }
    destruct k, k'; simpl in *; auto.
    - exfalso. eapply G; eauto. congruence.
    - exfalso. eapply G; eauto. congruence.
    - f_equal. eapply IH; eauto. }
  split.
  - intros i Hi. destruct (run_exists _ _ Hi) as (a & b & Hr & Hab).
    apply H1 in Hr as Hin. apply In_nth_error in Hin. destruct Hin as [k Hk].
    exists k, a, b. repeat split; try lia; auto.
    intros k' s' e' Hk' Hi'. apply nth_error_In in Hk' as Hin'. apply H1 in Hin'.
    destruct (@run_unique m a b s' e' i Hr Hin' Hab Hi') as [-> ->]. eauto.
  - intros k s e i Hk. apply nth_error_In in Hk. apply H1 in Hk. destruct Hk as (A & B & C & _).
    repeat split; auto.
Qed.

Lemma C02_filter_is_concatenation_of_parts_proof :
  forall d n ops p ch key x m,
  p = run ops (new_pack d n) ->
  p_mask p = barr m -> length m = alen x ->
  datakey p ch = Ok key -> dget key (p_data p) = Some x ->
  exists slices,
    mapM (fun k => call p ch (Some (Z.of_nat k)) ONone) (parts p) = Ok slices /\
    call p ch None (OStr (lit "filter")) = Ok (mkarr (akind x) (concat (map aelems slices))) /\
    concat (map aelems slices) = selected m (aelems x).
Proof.
  intros d n ops p ch key x m Hp Hm Hl Hd Hx.
  assert (Hc : coherent p) by (rewrite Hp; apply run_coherent, new_pack_coherent).
  exists (map (np_slice x) (p_cache p)).
  assert (E : concat (map aelems (map (np_slice x) (p_cache p))) = selected m (aelems x)).
  { rewrite map_map. simpl. rewrite Hc, Hm, slicelist_runs, bits_barr.
    rewrite runs_concat by (auto; simpl; unfold alen in Hl; lia). reflexivity. }
  assert (C : forall part nof, call p ch part nof =
     match part with
     | Some i => match py_index (p_cache p) i with Some sc => Ok (np_slice x sc) | None => Err IndexError end
     | None => call p ch None nof end).
  { intros [i|] nof; auto. unfold call. rewrite Hd. simpl. unfold get_data. rewrite Hx. reflexivity. }
  split; [|split].
  - unfold parts.
    transitivity (mapM (fun k => match nth_error (p_cache p) k with
                                 | Some sc => Ok (np_slice x sc) | None => Err IndexError end)
                       (seq 0 (length (p_cache p)))).
    + generalize (seq 0 (length (p_cache p))). induction l; simpl mapM; auto.
      rewrite C, py_index_nonneg, Nat2Z.id, IHl by lia. reflexivity.
    + clear. generalize (p_cache p). intro c.
      rewrite (mapM_ok_Forall2). 
      assert (G : forall c pre, Forall2 (fun x0 y => match nth_error (pre ++ c) x0 with
           | Some sc => Ok (np_slice x sc) | None => Err IndexError end = Ok y)
           (seq (length pre) (length c)) (map (np_slice x) c)).
      { induction c0; intros pre; simpl; constructor.
        - rewrite nth_error_app2, Nat.sub_diag by lia. reflexivity.
        - specialize (IHc0 (pre ++ [a])). rewrite <- app_assoc in IHc0. simpl in IHc0.
          rewrite app_length in IHc0. simpl in IHc0. rewrite Nat.add_1_r in IHc0. exact IHc0. }
      apply (G c []).
  - unfold call. rewrite Hd. simpl. unfold get_data. rewrite Hx. simpl.
    unfold np_index. rewrite Hm. simpl. unfold alen at 1. simpl. rewrite map_length, Hl, Nat.eqb_refl.
    do 2 f_equal. rewrite compress_selected.
    replace (map truthy (map VBool m)) with (bits (barr m)) by reflexivity. rewrite bits_barr. auto.
  - exact E.
Qed.

Lemma C02_mask_length_mismatch_raises_proof :
  forall p ch key x m,
  p_mask p = barr m -> length m <> alen x ->
  datakey p ch = Ok key -> dget key (p_data p) = Some x ->
  call p ch None (OStr (lit "filter")) = Err IndexError.
Proof.
  intros p ch key x m Hm Hl Hd Hx. unfold call. rewrite Hd. simpl. unfold get_data. rewrite Hx. simpl.
  unfold np_index. rewrite Hm. simpl. unfold alen at 1. simpl. rewrite map_length.
  destruct (Nat.eqb_spec (length m) (alen x)); congruence.
Qed.

Lemma bget_same : forall A (d : A) l i n, i < n -> length l = n -> bget d l i = nth i l d.
Proof.
  intros. unfold bget. destruct (Nat.eqb_spec (length l) 1); auto.
  assert (i = 0) by lia. subst. auto.
Qed.

Lemma bcast_same : forall n, bcast n n = Some n.
Proof. intros. unfold bcast. rewrite Nat.eqb_refl. reflexivity. Qed.

Lemma np_where_fill_spec : forall m x fk fill, length m = alen x ->
  np_where_fill (barr m) x fk fill =
  Ok (mkarr (promote (akind x) fk)
        (map (fun i => if nth i m false then cast (promote (akind x) fk) (nth i (aelems x) VNone)
                       else cast (promote (akind x) fk) fill) (seq 0 (alen x)))).
Proof.
  intros m x fk fill Hl. unfold np_where_fill.
  replace (alen (barr m)) with (alen x) by (unfold alen at 2, barr; simpl; rewrite map_length; auto).
  rewrite bcast_same. do 2 f_equal. apply map_ext_in. intros i Hi. apply in_seq in Hi.
  rewrite (@bget_same _ VNone (aelems (barr m)) i (alen x)); [|lia|unfold barr; simpl; rewrite map_length; auto].
  rewrite (@bget_same _ VNone (aelems x) i (alen x)); [|lia|reflexivity].
  unfold barr. simpl aelems. rewrite nth_map_lt with (d' := false) by lia. reflexivity.
Qed.

Lemma same_value_cast_float : forall k v,
  has_kind k v = true ->
  (k = Ki \/ k = Ku -> forall z, v = VInt z -> (- 2 ^ 53 <= z <= 2 ^ 53)%Z) ->
  match k with Ki | Ku | Kf | Kc => same_value v (cast (promote k Kf) v)
  | _ => cast (promote k KO) v = v end.
Proof.
  intros k v Hk Hz. destruct k; simpl; auto; destruct v; simpl in *; try discriminate;
    try (left; reflexivity).
  all: right; destruct (float_of_Z_exact z (Hz ltac:(auto) z eq_refl)) as (q & H1 & H2); eauto 10.
Qed.

Lemma C03_nan_replaces_masked_out_elements_proof :
  forall p ch key x m,
  p_mask p = barr m -> length m = alen x -> arr_ok x ->
  datakey p ch = Ok key -> dget key (p_data p) = Some x ->
  exists y, call p ch None (OStr (lit "nan")) = Ok y /\ alen y = alen x /\
  forall i, i < alen x ->
    (nth i m false = true ->
     (akind x = Ki \/ akind x = Ku ->
      forall z, nth i (aelems x) VNone = VInt z -> (- 2 ^ 53 <= z <= 2 ^ 53)%Z) ->
     same_value (nth i (aelems x) VNone) (nth i (aelems y) VNone)) /\
    (nth i m false = false ->
     match akind x with
     | Ki | Ku | Kf | Kc => is_nan_val (nth i (aelems y) VNone)
     | _ => nth i (aelems y) VNone = VNone
     end).
Proof.
  intros p ch key x m Hm Hl Hok Hd Hx.
  unfold call. rewrite Hd. cbn [bind]. unfold get_data. rewrite Hx. cbn [bind].
  change (is_str_lit (OStr (lit "nan")) (lit "nan")) with true. cbv iota.
  unfold masked. rewrite Hm.
  assert (Hel : forall i, i < alen x -> has_kind (akind x) (nth i (aelems x) VNone) = true).
  { intros i Hi. unfold arr_ok in Hok. rewrite Forall_forall in Hok. apply Hok. apply nth_In. exact Hi. }
  pose proof (fun i Hi => @same_value_cast_float (akind x) _ (Hel i Hi)) as S.
  destruct (akind x) eqn:Ek; rewrite np_where_fill_spec by auto; rewrite Ek;
  (eexists; split; [reflexivity|]; split; [unfold alen; simpl; rewrite map_length, seq_length; auto|]);
  intros i Hi; simpl aelems; rewrite nth_map_lt with (d' := 0) by (rewrite seq_length; auto);
  rewrite seq_nth by auto; simpl plus;
  (split; [intros -> Hz|intros ->]); simpl; auto;
  try (apply (S i Hi); auto); try (left; reflexivity).
Qed.

Lemma bget_is A (d : A) l i v : (if length l =? 1 then l = [v] else nth_error l i = Some v) -> bget d l i = v.
Proof.
  unfold bget. destruct (length l =? 1).
  - intros ->. reflexivity.
  - intros E. apply nth_error_nth. exact E.
Qed.
Lemma where_other m x fk fill :
  length m <> alen x ->
  (length m <> 1 -> alen x <> 1 -> np_where_fill (barr m) x fk fill = Err ValueError) /\
  forall n, (length m = 1 /\ n = alen x) \/ (alen x = 1 /\ n = length m) ->
  exists l, np_where_fill (barr m) x fk fill = Ok (mkarr (promote (akind x) fk) l) /\ length l = n /\
  forall i b v, i < n ->
     (if length m =? 1 then m = [b] else nth_error m i = Some b) ->
     (if alen x =? 1 then aelems x = [v] else nth_error (aelems x) i = Some v) ->
     nth i l VNone = cast (promote (akind x) fk) (if b then v else fill).
Proof.
  intros L. assert (Lm : alen (barr m) = length m) by (unfold alen, barr; cbn; apply map_length).
  unfold np_where_fill, bcast. rewrite Lm. destruct (Nat.eqb_spec (length m) (alen x)); [contradiction|]. split.
  - intros A B. destruct (Nat.eqb_spec (length m) 1); [contradiction|]. destruct (Nat.eqb_spec (alen x) 1); [contradiction | reflexivity].
  - intros k N.
    assert (E : (if length m =? 1 then Some (alen x) else if alen x =? 1 then Some (length m) else None) = Some k).
    { destruct N as [[N ->]|[N ->]]; destruct (Nat.eqb_spec (length m) 1); destruct (Nat.eqb_spec (alen x) 1);
        first [contradiction | congruence | reflexivity]. }
    rewrite E. eexists. split; [reflexivity|]. split; [rewrite map_length, seq_length; reflexivity|].
    intros i b v I B V. rewrite nth_map_lt with (d' := 0) by (rewrite seq_length; exact I). rewrite seq_nth by exact I. cbn [plus].
    rewrite (bget_is _ VNone (aelems x) i v V).
    rewrite (bget_is _ VNone (aelems (barr m)) i (VBool b)).
    + destruct b; reflexivity.
    + unfold barr. cbn [aelems]. rewrite map_length. destruct (length m =? 1); [rewrite B; reflexivity|].
      rewrite nth_error_map, B. reflexivity.
Qed.

Lemma C03_other_lengths_proof :
  forall p ch key x m n,
  p_mask p = barr m -> length m <> alen x -> arr_ok x ->
  datakey p ch = Ok key -> dget key (p_data p) = Some x ->
  (length m <> 1 -> alen x <> 1 -> call p ch None (OStr (lit "nan")) = Err ValueError) /\
  ((length m = 1 /\ n = alen x) \/ (alen x = 1 /\ n = length m) ->
   exists y, call p ch None (OStr (lit "nan")) = Ok y /\ alen y = n /\
   forall i b v, i < n ->
     (if length m =? 1 then m = [b] else nth_error m i = Some b) ->
     (if alen x =? 1 then aelems x = [v] else nth_error (aelems x) i = Some v) ->
     (b = true ->
      (akind x = Ki \/ akind x = Ku -> forall z, v = VInt z -> (- 2 ^ 53 <= z <= 2 ^ 53)%Z) ->
      same_value v (nth i (aelems y) VNone)) /\
     (b = false ->
      match akind x with
      | Ki | Ku | Kf | Kc => is_nan_val (nth i (aelems y) VNone)
      | _ => nth i (aelems y) VNone = VNone
      end)).
Proof.
  intros p ch key x m n Hm Hl Hok Hd Hx.
  unfold call. rewrite Hd. cbn [bind]. unfold get_data. rewrite Hx. cbn [bind].
  change (is_str_lit (OStr (lit "nan")) (lit "nan")) with true. cbv iota.
  unfold masked. rewrite Hm.
  assert (Hel : forall i v, (if alen x =? 1 then aelems x = [v] else nth_error (aelems x) i = Some v) -> has_kind (akind x) v = true).
  { intros i v V. unfold arr_ok in Hok. rewrite Forall_forall in Hok. apply Hok. destruct (alen x =? 1); [rewrite V; left; reflexivity|].
    eapply nth_error_In; exact V. }
  pose proof (fun i v V => @same_value_cast_float (akind x) v (Hel i v V)) as S.
  split.
  - intros A B. destruct (akind x); apply where_other; assumption.
  - intros N. destruct (akind x) eqn:Ek;
    (match goal with |- context [np_where_fill _ _ ?fk ?fill] =>
       destruct (where_other m x fk fill Hl) as [_ W]; destruct (W n N) as (l & E & Ln & H); rewrite E, Ek in *; clear W end);
    (eexists; split; [reflexivity|]; split; [exact Ln|]);
    intros i b v I B V; cbn [aelems]; rewrite (H i b v I B V);
    (split; [intros -> Hz | intros ->; simpl; auto; left; reflexivity]); cbn [promote];
    first [exact (S i v V Hz) | left; symmetry; exact (S i v V Hz)].
Qed.

Lemma C03_integers_beyond_2_53_refuted_proof :
  exists x p y f q,
    p = fst (set_mask (OArr (barr [true; false])) (new_pack [(0%Z, x)] [])) /\ arr_ok x /\
    nth 0 (aelems x) VNone = VInt (2 ^ 53 + 1) /\
    call p (ChInt 0) None (OStr (lit "nan")) = Ok y /\
    nth 0 (aelems y) VNone = VFloat f /\ float_Q f = Some q /\ (q == inject_Z (2 ^ 53))%Q.
Proof.
  exists (np_array [VInt (2 ^ 53 + 1); VInt 2]).
  do 4 eexists. split; [reflexivity|]. split; [repeat constructor|].
  split; [reflexivity|]. split; [vm_compute; reflexivity|]. split; [reflexivity|].
  split; [vm_compute; reflexivity|]. vm_compute. reflexivity.
Qed.

Lemma np_array_bools : forall l, aelems (np_array (map VBool l)) = map VBool l /\
  (l <> [] -> np_array (map VBool l) = barr l).
Proof.
  destruct l as [|b l]; [split; [reflexivity|congruence]|].
  assert (K : fold_left (fun k w => promote k (kind_of_val w)) (map VBool l) Kb = Kb).
  { induction l; simpl; auto. }
  assert (E : np_array (map VBool (b :: l)) = barr (b :: l)).
  { cbn [map]. unfold np_array. cbn [kind_of_val]. rewrite K. unfold barr. f_equal.
    cbn [cast]. apply map_id. }
  split; [rewrite E; reflexivity|auto].
Qed.
Lemma C04_startstop_last_trigger_bits :
forall p a b, exists r,
  startstop a b false p = (p, Ok r) /\
  alen r = Nat.min (length a) (length b) /\
  forall i, i < Nat.min (length a) (length b) ->
    (nth i (aelems r) VNone = VBool true \/ nth i (aelems r) VNone = VBool false) /\
    (nth i (aelems r) VNone = VBool true <->
     trigger_on (fun j => truthy (nth j a VNone)) (fun j => truthy (nth j b VNone)) i).
Proof.
  intros p a b. eexists. split; [reflexivity|].
  unfold alen. rewrite (proj1 (np_array_bools _)). rewrite map_length, startstop_bool_length.
  split; auto. intros i Hi. rewrite nth_map_lt with (d' := false) by (rewrite startstop_bool_length; auto).
  rewrite <- startstop_bool_nth by auto.
  destruct (nth i (startstop_bool a b) false); split; auto; split; congruence.
Qed.

Lemma C04_startstop_last_trigger_proof :
forall p a b, exists r,
  startstop a b false p = (p, Ok r) /\
  alen r = Nat.min (length a) (length b) /\
  forall i, i < Nat.min (length a) (length b) ->
    (nth i (aelems r) VNone = VBool true \/ nth i (aelems r) VNone = VBool false) /\
    (nth i (aelems r) VNone = VBool true <->
     trigger_on (fun j => counts (nth j a VNone)) (fun j => counts (nth j b VNone)) i).
Proof.
setoid_rewrite trigger_counts. exact C04_startstop_last_trigger_bits.
Qed.

Lemma ands_nth : forall m n i, nth i (ands m n) false = nth i m false && nth i n false.
Proof.
  induction m; destruct n, i; simpl; auto; try rewrite andb_false_r; auto. apply IHm.
Qed.
Lemma ands_length : forall m n, length (ands m n) = Nat.min (length m) (length n).
Proof. intros. unfold ands. rewrite map_length, combine_length. reflexivity. Qed.

Lemma np_iand_barr : forall m r, length m = length r ->
  np_iand (barr m) (barr r) = Ok (barr (ands m r)).
Proof.
  intros m r Hl. unfold np_iand. simpl akind.
  replace (alen (barr r)) with (length r) by (unfold alen, barr; simpl; rewrite map_length; auto).
  replace (alen (barr m)) with (length m) by (unfold alen, barr; simpl; rewrite map_length; auto).
  rewrite <- Hl, Nat.eqb_refl. simpl orb. cbv iota. f_equal. f_equal.
  apply (nth_ext_eq false).
  - rewrite map_length, seq_length, ands_length. lia.
  - intros i Hi. rewrite map_length, seq_length in Hi.
    rewrite nth_map_lt with (d' := 0) by (rewrite seq_length; auto). rewrite seq_nth by auto. simpl plus.
    rewrite ands_nth.
    rewrite (@bget_same _ VNone _ i (length m)); [|auto|unfold barr; simpl; rewrite map_length; auto].
    unfold barr. simpl aelems. rewrite !nth_map_lt with (d' := false) by lia. reflexivity.
Qed.

Lemma removes_runs_sub : forall bad m m' i, removes_runs bad m m' ->
  nth i m' false = true -> nth i m false = true.
Proof.
  intros bad m m' i [Hl H] Hi. destruct (Nat.lt_ge_cases i (length m)) as [L|L].
  - apply H in Hi; auto. tauto.
  - rewrite nth_overflow in Hi by lia. discriminate.
Qed.

(** Assigning a boolean mask, in one description. *)
Lemma set_mask_barr : forall m p, exists m',
  p_mask (set_mask_arr (barr m) p) = barr m' /\ length m' = length m /\
  match p_mindur p with
  | None => m' = m
  | Some k => removes_runs (fun n => (Z.of_nat n < k)%Z) m m'
  end /\
  p_cache (set_mask_arr (barr m) p) = slicelist (barr m').
Proof.
  intros m p. unfold set_mask_arr, apply_mindur. simpl p_mindur. destruct (p_mindur p) as [k|].
  - simpl. unfold duration_req. simpl. rewrite Z.mul_1_r.
    destruct (duration_loop_barr k true (slicelist (barr m)) m) as [m' Hm']. rewrite Hm'.
    exists m'. split; [reflexivity|].
    pose proof (@duration_removes k true (barr m) eq_refl) as R. rewrite Hm', !bits_barr in R.
    destruct R as [R1 R2]. repeat split; auto; apply R2; auto.
  - exists m. repeat split.
Qed.
Lemma C05_startstop_apply_bits :
forall p m a b r,
  p_mask p = barr m -> length a = length m -> length b = length m -> m <> [] ->
  startstop a b false p = (p, Ok r) ->
  exists p' m' l,
    startstop a b true p = (p', Ok r) /\
    p_mask p' = barr m' /\ length m' = length m /\
    match p_mindur p with
    | None => m' = ands m (map truthy (aelems r))
    | Some k => removes_runs (fun n => (Z.of_nat n < k)%Z) (ands m (map truthy (aelems r))) m'
    end /\
    (forall i, nth i m' false = true -> nth i m false = true) /\
    lists_runs m' l /\ p_cache p' = l /\ parts p' = seq 0 (length l) /\
    p_data p' = p_data p /\ p_names p' = p_names p /\ p_nof p' = p_nof p /\
    p_mindur p' = p_mindur p /\ p_prefix p' = p_prefix p /\ p_fn p' = p_fn p /\ p_files p' = p_files p.
Proof.
  intros p m a b r Hm Ha Hb Hne Hr. unfold startstop in *. injection Hr as Hr.
  assert (Hl : length (startstop_bool a b) = length m) by (rewrite startstop_bool_length; lia).
  assert (Hr' : r = barr (startstop_bool a b)).
  { rewrite <- Hr. apply np_array_bools. intro E. rewrite E in Hl. destruct m; auto. discriminate. }
  rewrite Hr, Hr', Hm, np_iand_barr by auto.
  destruct (set_mask_barr (ands m (startstop_bool a b)) p) as (m' & A1 & A2 & A3 & A4).
  pose proof (set_mask_arr_fields (barr (ands m (startstop_bool a b))) p) as (F1 & F2 & F3 & F4 & F5 & F6 & F7).
  assert (EB : map truthy (aelems (barr (startstop_bool a b))) = startstop_bool a b) by apply (bits_barr).
  rewrite EB.
  exists (set_mask_arr (barr (ands m (startstop_bool a b))) p), m', (slicelist (barr m')).
  split; [reflexivity|]. split; [exact A1|].
  split; [rewrite A2, ands_length; lia|]. split; [exact A3|]. split.
  { intros i Hi. assert (nth i (ands m (startstop_bool a b)) false = true).
    { destruct (p_mindur p); [eapply removes_runs_sub; eauto|congruence]. }
    rewrite ands_nth in H. apply andb_true_iff in H. tauto. }
  split. { pose proof (slicelist_lists_runs (barr m')) as L. rewrite bits_barr in L. exact L. }
  split; [exact A4|]. split; [unfold parts; rewrite A4; reflexivity|]. repeat split; auto.
Qed.

Lemma C05_startstop_apply_proof :
forall p m a b r,
  p_mask p = barr m -> length a = length m -> length b = length m -> m <> [] ->
  startstop a b false p = (p, Ok r) ->
  exists p' m' l,
    startstop a b true p = (p', Ok r) /\
    p_mask p' = barr m' /\ length m' = length m /\
    match p_mindur p with
    | None => m' = ands m (map counts (aelems r))
    | Some k => removes_runs (fun n => (Z.of_nat n < k)%Z) (ands m (map counts (aelems r))) m'
    end /\
    (forall i, nth i m' false = true -> nth i m false = true) /\
    lists_runs m' l /\ p_cache p' = l /\ parts p' = seq 0 (length l) /\
    p_data p' = p_data p /\ p_names p' = p_names p /\ p_nof p' = p_nof p /\
    p_mindur p' = p_mindur p /\ p_prefix p' = p_prefix p /\ p_fn p' = p_fn p /\ p_files p' = p_files p.
Proof.
intros p m a b r M A B N E. rewrite map_counts. exact (C05_startstop_apply_bits p m a b r M A B N E).
Qed.

Lemma C05_startstop_bad_length_proof :
  forall p m a b,
  p_mask p = barr m ->
  (Nat.min (length a) (length b) <> length m -> Nat.min (length a) (length b) <> 1 ->
   Nat.min (length a) (length b) <> 0 -> startstop a b true p = (p, Err ValueError)) /\
  (Nat.min (length a) (length b) = 0 -> startstop a b true p = (p, Err TypeError)).
Proof.
  intros p m a b Hm. rewrite <- startstop_bool_length. unfold startstop.
  generalize (startstop_bool a b). intros s. split.
  - intros H1 H2 H3. rewrite (proj2 (np_array_bools s)) by (intro E; subst; simpl in *; lia).
    rewrite Hm. unfold np_iand. simpl akind.
    replace (alen (barr s)) with (length s) by (unfold alen, barr; simpl; rewrite map_length; auto).
    replace (alen (barr m)) with (length m) by (unfold alen, barr; simpl; rewrite map_length; auto).
    destruct (Nat.eqb_spec (length s) (length m)); [congruence|].
    destruct (Nat.eqb_spec (length s) 1); [congruence|]. reflexivity.
  - intros H. destruct s; [|discriminate]. rewrite Hm. reflexivity.
Qed.

Lemma C05_one_element_result_is_broadcast_proof :
  forall p m a b, p_mask p = barr m -> p_mindur p = None ->
  Nat.min (length a) (length b) = 1 ->
  exists p' r, startstop a b true p = (p', Ok (barr [r])) /\
    p_mask p' = barr (if r then m else map (fun _ => false) m).
Proof.
  intros p m a b Hm Hd Hl. rewrite <- startstop_bool_length in Hl. unfold startstop.
  destruct (startstop_bool a b) as [|r [|? ?]]; try discriminate. clear Hl.
  rewrite (proj2 (np_array_bools [r])) by discriminate. rewrite Hm.
  unfold np_iand. simpl akind. replace (alen (barr [r])) with 1 by reflexivity.
  rewrite orb_true_r. eexists _, r. split; [reflexivity|].
  unfold set_mask_arr, apply_mindur. simpl. rewrite Hd. simpl. f_equal.
  unfold alen, barr. cbn [aelems]. rewrite map_length.
  apply (nth_ext_eq false).
  - rewrite map_length, seq_length. destruct r; rewrite ?map_length; auto.
  - intros i Hi. rewrite map_length, seq_length in Hi.
    rewrite nth_map_lt with (d' := 0) by (rewrite seq_length; auto). rewrite seq_nth by auto. simpl plus.
    rewrite nth_map_lt with (d' := false) by auto. unfold bget. simpl.
    destruct r; [rewrite andb_true_r; reflexivity|].
    rewrite nth_map_lt with (d' := false) by auto. rewrite andb_false_r. reflexivity.
Qed.

Lemma C06_duration_removes_exactly_the_bad_runs_req :
  forall d0 n0 ops p m d s (mi : bool) req l,
  p = run ops (new_pack d0 n0) -> p_mask p = barr m ->
  req_duration d s = Ok req -> lists_runs m l ->
  exists p' m',
    duration d s mi p = (p', Ok (barr m')) /\ p_mask p' = barr m' /\
    removes_runs (fun n => if mi then (Z.of_nat n < req)%Z else (req < Z.of_nat n)%Z) m m' /\
    lists_runs m' (filter (fun ab => if mi then (req <=? Z.of_nat (snd ab - fst ab))%Z
                                     else (Z.of_nat (snd ab - fst ab) <=? req)%Z) l) /\
    parts p' = seq 0 (length (filter (fun ab => if mi then (req <=? Z.of_nat (snd ab - fst ab))%Z
                                     else (Z.of_nat (snd ab - fst ab) <=? req)%Z) l)) /\
    p_data p' = p_data p /\ p_names p' = p_names p /\ p_nof p' = p_nof p /\
    p_mindur p' = p_mindur p /\ p_prefix p' = p_prefix p /\ p_fn p' = p_fn p /\ p_files p' = p_files p.
Proof.
  intros d0 n0 ops p m d s mi req l Hp Hm Hreq Hl.
  assert (Hc : coherent p) by (rewrite Hp; apply run_coherent, new_pack_coherent).
  unfold coherent in Hc. rewrite Hm in Hc.
  assert (El : l = slicelist (barr m)).
  { eapply lists_runs_unique; eauto. pose proof (slicelist_lists_runs (barr m)) as L.
    rewrite bits_barr in L. exact L. }
  unfold duration. rewrite Hreq. unfold duration_req. rewrite Hm, Hc.
  destruct (duration_loop_barr req mi (slicelist (barr m)) m) as [m' Hm'].
  assert (EF : filter (fun ab => if mi then (req <=? Z.of_nat (snd ab - fst ab))%Z
                                 else (Z.of_nat (snd ab - fst ab) <=? req)%Z) l
               = slicelist (barr m')).
  { rewrite <- Hm', duration_slicelist by reflexivity. rewrite El.
    apply filter_ext_in. intros [a b] Hin. apply slicelist_In in Hin. destruct Hin as [Hab _].
    apply eq_true_iff_eq. rewrite keeps_spec. unfold part_duration. simpl.
    destruct mi; rewrite Z.leb_le; lia. }
  rewrite EF, Hm'. eexists _, m'. split; [reflexivity|]. split; [reflexivity|].
  split. { pose proof (@duration_removes req mi (barr m) eq_refl) as R. rewrite Hm', !bits_barr in R. exact R. }
  split. { pose proof (slicelist_lists_runs (barr m')) as L. rewrite bits_barr in L. exact L. }
  split; [reflexivity|]. repeat split.
Qed.

Lemma C06_duration_removes_exactly_the_bad_runs_proof :
  forall d0 n0 ops p m d s (mi : bool) req l,
  p = run ops (new_pack d0 n0) -> p_mask p = barr m ->
  requires d s req -> lists_runs m l ->
  exists p' m',
    duration d s mi p = (p', Ok (barr m')) /\ p_mask p' = barr m' /\
    removes_runs (fun n => if mi then (Z.of_nat n < req)%Z else (req < Z.of_nat n)%Z) m m' /\
    lists_runs m' (filter (fun ab => if mi then (req <=? Z.of_nat (snd ab - fst ab))%Z
                                     else (Z.of_nat (snd ab - fst ab) <=? req)%Z) l) /\
    parts p' = seq 0 (length (filter (fun ab => if mi then (req <=? Z.of_nat (snd ab - fst ab))%Z
                                     else (Z.of_nat (snd ab - fst ab) <=? req)%Z) l)) /\
    p_data p' = p_data p /\ p_names p' = p_names p /\ p_nof p' = p_nof p /\
    p_mindur p' = p_mindur p /\ p_prefix p' = p_prefix p /\ p_fn p' = p_fn p /\ p_files p' = p_files p.
Proof.
  intros d0 n0 ops p m d s mi req l Hp Hm Hreq Hl. apply requires_iff in Hreq.
  exact (@C06_duration_removes_exactly_the_bad_runs_req d0 n0 ops p m d s mi req l Hp Hm Hreq Hl).
Qed.

Lemma C06_duration_error_changes_nothing_proof :
  forall p d s mi, (forall z, ~ requires d s z) ->
  exists e, duration d s mi p = (p, Err e) /\
    ((e = ValueError /\ product d s (PFloat S754_nan)) \/
     (e = OverflowError /\ ~ product d s (PFloat S754_nan))).
Proof.
  intros p d s mi N. unfold duration. destruct (req_duration d s) as [z|e] eqn:R.
  { exfalso. apply (N z). apply requires_iff. exact R. }
  exists e. split; [reflexivity|]. unfold req_duration in R. destruct (pymul d s) as [x|e'] eqn:M.
  - cbn [bind] in R. destruct x as [a|f]; [discriminate|].
    destruct f as [b|b| |b m' e'']; try discriminate R; cbn in R.
    + right. split; [congruence|]. intro P. apply product_iff in P. congruence.
    + left. split; [congruence|]. apply product_iff. exact M.
  - cbn [bind] in R. right. split.
    + destruct d as [a|f], s as [b|g]; cbn [pymul] in M; try discriminate M; cbn [pynum_float bind] in M.
      * destruct (float_of_Z a); cbn in M; congruence.
      * destruct (float_of_Z b); cbn in M; congruence.
    + intro P. apply product_iff in P. congruence.
Qed.

Lemma duration_req_unfold : forall req mi p, coherent p ->
  duration_req req mi p =
  with_cache (with_mask p (duration_loop req mi (slicelist (p_mask p)) (p_mask p)))
    (slicelist (duration_loop req mi (slicelist (p_mask p)) (p_mask p))).
Proof. intros req mi p H. unfold duration_req. rewrite H. reflexivity. Qed.

Lemma filter_idem : forall A (f : A -> bool) l, filter f (filter f l) = filter f l.
Proof.
  induction l as [|x l IH]; simpl; auto. destruct (f x) eqn:E; simpl; auto. rewrite E. congruence.
Qed.

Lemma filter_filter_and : forall A (f g h : A -> bool) l, (forall x, h x = f x && g x) ->
  filter g (filter f l) = filter h l.
Proof.
  intros A f g h l H. induction l as [|x l IH]; simpl; auto. rewrite H.
  destruct (f x); simpl; auto. destruct (g x); congruence.
Qed.

Lemma duration_loop_bits_only : forall m m', slicelist (barr m) = slicelist (barr m') ->
  length m = length m' -> m = m'.
Proof.
  intros m m' H Hl. rewrite <- (bits_barr m), <- (bits_barr m'). apply bits_eq_of_slicelist; auto.
  unfold alen, barr. simpl. rewrite !map_length. auto.
Qed.

Lemma loop_barr_len : forall req mi m m', duration_loop req mi (slicelist (barr m)) (barr m) = barr m' ->
  length m' = length m.
Proof.
  intros. pose proof (duration_loop_len req mi (slicelist (barr m)) (barr m)) as L.
  rewrite H in L. unfold alen, barr in L. simpl in L. rewrite !map_length in L. auto.
Qed.

Lemma C06_duration_idempotent_proof :
  forall d0 n0 ops p d s mi p' r,
  p = run ops (new_pack d0 n0) -> (exists m, p_mask p = barr m) ->
  duration d s mi p = (p', r) -> duration d s mi p' = (p', r).
Proof.
  intros d0 n0 ops p d s mi p' r Hp [m Hm] H.
  assert (Hc : coherent p) by (rewrite Hp; apply run_coherent, new_pack_coherent).
  unfold duration in *. destruct (req_duration d s) as [req|e]; [|congruence].
  injection H as <- <-. rewrite (@duration_req_unfold req mi p Hc). rewrite Hm.
  destruct (duration_loop_barr req mi (slicelist (barr m)) m) as [m' Hm'].
  rewrite !Hm'. unfold duration_req. simpl p_cache. simpl p_mask.
  destruct (duration_loop_barr req mi (slicelist (barr m')) m') as [m'' Hm''].
  rewrite Hm''. assert (E : m'' = m').
  { apply duration_loop_bits_only; [|eapply loop_barr_len; eauto].
    rewrite <- Hm'', duration_slicelist by reflexivity.
    rewrite <- Hm', duration_slicelist by reflexivity.
    apply filter_idem. }
  rewrite E, Hc, Hm, Hm'. reflexivity.
Qed.

Lemma C06_durations_compose_req :
  forall d0 n0 ops p d1 s1 d2 s2 d3 s3 mi a b c,
  p = run ops (new_pack d0 n0) -> (exists m, p_mask p = barr m) ->
  req_duration d1 s1 = Ok a -> req_duration d2 s2 = Ok b -> req_duration d3 s3 = Ok c ->
  c = (if (mi : bool) then Z.max a b else Z.min a b) ->
  fst (duration d2 s2 mi (fst (duration d1 s1 mi p))) = fst (duration d3 s3 mi p).
Proof.
  intros d0 n0 ops p d1 s1 d2 s2 d3 s3 mi a b c Hp [m Hm] H1 H2 H3 Hcc.
  assert (Hc : coherent p) by (rewrite Hp; apply run_coherent, new_pack_coherent).
  unfold duration. rewrite H1, H2, H3. cbn [fst].
  rewrite !(@duration_req_unfold _ _ p) by auto. rewrite Hm.
  destruct (duration_loop_barr a mi (slicelist (barr m)) m) as [m1 Hm1].
  destruct (duration_loop_barr c mi (slicelist (barr m)) m) as [m3 Hm3].
  rewrite !Hm1, !Hm3. unfold duration_req. simpl p_cache. simpl p_mask.
  destruct (duration_loop_barr b mi (slicelist (barr m1)) m1) as [m2 Hm2].
  rewrite Hm2. assert (E : m2 = m3); [|rewrite E; reflexivity].
  apply duration_loop_bits_only.
  - rewrite <- Hm2, duration_slicelist by reflexivity.
    rewrite <- Hm1, duration_slicelist by reflexivity.
    rewrite <- Hm3, duration_slicelist by reflexivity.
    apply filter_filter_and. intro x.
    apply eq_true_iff_eq. rewrite andb_true_iff, !keeps_spec. subst c. destruct mi; lia.
  - rewrite (loop_barr_len _ _ _ _ Hm2), (loop_barr_len _ _ _ _ Hm1), (loop_barr_len _ _ _ _ Hm3). reflexivity.
Qed.

Lemma C06_durations_compose_proof :
  forall d0 n0 ops p d1 s1 d2 s2 d3 s3 mi a b c,
  p = run ops (new_pack d0 n0) -> (exists m, p_mask p = barr m) ->
  requires d1 s1 a -> requires d2 s2 b -> requires d3 s3 c ->
  c = (if (mi : bool) then Z.max a b else Z.min a b) ->
  fst (duration d2 s2 mi (fst (duration d1 s1 mi p))) = fst (duration d3 s3 mi p).
Proof.
  intros d0 n0 ops p d1 s1 d2 s2 d3 s3 mi a b c Hp Hm H1 H2 H3 Hc.
  apply requires_iff in H1. apply requires_iff in H2. apply requires_iff in H3.
  exact (@C06_durations_compose_req d0 n0 ops p d1 s1 d2 s2 d3 s3 mi a b c Hp Hm H1 H2 H3 Hc).
Qed.

Lemma py_int_floor : forall x q, num_Q x = Some q -> (0 <= q)%Q ->
  exists z, py_int x = Ok z /\ (inject_Z z <= q)%Q /\ (q < inject_Z (z + 1))%Q.
Proof.
  intros [z|f] q Hq H0; simpl in *.
  - injection Hq as <-. exists z. split; auto. split; [apply Qle_refl|]. rewrite <- Zlt_Qlt. lia.
  - assert (exists z, int_of_float f = Ok z) as [z Hz].
    { destruct f; simpl in *; try discriminate; eauto. }
    destruct (@int_of_float_floor f q z Hq H0 Hz) as (A & B & _). eauto.
Qed.

Lemma floor_lt : forall z q n, (inject_Z z <= q)%Q -> (q < inject_Z (z + 1))%Q ->
  (q < inject_Z (n + 1) <-> (z <= n)%Z)%Q.
Proof.
  intros z q n H1 H2. split; intro H.
  - assert (inject_Z z < inject_Z (n + 1))%Q by (eapply Qle_lt_trans; eauto).
    rewrite <- Zlt_Qlt in H0. lia.
  - eapply Qlt_le_trans; [exact H2|]. rewrite <- Zle_Qle. lia.
Qed.

Lemma floor_le : forall z q n, (inject_Z z <= q)%Q -> (q < inject_Z (z + 1))%Q ->
  (inject_Z n <= q <-> (n <= z)%Z)%Q.
Proof.
  intros z q n H1 H2. split; intro H.
  - assert (inject_Z n < inject_Z (z + 1))%Q by (eapply Qle_lt_trans; eauto).
    rewrite <- Zlt_Qlt in H0. lia.
  - eapply Qle_trans; [|exact H1]. rewrite <- Zle_Qle. lia.
Qed.
Lemma C07_when_at_least_duration_is_honoured_req :
  forall d0 n0 ops p m d s (mi : bool) x q,
  p = run ops (new_pack d0 n0) -> p_mask p = barr m ->
  pymul d s = Ok x -> num_Q x = Some q -> (0 <= q)%Q ->
  exists p' m', duration d s mi p = (p', Ok (barr m')) /\ p_mask p' = barr m' /\
  forall a b, is_run m a b ->
    (is_run m' a b <->
     if mi then (q < inject_Z (Z.of_nat (b - a) + 1))%Q else (inject_Z (Z.of_nat (b - a)) <= q)%Q).
Proof.
  intros d0 n0 ops p m d s mi x q Hp Hm Hx Hq H0.
  destruct (py_int_floor x q Hq H0) as (z & Hz & Hz1 & Hz2).
  assert (Hreq : req_duration d s = Ok z) by (unfold req_duration; rewrite Hx; exact Hz).
  assert (L : lists_runs m (slicelist (barr m))).
  { pose proof (slicelist_lists_runs (barr m)) as L. rewrite bits_barr in L. exact L. }
  destruct (@C06_duration_removes_exactly_the_bad_runs_req d0 n0 ops p m d s mi z _ Hp Hm Hreq L)
    as (p' & m' & A1 & A2 & _ & A3 & _).
  exists p', m'. split; auto. split; auto. intros a b Hr.
  destruct A3 as [A3 _]. rewrite <- A3, filter_In. destruct L as [L _].
  rewrite L. simpl. destruct mi.
  - rewrite (@floor_lt z q), Z.leb_le by auto. tauto.
  - rewrite (@floor_le z q), Z.leb_le by auto. tauto.
Qed.

Lemma C07_when_at_least_duration_is_honoured_proof :
  forall d0 n0 ops p m d s (mi : bool) x q,
  p = run ops (new_pack d0 n0) -> p_mask p = barr m ->
  product d s x -> num_Q x = Some q -> (0 <= q)%Q ->
  exists p' m', duration d s mi p = (p', Ok (barr m')) /\ p_mask p' = barr m' /\
  forall a b, is_run m a b ->
    (is_run m' a b <->
     if mi then (q < inject_Z (Z.of_nat (b - a) + 1))%Q else (inject_Z (Z.of_nat (b - a)) <= q)%Q).
Proof.
  intros d0 n0 ops p m d s mi x q Hp Hm Hx Hq H0. apply product_iff in Hx.
  exact (@C07_when_at_least_duration_is_honoured_req d0 n0 ops p m d s mi x q Hp Hm Hx Hq H0).
Qed.

Lemma C07_integral_requirement_is_exact_proof :
  forall d0 n0 ops p m d s x q n,
  p = run ops (new_pack d0 n0) -> p_mask p = barr m ->
  product d s x -> num_Q x = Some q -> (q == inject_Z n)%Q -> (0 <= n)%Z ->
  exists p' m', duration d s true p = (p', Ok (barr m')) /\ p_mask p' = barr m' /\
  forall a b, is_run m a b -> (is_run m' a b <-> (n <= Z.of_nat (b - a))%Z).
Proof.
  intros d0 n0 ops p m d s x q n Hp Hm Hx Hq Hn H0.
  assert (H0' : (0 <= q)%Q) by (rewrite Hn; change 0%Q with (inject_Z 0); rewrite <- Zle_Qle; lia).
  destruct (@C07_when_at_least_duration_is_honoured_proof d0 n0 ops p m d s true x q Hp Hm Hx Hq H0')
    as (p' & m' & A1 & A2 & A3).
  exists p', m'. split; auto. split; auto. intros a b Hr. rewrite (A3 a b Hr), Hn, <- Zlt_Qlt. lia.
Qed.

Lemma C07_fractional_requirement_refuted_proof :
  let two_and_half := S754_finite false 5 (-1) in
  float_of_str (lit "0.29") = Ok (S754_finite false 5224175567749775 (-54)) /\
  (exists q, float_Q two_and_half = Some q /\ (inject_Z 2 < q)%Q) /\
  (let p := run [OpDuration (PFloat two_and_half) (PInt 1) true]
             (new_pack [(0%Z, np_array [VInt 1; VInt 2])] []) in
   parts p = [0] /\ p_mask p = barr [true; true]) /\
  (let p := run [OpDuration (PFloat (S754_finite false 5224175567749775 (-54))) (PInt 100) true]
             (new_pack [(0%Z, np_array (repeat (VInt 1) 28))] []) in
   parts p = [0]).
Proof.
  split; [vm_compute; reflexivity|]. split; [eexists; split; [reflexivity|vm_compute; reflexivity]|].
  split; vm_compute; auto.
Qed.

Lemma C08_mindur_is_persistent_bits :
forall d n ops p k,
  (forall a, In (OpMask (OArr a)) ops -> akind a <> KU /\ akind a <> KS) ->
  p = run ops (new_pack d n) -> p_mindur p = Some k ->
  forall a b, is_run (map truthy (aelems (p_mask p))) a b -> (k <= Z.of_nat (b - a))%Z.
Proof.
  intros d n ops p k Hops Hp Hk a b Hr.
  assert (F : Forall op_ok ops).
  { apply Forall_forall. intros o Ho. destruct o; simpl; auto. destruct v; simpl; auto. }
  pose proof (@run_inv ops (new_pack d n) F (new_pack_inv d n)) as (_ & _ & I).
  rewrite <- Hp in I. apply (I k Hk a b). exact Hr.
Qed.

Lemma C08_mindur_is_persistent_proof :
forall d n ops p k,
  (forall a, In (OpMask (OArr a)) ops -> akind a <> KU /\ akind a <> KS) ->
  p = run ops (new_pack d n) -> p_mindur p = Some k ->
  forall a b, is_run (map counts (aelems (p_mask p))) a b -> (k <= Z.of_nat (b - a))%Z.
Proof.
setoid_rewrite map_counts. exact C08_mindur_is_persistent_bits.
Qed.

Lemma C08_string_mask_refuted_bits :
exists d n ops p k,
  p = run ops (new_pack d n) /\ p_mindur p = Some k /\
  exists a b, is_run (map truthy (aelems (p_mask p))) a b /\ (Z.of_nat (b - a) < k)%Z.
Proof.
  exists [], [], [OpMindur (OInt 3); OpMask (OArr (np_array [VStr (lit "y"); VStr []]))].
  do 2 eexists. split; [reflexivity|]. split; [reflexivity|]. exists 0, 1. split; [|simpl; lia].
  unfold is_run. simpl. repeat split; auto with arith.
  intros i Hi. assert (i = 0) as -> by lia. reflexivity.

Qed.

Lemma C08_string_mask_refuted_proof :
exists d n ops p k,
  p = run ops (new_pack d n) /\ p_mindur p = Some k /\
  exists a b, is_run (map counts (aelems (p_mask p))) a b /\ (Z.of_nat (b - a) < k)%Z.
Proof.
setoid_rewrite map_counts. exact C08_string_mask_refuted_bits.
Qed.

Lemma C09_parts_reflect_the_current_mask_bits :
forall d n ops p, p = run ops (new_pack d n) ->
  exists l, lists_runs (map truthy (aelems (p_mask p))) l /\ parts p = seq 0 (length l) /\
  forall k s e, nth_error l k = Some (s, e) ->
  forall ch key x nof, datakey p ch = Ok key -> dget key (p_data p) = Some x ->
    call p ch (Some (Z.of_nat k)) nof = Ok (mkarr (akind x) (between s e (aelems x))).
Proof.
  intros d n ops p Hp.
  assert (Hc : coherent p) by (rewrite Hp; apply run_coherent, new_pack_coherent).
  exists (slicelist (p_mask p)). split; [apply slicelist_lists_runs|].
  split; [unfold parts; rewrite Hc; reflexivity|].
  intros k s e Hk ch key x nof Hd Hx.
  unfold call. rewrite Hd. simpl bind. unfold get_data. rewrite Hx. simpl bind.
  rewrite Hc, py_index_nonneg, Nat2Z.id, Hk by lia. reflexivity.
Qed.

Lemma C09_parts_reflect_the_current_mask_proof :
forall d n ops p, p = run ops (new_pack d n) ->
  exists l, lists_runs (map counts (aelems (p_mask p))) l /\ parts p = seq 0 (length l) /\
  forall k s e, nth_error l k = Some (s, e) ->
  forall ch key x nof, datakey p ch = Ok key -> dget key (p_data p) = Some x ->
    call p ch (Some (Z.of_nat k)) nof = Ok (mkarr (akind x) (between s e (aelems x))).
Proof.
setoid_rewrite map_counts. exact C09_parts_reflect_the_current_mask_bits.
Qed.

Lemma feqb_refl : forall f, feqb f f = true <-> f <> S754_nan.
Proof.
  intros f. unfold feqb, SFeqb. split.
  - intros H E. subst. discriminate.
  - intros H. destruct f as [s|s| |s m e]; try destruct s; simpl; try congruence; auto;
    rewrite Z.compare_refl, Pos.compare_cont_refl; reflexivity.
Qed.

Lemma self_eq_spec : forall v, self_eq v = true <-> ~ is_nan_val v.
Proof.
  intros v. destruct v; simpl; try tauto.
  - apply feqb_refl.
  - rewrite andb_true_iff, !feqb_refl. tauto.
Qed.

Lemma mask_reset_lowest : forall p k a,
  dget k (p_data p) = Some a -> (forall k', In k' (dkeys (p_data p)) -> (k <= k')%Z) ->
  mask_reset p = set_mask_arr (np_self_eq a) p.
Proof.
  intros p k a Ha Hmin. unfold mask_reset.
  destruct (zsort (dkeys (p_data p))) as [|k0 r] eqn:E.
  - assert (In k (zsort (dkeys (p_data p)))).
    { apply zsort_In. apply dget_Some_In. eauto. }
    rewrite E in H. destruct H.
  - assert (k0 = k).
    { assert (In k0 (dkeys (p_data p))) by (apply zsort_In; rewrite E; left; auto).
      assert (In k (k0 :: r)) by (rewrite <- E; apply zsort_In, dget_Some_In; eauto).
      pose proof (zsort_sorted (dkeys (p_data p))) as S. rewrite E in S.
      apply Sorted_StronglySorted in S; [|intros x y z; lia].
      inversion S; subst. rewrite Forall_forall in H4.
      destruct H0 as [->|H0]; auto. apply H4 in H0. apply Hmin in H. lia. }
    subst. rewrite Ha. reflexivity.
Qed.

Lemma C10_mask_reset_proof :
  forall p k a,
  dget k (p_data p) = Some a -> (forall k', In k' (dkeys (p_data p)) -> (k <= k')%Z) ->
  exists m m0,
    length m0 = alen a /\
    (forall i, i < alen a -> (nth i m0 false = true <-> ~ is_nan_val (nth i (aelems a) VNone))) /\
    p_mask (mask_reset p) = barr m /\
    match p_mindur p with
    | None => m = m0
    | Some n => removes_runs (fun len => (Z.of_nat len < n)%Z) m0 m
    end /\
    p_data (mask_reset p) = p_data p /\ p_names (mask_reset p) = p_names p /\
    p_mindur (mask_reset p) = p_mindur p /\ p_files (mask_reset p) = p_files p.
Proof.
  intros p k a Ha Hmin. rewrite (mask_reset_lowest p k a Ha Hmin). unfold np_self_eq.
  destruct (set_mask_barr (map self_eq (aelems a)) p) as (m & A1 & A2 & A3 & A4).
  exists m, (map self_eq (aelems a)). split; [rewrite map_length; reflexivity|].
  split. { intros i Hi. rewrite nth_map_lt with (d' := VNone) by exact Hi. apply self_eq_spec. }
  split; [exact A1|]. split; [exact A3|].
  pose proof (set_mask_arr_fields (barr (map self_eq (aelems a))) p) as (F1 & F2 & F3 & F4 & F5 & F6 & F7).
  auto.
Qed.

Lemma C10_all_true_without_nan_proof :
  forall p k a,
  dget k (p_data p) = Some a -> (forall k', In k' (dkeys (p_data p)) -> (k <= k')%Z) ->
  p_mindur p = None -> Forall (fun v => ~ is_nan_val v) (aelems a) ->
  p_mask (mask_reset p) = barr (repeat true (alen a)) /\
  (alen a <> 0 -> parts (mask_reset p) = [0]).
Proof.
  intros p k a Ha Hmin Hd Hn. rewrite (mask_reset_lowest p k a Ha Hmin). unfold np_self_eq.
  assert (E : map self_eq (aelems a) = repeat true (alen a)).
  { unfold alen. induction Hn; simpl; auto. rewrite (proj2 (self_eq_spec x) H), IHHn. reflexivity. }
  rewrite E. unfold set_mask_arr, apply_mindur. cbn [p_mindur with_cache with_mask]. rewrite Hd.
  split; [reflexivity|]. intros H0. unfold parts. cbn [p_cache with_cache with_mask].
  replace (slicelist (barr (repeat true (alen a)))) with [(0, alen a)]; [reflexivity|].
  apply (@lists_runs_unique (repeat true (alen a))).
  - split.
    + intros x y. unfold is_run. rewrite repeat_length. simpl. split.
      * intros [H|[]]. injection H as <- <-. repeat split; try lia; auto.
        intros i Hi. rewrite nth_indep with (d' := true) by (rewrite repeat_length; lia). apply nth_repeat.
      * intros (H1 & H2 & H3 & H4 & H5). left. f_equal.
        -- destruct H4 as [?|H4]; [auto|]. destruct x; auto.
           rewrite nth_indep with (d' := true) in H4 by (rewrite repeat_length; lia).
           rewrite nth_repeat in H4. discriminate.
        -- destruct H5 as [?|H5]; [auto|]. destruct (Nat.lt_ge_cases y (alen a)); [|lia].
           rewrite nth_indep with (d' := true) in H5 by (rewrite repeat_length; lia).
           rewrite nth_repeat in H5. discriminate.
    + intros i x y Hx Hy. destruct i; simpl in Hy; [discriminate|destruct i; discriminate].
  - pose proof (slicelist_lists_runs (barr (repeat true (alen a)))) as L. rewrite bits_barr in L. exact L.
Qed.

Lemma C10_all_true_refuted_with_nan_proof :
  exists d, p_mask (mask_reset (new_pack d [])) = barr [true; false].
Proof.
  exists [(0%Z, np_array [VFloat (float_of_Z 1); VFloat S754_nan])]. vm_compute. reflexivity.
Qed.

Lemma C10_empty_pack_proof :
  forall p, p_data p = [] -> alen (p_mask (mask_reset p)) = 0 /\ parts (mask_reset p) = [].
Proof.
  intros p H. unfold mask_reset. rewrite H. simpl. unfold set_mask_arr, apply_mindur. simpl.
  destruct (p_mindur p); simpl; auto.
Qed.

Lemma C11_part_selection_proof :
  forall p ch key x i nof,
  datakey p ch = Ok key -> dget key (p_data p) = Some x ->
  let n := Z.of_nat (length (parts p)) in
  ((0 <= i < n)%Z -> exists s e, nth_error (p_cache p) (Z.to_nat i) = Some (s, e) /\
     call p ch (Some i) nof = Ok (mkarr (akind x) (between s e (aelems x)))) /\
  ((- n <= i < 0)%Z -> call p ch (Some i) nof = call p ch (Some (n + i)%Z) ONone) /\
  ((n <= i \/ i < - n)%Z -> call p ch (Some i) nof = Err IndexError).
Proof.
  intros p ch key x i nof Hd Hx n.
  assert (N : n = Z.of_nat (length (p_cache p))) by (unfold n, parts; rewrite seq_length; auto).
  assert (C : forall j nof', call p ch (Some j) nof' =
     match py_index (p_cache p) j with Some sc => Ok (np_slice x sc) | None => Err IndexError end).
  { intros j nof'. unfold call. rewrite Hd. simpl. unfold get_data. rewrite Hx. reflexivity. }
  rewrite !C. split; [|split].
  - intros Hi. rewrite py_index_nonneg by lia.
    destruct (nth_error (p_cache p) (Z.to_nat i)) as [[s e]|] eqn:E.
    + exists s, e. split; reflexivity.
    + apply nth_error_None in E. lia.
  - intros Hi. rewrite (@py_index_nonneg _ (p_cache p) (n + i)%Z) by lia. rewrite (@py_index_neg _ (p_cache p) i) by lia.
    destruct (Z.leb_spec (- i) (Z.of_nat (length (p_cache p)))); [|lia].
    replace (length (p_cache p) - Z.to_nat (- i)) with (Z.to_nat (n + i)) by lia. reflexivity.
  - intros Hi. rewrite (proj2 (py_index_None _ _)); auto. lia.
Qed.

Lemma is_str_lit_spec : forall o s, is_str_lit o s = true <-> o = OStr s.
Proof.
  intros o s. destruct o; simpl; try (split; congruence).
  rewrite str_eqb_eq. split; congruence.
Qed.
Lemma is_str_lit_neq : forall o s, o <> OStr s -> is_str_lit o s = false.
Proof.
  intros o s H. destruct (is_str_lit o s) eqn:E; auto. apply is_str_lit_spec in E. congruence.
Qed.
Lemma nof_valid_spec : forall v, nof_valid v = true <->
  v = OStr (lit "nan") \/ v = OStr (lit "filter") \/ v = ONone.
Proof.
  intros v. unfold nof_valid. split.
  - destruct v; auto; rewrite orb_true_iff, !is_str_lit_spec; tauto.
  - intros [->|[->| ->]]; reflexivity.
Qed.

Lemma C12_nof_argument_overrides_attribute_proof :
  forall d n ops p ch key x,
  p = run ops (new_pack d n) ->
  datakey p ch = Ok key -> dget key (p_data p) = Some x ->
  (forall q arg, (arg = OStr (lit "nan") \/ arg = OStr (lit "filter") \/ arg = OStr (lit "ignore")) ->
     q = with_nof p (p_nof q) -> call q ch None arg = call p ch None arg) /\
  call p ch None (OStr (lit "ignore")) = Ok x /\
  (p_nof p = OStr (lit "nan") \/ p_nof p = OStr (lit "filter") \/ p_nof p = ONone) /\
  (forall arg, arg <> OStr (lit "nan") -> arg <> OStr (lit "filter") -> arg <> OStr (lit "ignore") ->
     (forall a, arg <> OArr a) -> (forall m, arg <> OArrN m) ->
     (p_nof p = ONone -> call p ch None arg = Ok x) /\
     (p_nof p <> ONone -> call p ch None arg = call p ch None (p_nof p))).
Proof.
  intros d n ops p ch key x Hp Hd Hx.
  assert (V : p_nof p = OStr (lit "nan") \/ p_nof p = OStr (lit "filter") \/ p_nof p = ONone).
  { apply nof_valid_spec. rewrite Hp.
    pose proof (run_files_inv ops _ (new_pack_files_inv d n)) as [H _]. exact H. }
  split; [|split; [|split; [exact V|]]].
  - intros q arg Harg Hq. rewrite Hq. generalize (p_nof q). intro v. clear Hq q.
    assert (Hd' : datakey (with_nof p v) ch = datakey p ch) by reflexivity.
    unfold call. rewrite Hd', Hd. simpl bind. unfold get_data. simpl p_data. simpl p_mask.
    rewrite Hx. destruct Harg as [->|[->| ->]]; reflexivity.
  - unfold call. rewrite Hd. simpl. unfold get_data. rewrite Hx. reflexivity.
  - intros arg H1 H2 H3 _ _. unfold call. rewrite Hd. cbn [bind]. unfold get_data. rewrite Hx. cbn [bind].
    rewrite (is_str_lit_neq _ _ H1), (is_str_lit_neq _ _ H2), (is_str_lit_neq _ _ H3). split.
    + intros ->. reflexivity.
    + intros Hn. destruct V as [V|[V|V]]; rewrite V; try reflexivity; congruence.
Qed.

Lemma C13_integer_lookup_proof :
  forall p k, (In k (dkeys (p_data p)) -> datakey p (ChInt k) = Ok k) /\
              (~ In k (dkeys (p_data p)) -> datakey p (ChInt k) = Err KeyError).
Proof.
  intros p k. simpl. rewrite <- dmem_In. destruct (dmem k (p_data p)); split; congruence.
Qed.

Lemma find_name_Some : forall s n k, find_name s n = Some k <->
  exists pre post, n = pre ++ (k, VStr s) :: post /\ forall k', ~ In (k', VStr s) pre.
Proof.
  intros s n k. split.
  - induction n as [|[k0 v] n IH]; simpl; [discriminate|]. intros H.
    assert (G : find_name s n = Some k -> v <> VStr s -> exists pre post,
      (k0, v) :: n = pre ++ (k, VStr s) :: post /\ (forall k', ~ In (k', VStr s) pre)).
    { intros Hf Hv. destruct (IH Hf) as (pre & post & -> & Hn). exists ((k0, v) :: pre), post.
      split; [reflexivity|]. intros k' [E|Hin]; [congruence|]. eapply Hn; eauto. }
    destruct v; try (apply G; [exact H|congruence]).
    destruct (str_eqb s s0) eqn:E.
    + apply str_eqb_eq in E. subst. injection H as ->. exists [], n. split; auto.
    + apply G; auto. apply str_eqb_neq in E. congruence.
  - intros (pre & post & -> & Hn). induction pre as [|[k0 v] pre IH]; simpl.
    + rewrite str_eqb_refl. reflexivity.
    + assert (IH' : find_name s (pre ++ (k, VStr s) :: post) = Some k).
      { apply IH. intros k' Hin. apply (Hn k'). right. auto. }
      destruct v; auto. destruct (str_eqb s s0) eqn:E; auto.
      apply str_eqb_eq in E. subst. exfalso. apply (Hn k0). left. reflexivity.
Qed.

Lemma find_name_None : forall s n, find_name s n = None <-> forall k, ~ In (k, VStr s) n.
Proof.
  intros s n. induction n as [|[k0 v] n IH]; simpl; [tauto|].
  assert (G : v <> VStr s -> (find_name s n = None <-> forall k, ~ ((k0, v) = (k, VStr s) \/ In (k, VStr s) n))).
  { intros Hv. rewrite IH. split; intros H k.
    - intros [E|E]; [congruence|]. eapply H; eauto.
    - intro E. apply (H k). auto. }
  destruct v; try (apply G; congruence).
  destruct (str_eqb s s0) eqn:E.
  - apply str_eqb_eq in E. subst. split; [discriminate|]. intros H. exfalso. apply (H k0). auto.
  - apply G. apply str_eqb_neq in E. congruence.
Qed.

Lemma digits_val_fold : forall s acc, digits_val acc s =
  fold_left (fun acc c => (acc * 10 + (Z.of_N c - 48))%Z) s acc.
Proof. induction s; simpl; auto. Qed.

Lemma is_digit_spec : forall c, is_digit c = true <-> (48 <= c <= 57)%N.
Proof. intros. unfold is_digit. rewrite andb_true_iff, !N.leb_le. tauto. Qed.

Lemma match_fallback_Some : forall prefix s k, match_fallback prefix s = Some k <->
  exists ds rest, s = prefix ++ ds ++ rest /\ decimal_text ds k /\
    (forall c r, rest = c :: r -> forall d, ~ digit_of c d).
Proof.
  intros prefix s k. unfold match_fallback. split.
  - destruct (strip_prefix prefix s) as [r|] eqn:E; [|discriminate].
    apply strip_prefix_Some in E. subst s.
    destruct (span is_decimal r) as [ds rest] eqn:Es. apply span_spec in Es.
    destruct Es as (-> & Hd & Hr). cbn [fst]. destruct ds as [|d ds]; [discriminate|]. intro H.
    exists (d :: ds), rest. split; [reflexivity|]. split.
    { apply decimal_text_iff. split; [discriminate|]. split; [exact Hd|]. congruence. }
    intros c r -> d' Hc. assert (is_decimal c = true) by (apply is_decimal_iff; exists d'; exact Hc). congruence.
  - intros (ds & rest & -> & Hd & Hr). apply decimal_text_iff in Hd. destruct Hd as (Hne & Hd & <-). rewrite strip_prefix_app.
    rewrite span_app.
    + cbn [fst]. destruct ds; [congruence|]. reflexivity.
    + exact Hd.
    + destruct rest; auto. destruct (is_decimal n) eqn:E; auto. apply is_decimal_iff in E. destruct E as (d' & E).
      exfalso. eapply Hr; eauto.
Qed.

Lemma C13_string_lookup_proof :
  forall p s k,
  (datakey p (ChStr s) = Ok k <-> resolves (dkeys (p_data p)) (p_names p) (p_prefix p) s k) /\
  (forall e, datakey p (ChStr s) = Err e -> e = KeyError) /\
  (forall k', datakey p (ChStr s) = Ok k' -> In k' (dkeys (p_data p))).
Proof.
  intros p s k. simpl. destruct (find_name s (p_names p)) as [k0|] eqn:E.
  - assert (R : resolves (dkeys (p_data p)) (p_names p) (p_prefix p) s k <->
                (k = k0 /\ In k (dkeys (p_data p)))).
    { split.
      - intros R. destruct R as [s k pre post H1 H2 H3|s k ds rest H1 H2 H3 H4 H5].
        + assert (find_name s (p_names p) = Some k) by (apply find_name_Some; eauto).
          split; congruence.
        + assert (find_name s (p_names p) = None) by (apply find_name_None; auto). congruence.
      - intros [-> Hin]. apply find_name_Some in E. destruct E as (pre & post & E1 & E2).
        eapply resolves_name; eauto. }
    rewrite R, <- dmem_In. destruct (dmem k0 (p_data p)) eqn:Em.
    + apply dmem_In in Em as Hin. split; [|split; [congruence|intros k' H; injection H as <-; auto]].
      split; [intro H; injection H as <-; auto|intros [-> _]; auto].
    + split; [|split; congruence]. split; [congruence|]. intros [-> H]. congruence.
  - pose proof (proj1 (find_name_None _ _) E) as E0. clear E. rename E0 into E.
    assert (R : resolves (dkeys (p_data p)) (p_names p) (p_prefix p) s k <->
                (match_fallback (p_prefix p) s = Some k /\ In k (dkeys (p_data p)))).
    { rewrite match_fallback_Some. split.
      - intros R. destruct R as [s k pre post H1 H2 H3|s k ds rest H1 H2 H3 H4 H5].
        + exfalso. apply (E k). rewrite H1. apply in_or_app. right. left. reflexivity.
        + split; auto. exists ds, rest. auto.
      - intros [(ds & rest & H1 & H2 & H3) Hin]. eapply resolves_fallback; eauto. }
    rewrite R. destruct (match_fallback (p_prefix p) s) as [k0|].
    + rewrite <- dmem_In. destruct (dmem k0 (p_data p)) eqn:Em.
      * split; [|split; [congruence|intros k' H; injection H as <-; apply dmem_In; auto]].
        split; [intro H; injection H as <-; auto|intros [H _]; congruence].
      * split; [|split; congruence]. split; [congruence|]. intros [H1 H2]. congruence.
    + split; [|split; congruence]. split; [congruence|]. intros [H _]. congruence.
Qed.

Lemma C13_duplicate_name_without_data_proof :
  exists p s, datakey p (ChStr s) = Err KeyError /\
    exists k, In (k, VStr s) (p_names p) /\ In k (dkeys (p_data p)).
Proof.
  exists (new_pack [(1%Z, np_array [VInt 1])] [(0%Z, VStr (lit "a")); (1%Z, VStr (lit "a"))]), (lit "a").
  split; [reflexivity|]. exists 1%Z. simpl. auto.
Qed.

Lemma C14_fallback_round_trip_proof :
  forall p k, In k (dkeys (p_data p)) -> (0 <= k)%Z ->
  exists s, (forall fw, name p (ChInt k) fw FbTrue = Ok (VStr (p_prefix p ++ s))) /\
    all_digits s /\ s <> [] /\ dec_value s = k /\
    ((forall k', ~ In (k', VStr (p_prefix p ++ s)) (p_names p)) ->
     datakey p (ChStr (p_prefix p ++ s)) = Ok k /\
     forall part nof, call p (ChStr (p_prefix p ++ s)) part nof = call p (ChInt k) part nof).
Proof.
  intros p k Hk H0. exists (str_of_Z k). destruct (str_of_Z_nonneg H0) as (A1 & A2 & A3).
  assert (D : datakey p (ChInt k) = Ok k) by (apply C13_integer_lookup_proof; auto).
  assert (AD : all_digits (str_of_Z k)).
  { eapply Forall_impl; [|exact A2]. intro c. apply is_digit_spec. }
  assert (DV : dec_value (str_of_Z k) = k) by (unfold dec_value; rewrite <- digits_val_fold; auto).
  split; [|split; [auto|split; [auto|split; [auto|]]]].
  - intros fw. unfold name. rewrite D. reflexivity.
  - intros Hn.
    assert (D' : datakey p (ChStr (p_prefix p ++ str_of_Z k)) = Ok k).
    { apply C13_string_lookup_proof. apply resolves_fallback with (ds := str_of_Z k) (rest := []); auto.
      - rewrite app_nil_r. reflexivity.
      - rewrite <- A1 at 2. apply ascii_digits_text; assumption.
      - discriminate. }
    split; auto. intros part nof. unfold call. rewrite D, D'. reflexivity.
Qed.

Lemma C14_trailing_junk_and_negative_keys_refuted_proof :
  (exists p, call p (ChStr (lit "ch1x")) None ONone = call p (ChInt 1) None ONone /\
             is_ok (call p (ChInt 1) None ONone) = true) /\
  (exists p s, name p (ChInt (-1)) FwFalse FbTrue = Ok (VStr s) /\ datakey p (ChStr s) = Err KeyError).
Proof.
  split.
  - exists (new_pack [(1%Z, np_array [VInt 1])] []). vm_compute. auto.
  - exists (new_pack [((-1)%Z, np_array [VInt 1])] []), (lit "ch-1"). vm_compute. auto.
Qed.

Lemma append_loop_spec : forall o d,
  NoDup (dkeys o) -> (forall k, In k (dkeys o) -> In k (dkeys d)) ->
  dkeys (append_loop o d) = dkeys d /\
  forall k a, dget k d = Some a ->
    dget k (append_loop o d) = Some (match dget k o with Some b => np_append a b | None => a end).
Proof.
  induction o as [|[k0 b] o IH]; intros d ND Hin; [split; auto|].
  inversion ND as [|? ? Hnin ND']; subst.
  assert (exists a0, dget k0 d = Some a0) as [a0 Ha0].
  { apply dget_Some_In. apply Hin. left. reflexivity. }
  cbn [append_loop]. rewrite Ha0.
  assert (K : dkeys (dset k0 (np_append a0 b) d) = dkeys d).
  { apply dkeys_dset_in. apply dget_Some_In. eauto. }
  destruct (IH (dset k0 (np_append a0 b) d) ND') as [I1 I2].
  { intros k Hk. rewrite K. apply Hin. right. exact Hk. }
  split; [congruence|]. intros k a Ha. cbn [dget].
  destruct (Z.eqb_spec k k0) as [->|Hne].
  - rewrite (I2 k0 (np_append a0 b)).
    + assert (dget k0 o = None) as ->.
      { destruct (dget k0 o) eqn:E; auto. exfalso. apply Hnin. apply dget_Some_In. eauto. }
      congruence.
    + rewrite dget_dset, Z.eqb_refl. reflexivity.
  - apply I2. rewrite dget_dset. destruct (Z.eqb_spec k k0); congruence.
Qed.

Lemma same_keys_spec : forall V W (a : dict V) (b : dict W), same_keys a b = true <->
  forall k, In k (dkeys a) <-> In k (dkeys b).
Proof.
  intros. unfold same_keys. rewrite andb_true_iff, !forallb_forall. split.
  - intros [H1 H2] k. split; intro H; apply dmem_In; auto.
  - intros H. split; intros k Hk; apply dmem_In; apply H; auto.
Qed.

Lemma promote_same : forall k, promote k k = k.
Proof. destruct k; reflexivity. Qed.

Lemma cast_same : forall k v, has_kind k v = true -> cast k v = v.
Proof. destruct k, v; simpl; intros H; try discriminate; try reflexivity; f_equal; apply str_eqb_eq; exact H. Qed.

Lemma map_cast_same : forall a, arr_ok a -> map (cast (akind a)) (aelems a) = aelems a.
Proof.
  intros a H. unfold arr_ok in H. induction H; simpl; auto. rewrite cast_same by auto. congruence.
Qed.

Lemma mask_reset_idem : forall p, p_mask (mask_reset (mask_reset p)) = p_mask (mask_reset p) /\
  parts (mask_reset (mask_reset p)) = parts (mask_reset p).
Proof.
  intros p. assert (F : forall p q, p_data p = p_data q -> p_mindur p = p_mindur q ->
    p_mask (mask_reset p) = p_mask (mask_reset q) /\ p_cache (mask_reset p) = p_cache (mask_reset q)).
  { intros a b H1 H2. unfold mask_reset. rewrite H1.
    assert (G : forall m, p_mask (set_mask_arr m a) = p_mask (set_mask_arr m b) /\
      p_cache (set_mask_arr m a) = p_cache (set_mask_arr m b)).
    { intros m. unfold set_mask_arr, apply_mindur. simpl. rewrite H2. destruct (p_mindur b); auto. }
    destruct (zsort (dkeys (p_data b))) eqn:E; auto.
    apply zsort_head_in in E. destruct E as [v ->]. auto. }
  pose proof (mask_reset_fields p) as (F1 & _ & _ & F4 & _).
  destruct (F (mask_reset p) p F1 F4) as [E1 E2]. unfold parts. rewrite E1, E2. auto.
Qed.

Lemma C15_append_concatenates_channels_proof :
  forall p o,
  dict_ok (p_data p) -> dict_ok (p_data o) -> p_data p <> [] -> p_data o <> [] ->
  (forall k, In k (dkeys (p_data p)) <-> In k (dkeys (p_data o))) ->
  (p_names p = [] \/ p_names o = [] \/
   forall k, In k (dkeys (p_names p)) <-> In k (dkeys (p_names o))) ->
  exists p', append_pack o p = (p', Ok tt) /\
    dkeys (p_data p') = dkeys (p_data p) /\
    (forall k a b, dget k (p_data p) = Some a -> dget k (p_data o) = Some b ->
       exists x, dget k (p_data p') = Some x /\ common (akind a) (akind b) (akind x) /\
         alen x = alen a + alen b /\
         (akind a = akind b -> arr_ok a -> arr_ok b -> akind x = akind a /\ aelems x = aelems a ++ aelems b) /\
         (forall i, i < alen a -> arr_ok a -> stored (akind x) (nth i (aelems a) VNone) (nth i (aelems x) VNone)) /\
         (forall i, i < alen b -> arr_ok b -> stored (akind x) (nth i (aelems b) VNone) (nth (alen a + i) (aelems x) VNone))) /\
    p_names p' = (match p_names p with [] => p_names o | _ => p_names p end) /\
    p_files p' = p_files p ++ p_files o /\ p_fn p' = p_fn p /\ p_nof p' = p_nof p /\
    p_mindur p' = p_mindur p /\ p_prefix p' = p_prefix p /\
    (p_mask p' = p_mask (mask_reset p') /\ parts p' = parts (mask_reset p')).
Proof.
  intros p o Dp Do Np No Hk Hn.
  assert (SK : same_keys (p_data p) (p_data o) = true) by (apply same_keys_spec; auto).
  set (p1 := with_data p (append_loop (p_data o) (p_data p))).
  set (p2 := with_files (match p_names p with [] => with_names p1 (p_names o) | _ => p1 end) (p_files p ++ p_files o)).
  assert (E : append_pack o p = (mask_reset p2, Ok tt)).
  { unfold append_pack. destruct (p_data p) as [|x d] eqn:Ed; [congruence|].
    destruct (p_data o) as [|y d'] eqn:Ed'; [congruence|]. rewrite SK.
    unfold p2, p1. cbn [p_names with_data].
    destruct (p_names p) as [|z n] eqn:En; [reflexivity|].
    destruct (p_names o) as [|z' n'] eqn:En'; [reflexivity|].
    assert (same_keys (z :: n) (z' :: n') = true) as ->; [|reflexivity].
    apply same_keys_spec. destruct Hn as [Hn|[Hn|Hn]]; try discriminate. exact Hn. }
  assert (D2 : p_data p2 = append_loop (p_data o) (p_data p)).
  { unfold p2, p1. destruct (p_names p); reflexivity. }
  destruct (append_loop_spec (p_data o) (p_data p) Do) as [A1 A2]; [intros; apply Hk; auto|].
  pose proof (mask_reset_fields p2) as (F1 & F2 & F3 & F4 & F5 & F6 & F7).
  exists (mask_reset p2). split; [exact E|]. rewrite F1, D2. split; [exact A1|]. split.
  - intros k a b Ha Hb. rewrite (A2 k a Ha), Hb. eexists. split; [reflexivity|].
    unfold np_append. cbn [akind aelems]. split; [apply common_promote|].
    unfold alen. cbn [aelems]. rewrite map_length, app_length.
    split; [reflexivity|]. split; [|split].
    + intros Ek Oa Ob. rewrite <- Ek, promote_same. split; auto.
      rewrite map_app, map_cast_same by auto. rewrite Ek, map_cast_same by auto. reflexivity.
    + intros i Hi Oa. rewrite nth_map_lt with (d' := VNone) by (rewrite app_length; lia).
      rewrite app_nth1 by auto. apply stored_promote. left.
      unfold arr_ok in Oa. rewrite Forall_forall in Oa. apply Oa, nth_In, Hi.
    + intros i Hi Ob. rewrite nth_map_lt with (d' := VNone) by (rewrite app_length; lia).
      rewrite app_nth2_plus. apply stored_promote. right.
      unfold arr_ok in Ob. rewrite Forall_forall in Ob. apply Ob, nth_In, Hi.
  - rewrite F2, F3, F4, F5, F6, F7. destruct (mask_reset_idem p2) as [M1 M2].
    unfold p2, p1 in *. destruct (p_names p) eqn:En; cbn; rewrite ?En; repeat split; auto.
Qed.

Lemma C16_append_data_keys_differ_proof :
  forall p o, p_data p <> [] -> p_data o <> [] ->
  ~ (forall k, In k (dkeys (p_data p)) <-> In k (dkeys (p_data o))) ->
  append_pack o p = (p, Err ValueError).
Proof.
  intros p o Np No Hk. unfold append_pack.
  destruct (p_data p) as [|x d] eqn:Ed; [congruence|].
  destruct (p_data o) as [|y d'] eqn:Ed'; [congruence|].
  destruct (same_keys (x :: d) (y :: d')) eqn:E; [|reflexivity].
  exfalso. apply Hk. apply same_keys_spec. exact E.
Qed.

Lemma C16_append_names_keys_differ_is_not_atomic_proof :
  forall p o,
  dict_ok (p_data o) -> p_data p <> [] -> p_data o <> [] ->
  (forall k, In k (dkeys (p_data p)) <-> In k (dkeys (p_data o))) ->
  p_names p <> [] -> p_names o <> [] ->
  ~ (forall k, In k (dkeys (p_names p)) <-> In k (dkeys (p_names o))) ->
  exists p', append_pack o p = (p', Err ValueError) /\
    p' = with_data p (p_data p') /\ dkeys (p_data p') = dkeys (p_data p) /\
    forall k a b, dget k (p_data p) = Some a -> dget k (p_data o) = Some b ->
      exists x, dget k (p_data p') = Some x /\ alen x = alen a + alen b.
Proof.
  intros p o Do Np No Hk Nn Nn' Hn. unfold append_pack.
  destruct (p_data p) as [|x d] eqn:Ed; [congruence|].
  destruct (p_data o) as [|y d'] eqn:Ed'; [congruence|].
  assert (same_keys (x :: d) (y :: d') = true) as -> by (apply same_keys_spec; auto).
  cbn [p_names with_data].
  destruct (p_names p) as [|z n] eqn:En; [congruence|].
  destruct (p_names o) as [|z' n'] eqn:En'; [congruence|].
  destruct (same_keys (z :: n) (z' :: n')) eqn:E.
  { exfalso. apply Hn. apply same_keys_spec. exact E. }
  eexists. split; [reflexivity|]. split; [reflexivity|].
  destruct (append_loop_spec (y :: d') (x :: d)) as [A1 A2]; [exact Do|intros; apply Hk; auto|].
  cbn [p_data with_data]. split; [exact A1|].
  intros k a b Ha Hb. rewrite (A2 k a Ha), Hb. eexists. split; [reflexivity|].
  unfold np_append, alen. cbn [aelems]. rewrite map_length, app_length. reflexivity.
Qed.

Lemma append_names_step : forall p o p1, p_names p1 = [] \/ p_names o = [] ->
  exists p', match p_names p1, p_names o with
      | [], _ => (mask_reset (with_files (set_names (p_names o) p1)
                                (p_files p1 ++ p_files o)), Ok tt)
      | _ :: _, [] => (mask_reset (with_files p1 (p_files p1 ++ p_files o)), Ok tt)
      | _ :: _, _ :: _ =>
          if same_keys (p_names p1) (p_names o)
          then (mask_reset (with_files p1 (p_files p1 ++ p_files o)), Ok tt)
          else (p, Err ValueError)
      end = (p', Ok tt) /\ p_data p' = p_data p1.
Proof.
  intros p o p1 H. destruct (p_names p1) eqn:E1.
  - eexists. split; [reflexivity|]. apply (mask_reset_fields (with_files (set_names (p_names o) p1) _)).
  - destruct (p_names o) eqn:E2; [|destruct H; discriminate].
    eexists. split; [reflexivity|]. apply (mask_reset_fields (with_files p1 _)).
Qed.

Lemma C16_append_with_an_empty_side_proof :
  forall p o, (p_names p = [] \/ p_names o = []) ->
  (p_data p = [] -> exists p', append_pack o p = (p', Ok tt) /\ p_data p' = p_data o) /\
  (p_data o = [] -> exists p', append_pack o p = (p', Ok tt) /\ p_data p' = p_data p).
Proof.
  intros p o Hn. unfold append_pack. split; intro H; rewrite H.
  - apply (append_names_step (set_data_npdict (p_data o) p) o (set_data_npdict (p_data o) p)). exact Hn.
  - destruct (p_data p) eqn:E.
    + destruct (append_names_step (set_data_npdict [] p) o (set_data_npdict [] p) Hn) as (p' & A & B).
      exists p'. split; auto.
    + destruct (append_names_step p o p Hn) as (p' & A & B). exists p'. split; auto. congruence.
Qed.

Lemma C18_fn_and_filenames_proof :
  forall d n ops p, p = run ops (new_pack d n) -> exists r, p_files p = p_fn p :: r.
Proof.
  intros d n ops p ->. pose proof (run_files_inv ops _ (new_pack_files_inv d n)) as [_ H]. exact H.
Qed.

Lemma C18_fn_assignment_and_append_proof :
  forall d n ops p s, p = run ops (new_pack d n) ->
  (exists r p', p_files p = p_fn p :: r /\ set_fn (OStr s) p = (p', Ok tt) /\
     p_fn p' = s /\ p_files p' = s :: r /\ p_data p' = p_data p /\ p_names p' = p_names p /\
     p_mask p' = p_mask p /\ p_cache p' = p_cache p /\ p_nof p' = p_nof p /\
     p_mindur p' = p_mindur p /\ p_prefix p' = p_prefix p) /\
  (forall o, p_fn (fst (append_pack o p)) = p_fn p /\
     (snd (append_pack o p) = Ok tt /\ p_files (fst (append_pack o p)) = p_files p ++ p_files o \/
      snd (append_pack o p) = Err ValueError /\ p_files (fst (append_pack o p)) = p_files p)).
Proof.
  intros d n ops p s Hp. split.
  - destruct (C18_fn_and_filenames_proof d n ops p Hp) as [r Hr].
    exists r. eexists. split; [exact Hr|]. split; [reflexivity|]. cbn. rewrite Hr. repeat split.
  - intros o.
    destruct (append_pack_cases o p) as (p1 & A1 & A2 & A3 & A4 & A5 & A6 & [(-> & B & ->)|(-> & B & ->)]).
    + split; auto.
    + pose proof (mask_reset_fields p1) as (_ & _ & _ & _ & _ & F6 & F7). rewrite F6, F7. split; auto.
Qed.

Lemma C23_attribute_type_protection_proof :
  forall p v,
  ((v <> OStr (lit "nan") /\ v <> OStr (lit "filter") /\ v <> ONone) /\
   (forall a, v <> OArr a) /\ (forall n, v <> OArrN n) <-> set_nof v p = (p, Err ValueError)) /\
  ((forall s, v <> OStr s) <-> set_prefix v p = (p, Err TypeError)) /\
  ((forall s, v <> OStr s) <-> set_fn v p = (p, Err TypeError)) /\
  ((forall a, v <> OArr a) /\ (forall n, v <> OArrN n) <-> set_mask v p = (p, Err TypeError)) /\
  ((v <> ONone /\ (forall z, v <> OInt z) /\ (forall b, v <> OBool b)) <-> set_mindur v p = (p, Err TypeError)) /\
  (forall nm, delattr nm = Err AttributeError <->
     In nm (map lit ["FALLBACK_PREFIX"; "data"; "fn"; "filenames"; "names"; "nof"; "mindur"]%string)) /\
  delattr (lit "mask") = Ok tt.
Proof.
  intros p v. repeat split.
  - intros ((H1 & H2 & H3) & A & B). unfold set_nof. destruct (is_array v) eqn:Y.
    { destruct v; try discriminate; exfalso; [eapply A|eapply B]; reflexivity. }
    destruct (nof_valid v) eqn:E; auto.
    apply nof_valid_spec in E. intuition congruence.
  - intros ->. vm_compute in H. discriminate.
  - intros ->. vm_compute in H. discriminate.
  - intros ->. vm_compute in H. discriminate.
  - intros a ->. cbn in H. discriminate.
  - intros m ->. cbn in H. discriminate.
  - intros H. destruct v; simpl; auto. exfalso. eapply H. reflexivity.
  - intros H s ->. discriminate.
  - intros H. destruct v; simpl; auto. exfalso. eapply H. reflexivity.
  - intros H s ->. discriminate.
  - intros [H H']. destruct v; simpl; auto; exfalso; [eapply H|eapply H']; reflexivity.
  - intros a ->. discriminate.
  - intros n ->. discriminate.
  - intros (H1 & H2 & H3). destruct v; simpl; auto; exfalso; [apply H1|eapply H3|eapply H2]; reflexivity.
  - intros ->. discriminate.
  - intros z ->. discriminate.
  - intros b ->. discriminate.
  - unfold delattr. destruct (existsb _ _) eqn:E; [|discriminate]. intros _.
    apply existsb_exists in E. destruct E as (x & Hx & E). apply str_eqb_eq in E. subst. exact Hx.
  - intros H. unfold delattr. destruct (existsb _ _) eqn:E; auto.
    assert (X : existsb (str_eqb nm) (map lit ["FALLBACK_PREFIX"; "data"; "fn"; "filenames"; "names"; "nof"; "mindur"]%string) = true).
    { apply existsb_exists. exists nm. split; auto. apply str_eqb_refl. }
    unfold map in X. congruence.
Qed.

Lemma C23_accepted_values_are_stored_proof :
  forall p,
  (forall v, v = OStr (lit "nan") \/ v = OStr (lit "filter") \/ v = ONone ->
     set_nof v p = (with_nof p v, Ok tt)) /\
  (forall s, set_prefix (OStr s) p = (with_prefix p s, Ok tt)) /\
  (forall z, snd (set_mindur (OInt z) p) = Ok tt /\ p_mindur (fst (set_mindur (OInt z) p)) = Some z) /\
  (set_mindur ONone p = (with_mindur p None, Ok tt)).
Proof.
  intros p. repeat split.
  intros v [->|[->| ->]]; reflexivity.
Qed.

Lemma C24_assigning_a_plain_dict_resets_the_mask_proof :
  forall d n ops p d' k a,
  p = run ops (new_pack d n) -> dget k d' = Some a ->
  (forall k', In k' (dkeys d') -> (k <= k')%Z) ->
  p_data (set_data_plain d' p) = d' /\
  alen (p_mask (set_data_plain d' p)) = alen a /\
  (p_mindur p = None -> Forall (fun v => ~ is_nan_val v) (aelems a) ->
   p_mask (set_data_plain d' p) = barr (repeat true (alen a))).
Proof.
  intros d n ops p d' k a Hp Ha Hmin. unfold set_data_plain.
  destruct (C10_mask_reset_proof (with_data p d') k a Ha Hmin)
    as (m & m0 & A1 & A2 & A3 & A4 & A5 & _).
  split; [exact A5|]. split.
  - rewrite A3. unfold alen at 1, barr. simpl. rewrite map_length. cbn [p_mindur with_data] in A4.
    destruct (p_mindur p); [destruct A4; congruence|congruence].
  - intros Hd Hf. apply (C10_all_true_without_nan_proof (with_data p d') k a); auto.
Qed.

Lemma C24_npdict_keeps_the_old_mask_proof :
  (forall p d, p_mask (set_data_npdict d p) = p_mask p /\ parts (set_data_npdict d p) = parts p) /\
  (exists p d a, p = new_pack [(0%Z, np_array [VInt 1])] [] /\ dget 0 d = Some a /\
     alen (p_mask (set_data_npdict d p)) <> alen a).
Proof.
  split; [intros; split; reflexivity|].
  exists (new_pack [(0%Z, np_array [VInt 1])] []), [(0%Z, np_array [VInt 1; VInt 2])], (np_array [VInt 1; VInt 2]).
  repeat split. vm_compute. discriminate.
Qed.

Lemma begins_letter c : begins_field c = true <-> letter c.
Proof. unfold begins_field, is_alpha, is_upper, is_lower, letter. lia. Qed.
Lemma digit_range c : is_digit c = true <-> (48 <= c <= 57)%N.
Proof. unfold is_digit. lia. Qed.
Lemma goes_inner c : goes_on c = true <-> inner c.
Proof. unfold goes_on, inner. rewrite !orb_true_iff, begins_letter, digit_range, !N.eqb_eq. tauto. Qed.
Lemma foreign_known c : foreign c = false <-> known c.
Proof. unfold foreign, known. lia. Qed.
Lemma inner_known c : inner c -> known c.
Proof. unfold inner, letter, known. lia. Qed.
Lemma keyword_in s : existsb (str_eqb s) keywords = true <-> In s reserved.
Proof.
  assert (K : forall w, In w keywords <-> In w reserved).
  { intro w. unfold keywords, reserved. cbn [map In]. tauto. }
  rewrite <- K, existsb_exists. split.
  - intros (w & I & E). apply str_eqb_eq in E. subst w. exact I.
  - intro I. exists s. split; [exact I|apply str_eqb_refl].
Qed.
Lemma refused_spec s : refused_field s = true <-> bad_name s.
Proof.
  unfold refused_field, bad_name. rewrite orb_true_iff, keyword_in.
  assert (B : forall c, negb (foreign c || begins_field c) = true <-> known c /\ ~ letter c).
  { intro c. rewrite negb_true_iff, orb_false_iff, foreign_known, <- not_true_iff_false, begins_letter. tauto. }
  assert (G : forall c, negb (foreign c || goes_on c) = true <-> known c /\ ~ inner c).
  { intro c. rewrite negb_true_iff, orb_false_iff, foreign_known, <- not_true_iff_false, goes_inner. tauto. }
  destruct s as [|c r].
  - split; [left; reflexivity|left; reflexivity].
  - rewrite orb_true_iff, B, existsb_exists. split.
    + intros [[H|(d & I & D)]|H].
      * right. right. left. exists c, r. auto.
      * right. right. right. exists d. apply G in D. split; [right; exact I|exact D].
      * right. left. exact H.
    + intros [H|[H|[(c' & r' & E & H)|(d & I & D)]]]; [discriminate|auto| |].
      * injection E as -> ->. auto.
      * destruct I as [->|I].
        -- left. left. destruct D as [K N]. split; [exact K|]. intro L. apply N. left. exact L.
        -- left. right. exists d. split; [exact I|apply G, D].
Qed.
Lemma valid_fields l : Forall field_name l -> existsb refused_field l = false /\ existsb (existsb foreign) l = false.
Proof.
  intro F. rewrite Forall_forall in F. split; apply not_true_iff_false; intro H; apply existsb_exists in H; destruct H as (s & I & H);
    destruct (F s I) as [(c & r & -> & L & R) K].
  - apply refused_spec in H. destruct H as [H|[H|[(c' & r' & E & _ & H)|(d & I' & _ & H)]]]; [discriminate|auto| |].
    + injection E as -> ->. auto.
    + destruct I' as [->|I']; [apply H; left; exact L|]. rewrite Forall_forall in R. apply H, R, I'.
  - apply existsb_exists in H. destruct H as (d & I' & D). assert (K' : known d).
    { apply inner_known. destruct I' as [->|I']; [left; exact L|]. rewrite Forall_forall in R. apply R, I'. }
    apply foreign_known in K'. congruence.
Qed.

Lemma distinct_NoDup : forall l, NoDup l -> distinct l = true.
Proof.
  induction 1; simpl; auto. rewrite IHNoDup, andb_true_r, negb_true_iff.
  destruct (existsb (str_eqb x) l) eqn:E; auto. apply existsb_exists in E.
  destruct E as (y & Hy & Hxy). apply str_eqb_eq in Hxy. subst. contradiction.
Qed.

Lemma NoDup_distinct : forall l, distinct l = true -> NoDup l.
Proof.
  induction l; simpl; intro H; constructor; apply andb_true_iff in H; destruct H as [H1 H2]; auto.
  intro Hin. apply negb_true_iff in H1.
  assert (existsb (str_eqb a) l = true) by (apply existsb_exists; exists a; split; auto; apply str_eqb_refl).
  congruence.
Qed.

Lemma all_some_map : forall A B (f : A -> option B) (g : A -> B) l,
  (forall x, In x l -> f x = Some (g x)) -> all_some (map f l) = Some (map g l).
Proof.
  induction l; simpl; intros H; auto. rewrite (H a) by auto. rewrite IHl by auto. reflexivity.
Qed.

Lemma mapM_ext_in : forall A B C (f : A -> res C) (g : B -> res C) (h : B -> A) l,
  (forall x, In x l -> f (h x) = g x) -> mapM f (map h l) = mapM g l.
Proof.
  induction l; simpl; intros H; auto. rewrite (H a) by auto. rewrite IHl by auto. reflexivity.
Qed.

Lemma zipn_rows : forall (cols : list arr) rows,
  cols <> [] -> rows = zipn (map aelems cols) ->
  (forall i, i < length rows <-> forall c, In c cols -> i < alen c) /\
  (forall i row, nth_error rows i = Some row -> row = map (fun c => nth i (aelems c) VNone) cols).
Proof.
  intros cols rows Hne ->. split.
  - intros i. rewrite zipn_length. split.
    + intros Hi c Hc. assert (minlen (map aelems cols) <= alen c); [|lia].
      apply minlen_le. apply in_map. exact Hc.
    + intros H. assert (S i <= minlen (map aelems cols)); [|lia]. apply minlen_glb.
      * destruct cols; [congruence|discriminate].
      * intros l Hl. apply in_map_iff in Hl. destruct Hl as (c & <- & Hc). apply H in Hc. exact Hc.
  - intros i row Hr. destruct (zipn_nth _ _ Hr) as [H1 H2].
    rewrite map_length in H1, H2.
    apply (nth_ext_eq VNone).
    + rewrite map_length. auto.
    + intros j Hj. rewrite H1 in Hj. destruct (H2 j Hj) as (x & X1 & X2).
      rewrite nth_error_nth_default, X1.
      rewrite nth_map_lt with (d' := mkarr Kb []) by auto.
      rewrite nth_map_lt with (d' := mkarr Kb []) in X2 by auto.
      rewrite nth_error_nth_default, X2. reflexivity.
Qed.

(** Looking a name up gives the key it belongs to, when the names are distinct. *)
Lemma datakey_by_name : forall p k s,
  dict_ok (p_names p) -> In (k, VStr s) (p_names p) ->
  (forall k', In (k', VStr s) (p_names p) -> k' = k) ->
  datakey p (ChStr s) = datakey p (ChInt k).
Proof.
  intros p k s Hd Hin Hu. simpl.
  destruct (find_name s (p_names p)) as [k0|] eqn:E.
  - apply find_name_Some in E. destruct E as (pre & post & E & _).
    assert (k0 = k) as ->; auto. apply Hu. rewrite E. apply in_or_app. right. left. auto.
  - exfalso. eapply (proj1 (find_name_None s (p_names p)) E). eauto.
Qed.

Lemma C25_records_by_name_proof :
  forall p part nof nms cols,
  dict_ok (p_names p) -> p_names p <> [] ->
  (forall k v, In (k, v) (p_names p) -> exists s, v = VStr s) ->
  nms = map (fun k => match dget k (p_names p) with Some (VStr s) => s | _ => [] end) (zsort (dkeys (p_names p))) ->
  Forall field_name nms -> NoDup nms ->
  mapM (fun k => call p (ChInt k) part nof) (zsort (dkeys (p_names p))) = Ok cols ->
  exists rows, records p part nof false = Ok (nms, rows) /\
    (forall i, i < length rows <-> forall c, In c cols -> i < alen c) /\
    (forall i row, nth_error rows i = Some row ->
       row = map (fun c => nth i (aelems c) VNone) cols).
Proof.
  intros p part nof nms cols Hd Hne Hs Hnms Hv Hnd Hcols. apply valid_fields in Hv. destruct Hv as [Hv Hf].
  set (keys := zsort (dkeys (p_names p))) in *.
  assert (Hkey : forall k, In k keys -> exists s, dget k (p_names p) = Some (VStr s) /\ In (k, VStr s) (p_names p)).
  { intros k Hk. apply (proj1 (zsort_In _ _)) in Hk. apply dget_Some_In in Hk. destruct Hk as [v Hv'].
    apply dget_In in Hv' as Hin. destruct (Hs _ _ Hin) as [s ->]. eauto. }
  set (nm := fun k => match dget k (p_names p) with Some (VStr s) => s | _ => [] end) in *.
  assert (R : record_names p false = Some nms).
  { unfold record_names. rewrite Hnms. apply all_some_map. intros k Hk.
    destruct (Hkey k Hk) as (s & Es & _). unfold nm. rewrite Es. reflexivity. }
  assert (M : mapM (fun s => call p (ChStr s) part nof) nms = Ok cols).
  { rewrite <- Hcols, Hnms. apply mapM_ext_in. intros k Hk.
    destruct (Hkey k Hk) as (s & Es & Hin). unfold nm. rewrite Es.
    unfold call. rewrite (datakey_by_name p k s Hd Hin); [reflexivity|].
    intros k' Hin'.
    (* two keys with the same name would give a duplicate in nms *)
    assert (Hk' : In k' keys).
    { apply zsort_In. apply in_map_iff. exists (k', VStr s). auto. }
    assert (E' : nm k' = s).
    { unfold nm. apply (dget_In_NoDup) in Hin'; auto. rewrite Hin'. reflexivity. }
    assert (E : nm k = s) by (unfold nm; rewrite Es; reflexivity).
    rewrite Hnms in Hnd. assert (EE : nm k = nm k') by congruence. clear -Hnd Hk Hk' EE.
    induction keys as [|x l IH]; [destruct Hk|]. simpl in Hnd. inversion Hnd as [|? ? N1 N2]; subst.
    destruct Hk as [->|Hk], Hk' as [->|Hk']; auto.
    - exfalso. apply N1. rewrite EE. apply in_map. exact Hk'.
    - exfalso. apply N1. rewrite <- EE. apply in_map. exact Hk. }
  exists (zipn (map aelems cols)). split.
  - unfold records. rewrite R, Hv, (distinct_NoDup _ Hnd), Hf, M. reflexivity.
  - apply zipn_rows; auto. intro E. subst cols.
    assert (keys = []) by (apply mapM_ok_length in Hcols; destruct keys; [auto|discriminate]).
    unfold keys in H. assert (length (zsort (dkeys (p_names p))) = 0) by (rewrite H; auto).
    rewrite zsort_length in H0. unfold dkeys in H0. rewrite map_length in H0.
    destruct (p_names p); [congruence|discriminate].
Qed.

Lemma C25_records_by_fallback_proof :
  forall p part nof nms cols,
  dict_ok (p_data p) -> p_data p <> [] -> (forall k, In k (dkeys (p_data p)) -> (0 <= k)%Z) ->
  nms = map (fun k => p_prefix p ++ str_of_Z k) (zsort (dkeys (p_data p))) ->
  (forall s k, In s nms -> ~ In (k, VStr s) (p_names p)) ->
  Forall field_name nms ->
  mapM (fun k => call p (ChInt k) part nof) (zsort (dkeys (p_data p))) = Ok cols ->
  exists rows, records p part nof true = Ok (nms, rows) /\
    (forall i, i < length rows <-> forall c, In c cols -> i < alen c) /\
    (forall i row, nth_error rows i = Some row ->
       row = map (fun c => nth i (aelems c) VNone) cols).
Proof.
  intros p part nof nms cols Hd Hne H0 Hnms Hn Hv Hcols. apply valid_fields in Hv. destruct Hv as [Hv Hf].
  assert (Hnd : NoDup nms).
  { rewrite Hnms. apply FinFun.Injective_map_NoDup.
    - intros x y E. apply app_inv_head in E. apply str_of_Z_inj in E. exact E.
    - apply zsort_NoDup. exact Hd. }
  assert (M : mapM (fun s => call p (ChStr s) part nof) nms = Ok cols).
  { rewrite <- Hcols, Hnms. apply mapM_ext_in. intros k Hk.
    pose proof (proj1 (zsort_In _ _) Hk) as Hk'. unfold call.
    assert (datakey p (ChStr (p_prefix p ++ str_of_Z k)) = datakey p (ChInt k)) as ->; [|reflexivity].
    rewrite (proj1 (C13_integer_lookup_proof p k) Hk').
    apply C13_string_lookup_proof. destruct (str_of_Z_nonneg (H0 k Hk')) as (A1 & A2 & A3).
    apply resolves_fallback with (ds := str_of_Z k) (rest := []); auto.
    - intros k'. apply Hn. rewrite Hnms. apply in_map_iff. eauto.
    - rewrite app_nil_r. reflexivity.
    - rewrite <- A1 at 2. apply ascii_digits_text; [assumption|]. eapply Forall_impl; [|exact A2]. intro c. apply is_digit_spec.
    - discriminate. }
  exists (zipn (map aelems cols)). split.
  - unfold records, record_names. rewrite <- Hnms, Hv, (distinct_NoDup _ Hnd), Hf, M. reflexivity.
  - apply zipn_rows; auto. intro E. subst cols.
    apply mapM_ok_length in Hcols. simpl in Hcols. rewrite zsort_length in Hcols.
    unfold dkeys in Hcols. rewrite map_length in Hcols.
    destruct (p_data p); [congruence|discriminate].
Qed.

Lemma C25_fallback_mislabels_refuted_proof :
  exists p, records p None ONone true = Ok ([lit "ch0"; lit "ch1"], [[VInt 11; VInt 11]]) /\
    call p (ChInt 0) None ONone = Ok (np_array [VInt 10]).
Proof.
  exists (new_pack [(0%Z, np_array [VInt 10]); (1%Z, np_array [VInt 11])] [(1%Z, VStr (lit "ch0"))]).
  vm_compute. auto.
Qed.

Lemma all_some_In : forall A (l : list (option A)) r x, all_some l = Some r -> In (Some x) l -> In x r.
Proof.
  induction l as [|[y|] l IH]; simpl; intros r x H Hin; try discriminate; [destruct Hin|].
  destruct (all_some l) eqn:E; [|discriminate]. injection H as <-.
  destruct Hin as [Hin|Hin]; [left; congruence|right; eauto].
Qed.

Lemma all_some_spec : forall A (l : list (option A)) r, all_some l = Some r -> l = map Some r.
Proof.
  induction l as [|[y|] l IH]; simpl; intros r H; try discriminate; [injection H as <-; reflexivity|].
  destruct (all_some l) eqn:E; [|discriminate]. injection H as <-. simpl. f_equal. auto.
Qed.

Lemma C25_records_errors_proof :
  (forall p part nof k s, dict_ok (p_names p) -> In (k, VStr s) (p_names p) ->
     (bad_name s \/ exists k', k' <> k /\ In (k', VStr s) (p_names p)) ->
     records p part nof false = Err ValueError) /\
  (forall p part nof, p_names p = [] -> records p part nof false = Ok ([], [])).
Proof.
  split.
  - intros p part nof k s Hd Hin Hbad. unfold records.
    destruct (record_names p false) as [nms|] eqn:R; auto.
    unfold record_names in R.
    set (f := fun k => match dget k (p_names p) with Some (VStr s) => Some s | _ => None end) in *.
    assert (G : forall k, In (k, VStr s) (p_names p) -> f k = Some s /\
      In k (zsort (dkeys (p_names p)))).
    { intros k' H'. split.
      - unfold f. apply (dget_In_NoDup) in H'; auto. rewrite H'. reflexivity.
      - apply zsort_In. apply in_map_iff. exists (k', VStr s). auto. }
    destruct (G k Hin) as [G1 G2].
    destruct (existsb refused_field nms || negb (distinct nms)) eqn:V; auto. exfalso.
    apply orb_false_iff in V. destruct V as [V1 V2]. apply negb_false_iff in V2.
    destruct Hbad as [Hbad|(k' & Hne & Hin')].
    + apply refused_spec in Hbad. rewrite <- not_true_iff_false in V1. apply V1. apply existsb_exists. exists s. split; [|exact Hbad].
      eapply all_some_In; eauto. apply in_map_iff. exists k. auto.
    + destruct (G k' Hin') as [G1' G2']. apply NoDup_distinct in V2.
      apply all_some_spec in R.
      assert (ND : NoDup (map f (zsort (dkeys (p_names p))))).
      { rewrite R. apply FinFun.Injective_map_NoDup; auto. intros x y E. congruence. }
      assert (EE : f k = f k') by congruence.
      revert EE G2 G2' Hne ND. clear.
      generalize f. generalize (zsort (dkeys (p_names p))). clear. intros l f. intros.
      induction l as [|x l IH]; [destruct G2|]. simpl in ND. inversion ND as [|? ? N1 N2]; subst.
      destruct G2 as [->|G2], G2' as [->|G2']; try congruence; auto.
      * apply N1. rewrite EE. apply in_map. exact G2'.
      * apply N1. rewrite <- EE. apply in_map. exact G2.
  - intros p part nof H. unfold records, record_names. rewrite H. reflexivity.
Qed.

Lemma words_skip : forall ws pre s, Forall (fun c => ws c = true) pre -> words_aux ws [] (pre ++ s) = words_aux ws [] s.
Proof. induction 1; simpl; auto. rewrite H. auto. Qed.

Lemma words_take : forall ws w cur post, Forall (fun c => ws c = false) w -> rev cur ++ w <> [] ->
  (forall c r, post = c :: r -> ws c = true) ->
  exists l, words_aux ws cur (w ++ post) = (rev cur ++ w) :: l.
Proof.
  induction w as [|c w IH]; simpl; intros cur post Hw Hne Hp.
  - rewrite app_nil_r in *. assert (cur <> []) by (intro E; subst; simpl in Hne; congruence).
    destruct post as [|d r]; simpl.
    + destruct cur; [congruence|]. eauto.
    + rewrite (Hp d r eq_refl). destruct cur; [congruence|]. eauto.
  - inversion Hw; subst. rewrite H1. destruct (IH (c :: cur) post H2) as [l Hl]; auto.
    + simpl. rewrite <- app_assoc. simpl. exact Hne.
    + exists l. rewrite Hl. simpl. rewrite <- app_assoc. reflexivity.
Qed.

Lemma C26_name_proof :
  forall p ch k s, datakey p ch = Ok k -> dget k (p_names p) = Some (VStr s) ->
  name p ch FwFalse FbFalse = Ok (VStr s) /\
  (forall fw, name p ch fw FbTrue = Ok (VStr (p_prefix p ++ str_of_Z k))) /\
  (forall pre w post, s = pre ++ w ++ post -> Forall text_space pre ->
     w <> [] -> Forall (fun c => ~ text_space c) w ->
     (forall c r, post = c :: r -> text_space c) ->
     name p ch FwTrue FbFalse = Ok (VStr w)) /\
  (Forall text_space s -> name p ch FwTrue FbFalse = Err IndexError) /\
  (forall fa, name p ch (FwRegex fa) FbFalse =
     match fa s with w :: _ => Ok (VStr w) | [] => Err ValueError end).
Proof.
  intros p ch k s Hk Hs. unfold name. rewrite Hk. cbn [bind]. rewrite Hs. cbn [bind].
  split; [reflexivity|]. split; [reflexivity|]. split; [|split].
  - intros pre w post -> Hpre Hne Hw Hpost. unfold words.
    assert (Hpre' : Forall (fun c => ws_text c = true) pre) by (eapply Forall_impl; [|exact Hpre]; intro c; apply ws_text_iff).
    assert (Hw' : Forall (fun c => ws_text c = false) w).
    { eapply Forall_impl; [|exact Hw]. intros c N. destruct (ws_text c) eqn:W; [|reflexivity]. apply ws_text_iff in W. destruct (N W). }
    assert (Hpost' : forall c r, post = c :: r -> ws_text c = true) by (intros c r E; apply ws_text_iff; exact (Hpost c r E)).
    rewrite words_skip by auto.
    destruct (words_take ws_text w [] post Hw') as [l Hl]; auto. rewrite Hl. reflexivity.
  - intros Hws. assert (Hws' : Forall (fun c => ws_text c = true) s) by (eapply Forall_impl; [|exact Hws]; intro c; apply ws_text_iff).
    unfold words. rewrite <- (app_nil_r s), words_skip by auto. reflexivity.
  - reflexivity.
Qed.

Lemma C26_name_errors_proof :
  forall p ch,
  (forall e fw fb, datakey p ch = Err e -> name p ch fw fb = Err KeyError) /\
  (forall k, datakey p ch = Ok k -> dget k (p_names p) = None ->
     name p ch FwFalse FbFalse = Err KeyError /\ name p ch FwTrue FbFalse = Err KeyError /\
     (forall fa, name p ch (FwRegex fa) FbFalse = Err KeyError)) /\
  (forall k fw, datakey p ch = Ok k -> name p ch fw FbOther = Err TypeError).
Proof.
  intros p ch. repeat split.
  - intros e fw fb H. assert (e = KeyError) as ->.
    { destruct ch as [z|s].
      - simpl in H. destruct (dmem z (p_data p)); congruence.
      - eapply (proj1 (proj2 (C13_string_lookup_proof p s 0%Z))). exact H. }
    unfold name. rewrite H. reflexivity.
  - unfold name. rewrite H. cbn [bind]. rewrite H0. reflexivity.
  - unfold name. rewrite H. cbn [bind]. rewrite H0. reflexivity.
  - intros fa. unfold name. rewrite H. cbn [bind]. rewrite H0. reflexivity.
  - intros k fw H. unfold name. rewrite H. reflexivity.
Qed.

