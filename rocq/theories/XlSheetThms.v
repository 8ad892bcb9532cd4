(** * Sheets built cell by cell: proofs of the property theorems *)

From Coq Require Import ZifyBool ZifyNat ZifyN QArith.
From Verif Require Import PyBase PyBaseFacts PyFloat PyText NumPy SpecArray ArrayFacts SpecPack Pack XlDate ReadXl SpecXl XlProofs ReadXlThms XlSheet SpecXlSheet XlSheetProofs.
Open Scope nat_scope.
From Coq Require Import Permutation.
Open Scope Z_scope.

Lemma shape_rows A (G : list (list A)) n m : shape G = repeat n m ->
  length G = m /\ Forall (fun row => length row = n) G.
Proof.
  intro E. split; [rewrite <- (shape_length _ G), E; apply repeat_length|].
  apply Forall_forall. intros row I.
  assert (J : In (length row) (shape G)) by (apply in_map; exact I). rewrite E in J. apply repeat_spec in J. exact J.
Qed.
Lemma rectangular_of su g : 0 <= g_nrows g -> 0 <= g_ncols g ->
  shaped su (repeat (Z.to_nat (g_ncols g)) (Z.to_nat (g_nrows g))) g -> rectangular (sheet_of g).
Proof.
  intros R C [ST SV _]. apply shape_rows in ST, SV. destruct ST as [T1 T2], SV as [V1 V2].
  unfold rectangular, sheet_of; cbn [sh_nrows sh_ncols sh_values sh_types].
  split; [lia|]. split; [lia|].
  split; eapply Forall_impl; try eassumption; cbn beta; intros; lia.
Qed.
Lemma cells_shown su l g : shaped su (repeat (Z.to_nat (g_ncols g)) (Z.to_nat (g_nrows g))) g -> shows su l g ->
  forall r c, 0 <= r < g_nrows g -> 0 <= c < g_ncols g ->
      (exists v, grid_at (g_values g) r c = Ok v /\ shows_value l r c v) /\
      (exists t, grid_at (g_types g) r c = Ok t /\ shows_type su l r c t) /\
      (su_fmt su = true -> exists x, grid_at (g_xfs g) r c = Ok x /\ shows_xf l r c x).
Proof.
  intros [ST SV SX] [WT WV WX] r c R C.
  assert (IS : in_shape (repeat (Z.to_nat (g_ncols g)) (Z.to_nat (g_nrows g))) (Z.to_nat r) (Z.to_nat c) = true).
  { rewrite in_repeat_shape. lia. }
  specialize (WT (Z.to_nat r) (Z.to_nat c)). specialize (WV (Z.to_nat r) (Z.to_nat c)).
  rewrite !Z2Nat.id in WT, WV by lia.
  split; [|split].
  - eexists. split; [apply (grid_at_ref _ empty_value); [lia|lia|rewrite SV; exact IS]|exact WV].
  - eexists. split; [apply (grid_at_ref _ XL_CELL_EMPTY); [lia|lia|rewrite ST; exact IS]|exact WT].
  - intro F. specialize (WX F (Z.to_nat r) (Z.to_nat c)). rewrite !Z2Nat.id in WX by lia.
    eexists. split; [apply (grid_at_ref _ (-1)); [lia|lia|rewrite SX by exact F; exact IS]|exact WX].
Qed.

Lemma C49_grid_proof :
forall su l merged, su_ragged su = false -> Forall (good_put su) l -> Forall (good_range su) merged ->
  exists g, build su l merged = Ok g /\ rectangular (sheet_of g) /\
    g_nrows g = Z.max (height l) (range_height merged) /\
    g_ncols g = Z.max (width l) (range_width merged) /\
    forall r c, 0 <= r < g_nrows g -> 0 <= c < g_ncols g ->
      (exists v, grid_at (g_values g) r c = Ok v /\ shows_value l r c v) /\
      (exists t, grid_at (g_types g) r c = Ok t /\ shows_type su l r c t) /\
      (su_fmt su = true -> exists x, grid_at (g_xfs g) r c = Ok x /\ shows_xf l r c x).
Proof.
  intros su l merged RG G M. destruct (build_unragged su l merged RG G M) as (g & B & R & C & S1 & W).
  pose proof (height_nonneg l) as HP. pose proof (width_nonneg l) as WP.
  exists g. split; [exact B|]. split; [apply (rectangular_of su g); [lia|lia|exact S1]|].
  split; [exact R|]. split; [exact C|]. apply cells_shown; assumption.
Qed.

Lemma largest_perm a b : Permutation a b -> largest a = largest b.
Proof. unfold largest. induction 1; cbn [fold_right]; lia. Qed.
Lemma latest_In l r c p : latest l r c = Some p -> In p l /\ pt_row p = r /\ pt_col p = c.
Proof.
  unfold latest. intro F. apply find_some in F. destruct F as [F1 F2]. apply in_rev in F1.
  unfold at_cell in F2. split; [exact F1|]. lia.
Qed.
Lemma latest_None l r c p : latest l r c = None -> In p l -> pt_row p = r -> pt_col p = c -> False.
Proof.
  unfold latest. intros F I <- <-. pose proof (find_none _ _ F p (proj1 (in_rev _ _) I)) as X.
  unfold at_cell in X. lia.
Qed.
Lemma one_call_eq l p q : one_call_each l -> In p l -> In q l -> pt_row p = pt_row q -> pt_col p = pt_col q -> p = q.
Proof.
  unfold one_call_each. induction l as [|x l IH]; intros N P Q R C; [destruct P|].
  cbn [map] in N. inversion N as [|? ? N1 N2]; subst.
  destruct P as [->|P], Q as [->|Q]; [reflexivity| | |apply IH; assumption]; exfalso; apply N1.
  - rewrite R, C. apply (in_map (fun p => (pt_row p, pt_col p))). exact Q.
  - rewrite <- R, <- C. apply (in_map (fun p => (pt_row p, pt_col p))). exact P.
Qed.
Lemma filter_perm A (f : A -> bool) a b : Permutation a b -> Permutation (filter f a) (filter f b).
Proof.
  induction 1; cbn [filter].
  - constructor.
  - destruct (f x); [constructor|]; assumption.
  - destruct (f x), (f y); try reflexivity. constructor.
  - etransitivity; eassumption.
Qed.

Lemma C49_order_proof :
forall su l1 l2 merged, Forall (good_put su) l1 -> Forall (good_range su) merged ->
  one_call_each l1 -> Permutation l1 l2 ->
  exists g1 g2, build su l1 merged = Ok g1 /\ build su l2 merged = Ok g2 /\
    g_nrows g1 = g_nrows g2 /\ g_ncols g1 = g_ncols g2 /\
    g_types g1 = g_types g2 /\ g_values g1 = g_values g2 /\ (su_fmt su = true -> g_xfs g1 = g_xfs g2).
Proof.
  intros su l1 l2 merged G M N P. apply same_build; try assumption.
  - apply Forall_forall. intros p I. rewrite Forall_forall in G. apply G.
    eapply Permutation_in; [apply Permutation_sym; exact P|exact I].
  - intros r c. destruct (latest l1 r c) as [p|] eqn:E1, (latest l2 r c) as [q|] eqn:E2; try reflexivity.
    + apply latest_In in E1, E2. destruct E1 as (I1 & R1 & C1), E2 as (I2 & R2 & C2). f_equal.
      apply (one_call_eq l1); try assumption; try congruence.
      eapply Permutation_in; [apply Permutation_sym; exact P|exact I2].
    + exfalso. apply latest_In in E1. destruct E1 as (I1 & R1 & C1).
      apply (latest_None l2 r c p); try assumption. eapply Permutation_in; [exact P|exact I1].
    + exfalso. apply latest_In in E2. destruct E2 as (I2 & R2 & C2).
      apply (latest_None l1 r c q); try assumption. eapply Permutation_in; [apply Permutation_sym; exact P|exact I2].
  - apply largest_perm, Permutation_map, P.
  - apply largest_perm, Permutation_map, P.
  - intro r. apply largest_perm, Permutation_map, filter_perm, P.
Qed.

Lemma row_width_outside l r : height l <= r -> row_width l r = 0.
Proof.
  unfold row_width, height, largest. induction l as [|p l IH]; cbn [map fold_right filter]; intro H; [reflexivity|].
  destruct (Z.eqb_spec (pt_row p) r); [lia|]. apply IH. lia.
Qed.
Lemma row_width_nonneg l r : 0 <= row_width l r.
Proof. apply width_nonneg. Qed.
Lemma row_width_filler l merged r : 0 <= r ->
  row_width (l ++ filler l merged) r =
  (if (r =? range_height merged - 1) && (height l <=? r) then 1 else row_width l r).
Proof.
  intro R. pose proof (row_width_nonneg l r) as P. unfold filler.
  destruct (Z.ltb_spec (height l) (range_height merged)) as [L|L].
  - rewrite row_width_snoc. cbn [pt_row pt_col].
    destruct (Z.eqb_spec (range_height merged - 1) r) as [E|E].
    + rewrite (row_width_outside l r) by lia. assert ((r =? range_height merged - 1) && (height l <=? r) = true) as -> by lia. lia.
    + assert ((r =? range_height merged - 1) && (height l <=? r) = false) as -> by lia. reflexivity.
  - rewrite app_nil_r. assert ((r =? range_height merged - 1) && (height l <=? r) = false) as -> by lia. reflexivity.
Qed.
Lemma height_filler l merged : height (l ++ filler l merged) = Z.max (height l) (range_height merged).
Proof.
  unfold filler. destruct (Z.ltb_spec (height l) (range_height merged)) as [L|L].
  - rewrite height_snoc. cbn [pt_row]. lia.
  - rewrite app_nil_r. lia.
Qed.

Lemma C49_ragged_proof :
forall su l merged, su_ragged su = true -> Forall (good_put su) l -> Forall (good_range su) merged ->
  exists g, build su l merged = Ok g /\
    g_nrows g = Z.max (height l) (range_height merged) /\
    g_ncols g = Z.max (width l) (range_width merged) /\
    Z.of_nat (length (g_values g)) = g_nrows g /\
    forall r, 0 <= r < g_nrows g ->
      let n := if (r =? range_height merged - 1) && (height l <=? r) then 1 else row_width l r in
      exists vs ts, nth_error (g_values g) (Z.to_nat r) = Some vs /\ nth_error (g_types g) (Z.to_nat r) = Some ts /\
        Z.of_nat (length vs) = n /\ Z.of_nat (length ts) = n /\
        forall c, 0 <= c < n ->
          (exists v, grid_at (g_values g) r c = Ok v /\ shows_value l r c v) /\
          (exists t, grid_at (g_types g) r c = Ok t /\ shows_type su l r c t) /\
          (su_fmt su = true -> exists x, grid_at (g_xfs g) r c = Ok x /\ shows_xf l r c x).
Proof.
  intros su l merged RG G M. destruct (build_ragged su l merged RG G M) as (g & B & R & C & [RT RV RX] & [WT WV WX]).
  pose proof (height_nonneg l) as HP. rewrite height_filler in RT, RV, RX.
  exists g. split; [exact B|]. split; [exact R|]. split; [exact C|]. split; [lia|].
  intros r Hr. cbv zeta. rewrite <- row_width_filler by lia.
  pose proof (row_width_nonneg (l ++ filler l merged) r) as NN.
  destruct RT as [T1 T2], RV as [V1 V2]. pose proof (T2 (Z.to_nat r)) as T3. pose proof (V2 (Z.to_nat r)) as V3.
  rewrite Z2Nat.id in T3, V3 by lia.
  exists (nth (Z.to_nat r) (g_values g) []), (nth (Z.to_nat r) (g_types g) []).
  split; [apply nth_error_nth'; lia|]. split; [apply nth_error_nth'; lia|]. split; [lia|]. split; [lia|].
  intros c Hc.
  specialize (WT (Z.to_nat r) (Z.to_nat c)). specialize (WV (Z.to_nat r) (Z.to_nat c)).
  rewrite !Z2Nat.id in WT, WV by lia.
  split; [|split].
  - eexists. split; [apply (grid_at_ref _ empty_value); [lia|lia|unfold in_shape; rewrite shape_nth; lia]|exact WV].
  - eexists. split; [apply (grid_at_ref _ XL_CELL_EMPTY); [lia|lia|unfold in_shape; rewrite shape_nth; lia]|exact WT].
  - intro F. specialize (WX F (Z.to_nat r) (Z.to_nat c)). rewrite !Z2Nat.id in WX by lia.
    destruct (RX F) as [X1 X2]. pose proof (X2 (Z.to_nat r)) as X3. rewrite Z2Nat.id in X3 by lia.
    eexists. split; [apply (grid_at_ref _ (-1)); [lia|lia|unfold in_shape; rewrite shape_nth; lia]|exact WX].
Qed.

Lemma C49_refused_proof :
forall su l p rest merged, Forall (good_put su) l -> 0 <= pt_row p -> 0 <= pt_col p ->
  ((forall t, ~ typed su p t) -> build su (l ++ p :: rest) merged = Err KeyError) /\
  ((exists t, typed su p t) -> ~ inside su p -> build su (l ++ p :: rest) merged = Err AssertionError).
Proof.
  intros su l p rest merged G R C. destruct (put_all_good su l G) as (g & E & U). split.
  - intro NT. apply (put_refused su l p g KeyError E). unfold put_cell.
    destruct (su_ragged su); [unfold put_cell_ragged|unfold put_cell_unragged];
      rewrite (cell_ctype_untyped _ _ NT); reflexivity.
  - intros [t T] NI. apply (put_refused su l p g AssertionError E). unfold put_cell.
    destruct (su_ragged su) eqn:RG; [apply refused_ragged with t; assumption|].
    destruct (U eq_refl) as (s & SH & FF & HR & HC). apply (refused_unragged su s l g p t); assumption.
Qed.

Lemma value_at_shown g r c v : 0 <= r -> 0 <= c -> grid_at (g_values g) r c = Ok v -> value_at (sheet_of g) r c = v.
Proof.
  intros R C E. unfold grid_at in E. rewrite py_index_nonneg in E by exact R.
  unfold value_at, sheet_of. cbn [sh_values].
  destruct (nth_error (g_values g) (Z.to_nat r)) as [row|] eqn:E1; [|discriminate E].
  rewrite py_index_nonneg in E by exact C. rewrite (nth_error_nth _ _ _ E1).
  destruct (nth_error row (Z.to_nat c)) as [x|] eqn:E2; [|discriminate E].
  rewrite (nth_error_nth _ _ _ E2). congruence.
Qed.
Lemma type_at_shown g r c t : 0 <= r -> 0 <= c -> grid_at (g_types g) r c = Ok t -> type_at (sheet_of g) r c = t.
Proof.
  intros R C E. unfold grid_at in E. rewrite py_index_nonneg in E by exact R.
  unfold type_at, sheet_of. cbn [sh_types].
  destruct (nth_error (g_types g) (Z.to_nat r)) as [row|] eqn:E1; [|discriminate E].
  rewrite py_index_nonneg in E by exact C. rewrite (nth_error_nth _ _ _ E1).
  destruct (nth_error row (Z.to_nat c)) as [x|] eqn:E2; [|discriminate E].
  rewrite (nth_error_nth _ _ _ E2). congruence.
Qed.
Lemma list_ext A (a b : list A) : (forall i, nth_error a i = nth_error b i) -> a = b.
Proof.
  revert b. induction a as [|x a IH]; intros [|y b] H.
  - reflexivity.
  - discriminate (H 0%nat).
  - discriminate (H 0%nat).
  - pose proof (H 0%nat) as E. cbn in E. injection E as ->. f_equal. apply IH. intro i. apply (H (S i)).
Qed.
Lemma columns_In a b c : In c (columns a b) <-> a <= c <= b.
Proof.
  unfold columns. rewrite in_map_iff. split.
  - intros (i & <- & I). apply in_seq in I. lia.
  - intro H. exists (Z.to_nat (c - a)). split; [lia|]. apply in_seq. lia.
Qed.

Lemma C49_pack_proof :
forall su l merged g wb fname which cells f, su_ragged su = false ->
  Forall (good_put su) l -> Forall (good_range su) merged -> build su l merged = Ok g ->
  0 < g_nrows g -> 0 < g_ncols g -> chosen_sheet wb which (sheet_of g) ->
  (forall c, 0 <= c < g_ncols g ->
     shows_column su l c 1 (g_nrows g - 1) (cells c) /\ typed_column (bk_datemode wb) (cells c) (f c)) ->
  exists p, sheetpack wb fname which (OBool true) None None ONone = Ok p /\
    (forall c, 0 <= c < g_ncols g ->
       holds_column (p_data p) c (f c) /\
       exists v, dget c (p_names p) = Some v /\ shows_value l 0 c v) /\
    (forall c, ~ (0 <= c < g_ncols g) -> dget c (p_data p) = None /\ dget c (p_names p) = None).
Proof.
  intros su l merged g wb fname which cells f RG G M B NR NC CH T.
  destruct (C49_grid_proof su l merged RG G M) as (g' & B' & RC & R & C & SH).
  assert (g' = g) by congruence. subst g'.
  assert (CE : forall c, 0 <= c < g_ncols g -> cells_of (sheet_of g) c 1 (g_nrows g - 1) = cells c).
  { intros c Hc. destruct (T c Hc) as [[L S1] _]. unfold cells_of.
    apply list_ext. intro i.
    destruct (nth_error (cells c) i) as [[v t]|] eqn:E.
    - assert (Hi : (i < length (cells c))%nat) by (apply nth_error_Some; congruence).
      rewrite (map_nth_error _ i _ (d := i)).
      + destruct (S1 i v t E) as [A1 A2].
        destruct (SH (1 + Z.of_nat i) c) as ((v' & V1 & V2) & (t' & T1 & T2) & _); [lia|lia|].
        apply value_at_shown in V1; [|lia|lia]. apply type_at_shown in T1; [|lia|lia]. rewrite V1, T1.
        rewrite (shows_value_det _ _ _ _ _ V2 A1), (shows_type_det _ _ _ _ _ _ T2 A2). reflexivity.
      + rewrite (nth_error_nth' _ 0%nat) by (rewrite seq_length; lia). rewrite seq_nth by lia. reflexivity.
    - apply nth_error_None in E. apply nth_error_None. rewrite map_length, seq_length. lia. }
  destruct (C46_rectangle_proof wb fname which (OBool true) None None ONone (sheet_of g) 0 0 (g_nrows g - 1) (g_ncols g - 1)
              (columns 0 (g_ncols g - 1)) (Some 0) (0 + 1) f) as (p & E & _ & D1 & D2 & N1 & N2).
  - exact CH.
  - exact RC.
  - constructor.
  - apply (st_sheet (sheet_of g)). left. reflexivity.
  - cbn [sheet_of sh_ncols]. lia.
  - apply cc_default. left. reflexivity.
  - intro X. assert (I : In 0 (columns 0 (g_ncols g - 1))) by (apply columns_In; lia). rewrite X in I. exact I.
  - apply Forall_forall. intros c I. apply columns_In in I. exact I.
  - constructor.
  - intros k K. assert (0 = k) by congruence. subst k. cbn [sheet_of sh_nrows]. exact NR.
  - intros c I. apply columns_In in I. cbn [sheet_of sh_nrows]. rewrite Z.min_id. rewrite CE by lia.
    apply T. lia.
  - exists p. split; [exact E|]. split.
    + intros c Hc. assert (I : In c (columns 0 (g_ncols g - 1))) by (apply columns_In; lia).
      split; [apply D1; exact I|]. exists (value_at (sheet_of g) 0 c). split; [apply N1; exact I|].
      destruct (SH 0 c) as ((v & V1 & V2) & _); [lia|lia|].
      apply value_at_shown in V1; [|lia|lia]. rewrite V1. exact V2.
    + intros c Hc. assert (I : ~ In c (columns 0 (g_ncols g - 1))) by (rewrite columns_In; lia).
      split; [apply D2; exact I|apply N2; exact I].
Qed.

Lemma C49_negative_refuted_proof :
exists su l g, su_ragged su = false /\ Exists (fun p => pt_row p < 0) l /\ build su l [] = Ok g /\
  grid_at (g_values g) 1 0 = Ok (VInt 3) /\
  build (mksetup true (su_fmt su) (su_types su) (su_max_rows su) (su_max_cols su)) l [] = Err AssertionError.
Proof.
  exists (mksetup false false [] 65536 256),
    [mkput 0 0 (Some 2) (VInt 1) 0; mkput 1 0 (Some 2) (VInt 2) 0; mkput (-1) 0 (Some 2) (VInt 3) 0].
  eexists. split; [reflexivity|]. split; [right; right; left; cbn; lia|].
  split; [vm_compute; reflexivity|]. vm_compute. auto.
Qed.

