(** * Lemmas on the pack model *)

From Coq Require Import ZifyBool ZifyNat ZifyN QArith.
From Verif Require Import PyBase PyBaseFacts PyFloat NumPy DataUtils Pack SpecMask SpecPack MaskProofs.
Open Scope nat_scope.

(** ** Boolean masks stay boolean *)

Lemma map_repeat : forall A B (f : A -> B) x n, map f (repeat x n) = repeat (f x) n.
Proof. induction n; simpl; congruence. Qed.

Lemma set_false_barr : forall s m, np_set_false s (barr m) = barr (fill_slice false s m).
Proof.
  intros. unfold np_set_false, barr. simpl. f_equal.
  unfold fill_slice. rewrite !map_app, map_repeat, !firstn_map, !skipn_map.
  rewrite !slice_length, map_length. reflexivity.
Qed.

Lemma duration_loop_barr : forall req mi c m, exists m', duration_loop req mi c (barr m) = barr m'.
Proof.
  induction c; simpl; intros; eauto.
  destruct (duration_hits req mi a); auto. rewrite set_false_barr. auto.
Qed.

Lemma barr_inj : forall a b, barr a = barr b -> a = b.
Proof. intros. rewrite <- (bits_barr a), <- (bits_barr b). congruence. Qed.

Lemma barr_kind : forall m, mask_kind (akind (barr m)) = true.
Proof. reflexivity. Qed.

(** ** Coherence of the cached slices *)

Definition coherent (p : pack) : Prop := p_cache p = slicelist (p_mask p).

Lemma duration_req_coherent : forall req mi p, coherent (duration_req req mi p).
Proof. intros. unfold coherent, duration_req. reflexivity. Qed.

Lemma apply_mindur_coherent : forall p, coherent p -> coherent (apply_mindur p).
Proof.
  intros. unfold apply_mindur. destruct (p_mindur p); auto.
  simpl. apply duration_req_coherent.
Qed.

Lemma set_mask_arr_coherent : forall a p, coherent (set_mask_arr a p).
Proof. intros. unfold set_mask_arr. apply apply_mindur_coherent. reflexivity. Qed.

Lemma zsort_head_in : forall V (d : dict V) k l, zsort (dkeys d) = k :: l ->
  exists v, dget k d = Some v.
Proof.
  intros. apply dget_Some_In. apply zsort_In. rewrite H. left. auto.
Qed.

Lemma mask_reset_form : forall p, exists a, mask_reset p = set_mask_arr a p.
Proof.
  intros. unfold mask_reset. destruct (zsort (dkeys (p_data p))) eqn:E; eauto.
  apply zsort_head_in in E. destruct E as [v ->]. eauto.
Qed.

Lemma mask_reset_coherent : forall p, coherent (mask_reset p).
Proof. intros. destruct (mask_reset_form p) as [a ->]. apply set_mask_arr_coherent. Qed.

Lemma append_pack_cases : forall o p, exists p1,
  p_mask p1 = p_mask p /\ p_cache p1 = p_cache p /\ p_mindur p1 = p_mindur p /\
  p_nof p1 = p_nof p /\ p_prefix p1 = p_prefix p /\ p_fn p1 = p_fn p /\
  (fst (append_pack o p) = p1 /\ p_files p1 = p_files p /\ snd (append_pack o p) = Err ValueError
   \/ fst (append_pack o p) = mask_reset p1 /\ p_files p1 = p_files p ++ p_files o
      /\ snd (append_pack o p) = Ok tt).
Proof.
  intros. unfold append_pack.
  set (ds := match p_data p, p_data o with
             | [], _ => _ | _ :: _, [] => _ | _ :: _, _ :: _ => _ end).
  assert (D : ds = Err ValueError \/ exists d, ds = Ok (with_data p d)).
  { unfold ds. destruct (p_data p) eqn:E1; [right; eexists; reflexivity|].
    destruct (p_data o); [right; exists (p_data p); destruct p; reflexivity|].
    destruct (same_keys _ _); [right; eexists; reflexivity|left; reflexivity]. }
  destruct D as [->|[d ->]]; simpl.
  - exists p. repeat split; auto.
  - destruct (p_names p) eqn:E1.
    + exists (with_files (set_names (p_names o) (with_data p d)) (p_files p ++ p_files o)).
      repeat split. right. auto.
    + destruct (p_names o) eqn:E2.
      * exists (with_files (with_data p d) (p_files p ++ p_files o)).
        repeat split. right. auto.
      * destruct (same_keys _ _).
        -- exists (with_files (with_data p d) (p_files p ++ p_files o)).
           repeat split. right. auto.
        -- exists (with_data p d). repeat split. left. auto.
Qed.

Lemma exec_coherent : forall o p, coherent p -> coherent (fst (exec o p)).
Proof.
  intros o p H. destruct o; simpl; auto; try exact H.
  - apply mask_reset_coherent.
  - destruct v; simpl; auto; try exact H. apply set_mask_arr_coherent.
  - destruct v; simpl; auto; apply apply_mindur_coherent; exact H.
  - unfold set_nof. destruct (is_array v), (nof_valid v); auto.
  - destruct v; simpl; auto; try exact H.
  - destruct v; simpl; auto; try exact H.
  - apply mask_reset_coherent.
  - unfold duration. destruct (req_duration d s); simpl; auto; apply duration_req_coherent.
  - unfold startstop. destruct apply; simpl; auto.
    destruct (np_iand _ _); simpl; auto. apply set_mask_arr_coherent.
  - destruct (append_pack_cases other p) as (p1 & A1 & A2 & _ & _ & _ & _ & [(-> & _)|(-> & _)]).
    + unfold coherent. rewrite A1, A2. exact H.
    + apply mask_reset_coherent.
Qed.

Lemma new_pack_coherent : forall d n, coherent (new_pack d n).
Proof. intros. unfold new_pack. apply mask_reset_coherent. Qed.

Lemma run_coherent : forall ops p, coherent p -> coherent (run ops p).
Proof. induction ops; simpl; intros; auto. apply IHops. apply exec_coherent. auto. Qed.

(** ** The mindur invariant *)

Definition mask_ok_kind (p : pack) : Prop := mask_kind (akind (p_mask p)) = true.

Definition mindur_inv (p : pack) : Prop :=
  forall k, p_mindur p = Some k ->
  forall a b, is_run (bits (p_mask p)) a b -> (k <= Z.of_nat (b - a))%Z.

Definition pack_inv (p : pack) : Prop := coherent p /\ mask_ok_kind p /\ mindur_inv p.

Lemma apply_mindur_inv : forall p, coherent p -> mask_ok_kind p -> pack_inv (apply_mindur p).
Proof.
  intros p Hc Hk. unfold pack_inv. split; [apply apply_mindur_coherent; auto|].
  unfold apply_mindur. destruct (p_mindur p) as [m|] eqn:Em.
  - simpl. unfold duration_req. rewrite Z.mul_1_r. split.
    + unfold mask_ok_kind. simpl. rewrite duration_loop_kind. exact Hk.
    + intros k Hk' a b Hr. simpl in Hk', Hr. rewrite Em in Hk'. injection Hk' as <-.
      rewrite Hc in Hr. apply duration_mask_run in Hr; auto. destruct Hr as [Hr Hkeep].
      apply keeps_spec in Hkeep. unfold part_duration in Hkeep. simpl in Hkeep.
      destruct Hr. lia.
  - split; auto. intros k Hk'. congruence.
Qed.

Lemma set_mask_arr_inv : forall a p, mask_kind (akind a) = true -> pack_inv (set_mask_arr a p).
Proof. intros. unfold set_mask_arr. apply apply_mindur_inv; [reflexivity|exact H]. Qed.

Lemma mask_reset_inv : forall p, pack_inv (mask_reset p).
Proof.
  intros. unfold mask_reset. destruct (zsort (dkeys (p_data p))) eqn:E.
  - apply set_mask_arr_inv. reflexivity.
  - apply zsort_head_in in E. destruct E as [v ->]. apply set_mask_arr_inv. reflexivity.
Qed.

Lemma mindur_inv_of_runs : forall p m,
  mindur_inv p -> p_mindur m = p_mindur p ->
  (forall a b, is_run (bits (p_mask m)) a b -> is_run (bits (p_mask p)) a b) -> mindur_inv m.
Proof.
  intros p m H1 H2 H3 k Hk a b Hr. rewrite H2 in Hk. eapply H1; eauto.
Qed.

(** Operations that assign string arrays as masks are excluded: numpy stores
    the text 'False' in them. *)
Definition op_ok (o : op) : Prop :=
  match o with
  | OpMask (OArr a) => akind a <> KU /\ akind a <> KS
  | _ => True
  end.

Lemma op_ok_mask_kind : forall a, akind a <> KU /\ akind a <> KS -> mask_kind (akind a) = true.
Proof. intros a [H1 H2]. destruct (akind a); auto; congruence. Qed.

Lemma np_iand_kind : forall m r x, np_iand m r = Ok x -> mask_kind (akind x) = true.
Proof.
  intros m r x H. unfold np_iand in H.
  destruct (akind m) eqn:E1; try discriminate; destruct (akind r); try discriminate;
  destruct (_ || _); try discriminate; injection H as <-; simpl; auto.
Qed.

Lemma exec_inv : forall o p, op_ok o -> pack_inv p -> pack_inv (fst (exec o p)).
Proof.
  intros o p Hop H. pose proof H as (Hc & Hk & Hm). destruct o; simpl; auto; try exact H.
  - apply mask_reset_inv.
  - destruct v; simpl; auto; try exact H. apply set_mask_arr_inv. apply op_ok_mask_kind. exact Hop.
  - destruct v; simpl; auto; apply apply_mindur_inv; auto.
  - unfold set_nof. destruct (is_array v), (nof_valid v); auto.
  - destruct v; simpl; auto; try exact H.
  - destruct v; simpl; auto; try exact H.
  - apply mask_reset_inv.
  - unfold duration. destruct (req_duration d s) as [req|]; simpl; auto.
    split; [apply duration_req_coherent|]. split.
    + unfold mask_ok_kind, duration_req. simpl. rewrite duration_loop_kind. exact Hk.
    + eapply mindur_inv_of_runs; eauto. intros x y Hr. unfold duration_req in Hr. simpl in Hr.
      rewrite Hc in Hr. apply duration_mask_run in Hr; auto. tauto.
  - unfold startstop. destruct apply; simpl; auto.
    destruct (np_iand _ _) eqn:E; simpl; auto.
    apply set_mask_arr_inv. eapply np_iand_kind. eauto.
  - destruct (append_pack_cases other p) as (p1 & A1 & A2 & A3 & _ & _ & _ & [(-> & _)|(-> & _)]).
    + unfold pack_inv, coherent, mask_ok_kind, mindur_inv. rewrite A1, A2, A3. exact H.
    + apply mask_reset_inv.
Qed.

Lemma new_pack_inv : forall d n, pack_inv (new_pack d n).
Proof. intros. apply mask_reset_inv. Qed.

Lemma run_inv : forall ops p, Forall op_ok ops -> pack_inv p -> pack_inv (run ops p).
Proof.
  induction ops; simpl; intros p Ho H; auto.
  inversion Ho; subst. apply IHops; auto. apply exec_inv; auto.
Qed.

(** ** nof and filenames invariants *)

Lemma mask_reset_fields : forall p,
  p_data (mask_reset p) = p_data p /\ p_names (mask_reset p) = p_names p /\
  p_nof (mask_reset p) = p_nof p /\ p_mindur (mask_reset p) = p_mindur p /\
  p_prefix (mask_reset p) = p_prefix p /\ p_fn (mask_reset p) = p_fn p /\
  p_files (mask_reset p) = p_files p.
Proof.
  intros. destruct (mask_reset_form p) as [a ->]. unfold set_mask_arr, apply_mindur.
  simpl. destruct (p_mindur p) eqn:E; simpl; repeat split; auto.
Qed.

Lemma apply_mindur_fields : forall p,
  p_data (apply_mindur p) = p_data p /\ p_names (apply_mindur p) = p_names p /\
  p_nof (apply_mindur p) = p_nof p /\ p_mindur (apply_mindur p) = p_mindur p /\
  p_prefix (apply_mindur p) = p_prefix p /\ p_fn (apply_mindur p) = p_fn p /\
  p_files (apply_mindur p) = p_files p.
Proof.
  intros. unfold apply_mindur. destruct (p_mindur p) eqn:E; simpl; repeat split; auto.
Qed.

Lemma set_mask_arr_fields : forall a p,
  p_data (set_mask_arr a p) = p_data p /\ p_names (set_mask_arr a p) = p_names p /\
  p_nof (set_mask_arr a p) = p_nof p /\ p_mindur (set_mask_arr a p) = p_mindur p /\
  p_prefix (set_mask_arr a p) = p_prefix p /\ p_fn (set_mask_arr a p) = p_fn p /\
  p_files (set_mask_arr a p) = p_files p.
Proof. intros. unfold set_mask_arr. apply (apply_mindur_fields (with_cache (with_mask p a) (slicelist a))). Qed.

Definition files_inv (p : pack) : Prop :=
  nof_valid (p_nof p) = true /\ exists r, p_files p = p_fn p :: r.

Lemma exec_files_inv : forall o p, files_inv p -> files_inv (fst (exec o p)).
Proof.
  intros o p H. pose proof H as (H1 & r & H2). unfold files_inv in *.
  destruct o; simpl; auto.
  - unfold set_data_plain. pose proof (mask_reset_fields (with_data p d)) as (_ & _ & -> & _ & _ & -> & ->). auto.
  - destruct v; simpl; auto. pose proof (set_mask_arr_fields a p) as (_ & _ & -> & _ & _ & -> & ->). auto.
  - destruct v; simpl; auto.
  - unfold set_nof. destruct (is_array v), (nof_valid v) eqn:E; simpl; eauto.
  - destruct v; simpl; auto.
  - destruct v; simpl; auto. split; auto. rewrite H2. eauto.
  - pose proof (mask_reset_fields p) as (_ & _ & -> & _ & _ & -> & ->). auto.
  - unfold duration. destruct (req_duration d s); simpl; auto.
  - unfold startstop. destruct apply; simpl; auto. destruct (np_iand _ _); simpl; auto.
    pose proof (set_mask_arr_fields a0 p) as (_ & _ & -> & _ & _ & -> & ->). auto.
  - destruct (append_pack_cases other p) as (p1 & A1 & A2 & A3 & A4 & A5 & A6 & [(-> & A7 & _)|(-> & A7 & _)]).
    + rewrite A4, A6, A7. auto.
    + pose proof (mask_reset_fields p1) as (_ & _ & -> & _ & _ & -> & ->).
      rewrite A4, A6, A7, H2. simpl. eauto.
Qed.

Lemma run_files_inv : forall ops p, files_inv p -> files_inv (run ops p).
Proof. induction ops; simpl; intros; auto. apply IHops. apply exec_files_inv. auto. Qed.

Lemma new_pack_files_inv : forall d n, files_inv (new_pack d n).
Proof.
  intros. unfold new_pack, files_inv.
  pose proof (mask_reset_fields (fst (set_fn (OStr []) (mkpack d n (mkarr Kf []) [] ONone None (lit "ch") [] [])))) as (_ & _ & -> & _ & _ & -> & ->).
  simpl. split; eauto.
Qed.

(** ** Data selection *)

Lemma compress_selected : forall A m (l : list A), compress m l = selected m l.
Proof.
  induction m; destruct l; simpl; auto. unfold selected in *. simpl.
  destruct a; simpl; congruence.
Qed.

Lemma selected_app : forall A m1 m2 (l1 l2 : list A), length m1 = length l1 ->
  selected (m1 ++ m2) (l1 ++ l2) = selected m1 l1 ++ selected m2 l2.
Proof.
  induction m1; destruct l1; simpl; intros; try lia; auto.
  unfold selected in *. simpl. destruct a; simpl; rewrite IHm1 by lia; auto.
Qed.

Lemma selected_false : forall A n (l : list A), selected (repeat false n) l = [].
Proof. induction n; destruct l; simpl; auto. apply (IHn l). Qed.

Lemma selected_true : forall A (l : list A), selected (repeat true (length l)) l = l.
Proof. induction l; simpl; auto. unfold selected in *. simpl. f_equal. auto. Qed.

Lemma slice_snoc : forall A (l : list A) s i x, s <= i -> nth_error l i = Some x ->
  slice s (S i) l = slice s i l ++ [x].
Proof.
  induction l as [|y l IH]; intros s i x Hs Hx; [destruct i; discriminate|].
  destruct s as [|s].
  - unfold slice. rewrite !Nat.sub_0_r. simpl skipn.
    clear IH Hs. revert i Hx. generalize (y :: l). clear.
    induction l as [|z l IH]; intros i Hx; [destruct i; discriminate|].
    destruct i; simpl in *; [congruence|]. f_equal. apply IH. exact Hx.
  - destruct i as [|i]; [lia|]. simpl in Hx. unfold slice in *. simpl skipn.
    rewrite (Nat.sub_succ (S i) s), (Nat.sub_succ i s). apply IH; auto. lia.
Qed.

(** Concatenating the runs of [m] gives the selected elements: generalised
    over the position [i] and an open run. *)
Lemma runs_concat : forall A (m : list bool) (full : list A) i open,
  length full = i + length m ->
  match open with Some s => s <= i | None => True end ->
  concat (map (fun s => slice (fst s) (snd s) full) (runs i m open)) =
  match open with Some s => slice s i full | None => [] end ++ selected m (skipn i full).
Proof.
  induction m as [|b m IH]; intros full i open Hl Ho; simpl in *.
  - unfold selected. simpl. rewrite app_nil_r. destruct open; simpl; auto. apply app_nil_r.
  - assert (Hx : exists x r, skipn i full = x :: r /\ skipn (S i) full = r).
    { clear -Hl. revert full Hl. induction i; intros; destruct full; simpl in *; try lia.
      - eauto.
      - destruct (IHi full ltac:(lia)) as (x & r & H1 & H2). exists x, r. split; auto. }
    destruct Hx as (x & r & Hx & Hr). rewrite Hx.
    assert (Hsl : forall s, s <= i -> slice s (S i) full = slice s i full ++ [x]).
    { intros s Hs. apply slice_snoc; auto. 
      transitivity (nth_error (skipn i full) 0); [|rewrite Hx; reflexivity].
      clear. revert full. induction i; destruct full; simpl; auto. apply IHi. }
    destruct b.
    + rewrite IH by (destruct open; lia). rewrite Hr. unfold selected. simpl.
      destruct open as [s|].
      * rewrite Hsl by auto. rewrite <- app_assoc. reflexivity.
      * rewrite Hsl by lia. unfold slice at 1. rewrite Nat.sub_diag. reflexivity.
    + destruct open as [s|]; simpl; rewrite IH by (simpl; lia || auto); rewrite Hr; reflexivity.
Qed.

(** ** What counts as true *)

Lemma counts_truthy v : counts v = truthy v.
Proof.
  destruct v; try reflexivity; cbn [counts truthy];
    repeat match goal with |- context [match ?x with _ => _ end] => destruct x end; reflexivity.
Qed.

Lemma map_counts l : map counts l = map truthy l.
Proof. apply map_ext, counts_truthy. Qed.

Lemma trigger_counts a b i :
  trigger_on (fun j => counts (nth j a VNone)) (fun j => counts (nth j b VNone)) i <->
  trigger_on (fun j => truthy (nth j a VNone)) (fun j => truthy (nth j b VNone)) i.
Proof. unfold trigger_on. split; intros (j & L & A & B); exists j; (split; [exact L|]); (split; [rewrite <- A|intros k K; rewrite <- (B k K)]);
  rewrite counts_truthy; reflexivity. Qed.

(** ** The number of samples a duration asks for *)

Lemma pynum_float_iff : forall x f, double_of x f <-> pynum_float x = Ok f.
Proof.
  intros [z|g] f; split; intro H.
  - inversion H as [|z' f' E N]; subst. cbn [pynum_float]. unfold float_of_Z.
    destruct (binary_normalize 53 1024 z 0 false) eqn:E; try reflexivity.
    exfalso. exact (N _ eq_refl).
  - cbn [pynum_float] in H. constructor.
    + unfold float_of_Z in H. destruct (binary_normalize 53 1024 z 0 false); congruence.
    + intros s ->. destruct (float_of_Z z); congruence.
  - inversion H; reflexivity.
  - injection H as <-. constructor.
Qed.

Lemma product_iff : forall d s x, product d s x <-> pymul d s = Ok x.
Proof.
  intros d s x; split; intro H.
  - destruct H as [a b|x y f g N F G]; [reflexivity|].
    apply pynum_float_iff in F. apply pynum_float_iff in G.
    destruct x as [a|f'], y as [b|g']; try (exfalso; apply N; eexists _, _; split; reflexivity);
      unfold pymul; rewrite F, G; reflexivity.
  - assert (X : (exists a b, d = PInt a /\ s = PInt b) \/ ~ (exists a b, d = PInt a /\ s = PInt b)).
    { destruct d, s; [left; eexists _, _; split; reflexivity|right|right|right];
        intros (a & b & E & E'); congruence. }
    destruct X as [(a & b & -> & ->)|N]; [injection H as <-; constructor|].
    assert (E : pymul d s = (do a <- pynum_float d; do b <- pynum_float s; Ok (PFloat (fmul a b)))).
    { destruct d, s; try reflexivity. exfalso. apply N. eexists _, _. split; reflexivity. }
    rewrite E in H. destruct (pynum_float d) as [f|] eqn:F; [|discriminate].
    destruct (pynum_float s) as [g|] eqn:G; [|discriminate]. injection H as <-.
    apply product_doubles; [exact N|apply pynum_float_iff; exact F|apply pynum_float_iff; exact G].
Qed.

Lemma truncates_unique : forall q z z', truncates q z -> truncates q z' -> z = z'.
Proof.
  intros q z z' [A B] [A' B']. destruct (Qlt_le_dec q 0) as [L|L].
  - apply Qlt_le_weak in L. destruct (B L) as [B1 B2]. destruct (B' L) as [B1' B2'].
    pose proof (Qlt_le_trans _ _ _ B1 B2') as C. pose proof (Qlt_le_trans _ _ _ B1' B2) as C'.
    rewrite <- Zlt_Qlt in C, C'. lia.
  - destruct (A L) as [A1 A2]. destruct (A' L) as [A1' A2'].
    pose proof (Qle_lt_trans _ _ _ A1 A2') as C. pose proof (Qle_lt_trans _ _ _ A1' A2) as C'.
    rewrite <- Zlt_Qlt in C, C'. lia.
Qed.

Lemma py_int_truncates : forall x q, num_Q x = Some q -> exists z, py_int x = Ok z /\ truncates q z.
Proof.
  intros [z|f] q H; cbn [num_Q py_int] in *.
  - injection H as <-. exists z. split; [reflexivity|]. unfold truncates.
    rewrite <- !Zlt_Qlt, <- !Zle_Qle. lia.
  - destruct f as [s|s| |s m e]; try discriminate H.
    + injection H as <-. exists 0%Z. split; [reflexivity|].
      unfold truncates, Qle, Qlt, inject_Z; cbn; lia.
    + unfold float_Q in H. unfold int_of_float. cbv zeta in *. eexists. split; [reflexivity|].
      destruct (0 <=? e)%Z eqn:E.
      * assert (P : (0 < 2 ^ e)%Z) by (apply Z.pow_pos_nonneg; lia).
        assert (q = inject_Z (if s then - (Zpos m * 2 ^ e) else Zpos m * 2 ^ e)) as ->.
        { destruct s; [|congruence]. rewrite <- Z.mul_opp_l. change (- Zpos m)%Z with (Zneg m). congruence. }
        unfold truncates. rewrite <- !Zlt_Qlt, <- !Zle_Qle. lia.
      * assert (P : (0 < 2 ^ (- e))%Z) by (apply Z.pow_pos_nonneg; lia).
        assert (q = ((if s then - Zpos m else Zpos m) # Z.to_pos (2 ^ (- e)))) as ->.
        { destruct s; [change (- Zpos m)%Z with (Zneg m)|]; congruence. }
        pose proof (Z.div_mod (Zpos m) (2 ^ (- e)) ltac:(lia)).
        pose proof (Z.mod_pos_bound (Zpos m) (2 ^ (- e)) ltac:(lia)).
        assert (0 <= Zpos m / 2 ^ (- e))%Z by (apply Z.div_pos; lia).
        unfold truncates, Qle, Qlt, inject_Z. cbn [Qnum Qden]. rewrite Z2Pos.id by lia.
        destruct s; repeat split; nia.
Qed.

Lemma requires_iff : forall d s z, requires d s z <-> req_duration d s = Ok z.
Proof.
  intros d s z; split.
  - intros (x & q & P & Q & T). apply product_iff in P. unfold req_duration. rewrite P.
    destruct (py_int_truncates x q Q) as (z' & I & T'). cbn [bind]. rewrite I.
    f_equal. eapply truncates_unique; eassumption.
  - unfold req_duration. destruct (pymul d s) as [x|e] eqn:M; [|discriminate]. cbn [bind]. intro I.
    assert (X : exists q, num_Q x = Some q).
    { destruct x as [a|f]; cbn in *; [eexists; reflexivity|]. destruct f; try discriminate; eexists; reflexivity. }
    destruct X as [q Q]. destruct (py_int_truncates x q Q) as (z' & I' & T).
    exists x, q. split; [apply product_iff; exact M|]. split; [exact Q|]. congruence.
Qed.
