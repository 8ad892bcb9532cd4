(** * Lemmas about the heap model *)

From Coq Require Import ZifyBool ZifyNat ZifyN.
From Verif Require Import PyBase PyBaseFacts PyFloat NumPy DataUtils Pack PackHeap SpecHeap MaskProofs PackProofs.

(** ** Lists *)

Lemma upd_length : forall A n (x : A) l, length (upd n x l) = length l.
Proof. induction n; destruct l; simpl; auto. Qed.

Lemma nth_upd : forall A n m (x : A) l d, nth m (upd n x l) d =
  if (Nat.eqb m n && Nat.ltb n (length l))%bool then x else nth m l d.
Proof.
  induction n; destruct l; simpl; intros d; destruct m; simpl; auto.
  - rewrite andb_false_r. auto.
  - rewrite IHn. reflexivity.
Qed.

Lemma nth_app_old : forall A (l l' : list A) n d, n < length l -> nth n (l ++ l') d = nth n l d.
Proof. intros. apply app_nth1; auto. Qed.

(** ** Changes to a world *)

(** [w'] comes from [w] by changes to the packs in P, the data dicts in D, the
    names dicts in N, the buffers in B, and by adding objects. *)
Record upto (w w' : world) (P D N B : nat -> Prop) : Prop := mkupto {
  u_np : length (w_packs w) <= length (w_packs w');
  u_nd : length (w_dd w) <= length (w_dd w');
  u_nn : length (w_nd w) <= length (w_nd w');
  u_nb : length (w_bufs w) <= length (w_bufs w');
  u_pk : forall i, i < length (w_packs w) -> ~ P i -> pk w' i = pk w i;
  u_dd : forall i, i < length (w_dd w) -> ~ D i -> dd w' i = dd w i;
  u_nm : forall i, i < length (w_nd w) -> ~ N i -> nd w' i = nd w i;
  u_buf : forall i, i < length (w_bufs w) -> ~ B i -> buf w' i = buf w i;
  u_len : forall i, i < length (w_bufs w) -> length (aelems (buf w' i)) = length (aelems (buf w i))
}.

Lemma upto_refl : forall w P D N B, upto w w P D N B.
Proof. intros. constructor; auto. Qed.

Lemma upto_trans : forall w1 w2 w3 P D N B, upto w1 w2 P D N B -> upto w2 w3 P D N B -> upto w1 w3 P D N B.
Proof.
  intros w1 w2 w3 P D N B [] []. constructor; try lia; intros.
  - rewrite u_pk1 by (auto; lia). auto.
  - rewrite u_dd1 by (auto; lia). auto.
  - rewrite u_nm1 by (auto; lia). auto.
  - rewrite u_buf1 by (auto; lia). auto.
  - rewrite u_len1 by (auto; lia). auto.
Qed.

Lemma upto_weaken : forall w w' (P D N B P' D' N' B' : nat -> Prop),
  (forall i, i < length (w_packs w) -> P i -> P' i) ->
  (forall i, i < length (w_dd w) -> D i -> D' i) ->
  (forall i, i < length (w_nd w) -> N i -> N' i) ->
  (forall i, i < length (w_bufs w) -> B i -> B' i) -> upto w w' P D N B -> upto w w' P' D' N' B'.
Proof.
  intros w w' P D N B P' D' N' B' HP HD HN HB []. constructor; auto; intros.
Qed.

(** Primitive changes. *)
Lemma upto_alloc : forall w a P D N B, upto w (fst (halloc w a)) P D N B.
Proof.
  intros. constructor; simpl; auto; intros; unfold pk, dd, nd, buf; simpl; auto; try rewrite app_length; try lia.
  - rewrite nth_app_old by auto. auto.
  - rewrite nth_app_old by auto. auto.
Qed.

Lemma upto_set_pk : forall w p k (P D N B : nat -> Prop), P p -> upto w (set_pk w p k) P D N B.
Proof.
  intros. constructor; simpl; auto; intros; unfold pk, dd, nd, buf; simpl; auto; try rewrite upd_length; try lia.
  rewrite nth_upd. destruct (Nat.eqb_spec i p); simpl; auto. subst. contradiction.
Qed.

Lemma upto_set_dd : forall w p k (P D N B : nat -> Prop), D p -> upto w (set_dd w p k) P D N B.
Proof.
  intros. constructor; simpl; auto; intros; unfold pk, dd, nd, buf; simpl; auto; try rewrite upd_length; try lia.
  rewrite nth_upd. destruct (Nat.eqb_spec i p); simpl; auto. subst. contradiction.
Qed.

Lemma upto_set_nd : forall w p k (P D N B : nat -> Prop), N p -> upto w (set_nd w p k) P D N B.
Proof.
  intros. constructor; simpl; auto; intros; unfold pk, dd, nd, buf; simpl; auto; try rewrite upd_length; try lia.
  rewrite nth_upd. destruct (Nat.eqb_spec i p); simpl; auto. subst. contradiction.
Qed.

Lemma store_length : forall A o (l x : list A), o + length x <= length l ->
  length (firstn o l ++ x ++ skipn (o + length x) l) = length l.
Proof. intros. rewrite !app_length, firstn_length, skipn_length. lia. Qed.

Lemma upto_store : forall w h i l (P D N B : nat -> Prop), B (h_b h) ->
  valid w h -> i + length l <= h_len h -> upto w (hstore w h i l) P D N B.
Proof.
  intros w h i l P D N B HB [V1 V2] Hl. constructor; simpl; auto; intros; unfold pk, dd, nd, buf; simpl; auto;
    try rewrite upd_length; try lia.
  - rewrite nth_upd. destruct (Nat.eqb_spec i0 (h_b h)); simpl; auto. subst. contradiction.
  - rewrite nth_upd. destruct (Nat.eqb_spec i0 (h_b h)); simpl; auto. subst.
    destruct (Nat.ltb_spec (h_b h) (length (w_bufs w))); auto. cbn [aelems].
    apply store_length. unfold buf in V2. lia.
Qed.

Lemma upto_add_dd : forall w d P D N B, upto w (mkw (w_bufs w) (w_dd w ++ [d]) (w_nd w) (w_packs w)) P D N B.
Proof.
  intros. constructor; simpl; auto; intros; unfold pk, dd, nd, buf; simpl; auto; try rewrite app_length; try lia.
  rewrite nth_app_old by auto. auto.
Qed.

Lemma upto_add_nd : forall w d P D N B, upto w (mkw (w_bufs w) (w_dd w) (w_nd w ++ [d]) (w_packs w)) P D N B.
Proof.
  intros. constructor; simpl; auto; intros; unfold pk, dd, nd, buf; simpl; auto; try rewrite app_length; try lia.
  rewrite nth_app_old by auto. auto.
Qed.

Lemma upto_add_pk : forall w k P D N B, upto w (mkw (w_bufs w) (w_dd w) (w_nd w) (w_packs w ++ [k])) P D N B.
Proof.
  intros. constructor; simpl; auto; intros; unfold pk, dd, nd, buf; simpl; auto; try rewrite app_length; try lia.
  rewrite nth_app_old by auto. auto.
Qed.

(** ** Reading after a change *)

Lemma valid_upto : forall w w' P D N B h, upto w w' P D N B -> valid w h -> valid w' h.
Proof.
  intros w w' P D N B h [] [V1 V2]. split; [lia|]. rewrite u_len0 by auto. auto.
Qed.

Lemma hread_upto : forall w w' P D N (B : nat -> Prop) h, upto w w' P D N B -> valid w h -> ~ B (h_b h) ->
  hread w' h = hread w h.
Proof. intros w w' P D N B h [] [V1 V2] HB. unfold hread. rewrite u_buf0; auto. Qed.

Lemma hread_alloc_new : forall w a, hread (fst (halloc w a)) (snd (halloc w a)) = a.
Proof.
  intros. unfold hread, halloc, buf, alen; simpl.
  rewrite app_nth2 by lia. rewrite Nat.sub_diag. simpl. rewrite firstn_all. destruct a; reflexivity.
Qed.

Lemma valid_alloc_new : forall w a, valid (fst (halloc w a)) (snd (halloc w a)).
Proof.
  intros. unfold valid, halloc, buf, alen; simpl. rewrite app_length; simpl. split; [lia|].
  rewrite app_nth2 by lia. rewrite Nat.sub_diag. simpl. lia.
Qed.

Lemma hread_length : forall w h, valid w h -> alen (hread w h) = h_len h.
Proof.
  intros w h [V1 V2]. unfold alen, hread. simpl. rewrite firstn_length, skipn_length. lia.
Qed.

Lemma hread_store_same : forall w h m, valid w h -> akind m = akind (hread w h) ->
  alen m = h_len h -> hread (hstore w h 0 (aelems m)) h = m.
Proof.
  intros w h m [V1 V2] K L. unfold hread, hstore, buf. simpl.
  rewrite nth_upd, Nat.eqb_refl. simpl.
  assert (Nat.ltb (h_b h) (length (w_bufs w)) = true) as -> by (apply Nat.ltb_lt; auto).
  cbn [akind aelems]. unfold hread in K. simpl in K. unfold buf in *. rewrite <- K.
  rewrite Nat.add_0_r. destruct m as [km lm]. unfold alen in L. simpl in *. f_equal.
  set (l := aelems (nth (h_b h) (w_bufs w) empty_arr)) in *.
  rewrite skipn_app, skipn_all2 by (rewrite firstn_length; lia).
  rewrite firstn_length, Nat.min_l by lia. rewrite Nat.sub_diag. simpl.
  rewrite <- L. rewrite firstn_app, firstn_all, Nat.sub_diag. simpl. apply app_nil_r.
Qed.

(** The view of a pack is untouched by changes elsewhere. *)
Lemma view_upto : forall w w' (P D N B : nat -> Prop) b, wf w -> b < length (w_packs w) ->
  upto w w' P D N B -> ~ P b -> ~ D (k_data (pk w b)) -> ~ N (k_names (pk w b)) ->
  (forall x, uses w b x -> ~ B x) ->
  view w' b = view w b /\ pk w' b = pk w b /\ (forall x, uses w' b x <-> uses w b x).
Proof.
  intros w w' P D N B b [W1 [W2 W3]] Hb U HP HD HN HB.
  destruct (W3 b Hb) as [Wd [Wn Wm]].
  assert (Epk : pk w' b = pk w b) by (apply (u_pk _ _ _ _ _ _ U); auto).
  assert (Edd : dd w' (k_data (pk w b)) = dd w (k_data (pk w b))) by (apply (u_dd _ _ _ _ _ _ U); auto).
  assert (End : nd w' (k_names (pk w b)) = nd w (k_names (pk w b))) by (apply (u_nm _ _ _ _ _ _ U); auto).
  split; [|split; auto].
  - unfold view, view_of. rewrite Epk, Edd, End.
    rewrite (hread_upto _ _ _ _ _ _ _ U Wm) by (apply HB; right; auto).
    f_equal. apply map_ext_in. intros [k h] I. simpl. f_equal.
    apply (hread_upto _ _ _ _ _ _ _ U); eauto. apply HB. left. exists k, h. auto.
  - intros x. unfold uses, data_buf. rewrite Epk, Edd. tauto.
Qed.

(** ** Well-formedness *)

Lemma dset_In : forall V k (v : V) d k' v', In (k', v') (dset k v d) -> (k' = k /\ v' = v) \/ In (k', v') d.
Proof.
  induction d as [|[a b] d IH]; simpl; intros k' v' H.
  - destruct H as [H|[]]. injection H as <- <-. auto.
  - destruct (Z.eqb_spec k a); simpl in H; destruct H as [H|H].
    + injection H as <- <-. left. split; auto.
    + auto.
    + injection H as <- <-. auto.
    + apply IH in H. tauto.
Qed.

Lemma wf_alloc : forall w a, wf w -> wf (fst (halloc w a)).
Proof.
  intros w a [W1 [W2 W3]].
  assert (V : forall h, valid w h -> valid (fst (halloc w a)) h).
  { intros h. apply (valid_upto _ _ (fun _ => False) (fun _ => False) (fun _ => False) (fun _ => False)). apply upto_alloc. }
  split; [|split].
  - intros i k h H. apply V. eapply W1; eauto.
  - intros i. apply W2.
  - intros p Hp. destruct (W3 p Hp) as [A [B C]]. auto.
Qed.

Lemma wf_store : forall w h i l, wf w -> valid w h -> i + length l <= h_len h -> wf (hstore w h i l).
Proof.
  intros w h i l [W1 [W2 W3]] Vh L.
  assert (V : forall g, valid w g -> valid (hstore w h i l) g).
  { intros g. apply (valid_upto _ _ (fun _ => False) (fun _ => False) (fun _ => False) (fun x => x = h_b h)).
    apply upto_store; auto. }
  split; [|split].
  - intros j k g H. apply V. eapply W1; eauto.
  - intros j. apply W2.
  - intros p Hp. destruct (W3 p Hp) as [A [B C]]. auto.
Qed.

Lemma pk_set_pk : forall w p k q, pk (set_pk w p k) q = if (Nat.eqb q p && Nat.ltb p (length (w_packs w)))%bool then k else pk w q.
Proof. intros. unfold pk, set_pk. simpl. apply nth_upd. Qed.

Lemma pk_set_pk_same : forall w p k, p < length (w_packs w) -> pk (set_pk w p k) p = k.
Proof. intros. rewrite pk_set_pk, Nat.eqb_refl. simpl. apply Nat.ltb_lt in H. rewrite H. reflexivity. Qed.

Lemma wf_set_pk : forall w p k, wf w ->
  k_data k < length (w_dd w) -> k_names k < length (w_nd w) -> valid w (k_mask k) -> wf (set_pk w p k).
Proof.
  intros w p k [W1 [W2 W3]] A B C. split; [|split].
  - exact W1.
  - exact W2.
  - intros q Hq. simpl in Hq. rewrite upd_length in Hq. rewrite pk_set_pk.
    destruct (Nat.eqb q p && Nat.ltb p (length (w_packs w)))%bool.
    + split; [exact A|split; [exact B|exact C]].
    + exact (W3 q Hq).
Qed.

Lemma dd_set_dd : forall w i d j, dd (set_dd w i d) j = if (Nat.eqb j i && Nat.ltb i (length (w_dd w)))%bool then d else dd w j.
Proof. intros. unfold dd, set_dd. simpl. apply nth_upd. Qed.

Lemma wf_set_dd : forall w i d, wf w -> (forall k h, In (k, h) d -> valid w h) -> NoDup (dkeys d) -> wf (set_dd w i d).
Proof.
  intros w i d [W1 [W2 W3]] V ND. split; [|split].
  - intros j k h H. rewrite dd_set_dd in H. destruct (_ && _)%bool; [apply (V k h); auto|].
    eapply W1; eauto.
  - intros j. rewrite dd_set_dd. destruct (_ && _)%bool; auto.
  - intros p Hp. simpl in Hp. destruct (W3 p Hp) as [A [B C]]. split; [|auto].
    simpl. rewrite upd_length. auto.
Qed.

Lemma wf_set_nd : forall w i d, wf w -> wf (set_nd w i d).
Proof.
  intros w i d [W1 [W2 W3]]. split; [|split]; auto.
  intros p Hp. simpl in Hp. destruct (W3 p Hp) as [A [B C]]. split; [auto|]. split; [|auto].
  simpl. rewrite upd_length. auto.
Qed.

Lemma nth_snoc : forall A (l : list A) x n d, nth n (l ++ [x]) d = if Nat.eqb n (length l) then x else nth n l d.
Proof.
  intros. destruct (Nat.eqb_spec n (length l)).
  - subst. rewrite app_nth2 by lia. rewrite Nat.sub_diag. reflexivity.
  - destruct (Nat.lt_ge_cases n (length l)).
    + apply app_nth1; auto.
    + rewrite !nth_overflow; auto. rewrite app_length; simpl; lia.
Qed.

Lemma wf_add_dd : forall w d, wf w -> (forall k h, In (k, h) d -> valid w h) -> NoDup (dkeys d) ->
  wf (mkw (w_bufs w) (w_dd w ++ [d]) (w_nd w) (w_packs w)).
Proof.
  intros w d [W1 [W2 W3]] V ND. split; [|split].
  - intros j k h H. unfold dd in H. simpl in H. rewrite nth_snoc in H.
    destruct (Nat.eqb j _); [apply (V k h); auto|]. eapply W1; eauto.
  - intros j. unfold dd. simpl. rewrite nth_snoc. destruct (Nat.eqb j _); auto. apply W2.
  - intros p Hp. simpl in Hp. destruct (W3 p Hp) as [A [B C]]. split; [|auto].
    simpl. rewrite app_length. unfold pk in *. simpl. lia.
Qed.

Lemma wf_add_nd : forall w d, wf w -> wf (mkw (w_bufs w) (w_dd w) (w_nd w ++ [d]) (w_packs w)).
Proof.
  intros w d [W1 [W2 W3]]. split; [|split]; auto.
  intros p Hp. simpl in Hp. destruct (W3 p Hp) as [A [B C]]. split; [auto|]. split; [|auto].
  simpl. rewrite app_length. unfold pk in *. simpl. lia.
Qed.

(** ** Composite operations: what they change *)

Definition only (x : nat) : nat -> Prop := fun i => i = x.
Definition none : nat -> Prop := fun _ => False.

Lemma duration_loop_elems : forall req mi c w h, valid w h ->
  length (aelems (duration_loop req mi c (hread w h))) = h_len h.
Proof.
  intros. change (length (aelems (duration_loop req mi c (hread w h)))) with (alen (duration_loop req mi c (hread w h))).
  rewrite duration_loop_len. apply hread_length; auto.
Qed.

(** duration on p: writes p's mask buffer and p's record; ids and mask stay *)
Lemma hduration_req_upto : forall w p req mi (P D N B : nat -> Prop), wf w -> p < length (w_packs w) ->
  P p -> B (h_b (k_mask (pk w p))) -> upto w (hduration_req w p req mi) P D N B.
Proof.
  intros w p req mi P D N B [W1 [W2 W3]] Hp HP HB. destruct (W3 p Hp) as [_ [_ V]].
  unfold hduration_req. eapply upto_trans; [|apply upto_set_pk; auto].
  apply upto_store; auto. rewrite duration_loop_elems by auto. lia.
Qed.

Lemma hduration_req_wf : forall w p req mi, wf w -> p < length (w_packs w) -> wf (hduration_req w p req mi).
Proof.
  intros w p req mi W Hp. pose proof W as [W1 [W2 W3]]. destruct (W3 p Hp) as [A [B V]].
  unfold hduration_req. 
  assert (Wf1 : wf (hstore w (k_mask (pk w p)) 0 (aelems (duration_loop req mi (k_cache (pk w p)) (hread w (k_mask (pk w p))))))).
  { apply wf_store; auto. rewrite duration_loop_elems by auto. lia. }
  apply wf_set_pk; auto. simpl.
  apply (valid_upto w _ none none none (only (h_b (k_mask (pk w p))))); auto.
  apply upto_store; auto; [reflexivity|]. rewrite duration_loop_elems by auto. lia.
Qed.

Lemma hduration_req_ids : forall w p req mi, p < length (w_packs w) ->
  k_data (pk (hduration_req w p req mi) p) = k_data (pk w p) /\
  k_names (pk (hduration_req w p req mi) p) = k_names (pk w p) /\
  k_mask (pk (hduration_req w p req mi) p) = k_mask (pk w p).
Proof.
  intros. unfold hduration_req. rewrite pk_set_pk_same by (simpl; auto). auto.
Qed.

Lemma happly_mindur_upto : forall w p (P D N B : nat -> Prop), wf w -> p < length (w_packs w) ->
  P p -> B (h_b (k_mask (pk w p))) -> upto w (happly_mindur w p) P D N B.
Proof.
  intros. unfold happly_mindur. destruct (k_mindur (pk w p)); [|apply upto_refl].
  apply hduration_req_upto; auto.
Qed.

Lemma happly_mindur_wf : forall w p, wf w -> p < length (w_packs w) -> wf (happly_mindur w p).
Proof.
  intros. unfold happly_mindur. destruct (k_mindur (pk w p)); auto. apply hduration_req_wf; auto.
Qed.

Lemma happly_mindur_ids : forall w p, p < length (w_packs w) ->
  k_data (pk (happly_mindur w p) p) = k_data (pk w p) /\
  k_names (pk (happly_mindur w p) p) = k_names (pk w p) /\
  k_mask (pk (happly_mindur w p) p) = k_mask (pk w p).
Proof.
  intros. unfold happly_mindur. destruct (k_mindur (pk w p)); auto. apply hduration_req_ids; auto.
Qed.

Lemma hset_mask_upto : forall w p h (P D N B : nat -> Prop), wf w -> p < length (w_packs w) -> valid w h ->
  P p -> B (h_b h) -> upto w (hset_mask w p h) P D N B.
Proof.
  intros w p h P D N B W Hp V HP HB. unfold hset_mask. pose proof W as [W1 [W2 W3]]. destruct (W3 p Hp) as [A [C _]].
  apply (upto_trans _ (set_pk w p (kw_mask (pk w p) h (slicelist (hread w h))))); [apply upto_set_pk; auto|].
  apply happly_mindur_upto; auto.
  - apply wf_set_pk; auto.
  - simpl. rewrite upd_length. auto.
  - rewrite pk_set_pk_same by auto. auto.
Qed.

Lemma hset_mask_wf : forall w p h, wf w -> p < length (w_packs w) -> valid w h -> wf (hset_mask w p h).
Proof.
  intros w p h W Hp V. unfold hset_mask. pose proof W as [W1 [W2 W3]]. destruct (W3 p Hp) as [A [C _]].
  apply happly_mindur_wf.
  - apply wf_set_pk; auto.
  - simpl. rewrite upd_length. auto.
Qed.

Lemma hset_mask_ids : forall w p h, p < length (w_packs w) ->
  k_data (pk (hset_mask w p h) p) = k_data (pk w p) /\
  k_names (pk (hset_mask w p h) p) = k_names (pk w p) /\
  k_mask (pk (hset_mask w p h) p) = h.
Proof.
  intros w p h Hp. unfold hset_mask.
  destruct (happly_mindur_ids (set_pk w p (kw_mask (pk w p) h (slicelist (hread w h)))) p) as [A [B C]].
  { simpl. rewrite upd_length. auto. }
  rewrite A, B, C, pk_set_pk_same by auto. auto.
Qed.

(** mask_reset on p: only p's record changes among what exists; the new mask is
    in a new buffer *)
Lemma hmask_reset_form : forall w p, exists a,
  hmask_reset w p = hset_mask (fst (halloc w a)) p (snd (halloc w a)) /\
  a = match zsort (dkeys (dd w (k_data (pk w p)))) with
      | [] => np_array []
      | k :: _ => match dget k (dd w (k_data (pk w p))) with Some h => np_self_eq (hread w h) | None => empty_arr end
      end.
Proof.
  intros. unfold hmask_reset. destruct (zsort (dkeys (dd w (k_data (pk w p))))) as [|k l] eqn:Z.
  - eexists. split; reflexivity.
  - destruct (dget k (dd w (k_data (pk w p)))) as [h|] eqn:G.
    + eexists. split; reflexivity.
    + exfalso. assert (I : In k (dkeys (dd w (k_data (pk w p))))).
      { apply (proj1 (zsort_In _ _)). rewrite Z. left; auto. }
      apply (proj2 (@dget_Some_In _ _ _)) in I. destruct I as [v I]. congruence.
Qed.

Lemma hmask_reset_upto : forall w p (P D N B : nat -> Prop), wf w -> p < length (w_packs w) ->
  P p -> upto w (hmask_reset w p) P D N B.
Proof.
  intros w p P D N B W Hp HP. destruct (hmask_reset_form w p) as [a [-> _]].
  apply (upto_weaken _ _ P D N (fun x => B x \/ x = length (w_bufs w))); auto.
  { intros i Hi [?|?]; auto. lia. }
  apply (upto_trans _ (fst (halloc w a))); [apply upto_alloc|]. apply hset_mask_upto; auto.
  - apply wf_alloc; auto.
  - apply valid_alloc_new.
Qed.

Lemma hmask_reset_wf : forall w p, wf w -> p < length (w_packs w) -> wf (hmask_reset w p).
Proof.
  intros w p W Hp. destruct (hmask_reset_form w p) as [a [-> _]].
  apply hset_mask_wf; auto. apply wf_alloc; auto. apply valid_alloc_new.
Qed.

Lemma hmask_reset_ids : forall w p, p < length (w_packs w) ->
  k_data (pk (hmask_reset w p) p) = k_data (pk w p) /\
  k_names (pk (hmask_reset w p) p) = k_names (pk w p) /\
  h_b (k_mask (pk (hmask_reset w p) p)) = length (w_bufs w).
Proof.
  intros w p Hp. destruct (hmask_reset_form w p) as [a [-> _]].
  destruct (hset_mask_ids (fst (halloc w a)) p (snd (halloc w a)) Hp) as [A [B C]].
  rewrite A, B, C. auto.
Qed.

Lemma happend_loop_upto : forall keys w i j (P D N B : nat -> Prop), D i -> upto w (happend_loop w i j keys) P D N B.
Proof.
  induction keys as [|k keys IH]; simpl; intros w i j P D N B HD; [apply upto_refl|].
  destruct (dget k (dd w i)) as [a|]; [|auto]. destruct (dget k (dd w j)) as [b|]; [|auto].
  eapply upto_trans; [apply (upto_alloc w (np_append (hread w a) (hread w b)))|].
  eapply upto_trans; [|apply IH; auto]. apply upto_set_dd; auto.
Qed.

Lemma happend_loop_packs : forall keys w i j, w_packs (happend_loop w i j keys) = w_packs w /\
  w_nd (happend_loop w i j keys) = w_nd w /\ length (w_dd (happend_loop w i j keys)) = length (w_dd w).
Proof.
  induction keys as [|k keys IH]; simpl; intros w i j; auto.
  destruct (dget k (dd w i)) as [a|]; [|auto]. destruct (dget k (dd w j)) as [b|]; [|auto].
  match goal with |- context [happend_loop ?x i j keys] => destruct (IH x i j) as [A [B C]] end.
  rewrite A, B, C. simpl. rewrite upd_length. auto.
Qed.

Lemma happend_loop_pk : forall keys w i j p, pk (happend_loop w i j keys) p = pk w p.
Proof. intros. destruct (happend_loop_packs keys w i j) as [A _]. unfold pk. rewrite A. reflexivity. Qed.

Lemma happend_loop_wf : forall keys w i j, wf w -> wf (happend_loop w i j keys).
Proof.
  induction keys as [|k keys IH]; simpl; intros w i j W; auto.
  destruct (dget k (dd w i)) as [a|] eqn:Ga; [|auto]. destruct (dget k (dd w j)) as [b|] eqn:Gb; [|auto].
  apply IH. set (x := np_append (hread w a) (hread w b)).
  pose proof (wf_alloc w x W) as Wa. pose proof Wa as [W1 [W2 W3]].
  change {| w_bufs := w_bufs w ++ [x]; w_dd := w_dd w; w_nd := w_nd w; w_packs := w_packs w |} with (fst (halloc w x)).
  apply wf_set_dd; auto.
  - intros k' h' H. apply dset_In in H. destruct H as [[-> ->]|H].
    + exact (valid_alloc_new w x).
    + eapply W1; eauto.
  - apply NoDup_dkeys_dset. apply W2.
Qed.

(** ** append_pack in steps *)

(** The data step, the names step and the rest of append_pack. *)
Definition append_data (w : world) (p q : nat) : res world :=
  match dd w (k_data (pk w p)), dd w (k_data (pk w q)) with
  | [], _ => Ok (hset_data_of w p q)
  | _ :: _, [] => Ok w
  | _ :: _, _ :: _ =>
      if same_keys (dd w (k_data (pk w p))) (dd w (k_data (pk w q)))
      then Ok (happend_loop w (k_data (pk w p)) (k_data (pk w q)) (dkeys (dd w (k_data (pk w q)))))
      else Err ValueError
  end.

Definition append_names (w : world) (p q : nat) : res world :=
  match nd w (k_names (pk w p)), nd w (k_names (pk w q)) with
  | [], _ => Ok (hset_names_of w p q)
  | _ :: _, [] => Ok w
  | _ :: _, _ :: _ =>
      if same_keys (nd w (k_names (pk w p))) (nd w (k_names (pk w q))) then Ok w else Err ValueError
  end.

Definition append_finish (w : world) (p q : nat) : world :=
  hmask_reset (set_pk w p (kw_files (pk w p) (k_files (pk w p) ++ k_files (pk w q)))) p.

Lemma happend_steps : forall w p q, happend w p q =
  match append_data w p q with
  | Err e => (w, Err e)
  | Ok w1 => match append_names w1 p q with
             | Ok w2 => (append_finish w2 p q, Ok tt)
             | Err e => (w1, Err e)
             end
  end.
Proof.
  intros. unfold happend. cbv zeta. fold (append_data w p q).
  destruct (append_data w p q) as [w1|e]; [|reflexivity].
  unfold append_names, append_finish.
  destruct (nd w1 (k_names (pk w1 p))) as [|x n]; [reflexivity|].
  destruct (nd w1 (k_names (pk w1 q))) as [|y n']; [reflexivity|].
  destruct (same_keys (x :: n) (y :: n')); reflexivity.
Qed.

Lemma w_packs_len_upto : forall w w' P D N B, upto w w' P D N B -> forall p, p < length (w_packs w) -> p < length (w_packs w').
Proof. intros w w' P D N B [] p H. lia. Qed.

Lemma append_data_spec : forall w p q w1, wf w -> p < length (w_packs w) -> q < length (w_packs w) ->
  append_data w p q = Ok w1 ->
  wf w1 /\ upto w w1 (only p) (only (k_data (pk w p))) none none /\
  k_names (pk w1 p) = k_names (pk w p) /\ k_mask (pk w1 p) = k_mask (pk w p) /\
  w_nd w1 = w_nd w /\ length (w_packs w1) = length (w_packs w) /\
  (k_data (pk w1 p) = k_data (pk w p) \/ (dd w (k_data (pk w p)) = [] /\ k_data (pk w1 p) = k_data (pk w q))).
Proof.
  intros w p q w1 W Hp Hq H. pose proof W as [W1 [W2 W3]]. destruct (W3 p Hp) as [Pd [Pn Pm]]. destruct (W3 q Hq) as [Qd [Qn Qm]].
  unfold append_data in H.
  destruct (dd w (k_data (pk w p))) as [|x d] eqn:Ep.
  - injection H as <-. unfold hset_data_of.
    split; [apply wf_set_pk; simpl; auto|]. split; [apply upto_set_pk; reflexivity|].
    rewrite pk_set_pk_same by auto. simpl. rewrite upd_length. auto 8.
  - destruct (dd w (k_data (pk w q))) as [|y d'] eqn:Eq.
    + injection H as <-. split; auto. split; [apply upto_refl|]. auto 8.
    + destruct (same_keys (x :: d) (y :: d')); [|discriminate].
      set (ks := dkeys (y :: d')) in *. clearbody ks. injection H as <-.
      destruct (happend_loop_packs ks w (k_data (pk w p)) (k_data (pk w q))) as [A [B C]].
      split; [apply happend_loop_wf; auto|]. split; [apply happend_loop_upto; reflexivity|].
      rewrite happend_loop_pk, A, B. auto 8.
Qed.

Lemma append_names_spec : forall w p q w1, wf w -> p < length (w_packs w) -> q < length (w_packs w) ->
  append_names w p q = Ok w1 ->
  wf w1 /\ upto w w1 (only p) none none none /\
  k_data (pk w1 p) = k_data (pk w p) /\ k_mask (pk w1 p) = k_mask (pk w p) /\
  w_dd w1 = w_dd w /\ w_nd w1 = w_nd w /\ w_bufs w1 = w_bufs w /\ length (w_packs w1) = length (w_packs w) /\
  (k_names (pk w1 p) = k_names (pk w p) \/ (nd w (k_names (pk w p)) = [] /\ k_names (pk w1 p) = k_names (pk w q))).
Proof.
  intros w p q w1 W Hp Hq H. pose proof W as [W1 [W2 W3]]. destruct (W3 p Hp) as [Pd [Pn Pm]]. destruct (W3 q Hq) as [Qd [Qn Qm]].
  unfold append_names in H.
  destruct (nd w (k_names (pk w p))) as [|x d] eqn:Ep.
  - injection H as <-. unfold hset_names_of.
    split; [apply wf_set_pk; simpl; auto|]. split; [apply upto_set_pk; reflexivity|].
    rewrite pk_set_pk_same by auto. simpl. rewrite upd_length. auto 10.
  - assert (w1 = w) as ->.
    { destruct (nd w (k_names (pk w q))) as [|y d'] eqn:Eq; [congruence|].
      destruct (same_keys (x :: d) (y :: d')); congruence. }
    split; auto. split; [apply upto_refl|]. auto 10.
Qed.

Lemma append_finish_spec : forall w p q, wf w -> p < length (w_packs w) ->
  wf (append_finish w p q) /\ upto w (append_finish w p q) (only p) none none none /\
  k_data (pk (append_finish w p q) p) = k_data (pk w p) /\
  k_names (pk (append_finish w p q) p) = k_names (pk w p) /\
  h_b (k_mask (pk (append_finish w p q) p)) = length (w_bufs w).
Proof.
  intros w p q W Hp. pose proof W as [W1 [W2 W3]]. destruct (W3 p Hp) as [Pd [Pn Pm]].
  unfold append_finish. set (k := kw_files _ _).
  assert (Wk : wf (set_pk w p k)) by (apply wf_set_pk; auto).
  assert (Hk : p < length (w_packs (set_pk w p k))) by (simpl; rewrite upd_length; auto).
  split; [apply hmask_reset_wf; auto|]. split.
  - apply (upto_trans _ (set_pk w p k)); [apply upto_set_pk; reflexivity|]. apply hmask_reset_upto; auto. reflexivity.
  - destruct (hmask_reset_ids (set_pk w p k) p Hk) as [A [B C]].
    rewrite A, B, C, pk_set_pk_same by auto. auto.
Qed.

(** ** All operations *)

(** The buffers an operation may write to. *)
Definition writes (w : world) (o : hop) (x : nat) : Prop :=
  match o with
  | HWrite h _ _ => x = h_b h
  | HMask _ h => x = h_b h
  | HMindur p _ | HDuration p _ _ _ => x = h_b (k_mask (pk w p))
  | HStartstop p _ _ ap => ap = true /\ x = h_b (k_mask (pk w p))
  | _ => False
  end.

Definition pack_changed (o : hop) (i : nat) : Prop := target o = Some i.
Definition data_changed (w : world) (o : hop) (i : nat) : Prop :=
  match o with HDataItem p _ _ | HAppend p _ => i = k_data (pk w p) | _ => False end.
Definition names_changed (w : world) (o : hop) (i : nat) : Prop :=
  match o with HNameItem p _ _ => i = k_names (pk w p) | _ => False end.

Lemma np_iand_shape : forall m r x, np_iand m r = Ok x -> akind x = akind m /\ alen x = alen m.
Proof.
  unfold np_iand. intros m r x H.
  destruct (akind m) eqn:K, (akind r); try discriminate; destruct (_ || _)%bool; try discriminate;
    injection H as <-; unfold alen, barr; simpl; rewrite ?map_length, ?seq_length; auto.
Qed.

Lemma startstop_parts : forall w p a b, let w1 := fst (halloc w (np_array (map VBool (startstop_bool a b)))) in
  pk w1 p = pk w p.
Proof. reflexivity. Qed.

Lemma hexec_spec : forall w o, wf w -> args_ok w o ->
  wf (fst (hexec w o)) /\
  upto w (fst (hexec w o)) (pack_changed o) (data_changed w o) (names_changed w o) (writes w o).
Proof.
  intros w o W [AT A]. pose proof W as [W1 [W2 W3]].
  assert (TP : forall p, target o = Some p -> p < length (w_packs w)).
  { intros p E. rewrite E in AT. auto. }
  destruct o; simpl in TP, A; try specialize (TP p eq_refl); try (destruct (W3 _ TP) as [Pd [Pn Pm]]).
  - split; [apply wf_alloc; auto|]. exact (upto_alloc w a _ _ _ _).
  - simpl. destruct (Nat.ltb_spec i (h_len h)).
    + split; [apply wf_store; simpl; auto; lia|]. apply upto_store; simpl; auto. lia.
    + split; auto. apply upto_refl.
  - (* HNew *) cbn [hexec fst]. unfold hnew. cbn [fst]. destruct A as [A1 A2].
    set (k0 := mkhp _ _ _ _ _ _ _ _ _).
    set (w1 := mkw _ _ _ _).
    destruct (hmask_reset_form w1 (length (w_packs w))) as [a [-> _]].
    set (w2 := fst (halloc w1 a)). set (h := snd (halloc w1 a)).
    assert (L1 : length (w_packs w1) = S (length (w_packs w))) by (unfold w1; simpl; rewrite app_length; simpl; lia).
    assert (Epk : pk w1 (length (w_packs w)) = k0).
    { unfold pk, w1. simpl. rewrite nth_snoc, Nat.eqb_refl. reflexivity. }
    set (k1 := kw_mask k0 h (slicelist (hread w2 h))).
    assert (Em : hset_mask w2 (length (w_packs w)) h = set_pk w2 (length (w_packs w)) k1).
    { unfold hset_mask. change (pk w2 (length (w_packs w))) with (pk w1 (length (w_packs w))). rewrite Epk.
      fold k1. unfold happly_mindur. rewrite pk_set_pk_same by (change (w_packs w2) with (w_packs w1); lia).
      reflexivity. }
    rewrite Em.
    assert (U : forall P D N B, upto w (set_pk w2 (length (w_packs w)) k1) P D N B).
    { intros P D N B. apply (upto_weaken _ _ (fun x => P x \/ x = length (w_packs w)) D N B); auto.
      { intros i Hi [?|?]; auto. lia. }
      apply (upto_trans _ w2); [|apply upto_set_pk; auto].
      apply (upto_trans _ w1); [|apply upto_alloc].
      apply (upto_trans _ (mkw (w_bufs w) (w_dd w ++ [d]) (w_nd w) (w_packs w))); [apply upto_add_dd|].
      apply (upto_trans _ (mkw (w_bufs w) (w_dd w ++ [d]) (w_nd w ++ [n]) (w_packs w))).
      - exact (upto_add_nd (mkw (w_bufs w) (w_dd w ++ [d]) (w_nd w) (w_packs w)) n _ _ _ _).
      - exact (upto_add_pk (mkw (w_bufs w) (w_dd w ++ [d]) (w_nd w ++ [n]) (w_packs w)) k0 _ _ _ _). }
    split; [|apply U].
    pose proof (wf_add_nd _ n (wf_add_dd w d W A1 A2)) as [V1 [V2 V3]].
    assert (VV : forall g, valid w g -> valid (set_pk w2 (length (w_packs w)) k1) g).
    { intros g. apply (valid_upto _ _ none none none none). apply U. }
    split; [|split].
    + intros i k g I. change (dd (set_pk w2 (length (w_packs w)) k1) i) with (dd w1 i) in I.
      apply (V1 i k g) in I. apply VV. exact I.
    + intros i. exact (V2 i).
    + intros q Hq. rewrite pk_set_pk. simpl in Hq. rewrite upd_length in Hq.
      change (w_packs w2) with (w_packs w1).
      destruct (Nat.eqb_spec q (length (w_packs w))).
      * rewrite (proj2 (Nat.ltb_lt _ _)) by lia. simpl. rewrite !app_length. simpl.
        split; [lia|]. split; [lia|]. exact (valid_alloc_new w1 a).
      * simpl. rewrite !app_length.
        assert (Hq' : q < length (w_packs w)) by (change (length (w_packs w1)) with (length (w_packs w1)) in *; unfold w1 in L1, Hq; simpl in *; lia).
        assert (Eq : pk w2 q = pk w q).
        { unfold pk, w2, w1. simpl. rewrite nth_snoc. destruct (Nat.eqb_spec q (length (w_packs w))); [lia|auto]. }
        rewrite Eq. destruct (W3 q Hq') as [X [Y Z]]. split; [simpl; lia|]. split; [simpl; lia|]. apply VV; auto.
  - (* HData *) cbn [hexec fst]. unfold hset_data. destruct A as [A1 A2].
    set (w1 := mkw _ _ _ _).
    set (k1 := kw_data (pk w1 p) (length (w_dd w))).
    assert (Ww1 : wf w1) by (apply wf_add_dd; auto).
    assert (Wf2 : wf (set_pk w1 p k1)).
    { apply wf_set_pk; auto; simpl; rewrite ?app_length; simpl; auto; lia. }
    assert (Hp2 : p < length (w_packs (set_pk w1 p k1))) by (simpl; rewrite upd_length; auto).
    split; [apply hmask_reset_wf; auto|].
    apply (upto_trans _ w1); [apply upto_add_dd|].
    apply (upto_trans _ (set_pk w1 p k1)); [apply upto_set_pk; reflexivity|].
    apply hmask_reset_upto; auto. reflexivity.
  - (* HDataOf *) destruct (W3 _ A) as [Qd [Qn Qm]].
    split; [apply wf_set_pk; simpl; auto|]. apply upto_set_pk; reflexivity.
  - (* HDataItem *) split.
    + apply wf_set_dd; auto; [|apply NoDup_dkeys_dset; apply W2].
      intros k' h' I. apply dset_In in I. destruct I as [[-> ->]|I]; auto. eapply W1; eauto.
    + apply upto_set_dd. reflexivity.
  - (* HNames *) cbn [hexec fst]. unfold hset_names. set (w1 := mkw _ _ _ _).
    assert (Ww1 : wf w1) by (apply wf_add_nd; auto).
    split.
    + apply wf_set_pk; auto; simpl; rewrite ?app_length; simpl; auto; lia.
    + apply (upto_trans _ w1); [apply upto_add_nd|]. apply upto_set_pk; reflexivity.
  - (* HNamesOf *) destruct (W3 _ A) as [Qd [Qn Qm]].
    split; [apply wf_set_pk; simpl; auto|]. apply upto_set_pk; reflexivity.
  - (* HNameItem *) split; [apply wf_set_nd; auto|]. apply upto_set_nd; reflexivity.
  - (* HMask *) split; [apply hset_mask_wf; auto|]. apply hset_mask_upto; auto; reflexivity.
  - (* HMindur *) cbn [hexec fst]. set (k1 := kw_mindur _ _).
    assert (Wk : wf (set_pk w p k1)) by (apply wf_set_pk; auto).
    assert (Hk : p < length (w_packs (set_pk w p k1))) by (simpl; rewrite upd_length; auto).
    split; [apply happly_mindur_wf; auto|].
    apply (upto_trans _ (set_pk w p k1)); [apply upto_set_pk; reflexivity|].
    apply happly_mindur_upto; auto; [reflexivity|]. rewrite pk_set_pk_same by auto. reflexivity.
  - (* HNof *) simpl. destruct (is_array v); simpl; [split; auto; apply upto_refl|]. destruct (nof_valid v); simpl.
    + split; [apply wf_set_pk; auto|]. apply upto_set_pk; reflexivity.
    + split; auto. apply upto_refl.
  - split; [apply wf_set_pk; auto|]. apply upto_set_pk; reflexivity.
  - split; [apply wf_set_pk; auto|]. apply upto_set_pk; reflexivity.
  - (* HReset *) split; [apply hmask_reset_wf; auto|]. apply hmask_reset_upto; auto; reflexivity.
  - (* HDuration *) cbn [hexec]. unfold harr, hduration. destruct (req_duration d s) as [r|e]; cbn [fst].
    + split; [apply hduration_req_wf; auto|]. apply hduration_req_upto; auto; reflexivity.
    + split; auto. apply upto_refl.
  - (* HStartstop *) cbn [hexec]. unfold harr, hstartstop. cbn [fst].
    set (r := np_array (map VBool (startstop_bool a b))).
    change (halloc w r) with (fst (halloc w r), snd (halloc w r)). cbv iota beta.
    set (w1 := fst (halloc w r)). set (hr := snd (halloc w r)).
    pose proof (wf_alloc w r W) as Ww1. fold w1 in Ww1.
    assert (U1 : forall P D N B, upto w w1 P D N B) by (intros; apply upto_alloc).
    destruct apply; [|split; [exact Ww1|apply U1]].
    change (pk w1 p) with (pk w p). set (h := k_mask (pk w p)).
    destruct (np_iand (hread w1 h) (hread w1 hr)) as [m|e] eqn:E; cbn [fst]; [|split; [exact Ww1|apply U1]].
    destruct (np_iand_shape _ _ _ E) as [S1 S2].
    assert (Vh : valid w1 h) by (apply (valid_upto _ _ none none none none _ (U1 _ _ _ _)); auto).
    assert (Lm : length (aelems m) = h_len h) by (change (alen m = h_len h); rewrite S2; apply hread_length; auto).
    assert (Ws : wf (hstore w1 h 0 (aelems m))) by (apply wf_store; auto; lia).
    assert (Us : forall P D N (B : nat -> Prop), B (h_b h) -> upto w1 (hstore w1 h 0 (aelems m)) P D N B)
      by (intros; apply upto_store; auto; lia).
    assert (Vs : valid (hstore w1 h 0 (aelems m)) h).
    { eapply (valid_upto w1 _ none none none (only (h_b h))); auto. apply Us; reflexivity. }
    split.
    + apply hset_mask_wf; auto.
    + apply (upto_trans _ w1); [apply U1|]. apply (upto_trans _ (hstore w1 h 0 (aelems m))).
      * apply Us. split; reflexivity.
      * apply hset_mask_upto; auto; [reflexivity|split; reflexivity].
  - (* HAppend *) cbn [hexec]. unfold hunit. cbn [fst]. rewrite happend_steps.
    destruct (append_data w p q) as [w1|e] eqn:E1; cbn [fst]; [|split; auto; apply upto_refl].
    destruct (append_data_spec _ _ _ _ W TP A E1) as [Ww1 [U1 [N1 [M1 [ND1 [L1 K1]]]]]].
    assert (U1' : upto w w1 (pack_changed (HAppend p q)) (data_changed w (HAppend p q))
                    (names_changed w (HAppend p q)) (writes w (HAppend p q))).
    { revert U1. apply upto_weaken; unfold only, none, pack_changed, data_changed; simpl; intros; subst; auto. }
    destruct (append_names w1 p q) as [w2|e] eqn:E2; cbn [fst]; [|split; auto].
    destruct (append_names_spec w1 p q w2 Ww1 ltac:(lia) ltac:(lia) E2) as [Ww2 [U2 [D2 [M2 [DD2 [ND2 [B2 [L2 K2]]]]]]]].
    destruct (append_finish_spec w2 p q Ww2 ltac:(lia)) as [Ww3 [U3 _]].
    split; auto.
    apply (upto_trans _ w1); [exact U1'|]. apply (upto_trans _ w2).
    + revert U2. apply upto_weaken; unfold only, none, pack_changed; simpl; intros; subst; auto; contradiction.
    + revert U3. apply upto_weaken; unfold only, none, pack_changed; simpl; intros; subst; auto; contradiction.
  - (* HCall *) cbn [hexec]. unfold harr, hcall. cbn [fst].
    assert (F : forall r : res arr,
       wf (fst (match r with Ok a => let '(w1, h) := halloc w a in (w1, Ok h) | Err e => (w, Err e) end)) /\
       upto w (fst (match r with Ok a => let '(w1, h) := halloc w a in (w1, Ok h) | Err e => (w, Err e) end))
         (pack_changed (HCall p ch part nof)) (data_changed w (HCall p ch part nof))
         (names_changed w (HCall p ch part nof)) (writes w (HCall p ch part nof))).
    { intros [a|e]; simpl; [|split; auto; apply upto_refl].
      split; [apply (wf_alloc w a W)|]. exact (upto_alloc w a _ _ _ _). }
    destruct (datakey (view w p) ch); [|exact (F (Err OtherError))].
    destruct (dget a (dd w (k_data (pk w p)))); [|exact (F (Err OtherError))].
    destruct part as [i|].
    + destruct (py_index _ i); exact (F (Err OtherError)).
    + repeat match goal with |- context [if ?c then _ else _] => destruct c end; try apply F; exact (F (Err OtherError)).
Qed.

(** What the target of an operation refers to afterwards. *)
Lemma hexec_post : forall w o p, wf w -> args_ok w o -> target o = Some p ->
  let k := pk w p in let k' := pk (fst (hexec w o)) p in
  (k_data k' = k_data k \/ length (w_dd w) <= k_data k' \/
     exists q, (o = HDataOf p q \/ (o = HAppend p q /\ dd w (k_data k) = [])) /\ k_data k' = k_data (pk w q)) /\
  (k_names k' = k_names k \/ length (w_nd w) <= k_names k' \/
     exists q, (o = HNamesOf p q \/ (o = HAppend p q /\ nd w (k_names k) = [])) /\ k_names k' = k_names (pk w q)) /\
  (h_b (k_mask k') = h_b (k_mask k) \/ length (w_bufs w) <= h_b (k_mask k') \/
     exists h, o = HMask p h /\ k_mask k' = h).
Proof.
  intros w o p W A T. pose proof A as [TP A']. rewrite T in TP. pose proof W as [W1 [W2 W3]].
  destruct (W3 _ TP) as [Pd [Pn Pm]].
  destruct o; simpl in T; try discriminate; injection T as ->; simpl in A'; cbn [hexec fst].
  - (* HData *) unfold hset_data. set (w1 := mkw _ _ _ _). set (k1 := kw_data _ _).
    assert (Hp2 : p < length (w_packs (set_pk w1 p k1))) by (simpl; rewrite upd_length; auto).
    destruct (hmask_reset_ids _ p Hp2) as [X [Y Z]]. cbv zeta. rewrite X, Y, Z, pk_set_pk_same by auto.
    split; [right; left; simpl; auto|]. split; [left; reflexivity|]. right; left; simpl; auto.
  - unfold hset_data_of. cbv zeta. rewrite pk_set_pk_same by auto. simpl. split; [right; right; eauto|]. auto.
  - cbv zeta. change (pk (hdata_item w p k h) p) with (pk w p). auto.
  - unfold hset_names. cbv zeta. rewrite pk_set_pk_same by auto. simpl. auto.
  - unfold hset_names_of. cbv zeta. rewrite pk_set_pk_same by auto. simpl. split; [auto|]. split; [right; right; eauto|]. auto.
  - cbv zeta. change (pk (hname_item w p k v) p) with (pk w p). auto.
  - cbv zeta. destruct (hset_mask_ids w p h TP) as [X [Y Z]]. rewrite X, Y, Z. split; auto. split; auto. right; right. eauto.
  - cbv zeta. set (k1 := kw_mindur _ _).
    assert (Hk : p < length (w_packs (set_pk w p k1))) by (simpl; rewrite upd_length; auto).
    destruct (happly_mindur_ids _ p Hk) as [X [Y Z]]. rewrite X, Y, Z, pk_set_pk_same by auto. auto.
  - cbv zeta. destruct (is_array v), (nof_valid v); cbn [fst]; auto. rewrite pk_set_pk_same by auto. auto.
  - cbv zeta. rewrite pk_set_pk_same by auto. auto.
  - cbv zeta. rewrite pk_set_pk_same by auto. auto.
  - cbv zeta. destruct (hmask_reset_ids w p TP) as [X [Y Z]]. rewrite X, Y, Z. auto.
  - cbv zeta. unfold harr, hduration. destruct (req_duration d s); cbn [fst]; auto.
    destruct (hduration_req_ids w p a mindur TP) as [X [Y Z]]. rewrite X, Y, Z. auto.
  - cbv zeta. unfold harr, hstartstop. cbn [fst]. set (r := np_array _).
    change (halloc w r) with (fst (halloc w r), snd (halloc w r)). cbv iota beta.
    set (w1 := fst (halloc w r)). set (hr := snd (halloc w r)).
    destruct apply; [|auto]. change (pk w1 p) with (pk w p). set (h := k_mask (pk w p)).
    destruct (np_iand (hread w1 h) (hread w1 hr)) as [m|e]; cbn [fst]; [|auto].
    destruct (hset_mask_ids (hstore w1 h 0 (aelems m)) p h TP) as [X [Y Z]]. rewrite X, Y, Z.
    change (pk (hstore w1 h 0 (aelems m)) p) with (pk w p). auto.
  - cbv zeta. unfold hunit. cbn [fst]. rewrite happend_steps.
    destruct (append_data w p q) as [w1|e] eqn:E1; cbn [fst]; [|auto].
    destruct (append_data_spec _ _ _ _ W TP A' E1) as [Ww1 [U1 [N1 [M1 [ND1 [L1 K1]]]]]].
    assert (Dd : k_data (pk w1 p) = k_data (pk w p) \/ length (w_dd w) <= k_data (pk w1 p) \/
      exists q0, (HAppend p q = HDataOf p q0 \/ (HAppend p q = HAppend p q0 /\ dd w (k_data (pk w p)) = [])) /\
        k_data (pk w1 p) = k_data (pk w q0)).
    { destruct K1 as [K1|[K1 K2]]; auto. right; right. exists q. auto. }
    destruct (append_names w1 p q) as [w2|e] eqn:E2; cbn [fst].
    2:{ rewrite N1, M1. auto. }
    destruct (append_names_spec w1 p q w2 Ww1 ltac:(lia) ltac:(lia) E2) as [Ww2 [U2 [D2 [M2 [DD2 [ND2 [B2 [L2 K2]]]]]]]].
    destruct (append_finish_spec w2 p q Ww2 ltac:(lia)) as [Ww3 [U3 [D3 [N3 M3]]]].
    rewrite D3, N3, M3, D2, B2. split; auto. split.
    + rewrite N1 in K2. destruct K2 as [K2|[K2 K3]]; auto. right; right. exists q.
      unfold nd in *. rewrite ND1 in K2. split; auto. rewrite K3.
      destruct (Nat.eq_dec q p) as [->|Q]; auto.
      rewrite (u_pk _ _ _ _ _ _ U1 q) by auto. reflexivity.
    + right; left. apply (u_nb _ _ _ _ _ _ U1).
Qed.

Lemma uses_bound : forall w b x, wf w -> b < length (w_packs w) -> uses w b x -> x < length (w_bufs w).
Proof.
  intros w b x [W1 [W2 W3]] Hb [[k [h [I <-]]]|<-].
  - apply (W1 _ _ _ I).
  - apply (W3 _ Hb).
Qed.

(** An operation on something separate from [b] does not change [b]. *)
Lemma step_frame : forall w o b, wf w -> b < length (w_packs w) -> args_ok w o -> keeps_off w b o ->
  (forall p, target o = Some p -> p <> b /\ separate w p b) ->
  view (fst (hexec w o)) b = view w b /\ pk (fst (hexec w o)) b = pk w b /\
  (forall x, uses (fst (hexec w o)) b x <-> uses w b x).
Proof.
  intros w o b W Hb A K T. destruct (hexec_spec w o W A) as [_ U].
  eapply view_upto; eauto.
  - intros E. apply T in E. destruct E as [E _]. congruence.
  - intros E. unfold data_changed in E. destruct o; try contradiction; destruct (T _ eq_refl) as [_ [S1 _]]; congruence.
  - intros E. unfold names_changed in E. destruct o; try contradiction; destruct (T _ eq_refl) as [_ [_ [S1 _]]]; congruence.
  - intros x Hx E. destruct o; simpl in E, K; try contradiction; subst.
    + contradiction.
    + contradiction.
    + destruct (T _ eq_refl) as [_ [_ [_ S3]]]. contradiction.
    + destruct (T _ eq_refl) as [_ [_ [_ S3]]]. contradiction.
    + destruct E as [_ ->]. destruct (T _ eq_refl) as [_ [_ [_ S3]]]. contradiction.
Qed.

(** Separation survives. *)
Lemma step_separate : forall w o b c, wf w -> b < length (w_packs w) -> c < length (w_packs w) ->
  args_ok w o -> keeps_off w b o ->
  (forall p, target o = Some p -> p <> b /\ separate w p b) -> separate w c b ->
  separate (fst (hexec w o)) c b.
Proof.
  intros w o b c W Hb Hc A K T S. pose proof W as [W1 [W2 W3]]. destruct (W3 _ Hb) as [Bd [Bn Bm]].
  destruct (step_frame w o b W Hb A K T) as [_ [Eb Ub]].
  destruct (hexec_spec w o W A) as [_ U].
  destruct S as [S1 [S2 S3]]. unfold separate. rewrite Eb.
  destruct (target o) as [p|] eqn:Et.
  - destruct (Nat.eq_dec c p) as [->|Ne].
    + destruct (hexec_post w o p W A Et) as [P1 [P2 P3]]. split; [|split].
      * destruct P1 as [->|[P1|[q [Q E]]]]; auto; [lia|]. rewrite E. clear E.
        destruct Q as [->|[-> Q]]; simpl in K; auto. apply K; auto.
      * destruct P2 as [->|[P2|[q [Q E]]]]; auto; [lia|]. rewrite E. clear E.
        destruct Q as [->|[-> Q]]; simpl in K; auto. apply K; auto.
      * rewrite Ub. destruct P3 as [->|[P3|[h [-> E]]]]; auto.
        -- intros X. apply uses_bound in X; auto. lia.
        -- simpl in K. rewrite E. auto.
    + rewrite (u_pk _ _ _ _ _ _ U) by (auto; unfold pack_changed; congruence). rewrite Ub. auto.
  - rewrite (u_pk _ _ _ _ _ _ U) by (auto; unfold pack_changed; congruence). rewrite Ub. auto.
Qed.

Lemma history_cons : forall C w o l, history C w (o :: l) -> C w o /\ history C (fst (hexec w o)) l.
Proof. auto. Qed.

Lemma hexec_len : forall w o, wf w -> args_ok w o -> length (w_packs w) <= length (w_packs (fst (hexec w o))).
Proof. intros w o W A. destruct (hexec_spec w o W A) as [_ U]. apply (u_np _ _ _ _ _ _ U). Qed.

(** Histories of operations on packs in a set S, all separate from [b]. *)
Lemma history_frame : forall l (S : nat -> Prop) w b, wf w -> b < length (w_packs w) -> 
  (forall c, S c -> c < length (w_packs w) /\ c <> b /\ separate w c b) ->
  history (fun w o => args_ok w o /\ keeps_off w b o /\ forall p, target o = Some p -> S p) w l ->
  wf (hrun w l) /\ view (hrun w l) b = view w b /\ (forall c, S c -> separate (hrun w l) c b) /\
  (forall x, uses (hrun w l) b x <-> uses w b x).
Proof.
  induction l as [|o l IH]; intros S w b W Hb HS H.
  - simpl. split; auto. split; auto. split; [intros; apply HS; auto|]. tauto.
  - apply history_cons in H. destruct H as [[A [K T]] H].
    assert (T' : forall p, target o = Some p -> p <> b /\ separate w p b) by (intros p E; apply HS, T, E).
    destruct (step_frame w o b W Hb A K T') as [V [_ Us]].
    destruct (hexec_spec w o W A) as [W' _]. pose proof (hexec_len w o W A) as L.
    destruct (IH S (fst (hexec w o)) b) as [I1 [I2 [I3 I4]]]; auto; try lia.
    + intros c Hc. destruct (HS c Hc) as [C1 [C2 C3]]. split; [lia|]. split; auto.
      apply step_separate; auto.
    + simpl. split; auto. split; [congruence|]. split; auto. intros x. rewrite I4. apply Us.
Qed.
