(** * The heap model refines the value model on unshared packs *)

From Coq Require Import ZifyBool ZifyNat ZifyN.
From Verif Require Import PyBase PyBaseFacts PyFloat NumPy DataUtils Pack PackHeap SpecHeap MaskProofs PackProofs HeapProofs.

(** The values of a dict of array objects. *)
Definition rd (w : world) (d : dict href) : dict arr := map (fun kv => (fst kv, hread w (snd kv))) d.

Lemma rd_keys : forall w d, dkeys (rd w d) = dkeys d.
Proof. intros. unfold rd, dkeys. rewrite map_map. reflexivity. Qed.

Lemma rd_get : forall w d k, dget k (rd w d) = match dget k d with Some h => Some (hread w h) | None => None end.
Proof.
  intros. induction d as [|[a h] d IH]; simpl; auto. destruct (Z.eqb k a); auto.
Qed.

Lemma rd_set : forall w d k h, rd w (dset k h d) = dset k (hread w h) (rd w d).
Proof.
  intros. induction d as [|[a g] d IH]; simpl; auto. destruct (Z.eqb k a); simpl; congruence.
Qed.

Lemma rd_upto : forall w w' P D N (B : nat -> Prop) d, upto w w' P D N B ->
  (forall k h, In (k, h) d -> valid w h /\ ~ B (h_b h)) -> rd w' d = rd w d.
Proof.
  intros. unfold rd. apply map_ext_in. intros [k h] I. simpl. f_equal. destruct (H0 _ _ I).
  eapply hread_upto; eauto.
Qed.

Lemma rd_nil : forall w d, rd w d = [] <-> d = [].
Proof. intros; split; destruct d; simpl; intros; congruence. Qed.

Lemma same_keys_rd : forall w w' d d', same_keys (rd w d) (rd w' d') = same_keys d d'.
Proof.
  intros. unfold same_keys. rewrite !rd_keys.
  assert (M : forall w d k, dmem k (rd w d) = dmem k d).
  { intros. unfold dmem. rewrite rd_get. destruct (dget k d0); auto. }
  assert (F : forall A (f g : A -> bool) l, (forall x, f x = g x) -> forallb f l = forallb g l).
  { intros A f g l E. induction l; simpl; congruence. }
  f_equal; apply F; auto.
Qed.

Lemma p_data_view : forall w p, p_data (view w p) = rd w (dd w (k_data (pk w p))).
Proof. reflexivity. Qed.

(** ** Masks *)

Lemma view_hduration_req : forall w p req mi, wf w -> p < length (w_packs w) ->
  ~ data_buf w p (h_b (k_mask (pk w p))) ->
  view (hduration_req w p req mi) p = duration_req req mi (view w p).
Proof.
  intros w p req mi W Hp ND. pose proof W as [W1 [W2 W3]]. destruct (W3 p Hp) as [A [B V]].
  unfold hduration_req. set (m := duration_loop _ _ _ _). set (w1 := hstore w (k_mask (pk w p)) 0 (aelems m)).
  assert (R : hread w1 (k_mask (pk w p)) = m).
  { apply hread_store_same; auto.
    - unfold m. apply duration_loop_kind.
    - unfold m. rewrite duration_loop_len. apply hread_length; auto. }
  assert (U : upto w w1 none none none (only (h_b (k_mask (pk w p))))).
  { apply upto_store; auto; [reflexivity|]. unfold m. rewrite duration_loop_elems by auto. lia. }
  unfold view, duration_req, view_of. rewrite pk_set_pk_same by (simpl; auto). simpl.
  rewrite R. fold (rd w (dd w (k_data (pk w p)))).
  change (map (fun kv => (fst kv, hread (set_pk w1 p (kw_mask (pk w p) (k_mask (pk w p)) (slicelist m))) (snd kv)))
            (dd (set_pk w1 p (kw_mask (pk w p) (k_mask (pk w p)) (slicelist m))) (k_data (pk w p))))
    with (rd w1 (dd w (k_data (pk w p)))).
  rewrite (rd_upto w w1 _ _ _ _ _ U).
  2:{ intros k h I. split; [eapply W1; eauto|]. intros E. apply ND. exists k, h. auto. }
  change (hread (set_pk w1 p (kw_mask (pk w p) (k_mask (pk w p)) (slicelist m))) (k_mask (pk w p)))
    with (hread w1 (k_mask (pk w p))). rewrite R. reflexivity.
Qed.

Lemma view_happly_mindur : forall w p, wf w -> p < length (w_packs w) ->
  ~ data_buf w p (h_b (k_mask (pk w p))) -> view (happly_mindur w p) p = apply_mindur (view w p).
Proof.
  intros w p W Hp ND. unfold happly_mindur, apply_mindur. simpl p_mindur.
  destruct (k_mindur (pk w p)) as [m|]; auto. simpl. apply view_hduration_req; auto.
Qed.

Lemma view_hset_mask : forall w p h, wf w -> p < length (w_packs w) -> valid w h ->
  ~ data_buf w p (h_b h) -> view (hset_mask w p h) p = set_mask_arr (hread w h) (view w p).
Proof.
  intros w p h W Hp V ND. unfold hset_mask, set_mask_arr. pose proof W as [W1 [W2 W3]]. destruct (W3 p Hp) as [A [B C]].
  set (k1 := kw_mask _ _ _).
  assert (Hk : p < length (w_packs (set_pk w p k1))) by (simpl; rewrite upd_length; auto).
  rewrite view_happly_mindur; auto.
  - f_equal. unfold view. rewrite pk_set_pk_same by auto. reflexivity.
  - apply wf_set_pk; auto.
  - unfold data_buf. rewrite pk_set_pk_same by auto. exact ND.
Qed.

Lemma mask_reset_unfold : forall p, exists a, mask_reset p = set_mask_arr a p /\
  a = match zsort (dkeys (p_data p)) with
      | [] => np_array []
      | k :: _ => match dget k (p_data p) with Some x => np_self_eq x | None => empty_arr end
      end.
Proof.
  intros p. unfold mask_reset. destruct (zsort (dkeys (p_data p))) as [|k l] eqn:Z; [eauto|].
  destruct (dget k (p_data p)) as [x|] eqn:G; [eauto|]. exfalso.
  assert (I : In k (dkeys (p_data p))).
  { apply (proj1 (zsort_In _ _)). rewrite Z. left; auto. }
  apply (proj2 (@dget_Some_In _ _ _)) in I. destruct I as [v I]. congruence.
Qed.

Lemma view_alloc : forall w a p, wf w -> p < length (w_packs w) -> view (fst (halloc w a)) p = view w p.
Proof.
  intros w a p W Hp. apply (view_upto w (fst (halloc w a)) none none none none); auto; try (intros []; fail).
  apply upto_alloc.
Qed.

Lemma data_buf_alloc : forall w a p x, data_buf (fst (halloc w a)) p x <-> data_buf w p x.
Proof. intros; reflexivity. Qed.

Lemma data_buf_bound : forall w p x, wf w -> data_buf w p x -> x < length (w_bufs w).
Proof. intros w p x [W1 _] [k [h [I <-]]]. apply (W1 _ _ _ I). Qed.

Lemma view_hmask_reset : forall w p, wf w -> p < length (w_packs w) ->
  view (hmask_reset w p) p = mask_reset (view w p).
Proof.
  intros w p W Hp. destruct (hmask_reset_form w p) as [a [-> Ea]].
  destruct (mask_reset_unfold (view w p)) as [b [-> Eb]].
  assert (a = b) as <-.
  { subst. rewrite p_data_view, rd_keys. destruct (zsort _); auto. rewrite rd_get. destruct (dget z _); auto. }
  rewrite view_hset_mask.
  - rewrite hread_alloc_new, view_alloc by auto. reflexivity.
  - apply wf_alloc; auto.
  - exact Hp.
  - apply valid_alloc_new.
  - intros D. pose proof (data_buf_bound w p _ W D) as L. simpl in L. lia.
Qed.

(** ** append_pack *)

Lemma happend_loop_view : forall (l : dict arr) w i j, wf w -> i < length (w_dd w) -> NoDup (dkeys l) ->
  (forall k b, In (k, b) l -> exists h g, dget k (dd w j) = Some h /\ hread w h = b /\ dget k (dd w i) = Some g) ->
  rd (happend_loop w i j (dkeys l)) (dd (happend_loop w i j (dkeys l)) i) = append_loop l (rd w (dd w i)).
Proof.
  induction l as [|[k b] l IH]; intros w i j W Hi ND H; [reflexivity|].
  destruct (H k b) as [h [g [Gj [Rb Gi]]]]; [left; auto|].
  cbn [dkeys map fst happend_loop append_loop]. fold (dkeys l). rewrite Gi, Gj.
  set (x := np_append (hread w g) (hread w h)).
  change (halloc w x) with (fst (halloc w x), snd (halloc w x)). cbv iota beta.
  set (w1 := fst (halloc w x)). set (hx := snd (halloc w x)).
  set (w2 := set_dd w1 i (dset k hx (dd w1 i))).
  pose proof W as [W1 [W2 W3]].
  assert (Ww2 : wf w2).
  { unfold w2. pose proof (wf_alloc w x W) as Wa. apply wf_set_dd; auto.
    - intros k' h' I. apply dset_In in I. destruct I as [[-> ->]|I].
      + apply valid_alloc_new.
      + destruct Wa as [Wa _]. eapply Wa; eauto.
    - apply NoDup_dkeys_dset. apply W2. }
  assert (Edd : dd w2 i = dset k hx (dd w i)).
  { unfold w2. rewrite dd_set_dd, Nat.eqb_refl. simpl.
    rewrite (proj2 (Nat.ltb_lt _ _)) by auto. reflexivity. }
  assert (Rd : forall g', valid w g' -> hread w2 g' = hread w g').
  { intros g' V. change (hread w2 g') with (hread w1 g').
    apply (hread_upto w w1 none none none none); auto; apply upto_alloc. }
  assert (Er : rd w2 (dd w2 i) = dset k x (rd w (dd w i))).
  { rewrite Edd, rd_set. replace (hread w2 hx) with x by (symmetry; exact (hread_alloc_new w x)).
    replace (rd w2 (dd w i)) with (rd w (dd w i)); [reflexivity|symmetry].
    - unfold rd. apply map_ext_in. intros [k' h'] I. simpl. f_equal. apply Rd. eapply W1; eauto. }
  rewrite rd_get, Gi, <- Rb. fold x.
  inversion ND as [|? ? N1 N2]; subst.
  rewrite (IH w2 i j); auto.
  - rewrite Er. reflexivity.
  - unfold w2. simpl. rewrite upd_length. auto.
  - intros k' b' I. destruct (H k' b') as [h' [g' [Gj' [Rb' Gi']]]]; [right; auto|].
    assert (Ne : k' <> k).
    { intros ->. apply N1. apply in_map_iff. exists (k, b'). auto. }
    assert (Gi2 : dget k' (dd w2 i) = Some g').
    { rewrite Edd, dget_dset. destruct (Z.eqb_spec k' k); congruence. }
    destruct (Nat.eq_dec i j) as [<-|Nij].
    + exists g', g'. split; auto. split; auto.
      rewrite Rd by (eapply W1; eapply dget_In; eauto). congruence.
    + exists h', g'. split; [|split; auto].
      * unfold w2. rewrite dd_set_dd. destruct (Nat.eqb_spec j i); [congruence|]. simpl. auto.
      * rewrite Rd by (eapply W1; eapply dget_In; eauto). auto.
Qed.

Lemma same_keys_get : forall V V' (a : dict V) (b : dict V') k, same_keys a b = true -> In k (dkeys b) ->
  exists v, dget k a = Some v.
Proof.
  intros V V' a b k H I. unfold same_keys in H. apply andb_true_iff in H. destruct H as [_ H].
  rewrite forallb_forall in H. apply H in I. apply dmem_In in I. apply dget_Some_In in I. auto.
Qed.

Lemma view_same_data : forall w w' (P D N B : nat -> Prop) p, wf w -> p < length (w_packs w) ->
  upto w w' P D N B -> ~ D (k_data (pk w p)) -> (forall x, uses w p x -> ~ B x) ->
  ~ N (k_names (pk w p)) ->
  view_of w' (pk w p) = view w p.
Proof.
  intros w w' P D N B p [W1 [W2 W3]] Hp U HD HB HN. destruct (W3 _ Hp) as [Wd [Wn Wm]].
  assert (Edd : dd w' (k_data (pk w p)) = dd w (k_data (pk w p))) by (apply (u_dd _ _ _ _ _ _ U); auto).
  assert (End : nd w' (k_names (pk w p)) = nd w (k_names (pk w p))) by (apply (u_nm _ _ _ _ _ _ U); auto).
  unfold view, view_of. rewrite Edd, End.
  rewrite (hread_upto _ _ _ _ _ _ _ U Wm) by (apply HB; right; auto).
  f_equal. apply map_ext_in. intros [k h] I. simpl. f_equal.
  apply (hread_upto _ _ _ _ _ _ _ U); eauto. apply HB. left. exists k, h. auto.
Qed.

(** The data step of append_pack on values (Pack.v). *)
Definition vdata_step (o p : pack) : res pack :=
  match p_data p, p_data o with
  | [], _ => Ok (set_data_npdict (p_data o) p)
  | _ :: _, [] => Ok p
  | _ :: _, _ :: _ =>
      if same_keys (p_data p) (p_data o) then Ok (with_data p (append_loop (p_data o) (p_data p))) else Err ValueError
  end.

Lemma append_pack_steps : forall o p, append_pack o p =
  match vdata_step o p with
  | Err e => (p, Err e)
  | Ok p1 => match p_names p1, p_names o with
             | [], _ => (mask_reset (with_files (set_names (p_names o) p1) (p_files p1 ++ p_files o)), Ok tt)
             | _ :: _, [] => (mask_reset (with_files p1 (p_files p1 ++ p_files o)), Ok tt)
             | _ :: _, _ :: _ => if same_keys (p_names p1) (p_names o)
                 then (mask_reset (with_files p1 (p_files p1 ++ p_files o)), Ok tt) else (p1, Err ValueError)
             end
  end.
Proof. reflexivity. Qed.

Lemma view_append_data : forall w p q, wf w -> p < length (w_packs w) -> q < length (w_packs w) ->
  match append_data w p q with
  | Ok w1 => vdata_step (view w q) (view w p) = Ok (view w1 p)
  | Err e => vdata_step (view w q) (view w p) = Err e
  end.
Proof.
  intros w p q W Hp Hq. pose proof W as [W1 [W2 W3]]. destruct (W3 p Hp) as [Pd [Pn Pm]].
  unfold append_data, vdata_step. rewrite !p_data_view.
  destruct (dd w (k_data (pk w p))) as [|x d] eqn:Ep.
  - cbn [rd map]. apply f_equal. unfold hset_data_of, view. rewrite pk_set_pk_same by auto. reflexivity.
  - cbn [rd map]. change (map (fun kv => (fst kv, hread w (snd kv))) d) with (rd w d).
    destruct (dd w (k_data (pk w q))) as [|y d'] eqn:Eq; [reflexivity|].
    cbn [rd map]. change (map (fun kv => (fst kv, hread w (snd kv))) d') with (rd w d').
    change ((fst x, hread w (snd x)) :: rd w d) with (rd w (x :: d)).
    change ((fst y, hread w (snd y)) :: rd w d') with (rd w (y :: d')).
    rewrite same_keys_rd. destruct (same_keys (x :: d) (y :: d')) eqn:S; [|reflexivity].
    f_equal. rewrite <- Ep, <- Eq in *.
    set (i := k_data (pk w p)) in *. set (j := k_data (pk w q)) in *.
    pose proof (happend_loop_view (rd w (dd w j)) w i j W Pd) as L. rewrite rd_keys in L.
    specialize (L (W2 j)).
    assert (HH : forall k b, In (k, b) (rd w (dd w j)) ->
      exists h g, dget k (dd w j) = Some h /\ hread w h = b /\ dget k (dd w i) = Some g).
    { intros k b I. apply in_map_iff in I. destruct I as [[k' h] [E I]]. simpl in E. injection E as <- <-.
      destruct (same_keys_get _ _ _ _ k' S) as [g G]; [apply in_map_iff; exists (k', h); auto|].
      exists h, g. split; auto. apply dget_In_NoDup; auto. }
    specialize (L HH). set (w1 := happend_loop w i j (dkeys (dd w j))) in *.
    assert (U : upto w w1 none (only i) none none) by (apply happend_loop_upto; reflexivity).
    assert (Epk : pk w1 p = pk w p) by apply happend_loop_pk.
    unfold with_data, view. rewrite Epk. unfold view_of. cbn [p_names p_mask p_cache p_nof p_mindur p_prefix p_fn p_files].
    f_equal.
    + symmetry. exact L.
    + unfold nd. destruct (happend_loop_packs (dkeys (dd w j)) w i j) as [_ [E _]]. fold w1 in E. rewrite E. reflexivity.
    + symmetry. apply (hread_upto _ _ _ _ _ _ _ U); auto.
Qed.

Lemma view_append : forall w p q, wf w -> p < length (w_packs w) -> q < length (w_packs w) ->
  view (fst (happend w p q)) p = fst (append_pack (view w q) (view w p)) /\
  snd (happend w p q) = snd (append_pack (view w q) (view w p)).
Proof.
  intros w p q W Hp Hq. rewrite happend_steps, append_pack_steps.
  pose proof (view_append_data w p q W Hp Hq) as VD.
  destruct (append_data w p q) as [w1|e] eqn:E1; rewrite VD; [|auto].
  destruct (append_data_spec _ _ _ _ W Hp Hq E1) as [Ww1 [U1 [N1 [M1 [ND1 [L1 K1]]]]]].
  assert (NQ : nd w1 (k_names (pk w1 q)) = nd w (k_names (pk w q)) /\ k_files (pk w1 q) = k_files (pk w q) /\ k_files (pk w1 p) = k_files (pk w p)).
  { assert (F : k_files (pk w1 p) = k_files (pk w p)).
    { unfold append_data in E1. destruct (dd w (k_data (pk w p))).
      - injection E1 as <-. unfold hset_data_of. rewrite pk_set_pk_same by auto. reflexivity.
      - destruct (dd w (k_data (pk w q))); [injection E1 as <-; auto|].
        destruct (same_keys _ _); [|discriminate]. match type of E1 with context [happend_loop _ _ _ ?ks] => set (kk := ks) in *; clearbody kk end.
        injection E1 as <-. rewrite happend_loop_pk. auto. }
    destruct (Nat.eq_dec q p) as [->|Q].
    - rewrite N1. unfold nd. rewrite ND1. auto.
    - rewrite (u_pk _ _ _ _ _ _ U1 q) by auto. unfold nd. rewrite ND1. auto. }
  destruct NQ as [NQ [FQ FP]].
  assert (FIN : forall w2, wf w2 -> p < length (w_packs w2) ->
     view (append_finish w2 p q) p = mask_reset (with_files (view w2 p) (k_files (pk w2 p) ++ k_files (pk w2 q)))).
  { intros w2 Ww2 H2. unfold append_finish. pose proof Ww2 as [X1 [X2 X3]]. destruct (X3 p H2) as [Y1 [Y2 Y3]].
    rewrite view_hmask_reset.
    - f_equal. unfold view at 1. rewrite pk_set_pk_same by auto. reflexivity.
    - apply wf_set_pk; auto.
    - simpl. rewrite upd_length. auto. }
  assert (Hp1 : p < length (w_packs w1)) by lia.
  unfold append_names. change (p_names (view w1 p)) with (nd w1 (k_names (pk w1 p))).
  change (p_names (view w q)) with (nd w (k_names (pk w q))). rewrite NQ.
  assert (E2 : view (append_finish w1 p q) p = mask_reset (with_files (view w1 p) (p_files (view w1 p) ++ p_files (view w q)))).
  { rewrite FIN by auto. simpl p_files. rewrite FQ. reflexivity. }
  destruct (nd w1 (k_names (pk w1 p))) as [|x n] eqn:En.
  - assert (E3 : append_names w1 p q = Ok (hset_names_of w1 p q)) by (unfold append_names; rewrite En; auto).
    destruct (append_names_spec w1 p q _ Ww1 ltac:(lia) ltac:(lia) E3) as [Ww2 _].
    cbn [fst snd]. split; auto.
    rewrite FIN; auto.
    + f_equal. unfold hset_names_of. rewrite pk_set_pk_same by auto.
      assert (Fq : k_files (pk (set_pk w1 p (kw_names (pk w1 p) (k_names (pk w1 q)))) q) = k_files (pk w1 q)).
      { rewrite pk_set_pk. destruct (Nat.eqb_spec q p); simpl; auto. subst. destruct (p <? _); auto. }
      rewrite Fq, FQ. unfold view at 1. rewrite pk_set_pk_same by auto. unfold view_of, with_files, set_names, with_names, view.
      simpl. change (nd (set_pk w1 p (kw_names (pk w1 p) (k_names (pk w1 q)))) (k_names (pk w1 q))) with (nd w1 (k_names (pk w1 q))).
      rewrite NQ. reflexivity.
    + unfold hset_names_of. simpl. rewrite upd_length. auto.
  - destruct (nd w (k_names (pk w q))) as [|y n'] eqn:Eq.
    + cbn [fst snd]. auto.
    + destruct (same_keys (x :: n) (y :: n')); cbn [fst snd]; auto.
Qed.

(** ** startstop *)

Lemma view_hstartstop : forall w p a b ap, wf w -> p < length (w_packs w) ->
  (ap = true -> ~ data_buf w p (h_b (k_mask (pk w p)))) ->
  view (fst (hstartstop w p a b ap)) p = fst (startstop a b ap (view w p)) /\
  match snd (hstartstop w p a b ap) with
  | Ok h => snd (startstop a b ap (view w p)) = Ok (hread (fst (hstartstop w p a b ap)) h)
  | Err e => snd (startstop a b ap (view w p)) = Err e
  end.
Proof.
  intros w p a b ap W Hp ND. pose proof W as [W1 [W2 W3]]. destruct (W3 p Hp) as [Pd [Pn Pm]].
  unfold hstartstop, startstop. set (r := np_array _).
  change (halloc w r) with (fst (halloc w r), snd (halloc w r)). cbv iota beta.
  set (w1 := fst (halloc w r)). set (hr := snd (halloc w r)).
  assert (Rr : hread w1 hr = r) by apply hread_alloc_new.
  assert (V1 : view w1 p = view w p) by (apply view_alloc; auto).
  destruct ap; [|cbn [fst snd]; rewrite Rr; auto].
  change (pk w1 p) with (pk w p). set (h := k_mask (pk w p)) in *.
  assert (U1 : upto w w1 none none none none) by apply upto_alloc.
  assert (Rm : hread w1 h = p_mask (view w p)) by (apply (hread_upto w w1 _ _ _ _ _ U1); auto).
  assert (Ww1 : wf w1) by (apply wf_alloc; auto).
  assert (Vh : valid w1 h) by (eapply valid_upto; eauto).
  rewrite Rr, Rm. destruct (np_iand (p_mask (view w p)) r) as [m|e] eqn:E; cbn [fst snd]; [|auto].
  destruct (np_iand_shape _ _ _ E) as [S1 S2].
  assert (Lm : length (aelems m) = h_len h) by (change (alen m = h_len h); rewrite S2, <- Rm; apply hread_length; auto).
  set (w2 := hstore w1 h 0 (aelems m)).
  assert (Ww2 : wf w2) by (apply wf_store; auto; lia).
  assert (U2 : upto w1 w2 none none none (only (h_b h))) by (apply upto_store; auto; [reflexivity|lia]).
  assert (Vs : valid w2 h) by (eapply valid_upto; eauto).
  assert (Rs : hread w2 h = m).
  { apply hread_store_same; auto. rewrite S1, Rm. reflexivity. }
  assert (NDB : ~ data_buf w2 p (h_b h)) by (exact (ND eq_refl)).
  assert (Fr : hread (hset_mask w2 p h) hr = r).
  { assert (Nh : h_b hr <> h_b h) by (intros X; destruct Pm as [Pm1 _]; fold h in Pm1; rewrite <- X in Pm1; unfold hr in Pm1; simpl in Pm1; lia).
    assert (Vr : valid w1 hr) by apply valid_alloc_new.
    rewrite (hread_upto w2 _ (only p) none none (only (h_b h))).
    - rewrite (hread_upto w1 w2 _ _ _ _ _ U2); auto.
    - apply hset_mask_upto; auto; reflexivity.
    - eapply valid_upto; eauto.
    - exact Nh. }
  split; [|rewrite Fr; auto].
  rewrite view_hset_mask by auto. rewrite Rs. cbn [fst].
  unfold set_mask_arr. f_equal. unfold with_cache, with_mask. 
  assert (D2 : p_data (view w2 p) = p_data (view w p)).
  { rewrite <- V1, !p_data_view. change (dd w2 (k_data (pk w2 p))) with (dd w1 (k_data (pk w1 p))).
    apply (rd_upto w1 w2 _ _ _ _ _ U2). intros k g I. split; [destruct Ww1 as [Q _]; eapply Q; eauto|].
    intros X. apply (ND eq_refl). exists k, g. split; auto. }
  rewrite D2. reflexivity.
Qed.

(** ** Calls *)

Lemma skipn_skipn_add : forall A (l : list A) x y, skipn x (skipn y l) = skipn (y + x) l.
Proof.
  induction l; intros; destruct y; simpl; auto. destruct x; auto.
Qed.

Lemma slice_hslice : forall w h sc, valid w h -> hread w (hslice h sc) = np_slice (hread w h) sc.
Proof.
  intros w h [a b] [V1 V2]. unfold np_slice, hslice, hread. cbn [h_b h_off h_len fst snd akind aelems].
  f_equal. unfold slice.
  set (l := aelems (buf w (h_b h))) in *.
  rewrite !skipn_firstn_comm, skipn_skipn_add, firstn_firstn.
  destruct (Nat.le_gt_cases a (h_len h)).
  - rewrite (Nat.min_l a) by lia. f_equal; lia.
  - rewrite (Nat.min_r a) by lia.
    replace (Nat.min b (h_len h) - h_len h) with 0 by lia.
    replace (h_len h - a) with 0 by lia. rewrite Nat.min_0_r. reflexivity.
Qed.

Lemma valid_hslice : forall w h sc, valid w h -> valid w (hslice h sc).
Proof. intros w h [a b] [V1 V2]. split; simpl; auto. lia. Qed.

(** The outcome of a call, as a value. *)
Lemma hcall_view : forall w p ch part nof, wf w -> p < length (w_packs w) ->
  match snd (hcall w p ch part nof) with
  | Ok h => call (view w p) ch part nof = Ok (hread (fst (hcall w p ch part nof)) h)
  | Err e => call (view w p) ch part nof = Err e
  end.
Proof.
  intros w p ch part nof W Hp. unfold hcall, call.
  destruct (datakey (view w p) ch) as [key|e]; cbn [bind]; [|reflexivity].
  unfold get_data. rewrite p_data_view, rd_get.
  destruct (dget key (dd w (k_data (pk w p)))) as [h|] eqn:G; cbn [bind]; [|reflexivity].
  assert (V : valid w h) by (destruct W as [W1 _]; eapply W1; eapply dget_In; eauto).
  change (p_cache (view w p)) with (k_cache (pk w p)).
  change (p_mask (view w p)) with (hread w (k_mask (pk w p))).
  change (p_nof (view w p)) with (k_nof (pk w p)).
  destruct part as [i|].
  - destruct (py_index (k_cache (pk w p)) i) as [sc|]; cbn [fst snd]; [|reflexivity].
    rewrite slice_hslice; auto.
  - assert (F : forall r : res arr,
       match snd (match r with Ok a => let '(w1, h) := halloc w a in (w1, Ok h) | Err e => (w, Err e) end) with
       | Ok g => r = Ok (hread (fst (match r with Ok a => let '(w1, h) := halloc w a in (w1, Ok h) | Err e => (w, Err e) end)) g)
       | Err e => r = Err e
       end).
    { intros [a|e]; simpl; auto. rewrite <- (hread_alloc_new w a) at 1. reflexivity. }
    repeat match goal with |- context [if ?c then _ else _] => destruct c end; try apply F; reflexivity.
Qed.

(** ** One operation on a pack whose mask array is not one of its channels *)

Definition mask_apart (w : world) (o : hop) (p : nat) : Prop :=
  match o with
  | HMask _ h => ~ data_buf w p (h_b h)
  | _ => ~ data_buf w p (h_b (k_mask (pk w p)))
  end.

Definition outcome {A} (r : res A) : res unit := match r with Ok _ => Ok tt | Err e => Err e end.

Lemma step_refines : forall w o p v, wf w -> args_ok w o -> target o = Some p -> mask_apart w o p ->
  as_value_op w o = Some v ->
  view (fst (hexec w o)) p = fst (exec v (view w p)) /\ outcome (snd (hexec w o)) = snd (exec v (view w p)).
Proof.
  intros w o p v W A T M E. pose proof A as [TP A']. rewrite T in TP. pose proof W as [W1 [W2 W3]].
  destruct (W3 _ TP) as [Pd [Pn Pm]].
  destruct o; simpl in T; try discriminate; injection T as ->; simpl in A', E, M; cbn [hexec fst snd].
  - injection E as <-. cbn [exec fst snd]. split; auto. destruct A' as [A1 A2].
    unfold hset_data. set (w1 := mkw _ _ _ _). set (k1 := kw_data _ _).
    assert (Ww1 : wf w1) by (apply wf_add_dd; auto).
    assert (Wf2 : wf (set_pk w1 p k1)).
    { apply wf_set_pk; auto; simpl; rewrite ?app_length; simpl; auto; lia. }
    rewrite view_hmask_reset by (auto; simpl; rewrite upd_length; auto).
    unfold set_data_plain. f_equal. unfold view. rewrite pk_set_pk_same by auto. unfold view_of, with_data. simpl.
    f_equal. f_equal. unfold dd, set_pk, w1. simpl. rewrite nth_snoc, Nat.eqb_refl. reflexivity.
  - injection E as <-. cbn [exec fst snd]. split; auto. unfold hset_data_of, view.
    rewrite pk_set_pk_same by auto. reflexivity.
  - injection E as <-. cbn [exec fst snd]. split; auto. unfold with_data. rewrite p_data_view, <- rd_set.
    unfold view, view_of, hdata_item. simpl. f_equal.
    rewrite dd_set_dd. change (pk (set_dd w (k_data (pk w p)) (dset k h (dd w (k_data (pk w p))))) p) with (pk w p).
    rewrite Nat.eqb_refl, (proj2 (Nat.ltb_lt _ _)) by auto. reflexivity.
  - injection E as <-. cbn [exec fst snd]. split; auto. unfold hset_names, view.
    rewrite pk_set_pk_same by auto. unfold view_of, set_names, with_names. simpl. f_equal.
    unfold nd, set_pk. simpl. rewrite nth_snoc, Nat.eqb_refl. reflexivity.
  - injection E as <-. cbn [exec fst snd]. split; auto. unfold hset_names_of, view.
    rewrite pk_set_pk_same by auto. reflexivity.
  - injection E as <-. cbn [exec fst snd]. split; auto. unfold hname_item, view, view_of, set_names, with_names. simpl. f_equal.
    unfold nd, set_nd. simpl. change (pk {| w_bufs := w_bufs w; w_dd := w_dd w; w_nd := upd (k_names (pk w p)) (dset k v0 (nth (k_names (pk w p)) (w_nd w) [])) (w_nd w); w_packs := w_packs w |} p) with (pk w p).
    rewrite nth_upd, Nat.eqb_refl, (proj2 (Nat.ltb_lt _ _)) by auto. reflexivity.
  - injection E as <-. cbn [exec set_mask fst snd]. split; auto. apply view_hset_mask; auto.
  - set (k1 := kw_mindur (pk w p) v0). assert (Wk : wf (set_pk w p k1)) by (apply wf_set_pk; auto).
    assert (G : view (happly_mindur (set_pk w p k1) p) p = apply_mindur (with_mindur (view w p) v0)).
    { rewrite view_happly_mindur; auto.
      - f_equal. unfold view. rewrite pk_set_pk_same by auto. reflexivity.
      - simpl. rewrite upd_length; auto.
      - unfold data_buf. rewrite pk_set_pk_same by auto. exact M. }
    destruct v0; injection E as <-; cbn [exec set_mindur fst snd]; auto.
  - injection E as <-. cbn [exec]. unfold set_nof. destruct (is_array v0), (nof_valid v0); cbn [fst snd]; split; auto.
    unfold view. rewrite pk_set_pk_same by auto. reflexivity.
  - injection E as <-. cbn [exec set_prefix fst snd]. split; auto. unfold view. rewrite pk_set_pk_same by auto. reflexivity.
  - injection E as <-. cbn [exec set_fn fst snd]. split; auto. unfold view. rewrite pk_set_pk_same by auto. reflexivity.
  - injection E as <-. cbn [exec fst snd]. split; auto. apply view_hmask_reset; auto.
  - injection E as <-. cbn [exec]. unfold harr, hduration, duration. cbn [fst snd].
    destruct (req_duration d s) as [r|e]; cbn [fst snd forget outcome]; auto.
    split; auto. apply view_hduration_req; auto.
  - injection E as <-. cbn [exec]. unfold harr. cbn [fst snd].
    destruct (view_hstartstop w p a b apply W TP (fun _ => M)) as [V R].
    destruct (startstop a b apply (view w p)) as [p' r]. cbn [fst snd] in *. split; auto.
    destruct (snd (hstartstop w p a b apply)); rewrite R; reflexivity.
  - injection E as <-. cbn [exec]. unfold hunit. cbn [fst snd].
    destruct (view_append w p q W TP A') as [V R]. split; auto. rewrite <- R.
    destruct (snd (happend w p q)) as [[]|]; reflexivity.
Qed.

(** ** Parts reflect the mask, with sharing *)

Definition hcoherent (w : world) (b : nat) : Prop := k_cache (pk w b) = slicelist (hread w (k_mask (pk w b))).

Lemma hcoherent_upto : forall w w' (P D N B : nat -> Prop) b, wf w -> b < length (w_packs w) ->
  upto w w' P D N B -> pk w' b = pk w b -> ~ B (h_b (k_mask (pk w b))) -> hcoherent w b -> hcoherent w' b.
Proof.
  intros w w' P D N B b [_ [_ W3]] Hb U E NB H. unfold hcoherent. rewrite E, H. f_equal. symmetry.
  destruct (W3 _ Hb) as [_ [_ V]]. apply (hread_upto _ _ _ _ _ _ _ U V NB).
Qed.

Lemma hduration_req_coherent : forall w p req mi, p < length (w_packs w) -> hcoherent (hduration_req w p req mi) p.
Proof.
  intros w p req mi Hp. unfold hcoherent, hduration_req. rewrite pk_set_pk_same by auto. reflexivity.
Qed.

Lemma happly_mindur_coherent : forall w p, p < length (w_packs w) -> hcoherent w p -> hcoherent (happly_mindur w p) p.
Proof.
  intros w p Hp H. unfold happly_mindur. destruct (k_mindur (pk w p)); auto. simpl. apply hduration_req_coherent; auto.
Qed.

Lemma hset_mask_coherent : forall w p h, p < length (w_packs w) -> hcoherent (hset_mask w p h) p.
Proof.
  intros w p h Hp. unfold hset_mask. apply happly_mindur_coherent; [simpl; rewrite upd_length; auto|].
  unfold hcoherent. rewrite pk_set_pk_same by auto. reflexivity.
Qed.

Lemma hmask_reset_coherent : forall w p, p < length (w_packs w) -> hcoherent (hmask_reset w p) p.
Proof.
  intros w p Hp. destruct (hmask_reset_form w p) as [a [-> _]]. apply hset_mask_coherent. auto.
Qed.

Lemma hcoherent_pk : forall w p k, p < length (w_packs w) -> k_mask k = k_mask (pk w p) -> k_cache k = k_cache (pk w p) ->
  hcoherent w p -> hcoherent (set_pk w p k) p.
Proof.
  intros w p k Hp E1 E2 H. unfold hcoherent. rewrite pk_set_pk_same by auto. rewrite E1, E2, H. reflexivity.
Qed.

(** The pack operated on. *)
Lemma step_coherent_target : forall w o p, wf w -> args_ok w o -> target o = Some p -> hcoherent w p ->
  hcoherent (fst (hexec w o)) p.
Proof.
  intros w o p W A T H. pose proof A as [TP A']. rewrite T in TP. pose proof W as [W1 [W2 W3]].
  destruct (W3 _ TP) as [Pd [Pn Pm]].
  destruct o; simpl in T; try discriminate; injection T as ->; simpl in A'; cbn [hexec fst snd].
  - unfold hset_data. apply hmask_reset_coherent. simpl. rewrite upd_length. auto.
  - apply hcoherent_pk; auto.
  - exact H.
  - unfold hset_names. apply hcoherent_pk; auto.
  - apply hcoherent_pk; auto.
  - exact H.
  - apply hset_mask_coherent; auto.
  - apply happly_mindur_coherent; [simpl; rewrite upd_length; auto|]. apply hcoherent_pk; auto.
  - destruct (is_array v), (nof_valid v); cbn [fst]; auto. apply hcoherent_pk; auto.
  - apply hcoherent_pk; auto.
  - apply hcoherent_pk; auto.
  - apply hmask_reset_coherent; auto.
  - unfold harr, hduration. destruct (req_duration d s); cbn [fst]; auto. apply hduration_req_coherent; auto.
  - unfold harr, hstartstop. cbn [fst]. set (r := np_array _).
    change (halloc w r) with (fst (halloc w r), snd (halloc w r)). cbv iota beta.
    set (w1 := fst (halloc w r)). set (hr := snd (halloc w r)).
    assert (C1 : hcoherent w1 p).
    { apply (hcoherent_upto w w1 none none none none); auto. apply upto_alloc. }
    destruct apply; [|exact C1]. change (pk w1 p) with (pk w p).
    destruct (np_iand _ _); cbn [fst]; [|exact C1]. apply hset_mask_coherent. auto.
  - unfold hunit. cbn [fst]. rewrite happend_steps.
    destruct (append_data w p q) as [w1|e] eqn:E1; cbn [fst]; [|auto].
    destruct (append_data_spec _ _ _ _ W TP A' E1) as [Ww1 [U1 [N1 [M1 [ND1 [L1 K1]]]]]].
    destruct (append_names w1 p q) as [w2|e] eqn:E2; cbn [fst].
    + destruct (append_names_spec w1 p q w2 Ww1 ltac:(lia) ltac:(lia) E2) as [Ww2 [U2 [D2 [M2 [DD2 [ND2 [B2 [L2 K2]]]]]]]].
      unfold append_finish. apply hmask_reset_coherent. simpl. rewrite upd_length. lia.
    + unfold hcoherent. rewrite M1.
      assert (Ck : k_cache (pk w1 p) = k_cache (pk w p)).
      { unfold append_data in E1. destruct (dd w (k_data (pk w p))).
        - injection E1 as <-. unfold hset_data_of. rewrite pk_set_pk_same by auto. reflexivity.
        - destruct (dd w (k_data (pk w q))); [injection E1 as <-; auto|].
          destruct (same_keys _ _); [|discriminate]. match type of E1 with context [happend_loop _ _ _ ?ks] => set (kk := ks) in *; clearbody kk end.
          injection E1 as <-. rewrite happend_loop_pk. auto. }
      rewrite Ck, H. f_equal. symmetry. apply (hread_upto _ _ _ _ _ _ _ U1); auto.
Qed.

Lemma hnew_pack : forall w d n, 
  let w' := fst (hnew w d n) in let p := length (w_packs w) in
  length (w_packs w') = S p /\ hcoherent w' p /\ length (w_bufs w) <= h_b (k_mask (pk w' p)).
Proof.
  intros w d n w' p. unfold w', hnew. cbn [fst]. set (k0 := mkhp _ _ _ _ _ _ _ _ _). set (w1 := mkw _ _ _ _).
  assert (L1 : length (w_packs w1) = S (length (w_packs w))) by (unfold w1; simpl; rewrite app_length; simpl; lia).
  assert (Hp : length (w_packs w) < length (w_packs w1)) by lia.
  split; [|split].
  - destruct (hmask_reset_form w1 (length (w_packs w))) as [a [-> _]].
    unfold hset_mask, happly_mindur. 
    match goal with |- context [match ?x with Some _ => _ | None => _ end] => destruct x end; simpl; rewrite !upd_length; exact L1.
  - apply hmask_reset_coherent; auto.
  - destruct (hmask_reset_ids w1 (length (w_packs w)) Hp) as [_ [_ Z]]. unfold p. rewrite Z. simpl. lia.
Qed.

Lemma happly_mindur_len : forall w p, length (w_packs (happly_mindur w p)) = length (w_packs w).
Proof.
  intros. unfold happly_mindur. destruct (k_mindur (pk w p)); auto. simpl. apply upd_length.
Qed.

Lemma hset_mask_len : forall w p h, length (w_packs (hset_mask w p h)) = length (w_packs w).
Proof. intros. unfold hset_mask. rewrite happly_mindur_len. simpl. apply upd_length. Qed.

Lemma hmask_reset_len : forall w p, length (w_packs (hmask_reset w p)) = length (w_packs w).
Proof. intros. destruct (hmask_reset_form w p) as [a [-> _]]. rewrite hset_mask_len. reflexivity. Qed.

Lemma hexec_len_same : forall w o p, wf w -> args_ok w o -> target o = Some p ->
  length (w_packs (fst (hexec w o))) = length (w_packs w).
Proof.
  intros w o p W A T. pose proof A as [TP A']. rewrite T in TP.
  destruct o; simpl in T; try discriminate; injection T as ->; simpl in A'; cbn [hexec fst snd].
  all: try (simpl; rewrite ?upd_length; reflexivity).
  - unfold hset_data. rewrite hmask_reset_len. simpl. apply upd_length.
  - apply hset_mask_len.
  - rewrite happly_mindur_len. simpl. apply upd_length.
  - destruct (is_array v), (nof_valid v); simpl; rewrite ?upd_length; auto.
  - apply hmask_reset_len.
  - unfold harr, hduration. destruct (req_duration d s); simpl; rewrite ?upd_length; auto.
  - unfold harr, hstartstop. cbn [fst]. set (r := np_array _).
    change (halloc w r) with (fst (halloc w r), snd (halloc w r)). cbv iota beta.
    destruct apply; [|reflexivity].
    destruct (np_iand _ _); cbn [fst]; [|reflexivity]. rewrite hset_mask_len. reflexivity.
  - unfold hunit. cbn [fst]. rewrite happend_steps.
    destruct (append_data w p q) as [w1|e] eqn:E1; cbn [fst]; [|auto].
    destruct (append_data_spec _ _ _ _ W TP A' E1) as [Ww1 [U1 [N1 [M1 [ND1 [L1 K1]]]]]].
    destruct (append_names w1 p q) as [w2|e] eqn:E2; cbn [fst]; [|auto].
    destruct (append_names_spec w1 p q w2 Ww1 ltac:(lia) ltac:(lia) E2) as [Ww2 [U2 [D2 [M2 [DD2 [ND2 [B2 [L2 K2]]]]]]]].
    unfold append_finish. rewrite hmask_reset_len. simpl. rewrite upd_length. lia.
Qed.

Lemma step_coherent : forall w o b, wf w -> b < length (w_packs w) -> args_ok w o -> leaves_mask w b o ->
  owns_mask w b -> hcoherent w b ->
  hcoherent (fst (hexec w o)) b /\ owns_mask (fst (hexec w o)) b.
Proof.
  intros w o b W Hb A K O H. destruct (hexec_spec w o W A) as [W' U]. pose proof W as [W1 [W2 W3]].
  assert (Lb : h_b (k_mask (pk w b)) < length (w_bufs w)) by apply (W3 b Hb).
  assert (NEW : forall d n, o = HNew d n -> hcoherent (fst (hexec w o)) b /\ owns_mask (fst (hexec w o)) b).
  { intros d n ->. assert (Epk : forall c, c < length (w_packs w) -> pk (fst (hexec w (HNew d n))) c = pk w c).
    { intros c Hc. apply (u_pk _ _ _ _ _ _ U); auto. intros X. discriminate X. }
    split.
    - apply (hcoherent_upto _ _ _ _ _ _ b W Hb U (Epk b Hb)); [intros []|exact H].
    - destruct (hnew_pack w d n) as [L [_ M]]. intros c Hc Ne. rewrite (Epk b) by auto.
      cbn [hexec fst] in Hc |- *. rewrite L in Hc. destruct (Nat.eq_dec c (length (w_packs w))) as [->|].
      + lia.
      + pose proof (Epk c ltac:(lia)) as X; cbn [hexec fst] in X; rewrite X; clear X. apply O; auto. lia. }
  destruct (target o) as [p|] eqn:T.
  - assert (TP : p < length (w_packs w)) by (destruct A as [TP _]; rewrite T in TP; auto).
    assert (LEN : length (w_packs (fst (hexec w o))) = length (w_packs w)).
    { apply (hexec_len_same w o p); auto. }
    destruct (Nat.eq_dec p b) as [->|Ne].
    + split; [apply step_coherent_target; auto|].
      intros c Hc Nc. rewrite LEN in Hc. rewrite (u_pk _ _ _ _ _ _ U c) by (auto; unfold pack_changed; congruence).
      destruct (hexec_post w o b W A T) as [_ [_ P3]].
      destruct P3 as [->|[P3|[h [-> E]]]]; auto.
      * assert (h_b (k_mask (pk w c)) < length (w_bufs w)) by apply (W3 c Hc). lia.
      * simpl in K. rewrite Nat.eqb_refl in K. rewrite E. auto.
    + assert (Epk : pk (fst (hexec w o)) b = pk w b).
      { apply (u_pk _ _ _ _ _ _ U); auto. unfold pack_changed. congruence. }
      assert (NB : ~ writes w o (h_b (k_mask (pk w b)))).
      { intros X. assert (Om := O p TP Ne).
        destruct o; simpl in X, T, K; try contradiction; try discriminate; injection T as ->; try congruence.
        - destruct (Nat.eqb_spec p b); congruence.
        - destruct X; congruence. }
      split; [exact (hcoherent_upto _ _ _ _ _ _ b W Hb U Epk NB H)|].
      intros c Hc Nc. rewrite LEN in Hc. rewrite Epk.
      destruct (Nat.eq_dec c p) as [->|Ncp].
      * destruct (hexec_post w o p W A T) as [_ [_ P3]].
        destruct P3 as [->|[P3|[h [-> E]]]]; auto; [lia|].
        simpl in K. destruct (Nat.eqb_spec p b); [congruence|]. rewrite E. auto.
      * rewrite (u_pk _ _ _ _ _ _ U c) by (auto; unfold pack_changed; congruence). apply O; auto.
  - destruct o; simpl in T; try discriminate; try (eapply NEW; reflexivity; fail).
    + split; [|exact O]. apply (hcoherent_upto _ _ _ _ _ _ b W Hb U eq_refl); [intros []|exact H].
    + assert (NB : ~ writes w (HWrite h i v) (h_b (k_mask (pk w b)))) by (simpl in *; congruence).
      split; [|cbn [hexec]; destruct (Nat.ltb _ _); exact O].
      apply (hcoherent_upto _ _ _ _ _ _ b W Hb U); [cbn [hexec]; destruct (Nat.ltb _ _); reflexivity|exact NB|exact H].
    + assert (Epk : w_packs (fst (hexec w (HCall p ch part nof))) = w_packs w).
      { cbn [hexec]. unfold harr, hcall. cbn [fst].
        assert (F : forall r : res arr,
           w_packs (fst (match r with Ok a => let '(w1, h) := halloc w a in (w1, Ok h) | Err e => (w, Err e) end)) = w_packs w).
        { intros [a|e]; reflexivity. }
        destruct (datakey (view w p) ch); [|reflexivity].
        destruct (dget a (dd w (k_data (pk w p)))); [|reflexivity].
        destruct part as [i|]; [destruct (py_index _ i); reflexivity|].
        repeat match goal with |- context [if ?c then _ else _] => destruct c end; try apply F; reflexivity. }
      split.
      * apply (hcoherent_upto _ _ _ _ _ _ b W Hb U); [unfold pk; rewrite Epk; reflexivity|intros []|exact H].
      * intros c. unfold pk. rewrite Epk. apply O.
Qed.

Lemma history_coherent : forall l w b, wf w -> b < length (w_packs w) -> owns_mask w b -> hcoherent w b ->
  history (fun w o => args_ok w o /\ leaves_mask w b o) w l ->
  wf (hrun w l) /\ hcoherent (hrun w l) b /\ owns_mask (hrun w l) b.
Proof.
  induction l as [|o l IH]; intros w b W Hb O H Hi; [simpl; auto|].
  apply history_cons in Hi. destruct Hi as [[A K] Hi].
  destruct (step_coherent w o b W Hb A K O H) as [C1 O1]. destruct (hexec_spec w o W A) as [W' _].
  pose proof (hexec_len w o W A). apply (IH (fst (hexec w o)) b); auto. lia.
Qed.

(** ** Append copies *)

Lemma happend_loop_fresh : forall keys w i j k h, i < length (w_dd w) -> NoDup (dkeys (dd w i)) ->
  (forall k, In k keys -> dmem k (dd w i) = true /\ dmem k (dd w j) = true) ->
  In (k, h) (dd (happend_loop w i j keys) i) -> (length (w_bufs w) <= h_b h) \/ (In (k, h) (dd w i) /\ ~ In k keys).
Proof.
  induction keys as [|x keys IH]; intros w i j k h Hi ND HK I; [right; auto|].
  simpl in I. destruct (HK x (or_introl eq_refl)) as [Ga Gb].
  unfold dmem in Ga, Gb. destruct (dget x (dd w i)) as [a|] eqn:Ea; [|discriminate].
  destruct (dget x (dd w j)) as [b|] eqn:Eb; [|discriminate].
  set (w2 := set_dd _ i _) in I.
  assert (Edd : dd w2 i = dset x (mkh (length (w_bufs w)) 0 (alen (np_append (hread w a) (hread w b)))) (dd w i)).
  { unfold w2. rewrite dd_set_dd, Nat.eqb_refl. simpl. rewrite (proj2 (Nat.ltb_lt _ _)) by auto. reflexivity. }
  assert (M : forall k' n, dmem k' (dd w n) = true -> dmem k' (dd w2 n) = true).
  { intros k' n D. apply dmem_In. apply dmem_In in D. unfold w2. rewrite dd_set_dd.
    destruct (Nat.eqb_spec n i); simpl; auto. subst. rewrite (proj2 (Nat.ltb_lt _ _)) by auto.
    apply In_dkeys_dset. right. auto. }
  apply IH in I.
  - simpl in I. rewrite app_length in I. simpl in I. destruct I as [I|[I N]]; [left; lia|].
    rewrite Edd in I. destruct (Z.eq_dec k x) as [->|Ne].
    + left. apply dget_In_NoDup in I; [|apply NoDup_dkeys_dset; auto].
      rewrite dget_dset, Z.eqb_refl in I. injection I as <-. simpl. lia.
    + apply dset_In in I. destruct I as [[-> _]|I]; [congruence|]. right. split; auto. simpl. intuition.
  - unfold w2. simpl. rewrite upd_length. auto.
  - rewrite Edd. apply NoDup_dkeys_dset. auto.
  - intros k' Ik. destruct (HK k' (or_intror Ik)). split; apply M; auto.
Qed.
