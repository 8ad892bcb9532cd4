(** * Histories of operations on worlds *)

From Coq Require Import ZifyBool ZifyNat ZifyN.
From Verif Require Import PyBase PyBaseFacts PyFloat NumPy DataUtils Pack PackHeap SpecHeap MaskProofs PackProofs HeapProofs HeapRefine.

(** ** Where the arrays in dicts come from *)

Lemma happend_loop_dd : forall keys w i j n k h, i < length (w_dd w) ->
  In (k, h) (dd (happend_loop w i j keys) n) -> In (k, h) (dd w n) \/ length (w_bufs w) <= h_b h.
Proof.
  induction keys as [|x keys IH]; intros w i j n k h Hi I; [left; auto|].
  simpl in I. destruct (dget x (dd w i)) as [a|] eqn:Ea; [|apply IH in I; auto].
  destruct (dget x (dd w j)) as [b|] eqn:Eb; [|apply IH in I; auto].
  apply IH in I; [|simpl; rewrite upd_length; auto].
  destruct I as [I|I]; [|right; simpl in I; rewrite app_length in I; simpl in I; lia].
  rewrite dd_set_dd in I. destruct (_ && _)%bool eqn:C; [|left; exact I].
  apply andb_true_iff in C. destruct C as [C _]. apply Nat.eqb_eq in C. subst n.
  apply dset_In in I. destruct I as [[-> ->]|I]; [right; simpl; lia|left; exact I].
Qed.

Lemma w_dd_set_mask : forall w p h, w_dd (hset_mask w p h) = w_dd w.
Proof.
  intros. unfold hset_mask, happly_mindur.
  match goal with |- context [match ?x with Some _ => _ | None => _ end] => destruct x end; reflexivity.
Qed.

Lemma w_dd_mask_reset : forall w p, w_dd (hmask_reset w p) = w_dd w.
Proof. intros. destruct (hmask_reset_form w p) as [a [-> _]]. rewrite w_dd_set_mask. reflexivity. Qed.

Lemma w_dd_mindur : forall w p, w_dd (happly_mindur w p) = w_dd w.
Proof.
  intros. unfold happly_mindur.
  match goal with |- context [match ?x with Some _ => _ | None => _ end] => destruct x end; reflexivity.
Qed.

Lemma dd_snoc : forall w d i k h, In (k, h) (nth i (w_dd w ++ [d]) []) ->
  In (k, h) (dd w i) \/ (i = length (w_dd w) /\ In (k, h) d).
Proof.
  intros w d i k h I. rewrite nth_snoc in I. destruct (Nat.eqb_spec i (length (w_dd w))); auto.
Qed.

Lemma w_dd_call : forall w p ch part nof, w_dd (fst (hcall w p ch part nof)) = w_dd w /\
  w_packs (fst (hcall w p ch part nof)) = w_packs w.
Proof.
  intros. unfold hcall.
  assert (F : forall r : res arr,
     w_dd (fst (match r with Ok a => let '(w1, h) := halloc w a in (w1, Ok h) | Err e => (w, Err e) end)) = w_dd w /\
     w_packs (fst (match r with Ok a => let '(w1, h) := halloc w a in (w1, Ok h) | Err e => (w, Err e) end)) = w_packs w).
  { intros [a|e]; split; reflexivity. }
  destruct (datakey (view w p) ch); [|split; reflexivity].
  destruct (dget a (dd w (k_data (pk w p)))); [|split; reflexivity].
  destruct part as [i|]; [destruct (py_index _ i); split; reflexivity|].
  repeat match goal with |- context [if ?c then _ else _] => destruct c end; try apply F; split; reflexivity.
Qed.

(** Every array of a dict was there before, is new or was handed over. *)
Lemma hexec_dd : forall w o i k h, wf w -> args_ok w o -> In (k, h) (dd (fst (hexec w o)) i) ->
  In (k, h) (dd w i) \/ length (w_bufs w) <= h_b h \/ handed o h.
Proof.
  intros w o i k h W A I. pose proof A as [TP A'].
  destruct o; simpl in TP, A'; cbn [hexec fst] in I; unfold dd in I.
  - left; exact I.
  - left. destruct (Nat.ltb _ _); exact I.
  - unfold hnew in I. cbn [fst] in I. rewrite w_dd_mask_reset in I. simpl in I.
    apply dd_snoc in I. destruct I as [I|[_ I]]; [left; auto|right; right; exists k; auto].
  - unfold hset_data in I. rewrite w_dd_mask_reset in I. simpl in I.
    apply dd_snoc in I. destruct I as [I|[_ I]]; [left; auto|right; right; exists k; auto].
  - left; exact I.
  - unfold hdata_item in I. fold (dd (set_dd w (k_data (pk w p)) (dset k0 h0 (dd w (k_data (pk w p))))) i) in I.
    rewrite dd_set_dd in I. destruct (_ && _)%bool eqn:C; [|left; exact I].
    apply andb_true_iff in C. destruct C as [C _]. apply Nat.eqb_eq in C. subst i.
    apply dset_In in I. destruct I as [[-> ->]|I]; [right; right; reflexivity|left; exact I].
  - left; exact I.
  - left; exact I.
  - left; exact I.
  - rewrite w_dd_set_mask in I. left; exact I.
  - rewrite w_dd_mindur in I. left; exact I.
  - left. destruct (is_array v), (nof_valid v); exact I.
  - left; exact I.
  - left; exact I.
  - rewrite w_dd_mask_reset in I. left; exact I.
  - left. unfold harr, hduration in I. destruct (req_duration d s); exact I.
  - left. unfold harr, hstartstop in I. cbn [fst] in I.
    set (r := np_array _) in I. change (halloc w r) with (fst (halloc w r), snd (halloc w r)) in I. cbv iota beta in I.
    destruct apply; [|exact I].
    destruct (np_iand _ _); cbn [fst] in I; [|exact I]. rewrite w_dd_set_mask in I. exact I.
  - unfold hunit in I. cbn [fst] in I. rewrite happend_steps in I.
    destruct (append_data w p q) as [w1|e] eqn:E1; cbn [fst] in I; [|left; exact I].
    destruct (append_data_spec _ _ _ _ W TP A' E1) as [Ww1 [U1 [N1 [M1 [ND1 [L1 K1]]]]]].
    assert (D1 : In (k, h) (dd w1 i) -> In (k, h) (dd w i) \/ length (w_bufs w) <= h_b h).
    { intros J. unfold append_data in E1. destruct (dd w (k_data (pk w p))) as [|x d].
      - injection E1 as <-. left; exact J.
      - destruct (dd w (k_data (pk w q))) as [|y d'] eqn:Eq; [injection E1 as <-; left; exact J|].
        destruct (same_keys _ _); [|discriminate].
        set (ks := dkeys (y :: d')) in *. clearbody ks. injection E1 as <-.
        apply happend_loop_dd in J; auto. apply W; auto. }
    destruct (append_names w1 p q) as [w2|e] eqn:E2; cbn [fst] in I; [|apply D1 in I; tauto].
    destruct (append_names_spec w1 p q w2 Ww1 ltac:(lia) ltac:(lia) E2) as [Ww2 [U2 [D2 [M2 [DD2 [ND2 [B2 [L2 K2]]]]]]]].
    unfold append_finish in I. rewrite w_dd_mask_reset in I. simpl in I. rewrite DD2 in I. apply D1 in I. tauto.
  - left. unfold harr in I. cbn [fst] in I. rewrite (proj1 (w_dd_call w p ch part nof)) in I. exact I.
Qed.

(** ** The new pack of HNew *)

Lemma hnew_ids : forall w d n, let w' := fst (hnew w d n) in let p := length (w_packs w) in
  k_data (pk w' p) = length (w_dd w) /\ k_names (pk w' p) = length (w_nd w) /\
  h_b (k_mask (pk w' p)) = length (w_bufs w).
Proof.
  intros w d n w' p. unfold w', hnew. cbn [fst]. set (k0 := mkhp _ _ _ _ _ _ _ _ _). set (w1 := mkw _ _ _ _).
  assert (L1 : length (w_packs w1) = S (length (w_packs w))) by (unfold w1; simpl; rewrite app_length; simpl; lia).
  assert (Hp : length (w_packs w) < length (w_packs w1)) by lia.
  destruct (hmask_reset_ids w1 (length (w_packs w)) Hp) as [X [Y Z]]. unfold p. rewrite X, Y, Z.
  assert (E : pk w1 (length (w_packs w)) = k0) by (unfold pk, w1; simpl; rewrite nth_snoc, Nat.eqb_refl; reflexivity).
  rewrite E. auto.
Qed.

Lemma hexec_len_none : forall w o, target o = None -> (forall d n, o <> HNew d n) ->
  w_packs (fst (hexec w o)) = w_packs w.
Proof.
  intros w o T N. destruct o; simpl in T; try discriminate; cbn [hexec fst].
  - reflexivity.
  - destruct (Nat.ltb _ _); reflexivity.
  - destruct (N d n); reflexivity.
  - unfold harr. cbn [fst]. apply w_dd_call.
Qed.

(** Packs after an operation: old ones or the new one. *)
Lemma hexec_packs : forall w o c, wf w -> args_ok w o -> c < length (w_packs (fst (hexec w o))) ->
  c < length (w_packs w) \/ (c = length (w_packs w) /\ exists d n, o = HNew d n).
Proof.
  intros w o c W A Hc. destruct (target o) as [p|] eqn:T.
  - rewrite (hexec_len_same w o p) in Hc; auto.
  - assert (D : (exists d n, o = HNew d n) \/ (forall d n, o <> HNew d n)).
    { destruct o; try (right; intros; discriminate). left. eauto. }
    destruct D as [[d [n ->]]|N].
    + cbn [hexec fst] in Hc. destruct (hnew_pack w d n) as [L _]. rewrite L in Hc.
      destruct (Nat.eq_dec c (length (w_packs w))); [right; eauto|left; lia].
    + rewrite hexec_len_none in Hc; auto.
Qed.

(** ** Frame with all other packs *)

Lemma step_separate_all : forall w o b, wf w -> b < length (w_packs w) -> args_ok w o -> keeps_off w b o ->
  target o <> Some b -> (forall c, c < length (w_packs w) -> c <> b -> separate w c b) ->
  forall c, c < length (w_packs (fst (hexec w o))) -> c <> b -> separate (fst (hexec w o)) c b.
Proof.
  intros w o b W Hb A K T S c Hc Ne.
  assert (TT : forall p, target o = Some p -> p <> b /\ separate w p b).
  { intros p E. assert (p <> b) by congruence. split; auto. apply S; auto.
    destruct A as [TP _]. rewrite E in TP. auto. }
  destruct (hexec_packs w o c W A Hc) as [L|[-> [d [n ->]]]].
  - apply step_separate; auto.
  - destruct (step_frame w (HNew d n) b W Hb A K TT) as [_ [Eb Ub]].
    destruct (hnew_ids w d n) as [X [Y Z]]. unfold separate. rewrite Ub, Eb. cbn [hexec fst].
    rewrite X, Y, Z. destruct W as [W1 [W2 W3]]. destruct (W3 b Hb) as [Bd [Bn Bm]].
    split; [lia|]. split; [lia|]. intros U. apply uses_bound in U; [lia|split; auto|auto].
Qed.

Lemma history_frame_all : forall l w b, wf w -> b < length (w_packs w) ->
  (forall c, c < length (w_packs w) -> c <> b -> separate w c b) ->
  history (fun w o => args_ok w o /\ keeps_off w b o /\ target o <> Some b) w l ->
  view (hrun w l) b = view w b.
Proof.
  induction l as [|o l IH]; intros w b W Hb S H; [reflexivity|].
  apply history_cons in H. destruct H as [[A [K T]] H].
  assert (TT : forall p, target o = Some p -> p <> b /\ separate w p b).
  { intros p E. assert (p <> b) by congruence. split; auto. apply S; auto.
    destruct A as [TP _]. rewrite E in TP. auto. }
  destruct (step_frame w o b W Hb A K TT) as [V _]. destruct (hexec_spec w o W A) as [W' _].
  pose proof (hexec_len w o W A).
  simpl. change (fold_left (fun w o => fst (hexec w o)) l (fst (hexec w o))) with (hrun (fst (hexec w o)) l).
  rewrite (IH (fst (hexec w o)) b); auto; [lia|]. apply step_separate_all; auto.
Qed.

(** ** Simulation of the value model *)

Lemma hmask_reset_apart : forall w p, wf w -> p < length (w_packs w) ->
  ~ data_buf (hmask_reset w p) p (h_b (k_mask (pk (hmask_reset w p) p))).
Proof.
  intros w p W Hp [k [h [I E]]]. destruct (hmask_reset_ids w p Hp) as [X [Y Z]]. rewrite X in I. rewrite Z in E.
  unfold dd in I. rewrite w_dd_mask_reset in I. destruct W as [W1 _]. destruct (W1 _ _ _ I) as [V _]. lia.
Qed.

(** An operation that makes a new mask array makes it last. *)
Lemma fresh_mask_apart : forall w o b, wf w -> args_ok w o -> target o = Some b ->
  length (w_bufs w) <= h_b (k_mask (pk (fst (hexec w o)) b)) ->
  ~ data_buf (fst (hexec w o)) b (h_b (k_mask (pk (fst (hexec w o)) b))).
Proof.
  intros w o p W A T L. pose proof A as [TP A']. rewrite T in TP. pose proof W as [W1 [W2 W3]].
  destruct (W3 _ TP) as [Pd [Pn [Pm _]]].
  destruct o; simpl in T; try discriminate; injection T as ->; simpl in A'; cbn [hexec fst] in *.
  - unfold hset_data. destruct A' as [A1 A2]. apply hmask_reset_apart.
    + apply wf_set_pk; simpl; rewrite ?app_length; simpl; auto; try lia.
      apply wf_add_dd; auto. apply (W3 _ TP).
    + simpl. rewrite upd_length. auto.
  - exfalso. unfold hset_data_of in L. rewrite pk_set_pk_same in L by auto. simpl in L. lia.
  - exfalso. change (pk (hdata_item w p k h) p) with (pk w p) in L. lia.
  - exfalso. unfold hset_names in L. rewrite pk_set_pk_same in L by auto. simpl in L. change (pk {| w_bufs := w_bufs w; w_dd := w_dd w; w_nd := w_nd w ++ [n]; w_packs := w_packs w |} p) with (pk w p) in L. lia.
  - exfalso. unfold hset_names_of in L. rewrite pk_set_pk_same in L by auto. simpl in L. lia.
  - exfalso. change (pk (hname_item w p k v) p) with (pk w p) in L. lia.
  - exfalso. destruct (hset_mask_ids w p h TP) as [X [Y Z]]. rewrite Z in L. destruct A'. lia.
  - exfalso. set (k1 := kw_mindur _ _) in L.
    assert (Hk : p < length (w_packs (set_pk w p k1))) by (simpl; rewrite upd_length; auto).
    destruct (happly_mindur_ids _ p Hk) as [X [Y Z]]. rewrite Z, pk_set_pk_same in L by auto. simpl in L. lia.
  - exfalso. destruct (is_array v); cbn [fst] in L; [lia|]. destruct (nof_valid v); cbn [fst] in L; [rewrite pk_set_pk_same in L by auto; simpl in L|]; lia.
  - exfalso. rewrite pk_set_pk_same in L by auto. simpl in L. lia.
  - exfalso. rewrite pk_set_pk_same in L by auto. simpl in L. lia.
  - apply hmask_reset_apart; auto.
  - exfalso. unfold harr, hduration in L. destruct (req_duration d s); cbn [fst] in L; [|lia].
    destruct (hduration_req_ids w p a mindur TP) as [X [Y Z]]. rewrite Z in L. lia.
  - exfalso. unfold harr, hstartstop in L. cbn [fst] in L. set (r := np_array _) in L.
    change (halloc w r) with (fst (halloc w r), snd (halloc w r)) in L. cbv iota beta in L.
    set (w1 := fst (halloc w r)) in L. set (hr := snd (halloc w r)) in L. change (pk w1 p) with (pk w p) in L.
    destruct apply; [|change (pk (fst (w1, Ok hr)) p) with (pk w p) in L; lia]. set (h := k_mask (pk w p)) in *.
    destruct (np_iand (hread w1 h) (hread w1 hr)) as [m|e]; cbn [fst] in L.
    + destruct (hset_mask_ids (hstore w1 h 0 (aelems m)) p h TP) as [X [Y Z]]. rewrite Z in L. lia.
    + change (pk w1 p) with (pk w p) in L. fold h in L. lia.
  - unfold hunit in *. cbn [fst] in *. rewrite happend_steps in *.
    destruct (append_data w p q) as [w1|e] eqn:E1; cbn [fst] in *; [|lia].
    destruct (append_data_spec _ _ _ _ W TP A' E1) as [Ww1 [U1 [N1 [M1 [ND1 [L1 K1]]]]]].
    destruct (append_names w1 p q) as [w2|e] eqn:E2; cbn [fst] in *; [|rewrite M1 in L; lia].
    destruct (append_names_spec w1 p q w2 Ww1 ltac:(lia) ltac:(lia) E2) as [Ww2 [U2 [D2 [M2 [DD2 [ND2 [B2 [L2 K2]]]]]]]].
    unfold append_finish. assert (Hp2 : p < length (w_packs w2)) by lia.
    destruct Ww2 as [X1 [X2 X3]]. destruct (X3 p Hp2) as [Y1 [Y2 Y3]].
    apply hmask_reset_apart; [apply wf_set_pk; auto; split; auto|simpl; rewrite upd_length; auto].
Qed.

Lemma own_isolated : forall w o b, wf w -> b < length (w_packs w) -> args_ok w o -> target o = Some b ->
  own_ok w b o -> isolated w b -> isolated (fst (hexec w o)) b.
Proof.
  intros w o b W Hb A T [OK1 OK2] [I1 I2]. pose proof W as [W1 [W2 W3]]. destruct (W3 _ Hb) as [Bd [Bn Bm]].
  destruct (hexec_spec w o W A) as [W' U]. destruct (hexec_post w o b W A T) as [P1 [P2 P3]].
  assert (KD : k_data (pk (fst (hexec w o)) b) = k_data (pk w b) \/ length (w_dd w) <= k_data (pk (fst (hexec w o)) b)).
  { destruct P1 as [P1|[P1|[q [Q E]]]]; auto. rewrite E.
    destruct Q as [->|[-> Q]]; simpl in OK2; [left; auto|left; apply OK2; auto]. }
  assert (KN : k_names (pk (fst (hexec w o)) b) = k_names (pk w b) \/ length (w_nd w) <= k_names (pk (fst (hexec w o)) b)).
  { destruct P2 as [P1'|[P1'|[q [Q E]]]]; auto. rewrite E.
    destruct Q as [->|[-> Q]]; simpl in OK2; [left; auto|left; apply OK2; auto]. }
  assert (DB : forall x, data_buf (fst (hexec w o)) b x ->
             data_buf w b x \/ length (w_bufs w) <= x \/ exists h, handed o h /\ h_b h = x).
  { intros x [k [h [I <-]]]. apply hexec_dd in I; auto. destruct I as [I|[I|I]]; eauto.
    destruct KD as [E|L].
    - rewrite E in I. left. exists k, h. auto.
    - exfalso. unfold dd in I. rewrite nth_overflow in I by auto. exact I. }
  assert (MB : h_b (k_mask (pk (fst (hexec w o)) b)) = h_b (k_mask (pk w b)) \/
               length (w_bufs w) <= h_b (k_mask (pk (fst (hexec w o)) b)) \/
               exists h, o = HMask b h /\ h_b (k_mask (pk (fst (hexec w o)) b)) = h_b h).
  { destruct P3 as [?|[?|[h [? ->]]]]; eauto. }
  split.
  - intros D0. pose proof (DB _ D0) as D. destruct MB as [E|[L|[h [-> E]]]].
    + rewrite E in D. destruct D as [D|[D|[h [Hh D]]]]; [auto| |].
      * destruct Bm. lia.
      * apply (OK1 h b Hh Hb). auto.
    + apply (fresh_mask_apart w o b) in L; auto.
    + rewrite E in D. simpl in OK2. destruct D as [D|[D|[g [Hg D]]]].
      * apply OK2; auto.
      * destruct A as [_ [V _]]. lia.
      * destruct Hg.
  - intros c Hc Ne. destruct (hexec_packs w o c W A Hc) as [Lc|[-> [d [n ->]]]]; [|discriminate T].
    destruct (I2 c Lc Ne) as [S1 [S2 S3]]. destruct (W3 c Lc) as [Cd [Cn Cm]].
    assert (Ec : pk (fst (hexec w o)) c = pk w c).
    { apply (u_pk _ _ _ _ _ _ U); auto. unfold pack_changed. congruence. }
    unfold separate. rewrite Ec. split; [destruct KD as [->|?]; auto; lia|].
    split; [destruct KN as [->|?]; auto; lia|].
    intros [D|D].
    + apply DB in D. destruct D as [D|[D|[h [Hh D]]]].
      * apply S3. left. auto.
      * destruct Cm. lia.
      * apply (OK1 h c Hh Lc). auto.
    + destruct MB as [E|[L|[h [-> E]]]].
      * apply S3. right. congruence.
      * destruct Cm. lia.
      * simpl in OK2. destruct OK2 as [_ O2]. apply (O2 c Lc Ne). congruence.
Qed.

Lemma other_isolated : forall w o b, wf w -> b < length (w_packs w) -> args_ok w o -> target o <> Some b ->
  keeps_off w b o -> isolated w b ->
  isolated (fst (hexec w o)) b /\ view (fst (hexec w o)) b = view w b.
Proof.
  intros w o b W Hb A T K [I1 I2].
  assert (TT : forall p, target o = Some p -> p <> b /\ separate w p b).
  { intros p E. assert (p <> b) by congruence. split; auto. apply I2; auto.
    destruct A as [TP _]. rewrite E in TP. auto. }
  destruct (step_frame w o b W Hb A K TT) as [V [Eb Ub]]. split; auto. split.
  - rewrite Eb. intros [k [h [I E]]]. apply I1. destruct (hexec_spec w o W A) as [_ U].
    pose proof W as [_ [_ W3]]. destruct (W3 b Hb) as [Bd _].
    rewrite Eb in I. rewrite (u_dd _ _ _ _ _ _ U) in I; auto.
    + exists k, h. auto.
    + intros X. unfold data_changed in X. destruct o; try contradiction; destruct (TT _ eq_refl) as [_ [S1 _]]; congruence.
  - apply step_separate_all; auto.
Qed.

Lemma isolated_apart : forall w o b, target o = Some b -> own_ok w b o -> isolated w b -> mask_apart w o b.
Proof.
  intros w o b T [_ O] [I _]. destruct o; simpl in *; auto. apply O.
Qed.

Lemma value_op_target : forall w o p, target o = Some p -> exists v, as_value_op w o = Some v.
Proof. intros w o p T. destruct o; simpl in *; try discriminate; eauto. destruct v; eauto. Qed.

Lemma history_simulation : forall l w b, wf w -> b < length (w_packs w) -> isolated w b ->
  history (fun w o => well_behaved w b o) w l ->
  view (hrun w l) b = run (ops_on b w l) (view w b) /\ isolated (hrun w l) b /\ wf (hrun w l).
Proof.
  induction l as [|o l IH]; intros w b W Hb I H; [simpl; auto|].
  apply history_cons in H. destruct H as [[A [O K]] H].
  destruct (hexec_spec w o W A) as [W' _]. pose proof (hexec_len w o W A).
  cbn [ops_on]. simpl hrun. change (fold_left (fun w o => fst (hexec w o)) l (fst (hexec w o))) with (hrun (fst (hexec w o)) l).
  destruct (target o) as [p|] eqn:T.
  - destruct (Nat.eqb_spec p b) as [->|Ne].
    + destruct (value_op_target w o b T) as [v V]. rewrite V.
      specialize (O eq_refl). pose proof (isolated_apart w o b T O I) as M.
      destruct (step_refines w o b v W A T M V) as [R _].
      destruct (IH (fst (hexec w o)) b) as [Q1 [Q2 Q3]]; auto; [lia|apply own_isolated; auto|].
      rewrite Q1, R. auto.
    + destruct (other_isolated w o b W Hb A ltac:(congruence) (K ltac:(congruence)) I) as [J V].
      destruct (IH (fst (hexec w o)) b) as [Q1 [Q2 Q3]]; auto; [lia|]. rewrite Q1, V. auto.
  - destruct (other_isolated w o b W Hb A ltac:(congruence) (K ltac:(congruence)) I) as [J V].
    destruct (IH (fst (hexec w o)) b) as [Q1 [Q2 Q3]]; auto; [lia|]. rewrite Q1, V. auto.
Qed.

(** ** Buffers nobody uses *)

Lemma step_unused : forall w o x, wf w -> args_ok w o -> x < length (w_bufs w) -> not_given x o -> unused w x ->
  unused (fst (hexec w o)) x.
Proof.
  intros w o x W A Hx [G1 G2] [U1 U2]. destruct (hexec_spec w o W A) as [W' U].
  assert (D : forall i k h, In (k, h) (dd (fst (hexec w o)) i) -> h_b h <> x).
  { intros i k h I. apply hexec_dd in I; auto. destruct I as [I|[I|I]]; [eapply U2; eauto|lia|auto]. }
  split; auto. intros c Hc [[k [h [I E]]]|E].
  - apply (D _ _ _ I E).
  - destruct (hexec_packs w o c W A Hc) as [L|[-> [d [n ->]]]].
    + destruct (target o) as [p|] eqn:T.
      * destruct (Nat.eq_dec c p) as [->|Ne].
        -- destruct (hexec_post w o p W A T) as [_ [_ P3]].
           destruct P3 as [P|[P|[h [-> P]]]].
           ++ apply (U1 p L). right. congruence.
           ++ lia.
           ++ simpl in G2. congruence.
        -- rewrite (u_pk _ _ _ _ _ _ U) in E by (auto; unfold pack_changed; congruence).
           apply (U1 c L). right. auto.
      * rewrite (u_pk _ _ _ _ _ _ U) in E by (auto; unfold pack_changed; congruence).
        apply (U1 c L). right. auto.
    + cbn [hexec fst] in E. destruct (hnew_ids w d n) as [_ [_ Z]]. rewrite Z in E. lia.
Qed.

Lemma history_unused : forall l w x, wf w -> x < length (w_bufs w) -> unused w x ->
  history (fun w o => args_ok w o /\ not_given x o) w l -> unused (hrun w l) x /\ wf (hrun w l).
Proof.
  induction l as [|o l IH]; intros w x W Hx Un H; [simpl; auto|].
  apply history_cons in H. destruct H as [[A G] H]. destruct (hexec_spec w o W A) as [W' U].
  apply (IH (fst (hexec w o)) x); auto.
  - pose proof (u_nb _ _ _ _ _ _ U). lia.
  - apply step_unused; auto.
Qed.

Lemma write_unused : forall w h i v c, wf w -> unused w (h_b h) -> valid w h -> c < length (w_packs w) ->
  view (fst (hexec w (HWrite h i v))) c = view w c.
Proof.
  intros w h i v c W [Un _] V Hc.
  assert (A : args_ok w (HWrite h i v)) by (split; simpl; auto).
  apply (step_frame w (HWrite h i v) c W Hc A).
  - simpl. apply Un. auto.
  - intros p E. discriminate E.
Qed.

(** ** Writing through a window *)

Lemma hread_write : forall w g h i v, valid w h -> h_b g = h_b h -> h_off h <= h_off g + i ->
  h_off g + i < h_off h + h_len h ->
  hread (hstore w g i [v]) h = mkarr (akind (hread w h)) (upd (h_off g + i - h_off h) v (aelems (hread w h))).
Proof.
  intros w g h i v [V1 V2] E L1 L2. unfold hread, hstore, buf. simpl. rewrite E.
  rewrite !nth_upd, Nat.eqb_refl, (proj2 (Nat.ltb_lt _ _)) by auto. cbn [andb akind aelems]. f_equal.
  fold (buf w (h_b h)). set (l := aelems (buf w (h_b h))) in *. set (o := h_off g + i) in *.
  assert (Lo : o < length l) by lia.
  apply (@nth_ext_eq _ VNone).
  - repeat (rewrite ?upd_length, ?firstn_length, ?skipn_length, ?app_length; cbn [length]). lia.
  - intros n Hn. repeat (rewrite ?upd_length, ?firstn_length, ?skipn_length, ?app_length in Hn; cbn [length] in Hn).
    rewrite nth_upd. rewrite !nth_firstn by lia. rewrite !nth_skipn.
    rewrite firstn_length, skipn_length.

    destruct (Nat.eqb_spec n (o - h_off h)) as [->|Ne]; cbn [andb].
    + rewrite (proj2 (Nat.ltb_lt _ _)) by lia. rewrite app_nth2 by (rewrite firstn_length; lia).
      rewrite firstn_length. replace (h_off h + (o - h_off h) - Nat.min o (length l)) with 0 by lia. reflexivity.
    + destruct (Nat.lt_ge_cases (h_off h + n) o).
      * rewrite app_nth1 by (rewrite firstn_length; lia). rewrite nth_firstn by lia. reflexivity.
      * rewrite app_nth2 by (rewrite firstn_length; lia). rewrite firstn_length.
        replace (h_off h + n - Nat.min o (length l)) with (S (h_off h + n - o - 1)) by lia.
        cbn [nth app]. rewrite nth_skipn. f_equal. simpl. lia.
Qed.

(** ** Appending copies *)

Lemma append_disjoint : forall w a b, wf w -> a < length (w_packs w) -> b < length (w_packs w) -> a <> b ->
  k_data (pk w a) <> k_data (pk w b) -> k_names (pk w a) <> k_names (pk w b) ->
  dd w (k_data (pk w a)) <> [] -> dd w (k_data (pk w b)) <> [] -> nd w (k_names (pk w a)) <> [] ->
  snd (happend w a b) = Ok tt ->
  disjoint (fst (happend w a b)) a b.
Proof.
  intros w a b W Ha Hb Ne Sd Sn Da Db Na R. pose proof W as [W1 [W2 W3]].
  destruct (W3 a Ha) as [Ad [An Am]]. destruct (W3 b Hb) as [Bd [Bn Bm]].
  rewrite happend_steps in *. destruct (append_data w a b) as [w1|e] eqn:E1; [|discriminate].
  destruct (append_names w1 a b) as [w2|e] eqn:E2; [|discriminate]. cbn [fst].
  destruct (append_data_spec _ _ _ _ W Ha Hb E1) as [Ww1 [U1 [N1 [M1 [ND1 [L1 K1]]]]]].
  destruct (append_names_spec w1 a b w2 Ww1 ltac:(lia) ltac:(lia) E2) as [Ww2 [U2 [D2 [M2 [DD2 [ND2 [B2 [L2 K2]]]]]]]].
  destruct (append_finish_spec w2 a b Ww2 ltac:(lia)) as [Ww3 [U3 [D3 [N3 M3]]]].
  destruct K1 as [K1|[K1 _]]; [|congruence].
  destruct K2 as [K2|[K2 _]]; [|rewrite N1 in K2; unfold nd in *; rewrite ND1 in K2; congruence].
  set (w3 := append_finish w2 a b) in *.
  assert (Pb : pk w3 b = pk w b).
  { rewrite (u_pk _ _ _ _ _ _ U3) by (auto; lia). rewrite (u_pk _ _ _ _ _ _ U2) by (auto; lia).
    apply (u_pk _ _ _ _ _ _ U1); auto. }
  assert (Wdd : w_dd w3 = w_dd w1).
  { unfold w3, append_finish. rewrite w_dd_mask_reset. simpl. auto. }
  assert (Ub : forall x, uses w3 b x -> x < length (w_bufs w)).
  { intros x [[k [h [I <-]]]|<-]; rewrite Pb in *.
    - unfold dd in I. rewrite Wdd in I. fold (dd w1 (k_data (pk w b))) in I.
      rewrite (u_dd _ _ _ _ _ _ U1) in I by (auto; unfold only; congruence). apply (W1 _ _ _ I).
    - apply Bm. }
  unfold disjoint. rewrite Pb, D3, D2, K1, N3, K2, N1. split; auto. split; auto.
  intros x [[k [h [I <-]]]|<-] Hx; apply Ub in Hx.
  - rewrite D3, D2, K1 in I. unfold dd in I. rewrite Wdd in I. fold (dd w1 (k_data (pk w a))) in I.
    unfold append_data in E1. destruct (dd w (k_data (pk w a))) as [|y d] eqn:Ea; [congruence|].
    destruct (dd w (k_data (pk w b))) as [|z d'] eqn:Eb; [congruence|].
    destruct (same_keys (y :: d) (z :: d')) eqn:SK; [|discriminate].
    set (ks := dkeys (z :: d')) in *.
    assert (w1 = happend_loop w (k_data (pk w a)) (k_data (pk w b)) ks) as -> by (clearbody ks; congruence).
    apply happend_loop_fresh in I; auto.
    + destruct I as [I|[I1 I2]]; [lia|]. apply I2. unfold ks.
      unfold same_keys in SK. apply andb_true_iff in SK. destruct SK as [SK _]. rewrite forallb_forall in SK.
      apply dmem_In. apply SK. rewrite <- Ea. apply in_map_iff. exists (k, h). auto.
    + intros k' Ik. rewrite Ea, Eb. unfold same_keys in SK. apply andb_true_iff in SK. destruct SK as [_ SK].
      rewrite forallb_forall in SK. split; [apply SK; auto|]. apply dmem_In. auto.
  - rewrite M3, B2 in Hx. pose proof (u_nb _ _ _ _ _ _ U1). lia.
Qed.
