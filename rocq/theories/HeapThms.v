(** * Packs sharing objects: proofs of the property theorems *)

From Coq Require Import ZifyBool ZifyNat ZifyN QArith.
From Verif Require Import PyBase PyBaseFacts PyFloat NumPy SpecArray ArrayFacts DataUtils Pack SpecMask SpecPack PackHeap SpecHeap MaskProofs PackProofs HeapProofs HeapCheck HeapRefine HeapHistory PackThms.
Open Scope nat_scope.

Lemma C09_parts_reflect_the_mask_in_every_world_bits :
forall w d n l b, wf w -> args_ok w (HNew d n) -> b = length (w_packs w) ->
  history (fun w o => args_ok w o /\ leaves_mask w b o) (fst (hexec w (HNew d n))) l ->
  let p := view (hrun (fst (hexec w (HNew d n))) l) b in
  exists r, lists_runs (map truthy (aelems (p_mask p))) r /\ parts p = seq 0 (length r) /\
  forall k s e, nth_error r k = Some (s, e) ->
  forall ch key x nof, datakey p ch = Ok key -> dget key (p_data p) = Some x ->
    call p ch (Some (Z.of_nat k)) nof = Ok (mkarr (akind x) (between s e (aelems x))).
Proof.
  intros w d n l b W A -> H p.
  destruct (hnew_pack w d n) as [L [C M]]. destruct (hexec_spec w (HNew d n) W A) as [W' U].
  assert (O : owns_mask (fst (hexec w (HNew d n))) (length (w_packs w))).
  { intros c Hc Ne. cbn [hexec fst] in Hc. rewrite L in Hc. cbn [hexec fst] in *.
    assert (Lc : c < length (w_packs w)) by lia.
    rewrite (u_pk _ _ _ _ _ _ U c Lc) by (intros X; discriminate X).
    destruct W as [_ [_ W3]]. destruct (W3 c Lc) as [_ [_ [V _]]]. lia. }
  destruct (history_coherent l (fst (hexec w (HNew d n))) (length (w_packs w))) as [_ [C' _]]; auto.
  { cbn [hexec fst]. lia. }
  assert (CP : p_cache p = slicelist (p_mask p)) by exact C'.
  clearbody p.
  exists (slicelist (p_mask p)).
  split; [apply slicelist_lists_runs|].
  split; [unfold parts; rewrite CP; reflexivity|].
  intros k s e Hk ch key x nof Hd Hx.
  unfold call. rewrite Hd. simpl bind. unfold get_data. rewrite Hx. simpl bind.
  rewrite CP, py_index_nonneg, Nat2Z.id, Hk by lia. reflexivity.
Qed.

Lemma C09_parts_reflect_the_mask_in_every_world_proof :
forall w d n l b, wf w -> args_ok w (HNew d n) -> b = length (w_packs w) ->
  history (fun w o => args_ok w o /\ leaves_mask w b o) (fst (hexec w (HNew d n))) l ->
  let p := view (hrun (fst (hexec w (HNew d n))) l) b in
  exists r, lists_runs (map counts (aelems (p_mask p))) r /\ parts p = seq 0 (length r) /\
  forall k s e, nth_error r k = Some (s, e) ->
  forall ch key x nof, datakey p ch = Ok key -> dget key (p_data p) = Some x ->
    call p ch (Some (Z.of_nat k)) nof = Ok (mkarr (akind x) (between s e (aelems x))).
Proof.
cbv zeta. setoid_rewrite map_counts. exact C09_parts_reflect_the_mask_in_every_world_bits.
Qed.

Lemma C09_writing_mask_elements_refuted_bits :
exists w h i v, wf w /\ args_ok w (HWrite h i v) /\
  let p := view (fst (hexec w (HWrite h i v))) 0 in
  ~ lists_runs (map truthy (aelems (p_mask p))) (p_cache p).
Proof.
  exists two_packs, (mkh 2 0 3), 1, (VBool false). split; [apply wfb_spec; reflexivity|].
  split; [apply argsb_spec; reflexivity|]. intros p [H _].
  destruct (H 0 3) as [H1 _]. destruct H1 as [_ [_ [H1 _]]]; [vm_compute; auto|].
  specialize (H1 1 ltac:(lia)). vm_compute in H1. discriminate.

Qed.

Lemma C09_writing_mask_elements_refuted_proof :
exists w h i v, wf w /\ args_ok w (HWrite h i v) /\
  let p := view (fst (hexec w (HWrite h i v))) 0 in
  ~ lists_runs (map counts (aelems (p_mask p))) (p_cache p).
Proof.
cbv zeta. setoid_rewrite map_counts. exact C09_writing_mask_elements_refuted_bits.
Qed.

Lemma C09_sharing_a_mask_array_refuted_bits :
exists w l, wf w /\ history args_ok w l /\
  (forall o, In o l -> exists p, target o = Some p) /\
  let p := view (hrun w l) 0 in
  ~ lists_runs (map truthy (aelems (p_mask p))) (p_cache p).
Proof.
  exists two_packs, [HMask 1 (mkh 2 0 3); HDuration 1 (PInt 5) (PInt 1) true].
  split; [apply wfb_spec; reflexivity|].
  split; [apply (historyb_spec args_ok argsb argsb_spec); reflexivity|].
  split; [intros o [<-|[<-|[]]]; eexists; reflexivity|].
  intros p [H _]. destruct (H 0 3) as [H1 _]. destruct H1 as [_ [_ [H1 _]]]; [vm_compute; auto|].
  specialize (H1 1 ltac:(lia)). vm_compute in H1. discriminate.

Qed.

Lemma C09_sharing_a_mask_array_refuted_proof :
exists w l, wf w /\ history args_ok w l /\
  (forall o, In o l -> exists p, target o = Some p) /\
  let p := view (hrun w l) 0 in
  ~ lists_runs (map counts (aelems (p_mask p))) (p_cache p).
Proof.
cbv zeta. setoid_rewrite map_counts. exact C09_sharing_a_mask_array_refuted_bits.
Qed.

Lemma C17_operations_on_other_packs_proof :
  forall l w b, wf w -> b < length (w_packs w) ->
  (forall c, c < length (w_packs w) -> c <> b -> separate w c b) ->
  history (fun w o => args_ok w o /\ keeps_off w b o /\ target o <> Some b) w l ->
  view (hrun w l) b = view w b.
Proof.
  exact history_frame_all.
Qed.

Lemma C17_append_isolates_proof :
  forall l w a b, wf w -> a < length (w_packs w) -> b < length (w_packs w) -> a <> b -> separate w a b ->
  p_data (view w a) <> [] -> p_names (view w a) <> [] ->
  let w' := fst (hexec w (HAppend a b)) in
  history (fun w o => args_ok w o /\ keeps_off w b o /\ (target o = Some a \/ target o = None)) w' l ->
  view (hrun w' l) b = view w b.
Proof.
  intros l w a b W Ha Hb Ne S Da Na w' H.
  rewrite p_data_view in Da. rewrite rd_nil in Da.
  assert (A : args_ok w (HAppend a b)) by (split; simpl; auto).
  assert (K : keeps_off w b (HAppend a b)).
  { simpl. split; intros E; [contradiction|]. destruct (Na E). }
  assert (T : forall p, target (HAppend a b) = Some p -> p <> b /\ separate w p b).
  { intros p E. injection E as <-. auto. }
  destruct (step_frame w _ b W Hb A K T) as [V _]. destruct (hexec_spec w _ W A) as [W' _].
  pose proof (hexec_len w _ W A) as L. fold w' in V, W', L.
  destruct (history_frame l (fun c => c = a) w' b) as [_ [V' _]]; auto; try lia.
  - intros c ->. split; [lia|]. split; auto. apply step_separate; auto.
  - revert H. clearbody w'. clear. revert w'. induction l as [|o l IH]; intros w' H; [exact H|].
    apply history_cons in H. destruct H as [[A [K T]] H]. split; auto. split; auto. split; auto.
    intros p E. destruct T; congruence.
  - congruence.
Qed.

Lemma C17_append_copies_the_arrays_proof :
  forall w a b, wf w -> a < length (w_packs w) -> b < length (w_packs w) -> a <> b -> separate w a b ->
  p_data (view w a) <> [] -> p_data (view w b) <> [] -> p_names (view w a) <> [] ->
  let w' := fst (hexec w (HAppend a b)) in
  snd (hexec w (HAppend a b)) = Ok None ->
  disjoint w' a b /\
  forall h i v, valid w' h -> uses w' a (h_b h) -> view (fst (hexec w' (HWrite h i v))) b = view w b.
Proof.
  intros w a b W Ha Hb Ne S Da Db Na w' R.
  rewrite p_data_view, rd_nil in Da, Db. destruct S as [S1 [S2 S3]].
  assert (RR : snd (happend w a b) = Ok tt).
  { unfold hexec, hunit in R. cbn [snd] in R. destruct (snd (happend w a b)) as [[]|]; [auto|discriminate]. }
  assert (D : disjoint w' a b).
  { apply (append_disjoint w a b); auto. }
  split; auto. intros h i v V U.
  assert (A : args_ok w (HAppend a b)) by (split; simpl; auto).
  assert (K : keeps_off w b (HAppend a b)).
  { simpl. split; intros E; [contradiction|]. destruct (Na E). }
  assert (T : forall p, target (HAppend a b) = Some p -> p <> b /\ separate w p b).
  { intros p E. injection E as <-. split; auto. split; auto. }
  destruct (step_frame w _ b W Hb A K T) as [V1 _]. destruct (hexec_spec w _ W A) as [W' _].
  pose proof (hexec_len w _ W A) as L. fold w' in V1, W', L. rewrite <- V1.
  apply (step_frame w' (HWrite h i v) b); auto; [lia|split; simpl; auto| |intros p E; discriminate E].
  simpl. intros X. destruct D as [_ [_ D]]. apply (D _ U X).
Qed.

Lemma C17_empty_pack_shares_the_dicts_proof :
  forall w a b, wf w -> a < length (w_packs w) -> b < length (w_packs w) -> a <> b ->
  p_data (view w a) = [] -> p_names (view w a) = [] ->
  let w' := fst (hexec w (HAppend a b)) in
  snd (hexec w (HAppend a b)) = Ok None /\
  p_data (view w' a) = p_data (view w b) /\ p_names (view w' a) = p_names (view w b) /\
  (forall k h, valid w' h -> p_data (view (fst (hexec w' (HDataItem a k h))) b) = dset k (hread w' h) (p_data (view w b))) /\
  (forall k v, p_names (view (fst (hexec w' (HNameItem a k v))) b) = dset k v (p_names (view w b))).
Proof.
  intros w a b W Ha Hb Ne Da Na. rewrite p_data_view, rd_nil in Da.
  change (p_names (view w a)) with (nd w (k_names (pk w a))) in Na.
  pose proof W as [W1 [W2 W3]]. destruct (W3 a Ha) as [Ad [An Am]]. destruct (W3 b Hb) as [Bd [Bn Bm]].
  assert (E1 : append_data w a b = Ok (hset_data_of w a b)) by (unfold append_data; rewrite Da; reflexivity).
  set (w1 := hset_data_of w a b) in *.
  destruct (append_data_spec _ _ _ _ W Ha Hb E1) as [Ww1 [U1 [N1 [M1 [ND1 [L1 _]]]]]].
  assert (E2 : append_names w1 a b = Ok (hset_names_of w1 a b)).
  { unfold append_names. rewrite N1. unfold nd in *. rewrite ND1. rewrite Na. reflexivity. }
  set (w2 := hset_names_of w1 a b) in *.
  destruct (append_names_spec w1 a b w2 Ww1 ltac:(lia) ltac:(lia) E2) as [Ww2 [U2 [D2 [M2 [DD2 [ND2 [B2 [L2 _]]]]]]]].
  destruct (append_finish_spec w2 a b Ww2 ltac:(lia)) as [Ww3 [U3 [D3 [N3 M3]]]].
  assert (Ex : happend w a b = (append_finish w2 a b, Ok tt)) by (rewrite happend_steps, E1, E2; reflexivity).
  intros w'.
  assert (Er : snd (hexec w (HAppend a b)) = Ok None) by (cbn [hexec]; unfold hunit; rewrite Ex; reflexivity).
  assert (Ew : w' = append_finish w2 a b) by (unfold w'; cbn [hexec]; unfold hunit; rewrite Ex; reflexivity).
  rewrite Er. clear Er. clearbody w'. subst w'. set (w' := append_finish w2 a b) in *.
  assert (Pb : pk w' b = pk w b).
  { rewrite (u_pk _ _ _ _ _ _ U3) by (auto; lia). rewrite (u_pk _ _ _ _ _ _ U2) by (auto; lia).
    apply (u_pk _ _ _ _ _ _ U1); auto. }
  assert (Ka : k_data (pk w' a) = k_data (pk w b)).
  { rewrite D3, D2. unfold w1, hset_data_of. rewrite pk_set_pk_same by auto. reflexivity. }
  assert (Kn : k_names (pk w' a) = k_names (pk w b)).
  { rewrite N3. unfold w2, hset_names_of. rewrite pk_set_pk_same by lia. simpl.
    rewrite (u_pk _ _ _ _ _ _ U1) by auto. reflexivity. }
  assert (Wdd : w_dd w' = w_dd w).
  { unfold w', append_finish. rewrite w_dd_mask_reset. reflexivity. }
  assert (Edd : dd w' (k_data (pk w b)) = dd w (k_data (pk w b))) by (unfold dd; rewrite Wdd; reflexivity).
  assert (End : nd w' (k_names (pk w b)) = nd w (k_names (pk w b))).
  { rewrite (u_nm _ _ _ _ _ _ U3); auto. }
  assert (Rd : rd w' (dd w (k_data (pk w b))) = rd w (dd w (k_data (pk w b)))).
  { assert (U : upto w w' (only a) none none none).
    { apply (upto_trans _ w2); [|exact U3].
      apply (upto_trans _ w1); [|exact U2]. unfold w1. apply upto_set_pk. reflexivity. }
    apply (rd_upto _ _ _ _ _ _ _ U). intros k h I. split; [eapply W1; eauto|intros []]. }
  split; [reflexivity|]. split; [rewrite !p_data_view, Ka, Edd; exact Rd|]. split.
  { change (nd w' (k_names (pk w' a)) = nd w (k_names (pk w b))). rewrite Kn. exact End. }
  split.
  - intros k h V. cbn [hexec fst]. unfold hdata_item. rewrite Ka, Edd.
    rewrite !p_data_view. cbn [pk]. change (pk (set_dd w' (k_data (pk w b)) (dset k h (dd w (k_data (pk w b))))) b) with (pk w' b).
    rewrite Pb, dd_set_dd, Nat.eqb_refl, Wdd, (proj2 (Nat.ltb_lt _ _)) by auto. cbn [andb].
    rewrite rd_set. f_equal. exact Rd.
  - intros k v. cbn [hexec fst]. unfold hname_item. rewrite Kn, End.
    change (p_names (view (set_nd w' (k_names (pk w b)) (dset k v (nd w (k_names (pk w b))))) b))
      with (nd (set_nd w' (k_names (pk w b)) (dset k v (nd w (k_names (pk w b))))) (k_names (pk w' b))).
    rewrite Pb. unfold nd at 1, set_nd. cbn [w_nd]. rewrite nth_upd, Nat.eqb_refl.
    assert (Ln : length (w_nd w') >= length (w_nd w)).
    { pose proof (u_nn _ _ _ _ _ _ U3). rewrite ND2, ND1 in H. exact H. }
    rewrite (proj2 (Nat.ltb_lt _ _)) by lia. reflexivity.
Qed.

Lemma C17_empty_pack_refuted_proof :
  exists w a b c, wf w /\ a < length (w_packs w) /\ b < length (w_packs w) /\ c < length (w_packs w) /\
  a <> b /\ a <> c /\ b <> c /\ (forall x y, x < length (w_packs w) -> y < length (w_packs w) -> x <> y -> separate w x y) /\
  let v := view (hrun w [HAppend a b; HAppend a c]) b in
  p_data v <> p_data (view w b) /\
  exists k x, dget k (p_data v) = Some x /\ alen (p_mask v) <> alen x.
Proof.
  exists three_packs, 2, 0, 1. split; [apply wfb_spec; reflexivity|].
  change (length (w_packs three_packs)) with 3.
  repeat (split; [lia|]). split.
  - intros x y Hx Hy. apply (othersb_spec three_packs y); [|exact Hx].
    destruct y as [|[|[|y]]]; try lia; reflexivity.
  - split; [intros E; vm_compute in E; discriminate E|].
    exists 0%Z, (np_array (map VInt [1; 2; 3; 4; 5; 6]%Z)). vm_compute. split; auto. discriminate.
Qed.

Lemma C19_reading_calls_change_nothing_proof :
  forall w o c, wf w -> args_ok w o -> c < length (w_packs w) ->
  (exists p ch part nof, o = HCall p ch part nof) \/ (exists p a b, o = HStartstop p a b false) ->
  view (fst (hexec w o)) c = view w c.
Proof.
  intros w o c W A Hc [[p [ch [part [nof ->]]]]|[p [a [b ->]]]].
  - destruct (hexec_spec w _ W A) as [_ U].
    apply (view_upto w _ _ _ _ _ c W Hc U); try (intros []; fail).
    + intros E. discriminate E.
    + intros x _ [].
  - cbn [hexec]. unfold harr, hstartstop. cbn [fst]. apply view_alloc; auto.
Qed.

Lemma C19_call_returns_the_value_proof :
  forall w p ch part nof, wf w -> p < length (w_packs w) ->
  match snd (hexec w (HCall p ch part nof)) with
  | Ok (Some h) => call (view w p) ch part nof = Ok (hread (fst (hexec w (HCall p ch part nof))) h)
  | Ok None => False
  | Err e => call (view w p) ch part nof = Err e
  end.
Proof.
  intros w p ch part nof W Hp. cbn [hexec]. unfold harr. cbn [fst snd].
  pose proof (hcall_view w p ch part nof W Hp) as H.
  destruct (snd (hcall w p ch part nof)); auto.
Qed.

Lemma C19_plain_calls_return_the_stored_array_proof :
  forall w p ch part nof h, wf w -> p < length (w_packs w) ->
  snd (hexec w (HCall p ch part nof)) = Ok (Some h) ->
  (part = None -> ~ copying (k_nof (pk w p)) nof /\ (nof = OStr (lit "ignore") \/ nof = ONone)) ->
  exists key x s, datakey (view w p) ch = Ok key /\ dget key (p_data (view w p)) = Some x /\
    (part = None -> s = 0 /\ h_len h = alen x) /\
    (forall k, part = Some k -> exists e, py_index (p_cache (view w p)) k = Some (s, e)) /\
    fst (hexec w (HCall p ch part nof)) = w /\
    forall i v, i < h_len h ->
      dget key (p_data (view (fst (hexec w (HWrite h i v))) p)) = Some (mkarr (akind x) (upd (s + i) v (aelems x))).
Proof.
  intros w p ch part nof h W Hp R NC. pose proof W as [W1 [W2 W3]].
  cbn [hexec] in *. unfold harr in *. cbn [fst snd] in *.
  destruct (hcall w p ch part nof) as [w' r] eqn:E. cbn [fst snd] in *.
  destruct r as [g|]; [|discriminate]. injection R as ->. unfold hcall in E.
  destruct (datakey (view w p) ch) as [key|] eqn:K; [|discriminate].
  destruct (dget key (dd w (k_data (pk w p)))) as [g|] eqn:G; [|discriminate].
  assert (V : valid w g) by (eapply W1; eapply dget_In; eauto).
  assert (WR : forall s i v, w' = w -> i < h_len h -> h_b h = h_b g -> h_off h = h_off g + s -> s + i < h_len g ->
     dget key (p_data (view (fst (if Nat.ltb i (h_len h) then (hstore w h i [v], @Ok (option href) None) else (w, Err IndexError))) p)) =
     Some (mkarr (akind (hread w g)) (upd (s + i) v (aelems (hread w g))))).
  { intros s i v _ Li Eb Eo Ls. rewrite (proj2 (Nat.ltb_lt _ _)) by auto. cbn [fst].
    rewrite p_data_view, rd_get. change (dd (hstore w h i [v]) (k_data (pk (hstore w h i [v]) p))) with (dd w (k_data (pk w p))).
    rewrite G. rewrite hread_write by (auto; lia). rewrite Eo. do 3 f_equal. lia. }
  assert (DK : dget key (p_data (view w p)) = Some (hread w g)) by (rewrite p_data_view, rd_get, G; reflexivity).
  destruct part as [k|].
  - destruct (py_index (k_cache (pk w p)) k) as [[s e]|] eqn:P; [|discriminate]. injection E as <- <-.
    exists key, (hread w g), s. split; auto. split; auto. split; [discriminate|].
    split; [intros k' Ek; injection Ek as <-; exists e; exact P|]. split; auto.
    intros i v Li. simpl in Li. apply WR; auto; simpl; lia.
  - destruct (NC eq_refl) as [NC1 NC2].
    assert (Q : w' = w /\ h = g).
    { destruct (is_str_lit nof (lit "nan")) eqn:B1.
      { exfalso. apply NC1. left. apply is_str_lit_spec. auto. }
      destruct (is_str_lit nof (lit "filter")) eqn:B2.
      { exfalso. apply NC1. right; left. apply is_str_lit_spec. auto. }
      destruct (is_str_lit nof (lit "ignore")) eqn:B3; [injection E as <- <-; auto|].
      assert (NN : nof = ONone).
      { destruct NC2 as [->| ->]; auto. discriminate. }
      destruct (is_str_lit (k_nof (pk w p)) (lit "nan")) eqn:B4.
      { exfalso. apply NC1. right; right. split; auto. left. apply is_str_lit_spec. auto. }
      destruct (is_str_lit (k_nof (pk w p)) (lit "filter")) eqn:B5.
      { exfalso. apply NC1. right; right. split; auto. right. apply is_str_lit_spec. auto. }
      destruct (obj_truthy (k_nof (pk w p))); [discriminate|]. injection E as <- <-. auto. }
    destruct Q as [-> ->].
    exists key, (hread w g), 0. split; auto. split; auto.
    split; [intros _; split; auto; symmetry; apply hread_length; auto|].
    split; [discriminate|]. split; [reflexivity|].
    intros i v Li. apply WR; auto; lia.
Qed.

Lemma history_valid : forall (C : world -> hop -> Prop) l w h, (forall w o, C w o -> args_ok w o) -> wf w -> valid w h ->
  history C w l -> valid (hrun w l) h.
Proof.
  intros C. induction l as [|o l IH]; intros w h HC W V H; [exact V|].
  apply history_cons in H. destruct H as [A H]. apply HC in A. destruct (hexec_spec w o W A) as [W' U].
  apply (IH (fst (hexec w o)) h); auto. eapply valid_upto; eauto.
Qed.

Lemma C19_copying_calls_return_fresh_arrays_proof :
  forall w p ch nof h, wf w -> p < length (w_packs w) -> copying (k_nof (pk w p)) nof ->
  snd (hexec w (HCall p ch None nof)) = Ok (Some h) ->
  forall l, let w' := fst (hexec w (HCall p ch None nof)) in
  history (fun w o => args_ok w o /\ not_given (h_b h) o) w' l ->
  forall i v c, c < length (w_packs (hrun w' l)) ->
  view (fst (hexec (hrun w' l) (HWrite h i v))) c = view (hrun w' l) c.
Proof.
  intros w p ch nof h W Hp CP R l w' H i v c Hc.
  assert (A : args_ok w (HCall p ch None nof)) by (split; simpl; auto).
  destruct (hexec_spec w _ W A) as [W' U]. fold w' in W', U.
  assert (F : h = snd (halloc w (hread w' h)) /\ w' = fst (halloc w (hread w' h))).
  { cbn [hexec] in R. unfold harr in R. cbn [snd] in R. unfold w'. cbn [hexec]. unfold harr. cbn [fst].
    destruct (hcall w p ch None nof) as [w1 r] eqn:E. cbn [fst snd] in *. destruct r as [g|]; [|discriminate]. injection R as ->.
    unfold hcall in E. destruct (datakey (view w p) ch) as [key|]; [|discriminate].
    destruct (dget key (dd w (k_data (pk w p)))) as [g|]; [|discriminate].
    assert (FF : forall r : res arr, match r with Ok a => let '(w1, h) := halloc w a in (w1, Ok h) | Err e => (w, Err e) end = (w1, Ok h) ->
      h = snd (halloc w (hread w1 h)) /\ w1 = fst (halloc w (hread w1 h))).
    { intros [a|e] Q; [|discriminate]. unfold halloc in Q. injection Q as <- <-.
      pose proof (hread_alloc_new w a) as X. unfold halloc in X. cbn [fst snd] in X. rewrite X. split; reflexivity. }
    destruct (is_str_lit nof (lit "nan")) eqn:B1; [apply FF in E; auto|].
    destruct (is_str_lit nof (lit "filter")) eqn:B2; [apply FF in E; auto|].
    destruct CP as [->|[->|[-> CP]]]; try discriminate.
    change (is_str_lit ONone (lit "ignore")) with false in E. cbv iota in E.
    destruct (is_str_lit (k_nof (pk w p)) (lit "nan")) eqn:B4; [apply FF in E; auto|].
    destruct (is_str_lit (k_nof (pk w p)) (lit "filter")) eqn:B5; [apply FF in E; auto|].
    destruct CP as [CP|CP]; rewrite CP in *; discriminate. }
  destruct F as [Fh Fw].
  assert (Eb : h_b h = length (w_bufs w)) by (rewrite Fh; reflexivity).
  assert (Vh : valid w' h).
  { pose proof (valid_alloc_new w (hread w' h)) as X. rewrite <- Fh, <- Fw in X. exact X. }
  assert (Un : unused w' (h_b h)).
  { rewrite Eb. split.
    - intros d Hd X.
      assert (Ep : w_packs w' = w_packs w) by (rewrite Fw; reflexivity).
      assert (X' : uses w d (length (w_bufs w))).
      { destruct X as [[k [g [I E]]]|E].
        - left. exists k, g. split; auto. rewrite Fw in I. exact I.
        - right. rewrite Fw in E. exact E. }
      apply uses_bound in X'; auto; [lia|]. rewrite <- Ep. exact Hd.
    - intros j k g I E. rewrite Fw in I. change (dd (fst (halloc w (hread w' h))) j) with (dd w j) in I.
      destruct W as [W1 _]. destruct (W1 _ _ _ I) as [V _]. lia. }
  destruct (history_unused l w' (h_b h)) as [Un' W'']; auto.
  { destruct Vh; auto. }
  apply write_unused; auto.
  apply (history_valid (fun w o => args_ok w o /\ not_given (h_b h) o)); auto. intros ? ? []; auto.
Qed.

Lemma C19_duration_returns_the_mask_proof :
  forall w p d s mi h, wf w -> p < length (w_packs w) ->
  snd (hexec w (HDuration p d s mi)) = Ok (Some h) ->
  let w' := fst (hexec w (HDuration p d s mi)) in
  hread w' h = p_mask (view w' p) /\
  forall i v, i < h_len h ->
    p_mask (view (fst (hexec w' (HWrite h i v))) p)
    = mkarr (akind (p_mask (view w' p))) (upd i v (aelems (p_mask (view w' p)))).
Proof.
  intros w p d s mi h W Hp R w'. unfold w' in *. clear w'. cbn [hexec] in *. unfold harr, hduration in *. cbn [fst snd] in *.
  destruct (req_duration d s) as [req|e]; cbn [fst snd] in *; [|discriminate]. injection R as <-.
  set (w' := hduration_req w p req mi) in *.
  assert (W' : wf w') by (apply hduration_req_wf; auto).
  assert (M : k_mask (pk w' p) = k_mask (pk w p)) by (apply hduration_req_ids; auto).
  assert (V : valid w' (k_mask (pk w p))).
  { destruct W' as (_ & _ & W3). destruct (W3 p) as (_ & _ & V).
    - unfold w', hduration_req, set_pk. cbn [w_packs]. rewrite upd_length. exact Hp.
    - rewrite <- M. exact V. }
  change (p_mask (view w' p)) with (hread w' (k_mask (pk w' p))). rewrite M. split; [reflexivity|].
  intros i v L. rewrite (proj2 (Nat.ltb_lt _ _)) by exact L. cbn [fst].
  change (p_mask (view (hstore w' (k_mask (pk w p)) i [v]) p)) with (hread (hstore w' (k_mask (pk w p)) i [v]) (k_mask (pk w' p))).
  rewrite M, hread_write by (auto; lia). do 2 f_equal. lia.
Qed.

Lemma happly_mindur_dd : forall w p, w_dd (happly_mindur w p) = w_dd w.
Proof.
  intros w p. unfold happly_mindur, hduration. destruct (k_mindur (pk w p)) as [m|]; [|reflexivity].
  destruct (req_duration (PInt m) (PInt 1)); reflexivity.
Qed.
Lemma C19_startstop_array :
forall w p a b ap h, wf w -> p < length (w_packs w) ->
  snd (hexec w (HStartstop p a b ap)) = Ok (Some h) ->
  let w' := fst (hexec w (HStartstop p a b ap)) in
  hread w' h = np_array (map VBool (startstop_bool a b)) /\
  forall i v c, c < length (w_packs w') -> view (fst (hexec w' (HWrite h i v))) c = view w' c.
Proof.
  intros w p a b ap h W Hp R. pose proof W as (W1 & W2 & W3). destruct (W3 p Hp) as (Pd & Pn & Pm).
  assert (A : args_ok w (HStartstop p a b ap)) by (split; simpl; auto).
  destruct (hexec_spec w _ W A) as [W' U]. set (w' := fst (hexec w (HStartstop p a b ap))) in *. cbv zeta.
  set (r := np_array (map VBool (startstop_bool a b))) in *.
  assert (F : h = snd (halloc w r) /\ w_dd w' = w_dd w /\ length (w_packs w') = length (w_packs w) /\
     (forall c, c < length (w_packs w) -> k_mask (pk w' c) = k_mask (pk w c) /\ k_data (pk w' c) = k_data (pk w c)) /\
     hread w' h = r /\ valid w' h).
  { unfold w' in *. cbn [hexec] in *. unfold harr, hstartstop in *. fold r in R |- *. fold r in W', U.
    change (halloc w r) with (fst (halloc w r), snd (halloc w r)) in *. cbv iota beta in *.
    set (w1 := fst (halloc w r)) in *. set (hr := snd (halloc w r)) in *.
    assert (Rr : hread w1 hr = r) by apply hread_alloc_new.
    assert (Vr : valid w1 hr) by apply valid_alloc_new.
    destruct ap; cbn [fst snd] in *.
    - change (pk w1 p) with (pk w p) in *. set (g := k_mask (pk w p)) in *.
      destruct (np_iand (hread w1 g) (hread w1 hr)) as [m|e] eqn:E; cbn [fst snd] in *; [|discriminate]. injection R as <-.
      assert (U1 : upto w w1 none none none none) by apply upto_alloc.
      assert (Vg : valid w1 g) by (eapply valid_upto; eauto).
      destruct (np_iand_shape _ _ _ E) as [S1 S2].
      assert (Lm : length (aelems m) = h_len g) by (change (alen m = h_len g); rewrite S2; apply hread_length; auto).
      assert (Ww1 : wf w1) by (apply wf_alloc; auto).
      set (w2 := hstore w1 g 0 (aelems m)) in *.
      assert (Ww2 : wf w2) by (apply wf_store; auto; lia).
      assert (U2 : upto w1 w2 none none none (only (h_b g))) by (apply upto_store; auto; [reflexivity|lia]).
      assert (Vg2 : valid w2 g) by (eapply valid_upto; eauto).
      assert (U3 : upto w2 (hset_mask w2 p g) (only p) none none (only (h_b g))) by (apply hset_mask_upto; auto; reflexivity).
      assert (NB : h_b hr <> h_b g) by (destruct Pm as [Pm _]; unfold hr; cbn; fold g in Pm; lia).
      split; [reflexivity|]. split; [unfold hset_mask; rewrite happly_mindur_dd; reflexivity|].
      split; [rewrite hset_mask_len; reflexivity|]. split.
      + intros c Hc. destruct (Nat.eq_dec c p) as [->|N].
        * destruct (hset_mask_ids w2 p g Hp) as (I1 & _ & I3). rewrite I1, I3. split; reflexivity.
        * rewrite (u_pk _ _ _ _ _ _ U3 c Hc N). split; reflexivity.
      + split.
        * rewrite (hread_upto w2 _ _ _ _ _ hr U3); [|eapply valid_upto; eauto|exact NB].
          rewrite (hread_upto w1 _ _ _ _ _ hr U2); [exact Rr|exact Vr|exact NB].
        * eapply valid_upto; [exact U3|]. eapply valid_upto; [exact U2|exact Vr].
    - injection R as <-. split; [reflexivity|]. split; [reflexivity|]. split; [reflexivity|]. split; [intros; split; reflexivity|]. auto. }
  destruct F as (Fh & Fd & Fl & Fk & Fr & Fv). split; [exact Fr|]. intros i v c Hc. apply write_unused; auto.
  assert (Eb : h_b h = length (w_bufs w)) by (rewrite Fh; reflexivity). rewrite Eb. split.
  - intros e He X. rewrite Fl in He. destruct (Fk e He) as [F1 F2].
    assert (X' : uses w e (length (w_bufs w))).
    { destruct X as [(k & g & I & E)|E].
      - left. exists k, g. split; auto. unfold dd in *. rewrite Fd, F2 in I. exact I.
      - right. rewrite F1 in E. exact E. }
    apply uses_bound in X'; auto; lia.
  - intros j k g I E. unfold dd in I. rewrite Fd in I. destruct (W1 _ _ _ I) as [V _]. lia.
Qed.
Lemma C19_startstop_returns_a_new_array_bits :
forall w p a b ap h, wf w -> p < length (w_packs w) ->
  snd (hexec w (HStartstop p a b ap)) = Ok (Some h) ->
  let w' := fst (hexec w (HStartstop p a b ap)) in
  (exists l, array_of (map VBool l) (hread w' h) /\ length l = Nat.min (length a) (length b) /\
     forall i, i < length l -> nth i l false = true <->
       trigger_on (fun j => truthy (nth j a VNone)) (fun j => truthy (nth j b VNone)) i) /\
  forall i v c, c < length (w_packs w') -> view (fst (hexec w' (HWrite h i v))) c = view w' c.
Proof.
intros w p a b ap h W P E w'. destruct (C19_startstop_array w p a b ap h W P E) as [H R]. fold w' in H, R. split; [|exact R].
exists (startstop_bool a b). split; [rewrite H; apply array_of_np|]. split; [apply startstop_bool_length|].
intros i I. rewrite startstop_bool_length in I. apply startstop_bool_nth. exact I.
Qed.

Lemma C19_startstop_returns_a_new_array_proof :
forall w p a b ap h, wf w -> p < length (w_packs w) ->
  snd (hexec w (HStartstop p a b ap)) = Ok (Some h) ->
  let w' := fst (hexec w (HStartstop p a b ap)) in
  (exists l, array_of (map VBool l) (hread w' h) /\ length l = Nat.min (length a) (length b) /\
     forall i, i < length l -> nth i l false = true <->
       trigger_on (fun j => counts (nth j a VNone)) (fun j => counts (nth j b VNone)) i) /\
  forall i v c, c < length (w_packs w') -> view (fst (hexec w' (HWrite h i v))) c = view w' c.
Proof.
cbv zeta. setoid_rewrite trigger_counts. exact C19_startstop_returns_a_new_array_bits.
Qed.

Lemma C24_assigned_npdict_is_shared_proof :
  forall w p q, wf w -> p < length (w_packs w) -> q < length (w_packs w) -> p <> q ->
  let w' := fst (hexec w (HDataOf p q)) in
  p_data (view w' p) = p_data (view w q) /\ p_mask (view w' p) = p_mask (view w p) /\
  forall k h, valid w h ->
    p_data (view (fst (hexec w' (HDataItem p k h))) q) = dset k (hread w h) (p_data (view w q)) /\
    p_mask (view (fst (hexec w' (HDataItem p k h))) q) = p_mask (view w q).
Proof.
  intros w p q W Hp Hq Ne w'. destruct W as [W1 [W2 W3]]. destruct (W3 q Hq) as [Qd [Qn Qm]].
  assert (Epk : pk w' p = kw_data (pk w p) (k_data (pk w q))) by (unfold w'; cbn [hexec fst]; unfold hset_data_of; apply pk_set_pk_same; auto).
  assert (Eq : pk w' q = pk w q).
  { unfold w'. cbn [hexec fst]. unfold hset_data_of. rewrite pk_set_pk. destruct (Nat.eqb_spec q p); [congruence|reflexivity]. }
  split; [rewrite !p_data_view, Epk; reflexivity|].
  split; [change (hread w' (k_mask (pk w' p)) = hread w (k_mask (pk w p))); rewrite Epk; reflexivity|].
  intros k h V. cbn [hexec fst]. unfold hdata_item. rewrite Epk. cbn [k_data kw_data].
  split.
  - rewrite !p_data_view. change (pk (set_dd w' (k_data (pk w q)) (dset k h (dd w' (k_data (pk w q))))) q) with (pk w' q).
    rewrite Eq, dd_set_dd, Nat.eqb_refl. change (w_dd w') with (w_dd w). rewrite (proj2 (Nat.ltb_lt _ _)) by auto. cbn [andb].
    rewrite rd_set. reflexivity.
  - change (hread w' (k_mask (pk w' q)) = hread w (k_mask (pk w q))). rewrite Eq. reflexivity.
Qed.

Lemma C55_histories_follow_the_value_model_proof :
  forall l w b, wf w -> b < length (w_packs w) -> isolated w b ->
  history (fun w o => well_behaved w b o) w l ->
  view (hrun w l) b = run (ops_on b w l) (view w b) /\ isolated (hrun w l) b.
Proof.
  intros l w b W Hb I H. destruct (history_simulation l w b W Hb I H) as [A [B _]]. auto.
Qed.

Lemma hnew_view : forall w d n, wf w -> args_ok w (HNew d n) ->
  view (fst (hnew w d n)) (length (w_packs w)) = new_pack (rd w d) n.
Proof.
  intros w d n W [_ [A1 A2]]. unfold hnew. cbn [fst]. set (p := length (w_packs w)). set (k0 := mkhp _ _ _ _ _ _ _ _ _). set (w1 := mkw _ _ _ _).
  assert (Epk : pk w1 p = k0). { unfold pk, w1, p. simpl. rewrite nth_snoc, Nat.eqb_refl. reflexivity. }
  assert (L1 : p < length (w_packs w1)) by (unfold w1; simpl; rewrite app_length; simpl; unfold p; lia).
  assert (Ed : dd w1 (k_data k0) = d). { unfold dd, w1, k0. simpl. rewrite nth_snoc, Nat.eqb_refl. reflexivity. }
  assert (En : nd w1 (k_names k0) = n). { unfold nd, w1, k0. simpl. rewrite nth_snoc, Nat.eqb_refl. reflexivity. }
  destruct (hmask_reset_form w1 p) as [a [-> Ea]]. rewrite Epk, Ed in Ea.
  unfold new_pack. cbn [set_fn fst p_files with_fn with_files].
  match goal with |- _ = mask_reset ?q => destruct (mask_reset_unfold q) as [b [-> Eb]] end. cbn [p_data with_fn with_files] in Eb.
  assert (a = b) as <-.
  { rewrite Ea, Eb. change (hread w1) with (hread w). rewrite rd_keys. destruct (zsort _); auto. rewrite rd_get. destruct (dget z _); auto. }
  set (w2 := fst (halloc w1 a)). set (h := snd (halloc w1 a)). set (k1 := kw_mask k0 h (slicelist (hread w2 h))).
  assert (Em : hset_mask w2 p h = set_pk w2 p k1).
  { unfold hset_mask. change (pk w2 p) with (pk w1 p). rewrite Epk.
    fold k1. unfold happly_mindur. rewrite pk_set_pk_same by (change (w_packs w2) with (w_packs w1); lia). reflexivity. }
  rewrite Em. unfold view. rewrite pk_set_pk_same by (change (w_packs w2) with (w_packs w1); lia).
  assert (Er : hread w2 h = a) by apply hread_alloc_new.
  unfold view_of. change (dd (set_pk w2 p k1) (k_data k1)) with (dd w1 (k_data k0)). change (nd (set_pk w2 p k1) (k_names k1)) with (nd w1 (k_names k0)).
  change (k_mask k1) with h. change (hread (set_pk w2 p k1)) with (hread w2). rewrite Ed, En. unfold k1. rewrite Er.
  replace (map (fun kv => (fst kv, hread w2 (snd kv))) d) with (rd w d); [reflexivity|]. unfold rd. apply map_ext_in. intros [k g] I. cbn [fst snd]. f_equal.
  pose proof (A1 k g I) as V. unfold hread, buf, w2, halloc, w1. cbn [fst w_bufs]. destruct V as [V _]. rewrite app_nth1 by exact V. reflexivity.
Qed.

Lemma C55_new_packs_proof :
  forall w d n, wf w -> args_ok w (HNew d n) ->
  let w' := fst (hexec w (HNew d n)) in let p := length (w_packs w) in
  view w' p = new_pack (map (fun kv => (fst kv, hread w (snd kv))) d) n /\
  (forall q, q < length (w_packs w) -> view w' q = view w q) /\
  wf w' /\ length (w_packs w') = S p /\
  ((forall q k h, q < length (w_packs w) -> In (k, h) d -> h_b (k_mask (pk w q)) <> h_b h) -> isolated w' p).
Proof.
  intros w d n W A w' p. destruct (hexec_spec w (HNew d n) W A) as [W' U]. destruct (hnew_pack w d n) as [L _].
  assert (Epk : forall q, q < length (w_packs w) -> pk w' q = pk w q).
  { intros q Hq. apply (u_pk _ _ _ _ _ _ U); auto. intros E. discriminate E. }
  split; [apply hnew_view; auto|]. split; [|split; [exact W'|split; [exact L|]]].
  - intros q Hq. eapply (view_upto _ _ _ _ _ _ q W Hq U); cbn; auto; try (intros []; fail); intros E; discriminate E.
  - intros O. destruct (hnew_ids w d n) as [X [Y Z]]. fold p in X, Y, Z. change (fst (hnew w d n)) with w' in X, Y, Z. pose proof W as [W1 [W2 W3]].
    assert (D : forall x, data_buf w' p x -> exists k h, In (k, h) d /\ h_b h = x).
    { intros x [k [h [I E]]]. rewrite X in I. unfold w', dd in I. cbn [hexec fst] in I. unfold hnew in I. cbn [fst] in I. rewrite w_dd_mask_reset in I. cbn [w_dd] in I.
      rewrite nth_snoc, Nat.eqb_refl in I. eauto. }
    destruct A as [_ [A1 A2]]. split.
    + rewrite Z. intros B. apply D in B. destruct B as [k [h [I E]]]. destruct (A1 k h I) as [V _]. lia.
    + intros c Hc Ne. change (length (w_packs w')) with (length (w_packs (fst (hnew w d n)))) in Hc. rewrite L in Hc. assert (Hc' : c < length (w_packs w)) by (unfold p in Ne; lia).
      unfold separate. rewrite X, Y, (Epk c Hc'). destruct (W3 c Hc') as [Cd [Cn Cm]]. split; [lia|]. split; [lia|]. intros [B|B].
      * apply D in B. destruct B as [k [h [I E]]]. apply (O c k h Hc' I). auto.
      * rewrite Z in B. destruct Cm as [Cm _]. lia.
Qed.

Lemma C55_one_operation_proof :
  forall w o p v, wf w -> args_ok w o -> target o = Some p -> mask_apart w o p -> as_value_op w o = Some v ->
  view (fst (hexec w o)) p = fst (exec v (view w p)) /\ outcome (snd (hexec w o)) = snd (exec v (view w p)).
Proof.
  exact step_refines.
Qed.

