(** * Lemmas about CompDoc.v *)

From Coq Require Import ZifyBool ZifyNat ZifyN.
From Verif Require Import PyBase PyFloat PyBaseFacts Dbf XlStruct CompDoc SpecCompDoc.
Open Scope Z_scope.

(** ** Slices *)

Lemma pyslice_nonneg A (l : list A) a n : 0 <= a -> 0 <= n ->
  pyslice l a (a + n) = firstn (Z.to_nat n) (skipn (Z.to_nat a) l).
Proof.
  intros HA HN. unfold pyslice, py_bound.
  replace (a <? 0) with false by lia. replace (a + n <? 0) with false by lia.
  destruct (Z.le_gt_cases a (Z.of_nat (length l))) as [L|L].
  - rewrite (Z.min_l a) by lia.
    destruct (Z.le_gt_cases (a + n) (Z.of_nat (length l))) as [M|M].
    + f_equal. lia.
    + rewrite !firstn_all2; try reflexivity; rewrite skipn_length; lia.
  - rewrite !skipn_all2 by lia. rewrite !firstn_nil. reflexivity.
Qed.

Lemma firstn_split A n m (l : list A) : firstn (n + m) l = firstn n l ++ firstn m (skipn n l).
Proof.
  revert l. induction n as [|n IH]; intro l; [reflexivity|].
  destruct l as [|x l]; cbn [Nat.add firstn skipn app]; [rewrite firstn_nil; reflexivity|].
  f_equal. apply IH.
Qed.
Lemma skipn_add A n m (l : list A) : skipn n (skipn m l) = skipn (m + n) l.
Proof.
  revert l. induction m as [|m IH]; intro l; [reflexivity|].
  destruct l as [|x l]; cbn [Nat.add skipn]; [apply skipn_nil|]. apply IH.
Qed.

Lemma list_ext A (a b : list A) : (forall i, nth_error a i = nth_error b i) -> a = b.
Proof.
  revert b. induction a as [|x a IH]; intros [|y b] H; [reflexivity|discriminate (H 0%nat)|discriminate (H 0%nat)|].
  f_equal; [specialize (H 0%nat); cbn in H; congruence|]. apply IH. intro i. exact (H (S i)).
Qed.

(** ** Chains and paths *)

Lemma py_index_pos A (l : list A) s : 0 <= s -> py_index l s = nth_error l (Z.to_nat s).
Proof. intro H. apply py_index_nonneg. exact H. Qed.

Lemma chain_det sat s l1 : chain sat s l1 -> forall l2, chain sat s l2 -> l1 = l2.
Proof.
  induction 1 as [|s s' l H E C IH]; intros l2 D.
  - inversion D; subst; [reflexivity|lia].
  - inversion D as [|? s2 l' H' E' C']; subst; [lia|]. f_equal. apply IH. congruence.
Qed.
Lemma chain_suffix sat s l : chain sat s l -> forall x, In x l -> exists l', chain sat x l' /\ (length l' <= length l)%nat.
Proof.
  induction 1 as [|s s' l H E C IH]; intros x I; [destruct I|].
  destruct I as [<-|I].
  - exists (s :: l). split; [econstructor; eassumption|lia].
  - destruct (IH x I) as (l' & C' & L). exists l'. split; [exact C'|]. cbn [length]. lia.
Qed.
Lemma chain_NoDup sat s l : chain sat s l -> NoDup l.
Proof.
  induction 1 as [|s s' l H E C IH]; constructor; [|exact IH].
  intro I. destruct (chain_suffix sat s' l C s I) as (l' & C' & L).
  assert (X : s :: l = l') by (apply (chain_det sat s); [econstructor; eassumption|exact C']).
  subst l'. cbn [length] in L. lia.
Qed.
Lemma chain_pos sat s l : chain sat s l -> Forall (fun x => 0 <= x < Z.of_nat (length sat)) l.
Proof.
  induction 1 as [|s s' l H E C IH]; constructor; [|exact IH].
  assert (Z.to_nat s < length sat)%nat by (apply nth_error_Some; congruence). lia.
Qed.
Lemma path_pos sat s l t : path sat s l t -> Forall (fun x => 0 <= x < Z.of_nat (length sat)) l.
Proof.
  induction 1 as [|s s' l t H E C IH]; constructor; [|exact IH].
  assert (Z.to_nat s < length sat)%nat by (apply nth_error_Some; congruence). lia.
Qed.
Lemma path_split sat s l t x : path sat s l t -> In x l ->
  exists l1 l2, l = l1 ++ x :: l2 /\ path sat s l1 x /\ path sat x (x :: l2) t.
Proof.
  induction 1 as [|s s' l t H E C IH]; intro I; [destruct I|].
  destruct I as [<-|I].
  - exists [], l. split; [reflexivity|]. split; [constructor|econstructor; eassumption].
  - destruct (IH I) as (l1 & l2 & -> & P1 & P2). exists (s :: l1), l2.
    split; [reflexivity|]. split; [econstructor; eassumption|exact P2].
Qed.

(** ** Fuel *)

Lemma get_loop_more f : forall f' mem base sat sz id seen s todo acc r, (f <= f')%nat ->
  get_loop f mem base sat sz id seen s todo acc = Some r ->
  get_loop f' mem base sat sz id seen s todo acc = Some r.
Proof.
  induction f as [|f IH]; intros f' mem base sat sz id seen s todo acc r L H.
  - destruct f'; cbn [get_loop] in *; destruct (s <? 0); try exact H; discriminate H.
  - destruct f' as [|f']; [lia|]. cbn [get_loop] in *. destruct (s <? 0); [exact H|].
    destruct (mark seen id s) as [seen' [u|e]]; [|exact H]. cbv zeta in *.
    destruct (py_index sat s) as [s'|]; [|exact H]. apply IH; [lia|exact H].
Qed.

Lemma mark_seen_ok seen id s seen' u : 0 <= s -> mark seen (Some id) s = (seen', Ok u) ->
  nth_error seen (Z.to_nat s) = Some 0 /\ 0 <= id <= 255 /\
  seen' = firstn (Z.to_nat s) seen ++ id :: skipn (S (Z.to_nat s)) seen.
Proof.
  intros P H. unfold mark in H. rewrite py_index_pos in H by exact P.
  destruct (nth_error seen (Z.to_nat s)) as [v|] eqn:E; [|discriminate H].
  destruct (negb (v =? 0)) eqn:V; [discriminate H|].
  destruct ((id <? 0) || (255 <? id)) eqn:B; [discriminate H|].
  assert (v = 0) by lia. apply (f_equal fst) in H. cbn [fst] in H. split; [congruence|]. split; [lia|congruence].
Qed.

Lemma nth_error_set A (l : list A) n x i : (n < length l)%nat ->
  nth_error (firstn n l ++ x :: skipn (S n) l) i = if Nat.eqb i n then Some x else nth_error l i.
Proof.
  intro H. destruct (Nat.eqb_spec i n) as [->|N].
  - rewrite nth_error_app2 by (rewrite firstn_length; lia). rewrite firstn_length, Nat.min_l by lia.
    rewrite Nat.sub_diag. reflexivity.
  - destruct (Nat.lt_ge_cases i n) as [L|L].
    + rewrite nth_error_app1 by (rewrite firstn_length; lia).
      revert n l H N L. induction i as [|i IH]; intros n l H N L; destruct n, l; cbn in *; try lia; auto.
      apply IH; lia.
    + rewrite nth_error_app2 by (rewrite firstn_length; lia). rewrite firstn_length, Nat.min_l by lia.
      replace (i - n)%nat with (S (i - S n)) by lia. cbn [nth_error].
      rewrite <- (firstn_skipn (S n) l) at 2. rewrite nth_error_app2 by (rewrite firstn_length; lia).
      rewrite firstn_length, Nat.min_l by lia. reflexivity.
Qed.
Lemma set_length A (l : list A) n x : (n < length l)%nat -> length (firstn n l ++ x :: skipn (S n) l) = length l.
Proof. intro H. rewrite app_length, firstn_length. cbn [length]. rewrite skipn_length. lia. Qed.

(** Out of fuel: a path of that length; unused sectors when they are marked. *)
Lemma get_loop_none n : forall mem base sat sz id seen s todo acc,
  (match id with Some i => i <> 0 | None => True end) ->
  get_loop n mem base sat sz id seen s todo acc = None ->
  exists l t, path sat s l t /\ length l = n /\ 0 <= t /\
    (id <> None -> NoDup l /\ Forall (unused seen) l).
Proof.
  induction n as [|n IH]; intros mem base sat sz id seen s todo acc ID H; cbn [get_loop] in H.
  - destruct (s <? 0) eqn:S0; [discriminate H|]. exists [], s. split; [constructor|]. split; [reflexivity|].
    split; [lia|]. intro. split; constructor.
  - destruct (s <? 0) eqn:S0; [discriminate H|].
    destruct (mark seen id s) as [seen' [u|e]] eqn:M; [|discriminate H]. cbv zeta in H.
    destruct (py_index sat s) as [s'|] eqn:P; [|discriminate H].
    rewrite py_index_pos in P by lia.
    destruct (IH _ _ _ _ _ _ _ _ _ ID H) as (l & t & PA & L & T & U).
    exists (s :: l), t. split; [econstructor; [lia|exact P|exact PA]|]. split; [cbn [length]; lia|].
    split; [exact T|]. intro NN. destruct (U NN) as [U1 U2]. destruct id as [i|]; [|congruence].
    apply mark_seen_ok in M; [|lia]. destruct M as (M1 & M2 & ->).
    assert (LS : (Z.to_nat s < length seen)%nat) by (apply nth_error_Some; congruence).
    assert (NI : ~ In s l).
    { intro I. rewrite Forall_forall in U2. specialize (U2 s I). unfold unused in U2.
      rewrite nth_error_set in U2 by exact LS. rewrite Nat.eqb_refl in U2. congruence. }
    split; [constructor; assumption|]. constructor; [exact M1|].
    rewrite Forall_forall in *. intros x I. specialize (U2 x I). unfold unused in *.
    rewrite nth_error_set in U2 by exact LS.
    destruct (Nat.eqb_spec (Z.to_nat x) (Z.to_nat s)) as [E|E]; [congruence|exact U2].
Qed.

(** More sectors than the table has entries: one comes twice. *)
Lemma path_repeats sat s l t : path sat s l t -> (length sat < length l)%nat ->
  ~ NoDup l.
Proof.
  intros P L N. apply path_pos in P.
  assert (X : (length (map Z.to_nat l) <= length (seq 0 (length sat)))%nat).
  { apply NoDup_incl_length.
    - assert (F : Forall (fun x => 0 <= x) l) by (eapply Forall_impl; [|exact P]; cbn; lia).
      clear - N F. induction N as [|x l NI N IH]; cbn [map]; constructor.
      + intro I. apply in_map_iff in I. destruct I as (y & E & I). inversion F as [|? ? F1 F2]; subst.
        rewrite Forall_forall in F2. specialize (F2 y I). assert (y = x) by lia. subst y. contradiction.
      + apply IH. inversion F; assumption.
    - intros x I. apply in_map_iff in I. destruct I as (y & <- & I). rewrite Forall_forall in P. specialize (P y I).
      apply in_seq. lia. }
  rewrite map_length, seq_length in X. lia.
Qed.

(** Still running after n steps. *)
Fixpoint alive (sat : list Z) (n : nat) (s : Z) : Prop :=
  0 <= s /\ match n with
            | O => True
            | S n' => exists s', nth_error sat (Z.to_nat s) = Some s' /\ alive sat n' s'
            end.
Lemma alive_pos sat n s : alive sat n s -> 0 <= s.
Proof. destruct n; intros [H _]; exact H. Qed.
Lemma alive_path sat s l t : path sat s l t -> forall n, 0 <= t ->
  (forall m, (m + length l = n)%nat -> alive sat m t) -> alive sat n s.
Proof.
  induction 1 as [s|s s' l t H E P IH]; intros n T A.
  - apply A. cbn [length]. lia.
  - destruct n as [|n]; cbn [alive]; (split; [exact H|]); [exact I|].
    exists s'. split; [exact E|]. apply IH; [exact T|]. intros m Hm. apply A. cbn [length]. lia.
Qed.
Lemma cycle_alive sat t l : path sat t (t :: l) t -> forall n, alive sat n t.
Proof.
  intros P n. assert (T : 0 <= t) by (inversion P; assumption).
  induction n as [n IH] using (well_founded_induction lt_wf).
  apply (alive_path sat t (t :: l) t P); [exact T|]. intros m Hm. apply IH. cbn [length] in Hm. lia.
Qed.
Lemma loop_alive sat s l t : path sat s l t -> In t l -> forall n, alive sat n s.
Proof.
  intros P I n. destruct (path_split sat s l t t P I) as (l1 & l2 & -> & P1 & P2).
  pose proof (cycle_alive sat t l2 P2) as C.
  apply (alive_path sat s l1 t P1); [apply (alive_pos sat 0), C|]. intros m _. apply C.
Qed.
Lemma alive_none sat n : forall s, alive sat n s -> forall mem base sz seen todo acc,
  get_loop n mem base sat sz None seen s todo acc = None.
Proof.
  induction n as [|n IH]; intros s A mem base sz seen todo acc; cbn [get_loop]; cbn [alive] in A.
  - destruct A as [A _]. replace (s <? 0) with false by lia. reflexivity.
  - destruct A as (A & s' & E & B). replace (s <? 0) with false by lia. cbn [mark].
    rewrite py_index_pos by exact A. rewrite E. apply IH. exact B.
Qed.

Lemma not_NoDup_path sat s l t : path sat s l t -> ~ NoDup l ->
  exists l' x, path sat s l' x /\ In x l' /\ incl l' l.
Proof.
  intros P N.
  assert (X : exists l1 x l2 l3, l = l1 ++ x :: l2 ++ x :: l3).
  { clear P. induction l as [|y l IH]; [exfalso; apply N; constructor|].
    destruct (in_dec Z.eq_dec y l) as [I|I].
    - apply in_split in I. destruct I as (l2 & l3 & ->). exists [], y, l2, l3. reflexivity.
    - destruct IH as (l1 & x & l2 & l3 & E). { intro Q. apply N. constructor; assumption. }
      exists (y :: l1), x, l2, l3. rewrite E. reflexivity. }
  destruct X as (l1 & x & l2 & l3 & ->).
  exists (l1 ++ x :: l2), x.
  assert (Q : path sat s (l1 ++ x :: l2) x).
  { clear N. revert s P. induction l1 as [|y l1 IH]; intros s P; cbn [app] in *.
    - inversion P as [|? s' ? ? H E P']; subst. econstructor; [exact H|exact E|].
      clear P H E. revert s' P'. induction l2 as [|z l2 IH]; intros s' P'; cbn [app] in *.
      + inversion P'; subst. constructor.
      + inversion P' as [|? s2 ? ? H2 E2 P2]; subst. econstructor; [exact H2|exact E2|]. apply IH. exact P2.
    - inversion P as [|? s' ? ? H E P']; subst. econstructor; [exact H|exact E|]. apply IH. exact P'. }
  split; [exact Q|]. split; [apply in_or_app; right; left; reflexivity|].
  intros z I. rewrite in_app_iff in *. cbn [In] in *. rewrite in_app_iff. tauto.
Qed.

Lemma get_stream_fuel mem base sat sz id seen s size f r :
  (match id with Some i => i <> 0 | None => True end) ->
  get_loop f mem base sat sz id seen s size [] = Some r ->
  get_stream mem base sat sz s size id seen = r.
Proof.
  intros ID H. unfold get_stream.
  destruct (get_loop (S (length sat)) mem base sat sz id seen s size []) as [r'|] eqn:E.
  - assert (X : Some r = Some r'); [|congruence].
    rewrite <- (get_loop_more f (Nat.max f (S (length sat))) _ _ _ _ _ _ _ _ _ _ ltac:(lia) H).
    apply (get_loop_more (S (length sat))); [lia|exact E].
  - exfalso. destruct (get_loop_none _ _ _ _ _ _ _ _ _ _ ID E) as (l & t & P & L & T & U).
    pose proof (path_repeats sat s l t P ltac:(lia)) as N.
    destruct id as [i|].
    + destruct (U ltac:(discriminate)) as [U1 _]. contradiction.
    + destruct (not_NoDup_path sat s l t P N) as (l' & x & P' & I & _).
      rewrite (alive_none sat f s (loop_alive sat s l' x P' I f)) in H. discriminate H.
Qed.

(** ** Reading a chain *)

(** The pieces a chain is read in, the size counted down. *)
Fixpoint pieces (mem : str) (base sz : Z) (todo : option Z) (l : list Z) : str :=
  match l with
  | [] => []
  | s :: l' =>
      let grab := match todo with None => sz | Some t => if t <? sz then t else sz end in
      firstn (Z.to_nat grab) (skipn (Z.to_nat (base + s * sz)) mem)
        ++ pieces mem base sz (option_map (fun t => t - grab) todo) l'
  end.

Lemma pieces_none mem base sz l : pieces mem base sz None l = chain_bytes mem base sz l.
Proof. induction l as [|s l IH]; cbn [pieces chain_bytes flat_map option_map]; [reflexivity|]. rewrite IH. reflexivity. Qed.

Lemma pieces_zero mem base sz l : 0 < sz -> pieces mem base sz (Some 0) l = [].
Proof.
  intro P. induction l as [|s l IH]; cbn [pieces option_map]; [reflexivity|].
  replace (0 <? sz) with true by lia. change (Z.to_nat 0) with 0%nat. cbn [firstn app]. rewrite Z.sub_0_r. exact IH.
Qed.
Lemma pieces_size mem base sz : 0 < sz -> 0 <= base -> forall l t, 0 <= t -> Forall (fun s => 0 <= s) l -> whole mem base sz l ->
  pieces mem base sz (Some t) l = firstn (Z.to_nat t) (chain_bytes mem base sz l).
Proof.
  intros SZ B l. induction l as [|s l IH]; intros t T P W; cbn [pieces chain_bytes flat_map option_map].
  - rewrite firstn_nil. reflexivity.
  - inversion P as [|? ? P1 P2]; subst. destruct (Z.ltb_spec t sz) as [L|L].
    + rewrite Z.sub_diag, pieces_zero by exact SZ. rewrite app_nil_r.
      unfold sector. 
      destruct l as [|s2 l].
      * cbn [flat_map]. rewrite app_nil_r. rewrite firstn_firstn. f_equal. lia.
      * unfold whole in W. cbn [removelast] in W. apply Forall_inv in W.
        rewrite firstn_app, firstn_firstn. rewrite firstn_length, skipn_length.
        replace (Z.to_nat t - Nat.min (Z.to_nat sz) (length mem - Z.to_nat (base + s * sz)))%nat with 0%nat by nia.
        cbn [firstn]. rewrite app_nil_r. f_equal. lia.
    + destruct l as [|s2 l].
      * cbn [pieces flat_map]. rewrite !app_nil_r. unfold sector. rewrite firstn_firstn. f_equal. lia.
      * rewrite IH; [|lia|exact P2|].
        -- unfold whole in W. cbn [removelast] in W. apply Forall_inv in W.
           change (flat_map (sector mem base sz) (s2 :: l)) with (chain_bytes mem base sz (s2 :: l)).
           rewrite firstn_app. unfold sector at 2. rewrite firstn_length, skipn_length.
           rewrite (firstn_all2 (n := Z.to_nat t) (sector mem base sz s)) by (unfold sector; rewrite firstn_length; lia).
           unfold sector at 1. f_equal. f_equal. nia.
        -- unfold whole in *. cbn [removelast] in *. apply Forall_inv_tail in W. exact W.
Qed.

Lemma get_loop_chain mem base sat sz id : 0 <= base -> 0 < sz -> forall s l, chain sat s l ->
  forall f seen todo acc, (length l <= f)%nat -> (match todo with Some t => 0 <= t | None => True end) ->
  (match id with Some i => 1 <= i <= 255 /\ Forall (unused seen) l | None => True end) ->
  exists seen', get_loop f mem base sat sz id seen s todo acc = Some (seen', Ok (acc ++ pieces mem base sz todo l)) /\
    (match id with Some i => marked seen seen' l i | None => seen' = seen end).
Proof.
  intros B SZ s l C. pose proof (chain_NoDup sat s l C) as ND. revert ND.
  induction C as [|s s' l H E C IH]; intros ND f seen todo acc L T U.
  - exists seen. cbn [pieces]. rewrite app_nil_r. split; [destruct f; reflexivity|].
    destruct id as [i|]; [|reflexivity]. split; [reflexivity|]. split; [intros s []|reflexivity].
  - destruct f as [|f]; [cbn [length] in L; lia|]. cbn [get_loop]. replace (s <? 0) with false by lia.
    inversion ND as [|? ? NI ND']; subst.
    set (seen1 := match id with Some i => firstn (Z.to_nat s) seen ++ i :: skipn (S (Z.to_nat s)) seen | None => seen end).
    assert (M : mark seen id s = (seen1, Ok tt)).
    { destruct id as [i|]; [|reflexivity]. destruct U as [U1 U2]. apply Forall_inv in U2.
      cbn [mark]. rewrite py_index_pos by exact H. rewrite U2. cbn [Z.eqb negb].
      replace ((i <? 0) || (255 <? i)) with false by lia. reflexivity. }
    rewrite M. cbv zeta. rewrite py_index_pos by exact H. rewrite E.
    set (grab := match todo with None => sz | Some t => if t <? sz then t else sz end).
    assert (G : 0 <= grab) by (unfold grab; destruct todo as [t|]; [destruct (t <? sz)|]; lia).
    rewrite pyslice_nonneg by nia.
    destruct (IH ND' f seen1 (option_map (fun t => t - grab) todo)
                (acc ++ firstn (Z.to_nat grab) (skipn (Z.to_nat (base + s * sz)) mem))) as (seen' & G1 & G2).
    { cbn [length] in L. lia. }
    { destruct todo as [t|]; [|exact I]. cbn [option_map]. unfold grab. destruct (t <? sz) eqn:Q; lia. }
    { destruct id as [i|]; [|exact I]. destruct U as [U1 U2]. split; [exact U1|].
      pose proof (Forall_inv U2) as U3. apply Forall_inv_tail in U2.
      assert (LS : (Z.to_nat s < length seen)%nat) by (apply nth_error_Some; unfold unused in U3; congruence).
      rewrite Forall_forall in *. intros x X. specialize (U2 x X). unfold unused in *. unfold seen1.
      rewrite nth_error_set by exact LS. destruct (Nat.eqb_spec (Z.to_nat x) (Z.to_nat s)) as [Q|Q]; [|exact U2].
      exfalso. apply NI. pose proof (chain_pos _ _ _ C) as PP. rewrite Forall_forall in PP. specialize (PP x X).
      replace s with x by lia. exact X. }
    exists seen'. rewrite G1. split; [rewrite <- app_assoc; reflexivity|].
    destruct id as [i|]; [|exact G2]. destruct U as [U1 U2]. pose proof (Forall_inv U2) as U3.
    assert (LS : (Z.to_nat s < length seen)%nat) by (apply nth_error_Some; unfold unused in U3; congruence).
    destruct G2 as (G3 & G4 & G5). split; [|split].
    + rewrite G3. unfold seen1. apply set_length. exact LS.
    + intros x [<-|X]; [|apply G4; exact X]. 
      rewrite <- (Z2Nat.id s) in NI by exact H. rewrite (G5 _ NI). unfold seen1.
      rewrite nth_error_set by exact LS. rewrite Nat.eqb_refl. reflexivity.
    + intros j J. rewrite G5 by (intro X; apply J; right; exact X). unfold seen1.
      rewrite nth_error_set by exact LS. destruct (Nat.eqb_spec j (Z.to_nat s)) as [->|Q]; [|reflexivity].
      exfalso. apply J. left. lia.
Qed.

(** What is returned was read along a chain. *)
Lemma get_loop_sound mem base sat sz id : 0 <= base -> 0 < sz -> forall f seen s todo acc seen' b,
  (match todo with Some t => 0 <= t | None => True end) ->
  get_loop f mem base sat sz id seen s todo acc = Some (seen', Ok b) ->
  exists l, chain sat s l /\ b = acc ++ pieces mem base sz todo l /\
    (forall i, id = Some i -> i <> 0 -> Forall (unused seen) l).
Proof.
  intros B SZ f. induction f as [|f IH]; intros seen s todo acc seen' b T H; cbn [get_loop] in H.
  - destruct (s <? 0) eqn:S0; [|discriminate H]. destruct (Z.eqb_spec s EOCSID) as [->|]; [|discriminate H].
    exists []. split; [constructor|]. split; [cbn [pieces]; rewrite app_nil_r; congruence|]. constructor.
  - destruct (s <? 0) eqn:S0.
    + destruct (Z.eqb_spec s EOCSID) as [->|]; [|discriminate H].
      exists []. split; [constructor|]. split; [cbn [pieces]; rewrite app_nil_r; congruence|]. constructor.
    + destruct (mark seen id s) as [seen1 [u|e]] eqn:M; [|discriminate H]. cbv zeta in H.
      destruct (py_index sat s) as [s'|] eqn:P; [|discriminate H].
      rewrite py_index_pos in P by lia.
      set (grab := match todo with None => sz | Some t => if t <? sz then t else sz end) in *.
      assert (G : 0 <= grab) by (unfold grab; destruct todo as [t|]; [destruct (t <? sz)|]; lia).
      rewrite pyslice_nonneg in H by nia.
      apply IH in H; [|destruct todo as [t|]; [|exact I]; cbn [option_map]; unfold grab; destruct (t <? sz) eqn:Q; lia].
      destruct H as (l & C & E & U).
      exists (s :: l). split; [econstructor; [lia|exact P|exact C]|].
      split; [rewrite E; cbn [pieces]; fold grab; rewrite <- app_assoc; reflexivity|].
      intros i I1 I2. specialize (U i I1 I2). rewrite I1 in M. apply mark_seen_ok in M; [|lia].
      destruct M as (M1 & M2 & ->).
      assert (LS : (Z.to_nat s < length seen)%nat) by (apply nth_error_Some; congruence).
      constructor; [exact M1|]. rewrite Forall_forall in *. intros x X. specialize (U x X). unfold unused in *.
      rewrite nth_error_set in U by exact LS.
      destruct (Nat.eqb_spec (Z.to_nat x) (Z.to_nat s)) as [Q|Q]; [congruence|exact U].
Qed.

(** A path back into itself is found out when sectors are marked. *)
Lemma get_loop_cycle mem base sat sz i : 1 <= i <= 255 -> forall s l t, path sat s l t ->
  forall seen todo acc f, NoDup l -> Forall (unused seen) l -> 0 <= t ->
  (In t l \/ exists v, nth_error seen (Z.to_nat t) = Some v /\ v <> 0) ->
  (length l < f)%nat ->
  exists seen', get_loop f mem base sat sz (Some i) seen s todo acc = Some (seen', Err CompDocError).
Proof.
  intros I0 s l t P. induction P as [s|s s' l t H E P IH]; intros seen todo acc f N U T R L.
  - destruct R as [[]|(v & V1 & V2)]. destruct f as [|f]; [lia|]. cbn [get_loop]. replace (s <? 0) with false by lia.
    cbn [mark]. rewrite py_index_pos by exact T. rewrite V1. replace (negb (v =? 0)) with true by lia. eauto.
  - destruct f as [|f]; [cbn [length] in L; lia|]. cbn [get_loop]. replace (s <? 0) with false by lia.
    pose proof (Forall_inv U) as U1. apply Forall_inv_tail in U. inversion N as [|? ? N1 N2]; subst.
    assert (LS : (Z.to_nat s < length seen)%nat) by (apply nth_error_Some; unfold unused in U1; congruence).
    cbn [mark]. rewrite py_index_pos by exact H. rewrite U1. cbn [Z.eqb negb].
    replace ((i <? 0) || (255 <? i)) with false by lia. cbv zeta. rewrite py_index_pos by exact H. rewrite E.
    apply IH; [exact N2| |exact T| |cbn [length] in L; lia].
    + pose proof (path_pos _ _ _ _ P) as PP. rewrite Forall_forall in *. intros x X. specialize (U x X). unfold unused in *.
      rewrite nth_error_set by exact LS. destruct (Nat.eqb_spec (Z.to_nat x) (Z.to_nat s)) as [Q|Q]; [|exact U].
      exfalso. apply N1. specialize (PP x X). replace s with x by lia. exact X.
    + destruct R as [[<-|R]|(v & V1 & V2)].
      * right. exists i. rewrite nth_error_set by exact LS. rewrite Nat.eqb_refl. split; [reflexivity|lia].
      * left. exact R.
      * right. rewrite nth_error_set by exact LS. destruct (Nat.eqb (Z.to_nat t) (Z.to_nat s)).
        -- exists i. split; [reflexivity|lia].
        -- exists v. auto.
Qed.

(** ** Locating a stream *)

Definition joined (mem : str) (sl : list (Z * Z)) : str := flat_map (fun ab => pyslice mem (fst ab) (snd ab)) sl.

Definition usable (ignore : bool) (seen : list Z) (s : Z) : Prop :=
  exists v, nth_error seen (Z.to_nat s) = Some v /\ (ignore = false -> v = 0).

Lemma locate_loop_chain mem ignore base sat sz id lim : 0 <= base -> 0 < sz -> 0 <= id <= 255 ->
  forall s l, chain sat s l -> forall f seen p st en sl tot,
  (length l <= f)%nat -> Forall (usable ignore seen) l -> tot + Z.of_nat (length l) <= lim ->
  0 <= p -> base <= st <= en -> en = base + (p + 1) * sz ->
  exists seen' st' en' sl',
    locate_loop f ignore base sat sz id lim seen s p st en sl tot
      = (seen', Ok (st', en', sl', -2, tot + Z.of_nat (length l))) /\
    marked seen seen' l id /\ joined mem (sl' ++ [(st', en')]) = joined mem (sl ++ [(st, en)]) ++ chain_bytes mem base sz l /\
    (sl' = [] -> sl = [] /\ st' = st /\ en' = en + Z.of_nat (length l) * sz).
Proof.
  intros B SZ ID s l C. pose proof (chain_NoDup sat s l C) as ND. revert ND.
  induction C as [|s s' l H E C IH]; intros ND f seen p st en sl tot L U LIM P SE EN.
  - exists seen, st, en, sl. split; [cbn [length Z.of_nat]; rewrite Z.add_0_r; destruct f; reflexivity|].
    split; [split; [reflexivity|split; [intros x []|reflexivity]]|].
    split; [cbn [chain_bytes flat_map]; rewrite app_nil_r; reflexivity|].
    intro. cbn [length]. split; [assumption|]. split; [reflexivity|lia].
  - destruct f as [|f]; [cbn [length] in L; lia|]. cbn [locate_loop]. replace (s <? 0) with false by lia.
    inversion ND as [|? ? NI ND']; subst.
    pose proof (Forall_inv U) as (v & V1 & V2). rewrite py_index_pos by exact H. rewrite V1.
    replace (negb (v =? 0) && negb ignore) with false
      by (destruct ignore; [rewrite andb_false_r; reflexivity|rewrite V2 by reflexivity; reflexivity]).
    replace ((id <? 0) || (255 <? id)) with false by lia. cbv zeta. cbn [length] in LIM.
    replace (lim <? tot + 1) with false by lia.
    assert (LS : (Z.to_nat s < length seen)%nat) by (apply nth_error_Some; congruence).
    set (seen1 := firstn (Z.to_nat s) seen ++ id :: skipn (S (Z.to_nat s)) seen).
    assert (U1 : Forall (usable ignore seen1) l).
    { apply Forall_inv_tail in U. pose proof (chain_pos _ _ _ C) as PP. rewrite Forall_forall in *. intros x X.
      specialize (U x X). specialize (PP x X). unfold usable in *. unfold seen1. rewrite nth_error_set by exact LS.
      destruct (Nat.eqb_spec (Z.to_nat x) (Z.to_nat s)) as [Q|Q]; [|exact U].
      exfalso. apply NI. replace s with x by lia. exact X. }
    assert (MK : forall seen', marked seen1 seen' l id -> marked seen seen' (s :: l) id).
    { intros seen' (G3 & G4 & G5). split; [|split].
      + rewrite G3. unfold seen1. apply set_length. exact LS.
      + intros x [<-|X]; [|apply G4; exact X].
        rewrite <- (Z2Nat.id s) in NI by exact H. rewrite (G5 _ NI). unfold seen1.
        rewrite nth_error_set by exact LS. rewrite Nat.eqb_refl. reflexivity.
      + intros j J. rewrite G5 by (intro X; apply J; right; exact X). unfold seen1.
        rewrite nth_error_set by exact LS. destruct (Nat.eqb_spec j (Z.to_nat s)) as [->|Q]; [|reflexivity].
        exfalso. apply J. left. lia. }
    clearbody seen1.
    assert (SEC : forall a, 0 <= a -> pyslice mem a (a + sz) = firstn (Z.to_nat sz) (skipn (Z.to_nat a) mem))
      by (intros; apply pyslice_nonneg; lia).
    destruct (Z.eqb_spec s (p + 1)) as [Q|Q].
    + rewrite py_index_pos by exact H. rewrite E.
      destruct (IH ND' f seen1 s st (base + (p + 1) * sz + sz) sl (tot + 1)) as (seen' & st' & en' & sl' & R1 & R2 & R3 & R4);
        try assumption; try (cbn [length] in L; nia).
      exists seen', st', en', sl'. split; [rewrite R1; cbn [length]; replace (tot + Z.of_nat (S (length l))) with (tot + 1 + Z.of_nat (length l)) by lia; reflexivity|].
      split; [apply MK; exact R2|]. split.
      * rewrite R3. cbn [chain_bytes flat_map]. rewrite app_assoc. f_equal.
        unfold joined. rewrite !flat_map_app. rewrite <- app_assoc. f_equal. cbn [flat_map fst snd]. rewrite !app_nil_r.
        replace (base + (p + 1) * sz + sz) with (st + ((base + (p + 1) * sz - st) + sz)) by lia.
        rewrite pyslice_nonneg by lia. 
        replace (base + (p + 1) * sz) with (st + (base + (p + 1) * sz - st)) at 2 by lia.
        rewrite pyslice_nonneg by lia. rewrite Z2Nat.inj_add by lia. rewrite firstn_split. f_equal.
        unfold sector. rewrite skipn_add. f_equal. f_equal. rewrite <- Z2Nat.inj_add by lia. f_equal. rewrite Q. lia.
      * intro X. destruct (R4 X) as (X1 & X2 & X3). cbn [length]. split; [exact X1|]. split; [exact X2|]. lia.
    + replace (0 <=? p) with true by lia. rewrite py_index_pos by exact H. rewrite E.
      destruct (IH ND' f seen1 s (base + s * sz) (base + s * sz + sz) (sl ++ [(st, base + (p + 1) * sz)]) (tot + 1))
        as (seen' & st' & en' & sl' & R1 & R2 & R3 & R4);
        try assumption; try (cbn [length] in L; nia).
      exists seen', st', en', sl'. split; [rewrite R1; cbn [length]; replace (tot + Z.of_nat (S (length l))) with (tot + 1 + Z.of_nat (length l)) by lia; reflexivity|].
      split; [apply MK; exact R2|]. split.
      * rewrite R3. cbn [chain_bytes flat_map]. rewrite app_assoc. f_equal.
        unfold joined. rewrite !flat_map_app. rewrite <- !app_assoc. f_equal. f_equal.
        cbn [flat_map fst snd]. rewrite !app_nil_r. rewrite SEC by nia. reflexivity.
      * intro X. destruct (R4 X) as (X1 & _). destruct sl; discriminate X1.
Qed.

Lemma locate_stream_chain mem ignore base sat sz id seen s l size : 0 <= base -> 0 < sz -> 0 <= id <= 255 ->
  chain sat s l -> 0 <= s -> Forall (usable ignore seen) l -> (size + sz - 1) / sz = Z.of_nat (length l) ->
  exists seen' m pos, locate_stream ignore mem base sat sz s size id seen = (seen', Ok (m, pos, size)) /\
    marked seen seen' l id /\ 0 <= pos /\
    firstn (Z.to_nat size) (skipn (Z.to_nat pos) m) = firstn (Z.to_nat size) (chain_bytes mem base sz l).
Proof.
  intros B SZ ID C S0 U LIM. unfold locate_stream. replace (s <? 0) with false by lia. rewrite LIM, Nat2Z.id.
  inversion C as [|? s' l' H E C' EQ]; subst; [lia|]. 
  pose proof (chain_NoDup sat s (s :: l') C) as ND. inversion ND as [|? ? NI ND']; subst.
  cbn [length] in *. remember (S (length l')) as m eqn:EM.
  cbn [locate_loop]. replace (s <? 0) with false by lia.
  pose proof (Forall_inv U) as (v & V1 & V2). rewrite py_index_pos by exact H. rewrite V1.
  replace (negb (v =? 0) && negb ignore) with false
    by (destruct ignore; [rewrite andb_false_r; reflexivity|rewrite V2 by reflexivity; reflexivity]).
  replace ((id <? 0) || (255 <? id)) with false by lia. cbv zeta.
  replace (Z.of_nat m <? 0 + 1) with false by lia.
  replace (s =? -99 + 1) with false by lia. cbn [Z.leb]. change (0 <=? -99) with false. cbv iota.
  rewrite py_index_pos by exact H. rewrite E.
  assert (LS : (Z.to_nat s < length seen)%nat) by (apply nth_error_Some; congruence).
  set (seen1 := firstn (Z.to_nat s) seen ++ id :: skipn (S (Z.to_nat s)) seen).
  assert (U1 : Forall (usable ignore seen1) l').
  { apply Forall_inv_tail in U. pose proof (chain_pos _ _ _ C') as PP. rewrite Forall_forall in *. intros x X.
    specialize (U x X). specialize (PP x X). unfold usable in *. unfold seen1. rewrite nth_error_set by exact LS.
    destruct (Nat.eqb_spec (Z.to_nat x) (Z.to_nat s)) as [Q|Q]; [|exact U].
    exfalso. apply NI. replace s with x by lia. exact X. }
  destruct (locate_loop_chain mem ignore base sat sz id (Z.of_nat m) B SZ ID s' l' C'
              m seen1 s (base + s * sz) (base + s * sz + sz) [] (0 + 1))
    as (seen' & st' & en' & sl' & R1 & R2 & R3 & R4); try assumption; try nia.
  assert (MK : marked seen seen' (s :: l') id).
  { destruct R2 as (G3 & G4 & G5). split; [|split].
    + rewrite G3. unfold seen1. apply set_length. exact LS.
    + intros x [<-|X]; [|apply G4; exact X].
      rewrite <- (Z2Nat.id s) in NI by exact H. rewrite (G5 _ NI). unfold seen1.
      rewrite nth_error_set by exact LS. rewrite Nat.eqb_refl. reflexivity.
    + intros j J. rewrite G5 by (intro X; apply J; right; exact X). unfold seen1.
      rewrite nth_error_set by exact LS. destruct (Nat.eqb_spec j (Z.to_nat s)) as [->|Q]; [|reflexivity].
      exfalso. apply J. left. lia. }
  assert (J : joined mem (sl' ++ [(st', en')]) = chain_bytes mem base sz (s :: l')).
  { rewrite R3. unfold joined. cbn [app flat_map fst snd chain_bytes]. rewrite app_nil_r. f_equal.
    rewrite pyslice_nonneg by nia. reflexivity. }
  rewrite R1. cbv iota beta. cbn [Z.eqb negb]. 
  replace (-2 =? EOCSID) with true by reflexivity. cbn [negb].
  replace (0 + 1 + Z.of_nat (length l') =? Z.of_nat m) with true by lia. cbn [negb].
  destruct sl' as [|x sl'].
  - destruct (R4 eq_refl) as (_ & -> & EN).
    exists seen', mem, (base + s * sz). split; [reflexivity|]. split; [exact MK|]. split; [nia|].
    rewrite <- J. unfold joined. cbn [app flat_map fst snd]. rewrite app_nil_r.
    replace en' with (base + s * sz + sz * Z.of_nat m) by lia.
    rewrite pyslice_nonneg by nia. rewrite firstn_firstn. f_equal.
    assert (size <= sz * Z.of_nat m).
    { rewrite <- LIM. pose proof (Z.div_mod (size + sz - 1) sz ltac:(lia)). pose proof (Z.mod_pos_bound (size + sz - 1) sz SZ). lia. }
    lia.
  - exists seen', (joined mem ((x :: sl') ++ [(st', en')])), 0. split; [reflexivity|]. split; [exact MK|]. split; [lia|].
    rewrite J. reflexivity.
Qed.

Lemma locate_loop_ok ignore base sat sz id lim : forall f seen s p st en sl tot seen' st' en' sl' s' tot',
  locate_loop f ignore base sat sz id lim seen s p st en sl tot = (seen', Ok (st', en', sl', s', tot')) -> s' = -2 ->
  exists l, chain sat s l /\ tot' = tot + Z.of_nat (length l) /\ Forall (fun x => (Z.to_nat x < length seen)%nat) l /\
    (l <> [] -> 0 <= id <= 255) /\
    (ignore = false -> id <> 0 -> Forall (unused seen) l).
Proof.
  intro f. induction f as [|f IH]; intros seen s p st en sl tot seen' st' en' sl' s' tot' H S2; cbn [locate_loop] in H.
  - destruct (s <? 0) eqn:S0; [|discriminate H]. injection H as _ _ _ _ <- <-.
    exists []. subst s. split; [constructor|]. split; [cbn [length]; lia|]. split; [constructor|].
    split; [congruence|]. constructor.
  - destruct (s <? 0) eqn:S0.
    + injection H as _ _ _ _ <- <-. exists []. subst s. split; [constructor|]. split; [cbn [length]; lia|].
      split; [constructor|]. split; [congruence|]. constructor.
    + rewrite py_index_pos in H by lia. destruct (nth_error seen (Z.to_nat s)) as [v|] eqn:V; [|discriminate H].
      destruct (negb (v =? 0) && negb ignore) eqn:VI; [discriminate H|].
      destruct ((id <? 0) || (255 <? id)) eqn:IB; [discriminate H|]. cbv zeta in H.
      destruct (lim <? tot + 1); [discriminate H|].
      assert (LS : (Z.to_nat s < length seen)%nat) by (apply nth_error_Some; congruence).
      assert (X : exists p st en sl, match py_index sat s with
                | None => (firstn (Z.to_nat s) seen ++ id :: skipn (S (Z.to_nat s)) seen, Err IndexError)
                | Some s' => locate_loop f ignore base sat sz id lim (firstn (Z.to_nat s) seen ++ id :: skipn (S (Z.to_nat s)) seen) s' p st en sl (tot + 1)
                end = (seen', Ok (st', en', sl', s', tot'))).
      { destruct (s =? p + 1); cbv iota beta in H; eauto 6. }
      clear H. destruct X as (p1 & st1 & en1 & sl1 & H). rewrite py_index_pos in H by lia.
      destruct (nth_error sat (Z.to_nat s)) as [s1|] eqn:E; [|discriminate H].
      destruct (IH _ _ _ _ _ _ _ _ _ _ _ _ _ H S2) as (l & C & T & IN & IDB & U).
      exists (s :: l). split; [econstructor; [lia|exact E|exact C]|]. split; [cbn [length]; lia|].
      rewrite set_length in IN by exact LS. split; [constructor; assumption|]. split; [lia|].
      intros IG ID. specialize (U IG ID). subst ignore. assert (v = 0) by lia. subst v.
      constructor; [exact V|]. rewrite Forall_forall in *. intros x X. specialize (U x X). unfold unused in *.
      rewrite nth_error_set in U by exact LS.
      destruct (Nat.eqb_spec (Z.to_nat x) (Z.to_nat s)) as [Q|Q]; [congruence|exact U].
Qed.

Lemma locate_loop_fuel f : forall f' ignore base sat sz id lim seen s p st en sl tot,
  lim - tot < Z.of_nat f -> (f <= f')%nat -> 
  locate_loop f' ignore base sat sz id lim seen s p st en sl tot = locate_loop f ignore base sat sz id lim seen s p st en sl tot
  \/ (f = 0)%nat.
Proof.
  induction f as [|f IH]; intros f' ignore base sat sz id lim seen s p st en sl tot L F; [right; reflexivity|left].
  destruct f' as [|f']; [lia|]. cbn [locate_loop]. destruct (s <? 0); [reflexivity|].
  destruct (py_index seen s) as [v|]; [|reflexivity]. destruct (negb (v =? 0) && negb ignore); [reflexivity|].
  destruct ((id <? 0) || (255 <? id)); [reflexivity|]. cbv zeta. destruct (Z.ltb_spec lim (tot + 1)) as [Q|Q]; [reflexivity|].
  destruct (s =? p + 1); cbv iota beta; (destruct (py_index sat s) as [s'|]; [|reflexivity]);
    (edestruct (IH f') as [X|X]; [| |exact X|]; lia).
Qed.

(** ** The directory *)

Lemma family_more f : forall f' dl p x k r, (f <= f')%nat ->
  family f dl p x k = Some r -> family f' dl p x k = Some r.
Proof.
  induction f as [|f IH]; intros f' dl p x k r L H.
  - destruct f'; cbn [family] in *; destruct (x <? 0); try exact H; discriminate H.
  - destruct f' as [|f']; [lia|]. cbn [family] in *. destruct (x <? 0); [exact H|].
    destruct (py_index dl x) as [n|]; [|exact H].
    destruct (family f dl p (dn_left n) k) as [[k1|e]|] eqn:E1; [| |discriminate H];
      rewrite (IH f' _ _ _ _ _ ltac:(lia) E1); [|exact H].
    destruct (family f dl p (dn_right n) (adopt p x k1)) as [[k2|e]|] eqn:E2; [| |discriminate H];
      rewrite (IH f' _ _ _ _ _ ltac:(lia) E2); [|exact H].
    destruct (dn_etype n =? 1); [|exact H]. apply IH; [lia|exact H].
Qed.

(** What comes out, but for the children and parents. *)
Definition shape (r : option (res kin)) : option (option exn) :=
  match r with None => None | Some (Ok _) => Some None | Some (Err e) => Some (Some e) end.
Lemma family_shape f : forall dl p p' x k k', shape (family f dl p x k) = shape (family f dl p' x k').
Proof.
  induction f as [|f IH]; intros dl p p' x k k'; cbn [family]; destruct (x <? 0); try reflexivity.
  destruct (py_index dl x) as [n|]; [|reflexivity].
  pose proof (IH dl p p' (dn_left n) k k') as H1.
  destruct (family f dl p (dn_left n) k) as [[k1|e]|], (family f dl p' (dn_left n) k') as [[k1'|e']|];
    cbn [shape] in *; try congruence.
  pose proof (IH dl p p' (dn_right n) (adopt p x k1) (adopt p' x k1')) as H2.
  destruct (family f dl p (dn_right n) (adopt p x k1)) as [[k2|e]|],
           (family f dl p' (dn_right n) (adopt p' x k1')) as [[k2'|e']|]; cbn [shape] in *; try congruence.
  destruct (dn_etype n =? 1); [|reflexivity]. apply IH.
Qed.

(** x is done with in f steps. *)
Definition done (dl : list dirnode) (f : nat) (x : Z) : Prop :=
  shape (family f dl 0 x (mkkin [] [])) <> None.
Lemma done_any dl f x p k : done dl f x <-> family f dl p x k <> None.
Proof.
  unfold done. rewrite (family_shape f dl 0 p x (mkkin [] []) k).
  destruct (family f dl p x k) as [[k1|e]|]; cbn [shape]; split; congruence.
Qed.
Lemma done_more dl f f' x : (f <= f')%nat -> done dl f x -> done dl f' x.
Proof.
  intros L H. rewrite (done_any dl f x 0 (mkkin [] [])) in H. apply (done_any dl f' x 0 (mkkin [] [])).
  destruct (family f dl 0 x (mkkin [] [])) as [r|] eqn:E; [|congruence].
  rewrite (family_more f f' _ _ _ _ _ L E). discriminate.
Qed.

(** Needing m+1 steps and not m, an entry leads to one that needs m. *)
Lemma family_step dl m x p k : family (S m) dl p x k = None -> family (S (S m)) dl p x k <> None ->
  exists y, done dl (S m) y /\ ~ done dl m y.
Proof.
  intros H1 H2. cbn [family] in H1. remember (S m) as m1. cbn [family] in H2. subst m1.
  destruct (x <? 0); [discriminate H1|]. destruct (py_index dl x) as [n|]; [|discriminate H1].
  destruct (family m dl p (dn_left n) k) as [[k1|e]|] eqn:E1.
  - rewrite (family_more m (S m) _ _ _ _ _ ltac:(lia) E1) in H2.
    destruct (family m dl p (dn_right n) (adopt p x k1)) as [[k2|e]|] eqn:E2.
    + rewrite (family_more m (S m) _ _ _ _ _ ltac:(lia) E2) in H2.
      destruct (dn_etype n =? 1); [|discriminate H1]. exists (dn_root n).
      split; [apply (done_any _ _ _ x k2); exact H2|rewrite (done_any _ _ _ x k2); congruence].
    + discriminate H1.
    + exists (dn_right n). split; [apply (done_any _ _ _ p (adopt p x k1))|rewrite (done_any _ _ _ p (adopt p x k1)); congruence].
      intro Q. rewrite Q in H2. congruence.
  - discriminate H1.
  - exists (dn_left n). split; [apply (done_any _ _ _ p k)|rewrite (done_any _ _ _ p k); congruence].
    intro Q. rewrite Q in H2. congruence.
Qed.

(** Distinct entries on the way down: all but the last exist. *)
Lemma done_levels dl m : forall x, done dl (S m) x -> ~ done dl m x ->
  exists l, length l = m /\ NoDup l /\ Forall (fun y => 0 <= y < Z.of_nat (length dl)) l /\
    Forall (fun y => exists j, (0 < j <= m)%nat /\ done dl (S j) y /\ ~ done dl j y) l.
Proof.
  induction m as [|m IH]; intros x D ND.
  - exists []. repeat split; constructor.
  - assert (X : 0 <= x < Z.of_nat (length dl)).
    { rewrite (done_any _ _ _ 0 (mkkin [] [])) in ND. cbn [family] in ND. destruct (x <? 0) eqn:X0.
      - exfalso. apply ND. discriminate.
      - rewrite py_index_pos in ND by lia. destruct (nth_error dl (Z.to_nat x)) as [n|] eqn:E.
        + assert (Z.to_nat x < length dl)%nat by (apply nth_error_Some; congruence). lia.
        + exfalso. apply ND. discriminate. }
    destruct (family_step dl m x 0 (mkkin [] [])) as (y & Y1 & Y2).
    { rewrite (done_any _ _ _ 0 (mkkin [] [])) in ND.
      destruct (family (S m) dl 0 x (mkkin [] [])); [exfalso; apply ND; discriminate|reflexivity]. }
    { apply (done_any _ _ _ 0 (mkkin [] [])). exact D. }
    destruct (IH y Y1 Y2) as (l & L & N & R & J).
    exists (x :: l). split; [cbn [length]; lia|]. split; [|split].
    + constructor; [|exact N]. intro I. rewrite Forall_forall in J. destruct (J x I) as (j & J1 & J2 & J3).
      apply ND. apply (done_more dl (S j)); [lia|exact J2].
    + constructor; assumption.
    + constructor.
      * exists (S m). split; [lia|]. split; assumption.
      * eapply Forall_impl; [|exact J]. cbn beta. intros a (j & J1 & J2). exists j. split; [lia|exact J2].
Qed.

Lemma least (P : nat -> Prop) : (forall n, P n \/ ~ P n) -> forall n, P n -> exists m, (m <= n)%nat /\ P m /\ forall j, (j < m)%nat -> ~ P j.
Proof.
  intro D. assert (X : forall n, (exists m, (m <= n)%nat /\ P m /\ forall j, (j < m)%nat -> ~ P j) \/ forall j, (j <= n)%nat -> ~ P j).
  { induction n as [|n [(m & H & H1)|IH]].
    - destruct (D 0%nat) as [H|H]; [left; exists 0%nat|right].
      + split; [lia|]. split; [exact H|]. lia.
      + intros j J. replace j with 0%nat by lia. exact H.
    - left. exists m. split; [lia|exact H1].
    - destruct (D (S n)) as [H|H]; [left; exists (S n)|right].
      + split; [lia|]. split; [exact H|]. intros j J. apply IH. lia.
      + intros j J. destruct (Nat.eq_dec j (S n)) as [->|Q]; [exact H|apply IH; lia]. }
  intros n H. destruct (X n) as [Y|Y]; [exact Y|]. exfalso. exact (Y n (le_n n) H).
Qed.

Lemma family_fuel dl f p x k r : family f dl p x k = Some r -> family (S (length dl)) dl p x k = Some r.
Proof.
  intro H.
  assert (D : done dl f x) by (apply (done_any _ _ _ p k); congruence).
  destruct (least (fun n => done dl n x)) with (n := f) as (m & M1 & M2 & M3).
  { intro n. unfold done. destruct (shape (family n dl 0 x (mkkin [] []))); [left; discriminate|right; congruence]. }
  { exact D. }
  assert (B : (m <= S (length dl))%nat).
  { destruct m as [|m]; [lia|]. destruct (done_levels dl m x M2) as (l & L & N & R & _).
    { apply M3. lia. }
    assert (Q : (length (map Z.to_nat l) <= length (seq 0 (length dl)))%nat).
    { apply NoDup_incl_length.
      - clear - N R. induction N as [|y l NI N IH]; cbn [map]; constructor.
        + intro I. apply in_map_iff in I. destruct I as (z & E & I). inversion R as [|? ? R1 R2]; subst.
          rewrite Forall_forall in R2. specialize (R2 z I). assert (z = y) by lia. subst z. contradiction.
        + apply IH. inversion R; assumption.
      - intros y I. apply in_map_iff in I. destruct I as (z & <- & I). rewrite Forall_forall in R. specialize (R z I).
        apply in_seq. lia. }
    rewrite map_length, seq_length in Q. lia. }
  apply (done_any _ _ _ p k) in M2. destruct (family m dl p x k) as [r'|] eqn:E; [|congruence].
  pose proof (family_more m (Nat.max m f) _ _ _ _ _ ltac:(lia) E) as E1.
  pose proof (family_more f (Nat.max m f) _ _ _ _ _ ltac:(lia) H) as E2.
  rewrite (family_more m (S (length dl)) _ _ _ _ _ B E). congruence.
Qed.

(** The walk over a tree. *)
Fixpoint settle (t : dtree) (p : Z) (k : kin) : kin :=
  match t with
  | Nil => k
  | Node d l r i => settle i d (settle r p (adopt p d (settle l p k)))
  end.
Fixpoint height (t : dtree) : nat :=
  match t with Nil => 0%nat | Node _ l r i => S (Nat.max (height l) (Nat.max (height r) (height i))) end.

Lemma family_tree dl x t : unfolds dl x t -> forall f p k, (height t <= f)%nat ->
  family f dl p x k = Some (Ok (settle t p k)).
Proof.
  induction 1 as [x H|x n l r i H E T UL IL UR IR UI II|x n l r H E T UL IL UR IR]; intros f p k F.
  - destruct f; cbn [family settle]; replace (x <? 0) with true by lia; reflexivity.
  - destruct f as [|f]; cbn [height] in F; [lia|]. cbn [family settle]. replace (x <? 0) with false by lia.
    rewrite py_index_pos by exact H. rewrite E. rewrite IL by lia. rewrite IR by lia. replace (dn_etype n =? 1) with true by lia.
    apply II. lia.
  - destruct f as [|f]; cbn [height] in F; [lia|]. cbn [family settle]. replace (x <? 0) with false by lia.
    rewrite py_index_pos by exact H. rewrite E. rewrite IL by lia. rewrite IR by lia. replace (dn_etype n =? 1) with false by lia.
    reflexivity.
Qed.
Lemma family_unfolds dl f : forall x p k k', family f dl p x k = Some (Ok k') -> exists t, unfolds dl x t.
Proof.
  induction f as [|f IH]; intros x p k k' H; cbn [family] in H; destruct (x <? 0) eqn:X0.
  - exists Nil. constructor. lia.
  - discriminate H.
  - exists Nil. constructor. lia.
  - rewrite py_index_pos in H by lia. destruct (nth_error dl (Z.to_nat x)) as [n|] eqn:E; [|discriminate H].
    destruct (family f dl p (dn_left n) k) as [[k1|e]|] eqn:E1; try discriminate H.
    destruct (family f dl p (dn_right n) (adopt p x k1)) as [[k2|e]|] eqn:E2; try discriminate H.
    destruct (IH _ _ _ _ E1) as (l & L). destruct (IH _ _ _ _ E2) as (r & R).
    destruct (dn_etype n =? 1) eqn:T.
    + destruct (IH _ _ _ _ H) as (i & I1). exists (Node x l r i). econstructor; try eassumption; lia.
    + exists (Node x l r Nil). eapply unf_other; try eassumption; lia.
Qed.

Lemma unfolds_entries dl x t : unfolds dl x t -> Forall (fun d => 0 <= d < Z.of_nat (length dl)) (entries t).
Proof.
  induction 1 as [x H|x n l r i H E T UL IL UR IR UI II|x n l r H E T UL IL UR IR]; cbn [entries].
  - constructor.
  - assert (Z.to_nat x < length dl)%nat by (apply nth_error_Some; congruence).
    rewrite Forall_app. split; [exact IL|]. constructor; [lia|]. rewrite Forall_app. split; assumption.
  - assert (Z.to_nat x < length dl)%nat by (apply nth_error_Some; congruence).
    rewrite Forall_app. split; [exact IL|]. constructor; [lia|]. rewrite app_nil_r. exact IR.
Qed.
Lemma siblings_entries t d : In d (siblings t) -> In d (entries t).
Proof.
  induction t as [|x l IL r IR i II]; cbn [siblings entries]; [tauto|].
  rewrite !in_app_iff. cbn [In]. rewrite !in_app_iff. tauto.
Qed.
Lemma storages_entries t d c : In (d, c) (storages t) -> In d (entries t).
Proof.
  induction t as [|x l IL r IR i II]; cbn [storages entries]; [tauto|].
  rewrite !in_app_iff. cbn [In]. rewrite !in_app_iff. intros [Q|[Q|[Q|Q]]]; try tauto. injection Q as -> _. tauto.
Qed.
Lemma storages_siblings t d c x : In (d, c) (storages t) -> In x (siblings c) -> In x (entries t).
Proof.
  induction t as [|y l IL r IR i II]; cbn [storages entries]; [tauto|].
  rewrite !in_app_iff. cbn [In]. rewrite !in_app_iff. intros [Q|[Q|[Q|Q]]] S; try tauto.
  injection Q as _ <-. apply siblings_entries in S. tauto.
Qed.

Definition kids (k : kin) (d : Z) : list Z := nth (Z.to_nat d) (k_children k) [].
Definition par (k : kin) (d : Z) : Z := nth (Z.to_nat d) (k_parent k) (-1).
Definition sized (n : nat) (k : kin) : Prop := length (k_children k) = n /\ length (k_parent k) = n.

Lemma nth_set A (l : list A) n x i (d : A) : (n < length l)%nat ->
  nth i (firstn n l ++ x :: skipn (S n) l) d = if Nat.eqb i n then x else nth i l d.
Proof.
  intro H. pose proof (nth_error_set A l n x i H) as E.
  destruct (Nat.eqb i n).
  - apply nth_error_nth. exact E.
  - destruct (nth_error l i) as [y|] eqn:Y.
    + rewrite (nth_error_nth _ _ d E). symmetry. apply nth_error_nth. exact Y.
    + apply nth_error_None in E, Y. rewrite !nth_overflow by assumption. reflexivity.
Qed.
Lemma adopt_kids n k p c d : sized n k -> 0 <= p < Z.of_nat n -> 0 <= d ->
  kids (adopt p c k) d = if d =? p then kids k p ++ [c] else kids k d.
Proof.
  intros [S1 S2] P D. unfold kids, adopt. cbn [k_children]. rewrite nth_set by lia.
  destruct (Nat.eqb_spec (Z.to_nat d) (Z.to_nat p)) as [Q|Q], (Z.eqb_spec d p) as [W|W]; try reflexivity; lia.
Qed.
Lemma adopt_par n k p c d : sized n k -> 0 <= c < Z.of_nat n -> 0 <= d ->
  par (adopt p c k) d = if d =? c then p else par k d.
Proof.
  intros [S1 S2] P D. unfold par, adopt. cbn [k_parent]. rewrite nth_set by lia.
  destruct (Nat.eqb_spec (Z.to_nat d) (Z.to_nat c)) as [Q|Q], (Z.eqb_spec d c) as [W|W]; try reflexivity; lia.
Qed.
Lemma adopt_sized n k p c : sized n k -> 0 <= p < Z.of_nat n -> 0 <= c < Z.of_nat n -> sized n (adopt p c k).
Proof. intros [S1 S2] P C. unfold adopt. split; cbn [k_children k_parent]; rewrite set_length by lia; assumption. Qed.

Lemma settle_sized n t : forall p k, sized n k -> 0 <= p < Z.of_nat n ->
  Forall (fun d => 0 <= d < Z.of_nat n) (entries t) -> sized n (settle t p k).
Proof.
  induction t as [|x l IL r IR i II]; intros p k S P F; cbn [settle entries] in *; [exact S|].
  rewrite Forall_app in F. destruct F as [F1 F2]. inversion F2 as [|? ? F3 F4]; subst. rewrite Forall_app in F4. destruct F4 as [F5 F6].
  apply II; [|exact F3|exact F6]. apply IR; [|exact P|exact F5]. apply adopt_sized; [|exact P|exact F3]. apply IL; assumption.
Qed.

Lemma NoDup_app_parts A (l1 l2 : list A) : NoDup (l1 ++ l2) -> NoDup l1 /\ NoDup l2 /\ forall x, In x l1 -> ~ In x l2.
Proof.
  induction l1 as [|y l1 IH]; cbn [app]; intro N.
  - split; [constructor|]. split; [exact N|]. intros x [].
  - inversion N as [|? ? N1 N2]; subst. destruct (IH N2) as (I1 & I2 & I3). rewrite in_app_iff in N1.
    split; [constructor; tauto|]. split; [exact I2|]. intros x [<-|X]; [tauto|apply I3; exact X].
Qed.

(** After the walk: the entries of p got the siblings, every storage its
    entries, and nothing else changed. *)
Lemma settle_spec n t : forall p k, sized n k -> 0 <= p < Z.of_nat n ->
  Forall (fun d => 0 <= d < Z.of_nat n) (entries t) -> NoDup (p :: entries t) ->
  kids (settle t p k) p = kids k p ++ siblings t /\
  (forall x, In x (siblings t) -> par (settle t p k) x = p) /\
  (forall d c, In (d, c) (storages t) -> kids (settle t p k) d = kids k d ++ siblings c /\
     forall x, In x (siblings c) -> par (settle t p k) x = d) /\
  (forall x, 0 <= x -> x <> p -> ~ In x (entries t) -> kids (settle t p k) x = kids k x) /\
  (forall x, 0 <= x -> ~ In x (entries t) -> par (settle t p k) x = par k x).
Proof.
  induction t as [|d l IL r IR i II]; intros p k S P F N; cbn [settle entries siblings storages] in *.
  - split; [rewrite app_nil_r; reflexivity|]. split; [intros x []|]. split; [intros x c []|]. split; reflexivity.
  - rewrite Forall_app in F. destruct F as [F1 F2]. inversion F2 as [|? ? F3 F4]; subst. rewrite Forall_app in F4. destruct F4 as [F5 F6].
    inversion N as [|? ? NP N1]; subst. apply NoDup_app_parts in N1. destruct N1 as (NL & N1 & DL).
    inversion N1 as [|? ? ND N2]; subst. apply NoDup_app_parts in N2. destruct N2 as (NR & NI & DR).
    rewrite !in_app_iff in *. cbn [In] in *. rewrite !in_app_iff in *.
    assert (PL : ~ In p (entries l)) by tauto. assert (PD : d <> p) by (intros ->; tauto).
    assert (PR : ~ In p (entries r)) by tauto. assert (PI : ~ In p (entries i)) by tauto.
    assert (DLD : ~ In d (entries l)) by (intro Q; apply (DL d Q); left; reflexivity).
    assert (DRD : ~ In d (entries r)) by tauto. assert (DID : ~ In d (entries i)) by tauto.
    assert (LR : forall x, In x (entries l) -> ~ In x (entries r))
      by (intros x Q1 Q2; apply (DL x Q1); right; apply in_or_app; left; exact Q2).
    assert (LI : forall x, In x (entries l) -> ~ In x (entries i))
      by (intros x Q1 Q2; apply (DL x Q1); right; apply in_or_app; right; exact Q2).
    set (k1 := settle l p k). set (k2 := adopt p d k1). set (k3 := settle r p k2). set (k4 := settle i d k3).
    assert (S1 : sized n k1) by (apply settle_sized; assumption).
    assert (S2 : sized n k2) by (apply adopt_sized; assumption).
    assert (S3 : sized n k3) by (apply settle_sized; assumption).
    destruct (IL p k S P F1 ltac:(constructor; assumption)) as (A1 & A2 & A3 & A4 & A5). fold k1 in A1, A2, A3, A4, A5.
    destruct (IR p k2 S2 P F5 ltac:(constructor; assumption)) as (B1 & B2 & B3 & B4 & B5). fold k3 in B1, B2, B3, B4, B5.
    destruct (II d k3 S3 F3 F6 ltac:(constructor; assumption)) as (C1 & C2 & C3 & C4 & C5). fold k4 in C1, C2, C3, C4, C5.
    assert (G : forall x, In x (entries l) -> 0 <= x) by (intros x Q; rewrite Forall_forall in F1; specialize (F1 x Q); lia).
    assert (GR : forall x, In x (entries r) -> 0 <= x) by (intros x Q; rewrite Forall_forall in F5; specialize (F5 x Q); lia).
    assert (GI : forall x, In x (entries i) -> 0 <= x) by (intros x Q; rewrite Forall_forall in F6; specialize (F6 x Q); lia).
    assert (K2 : forall x, 0 <= x -> kids k2 x = if x =? p then kids k1 p ++ [d] else kids k1 x)
      by (intros x X; apply (adopt_kids n); [exact S1|exact P|exact X]).
    assert (P2 : forall x, 0 <= x -> par k2 x = if x =? d then p else par k1 x)
      by (intros x X; apply (adopt_par n); [exact S1|exact F3|exact X]).
    clearbody k1 k2 k3 k4.
    assert (PE : forall x, In x (entries l) -> 0 <= x -> par k4 x = par k1 x).
    { intros x Q G0. rewrite C5, B5, P2; auto. destruct (Z.eqb_spec x d) as [->|]; [contradiction|reflexivity]. }
    assert (PE2 : forall x, In x (entries r) -> 0 <= x -> par k4 x = par k3 x).
    { intros x Q G0. rewrite C5; auto. }
    split; [|split; [|split; [|split]]].
    + rewrite C4, B1, K2 by (try lia; tauto). rewrite Z.eqb_refl, A1. rewrite <- !app_assoc. reflexivity.
    + intros x Q. apply in_app_iff in Q. cbn [In] in Q. destruct Q as [Q|[<-|Q]].
      * pose proof (siblings_entries _ _ Q) as Q'. rewrite PE by auto. apply A2. exact Q.
      * rewrite C5, B5, P2 by (try lia; tauto). rewrite Z.eqb_refl. reflexivity.
      * pose proof (siblings_entries _ _ Q) as Q'. rewrite PE2 by auto. apply B2. exact Q.
    + intros e c Q. rewrite !in_app_iff in Q. cbn [In] in Q. rewrite in_app_iff in Q. destruct Q as [Q|[Q|[Q|Q]]].
      * pose proof (storages_entries _ _ _ Q) as Q'. destruct (A3 e c Q) as [A6 A7]. 
        assert (e <> p) by (intros ->; contradiction). assert (e <> d) by (intros ->; contradiction). split.
        -- rewrite C4, B4, K2 by auto. replace (e =? p) with false by lia. exact A6.
        -- intros x X. pose proof (storages_siblings _ _ _ _ Q X) as X'. rewrite PE by auto. apply A7. exact X.
      * injection Q as <- <-. split.
        -- rewrite C1, B4, K2 by (try lia; auto). replace (d =? p) with false by lia. rewrite A4 by (try lia; auto). reflexivity.
        -- exact C2.
      * pose proof (storages_entries _ _ _ Q) as Q'. destruct (B3 e c Q) as [B6 B7].
        assert (e <> p) by (intros ->; contradiction). assert (e <> d) by (intros ->; contradiction).
        assert (~ In e (entries l)) by (intro W; apply (LR e W Q')). split.
        -- rewrite C4 by auto. rewrite B6, K2 by auto. replace (e =? p) with false by lia. rewrite A4 by auto. reflexivity.
        -- intros x X. pose proof (storages_siblings _ _ _ _ Q X) as X'. rewrite PE2 by auto. apply B7. exact X.
      * pose proof (storages_entries _ _ _ Q) as Q'. destruct (C3 e c Q) as [C6 C7].
        assert (e <> p) by (intros ->; contradiction). assert (e <> d) by (intros ->; contradiction).
        assert (~ In e (entries l)) by (intro W; apply (LI e W Q')).
        assert (~ In e (entries r)) by (intro W; apply (DR e W Q')). split.
        -- rewrite C6, B4, K2 by auto. replace (e =? p) with false by lia. rewrite A4 by auto. reflexivity.
        -- exact C7.
    + intros x X XP Q. rewrite !in_app_iff in Q; cbn [In] in Q; rewrite !in_app_iff in Q. assert (x <> d) by (intros ->; tauto). rewrite C4, B4, K2 by (try lia; tauto).
      replace (x =? p) with false by lia. apply A4; tauto.
    + intros x X Q. rewrite !in_app_iff in Q; cbn [In] in Q; rewrite !in_app_iff in Q. assert (x <> d) by (intros ->; tauto). rewrite C5, B5, P2 by (try lia; tauto).
      replace (x =? d) with false by lia. apply A5; tauto.
Qed.
