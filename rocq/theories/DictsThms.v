(** * Integer keys and array values of the dicts of a pack: proofs of the property theorems *)

From Coq Require Import ZifyBool ZifyNat ZifyN QArith.
From Verif Require Import PyBase PyBaseFacts PyFloat NumPy SpecArray ArrayFacts Dicts SpecDicts.
Open Scope nat_scope.

Lemma is_int_spec : forall o, is_int o = true <-> int_key o.
Proof.
  intros o; split; intros H.
  - destruct o; try discriminate; [right|left]; eauto.
  - destruct H as [[z ->]|[b ->]]; reflexivity.
Qed.

Lemma oset_In : forall k v d k' v', In (k', v') (oset k v d) ->
  In (k', v') d \/ (v' = v /\ (k' = k \/ (key_eqb k k' = true /\ exists w, In (k', w) d))).
Proof.
  induction d as [|[a b] d IH]; simpl; intros k' v' H.
  - destruct H as [H|[]]. injection H as <- <-. auto.
  - destruct (key_eqb k a) eqn:E; destruct H as [H|H].
    + injection H as <- <-. right. split; auto. right. eauto.
    + auto.
    + injection H as <- <-. auto.
    + apply IH in H. destruct H as [H|[-> [->|[Q [w W]]]]]; auto. right; split; auto. right. eauto.
Qed.

Lemma oset_int : forall k v d, int_key k -> int_keyed d -> int_keyed (oset k v d).
Proof.
  intros k v d Hk Hd k' v' H. apply oset_In in H. destruct H as [H|[_ [->|[_ [w W]]]]]; eauto.
Qed.

Lemma pop_cases : forall np k d, fst (exec_dop np (DPop k) d) = d \/ fst (exec_dop np (DPop k) d) = odel k d.
Proof. intros np k d. simpl. destruct d as [|e d]; auto. destruct (hashable k); auto. destruct (oget k (e :: d)); auto. Qed.

Lemma odel_In : forall k d k' v', In (k', v') (odel k d) -> In (k', v') d.
Proof.
  induction d as [|[a b] d IH]; simpl; intros k' v' H; auto.
  destruct (key_eqb k a); auto. destruct H as [H|H]; auto.
Qed.

Lemma insert_items_int : forall l d, int_keyed l -> int_keyed d -> int_keyed (insert_items l d).
Proof.
  unfold insert_items. induction l as [|[k v] l IH]; simpl; intros d Hl Hd; auto.
  apply IH; [intros a b H; apply (Hl a b); right; auto|].
  apply oset_int; auto. apply (Hl k v). left; auto.
Qed.

Lemma insert_pairs_int : forall l d,
  (forall e k v, In e l -> as_pair e = Ok (k, v) -> int_key k) -> int_keyed d ->
  int_keyed (fst (insert_pairs l d)).
Proof.
  induction l as [|e l IH]; simpl; intros d Hl Hd; auto.
  destruct (as_pair e) as [[k v]|x] eqn:E; auto.
  apply IH; eauto. apply oset_int; eauto.
Qed.

Lemma plain_pair : forall e k v, plain_elem e -> as_pair e = Ok (k, v) ->
  olen e = Some 2 /\ has_getitem e = true /\ item0 e = Ok k.
Proof.
  unfold as_pair. intros e k v P H. destruct e; simpl in *; try discriminate; try contradiction.
  - destruct s as [|a [|b [|c s]]]; simpl in *; try discriminate. injection H as <- <-. auto.
  - destruct s as [|a [|b [|c s]]]; simpl in *; try discriminate. injection H as <- <-. auto.
  - destruct l as [|a [|b [|c s]]]; simpl in *; try discriminate.
    destruct (hashable a); [|discriminate]. injection H as <- <-. auto.
  - destruct l as [|a [|b [|c s]]]; simpl in *; try discriminate.
    destruct (hashable a); [|discriminate]. injection H as <- <-. auto.
Qed.

(** what insert_pairs reaches: elements up to the first failing one *)
Lemma insert_pairs_int_checked : forall l d,
  (forall e, In e l -> plain_elem e) ->
  match check_items l with CkErr _ => False | _ => True end -> int_keyed d ->
  int_keyed (fst (insert_pairs l d)).
Proof.
  induction l as [|e l IH]; simpl; intros d Hp Hc Hd; auto.
  destruct (as_pair e) as [[k v]|x] eqn:E; auto.
  assert (Pe : plain_elem e) by (apply Hp; auto).
  assert (Hl : forall e, In e l -> plain_elem e) by (intros; apply Hp; auto).
  destruct (plain_pair _ _ _ Pe E) as [L [G I0]]. rewrite L, G, I0 in Hc. simpl in Hc.
  destruct (is_int k) eqn:Q; [|contradiction].
  apply IH; auto. apply oset_int; auto. apply is_int_spec; auto.
Qed.

Lemma intkey_check_kw : forall args kw a', intkey_check args kw = Ok a' -> kw = [].
Proof.
  unfold intkey_check. intros args kw a' H. destruct kw; auto.
  destruct (match args with [] => _ | _ => _ end); simpl in H; discriminate.
Qed.

Lemma builtin_update_int : forall a d,
  plain_arg a -> intkey_check [a] [] <> Err TypeError ->
  (forall a', intkey_check [a] [] = Ok a' -> int_keyed d -> int_keyed (fst (builtin_update a d))).
Proof.
  intros a d Hp _ a' Hc Hd. unfold intkey_check in Hc.
  destruct a; simpl in *; auto; try contradiction.
  - (* str *) apply insert_pairs_int; auto. intros e k v H Q.
    apply in_map_iff in H. destruct H as [c [<- _]]. discriminate.
  - (* bytes *) apply insert_pairs_int; auto. intros e k v H Q.
    apply in_map_iff in H. destruct H as [c [<- _]]. discriminate.
  - destruct (check_items l) eqn:C; try discriminate; apply insert_pairs_int_checked; auto; rewrite C; auto.
  - destruct (check_items l) eqn:C; try discriminate; apply insert_pairs_int_checked; auto; rewrite C; auto.
  - destruct (check_items l) eqn:C; try discriminate; apply insert_pairs_int_checked; auto; rewrite C; auto.
  - (* dict *)
    destruct (forallb (fun kv => is_int (fst kv)) l) eqn:F; try discriminate.
    apply insert_items_int; auto. intros k v H. rewrite forallb_forall in F.
    apply F in H. apply is_int_spec. exact H.
Qed.

Lemma intkey_check_args : forall a r a', plain_arg a -> intkey_check (a :: r) [] = Ok a' -> a' = a :: r.
Proof.
  unfold intkey_check. intros a r a' Hp H.
  destruct a; simpl in *; try contradiction; try (injection H as <-; reflexivity).
  - (* bytes *) destruct (check_items _); simpl in H; congruence.
  - destruct (check_items l); simpl in H; congruence.
  - destruct (check_items l); simpl in H; congruence.
  - destruct (check_items l); simpl in H; congruence.
  - destruct (forallb _ l); simpl in H; congruence.
Qed.

Lemma intkey_update_int : forall args kw d,
  plain_args args -> int_keyed d -> int_keyed (fst (intkey_update args kw d)).
Proof.
  unfold intkey_update. intros args kw d Hp Hd.
  destruct (intkey_check args kw) as [a'|e] eqn:C; auto.
  assert (kw = []) as -> by (eapply intkey_check_kw; eauto).
  destruct args as [|a r].
  { unfold intkey_check in C. simpl in C. injection C as <-. simpl. auto. }
  assert (a' = a :: r) as -> by (eapply intkey_check_args; eauto; apply Hp; left; auto).
  destruct r as [|b r].
  2:{ simpl. auto. }
  assert (B : int_keyed (fst (builtin_update a d))).
  { eapply builtin_update_int; eauto. apply Hp; left; auto. congruence. }
  simpl. destruct (builtin_update a d) as [d' [u|e]]; simpl in *; auto.
Qed.

Lemma mapM_In : forall A B (f : A -> res B) l l' y, mapM f l = Ok l' -> In y l' ->
  exists x, In x l /\ f x = Ok y.
Proof.
  induction l as [|x l IH]; simpl; intros l' y H Hy.
  - injection H as <-. destruct Hy.
  - destruct (f x) as [z|e] eqn:E; simpl in H; [|discriminate].
    destruct (mapM f l) as [zs|e] eqn:M; simpl in H; [|discriminate].
    injection H as <-. destruct Hy as [<-|Hy]; eauto.
    destruct (IH zs y eq_refl Hy) as [x' [I Q]]. eauto.
Qed.

Lemma to_array_spec : forall v x, to_array v = Ok x -> one_dim x.
Proof.
  unfold to_array. intros v x H. destruct (np_of_obj v) as [a|]; [|discriminate].
  injection H as <-. exists a. reflexivity.
Qed.

Lemma proxy_pair_plain : forall e e', proxy_pair e = Ok e' -> (plain_elem e -> plain_elem e') /\
  (has_getitem e = true -> exists i a, e' = OList (i ++ [OArr a])).
Proof.
  unfold proxy_pair. intros e e' H. destruct (has_getitem e) eqn:G.
  - destruct (item_last e) as [x|]; simpl in H; [|discriminate].
    destruct (to_array x) as [a|] eqn:T; simpl in H; [|discriminate].
    destruct (items_init e) as [i|]; simpl in H; [|discriminate].
    injection H as <-. split; [simpl; auto|]. intros _.
    destruct (to_array_spec _ _ T) as [b ->]. eauto.
  - injection H as <-. split; auto. discriminate.
Qed.

Lemma np_proxy_plain : forall args a', np_proxy args = Ok a' -> plain_args args -> plain_args a'.
Proof.
  intros args a' H Hp. destruct args as [|a r]; simpl in H.
  { injection H as <-. auto. }
  assert (R : forall x, In x r -> plain_arg x) by (intros; apply Hp; right; auto).
  assert (A : plain_arg a) by (apply Hp; left; auto).
  destruct a; simpl in *; try contradiction;
   try (injection H as <-; exact Hp).
  all: match type of H with context [mapM ?f ?l] =>
    destruct (mapM f l) as [l'|e] eqn:M; simpl in H; [|discriminate] end.
  all: injection H as <-.
  all: intros x [<-|Hx]; auto; simpl; auto.
  all: intros e He; destruct (mapM_In _ _ _ _ _ _ M He) as [y [I Q]];
    apply proxy_pair_plain in Q; apply (proj1 Q); auto.
  all: apply in_map_iff in I; destruct I as [c [<- _]]; simpl; auto.
Qed.

Lemma exec_dop_int : forall np o d, plain_op o -> int_keyed d -> int_keyed (fst (exec_dop np o d)).
Proof.
  intros np o d Hp Hd.
  assert (S1 : forall k v, int_keyed (fst (intkey_setitem k v d))).
  { intros k v. unfold intkey_setitem. destruct (is_int k) eqn:E; simpl; auto.
    apply oset_int; auto. apply is_int_spec; auto. }
  assert (S2 : forall k v, int_keyed (fst (intkey_setdefault k v d))).
  { intros k v. unfold intkey_setdefault. destruct (is_int k) eqn:E; simpl; auto.
    destruct (oget k d); auto. apply oset_int; auto. apply is_int_spec; auto. }
  destruct o; simpl.
  - destruct np; auto. unfold np_setitem. destruct (to_array v); simpl; auto.
  - destruct np; auto. unfold np_setdefault. destruct (to_array v); simpl; auto.
  - destruct np.
    + unfold np_update. destruct (np_proxy args) as [a|] eqn:P; simpl; auto.
      destruct (np_proxy_kwargs kwargs) as [k|]; simpl; auto.
      apply intkey_update_int; auto. eapply np_proxy_plain; eauto.
    + apply intkey_update_int; auto.
  - match goal with |- context [fst ?x] => change x with (exec_dop false (DPop k) d) end. destruct (pop_cases false k d) as [->| ->]; auto. intros k' v' H. apply odel_In in H. eauto.
  - intros k v [].
  - destruct Hp.
Qed.

Lemma C20_keys_stay_integers_proof :
  forall np ops d, int_keyed d -> (forall o, In o ops -> plain_op o) ->
  int_keyed (run_dops np ops d).
Proof.
  intros np ops. induction ops as [|o ops IH]; simpl; intros d Hd Hp; auto.
  apply IH; auto. apply exec_dop_int; auto.
Qed.

Lemma delegated_int : forall args kw d, plain_args args -> delegate_fail args = true ->
  builtin_update_args args kw [] = (d, Ok tt) -> d = insert_items (map (fun kv => (OStr (fst kv), snd kv)) kw) [] /\ exists s, args = [OStr s].
Proof.
  intros args kw d Hp D H. destruct args as [|a [|b r]]; [discriminate| |discriminate].
  destruct a; try discriminate. split; eauto. simpl in H.
  destruct s as [|c s]; simpl in H; [congruence|discriminate].
Qed.

Lemma update_ok_kw : forall args kw d d' u, intkey_update args kw d = (d', Ok u) -> kw = [].
Proof.
  unfold intkey_update. intros args kw d d' u H.
  destruct (intkey_check args kw) eqn:C; [|discriminate]. eapply intkey_check_kw; eauto.
Qed.

Lemma np_update_ok_kw : forall args kw d d' u, np_update args kw d = (d', Ok u) -> kw = [].
Proof.
  unfold np_update. intros args kw d d' u H.
  destruct (np_proxy args) as [a|]; simpl in H; [|discriminate].
  destruct kw as [|[s v] kw]; auto. unfold np_proxy_kwargs in H. simpl in H.
  destruct (to_array v) as [x|]; simpl in H; [|discriminate].
  destruct (mapM _ kw); simpl in H; [|discriminate].
  apply update_ok_kw in H. discriminate.
Qed.

Lemma np_update_int : forall args kw d, plain_args args -> int_keyed d -> int_keyed (fst (np_update args kw d)).
Proof.
  intros args kw d Hp Hd. exact (exec_dop_int true (DUpdate args kw) d Hp Hd).
Qed.

Lemma C20_construction_gives_integer_keys_proof :
  forall args kwargs d, plain_args args ->
  intkey_init args kwargs = Ok d \/ np_init args kwargs = Ok d -> int_keyed d.
Proof.
  intros args kw d Hp [H|H].
  - unfold intkey_init in H. destruct (delegate_fail args) eqn:D.
    + destruct (builtin_update_args args kw []) as [d0 [[]|e]] eqn:B; [|discriminate].
      simpl in H. destruct (delegated_int _ _ _ Hp D B) as [-> _].
      destruct (intkey_update args kw _) as [d1 [u|e]] eqn:U; simpl in H; [|discriminate].
      injection H as <-. assert (kw = []) as -> by (eapply update_ok_kw; eauto).
      change d1 with (fst (d1, Ok u)). rewrite <- U. apply intkey_update_int; auto. intros k v [].
    + simpl in H. destruct (intkey_update args kw _) as [d1 [u|e]] eqn:U; simpl in H; [|discriminate].
      injection H as <-. change d1 with (fst (d1, Ok u)). rewrite <- U. apply intkey_update_int; auto. intros k v [].
  - unfold np_init in H. destruct (delegate_fail args) eqn:D.
    + destruct (builtin_update_args args kw []) as [d0 [[]|e]] eqn:B; [|discriminate].
      simpl in H. destruct (delegated_int _ _ _ Hp D B) as [-> _].
      destruct (np_update args kw (insert_items _ _)) as [d1 [u|e]] eqn:U; simpl in H; [|discriminate].
      assert (kw = []) as -> by (eapply np_update_ok_kw; eauto).
      assert (I1 : int_keyed d1).
      { change d1 with (fst (d1, Ok u)). rewrite <- U. apply np_update_int; auto. intros k v []. }
      destruct (np_update args [] d1) as [d2 [u2|e]] eqn:U2; simpl in H; [|discriminate].
      injection H as <-. change d2 with (fst (d2, Ok u2)). rewrite <- U2. apply np_update_int; auto.
    + simpl in H. destruct (np_update args kw _) as [d1 [u|e]] eqn:U; simpl in H; [|discriminate].
      injection H as <-. change d1 with (fst (d1, Ok u)). rewrite <- U. apply np_update_int; auto. intros k v [].
Qed.

Lemma all_some_none : forall (l : list pyobj), all_some (map scalar_val l) = None ->
  exists x, In x l /\ scalar_val x = None.
Proof.
  induction l as [|x l IH]; simpl; intros H; [discriminate|].
  destruct (scalar_val x) eqn:S; [|eauto].
  destruct (all_some (map scalar_val l)); [discriminate|].
  destruct (IH eq_refl) as [y [I Q]]. eauto.
Qed.

Lemma all_some_each : forall (l : list pyobj) vs x, all_some (map scalar_val l) = Some vs -> In x l ->
  scalar_val x <> None.
Proof.
  induction l as [|y l IH]; simpl; intros vs x H I; [contradiction|].
  destruct (scalar_val y) eqn:S; [|discriminate].
  destruct (all_some (map scalar_val l)) eqn:E; [|discriminate].
  destruct I as [<-|I]; [congruence|]. eapply IH; eauto.
Qed.

Lemma to_array_flat : forall v, (flat v /\ exists a, to_array v = Ok (OArr a)) \/
  (~ flat v /\ to_array v = Err ValueError).
Proof.
  assert (L : forall l v, v = OList l \/ v = OTuple l ->
    (flat v /\ exists a, to_array v = Ok (OArr a)) \/ (~ flat v /\ to_array v = Err ValueError)).
  { intros l v Hv. unfold to_array.
    assert (E : np_of_obj v = match all_some (map scalar_val l) with Some vs => Some (np_array vs) | None => None end)
      by (destruct Hv as [->| ->]; reflexivity).
    rewrite E. destruct (all_some (map scalar_val l)) as [vs|] eqn:A.
    - left. split; [|eauto]. right. exists l. split; auto. intros x I.
      pose proof (all_some_each _ _ _ A I). destruct x; simpl in *; auto; congruence.
    - right. split; auto. intros [[a ->]|[l' [Q F]]]; [destruct Hv; discriminate|].
      assert (l' = l) as -> by (destruct Hv as [->| ->]; destruct Q as [Q|Q]; congruence).
      destruct (all_some_none _ A) as [x [I S]]. apply F in I. destruct x; simpl in *; try discriminate; contradiction. }
  intros v. destruct v; try (eapply L; eauto; fail).
  all: try (right; split; [|reflexivity]; intros [[a Q]|[l' [[Q|Q] _]]]; discriminate).
  left. split; [left; exists a; reflexivity|]. exists a. reflexivity.
Qed.

Lemma not_int : forall k, ~ int_key k -> is_int k = false.
Proof. intros k H. destruct (is_int k) eqn:E; auto. exfalso. apply H, is_int_spec, E. Qed.

Lemma C20_other_key_rejected_proof :
  forall np k v d, ~ int_key k ->
  exists e, exec_dop np (DSet k v) d = (d, Err e) /\ exec_dop np (DSetdefault k v) d = (d, Err e) /\
    (e = TypeError \/ (np = true /\ e = ValueError /\ ~ flat v)).
Proof.
  intros np k v d Hk. apply not_int in Hk. destruct np; simpl.
  - unfold np_setitem, np_setdefault, intkey_setitem, intkey_setdefault.
    destruct (to_array_flat v) as [[F [a ->]]|[F ->]].
    + rewrite Hk. exists TypeError. auto.
    + exists ValueError. auto 6.
  - unfold intkey_setitem, intkey_setdefault. rewrite Hk. exists TypeError. auto.
Qed.

Lemma gives_check : forall arg items, gives arg items ->
  intkey_check [arg] [] = if forallb (fun kv => is_int (fst kv)) items then Ok [arg] else Err TypeError.
Proof.
  intros arg items [->|[l [Hl Hp]]].
  - unfold intkey_check. destruct (forallb _ items); reflexivity.
  - assert (C : check_items l = if forallb (fun kv => is_int (fst kv)) items then CkOk else CkErr TypeError).
    { clear Hl. induction Hp; simpl; auto; destruct (is_int k); simpl; auto. }
    unfold intkey_check.
    destruct Hl as [->| ->]; simpl; rewrite C; destruct (forallb _ items); reflexivity.
Qed.

Lemma check_kwargs : forall args kw, kw <> [] -> exists e, intkey_check args kw = Err e /\
  (e = TypeError \/ intkey_check args [] = Err e).
Proof.
  intros args kw H. unfold intkey_check. destruct kw; [congruence|].
  destruct (match args with [] => _ | _ => _ end) as [a|e]; simpl; eauto.
Qed.

Definition conv (items : list (pyobj * pyobj)) : list (pyobj * pyobj) :=
  map (fun kv => (fst kv, match to_array (snd kv) with Ok x => x | Err _ => ONone end)) items.

Lemma gives_proxy : forall arg items, gives arg items ->
  (exists k v, In (k, v) items /\ ~ flat v /\ np_proxy [arg] = Err ValueError) \/
  ((forall k v, In (k, v) items -> flat v) /\
   exists arg', np_proxy [arg] = Ok [arg'] /\ gives arg' (conv items)).
Proof.
  intros arg items [->|[l [Hl Hp]]].
  - simpl. 
    assert (M : (exists k v, In (k, v) items /\ ~ flat v /\
              mapM (fun kv => do x <- to_array (snd kv); Ok (fst kv, x)) items = Err ValueError) \/
            ((forall k v, In (k, v) items -> flat v) /\
              mapM (fun kv => do x <- to_array (snd kv); Ok (fst kv, x)) items = Ok (conv items))).
    { induction items as [|[k v] items IH]; simpl; [right; auto; split; auto; intros ? ? []|].
      destruct (to_array_flat v) as [[F [a ->]]|[F ->]]; simpl.
      - destruct IH as [[k' [v' [I [G ->]]]]|[A ->]]; simpl.
        + left. exists k', v'. auto.
        + right. split; auto. intros k' v' [Q|I]; [injection Q as <- <-; auto|eauto].
      - left. exists k, v. auto. }
    destruct M as [[k [v [I [F ->]]]]|[A ->]]; simpl.
    + left. exists k, v. auto.
    + right. split; auto. exists (ODict (conv items)). split; auto. left. reflexivity.
  - assert (M : (exists k v, In (k, v) items /\ ~ flat v /\ mapM proxy_pair l = Err ValueError) \/
            ((forall k v, In (k, v) items -> flat v) /\ exists l', mapM proxy_pair l = Ok l' /\ pairs_of l' (conv items))).
    { clear Hl. induction Hp; simpl.
      - right. split; [intros ? ? []|]. exists []. split; auto. constructor.
      - unfold proxy_pair at 1 3; simpl. destruct (to_array_flat v) as [[F [a ->]]|[F ->]]; simpl.
        + destruct IHHp as [[k' [v' [I [G ->]]]]|[A [l' [-> P]]]]; simpl.
          * left. exists k', v'. auto.
          * right. split; [intros k' v' [Q|I]; [injection Q as <- <-; auto|eauto]|].
            eexists. split; [reflexivity|]. constructor. auto.
        + left. exists k, v. auto.
      - unfold proxy_pair at 1 3; simpl. destruct (to_array_flat v) as [[F [a ->]]|[F ->]]; simpl.
        + destruct IHHp as [[k' [v' [I [G ->]]]]|[A [l' [-> P]]]]; simpl.
          * left. exists k', v'. auto.
          * right. split; [intros k' v' [Q|I]; [injection Q as <- <-; auto|eauto]|].
            eexists. split; [reflexivity|]. constructor. auto.
        + left. exists k, v. auto. }
    destruct M as [[k [v [I [F E]]]]|[A [l' [E P]]]].
    + left. exists k, v. split; auto. split; auto. destruct Hl as [->| ->]; simpl; rewrite E; reflexivity.
    + right. split; auto. exists (OList l'). split.
      * destruct Hl as [->| ->]; simpl; rewrite E; reflexivity.
      * right. exists l'. auto.
Qed.

Lemma proxy_kwargs_cases : forall kw,
  (exists k v, In (k, v) kw /\ ~ flat v /\ np_proxy_kwargs kw = Err ValueError) \/
  ((forall k v, In (k, v) kw -> flat v) /\ exists kw', np_proxy_kwargs kw = Ok kw' /\ length kw' = length kw).
Proof.
  unfold np_proxy_kwargs. induction kw as [|[k v] kw IH]; simpl; [right; split; eauto; intros ? ? []|].
  destruct (to_array_flat v) as [[F [a ->]]|[F ->]]; simpl.
  - destruct IH as [[k' [v' [I [G ->]]]]|[A [kw' [-> P]]]]; simpl.
    + left. exists k', v'. auto.
    + right. split; [intros k' v' [Q|I]; [injection Q as <- <-; auto|eauto]|].
      eexists. split; [reflexivity|]. simpl. auto.
  - left. exists k, v. auto.
Qed.

Lemma conv_ints : forall items, forallb (fun kv => is_int (fst kv)) (conv items) = forallb (fun kv => is_int (fst kv)) items.
Proof. induction items as [|[k v] items IH]; simpl; auto. f_equal. auto. Qed.

Lemma ints_false : forall items, (exists k v, In (k, v) items /\ ~ int_key k) ->
  forallb (fun kv : pyobj * pyobj => is_int (fst kv)) items = false.
Proof.
  intros items [k [v [I N]]]. destruct (forallb _ items) eqn:E; auto.
  rewrite forallb_forall in E. apply E in I. exfalso. apply N, is_int_spec, I.
Qed.

Lemma intkey_rejects : forall arg items kw d, gives arg items ->
  (exists k v, In (k, v) items /\ ~ int_key k) \/ kw <> [] ->
  intkey_update [arg] kw d = (d, Err TypeError).
Proof.
  intros arg items kw d Hg H. unfold intkey_update.
  pose proof (gives_check _ _ Hg) as C.
  destruct kw as [|kv kw].
  - destruct H as [H|H]; [|congruence]. rewrite C, ints_false; auto.
  - destruct (check_kwargs [arg] (kv :: kw)) as [e [-> Q]]; [congruence|].
    destruct Q as [->|Q]; auto. rewrite C in Q. destruct (forallb _ items); [discriminate|].
    injection Q as <-. auto.
Qed.

Lemma C20_update_with_other_key_rejected_proof :
  forall np arg items kwargs d, gives arg items ->
  (exists k v, In (k, v) items /\ ~ int_key k) \/ kwargs <> [] ->
  exists e, exec_dop np (DUpdate [arg] kwargs) d = (d, Err e) /\
   (e = TypeError \/
    (np = true /\ e = ValueError /\
     ((exists k v, In (k, v) items /\ ~ flat v) \/ (exists k v, In (k, v) kwargs /\ ~ flat v)))).
Proof.
  intros np arg items kw d Hg H. destruct np; simpl.
  - unfold np_update. destruct (gives_proxy _ _ Hg) as [[k [v [I [F ->]]]]|[A [arg' [-> G']]]]; simpl.
    + exists ValueError. split; auto. right. split; auto. split; auto. left. eauto.
    + destruct (proxy_kwargs_cases kw) as [[k [v [I [F ->]]]]|[Ak [kw' [-> L]]]]; simpl.
      * exists ValueError. split; auto. right. split; auto. split; auto. right. eauto.
      * exists TypeError. split; auto. apply (intkey_rejects _ (conv items)); auto.
        destruct H as [[k [v [I N]]]|H].
        -- left. unfold conv. exists k. eexists. split; [|exact N].
           apply in_map_iff. exists (k, v). split; [reflexivity|exact I].
        -- right. intros ->. destruct kw; auto. discriminate.
  - exists TypeError. split; auto. eapply intkey_rejects; eauto.
Qed.

Lemma key_is_int_val : forall k z, key_is k z <-> int_val k = Some z.
Proof.
  intros k z; split.
  - intros [->|[[-> ->]|[-> ->]]]; reflexivity.
  - destruct k; simpl; try discriminate.
    + destruct b; intros [= <-]; [right; left|right; right]; auto.
    + intros [= <-]. left; auto.
Qed.

Lemma key_eqb_int : forall k k' z, int_val k = Some z -> int_key k' ->
  key_eqb k k' = true <-> key_is k' z.
Proof.
  intros k k' z Hk Hk'. unfold key_eqb. rewrite Hk, key_is_int_val.
  assert (exists z', int_val k' = Some z') as [z' E] by (destruct Hk' as [[x ->]|[b ->]]; simpl; eauto).
  rewrite E. split; [intros Q; apply Z.eqb_eq in Q; congruence|intros [= ->]; apply Z.eqb_refl].
Qed.

Lemma int_key_val : forall k, int_key k -> exists z, int_val k = Some z.
Proof. intros k [[x ->]|[b ->]]; simpl; eauto. Qed.

Lemma oset_maps_same : forall k v d z, int_keyed d -> int_val k = Some z ->
  maps_to (oset k v d) z v.
Proof.
  induction d as [|[a b] d IH]; simpl; intros z Hd Hk.
  - exists k. split; [left; auto|]. apply key_is_int_val; auto.
  - assert (Ha : int_key a) by (apply (Hd a b); left; auto).
    destruct (key_eqb k a) eqn:E.
    + exists a. split; [left; auto|]. eapply key_eqb_int; eauto.
    + destruct (IH z) as [k' [I Q]]; auto. { intros x y H. apply (Hd x y). right; auto. }
      exists k'. split; [right; auto|auto].
Qed.

Lemma oset_maps_other : forall k v d z, int_keyed d -> int_key k -> ~ key_is k z ->
  forall w, maps_to d z w <-> maps_to (oset k v d) z w.
Proof.
  induction d as [|[a b] d IH]; simpl; intros z Hd Hk N w.
  - split; intros [k' [I Q]]; [destruct I|]. destruct I as [I|[]]. injection I as <- <-. contradiction.
  - assert (Ha : int_key a) by (apply (Hd a b); left; auto).
    assert (Hd' : int_keyed d) by (intros x y H; apply (Hd x y); right; auto).
    destruct (key_eqb k a) eqn:E.
    + destruct (int_key_val _ Hk) as [zk Ek].
      pose proof (proj1 (key_eqb_int _ _ _ Ek Ha) E) as Qa.
      assert (Na : ~ key_is a z).
      { intros Q. apply N. apply key_is_int_val. rewrite Ek. f_equal.
        apply key_is_int_val in Q. apply key_is_int_val in Qa. congruence. }
      split; intros [k' [[I|I] Q]]; try (injection I as <- <-; contradiction);
        exists k'; split; auto; right; auto.
    + split; intros [k' [[I|I] Q]].
      * injection I as <- <-. exists a. split; [left; auto|auto].
      * destruct (proj1 (IH z Hd' Hk N w)) as [k2 [I2 Q2]]; [exists k'; auto|]. exists k2. split; [right; auto|auto].
      * injection I as <- <-. exists a. split; [left; auto|auto].
      * destruct (proj2 (IH z Hd' Hk N w)) as [k2 [I2 Q2]]; [exists k'; auto|]. exists k2. split; [right; auto|auto].
Qed.

Lemma insert_items_spec : forall l d, int_keyed l -> int_keyed d ->
  (forall z v, last_given l z v -> maps_to (insert_items l d) z v) /\
  (forall z, (forall v, ~ last_given l z v) -> forall w, maps_to d z w <-> maps_to (insert_items l d) z w).
Proof.
  intros l. induction l as [|[k v] l IH] using rev_ind; intros d Hl Hd.
  - split; [|simpl; tauto]. intros z v [pre [k [post [Q _]]]]. destruct pre; discriminate.
  - assert (Hl' : int_keyed l) by (intros x y H; apply (Hl x y), in_or_app; auto).
    assert (Hk : int_key k) by (apply (Hl k v), in_or_app; right; left; auto).
    assert (Ins : insert_items (l ++ [(k, v)]) d = oset k v (insert_items l d)).
    { unfold insert_items. rewrite fold_left_app. reflexivity. }
    rewrite Ins. destruct (IH d Hl' Hd) as [IA IB]. clear IH.
    pose proof (insert_items_int l d Hl' Hd) as Hi.
    destruct (int_key_val _ Hk) as [zk Ek].
    split.
    + intros z w [pre [k' [post [Q [K N]]]]].
      destruct (list_eq_dec Nat.eq_dec (map (fun _ => 0) post) []) as [E|E].
      * destruct post; [|discriminate]. apply app_inj_tail in Q. destruct Q as [_ Q].
        injection Q as <- <-. apply oset_maps_same; auto. apply key_is_int_val; auto.
      * destruct (rev post) as [|[x y] rp] eqn:R.
        { apply (f_equal (@rev _)) in R. rewrite rev_involutive in R. subst post. exfalso. apply E. reflexivity. }
        apply (f_equal (@rev _)) in R. rewrite rev_involutive in R. simpl in R. subst post.
        assert (Q' : l ++ [(k, v)] = (pre ++ (k', w) :: rev rp) ++ [(x, y)]) by (rewrite Q, <- app_assoc; reflexivity).
        apply app_inj_tail in Q'. destruct Q' as [Ql Qx]. injection Qx as <- <-.
        apply oset_maps_other; auto.
        -- intros C. apply (N k v); auto. apply in_or_app; right; left; auto.
        -- apply IA. exists pre, k', (rev rp). split; auto. split; auto.
           intros a b I. apply (N a b), in_or_app. auto.
    + intros z N w.
      assert (Nk : ~ key_is k z).
      { intros K. apply (N v). exists l, k, []. split; auto. }
      rewrite <- (oset_maps_other k v (insert_items l d) z Hi Hk Nk w).
      apply IB. intros v0 [pre [k' [post [Q [K M]]]]]. apply (N v0).
      exists pre, k', (post ++ [(k, v)]). split; [rewrite Q, <- app_assoc; reflexivity|]. split; auto.
      intros a b I. apply in_app_or in I. destruct I as [I|[I|[]]]; eauto. injection I as <- <-. auto.
Qed.

Lemma gives_insert : forall arg items d, gives arg items -> int_keyed items ->
  builtin_update arg d = (insert_items items d, Ok tt).
Proof.
  intros arg items d [->|[l [Hl Hp]]] Hi; [reflexivity|].
  assert (E : insert_pairs l d = (insert_items items d, Ok tt)).
  { clear Hl. revert d Hi. induction Hp; intros d Hi; [reflexivity| |].
    - simpl. unfold as_pair; simpl.
      assert (Hk : int_key k) by (apply (Hi k v); left; auto).
      replace (hashable k) with true by (destruct Hk as [[x ->]|[b ->]]; reflexivity).
      rewrite IHHp; [reflexivity|]. intros a b H; apply (Hi a b); right; auto.
    - simpl. unfold as_pair; simpl.
      assert (Hk : int_key k) by (apply (Hi k v); left; auto).
      replace (hashable k) with true by (destruct Hk as [[x ->]|[b ->]]; reflexivity).
      rewrite IHHp; [reflexivity|]. intros a b H; apply (Hi a b); right; auto. }
  destruct Hl as [->| ->]; exact E.
Qed.

Lemma ints_true : forall items, int_keyed items -> forallb (fun kv : pyobj * pyobj => is_int (fst kv)) items = true.
Proof.
  intros items H. apply forallb_forall. intros [k v] I. apply is_int_spec. eapply H; eauto.
Qed.

Lemma intkey_update_accepts : forall arg items d, gives arg items -> int_keyed items ->
  intkey_update [arg] [] d = (insert_items items d, Ok tt).
Proof.
  intros arg items d Hg Hi. unfold intkey_update. rewrite (gives_check _ _ Hg), ints_true by auto.
  simpl. rewrite (gives_insert _ _ _ Hg Hi). reflexivity.
Qed.

Lemma conv_last : forall items z v, last_given items z v -> flat v ->
  exists a, made_from v a /\ last_given (conv items) z (OArr a).
Proof.
  intros items z v [pre [k [post [-> [K N]]]]] F.
  destruct (to_array_flat v) as [[_ [a T]]|[C _]]; [|contradiction].
  exists a. split.
  - apply made_iff. unfold to_array in T. destruct (np_of_obj v); [|discriminate]. injection T as <-. reflexivity.
  - exists (conv pre), k, (conv post). split.
    + unfold conv. rewrite map_app. simpl. rewrite T. reflexivity.
    + split; auto. intros k' v' I. unfold conv in I. apply in_map_iff in I. destruct I as [[x y] [Q I]].
      simpl in Q. injection Q as <- <-. eapply N; eauto.
Qed.

Lemma map_cons_inv : forall A B (f : A -> B) l pre y post, map f l = pre ++ y :: post ->
  exists pre' x post', l = pre' ++ x :: post' /\ map f pre' = pre /\ f x = y /\ map f post' = post.
Proof.
  induction l as [|a l IH]; simpl; intros pre y post H; [destruct pre; discriminate|].
  destruct pre as [|b pre]; simpl in H.
  - injection H as <- <-. exists [], a, l. auto.
  - injection H as <- H. destruct (IH _ _ _ H) as [p' [x [q' [-> [<- [<- <-]]]]]].
    exists (a :: p'), x, q'. auto.
Qed.

Lemma conv_last_inv : forall items z w, last_given (conv items) z w -> exists v, last_given items z v.
Proof.
  intros items z w [pre [k [post [Q [K N]]]]]. unfold conv in Q.
  apply map_cons_inv in Q. destruct Q as [pre' [[x y] [post' [-> [<- [Q <-]]]]]].
  simpl in Q. injection Q as <- <-. exists y, pre', x, post'. split; auto. split; auto.
  intros k' v' I. eapply N. apply in_map_iff. exists (k', v'). split; [reflexivity|auto].
Qed.

Lemma C20_accepted_update_stores_all_proof :
  forall np arg items d, gives arg items -> int_keyed items -> int_keyed d ->
  (np = true -> forall k v, In (k, v) items -> flat v) ->
  exists d', exec_dop np (DUpdate [arg] []) d = (d', Ok tt) /\
   (forall z v, last_given items z v ->
      exists w, maps_to d' z w /\
        if np then exists a, made_from v a /\ w = OArr a else w = v) /\
   (forall z, (forall v, ~ last_given items z v) -> forall w, maps_to d z w <-> maps_to d' z w).
Proof.
  intros np arg items d Hg Hi Hd Hf. destruct np; simpl.
  - specialize (Hf eq_refl).
    destruct (gives_proxy _ _ Hg) as [[k [v [I [F _]]]]|[A [arg' [P G']]]]; [exfalso; eauto|].
    unfold np_update. rewrite P. simpl.
    assert (Hc : int_keyed (conv items)).
    { intros k v I. unfold conv in I. apply in_map_iff in I. destruct I as [[x y] [Q I]].
      simpl in Q. injection Q as <- <-. eauto. }
    rewrite (intkey_update_accepts arg' (conv items)) by auto.
    destruct (insert_items_spec (conv items) d Hc Hd) as [IA IB].
    eexists. split; [reflexivity|]. split.
    + intros z v L. assert (F : flat v).
      { destruct L as [pre [k [post [-> _]]]]. apply (Hf k v), in_or_app. right; left; auto. }
      destruct (conv_last _ _ _ L F) as [a [E L']]. exists (OArr a). split; eauto.
    + intros z N. apply IB. intros w L. destruct (conv_last_inv _ _ _ L) as [v L']. eapply N; eauto.
  - rewrite (intkey_update_accepts arg items) by auto.
    destruct (insert_items_spec items d Hi Hd) as [IA IB].
    eexists. split; [reflexivity|]. split; eauto.
Qed.

Definition uniq (d : odict) := NoDup (map (fun kv => int_val (fst kv)) d).

Lemma uniq_unique : forall d, int_keyed d -> (uniq d <-> unique_keys d).
Proof.
  intros d Hd. unfold uniq. split.
  - intros N i j k k' v v' z Hi Hj Ki Kj.
    apply key_is_int_val in Ki. apply key_is_int_val in Kj.
    apply (proj1 (NoDup_nth_error _) N).
    + rewrite map_length. apply nth_error_Some. congruence.
    + rewrite (map_nth_error _ _ _ Hi), (map_nth_error _ _ _ Hj). simpl. congruence.
  - intros U. apply NoDup_nth_error. intros i j Hi E. rewrite map_length in Hi.
    destruct (nth_error d i) as [[k v]|] eqn:Ei; [|apply nth_error_None in Ei; lia].
    rewrite (map_nth_error _ _ _ Ei) in E. simpl in E.
    destruct (nth_error d j) as [[k' v']|] eqn:Ej.
    + rewrite (map_nth_error _ _ _ Ej) in E. simpl in E. injection E as E.
      destruct (int_key_val k) as [z Z]; [eapply Hd, nth_error_In, Ei|].
      apply (U i j k k' v v' z); auto; apply key_is_int_val; congruence.
    + assert (L : nth_error (map (fun kv : pyobj * pyobj => int_val (fst kv)) d) j = None)
        by (apply nth_error_None; rewrite map_length; apply nth_error_None; auto).
      rewrite L in E. discriminate.
Qed.

Lemma oset_keys : forall k v d, int_keyed d -> int_key k ->
  map (fun kv : pyobj * pyobj => int_val (fst kv)) (oset k v d) = map (fun kv : pyobj * pyobj => int_val (fst kv)) d \/
  (~ In (int_val k) (map (fun kv : pyobj * pyobj => int_val (fst kv)) d) /\
   map (fun kv : pyobj * pyobj => int_val (fst kv)) (oset k v d) = map (fun kv : pyobj * pyobj => int_val (fst kv)) d ++ [int_val k]).
Proof.
  intros k v d Hd Hk. destruct (int_key_val _ Hk) as [z Z].
  induction d as [|[a b] d IH]; simpl.
  - right. auto.
  - destruct (key_eqb k a) eqn:E; simpl; auto.
    assert (Ha : int_key a) by (apply (Hd a b); left; auto).
    destruct IH as [IH|[N IH]]; [intros x y H; apply (Hd x y); right; auto| |].
    + left. congruence.
    + right. split; [|congruence]. intros [Q|Q]; auto.
      assert (T : key_eqb k a = true). { eapply key_eqb_int; eauto. apply key_is_int_val. congruence. }
      congruence.
Qed.

Lemma oset_uniq : forall k v d, int_keyed d -> int_key k -> uniq d -> uniq (oset k v d).
Proof.
  unfold uniq. intros k v d Hd Hk U. destruct (oset_keys k v d Hd Hk) as [->|[N ->]]; auto.
  apply NoDup_rev in U. rewrite <- (rev_involutive (map _ d ++ _)). apply NoDup_rev.
  rewrite rev_app_distr. simpl. constructor; auto. rewrite <- in_rev. auto.
Qed.

Lemma odel_uniq : forall k d, uniq d -> uniq (odel k d).
Proof.
  unfold uniq. induction d as [|[a b] d IH]; simpl; intros U; auto.
  inversion U; subst. destruct (key_eqb k a); auto. simpl. constructor; auto.
  intros I. apply H1. clear -I. induction d as [|[x y] d IH]; simpl in *; auto.
  destruct (key_eqb k x); simpl in *; tauto.
Qed.

Lemma insert_pairs_uniq : forall l d,
  (forall e, In e l -> plain_elem e) ->
  match check_items l with CkErr _ => False | _ => True end -> int_keyed d -> uniq d ->
  uniq (fst (insert_pairs l d)).
Proof.
  induction l as [|e l IH]; simpl; intros d Hp Hc Hd U; auto.
  destruct (as_pair e) as [[k v]|x] eqn:E; auto.
  assert (Pe : plain_elem e) by (apply Hp; auto).
  assert (Hl : forall e, In e l -> plain_elem e) by (intros; apply Hp; auto).
  destruct (plain_pair _ _ _ Pe E) as [L [G I0]]. rewrite L, G, I0 in Hc. simpl in Hc.
  destruct (is_int k) eqn:Q; [|contradiction].
  apply is_int_spec in Q. apply IH; auto; [apply oset_int; auto|apply oset_uniq; auto].
Qed.

Lemma insert_items_uniq : forall l d, int_keyed l -> int_keyed d -> uniq d -> uniq (insert_items l d).
Proof.
  unfold insert_items. induction l as [|[k v] l IH]; simpl; intros d Hl Hd U; auto.
  assert (int_key k) by (apply (Hl k v); left; auto).
  apply IH; [intros a b H'; apply (Hl a b); right; auto| |].
  - apply oset_int; auto.
  - apply oset_uniq; auto.
Qed.

Lemma intkey_update_uniq : forall args kw d,
  plain_args args -> int_keyed d -> uniq d -> uniq (fst (intkey_update args kw d)).
Proof.
  unfold intkey_update. intros args kw d Hp Hd U.
  destruct (intkey_check args kw) as [a'|e] eqn:C; auto.
  assert (kw = []) as -> by (eapply intkey_check_kw; eauto).
  destruct args as [|a r].
  { unfold intkey_check in C. simpl in C. injection C as <-. simpl. auto. }
  assert (Pa : plain_arg a) by (apply Hp; left; auto).
  assert (a' = a :: r) as -> by (eapply intkey_check_args; eauto).
  destruct r as [|b r].
  2:{ simpl. auto. }
  assert (B : uniq (fst (builtin_update a d))).
  { unfold intkey_check in C. destruct a; simpl in *; auto; try contradiction.
    - destruct s; simpl; auto.
    - destruct s; simpl; auto.
    - destruct (check_items l) eqn:Q; try discriminate; apply insert_pairs_uniq; auto; rewrite Q; auto.
    - destruct (check_items l) eqn:Q; try discriminate; apply insert_pairs_uniq; auto; rewrite Q; auto.
    - destruct (check_items l) eqn:Q; try discriminate; apply insert_pairs_uniq; auto; rewrite Q; auto.
    - destruct (forallb (fun kv => is_int (fst kv)) l) eqn:F; try discriminate.
      apply insert_items_uniq; auto. intros k v H. rewrite forallb_forall in F.
      apply F in H. apply is_int_spec. exact H. }
  simpl. destruct (builtin_update a d) as [d' [u|e]]; simpl in *; auto.
Qed.

Lemma exec_dop_uniq : forall np o d, plain_op o -> int_keyed d -> uniq d -> uniq (fst (exec_dop np o d)).
Proof.
  intros np o d Hp Hd U.
  assert (S1 : forall k v, uniq (fst (intkey_setitem k v d))).
  { intros k v. unfold intkey_setitem. destruct (is_int k) eqn:E; simpl; auto.
    apply oset_uniq; auto. apply is_int_spec; auto. }
  assert (S2 : forall k v, uniq (fst (intkey_setdefault k v d))).
  { intros k v. unfold intkey_setdefault. destruct (is_int k) eqn:E; simpl; auto.
    destruct (oget k d); auto. apply oset_uniq; auto. apply is_int_spec; auto. }
  destruct o; simpl.
  - destruct np; auto. unfold np_setitem. destruct (to_array v); simpl; auto.
  - destruct np; auto. unfold np_setdefault. destruct (to_array v); simpl; auto.
  - destruct np.
    + unfold np_update. destruct (np_proxy args) as [a|] eqn:P; simpl; auto.
      destruct (np_proxy_kwargs kwargs) as [k|]; simpl; auto.
      apply intkey_update_uniq; auto. eapply np_proxy_plain; eauto.
    + apply intkey_update_uniq; auto.
  - match goal with |- context [fst ?x] => change x with (exec_dop false (DPop k) d) end. destruct (pop_cases false k d) as [->| ->]; auto. apply odel_uniq; auto.
  - constructor.
  - destruct Hp.
Qed.

Lemma C20_keys_stay_unique_proof :
  forall np ops d, int_keyed d -> unique_keys d -> (forall o, In o ops -> plain_op o) ->
  unique_keys (run_dops np ops d).
Proof.
  intros np ops. induction ops as [|o ops IH]; simpl; intros d Hd U Hp; auto.
  apply IH; auto.
  - apply exec_dop_int; auto.
  - apply uniq_unique; [apply exec_dop_int; auto|]. apply exec_dop_uniq; auto. apply uniq_unique; auto.
Qed.

Lemma maps_det : forall d z v w, unique_keys d -> maps_to d z v -> maps_to d z w -> v = w.
Proof.
  intros d z v w U [k [I Q]] [k' [I' Q']]. apply In_nth_error in I. apply In_nth_error in I'. destruct I as [i I]. destruct I' as [j J].
  assert (i = j) by (eapply U; eauto). subst. congruence.
Qed.
Lemma oget_some : forall k z d v, key_is k z -> int_keyed d -> oget k d = Some v -> maps_to d z v.
Proof.
  induction d as [|[a b] d IH]; simpl; intros v K Hd H; [discriminate|].
  assert (Ha : int_key a) by (apply (Hd a b); left; auto).
  destruct (key_eqb k a) eqn:E.
  - injection H as ->. exists a. split; [left; auto|]. eapply key_eqb_int; eauto. apply key_is_int_val; auto.
  - destruct (IH v K) as [k' [I Q]]; auto. { intros x y H'. apply (Hd x y). right; auto. } exists k'. split; [right; auto|auto].
Qed.
Lemma oget_none : forall k z d, key_is k z -> int_keyed d -> oget k d = None -> forall v, ~ maps_to d z v.
Proof.
  induction d as [|[a b] d IH]; simpl; intros K Hd H v [k' [I Q]]; [destruct I|].
  assert (Ha : int_key a) by (apply (Hd a b); left; auto).
  destruct (key_eqb k a) eqn:E; [discriminate|]. destruct I as [I|I].
  - injection I as -> ->. assert (T : key_eqb k k' = true) by (eapply key_eqb_int; eauto; apply key_is_int_val; auto). congruence.
  - apply (IH K) with (v := v); auto. { intros x y H'. apply (Hd x y). right; auto. } exists k'. auto.
Qed.
Lemma odel_spec : forall k z d, key_is k z -> int_keyed d -> uniq d ->
  (forall w, ~ maps_to (odel k d) z w) /\ (forall y, y <> z -> forall w, maps_to d y w <-> maps_to (odel k d) y w).
Proof.
  intros k z d K. pose proof (proj1 (key_is_int_val _ _) K) as KV. induction d as [|[a b] d IH]; simpl; intros Hd U.
  - split; [intros w [k' [[] _]]|]. intros y _ w. split; intros H; exact H.
  - assert (Ha : int_key a) by (apply (Hd a b); left; auto).
    assert (Hd' : int_keyed d) by (intros x y H'; apply (Hd x y); right; auto).
    inversion U as [|? ? U1 U2]; subst. destruct (IH Hd' U2) as [IH1 IH2]. destruct (key_eqb k a) eqn:E.
    + pose proof (proj1 (key_eqb_int _ _ _ KV Ha) E) as Qa. pose proof (proj1 (key_is_int_val _ _) Qa) as VA. split.
      * intros w [k' [I Q]]. apply U1. simpl. rewrite VA. apply key_is_int_val in Q. rewrite <- Q. apply (in_map (fun kv : pyobj * pyobj => int_val (fst kv)) d (k', w)). exact I.
      * intros y N w. split; intros [k' [I Q]].
        -- destruct I as [I|I]; [|exists k'; auto]. injection I as -> ->. apply key_is_int_val in Q. congruence.
        -- exists k'. split; [right; auto|auto].
    + split.
      * intros w [k' [[I|I] Q]].
        -- injection I as -> ->. assert (T : key_eqb k k' = true) by (eapply key_eqb_int; eauto). congruence.
        -- apply (IH1 w). exists k'. auto.
      * intros y N w. split; intros [k' [[I|I] Q]].
        -- exists k'. split; [left; exact I|exact Q].
        -- destruct (proj1 (IH2 y N w)) as [k2 [I2 Q2]]; [exists k'; auto|]. exists k2. split; [right; auto|auto].
        -- exists k'. split; [left; exact I|exact Q].
        -- destruct (proj2 (IH2 y N w)) as [k2 [I2 Q2]]; [exists k'; auto|]. exists k2. split; [right; auto|auto].
Qed.
Lemma oset_spec : forall k z v d, key_is k z -> int_keyed d -> unique_keys d ->
  (forall w, maps_to (oset k v d) z w <-> w = v) /\ (forall y, y <> z -> forall w, maps_to d y w <-> maps_to (oset k v d) y w).
Proof.
  intros k z v d K Hd U. pose proof (proj1 (key_is_int_val _ _) K) as KV.
  assert (Hk : int_key k). { destruct K as [->|[[-> _]|[-> _]]]; [left|right|right]; eauto. }
  pose proof (oset_maps_same k v d z Hd KV) as M. split.
  - intros w. split; [|intros ->; exact M]. intros H. eapply maps_det; [|exact H|exact M].
    apply uniq_unique; [apply oset_int; auto|]. apply oset_uniq; auto. apply uniq_unique; auto.
  - intros y N w. apply oset_maps_other; auto. intros Q. apply key_is_int_val in Q. congruence.
Qed.
Lemma item_value : forall (np : bool) v, (np = true -> flat v) ->
  exists x, (if np then to_array v = Ok x else x = v) /\ forall w, (if np then exists a, made_from v a /\ w = OArr a else w = v) <-> w = x.
Proof.
  intros [|] v F.
  - specialize (F eq_refl). unfold to_array. destruct (np_of_obj v) as [a|] eqn:E.
    + exists (OArr a). split; [reflexivity|]. intros w. split; [intros [a' [Q ->]]; apply made_iff in Q; congruence|intros ->; exists a; split; [apply made_iff; exact E | reflexivity]].
    + exfalso. destruct (to_array_flat v) as [[_ [a A]]|[N _]]; [|contradiction]. unfold to_array in A. rewrite E in A. discriminate.
  - exists v. split; [reflexivity|]. intros w. reflexivity.
Qed.

Lemma C20_single_items_proof :
  forall np k z v d, key_is k z -> int_keyed d -> unique_keys d -> (np = true -> flat v) ->
  let stored w := if np then exists a, made_from v a /\ w = OArr a else w = v in
  let others d' := forall y, y <> z -> forall w, maps_to d y w <-> maps_to d' y w in
  (exists d', exec_dop np (DSet k v) d = (d', Ok tt) /\ (forall w, maps_to d' z w <-> stored w) /\ others d') /\
  (exists d', exec_dop np (DSetdefault k v) d = (d', Ok tt) /\
     (forall w, maps_to d' z w <-> maps_to d z w \/ ((forall u, ~ maps_to d z u) /\ stored w)) /\ others d') /\
  ((exists u, maps_to d z u) -> exists d', exec_dop np (DPop k) d = (d', Ok tt) /\ (forall w, ~ maps_to d' z w) /\ others d') /\
  ((forall u, ~ maps_to d z u) -> exec_dop np (DPop k) d = (d, Err KeyError)).
Proof.
  intros np k z v d K Hd U F stored others.
  assert (Ik : is_int k = true). { destruct K as [->|[[-> _]|[-> _]]]; reflexivity. }
  assert (Hh : hashable k = true). { destruct K as [->|[[-> _]|[-> _]]]; reflexivity. }
  pose proof (proj2 (uniq_unique d Hd) U) as U'.
  destruct (item_value np v F) as [x [X1 X2]]. assert (X3 : forall w, stored w <-> w = x) by exact X2. clear X2. rename X3 into X2. clearbody stored. destruct (oset_spec k z x d K Hd U) as [S1 S2]. destruct (odel_spec k z d K Hd U') as [D1 D2].
  assert (E1 : exec_dop np (DSet k v) d = (oset k x d, Ok tt)).
  { destruct np; simpl; [unfold np_setitem; rewrite X1|subst x]; unfold intkey_setitem; rewrite Ik; reflexivity. }
  assert (E2 : exec_dop np (DSetdefault k v) d = (match oget k d with Some _ => d | None => oset k x d end, Ok tt)).
  { destruct np; simpl; [unfold np_setdefault; rewrite X1|subst x]; unfold intkey_setdefault; rewrite Ik; reflexivity. }
  split; [|split; [|split]].
  - exists (oset k x d). split; [exact E1|]. split; [|exact S2]. intros w. rewrite S1, X2. reflexivity.
  - eexists. split; [exact E2|]. destruct (oget k d) as [u|] eqn:G.
    + pose proof (oget_some k z d u K Hd G) as M. split; [|intros y _ w; reflexivity].
      intros w. split; [intros H; left; exact H|]. intros [H|[H _]]; [exact H|]. destruct (H u M).
    + pose proof (oget_none k z d K Hd G) as M. split; [|exact S2]. intros w. rewrite S1, <- X2.
      split; [intros H; right; split; [exact M|exact H]|]. intros [H|[_ H]]; [destruct (M w H)|exact H].
  - intros [u M]. exists (odel k d). split; [|split; [exact D1|exact D2]]. simpl. rewrite Hh.
    destruct (oget k d) as [u'|] eqn:G; [destruct d; [discriminate G|reflexivity]|]. destruct (oget_none k z d K Hd G u M).
  - intros N. simpl. rewrite Hh. destruct (oget k d) as [u|] eqn:G; [|destruct d; reflexivity]. destruct (N u (oget_some k z d u K Hd G)).
Qed.

Lemma C21_iterator_entries_lost_refuted_proof :
  forall l items d, pairs_of l items -> int_keyed items ->
  exec_dop false (DUpdate [OIter l] []) d = (d, Ok tt).
Proof.
  intros l items d Hp Hi. simpl. unfold intkey_update, intkey_check. simpl.
  assert (C : check_items l = CkOk).
  { induction Hp; simpl; auto.
    - assert (is_int k = true) as -> by (apply is_int_spec, (Hi k v); left; auto).
      apply IHHp. intros a b H; apply (Hi a b); right; auto.
    - assert (is_int k = true) as -> by (apply is_int_spec, (Hi k v); left; auto).
      apply IHHp. intros a b H; apply (Hi a b); right; auto. }
  rewrite C. reflexivity.
Qed.

Lemma C21_data_dict_keeps_iterator_entries_proof :
  forall l d kwargs, exec_dop true (DUpdate [OIter l] kwargs) d = exec_dop true (DUpdate [OList l] kwargs) d.
Proof.
  reflexivity.
Qed.

Lemma C21_non_integer_keys_get_in_refuted_proof :
  let a := OStr (lit "ab") in let abc := OStr (lit "abc") in
  exec_dop false (DUpdate [OList [OSet [a; OInt 1]]] []) [] = ([(a, OInt 1)], Ok tt) /\
  exec_dop false (DUpdate [OList [OIter [a; OInt 1]]] []) [] = ([(a, OInt 1)], Ok tt) /\
  exec_dop false (DUpdate [OList [ODict [(a, ONone); (OInt 0, OInt 5)]]] []) [] = ([(a, OInt 0)], Ok tt) /\
  exec_dop false (DUpdate [OMapping [(abc, OInt 1)]] []) [] = ([(abc, OInt 1)], Ok tt) /\
  exec_dop false (DUpdate [OIter [OTuple [OInt 1; OInt 2; OInt 3]; OTuple [a; OInt 1]]] []) [] = ([(a, OInt 1)], Ok tt) /\
  exec_dop false (DIor (ODict [(a, OInt 1)])) [] = ([(a, OInt 1)], Ok tt) /\
  exec_dop true (DUpdate [OList [OSet [a; OInt 1]]] []) [] = ([(a, OInt 1)], Ok tt) /\
  exec_dop true (DIor (ODict [(a, OInt 1)])) [] = ([(a, OInt 1)], Ok tt).
Proof.
  repeat split.
Qed.

Lemma C21_failed_update_may_have_inserted_proof :
  forall l items l' post d, pairs_of l items -> int_keyed items -> 2 < length l' ->
  exec_dop false (DUpdate [OList (l ++ OList l' :: post)] []) d = (insert_items items d, Err ValueError).
Proof.
  intros l items l' post d Hp Hi Hl. simpl. unfold intkey_update, intkey_check. simpl.
  assert (C : check_items (l ++ OList l' :: post) = CkBreak post).
  { induction Hp.
    - simpl. destruct l' as [|x [|y [|z l']]]; simpl in *; try lia. reflexivity.
    - simpl. assert (is_int k = true) as -> by (apply is_int_spec, (Hi k v); left; auto).
      apply IHHp. intros a b H; apply (Hi a b); right; auto.
    - simpl. assert (is_int k = true) as -> by (apply is_int_spec, (Hi k v); left; auto).
      apply IHHp. intros a b H; apply (Hi a b); right; auto. }
  rewrite C. simpl. clear C.
  assert (E : insert_pairs (l ++ OList l' :: post) d = (insert_items items d, Err ValueError)).
  { revert d. induction Hp; intros d.
    - simpl. destruct l' as [|x [|y [|z l']]]; simpl in *; try lia. reflexivity.
    - simpl. unfold as_pair; simpl.
      assert (Hk : int_key k) by (apply (Hi k v); left; auto).
      replace (hashable k) with true by (destruct Hk as [[x ->]|[b ->]]; reflexivity).
      rewrite IHHp; [reflexivity|]. intros a b H; apply (Hi a b); right; auto.
    - simpl. unfold as_pair; simpl.
      assert (Hk : int_key k) by (apply (Hi k v); left; auto).
      replace (hashable k) with true by (destruct Hk as [[x ->]|[b ->]]; reflexivity).
      rewrite IHHp; [reflexivity|]. intros a b H; apply (Hi a b); right; auto. }
  rewrite E. reflexivity.
Qed.

Lemma oset_arr : forall k v d, one_dim v -> array_valued d -> array_valued (oset k v d).
Proof.
  intros k v d Hv Hd k' v' H. apply oset_In in H. destruct H as [H|[-> _]]; eauto.
Qed.

Lemma insert_items_arr : forall l d, array_valued l -> array_valued d -> array_valued (insert_items l d).
Proof.
  unfold insert_items. induction l as [|[k v] l IH]; simpl; intros d Hl Hd; auto.
  apply IH; [intros a b H; apply (Hl a b); right; auto|].
  apply oset_arr; auto. apply (Hl k v). left; auto.
Qed.

Lemma insert_pairs_arr : forall l d,
  (forall e k v, In e l -> as_pair e = Ok (k, v) -> one_dim v) -> array_valued d ->
  array_valued (fst (insert_pairs l d)).
Proof.
  induction l as [|e l IH]; simpl; intros d Hl Hd; auto.
  destruct (as_pair e) as [[k v]|x] eqn:E; auto.
  apply IH; eauto. apply oset_arr; eauto.
Qed.

Lemma proxied_pair_arr : forall e e' k v,
  match e with OSet _ | OIter _ => False | _ => True end ->
  proxy_pair e = Ok e' -> as_pair e' = Ok (k, v) -> one_dim v.
Proof.
  intros e e' k v He P A. destruct (has_getitem e) eqn:G.
  - destruct (proj2 (proxy_pair_plain _ _ P) G) as [i [a ->]].
    unfold as_pair in A. simpl in A. destruct i as [|x [|y [|z i]]]; simpl in A; try discriminate.
    + destruct (hashable x); [|discriminate]. injection A as <- <-. exists a. reflexivity.
  - unfold proxy_pair in P. rewrite G in P. injection P as <-.
    destruct e; simpl in *; try discriminate; contradiction.
Qed.

Lemma builtin_update_args_arr : forall args d,
  (forall a, args = [a] -> array_valued (fst (builtin_update a d))) -> array_valued d ->
  array_valued (fst (builtin_update_args args [] d)).
Proof.
  intros args d H Hd. destruct args as [|a [|b r]]; simpl; auto.
  specialize (H a eq_refl). destruct (builtin_update a d) as [d' [u|e]]; simpl in *; auto.
Qed.

Lemma np_update_arr : forall args kw d, array_valued d ->
  match args with
  | [a] => forall l, iterate a = Some l ->
          (exists i, a = ODict i) \/ (forall e, In e l -> match e with OSet _ | OIter _ => False | _ => True end)
  | _ => True end ->
  array_valued (fst (np_update args kw d)).
Proof.
  intros args kw d Hd Ha. unfold np_update.
  destruct (np_proxy args) as [a'|] eqn:P; simpl; auto.
  destruct (np_proxy_kwargs kw) as [k'|]; simpl; auto.
  unfold intkey_update. destruct (intkey_check a' k') as [a2|] eqn:C; auto.
  assert (k' = []) as -> by (eapply intkey_check_kw; eauto).
  destruct args as [|a r].
  { simpl in P. injection P as <-. unfold intkey_check in C. simpl in C. injection C as <-. simpl. auto. }
  destruct r as [|b r].
  2:{ assert (L : exists x y z, a2 = x :: y :: z).
      { assert (L1 : exists x y z, a' = x :: y :: z).
        { simpl in P. destruct a; simpl in P;
          try (destruct (mapM _ _); simpl in P; [|discriminate]);
          injection P as <-; eauto. }
        destruct L1 as [x [y [z ->]]]. unfold intkey_check in C.
        destruct x; simpl in C; try (injection C as <-; eauto; fail);
          try (destruct (check_items _); simpl in C; try discriminate; injection C as <-; eauto);
          destruct (forallb _ _); simpl in C; try discriminate; injection C as <-; eauto. }
      destruct L as [x [y [z ->]]]. simpl. auto. }
  assert (D : (exists i, a = ODict i) \/ iterate a = None \/ (exists l, iterate a = Some l /\ forall i, a <> ODict i)).
  { destruct a; simpl; eauto; right; right; eexists; split; try reflexivity; intros; discriminate. }
  destruct D as [[i ->]|[D|[l [D N]]]].
  - simpl in P. destruct (mapM _ i) as [l'|] eqn:M; simpl in P; [|discriminate].
    injection P as <-. unfold intkey_check in C. simpl in C.
    destruct (forallb _ l') eqn:F; simpl in C; [|discriminate]. injection C as <-. simpl.
    apply insert_items_arr; auto. intros k v H.
    destruct (mapM_In _ _ _ _ _ _ M H) as [[x y] [I Q]]. simpl in Q.
    destruct (to_array y) eqn:T; simpl in Q; [|discriminate]. injection Q as <- <-.
    eapply to_array_spec; eauto.
  - assert (a' = [a]) as ->.
    { simpl in P. destruct a; simpl in *; try discriminate; congruence. }
    assert (a2 = [a]) as ->.
    { unfold intkey_check in C. destruct a; simpl in *; try discriminate; congruence. }
    simpl. destruct a; simpl in *; try discriminate; auto.
  - destruct (Ha _ D) as [[i ->]|HE]; [exfalso; eapply N; reflexivity|].
    assert (exists l', a' = [OList l'] /\ mapM proxy_pair l = Ok l') as [l' [-> M]].
    { simpl in P. destruct a; simpl in *; try discriminate; try (exfalso; eapply N; reflexivity);
      injection D as <-; destruct (mapM proxy_pair _) as [l'|]; simpl in P; try discriminate;
      injection P as <-; eauto. }
    assert (a2 = [OList l']) as ->.
    { unfold intkey_check in C. simpl in C. destruct (check_items l'); simpl in C; congruence. }
    simpl. assert (B : array_valued (fst (insert_pairs l' d))).
    { apply insert_pairs_arr; auto. intros e k v I A.
      destruct (mapM_In _ _ _ _ _ _ M I) as [x [Ix Q]]. eapply proxied_pair_arr; eauto. apply HE; auto. }
    destruct (insert_pairs l' d) as [d' [u|e]]; simpl in *; auto.
Qed.

Lemma exec_dop_arr : forall o d, array_valued d ->
  match o with
  | DUpdate [a] _ => forall l, iterate a = Some l ->
          (exists i, a = ODict i) \/ (forall e, In e l -> match e with OSet _ | OIter _ => False | _ => True end)
  | DIor _ => False
  | _ => True
  end -> array_valued (fst (exec_dop true o d)).
Proof.
  intros o d Hd Ho. destruct o; simpl.
  - unfold np_setitem. destruct (to_array v) eqn:T; simpl; auto.
    unfold intkey_setitem. destruct (is_int k); simpl; auto. apply oset_arr; auto. eapply to_array_spec; eauto.
  - unfold np_setdefault. destruct (to_array v) eqn:T; simpl; auto.
    unfold intkey_setdefault. destruct (is_int k); simpl; auto. destruct (oget k d); auto.
    apply oset_arr; auto. eapply to_array_spec; eauto.
  - apply np_update_arr; auto.
  - match goal with |- context [fst ?x] => change x with (exec_dop false (DPop k) d) end. destruct (pop_cases false k d) as [->| ->]; auto. intros k' v' H. apply odel_In in H. eauto.
  - intros k v [].
  - destruct Ho.
Qed.

Lemma C22_values_stay_arrays_proof :
  forall ops d, array_valued d ->
  (forall o, In o ops -> match o with
     | DUpdate [a] _ => forall l, iterate a = Some l ->
          (exists i, a = ODict i) \/ (forall e, In e l -> match e with OSet _ | OIter _ => False | _ => True end)
     | DIor _ => False
     | _ => True
     end) ->
  array_valued (run_dops true ops d).
Proof.
  induction ops as [|o ops IH]; simpl; intros d Hd Ho; auto.
  apply IH.
  - apply exec_dop_arr; auto. exact (Ho o (or_introl eq_refl)).
  - intros o' I. exact (Ho o' (or_intror I)).
Qed.

Lemma C22_unacceptable_value_changes_nothing_proof :
  forall d v, ~ flat v ->
  (forall k, exec_dop true (DSet k v) d = (d, Err ValueError)) /\
  (forall k, exec_dop true (DSetdefault k v) d = (d, Err ValueError)) /\
  (forall arg items k kwargs, gives arg items -> In (k, v) items ->
     exec_dop true (DUpdate [arg] kwargs) d = (d, Err ValueError) /\ np_init [arg] kwargs = Err ValueError).
Proof.
  intros d v F. destruct (to_array_flat v) as [[C _]|[_ T]]; [contradiction|].
  split; [|split].
  - intros k. simpl. unfold np_setitem. rewrite T. reflexivity.
  - intros k. simpl. unfold np_setdefault. rewrite T. reflexivity.
  - intros arg items k kw G I.
    assert (U : forall d, np_update [arg] kw d = (d, Err ValueError)).
    { intros d'. unfold np_update. destruct (gives_proxy _ _ G) as [[k' [v' [_ [_ ->]]]]|[A _]]; [reflexivity|].
      exfalso. eauto. }
    split; [apply U|]. unfold np_init.
    assert (delegate_fail [arg] = false) as ->.
    { destruct G as [->|[l [[->| ->] _]]]; reflexivity. }
    simpl. rewrite U. reflexivity.
Qed.

Lemma C22_acceptable_values_are_flat_proof :
  forall arg items, gives arg items -> int_keyed items ->
  ((forall k v, In (k, v) items -> flat v) <-> exists d, np_init [arg] [] = Ok d) /\
  (forall d, np_init [arg] [] = Ok d -> array_valued d /\
     forall z v, last_given items z v -> exists a, made_from v a /\ maps_to d z (OArr a)).
Proof.
  intros arg items G Hi.
  assert (D : delegate_fail [arg] = false) by (destruct G as [->|[l [[->| ->] _]]]; reflexivity).
  assert (N : forall k v, In (k, v) items -> ~ flat v -> np_init [arg] [] = Err ValueError).
  { intros k v I F. destruct (C22_unacceptable_value_changes_nothing_proof [] v F) as [_ [_ H]].
    apply (H arg items k []); auto. }
  assert (Y : (forall k v, In (k, v) items -> flat v) -> exists d, np_init [arg] [] = Ok d /\
     forall z v, last_given items z v -> exists a, made_from v a /\ maps_to d z (OArr a)).
  { intros F. destruct (C20_accepted_update_stores_all_proof true arg items []) as [d' [E [H1 _]]]; auto.
    { intros k v []. }
    exists d'. split.
    - unfold np_init. rewrite D. simpl in *. rewrite E. reflexivity.
    - intros z v L. destruct (H1 _ _ L) as [w [M [a [Q ->]]]]. eauto. }
  assert (FD : (forall k v, In (k, v) items -> flat v) \/ exists k v, In (k, v) items /\ ~ flat v).
  { destruct (gives_proxy _ _ G) as [[k [v [I [F _]]]]|[A _]]; eauto. }
  split.
  - split.
    + intros F. destruct (Y F) as [d [E _]]. eauto.
    + intros [d E]. destruct FD as [F|[k [v [I F]]]]; auto. rewrite (N k v I F) in E. discriminate.
  - intros d E. destruct FD as [F|[k [v [I F]]]]; [|rewrite (N k v I F) in E; discriminate].
    destruct (Y F) as [d' [E' H]]. assert (d' = d) as -> by congruence. split; auto.
    unfold np_init in E. rewrite D in E. simpl in E.
    destruct (np_update [arg] [] []) as [d1 [u|]] eqn:U; simpl in E; [|discriminate].
    injection E as <-. change d1 with (fst (d1, Ok u)). rewrite <- U.
    apply np_update_arr; [intros k v []|]. intros l Hl.
    destruct G as [->|[l' [Q P]]]; [left; eauto|]. right.
    assert (l = l') as -> by (destruct Q as [->| ->]; simpl in Hl; congruence).
    clear -P. induction P; simpl; intros e I; [contradiction| |]; destruct I as [<-|I]; auto; apply IHP; auto.
Qed.

