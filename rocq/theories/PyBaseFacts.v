(** * Facts about the Python base notions *)

From Coq Require Import ZifyBool ZifyNat ZifyN.
From Verif Require Import PyBase.
Set Implicit Arguments.

Ltac Zify.zify_post_hook ::= Z.div_mod_to_equations.

(** ** strings *)

Lemma str_eqb_eq : forall a b, str_eqb a b = true <-> a = b.
Proof.
  induction a; destruct b; simpl; split; intro H; try congruence; try reflexivity.
  - apply andb_prop in H. destruct H as [H1 H2].
    apply N.eqb_eq in H1. apply IHa in H2. congruence.
  - injection H as -> ->. rewrite N.eqb_refl. simpl. apply IHa. reflexivity.
Qed.

Lemma str_eqb_refl : forall a, str_eqb a a = true.
Proof. intro. apply str_eqb_eq. reflexivity. Qed.

Lemma str_eqb_neq : forall a b, str_eqb a b = false <-> a <> b.
Proof.
  intros. split; intro H.
  - intro E. apply str_eqb_eq in E. congruence.
  - destruct (str_eqb a b) eqn:E; auto. apply str_eqb_eq in E. contradiction.
Qed.

(** ** result monad *)

Lemma bind_ok : forall A B (r : res A) (f : A -> res B) b,
  bind r f = Ok b -> exists a, r = Ok a /\ f a = Ok b.
Proof. intros A B [a|e] f b H; simpl in H; [eauto | discriminate]. Qed.

Lemma mapM_ok_length : forall A B (f : A -> res B) l r,
  mapM f l = Ok r -> length r = length l.
Proof.
  induction l; simpl; intros r H.
  - injection H as <-. reflexivity.
  - apply bind_ok in H as (y & Hy & H). apply bind_ok in H as (ys & Hys & H).
    injection H as <-. simpl. f_equal. auto.
Qed.

Lemma mapM_ok_Forall2 : forall A B (f : A -> res B) l r,
  mapM f l = Ok r <-> Forall2 (fun x y => f x = Ok y) l r.
Proof.
  induction l; simpl; intros r; split; intro H.
  - injection H as <-. constructor.
  - inversion H. reflexivity.
  - apply bind_ok in H as (y & Hy & H). apply bind_ok in H as (ys & Hys & H).
    injection H as <-. constructor; auto. apply IHl; auto.
  - inversion H; subst. rewrite H2. simpl.
    apply IHl in H4. rewrite H4. reflexivity.
Qed.

Lemma mapM_all_ok : forall A B (f : A -> res B) (g : A -> B) l,
  (forall x, In x l -> f x = Ok (g x)) -> mapM f l = Ok (map g l).
Proof.
  induction l; simpl; intros H; auto.
  rewrite H by auto. simpl. rewrite IHl; auto.
Qed.

Lemma mapM_app : forall A B (f : A -> res B) l1 l2,
  mapM f (l1 ++ l2) = (do a <- mapM f l1; do b <- mapM f l2; Ok (a ++ b)).
Proof.
  induction l1; simpl; intros.
  - destruct (mapM f l2); reflexivity.
  - destruct (f a); simpl; auto. rewrite IHl1.
    destruct (mapM f l1); simpl; auto. destruct (mapM f l2); reflexivity.
Qed.

(** ** nth / slices *)

Lemma nth_error_nth_default : forall A (l : list A) i d,
  nth i l d = match nth_error l i with Some x => x | None => d end.
Proof. induction l; destruct i; simpl; auto. Qed.

Lemma nth_ext_eq : forall A (d : A) (l l' : list A),
  length l = length l' -> (forall i, i < length l -> nth i l d = nth i l' d) -> l = l'.
Proof.
  intros. apply nth_ext with (d := d) (d' := d); auto.
Qed.

Lemma nth_map_lt : forall A B (f : A -> B) (l : list A) d d' i,
  i < length l -> nth i (map f l) d = f (nth i l d').
Proof.
  induction l; intros d d' i H; simpl in *; [lia|].
  destruct i; auto. apply IHl. lia.
Qed.

Lemma slice_length : forall A a b (l : list A),
  length (slice a b l) = Nat.min (b - a) (length l - a).
Proof. intros. unfold slice. rewrite firstn_length, skipn_length. reflexivity. Qed.

Lemma nth_skipn : forall A (l : list A) a i d, nth i (skipn a l) d = nth (a + i) l d.
Proof.
  induction l as [|x l IH]; intros a i d; destruct a; simpl; auto.
  destruct i; reflexivity.
Qed.

Lemma nth_firstn : forall A (l : list A) n i d,
  i < n -> nth i (firstn n l) d = nth i l d.
Proof.
  induction l; intros; destruct n; simpl; auto; try lia.
  destruct i; auto. apply IHl. lia.
Qed.

Lemma slice_nth : forall A a b (l : list A) i d,
  i < b - a -> nth i (slice a b l) d = nth (a + i) l d.
Proof. intros. unfold slice. rewrite nth_firstn by lia. apply nth_skipn. Qed.

Lemma slice_all : forall A (l : list A), slice 0 (length l) l = l.
Proof. intros. unfold slice. simpl. rewrite Nat.sub_0_r. apply firstn_all. Qed.

(** ** dictionaries *)

Lemma dget_dset : forall V k k' (v : V) d,
  dget k (dset k' v d) = if Z.eqb k k' then Some v else dget k d.
Proof.
  induction d as [|[k0 v0] d IH]; simpl.
  - destruct (k =? k')%Z; reflexivity.
  - destruct (k' =? k0)%Z eqn:E; simpl.
    + apply Z.eqb_eq in E. subst. destruct (k =? k0)%Z; reflexivity.
    + rewrite IH. destruct (k =? k0)%Z eqn:E2; auto.
      apply Z.eqb_eq in E2. subst. rewrite Z.eqb_sym, E. reflexivity.
Qed.

Lemma dkeys_dset_in : forall V k (v : V) d,
  In k (dkeys d) -> dkeys (dset k v d) = dkeys d.
Proof.
  induction d as [|[k0 v0] d IH]; simpl; intro H; [easy|].
  destruct (k =? k0)%Z eqn:E; simpl; auto.
  f_equal. apply IH. destruct H; auto. subst. rewrite Z.eqb_refl in E. discriminate.
Qed.

Lemma dkeys_dset_notin : forall V k (v : V) d,
  ~ In k (dkeys d) -> dkeys (dset k v d) = dkeys d ++ [k].
Proof.
  induction d as [|[k0 v0] d IH]; simpl; intro H; auto.
  destruct (k =? k0)%Z eqn:E; simpl.
  - apply Z.eqb_eq in E. subst. exfalso. auto.
  - f_equal. apply IH. auto.
Qed.

Lemma In_dkeys_dset : forall V k k' (v : V) d,
  In k (dkeys (dset k' v d)) <-> k = k' \/ In k (dkeys d).
Proof.
  induction d as [|[k0 v0] d IH]; simpl.
  - intuition.
  - destruct (k' =? k0)%Z eqn:E; simpl.
    + apply Z.eqb_eq in E. subst. intuition.
    + unfold dkeys in *. rewrite IH. intuition.
Qed.

Lemma NoDup_dkeys_dset : forall V k (v : V) d,
  NoDup (dkeys d) -> NoDup (dkeys (dset k v d)).
Proof.
  induction d as [|[k0 v0] d IH]; simpl; intro H.
  - constructor; auto.
  - inversion H; subst. destruct (k =? k0)%Z eqn:E; simpl; auto.
    constructor; [|apply IH; auto].
    change (map fst (dset k v d)) with (dkeys (dset k v d)).
    rewrite In_dkeys_dset. intros [->|H4]; [|apply H2; exact H4].
    rewrite Z.eqb_refl in E. discriminate.
Qed.

Lemma dget_In : forall V k (v : V) d, dget k d = Some v -> In (k, v) d.
Proof.
  induction d as [|[k0 v0] d IH]; simpl; intro H; [discriminate|].
  destruct (k =? k0)%Z eqn:E; auto.
  apply Z.eqb_eq in E. injection H as <-. subst. auto.
Qed.

Lemma dget_In_NoDup : forall V k (v : V) d,
  NoDup (dkeys d) -> (dget k d = Some v <-> In (k, v) d).
Proof.
  induction d as [|[k0 v0] d IH]; simpl; intro H.
  - split; [discriminate|easy].
  - inversion H; subst. destruct (k =? k0)%Z eqn:E.
    + apply Z.eqb_eq in E. subst. split; intro H0.
      * injection H0 as <-. auto.
      * destruct H0 as [H0|H0]; [congruence|].
        exfalso. apply H2. change k0 with (fst (k0, v)). apply in_map. exact H0.
    + rewrite IH by auto. split; auto. intros [H0|H0]; auto.
      injection H0 as -> ->. rewrite Z.eqb_refl in E. discriminate.
Qed.

Lemma dmem_In : forall V k (d : dict V), dmem k d = true <-> In k (dkeys d).
Proof.
  unfold dmem. induction d as [|[k0 v0] d IH]; simpl.
  - split; [discriminate|easy].
  - destruct (k =? k0)%Z eqn:E.
    + apply Z.eqb_eq in E. subst. intuition.
    + rewrite IH. split; auto. intros [->|H]; auto.
      rewrite Z.eqb_refl in E. discriminate.
Qed.

Lemma dget_Some_In : forall V k (d : dict V), (exists v, dget k d = Some v) <-> In k (dkeys d).
Proof.
  intros. rewrite <- dmem_In. unfold dmem. destruct (dget k d); split; intros; eauto.
  - destruct H; discriminate.
  - discriminate.
Qed.

Lemma dict_of_aux_NoDup : forall V (l : list (Z * V)) d,
  NoDup (dkeys d) ->
  NoDup (dkeys (fold_left (fun d kv => dset (fst kv) (snd kv) d) l d)).
Proof. induction l; simpl; intros; auto. apply IHl. apply NoDup_dkeys_dset. auto. Qed.

Lemma dict_of_NoDup : forall V (l : list (Z * V)), NoDup (dkeys (dict_of l)).
Proof. intros. apply dict_of_aux_NoDup. constructor. Qed.

Lemma dict_of_aux_app : forall V (l : list (Z * V)) d,
  NoDup (dkeys d ++ map fst l) ->
  fold_left (fun d kv => dset (fst kv) (snd kv) d) l d = d ++ l.
Proof.
  assert (Hset : forall V k (v : V) d, ~ In k (dkeys d) -> dset k v d = d ++ [(k, v)]).
  { induction d as [|[k0 v0] d IH]; simpl; intro H; auto.
    destruct (k =? k0)%Z eqn:E; [apply Z.eqb_eq in E; subst; exfalso; auto|].
    f_equal. apply IH. auto. }
  induction l as [|[k v] l IH]; simpl; intros d H.
  - rewrite app_nil_r. reflexivity.
  - rewrite Hset.
    + rewrite IH.
      * rewrite <- app_assoc. reflexivity.
      * unfold dkeys. rewrite map_app, <- app_assoc. exact H.
    + apply NoDup_remove_2 in H. intro H1. apply H. apply in_or_app. auto.
Qed.

Lemma dict_of_id : forall V (l : list (Z * V)), NoDup (map fst l) -> dict_of l = l.
Proof. intros. unfold dict_of. apply (dict_of_aux_app l []). auto. Qed.

(** ** sorting *)

Lemma zinsert_perm : forall x l, Permutation (x :: l) (zinsert x l).
Proof.
  induction l; simpl; auto.
  destruct (x <=? a)%Z; auto.
  apply perm_trans with (a :: x :: l); [apply perm_swap|auto].
Qed.

Lemma zsort_perm : forall l, Permutation l (zsort l).
Proof.
  induction l; simpl; auto.
  apply perm_trans with (a :: zsort l); auto. apply zinsert_perm.
Qed.

Lemma zinsert_sorted : forall x l, Sorted Z.le l -> Sorted Z.le (zinsert x l).
Proof.
  induction l; simpl; intro H; [constructor; auto|].
  destruct (x <=? a)%Z eqn:E.
  - constructor; auto. constructor. lia.
  - inversion H; subst. constructor; auto.
    destruct l; simpl in *; [constructor; lia|].
    inversion H3; subst. destruct (x <=? z)%Z; constructor; lia.
Qed.

Lemma zsort_sorted : forall l, Sorted Z.le (zsort l).
Proof. induction l; simpl; [constructor|]. apply zinsert_sorted; auto. Qed.

Lemma zsort_In : forall x l, In x (zsort l) <-> In x l.
Proof.
  intros. split; apply Permutation_in; [apply Permutation_sym|]; apply zsort_perm.
Qed.

Lemma zsort_length : forall l, length (zsort l) = length l.
Proof. intros. symmetry. apply Permutation_length, zsort_perm. Qed.

Lemma zsort_NoDup : forall l, NoDup l -> NoDup (zsort l).
Proof. intros. apply (Permutation_NoDup (zsort_perm l)). assumption. Qed.

Lemma sorted_perm_eq : forall l l', Sorted Z.le l -> Sorted Z.le l' -> Permutation l l' -> l = l'.
Proof.
  induction l; intros l' H1 H2 HP.
  - apply Permutation_nil in HP. auto.
  - destruct l' as [|b l']; [apply Permutation_sym, Permutation_nil in HP; discriminate|].
    apply Sorted_StronglySorted in H1; [|intros x y z; lia].
    apply Sorted_StronglySorted in H2; [|intros x y z; lia].
    inversion H1; subst. inversion H2; subst.
    assert (a = b).
    { rewrite Forall_forall in *.
      assert (In b (a :: l)) by (eapply Permutation_in; [apply Permutation_sym; eauto|left; auto]).
      assert (In a (b :: l')) by (eapply Permutation_in; [eauto|left; auto]).
      destruct H as [|H]; [congruence|]. destruct H0 as [|H0]; [congruence|].
      apply H4 in H. apply H6 in H0. lia. }
    subst. f_equal. apply IHl; auto using StronglySorted_Sorted.
    eapply Permutation_cons_inv; eauto.
Qed.

Lemma zsort_id : forall l, Sorted Z.le l -> zsort l = l.
Proof.
  intros. apply sorted_perm_eq; auto using zsort_sorted.
  apply Permutation_sym, zsort_perm.
Qed.

Lemma zsort_perm_eq : forall l l', Permutation l l' -> zsort l = zsort l'.
Proof.
  intros. apply sorted_perm_eq; auto using zsort_sorted.
  eapply perm_trans; [apply Permutation_sym, zsort_perm|].
  eapply perm_trans; [apply H|apply zsort_perm].
Qed.

(** ** zip *)

Lemma zip_length : forall A B (a : list A) (b : list B),
  length (zip a b) = Nat.min (length a) (length b).
Proof. induction a; destruct b; simpl; auto. Qed.

Lemma zip_nth_error : forall A B (a : list A) (b : list B) i,
  nth_error (zip a b) i =
  match nth_error a i, nth_error b i with
  | Some x, Some y => Some (x, y)
  | _, _ => None
  end.
Proof.
  induction a; destruct b, i; simpl; auto.
  destruct (nth_error a0 i); reflexivity.
Qed.

Lemma zip_app : forall A B (a1 a2 : list A) (b1 b2 : list B),
  length a1 = length b1 -> zip (a1 ++ a2) (b1 ++ b2) = zip a1 b1 ++ zip a2 b2.
Proof.
  induction a1; destruct b1; simpl; intros; try lia; auto.
  f_equal. apply IHa1. lia.
Qed.

Lemma zip_map : forall A B C D (f : A -> C) (g : B -> D) a b,
  zip (map f a) (map g b) = map (fun '(x, y) => (f x, g y)) (zip a b).
Proof. induction a; destruct b; simpl; auto. f_equal. auto. Qed.

Lemma map_fst_zip : forall A B (a : list A) (b : list B),
  length a <= length b -> map fst (zip a b) = a.
Proof. induction a; destruct b; simpl; intros; auto; try lia. f_equal. apply IHa. lia. Qed.

Lemma map_snd_zip : forall A B (a : list A) (b : list B),
  length b <= length a -> map snd (zip a b) = b.
Proof. induction a; destruct b; simpl; intros; auto; try lia. f_equal. apply IHa. lia. Qed.

(** zip over several lists: row i holds the i-th elements. *)

Lemma heads_Some : forall A (ls : list (list A)) hs ts,
  heads ls = Some (hs, ts) ->
  length hs = length ls /\ length ts = length ls /\
  (forall i, i < length ls -> exists x, nth_error hs i = Some x /\
      nth_error ls i = Some (x :: nth i ts [])).
Proof.
  induction ls as [|l ls IH]; simpl; intros hs ts H.
  - injection H as <- <-. simpl. repeat split; auto. intros; lia.
  - destruct l as [|x l]; [discriminate|].
    destruct (heads ls) as [[hs' ts']|] eqn:E; [|discriminate].
    injection H as <- <-. destruct (IH _ _ eq_refl) as (H1 & H2 & H3).
    simpl. repeat split; auto. intros [|i] Hi; simpl.
    + exists x. auto.
    + apply H3. lia.
Qed.

Lemma heads_None : forall A (ls : list (list A)),
  heads ls = None <-> In [] ls.
Proof.
  induction ls as [|l ls IH]; simpl.
  - split; [discriminate|easy].
  - destruct l as [|x l].
    + split; auto.
    + destruct (heads ls) as [[hs ts]|].
      * split; [discriminate|]. intros [H|H]; [discriminate|]. apply IH in H. discriminate.
      * split; auto. intros _. right. apply IH. reflexivity.
Qed.

Lemma heads_map_cons : forall A (ls : list (list A)) hs ts,
  heads ls = Some (hs, ts) -> ls = map (fun '(x, l) => x :: l) (zip hs ts).
Proof.
  induction ls as [|l ls IH]; simpl; intros hs ts H.
  - injection H as <- <-. reflexivity.
  - destruct l as [|x l]; [discriminate|].
    destruct (heads ls) as [[hs' ts']|] eqn:E; [|discriminate].
    injection H as <- <-. simpl. f_equal. apply IH. reflexivity.
Qed.

(** Length of the shortest list. *)
Fixpoint minlen {A} (ls : list (list A)) : nat :=
  match ls with
  | [] => 0
  | [l] => length l
  | l :: ls' => Nat.min (length l) (minlen ls')
  end.

Lemma minlen_le : forall A (ls : list (list A)) l, In l ls -> minlen ls <= length l.
Proof.
  induction ls as [|l0 ls IH]; intros l H; [easy|].
  destruct H as [->|H].
  - simpl. destruct ls; lia.
  - simpl. destruct ls; [easy|]. specialize (IH _ H). lia.
Qed.

Lemma minlen_glb : forall A (ls : list (list A)) n,
  ls <> [] -> (forall l, In l ls -> n <= length l) -> n <= minlen ls.
Proof.
  induction ls as [|l0 ls IH]; intros n Hne H; [easy|].
  simpl. destruct ls.
  - apply H. left. auto.
  - assert (n <= length l0) by (apply H; left; auto).
    assert (n <= minlen (l :: ls)) by (apply IH; [easy|]; intros; apply H; right; auto).
    lia.
Qed.

Lemma minlen_const : forall A (ls : list (list A)) n,
  ls <> [] -> (forall l, In l ls -> length l = n) -> minlen ls = n.
Proof.
  intros. apply Nat.le_antisymm.
  - destruct ls as [|l ls]; [easy|]. rewrite <- (H0 l (or_introl eq_refl)).
    apply minlen_le. left. auto.
  - apply minlen_glb; auto. intros. rewrite H0; auto.
Qed.

Lemma heads_minlen : forall A (ls : list (list A)) hs ts,
  ls <> [] -> heads ls = Some (hs, ts) -> minlen ls = S (minlen ts).
Proof.
  induction ls as [|l ls IH]; simpl; intros hs ts Hne H; [easy|].
  destruct l as [|x l]; [discriminate|].
  destruct (heads ls) as [[hs' ts']|] eqn:E; [|discriminate].
  injection H as <- <-. destruct ls as [|l2 ls].
  - simpl in E. injection E as <- <-. reflexivity.
  - assert (length ts' = length (l2 :: ls)) by (apply heads_Some in E; tauto).
    destruct ts' as [|t2 ts']; [discriminate|].
    rewrite (IH _ _ ltac:(easy) eq_refl). reflexivity.
Qed.

Lemma zipn_fuel_length : forall A n (ls : list (list A)),
  ls <> [] -> length (zipn_fuel n ls) = Nat.min n (minlen ls).
Proof.
  induction n; simpl; intros ls H; auto.
  destruct (heads ls) as [[hs ts]|] eqn:E.
  - simpl. assert (length ts = length ls) by (apply heads_Some in E; tauto).
    rewrite IHn.
    + rewrite (heads_minlen H E). reflexivity.
    + destruct ts; [destruct ls; easy|easy].
  - apply heads_None in E. apply minlen_le in E. simpl in E.
    replace (minlen ls) with 0 by lia. reflexivity.
Qed.

Lemma zipn_length : forall A (ls : list (list A)), length (zipn ls) = minlen ls.
Proof.
  intros. destruct ls as [|l ls]; [reflexivity|].
  unfold zipn. rewrite zipn_fuel_length by easy.
  assert (minlen (l :: ls) <= length l) by (apply minlen_le; left; auto). lia.
Qed.

Lemma zipn_fuel_nth : forall A n (ls : list (list A)) i row,
  nth_error (zipn_fuel n ls) i = Some row ->
  length row = length ls /\
  forall j, j < length ls -> exists x, nth_error row j = Some x /\
     nth_error (nth j ls []) i = Some x.
Proof.
  induction n; simpl; intros ls i row H.
  - destruct i; discriminate.
  - destruct (heads ls) as [[hs ts]|] eqn:E; [|destruct i; discriminate].
    pose proof (heads_Some _ E) as (L1 & L2 & L3).
    destruct i as [|i]; simpl in H.
    + injection H as <-. split; auto. intros j Hj.
      destruct (L3 _ Hj) as (x & Hx & Hl). exists x. split; auto.
      rewrite nth_error_nth_default, Hl. reflexivity.
    + destruct (IHn _ _ _ H) as (R1 & R2). split; [congruence|].
      intros j Hj. rewrite L2 in R2. destruct (R2 _ Hj) as (x & Hx & Hn).
      exists x. split; auto. destruct (L3 _ Hj) as (y & Hy & Hl).
      rewrite (nth_error_nth_default ls), Hl. simpl. exact Hn.
Qed.

(** Row [i] of [zipn ls] holds the [i]-th element of every list. *)
Lemma zipn_nth : forall A (ls : list (list A)) i row,
  nth_error (zipn ls) i = Some row ->
  length row = length ls /\
  forall j, j < length ls -> exists x, nth_error row j = Some x /\
     nth_error (nth j ls []) i = Some x.
Proof.
  intros A ls i row H. destruct ls as [|l ls]; [destruct i; discriminate|].
  eapply zipn_fuel_nth. exact H.
Qed.

(** Rows of equal width [w], transposed: column [j] is the list of [j]-th
    elements. *)
Lemma zipn_columns : forall A (d : A) (rows : list (list A)) w,
  rows <> [] -> (forall r, In r rows -> length r = w) ->
  zipn rows = map (fun j => map (fun r => nth j r d) rows) (seq 0 w).
Proof.
  intros A d rows w Hne Hw.
  assert (L : length (zipn rows) = w) by (rewrite zipn_length; apply minlen_const; auto).
  apply nth_ext_eq with (d := []).
  - rewrite map_length, seq_length. exact L.
  - intros i Hi. rewrite L in Hi.
    assert (exists row, nth_error (zipn rows) i = Some row) as [row Hrow].
    { destruct (nth_error (zipn rows) i) eqn:E; eauto.
      apply nth_error_None in E. lia. }
    destruct (zipn_nth _ _ Hrow) as (R1 & R2).
    rewrite nth_error_nth_default, Hrow.
    rewrite (nth_map_lt (fun j => map (fun r => nth j r d) rows) (seq 0 w) [] 0)
      by (rewrite seq_length; lia).
    rewrite seq_nth by lia. simpl.
    apply nth_ext_eq with (d := d); [rewrite map_length; auto|].
    intros j Hj. rewrite R1 in Hj. destruct (R2 _ Hj) as (x & Hx & Hn).
    rewrite nth_error_nth_default, Hx.
    rewrite (nth_map_lt (fun r => nth i r d) rows d []) by lia.
    rewrite nth_error_nth_default, Hn. reflexivity.
Qed.

Lemma enum_from_map_fst : forall A (l : list A) n, map fst (enum_from n l) = seq n (length l).
Proof. induction l; simpl; intros; auto. f_equal. auto. Qed.

Lemma enum_from_map_snd : forall A (l : list A) n, map snd (enum_from n l) = l.
Proof. induction l; simpl; intros; auto. f_equal. auto. Qed.

(** ** decimal numbers *)

Lemma digits_val_app : forall s1 s2 acc,
  digits_val acc (s1 ++ s2) = digits_val (digits_val acc s1) s2.
Proof. induction s1; simpl; intros; auto. Qed.

Lemma dec_digits_spec : forall n z, (0 <= z < 2 ^ Z.of_nat n)%Z ->
  digits_val 0 (dec_digits n z) = z /\
  Forall (fun c => is_digit c = true) (dec_digits n z) /\ (n <> 0 -> dec_digits n z <> []).
Proof.
  induction n; intros z Hz.
  - simpl in Hz. assert (z = 0)%Z by lia. subst. split; [reflexivity|].
    split; [constructor|]. intros Hn. exfalso. apply Hn. reflexivity.
  - replace (Z.of_nat (S n)) with (Z.of_nat n + 1)%Z in Hz by lia.
    rewrite Z.pow_add_r in Hz by lia. change (2 ^ 1)%Z with 2%Z in Hz.
    simpl. destruct (z <? 10)%Z eqn:E.
    + repeat split; auto; try discriminate; simpl.
      * rewrite Z2N.id; lia.
      * constructor; auto. unfold is_digit. lia.
    + destruct (IHn (z / 10)%Z) as (I1 & I2 & I3).
      { revert Hz. generalize (2 ^ Z.of_nat n)%Z as P. intros P Hz.
        split; [apply Z.div_pos; lia|]. apply Z.div_lt_upper_bound; lia. }
      repeat split.
      * rewrite digits_val_app, I1. simpl. rewrite Z2N.id by lia. lia.
      * apply Forall_app. split; auto. constructor; auto. unfold is_digit. lia.
      * intros _ H. apply app_eq_nil in H. destruct H; discriminate.
Qed.

Lemma log2_bound : forall z, (0 <= z)%Z -> (0 <= z < 2 ^ Z.of_nat (S (Z.to_nat (Z.log2 z))))%Z.
Proof.
  intros. split; auto.
  destruct (Z.eq_dec z 0) as [->|Hz].
  - simpl. lia.
  - pose proof (Z.log2_spec z ltac:(lia)).
    assert (0 <= Z.log2 z)%Z by apply Z.log2_nonneg.
    replace (Z.of_nat (S (Z.to_nat (Z.log2 z)))) with (Z.succ (Z.log2 z)) by lia. lia.
Qed.

(** str(z) is a non-empty run of digits whose value is z. *)
Lemma str_of_Z_nonneg : forall z, (0 <= z)%Z ->
  digits_val 0 (str_of_Z z) = z /\
  Forall (fun c => is_digit c = true) (str_of_Z z) /\ str_of_Z z <> [].
Proof.
  intros z H. unfold str_of_Z. destruct (z <? 0)%Z eqn:E; [lia|].
  destruct (@dec_digits_spec (S (Z.to_nat (Z.log2 z))) z) as (A & B & C).
  - apply log2_bound. auto.
  - repeat split; auto.
Qed.

Lemma str_of_Z_neg : forall z, (z < 0)%Z ->
  exists s, str_of_Z z = 45%N :: s /\ digits_val 0 s = (- z)%Z /\
  Forall (fun c => is_digit c = true) s /\ s <> [].
Proof.
  intros z H. unfold str_of_Z. destruct (z <? 0)%Z eqn:E; [|lia].
  destruct (@dec_digits_spec (S (Z.to_nat (Z.log2 (- z)))) (- z)) as (A & B & C).
  - apply log2_bound. lia.
  - eexists. split; [reflexivity|]. repeat split; auto.
Qed.

Lemma str_of_Z_inj : forall a b, str_of_Z a = str_of_Z b -> a = b.
Proof.
  intros a b H.
  destruct (Z_lt_dec a 0) as [Ha|Ha], (Z_lt_dec b 0) as [Hb|Hb].
  - destruct (str_of_Z_neg Ha) as (s & E1 & V1 & _). destruct (str_of_Z_neg Hb) as (t & E2 & V2 & _).
    rewrite E1, E2 in H. injection H as ->. lia.
  - destruct (str_of_Z_neg Ha) as (s & E1 & _). destruct (str_of_Z_nonneg (z := b) ltac:(lia)) as (_ & F & _).
    rewrite <- H, E1 in F. inversion F; subst. discriminate.
  - destruct (str_of_Z_neg Hb) as (s & E1 & _). destruct (str_of_Z_nonneg (z := a) ltac:(lia)) as (_ & F & _).
    rewrite H, E1 in F. inversion F; subst. discriminate.
  - destruct (str_of_Z_nonneg (z := a) ltac:(lia)) as (V1 & _).
    destruct (str_of_Z_nonneg (z := b) ltac:(lia)) as (V2 & _). congruence.
Qed.

(** ** span and prefixes *)

Lemma span_spec : forall p s a b, span p s = (a, b) ->
  s = a ++ b /\ Forall (fun c => p c = true) a /\
  match b with [] => True | c :: _ => p c = false end.
Proof.
  induction s; simpl; intros x y H.
  - injection H as <- <-. auto.
  - destruct (p a) eqn:E.
    + destruct (span p s) as [u v]. injection H as <- <-.
      destruct (IHs _ _ eq_refl) as (A & B & C). subst. simpl. auto.
    + injection H as <- <-. auto.
Qed.

Lemma span_app : forall p a b, Forall (fun c => p c = true) a ->
  match b with [] => True | c :: _ => p c = false end -> span p (a ++ b) = (a, b).
Proof.
  induction a; simpl; intros b Ha Hb.
  - destruct b; auto. simpl. rewrite Hb. reflexivity.
  - inversion Ha; subst. rewrite H1. rewrite IHa; auto.
Qed.

Lemma strip_prefix_app : forall p s, strip_prefix p (p ++ s) = Some s.
Proof. induction p; simpl; auto. intros. rewrite N.eqb_refl. auto. Qed.

Lemma strip_prefix_Some : forall p s r, strip_prefix p s = Some r <-> s = p ++ r.
Proof.
  split.
  - revert s. induction p; simpl; intros s H; [congruence|].
    destruct s; [discriminate|]. destruct (N.eqb a n) eqn:E; [|discriminate].
    apply N.eqb_eq in E. subst. f_equal. auto.
  - intros ->. apply strip_prefix_app.
Qed.

(** ** Python indexing *)

Lemma py_index_nonneg : forall A (l : list A) i, (0 <= i)%Z ->
  py_index l i = nth_error l (Z.to_nat i).
Proof.
  intros. unfold py_index. destruct (i <? 0)%Z eqn:E; [lia|].
  destruct ((0 <=? i) && (i <? Z.of_nat (length l)))%Z eqn:E2; auto.
  symmetry. apply nth_error_None. lia.
Qed.

Lemma py_index_neg : forall A (l : list A) i, (i < 0)%Z ->
  py_index l i = if (- i <=? Z.of_nat (length l))%Z
                 then nth_error l (length l - Z.to_nat (- i)) else None.
Proof.
  intros. unfold py_index. destruct (i <? 0)%Z eqn:E; [|lia].
  destruct (- i <=? Z.of_nat (length l))%Z eqn:E1.
  - destruct ((0 <=? i + Z.of_nat (length l)) && (i + Z.of_nat (length l) <? Z.of_nat (length l)))%Z eqn:E2; [|lia].
    f_equal. lia.
  - destruct ((0 <=? i + Z.of_nat (length l)) && (i + Z.of_nat (length l) <? Z.of_nat (length l)))%Z eqn:E2; auto. lia.
Qed.

Lemma py_index_None : forall A (l : list A) i,
  py_index l i = None <-> (i >= Z.of_nat (length l) \/ i < - Z.of_nat (length l))%Z.
Proof.
  intros. unfold py_index.
  destruct (i <? 0)%Z eqn:E.
  - destruct ((0 <=? i + Z.of_nat (length l)) && (i + Z.of_nat (length l) <? Z.of_nat (length l)))%Z eqn:E2.
    + rewrite nth_error_None. lia.
    + split; auto. lia.
  - destruct ((0 <=? i) && (i <? Z.of_nat (length l)))%Z eqn:E2.
    + rewrite nth_error_None. lia.
    + split; auto. lia.
Qed.
