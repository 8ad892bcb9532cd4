(** * Lemmas on slicelist, startstop_bool and the duration loop *)

From Coq Require Import ZifyBool ZifyNat ZifyN.
From Verif Require Import PyBase PyBaseFacts PyFloat NumPy DataUtils Pack SpecMask.

(** Truth values of the elements of a mask. *)
Definition bits (a : arr) : list bool := map truthy (aelems a).

Lemma bits_barr : forall l, bits (barr l) = l.
Proof. intros. unfold bits, barr. simpl. rewrite map_map. simpl. apply map_id. Qed.

Lemma bits_length : forall a, length (bits a) = alen a.
Proof. intros. unfold bits, alen. apply map_length. Qed.

(** ** A functional description of the loop *)

Fixpoint runs (i : nat) (m : list bool) (open : option nat) : list (nat * nat) :=
  match m with
  | [] => match open with Some s => [(s, i)] | None => [] end
  | true :: m' => runs (S i) m' (Some (match open with Some s => s | None => i end))
  | false :: m' => match open with
                   | Some s => (s, i) :: runs (S i) m' None
                   | None => runs (S i) m' None
                   end
  end.

Lemma slicelist_loop_runs : forall b i acc started start acc' start' e',
  slicelist_loop i b acc started start started = (acc', start', e') ->
  (if e' then acc' ++ [(start', i + length b)] else acc') =
  acc ++ runs i (map truthy b) (if started then Some start else None).
Proof.
  induction b as [|v b IH]; intros i acc started start acc' start' e' H; simpl in H.
  - injection H as <- <- <-. simpl. rewrite Nat.add_0_r.
    destruct started; rewrite ?app_nil_r; reflexivity.
  - simpl length. simpl map. rewrite Nat.add_succ_r. simpl in *.
    destruct started, (truthy v) eqn:E; simpl in *.
    + apply IH in H. exact H.
    + apply IH in H. simpl in H. rewrite H. rewrite <- app_assoc. reflexivity.
    + apply IH in H. exact H.
    + apply IH in H. exact H.
Qed.

Lemma slicelist_runs : forall a, slicelist a = runs 0 (bits a) None.
Proof.
  intros. unfold slicelist.
  destruct (slicelist_loop 0 (aelems a) [] false 0 false) as [[acc st] e] eqn:E.
  apply slicelist_loop_runs in E. simpl in E. exact E.
Qed.

(** ** Characterisation by maximal runs *)

Definition open_ok (f : list bool) (i : nat) (open : option nat) : Prop :=
  match open with
  | None => i = 0 \/ nth (i - 1) f false = false
  | Some s => s < i /\ (forall j, s <= j < i -> nth j f false = true) /\
              (s = 0 \/ nth (s - 1) f false = false)
  end.

Lemma runs_In : forall m f i open,
  length f = i + length m ->
  (forall j, nth (i + j) f false = nth j m false) ->
  open_ok f i open ->
  forall a b, In (a, b) (runs i m open) <->
    (is_run f a b /\ match open with None => i <= a | Some s => s <= a end).
Proof.
  induction m as [|x m IH]; intros f i open Hl Hn Ho a b; simpl in *.
  - destruct open as [s|]; simpl in *.
    + split.
      * intros [H|[]]. injection H as <- <-. destruct Ho as (H1 & H2 & H3).
        split; auto. repeat split; auto; lia.
      * intros [(H1 & H2 & H3 & H4 & H5) H6]. left. destruct Ho as (O1 & O2 & O3).
        assert (a = s).
        { destruct H4 as [->|H4]; [lia|].
          destruct (Nat.eq_dec a s); auto.
          rewrite O2 in H4 by lia. discriminate. }
        assert (b = i).
        { destruct H5 as [->|H5]; [lia|].
          destruct (Nat.eq_dec b i); auto. rewrite O2 in H5 by lia. discriminate. }
        subst. reflexivity.
    + split; [easy|]. intros [(H1 & H2 & _) H3]. lia.
  - assert (Hn' : forall j, nth (S i + j) f false = nth j m false).
    { intro j. specialize (Hn (S j)). simpl in Hn. rewrite <- Hn. f_equal. lia. }
    assert (Hx : nth i f false = x).
    { specialize (Hn 0). rewrite Nat.add_0_r in Hn. simpl in Hn. auto. }
    destruct x.
    + rewrite (IH f (S i)); [| lia | exact Hn' |].
      * destruct open as [s|]; reflexivity.
      * destruct open as [s|]; simpl in *.
        -- destruct Ho as (O1 & O2 & O3). repeat split; auto; try lia.
           intros j Hj. destruct (Nat.eq_dec j i); [subst; auto|]. apply O2. lia.
        -- repeat split; auto; try lia.
           intros j Hj. replace j with i by lia. auto.
    + assert (Ho' : open_ok f (S i) None).
      { simpl. right. rewrite Nat.sub_0_r. exact Hx. }
      destruct open as [s|].
      * simpl. rewrite (IH f (S i) None); [| lia | exact Hn' | exact Ho'].
        destruct Ho as (O1 & O2 & O3). split.
        -- intros [H|[H1 H2]].
           ++ injection H as <- <-. split; auto. repeat split; auto; lia.
           ++ split; auto. lia.
        -- intros [(H1 & H2 & H3 & H4 & H5) H6].
           destruct (Nat.eq_dec a s) as [->|Hne].
           ++ left. f_equal.
              destruct (lt_eq_lt_dec b i) as [[Hb|Hb]|Hb]; auto.
              ** destruct H5 as [->|H5]; [lia|]. rewrite O2 in H5 by lia. discriminate.
              ** rewrite H3 in Hx by lia. discriminate.
           ++ right. split; [repeat split; auto|].
              destruct (le_lt_dec (S i) a); auto.
              destruct (Nat.eq_dec a i).
              ** subst a. rewrite H3 in Hx by lia. discriminate.
              ** destruct H4 as [->|H4]; [lia|]. rewrite O2 in H4 by lia. discriminate.
      * rewrite (IH f (S i) None); [| lia | exact Hn' | exact Ho'].
        split; intros [H1 H2]; split; auto; try lia.
        destruct (Nat.eq_dec a i); [|lia]. subst.
        destruct H1 as (H1 & H3 & H4 & _). rewrite H4 in Hx by lia. discriminate.
Qed.

Lemma runs_sorted : forall m i open,
  match open with Some s => s < i | None => True end ->
  (forall x, In x (runs i m open) -> match open with Some s => s | None => i end <= fst x) /\
  StronglySorted (fun x y => snd x < fst y) (runs i m open).
Proof.
  induction m as [|b m IH]; intros i open Ho; simpl.
  - destruct open as [s|]; simpl; split; try (constructor; constructor); try easy.
    intros x [<-|[]]. simpl. lia.
  - destruct b.
    + destruct open as [s|]; apply (IH (S i) (Some _)); lia.
    + destruct (IH (S i) None I) as [H1 H2]. destruct open as [s|].
      * split.
        -- intros x [<-|Hx]; simpl; [lia|]. apply H1 in Hx. lia.
        -- constructor; auto. apply Forall_forall. intros x Hx. apply H1 in Hx. simpl. lia.
      * split; auto. intros x Hx. apply H1 in Hx. lia.
Qed.

Lemma slicelist_In : forall m a b, In (a, b) (slicelist m) <-> is_run (bits m) a b.
Proof.
  intros. rewrite slicelist_runs.
  rewrite (runs_In (bits m) (bits m) 0 None); simpl; auto.
  split; [tauto|]. intro H; split; auto. lia.
Qed.

Lemma slicelist_ssorted : forall m, StronglySorted (fun x y => snd x < fst y) (slicelist m).
Proof. intros. rewrite slicelist_runs. apply runs_sorted. exact I. Qed.

Lemma ssorted_adjacent : forall A (R : A -> A -> Prop) l i x y,
  StronglySorted R l -> nth_error l i = Some x -> nth_error l (S i) = Some y -> R x y.
Proof.
  intros A R l i x y H. revert i. induction H; intros i Hx Hy.
  - destruct i; discriminate.
  - destruct i; simpl in *.
    + injection Hx as ->. rewrite Forall_forall in H0. apply H0.
      apply (nth_error_In l 0). exact Hy.
    + eauto.
Qed.

Lemma slicelist_lists_runs : forall m, lists_runs (bits m) (slicelist m).
Proof.
  intros. split.
  - intros. apply slicelist_In.
  - intros i x y. apply (ssorted_adjacent _ (fun x y => snd x < fst y)).
    apply slicelist_ssorted.
Qed.

(** ** Uniqueness of the list of runs *)

Definition seg_lt (x y : nat * nat) : Prop := snd x < fst y.

Lemma ssorted_ext : forall l l' : list (nat * nat),
  (forall x, In x l -> fst x < snd x) ->
  StronglySorted seg_lt l -> StronglySorted seg_lt l' ->
  (forall x, In x l <-> In x l') -> l = l'.
Proof.
  induction l as [|x l IH]; intros l' Hw H1 H2 H.
  - destruct l' as [|y l']; auto. exfalso. apply (H y). left. auto.
  - destruct l' as [|y l']; [exfalso; apply (H x); left; auto|].
    inversion H1 as [|? ? Hs Hf]; subst. inversion H2 as [|? ? Hs' Hf']; subst.
    rewrite Forall_forall in Hf, Hf'.
    assert (Hw' : forall z, In z (y :: l') -> fst z < snd z).
    { intros z Hz. apply Hw. apply H. auto. }
    assert (x = y).
    { assert (Hx : In x (y :: l')) by (apply H; left; auto).
      assert (Hy : In y (x :: l)) by (apply H; left; auto).
      destruct Hx as [->|Hx]; auto. destruct Hy as [->|Hy]; auto.
      apply Hf' in Hx. apply Hf in Hy. unfold seg_lt in *.
      pose proof (Hw x (or_introl eq_refl)). pose proof (Hw' y (or_introl eq_refl)). lia. }
    subst y. f_equal. apply IH; auto.
    + intros. apply Hw. right. auto.
    + intro z. split; intro Hz.
      * assert (In z (x :: l')) as [<-|] by (apply H; right; auto); auto.
        apply Hf in Hz. unfold seg_lt in Hz. pose proof (Hw x (or_introl eq_refl)). lia.
      * assert (In z (x :: l)) as [<-|] by (apply H; right; auto); auto.
        apply Hf' in Hz. unfold seg_lt in Hz. pose proof (Hw x (or_introl eq_refl)). lia.
Qed.

Lemma adjacent_ssorted : forall l : list (nat * nat),
  (forall x, In x l -> fst x < snd x) ->
  (forall i x y, nth_error l i = Some x -> nth_error l (S i) = Some y -> snd x < fst y) ->
  StronglySorted seg_lt l.
Proof.
  induction l as [|x l IH]; intros Hw H; [constructor|].
  assert (Hl : StronglySorted seg_lt l).
  { apply IH; [intros; apply Hw; right; auto|]. intros i u v Hu Hv. apply (H (S i)); auto. }
  constructor; auto. apply Forall_forall. intros z Hz.
  destruct l as [|y l]; [easy|].
  assert (Hxy : snd x < fst y) by (apply (H 0); auto).
  destruct Hz as [->|Hz]; auto.
  inversion Hl as [|? ? _ Hf]; subst. rewrite Forall_forall in Hf. apply Hf in Hz.
  pose proof (Hw y (or_intror (or_introl eq_refl))). unfold seg_lt in *. lia.
Qed.

(** Only one list satisfies the specification. *)
Lemma lists_runs_unique : forall m l l', lists_runs m l -> lists_runs m l' -> l = l'.
Proof.
  intros m l l' [H1 H2] [H3 H4].
  assert (W : forall x, In x l -> fst x < snd x).
  { intros [a b] Hx. apply H1 in Hx. destruct Hx. auto. }
  assert (W' : forall x, In x l' -> fst x < snd x).
  { intros [a b] Hx. apply H3 in Hx. destruct Hx. auto. }
  apply ssorted_ext; auto using adjacent_ssorted.
  intros [a b]. rewrite H1, H3. reflexivity.
Qed.

(** Every true position lies in exactly one run. *)
Lemma run_exists : forall m i, nth i m false = true ->
  exists a b, is_run m a b /\ a <= i < b.
Proof.
  intros m i Hi.
  assert (Hlen : i < length m).
  { destruct (le_lt_dec (length m) i); auto. rewrite nth_overflow in Hi by lia. discriminate. }
  assert (L : exists a, a <= i /\ (forall j, a <= j <= i -> nth j m false = true) /\
                (a = 0 \/ nth (a - 1) m false = false)).
  { clear Hlen. induction i as [|i IH].
    - exists 0. repeat split; auto. intros j Hj. replace j with 0 by lia. auto.
    - destruct (nth i m false) eqn:E.
      + destruct (IH eq_refl) as (a & A1 & A2 & A3). exists a. repeat split; auto; try lia.
        intros j Hj. destruct (Nat.eq_dec j (S i)); [subst; auto|]. apply A2. lia.
      + exists (S i). repeat split; auto.
        * intros j Hj. replace j with (S i) by lia. auto.
        * right. simpl. rewrite Nat.sub_0_r. auto. }
  assert (R : exists b, i < b <= length m /\ (forall j, i <= j < b -> nth j m false = true) /\
                (b = length m \/ nth b m false = false)).
  { clear L. remember (length m - i) as n eqn:En. revert i Hi Hlen En.
    induction n as [|n IH]; intros i Hi Hlen En; [lia|].
    destruct (nth (S i) m false) eqn:E.
    - assert (S i < length m).
      { destruct (le_lt_dec (length m) (S i)); auto. rewrite nth_overflow in E by lia. discriminate. }
      destruct (IH (S i)) as (b & B1 & B2 & B3); auto; try lia.
      exists b. repeat split; auto; try lia.
      intros j Hj. destruct (Nat.eq_dec j i); [subst; auto|]. apply B2. lia.
    - exists (S i). repeat split; auto; try lia.
      intros j Hj. replace j with i by lia. auto. }
  destruct L as (a & A1 & A2 & A3). destruct R as (b & B1 & B2 & B3).
  exists a, b. split; [|lia]. repeat split; auto; try lia.
  intros j Hj. destruct (le_lt_dec j i); [apply A2; lia|apply B2; lia].
Qed.

Lemma run_unique : forall m a b a' b' i,
  is_run m a b -> is_run m a' b' -> a <= i < b -> a' <= i < b' -> a = a' /\ b = b'.
Proof.
  intros m a b a' b' i (A1 & A2 & A3 & A4 & A5) (B1 & B2 & B3 & B4 & B5) H1 H2.
  split.
  - destruct (lt_eq_lt_dec a a') as [[H|H]|H]; auto.
    + destruct B4 as [->|B4]; [lia|]. rewrite A3 in B4 by lia. discriminate.
    + destruct A4 as [->|A4]; [lia|]. rewrite B3 in A4 by lia. discriminate.
  - destruct (lt_eq_lt_dec b b') as [[H|H]|H]; auto.
    + destruct A5 as [->|A5]; [lia|]. rewrite B3 in A5 by lia. discriminate.
    + destruct B5 as [->|B5]; [lia|]. rewrite A3 in B5 by lia. discriminate.
Qed.

(** ** startstop_bool *)

Lemma startstop_loop_length : forall l st, length (startstop_loop st l) = length l.
Proof.
  induction l as [|[a b] l IH]; intros; simpl; auto.
  destruct (truthy b), (truthy a), st; simpl; auto.
Qed.

Lemma startstop_loop_nth : forall l st i, i < length l ->
  (nth i (startstop_loop st l) false = true <->
   (exists j, j <= i /\ truthy (fst (nth j l (VNone, VNone))) = true /\
      (forall k, j <= k <= i -> truthy (snd (nth k l (VNone, VNone))) = false)) \/
   (st = true /\ forall k, k <= i -> truthy (snd (nth k l (VNone, VNone))) = false)).
Proof.
  induction l as [|[a b] l IH]; intros st i Hi; simpl in Hi; [lia|].
  assert (G : forall st', (forall i', i = S i' ->
     (nth i' (startstop_loop st' l) false = true <->
      (exists j, j <= i' /\ truthy (fst (nth j l (VNone, VNone))) = true /\
      (forall k, j <= k <= i' -> truthy (snd (nth k l (VNone, VNone))) = false)) \/
      (st' = true /\ forall k, k <= i' -> truthy (snd (nth k l (VNone, VNone))) = false)))).
  { intros. apply IH. lia. }
  clear IH.
  (* shifting the index by one *)
  assert (Sh : forall i', (exists j, j <= S i' /\ truthy (fst (nth j ((a, b) :: l) (VNone, VNone))) = true /\
      (forall k, j <= k <= S i' -> truthy (snd (nth k ((a, b) :: l) (VNone, VNone))) = false))
      <-> ((truthy a = true /\ truthy b = false /\ forall k, k <= i' -> truthy (snd (nth k l (VNone, VNone))) = false)
       \/ exists j, j <= i' /\ truthy (fst (nth j l (VNone, VNone))) = true /\
      (forall k, j <= k <= i' -> truthy (snd (nth k l (VNone, VNone))) = false))).
  { intro i'. split.
    - intros (j & H1 & H2 & H3). destruct j as [|j].
      + left. repeat split; auto.
        * apply (H3 0). lia.
        * intros k Hk. apply (H3 (S k)). lia.
      + right. exists j. repeat split; auto; try lia.
        intros k Hk. apply (H3 (S k)). lia.
    - intros [(H1 & H2 & H3)|(j & H1 & H2 & H3)].
      + exists 0. repeat split; auto; try lia. intros [|k] Hk; simpl; auto. apply H3. lia.
      + exists (S j). repeat split; auto; try lia. intros [|k] Hk; [lia|]. simpl. apply H3. lia. }
  assert (Sk : forall i', (forall k, k <= S i' -> truthy (snd (nth k ((a, b) :: l) (VNone, VNone))) = false)
      <-> (truthy b = false /\ forall k, k <= i' -> truthy (snd (nth k l (VNone, VNone))) = false)).
  { intro i'. split.
    - intro H. split; [apply (H 0); lia|]. intros k Hk. apply (H (S k)). lia.
    - intros [H1 H2] [|k] Hk; simpl; auto. apply H2. lia. }
  destruct i as [|i'].
  - (* position 0 *)
    clear G Sh Sk. simpl.
    destruct (truthy b) eqn:Eb; simpl.
    + split; [discriminate|]. intros [(j & H1 & H2 & H3)|[H1 H2]].
      * specialize (H3 0). replace j with 0 in * by lia. simpl in H3. rewrite H3 in Eb by lia. discriminate.
      * specialize (H2 0). simpl in H2. rewrite H2 in Eb by lia. discriminate.
    + destruct (truthy a) eqn:Ea; simpl.
      * split; auto. intros _. left. exists 0. repeat split; auto.
        intros k Hk. replace k with 0 by lia. auto.
      * destruct st; simpl.
        -- split; auto. intros _. right. split; auto. intros k Hk. replace k with 0 by lia. auto.
        -- split; [discriminate|]. intros [(j & H1 & H2 & H3)|[H1 H2]]; [|discriminate].
           replace j with 0 in * by lia. simpl in H2. congruence.
  - rewrite Sh, Sk. clear Sh Sk.
    simpl startstop_loop. destruct (truthy b) eqn:Eb; simpl nth.
    + replace (if st then false else st) with false by (destruct st; auto).
      rewrite (G false i' eq_refl). intuition discriminate.
    + destruct (truthy a) eqn:Ea; simpl nth.
      * replace (if negb st then true else st) with true by (destruct st; auto).
        rewrite (G true i' eq_refl). intuition discriminate.
      * destruct st; simpl nth; rewrite (G _ i' eq_refl); intuition discriminate.
Qed.

Lemma startstop_bool_length : forall a b,
  length (startstop_bool a b) = Nat.min (length a) (length b).
Proof. intros. unfold startstop_bool. rewrite startstop_loop_length. apply zip_length. Qed.

Lemma zip_nth_default : forall A B (a : list A) (b : list B) da db i,
  i < Nat.min (length a) (length b) -> nth i (zip a b) (da, db) = (nth i a da, nth i b db).
Proof.
  induction a; destruct b; simpl; intros da db i Hi; try lia.
  destruct i; auto. apply IHa. lia.
Qed.

Lemma startstop_bool_nth : forall a b i, i < Nat.min (length a) (length b) ->
  (nth i (startstop_bool a b) false = true <->
   trigger_on (fun j => truthy (nth j a VNone)) (fun j => truthy (nth j b VNone)) i).
Proof.
  intros a b i Hi. unfold startstop_bool.
  rewrite startstop_loop_nth by (rewrite zip_length; exact Hi).
  unfold trigger_on. split.
  - intros [(j & H1 & H2 & H3)|[H _]]; [|discriminate].
    exists j. rewrite zip_nth_default in H2 by lia. repeat split; auto.
    intros k Hk. specialize (H3 k Hk). rewrite zip_nth_default in H3 by lia. auto.
  - intros (j & H1 & H2 & H3). left. exists j. rewrite zip_nth_default by lia.
    repeat split; auto. intros k Hk. rewrite zip_nth_default by lia. simpl. auto.
Qed.

(** ** The duration loop *)

Lemma fill_slice_length : forall A (x : A) s l, length (fill_slice x s l) = length l.
Proof.
  intros. unfold fill_slice. rewrite !app_length, repeat_length, firstn_length, slice_length, skipn_length.
  destruct s as [a b]; simpl. lia.
Qed.

Lemma fill_slice_nth : forall A (x : A) a b l i d, i < length l ->
  nth i (fill_slice x (a, b) l) d = if (a <=? i) && (i <? b) then x else nth i l d.
Proof.
  intros. unfold fill_slice. simpl.
  destruct ((a <=? i) && (i <? b)) eqn:E.
  - rewrite app_nth2; rewrite firstn_length; [|lia].
    rewrite app_nth1; [|rewrite repeat_length, slice_length; lia].
    rewrite nth_indep with (d' := x) by (rewrite repeat_length, slice_length; lia).
    apply nth_repeat.
  - destruct (le_lt_dec a i).
    + rewrite app_nth2; rewrite firstn_length; [|lia].
      rewrite app_nth2; rewrite repeat_length, slice_length; [|lia].
      rewrite nth_skipn. f_equal. lia.
    + rewrite app_nth1; [|rewrite firstn_length; lia].
      rewrite nth_firstn by lia. reflexivity.
Qed.

(** Kinds whose "False" is false: all but the string kinds. *)
Definition mask_kind (k : kind) : bool := negb (truthy (false_val k)).

Lemma set_false_bits : forall s m, mask_kind (akind m) = true ->
  bits (np_set_false s m) = fill_slice false s (bits m).
Proof.
  intros s m H. unfold bits, np_set_false. simpl.
  unfold mask_kind in H. apply negb_true_iff in H.
  unfold fill_slice. rewrite !map_app, <- firstn_map, <- skipn_map.
  f_equal. f_equal.
  - rewrite !slice_length, map_length.
    generalize (Nat.min (snd s - fst s) (length (aelems m) - fst s)).
    induction n; simpl; congruence.
Qed.

Lemma set_false_kind : forall s m, akind (np_set_false s m) = akind m.
Proof. reflexivity. Qed.

Lemma duration_loop_kind : forall req mi c m, akind (duration_loop req mi c m) = akind m.
Proof. induction c; simpl; intros; auto. rewrite IHc. destruct (duration_hits _ _ _); reflexivity. Qed.

Lemma duration_loop_len : forall req mi c m, alen (duration_loop req mi c m) = alen m.
Proof.
  induction c; simpl; intros; auto. rewrite IHc.
  destruct (duration_hits _ _ _); auto. unfold alen, np_set_false. simpl. apply fill_slice_length.
Qed.

Definition covers (i : nat) (s : nat * nat) : bool := (fst s <=? i) && (i <? snd s).

Lemma duration_loop_bits : forall req mi c m i, mask_kind (akind m) = true ->
  nth i (bits (duration_loop req mi c m)) false =
  nth i (bits m) false && negb (existsb (fun s => duration_hits req mi s && covers i s) c).
Proof.
  induction c as [|s c IH]; simpl; intros m i Hk.
  - rewrite andb_true_r. reflexivity.
  - rewrite IH by (destruct (duration_hits _ _ _); auto).
    destruct (duration_hits req mi s) eqn:E; simpl; auto.
    rewrite set_false_bits by auto. destruct s as [a b].
    destruct (le_lt_dec (length (bits m)) i) as [Hi|Hi].
    + rewrite !nth_overflow; auto. rewrite fill_slice_length. auto.
    + rewrite fill_slice_nth by auto. unfold covers at 2. simpl.
      destruct ((a <=? i) && (i <? b)); simpl; auto. rewrite andb_false_r. reflexivity.
Qed.

(** Parts the duration method keeps. *)
Definition keeps (req : Z) (mi : bool) (s : nat * nat) : bool := negb (duration_hits req mi s).

Lemma keeps_spec : forall req mi s, keeps req mi s = true <->
  (if mi then req <= part_duration s else part_duration s <= req)%Z.
Proof.
  intros. unfold keeps, duration_hits.
  destruct mi; rewrite ?andb_true_r, ?andb_false_r; simpl.
  - destruct (part_duration s <? req)%Z eqn:E; simpl; split; intro; try discriminate; try reflexivity; lia.
  - destruct (req <? part_duration s)%Z eqn:E; simpl; split; intro; try discriminate; try reflexivity; lia.
Qed.

Lemma hits_spec : forall req mi s, duration_hits req mi s = true <->
  (if mi then part_duration s < req else req < part_duration s)%Z.
Proof.
  intros. unfold duration_hits.
  destruct mi; rewrite ?andb_true_r, ?andb_false_r; simpl.
  - destruct (part_duration s <? req)%Z eqn:E; split; intro; try discriminate; try reflexivity; lia.
  - destruct (req <? part_duration s)%Z eqn:E; split; intro; try discriminate; try reflexivity; lia.
Qed.

Lemma duration_mask_run : forall req mi m, mask_kind (akind m) = true ->
  forall a b, is_run (bits (duration_loop req mi (slicelist m) m)) a b <->
              is_run (bits m) a b /\ keeps req mi (a, b) = true.
Proof.
  intros req mi m Hk.
  set (m' := duration_loop req mi (slicelist m) m).
  assert (Hlen : length (bits m') = length (bits m)).
  { rewrite !bits_length. apply duration_loop_len. }
  (* a position is on iff it was on and its run is kept *)
  assert (Hon : forall i a b, is_run (bits m) a b -> a <= i < b ->
            nth i (bits m') false = keeps req mi (a, b)).
  { intros i a b Hr Hi. unfold m'. rewrite duration_loop_bits by auto.
    pose proof Hr as (R1 & R2 & R3 & _). rewrite R3 by auto. simpl. unfold keeps. f_equal.
    destruct (duration_hits req mi (a, b)) eqn:E.
    - apply existsb_exists. exists (a, b). split; [apply slicelist_In; auto|].
      rewrite E. unfold covers. simpl. lia.
    - apply not_true_is_false. intro H. apply existsb_exists in H. destruct H as ([a' b'] & H1 & H2).
      apply andb_prop in H2. destruct H2 as [H2 H3]. apply slicelist_In in H1.
      unfold covers in H3. simpl in H3.
      destruct (run_unique _ _ _ _ _ i Hr H1) as [-> ->]; try lia. congruence. }
  assert (Hoff : forall i, nth i (bits m) false = false -> nth i (bits m') false = false).
  { intros i Hi. unfold m'. rewrite duration_loop_bits by auto. rewrite Hi. reflexivity. }
  intros a b. split.
  - intros (R1 & R2 & R3 & R4 & R5).
    assert (Ha : nth a (bits m) false = true).
    { destruct (nth a (bits m) false) eqn:E; auto. apply Hoff in E. rewrite R3 in E by lia. discriminate. }
    destruct (run_exists _ _ Ha) as (a' & b' & Hr & Hin).
    pose proof (Hon a a' b' Hr Hin) as Hka. rewrite R3 in Hka by lia. symmetry in Hka.
    pose proof Hr as (S1 & S2 & S3 & S4 & S5).
    assert (a' = a).
    { destruct (Nat.eq_dec a' a); auto.
      destruct R4 as [->|R4]; [lia|].
      rewrite (Hon (a - 1) a' b') in R4 by (auto; lia). congruence. }
    subst a'.
    assert (b' = b).
    { destruct (lt_eq_lt_dec b' b) as [[H|H]|H]; auto.
      - assert (nth b' (bits m) false = false) as F.
        { destruct S5 as [->|S5]; auto. lia. }
        apply Hoff in F. rewrite R3 in F by lia. discriminate.
      - destruct R5 as [->|R5]; [lia|].
        rewrite (Hon b a b') in R5 by (auto; lia). congruence. }
    subst b'. split; auto.
  - intros [Hr Hkeep]. pose proof Hr as (R1 & R2 & R3 & R4 & R5).
    repeat split; auto; try lia.
    + intros i Hi. rewrite (Hon i a b) by auto. auto.
    + destruct R4 as [->|R4]; auto.
    + rewrite Hlen. destruct R5 as [->|R5]; auto.
Qed.

Lemma ssorted_filter : forall A (R : A -> A -> Prop) f l,
  StronglySorted R l -> StronglySorted R (filter f l).
Proof.
  induction 1; simpl; [constructor|].
  destruct (f a); auto. constructor; auto.
  rewrite Forall_forall in *. intros x Hx. apply filter_In in Hx. apply H0. tauto.
Qed.

(** duration keeps the long enough parts, as the same slices. *)
Lemma duration_slicelist : forall req mi m, mask_kind (akind m) = true ->
  slicelist (duration_loop req mi (slicelist m) m) = filter (keeps req mi) (slicelist m).
Proof.
  intros. apply ssorted_ext.
  - intros [a b] Hx. apply slicelist_In in Hx. destruct Hx. auto.
  - apply slicelist_ssorted.
  - apply ssorted_filter. apply slicelist_ssorted.
  - intros [a b]. rewrite filter_In, !slicelist_In. apply duration_mask_run. auto.
Qed.

Lemma duration_removes : forall req (mi : bool) m, mask_kind (akind m) = true ->
  removes_runs (fun n => if mi then (Z.of_nat n < req)%Z else (req < Z.of_nat n)%Z)
    (bits m) (bits (duration_loop req mi (slicelist m) m)).
Proof.
  intros req mi m Hk. split.
  - rewrite !bits_length. apply duration_loop_len.
  - intros i Hi. rewrite duration_loop_bits by auto.
    rewrite andb_true_iff, negb_true_iff. split; intros [H1 H2]; split; auto.
    + intros a b Hr Hin Hbad.
      assert (existsb (fun s => duration_hits req mi s && covers i s) (slicelist m) = true); [|congruence].
      apply existsb_exists. exists (a, b). split; [apply slicelist_In; auto|].
      destruct Hr as (R1 & _). apply andb_true_iff. split; [|unfold covers; simpl; lia].
      apply hits_spec. unfold part_duration. simpl. destruct mi; lia.
    + apply not_true_is_false. intro H. apply existsb_exists in H. destruct H as ([a b] & H3 & H4).
      apply slicelist_In in H3. apply andb_prop in H4. destruct H4 as [H4 H5].
      unfold covers in H5. simpl in H5. apply (H2 a b H3); [lia|].
      apply hits_spec in H4. unfold part_duration in H4. destruct H3 as (R1 & _). simpl in H4.
      destruct mi; lia.
Qed.

(** A mask is determined by its length and its runs. *)
Lemma bits_eq_of_slicelist : forall (m m' : arr), alen m = alen m' ->
  slicelist m = slicelist m' -> bits m = bits m'.
Proof.
  intros m m' Hl Hs. apply nth_ext_eq with (d := false).
  - rewrite !bits_length. auto.
  - intros i _.
    assert (G : forall x y : arr, slicelist x = slicelist y -> nth i (bits x) false = true -> nth i (bits y) false = true).
    { intros x y E H. apply run_exists in H. destruct H as (a & b & H & Hin).
      apply slicelist_In in H. rewrite E in H. apply slicelist_In in H.
      destruct H as (_ & _ & H & _). auto. }
    destruct (nth i (bits m) false) eqn:E1, (nth i (bits m') false) eqn:E2; auto.
    + rewrite (G m m') in E2; auto.
    + rewrite (G m' m) in E1; auto.
Qed.
