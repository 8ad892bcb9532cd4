(** * Facts about arrays made from values *)

From Verif Require Import PyBase PyBaseFacts PyFloat NumPy SpecArray.

Lemma drop_padded s : padded s (drop_nuls s).
Proof.
  induction s as [|x s (n & E & L)]; [exists 0; split; [reflexivity | discriminate]|]. cbn [drop_nuls].
  destruct (drop_nuls s) as [|y r] eqn:D.
  - cbn in E. destruct (N.eqb_spec x 0) as [->|NE].
    + exists (S n). split; [cbn; congruence | discriminate].
    + exists n. split; [cbn; congruence | cbn; exact NE].
  - exists n. split; [rewrite E; reflexivity | cbn [last] in *; exact L].
Qed.

Lemma kind_is v k : one_of k v <-> kind_of_val v = k.
Proof.
  destruct v as [b|z|f|re im|s|s| |y m d|day us|v|v|n]; try (destruct k; cbn; split; intros H; (exact I || reflexivity || discriminate H || contradiction)).
  unfold kind_of_val. destruct ((- 2 ^ 63 <=? z) && (z <? 2 ^ 63))%Z eqn:E1.
  - apply andb_prop in E1. destruct E1 as [A B]. apply Z.leb_le in A. apply Z.ltb_lt in B.
    destruct k; cbn [one_of an_object]; (split; [intros H; first [reflexivity | contradiction | lia] | intros H; first [discriminate H | lia]]).
  - apply andb_false_iff in E1. destruct ((0 <=? z) && (z <? 2 ^ 64))%Z eqn:E2.
    + apply andb_prop in E2. destruct E2 as [A B]. apply Z.leb_le in A. apply Z.ltb_lt in B.
      assert (C : (2 ^ 63 <= z)%Z) by (destruct E1 as [E1|E1]; [apply Z.leb_gt in E1 | apply Z.ltb_ge in E1]; lia).
      destruct k; cbn [one_of an_object]; (split; [intros H; first [reflexivity | contradiction | lia] | intros H; first [discriminate H | lia]]).
    + apply andb_false_iff in E2.
      assert (C : (z < - 2 ^ 63 \/ 2 ^ 64 <= z)%Z)
        by (destruct E1 as [E1|E1]; [apply Z.leb_gt in E1 | apply Z.ltb_ge in E1]; (destruct E2 as [E2|E2]; [apply Z.leb_gt in E2 | apply Z.ltb_ge in E2]); lia).
      destruct k; cbn [one_of an_object]; (split; [intros H; first [reflexivity | contradiction | lia] | intros H; first [discriminate H | lia]]).
Qed.

Lemma some_snoc k l w : some_of k (l ++ [w]) <-> some_of k l \/ kind_of_val w = k.
Proof.
  unfold some_of. split.
  - intros (v & I & O). apply in_app_or in I. destruct I as [I|[<-|[]]]; [left; exists v; auto | right; apply kind_is; exact O].
  - intros [(v & I & O)|E]; [exists v; split; [apply in_or_app; left|]; assumption|].
    exists w. split; [apply in_or_app; right; left; reflexivity | apply kind_is; exact E].
Qed.

Lemma no_snoc ks l w : Forall (fun k => ~ some_of k l) ks -> ~ In (kind_of_val w) ks -> Forall (fun k => ~ some_of k (l ++ [w])) ks.
Proof.
  intros F N. rewrite Forall_forall in *. intros k K H. apply some_snoc in H. destruct H as [H|H]; [exact (F k K H) | subst k; contradiction].
Qed.

Lemma no_less ks ks' l : Forall (fun k => ~ some_of k l) ks -> incl ks' ks -> Forall (fun k => ~ some_of k l) ks'.
Proof. intros F I. rewrite Forall_forall in *. intros k K. apply F, I, K. Qed.

Lemma kind_for_snoc l w k : l <> [] -> kind_for l k -> kind_for (l ++ [w]) (promote k (kind_of_val w)).
Proof.
  intros NE H.
  assert (S : forall k, kind_of_val w = k -> some_of k (l ++ [w])) by (intros k' E; apply some_snoc; right; exact E).
  assert (S' : forall k, some_of k l -> some_of k (l ++ [w])) by (intros k' E; apply some_snoc; left; exact E).
  assert (I : forall ks ks' : list kind, forallb (fun k => existsb (fun k' => if kind_eq_dec k k' then true else false) ks) ks' = true -> incl ks' ks).
  { intros ks ks' E x X. rewrite forallb_forall in E. apply E in X. apply existsb_exists in X. destruct X as (y & Y & Z). destruct (kind_eq_dec x y); [subst; exact Y | discriminate]. }
  assert (O : forall ks ks', Forall (fun k => ~ some_of k l) ks -> forallb (fun k => existsb (fun k' => if kind_eq_dec k k' then true else false) ks) ks' = true ->
     existsb (fun k' => if kind_eq_dec (kind_of_val w) k' then true else false) ks' = false -> Forall (fun k => ~ some_of k (l ++ [w])) ks').
  { intros ks ks' F E X. apply no_snoc; [eapply no_less; [exact F | apply I; exact E]|].
    intros Y. apply Bool.not_true_iff_false in X. apply X. apply existsb_exists. exists (kind_of_val w). split; [exact Y|].
    destruct (kind_eq_dec (kind_of_val w) (kind_of_val w)); [reflexivity | congruence]. }
  destruct (kind_of_val w) eqn:W; destruct k; cbn [kind_for promote] in *;
    first [ apply S; reflexivity
          | apply S'; exact H
          | destruct H as [H1 H2]; split;
            [ first [ apply S; reflexivity
                    | apply S'; exact H1
                    | destruct H1 as [H1|[H1|[H1 H3]]]; [congruence | right; left; apply S'; exact H1 | right; right; split; apply S'; assumption]
                    | right; left; apply S; reflexivity
                    | right; right; split; first [apply S; reflexivity | apply S'; exact H1] ]
            | first [ apply (O _ _ H2); reflexivity ] ] ].
Qed.

Lemma kind_for_one v : kind_for [v] (kind_of_val v).
Proof.
  assert (S : some_of (kind_of_val v) [v]) by (exists v; split; [left; reflexivity | apply kind_is; reflexivity]).
  assert (O : forall ks, existsb (fun k' => if kind_eq_dec (kind_of_val v) k' then true else false) ks = false -> Forall (fun k => ~ some_of k [v]) ks).
  { intros ks X. apply Forall_forall. intros k K (u & [<-|[]] & E). apply kind_is in E. subst k.
    apply Bool.not_true_iff_false in X. apply X. apply existsb_exists. exists (kind_of_val v). split; [exact K|].
    destruct (kind_eq_dec (kind_of_val v) (kind_of_val v)); [reflexivity | congruence]. }
  destruct (kind_of_val v); cbn [kind_for]; first [exact S | split; [exact S | apply O; reflexivity] | split; [right; left; exact S | apply O; reflexivity]].
Qed.

Lemma kind_for_fold v l : kind_for (v :: l) (fold_left (fun k w => promote k (kind_of_val w)) l (kind_of_val v)).
Proof.
  induction l as [|w l IH] using rev_ind; [apply kind_for_one|].
  rewrite fold_left_app. cbn [fold_left]. change (v :: l ++ [w]) with ((v :: l) ++ [w]). apply kind_for_snoc; [discriminate | exact IH].
Qed.

Lemma is_some v : exists k, one_of k v.
Proof. exists (kind_of_val v). apply kind_is. reflexivity. Qed.

Lemma stored_cast l k v : kind_for l k -> In v l -> stored k v (cast k v).
Proof.
  intros H I.
  assert (K : some_of (kind_of_val v) l) by (exists v; split; [exact I | apply kind_is; reflexivity]).
  assert (N : forall ks, Forall (fun k => ~ some_of k l) ks -> existsb (fun k' => if kind_eq_dec (kind_of_val v) k' then true else false) ks = false).
  { intros ks F. apply Bool.not_true_iff_false. intros X. apply existsb_exists in X. destruct X as (y & Y & Z).
    destruct (kind_eq_dec (kind_of_val v) y) as [E|]; [|discriminate]. rewrite Forall_forall in F. apply (F y Y). rewrite <- E. exact K. }
  destruct k; cbn [kind_for] in H; cbn [stored cast]; try reflexivity;
    destruct v as [b|z|f|re im|s|s| |y m d|day us|v|v|n]; try reflexivity;
    try (destruct H as [_ H]; apply N in H; cbn in H; discriminate H).
  - exists (val_float (VBool b)). split; [destruct b; reflexivity | reflexivity].
  - exists (val_float (VInt z)). split; reflexivity.
  - exists f. split; reflexivity.
  - exists (val_float (VBool b)). split; [destruct b; reflexivity | reflexivity].
  - exists (val_float (VInt z)). split; reflexivity.
  - exists f. split; reflexivity.
  - exists (drop_nuls s). split; [apply drop_padded | reflexivity].
  - exists (drop_nuls s). split; [apply drop_padded | reflexivity].
Qed.

Lemma array_of_np l : array_of l (np_array l).
Proof.
  destruct l as [|v l].
  - split; [|constructor]. cbn [np_array akind kind_for]. split; [left; reflexivity|].
    apply Forall_forall. intros k _ (u & [] & _).
  - unfold np_array. set (k := fold_left _ l (kind_of_val v)).
    pose proof (kind_for_fold v l : kind_for (v :: l) k) as K. clearbody k. split; [exact K|]. cbn [akind aelems].
    assert (G : forall m, incl m (v :: l) -> Forall2 (stored k) m (map (cast k) m)).
    { induction m as [|u m IH]; intros S; constructor; [apply (stored_cast (v :: l)); [exact K | apply S; left; reflexivity]|].
      apply IH. intros x X. apply S. right. exact X. }
    apply G. intros x X. exact X.
Qed.

(** The array is the only one. *)
Lemma padded_inj s h h' : padded s h -> padded s h' -> h = h'.
Proof.
  intros (n & E & L) (n' & E' & L'). subst s.
  assert (P : forall a b i j, a ++ repeat 0%N i = b ++ repeat 0%N j -> last a 1%N <> 0%N -> last b 1%N <> 0%N -> length a <= length b -> a = b).
  { induction a as [|x a IH]; intros b i j E La Lb Le.
    - destruct b as [|y b]; [reflexivity|]. exfalso. apply Lb. cbn in E.
      assert (F : Forall (fun c => c = 0%N) (repeat 0%N i)) by (clear; induction i; constructor; auto).
      rewrite E in F. change (y :: b ++ repeat 0%N j) with ((y :: b) ++ repeat 0%N j) in F. apply Forall_app in F. destruct F as [F _].
      rewrite Forall_forall in F. apply F. clear. destruct (@exists_last _ (y :: b)) as (q & z & ->); [discriminate|].
      rewrite last_last. apply in_or_app. right. left. reflexivity.
    - destruct b as [|y b]; [cbn in Le; lia|]. cbn in E. inversion E as [[E1 E2]]. f_equal.
      apply (IH b i j E2); [| |cbn in Le; lia].
      + destruct a; [discriminate | exact La].
      + destruct b; [discriminate | exact Lb]. }
  destruct (Nat.le_ge_cases (length h) (length h')) as [C|C]; [|symmetry]; eapply P; eauto.
Qed.

(** Two arrays together. *)
Lemma common_promote a b : common a b (promote a b).
Proof.
  destruct a, b; cbn [promote common];
    first [ left; reflexivity | right; reflexivity | split; reflexivity
          | split; [first [left; reflexivity | right; reflexivity | left; left; reflexivity | left; right; reflexivity
                          | right; split; [left | right]; reflexivity | right; split; [right | left]; reflexivity]
                   | repeat constructor; discriminate] ].
Qed.

Lemma stored_promote a b v : has_kind a v = true \/ has_kind b v = true -> stored (promote a b) v (cast (promote a b) v).
Proof.
  intros H.
  assert (D : forall x, as_double (VBool x) (val_float (VBool x))) by (intros []; reflexivity).
  destruct a, b; cbn [promote stored cast]; try reflexivity;
    destruct v as [x|z|f|re im|s|s| |y m d|day us|v|v|n]; try reflexivity;
    first [ exists (drop_nuls s); split; [apply drop_padded | reflexivity]
          | eexists; split; [apply D | reflexivity]
          | eexists; split; [|reflexivity]; reflexivity
          | cbn in H; destruct H as [H|H]; discriminate H ].
Qed.

Lemma kind_only l k k' : kind_for l k -> kind_for l k' -> k = k'.
Proof.
  intros H H'.
  assert (N : forall k ks, Forall (fun k => ~ some_of k l) ks -> some_of k l -> In k ks -> False)
    by (intros x ks F S I; rewrite Forall_forall in F; exact (F x I S)).
  assert (E : l = [] -> forall k, some_of k l -> False) by (intros -> x (u & [] & _)).
  Ltac kill N E := match goal with
    | F : Forall _ _, S : some_of _ _ |- _ => exfalso; apply (N _ _ F S); cbn; repeat (first [left; reflexivity | right]); fail
    | Z : _ = [], S : some_of _ _ |- _ => exfalso; exact (E Z _ S)
    end.
  destruct k, k'; try reflexivity; cbn [kind_for] in H, H';
    repeat match goal with X : _ /\ _ |- _ => destruct X end;
    repeat match goal with X : _ \/ _ |- _ => destruct X end;
    repeat match goal with X : _ /\ _ |- _ => destruct X end; kill N E.
Qed.
Lemma double_only v f g : as_double v f -> as_double v g -> f = g.
Proof. destruct v; cbn; intros A B; (contradiction || congruence). Qed.
Lemma stored_only k v w w' : stored k v w -> stored k v w' -> w = w'.
Proof.
  destruct k, v; cbn [stored]; intros A B; try congruence;
    first [ destruct A as (q1 & Q1 & ->), B as (q2 & Q2 & ->); rewrite (double_only _ _ _ Q1 Q2); reflexivity
          | destruct A as (q1 & Q1 & ->), B as (q2 & Q2 & ->); rewrite (padded_inj _ _ _ Q1 Q2); reflexivity ].
Qed.

Lemma array_only : forall l a b, array_of l a -> array_of l b -> a = b.
Proof.
intros l [k x] [k' y] [K X] [K' Y]. cbn [akind aelems] in *. rewrite <- (kind_only l k k' K K') in *. f_equal.
clear - X Y. revert y Y. induction X as [|v w l x S _ IH]; intros y Y; inversion Y as [|v' w' l' y' S' Y']; subst; [reflexivity|].
f_equal; [eapply stored_only; eassumption | apply IH; assumption].
Qed.

Lemma array_iff l a : array_of l a <-> a = np_array l.
Proof. split; [intros H; exact (array_only l _ _ H (array_of_np l)) | intros ->; apply array_of_np]. Qed.

Lemma column_iff d k l : holds_column d k l <-> dget k d = Some (np_array l).
Proof.
  split; [intros (a & E & A); rewrite E, (proj1 (array_iff l a) A); reflexivity | intros E; exists (np_array l); split; [exact E | apply array_of_np]].
Qed.

Lemma columns_iff d cols : holds_columns d cols <-> d = map (fun c => (fst c, np_array (snd c))) cols.
Proof.
  split.
  - induction 1 as [|[k a] [k' l] d cols [E A] _ IH]; [reflexivity|]. cbn in *. subst k'. rewrite (proj1 (array_iff l a) A), IH. reflexivity.
  - intros ->. induction cols as [|[k l] cols IH]; constructor; [split; [reflexivity | apply array_of_np] | exact IH].
Qed.

Lemma stands_iff o v : stands_for o v <-> scalar_val o = Some v.
Proof.
  split; [destruct 1; reflexivity|]. destruct o; cbn; intros E; inversion E; subst; constructor.
Qed.

Lemma stands_vals l vs : Forall2 stands_for l vs <-> all_some (map scalar_val l) = Some vs.
Proof.
  split.
  - induction 1 as [|o v l vs S _ IH]; [reflexivity|]. cbn. apply stands_iff in S. rewrite S, IH. reflexivity.
  - revert vs. induction l as [|o l IH]; intros vs E; cbn in E; [inversion E; constructor|].
    destruct (scalar_val o) as [v|] eqn:S; [|discriminate]. destruct (all_some (map scalar_val l)) as [r|]; [|discriminate].
    inversion E; subst. constructor; [apply stands_iff; exact S | apply IH; reflexivity].
Qed.

Lemma made_iff o a : made_from o a <-> np_of_obj o = Some a.
Proof.
  split.
  - intros [-> | (l & vs & L & S & A)]; [reflexivity|]. apply stands_vals in S. apply array_iff in A. subst a.
    destruct L as [-> | ->]; cbn; rewrite S; reflexivity.
  - destruct o; cbn; try discriminate.
    1, 2: destruct (all_some (map scalar_val l)) as [vs|] eqn:S; [|discriminate]; intros E; inversion E; subst; right;
          exists l, vs; split; [auto|]; split; [apply stands_vals; exact S | apply array_of_np].
    intros E. inversion E. left. reflexivity.
Qed.
