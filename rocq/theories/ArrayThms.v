(** * Arrays made from values (C76): proofs of the property theorems *)

From Coq Require Import ZifyBool ZifyNat ZifyN QArith.
From Verif Require Import PyBase PyBaseFacts PyFloat NumPy Dicts SpecArray ArrayFacts SpecDicts DictsThms.
Open Scope nat_scope.
Open Scope nat_scope.

Lemma C76_assigned_proof :
forall z l vs d o, Forall2 stands_for l vs -> o = OList l \/ o = OTuple l -> int_keyed d -> unique_keys d ->
exists a d', exec_dop true (DSet (OInt z) o) d = (d', Ok tt) /\ array_of vs a /\
  (forall w, maps_to d' z w <-> w = OArr a) /\
  (forall y, y <> z -> forall w, maps_to d y w <-> maps_to d' y w).
Proof.
intros z l vs d o S O K U.
assert (F : flat o).
{ right. exists l. split; [exact O|]. intros x X. clear - S X. induction S as [|p v l vs T _ IH]; [destruct X|].
  destruct X as [<-|X]; [destruct T; exact I | exact (IH X)]. }
destruct (C20_single_items_proof true (OInt z) z o d (or_introl eq_refl) K U (fun _ => F)) as ((d' & E & H & R) & _).
exists (np_array vs), d'. split; [exact E|]. split; [apply array_of_np|]. split; [|exact R].
intros w. rewrite H. split.
- intros (a & M & ->). f_equal. apply made_iff in M. apply stands_vals in S.
  destruct O as [-> | ->]; cbn in M; rewrite S in M; congruence.
- intros ->. exists (np_array vs). split; [|reflexivity]. right. exists l, vs. split; [exact O|]. split; [exact S | apply array_of_np].
Qed.

Lemma C76_only_proof :
forall l a b, array_of l a -> array_of l b -> a = b.
Proof.
exact array_only.
Qed.

Lemma C76_text_kept_refuted_proof :
forall s l vs z d, Forall2 stands_for l vs -> ~ some_of KO vs -> int_keyed d -> unique_keys d ->
forall i, nth_error l i = Some (OStr (s ++ [0%N])) ->
exists a d', exec_dop true (DSet (OInt z) (OList l)) d = (d', Ok tt) /\ maps_to d' z (OArr a) /\
  nth_error (aelems a) i <> Some (VStr (s ++ [0%N])).
Proof.
intros s l vs z d S NO DK DU i I.
destruct (C76_assigned_proof z l vs d (OList l) S (or_introl eq_refl) DK DU) as (a & d' & E & [K F] & G & _).
exists a, d'. split; [exact E | split; [apply G; reflexivity|]]. intros W.
assert (V : nth_error vs i = Some (VStr (s ++ [0%N]))).
{ clear - S I. revert i I. induction S as [|o v l vs T _ IH]; intros i I; [destruct i; discriminate|].
  destruct i as [|i]; [cbn in *; inversion I; subst o; inversion T; reflexivity | apply IH; exact I]. }
assert (Q : stored (akind a) (VStr (s ++ [0%N])) (VStr (s ++ [0%N]))).
{ clear - F V W. revert i V W. induction F as [|v w l ws T _ IH]; intros i V W; [destruct i; discriminate|].
  destruct i as [|i]; [cbn in *; congruence | apply (IH i V W)]. }
assert (KU_ : akind a = KU).
{ assert (T : some_of KU vs) by (exists (VStr (s ++ [0%N])); split; [eapply nth_error_In; exact V | exact Logic.I]).
  destruct (akind a); cbn [kind_for] in K; try reflexivity; try contradiction;
    exfalso; destruct K as [_ K]; rewrite Forall_forall in K; (apply (K KU); [repeat (first [left; reflexivity | right]) | exact T]). }
rewrite KU_ in Q. cbn in Q. destruct Q as (h & (n & E1 & L) & E2). inversion E2; subst h. apply L. apply last_last.
Qed.

