(** * Arrays made from values (C76): the property theorems *)

From Coq Require Import ZifyBool ZifyNat ZifyN QArith.
From Verif Require Import PyBase PyBaseFacts PyFloat NumPy Dicts SpecArray ArrayFacts SpecDicts DictsThms ArrayThms.
Open Scope nat_scope.
Open Scope nat_scope.

(** Assigning a list or tuple of values to a key of the data dict stores the array
whose kind is the one for all of the values and whose elements are what that
kind holds of each, in order; other keys are as before. *)
Theorem C76_assigned :
forall z l vs d o, Forall2 stands_for l vs -> o = OList l \/ o = OTuple l -> int_keyed d -> unique_keys d ->
exists a d', exec_dop true (DSet (OInt z) o) d = (d', Ok tt) /\ array_of vs a /\
  (forall w, maps_to d' z w <-> w = OArr a) /\
  (forall y, y <> z -> forall w, maps_to d y w <-> maps_to d' y w).
Proof. exact C76_assigned_proof. Qed.
Print Assumptions C76_assigned.

Example C76_assigned_ex :
  let l := [OStr (lit "a" ++ [0; 0]%N); OInt 3; OStr [0; 98]%N] in
  exec_dop true (DSet (OInt 5) (OList l)) [] =
    ([(OInt 5, OArr (mkarr KU [VStr (lit "a"); VStrOf (VInt 3); VStr [0; 98]%N]))], Ok tt) /\
  Forall2 stands_for l [VStr (lit "a" ++ [0; 0]%N); VInt 3; VStr [0; 98]%N].
Proof. split; [vm_compute; reflexivity | repeat constructor]. Qed.

(** There is only one array made from values. *)
Theorem C76_only :
forall l a b, array_of l a -> array_of l b -> a = b.
Proof. exact C76_only_proof. Qed.
Print Assumptions C76_only.

Example C76_only_ex : array_of [VBool true; VInt 2] (mkarr Ki [VInt 1; VInt 2]).
Proof. exact (array_of_np [VBool true; VInt 2]). Qed.

(** A text that ends with NUL is not the one stored, whatever the others are, when
no object is among them. *)
Theorem C76_text_kept_refuted :
forall s l vs z d, Forall2 stands_for l vs -> ~ some_of KO vs -> int_keyed d -> unique_keys d ->
forall i, nth_error l i = Some (OStr (s ++ [0%N])) ->
exists a d', exec_dop true (DSet (OInt z) (OList l)) d = (d', Ok tt) /\ maps_to d' z (OArr a) /\
  nth_error (aelems a) i <> Some (VStr (s ++ [0%N])).
Proof. exact C76_text_kept_refuted_proof. Qed.
Print Assumptions C76_text_kept_refuted.

Example C76_text_kept_refuted_ex :
  exec_dop true (DSet (OInt 0) (OList [OStr [98; 0]%N])) [] = ([(OInt 0, OArr (mkarr KU [VStr [98%N]]))], Ok tt).
Proof. reflexivity. Qed.

