(** * Integer keys and array values of the dicts of a pack: the property theorems *)

From Coq Require Import ZifyBool ZifyNat ZifyN QArith.
From Verif Require Import PyBase PyBaseFacts PyFloat NumPy SpecArray ArrayFacts Dicts SpecDicts DictsThms.
Open Scope nat_scope.

(** C20. Any history of item assignments, setdefault, update with ordinary
arguments, pop and clear leaves only int keys, in names and data dicts. *)
Theorem C20_keys_stay_integers :
  forall np ops d, int_keyed d -> (forall o, In o ops -> plain_op o) ->
  int_keyed (run_dops np ops d).
Proof. exact C20_keys_stay_integers_proof. Qed.
Print Assumptions C20_keys_stay_integers.

Example C20_ex :
  let ops := [DSet (OInt 3) (OStr (lit "a")); DSet (OStr (lit "x")) ONone;
              DUpdate [OList [OTuple [OInt 4; ONone]; OList [OBool true; OInt 0]]] [];
              DUpdate [ODict [(OInt 5, ONone); (OFloat fnan, ONone)]] []] in
  (forall o, In o ops -> plain_op o) /\
  run_dops false ops [] = [(OInt 3, OStr (lit "a")); (OInt 4, ONone); (OBool true, OInt 0)].
Proof.
  split; [|reflexivity].
  simpl. intros o [<-|[<-|[<-|[<-|[]]]]]; simpl; auto; intros a [<-|[]]; simpl; auto.
  intros e [<-|[<-|[]]]; simpl; auto.
Qed.

(** C20. A names or data dict constructed from ordinary arguments has only int keys. *)
Theorem C20_construction_gives_integer_keys :
  forall args kwargs d, plain_args args ->
  intkey_init args kwargs = Ok d \/ np_init args kwargs = Ok d -> int_keyed d.
Proof. exact C20_construction_gives_integer_keys_proof. Qed.
Print Assumptions C20_construction_gives_integer_keys.

Example C20_construction_ex :
  np_init [ODict [(OInt 2, OList [OInt 5; OInt 6])]] [] = Ok [(OInt 2, OArr (np_array [VInt 5; VInt 6]))] /\
  intkey_init [ODict [(OStr (lit "a"), ONone)]] [] = Err TypeError.
Proof. split; reflexivity. Qed.

(** C20. Assigning or setting a default under a key that is not an int raises
(TypeError; ValueError if the value of a data dict is also unacceptable) and
changes nothing. *)
Theorem C20_other_key_rejected :
  forall np k v d, ~ int_key k ->
  exists e, exec_dop np (DSet k v) d = (d, Err e) /\ exec_dop np (DSetdefault k v) d = (d, Err e) /\
    (e = TypeError \/ (np = true /\ e = ValueError /\ ~ flat v)).
Proof. exact C20_other_key_rejected_proof. Qed.
Print Assumptions C20_other_key_rejected.

Example C20_rejected_ex :
  ~ int_key (OFloat (float_of_Z 1)) /\ ~ int_key (OStr (lit "0")) /\
  exec_dop false (DSet (OStr (lit "0")) ONone) [(OInt 1, ONone)] = ([(OInt 1, ONone)], Err TypeError).
Proof. repeat split; try reflexivity; intros [[z H]|[b H]]; discriminate. Qed.

(** C20. An update with a dict or pairs in which some key is not an int, or with
keyword arguments, raises (TypeError unless a data value is unacceptable too) and
changes nothing, wherever in the argument that key is. *)
Theorem C20_update_with_other_key_rejected :
  forall np arg items kwargs d, gives arg items ->
  (exists k v, In (k, v) items /\ ~ int_key k) \/ kwargs <> [] ->
  exists e, exec_dop np (DUpdate [arg] kwargs) d = (d, Err e) /\
   (e = TypeError \/
    (np = true /\ e = ValueError /\
     ((exists k v, In (k, v) items /\ ~ flat v) \/ (exists k v, In (k, v) kwargs /\ ~ flat v)))).
Proof. exact C20_update_with_other_key_rejected_proof. Qed.
Print Assumptions C20_update_with_other_key_rejected.

Example C20_update_rejected_ex :
  gives (OList [OTuple [OInt 1; ONone]; OList [OStr (lit "a"); ONone]]) [(OInt 1, ONone); (OStr (lit "a"), ONone)] /\
  exec_dop false (DUpdate [OList [OTuple [OInt 1; ONone]; OList [OStr (lit "a"); ONone]]] []) [] = ([], Err TypeError).
Proof. split; [|reflexivity]. right. eexists. split; [left; reflexivity|]. repeat constructor. Qed.

(** C20. An update with int keys and acceptable values succeeds; afterwards each key
given has the last value given for it (as an array in a data dict), all other keys
have what they had. *)
Theorem C20_accepted_update_stores_all :
  forall np arg items d, gives arg items -> int_keyed items -> int_keyed d ->
  (np = true -> forall k v, In (k, v) items -> flat v) ->
  exists d', exec_dop np (DUpdate [arg] []) d = (d', Ok tt) /\
   (forall z v, last_given items z v ->
      exists w, maps_to d' z w /\
        if np then exists a, made_from v a /\ w = OArr a else w = v) /\
   (forall z, (forall v, ~ last_given items z v) -> forall w, maps_to d z w <-> maps_to d' z w).
Proof. exact C20_accepted_update_stores_all_proof. Qed.
Print Assumptions C20_accepted_update_stores_all.

Example C20_accepted_ex :
  exec_dop true (DUpdate [OList [OTuple [OInt 1; OList [OInt 7]]; OTuple [OBool true; OTuple [OInt 8]]]] []) []
   = ([(OInt 1, OArr (np_array [VInt 8]))], Ok tt).
Proof. reflexivity. Qed.

(** C20. Keys never become ambiguous: no two keys of a dict stand for the same
integer after any history of ordinary operations. *)
Theorem C20_keys_stay_unique :
  forall np ops d, int_keyed d -> unique_keys d -> (forall o, In o ops -> plain_op o) ->
  unique_keys (run_dops np ops d).
Proof. exact C20_keys_stay_unique_proof. Qed.
Print Assumptions C20_keys_stay_unique.

Example C20_unique_ex :
  fst (exec_dop false (DSet (OBool true) (OInt 9)) [(OInt 1, ONone)]) = [(OInt 1, OInt 9)].
Proof. reflexivity. Qed.

(** C20. Assigning under an int key gives that key the value (as an array in a data
dict); setdefault does only if the key is not there; pop takes the key out, or
raises KeyError and changes nothing if it is not there. All other keys have what
they had. *)
Theorem C20_single_items :
  forall np k z v d, key_is k z -> int_keyed d -> unique_keys d -> (np = true -> flat v) ->
  let stored w := if np then exists a, made_from v a /\ w = OArr a else w = v in
  let others d' := forall y, y <> z -> forall w, maps_to d y w <-> maps_to d' y w in
  (exists d', exec_dop np (DSet k v) d = (d', Ok tt) /\ (forall w, maps_to d' z w <-> stored w) /\ others d') /\
  (exists d', exec_dop np (DSetdefault k v) d = (d', Ok tt) /\
     (forall w, maps_to d' z w <-> maps_to d z w \/ ((forall u, ~ maps_to d z u) /\ stored w)) /\ others d') /\
  ((exists u, maps_to d z u) -> exists d', exec_dop np (DPop k) d = (d', Ok tt) /\ (forall w, ~ maps_to d' z w) /\ others d') /\
  ((forall u, ~ maps_to d z u) -> exec_dop np (DPop k) d = (d, Err KeyError)).
Proof. exact C20_single_items_proof. Qed.
Print Assumptions C20_single_items.

Example C20_single_ex :
  let d := [(OInt 0, OStr (lit "a")); (OBool true, OStr (lit "b"))] in
  int_keyed d /\ exec_dop false (DSet (OInt 1) (OStr (lit "c"))) d = ([(OInt 0, OStr (lit "a")); (OBool true, OStr (lit "c"))], Ok tt) /\
  exec_dop false (DSetdefault (OInt 1) (OStr (lit "c"))) d = (d, Ok tt) /\
  exec_dop false (DPop (OInt 1)) d = ([(OInt 0, OStr (lit "a"))], Ok tt) /\ exec_dop false (DPop (OInt 2)) d = (d, Err KeyError).
Proof.
  intros d. split; [|vm_compute; auto]. intros k v [E|[E|[]]]; injection E as <- <-; [left|right]; eauto.
Qed.

(** C21. Pairs given by a one-shot iterator are silently lost by a names dict: the
check consumes them. *)
Theorem C21_iterator_entries_lost_refuted :
  forall l items d, pairs_of l items -> int_keyed items ->
  exec_dop false (DUpdate [OIter l] []) d = (d, Ok tt).
Proof. exact C21_iterator_entries_lost_refuted_proof. Qed.
Print Assumptions C21_iterator_entries_lost_refuted.

Example C21_iterator_ex :
  pairs_of [OTuple [OInt 0; OStr (lit "speed")]] [(OInt 0, OStr (lit "speed"))] /\
  intkey_init [OIter [OTuple [OInt 0; OStr (lit "speed")]]] [] = Ok [] /\
  intkey_init [OList [OTuple [OInt 0; OStr (lit "speed")]]] [] = Ok [(OInt 0, OStr (lit "speed"))].
Proof. repeat split; repeat constructor. Qed.

(** C21. A data dict does not have this fault: an iterator of pairs is treated like a
list of them. *)
Theorem C21_data_dict_keeps_iterator_entries :
  forall l d kwargs, exec_dop true (DUpdate [OIter l] kwargs) d = exec_dop true (DUpdate [OList l] kwargs) d.
Proof. exact C21_data_dict_keeps_iterator_entries_proof. Qed.
Print Assumptions C21_data_dict_keeps_iterator_entries.

Example C21_data_iterator_ex :
  np_init [OIter [OTuple [OInt 0; OList [OInt 4]]]] [] = Ok [(OInt 0, OArr (np_array [VInt 4]))].
Proof. reflexivity. Qed.

(** C21. "Only accepts integers as keys" fails: two-element sets as pairs, pairs given
as iterators, dicts as pairs, a mapping that is not a dict, an iterator with an
over-long element, and |= all insert a string key without an exception (or, for
sets and |=, also into a data dict, with a value that is not an array). *)
Theorem C21_non_integer_keys_get_in_refuted :
  let a := OStr (lit "ab") in let abc := OStr (lit "abc") in
  exec_dop false (DUpdate [OList [OSet [a; OInt 1]]] []) [] = ([(a, OInt 1)], Ok tt) /\
  exec_dop false (DUpdate [OList [OIter [a; OInt 1]]] []) [] = ([(a, OInt 1)], Ok tt) /\
  exec_dop false (DUpdate [OList [ODict [(a, ONone); (OInt 0, OInt 5)]]] []) [] = ([(a, OInt 0)], Ok tt) /\
  exec_dop false (DUpdate [OMapping [(abc, OInt 1)]] []) [] = ([(abc, OInt 1)], Ok tt) /\
  exec_dop false (DUpdate [OIter [OTuple [OInt 1; OInt 2; OInt 3]; OTuple [a; OInt 1]]] []) [] = ([(a, OInt 1)], Ok tt) /\
  exec_dop false (DIor (ODict [(a, OInt 1)])) [] = ([(a, OInt 1)], Ok tt) /\
  exec_dop true (DUpdate [OList [OSet [a; OInt 1]]] []) [] = ([(a, OInt 1)], Ok tt) /\
  exec_dop true (DIor (ODict [(a, OInt 1)])) [] = ([(a, OInt 1)], Ok tt).
Proof. exact C21_non_integer_keys_get_in_refuted_proof. Qed.
Print Assumptions C21_non_integer_keys_get_in_refuted.

Example C21_long_keys_ex :
  exec_dop false (DUpdate [OMapping [(OStr (lit "a"), OInt 1)]] []) [] = ([], Err TypeError).
Proof. reflexivity. Qed.

(** C21. An update with a pair of the wrong length raises ValueError, but the pairs
before it have been inserted. *)
Theorem C21_failed_update_may_have_inserted :
  forall l items l' post d, pairs_of l items -> int_keyed items -> 2 < length l' ->
  exec_dop false (DUpdate [OList (l ++ OList l' :: post)] []) d = (insert_items items d, Err ValueError).
Proof. exact C21_failed_update_may_have_inserted_proof. Qed.
Print Assumptions C21_failed_update_may_have_inserted.

Example C21_partial_insert_ex :
  exec_dop false (DUpdate [OList [OList [OInt 1; ONone]; OList [OInt 2; ONone; ONone]]] []) [] =
   ([(OInt 1, ONone)], Err ValueError).
Proof. reflexivity. Qed.

(** C22. Any history of item assignments, setdefault, update (with whatever arguments,
except that no pair may be a set or an iterator), pop and clear on a data dict
leaves only one-dimensional arrays as values. *)
Theorem C22_values_stay_arrays :
  forall ops d, array_valued d ->
  (forall o, In o ops -> match o with
     | DUpdate [a] _ => forall l, iterate a = Some l ->
          (exists i, a = ODict i) \/ (forall e, In e l -> match e with OSet _ | OIter _ => False | _ => True end)
     | DIor _ => False
     | _ => True
     end) ->
  array_valued (run_dops true ops d).
Proof. exact C22_values_stay_arrays_proof. Qed.
Print Assumptions C22_values_stay_arrays.

Example C22_ex :
  run_dops true [DSet (OInt 3) (OList [OInt 1; OInt 2]); DSet (OInt 4) (OInt 7);
                 DUpdate [ODict [(OInt 5, OTuple [OStr (lit "a")]); (OInt 6, OStr (lit "bc"))]] []] []
  = [(OInt 3, OArr (np_array [VInt 1; VInt 2]))].
Proof. reflexivity. Qed.

(** C22. A value that does not become a one-dimensional array raises ValueError and
changes nothing: on item assignment and setdefault whatever the key, on update
wherever in the dict or pairs it is, and a constructor with it raises ValueError. *)
Theorem C22_unacceptable_value_changes_nothing :
  forall d v, ~ flat v ->
  (forall k, exec_dop true (DSet k v) d = (d, Err ValueError)) /\
  (forall k, exec_dop true (DSetdefault k v) d = (d, Err ValueError)) /\
  (forall arg items k kwargs, gives arg items -> In (k, v) items ->
     exec_dop true (DUpdate [arg] kwargs) d = (d, Err ValueError) /\ np_init [arg] kwargs = Err ValueError).
Proof. exact C22_unacceptable_value_changes_nothing_proof. Qed.
Print Assumptions C22_unacceptable_value_changes_nothing.

Example C22_unacceptable_ex :
  ~ flat (OList [OList [OInt 1]]) /\ ~ flat (OInt 3) /\
  exec_dop true (DUpdate [OList [OTuple [OInt 1; OList [OInt 5]]; OTuple [OInt 2; OInt 3]]] []) [] = ([], Err ValueError).
Proof.
  split; [|split; [|reflexivity]].
  - intros [[a H]|[l [[H|H] F]]]; try discriminate. injection H as <-. apply (F (OList [OInt 1])). left; auto.
  - intros [[a H]|[l [[H|H] F]]]; discriminate.
Qed.

(** C22. The constructor accepts a dict or pairs with int keys exactly when all values
are flat: then every key given last is stored as the array made from its value. *)
Theorem C22_acceptable_values_are_flat :
  forall arg items, gives arg items -> int_keyed items ->
  ((forall k v, In (k, v) items -> flat v) <-> exists d, np_init [arg] [] = Ok d) /\
  (forall d, np_init [arg] [] = Ok d -> array_valued d /\
     forall z v, last_given items z v -> exists a, made_from v a /\ maps_to d z (OArr a)).
Proof. exact C22_acceptable_values_are_flat_proof. Qed.
Print Assumptions C22_acceptable_values_are_flat.

Example C22_acceptable_ex :
  exists a, made_from (OTuple [OInt 1; OStr (lit "b")]) a /\
  np_init [ODict [(OInt 0, OTuple [OInt 1; OStr (lit "b")])]] [] = Ok [(OInt 0, OArr a)].
Proof. exists (np_array [VInt 1; VStr (lit "b")]). split; [apply made_iff|]; reflexivity. Qed.

