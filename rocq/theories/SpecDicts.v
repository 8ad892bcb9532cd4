(** * Specification vocabulary for the dicts of a pack *)

From Verif Require Import PyBase PyFloat NumPy Dicts.

(** An object that is an int for Python (a bool is one). *)
Definition int_key (o : pyobj) : Prop := (exists z, o = OInt z) \/ (exists b, o = OBool b).

(** A one-dimensional array. *)
Definition one_dim (o : pyobj) : Prop := exists a, o = OArr a.

Definition int_keyed (d : list (pyobj * pyobj)) : Prop := forall k v, In (k, v) d -> int_key k.
Definition array_valued (d : list (pyobj * pyobj)) : Prop := forall k v, In (k, v) d -> one_dim v.

(** Values numpy turns into a one-dimensional array: an array of one dimension,
    or a list or tuple without sequences, arrays or mappings in it. *)
Definition flat (v : pyobj) : Prop :=
  one_dim v \/
  exists l, (v = OList l \/ v = OTuple l) /\
    forall x, In x l -> match x with
                        | OTuple _ | OList _ | OArr _ | OArrN _ | OMapping _ => False
                        | _ => True
                        end.

(** Elements usable as key-value pairs, or no sequences at all: not a set,
    dict, other mapping, iterator or array. *)
Definition plain_elem (e : pyobj) : Prop :=
  match e with
  | OSet _ | ODict _ | OMapping _ | OIter _ | OArr _ | OArrN _ => False
  | _ => True
  end.

(** Ordinary arguments of update: a dict, a list, tuple or set of such elements,
    or something that is not iterable at all, a string or bytes. *)
Definition plain_arg (a : pyobj) : Prop :=
  match a with
  | OList l | OTuple l | OSet l => forall e, In e l -> plain_elem e
  | OMapping _ | OIter _ | OArr _ | OArrN _ => False
  | _ => True
  end.

Definition plain_args (args : list pyobj) : Prop := forall a, In a args -> plain_arg a.

Definition plain_op (o : dop) : Prop :=
  match o with
  | DUpdate args _ => plain_args args
  | DIor _ => False
  | _ => True
  end.

(** The sequence-of-pairs argument for the items [l]: each pair a list or a
    tuple. *)
Inductive pairs_of : list pyobj -> list (pyobj * pyobj) -> Prop :=
| pairs_nil : pairs_of [] []
| pairs_list : forall k v l r, pairs_of l r -> pairs_of (OList [k; v] :: l) ((k, v) :: r)
| pairs_tuple : forall k v l r, pairs_of l r -> pairs_of (OTuple [k; v] :: l) ((k, v) :: r).

(** [arg] gives the items [items]: a dict, or a list or tuple of pairs. *)
Definition gives (arg : pyobj) (items : list (pyobj * pyobj)) : Prop :=
  arg = ODict items \/ exists l, (arg = OList l \/ arg = OTuple l) /\ pairs_of l items.

(** The integer a key stands for. *)
Definition key_is (k : pyobj) (z : Z) : Prop :=
  k = OInt z \/ (k = OBool true /\ z = 1%Z) \/ (k = OBool false /\ z = 0%Z).

(** [v] is the last value given for key [z] in the items. *)
Definition last_given (items : list (pyobj * pyobj)) (z : Z) (v : pyobj) : Prop :=
  exists pre k post, items = pre ++ (k, v) :: post /\ key_is k z /\
    forall k' v', In (k', v') post -> ~ key_is k' z.

(** Key [z] of a dict has value [v]. *)
Definition maps_to (d : list (pyobj * pyobj)) (z : Z) (v : pyobj) : Prop :=
  exists k, In (k, v) d /\ key_is k z.

(** No two keys are equal. *)
Definition unique_keys (d : list (pyobj * pyobj)) : Prop :=
  forall i j k k' v v' z, nth_error d i = Some (k, v) -> nth_error d j = Some (k', v') ->
    key_is k z -> key_is k' z -> i = j.
