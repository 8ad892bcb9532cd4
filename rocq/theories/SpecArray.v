(** * Specification: arrays made from values (C76)

    The dtype kind and the elements of np.array(values), said without the
    pairwise promotion of the model. *)

From Verif Require Import PyBase PyFloat NumPy.

(** An object that is no number, text or bytes; an int that no integer dtype of
    64 bits holds is one. *)
Definition an_object (v : val) : Prop :=
  match v with
  | VNone | VDate _ _ _ | VDateTime _ _ | VObj _ => True
  | VInt z => (z < - 2 ^ 63 \/ 2 ^ 64 <= z)%Z
  | _ => False
  end.

(** One value of the given kind. *)
Definition one_of (k : kind) (v : val) : Prop :=
  match k, v with
  | KO, _ => an_object v
  | KU, (VStr _ | VStrOf _) => True
  | KS, (VBytes _ | VBytesOf _) => True
  | Kc, VCplx _ _ => True
  | Kf, VFloat _ => True
  | Ki, VInt z => (- 2 ^ 63 <= z < 2 ^ 63)%Z
  | Ku, VInt z => (2 ^ 63 <= z < 2 ^ 64)%Z
  | Kb, VBool _ => True
  | _, _ => False
  end.

(** Some value of the list is of the kind. *)
Definition some_of (k : kind) (l : list val) : Prop := exists v, In v l /\ one_of k v.

(** The kind of an array of the values: object if there is one, else text, else
    bytes, else complex if there is one; float if there is one, or none at all,
    or integers of both integer kinds; else the integers' kind; else bool. *)
Definition kind_for (l : list val) (k : kind) : Prop :=
  let no := Forall (fun k => ~ some_of k l) in
  match k with
  | KO => some_of KO l
  | KU => some_of KU l /\ no [KO]
  | KS => some_of KS l /\ no [KO; KU]
  | Kc => some_of Kc l /\ no [KO; KU; KS]
  | Kf => (l = [] \/ some_of Kf l \/ (some_of Ki l /\ some_of Ku l)) /\ no [KO; KU; KS; Kc]
  | Ki => some_of Ki l /\ no [KO; KU; KS; Kc; Kf; Ku]
  | Ku => some_of Ku l /\ no [KO; KU; KS; Kc; Kf; Ki]
  | Kb => some_of Kb l /\ no [KO; KU; KS; Kc; Kf; Ki; Ku]
  end.

(** What a numpy array of texts or bytes holds of one: NULs at the end are taken
    for padding. *)
Definition padded (s held : str) : Prop :=
  exists n, s = held ++ repeat 0%N n /\ last held 1%N <> 0%N.

(** A number as a double. *)
Definition as_double (v : val) (f : float) : Prop :=
  match v with
  | VBool b => f = if b then float_of_Z 1 else float_of_Z 0
  | VInt z => f = float_of_Z z
  | VFloat g => f = g
  | _ => False
  end.

(** What an array of kind [k] holds of [v]: numbers become numbers of the kind,
    other things text of themselves when there is text; objects stay as they
    are. *)
Definition stored (k : kind) (v w : val) : Prop :=
  match k, v with
  | (KO | Kb), _ => w = v
  | (Ki | Ku), VBool b => w = VInt (if b then 1 else 0)
  | (Ki | Ku), _ => w = v
  | Kf, _ => exists f, as_double v f /\ w = VFloat f
  | Kc, VCplx _ _ => w = v
  | Kc, _ => exists f, as_double v f /\ w = VCplx f (float_of_Z 0)
  | KU, VStr s => exists h, padded s h /\ w = VStr h
  | KU, VStrOf _ => w = v
  | KU, _ => w = VStrOf v
  | KS, VBytes s => exists h, padded s h /\ w = VBytes h
  | KS, VBytesOf _ => w = v
  | KS, _ => w = VBytesOf v
  end.

(** The kind for arrays of the kinds [a] and [b] together, by the same order. *)
Definition common (a b k : kind) : Prop :=
  let either x := a = x \/ b = x in
  let no := Forall (fun x => a <> x /\ b <> x) in
  match k with
  | KO => either KO
  | KU => either KU /\ no [KO]
  | KS => either KS /\ no [KO; KU]
  | Kc => either Kc /\ no [KO; KU; KS]
  | Kf => (either Kf \/ (either Ki /\ either Ku)) /\ no [KO; KU; KS; Kc]
  | Ki => either Ki /\ no [KO; KU; KS; Kc; Kf; Ku]
  | Ku => either Ku /\ no [KO; KU; KS; Kc; Kf; Ki]
  | Kb => a = Kb /\ b = Kb
  end.

(** The array made from the values. *)
Definition array_of (l : list val) (a : arr) : Prop :=
  kind_for l (akind a) /\ Forall2 (stored (akind a)) l (aelems a).

(** The Python object for a value. *)
Inductive stands_for : pyobj -> val -> Prop :=
| sf_none : stands_for ONone VNone
| sf_bool b : stands_for (OBool b) (VBool b)
| sf_int z : stands_for (OInt z) (VInt z)
| sf_float f : stands_for (OFloat f) (VFloat f)
| sf_str s : stands_for (OStr s) (VStr s)
| sf_bytes s : stands_for (OBytes s) (VBytes s)
| sf_other n : stands_for (OOther n) (VObj n)
(** sets, dicts and iterators are objects too (the model does not tell them apart
    once they are in an array). *)
| sf_set l : stands_for (OSet l) (VObj 0)
| sf_dict l : stands_for (ODict l) (VObj 0)
| sf_iter l : stands_for (OIter l) (VObj 0).

(** The array np.array makes from [o]: itself, or that of the values in a list or
    tuple. *)
Definition made_from (o : pyobj) (a : arr) : Prop :=
  o = OArr a \/ exists l vs, (o = OList l \/ o = OTuple l) /\ Forall2 stands_for l vs /\ array_of vs a.

(** The dict [d] has the array made from the values [l] at the key [k]. *)
Definition holds_column (d : dict arr) (k : Z) (l : list val) : Prop :=
  exists a, dget k d = Some a /\ array_of l a.

(** The entries of the dict [d] are, in order, the arrays made from these values. *)
Definition holds_columns (d : dict arr) (cols : list (Z * list val)) : Prop :=
  Forall2 (fun e c => fst e = fst c /\ array_of (snd c) (snd e)) d cols.
