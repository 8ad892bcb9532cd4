(** * One-dimensional numpy arrays and Python objects

    An array is a dtype kind and a list of element values. Item sizes inside a
    kind are not modelled: integers are unbounded in the kinds i and u once
    stored, floats are binary64 (binary32 values are embedded exactly), and
    fixed-width strings are wide enough for their elements (NULs at the end,
    which pad them, are no part of an element). dtype inference follows
    numpy >= 1.24, < 2. *)

From Verif Require Import PyBase PyFloat.

(** dtype.kind letters b i u f c U S O (channelpack/datautils.py l.28).
    datetime64 and timedelta64 arrays and void arrays are not modelled. *)
Inductive kind := Kb | Ki | Ku | Kf | Kc | KU | KS | KO.

(** Kinds compared (channelpack/datautils.py l.28). *)
Definition kind_eq_dec : forall a b : kind, {a = b} + {a <> b}.
Proof. decide equality. Defined.

(** Array elements. [VDate] is datetime.date (channelpack/dbf.py l.66),
    [VDateTime] is datetime.datetime as proleptic Gregorian ordinal and
    microsecond of the day (channelpack/readxl.py l.87), [VStrOf v] is the text
    numpy produces when casting [v] to a string dtype (left symbolic),
    [VObj] any other object. *)
Inductive val : Type :=
| VBool (b : bool)
| VInt (z : Z)
| VFloat (f : float)
| VCplx (re im : float)
| VStr (s : str)
| VBytes (s : str)
| VNone
| VDate (y m d : Z)
| VDateTime (day us : Z)
| VStrOf (v : val)
| VBytesOf (v : val)
| VObj (n : Z).

(** numpy.ndarray with ndim 1 (the values of NpDict, channelpack/pack.py l.61-67). *)
Record arr := mkarr { akind : kind; aelems : list val }.

(** len(a) (channelpack/datautils.py l.29, 31). *)
Definition alen (a : arr) : nat := length (aelems a).

(** A boolean array (channelpack/pack.py l.322, 392). *)
Definition barr (l : list bool) : arr := mkarr Kb (map VBool l).

(** `if e:` on an element (channelpack/datautils.py l.64, 68, 87, 94). *)
Definition truthy (v : val) : bool :=
  match v with
  | VBool b => b
  | VInt z => negb (Z.eqb z 0)
  | VFloat f => float_truthy f
  | VCplx re im => float_truthy re || float_truthy im
  | VStr s | VBytes s => match s with [] => false | _ => true end
  | VNone => false
  | VDate _ _ _ | VDateTime _ _ | VStrOf _ | VBytesOf _ | VObj _ => true
  end.

(** x == x for one element (channelpack/pack.py l.322). *)
Definition self_eq (v : val) : bool :=
  match v with
  | VFloat f => feqb f f
  | VCplx re im => feqb re re && feqb im im
  | _ => true
  end.

(** Elementwise a == a (channelpack/pack.py l.322). *)
Definition np_self_eq (a : arr) : arr := barr (map self_eq (aelems a)).

(** Kind of the dtype numpy gives to one Python object (np.array,
    channelpack/pack.py l.75). *)
Definition kind_of_val (v : val) : kind :=
  match v with
  | VBool _ => Kb
  | VInt z => if ((- 2 ^ 63 <=? z) && (z <? 2 ^ 63))%Z then Ki
              else if ((0 <=? z) && (z <? 2 ^ 64))%Z then Ku else KO
  | VFloat _ => Kf
  | VCplx _ _ => Kc
  | VStr _ | VStrOf _ => KU
  | VBytes _ | VBytesOf _ => KS
  | _ => KO
  end.

(** numpy.promote_types on kinds, 64-bit item sizes (np.array of mixed
    values, np.append, np.where; channelpack/pack.py l.297,
    channelpack/datautils.py l.29). *)
Definition promote (a b : kind) : kind :=
  match a, b with
  | KO, _ | _, KO => KO
  | KU, _ | _, KU => KU
  | KS, _ | _, KS => KS
  | Kc, _ | _, Kc => Kc
  | Kf, _ | _, Kf => Kf
  | Ki, Ku | Ku, Ki => Kf
  | Ki, _ | _, Ki => Ki
  | Ku, _ | _, Ku => Ku
  | Kb, Kb => Kb
  end.

(** Value of an element as a float, when numeric (channelpack/datautils.py
    l.29). *)
Definition val_float (v : val) : float :=
  match v with
  | VBool b => if b then float_of_Z 1 else S754_zero false
  | VInt z => float_of_Z z
  | VFloat f => f
  | VCplx re _ => re
  | _ => fnan
  end.

(** A text as an element of a fixed-width array: NULs at its end are taken for
    padding and lost (np.array, channelpack/pack.py l.75, 87, 101). *)
Fixpoint drop_nuls (s : str) : str :=
  match s with
  | [] => []
  | c :: s' => match drop_nuls s' with
               | [] => if (c =? 0)%N then [] else [c]
               | t => c :: t
               end
  end.

(** Cast of an element to a promoted kind (channelpack/pack.py l.297). *)
Definition cast (k : kind) (v : val) : val :=
  match k with
  | Kb | KO => v
  | Ki | Ku => match v with VBool b => VInt (if b then 1 else 0) | _ => v end
  | Kf => VFloat (val_float v)
  | Kc => match v with VCplx _ _ => v | _ => VCplx (val_float v) (S754_zero false) end
  | KU => match v with VStr s => VStr (drop_nuls s) | VStrOf _ => v | _ => VStrOf v end
  | KS => match v with VBytes s => VBytes (drop_nuls s) | VBytesOf _ => v | _ => VBytesOf v end
  end.

(** Elements a kind can hold (channelpack/pack.py l.75). *)
Definition has_kind (k : kind) (v : val) : bool :=
  match k, v with
  | KO, _ => true
  | Kb, VBool _ => true
  | (Ki | Ku), VInt _ => true
  | Kf, VFloat _ => true
  | Kc, VCplx _ _ => true
  | KU, VStr s | KS, VBytes s => str_eqb (drop_nuls s) s
  | KU, VStrOf _ | KS, VBytesOf _ => true
  | _, _ => false
  end.

(** Every element fits the kind: true of every real array (channelpack/pack.py
    l.75). *)
Definition arr_ok (a : arr) : Prop := Forall (fun v => has_kind (akind a) v = true) (aelems a).

(** np.array(seq) for a flat sequence of scalars: empty gives float64
    (channelpack/pack.py l.75, 87, 101, 319). *)
Definition np_array (l : list val) : arr :=
  match l with
  | [] => mkarr Kf []
  | v :: l' =>
      let k := fold_left (fun k w => promote k (kind_of_val w)) l' (kind_of_val v) in
      mkarr k (map (cast k) l)
  end.

(** np.append(a, b) (channelpack/pack.py l.297). *)
Definition np_append (a b : arr) : arr :=
  let k := promote (akind a) (akind b) in
  mkarr k (map (cast k) (aelems a ++ aelems b)).

(** a[i:j] (channelpack/pack.py l.449). *)
Definition np_slice (a : arr) (s : nat * nat) : arr :=
  mkarr (akind a) (slice (fst s) (snd s) (aelems a)).

(** The elements of [l] whose mask element is true (channelpack/pack.py
    l.455). *)
Fixpoint compress {A} (m : list bool) (l : list A) : list A :=
  match m, l with
  | b :: m', x :: l' => if b then x :: compress m' l' else compress m' l'
  | _, _ => []
  end.

(** a[m] for an index array m: boolean masks must have the length of a,
    integer arrays select by position, other kinds are refused
    (channelpack/pack.py l.455, 461). *)
Definition np_index (a m : arr) : res arr :=
  match akind m with
  | Kb => if Nat.eqb (alen m) (alen a)
          then Ok (mkarr (akind a) (compress (map truthy (aelems m)) (aelems a)))
          else Err IndexError
  | Ki | Ku =>
      do l <- mapM (fun v => match v with
                             | VInt i => match py_index (aelems a) i with
                                         | Some x => Ok x
                                         | None => Err IndexError
                                         end
                             | _ => Err IndexError
                             end) (aelems m);
      Ok (mkarr (akind a) l)
  | _ => Err IndexError
  end.

(** Broadcast length of two one-dimensional shapes (np.where and &=,
    channelpack/datautils.py l.29, channelpack/pack.py l.394). *)
Definition bcast (n m : nat) : option nat :=
  if Nat.eqb n m then Some n
  else if Nat.eqb n 1 then Some m
  else if Nat.eqb m 1 then Some n else None.

(** Element i of a possibly broadcast array (channelpack/datautils.py l.29,
    channelpack/pack.py l.394). *)
Definition bget {A} (d : A) (l : list A) (i : nat) : A :=
  if Nat.eqb (length l) 1 then nth 0 l d else nth i l d.

(** np.where(c, a, np.full(len(a), fill)) (channelpack/datautils.py l.29, 31);
    [fk] is the kind of the filler. *)
Definition np_where_fill (c a : arr) (fk : kind) (fill : val) : res arr :=
  match bcast (alen c) (alen a) with
  | None => Err ValueError
  | Some n =>
      let k := promote (akind a) fk in
      Ok (mkarr k (map (fun i => if truthy (bget VNone (aelems c) i)
                                 then cast k (bget VNone (aelems a) i)
                                 else cast k fill) (seq 0 n)))
  end.

(** The value stored by m[i] = False, by the kind of m
    (channelpack/pack.py l.350, 352). For string kinds numpy stores the text
    'False'. *)
Definition false_val (k : kind) : val :=
  match k with
  | Kb | KO => VBool false
  | Ki | Ku => VInt 0
  | Kf => VFloat (S754_zero false)
  | Kc => VCplx (S754_zero false) (S754_zero false)
  | KU => VStr (lit "False")
  | KS => VBytes (lit "False")
  end.

(** l[a:b] = x for every element of the slice (channelpack/pack.py l.350). *)
Definition fill_slice {A} (x : A) (s : nat * nat) (l : list A) : list A :=
  firstn (fst s) l ++ repeat x (length (slice (fst s) (snd s) l)) ++ skipn (Nat.max (fst s) (snd s)) l.

(** m[sc] = False (channelpack/pack.py l.350, 352). *)
Definition np_set_false (s : nat * nat) (m : arr) : arr :=
  mkarr (akind m) (fill_slice (false_val (akind m)) s (aelems m)).

(** m &= r, result kept in m (channelpack/pack.py l.394): [r] must broadcast
    to the shape of [m]; boolean and integer kinds only. Object arrays are not
    modelled (TypeError here). *)
Definition np_iand (m r : arr) : res arr :=
  match akind m, akind r with
  | Kb, Kb =>
      if (Nat.eqb (alen r) (alen m) || Nat.eqb (alen r) 1)%bool
      then Ok (barr (map (fun i => truthy (nth i (aelems m) VNone) && truthy (bget VNone (aelems r) i))%bool
                         (seq 0 (alen m))))
      else Err ValueError
  | (Ki | Ku), Kb =>
      if (Nat.eqb (alen r) (alen m) || Nat.eqb (alen r) 1)%bool
      then Ok (mkarr (akind m)
                 (map (fun i => match nth i (aelems m) VNone with
                                | VInt z => VInt (Z.land z (if truthy (bget VNone (aelems r) i) then 1 else 0))
                                | v => v
                                end) (seq 0 (alen m))))
      else Err ValueError
  | _, _ => Err TypeError
  end.

(** ** Python objects as arguments *)

(** The universe of arguments given to constructors, update() and attribute
    assignment (channelpack/pack.py l.18-132, 223-256). [OMapping] is a mapping
    which is not a dict, [OIter] a one-shot iterator (zip, generator),
    [OArr] a 1-d array, [OArrN] an array of another dimension. *)
Inductive pyobj : Type :=
| ONone
| OBool (b : bool)
| OInt (z : Z)
| OFloat (f : float)
| OStr (s : str)
| OBytes (s : str)
| OTuple (l : list pyobj)
| OList (l : list pyobj)
| OSet (l : list pyobj)
| ODict (l : list (pyobj * pyobj))
| OMapping (l : list (pyobj * pyobj))
| OIter (l : list pyobj)
| OArr (a : arr)
| OArrN (ndim : nat)
| OOther (n : Z).

(** A sequence element as an array element, when it is not itself a sequence
    (np.array(value), channelpack/pack.py l.75). *)
Definition scalar_val (o : pyobj) : option val :=
  match o with
  | ONone => Some VNone
  | OBool b => Some (VBool b)
  | OInt z => Some (VInt z)
  | OFloat f => Some (VFloat f)
  | OStr s => Some (VStr s)
  | OBytes s => Some (VBytes s)
  | OSet _ | ODict _ | OIter _ => Some (VObj 0)
  | OOther n => Some (VObj n)
  | OTuple _ | OList _ | OArr _ | OArrN _ | OMapping _ => None
  end.

(** All of the elements, if each is one (np.array(value), channelpack/pack.py
    l.75). *)
Fixpoint all_some {A} (l : list (option A)) : option (list A) :=
  match l with
  | [] => Some []
  | Some x :: l' => match all_some l' with Some r => Some (x :: r) | None => None end
  | None :: _ => None
  end.

(** np.array(value, copy=False), [None] when the result does not have ndim 1
    (channelpack/pack.py l.75-76, 87-88, 101-102, 117-118, 124-125, 128-132;
    a ragged nested list raises ValueError in numpy itself, the same exception
    class). *)
Definition np_of_obj (o : pyobj) : option arr :=
  match o with
  | OArr a => Some a
  | OList l | OTuple l =>
      match all_some (map scalar_val l) with
      | Some vs => Some (np_array vs)
      | None => None
      end
  | _ => None
  end.
