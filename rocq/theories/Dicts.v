(** * Model of channelpack/pack.py l.15-132: IntKeyDict and NpDict

    Arguments are arbitrary objects of the universe [pyobj] (NumPy.v); a dict
    is the list of its items in insertion order. Operations return the dict
    afterwards together with the outcome, so that what was inserted before an
    exception is visible. Arrays given where a dict or a sequence of pairs is
    expected are not modelled (OtherError). *)

From Verif Require Import PyBase PyFloat NumPy.

(** Contents of the dict object (channelpack/pack.py l.15, 61). *)
Definition odict := list (pyobj * pyobj).

(** isinstance(key, int), channelpack/pack.py l.24, 34, 43, 48, 54; a bool is
    an int. *)
Definition is_int (o : pyobj) : bool :=
  match o with OInt _ | OBool _ => true | _ => false end.

(** The integer an int key stands for in hashing and comparison
    (channelpack/pack.py l.24). *)
Definition int_val (o : pyobj) : option Z :=
  match o with
  | OInt z => Some z
  | OBool b => Some (if b then 1 else 0)%Z
  | _ => None
  end.

(** Equality of dict keys (dict.__setitem__ called at channelpack/pack.py
    l.26): True equals 1. Simplified: float keys are not compared with int
    keys and tuple keys never compare equal; such keys are refused by the
    classes anyway. *)
Definition key_eqb (a b : pyobj) : bool :=
  match int_val a, int_val b with
  | Some x, Some y => Z.eqb x y
  | _, _ => match a, b with
            | OStr s, OStr t | OBytes s, OBytes t => str_eqb s t
            | ONone, ONone => true
            | _, _ => false
            end
  end.

(** Unhashable keys raise TypeError in the builtin dict (channelpack/pack.py
    l.26, 50). *)
Fixpoint hashable (o : pyobj) : bool :=
  match o with
  | OList _ | OSet _ | ODict _ | OMapping _ | OArr _ | OArrN _ => false
  | OTuple l => forallb hashable l
  | _ => true
  end.

(** d.get(k) on items (channelpack/pack.py l.296-297). *)
Fixpoint oget (k : pyobj) (d : odict) : option pyobj :=
  match d with
  | [] => None
  | (k', v) :: d' => if key_eqb k k' then Some v else oget k d'
  end.

(** dict.__setitem__ on items: an equal key keeps its place and its key object
    (channelpack/pack.py l.26). *)
Fixpoint oset (k v : pyobj) (d : odict) : odict :=
  match d with
  | [] => [(k, v)]
  | (k', v') :: d' => if key_eqb k k' then (k', v) :: d' else (k', v') :: oset k v d'
  end.

(** del d[k]: inherited from dict (channelpack/pack.py l.15). *)
Fixpoint odel (k : pyobj) (d : odict) : odict :=
  match d with
  | [] => []
  | (k', v') :: d' => if key_eqb k k' then d' else (k', v') :: odel k d'
  end.

(** hasattr(seq, '__len__') with its value (channelpack/pack.py l.40). *)
Definition olen (o : pyobj) : option nat :=
  match o with
  | OStr s | OBytes s => Some (length s)
  | OTuple l | OList l | OSet l => Some (length l)
  | ODict l | OMapping l => Some (length l)
  | _ => None
  end.

(** hasattr(seq, '__getitem__') (channelpack/pack.py l.42, 99). *)
Definition has_getitem (o : pyobj) : bool :=
  match o with
  | OStr _ | OBytes _ | OTuple _ | OList _ | ODict _ | OMapping _ => true
  | _ => false
  end.

(** Iterating an object (`for x in o`, channelpack/pack.py l.39, 97): None
    when it is not iterable. A set is iterated in the order it is listed here. *)
Definition iterate (o : pyobj) : option (list pyobj) :=
  match o with
  | OStr s => Some (map (fun c => OStr [c]) s)
  | OBytes s => Some (map (fun c => OInt (Z.of_N c)) s)
  | OTuple l | OList l | OSet l | OIter l => Some l
  | ODict l | OMapping l => Some (map fst l)
  | _ => None
  end.

(** seq[0] (channelpack/pack.py l.43). *)
Definition item0 (o : pyobj) : res pyobj :=
  match o with
  | OStr (c :: _) => Ok (OStr [c])
  | OBytes (c :: _) => Ok (OInt (Z.of_N c))
  | OTuple (x :: _) | OList (x :: _) => Ok x
  | OStr [] | OBytes [] | OTuple [] | OList [] => Err IndexError
  | ODict l | OMapping l => match oget (OInt 0) l with Some v => Ok v | None => Err KeyError end
  | _ => Err TypeError
  end.

(** seq[-1] (channelpack/pack.py l.100). *)
Definition item_last (o : pyobj) : res pyobj :=
  match o with
  | OStr s => match rev s with c :: _ => Ok (OStr [c]) | [] => Err IndexError end
  | OBytes s => match rev s with c :: _ => Ok (OInt (Z.of_N c)) | [] => Err IndexError end
  | OTuple l | OList l => match rev l with x :: _ => Ok x | [] => Err IndexError end
  | ODict l | OMapping l => match oget (OInt (-1)) l with Some v => Ok v | None => Err KeyError end
  | _ => Err TypeError
  end.

(** [val for val in seq[:-1]] (channelpack/pack.py l.103); slicing a dict is a
    TypeError (unhashable slice, before Python 3.12). *)
Definition items_init (o : pyobj) : res (list pyobj) :=
  match o with
  | OStr s => Ok (map (fun c => OStr [c]) (removelast s))
  | OBytes s => Ok (map (fun c => OInt (Z.of_N c)) (removelast s))
  | OTuple l | OList l => Ok (removelast l)
  | _ => Err TypeError
  end.

(** ** The builtin dict.update with one positional argument
    (called at channelpack/pack.py l.50). *)

(** One element of a sequence of pairs: must be iterable with two items, the
    first hashable (channelpack/pack.py l.50). *)
Definition as_pair (e : pyobj) : res (pyobj * pyobj) :=
  match iterate e with
  | None => Err TypeError
  | Some [k; v] => if hashable k then Ok (k, v) else Err TypeError
  | Some _ => Err ValueError
  end.

(** Insert pairs one after the other until one fails (channelpack/pack.py
    l.50). *)
Fixpoint insert_pairs (l : list pyobj) (d : odict) : odict * res unit :=
  match l with
  | [] => (d, Ok tt)
  | e :: l' => match as_pair e with
               | Ok (k, v) => insert_pairs l' (oset k v d)
               | Err x => (d, Err x)
               end
  end.

(** dict.update with a dict (channelpack/pack.py l.50). *)
Definition insert_items (l : odict) (d : odict) : odict :=
  fold_left (fun d kv => oset (fst kv) (snd kv) d) l d.

(** dict.update(arg) (channelpack/pack.py l.50). *)
Definition builtin_update (arg : pyobj) (d : odict) : odict * res unit :=
  match arg with
  | ODict l | OMapping l => (insert_items l d, Ok tt)
  | OArr _ | OArrN _ => (d, Err OtherError)
  | _ => match iterate arg with
         | Some l => insert_pairs l d
         | None => (d, Err TypeError)
         end
  end.

(** dict.update called with any number of positional arguments and keyword
    arguments (channelpack/pack.py l.50): more than one positional argument is a
    TypeError; keyword arguments are inserted last. *)
Definition builtin_update_args (args : list pyobj) (kwargs : list (str * pyobj)) (d : odict)
  : odict * res unit :=
  match args with
  | [] => (insert_items (map (fun kv => (OStr (fst kv), snd kv)) kwargs) d, Ok tt)
  | [a] => match builtin_update a d with
           | (d', Ok _) => (insert_items (map (fun kv => (OStr (fst kv), snd kv)) kwargs) d', Ok tt)
           | r => r
           end
  | _ => (d, Err TypeError)
  end.

(** ** IntKeyDict *)

(** The loop over the elements, channelpack/pack.py l.39-44. [CkBreak rest]:
    left by `break` with [rest] not yet visited. *)
Inductive check := CkOk | CkBreak (rest : list pyobj) | CkErr (e : exn).

(** channelpack/pack.py l.39-44: all elements from the first on. *)
Fixpoint check_items (l : list pyobj) : check :=
  match l with
  | [] => CkOk
  | e :: l' =>
      if match olen e with Some n => Nat.ltb 2 n | None => false end
      then CkBreak l'                                                       (* l.40-41 *)
      else if has_getitem e then
        match item0 e with                                                  (* l.42-44 *)
        | Ok k => if is_int k then check_items l' else CkErr TypeError
        | Err x => CkErr x
        end
      else check_items l'
  end.

(** The checks of update(), channelpack/pack.py l.32-49; on success the
    positional arguments as they are afterwards (a one-shot iterator has been
    consumed up to where the loop stopped). *)
Definition intkey_check (args : list pyobj) (kwargs : list (str * pyobj)) : res (list pyobj) :=
  do args' <- match args with
    | [] => Ok []
    | a :: r =>
        match a with
        | ODict l => if forallb (fun kv => is_int (fst kv)) l then Ok args else Err TypeError
                                                                             (* l.32-35 *)
        | OStr _ => Ok args
        | _ => match iterate a with
               | None => Ok args
               | Some l => match check_items l with                          (* l.37-44 *)
                           | CkErr e => Err e
                           | CkOk => Ok (match a with OIter _ => OIter [] | _ => a end :: r)
                           | CkBreak rest => Ok (match a with OIter _ => OIter rest | _ => a end :: r)
                           end
               end
        end
    end;
  match kwargs with [] => Ok args' | _ => Err TypeError end.                 (* l.46-49 *)

(** update( *args, **kwargs ), channelpack/pack.py l.28-51. *)
Definition intkey_update (args : list pyobj) (kwargs : list (str * pyobj)) (d : odict)
  : odict * res unit :=
  match intkey_check args kwargs with
  | Err e => (d, Err e)
  | Ok args' => builtin_update_args args' kwargs d
  end.

(** d[key] = value, channelpack/pack.py l.23-26. *)
Definition intkey_setitem (k v : pyobj) (d : odict) : odict * res unit :=
  if is_int k then (oset k v d, Ok tt) else (d, Err TypeError).

(** setdefault(key, value), channelpack/pack.py l.53-56. *)
Definition intkey_setdefault (k v : pyobj) (d : odict) : odict * res unit :=
  if is_int k then (match oget k d with Some _ => d | None => oset k v d end, Ok tt)
  else (d, Err TypeError).

(** Are the arguments passed to dict.__init__ first? channelpack/pack.py l.19, 70. *)
Definition delegate_fail (args : list pyobj) : bool :=
  match args with
  | [] => false
  | [OStr _] => true
  | [_] => false
  | _ => true
  end.

(** IntKeyDict( *args, **kwargs ), channelpack/pack.py l.18-21; the object exists
    only if nothing is raised. *)
Definition intkey_init (args : list pyobj) (kwargs : list (str * pyobj)) : res odict :=
  let '(d0, r0) := if delegate_fail args then builtin_update_args args kwargs [] else ([], Ok tt) in
  do _ <- r0;
  let '(d1, r1) := intkey_update args kwargs d0 in
  do _ <- r1; Ok d1.

(** ** NpDict *)

(** np.array(value, copy=False) and _check_raise_ndim,
    channelpack/pack.py l.75-76, 87-88, 100-101, 128-132. *)
Definition to_array (v : pyobj) : res pyobj :=
  match np_of_obj v with Some a => Ok (OArr a) | None => Err ValueError end.

(** The proxy pair of one element, channelpack/pack.py l.99-105. *)
Definition proxy_pair (e : pyobj) : res pyobj :=
  if has_getitem e then
    do x <- item_last e;
    do a <- to_array x;
    do i <- items_init e;
    Ok (OList (i ++ [a]))
  else Ok e.

(** The proxy arguments, channelpack/pack.py l.84-113. *)
Definition np_proxy (args : list pyobj) : res (list pyobj) :=
  match args with
  | [] => Ok []
  | a :: r =>
      match a with
      | ODict l => do l' <- mapM (fun kv => do x <- to_array (snd kv); Ok (fst kv, x)) l;
                   Ok (ODict l' :: r)                                        (* l.84-92 *)
      | _ => match iterate a with
             | Some l => do l' <- mapM proxy_pair l; Ok (OList l' :: r)      (* l.94-110 *)
             | None => Ok args                                               (* l.112-113 *)
             end
      end
  end.

(** Keyword values, channelpack/pack.py l.115-118. *)
Definition np_proxy_kwargs (kwargs : list (str * pyobj)) : res (list (str * pyobj)) :=
  mapM (fun kv => do x <- to_array (snd kv); Ok (fst kv, x)) kwargs.

(** update( *args, **kwargs ), channelpack/pack.py l.79-120. *)
Definition np_update (args : list pyobj) (kwargs : list (str * pyobj)) (d : odict)
  : odict * res unit :=
  match (do a <- np_proxy args; do k <- np_proxy_kwargs kwargs; Ok (a, k)) with
  | Err e => (d, Err e)
  | Ok (a, k) => intkey_update a k d
  end.

(** d[key] = value, channelpack/pack.py l.74-77. *)
Definition np_setitem (k v : pyobj) (d : odict) : odict * res unit :=
  match to_array v with
  | Err e => (d, Err e)
  | Ok a => intkey_setitem k a d
  end.

(** setdefault(key, value), channelpack/pack.py l.122-125. *)
Definition np_setdefault (k v : pyobj) (d : odict) : odict * res unit :=
  match to_array v with
  | Err e => (d, Err e)
  | Ok a => intkey_setdefault k a d
  end.

(** NpDict( *args, **kwargs ), channelpack/pack.py l.69-72. The delegated
    IntKeyDict.__init__ (l.71) itself delegates to dict.__init__ (l.20) and then
    calls the overridden update. *)
Definition np_init (args : list pyobj) (kwargs : list (str * pyobj)) : res odict :=
  let '(d0, r0) :=
    if delegate_fail args then
      match builtin_update_args args kwargs [] with
      | (d, Ok _) => np_update args kwargs d
      | r => r
      end
    else ([], Ok tt) in
  do _ <- r0;
  let '(d1, r1) := np_update args kwargs d0 in
  do _ <- r1; Ok d1.

(** ** Histories of operations on one dict *)

(** Operations; pop is `d.pop(k)` (a key that cannot be hashed is looked at only
    if there are items; a float equal to an int key is not taken for it here, see
    [key_eqb]), [DIor] is `d |= arg` (Python 3.9), inherited
    from dict and not overridden (channelpack/pack.py l.15). *)
Inductive dop :=
| DSet (k v : pyobj)
| DSetdefault (k v : pyobj)
| DUpdate (args : list pyobj) (kwargs : list (str * pyobj))
| DPop (k : pyobj)
| DClear
| DIor (arg : pyobj).

(** One operation on an NpDict ([np] = true) or an IntKeyDict
    (channelpack/pack.py l.23-55, 74-127). *)
Definition exec_dop (np : bool) (o : dop) (d : odict) : odict * res unit :=
  match o with
  | DSet k v => if np then np_setitem k v d else intkey_setitem k v d
  | DSetdefault k v => if np then np_setdefault k v d else intkey_setdefault k v d
  | DUpdate args kw => if np then np_update args kw d else intkey_update args kw d
  | DPop k =>
      match d with
      | [] => (d, Err KeyError)
      | _ => if hashable k
             then match oget k d with Some _ => (odel k d, Ok tt) | None => (d, Err KeyError) end
             else (d, Err TypeError)
      end
  | DClear => ([], Ok tt)
  | DIor arg => builtin_update arg d
  end.

(** A history; exceptions are caught between the operations
    (channelpack/pack.py l.14-135). *)
Definition run_dops (np : bool) (l : list dop) (d : odict) : odict :=
  fold_left (fun d o => fst (exec_dop np o d)) l d.
