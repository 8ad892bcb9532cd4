(** * Specification vocabulary for packs sharing objects *)

From Verif Require Import PyBase PyFloat NumPy DataUtils Pack PackHeap.

(** The array object lies inside an existing buffer. *)
Definition valid (w : world) (h : href) : Prop :=
  h_b h < length (w_bufs w) /\ h_off h + h_len h <= length (aelems (buf w (h_b h))).

(** All references are to existing objects, dicts have each key once. *)
Definition wf (w : world) : Prop :=
  (forall i k h, In (k, h) (dd w i) -> valid w h) /\
  (forall i, NoDup (dkeys (dd w i))) /\
  (forall p, p < length (w_packs w) ->
     k_data (pk w p) < length (w_dd w) /\ k_names (pk w p) < length (w_nd w) /\ valid w (k_mask (pk w p))).

(** Buffer [x] holds data of a channel of pack [p]. *)
Definition data_buf (w : world) (p x : nat) : Prop :=
  exists k h, In (k, h) (dd w (k_data (pk w p))) /\ h_b h = x.

(** Buffer [x] is used by pack [p], as a channel or as its mask. *)
Definition uses (w : world) (p x : nat) : Prop := data_buf w p x \/ h_b (k_mask (pk w p)) = x.

(** Pack [a] holds nothing through which its own operations could change [b]:
    other dict objects, and a mask array in a buffer [b] does not use. (The
    channel arrays may be shared.) *)
Definition separate (w : world) (a b : nat) : Prop :=
  k_data (pk w a) <> k_data (pk w b) /\ k_names (pk w a) <> k_names (pk w b) /\
  ~ uses w b (h_b (k_mask (pk w a))).

(** Separate packs without any shared array. *)
Definition disjoint (w : world) (a b : nat) : Prop :=
  k_data (pk w a) <> k_data (pk w b) /\ k_names (pk w a) <> k_names (pk w b) /\
  forall x, uses w a x -> ~ uses w b x.

(** The pack an operation works on. *)
Definition target (o : hop) : option nat :=
  match o with
  | HAlloc _ | HWrite _ _ _ | HNew _ _ | HCall _ _ _ _ => None
  | HData p _ | HDataOf p _ | HDataItem p _ _ | HNames p _ | HNamesOf p _ | HNameItem p _ _
  | HMask p _ | HMindur p _ | HNof p _ | HPrefix p _ | HFn p _ | HReset p | HDuration p _ _ _
  | HStartstop p _ _ _ | HAppend p _ => Some p
  end.

(** Arguments are existing objects. *)
Definition args_ok (w : world) (o : hop) : Prop :=
  (match target o with Some p => p < length (w_packs w) | None => True end) /\
  match o with
  | HWrite h _ _ | HDataItem _ _ h | HMask _ h => valid w h
  | HNew d _ | HData _ d => (forall k h, In (k, h) d -> valid w h) /\ NoDup (dkeys d)
  | HDataOf _ q | HNamesOf _ q | HAppend _ q => q < length (w_packs w)
  | HCall p _ _ _ => p < length (w_packs w)
  | _ => True
  end.

(** The operation hands no object of pack [b] to its target, and the program
    writes to no array of [b] itself. Appending [b] (or a pack sharing a dict
    with it) to a pack with data and names is fine. *)
Definition keeps_off (w : world) (b : nat) (o : hop) : Prop :=
  match o with
  | HWrite h _ _ | HMask _ h => ~ uses w b (h_b h)
  | HDataOf _ q => k_data (pk w q) <> k_data (pk w b)
  | HNamesOf _ q => k_names (pk w q) <> k_names (pk w b)
  | HAppend p q =>
      (dd w (k_data (pk w p)) = [] -> k_data (pk w q) <> k_data (pk w b)) /\
      (nd w (k_names (pk w p)) = [] -> k_names (pk w q) <> k_names (pk w b))
  | _ => True
  end.

(** A history of operations each meeting a condition where it is executed. *)
Fixpoint history (C : world -> hop -> Prop) (w : world) (l : list hop) : Prop :=
  match l with
  | [] => True
  | o :: l' => C w o /\ history C (fst (hexec w o)) l'
  end.

(** No other pack has its mask in the buffer of the mask of [b]. *)
Definition owns_mask (w : world) (b : nat) : Prop :=
  forall c, c < length (w_packs w) -> c <> b -> h_b (k_mask (pk w c)) <> h_b (k_mask (pk w b)).

(** The program does not write to the mask array of [b] itself, does not give
    it to another pack as mask, nor give the mask array of another pack to [b]. *)
Definition leaves_mask (w : world) (b : nat) (o : hop) : Prop :=
  match o with
  | HWrite h _ _ => h_b h <> h_b (k_mask (pk w b))
  | HMask p h => if Nat.eqb p b
                 then forall c, c < length (w_packs w) -> c <> b -> h_b (k_mask (pk w c)) <> h_b h
                 else h_b h <> h_b (k_mask (pk w b))
  | _ => True
  end.

(** The operation of the value model that a heap operation on [p] amounts to,
    its array arguments read in the world [w]. *)
Definition as_value_op (w : world) (o : hop) : option op :=
  let rd d := map (fun kv : Z * href => (fst kv, hread w (snd kv))) d in
  match o with
  | HData _ d => Some (OpData (rd d))
  | HDataOf _ q => Some (OpNpData (p_data (view w q)))
  | HDataItem _ k h => Some (OpDataItem k (hread w h))
  | HNames _ n => Some (OpNames n)
  | HNamesOf _ q => Some (OpNames (p_names (view w q)))
  | HMask _ h => Some (OpMask (OArr (hread w h)))
  | HMindur _ None => Some (OpMindur ONone)
  | HMindur _ (Some z) => Some (OpMindur (OInt z))
  | HNof _ v => Some (OpNof v)
  | HPrefix _ s => Some (OpPrefix (OStr s))
  | HFn _ s => Some (OpFn (OStr s))
  | HReset _ => Some OpReset
  | HDuration _ d s b => Some (OpDuration d s b)
  | HStartstop _ a b ap => Some (OpStartstop a b ap)
  | HAppend _ q => Some (OpAppend (view w q))
  | HNameItem p k v => Some (OpNames (dset k v (p_names (view w p))))
  | HAlloc _ | HWrite _ _ _ | HNew _ _ | HCall _ _ _ _ => None
  end.

(** The array objects an operation stores in a data dict. *)
Definition handed (o : hop) (h : href) : Prop :=
  match o with
  | HNew d _ | HData _ d => exists k, In (k, h) d
  | HDataItem _ _ g => h = g
  | _ => False
  end.

(** Conditions on operations of pack [b] itself which keep it apart from the
    other packs: no dict object taken over from another pack, no mask array
    used as channel or the other way round, no mask shared. *)
Definition own_ok (w : world) (b : nat) (o : hop) : Prop :=
  (forall h c, handed o h -> c < length (w_packs w) -> h_b (k_mask (pk w c)) <> h_b h) /\
  match o with
  | HDataOf _ q => k_data (pk w q) = k_data (pk w b)
  | HNamesOf _ q => k_names (pk w q) = k_names (pk w b)
  | HMask _ h => ~ data_buf w b (h_b h) /\
                 forall c, c < length (w_packs w) -> c <> b -> h_b (k_mask (pk w c)) <> h_b h
  | HAppend _ q =>
      (dd w (k_data (pk w b)) = [] -> k_data (pk w q) = k_data (pk w b)) /\
      (nd w (k_names (pk w b)) = [] -> k_names (pk w q) = k_names (pk w b))
  | _ => True
  end.

(** Operations on [b] itself meet [own_ok], all others [keeps_off]. *)
Definition well_behaved (w : world) (b : nat) (o : hop) : Prop :=
  args_ok w o /\ (target o = Some b -> own_ok w b o) /\ (target o <> Some b -> keeps_off w b o).

(** The operations of a history made on [b], as operations on values. *)
Fixpoint ops_on (b : nat) (w : world) (l : list hop) : list op :=
  match l with
  | [] => []
  | o :: l' =>
      let rest := ops_on b (fst (hexec w o)) l' in
      match target o with
      | Some p => if Nat.eqb p b then match as_value_op w o with Some v => v :: rest | None => rest end else rest
      | None => rest
      end
  end.

(** [b] shares nothing that can be changed with another pack, and its mask is
    not one of its channels. *)
Definition isolated (w : world) (b : nat) : Prop :=
  ~ data_buf w b (h_b (k_mask (pk w b))) /\
  forall c, c < length (w_packs w) -> c <> b -> separate w c b.

(** Buffer [x] is known to no pack and no data dict. *)
Definition unused (w : world) (x : nat) : Prop :=
  (forall c, c < length (w_packs w) -> ~ uses w c x) /\ (forall i k h, In (k, h) (dd w i) -> h_b h <> x).

(** The program does not hand an array in buffer [x] to a pack. *)
Definition not_given (x : nat) (o : hop) : Prop :=
  (forall h, handed o h -> h_b h <> x) /\ match o with HMask _ h => h_b h <> x | _ => True end.

(** The call returns a changed copy: nof given, or taken from the pack. *)
Definition copying (own nof : pyobj) : Prop :=
  nof = OStr (lit "nan") \/ nof = OStr (lit "filter") \/
  (nof = ONone /\ (own = OStr (lit "nan") \/ own = OStr (lit "filter"))).
