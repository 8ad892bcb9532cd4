(** * Model of channelpack/pack.py with object identity

    Arrays are windows (views) onto buffers; the data and names dicts and the
    packs are objects referred to by number. This is where sharing between
    packs, in-place changes of a mask and views returned by calls are visible.
    The lines are the same as in Pack.v; here each definition says what is
    stored by reference and what is copied. *)

From Verif Require Import PyBase PyFloat NumPy DataUtils Pack.

(** A numpy array object: [h_len] elements of buffer [h_b] from [h_off]
    (basic slices give such windows, channelpack/pack.py l.449). *)
Record href := mkh { h_b : nat; h_off : nat; h_len : nat }.

(** A ChannelPack instance: references to its dicts and its mask array, and
    plain values (channelpack/pack.py l.214-221, 232). *)
Record hpack := mkhp {
  k_data : nat;
  k_names : nat;
  k_mask : href;
  k_cache : list (nat * nat);
  k_nof : pyobj;
  k_mindur : option Z;
  k_prefix : str;
  k_fn : str;
  k_files : list str
}.

(** All objects. A buffer is an array of its own with its dtype kind. The data
    dicts hold array objects, the names dicts plain values (channelpack/pack.py
    l.199-221). *)
Record world := mkw {
  w_bufs : list arr;
  w_dd : list (dict href);
  w_nd : list (dict val);
  w_packs : list hpack
}.

(** An object changed in place (channelpack/pack.py l.297, 350). *)
Fixpoint upd {A} (n : nat) (x : A) (l : list A) : list A :=
  match n, l with
  | _, [] => []
  | O, _ :: l' => x :: l'
  | S n', y :: l' => y :: upd n' x l'
  end.

(** Stands where there is no buffer; np.array([]) (channelpack/pack.py l.319). *)
Definition empty_arr : arr := mkarr Kf [].
(** Stands where there is no pack (channelpack/pack.py l.214-221). *)
Definition empty_pack : hpack := mkhp 0 0 (mkh 0 0 0) [] ONone None [] [] [].

(** The memory of an array (channelpack/pack.py l.350). *)
Definition buf (w : world) (b : nat) : arr := nth b (w_bufs w) empty_arr.
(** An NpDict by its identity (channelpack/pack.py l.215, 292). *)
Definition dd (w : world) (i : nat) : dict href := nth i (w_dd w) [].
(** An IntKeyDict by its identity (channelpack/pack.py l.218, 300). *)
Definition nd (w : world) (i : nat) : dict val := nth i (w_nd w) [].
(** A pack by its identity (channelpack/pack.py l.199). *)
Definition pk (w : world) (p : nat) : hpack := nth p (w_packs w) empty_pack.

(** The value of an array object (channelpack/pack.py l.449-465). *)
Definition hread (w : world) (h : href) : arr :=
  mkarr (akind (buf w (h_b h))) (firstn (h_len h) (skipn (h_off h) (aelems (buf w (h_b h))))).

(** Write the elements [l] through the array object from element [i] on
    (m[sc] = False, m &= r, a[i] = x; channelpack/pack.py l.350, 352, 394). *)
Definition hstore (w : world) (h : href) (i : nat) (l : list val) : world :=
  let a := buf w (h_b h) in
  let o := h_off h + i in
  mkw (upd (h_b h) (mkarr (akind a) (firstn o (aelems a) ++ l ++ skipn (o + length l) (aelems a))) (w_bufs w))
      (w_dd w) (w_nd w) (w_packs w).

(** A new array object with its own buffer (results of np.array, ==,
    np.append, np.where, boolean indexing) (channelpack/pack.py l.75, 297,
    319-322, 455). *)
Definition halloc (w : world) (a : arr) : world * href :=
  (mkw (w_bufs w ++ [a]) (w_dd w) (w_nd w) (w_packs w), mkh (length (w_bufs w)) 0 (alen a)).

(** The attributes of a pack changed (channelpack/pack.py l.223-256). *)
Definition set_pk (w : world) (p : nat) (k : hpack) : world :=
  mkw (w_bufs w) (w_dd w) (w_nd w) (upd p k (w_packs w)).
(** An NpDict changed in place (channelpack/pack.py l.77, 297). *)
Definition set_dd (w : world) (i : nat) (d : dict href) : world :=
  mkw (w_bufs w) (upd i d (w_dd w)) (w_nd w) (w_packs w).
(** An IntKeyDict changed in place (channelpack/pack.py l.26). *)
Definition set_nd (w : world) (i : nat) (d : dict val) : world :=
  mkw (w_bufs w) (w_dd w) (upd i d (w_nd w)) (w_packs w).

(** What a pack holds, as a value of Pack.v (channelpack/pack.py l.199-221).
    *)
Definition view_of (w : world) (k : hpack) : pack :=
  mkpack (map (fun kv => (fst kv, hread w (snd kv))) (dd w (k_data k))) (nd w (k_names k))
    (hread w (k_mask k)) (k_cache k) (k_nof k) (k_mindur k) (k_prefix k) (k_fn k) (k_files k).
(** The same for a pack by its identity (channelpack/pack.py l.199-221). *)
Definition view (w : world) (p : nat) : pack := view_of w (pk w p).

(** self.mask and self._cached_slicelist set (channelpack/pack.py l.231-232). *)
Definition kw_mask (k : hpack) m c := mkhp (k_data k) (k_names k) m c (k_nof k) (k_mindur k) (k_prefix k) (k_fn k) (k_files k).
(** self.data set (channelpack/pack.py l.243, 256). *)
Definition kw_data (k : hpack) d := mkhp d (k_names k) (k_mask k) (k_cache k) (k_nof k) (k_mindur k) (k_prefix k) (k_fn k) (k_files k).
(** self.names set (channelpack/pack.py l.246, 256). *)
Definition kw_names (k : hpack) n := mkhp (k_data k) n (k_mask k) (k_cache k) (k_nof k) (k_mindur k) (k_prefix k) (k_fn k) (k_files k).
(** self.nof set (channelpack/pack.py l.256). *)
Definition kw_nof (k : hpack) v := mkhp (k_data k) (k_names k) (k_mask k) (k_cache k) v (k_mindur k) (k_prefix k) (k_fn k) (k_files k).
(** self.mindur set (channelpack/pack.py l.239). *)
Definition kw_mindur (k : hpack) v := mkhp (k_data k) (k_names k) (k_mask k) (k_cache k) (k_nof k) v (k_prefix k) (k_fn k) (k_files k).
(** self.FALLBACK_PREFIX set (channelpack/pack.py l.256). *)
Definition kw_prefix (k : hpack) v := mkhp (k_data k) (k_names k) (k_mask k) (k_cache k) (k_nof k) (k_mindur k) v (k_fn k) (k_files k).
(** self.fn set (channelpack/pack.py l.247-254). *)
Definition kw_fn (k : hpack) v f := mkhp (k_data k) (k_names k) (k_mask k) (k_cache k) (k_nof k) (k_mindur k) (k_prefix k) v f.
(** self.filenames extended (channelpack/pack.py l.305). *)
Definition kw_files (k : hpack) f := mkhp (k_data k) (k_names k) (k_mask k) (k_cache k) (k_nof k) (k_mindur k) (k_prefix k) (k_fn k) f.

(** ** Masks *)

(** duration() once the requirement is an int, channelpack/pack.py l.347-356:
    the mask array object is written in place. *)
Definition hduration_req (w : world) (p : nat) (req : Z) (mindur : bool) : world :=
  let k := pk w p in
  let w1 := hstore w (k_mask k) 0 (aelems (duration_loop req mindur (k_cache k) (hread w (k_mask k)))) in
  set_pk w1 p (kw_mask k (k_mask k) (slicelist (hread w1 (k_mask k)))).

(** duration(d, s, mindur) returns the mask object itself, l.345-358. *)
Definition hduration (w : world) (p : nat) (d s : pynum) (mindur : bool) : world * res href :=
  match req_duration d s with
  | Err e => (w, Err e)
  | Ok req => (hduration_req w p req mindur, Ok (k_mask (pk w p)))
  end.

(** l.233-234, 240-241. *)
Definition happly_mindur (w : world) (p : nat) : world :=
  match k_mindur (pk w p) with
  | None => w
  | Some m => fst (hduration w p (PInt m) (PInt 1) true)
  end.

(** self.mask = array, channelpack/pack.py l.230-234: the array object is
    stored, not a copy. *)
Definition hset_mask (w : world) (p : nat) (h : href) : world :=
  happly_mindur (set_pk w p (kw_mask (pk w p) h (slicelist (hread w h)))) p.

(** mask_reset(), channelpack/pack.py l.309-322: a new array. *)
Definition hmask_reset (w : world) (p : nat) : world :=
  let d := dd w (k_data (pk w p)) in
  match zsort (dkeys d) with
  | [] => let '(w1, h) := halloc w (np_array []) in hset_mask w1 p h
  | lowest :: _ =>
      match dget lowest d with
      | Some a => let '(w1, h) := halloc w (np_self_eq (hread w a)) in hset_mask w1 p h
      | None => w                                 (* not reachable: lowest is a key *)
      end
  end.

(** startstop(startb, stopb, apply), channelpack/pack.py l.392-395: `&=` writes
    into the mask object and assigns it again; the result is a new array. *)
Definition hstartstop (w : world) (p : nat) (startb stopb : list val) (apply : bool)
  : world * res href :=
  let '(w1, r) := halloc w (np_array (map VBool (startstop_bool startb stopb))) in
  if apply then
    let h := k_mask (pk w1 p) in
    match np_iand (hread w1 h) (hread w1 r) with
    | Err e => (w1, Err e)
    | Ok m => (hset_mask (hstore w1 h 0 (aelems m)) p h, Ok r)
    end
  else (w1, Ok r).

(** ** Construction and dicts *)

(** ChannelPack(data, names) after acceptance, channelpack/pack.py l.199-221:
    new dict objects holding the array objects given (np.array copy=False, l.75). *)
Definition hnew (w : world) (d : dict href) (n : dict val) : world * nat :=
  let p := length (w_packs w) in
  let w1 := mkw (w_bufs w) (w_dd w ++ [d]) (w_nd w ++ [n])
              (w_packs w ++ [mkhp (length (w_dd w)) (length (w_nd w)) (mkh 0 0 0) [] ONone None (lit "ch") [] [[]]]) in
  (hmask_reset w1 p, p).

(** pack.data = plain dict, channelpack/pack.py l.242-244: a new dict object. *)
Definition hset_data (w : world) (p : nat) (d : dict href) : world :=
  let w1 := mkw (w_bufs w) (w_dd w ++ [d]) (w_nd w) (w_packs w) in
  hmask_reset (set_pk w1 p (kw_data (pk w1 p) (length (w_dd w)))) p.

(** pack.data = q.data, channelpack/pack.py l.255-256: the same dict object. *)
Definition hset_data_of (w : world) (p q : nat) : world :=
  set_pk w p (kw_data (pk w p) (k_data (pk w q))).

(** pack.data[k] = array, channelpack/pack.py l.74-77, 26: the array object is
    stored in the dict object. *)
Definition hdata_item (w : world) (p : nat) (k : Z) (h : href) : world :=
  let i := k_data (pk w p) in set_dd w i (dset k h (dd w i)).

(** pack.names = plain dict, channelpack/pack.py l.245-246. *)
Definition hset_names (w : world) (p : nat) (n : dict val) : world :=
  let w1 := mkw (w_bufs w) (w_dd w) (w_nd w ++ [n]) (w_packs w) in
  set_pk w1 p (kw_names (pk w1 p) (length (w_nd w))).

(** pack.names = q.names, channelpack/pack.py l.255-256. *)
Definition hset_names_of (w : world) (p q : nat) : world :=
  set_pk w p (kw_names (pk w p) (k_names (pk w q))).

(** pack.names[k] = v, channelpack/pack.py l.23-26. *)
Definition hname_item (w : world) (p : nat) (k : Z) (v : val) : world :=
  let i := k_names (pk w p) in set_nd w i (dset k v (nd w i)).

(** `for key in other.data: self.data[key] = np.append(...)`,
    channelpack/pack.py l.296-297: a new array per key. *)
Fixpoint happend_loop (w : world) (i j : nat) (keys : list Z) : world :=
  match keys with
  | [] => w
  | k :: keys' =>
      match dget k (dd w i), dget k (dd w j) with
      | Some a, Some b =>
          let '(w1, h) := halloc w (np_append (hread w a) (hread w b)) in
          happend_loop (set_dd w1 i (dset k h (dd w1 i))) i j keys'
      | _, _ => happend_loop w i j keys'         (* not reachable: same key sets *)
      end
  end.

(** append_pack(other), channelpack/pack.py l.265-307. *)
Definition happend (w : world) (p q : nat) : world * res unit :=
  let i := k_data (pk w p) in
  let j := k_data (pk w q) in
  let data_step : res world :=
    match dd w i, dd w j with
    | [], _ => Ok (hset_data_of w p q)                                       (* l.291-292 *)
    | _ :: _, [] => Ok w
    | _ :: _, _ :: _ =>
        if same_keys (dd w i) (dd w j)                                       (* l.294 *)
        then Ok (happend_loop w i j (dkeys (dd w j)))
        else Err ValueError
    end in
  match data_step with
  | Err e => (w, Err e)
  | Ok w1 =>
      let finish w2 :=                                                       (* l.305-307 *)
        hmask_reset (set_pk w2 p (kw_files (pk w2 p) (k_files (pk w2 p) ++ k_files (pk w2 q)))) p in
      match nd w1 (k_names (pk w1 p)), nd w1 (k_names (pk w1 q)) with
      | [], _ => (finish (hset_names_of w1 p q), Ok tt)                      (* l.299-300 *)
      | _ :: _, [] => (finish w1, Ok tt)
      | _ :: _, _ :: _ =>
          if same_keys (nd w1 (k_names (pk w1 p))) (nd w1 (k_names (pk w1 q)))  (* l.302 *)
          then (finish w1, Ok tt) else (w1, Err ValueError)
      end
  end.

(** ** Calls *)

(** The window of a slice of an array object (channelpack/pack.py l.449). *)
Definition hslice (h : href) (sc : nat * nat) : href :=
  mkh (h_b h) (h_off h + Nat.min (fst sc) (h_len h))
      (Nat.min (snd sc) (h_len h) - Nat.min (fst sc) (h_len h)).

(** pack(ch, part, nof), channelpack/pack.py l.419-465: which array object is
    returned, a new one for 'nan' and 'filter'. *)
Definition hcall (w : world) (p : nat) (ch : chref) (part : option Z) (nof : pyobj)
  : world * res href :=
  let fresh (r : res arr) : world * res href :=
    match r with
    | Ok a => let '(w1, h) := halloc w a in (w1, Ok h)
    | Err e => (w, Err e)
    end in
  match datakey (view w p) ch with                                           (* l.444 *)
  | Err e => (w, Err e)
  | Ok key =>
      match dget key (dd w (k_data (pk w p))) with
      | None => (w, Err KeyError)
      | Some h =>
          match part with
          | Some i => match py_index (k_cache (pk w p)) i with               (* l.446-451 *)
                      | Some sc => (w, Ok (hslice h sc))
                      | None => (w, Err IndexError)
                      end
          | None =>
              let m := hread w (k_mask (pk w p)) in
              let own := k_nof (pk w p) in
              if is_str_lit nof (lit "nan") then fresh (masked (hread w h) m)      (* l.452 *)
              else if is_str_lit nof (lit "filter") then fresh (np_index (hread w h) m)
              else if is_str_lit nof (lit "ignore") then (w, Ok h)                 (* l.456 *)
              else if is_str_lit own (lit "nan") then fresh (masked (hread w h) m)
              else if is_str_lit own (lit "filter") then fresh (np_index (hread w h) m)
              else if obj_truthy own then (w, Err ValueError)
              else (w, Ok h)                                                       (* l.465 *)
          end
      end
  end.

(** ** Operations *)

(** What a program using packs can do, with the array objects it holds. The
    cited lines are those of the operation in channelpack/pack.py
    (channelpack/pack.py l.199-465). *)
Inductive hop :=
| HAlloc (a : arr)                                    (* a new array made by the program *)
| HWrite (h : href) (i : nat) (v : val)               (* h[i] = v by the program; [v] as stored *)
| HNew (d : dict href) (n : dict val)                 (* ChannelPack(d, n)       l.199-221 *)
| HData (p : nat) (d : dict href)                     (* p.data = {...}          l.242-244 *)
| HDataOf (p q : nat)                                 (* p.data = q.data         l.255-256 *)
| HDataItem (p : nat) (k : Z) (h : href)              (* p.data[k] = h           l.74-77 *)
| HNames (p : nat) (n : dict val)                     (* p.names = {...}         l.245-246 *)
| HNamesOf (p q : nat)                                (* p.names = q.names       l.255-256 *)
| HNameItem (p : nat) (k : Z) (v : val)               (* p.names[k] = v          l.23-26 *)
| HMask (p : nat) (h : href)                          (* p.mask = h              l.228-234 *)
| HMindur (p : nat) (v : option Z)                    (* p.mindur = v            l.235-241 *)
| HNof (p : nat) (v : pyobj)                          (* p.nof = v               l.224-225 *)
| HPrefix (p : nat) (s : str)                         (* p.FALLBACK_PREFIX = s   l.226-227 *)
| HFn (p : nat) (s : str)                             (* p.fn = s                l.247-254 *)
| HReset (p : nat)                                    (* p.mask_reset()          l.309-322 *)
| HDuration (p : nat) (d s : pynum) (mindur : bool)   (* p.duration(...)         l.324-358 *)
| HStartstop (p : nat) (a b : list val) (apply : bool)(* p.startstop(...)        l.360-395 *)
| HAppend (p q : nat)                                 (* p.append_pack(q)        l.265-307 *)
| HCall (p : nat) (ch : chref) (part : option Z) (nof : pyobj).  (* p(...)       l.419-465 *)

(** A call that returns None (channelpack/pack.py l.265-307). *)
Definition hunit {A} (x : world * res A) : world * res (option href) :=
  (fst x, match snd x with Ok _ => Ok None | Err e => Err e end).
(** A call that returns an array (channelpack/pack.py l.419-465). *)
Definition harr (x : world * res href) : world * res (option href) :=
  (fst x, match snd x with Ok h => Ok (Some h) | Err e => Err e end).

(** One operation: the world afterwards and the outcome, with the array object
    returned if there is one (channelpack/pack.py l.199-465). *)
Definition hexec (w : world) (o : hop) : world * res (option href) :=
  match o with
  | HAlloc a => let '(w1, h) := halloc w a in (w1, Ok (Some h))
  | HWrite h i v => if Nat.ltb i (h_len h) then (hstore w h i [v], Ok None) else (w, Err IndexError)
  | HNew d n => (fst (hnew w d n), Ok None)
  | HData p d => (hset_data w p d, Ok None)
  | HDataOf p q => (hset_data_of w p q, Ok None)
  | HDataItem p k h => (hdata_item w p k h, Ok None)
  | HNames p n => (hset_names w p n, Ok None)
  | HNamesOf p q => (hset_names_of w p q, Ok None)
  | HNameItem p k v => (hname_item w p k v, Ok None)
  | HMask p h => (hset_mask w p h, Ok None)
  | HMindur p v => (happly_mindur (set_pk w p (kw_mindur (pk w p) v)) p, Ok None)
  | HNof p v => if is_array v then (w, Err OtherError)
                else if nof_valid v then (set_pk w p (kw_nof (pk w p) v), Ok None)
                else (w, Err ValueError)
  | HPrefix p s => (set_pk w p (kw_prefix (pk w p) s), Ok None)
  | HFn p s => (set_pk w p (kw_fn (pk w p) s (match k_files (pk w p) with
                                              | [] => [s] | _ :: r => s :: r end)), Ok None)
  | HReset p => (hmask_reset w p, Ok None)
  | HDuration p d s b => harr (hduration w p d s b)
  | HStartstop p a b ap => harr (hstartstop w p a b ap)
  | HAppend p q => hunit (happend w p q)
  | HCall p ch part nof => harr (hcall w p ch part nof)
  end.

(** Calls one after the other, exceptions caught between them
    (channelpack/pack.py l.199-465). *)
Definition hrun (w : world) (l : list hop) : world := fold_left (fun w o => fst (hexec w o)) l w.
