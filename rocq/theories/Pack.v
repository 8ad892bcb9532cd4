(** * Model of channelpack/pack.py: the ChannelPack class, value semantics

    A pack is a record of values. Sharing of array and dict objects between
    packs is the subject of PackHeap.v; here every pack owns its arrays.
    Arguments of data/names assignment are dicts already accepted by NpDict /
    IntKeyDict (their acceptance is modelled in Dicts.v). *)

From Verif Require Import PyBase PyFloat NumPy DataUtils.

(** Instance attributes of ChannelPack, channelpack/pack.py l.214-221 and
    l.232 (the cached slices). *)
Record pack := mkpack {
  p_data : dict arr;
  p_names : dict val;
  p_mask : arr;
  p_cache : list (nat * nat);
  p_nof : pyobj;
  p_mindur : option Z;
  p_prefix : str;
  p_fn : str;
  p_files : list str
}.

(** Field updates (object.__setattr__, channelpack/pack.py l.231, 239, 243,
    246, 254, 256). *)
Definition with_data (p : pack) d := mkpack d (p_names p) (p_mask p) (p_cache p) (p_nof p) (p_mindur p) (p_prefix p) (p_fn p) (p_files p).
(** self.names = n (channelpack/pack.py l.246, 256). *)
Definition with_names (p : pack) n := mkpack (p_data p) n (p_mask p) (p_cache p) (p_nof p) (p_mindur p) (p_prefix p) (p_fn p) (p_files p).
(** self.mask = m (channelpack/pack.py l.231). *)
Definition with_mask (p : pack) m := mkpack (p_data p) (p_names p) m (p_cache p) (p_nof p) (p_mindur p) (p_prefix p) (p_fn p) (p_files p).
(** self._cached_slicelist = c (channelpack/pack.py l.232, 356; always
    _slicelist(), l.397-406: the slicelist of the mask). *)
Definition with_cache (p : pack) c := mkpack (p_data p) (p_names p) (p_mask p) c (p_nof p) (p_mindur p) (p_prefix p) (p_fn p) (p_files p).
(** self.nof = v (channelpack/pack.py l.256). *)
Definition with_nof (p : pack) v := mkpack (p_data p) (p_names p) (p_mask p) (p_cache p) v (p_mindur p) (p_prefix p) (p_fn p) (p_files p).
(** self.mindur = v (channelpack/pack.py l.239). *)
Definition with_mindur (p : pack) v := mkpack (p_data p) (p_names p) (p_mask p) (p_cache p) (p_nof p) v (p_prefix p) (p_fn p) (p_files p).
(** self.FALLBACK_PREFIX = v (channelpack/pack.py l.256). *)
Definition with_prefix (p : pack) v := mkpack (p_data p) (p_names p) (p_mask p) (p_cache p) (p_nof p) (p_mindur p) v (p_fn p) (p_files p).
(** self.fn = v (channelpack/pack.py l.254). *)
Definition with_fn (p : pack) v := mkpack (p_data p) (p_names p) (p_mask p) (p_cache p) (p_nof p) (p_mindur p) (p_prefix p) v (p_files p).
(** self.filenames = v, or changed in place (channelpack/pack.py l.251-256). *)
Definition with_files (p : pack) v := mkpack (p_data p) (p_names p) (p_mask p) (p_cache p) (p_nof p) (p_mindur p) (p_prefix p) (p_fn p) v.

(** ** Masks *)

(** sc.stop - sc.start, channelpack/pack.py l.348. *)
Definition part_duration (sc : nat * nat) : Z := (Z.of_nat (snd sc) - Z.of_nat (fst sc))%Z.

(** Does the loop body make this slice false? channelpack/pack.py l.349, 351. *)
Definition duration_hits (req : Z) (mindur : bool) (sc : nat * nat) : bool :=
  if ((part_duration sc <? req)%Z && mindur)%bool then true
  else ((req <? part_duration sc)%Z && negb mindur)%bool.

(** Loop of duration(), channelpack/pack.py l.347-352. *)
Fixpoint duration_loop (req : Z) (mindur : bool) (cache : list (nat * nat)) (m : arr) : arr :=
  match cache with
  | [] => m
  | sc :: cache' =>
      duration_loop req mindur cache'
        (if duration_hits req mindur sc then np_set_false sc m else m)
  end.

(** duration() once the requirement is an int: loop, then refresh the cached
    slices, channelpack/pack.py l.347-356. *)
Definition duration_req (req : Z) (mindur : bool) (p : pack) : pack :=
  let m := duration_loop req mindur (p_cache p) (p_mask p) in
  with_cache (with_mask p m) (slicelist m).

(** int(duration * samplerate), channelpack/pack.py l.345. *)
Definition req_duration (d s : pynum) : res Z := do x <- pymul d s; py_int x.

(** duration(duration, samplerate, mindur), channelpack/pack.py l.324-358. *)
Definition duration (d s : pynum) (mindur : bool) (p : pack) : pack * res arr :=
  match req_duration d s with
  | Err e => (p, Err e)
  | Ok req => let p' := duration_req req mindur p in (p', Ok (p_mask p'))
  end.

(** `if self.mindur is not None: self.duration(self.mindur, samplerate=1,
    mindur=True)`, channelpack/pack.py l.233-234, 240-241. *)
Definition apply_mindur (p : pack) : pack :=
  match p_mindur p with
  | None => p
  | Some m => fst (duration (PInt m) (PInt 1) true p)
  end.

(** self.mask = a for an array, channelpack/pack.py l.230-234. *)
Definition set_mask_arr (a : arr) (p : pack) : pack :=
  apply_mindur (with_cache (with_mask p a) (slicelist a)).

(** mask_reset(), channelpack/pack.py l.309-322. *)
Definition mask_reset (p : pack) : pack :=
  match zsort (dkeys (p_data p)) with
  | [] => set_mask_arr (np_array []) p                                   (* l.318-319 *)
  | lowest :: _ =>
      match dget lowest (p_data p) with
      | Some a => set_mask_arr (np_self_eq a) p                          (* l.321-322 *)
      | None => p                                (* not reachable: lowest is a key *)
      end
  end.

(** ** Attribute assignment, channelpack/pack.py l.223-256.
    Each returns the new pack and the outcome. *)

Definition is_str_lit (o : pyobj) (s : str) : bool :=
  match o with OStr t => str_eqb t s | _ => false end.

(** Is it a numpy array? (channelpack/pack.py l.224, 228.) *)
Definition is_array (v : pyobj) : bool :=
  match v with OArr _ | OArrN _ => true | _ => false end.

(** value in nofvalids, channelpack/pack.py l.196, 224. *)
Definition nof_valid (v : pyobj) : bool :=
  match v with
  | ONone => true
  | _ => is_str_lit v (lit "nan") || is_str_lit v (lit "filter")
  end.

(** l.224-225, 256. Arrays compare elementwise, so that the one-element array
    of 'nan' is found in nofvalids; arrays are not modelled here (OtherError). *)
Definition set_nof (v : pyobj) (p : pack) : pack * res unit :=
  if is_array v then (p, Err OtherError)
  else if nof_valid v then (with_nof p v, Ok tt) else (p, Err ValueError).

(** l.226-227, 256. *)
Definition set_prefix (v : pyobj) (p : pack) : pack * res unit :=
  match v with OStr s => (with_prefix p s, Ok tt) | _ => (p, Err TypeError) end.

(** l.228-234. An array of ndim <> 1 is accepted by the code; such masks are
    not modelled (OtherError). *)
Definition set_mask (v : pyobj) (p : pack) : pack * res unit :=
  match v with
  | OArr a => (set_mask_arr a p, Ok tt)
  | OArrN _ => (p, Err OtherError)
  | _ => (p, Err TypeError)
  end.

(** l.235-241; bool is an int. *)
Definition set_mindur (v : pyobj) (p : pack) : pack * res unit :=
  match v with
  | ONone => (apply_mindur (with_mindur p None), Ok tt)
  | OInt z => (apply_mindur (with_mindur p (Some z)), Ok tt)
  | OBool b => (apply_mindur (with_mindur p (Some (if b then 1 else 0)%Z)), Ok tt)
  | _ => (p, Err TypeError)
  end.

(** l.242-244: a value which is not an NpDict is converted and the mask reset. *)
Definition set_data_plain (d : dict arr) (p : pack) : pack := mask_reset (with_data p d).

(** l.255-256: an NpDict is stored as it is. *)
Definition set_data_npdict (d : dict arr) (p : pack) : pack := with_data p d.

(** l.245-246 and 255-256 (no difference in value semantics). *)
Definition set_names (n : dict val) (p : pack) : pack := with_names p n.

(** l.247-254. *)
Definition set_fn (v : pyobj) (p : pack) : pack * res unit :=
  match v with
  | OStr s =>
      let files := match p_files p with
                   | [] => [s]                                          (* l.250-251 *)
                   | _ :: r => s :: r                                   (* l.252-253 *)
                   end in
      (with_fn (with_files p files) s, Ok tt)
  | _ => (p, Err TypeError)                                             (* l.248-249 *)
  end.

(** __init__(data, names), channelpack/pack.py l.199-221, after the dicts
    have been accepted. The attributes mask and cached slices do not exist
    before l.221; they start empty here and are set by mask_reset. *)
Definition new_pack (data : dict arr) (names : dict val) : pack :=
  let p := mkpack data names (mkarr Kf []) [] ONone None (lit "ch") [] [] in
  mask_reset (fst (set_fn (OStr []) p)).

(** __delattr__, channelpack/pack.py l.258-263: the outcome for an existing
    attribute called [name]. *)
Definition delattr (name : str) : res unit :=
  if existsb (str_eqb name) [lit "FALLBACK_PREFIX"; lit "data"; lit "fn";
                             lit "filenames"; lit "names"; lit "nof"; lit "mindur"]
  then Err AttributeError else Ok tt.

(** ** Methods *)

(** parts(), channelpack/pack.py l.408-417. *)
Definition parts (p : pack) : list nat := seq 0 (length (p_cache p)).

(** startstop(startb, stopb, apply), channelpack/pack.py l.360-395. *)
Definition startstop (startb stopb : list val) (apply : bool) (p : pack) : pack * res arr :=
  let result := np_array (map VBool (startstop_bool startb stopb)) in      (* l.392 *)
  if apply then
    match np_iand (p_mask p) result with                                   (* l.394 *)
    | Err e => (p, Err e)
    | Ok m => (set_mask_arr m p, Ok result)
    end
  else (p, Ok result).

(** Equality of the key sets, channelpack/pack.py l.294, 302. *)
Definition same_keys {V W} (a : dict V) (b : dict W) : bool :=
  forallb (fun k => dmem k b) (dkeys a) && forallb (fun k => dmem k a) (dkeys b).

(** `for key in other.data: self.data[key] = np.append(...)`,
    channelpack/pack.py l.296-297. *)
Fixpoint append_loop (other : dict arr) (d : dict arr) : dict arr :=
  match other with
  | [] => d
  | (k, b) :: other' =>
      append_loop other'
        match dget k d with
        | Some a => dset k (np_append a b) d
        | None => d                              (* not reachable: same key sets *)
        end
  end.

(** append_pack(other), channelpack/pack.py l.265-307. *)
Definition append_pack (other : pack) (p : pack) : pack * res unit :=
  let data_step : res pack :=
    match p_data p, p_data other with
    | [], _ => Ok (set_data_npdict (p_data other) p)                       (* l.291-292 *)
    | _ :: _, [] => Ok p
    | _ :: _, _ :: _ =>
        if same_keys (p_data p) (p_data other)                             (* l.294 *)
        then Ok (with_data p (append_loop (p_data other) (p_data p)))
        else Err ValueError
    end in
  match data_step with
  | Err e => (p, Err e)
  | Ok p1 =>
      match p_names p1, p_names other with
      | [], _ => (mask_reset (with_files (set_names (p_names other) p1)
                                (p_files p1 ++ p_files other)), Ok tt)     (* l.299-300 *)
      | _ :: _, [] => (mask_reset (with_files p1 (p_files p1 ++ p_files other)), Ok tt)
      | _ :: _, _ :: _ =>
          if same_keys (p_names p1) (p_names other)                        (* l.302 *)
          then (mask_reset (with_files p1 (p_files p1 ++ p_files other)), Ok tt)
          else (p1, Err ValueError)                                        (* l.303 *)
      end
  end.

(** ** Lookup *)

(** A channel reference, int or str (channelpack/pack.py l.428). *)
Inductive chref := ChInt (z : Z) | ChStr (s : str).

(** First entry of names whose value equals [s], channelpack/pack.py l.542-543. *)
Fixpoint find_name (s : str) (n : dict val) : option Z :=
  match n with
  | [] => None
  | (k, VStr t) :: n' => if str_eqb s t then Some k else find_name s n'
  | _ :: n' => find_name s n'
  end.

(** re.match(FALLBACK_PREFIX + r'(\d+)', ch), channelpack/pack.py l.552-556.
    The prefix is matched literally: it is documented to be a valid Python
    variable name, so it holds no special regex characters. *)
Definition match_fallback (prefix ch : str) : option Z :=
  match strip_prefix prefix ch with
  | None => None
  | Some rest => match fst (span is_decimal rest) with
                 | [] => None
                 | ds => Some (digits_val 0 (to_ascii ds))
                 end
  end.

(** _datakey(ch), channelpack/pack.py l.518-560. *)
Definition datakey (p : pack) (ch : chref) : res Z :=
  match ch with
  | ChInt k => if dmem k (p_data p) then Ok k else Err KeyError              (* l.535-540 *)
  | ChStr s =>
      match find_name s (p_names p) with
      | Some k => if dmem k (p_data p) then Ok k else Err KeyError           (* l.542-547 *)
      | None =>
          match match_fallback (p_prefix p) s with
          | Some k => if dmem k (p_data p) then Ok k else Err KeyError       (* l.555-560 *)
          | None => Err KeyError                                             (* l.560 *)
          end
      end
  end.

(** self.data[key] for a resolved key (channelpack/pack.py l.449-465). *)
Definition get_data (p : pack) (k : Z) : res arr :=
  match dget k (p_data p) with Some a => Ok a | None => Err KeyError end.

(** bool(self.nof), channelpack/pack.py l.462. *)
Definition obj_truthy (o : pyobj) : bool :=
  match o with
  | ONone => false
  | OBool b => b
  | OInt z => negb (Z.eqb z 0)
  | OFloat f => float_truthy f
  | OStr s | OBytes s => match s with [] => false | _ => true end
  | OTuple l | OList l | OSet l => match l with [] => false | _ => true end
  | ODict l | OMapping l => match l with [] => false | _ => true end
  | _ => true
  end.

(** __call__(ch, part, nof), channelpack/pack.py l.419-465. Simplified: an
    array given as nof (its == is elementwise) counts as none of the three
    words. *)
Definition call (p : pack) (ch : chref) (part : option Z) (nof : pyobj) : res arr :=
  do key <- datakey p ch;                                                    (* l.444 *)
  do a <- get_data p key;
  match part with
  | Some i => match py_index (p_cache p) i with                              (* l.446-451 *)
              | Some sc => Ok (np_slice a sc)
              | None => Err IndexError
              end
  | None =>
      if is_str_lit nof (lit "nan") then masked a (p_mask p)                 (* l.452 *)
      else if is_str_lit nof (lit "filter") then np_index a (p_mask p)       (* l.454 *)
      else if is_str_lit nof (lit "ignore") then Ok a                        (* l.456 *)
      else if is_str_lit (p_nof p) (lit "nan") then masked a (p_mask p)      (* l.458 *)
      else if is_str_lit (p_nof p) (lit "filter") then np_index a (p_mask p) (* l.460 *)
      else if obj_truthy (p_nof p) then Err ValueError                       (* l.462 *)
      else Ok a                                                              (* l.465 *)
  end.

(** ** records *)

(** Python keywords refused as namedtuple fields (channelpack/pack.py l.510). *)
Definition keywords : list str :=
  map lit ["False"; "None"; "True"; "and"; "as"; "assert"; "async"; "await"; "break";
           "class"; "continue"; "def"; "del"; "elif"; "else"; "except"; "finally"; "for";
           "from"; "global"; "if"; "import"; "in"; "is"; "lambda"; "nonlocal"; "not"; "or";
           "pass"; "raise"; "return"; "try"; "while"; "with"; "yield"]%string.

(** Which characters begin an identifier in str.isidentifier(), but the
    underscore, up to U+00FF (channelpack/pack.py l.510). *)
Definition begins_field (c : N) : bool :=
  is_alpha c || N.eqb c 181 || N.leb 192 c && N.leb c 255 && negb (N.eqb c 215) && negb (N.eqb c 247).

(** Which characters go on an identifier, up to U+00FF (channelpack/pack.py
    l.510). *)
Definition goes_on (c : N) : bool := begins_field c || N.eqb c 95 || N.eqb c 183 || is_digit c.

(** Characters not modelled in field names: those beyond U+00FF, and the two
    indicators that the compiler takes for the letters a and o (namedtuple,
    channelpack/pack.py l.510). *)
Definition foreign (c : N) : bool := N.leb 256 c || N.eqb c 170 || N.eqb c 186.

(** A field name refused by collections.namedtuple (channelpack/pack.py l.510):
    no identifier, a keyword, or with a leading underscore. *)
Definition refused_field (s : str) : bool :=
  match s with
  | [] => true
  | c :: s' => negb (foreign c || begins_field c) || existsb (fun d => negb (foreign d || goes_on d)) s'
  end || existsb (str_eqb s) keywords.

(** Duplicate field names are refused (namedtuple, channelpack/pack.py l.510). *)
Fixpoint distinct (l : list str) : bool :=
  match l with
  | [] => true
  | s :: l' => negb (existsb (str_eqb s) l') && distinct l'
  end.

(** The field names of records(), channelpack/pack.py l.504-507; None when a
    name is not a string: the str() of such a name is then no valid field and
    namedtuple raises ValueError (not modelled: the names nan and inf, floats
    whose str() is a valid field). *)
Definition record_names (p : pack) (fallback : bool) : option (list str) :=
  if fallback then Some (map (fun k => p_prefix p ++ str_of_Z k) (zsort (dkeys (p_data p))))
  else all_some (map (fun k => match dget k (p_names p) with
                               | Some (VStr s) => Some s
                               | _ => None
                               end) (zsort (dkeys (p_names p)))).

(** records(part, nof, fallback) fully iterated: the field names and the
    rows, channelpack/pack.py l.467-516. *)
Definition records (p : pack) (part : option Z) (nof : pyobj) (fallback : bool)
  : res (list str * list (list val)) :=
  match record_names p fallback with
  | None => Err ValueError
  | Some names =>
      if existsb refused_field names || negb (distinct names) then Err ValueError  (* l.509-512 *)
      else if existsb (existsb foreign) names then Err NotModelled
      else
        do cols <- mapM (fun s => call p (ChStr s) part nof) names;          (* l.514 *)
        Ok (names, zipn (map aelems cols))
  end.

(** ** name *)

(** str.split() without argument (channelpack/pack.py l.594;
    channelpack/readtext.py l.475 with delimiter None). [cur] is the reversed
    word under construction. *)
Fixpoint words_aux (ws : N -> bool) (cur : str) (s : str) : list str :=
  match s with
  | [] => match cur with [] => [] | _ => [rev cur] end
  | c :: s' => if ws c then match cur with
                            | [] => words_aux ws [] s'
                            | _ => rev cur :: words_aux ws [] s'
                            end
               else words_aux ws (c :: cur) s'
  end.
(** s.split() (channelpack/pack.py l.594). *)
Definition words (ws : N -> bool) (s : str) : list str := words_aux ws [] s.

(** The firstwordonly argument, channelpack/pack.py l.573-576: false, True,
    a regex given by its findall function, anything else. *)
Inductive firstword := FwFalse | FwTrue | FwRegex (findall : str -> list str) | FwOther.

(** The fallback argument: False-like, True, other true value (l.586-589). *)
Inductive fallbackarg := FbFalse | FbTrue | FbOther.

(** name(ch, firstwordonly, fallback), channelpack/pack.py l.562-601. *)
Definition name (p : pack) (ch : chref) (fw : firstword) (fb : fallbackarg) : res val :=
  do key <- datakey p ch;                                                    (* l.584 *)
  match fb with
  | FbTrue => Ok (VStr (p_prefix p ++ str_of_Z key))                         (* l.586-587 *)
  | FbOther => Err TypeError                                                 (* l.588-589 *)
  | FbFalse =>
      let stored := match dget key (p_names p) with
                    | Some v => Ok v | None => Err KeyError end in
      match fw with
      | FwFalse => stored                                                    (* l.591-592 *)
      | FwTrue => do v <- stored;                                            (* l.593-594 *)
                  match v with
                  | VStr s => match words ws_text s with
                              | w :: _ => Ok (VStr w)
                              | [] => Err IndexError
                              end
                  | _ => Err AttributeError
                  end
      | FwRegex findall => do v <- stored;                                   (* l.595-599 *)
                  match v with
                  | VStr s => match findall s with
                              | w :: _ => Ok (VStr w)
                              | [] => Err ValueError
                              end
                  | _ => Err TypeError
                  end
      | FwOther => Err TypeError                                             (* l.600-601 *)
      end
  end.

(** ** Operations as a transition system *)

(** Public operations on a pack; the cited lines are those of the operation
    (channelpack/pack.py l.199-616). *)
Inductive op :=
| OpData (d : dict arr)                       (* pack.data = {...}       l.242-244 *)
| OpNpData (d : dict arr)                     (* pack.data = NpDict      l.255-256 *)
| OpDataItem (k : Z) (a : arr)                (* pack.data[k] = array    l.74-77 *)
| OpNames (n : dict val)                      (* pack.names = {...}      l.245-246 *)
| OpMask (v : pyobj)                          (* pack.mask = v           l.228-234 *)
| OpMindur (v : pyobj)                        (* pack.mindur = v         l.235-241 *)
| OpNof (v : pyobj)                           (* pack.nof = v            l.224-225 *)
| OpPrefix (v : pyobj)                        (* pack.FALLBACK_PREFIX=v  l.226-227 *)
| OpFn (v : pyobj)                            (* pack.fn = v             l.247-254 *)
| OpReset                                     (* pack.mask_reset()       l.309-322 *)
| OpDuration (d s : pynum) (mindur : bool)    (* pack.duration(...)      l.324-358 *)
| OpStartstop (a b : list val) (apply : bool) (* pack.startstop(...)     l.360-395 *)
| OpAppend (other : pack)                     (* pack.append_pack(other) l.265-307 *)
| OpCall (ch : chref) (part : option Z) (nof : pyobj)   (* pack(...)     l.419-465 *)
| OpRecords (part : option Z) (nof : pyobj) (fallback : bool). (*        l.467-516 *)

(** A call of which the result is not used (channelpack/pack.py l.234). *)
Definition forget {A} (r : res A) : res unit :=
  match r with Ok _ => Ok tt | Err e => Err e end.

(** One operation: the pack afterwards (also when an exception is raised) and
    the outcome (channelpack/pack.py l.199-616). *)
Definition exec (o : op) (p : pack) : pack * res unit :=
  match o with
  | OpData d => (set_data_plain d p, Ok tt)
  | OpNpData d => (set_data_npdict d p, Ok tt)
  | OpDataItem k a => (with_data p (dset k a (p_data p)), Ok tt)
  | OpNames n => (set_names n p, Ok tt)
  | OpMask v => set_mask v p
  | OpMindur v => set_mindur v p
  | OpNof v => set_nof v p
  | OpPrefix v => set_prefix v p
  | OpFn v => set_fn v p
  | OpReset => (mask_reset p, Ok tt)
  | OpDuration d s mind => let '(p', r) := duration d s mind p in (p', forget r)
  | OpStartstop a b ap => let '(p', r) := startstop a b ap p in (p', forget r)
  | OpAppend o => append_pack o p
  | OpCall ch part nof => (p, forget (call p ch part nof))
  | OpRecords part nof fb => (p, forget (records p part nof fb))
  end.

(** A history: operations executed one after the other, exceptions caught by
    the caller between them (channelpack/pack.py l.199-616). *)
Definition run (l : list op) (p : pack) : pack :=
  fold_left (fun p o => fst (exec o p)) l p.
