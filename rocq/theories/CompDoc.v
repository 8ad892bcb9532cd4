(** * OLE2 compound documents: channelpack/xlrd/compdoc.py

    mem is a string of bytes. Messages to the logfile and DEBUG are not
    modelled. Loops that need not end in Python are recursion on fuel; None
    means that the fuel did not do. The fuel given in [get_stream], [family_of]
    and [init] is enough whenever any is (theorems C51_terminates, C52_returns), and the
    rest is [NonTermination], or [RecursionError] for the recursion of
    [family_of]. *)

From Coq Require Import ZArith.
From Verif Require Import PyBase PyFloat Dbf XlStruct.
Open Scope Z_scope.

(** l[a:b] for any ints (compdoc.py l.297, 318, 458). *)
Definition py_bound (n i : Z) : Z := if i <? 0 then Z.max 0 (i + n) else Z.min i n.
(** l[a:b] itself (compdoc.py l.297, 318, 458). *)
Definition pyslice {A} (l : list A) (a b : Z) : list A :=
  let n := Z.of_nat (length l) in
  let a := py_bound n a in
  let b := py_bound n b in
  firstn (Z.to_nat (b - a)) (skipn (Z.to_nat a) l).

(** compdoc.py l.23-27. *)
Definition EOCSID : Z := -2.
(** compdoc.py l.24. *)
Definition FREESID : Z := -1.
(** compdoc.py l.26. *)
Definition MSATSID : Z := -4.

(** The test and the assignment of self.seen[s] (compdoc.py l.292-295,
    309-312; an array of unsigned bytes, l.123). *)
Definition mark (seen : list Z) (seen_id : option Z) (s : Z) : list Z * res unit :=
  match seen_id with
  | None => (seen, Ok tt)
  | Some id =>
      match py_index seen s with
      | None => (seen, Err IndexError)
      | Some v =>
          if negb (v =? 0) then (seen, Err CompDocError)
          else if (id <? 0) || (255 <? id) then (seen, Err OverflowError)
          else (firstn (Z.to_nat s) seen ++ id :: skipn (S (Z.to_nat s)) seen, Ok tt)
      end
  end.

(** The two loops of _get_stream, compdoc.py l.289-330, with size None and
    with a size: todo is what is left of it. *)
Fixpoint get_loop (fuel : nat) (mem : str) (base : Z) (sat : list Z) (sec_size : Z)
  (seen_id : option Z) (seen : list Z) (s : Z) (todo : option Z) (acc : str)
  : option (list Z * res str) :=
  if s <? 0 then Some (seen, if s =? EOCSID then Ok acc else Err AssertionError)
  else
    match fuel with
    | O => None
    | S f =>
        match mark seen seen_id s with
        | (seen, Err e) => Some (seen, Err e)
        | (seen, Ok _) =>
            let start_pos := base + s * sec_size in
            let grab := match todo with
                        | None => sec_size
                        | Some t => if t <? sec_size then t else sec_size
                        end in
            let todo := option_map (fun t => t - grab) todo in
            let acc := acc ++ pyslice mem start_pos (start_pos + grab) in
            match py_index sat s with
            | None => Some (seen, Err CompDocError)
            | Some s' => get_loop f mem base sat sec_size seen_id seen s' todo acc
            end
        end
    end.

(** _get_stream, compdoc.py l.285-332: the marks afterwards and the outcome. *)
Definition get_stream (mem : str) (base : Z) (sat : list Z) (sec_size start_sid : Z)
  (size : option Z) (seen_id : option Z) (seen : list Z) : list Z * res str :=
  match get_loop (S (length sat)) mem base sat sec_size seen_id seen start_sid size [] with
  | Some r => r
  | None => (seen, Err NonTermination)
  end.

(** The loop of _locate_stream, compdoc.py l.425-449. *)
Fixpoint locate_loop (fuel : nat) (ignore : bool) (base : Z) (sat : list Z) (sec_size seen_id found_limit : Z)
  (seen : list Z) (s p start_pos end_pos : Z) (slices : list (Z * Z)) (tot_found : Z)
  : list Z * res (Z * Z * list (Z * Z) * Z * Z) :=
  if s <? 0 then (seen, Ok (start_pos, end_pos, slices, s, tot_found))
  else
    match fuel with
    | O => (seen, Err CompDocError)       (* not reached: tot_found > found_limit comes first *)
    | S f =>
        match py_index seen s with
        | None => (seen, Err IndexError)
        | Some v =>
            if negb (v =? 0) && negb ignore then (seen, Err CompDocError)
            else if (seen_id <? 0) || (255 <? seen_id) then (seen, Err OverflowError)
            else
              let seen := firstn (Z.to_nat s) seen ++ seen_id :: skipn (S (Z.to_nat s)) seen in
              let tot_found := tot_found + 1 in
              if found_limit <? tot_found then (seen, Err CompDocError)
              else
                let '(start_pos, end_pos, slices) :=
                  if s =? p + 1 then (start_pos, end_pos + sec_size, slices)
                  else (base + s * sec_size, base + s * sec_size + sec_size,
                        if 0 <=? p then slices ++ [(start_pos, end_pos)] else slices) in
                match py_index sat s with
                | None => (seen, Err IndexError)
                | Some s' => locate_loop f ignore base sat sec_size seen_id found_limit
                               seen s' s start_pos end_pos slices tot_found
                end
        end
    end.

(** _locate_stream, compdoc.py l.414-458. *)
Definition locate_stream (ignore : bool) (mem : str) (base : Z) (sat : list Z)
  (sec_size start_sid expected : Z) (seen_id : Z) (seen : list Z) : list Z * res (str * Z * Z) :=
  if start_sid <? 0 then (seen, Err CompDocError)
  else
    let found_limit := (expected + sec_size - 1) / sec_size in
    match locate_loop (S (Z.to_nat found_limit)) ignore base sat sec_size seen_id found_limit
            seen start_sid (-99) (-9999) (-8888) [] 0 with
    | (seen, Err e) => (seen, Err e)
    | (seen, Ok (start_pos, end_pos, slices, s, tot_found)) =>
        (seen,
         if negb (s =? EOCSID) then Err AssertionError
         else if negb (tot_found =? found_limit) then Err AssertionError
         else match slices with
              | [] => Ok (mem, start_pos, expected)
              | _ => Ok (flat_map (fun ab => pyslice mem (fst ab) (snd ab)) (slices ++ [(start_pos, end_pos)]),
                         0, expected)
              end)
    end.

(** ** The directory *)

(** DirNode, compdoc.py l.32-51, without colour, tsinfo, children and
    parent. *)
Record dirnode := mkdirnode {
  dn_name : str;
  dn_etype : Z;
  dn_left : Z;
  dn_right : Z;
  dn_root : Z;
  dn_first : Z;
  dn_size : Z
}.

(** The children and the parent of every node (compdoc.py l.47-48). *)
Record kin := mkkin { k_children : list (list Z); k_parent : list Z }.

(** dirlist[parent].children.append(child); dirlist[child].parent = parent
    (compdoc.py l.67-68; both are valid indexes, a negative parent is not
    met). *)
Definition adopt (parent child : Z) (k : kin) : kin :=
  let p := Z.to_nat parent in
  let c := Z.to_nat child in
  mkkin (firstn p (k_children k) ++ (nth p (k_children k) [] ++ [child]) :: skipn (S p) (k_children k))
        (firstn c (k_parent k) ++ parent :: skipn (S c) (k_parent k)).

(** _build_family_tree, compdoc.py l.64-71. *)
Fixpoint family (fuel : nat) (dl : list dirnode) (parent child : Z) (k : kin) : option (res kin) :=
  if child <? 0 then Some (Ok k)
  else
    match fuel with
    | O => None
    | S f =>
        match py_index dl child with
        | None => Some (Err IndexError)
        | Some n =>
            match family f dl parent (dn_left n) k with
            | Some (Ok k) =>
                match family f dl parent (dn_right n) (adopt parent child k) with
                | Some (Ok k) => if dn_etype n =? 1 then family f dl child (dn_root n) k else Some (Ok k)
                | r => r
                end
            | r => r
            end
        end
    end.

(** compdoc.py l.236; an endless recursion is a RecursionError in Python,
    and so is one deeper than its limit, which is not modelled. *)
Definition orphans (dl : list dirnode) : kin := mkkin (map (fun _ => []) dl) (map (fun _ => -1) dl).
(** The calls of _build_family_tree from the root (compdoc.py l.236). *)
Definition family_of (dl : list dirnode) : res kin :=
  match py_index dl 0 with
  | None => Err IndexError
  | Some root => match family (S (length dl)) dl 0 (dn_root root) (orphans dl) with
                 | Some r => r
                 | None => Err RecursionError
                 end
  end.

(** bytes.decode('utf_16_le') (compdoc.py l.46): two bytes per unit, pairs of
    surrogates joined. *)
Fixpoint utf16_units (b : str) : res (list N) :=
  match b with
  | [] => Ok []
  | [_] => Err UnicodeError
  | lo :: hi :: b' => do us <- utf16_units b'; Ok ((lo + 256 * hi)%N :: us)
  end.
(** The first unit of a pair (compdoc.py l.46). *)
Definition high_surrogate (u : N) : bool := ((55296 <=? u) && (u <? 56320))%N.
(** The second unit of a pair (compdoc.py l.46). *)
Definition low_surrogate (u : N) : bool := ((56320 <=? u) && (u <? 57344))%N.
(** The units as characters; a lone surrogate is refused (compdoc.py l.46). *)
Fixpoint utf16_join (us : list N) : res str :=
  match us with
  | [] => Ok []
  | u :: us' =>
      if low_surrogate u then Err UnicodeError
      else if high_surrogate u then
        match us' with
        | v :: us'' => if low_surrogate v
                       then do s <- utf16_join us''; Ok ((65536 + (u - 55296) * 1024 + (v - 56320))%N :: s)
                       else Err UnicodeError
        | [] => Err UnicodeError
        end
      else do s <- utf16_join us'; Ok (u :: s)
  end.
(** bytes.decode('utf_16_le') itself (compdoc.py l.46). *)
Definition utf16_le (b : str) : res str := do us <- utf16_units b; utf16_join us.

(** DirNode.__init__, compdoc.py l.34-51, on the 128 (or fewer) bytes of an
    entry; unpack of l.38-40, of l.41-42 and of l.49 each need all their bytes. *)
Definition dirnode_of (dent : str) : res dirnode :=
  if negb (Nat.eqb (length (bytes_at 64 16 dent)) 16) then Err StructError
  else if negb (Nat.eqb (length (bytes_at 116 8 dent)) 8) then Err StructError
  else
    let cbufsize := le_value (bytes_at 64 2 dent) in
    do name <- (if cbufsize =? 0 then Ok [] else utf16_le (pyslice dent 0 (cbufsize - 2)));
    Ok (mkdirnode name (le_value (bytes_at 66 1 dent))
          (le_signed (bytes_at 68 4 dent)) (le_signed (bytes_at 72 4 dent)) (le_signed (bytes_at 76 4 dent))
          (le_signed (bytes_at 116 4 dent)) (le_signed (bytes_at 120 4 dent))).

(** The chunks of 128 bytes, compdoc.py l.232-234. *)
Fixpoint chunks (fuel : nat) (n : nat) (b : str) : list str :=
  match fuel, b with
  | S f, _ :: _ => firstn n b :: chunks f n (skipn n b)
  | _, _ => []
  end.

(** ** The document *)

Record cdoc := mkcdoc {
  cd_mem : str;
  cd_ignore : bool;
  cd_sec_size : Z;
  cd_short_sec_size : Z;
  cd_min_std : Z;
  cd_data_len : Z;
  cd_SAT : list Z;
  cd_SSAT : list Z;
  cd_SSCS : option str;     (* None: the text "", not bytes (l.252) *)
  cd_dirlist : list dirnode;
  cd_kin : kin;
  cd_seen : list Z
}.

(** unpack('<%di' % n, b) (compdoc.py l.169, 207, 273). *)
Fixpoint ints (n : nat) (b : str) : list Z :=
  match n with O => [] | S n' => le_signed (firstn 4 b) :: ints n' (skipn 4 b) end.
(** The same when the size is right, else struct.error (compdoc.py l.169, 207,
    273). *)
Definition unpack_ints (n : Z) (b : str) : res (list Z) :=
  if Z.of_nat (length b) =? 4 * n then Ok (ints (Z.to_nat n) b) else Err StructError.

(** The loop over the extension sectors of the MSAT, compdoc.py l.148-170. *)
Fixpoint msatx_loop (fuel : nat) (mem : str) (sec_size : Z) (seen : list Z) (sid : Z) (msat : list Z)
  : res (list Z * list Z) :=
  if (sid =? EOCSID) || (sid =? FREESID) || (sid =? MSATSID) then Ok (msat, seen)
  else if Z.of_nat (length seen) <=? sid then Err CompDocError
  else if sid <? 0 then Err CompDocError
  else
    match fuel with
    | O => Err CompDocError              (* not reached: a marked sector comes first *)
    | S f =>
        match mark seen (Some 1) sid with
        | (_, Err e) => Err e
        | (seen, Ok _) =>
            let offset := 512 + sec_size * sid in
            do more <- unpack_ints (sec_size / 4) (pyslice mem offset (offset + sec_size));
            let msat := msat ++ more in
            msatx_loop f mem sec_size seen (last msat 0) (removelast msat)
        end
    end.

(** The SAT, compdoc.py l.183-207. *)
Fixpoint sat_loop (mem : str) (sec_size : Z) (seen : list Z) (msat : list Z) : res (list Z * list Z) :=
  match msat with
  | [] => Ok ([], seen)
  | msid :: msat' =>
      if (msid =? FREESID) || (msid =? EOCSID) then sat_loop mem sec_size seen msat'
      else if Z.of_nat (length seen) <=? msid then sat_loop mem sec_size seen msat'
      else if msid <? -2 then Err CompDocError
      else
        match mark seen (Some 2) msid with
        | (_, Err e) => Err e
        | (seen, Ok _) =>
            let offset := 512 + sec_size * msid in
            do sids <- unpack_ints (sec_size / 4) (pyslice mem offset (offset + sec_size));
            do (rest, seen) <- sat_loop mem sec_size seen msat';
            Ok (sids ++ rest, seen)
        end
  end.

(** The SSAT, compdoc.py l.265-277; nsecs bounds the loop. *)
Fixpoint ssat_loop (nsecs : nat) (mem : str) (sat : list Z) (sec_size : Z) (seen : list Z) (sid : Z)
  : res (list Z * list Z) :=
  match nsecs with
  | O => if sid =? EOCSID then Ok ([], seen) else Err AssertionError
  | S n =>
      if sid <? 0 then Err AssertionError
      else
        match mark seen (Some 5) sid with
        | (_, Err e) => Err e
        | (seen, Ok _) =>
            let offset := 512 + sid * sec_size in
            do news <- unpack_ints (sec_size / 4) (pyslice mem offset (offset + sec_size));
            match py_index sat sid with
            | None => Err IndexError
            | Some sid' =>
                do (rest, seen) <- ssat_loop n mem sat sec_size seen sid';
                Ok (news ++ rest, seen)
            end
        end
  end.

(** SIGNATURE, compdoc.py l.21. *)
Definition SIGNATURE : str := [208; 207; 17; 224; 161; 177; 26; 225]%N.

(** CompDoc.__init__, compdoc.py l.84-283. A sector size below 8 divides by
    zero (l.139-140). *)
Definition init (mem : str) (ignore : bool) : res cdoc :=
  if negb (str_eqb (bytes_at 0 8 mem) SIGNATURE) then Err CompDocError
  else if negb (str_eqb (bytes_at 28 2 mem) [254; 255]%N) then Err CompDocError
  else if negb (Nat.eqb (length (bytes_at 30 4 mem)) 4) then Err StructError
  else
    let ssz := le_value (bytes_at 30 2 mem) in
    let sssz := le_value (bytes_at 32 2 mem) in
    let ssz := if 20 <? ssz then 9 else ssz in
    let sssz := if ssz <? sssz then 6 else sssz in
    let sec_size := 2 ^ ssz in
    if negb (Nat.eqb (length (bytes_at 44 32 mem)) 32) then Err StructError
    else
      let field k := le_signed (bytes_at (44 + 4 * k) 4 mem) in
      let dir_first := field 1%nat in
      let min_std := field 3%nat in
      let ssat_first := field 4%nat in
      let ssat_secs := field 5%nat in
      let msatx_first := field 6%nat in
      let msatx_secs := field 7%nat in
      let data_len := Z.of_nat (length mem) - 512 in
      let data_secs := data_len / sec_size + (if data_len mod sec_size =? 0 then 0 else 1) in
      let seen := repeat 0 (Z.to_nat data_secs) in
      do msat <- unpack_ints 109 (bytes_at 76 436 mem);
      if sec_size / 4 <=? 1 then Err OtherError
      else
        do (msat, seen) <-
          (if (msatx_secs =? 0) && ((msatx_first =? EOCSID) || (msatx_first =? FREESID) || (msatx_first =? 0))
           then Ok (msat, seen)
           else msatx_loop (S (length seen)) mem sec_size seen msatx_first msat);
        do (sat, seen) <- sat_loop mem sec_size seen msat;
        let '(seen, r) := get_stream mem 512 sat sec_size dir_first None (Some 3) seen in
        do dbytes <- r;
        do dirlist <- mapM dirnode_of (chunks (length dbytes) 128 dbytes);
        do k <- family_of dirlist;
        match py_index dirlist 0 with
        | None => Err IndexError
        | Some root =>
            if negb (dn_etype root =? 5) then Err AssertionError
            else
              let '(seen, r) :=
                if (dn_first root <? 0) || (dn_size root =? 0) then (seen, Ok None)
                else let '(seen, r) := get_stream mem 512 sat sec_size (dn_first root) (Some (dn_size root)) (Some 4) seen in
                     (seen, do b <- r; Ok (Some b)) in
              do sscs <- r;
              do (ssat, seen) <-
                (if 0 <? dn_size root then
                   if ssat_secs <? 0 then Err AssertionError
                   else ssat_loop (Z.to_nat ssat_secs) mem sat sec_size seen ssat_first
                 else Ok ([], seen));
              Ok (mkcdoc mem ignore sec_size (2 ^ sssz) min_std data_len sat ssat sscs dirlist k seen)
        end.

(** str.lower() as far as it matters for a comparison with ASCII text: other
    characters with an ASCII lower case are only the Kelvin sign (k) and the
    dotted capital I, whose lower case is longer than one character
    (compdoc.py l.340). *)
Definition lower_name (s : str) : str :=
  map (fun c => if is_upper c then (c + 32)%N else if (c =? 8490)%N then 107%N else c) s.

(** _dir_search, compdoc.py l.334-350; path is not empty. *)
Fixpoint dir_search (path : list str) (dl : list dirnode) (k : kin) (storage : Z) : res (option Z) :=
  match path with
  | [] => Err IndexError
  | head :: tail =>
      match find (fun c => match py_index dl c with
                           | Some n => str_eqb (lower_name (dn_name n)) (lower_name head)
                           | None => false
                           end) (nth (Z.to_nat storage) (k_children k) []) with
      | None => Ok None
      | Some child =>
          match py_index dl child with
          | None => Err IndexError
          | Some n =>
              if dn_etype n =? 2 then Ok (Some child)
              else if dn_etype n =? 1 then
                match tail with [] => Err CompDocError | _ => dir_search tail dl k child end
              else Err CompDocError
          end
      end
  end.

(** A short stream (compdoc.py l.370-372, 406-412): the pieces of a text cannot
    be joined to bytes (l.332). *)
Definition short_stream (cd : cdoc) (d : dirnode) : list Z * res str :=
  match cd_SSCS cd with
  | Some b => get_stream b 0 (cd_SSAT cd) (cd_short_sec_size cd) (dn_first d) (Some (dn_size d)) None (cd_seen cd)
  | None =>
      let '(seen, r) := get_stream [] 0 (cd_SSAT cd) (cd_short_sec_size cd) (dn_first d) (Some (dn_size d)) None (cd_seen cd) in
      (seen, do b <- r; if dn_first d <? 0 then Ok b else Err TypeError)
  end.

(** get_named_stream, compdoc.py l.353-372; path is qname.split("/"). *)
Definition get_named_stream (path : list str) (cd : cdoc) : cdoc * res (option str) :=
  match dir_search path (cd_dirlist cd) (cd_kin cd) 0 with
  | Err e => (cd, Err e)
  | Ok None => (cd, Ok None)
  | Ok (Some did) =>
      match py_index (cd_dirlist cd) did with
      | None => (cd, Err IndexError)
      | Some d =>
          let '(seen, r) :=
            if cd_min_std cd <=? dn_size d
            then get_stream (cd_mem cd) 512 (cd_SAT cd) (cd_sec_size cd) (dn_first d) (Some (dn_size d))
                   (Some (did + 6)) (cd_seen cd)
            else short_stream cd d in
          (mkcdoc (cd_mem cd) (cd_ignore cd) (cd_sec_size cd) (cd_short_sec_size cd) (cd_min_std cd)
             (cd_data_len cd) (cd_SAT cd) (cd_SSAT cd) (cd_SSCS cd) (cd_dirlist cd) (cd_kin cd) seen,
           do b <- r; Ok (Some b))
      end
  end.

(** locate_named_stream, compdoc.py l.374-412. *)
Definition locate_named_stream (path : list str) (cd : cdoc) : cdoc * res (option (str * Z * Z)) :=
  match dir_search path (cd_dirlist cd) (cd_kin cd) 0 with
  | Err e => (cd, Err e)
  | Ok None => (cd, Ok None)
  | Ok (Some did) =>
      match py_index (cd_dirlist cd) did with
      | None => (cd, Err IndexError)
      | Some d =>
          if cd_data_len cd <? dn_size d then (cd, Err CompDocError)
          else
            let '(seen, r) :=
              if cd_min_std cd <=? dn_size d
              then locate_stream (cd_ignore cd) (cd_mem cd) 512 (cd_SAT cd) (cd_sec_size cd) (dn_first d)
                     (dn_size d) (did + 6) (cd_seen cd)
              else let '(seen, r) := short_stream cd d in
                   (seen, do b <- r; Ok (b, 0, dn_size d)) in
            (mkcdoc (cd_mem cd) (cd_ignore cd) (cd_sec_size cd) (cd_short_sec_size cd) (cd_min_std cd)
               (cd_data_len cd) (cd_SAT cd) (cd_SSAT cd) (cd_SSCS cd) (cd_dirlist cd) (cd_kin cd) seen,
             do b <- r; Ok (Some b))
      end
  end.
