(** * Masks, parts and lookups of a pack: the property theorems *)

From Coq Require Import ZifyBool ZifyNat ZifyN QArith.
From Verif Require Import PyBase PyBaseFacts PyFloat PyFloatFacts SpecChars CharFacts NumPy DataUtils Pack SpecMask SpecPack MaskProofs PackProofs SpecArray ArrayFacts PackThms.
Open Scope nat_scope.

(** C01. After [pack.mask = a] (no mindur), the parts are numbered 0..n-1 and part
k of any channel is the k-th maximal true run of the mask. *)
Theorem C01_parts_are_maximal_runs :
forall p a, p_mindur p = None ->
  exists p' l,
    set_mask (OArr a) p = (p', Ok tt) /\ p_mask p' = a /\
    lists_runs (map counts (aelems a)) l /\
    parts p' = seq 0 (length l) /\
    forall k s e, nth_error l k = Some (s, e) ->
    forall ch key x nof, datakey p' ch = Ok key -> dget key (p_data p') = Some x ->
      call p' ch (Some (Z.of_nat k)) nof = Ok (mkarr (akind x) (between s e (aelems x))).
Proof. exact C01_parts_are_maximal_runs_proof. Qed.
Print Assumptions C01_parts_are_maximal_runs.

Example C01_ex :
  let p := new_pack [(2%Z, np_array [VInt 5; VInt 6; VInt 7; VInt 8])] [(2%Z, VStr (lit "x"))] in
  let p' := fst (set_mask (OArr (barr [true; false; true; true])) p) in
  p_mindur p = None /\ parts p' = [0; 1] /\
  call p' (ChStr (lit "x")) (Some 1%Z) ONone = Ok (np_array [VInt 7; VInt 8]).
Proof. vm_compute. auto. Qed.

(** C01. There is only one list of the maximal runs of a mask. *)
Theorem C01_runs_list_is_unique :
  forall m l l', lists_runs m l -> lists_runs m l' -> l = l'.
Proof. exact C01_runs_list_is_unique_proof. Qed.
Print Assumptions C01_runs_list_is_unique.

Example C01_unique_ex : lists_runs [true; false; true; true] [(0, 1); (2, 4)].
Proof. exact (slicelist_lists_runs (barr [true; false; true; true])). Qed.

(** C01. Every true index is in exactly one part, a false index in none, and
parts are not empty, inside the mask and pairwise disjoint. *)
Theorem C01_true_index_in_exactly_one_part :
  forall m l, lists_runs m l ->
  (forall i, nth i m false = true -> exists k s e, nth_error l k = Some (s, e) /\ s <= i < e /\
     forall k' s' e', nth_error l k' = Some (s', e') -> s' <= i < e' -> k' = k) /\
  (forall k s e i, nth_error l k = Some (s, e) -> s < e /\ e <= length m /\
     (s <= i < e -> nth i m false = true)).
Proof. exact C01_true_index_in_exactly_one_part_proof. Qed.
Print Assumptions C01_true_index_in_exactly_one_part.

Example C01_index_ex : nth 3 [true; false; true; true] false = true /\
  nth_error [(0, 1); (2, 4)] 1 = Some (2, 4).
Proof. split; reflexivity. Qed.

(** C02. In every reachable state whose mask is boolean and as long as the channel,
filtering gives the concatenation of the parts, which is the subsequence of the
elements with a true mask element. *)
Theorem C02_filter_is_concatenation_of_parts :
  forall d n ops p ch key x m,
  p = run ops (new_pack d n) ->
  p_mask p = barr m -> length m = alen x ->
  datakey p ch = Ok key -> dget key (p_data p) = Some x ->
  exists slices,
    mapM (fun k => call p ch (Some (Z.of_nat k)) ONone) (parts p) = Ok slices /\
    call p ch None (OStr (lit "filter")) = Ok (mkarr (akind x) (concat (map aelems slices))) /\
    concat (map aelems slices) = selected m (aelems x).
Proof. exact C02_filter_is_concatenation_of_parts_proof. Qed.
Print Assumptions C02_filter_is_concatenation_of_parts.

Example C02_ex :
  let p := run [OpMask (OArr (barr [true; false; true; true]))]
               (new_pack [(2%Z, np_array [VInt 5; VInt 6; VInt 7; VInt 8])] []) in
  p_mask p = barr [true; false; true; true] /\ datakey p (ChInt 2) = Ok 2%Z /\
  call p (ChInt 2) None (OStr (lit "filter")) = Ok (np_array [VInt 5; VInt 7; VInt 8]).
Proof. vm_compute. auto. Qed.

(** C02. With a boolean mask of another length than the channel, filtering raises
IndexError. *)
Theorem C02_mask_length_mismatch_raises :
  forall p ch key x m,
  p_mask p = barr m -> length m <> alen x ->
  datakey p ch = Ok key -> dget key (p_data p) = Some x ->
  call p ch None (OStr (lit "filter")) = Err IndexError.
Proof. exact C02_mask_length_mismatch_raises_proof. Qed.
Print Assumptions C02_mask_length_mismatch_raises.

Example C02_mismatch_ex :
  let p := fst (set_mask (OArr (barr [true])) (new_pack [(0%Z, np_array [VInt 5; VInt 6])] [])) in
  p_mask p = barr [true] /\ datakey p (ChInt 0) = Ok 0%Z /\ length [true] <> alen (np_array [VInt 5; VInt 6]).
Proof. vm_compute. repeat split; auto. discriminate. Qed.

(** C03. nof='nan': same length, true positions keep their value, false positions
become nan (numeric channels) or None (others). *)
Theorem C03_nan_replaces_masked_out_elements :
  forall p ch key x m,
  p_mask p = barr m -> length m = alen x -> arr_ok x ->
  datakey p ch = Ok key -> dget key (p_data p) = Some x ->
  exists y, call p ch None (OStr (lit "nan")) = Ok y /\ alen y = alen x /\
  forall i, i < alen x ->
    (nth i m false = true ->
     (akind x = Ki \/ akind x = Ku ->
      forall z, nth i (aelems x) VNone = VInt z -> (- 2 ^ 53 <= z <= 2 ^ 53)%Z) ->
     same_value (nth i (aelems x) VNone) (nth i (aelems y) VNone)) /\
    (nth i m false = false ->
     match akind x with
     | Ki | Ku | Kf | Kc => is_nan_val (nth i (aelems y) VNone)
     | _ => nth i (aelems y) VNone = VNone
     end).
Proof. exact C03_nan_replaces_masked_out_elements_proof. Qed.
Print Assumptions C03_nan_replaces_masked_out_elements.

Example C03_ex :
  let x := np_array [VInt 5; VInt 6; VInt 7] in
  let p := fst (set_mask (OArr (barr [true; false; true])) (new_pack [(2%Z, x)] [])) in
  p_mask p = barr [true; false; true] /\ arr_ok x /\ akind x = Ki /\
  call p (ChInt 2) None (OStr (lit "nan"))
  = Ok (mkarr Kf [VFloat (float_of_Z 5); VFloat S754_nan; VFloat (float_of_Z 7)]).
Proof. split; [reflexivity|]. split; [repeat constructor|]. split; vm_compute; reflexivity. Qed.

(** C03. With a mask of another length than the channel nof='nan' raises ValueError,
unless one of them has one element only: then that one goes with every element
of the other, and the array returned is as long as the other. *)
Theorem C03_other_lengths :
  forall p ch key x m n,
  p_mask p = barr m -> length m <> alen x -> arr_ok x ->
  datakey p ch = Ok key -> dget key (p_data p) = Some x ->
  (length m <> 1 -> alen x <> 1 -> call p ch None (OStr (lit "nan")) = Err ValueError) /\
  ((length m = 1 /\ n = alen x) \/ (alen x = 1 /\ n = length m) ->
   exists y, call p ch None (OStr (lit "nan")) = Ok y /\ alen y = n /\
   forall i b v, i < n ->
     (if length m =? 1 then m = [b] else nth_error m i = Some b) ->
     (if alen x =? 1 then aelems x = [v] else nth_error (aelems x) i = Some v) ->
     (b = true ->
      (akind x = Ki \/ akind x = Ku -> forall z, v = VInt z -> (- 2 ^ 53 <= z <= 2 ^ 53)%Z) ->
      same_value v (nth i (aelems y) VNone)) /\
     (b = false ->
      match akind x with
      | Ki | Ku | Kf | Kc => is_nan_val (nth i (aelems y) VNone)
      | _ => nth i (aelems y) VNone = VNone
      end)).
Proof. exact C03_other_lengths_proof. Qed.
Print Assumptions C03_other_lengths.

Example C03_other_lengths_ex :
  let x := np_array [VInt 5; VInt 6] in
  let p m := fst (set_mask (OArr (barr m)) (new_pack [(2%Z, x)] [])) in
  arr_ok x /\
  call (p [false]) (ChInt 2) None (OStr (lit "nan")) = Ok (mkarr Kf [VFloat S754_nan; VFloat S754_nan]) /\
  call (p [true; false; true]) (ChInt 2) None (OStr (lit "nan")) = Err ValueError.
Proof. split; [repeat constructor|]. split; vm_compute; reflexivity. Qed.

(** C03. Equality of the kept integers fails beyond 2^53: 2^53 + 1 becomes 2^53. *)
Theorem C03_integers_beyond_2_53_refuted :
  exists x p y f q,
    p = fst (set_mask (OArr (barr [true; false])) (new_pack [(0%Z, x)] [])) /\ arr_ok x /\
    nth 0 (aelems x) VNone = VInt (2 ^ 53 + 1) /\
    call p (ChInt 0) None (OStr (lit "nan")) = Ok y /\
    nth 0 (aelems y) VNone = VFloat f /\ float_Q f = Some q /\ (q == inject_Z (2 ^ 53))%Q.
Proof. exact C03_integers_beyond_2_53_refuted_proof. Qed.
Print Assumptions C03_integers_beyond_2_53_refuted.

(** C04. The startstop result has the length of the shorter sequence and is true at i
iff some start at j <= i has no stop in [j, i]. apply=False changes nothing. *)
Theorem C04_startstop_last_trigger :
forall p a b, exists r,
  startstop a b false p = (p, Ok r) /\
  alen r = Nat.min (length a) (length b) /\
  forall i, i < Nat.min (length a) (length b) ->
    (nth i (aelems r) VNone = VBool true \/ nth i (aelems r) VNone = VBool false) /\
    (nth i (aelems r) VNone = VBool true <->
     trigger_on (fun j => counts (nth j a VNone)) (fun j => counts (nth j b VNone)) i).
Proof. exact C04_startstop_last_trigger_proof. Qed.
Print Assumptions C04_startstop_last_trigger.

Example C04_ex :
  snd (startstop (map VInt [0; 1; 0; 0; 1; 1]%Z) (map VBool [true; false; false; true; true; false]) false
         (new_pack [] []))
  = Ok (barr [false; true; true; false; false; true]).
Proof. vm_compute. reflexivity. Qed.

(** C05. With triggers as long as the boolean mask, apply=True ands the result into
the mask and then applies mindur; parts describe the new mask, no false element
becomes true, the returned result is that of apply=False and nothing else changes. *)
Theorem C05_startstop_apply :
forall p m a b r,
  p_mask p = barr m -> length a = length m -> length b = length m -> m <> [] ->
  startstop a b false p = (p, Ok r) ->
  exists p' m' l,
    startstop a b true p = (p', Ok r) /\
    p_mask p' = barr m' /\ length m' = length m /\
    match p_mindur p with
    | None => m' = ands m (map counts (aelems r))
    | Some k => removes_runs (fun n => (Z.of_nat n < k)%Z) (ands m (map counts (aelems r))) m'
    end /\
    (forall i, nth i m' false = true -> nth i m false = true) /\
    lists_runs m' l /\ p_cache p' = l /\ parts p' = seq 0 (length l) /\
    p_data p' = p_data p /\ p_names p' = p_names p /\ p_nof p' = p_nof p /\
    p_mindur p' = p_mindur p /\ p_prefix p' = p_prefix p /\ p_fn p' = p_fn p /\ p_files p' = p_files p.
Proof. exact C05_startstop_apply_proof. Qed.
Print Assumptions C05_startstop_apply.

Example C05_ex :
  let p := fst (set_mindur (OInt 2) (new_pack [(0%Z, np_array [VInt 5; VInt 6; VInt 7; VInt 8])] [])) in
  let a := map VBool [true; false; true; false] in
  let b := map VBool [false; true; false; false] in
  p_mask p = barr [true; true; true; true] /\
  p_mask (fst (startstop a b true p)) = barr [false; false; true; true] /\
  parts (fst (startstop a b true p)) = [0].
Proof. vm_compute. auto. Qed.

(** C05. Triggers whose common length is neither the mask's nor one raise ValueError,
empty triggers TypeError (their result is a float array), and leave the pack as it was. *)
Theorem C05_startstop_bad_length :
  forall p m a b,
  p_mask p = barr m ->
  (Nat.min (length a) (length b) <> length m -> Nat.min (length a) (length b) <> 1 ->
   Nat.min (length a) (length b) <> 0 -> startstop a b true p = (p, Err ValueError)) /\
  (Nat.min (length a) (length b) = 0 -> startstop a b true p = (p, Err TypeError)).
Proof. exact C05_startstop_bad_length_proof. Qed.
Print Assumptions C05_startstop_bad_length.

Example C05_bad_ex :
  let p := new_pack [(0%Z, np_array [VInt 5; VInt 6; VInt 7])] [] in
  p_mask p = barr [true; true; true] /\
  snd (startstop (map VBool [true; false]) (map VBool [false; true]) true p) = Err ValueError /\
  snd (startstop [] [] true p) = Err TypeError.
Proof. vm_compute. auto. Qed.

(** C05. A one-element result is broadcast over the whole mask. *)
Theorem C05_one_element_result_is_broadcast :
  forall p m a b, p_mask p = barr m -> p_mindur p = None ->
  Nat.min (length a) (length b) = 1 ->
  exists p' r, startstop a b true p = (p', Ok (barr [r])) /\
    p_mask p' = barr (if r then m else map (fun _ => false) m).
Proof. exact C05_one_element_result_is_broadcast_proof. Qed.
Print Assumptions C05_one_element_result_is_broadcast.

Example C05_broadcast_ex :
  let p := new_pack [(0%Z, np_array [VInt 5; VInt 6; VInt 7])] [] in
  p_mask p = barr [true; true; true] /\ p_mindur p = None /\
  p_mask (fst (startstop [VBool false] [VBool false] true p)) = barr [false; false; false].
Proof. vm_compute. auto. Qed.

(** C06. duration(d, s, mindur) makes false exactly the elements of the maximal runs
that are too short (too long with mindur=False), keeps everything else, and the
surviving parts are the same runs in the same order. *)
Theorem C06_duration_removes_exactly_the_bad_runs :
  forall d0 n0 ops p m d s (mi : bool) req l,
  p = run ops (new_pack d0 n0) -> p_mask p = barr m ->
  requires d s req -> lists_runs m l ->
  exists p' m',
    duration d s mi p = (p', Ok (barr m')) /\ p_mask p' = barr m' /\
    removes_runs (fun n => if mi then (Z.of_nat n < req)%Z else (req < Z.of_nat n)%Z) m m' /\
    lists_runs m' (filter (fun ab => if mi then (req <=? Z.of_nat (snd ab - fst ab))%Z
                                     else (Z.of_nat (snd ab - fst ab) <=? req)%Z) l) /\
    parts p' = seq 0 (length (filter (fun ab => if mi then (req <=? Z.of_nat (snd ab - fst ab))%Z
                                     else (Z.of_nat (snd ab - fst ab) <=? req)%Z) l)) /\
    p_data p' = p_data p /\ p_names p' = p_names p /\ p_nof p' = p_nof p /\
    p_mindur p' = p_mindur p /\ p_prefix p' = p_prefix p /\ p_fn p' = p_fn p /\ p_files p' = p_files p.
Proof. exact C06_duration_removes_exactly_the_bad_runs_proof. Qed.
Print Assumptions C06_duration_removes_exactly_the_bad_runs.

Example C06_ex :
  let p := run [OpMask (OArr (barr [true; false; true; true; true; false; true; true]))]
             (new_pack [] []) in
  requires (PInt 1) (PInt 2) 2 /\
  p_mask (fst (duration (PInt 1) (PInt 2) true p))
  = barr [false; false; true; true; true; false; true; true] /\
  p_mask (fst (duration (PInt 1) (PInt 2) false p))
  = barr [true; false; false; false; false; false; true; true].
Proof. split; [apply requires_iff; vm_compute; reflexivity|vm_compute; auto]. Qed.

(** C06. When the product of duration and samplerate has no whole part the call
raises and the pack is unchanged: ValueError when the product is nan,
OverflowError when it is infinite or too large. *)
Theorem C06_duration_error_changes_nothing :
  forall p d s mi, (forall z, ~ requires d s z) ->
  exists e, duration d s mi p = (p, Err e) /\
    ((e = ValueError /\ product d s (PFloat S754_nan)) \/
     (e = OverflowError /\ ~ product d s (PFloat S754_nan))).
Proof. exact C06_duration_error_changes_nothing_proof. Qed.
Print Assumptions C06_duration_error_changes_nothing.

Example C06_error_ex : (forall z, ~ requires (PFloat S754_nan) (PInt 2) z) /\
  (forall z, ~ requires (PInt (10 ^ 400)) (PFloat (S754_finite false 1 0)) z) /\
  requires (PInt (10 ^ 400)) (PInt 2) (2 * 10 ^ 400).
Proof.
  split; [|split]; [intros z H; apply requires_iff in H; vm_compute in H; discriminate H..|].
  apply requires_iff. vm_compute. reflexivity.
Qed.

(** C06. Repeating the call changes nothing. *)
Theorem C06_duration_idempotent :
  forall d0 n0 ops p d s mi p' r,
  p = run ops (new_pack d0 n0) -> (exists m, p_mask p = barr m) ->
  duration d s mi p = (p', r) -> duration d s mi p' = (p', r).
Proof. exact C06_duration_idempotent_proof. Qed.
Print Assumptions C06_duration_idempotent.

Example C06_idem_ex : exists m, p_mask (run [OpMindur (OInt 3)] (new_pack [(0%Z, barr [true; false])] [])) = barr m.
Proof. exists [false; false]. vm_compute. reflexivity. Qed.

(** C06. Two minimum requirements in a row equal the larger one, two maximum
requirements the smaller one. *)
Theorem C06_durations_compose :
  forall d0 n0 ops p d1 s1 d2 s2 d3 s3 mi a b c,
  p = run ops (new_pack d0 n0) -> (exists m, p_mask p = barr m) ->
  requires d1 s1 a -> requires d2 s2 b -> requires d3 s3 c ->
  c = (if (mi : bool) then Z.max a b else Z.min a b) ->
  fst (duration d2 s2 mi (fst (duration d1 s1 mi p))) = fst (duration d3 s3 mi p).
Proof. exact C06_durations_compose_proof. Qed.
Print Assumptions C06_durations_compose.

Example C06_compose_ex : requires (PInt 2) (PInt 3) 6 /\ requires (PInt 4) (PFloat (S754_finite false 9 (-3))) 4 /\
  requires (PInt (-5)) (PFloat (S754_finite false 1 (-1))) (-2).
Proof. repeat split; apply requires_iff; vm_compute; reflexivity. Qed.

(** C07. For a requirement q = duration * samplerate >= 0 (as computed), a part of n
samples survives with mindur=True iff q < n + 1, with mindur=False iff n <= q. *)
Theorem C07_when_at_least_duration_is_honoured :
  forall d0 n0 ops p m d s (mi : bool) x q,
  p = run ops (new_pack d0 n0) -> p_mask p = barr m ->
  product d s x -> num_Q x = Some q -> (0 <= q)%Q ->
  exists p' m', duration d s mi p = (p', Ok (barr m')) /\ p_mask p' = barr m' /\
  forall a b, is_run m a b ->
    (is_run m' a b <->
     if mi then (q < inject_Z (Z.of_nat (b - a) + 1))%Q else (inject_Z (Z.of_nat (b - a)) <= q)%Q).
Proof. exact C07_when_at_least_duration_is_honoured_proof. Qed.
Print Assumptions C07_when_at_least_duration_is_honoured.

Example C07_ex :
  let p := run [OpMask (OArr (barr [true; false; true; true]))] (new_pack [] []) in
  let half := S754_finite false 1 (-1) in
  product (PFloat half) (PInt 4) (PFloat (S754_finite false 4503599627370496 (-51))) /\
  p_mask (fst (duration (PFloat half) (PInt 4) true p)) = barr [false; false; true; true].
Proof. split; [apply product_iff; vm_compute; reflexivity|vm_compute; reflexivity]. Qed.

(** C07. When the requirement is a non-negative integer n, exactly the parts with at
least n samples survive. *)
Theorem C07_integral_requirement_is_exact :
  forall d0 n0 ops p m d s x q n,
  p = run ops (new_pack d0 n0) -> p_mask p = barr m ->
  product d s x -> num_Q x = Some q -> (q == inject_Z n)%Q -> (0 <= n)%Z ->
  exists p' m', duration d s true p = (p', Ok (barr m')) /\ p_mask p' = barr m' /\
  forall a b, is_run m a b -> (is_run m' a b <-> (n <= Z.of_nat (b - a))%Z).
Proof. exact C07_integral_requirement_is_exact_proof. Qed.
Print Assumptions C07_integral_requirement_is_exact.

Example C07_integral_ex : exists q, num_Q (PFloat (float_of_Z 3)) = Some q /\ (q == inject_Z 3)%Q.
Proof. eexists. split; [vm_compute; reflexivity|reflexivity]. Qed.

(** C07. "At least duration long" fails for fractional requirements: with
duration=2.5 a part of 2 samples survives, and with duration=0.29, samplerate=100
(29 samples) a part of 28 samples survives. *)
Theorem C07_fractional_requirement_refuted :
  let two_and_half := S754_finite false 5 (-1) in
  float_of_str (lit "0.29") = Ok (S754_finite false 5224175567749775 (-54)) /\
  (exists q, float_Q two_and_half = Some q /\ (inject_Z 2 < q)%Q) /\
  (let p := run [OpDuration (PFloat two_and_half) (PInt 1) true]
             (new_pack [(0%Z, np_array [VInt 1; VInt 2])] []) in
   parts p = [0] /\ p_mask p = barr [true; true]) /\
  (let p := run [OpDuration (PFloat (S754_finite false 5224175567749775 (-54))) (PInt 100) true]
             (new_pack [(0%Z, np_array (repeat (VInt 1) 28))] []) in
   parts p = [0]).
Proof. exact C07_fractional_requirement_refuted_proof. Qed.
Print Assumptions C07_fractional_requirement_refuted.

(** C08. In every state reached from construction by any sequence of operations (masks
assigned not being string arrays), while mindur is k every part of the mask has
at least k elements. *)
Theorem C08_mindur_is_persistent :
forall d n ops p k,
  (forall a, In (OpMask (OArr a)) ops -> akind a <> KU /\ akind a <> KS) ->
  p = run ops (new_pack d n) -> p_mindur p = Some k ->
  forall a b, is_run (map counts (aelems (p_mask p))) a b -> (k <= Z.of_nat (b - a))%Z.
Proof. exact C08_mindur_is_persistent_proof. Qed.
Print Assumptions C08_mindur_is_persistent.

Example C08_ex :
  let p := run [OpMindur (OInt 3);
                OpMask (OArr (barr [true; true; false; true; true; true]))]
             (new_pack [(0%Z, np_array (map VInt [1; 2; 3; 4; 5; 6]%Z))] []) in
  p_mindur p = Some 3%Z /\ is_run (map truthy (aelems (p_mask p))) 3 6.
Proof.
  split; [reflexivity|]. unfold is_run. simpl. repeat split; auto with arith.
  intros i Hi. assert (i = 3 \/ i = 4 \/ i = 5) as [->|[->| ->]] by lia; reflexivity.
Qed.

(** C08. With a string array as mask the invariant fails: numpy stores the (true) text
'False', so the short part stays. *)
Theorem C08_string_mask_refuted :
exists d n ops p k,
  p = run ops (new_pack d n) /\ p_mindur p = Some k /\
  exists a b, is_run (map counts (aelems (p_mask p))) a b /\ (Z.of_nat (b - a) < k)%Z.
Proof. exact C08_string_mask_refuted_proof. Qed.
Print Assumptions C08_string_mask_refuted.

(** C09. After any history, parts() and part selection describe the current mask. *)
Theorem C09_parts_reflect_the_current_mask :
forall d n ops p, p = run ops (new_pack d n) ->
  exists l, lists_runs (map counts (aelems (p_mask p))) l /\ parts p = seq 0 (length l) /\
  forall k s e, nth_error l k = Some (s, e) ->
  forall ch key x nof, datakey p ch = Ok key -> dget key (p_data p) = Some x ->
    call p ch (Some (Z.of_nat k)) nof = Ok (mkarr (akind x) (between s e (aelems x))).
Proof. exact C09_parts_reflect_the_current_mask_proof. Qed.
Print Assumptions C09_parts_reflect_the_current_mask.

Example C09_ex :
  let p := run [OpMask (OArr (barr [true; true; false; true; true; true]));
                OpDuration (PInt 3) (PInt 1) true; OpNof (OStr (lit "nan"));
                OpAppend (new_pack [(0%Z, np_array [VInt 9])] [])]
             (new_pack [(0%Z, np_array (map VInt [1; 2; 3; 4; 5; 6]%Z))] []) in
  parts p = [0] /\ alen (p_mask p) = 7.
Proof. vm_compute. auto. Qed.

(** C10. mask_reset takes the channel with the smallest key: the mask has its length,
is false exactly at its nans, and is then reduced by mindur. *)
Theorem C10_mask_reset :
  forall p k a,
  dget k (p_data p) = Some a -> (forall k', In k' (dkeys (p_data p)) -> (k <= k')%Z) ->
  exists m m0,
    length m0 = alen a /\
    (forall i, i < alen a -> (nth i m0 false = true <-> ~ is_nan_val (nth i (aelems a) VNone))) /\
    p_mask (mask_reset p) = barr m /\
    match p_mindur p with
    | None => m = m0
    | Some n => removes_runs (fun len => (Z.of_nat len < n)%Z) m0 m
    end /\
    p_data (mask_reset p) = p_data p /\ p_names (mask_reset p) = p_names p /\
    p_mindur (mask_reset p) = p_mindur p /\ p_files (mask_reset p) = p_files p.
Proof. exact C10_mask_reset_proof. Qed.
Print Assumptions C10_mask_reset.

Example C10_ex :
  let p := new_pack [(5%Z, np_array [VInt 1]); (3%Z, np_array [VFloat (float_of_Z 1); VFloat S754_nan])] [] in
  dget 3 (p_data p) = Some (np_array [VFloat (float_of_Z 1); VFloat S754_nan]) /\
  (forall k', In k' (dkeys (p_data p)) -> (3 <= k')%Z).
Proof. split; [reflexivity|]. simpl. intros k' [<-|[<-|[]]]; lia. Qed.

(** C10. Without a nan in the lowest channel and without mindur the mask is all true. *)
Theorem C10_all_true_without_nan :
  forall p k a,
  dget k (p_data p) = Some a -> (forall k', In k' (dkeys (p_data p)) -> (k <= k')%Z) ->
  p_mindur p = None -> Forall (fun v => ~ is_nan_val v) (aelems a) ->
  p_mask (mask_reset p) = barr (repeat true (alen a)) /\
  (alen a <> 0 -> parts (mask_reset p) = [0]).
Proof. exact C10_all_true_without_nan_proof. Qed.
Print Assumptions C10_all_true_without_nan.

Example C10_all_ex : Forall (fun v => ~ is_nan_val v) (aelems (np_array [VFloat (float_of_Z 1); VFloat (float_of_Z 2)])).
Proof. repeat constructor; simpl; intro H; inversion H. Qed.

(** C10. The documented "all True" is false with a nan in the lowest channel. *)
Theorem C10_all_true_refuted_with_nan :
  exists d, p_mask (mask_reset (new_pack d [])) = barr [true; false].
Proof. exact C10_all_true_refuted_with_nan_proof. Qed.
Print Assumptions C10_all_true_refuted_with_nan.

(** C10. For a pack without data mask_reset gives an empty mask and no parts. *)
Theorem C10_empty_pack :
  forall p, p_data p = [] -> alen (p_mask (mask_reset p)) = 0 /\ parts (mask_reset p) = [].
Proof. exact C10_empty_pack_proof. Qed.
Print Assumptions C10_empty_pack.

Example C10_empty_ex : p_data (new_pack [] [(1%Z, VStr (lit "a"))]) = [].
Proof. reflexivity. Qed.

(** C11. Part selection by Python index: in range it gives the slice of that part
whatever nof is, out of range IndexError; negative indices count from the end. *)
Theorem C11_part_selection :
  forall p ch key x i nof,
  datakey p ch = Ok key -> dget key (p_data p) = Some x ->
  let n := Z.of_nat (length (parts p)) in
  ((0 <= i < n)%Z -> exists s e, nth_error (p_cache p) (Z.to_nat i) = Some (s, e) /\
     call p ch (Some i) nof = Ok (mkarr (akind x) (between s e (aelems x)))) /\
  ((- n <= i < 0)%Z -> call p ch (Some i) nof = call p ch (Some (n + i)%Z) ONone) /\
  ((n <= i \/ i < - n)%Z -> call p ch (Some i) nof = Err IndexError).
Proof. exact C11_part_selection_proof. Qed.
Print Assumptions C11_part_selection.

Example C11_ex :
  let p := run [OpMask (OArr (barr [true; false; true; true]))]
               (new_pack [(2%Z, np_array [VInt 5; VInt 6; VInt 7; VInt 8])] []) in
  datakey p (ChInt 2) = Ok 2%Z /\ parts p = [0; 1] /\
  call p (ChInt 2) (Some (-1)%Z) (OStr (lit "nan")) = Ok (np_array [VInt 7; VInt 8]) /\
  call p (ChInt 2) (Some 2%Z) ONone = Err IndexError.
Proof. vm_compute. auto. Qed.

(** C12. In every reachable state: the result depends on the attribute only when the
argument is none of 'nan', 'filter', 'ignore'; 'ignore' gives the full channel;
the attribute is one of 'nan', 'filter', None and acts like the same argument. *)
Theorem C12_nof_argument_overrides_attribute :
  forall d n ops p ch key x,
  p = run ops (new_pack d n) ->
  datakey p ch = Ok key -> dget key (p_data p) = Some x ->
  (forall q arg, (arg = OStr (lit "nan") \/ arg = OStr (lit "filter") \/ arg = OStr (lit "ignore")) ->
     q = with_nof p (p_nof q) -> call q ch None arg = call p ch None arg) /\
  call p ch None (OStr (lit "ignore")) = Ok x /\
  (p_nof p = OStr (lit "nan") \/ p_nof p = OStr (lit "filter") \/ p_nof p = ONone) /\
  (forall arg, arg <> OStr (lit "nan") -> arg <> OStr (lit "filter") -> arg <> OStr (lit "ignore") ->
     (forall a, arg <> OArr a) -> (forall m, arg <> OArrN m) ->
     (p_nof p = ONone -> call p ch None arg = Ok x) /\
     (p_nof p <> ONone -> call p ch None arg = call p ch None (p_nof p))).
Proof. exact C12_nof_argument_overrides_attribute_proof. Qed.
Print Assumptions C12_nof_argument_overrides_attribute.

Example C12_ex :
  let p := run [OpNof (OStr (lit "filter")); OpNof (OStr (lit "bad")); OpMask (OArr (barr [true; false; true; true]))]
               (new_pack [(2%Z, np_array [VInt 5; VInt 6; VInt 7; VInt 8])] []) in
  datakey p (ChInt 2) = Ok 2%Z /\ p_nof p = OStr (lit "filter") /\
  call p (ChInt 2) None ONone = Ok (np_array [VInt 5; VInt 7; VInt 8]).
Proof. vm_compute. auto. Qed.

(** C13. An integer resolves to itself iff it is a key of data; else KeyError. *)
Theorem C13_integer_lookup :
  forall p k, (In k (dkeys (p_data p)) -> datakey p (ChInt k) = Ok k) /\
              (~ In k (dkeys (p_data p)) -> datakey p (ChInt k) = Err KeyError).
Proof. exact C13_integer_lookup_proof. Qed.
Print Assumptions C13_integer_lookup.

Example C13_int_ex : In 4%Z (dkeys (p_data (new_pack [(4%Z, np_array [VInt 1])] []))).
Proof. left. reflexivity. Qed.

(** C13. A string resolves to a key exactly by the documented order (first equal name
in insertion order, else fallback string), and every failure is KeyError. *)
Theorem C13_string_lookup :
  forall p s k,
  (datakey p (ChStr s) = Ok k <-> resolves (dkeys (p_data p)) (p_names p) (p_prefix p) s k) /\
  (forall e, datakey p (ChStr s) = Err e -> e = KeyError) /\
  (forall k', datakey p (ChStr s) = Ok k' -> In k' (dkeys (p_data p))).
Proof. exact C13_string_lookup_proof. Qed.
Print Assumptions C13_string_lookup.

Example C13_ex :
  let p := new_pack [(4%Z, np_array [VInt 1]); (7%Z, np_array [VInt 2])]
                    [(7%Z, VStr (lit "ch4")); (4%Z, VStr (lit "b"))] in
  map (fun s => datakey p (ChStr (lit s))) ["ch4"; "b"; "ch7"; "ch5"; "x"]%string
  = [Ok 7%Z; Ok 4%Z; Ok 7%Z; Err KeyError; Err KeyError] /\
  datakey p (ChStr [99; 104; 0x667]%N) = Ok 7%Z /\ decimal_text [0x667]%N 7.
Proof.
  split; [vm_compute; reflexivity|]. split; [vm_compute; reflexivity|].
  apply decimal_text_iff. split; [discriminate|]. split; [repeat constructor|reflexivity].
Qed.

(** C13. A first equal name whose key has no data raises KeyError although a later
equal name has data. *)
Theorem C13_duplicate_name_without_data :
  exists p s, datakey p (ChStr s) = Err KeyError /\
    exists k, In (k, VStr s) (p_names p) /\ In k (dkeys (p_data p)).
Proof. exact C13_duplicate_name_without_data_proof. Qed.
Print Assumptions C13_duplicate_name_without_data.

(** C14. For a non-negative key of data, name(k, fallback=True) is the prefix followed
by the decimal numeral of k, and calling the pack with that string gives channel
k, unless names holds that very string. *)
Theorem C14_fallback_round_trip :
  forall p k, In k (dkeys (p_data p)) -> (0 <= k)%Z ->
  exists s, (forall fw, name p (ChInt k) fw FbTrue = Ok (VStr (p_prefix p ++ s))) /\
    all_digits s /\ s <> [] /\ dec_value s = k /\
    ((forall k', ~ In (k', VStr (p_prefix p ++ s)) (p_names p)) ->
     datakey p (ChStr (p_prefix p ++ s)) = Ok k /\
     forall part nof, call p (ChStr (p_prefix p ++ s)) part nof = call p (ChInt k) part nof).
Proof. exact C14_fallback_round_trip_proof. Qed.
Print Assumptions C14_fallback_round_trip.

Example C14_ex :
  let p := new_pack [(12%Z, np_array [VInt 1])] [(12%Z, VStr (lit "x"))] in
  In 12%Z (dkeys (p_data p)) /\ name p (ChInt 12) FwTrue FbTrue = Ok (VStr (lit "ch12")) /\
  call p (ChStr (lit "ch12")) None ONone = Ok (np_array [VInt 1]).
Proof. vm_compute. auto. Qed.

(** C14. The recognition is a prefix match: 'ch1x' gives channel 1. And a negative
key's fallback string is not recognised. *)
Theorem C14_trailing_junk_and_negative_keys_refuted :
  (exists p, call p (ChStr (lit "ch1x")) None ONone = call p (ChInt 1) None ONone /\
             is_ok (call p (ChInt 1) None ONone) = true) /\
  (exists p s, name p (ChInt (-1)) FwFalse FbTrue = Ok (VStr s) /\ datakey p (ChStr s) = Err KeyError).
Proof. exact C14_trailing_junk_and_negative_keys_refuted_proof. Qed.
Print Assumptions C14_trailing_junk_and_negative_keys_refuted.

(** C15. With equal key sets of data and compatible names, appending concatenates every
channel (in the promoted dtype; unchanged elements when the dtypes agree), keeps
keys and their order, concatenates filenames and resets the mask. *)
Theorem C15_append_concatenates_channels :
  forall p o,
  dict_ok (p_data p) -> dict_ok (p_data o) -> p_data p <> [] -> p_data o <> [] ->
  (forall k, In k (dkeys (p_data p)) <-> In k (dkeys (p_data o))) ->
  (p_names p = [] \/ p_names o = [] \/
   forall k, In k (dkeys (p_names p)) <-> In k (dkeys (p_names o))) ->
  exists p', append_pack o p = (p', Ok tt) /\
    dkeys (p_data p') = dkeys (p_data p) /\
    (forall k a b, dget k (p_data p) = Some a -> dget k (p_data o) = Some b ->
       exists x, dget k (p_data p') = Some x /\ common (akind a) (akind b) (akind x) /\
         alen x = alen a + alen b /\
         (akind a = akind b -> arr_ok a -> arr_ok b -> akind x = akind a /\ aelems x = aelems a ++ aelems b) /\
         (forall i, i < alen a -> arr_ok a -> stored (akind x) (nth i (aelems a) VNone) (nth i (aelems x) VNone)) /\
         (forall i, i < alen b -> arr_ok b -> stored (akind x) (nth i (aelems b) VNone) (nth (alen a + i) (aelems x) VNone))) /\
    p_names p' = (match p_names p with [] => p_names o | _ => p_names p end) /\
    p_files p' = p_files p ++ p_files o /\ p_fn p' = p_fn p /\ p_nof p' = p_nof p /\
    p_mindur p' = p_mindur p /\ p_prefix p' = p_prefix p /\
    (p_mask p' = p_mask (mask_reset p') /\ parts p' = parts (mask_reset p')).
Proof. exact C15_append_concatenates_channels_proof. Qed.
Print Assumptions C15_append_concatenates_channels.

Example C15_ex :
  let p := new_pack [(1%Z, np_array [VInt 1]); (0%Z, np_array [VStr (lit "a")])] [] in
  let o := new_pack [(0%Z, np_array [VStr (lit "b")]); (1%Z, np_array [VFloat (float_of_Z 2)])] [(0%Z, VStr (lit "n"))] in
  p_data (fst (append_pack o p)) =
    [(1%Z, np_array [VFloat (float_of_Z 1); VFloat (float_of_Z 2)]); (0%Z, np_array [VStr (lit "a"); VStr (lit "b")])] /\
  p_mask (fst (append_pack o p)) = barr [true; true].
Proof. vm_compute. auto. Qed.

(** C16. If the (non-empty) data key sets differ, ValueError and nothing changes. *)
Theorem C16_append_data_keys_differ :
  forall p o, p_data p <> [] -> p_data o <> [] ->
  ~ (forall k, In k (dkeys (p_data p)) <-> In k (dkeys (p_data o))) ->
  append_pack o p = (p, Err ValueError).
Proof. exact C16_append_data_keys_differ_proof. Qed.
Print Assumptions C16_append_data_keys_differ.

Example C16_ex : ~ (forall k, In k (dkeys [(1%Z, np_array [])]) <-> In k (dkeys [(2%Z, np_array [])])).
Proof. intro H. destruct (H 1%Z) as [H1 _]. simpl in H1. destruct (H1 (or_introl eq_refl)) as [E|[]]. discriminate. Qed.

(** C16. If only the names key sets differ, ValueError is raised after the data was
extended: data is that of the concatenation, everything else is unchanged. *)
Theorem C16_append_names_keys_differ_is_not_atomic :
  forall p o,
  dict_ok (p_data o) -> p_data p <> [] -> p_data o <> [] ->
  (forall k, In k (dkeys (p_data p)) <-> In k (dkeys (p_data o))) ->
  p_names p <> [] -> p_names o <> [] ->
  ~ (forall k, In k (dkeys (p_names p)) <-> In k (dkeys (p_names o))) ->
  exists p', append_pack o p = (p', Err ValueError) /\
    p' = with_data p (p_data p') /\ dkeys (p_data p') = dkeys (p_data p) /\
    forall k a b, dget k (p_data p) = Some a -> dget k (p_data o) = Some b ->
      exists x, dget k (p_data p') = Some x /\ alen x = alen a + alen b.
Proof. exact C16_append_names_keys_differ_is_not_atomic_proof. Qed.
Print Assumptions C16_append_names_keys_differ_is_not_atomic.

Example C16_names_ex :
  let p := new_pack [(0%Z, np_array [VInt 1])] [(0%Z, VStr (lit "a"))] in
  let o := new_pack [(0%Z, np_array [VInt 2])] [(1%Z, VStr (lit "a"))] in
  snd (append_pack o p) = Err ValueError /\
  p_data (fst (append_pack o p)) = [(0%Z, np_array [VInt 1; VInt 2])] /\
  p_mask (fst (append_pack o p)) = barr [true].
Proof. vm_compute. auto. Qed.

(** C16. With no data on one side the data of the other side is the result; no error
comes from the data then. *)
Theorem C16_append_with_an_empty_side :
  forall p o, (p_names p = [] \/ p_names o = []) ->
  (p_data p = [] -> exists p', append_pack o p = (p', Ok tt) /\ p_data p' = p_data o) /\
  (p_data o = [] -> exists p', append_pack o p = (p', Ok tt) /\ p_data p' = p_data p).
Proof. exact C16_append_with_an_empty_side_proof. Qed.
Print Assumptions C16_append_with_an_empty_side.

Example C16_empty_ex :
  p_data (fst (append_pack (new_pack [(0%Z, np_array [VInt 2])] []) (new_pack [] []))) = [(0%Z, np_array [VInt 2])].
Proof. vm_compute. reflexivity. Qed.

(** C18. In every reachable state filenames starts with fn. *)
Theorem C18_fn_and_filenames :
  forall d n ops p, p = run ops (new_pack d n) -> exists r, p_files p = p_fn p :: r.
Proof. exact C18_fn_and_filenames_proof. Qed.
Print Assumptions C18_fn_and_filenames.

Example C18_ex :
  p_files (run [OpFn (OStr (lit "f")); OpAppend (new_pack [] []); OpFn (OStr (lit "g"))] (new_pack [] []))
  = [lit "g"; lit ""].
Proof. vm_compute. reflexivity. Qed.

(** C18. Assigning fn changes only fn and the first file name; a successful append
adds the other's file names at the end, a failed one adds nothing. *)
Theorem C18_fn_assignment_and_append :
  forall d n ops p s, p = run ops (new_pack d n) ->
  (exists r p', p_files p = p_fn p :: r /\ set_fn (OStr s) p = (p', Ok tt) /\
     p_fn p' = s /\ p_files p' = s :: r /\ p_data p' = p_data p /\ p_names p' = p_names p /\
     p_mask p' = p_mask p /\ p_cache p' = p_cache p /\ p_nof p' = p_nof p /\
     p_mindur p' = p_mindur p /\ p_prefix p' = p_prefix p) /\
  (forall o, p_fn (fst (append_pack o p)) = p_fn p /\
     (snd (append_pack o p) = Ok tt /\ p_files (fst (append_pack o p)) = p_files p ++ p_files o \/
      snd (append_pack o p) = Err ValueError /\ p_files (fst (append_pack o p)) = p_files p)).
Proof. exact C18_fn_assignment_and_append_proof. Qed.
Print Assumptions C18_fn_assignment_and_append.

Example C18_assign_ex : exists r, p_files (new_pack [] []) = p_fn (new_pack [] []) :: r.
Proof. exists []. reflexivity. Qed.

(** C23. Assigning a value of the wrong type raises the documented exception and leaves
the pack unchanged; protected attributes cannot be deleted, mask can. *)
Theorem C23_attribute_type_protection :
  forall p v,
  ((v <> OStr (lit "nan") /\ v <> OStr (lit "filter") /\ v <> ONone) /\
   (forall a, v <> OArr a) /\ (forall n, v <> OArrN n) <-> set_nof v p = (p, Err ValueError)) /\
  ((forall s, v <> OStr s) <-> set_prefix v p = (p, Err TypeError)) /\
  ((forall s, v <> OStr s) <-> set_fn v p = (p, Err TypeError)) /\
  ((forall a, v <> OArr a) /\ (forall n, v <> OArrN n) <-> set_mask v p = (p, Err TypeError)) /\
  ((v <> ONone /\ (forall z, v <> OInt z) /\ (forall b, v <> OBool b)) <-> set_mindur v p = (p, Err TypeError)) /\
  (forall nm, delattr nm = Err AttributeError <->
     In nm (map lit ["FALLBACK_PREFIX"; "data"; "fn"; "filenames"; "names"; "nof"; "mindur"]%string)) /\
  delattr (lit "mask") = Ok tt.
Proof. exact C23_attribute_type_protection_proof. Qed.
Print Assumptions C23_attribute_type_protection.

Example C23_ex :
  set_mindur (OFloat S754_nan) (new_pack [] []) = (new_pack [] [], Err TypeError) /\
  snd (set_mindur (OBool true) (new_pack [] [])) = Ok tt.
Proof. vm_compute. auto. Qed.

(** C23. Accepted values are stored and read back. *)
Theorem C23_accepted_values_are_stored :
  forall p,
  (forall v, v = OStr (lit "nan") \/ v = OStr (lit "filter") \/ v = ONone ->
     set_nof v p = (with_nof p v, Ok tt)) /\
  (forall s, set_prefix (OStr s) p = (with_prefix p s, Ok tt)) /\
  (forall z, snd (set_mindur (OInt z) p) = Ok tt /\ p_mindur (fst (set_mindur (OInt z) p)) = Some z) /\
  (set_mindur ONone p = (with_mindur p None, Ok tt)).
Proof. exact C23_accepted_values_are_stored_proof. Qed.
Print Assumptions C23_accepted_values_are_stored.

Example C23_stored_ex :
  p_nof (run [OpNof (OStr (lit "nan"))] (new_pack [] [])) = OStr (lit "nan") /\
  p_mindur (run [OpMindur (OInt 4)] (new_pack [] [])) = Some 4%Z.
Proof. vm_compute. auto. Qed.

(** C24. Assigning a plain dict stores its arrays and resets the mask to the length of
the lowest channel, whatever the state before. *)
Theorem C24_assigning_a_plain_dict_resets_the_mask :
  forall d n ops p d' k a,
  p = run ops (new_pack d n) -> dget k d' = Some a ->
  (forall k', In k' (dkeys d') -> (k <= k')%Z) ->
  p_data (set_data_plain d' p) = d' /\
  alen (p_mask (set_data_plain d' p)) = alen a /\
  (p_mindur p = None -> Forall (fun v => ~ is_nan_val v) (aelems a) ->
   p_mask (set_data_plain d' p) = barr (repeat true (alen a))).
Proof. exact C24_assigning_a_plain_dict_resets_the_mask_proof. Qed.
Print Assumptions C24_assigning_a_plain_dict_resets_the_mask.

Example C24_ex : dget 1 [(2%Z, np_array []); (1%Z, np_array [VInt 3])] = Some (np_array [VInt 3]) /\
  alen (p_mask (set_data_plain [(2%Z, np_array []); (1%Z, np_array [VInt 3])] (new_pack [] []))) = 1.
Proof. vm_compute. auto. Qed.

(** C24. Assigning an NpDict changes only data: the old mask stays, with its old length. *)
Theorem C24_npdict_keeps_the_old_mask :
  (forall p d, p_mask (set_data_npdict d p) = p_mask p /\ parts (set_data_npdict d p) = parts p) /\
  (exists p d a, p = new_pack [(0%Z, np_array [VInt 1])] [] /\ dget 0 d = Some a /\
     alen (p_mask (set_data_npdict d p)) <> alen a).
Proof. exact C24_npdict_keeps_the_old_mask_proof. Qed.
Print Assumptions C24_npdict_keeps_the_old_mask.

(** C25. With valid distinct names whose channels have data, records gives in order the
tuples of i-th elements of the selected channels in ascending key order, as many
as the shortest selected channel has elements. *)
Theorem C25_records_by_name :
  forall p part nof nms cols,
  dict_ok (p_names p) -> p_names p <> [] ->
  (forall k v, In (k, v) (p_names p) -> exists s, v = VStr s) ->
  nms = map (fun k => match dget k (p_names p) with Some (VStr s) => s | _ => [] end) (zsort (dkeys (p_names p))) ->
  Forall field_name nms -> NoDup nms ->
  mapM (fun k => call p (ChInt k) part nof) (zsort (dkeys (p_names p))) = Ok cols ->
  exists rows, records p part nof false = Ok (nms, rows) /\
    (forall i, i < length rows <-> forall c, In c cols -> i < alen c) /\
    (forall i row, nth_error rows i = Some row ->
       row = map (fun c => nth i (aelems c) VNone) cols).
Proof. exact C25_records_by_name_proof. Qed.
Print Assumptions C25_records_by_name.

Example C25_ex :
  let p := new_pack [(0%Z, np_array [VInt 1; VInt 2]); (1%Z, np_array [VInt 3; VInt 4; VInt 5])]
                    [(1%Z, VStr (lit "b")); (0%Z, VStr (lit "a"))] in
  records p None ONone false = Ok ([lit "a"; lit "b"], [[VInt 1; VInt 3]; [VInt 2; VInt 4]]).
Proof. vm_compute. reflexivity. Qed.

(** C25. With fallback=True, non-negative keys and no name equal to a used fallback
string, the rows are those of all the channels of data in ascending key order. *)
Theorem C25_records_by_fallback :
  forall p part nof nms cols,
  dict_ok (p_data p) -> p_data p <> [] -> (forall k, In k (dkeys (p_data p)) -> (0 <= k)%Z) ->
  nms = map (fun k => p_prefix p ++ str_of_Z k) (zsort (dkeys (p_data p))) ->
  (forall s k, In s nms -> ~ In (k, VStr s) (p_names p)) ->
  Forall field_name nms ->
  mapM (fun k => call p (ChInt k) part nof) (zsort (dkeys (p_data p))) = Ok cols ->
  exists rows, records p part nof true = Ok (nms, rows) /\
    (forall i, i < length rows <-> forall c, In c cols -> i < alen c) /\
    (forall i row, nth_error rows i = Some row ->
       row = map (fun c => nth i (aelems c) VNone) cols).
Proof. exact C25_records_by_fallback_proof. Qed.
Print Assumptions C25_records_by_fallback.

Example C25_fallback_ex :
  let p := new_pack [(3%Z, np_array [VInt 1; VInt 2]); (1%Z, np_array [VInt 3; VInt 4; VInt 5])] [] in
  records p None ONone true = Ok ([lit "ch1"; lit "ch3"], [[VInt 3; VInt 1]; [VInt 4; VInt 2]]).
Proof. vm_compute. reflexivity. Qed.

(** C25. A name equal to a fallback string makes records(fallback=True) deliver another
channel under that label. *)
Theorem C25_fallback_mislabels_refuted :
  exists p, records p None ONone true = Ok ([lit "ch0"; lit "ch1"], [[VInt 11; VInt 11]]) /\
    call p (ChInt 0) None ONone = Ok (np_array [VInt 10]).
Proof. exact C25_fallback_mislabels_refuted_proof. Qed.
Print Assumptions C25_fallback_mislabels_refuted.

(** C25. An invalid or duplicated field name raises ValueError; without names there are
no records. *)
Theorem C25_records_errors :
  (forall p part nof k s, dict_ok (p_names p) -> In (k, VStr s) (p_names p) ->
     (bad_name s \/ exists k', k' <> k /\ In (k', VStr s) (p_names p)) ->
     records p part nof false = Err ValueError) /\
  (forall p part nof, p_names p = [] -> records p part nof false = Ok ([], [])).
Proof. exact C25_records_errors_proof. Qed.
Print Assumptions C25_records_errors.

Example C25_errors_ex :
  bad_name (lit "a b") /\ bad_name (lit "class") /\ bad_name (lit "_x") /\ bad_name (lit "2x") /\ bad_name [8364; 43]%N /\
  field_name (lit "x_2") /\ field_name [228]%N.
Proof.
  unfold bad_name, field_name, known, inner, letter.
  split; [right; right; right; exists 32%N; split; [cbn; auto|lia]|].
  split; [right; left; vm_compute; tauto|].
  split; [right; right; left; exists 95%N, (lit "x"); split; [reflexivity|lia]|].
  split; [right; right; left; exists 50%N, (lit "x"); split; [reflexivity|lia]|].
  split; [right; right; right; exists 43%N; split; [cbn; auto|lia]|].
  split; (split; [|vm_compute; intuition discriminate]).
  - exists 120%N, (lit "_2"). split; [reflexivity|]. split; [lia|]. cbn. repeat (apply Forall_cons || apply Forall_nil); lia.
  - exists 228%N, []. split; [reflexivity|]. split; [lia|constructor].
Qed.

(** C26. name(ch): the stored name; its first word with firstwordonly=True, IndexError
for a blank one; prefix and key with fallback=True. *)
Theorem C26_name :
  forall p ch k s, datakey p ch = Ok k -> dget k (p_names p) = Some (VStr s) ->
  name p ch FwFalse FbFalse = Ok (VStr s) /\
  (forall fw, name p ch fw FbTrue = Ok (VStr (p_prefix p ++ str_of_Z k))) /\
  (forall pre w post, s = pre ++ w ++ post -> Forall text_space pre ->
     w <> [] -> Forall (fun c => ~ text_space c) w ->
     (forall c r, post = c :: r -> text_space c) ->
     name p ch FwTrue FbFalse = Ok (VStr w)) /\
  (Forall text_space s -> name p ch FwTrue FbFalse = Err IndexError) /\
  (forall fa, name p ch (FwRegex fa) FbFalse =
     match fa s with w :: _ => Ok (VStr w) | [] => Err ValueError end).
Proof. exact C26_name_proof. Qed.
Print Assumptions C26_name.

Example C26_ex :
  let p := new_pack [(3%Z, np_array [VInt 1])] [(3%Z, VStr (lit " rpm (1/min)"))] in
  datakey p (ChStr (lit "ch3")) = Ok 3%Z /\ name p (ChStr (lit "ch3")) FwTrue FbFalse = Ok (VStr (lit "rpm")) /\
  name (new_pack [(3%Z, np_array [VInt 1])] [(3%Z, VStr [0xa0; 109; 0x2003; 115]%N)]) (ChInt 3) FwTrue FbFalse = Ok (VStr (lit "m")).
Proof. vm_compute. auto. Qed.

(** C26. name fails with KeyError exactly when the lookup fails or the key has no name
(and the fallback is not asked for). *)
Theorem C26_name_errors :
  forall p ch,
  (forall e fw fb, datakey p ch = Err e -> name p ch fw fb = Err KeyError) /\
  (forall k, datakey p ch = Ok k -> dget k (p_names p) = None ->
     name p ch FwFalse FbFalse = Err KeyError /\ name p ch FwTrue FbFalse = Err KeyError /\
     (forall fa, name p ch (FwRegex fa) FbFalse = Err KeyError)) /\
  (forall k fw, datakey p ch = Ok k -> name p ch fw FbOther = Err TypeError).
Proof. exact C26_name_errors_proof. Qed.
Print Assumptions C26_name_errors.

Example C26_errors_ex :
  let p := new_pack [(3%Z, np_array [VInt 1])] [] in
  datakey p (ChStr (lit "ch3")) = Ok 3%Z /\ dget 3 (p_names p) = None.
Proof. vm_compute. auto. Qed.

