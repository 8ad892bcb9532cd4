(** * Compound documents: sector chains and the directory (C51, C52): the property theorems *)

From Coq Require Import ZifyBool ZifyNat ZifyN QArith.
From Verif Require Import PyBase PyFloat PyBaseFacts Dbf XlStruct CompDoc SpecCompDoc CompDocProofs CompDocThms.
Open Scope nat_scope.
Open Scope Z_scope.

(** Reading a chain with marks always ends. Without marks the fuel of get_stream is
as good as any: when it ends at all it ends with that result, and
NonTermination is given only when no fuel does. *)
Theorem C51_terminates :
  forall mem base sat sz s size seen,
  (forall i, i <> 0 ->
     (exists f r, get_loop f mem base sat sz (Some i) seen s size [] = Some r /\
                  get_stream mem base sat sz s size (Some i) seen = r) /\
     snd (get_stream mem base sat sz s size (Some i) seen) <> Err NonTermination) /\
  (forall f r, get_loop f mem base sat sz None seen s size [] = Some r ->
     get_stream mem base sat sz s size None seen = r) /\
  (snd (get_stream mem base sat sz s size None seen) = Err NonTermination <->
   forall f, get_loop f mem base sat sz None seen s size [] = None).
Proof. exact C51_terminates_proof. Qed.
Print Assumptions C51_terminates.

(** A chain of unused sectors is read whole, or up to the size of the stream, and
its sectors are marked and no others. *)
Theorem C51_reads :
  forall mem base sat sz s l i seen size, chain sat s l -> 0 <= base -> 0 < sz -> 1 <= i <= 255 ->
  Forall (unused seen) l -> (match size with Some t => 0 <= t /\ whole mem base sz l | None => True end) ->
  exists seen', get_stream mem base sat sz s size (Some i) seen =
    (seen', Ok (match size with
                | None => chain_bytes mem base sz l
                | Some t => firstn (Z.to_nat t) (chain_bytes mem base sz l)
                end)) /\ marked seen seen' l i.
Proof. exact C51_reads_proof. Qed.
Print Assumptions C51_reads.

(** Sectors of four bytes after a header of two: the chain 2, 0, 3. *)
Example C51_reads_ex :
  let mem := map N.of_nat (seq 0 18) in
  let sat := [3; -1; 0; -2] in
  chain sat 2 [2; 0; 3] /\ whole mem 2 4 [2; 0; 3] /\ Forall (unused [0; 9; 0; 0]) [2; 0; 3] /\
  get_stream mem 2 sat 4 2 (Some 10) (Some 7) [0; 9; 0; 0]
    = ([7; 9; 7; 7], Ok [10; 11; 12; 13; 2; 3; 4; 5; 14; 15]%N).
Proof.
  split; [|split; [|split; [|vm_compute; reflexivity]]].
  - repeat (eapply chain_next; [lia|reflexivity|]). apply chain_end.
  - repeat constructor; vm_compute; discriminate.
  - repeat constructor.
Qed.

(** Whatever is returned was stored along a chain of different sectors that were
not in use. *)
Theorem C51_sound :
  forall mem base sat sz s i seen seen' size b, 0 <= base -> 0 < sz -> i <> 0 ->
  get_stream mem base sat sz s size (Some i) seen = (seen', Ok b) ->
  (match size with Some t => 0 <= t | None => True end) ->
  exists l, chain sat s l /\ NoDup l /\ Forall (unused seen) l /\
    (match size with
     | None => b = chain_bytes mem base sz l
     | Some t => whole mem base sz l -> b = firstn (Z.to_nat t) (chain_bytes mem base sz l)
     end).
Proof. exact C51_sound_proof. Qed.
Print Assumptions C51_sound.

(** A chain that comes back to one of its own sectors, or to a sector in use, is
reported. *)
Theorem C51_cycle :
  forall mem base sat sz s l t i seen size, path sat s l t -> 1 <= i <= 255 -> NoDup l -> Forall (unused seen) l ->
  0 <= t -> In t l \/ (exists v, nth_error seen (Z.to_nat t) = Some v /\ v <> 0) ->
  snd (get_stream mem base sat sz s size (Some i) seen) = Err CompDocError.
Proof. exact C51_cycle_proof. Qed.
Print Assumptions C51_cycle.

Example C51_cycle_ex :
  let sat := [3; -1; 0; 2] in
  path sat 2 [2; 0; 3] 2 /\ snd (get_stream (map N.of_nat (seq 0 18)) 2 sat 4 2 (Some 10) (Some 7) [0; 0; 0; 0]) = Err CompDocError.
Proof. split; [repeat (econstructor; [lia|reflexivity|]); constructor|reflexivity]. Qed.

(** Short streams are read without marks: a chain that ends is read as above and
marks nothing, one that comes back to itself is read without end, whatever
there is to read. *)
Theorem C51_short_streams :
  forall mem base sat sz s seen size, 0 <= base -> 0 < sz ->
  (forall l, chain sat s l -> (match size with Some t => 0 <= t /\ whole mem base sz l | None => True end) ->
     get_stream mem base sat sz s size None seen =
       (seen, Ok (match size with
                  | None => chain_bytes mem base sz l
                  | Some t => firstn (Z.to_nat t) (chain_bytes mem base sz l)
                  end))) /\
  (forall l t, path sat s l t -> In t l ->
     (forall f, get_loop f mem base sat sz None seen s size [] = None) /\
     snd (get_stream mem base sat sz s size None seen) = Err NonTermination).
Proof. exact C51_short_streams_proof. Qed.
Print Assumptions C51_short_streams.

Example C51_short_streams_ex :
  path [1; 2; 1] 0 [0; 1; 2] 1 /\
  get_stream (map N.of_nat (seq 0 200)) 0 [2; -1; -2] 64 0 (Some 70) None [] = ([], Ok (map N.of_nat (seq 0 64 ++ seq 128 6))).
Proof. split; [repeat (econstructor; [lia|reflexivity|]); constructor|vm_compute; reflexivity]. Qed.

(** The marks are bytes and a stream is marked with the number of its directory
entry plus six: a stream of entry 250 or later that is not empty is never read
from sound sectors, it is an OverflowError. *)
Theorem C51_mark_refuted :
  forall mem base sat sz s i seen size, 0 <= s -> unused seen s -> 250 + 6 <= i ->
  snd (get_stream mem base sat sz s size (Some i) seen) = Err OverflowError.
Proof. exact C51_mark_refuted_proof. Qed.
Print Assumptions C51_mark_refuted.

Example C51_mark_refuted_ex :
  chain [-2] 0 [0] /\ get_stream (map N.of_nat (seq 0 512)) 0 [-2] 512 0 (Some 3) (Some 255) [0] = ([255], Ok [0; 1; 2]%N) /\
  get_stream (map N.of_nat (seq 0 512)) 0 [-2] 512 0 (Some 3) (Some 256) [0] = ([0], Err OverflowError).
Proof. split; [repeat (econstructor; [lia|reflexivity|]); constructor|]. split; vm_compute; reflexivity. Qed.

(** _locate_stream finds the bytes _get_stream reads: the given piece of the given
memory is the stream, the sectors are marked, and a chain of the wrong length
is never located. *)
Theorem C51_locate :
  forall ignore mem base sat sz s size i seen, 0 <= base -> 0 < sz -> 1 <= i <= 255 ->
  (forall l, chain sat s l -> l <> [] -> Forall (unused seen) l ->
     (size + sz - 1) / sz = Z.of_nat (length l) -> 0 <= size -> whole mem base sz l ->
     exists seen' m pos, locate_stream ignore mem base sat sz s size i seen = (seen', Ok (m, pos, size)) /\
       marked seen seen' l i /\ 0 <= pos /\
       get_stream mem base sat sz s (Some size) (Some i) seen =
         (seen', Ok (firstn (Z.to_nat size) (skipn (Z.to_nat pos) m)))) /\
  (forall seen' m pos n, locate_stream ignore mem base sat sz s size i seen = (seen', Ok (m, pos, n)) ->
     n = size /\ exists l, chain sat s l /\ (size + sz - 1) / sz = Z.of_nat (length l) /\
       (ignore = false -> Forall (unused seen) l) /\
       firstn (Z.to_nat size) (skipn (Z.to_nat pos) m) = firstn (Z.to_nat size) (chain_bytes mem base sz l)).
Proof. exact C51_locate_proof. Qed.
Print Assumptions C51_locate.

(** The chain 1, 2 is in one piece, the chain 2, 0 in two. *)
Example C51_locate_ex :
  let mem := map N.of_nat (seq 0 14) in
  locate_stream false mem 2 [-1; 2; -2] 4 1 7 9 [0; 0; 0] = ([0; 9; 9], Ok (mem, 6, 7)) /\
  locate_stream false mem 2 [-2; -1; 0] 4 2 7 9 [0; 0; 0] = ([9; 0; 9], Ok ([10; 11; 12; 13; 2; 3; 4; 5]%N, 0, 7)).
Proof. split; vm_compute; reflexivity. Qed.

(** When the links of the directory form a tree with every entry in it once, the
walk succeeds: the children of the root and of every storage are the entries in
it, in order, each with that storage as its parent, and no other entry has
children or a parent. *)
Theorem C52_tree :
  forall dl root t, nth_error dl 0 = Some root -> unfolds dl (dn_root root) t -> NoDup (0 :: entries t) ->
  exists k, family_of dl = Ok k /\ length (k_children k) = length dl /\ length (k_parent k) = length dl /\
  (forall d c, In (d, c) ((0, t) :: storages t) ->
     nth_error (k_children k) (Z.to_nat d) = Some (siblings c) /\
     forall x, In x (siblings c) -> nth_error (k_parent k) (Z.to_nat x) = Some d) /\
  (forall j, (j < length dl)%nat -> ~ In (Z.of_nat j) (entries t) ->
     (j <> 0%nat -> nth_error (k_children k) j = Some []) /\ nth_error (k_parent k) j = Some (-1)).
Proof. exact C52_tree_proof. Qed.
Print Assumptions C52_tree.

(** The root holds the stream 1, left of the storage 2, which holds the stream
    3; the entry 4 is not used. *)
Definition C52_dir : list dirnode :=
  [mkdirnode (lit "Root Entry") 5 (-1) (-1) 2 (-2) 0; mkdirnode (lit "Book") 2 (-1) (-1) (-1) 0 10;
   mkdirnode (lit "Data") 1 1 (-1) 3 (-2) 0; mkdirnode (lit "x") 2 (-1) (-1) (-1) 1 4;
   mkdirnode [] 0 (-1) (-1) (-1) (-2) 0].
Example C52_tree_ex :
  unfolds C52_dir 2 (Node 2 (Node 1 Nil Nil Nil) Nil (Node 3 Nil Nil Nil)) /\
  family_of C52_dir = Ok (mkkin [[1; 2]; []; [3]; []; []] [-1; 0; 0; 2; -1]).
Proof.
  split; [|vm_compute; reflexivity].
  eapply unf_storage; [lia|reflexivity|reflexivity| | |].
  - eapply unf_other; [cbn; lia|reflexivity|discriminate| |]; constructor; cbn; lia.
  - constructor. cbn. lia.
  - eapply unf_other; [cbn; lia|reflexivity|discriminate| |]; constructor; cbn; lia.
Qed.

(** The walk returns exactly when the links from the root unfold to a finite tree;
the fuel of family_of is as good as any. *)
Theorem C52_returns :
  forall dl, ((exists k, family_of dl = Ok k) <->
     exists root t, nth_error dl 0 = Some root /\ unfolds dl (dn_root root) t) /\
  (forall root, nth_error dl 0 = Some root ->
     (forall f r, family f dl 0 (dn_root root) (orphans dl) = Some r -> family_of dl = r) /\
     (family_of dl = Err RecursionError <-> forall f, family f dl 0 (dn_root root) (orphans dl) = None)).
Proof. exact C52_returns_proof. Qed.
Print Assumptions C52_returns.

(** When the links from the root come to an entry that leads back to itself, the
walk never returns normally. *)
Theorem C52_cycle :
  forall dl root x, nth_error dl 0 = Some root -> x = dn_root root \/ leads_on dl (dn_root root) x -> leads_on dl x x ->
  forall k f, family_of dl <> Ok k /\ family f dl 0 (dn_root root) (orphans dl) <> Some (Ok k).
Proof. exact C52_cycle_proof. Qed.
Print Assumptions C52_cycle.

(** A storage that holds itself. *)
Example C52_cycle_ex :
  let dl := [mkdirnode [] 5 (-1) (-1) 1 (-2) 0; mkdirnode [] 1 (-1) (-1) 1 (-2) 0] in
  leads_on dl 1 1 /\ family_of dl = Err RecursionError.
Proof. split; [apply lo_one; split; [lia|]; eexists; split; [reflexivity|]; cbn; auto|vm_compute; reflexivity]. Qed.

(** Without cycles but with an entry that is reached twice the walk visits it twice:
it is listed twice as a child, and its parent is the last storage it was found
in. *)
Theorem C52_shared_refuted :
  exists dl root t k, nth_error dl 0 = Some root /\ unfolds dl (dn_root root) t /\
    (forall x, ~ leads_on dl x x) /\ ~ NoDup (entries t) /\ family_of dl = Ok k /\
    nth_error (k_children k) 0 = Some [3; 1] /\ nth_error (k_children k) 1 = Some [3] /\
    nth_error (k_parent k) 3 = Some 1.
Proof. exact C52_shared_refuted_proof. Qed.
Print Assumptions C52_shared_refuted.

