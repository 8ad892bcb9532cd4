(** * Packs sharing objects: the property theorems *)

From Coq Require Import ZifyBool ZifyNat ZifyN QArith.
From Verif Require Import PyBase PyBaseFacts PyFloat NumPy SpecArray ArrayFacts DataUtils Pack SpecMask SpecPack PackHeap SpecHeap MaskProofs PackProofs HeapProofs HeapCheck HeapRefine HeapHistory PackThms HeapThms.
Open Scope nat_scope.

(** C09. Also when arrays and dicts are shared between packs: a new pack followed
by any operations on it and on other packs has parts describing its current
mask, as long as no one writes elements of its mask array from outside and its
mask array is not shared as a mask with another pack. *)
Theorem C09_parts_reflect_the_mask_in_every_world :
forall w d n l b, wf w -> args_ok w (HNew d n) -> b = length (w_packs w) ->
  history (fun w o => args_ok w o /\ leaves_mask w b o) (fst (hexec w (HNew d n))) l ->
  let p := view (hrun (fst (hexec w (HNew d n))) l) b in
  exists r, lists_runs (map counts (aelems (p_mask p))) r /\ parts p = seq 0 (length r) /\
  forall k s e, nth_error r k = Some (s, e) ->
  forall ch key x nof, datakey p ch = Ok key -> dget key (p_data p) = Some x ->
    call p ch (Some (Z.of_nat k)) nof = Ok (mkarr (akind x) (between s e (aelems x))).
Proof. exact C09_parts_reflect_the_mask_in_every_world_proof. Qed.
Print Assumptions C09_parts_reflect_the_mask_in_every_world.

Example C09_world_ex :
  let w' := fst (hexec two_packs (HNew [(0%Z, mkh 1 0 3)] [])) in
  let l := [HDataOf 0 2; HDataItem 0 0 (mkh 0 0 3); HAlloc (barr [true; false; true]); HMask 2 (mkh 5 0 3);
            HWrite (mkh 0 0 3) 1 (VInt 8%Z); HMask 0 (mkh 3 0 3); HDuration 0 (PInt 9) (PInt 1) true] in
  history (fun w o => args_ok w o /\ leaves_mask w 2 o) w' l /\
  call (view (hrun w' l) 2) (ChInt 0) (Some 1%Z) ONone = Ok (np_array [VInt 3%Z]) /\
  call (view (hrun w' l) 2) (ChInt 0) (Some 2%Z) ONone = Err IndexError.
Proof.
  intros w' l. split; [|vm_compute; auto].
  apply (historyb_spec _ (fun w o => argsb w o && leavesb w 2 o)); [|reflexivity].
  intros w o H. rewrite andb_true_iff in H. destruct H. split; [apply argsb_spec; auto|apply leavesb_spec; auto].
Qed.

(** Writing elements of the mask array from outside leaves stale parts. *)
Theorem C09_writing_mask_elements_refuted :
exists w h i v, wf w /\ args_ok w (HWrite h i v) /\
  let p := view (fst (hexec w (HWrite h i v))) 0 in
  ~ lists_runs (map counts (aelems (p_mask p))) (p_cache p).
Proof. exact C09_writing_mask_elements_refuted_proof. Qed.
Print Assumptions C09_writing_mask_elements_refuted.

(** So does a duration call of another pack that was given the same mask array:
all operations are pack operations here. *)
Theorem C09_sharing_a_mask_array_refuted :
exists w l, wf w /\ history args_ok w l /\
  (forall o, In o l -> exists p, target o = Some p) /\
  let p := view (hrun w l) 0 in
  ~ lists_runs (map counts (aelems (p_mask p))) (p_cache p).
Proof. exact C09_sharing_a_mask_array_refuted_proof. Qed.
Print Assumptions C09_sharing_a_mask_array_refuted.

(** C17. Operations on other packs never change a pack that no other pack shares
its dicts with and whose arrays are not the mask of another pack, as long as
none of its dict objects or arrays is handed over to be changed. New packs may
be made meanwhile, also holding its arrays. *)
Theorem C17_operations_on_other_packs :
  forall l w b, wf w -> b < length (w_packs w) ->
  (forall c, c < length (w_packs w) -> c <> b -> separate w c b) ->
  history (fun w o => args_ok w o /\ keeps_off w b o /\ target o <> Some b) w l ->
  view (hrun w l) b = view w b.
Proof. exact C17_operations_on_other_packs_proof. Qed.
Print Assumptions C17_operations_on_other_packs.

Example C17_other_packs_ex :
  let l := [HNew [(0%Z, mkh 1 0 3)] [(0%Z, VStr (lit "c"))]; HAppend 2 0; HAppend 0 1; HMindur 2 (Some 9%Z); HData 0 [];
            HDuration 2 (PInt 4) (PInt 1) true] in
  wf two_packs /\ (forall c, c < 2 -> c <> 1 -> separate two_packs c 1) /\
  history (fun w o => args_ok w o /\ keeps_off w 1 o /\ target o <> Some 1) two_packs l /\
  alen (p_mask (view (hrun two_packs l) 2)) = 6.
Proof.
  intros l. split; [apply wfb_spec; reflexivity|]. split; [intros c; apply (othersb_spec two_packs 1); reflexivity|].
  split; [|reflexivity].
  apply (historyb_spec _ (fun w o => argsb w o && keepsb w 1 o && match target o with Some n => negb (Nat.eqb n 1) | None => true end)); [|reflexivity].
  intros w o H. rewrite !andb_true_iff in H. destruct H as [[H1 H2] H3].
  split; [apply argsb_spec; auto|]. split; [apply keepsb_spec; auto|]. intros E. rewrite E in H3. discriminate.
Qed.

(** C17. After a.append_pack(b) with a holding data and names, operations on a
never change b. *)
Theorem C17_append_isolates :
  forall l w a b, wf w -> a < length (w_packs w) -> b < length (w_packs w) -> a <> b -> separate w a b ->
  p_data (view w a) <> [] -> p_names (view w a) <> [] ->
  let w' := fst (hexec w (HAppend a b)) in
  history (fun w o => args_ok w o /\ keeps_off w b o /\ (target o = Some a \/ target o = None)) w' l ->
  view (hrun w' l) b = view w b.
Proof. exact C17_append_isolates_proof. Qed.
Print Assumptions C17_append_isolates.

Example C17_append_ex :
  let w' := fst (hexec two_packs (HAppend 0 1)) in
  p_data (view w' 0) = [(0%Z, np_array (map VInt [1; 2; 3; 4; 5; 6]%Z))] /\
  history (fun w o => args_ok w o /\ keeps_off w 1 o /\ (target o = Some 0 \/ target o = None)) w'
    [HMindur 0 (Some 7%Z); HAppend 0 1; HDataItem 0 0 (mkh 0 0 3); HReset 0].
Proof.
  intros w'. split; [reflexivity|].
  apply (historyb_spec _ (fun w o => argsb w o && keepsb w 1 o && match target o with Some n => Nat.eqb n 0 | None => true end)); [|reflexivity].
  intros w o H. rewrite !andb_true_iff in H. destruct H as [[H1 H2] H3].
  split; [apply argsb_spec; auto|]. split; [apply keepsb_spec; auto|].
  destruct (target o) as [n|]; auto. apply Nat.eqb_eq in H3. subst. auto.
Qed.

(** C17. Such an append leaves a and b without any common array (np.append copies):
even writing to the arrays of a afterwards does not change b. *)
Theorem C17_append_copies_the_arrays :
  forall w a b, wf w -> a < length (w_packs w) -> b < length (w_packs w) -> a <> b -> separate w a b ->
  p_data (view w a) <> [] -> p_data (view w b) <> [] -> p_names (view w a) <> [] ->
  let w' := fst (hexec w (HAppend a b)) in
  snd (hexec w (HAppend a b)) = Ok None ->
  disjoint w' a b /\
  forall h i v, valid w' h -> uses w' a (h_b h) -> view (fst (hexec w' (HWrite h i v))) b = view w b.
Proof. exact C17_append_copies_the_arrays_proof. Qed.
Print Assumptions C17_append_copies_the_arrays.

Example C17_copies_ex :
  snd (hexec two_packs (HAppend 0 1)) = Ok None /\ separate two_packs 0 1 /\
  uses (fst (hexec two_packs (HAppend 0 1))) 0 4.
Proof.
  split; [reflexivity|]. split; [apply separateb_spec; reflexivity|apply usesb_spec; reflexivity].
Qed.

(** C17. Appending to a pack without data gives it the data dict object of the other one
(and likewise the names): storing an item in either changes both. *)
Theorem C17_empty_pack_shares_the_dicts :
  forall w a b, wf w -> a < length (w_packs w) -> b < length (w_packs w) -> a <> b ->
  p_data (view w a) = [] -> p_names (view w a) = [] ->
  let w' := fst (hexec w (HAppend a b)) in
  snd (hexec w (HAppend a b)) = Ok None /\
  p_data (view w' a) = p_data (view w b) /\ p_names (view w' a) = p_names (view w b) /\
  (forall k h, valid w' h -> p_data (view (fst (hexec w' (HDataItem a k h))) b) = dset k (hread w' h) (p_data (view w b))) /\
  (forall k v, p_names (view (fst (hexec w' (HNameItem a k v))) b) = dset k v (p_names (view w b))).
Proof. exact C17_empty_pack_shares_the_dicts_proof. Qed.
Print Assumptions C17_empty_pack_shares_the_dicts.

Example C17_shared_ex : p_data (view three_packs 2) = [] /\ p_names (view three_packs 2) = [] /\
  p_data (view (fst (hexec three_packs (HAppend 2 0))) 2) = [(0%Z, np_array (map VInt [1; 2; 3]%Z))].
Proof. vm_compute. auto. Qed.

(** C17. Without data in a the claim fails: a.append_pack(b); a.append_pack(c)
makes the channels of b longer while its mask stays as it was. *)
Theorem C17_empty_pack_refuted :
  exists w a b c, wf w /\ a < length (w_packs w) /\ b < length (w_packs w) /\ c < length (w_packs w) /\
  a <> b /\ a <> c /\ b <> c /\ (forall x y, x < length (w_packs w) -> y < length (w_packs w) -> x <> y -> separate w x y) /\
  let v := view (hrun w [HAppend a b; HAppend a c]) b in
  p_data v <> p_data (view w b) /\
  exists k x, dget k (p_data v) = Some x /\ alen (p_mask v) <> alen x.
Proof. exact C17_empty_pack_refuted_proof. Qed.
Print Assumptions C17_empty_pack_refuted.

(** C19. pack(...) and startstop(apply=False) change no pack at all. *)
Theorem C19_reading_calls_change_nothing :
  forall w o c, wf w -> args_ok w o -> c < length (w_packs w) ->
  (exists p ch part nof, o = HCall p ch part nof) \/ (exists p a b, o = HStartstop p a b false) ->
  view (fst (hexec w o)) c = view w c.
Proof. exact C19_reading_calls_change_nothing_proof. Qed.
Print Assumptions C19_reading_calls_change_nothing.

Example C19_read_ex : snd (hexec two_packs (HCall 0 (ChInt 0) None (OStr (lit "nan")))) = Ok (Some (mkh 4 0 3)).
Proof. reflexivity. Qed.

(** C19. The array returned, or the exception, is the one of the value model (about
which C02, C03, C11, C12 and C13 are stated). *)
Theorem C19_call_returns_the_value :
  forall w p ch part nof, wf w -> p < length (w_packs w) ->
  match snd (hexec w (HCall p ch part nof)) with
  | Ok (Some h) => call (view w p) ch part nof = Ok (hread (fst (hexec w (HCall p ch part nof))) h)
  | Ok None => False
  | Err e => call (view w p) ch part nof = Err e
  end.
Proof. exact C19_call_returns_the_value_proof. Qed.
Print Assumptions C19_call_returns_the_value.

Example C19_value_ex : exists h, snd (hexec two_packs (HCall 1 (ChStr (lit "b")) (Some 0%Z) ONone)) = Ok (Some h) /\
  hread two_packs h = np_array (map VInt [4; 5; 6]%Z).
Proof. exists (mkh 1 0 3). vm_compute. auto. Qed.

(** C19. Without copying the result is the stored array object itself, or for a
part the window of it: writing element i of the result changes element i
(or start of the part + i) of the channel of the pack. *)
Theorem C19_plain_calls_return_the_stored_array :
  forall w p ch part nof h, wf w -> p < length (w_packs w) ->
  snd (hexec w (HCall p ch part nof)) = Ok (Some h) ->
  (part = None -> ~ copying (k_nof (pk w p)) nof /\ (nof = OStr (lit "ignore") \/ nof = ONone)) ->
  exists key x s, datakey (view w p) ch = Ok key /\ dget key (p_data (view w p)) = Some x /\
    (part = None -> s = 0 /\ h_len h = alen x) /\
    (forall k, part = Some k -> exists e, py_index (p_cache (view w p)) k = Some (s, e)) /\
    fst (hexec w (HCall p ch part nof)) = w /\
    forall i v, i < h_len h ->
      dget key (p_data (view (fst (hexec w (HWrite h i v))) p)) = Some (mkarr (akind x) (upd (s + i) v (aelems x))).
Proof. exact C19_plain_calls_return_the_stored_array_proof. Qed.
Print Assumptions C19_plain_calls_return_the_stored_array.

Example C19_view_ex : let w := hrun two_packs [HAlloc (barr [false; true; true]); HMask 0 (mkh 4 0 3)] in
  snd (hexec w (HCall 0 (ChInt 0) (Some 0%Z) ONone)) = Ok (Some (mkh 0 1 2)) /\
  p_data (view (fst (hexec w (HWrite (mkh 0 1 2) 1 (VInt 9%Z)))) 0) = [(0%Z, np_array (map VInt [1; 2; 9]%Z))].
Proof. vm_compute. auto. Qed.

(** C19. With 'nan' or 'filter' the result is a new array: whatever happens later,
as long as the program does not itself store the array in a pack, writing
through it changes no pack. *)
Theorem C19_copying_calls_return_fresh_arrays :
  forall w p ch nof h, wf w -> p < length (w_packs w) -> copying (k_nof (pk w p)) nof ->
  snd (hexec w (HCall p ch None nof)) = Ok (Some h) ->
  forall l, let w' := fst (hexec w (HCall p ch None nof)) in
  history (fun w o => args_ok w o /\ not_given (h_b h) o) w' l ->
  forall i v c, c < length (w_packs (hrun w' l)) ->
  view (fst (hexec (hrun w' l) (HWrite h i v))) c = view (hrun w' l) c.
Proof. exact C19_copying_calls_return_fresh_arrays_proof. Qed.
Print Assumptions C19_copying_calls_return_fresh_arrays.

Example C19_fresh_ex :
  copying (k_nof (pk two_packs 0)) (OStr (lit "filter")) /\
  snd (hexec two_packs (HCall 0 (ChInt 0) None (OStr (lit "filter")))) = Ok (Some (mkh 4 0 3)).
Proof. split; [right; left; reflexivity|reflexivity]. Qed.

(** C19. duration returns the mask array object itself: it reads as the new mask,
and writing element i of it changes element i of the mask of the pack. *)
Theorem C19_duration_returns_the_mask :
  forall w p d s mi h, wf w -> p < length (w_packs w) ->
  snd (hexec w (HDuration p d s mi)) = Ok (Some h) ->
  let w' := fst (hexec w (HDuration p d s mi)) in
  hread w' h = p_mask (view w' p) /\
  forall i v, i < h_len h ->
    p_mask (view (fst (hexec w' (HWrite h i v))) p)
    = mkarr (akind (p_mask (view w' p))) (upd i v (aelems (p_mask (view w' p)))).
Proof. exact C19_duration_returns_the_mask_proof. Qed.
Print Assumptions C19_duration_returns_the_mask.

Example C19_duration_ex : let w' := fst (hexec two_packs (HDuration 0 (PInt 1) (PInt 1) true)) in
  snd (hexec two_packs (HDuration 0 (PInt 1) (PInt 1) true)) = Ok (Some (mkh 2 0 3)) /\
  aelems (p_mask (view (fst (hexec w' (HWrite (mkh 2 0 3) 1 (VBool false)))) 0)) = [VBool true; VBool false; VBool true].
Proof. vm_compute. auto. Qed.

(** C19. startstop returns a new array with the trigger result, applied or not:
writing through it changes no pack. *)
Theorem C19_startstop_returns_a_new_array :
forall w p a b ap h, wf w -> p < length (w_packs w) ->
  snd (hexec w (HStartstop p a b ap)) = Ok (Some h) ->
  let w' := fst (hexec w (HStartstop p a b ap)) in
  (exists l, array_of (map VBool l) (hread w' h) /\ length l = Nat.min (length a) (length b) /\
     forall i, i < length l -> nth i l false = true <->
       trigger_on (fun j => counts (nth j a VNone)) (fun j => counts (nth j b VNone)) i) /\
  forall i v c, c < length (w_packs w') -> view (fst (hexec w' (HWrite h i v))) c = view w' c.
Proof. exact C19_startstop_returns_a_new_array_proof. Qed.
Print Assumptions C19_startstop_returns_a_new_array.

Example C19_startstop_ex :
  snd (hexec two_packs (HStartstop 0 [VBool true; VBool false; VBool false] [VBool false; VBool true; VBool false] true))
  = Ok (Some (mkh 4 0 3)).
Proof. vm_compute. reflexivity. Qed.

(** C24. Assigning q.data to p.data stores that same dict object: the mask of p
stays as it was, and storing a channel in p.data stores it in q.data too. *)
Theorem C24_assigned_npdict_is_shared :
  forall w p q, wf w -> p < length (w_packs w) -> q < length (w_packs w) -> p <> q ->
  let w' := fst (hexec w (HDataOf p q)) in
  p_data (view w' p) = p_data (view w q) /\ p_mask (view w' p) = p_mask (view w p) /\
  forall k h, valid w h ->
    p_data (view (fst (hexec w' (HDataItem p k h))) q) = dset k (hread w h) (p_data (view w q)) /\
    p_mask (view (fst (hexec w' (HDataItem p k h))) q) = p_mask (view w q).
Proof. exact C24_assigned_npdict_is_shared_proof. Qed.
Print Assumptions C24_assigned_npdict_is_shared.

Example C24_shared_ex : let w' := fst (hexec two_packs (HDataOf 0 1)) in
  p_data (view (fst (hexec w' (HDataItem 0 5 (mkh 0 0 2)))) 1) =
  [(0%Z, np_array (map VInt [4; 5; 6]%Z)); (5%Z, np_array (map VInt [1; 2]%Z))].
Proof. reflexivity. Qed.

(** C55. A pack whose mask and dicts are not shared behaves exactly as the plain
value model (Pack.v) says, over all histories of operations on it and on other
packs: what it holds in the end is the result of its own operations alone, run
on its initial value. So the properties stated for values hold for it. *)
Theorem C55_histories_follow_the_value_model :
  forall l w b, wf w -> b < length (w_packs w) -> isolated w b ->
  history (fun w o => well_behaved w b o) w l ->
  view (hrun w l) b = run (ops_on b w l) (view w b) /\ isolated (hrun w l) b.
Proof. exact C55_histories_follow_the_value_model_proof. Qed.
Print Assumptions C55_histories_follow_the_value_model.

Example C55_ex :
  let l := [HMindur 0 (Some 2%Z); HAppend 1 0; HAppend 0 1; HCall 0 (ChInt 0) None ONone] in
  history (fun w o => well_behaved w 0 o) two_packs l /\
  map alen (map snd (p_data (view (hrun two_packs l) 0))) = [9] /\
  length (ops_on 0 two_packs l) = 2.
Proof.
  intros l. split; [|vm_compute; auto].
  unfold l. repeat split; try (intros E; discriminate E); try (vm_compute; tauto); try (vm_compute; lia);
    try (intros; match goal with H : handed _ _ |- _ => destruct H end).
  all: try (intros E; vm_compute in E; discriminate E).
Qed.

(** C55. A new pack holds what the value model says of the arrays and names given, no
other pack changes, and it is not shared, provided none of its arrays is in the
buffer of the mask of another pack. So its histories follow the value model. *)
Theorem C55_new_packs :
  forall w d n, wf w -> args_ok w (HNew d n) ->
  let w' := fst (hexec w (HNew d n)) in let p := length (w_packs w) in
  view w' p = new_pack (map (fun kv => (fst kv, hread w (snd kv))) d) n /\
  (forall q, q < length (w_packs w) -> view w' q = view w q) /\
  wf w' /\ length (w_packs w') = S p /\
  ((forall q k h, q < length (w_packs w) -> In (k, h) d -> h_b (k_mask (pk w q)) <> h_b h) -> isolated w' p).
Proof. exact C55_new_packs_proof. Qed.
Print Assumptions C55_new_packs.

Example C55_new_ex :
  let o := HNew [(0%Z, mkh 0 0 3)] [(0%Z, VStr (lit "a"))] in
  args_ok two_packs o /\ (forall q k h, q < length (w_packs two_packs) -> In (k, h) [(0%Z, mkh 0 0 3)] -> h_b (k_mask (pk two_packs q)) <> h_b h) /\
  p_names (view (fst (hexec two_packs o)) 2) = [(0%Z, VStr (lit "a"))] /\ p_files (view (fst (hexec two_packs o)) 2) = [[]] /\
  map alen (map snd (p_data (view (fst (hexec two_packs o)) 2))) = [3].
Proof.
  intros o. split; [|split; [|vm_compute; auto]].
  - split; [exact I|]. split; [|repeat constructor; intros []]. intros k h [E|[]]. injection E as <- <-. vm_compute. lia.
  - intros q k h Hq [E|[]]. injection E as <- <-. destruct q as [|[|q]]; [vm_compute; discriminate|vm_compute; discriminate|]. vm_compute in Hq. lia.
Qed.

(** C55. One operation on a pack whose mask array is not one of its channels has
the effect and the outcome of the value model, whatever else is shared. *)
Theorem C55_one_operation :
  forall w o p v, wf w -> args_ok w o -> target o = Some p -> mask_apart w o p -> as_value_op w o = Some v ->
  view (fst (hexec w o)) p = fst (exec v (view w p)) /\ outcome (snd (hexec w o)) = snd (exec v (view w p)).
Proof. exact C55_one_operation_proof. Qed.
Print Assumptions C55_one_operation.

Example C55_one_ex :
  mask_apart two_packs (HAppend 0 1) 0 /\
  p_data (fst (exec (OpAppend (view two_packs 1)) (view two_packs 0))) = [(0%Z, np_array (map VInt [1; 2; 3; 4; 5; 6]%Z))].
Proof.
  split; [|reflexivity]. intros [k [h [I E]]]. vm_compute in I. destruct I as [I|[]]. injection I as <- <-. discriminate E.
Qed.

