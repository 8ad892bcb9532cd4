(** * Compound documents: sector chains and the directory (C51, C52): proofs of the property theorems *)

From Coq Require Import ZifyBool ZifyNat ZifyN QArith.
From Verif Require Import PyBase PyFloat PyBaseFacts Dbf XlStruct CompDoc SpecCompDoc CompDocProofs.
Open Scope nat_scope.
Open Scope Z_scope.

Lemma get_loop_not_nt f : forall mem base sat sz id seen s todo acc seen',
  get_loop f mem base sat sz id seen s todo acc <> Some (seen', Err NonTermination).
Proof.
  induction f as [|f IH]; intros mem base sat sz id seen s todo acc seen' H; cbn [get_loop] in H.
  - destruct (s <? 0); [|discriminate H]. destruct (s =? EOCSID); discriminate H.
  - destruct (s <? 0); [destruct (s =? EOCSID); discriminate H|].
    destruct (mark seen id s) as [seen1 [u|e]] eqn:M.
    + cbv zeta in H. destruct (py_index sat s); [|discriminate H]. exact (IH _ _ _ _ _ _ _ _ _ _ H).
    + injection H as -> ->. unfold mark in M. destruct id as [i|]; [|discriminate M].
      destruct (py_index seen s) as [v|]; [|discriminate M]. destruct (negb (v =? 0)); [discriminate M|].
      destruct ((i <? 0) || (255 <? i)); discriminate M.
Qed.

Lemma C51_terminates_proof :
  forall mem base sat sz s size seen,
  (forall i, i <> 0 ->
     (exists f r, get_loop f mem base sat sz (Some i) seen s size [] = Some r /\
                  get_stream mem base sat sz s size (Some i) seen = r) /\
     snd (get_stream mem base sat sz s size (Some i) seen) <> Err NonTermination) /\
  (forall f r, get_loop f mem base sat sz None seen s size [] = Some r ->
     get_stream mem base sat sz s size None seen = r) /\
  (snd (get_stream mem base sat sz s size None seen) = Err NonTermination <->
   forall f, get_loop f mem base sat sz None seen s size [] = None).
Proof.
intros mem base sat sz s size seen. split; [|split].
- intros i I0. destruct (get_loop (S (length sat)) mem base sat sz (Some i) seen s size []) as [r|] eqn:E.
  + split; [exists (S (length sat)), r; split; [exact E|]; unfold get_stream; rewrite E; reflexivity|].
    unfold get_stream. rewrite E. intro Q. destruct r as [seen' r]. cbn [snd] in Q. subst r.
    exact (get_loop_not_nt _ _ _ _ _ _ _ _ _ _ _ E).
  + exfalso. destruct (get_loop_none _ mem base sat sz (Some i) seen s size [] I0 E) as (l & t & P & L & T & U).
    destruct (U ltac:(discriminate)) as [U1 _]. exact (path_repeats sat s l t P ltac:(lia) U1).
- intros f r H. apply (get_stream_fuel mem base sat sz None seen s size f r I H).
- split.
  + intros H f. destruct (get_loop f mem base sat sz None seen s size []) as [[seen' r]|] eqn:E; [|reflexivity].
    exfalso. rewrite (get_stream_fuel _ _ _ _ None _ _ _ f _ I E) in H. cbn [snd] in H. subst r.
    exact (get_loop_not_nt _ _ _ _ _ _ _ _ _ _ _ E).
  + intro H. unfold get_stream. rewrite H. reflexivity.
Qed.

Lemma C51_reads_proof :
  forall mem base sat sz s l i seen size, chain sat s l -> 0 <= base -> 0 < sz -> 1 <= i <= 255 ->
  Forall (unused seen) l -> (match size with Some t => 0 <= t /\ whole mem base sz l | None => True end) ->
  exists seen', get_stream mem base sat sz s size (Some i) seen =
    (seen', Ok (match size with
                | None => chain_bytes mem base sz l
                | Some t => firstn (Z.to_nat t) (chain_bytes mem base sz l)
                end)) /\ marked seen seen' l i.
Proof.
intros mem base sat sz s l i seen size C B SZ I0 U W.
destruct (get_loop_chain mem base sat sz (Some i) B SZ s l C (length l) seen size [] (le_n _)) as (seen' & G1 & G2).
{ destruct size; tauto. }
{ split; assumption. }
exists seen'. split; [|exact G2].
rewrite (get_stream_fuel _ _ _ _ (Some i) _ _ _ (length l) _ ltac:(cbv beta iota; lia) G1). cbn [app].
destruct size as [t|]; [|rewrite pieces_none; reflexivity].
destruct W as [T W]. rewrite pieces_size; try assumption; [reflexivity|].
apply chain_pos in C. eapply Forall_impl; [|exact C]. cbn beta. lia.
Qed.

Lemma C51_sound_proof :
  forall mem base sat sz s i seen seen' size b, 0 <= base -> 0 < sz -> i <> 0 ->
  get_stream mem base sat sz s size (Some i) seen = (seen', Ok b) ->
  (match size with Some t => 0 <= t | None => True end) ->
  exists l, chain sat s l /\ NoDup l /\ Forall (unused seen) l /\
    (match size with
     | None => b = chain_bytes mem base sz l
     | Some t => whole mem base sz l -> b = firstn (Z.to_nat t) (chain_bytes mem base sz l)
     end).
Proof.
intros mem base sat sz s i seen seen' size b B SZ I0 H T.
destruct (C51_terminates_proof mem base sat sz s size seen) as [X _]. destruct (X i I0) as [(f & r & X1 & X2) _].
rewrite X2 in H. subst r. destruct (get_loop_sound mem base sat sz (Some i) B SZ f seen s size [] seen' b T X1) as (l & C & E & U).
exists l. split; [exact C|]. split; [apply (chain_NoDup sat s l C)|]. split; [apply (U i eq_refl I0)|].
cbn [app] in E. subst b. destruct size as [t|]; [|apply pieces_none].
intro W. apply pieces_size; try assumption. apply chain_pos in C. eapply Forall_impl; [|exact C]. cbn beta. lia.
Qed.

Lemma C51_cycle_proof :
  forall mem base sat sz s l t i seen size, path sat s l t -> 1 <= i <= 255 -> NoDup l -> Forall (unused seen) l ->
  0 <= t -> In t l \/ (exists v, nth_error seen (Z.to_nat t) = Some v /\ v <> 0) ->
  snd (get_stream mem base sat sz s size (Some i) seen) = Err CompDocError.
Proof.
intros mem base sat sz s l t i seen size P I0 N U T R.
destruct (get_loop_cycle mem base sat sz i I0 s l t P seen size [] (S (length l)) N U T R ltac:(lia)) as (seen' & G).
rewrite (get_stream_fuel _ _ _ _ (Some i) _ _ _ _ _ ltac:(cbv beta iota; lia) G). reflexivity.
Qed.

Lemma C51_short_streams_proof :
  forall mem base sat sz s seen size, 0 <= base -> 0 < sz ->
  (forall l, chain sat s l -> (match size with Some t => 0 <= t /\ whole mem base sz l | None => True end) ->
     get_stream mem base sat sz s size None seen =
       (seen, Ok (match size with
                  | None => chain_bytes mem base sz l
                  | Some t => firstn (Z.to_nat t) (chain_bytes mem base sz l)
                  end))) /\
  (forall l t, path sat s l t -> In t l ->
     (forall f, get_loop f mem base sat sz None seen s size [] = None) /\
     snd (get_stream mem base sat sz s size None seen) = Err NonTermination).
Proof.
intros mem base sat sz s seen size B SZ. split.
- intros l C W. 
  destruct (get_loop_chain mem base sat sz None B SZ s l C (length l) seen size [] (le_n _)) as (seen' & G1 & G2).
  { destruct size; tauto. }
  { exact I. }
  subst seen'. rewrite (get_stream_fuel _ _ _ _ None _ _ _ (length l) _ I G1). cbn [app].
  destruct size as [t|]; [|rewrite pieces_none; reflexivity].
  destruct W as [T W]. rewrite pieces_size; try assumption; [reflexivity|].
  apply chain_pos in C. eapply Forall_impl; [|exact C]. cbn beta. lia.
- intros l t P IN. assert (X : forall f, get_loop f mem base sat sz None seen s size [] = None).
  { intro f. apply alive_none. exact (loop_alive sat s l t P IN f). }
  split; [exact X|]. apply (C51_terminates_proof mem base sat sz s size seen). exact X.
Qed.

Lemma C51_mark_refuted_proof :
  forall mem base sat sz s i seen size, 0 <= s -> unused seen s -> 250 + 6 <= i ->
  snd (get_stream mem base sat sz s size (Some i) seen) = Err OverflowError.
Proof.
intros mem base sat sz s i seen size S0 U I0. unfold get_stream. cbn [get_loop]. replace (s <? 0) with false by lia.
cbn [mark]. rewrite py_index_pos by exact S0. unfold unused in U. rewrite U. cbn [Z.eqb negb].
replace ((i <? 0) || (255 <? i)) with true by lia. reflexivity.
Qed.

Lemma marked_unique seen a b l i : Forall (fun x => 0 <= x) l -> marked seen a l i -> marked seen b l i -> a = b.
Proof.
  intros P (A1 & A2 & A3) (B1 & B2 & B3). apply list_ext. intro j.
  destruct (in_dec Z.eq_dec (Z.of_nat j) l) as [I|I].
  - specialize (A2 _ I). specialize (B2 _ I). rewrite Nat2Z.id in A2, B2. congruence.
  - rewrite A3, B3 by exact I. reflexivity.
Qed.

Lemma C51_locate_proof :
  forall ignore mem base sat sz s size i seen, 0 <= base -> 0 < sz -> 1 <= i <= 255 ->
  (forall l, chain sat s l -> l <> [] -> Forall (unused seen) l ->
     (size + sz - 1) / sz = Z.of_nat (length l) -> 0 <= size -> whole mem base sz l ->
     exists seen' m pos, locate_stream ignore mem base sat sz s size i seen = (seen', Ok (m, pos, size)) /\
       marked seen seen' l i /\ 0 <= pos /\
       get_stream mem base sat sz s (Some size) (Some i) seen =
         (seen', Ok (firstn (Z.to_nat size) (skipn (Z.to_nat pos) m)))) /\
  (forall seen' m pos n, locate_stream ignore mem base sat sz s size i seen = (seen', Ok (m, pos, n)) ->
     n = size /\ exists l, chain sat s l /\ (size + sz - 1) / sz = Z.of_nat (length l) /\
       (ignore = false -> Forall (unused seen) l) /\
       firstn (Z.to_nat size) (skipn (Z.to_nat pos) m) = firstn (Z.to_nat size) (chain_bytes mem base sz l)).
Proof.
intros ignore mem base sat sz s size i seen B SZ I0. split.
- intros l C NE U LIM T W.
  assert (S0 : 0 <= s) by (inversion C; subst; [congruence|assumption]).
  destruct (locate_stream_chain mem ignore base sat sz i seen s l size B SZ ltac:(lia) C S0) as (seen' & m & pos & L1 & L2 & L3 & L4).
  { eapply Forall_impl; [|exact U]. cbn beta. intros x X. exists 0. split; [exact X|reflexivity]. }
  { exact LIM. }
  exists seen', m, pos. split; [exact L1|]. split; [exact L2|]. split; [exact L3|].
  destruct (C51_reads_proof mem base sat sz s l i seen (Some size) C B SZ I0 U (conj T W)) as (seen2 & G1 & G2).
  rewrite G1, L4. f_equal. apply (marked_unique seen seen2 seen' l i); try assumption.
  apply chain_pos in C. eapply Forall_impl; [|exact C]. cbn beta. lia.
- intros seen' m pos n H.
  assert (X : exists l, chain sat s l /\ (size + sz - 1) / sz = Z.of_nat (length l) /\ 0 <= s /\
                Forall (fun x => (Z.to_nat x < length seen)%nat) l /\ (ignore = false -> Forall (unused seen) l)).
  { unfold locate_stream in H. destruct (s <? 0) eqn:S0; [discriminate H|].
    set (lim := (size + sz - 1) / sz) in *.
    destruct (locate_loop (S (Z.to_nat lim)) ignore base sat sz i lim seen s (-99) (-9999) (-8888) [] 0)
      as [seen1 [[[[[st en] sl] s'] tot]|e]] eqn:E; [|discriminate H].
    apply (f_equal snd) in H. cbn [snd] in H. destruct (Z.eqb_spec s' EOCSID) as [Q|Q]; [|discriminate H]. cbn [negb] in H.
    destruct (Z.eqb_spec tot lim) as [Q2|Q2]; [|discriminate H].
    destruct (locate_loop_ok ignore base sat sz i lim _ _ _ _ _ _ _ _ _ _ _ _ _ _ E Q) as (l & C & T & IN & _ & U).
    exists l. split; [exact C|]. split; [lia|]. split; [lia|]. split; [exact IN|]. intro IG. apply U; [exact IG|lia]. }
  destruct X as (l & C & LIM & S0 & IN & U).
  destruct (locate_stream_chain mem ignore base sat sz i seen s l size B SZ ltac:(lia) C S0) as (seen2 & m2 & pos2 & L1 & L2 & L3 & L4).
  { rewrite Forall_forall in *. intros x X. specialize (IN x X).
    destruct (nth_error seen (Z.to_nat x)) as [v|] eqn:V; [|apply nth_error_None in V; lia].
    exists v. split; [exact V|]. intro IG. specialize (U IG x X). unfold unused in U. congruence. }
  { exact LIM. }
  rewrite L1 in H. apply (f_equal snd) in H. cbn [snd] in H.
  assert (m2 = m) by congruence. assert (pos2 = pos) by congruence. assert (n = size) by congruence. subst.
  split; [reflexivity|]. exists l. auto.
Qed.

Lemma C52_tree_proof :
  forall dl root t, nth_error dl 0 = Some root -> unfolds dl (dn_root root) t -> NoDup (0 :: entries t) ->
  exists k, family_of dl = Ok k /\ length (k_children k) = length dl /\ length (k_parent k) = length dl /\
  (forall d c, In (d, c) ((0, t) :: storages t) ->
     nth_error (k_children k) (Z.to_nat d) = Some (siblings c) /\
     forall x, In x (siblings c) -> nth_error (k_parent k) (Z.to_nat x) = Some d) /\
  (forall j, (j < length dl)%nat -> ~ In (Z.of_nat j) (entries t) ->
     (j <> 0%nat -> nth_error (k_children k) j = Some []) /\ nth_error (k_parent k) j = Some (-1)).
Proof.
intros dl root t R U N.
assert (LD : (0 < length dl)%nat) by (destruct dl; [discriminate R|cbn [length]; lia]).
pose proof (unfolds_entries dl _ t U) as F.
assert (S : sized (length dl) (orphans dl)) by (split; cbn [orphans k_children k_parent]; apply map_length).
destruct (settle_spec (length dl) t 0 (orphans dl) S ltac:(lia) F N) as (A1 & A2 & A3 & A4 & A5).
pose proof (settle_sized (length dl) t 0 (orphans dl) S ltac:(lia) F) as [S1 S2].
set (k := settle t 0 (orphans dl)) in *.
assert (K0 : forall x, kids (orphans dl) x = []).
{ intro x. exact (map_nth (fun _ : dirnode => @nil Z) dl root (Z.to_nat x)). }
assert (P0 : forall x, par (orphans dl) x = -1).
{ intro x. exact (map_nth (fun _ : dirnode => -1) dl root (Z.to_nat x)). }
assert (KE : forall x, (x < length dl)%nat -> nth_error (k_children k) x = Some (kids k (Z.of_nat x))).
{ intros x X. unfold kids. rewrite Nat2Z.id. apply nth_error_nth'. lia. }
assert (PE : forall x, (x < length dl)%nat -> nth_error (k_parent k) x = Some (par k (Z.of_nat x))).
{ intros x X. unfold par. rewrite Nat2Z.id. apply nth_error_nth'. lia. }
exists k. split; [|split; [exact S1|split; [exact S2|split]]].
- unfold family_of. cbn [py_index]. rewrite py_index_pos by lia. change (Z.to_nat 0) with 0%nat. rewrite R.
  rewrite (family_fuel dl (height t) 0 (dn_root root) (orphans dl) (Ok k)); [reflexivity|].
  apply family_tree; [exact U|lia].
- intros d c I0. assert (B : 0 <= d < Z.of_nat (length dl)).
  { destruct I0 as [Q|Q]; [injection Q as <- _; lia|]. apply storages_entries in Q. rewrite Forall_forall in F. apply F. exact Q. }
  assert (BS : forall x, In x (siblings c) -> 0 <= x < Z.of_nat (length dl)).
  { intros x X. rewrite Forall_forall in F. apply F. destruct I0 as [Q|Q]; [injection Q as _ <-; apply siblings_entries; exact X|].
    exact (storages_siblings _ _ _ _ Q X). }
  rewrite KE by lia. rewrite Z2Nat.id by lia.
  assert (G : kids k d = kids (orphans dl) d ++ siblings c /\ forall x, In x (siblings c) -> par k x = d).
  { destruct I0 as [Q|Q]; [injection Q as <- <-; split; assumption|apply A3; exact Q]. }
  destruct G as [G1 G2]. rewrite G1, K0. split; [reflexivity|]. intros x X. specialize (BS x X).
  rewrite PE by lia. rewrite Z2Nat.id by lia. rewrite G2 by exact X. reflexivity.
- intros j J NI. split.
  + intro J0. rewrite KE by exact J. rewrite A4 by (try lia; exact NI). rewrite K0. reflexivity.
  + rewrite PE by exact J. rewrite A5 by (try lia; exact NI). rewrite P0. reflexivity.
Qed.

Lemma family_not_re f : forall dl p x k, family f dl p x k <> Some (Err RecursionError).
Proof.
  induction f as [|f IH]; intros dl p x k H; cbn [family] in H; destruct (x <? 0); try discriminate H.
  destruct (py_index dl x) as [n|]; [|discriminate H].
  destruct (family f dl p (dn_left n) k) as [[k1|e]|] eqn:E1; [|rewrite H in E1; exact (IH _ _ _ _ E1)|discriminate H].
  destruct (family f dl p (dn_right n) (adopt p x k1)) as [[k2|e]|] eqn:E2; [|rewrite H in E2; exact (IH _ _ _ _ E2)|discriminate H].
  destruct (dn_etype n =? 1); [exact (IH _ _ _ _ H)|discriminate H].
Qed.

Lemma C52_returns_proof :
  forall dl, ((exists k, family_of dl = Ok k) <->
     exists root t, nth_error dl 0 = Some root /\ unfolds dl (dn_root root) t) /\
  (forall root, nth_error dl 0 = Some root ->
     (forall f r, family f dl 0 (dn_root root) (orphans dl) = Some r -> family_of dl = r) /\
     (family_of dl = Err RecursionError <-> forall f, family f dl 0 (dn_root root) (orphans dl) = None)).
Proof.
intro dl. split.
- split.
  + intros (k & H). unfold family_of in H. rewrite py_index_pos in H by lia. change (Z.to_nat 0) with 0%nat in H.
    destruct (nth_error dl 0) as [root|] eqn:R; [|discriminate H].
    destruct (family (S (length dl)) dl 0 (dn_root root) (orphans dl)) as [[k'|e]|] eqn:E; try discriminate H.
    destruct (family_unfolds dl _ _ _ _ _ E) as (t & U). eauto.
  + intros (root & t & R & U). unfold family_of. rewrite py_index_pos by lia. change (Z.to_nat 0) with 0%nat. rewrite R.
    exists (settle t 0 (orphans dl)).
    rewrite (family_fuel dl (height t) 0 (dn_root root) (orphans dl) (Ok (settle t 0 (orphans dl)))); [reflexivity|].
    apply family_tree; [exact U|lia].
- intros root R. split.
  + intros f r H. unfold family_of. rewrite py_index_pos by lia. change (Z.to_nat 0) with 0%nat. rewrite R.
    rewrite (family_fuel _ _ _ _ _ _ H). reflexivity.
  + unfold family_of. rewrite py_index_pos by lia. change (Z.to_nat 0) with 0%nat. rewrite R. split.
    * intros H f. destruct (family f dl 0 (dn_root root) (orphans dl)) as [r|] eqn:E; [|reflexivity].
      rewrite (family_fuel _ _ _ _ _ _ E) in H. subst r. exfalso. exact (family_not_re _ _ _ _ _ E).
    * intro H. rewrite H. reflexivity.
Qed.

Lemma unfolds_det dl x t : unfolds dl x t -> forall t', unfolds dl x t' -> t = t'.
Proof.
  induction 1 as [x H|x n l r i H E T UL IL UR IR UI II|x n l r H E T UL IL UR IR]; intros t' U';
    inversion U' as [? H'|? n' l' r' i' H' E' T' UL' UR' UI'|? n' l' r' H' E' T' UL' UR']; subst; try lia; try reflexivity;
    rewrite E in E'; injection E' as <-; try contradiction.
  - f_equal; auto.
  - f_equal; auto.
Qed.
Lemma unfolds_leads dl x y t : leads dl x y -> unfolds dl x t -> exists t', unfolds dl y t' /\ (height t' < height t)%nat.
Proof.
  intros (X & n & E & Y) U. inversion U as [? H'|? n' l' r' i' H' E' T' UL' UR' UI'|? n' l' r' H' E' T' UL' UR']; subst; [lia| |];
    rewrite E in E'; injection E' as <-; cbn [height].
  - destruct Y as [->|[->|[_ ->]]]; eexists; (split; [eassumption|lia]).
  - destruct Y as [->|[->|[Q _]]]; [| |contradiction]; eexists; (split; [eassumption|lia]).
Qed.
Lemma unfolds_leads_on dl x y : leads_on dl x y -> forall t, unfolds dl x t -> exists t', unfolds dl y t' /\ (height t' < height t)%nat.
Proof.
  induction 1 as [x y L|x y z L M IH]; intros t U.
  - exact (unfolds_leads dl x y t L U).
  - destruct (unfolds_leads dl x y t L U) as (t1 & U1 & H1). destruct (IH t1 U1) as (t2 & U2 & H2). exists t2. split; [exact U2|lia].
Qed.
Lemma cycle_no_tree dl r x : x = r \/ leads_on dl r x -> leads_on dl x x -> forall t, ~ unfolds dl r t.
Proof.
  intros RX XX t U.
  assert (UX : exists t', unfolds dl x t').
  { destruct RX as [->|L]; [eauto|]. destruct (unfolds_leads_on dl r x L t U) as (t' & U' & _). eauto. }
  destruct UX as (t1 & U1). destruct (unfolds_leads_on dl x x XX t1 U1) as (t2 & U2 & L).
  rewrite (unfolds_det dl x t1 U1 t2 U2) in L. lia.
Qed.

Lemma C52_cycle_proof :
  forall dl root x, nth_error dl 0 = Some root -> x = dn_root root \/ leads_on dl (dn_root root) x -> leads_on dl x x ->
  forall k f, family_of dl <> Ok k /\ family f dl 0 (dn_root root) (orphans dl) <> Some (Ok k).
Proof.
intros dl root x R RX XX k f. split; intro H.
- destruct (proj1 (C52_returns_proof dl)) as [W _]. destruct (W (ex_intro _ k H)) as (root' & t & R' & U).
  assert (root' = root) by congruence. subst root'. exact (cycle_no_tree dl _ x RX XX t U).
- destruct (family_unfolds dl _ _ _ _ _ H) as (t & U). exact (cycle_no_tree dl _ x RX XX t U).
Qed.

Lemma C52_shared_refuted_proof :
  exists dl root t k, nth_error dl 0 = Some root /\ unfolds dl (dn_root root) t /\
    (forall x, ~ leads_on dl x x) /\ ~ NoDup (entries t) /\ family_of dl = Ok k /\
    nth_error (k_children k) 0 = Some [3; 1] /\ nth_error (k_children k) 1 = Some [3] /\
    nth_error (k_parent k) 3 = Some 1.
Proof.
pose (dl := [mkdirnode [] 5 (-1) (-1) 1 (-2) 0; mkdirnode [] 1 3 (-1) 3 (-2) 0;
             mkdirnode [] 0 (-1) (-1) (-1) (-2) 0; mkdirnode [] 2 (-1) (-1) (-1) (-2) 0]).
exists dl, (mkdirnode [] 5 (-1) (-1) 1 (-2) 0), (Node 1 (Node 3 Nil Nil Nil) Nil (Node 3 Nil Nil Nil)),
  (mkkin [[3; 1]; [3]; []; []] [-1; 0; -1; 1]).
assert (U3 : unfolds dl 3 (Node 3 Nil Nil Nil)).
{ eapply unf_other; [cbn; lia|reflexivity|discriminate| |]; constructor; cbn; lia. }
split; [reflexivity|]. split; [|split; [|split; [|split; [vm_compute; reflexivity|repeat split]]]].
- eapply unf_storage; [cbn; lia|reflexivity|reflexivity|exact U3|constructor; cbn; lia|exact U3].
- assert (L : forall x y, leads dl x y -> x = 0 \/ x = 1 /\ (y = 3 \/ y = -1) \/ y = -1).
  { intros x y (X & n & E & Y). assert (B : (Z.to_nat x < 4)%nat) by (apply (nth_error_Some dl); congruence).
    assert (C : x = 0 \/ x = 1 \/ x = 2 \/ x = 3) by lia.
    destruct C as [-> | [-> | [-> | ->]]]; cbn in E; injection E as <-; cbn in Y; lia. }
  assert (D : forall x y, leads_on dl x y -> x = 0 /\ y = -1 \/ x = 1 /\ (y = 3 \/ y = -1) \/ y = -1).
  { induction 1 as [x y Q|x y z Q M IH].
    - destruct (L _ _ Q) as [->|W]; [|tauto]. destruct Q as (_ & n & E & Y). cbn in E. injection E as <-. cbn in Y. lia.
    - assert (P : 0 <= x) by (destruct Q as [Q _]; exact Q).
      destruct (L _ _ Q) as [->|W]; [|lia]. destruct Q as (_ & n & E & Y). cbn in E. injection E as <-. cbn in Y. lia. }
  intros x M. pose proof (D x x M) as Q. assert (0 <= x) by (inversion M as [? ? [P _]|? ? ? [P _] _]; subst; exact P). lia.
- cbn [entries app]. intro N. inversion N as [|? ? N1 _]; subst. apply N1. right. left. reflexivity.
Qed.

