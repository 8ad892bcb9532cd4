(** * Auxiliary lemmas about whole compound documents *)

From Coq Require Import ZifyBool ZifyNat ZifyN Permutation.
From Verif Require Import PyBase PyFloat PyBaseFacts Dbf SpecDbf DbfProofs XlStruct CompDoc SpecCompDoc CompDocProofs
  CompDocThms SpecSst Sst SstProofs SpecDoc.
Open Scope nat_scope.
Open Scope Z_scope.

(** ** Words *)

Lemma le_value_mod n : forall z, le_value (le_bytes n z) = z mod 256 ^ Z.of_nat n.
Proof.
  induction n as [|n IH]; intro z.
  - cbn. rewrite Z.mod_1_r. reflexivity.
  - cbn [le_bytes le_value]. rewrite IH. rewrite Z2N.id by (apply Z.mod_pos_bound; lia).
    replace (Z.of_nat (S n)) with (1 + Z.of_nat n) by lia. rewrite Z.pow_add_r by lia.
    rewrite Z.rem_mul_r by lia. change (256 ^ 1) with 256. ring.
Qed.
Lemma le_signed_bytes z : is_int z -> le_signed (le_bytes 4 z) = z.
Proof.
  intros [L U]. unfold le_signed. rewrite le_value_mod, le_bytes_length.
  change (2 ^ (8 * Z.of_nat 4)) with (2 ^ 32). change (256 ^ Z.of_nat 4) with (2 ^ 32).
  destruct (Z.ltb_spec z 0) as [N|N].
  - rewrite <- (Z.mod_unique_pos z (2 ^ 32) (-1) (z + 2 ^ 32)) by lia.
    destruct (2 * (z + 2 ^ 32) <? 2 ^ 32) eqn:E; lia.
  - rewrite Z.mod_small by lia. destruct (2 * z <? 2 ^ 32) eqn:E; lia.
Qed.

Lemma words_length l : length (words l) = (4 * length l)%nat.
Proof. induction l as [|x l IH]; [reflexivity|]. cbn [words flat_map]. rewrite app_length, le_bytes_length. unfold words in IH. rewrite IH. cbn [length]. lia. Qed.
Lemma words_app a b : words (a ++ b) = words a ++ words b.
Proof. apply flat_map_app. Qed.
Lemma ints_words l : Forall is_int l -> ints (length l) (words l) = l.
Proof.
  induction 1 as [|x l I _ IH]; [reflexivity|]. cbn [length ints]. change (words (x :: l)) with (le_bytes 4 x ++ words l).
  rewrite firstn_app, le_bytes_length, firstn_all2 by (rewrite le_bytes_length; lia). cbn [Nat.sub firstn]. rewrite app_nil_r.
  rewrite skipn_app, le_bytes_length, skipn_all2 by (rewrite le_bytes_length; lia). cbn [Nat.sub skipn app].
  rewrite IH, le_signed_bytes by exact I. reflexivity.
Qed.
Lemma unpack_ints_words n l : Forall is_int l -> Z.of_nat (length l) = n -> unpack_ints n (words l) = Ok l.
Proof.
  intros F L. unfold unpack_ints. rewrite words_length.
  destruct (Z.eqb_spec (Z.of_nat (4 * length l)) (4 * n)) as [E|E]; [|lia].
  replace (Z.to_nat n) with (length l) by lia. rewrite ints_words by exact F. reflexivity.
Qed.

(** ** Places in a string *)

Lemma bytes_at_skip p a n x : (length p <= a)%nat -> bytes_at a n (p ++ x) = bytes_at (a - length p) n x.
Proof. intro L. unfold bytes_at. rewrite skipn_app, skipn_all2 by exact L. reflexivity. Qed.
Lemma bytes_at_0 n x y : length x = n -> bytes_at 0 n (x ++ y) = x.
Proof. intro L. unfold bytes_at. cbn [skipn]. rewrite firstn_app, firstn_all2 by lia. rewrite L, Nat.sub_diag. cbn [firstn]. apply app_nil_r. Qed.
Lemma bytes_at_shift k a n x : bytes_at (k + a) n x = bytes_at a n (skipn k x).
Proof. unfold bytes_at. rewrite skipn_add. reflexivity. Qed.

(** The k-th of some words. *)
Lemma bytes_at_words l : forall k y z, nth_error l k = Some z -> bytes_at (4 * k) 4 (words l ++ y) = le_bytes 4 z.
Proof.
  induction l as [|x l IH]; intros [|k] y z H; try discriminate H.
  - injection H as ->. change (words (z :: l)) with (le_bytes 4 z ++ words l). rewrite <- app_assoc. apply bytes_at_0.
    apply le_bytes_length.
  - change (words (x :: l)) with (le_bytes 4 x ++ words l). rewrite <- app_assoc.
    rewrite bytes_at_skip by (rewrite le_bytes_length; lia). rewrite le_bytes_length.
    replace (4 * S k - 4)%nat with (4 * k)%nat by lia. apply IH. exact H.
Qed.

(** ** Sectors in the file *)

Definition even (sz : nat) (l : list str) : Prop :=
  Forall (fun b => length b = sz) (removelast l) /\ (l <> [] -> (0 < length (last l []) <= sz)%nat).

Lemma even_cons sz b l : even sz (b :: l) -> l <> [] -> length b = sz /\ even sz l.
Proof.
  intros [F L] N. destruct l as [|c l]; [congruence|]. change (removelast (b :: c :: l)) with (b :: removelast (c :: l)) in F.
  change (last (b :: c :: l) []) with (last (c :: l) []) in L. pose proof (Forall_inv F) as F1. pose proof (Forall_inv_tail F) as F2. split; [exact F1|]. split; [exact F2|].
  intros _. apply L. discriminate.
Qed.
Lemma skipn_concat sz l : forall s, even sz l -> (s < length l)%nat -> skipn (s * sz) (concat l) = concat (skipn s l).
Proof.
  induction l as [|b l IH]; intros s E Sl; [cbn in Sl; lia|]. destruct s as [|s]; [reflexivity|].
  cbn [length] in Sl. destruct (even_cons _ _ _ E) as [L E']; [destruct l; [cbn in Sl; lia|discriminate]|].
  cbn [concat skipn]. rewrite skipn_app. replace (S s * sz)%nat with (length b + s * sz)%nat by lia.
  rewrite skipn_all2 by lia. cbn [app]. replace (length b + s * sz - length b)%nat with (s * sz)%nat by lia.
  apply IH; [exact E'|lia].
Qed.
Lemma even_skipn sz l s : even sz l -> (s < length l)%nat -> even sz (skipn s l).
Proof.
  revert s. induction l as [|b l IH]; intros [|s] E Sl; try exact E. cbn [skipn length] in *.
  apply IH; [|lia]. apply (even_cons _ b l E). destruct l; [cbn in Sl; lia|discriminate].
Qed.
Lemma nth_even sz l s : even sz l -> (length (nth s l []) <= sz)%nat.
Proof.
  revert s. induction l as [|b l IH]; intros s E; [destruct s; cbn; lia|]. destruct l as [|c l].
  - destruct E as [_ E]. specialize (E ltac:(discriminate)). cbn [last] in E. destruct s as [|[|s]]; cbn; lia.
  - destruct (even_cons _ _ _ E ltac:(discriminate)) as [L E']. destruct s as [|s]; [cbn; lia|]. exact (IH s E').
Qed.
Lemma concat_sector sz l s : even sz l -> (s < length l)%nat -> firstn sz (skipn (s * sz) (concat l)) = nth s l [].
Proof.
  intros E Sl. rewrite skipn_concat by assumption. pose proof (even_skipn _ l s E Sl) as E'.
  assert (X : nth s l [] = nth 0 (skipn s l) []).
  { clear. revert l. induction s as [|s IH]; intros [|b l]; cbn; auto. }
  rewrite X. assert (Y : skipn s l <> []) by (intro Q; apply (f_equal (@length _)) in Q; rewrite skipn_length in Q; cbn in Q; lia).
  destruct (skipn s l) as [|b m]; [congruence|]. cbn [concat nth]. destruct m as [|c m].
  - cbn [concat]. rewrite app_nil_r. destruct E' as [_ E']. specialize (E' ltac:(discriminate)). cbn [last] in E'.
    apply firstn_all2. lia.
  - destruct (even_cons _ _ _ E' ltac:(discriminate)) as [L _]. rewrite firstn_app, L, Nat.sub_diag. cbn [firstn].
    rewrite app_nil_r. apply firstn_all2. lia.
Qed.
Lemma concat_even_length sz l : even sz l -> l <> [] ->
  (length (concat l) = (length l - 1) * sz + length (last l []))%nat.
Proof.
  induction l as [|b l IH]; intros E N; [congruence|]. destruct l as [|c l]; [cbn; rewrite app_nil_r; lia|].
  destruct (even_cons _ _ _ E ltac:(discriminate)) as [L E']. change (concat (b :: c :: l)) with (b ++ concat (c :: l)).
  rewrite app_length, IH by (assumption || discriminate). change (last (b :: c :: l) []) with (last (c :: l) []). cbn [length]. lia.
Qed.
Lemma even_nth_full sz l s : even sz l -> (S s < length l)%nat -> length (nth s l []) = sz.
Proof.
  revert s. induction l as [|b l IH]; intros s E Sl; [cbn in Sl; lia|]. cbn [length] in Sl.
  destruct (even_cons _ _ _ E) as [L E']; [destruct l; [cbn in Sl; lia|discriminate]|]. destruct s as [|s]; [exact L|].
  cbn [nth]. apply IH; [exact E'|lia].
Qed.

(** ** The file of a document *)

Lemma size_pos D : good_document D -> 8 <= size_of D.
Proof. intro G. unfold size_of. pose proof (g_shift _ G). change 8 with (2 ^ 3). apply Z.pow_le_mono_r; lia. Qed.
Lemma size_four D : good_document D -> exists k, size_of D = 4 * k /\ 2 <= k.
Proof.
  intro G. pose proof (g_shift _ G). exists (2 ^ (o_shift D - 2)). unfold size_of. split.
  - replace (o_shift D) with (2 + (o_shift D - 2)) at 1 by lia. rewrite Z.pow_add_r by lia. reflexivity.
  - change 2 with (2 ^ 1) at 1. apply Z.pow_le_mono_r; lia.
Qed.
Lemma header_length D : good_document D -> length (doc_header D) = 512%nat.
Proof.
  intro G. unfold doc_header. rewrite !app_length, !le_bytes_length, !words_length, (g_id _ G), (g_gap _ G).
  rewrite (proj1 (g_master _ G)). reflexivity.
Qed.
Lemma even_doc D : good_document D -> even (Z.to_nat (size_of D)) (o_sectors D).
Proof.
  intro G. destruct (g_sectors _ G) as [F L]. split.
  - eapply Forall_impl; [|exact F]. cbv beta. intros b E. lia.
  - intro N. specialize (L N). lia.
Qed.
Lemma file_sector D s : good_document D -> present D s -> sector (doc_file D) 512 (size_of D) s = sector_of D s.
Proof.
  intros G [P1 P2]. unfold sector, doc_file. pose proof (size_pos _ G). pose proof (header_length _ G) as H1.
  rewrite skipn_app, skipn_all2 by (rewrite H1; lia). rewrite H1. cbn [app].
  replace (Z.to_nat (512 + s * size_of D) - 512)%nat with (Z.to_nat s * Z.to_nat (size_of D))%nat by lia.
  rewrite concat_sector; [reflexivity|apply even_doc; exact G|lia].
Qed.
Lemma file_slice D s : good_document D -> present D s ->
  pyslice (doc_file D) (512 + size_of D * s) (512 + size_of D * s + size_of D) = sector_of D s.
Proof.
  intros G P. pose proof (size_pos _ G). rewrite pyslice_nonneg by (destruct P; lia). rewrite <- file_sector by assumption.
  unfold sector. rewrite (Z.mul_comm s). reflexivity.
Qed.
Lemma file_chain D l : good_document D -> Forall (present D) l ->
  chain_bytes (doc_file D) 512 (size_of D) l = flat_map (sector_of D) l.
Proof. intros G. induction 1 as [|s l P _ IH]; [reflexivity|]. cbn [chain_bytes flat_map]. rewrite file_sector by assumption. f_equal. exact IH. Qed.
Lemma file_length D : good_document D ->
  let n := Z.of_nat (length (doc_file D)) - 512 in
  n / size_of D + (if n mod size_of D =? 0 then 0 else 1) = Z.of_nat (length (o_sectors D)).
Proof.
  intros G n. pose proof (size_pos _ G) as SP. pose proof (header_length _ G) as H1. pose proof (even_doc _ G) as E.
  assert (N : n = Z.of_nat (length (concat (o_sectors D)))) by (unfold n, doc_file; rewrite app_length, H1; lia).
  clearbody n. subst n. destruct (list_eq_dec (list_eq_dec N.eq_dec) (o_sectors D) []) as [Q|Q].
  - rewrite Q. cbn [concat length Z.of_nat]. rewrite Z.div_0_l, Z.mod_0_l by lia. reflexivity.
  - rewrite (concat_even_length _ _ E Q). destruct E as [_ E]. specialize (E Q).
    set (m := length (last (o_sectors D) [])) in *. set (k := length (o_sectors D)) in *.
    assert (K : (0 < k)%nat) by (unfold k; destruct (o_sectors D); [exfalso; apply Q; reflexivity|cbn; lia]).
    set (z := size_of D) in *. clearbody z m k.
    replace (Z.of_nat ((k - 1) * Z.to_nat z + m)) with (Z.of_nat m + (Z.of_nat k - 1) * z) by nia.
    rewrite Z.div_add, Z.mod_add by lia. destruct (Z.eq_dec (Z.of_nat m) z) as [M|M].
    + rewrite M, Z.div_same, Z.mod_same by lia. rewrite Z.eqb_refl. lia.
    + rewrite Z.div_small, Z.mod_small by lia. destruct (Z.eqb_spec (Z.of_nat m) 0); lia.
Qed.
Lemma full_place D s : good_document D -> present D s -> full D s ->
  512 + (s + 1) * size_of D <= Z.of_nat (length (doc_file D)).
Proof.
  intros G P F. pose proof (size_pos _ G) as SP. pose proof (header_length _ G) as H1. pose proof (file_sector D s G P) as E.
  unfold full in F. rewrite <- E in F. unfold sector in F. rewrite firstn_length, skipn_length in F. destruct P. nia.
Qed.
Lemma file_whole D l : good_document D -> Forall (present D) l -> Forall (full D) (removelast l) ->
  whole (doc_file D) 512 (size_of D) l.
Proof.
  intros G P F. unfold whole. rewrite Forall_forall in *. intros s S. apply full_place; [exact G| |apply F; exact S].
  apply P. destruct l as [|x l]; [destruct S|]. rewrite (app_removelast_last 0) by discriminate. apply in_or_app. left. exact S.
Qed.

(** ** Sectors in use *)

Definition in_use (D : document) (seen : list Z) (l : list Z) : Prop :=
  length seen = length (o_sectors D) /\
  forall s, present D s -> (nth_error seen (Z.to_nat s) = Some 0 <-> ~ In s l).

Lemma in_use_none D : in_use D (repeat 0 (length (o_sectors D))) [].
Proof.
  split; [apply repeat_length|]. intros s [P1 P2]. split; [intros _ []|]. intros _. apply nth_error_repeat. lia.
Qed.
Lemma in_use_mark D seen l s id : in_use D seen l -> present D s -> ~ In s l -> 1 <= id <= 255 ->
  exists seen', mark seen (Some id) s = (seen', Ok tt) /\ in_use D seen' (s :: l).
Proof.
  intros [L U] P N I0. pose proof (proj2 (U s P) N) as E. destruct P as [P1 P2]. eexists. split.
  - unfold mark. rewrite py_index_pos by lia. rewrite E. cbn [Z.eqb negb].
    destruct ((id <? 0) || (255 <? id)) eqn:B; [lia|]. reflexivity.
  - split; [rewrite set_length; [exact L|lia]|]. intros x P. rewrite nth_error_set by lia.
    destruct (Nat.eqb_spec (Z.to_nat x) (Z.to_nat s)) as [Q|Q].
    + destruct P. assert (x = s) by lia. subst x. split; [intro X; injection X; lia|]. intro X. exfalso. apply X. left. reflexivity.
    + rewrite (U x P). cbn [In]. split; intros A B; apply A; [destruct B as [->|B]; [congruence|exact B]|right; exact B].
Qed.
Lemma in_use_marked D seen seen' l l' id : in_use D seen l -> marked seen seen' l' id -> Forall (present D) l' -> id <> 0 ->
  in_use D seen' (l' ++ l).
Proof.
  intros [L U] (M1 & M2 & M3) P I0. split; [congruence|]. intros s S. rewrite in_app_iff.
  destruct (in_dec Z.eq_dec s l') as [I|I].
  - rewrite (M2 s I). split; [intro X; injection X; lia|]. tauto.
  - rewrite M3 by (rewrite Z2Nat.id by (destruct S; lia); exact I). rewrite (U s S). tauto.
Qed.
Lemma in_use_free D seen l l' : in_use D seen l -> Forall (present D) l' -> (forall s, In s l' -> ~ In s l) ->
  Forall (unused seen) l'.
Proof.
  intros [L U] P F. rewrite Forall_forall in *. intros s S. apply (U s (P s S)). exact (F s S).
Qed.
Lemma in_use_perm D seen l l' : in_use D seen l -> (forall s, In s l <-> In s l') -> in_use D seen l'.
Proof. intros [L U] E. split; [exact L|]. intros s P. rewrite (U s P), E. reflexivity. Qed.

(** ** The tables *)

Lemma holds_unpack D s l : good_document D -> holds D s l ->
  unpack_ints (size_of D / 4) (pyslice (doc_file D) (512 + size_of D * s) (512 + size_of D * s + size_of D)) = Ok l.
Proof. intros G (P & E & L & F). rewrite file_slice, E by assumption. apply unpack_ints_words; assumption. Qed.

Lemma start_cases (l : list (Z * list Z)) D : good_ext D l -> start (map fst l) = -2 /\ l = [] \/ 0 <= start (map fst l) < Z.of_nat (length (o_sectors D)) /\ l <> [].
Proof. destruct l as [|[s ids] l]; intro G; [left; split; reflexivity|]. right. destruct G as [[P _] _]. split; [exact P|discriminate]. Qed.

Lemma last_app A (l : list A) x d : last (l ++ [x]) d = x.
Proof. induction l as [|y l IH]; [reflexivity|]. cbn [app]. destruct (l ++ [x]) eqn:E; [destruct l; discriminate E|]. exact IH. Qed.

Lemma msatx_ok D : good_document D -> forall l f seen u msat, good_ext D l -> (length l < f)%nat -> in_use D seen u ->
  NoDup (map fst l) -> (forall s, In s (map fst l) -> ~ In s u) ->
  exists seen', msatx_loop f (doc_file D) (size_of D) seen (start (map fst l)) msat = Ok (msat ++ flat_map snd l, seen') /\
    in_use D seen' (map fst l ++ u).
Proof.
  intros G. induction l as [|[s ids] l IH]; intros f seen u msat E Lf U ND FR.
  - exists seen. split; [|exact U]. destruct f; cbn [msatx_loop map start hd flat_map]; cbn [Z.eqb orb]; rewrite app_nil_r; reflexivity.
  - cbn [length] in Lf. destruct f as [|f]; [lia|]. cbn [good_ext] in E. destruct E as [H E]. pose proof H as (P & _).
    cbn [map fst] in *. change (start (s :: map fst l)) with s. inversion ND as [|? ? ND1 ND2]; subst.
    destruct (in_use_mark D seen u s 1 U P (FR s (or_introl eq_refl)) ltac:(lia)) as (seen1 & M & U1).
    destruct (IH f seen1 (s :: u) (msat ++ ids) E ltac:(lia) U1 ND2) as (seen2 & R & U2).
    { intros x X [->|Y]; [exact (ND1 X)|]. exact (FR x (or_intror X) Y). }
    exists seen2. split; [|eapply in_use_perm; [exact U2|]; intro x; repeat (cbn [In app] || rewrite in_app_iff); tauto].
    destruct U as [L0 _]. destruct P as [P1 P2]. cbn [msatx_loop].
    destruct ((s =? EOCSID) || (s =? FREESID) || (s =? MSATSID)) eqn:C1; [unfold EOCSID, FREESID, MSATSID in C1; lia|].
    destruct (Z.of_nat (length seen) <=? s) eqn:C2; [lia|]. destruct (s <? 0) eqn:C3; [lia|].
    rewrite M. cbv zeta. rewrite (holds_unpack D s _ G H). cbn [bind].
    rewrite app_assoc, last_app, removelast_last. rewrite R. cbn [flat_map snd]. rewrite app_assoc. reflexivity.
Qed.

Lemma sat_ok D : good_document D -> forall ids l seen u, filter (fun s => negb (s =? -1)) ids = map fst l ->
  Forall (fun sl => holds D (fst sl) (snd sl)) l -> in_use D seen u ->
  NoDup (map fst l) -> (forall s, In s (map fst l) -> ~ In s u) ->
  exists seen', sat_loop (doc_file D) (size_of D) seen ids = Ok (flat_map snd l, seen') /\ in_use D seen' (map fst l ++ u).
Proof.
  intros G. induction ids as [|i ids IH]; intros l seen u E H U ND FR.
  - cbn [filter] in E. destruct l; [|discriminate E]. exists seen. split; [reflexivity|exact U].
  - cbn [filter] in E. destruct (Z.eqb_spec i (-1)) as [->|N]; cbn [negb] in E.
    + destruct (IH l seen u E H U ND FR) as (seen' & R & U'). exists seen'. split; [exact R|exact U'].
    + destruct l as [|[s ws] l]; [discriminate E|]. cbn [map fst] in E. injection E as -> E. cbn [map fst] in *.
      inversion ND as [|? ? ND1 ND2]; subst. pose proof (Forall_inv H) as H1. cbn [fst snd] in H1. pose proof H1 as (P & _).
      destruct (in_use_mark D seen u s 2 U P (FR s (or_introl eq_refl)) ltac:(lia)) as (seen1 & M & U1).
      destruct (IH l seen1 (s :: u) E (Forall_inv_tail H) U1 ND2) as (seen2 & R & U2).
      { intros x X [->|Y]; [exact (ND1 X)|]. exact (FR x (or_intror X) Y). }
      exists seen2. split; [|eapply in_use_perm; [exact U2|]; intro x; repeat (cbn [In app] || rewrite in_app_iff); tauto].
      destruct U as [L0 _]. destruct P as [P1 P2]. cbn [sat_loop].
      destruct ((s =? FREESID) || (s =? EOCSID)) eqn:C1; [unfold EOCSID, FREESID in C1; lia|].
      destruct (Z.of_nat (length seen) <=? s) eqn:C2; [lia|]. destruct (s <? -2) eqn:C3; [lia|].
      rewrite M. cbv zeta. rewrite (holds_unpack D s _ G H1). cbn [bind]. rewrite R. cbn [bind flat_map snd]. reflexivity.
Qed.

Lemma ssat_ok D : good_document D -> forall l seen u s, chain (table D) s (map fst l) ->
  Forall (fun sl => holds D (fst sl) (snd sl)) l -> in_use D seen u ->
  (forall s, In s (map fst l) -> ~ In s u) ->
  exists seen', ssat_loop (length l) (doc_file D) (table D) (size_of D) seen s = Ok (flat_map snd l, seen') /\
    in_use D seen' (map fst l ++ u).
Proof.
  intros G. induction l as [|[s0 ws] l IH]; intros seen u s C H U FR.
  - inversion C; subst. exists seen. split; [reflexivity|exact U].
  - cbn [map fst] in *. pose proof (chain_NoDup _ _ _ C) as ND. inversion C as [|? s' ? C1 C2 C3]; subst.
    inversion ND as [|? ? ND1 ND2]; subst. pose proof (Forall_inv H) as H1. cbn [fst snd] in H1. pose proof H1 as (P & _).
    destruct (in_use_mark D seen u s0 5 U P (FR s0 (or_introl eq_refl)) ltac:(lia)) as (seen1 & M & U1).
    destruct (IH seen1 (s0 :: u) s' C3 (Forall_inv_tail H) U1) as (seen2 & R & U2).
    { intros x X [->|Y]; [exact (ND1 X)|]. exact (FR x (or_intror X) Y). }
    exists seen2. split; [|eapply in_use_perm; [exact U2|]; intro x; repeat (cbn [In app] || rewrite in_app_iff); tauto].
    cbn [length ssat_loop]. destruct (s0 <? 0) eqn:C4; [lia|]. rewrite M. cbv zeta. rewrite (Z.mul_comm s0).
    rewrite (holds_unpack D s0 _ G H1). cbn [bind]. rewrite py_index_pos by lia. rewrite C2, R. reflexivity.
Qed.

(** ** The directory *)

Lemma stores_entry_length e b : stores_entry e b -> length b = 128%nat.
Proof.
  intros (buf & cb & col & stuff & fill & -> & L1 & L2 & L3 & _). rewrite !app_length, !le_bytes_length, !words_length.
  cbn [length]. lia.
Qed.
Lemma stores_entry_dirnode e b : stores_entry e b -> dirnode_of b = Ok e.
Proof.
  intros (buf & cb & col & stuff & fill & E & L1 & L2 & L3 & T & F & SC & NM). pose proof F as F0.
  assert (LB : length b = 128%nat) by (apply (stores_entry_length e); exists buf, cb, col, stuff, fill; repeat (split; [assumption|]); assumption).
  assert (CB : 0 <= cb < 65536 /\ le_value (bytes_at 64 2 b) = cb).
  { assert (0 <= cb < 65536).
    { destruct NM as [[-> _]|(rest & B & ->)]; [lia|]. apply (f_equal (@length _)) in B. rewrite !app_length, wide_length in B. lia. }
    split; [assumption|]. rewrite E, bytes_at_skip by lia. rewrite L1. change (64 - 64)%nat with 0%nat.
    rewrite bytes_at_0 by apply le_bytes_length. apply le_value_bytes. cbn. lia. }
  destruct CB as [CR CB].
  assert (W : forall k x, nth_error [dn_left e; dn_right e; dn_root e] k = Some x -> bytes_at (68 + 4 * k) 4 b = le_bytes 4 x).
  { intros k x K. rewrite E. rewrite bytes_at_skip by lia. rewrite L1.
    rewrite bytes_at_skip by (rewrite le_bytes_length; lia). rewrite le_bytes_length.
    rewrite bytes_at_skip by (cbn [length]; lia). cbn [length].
    replace (68 + 4 * k - 64 - 2 - 2)%nat with (4 * k)%nat by lia. apply bytes_at_words. exact K. }
  assert (W2 : forall k x, nth_error [dn_first e; dn_size e] k = Some x -> bytes_at (116 + 4 * k) 4 b = le_bytes 4 x).
  { intros k x K. rewrite E. rewrite bytes_at_skip by lia. rewrite L1.
    rewrite bytes_at_skip by (rewrite le_bytes_length; lia). rewrite le_bytes_length.
    rewrite bytes_at_skip by (cbn [length]; lia). cbn [length].
    rewrite bytes_at_skip by (rewrite words_length; cbn [length]; lia). rewrite words_length. cbn [length].
    rewrite bytes_at_skip by lia. rewrite L2.
    replace (116 + 4 * k - 64 - 2 - 2 - 4 * 3 - 36)%nat with (4 * k)%nat by lia. apply bytes_at_words. exact K. }
  assert (ET : le_value (bytes_at 66 1 b) = dn_etype e).
  { rewrite E, bytes_at_skip by lia. rewrite L1. rewrite bytes_at_skip by (rewrite le_bytes_length; lia). rewrite le_bytes_length.
    change (66 - 64 - 2)%nat with 0%nat. cbn [app bytes_at skipn firstn le_value]. lia. }
  unfold dirnode_of.
  assert (X1 : length (bytes_at 64 16 b) = 16%nat) by (unfold bytes_at; rewrite firstn_length, skipn_length; lia).
  assert (X2 : length (bytes_at 116 8 b) = 8%nat) by (unfold bytes_at; rewrite firstn_length, skipn_length; lia).
  rewrite X1, X2. cbn [Nat.eqb negb]. rewrite CB, ET. cbv zeta.
  pose proof (W 0%nat _ eq_refl : bytes_at 68 4 b = _) as V1. pose proof (W 1%nat _ eq_refl : bytes_at 72 4 b = _) as V2.
  pose proof (W 2%nat _ eq_refl : bytes_at 76 4 b = _) as V3. pose proof (W2 0%nat _ eq_refl : bytes_at 116 4 b = _) as V4.
  pose proof (W2 1%nat _ eq_refl : bytes_at 120 4 b = _) as V5. rewrite V1, V2, V3, V4, V5.
  rewrite Forall_forall in F0. rewrite !le_signed_bytes by (apply F0; cbn [In]; tauto).
  assert (NE : (if cb =? 0 then Ok [] else utf16_le (pyslice b 0 (cb - 2))) = Ok (dn_name e)).
  { destruct NM as [[-> ->]|(rest & B & C)]; [reflexivity|]. destruct (Z.eqb_spec cb 0) as [Q|Q]; [lia|].
    change (cb - 2) with (0 + (cb - 2)). rewrite pyslice_nonneg by lia. cbn [Z.to_nat skipn].
    rewrite E, B, <- !app_assoc. set (nm := flat_map (le_bytes 2) (flat_map utf16 (dn_name e))).
    assert (LN : length nm = Z.to_nat (cb - 2)) by (unfold nm; rewrite wide_length; lia).
    rewrite firstn_app, <- LN, Nat.sub_diag, firstn_all. cbn [firstn]. rewrite app_nil_r. apply utf16_le_bytes. exact SC. }
  rewrite NE. cbn [bind]. destruct e; reflexivity.
Qed.

Lemma chunks_concat n bs : (0 < n)%nat -> Forall (fun b => length b = n) bs -> forall f, (length (concat bs) <= f)%nat ->
  chunks f n (concat bs) = bs.
Proof.
  intros N. induction 1 as [|b bs L _ IH]; intros f Lf.
  - destruct f; reflexivity.
  - cbn [concat] in *. rewrite app_length in Lf. destruct f as [|f]; [lia|]. destruct b as [|c b]; [cbn in L; lia|].
    change ((c :: b) ++ concat bs) with (c :: (b ++ concat bs)). cbn [chunks].
    change (c :: b ++ concat bs) with ((c :: b) ++ concat bs).
    rewrite firstn_app, L, Nat.sub_diag, <- L, firstn_all. cbn [firstn]. rewrite app_nil_r.
    rewrite skipn_app, Nat.sub_diag, skipn_all. cbn [skipn app]. rewrite L. rewrite IH by (cbn [length] in Lf; lia). reflexivity.
Qed.
Lemma entries_ok es bs : Forall2 stores_entry es bs -> mapM dirnode_of (chunks (length (concat bs)) 128 (concat bs)) = Ok es.
Proof.
  intro F. rewrite chunks_concat; [|lia| |lia].
  - induction F as [|e b es bs E _ IH]; [reflexivity|]. cbn [mapM]. rewrite (stores_entry_dirnode e b E). cbn [bind]. rewrite IH. reflexivity.
  - induction F as [|e b es bs E _ IH]; constructor; [exact (stores_entry_length e b E)|exact IH].
Qed.

(** ** Opening *)

Lemma root_entry D : good_document D -> exists root es t, o_entries D = root :: es /\ dn_etype root = 5 /\ dir_tree D t.
Proof.
  intro G. destruct (g_tree _ G) as (t & root & H & E & U & N). destruct (o_entries D) as [|r es] eqn:Q; [discriminate H|].
  cbn in H. injection H as ->. exists root, es, t. split; [reflexivity|]. split; [exact E|]. exists root. rewrite Q. repeat split; assumption.
Qed.

Lemma header_reads D : good_document D ->
  bytes_at 0 8 (doc_file D) = SIGNATURE /\ bytes_at 28 2 (doc_file D) = [254; 255]%N /\
  le_value (bytes_at 30 2 (doc_file D)) = o_shift D /\ le_value (bytes_at 32 2 (doc_file D)) = o_short_shift D /\
  bytes_at 76 436 (doc_file D) = words (o_master D) /\
  (forall k z, nth_error [fst (o_spare D); start (o_dir D); snd (o_spare D); o_min D;
            start (map fst (o_minitable D)); Z.of_nat (length (o_minitable D));
            start (map fst (o_ext D)); Z.of_nat (length (o_ext D))] k = Some z ->
     le_signed (bytes_at (44 + 4 * k) 4 (doc_file D)) = z).
Proof.
  intro G. pose proof (g_shift _ G) as Q1. pose proof (g_short _ G) as Q2.
  pose proof (g_id _ G) as L1. pose proof (g_gap _ G) as L2. destruct (g_master _ G) as [L3 L4]. pose proof (g_words _ G) as L5.
  unfold doc_file, doc_header. rewrite <- !app_assoc.
  set (ws := [fst (o_spare D); start (o_dir D); snd (o_spare D); o_min D; start (map fst (o_minitable D));
    Z.of_nat (length (o_minitable D)); start (map fst (o_ext D)); Z.of_nat (length (o_ext D))]) in *.
  assert (LW : length (words ws) = 32%nat) by (rewrite words_length; reflexivity). clearbody ws.
  split; [apply bytes_at_0; reflexivity|]. split.
  { rewrite bytes_at_skip by (cbn [length]; lia). cbn [length]. rewrite bytes_at_skip by lia. rewrite L1. apply bytes_at_0. reflexivity. }
  split.
  { rewrite bytes_at_skip by (cbn [length]; lia). cbn [length]. rewrite bytes_at_skip by lia. rewrite L1.
    rewrite bytes_at_skip by (cbn [length]; lia). cbn [length]. change (30 - 8 - 20 - 2)%nat with 0%nat.
    rewrite bytes_at_0 by apply le_bytes_length. apply le_value_bytes. change (256 ^ Z.of_nat 2) with 65536. lia. }
  split.
  { rewrite bytes_at_skip by (cbn [length]; lia). cbn [length]. rewrite bytes_at_skip by lia. rewrite L1.
    rewrite bytes_at_skip by (cbn [length]; lia). cbn [length]. rewrite bytes_at_skip by (rewrite le_bytes_length; lia).
    rewrite le_bytes_length. change (32 - 8 - 20 - 2 - 2)%nat with 0%nat.
    rewrite bytes_at_0 by apply le_bytes_length. apply le_value_bytes. change (256 ^ Z.of_nat 2) with 65536. lia. }
  split.
  { rewrite bytes_at_skip by (cbn [length]; lia). cbn [length]. rewrite bytes_at_skip by lia. rewrite L1.
    rewrite bytes_at_skip by (cbn [length]; lia). cbn [length]. rewrite bytes_at_skip by (rewrite le_bytes_length; lia).
    rewrite le_bytes_length. rewrite bytes_at_skip by (rewrite le_bytes_length; lia). rewrite le_bytes_length.
    rewrite bytes_at_skip by lia. rewrite L2. rewrite bytes_at_skip by lia. rewrite LW.
    change (76 - 8 - 20 - 2 - 2 - 2 - 10 - 32)%nat with 0%nat. apply bytes_at_0. rewrite words_length, L3. reflexivity. }
  intros k z K.
  { rewrite bytes_at_skip by (cbn [length]; lia). cbn [length]. rewrite bytes_at_skip by lia. rewrite L1.
    rewrite bytes_at_skip by (cbn [length]; lia). cbn [length]. rewrite bytes_at_skip by (rewrite le_bytes_length; lia).
    rewrite le_bytes_length. rewrite bytes_at_skip by (rewrite le_bytes_length; lia). rewrite le_bytes_length.
    rewrite bytes_at_skip by lia. rewrite L2. replace (44 + 4 * k - 8 - 20 - 2 - 2 - 2 - 10)%nat with (4 * k)%nat by lia.
    rewrite (bytes_at_words ws k _ z K). apply le_signed_bytes. rewrite Forall_forall in L5. apply L5.
    exact (nth_error_In _ _ K). }
Qed.

Lemma init_ok D ignore : good_document D -> exists seen k,
  init (doc_file D) ignore = Ok (mkcdoc (doc_file D) ignore (size_of D) (short_size D) (o_min D)
    (Z.of_nat (length (doc_file D)) - 512) (table D) (minitable D)
    (if root_size D =? 0 then None else Some (container D)) (o_entries D) k seen) /\
  family_of (o_entries D) = Ok k /\ in_use D seen (system D).
Proof.
  intro G. destruct (header_reads D G) as (R1 & R2 & R3 & R4 & R5 & R6). pose proof (header_length _ G) as HL.
  assert (FL : (512 <= length (doc_file D))%nat) by (unfold doc_file; rewrite app_length; lia).
  pose proof (R6 1%nat _ eq_refl : le_signed (bytes_at 48 4 _) = _) as W1.
  pose proof (R6 3%nat _ eq_refl : le_signed (bytes_at 56 4 _) = _) as W3.
  pose proof (R6 4%nat _ eq_refl : le_signed (bytes_at 60 4 _) = _) as W4.
  pose proof (R6 5%nat _ eq_refl : le_signed (bytes_at 64 4 _) = _) as W5.
  pose proof (R6 6%nat _ eq_refl : le_signed (bytes_at 68 4 _) = _) as W6.
  pose proof (R6 7%nat _ eq_refl : le_signed (bytes_at 72 4 _) = _) as W7. clear R6.
  pose proof (g_shift _ G) as Q1. pose proof (g_short _ G) as Q2. pose proof (size_pos _ G) as SP.
  destruct (size_four _ G) as (q & SQ & QP).
  pose proof (g_system _ G) as ND. unfold system in ND.
  destruct (NoDup_app_parts _ _ _ ND) as (N1 & ND1 & F1). destruct (NoDup_app_parts _ _ _ ND1) as (N2 & ND2 & F2).
  destruct (NoDup_app_parts _ _ _ ND2) as (N3 & ND3 & F3). destruct (NoDup_app_parts _ _ _ ND3) as (N4 & N5 & F4).
  (* the master table *)
  destruct (msatx_ok D G (o_ext D) (S (length (o_sectors D))) (repeat 0 (length (o_sectors D))) [] (o_master D) (g_ext _ G)) as (seen1 & M & U1).
  { assert (X : forall l, good_ext D l -> Forall (present D) (map fst l)).
    { induction l as [|[s ids] l IH]; intro E; [constructor|]. destruct E as [[P _] E]. constructor; [exact P|exact (IH E)]. }
    pose proof (X _ (g_ext _ G)) as P. rewrite <- (map_length fst).
    assert (incl (map fst (o_ext D)) (map Z.of_nat (seq 0 (length (o_sectors D))))).
    { intros s S. rewrite Forall_forall in P. specialize (P s S). destruct P as [P1 P2]. apply in_map_iff. exists (Z.to_nat s).
      split; [lia|]. apply in_seq. lia. }
    apply (NoDup_incl_length N1) in H. rewrite (map_length Z.of_nat), seq_length in H. lia. }
  { apply in_use_none. }
  { exact N1. }
  { intros s _ []. }
  rewrite app_nil_r in U1.
  (* the allocation table *)
  destruct (sat_ok D G _ (o_table D) seen1 (map fst (o_ext D)) (g_listed _ G) (g_table _ G) U1 N2) as (seen2 & S & U2).
  { intros s S1 S2. apply (F1 s S2). apply in_or_app. left. exact S1. }
  (* the directory *)
  destruct (g_dir _ G) as (D1 & D2 & D3). destruct (g_entries _ G) as (bs & E1 & E2).
  destruct (C51_reads_proof (doc_file D) 512 (table D) (size_of D) (start (o_dir D)) (o_dir D) 3 seen2 None D2 ltac:(lia) ltac:(lia) ltac:(lia)) as (seen3 & G3 & M3).
  { eapply in_use_free; [exact U2|exact D3|]. intros s S1 S2. apply in_app_iff in S2. destruct S2 as [S2|S2].
    - apply (F2 s S2). apply in_or_app. left. exact S1.
    - apply (F1 s S2). apply in_or_app. right. apply in_or_app. left. exact S1. }
  { exact I. }
  rewrite (file_chain D _ G D3), <- E2 in G3.
  pose proof (in_use_marked _ _ _ _ _ _ U2 M3 D3 ltac:(discriminate)) as U3.
  destruct (root_entry _ G) as (root & es & t & RE & RT & TR). pose proof TR as (root' & TR1 & TR2 & TR3 & TR4).
  rewrite RE in TR1. cbn in TR1. injection TR1 as <-.
  destruct (C52_tree_proof (o_entries D) root t) as (k & K & _); [rewrite RE; reflexivity|exact TR3|exact TR4|].
  (* the container *)
  destruct (g_mini _ G) as (Z0 & Z1 & Z2 & Z3). destruct (g_minitable _ G) as (Y1 & Y2).
  assert (RS : root_size D = dn_size root) by (unfold root_size; rewrite RE; reflexivity).
  assert (X4 : exists seen4,
    (if (dn_first root <? 0) || (dn_size root =? 0) then (seen3, Ok None)
     else let '(seen, r) := get_stream (doc_file D) 512 (table D) (size_of D) (dn_first root) (Some (dn_size root)) (Some 4) seen3 in
          (seen, do b <- r; Ok (Some b))) = (seen4, Ok (if root_size D =? 0 then None else Some (container D))) /\
    in_use D seen4 (o_mini D ++ o_dir D ++ map fst (o_table D) ++ map fst (o_ext D))).
  { rewrite RS in *. destruct (Z.eqb_spec (dn_size root) 0) as [R0|R0].
    - rewrite Bool.orb_true_r. exists seen3. split; [reflexivity|]. destruct Z1 as [-> _]. exact U3.
    - rewrite RE in Z1. destruct Z1 as [Z4 Z5]. assert (ZF : 0 <= dn_first root) by (inversion Z5; subst; [congruence|assumption]).
      destruct (dn_first root <? 0) eqn:ZB; [lia|]. cbn [orb].
      destruct (C51_reads_proof (doc_file D) 512 (table D) (size_of D) (dn_first root) (o_mini D) 4 seen3 (Some (dn_size root)) Z5 ltac:(lia) ltac:(lia) ltac:(lia)) as (seen4 & G4 & M4).
      { eapply in_use_free; [exact U3|exact Z2|]. intros s S1 S2. apply in_app_iff in S2. destruct S2 as [S2|S2].
        - apply (F3 s S2). apply in_or_app. left. exact S1.
        - apply in_app_iff in S2. destruct S2 as [S2|S2].
          + apply (F2 s S2). apply in_or_app. right. apply in_or_app. left. exact S1.
          + apply (F1 s S2). apply in_or_app. right. apply in_or_app. right. apply in_or_app. left. exact S1. }
      { split; [lia|]. apply file_whole; assumption. }
      rewrite G4. exists seen4. split.
      + rewrite (file_chain D _ G Z2). unfold container. rewrite RS. reflexivity.
      + exact (in_use_marked _ _ _ _ _ _ U3 M4 Z2 ltac:(discriminate)). }
  destruct X4 as (seen4 & X4 & U4).
  (* its table *)
  assert (X5 : exists seen5,
    (if 0 <? dn_size root then
       if Z.of_nat (length (o_minitable D)) <? 0 then Err AssertionError
       else ssat_loop (Z.to_nat (Z.of_nat (length (o_minitable D)))) (doc_file D) (table D) (size_of D) seen4 (start (map fst (o_minitable D)))
     else Ok ([], seen4)) = Ok (minitable D, seen5) /\ in_use D seen5 (system D)).
  { rewrite <- RS. destruct (Z.ltb_spec 0 (root_size D)) as [R0|R0].
    - destruct (Z.of_nat (length (o_minitable D)) <? 0) eqn:B; [lia|]. rewrite Nat2Z.id.
      destruct (ssat_ok D G (o_minitable D) seen4 _ (start (map fst (o_minitable D))) (Y1 R0) Y2 U4) as (seen5 & R & U5).
      { intros s S1 S2. repeat (rewrite in_app_iff in S2). destruct S2 as [S2|[S2|[S2|S2]]].
        - apply (F4 s S2). exact S1.
        - apply (F3 s S2). apply in_or_app. right. exact S1.
        - apply (F2 s S2). repeat (apply in_or_app; right). exact S1.
        - apply (F1 s S2). repeat (apply in_or_app; right). exact S1. }
      exists seen5. split; [exact R|]. eapply in_use_perm; [exact U5|]. intro s. unfold system. rewrite !in_app_iff. tauto.
    - exists seen4. assert (R1' : root_size D = 0) by lia. rewrite R1' in Z1. cbn [Z.eqb] in Z1. destruct Z1 as [Z4 Z5].
      unfold minitable. rewrite Z5. split; [reflexivity|]. eapply in_use_perm; [exact U4|]. intro s. unfold system. rewrite Z5, !in_app_iff. cbn [map In]. tauto. }
  destruct X5 as (seen5 & X5 & U5).
  exists seen5, k. split; [|split; [exact K|exact U5]].
  unfold init. rewrite R1, str_eqb_refl, R2, str_eqb_refl. cbn [negb].
  assert (B1 : length (bytes_at 30 4 (doc_file D)) = 4%nat) by (unfold bytes_at; rewrite firstn_length, skipn_length; lia).
  assert (B2 : length (bytes_at 44 32 (doc_file D)) = 32%nat) by (unfold bytes_at; rewrite firstn_length, skipn_length; lia).
  rewrite B1, B2, R3, R4. cbn [Nat.eqb negb]. cbv zeta.
  destruct (20 <? o_shift D) eqn:C1; [lia|]. destruct (o_shift D <? o_short_shift D) eqn:C2; [lia|].
  change (2 ^ o_shift D) with (size_of D). change (2 ^ o_short_shift D) with (short_size D).
  rewrite (file_length D G), Nat2Z.id, R5. rewrite unpack_ints_words by (try apply (g_master _ G); rewrite (proj1 (g_master _ G)); reflexivity).
  cbn [bind]. destruct (size_of D / 4 <=? 1) eqn:C3; [rewrite SQ, (Z.mul_comm 4), Z.div_mul in C3 by lia; lia|].
  cbn [Nat.add Nat.mul]. rewrite W1, W3, W4, W5, W6, W7.
  assert (MX : (if (Z.of_nat (length (o_ext D)) =? 0) && ((start (map fst (o_ext D)) =? EOCSID) || (start (map fst (o_ext D)) =? FREESID) || (start (map fst (o_ext D)) =? 0))
     then Ok (o_master D, repeat 0 (length (o_sectors D)))
     else msatx_loop (Datatypes.S (length (repeat 0 (length (o_sectors D))))) (doc_file D) (size_of D) (repeat 0 (length (o_sectors D))) (start (map fst (o_ext D))) (o_master D))
     = Ok (o_master D ++ flat_map snd (o_ext D), seen1)).
  { rewrite repeat_length. destruct (o_ext D) as [|x l] eqn:EX.
    - rewrite <- M. cbn [length map start hd flat_map msatx_loop]. reflexivity.
    - destruct (Z.eqb_spec (Z.of_nat (length (x :: l))) 0) as [Q|Q]; [cbn [length] in Q; lia|]. exact M. }
  rewrite MX. cbn [bind]. rewrite S. cbn [bind]. change (flat_map snd (o_table D)) with (table D). rewrite G3. cbn [bind].
  rewrite (entries_ok _ _ E1). cbn [bind]. rewrite K. cbn [bind].
  assert (PI : py_index (o_entries D) 0 = Some root) by (rewrite RE; reflexivity). rewrite PI, RT. cbn [Z.eqb Pos.eqb negb].
  rewrite X4. cbn [bind]. rewrite X5. cbn [bind]. reflexivity.
Qed.

(** ** Names *)

Lemma lower_letter x y : x <> 8490%N -> (y < 128)%N ->
  (if is_upper x then (x + 32)%N else if (x =? 8490)%N then 107%N else x) =
  (if is_upper y then (y + 32)%N else if (y =? 8490)%N then 107%N else y) <-> same_letter x y.
Proof.
  intros X Y. unfold same_letter, is_upper. destruct (N.eqb_spec x 8490) as [E|E]; [congruence|].
  destruct (N.eqb_spec y 8490) as [E2|E2]; [lia|].
  destruct ((65 <=? x) && (x <=? 90))%N eqn:A, ((65 <=? y) && (y <=? 90))%N eqn:B; lia.
Qed.
Lemma lower_same a : forall b, no_kelvin a -> plain b -> str_eqb (lower_name a) (lower_name b) = true <-> same_name a b.
Proof.
  intros b K P. rewrite str_eqb_eq. revert b K P. induction a as [|x a IH]; intros [|y b] K P.
  - split; [constructor|reflexivity].
  - split; [discriminate|]. intro H. inversion H.
  - split; [discriminate|]. intro H. inversion H.
  - pose proof (Forall_inv P) as P1. pose proof (Forall_inv_tail P) as P2. cbv beta in P1.
    assert (K1 : x <> 8490%N) by (intros ->; apply K; left; reflexivity).
    assert (K2 : no_kelvin a) by (intro Q; apply K; right; exact Q).
    cbn [lower_name map]. split.
    + intro H. injection H as H1 H2. constructor; [apply lower_letter; assumption|]. apply (IH b K2 P2). exact H2.
    + intro H. inversion H as [|? ? ? ? S1 S2]; subst. apply (lower_letter x y K1 P1) in S1. rewrite S1. f_equal.
      apply (IH b K2 P2). exact S2.
Qed.
Lemma same_name_sym a b : same_name a b -> same_name b a.
Proof. induction 1 as [|x y a b S _ IH]; constructor; [unfold same_letter in *; intuition congruence|exact IH]. Qed.
Lemma same_name_plain a b : same_name a b -> plain b -> plain a.
Proof.
  induction 1 as [|x y a b S _ IH]; intro P; constructor.
  - pose proof (Forall_inv P) as P1. cbv beta in P1. unfold same_letter in S. lia.
  - apply IH. exact (Forall_inv_tail P).
Qed.
Lemma same_name_trans a b c : same_name a b -> same_name c b -> same_name a c.
Proof.
  intro H. revert c. induction H as [|x y a b S _ IH]; intros c C; inversion C as [|z ? c' ? S1 C1]; subst; constructor.
  - unfold same_letter in *. lia.
  - apply IH. exact C1.
Qed.

(** ** Searching *)

Definition kids (k : kin) (t : dtree) : Prop :=
  forall d c, In (d, c) ((0, t) :: storages t) -> nth_error (k_children k) (Z.to_nat d) = Some (siblings c).

Lemma storages_trans t d c : In (d, c) (storages t) -> forall e i, In (e, i) (storages c) -> In (e, i) (storages t).
Proof.
  induction t as [|d0 l IHl r IHr i0 IHi]; intros H e i H'; [destruct H|]. cbn [storages] in *.
  apply in_app_iff in H. apply in_app_iff. destruct H as [H|[H|H]].
  - left. exact (IHl H e i H').
  - injection H as <- <-. right. right. apply in_app_iff. right. exact H'.
  - apply in_app_iff in H. right. right. apply in_app_iff. destruct H as [H|H]; [left; exact (IHr H e i H')|right; exact (IHi H e i H')].
Qed.
Lemma storages_in t s c e i : In (s, c) ((0, t) :: storages t) -> In (e, i) (storages c) -> In (e, i) ((0, t) :: storages t).
Proof.
  intros [H|H] H'; right; [injection H as <- <-; exact H'|]. exact (storages_trans t s c H e i H').
Qed.
Lemma siblings_storages t d : In d (siblings t) -> exists i, In (d, i) (storages t).
Proof.
  induction t as [|d0 l IHl r IHr i0 IHi]; intros H; [destruct H|]. cbn [siblings storages] in *. apply in_app_iff in H.
  destruct H as [H|[->|H]].
  - destruct (IHl H) as [i I]. exists i. apply in_app_iff. left. exact I.
  - exists i0. apply in_app_iff. right. left. reflexivity.
  - destruct (IHr H) as [i I]. exists i. apply in_app_iff. right. right. apply in_app_iff. left. exact I.
Qed.
Lemma sub_entries t s c x : In (s, c) ((0, t) :: storages t) -> In x (siblings c) -> In x (entries t).
Proof. intros [H|H] S; [injection H as <- <-; apply siblings_entries; exact S|]. exact (storages_siblings t s c x H S). Qed.

Definition match_name (dl : list dirnode) (head : str) (c : Z) : bool :=
  match py_index dl c with
  | Some n => str_eqb (lower_name (dn_name n)) (lower_name head)
  | None => false
  end.

Lemma match_named dl t s c x head : Forall (fun n => no_kelvin (dn_name n)) dl -> plain head ->
  Forall (fun d => 0 <= d < Z.of_nat (length dl)) (entries t) -> In (s, c) ((0, t) :: storages t) -> In x (siblings c) ->
  (match_name dl head x = true <-> exists n, named dl c head x n).
Proof.
  intros K P E S X. rewrite Forall_forall in E. specialize (E x (sub_entries t s c x S X)). unfold match_name, named.
  rewrite py_index_pos by lia. destruct (nth_error dl (Z.to_nat x)) as [n|] eqn:N.
  - rewrite Forall_forall in K. rewrite (lower_same (dn_name n) head (K n (nth_error_In _ _ N)) P). split.
    + intro H. exists n. tauto.
    + intros (m & _ & M & H). congruence.
  - split; [discriminate|]. intros (m & _ & M & _). discriminate M.
Qed.
Lemma find_named dl t s c head d n : Forall (fun n => no_kelvin (dn_name n)) dl -> plain head ->
  Forall (fun d => 0 <= d < Z.of_nat (length dl)) (entries t) -> In (s, c) ((0, t) :: storages t) ->
  distinct_in dl c -> named dl c head d n -> find (match_name dl head) (siblings c) = Some d.
Proof.
  intros K P E S DI NM. pose proof NM as (N1 & N2 & N3).
  destruct (find (match_name dl head) (siblings c)) as [x|] eqn:F.
  - apply find_some in F. destruct F as [F1 F2]. apply (match_named dl t s c x head K P E S F1) in F2.
    destruct F2 as (m & M1 & M2 & M3). f_equal. exact (DI x m d n M1 N1 M2 N2 (same_name_trans _ _ _ M3 N3)).
  - exfalso. pose proof (find_none _ _ F d N1) as Q.
    assert (T : match_name dl head d = true) by (apply (match_named dl t s c d head K P E S N1); exists n; exact NM). congruence.
Qed.

Lemma dir_search_step head tail dl k t s c : kids k t -> In (s, c) ((0, t) :: storages t) ->
  dir_search (head :: tail) dl k s =
    match find (match_name dl head) (siblings c) with
    | None => Ok None
    | Some child =>
        match py_index dl child with
        | None => Err IndexError
        | Some n => if dn_etype n =? 2 then Ok (Some child)
                    else if dn_etype n =? 1 then match tail with [] => Err CompDocError | _ => dir_search tail dl k child end
                    else Err CompDocError
        end
    end.
Proof. intros KI S. cbn [dir_search]. rewrite (nth_error_nth _ _ [] (KI s c S)). reflexivity. Qed.

Lemma search_found dl k t : kids k t -> Forall (fun n => no_kelvin (dn_name n)) dl ->
  Forall (fun d => 0 <= d < Z.of_nat (length dl)) (entries t) -> distinct_names dl t ->
  forall c path d, leads_to dl c path d -> forall s more, In (s, c) ((0, t) :: storages t) -> Forall plain path ->
  dir_search (path ++ more) dl k s = Ok (Some d).
Proof.
  intros KI K E DI c path d L. induction L as [c name d n NM ET|c name d n i path d' NM ET ST L IH]; intros s more S P.
  - cbn [app]. rewrite (dir_search_step name more dl k t s c KI S).
    rewrite (find_named dl t s c name d n K (Forall_inv P) E S (DI s c S) NM). destruct NM as (N1 & N2 & _).
    assert (0 <= d) by (rewrite Forall_forall in E; apply E; exact (sub_entries t s c d S N1)).
    rewrite py_index_pos by assumption. rewrite N2, ET. reflexivity.
  - cbn [app]. rewrite (dir_search_step name _ dl k t s c KI S).
    rewrite (find_named dl t s c name d n K (Forall_inv P) E S (DI s c S) NM). destruct NM as (N1 & N2 & _).
    assert (0 <= d) by (rewrite Forall_forall in E; apply E; exact (sub_entries t s c d S N1)).
    rewrite py_index_pos by assumption. rewrite N2, ET. cbn [Z.eqb Pos.eqb].
    destruct (path ++ more) as [|h q] eqn:Q; [inversion L; subst; discriminate Q|]. rewrite <- Q.
    apply IH; [exact (storages_in t s c d i S ST)|exact (Forall_inv_tail P)].
Qed.
Lemma search_missing dl k t : kids k t -> Forall (fun n => no_kelvin (dn_name n)) dl ->
  Forall (fun d => 0 <= d < Z.of_nat (length dl)) (entries t) -> distinct_names dl t ->
  forall c path, missing dl c path -> forall s, In (s, c) ((0, t) :: storages t) -> Forall plain path ->
  dir_search path dl k s = Ok None.
Proof.
  intros KI K E DI c path L. induction L as [c name path NO|c name d n i path NM ET ST L IH]; intros s S P.
  - rewrite (dir_search_step name path dl k t s c KI S). destruct (find (match_name dl name) (siblings c)) as [x|] eqn:F; [|reflexivity].
    exfalso. apply find_some in F. destruct F as [F1 F2]. apply (match_named dl t s c x name K (Forall_inv P) E S F1) in F2.
    destruct F2 as (m & M). exact (NO x m M).
  - rewrite (dir_search_step name _ dl k t s c KI S).
    rewrite (find_named dl t s c name d n K (Forall_inv P) E S (DI s c S) NM). destruct NM as (N1 & N2 & _).
    assert (0 <= d) by (rewrite Forall_forall in E; apply E; exact (sub_entries t s c d S N1)).
    rewrite py_index_pos by assumption. rewrite N2, ET. cbn [Z.eqb Pos.eqb].
    destruct path as [|h q] eqn:Q; [inversion L|].
    apply IH; [exact (storages_in t s c d i S ST)|exact (Forall_inv_tail P)].
Qed.
Lemma search_sound dl k t : kids k t -> Forall (fun n => no_kelvin (dn_name n)) dl ->
  Forall (fun d => 0 <= d < Z.of_nat (length dl)) (entries t) ->
  forall path c s, In (s, c) ((0, t) :: storages t) -> Forall plain path -> path <> [] ->
  match dir_search path dl k s with
  | Ok (Some d) => exists p q, path = p ++ q /\ leads_to dl c p d
  | Ok None => missing dl c path
  | Err e => e = CompDocError
  end.
Proof.
  intros KI K E. induction path as [|head tail IH]; intros c s S P NE; [congruence|].
  rewrite (dir_search_step head tail dl k t s c KI S). destruct (find (match_name dl head) (siblings c)) as [x|] eqn:F.
  - apply find_some in F. destruct F as [F1 F2]. apply (match_named dl t s c x head K (Forall_inv P) E S F1) in F2.
    destruct F2 as (n & M). pose proof M as (M1 & M2 & M3).
    assert (0 <= x) by (rewrite Forall_forall in E; apply E; exact (sub_entries t s c x S M1)).
    rewrite py_index_pos by assumption. rewrite M2. destruct (Z.eqb_spec (dn_etype n) 2) as [T|T].
    + exists [head], tail. split; [reflexivity|]. exact (lt_stream dl c head x n M T).
    + destruct (Z.eqb_spec (dn_etype n) 1) as [T1|T1]; [|reflexivity]. destruct tail as [|h q]; [reflexivity|].
      destruct (siblings_storages c x M1) as [i ST].
      specialize (IH i x (storages_in t s c x i S ST) (Forall_inv_tail P) ltac:(discriminate)).
      destruct (dir_search (h :: q) dl k x) as [[d|]|e].
      * destruct IH as (p1 & q1 & Q1 & Q2). exists (head :: p1), q1. split; [rewrite Q1; reflexivity|].
        exact (lt_storage dl c head x n i p1 d M T1 ST Q2).
      * exact (ms_storage dl c head x n i (h :: q) M T1 ST IH).
      * exact IH.
  - apply ms_here. intros d n M. pose proof M as (M1 & _). pose proof (find_none _ _ F d M1) as Q.
    assert (T : match_name dl head d = true) by (apply (match_named dl t s c d head K (Forall_inv P) E S M1); exists n; exact M). congruence.
Qed.

(** ** Reading streams *)

Definition opened (D : document) (ignore : bool) (k : kin) (seen : list Z) : cdoc :=
  mkcdoc (doc_file D) ignore (size_of D) (short_size D) (o_min D)
    (Z.of_nat (length (doc_file D)) - 512) (table D) (minitable D)
    (if root_size D =? 0 then None else Some (container D)) (o_entries D) k seen.

Lemma short_pos D : good_document D -> 0 < short_size D.
Proof. intro G. pose proof (g_short _ G). apply Z.pow_pos_nonneg; lia. Qed.

Lemma short_ok D ignore k seen n c l' : good_document D -> dn_size n < o_min D -> 0 <= dn_size n ->
  chain (minitable D) (dn_first n) l' ->
  Forall (fun s => (s + 1) * short_size D <= Z.of_nat (length (container D))) (removelast l') ->
  c = firstn (Z.to_nat (dn_size n)) (flat_map (short_sector D) l') ->
  short_stream (opened D ignore k seen) n = (seen, Ok c).
Proof.
  intros G M P C W ->. unfold short_stream, opened. cbn [cd_SSCS cd_SSAT cd_short_sec_size cd_seen].
  destruct (Z.eqb_spec (root_size D) 0) as [R|R].
  - destruct (g_mini _ G) as (_ & Z1 & _). rewrite R in Z1. cbn [Z.eqb] in Z1. destruct Z1 as [_ Z1].
    unfold minitable in *. rewrite Z1 in *. cbn [flat_map] in *. inversion C as [E1 E2|? ? ? ? X]; subst; [|destruct (Z.to_nat (dn_first n)); discriminate X].
    unfold get_stream. cbn [length get_loop Z.ltb Z.compare]. cbn. rewrite firstn_nil. reflexivity.
  - destruct (C51_short_streams_proof (container D) 0 (minitable D) (short_size D) (dn_first n) seen (Some (dn_size n)) ltac:(lia) (short_pos D G)) as [X _].
    rewrite (X l' C); [|split; [exact P|]; unfold whole; eapply Forall_impl; [|exact W]; cbv beta; intros; lia].
    f_equal.
Qed.

Lemma list_sum_cons x l : list_sum (x :: l) = (x + list_sum l)%nat.
Proof. reflexivity. Qed.

(** What the sectors of a list hold does not exceed what there is. *)
Lemma sum_incl (f : Z -> nat) l : NoDup l -> forall u, incl l u -> (list_sum (map f l) <= list_sum (map f u))%nat.
Proof.
  induction 1 as [|x l X _ IH]; intros u I0; [cbn; lia|].
  destruct (in_split x u (I0 x (or_introl eq_refl))) as (u1 & u2 & ->).
  assert (I1 : incl l (u1 ++ u2)).
  { intros y Y. specialize (I0 y (or_intror Y)). apply in_app_iff in I0. apply in_app_iff. destruct I0 as [|[<-|]]; tauto. }
  specialize (IH _ I1). rewrite !map_app, !list_sum_app in *. cbn [map]. rewrite !list_sum_cons. lia.
Qed.
Lemma flat_map_sum (f : Z -> str) l : length (flat_map f l) = list_sum (map (fun s => length (f s)) l).
Proof. induction l as [|x l IH]; [reflexivity|]. cbn [flat_map map]. rewrite app_length, IH, list_sum_cons. reflexivity. Qed.
Lemma all_sectors (mem : str) sz : 0 < sz -> forall n, (list_sum (map (fun s => length (sector mem 0 sz s)) (map Z.of_nat (seq 0 n))) <= length mem)%nat.
Proof.
  intros SZ n. assert (X : list_sum (map (fun s => length (sector mem 0 sz s)) (map Z.of_nat (seq 0 n))) = Nat.min (length mem) (n * Z.to_nat sz)).
  { induction n as [|n IH]; [cbn; lia|]. rewrite seq_S, !map_app, list_sum_app, IH. cbn [map]. rewrite list_sum_cons. change (list_sum []) with 0%nat. rewrite Nat.add_0_l.
    unfold sector. rewrite firstn_length, skipn_length. replace (Z.to_nat (0 + Z.of_nat n * sz)) with (n * Z.to_nat sz)%nat by nia.
    assert (0 < Z.to_nat sz)%nat by lia. set (z := Z.to_nat sz) in *. replace (S n * z)%nat with (n * z + z)%nat by lia. lia. }
  rewrite X. lia.
Qed.
Lemma sectors_bound mem base sz l : 0 < sz -> 0 <= base -> NoDup l -> Forall (fun s => 0 <= s) l ->
  (length (flat_map (sector mem base sz) l) <= length mem - Z.to_nat base)%nat.
Proof.
  intros SZ B ND P. assert (X : forall s, 0 <= s -> sector mem base sz s = sector (skipn (Z.to_nat base) mem) 0 sz s).
  { intros s S. unfold sector. rewrite skipn_add. f_equal. f_equal. lia. }
  rewrite flat_map_sum. rewrite (map_ext_in _ (fun s => length (sector (skipn (Z.to_nat base) mem) 0 sz s))).
  2: { intros s S. rewrite Forall_forall in P. rewrite X by (apply P; exact S). reflexivity. }
  rewrite <- skipn_length. eapply Nat.le_trans; [|apply (all_sectors (skipn (Z.to_nat base) mem) sz SZ (S (Z.to_nat (fold_right Z.max 0 l))))].
  apply sum_incl; [exact ND|]. intros s S. apply in_map_iff. exists (Z.to_nat s). rewrite Forall_forall in P. specialize (P s S).
  split; [lia|]. apply in_seq. assert (s <= fold_right Z.max 0 l); [|lia]. clear -S. induction l as [|x l IH]; [destruct S|].
  cbn [fold_right]. destruct S as [->|S]; [lia|]. specialize (IH S). lia.
Qed.

Lemma chain_nonneg sat s l : chain sat s l -> Forall (fun s => 0 <= s) l.
Proof. intro C. eapply Forall_impl; [|exact (chain_pos _ _ _ C)]. cbv beta. intros. lia. Qed.

Lemma container_bound D : good_document D -> (length (container D) <= length (doc_file D) - 512)%nat.
Proof.
  intro G. destruct (g_mini _ G) as (Z0 & Z1 & Z2 & Z3). unfold container. rewrite firstn_length.
  rewrite <- (file_chain D _ G Z2). pose proof (size_pos _ G).
  pose proof (sectors_bound (doc_file D) 512 (size_of D) (o_mini D) ltac:(lia) ltac:(lia)) as B. unfold chain_bytes.
  assert (NoDup (o_mini D)).
  { pose proof (g_system _ G) as ND. unfold system in ND. do 3 apply NoDup_app_parts in ND as (_ & ND & _).
    apply NoDup_app_parts in ND. apply ND. }
  specialize (B H0). assert (Forall (fun s => 0 <= s) (o_mini D)) by (eapply Forall_impl; [|exact Z2]; intros s [S1 S2]; exact S1).
  specialize (B H1). change (Z.to_nat 512) with 512%nat in B. lia.
Qed.

Lemma stream_bound D d l c n : good_document D -> stream D d l c -> nth_error (o_entries D) (Z.to_nat d) = Some n ->
  dn_size n <= Z.of_nat (length (doc_file D)) - 512.
Proof.
  intros G (n' & P0 & N & _ & S0 & LC & H) N'. rewrite N' in N. injection N as <-. pose proof (header_length _ G) as HL.
  assert (FL : (512 <= length (doc_file D))%nat) by (unfold doc_file; rewrite app_length; lia). pose proof (size_pos _ G).
  destruct (o_min D <=? dn_size n).
  - destruct H as (C & P & _ & _ & E). rewrite E, firstn_length in LC.
    rewrite <- (file_chain D _ G P) in LC. unfold chain_bytes in LC.
    pose proof (sectors_bound (doc_file D) 512 (size_of D) l ltac:(lia) ltac:(lia) (chain_NoDup _ _ _ C) (chain_nonneg _ _ _ C)) as B.
    change (Z.to_nat 512) with 512%nat in B. lia.
  - destruct H as (_ & l' & C & _ & E). rewrite E, firstn_length in LC. pose proof (short_pos _ G).
    pose proof (sectors_bound (container D) 0 (short_size D) l' ltac:(lia) ltac:(lia) (chain_NoDup _ _ _ C) (chain_nonneg _ _ _ C)) as B.
    change (flat_map (sector (container D) 0 (short_size D)) l') with (flat_map (short_sector D) l') in B.
    pose proof (container_bound D G). lia.
Qed.

Lemma get_ok D ignore k seen path d l c u : good_document D -> dir_search path (o_entries D) k 0 = Ok (Some d) ->
  stream D d l c -> d <= 249 -> in_use D seen u -> (forall s, In s l -> ~ In s u) ->
  exists seen', get_named_stream path (opened D ignore k seen) = (opened D ignore k seen', Ok (Some c)) /\ in_use D seen' (l ++ u).
Proof.
  intros G DS (n & P0 & N & ET & S0 & LC & H) DB U FR. pose proof (size_pos _ G).
  unfold get_named_stream. cbn [opened cd_dirlist cd_kin]. rewrite DS, py_index_pos by exact P0. rewrite N. cbn [opened cd_min_std].
  destruct (Z.leb_spec (o_min D) (dn_size n)) as [M|M].
  - destruct H as (C & P & F & L & E).
    destruct (C51_reads_proof (doc_file D) 512 (table D) (size_of D) (dn_first n) l (d + 6) seen (Some (dn_size n)) C ltac:(lia) ltac:(lia) ltac:(lia)) as (seen' & G1 & M1).
    { eapply in_use_free; eassumption. }
    { split; [exact S0|]. apply file_whole; assumption. }
    exists seen'. cbn [opened cd_mem cd_SAT cd_sec_size cd_seen]. rewrite G1. rewrite (file_chain D _ G P), <- E. cbn [bind].
    split; [reflexivity|]. exact (in_use_marked _ _ _ _ _ _ U M1 P ltac:(lia)).
  - destruct H as (-> & l' & C & W & E). rewrite (short_ok D ignore k seen n c l' G M S0 C W E). exists seen. split; [reflexivity|exact U].
Qed.

Lemma locate_ok D ignore k seen path d l c u : good_document D -> dir_search path (o_entries D) k 0 = Ok (Some d) ->
  stream D d l c -> d <= 249 -> in_use D seen u -> (forall s, In s l -> ~ In s u) ->
  exists seen' m pos, locate_named_stream path (opened D ignore k seen) =
      (opened D ignore k seen', Ok (Some (m, pos, Z.of_nat (length c)))) /\ in_use D seen' (l ++ u) /\
    0 <= pos /\ firstn (length c) (skipn (Z.to_nat pos) m) = c.
Proof.
  intros G DS ST DB U FR. pose proof ST as (n & P0 & N & ET & S0 & LC & H). pose proof (size_pos _ G).
  pose proof (stream_bound D d l c n G ST N) as BD.
  unfold locate_named_stream. cbn [opened cd_dirlist cd_kin]. rewrite DS, py_index_pos by exact P0. rewrite N.
  cbn [opened cd_min_std cd_data_len].
  destruct (Z.of_nat (length (doc_file D)) - 512 <? dn_size n) eqn:BB; [lia|].
  destruct (Z.leb_spec (o_min D) (dn_size n)) as [M|M].
  - destruct H as (C & P & F & L & E).
    assert (UN : Forall (unused seen) l) by (eapply in_use_free; eassumption).
    assert (WH : whole (doc_file D) 512 (size_of D) l) by (apply file_whole; assumption).
    destruct (C51_locate_proof ignore (doc_file D) 512 (table D) (size_of D) (dn_first n) (dn_size n) (d + 6) seen ltac:(lia) ltac:(lia) ltac:(lia)) as [X _].
    destruct (X l C) as (seen' & m & pos & X1 & X2 & X3 & X4); [|exact UN|exact L|exact S0|exact WH|].
    { intros ->. pose proof (g_min _ G). cbn [length] in L. assert (1 <= (dn_size n + size_of D - 1) / size_of D); [|lia].
      apply Z.div_le_lower_bound; lia. }
    exists seen', m, pos. cbn [opened cd_mem cd_ignore cd_SAT cd_sec_size cd_seen]. rewrite X1. cbn [bind]. rewrite LC.
    split; [reflexivity|]. split; [exact (in_use_marked _ _ _ _ _ _ U X2 P ltac:(lia))|]. split; [exact X3|].
    destruct (C51_reads_proof (doc_file D) 512 (table D) (size_of D) (dn_first n) l (d + 6) seen (Some (dn_size n)) C ltac:(lia) ltac:(lia) ltac:(lia) UN (conj S0 WH)) as (seen2 & G1 & M1).
    rewrite G1 in X4. rewrite (file_chain D _ G P), <- E in X4. injection X4 as _ X4. replace (length c) with (Z.to_nat (dn_size n)) by lia. symmetry. exact X4.
  - destruct H as (-> & l' & C & W & E). rewrite (short_ok D ignore k seen n c l' G M S0 C W E). exists seen, c, 0. rewrite LC.
    split; [reflexivity|]. split; [exact U|]. split; [lia|]. cbn [Z.to_nat skipn]. apply firstn_all.
Qed.
