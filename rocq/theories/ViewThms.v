(** * How a sheet is shown: proofs of the property theorems *)

From Coq Require Import ZifyBool ZifyNat ZifyN QArith.
From Verif Require Import PyBase PyText PyFloat NumPy Dbf CompDoc ReadXl XlStruct XlSheet Biff CellAddr SheetView SpecView PyBaseFacts AddrThms.
Open Scope nat_scope.
Open Scope Z_scope.
(** A WINDOW2 record: page break preview, 75 percent for it and 0 for the other view. *)
Definition window_record : str := [62; 2; 14; 0;  182; 14; 5; 0; 2; 0; 64; 0; 0; 0; 75; 0; 0; 0]%N.
(** An SCL record of 3/4, and one of 5/1. *)
Definition scl_record : str := [160; 0; 4; 0;  3; 0; 4; 0]%N.
Definition scl_bad : str := [160; 0; 4; 0;  5; 0; 1; 0]%N.
(** A sheet of these. *)
Definition view_mem : str := scl_bad ++ window_record ++ scl_record ++ [10; 0; 0; 0]%N.

Lemma C87_same_proof :
forall fuel su cmap mem strings pos st v,
  match read_loop fuel su mem strings pos st with
  | Ok _ => exists v', view_loop fuel su cmap mem strings pos st v = Ok v'
  | Err e => view_loop fuel su cmap mem strings pos st v = Err e
  end.
Proof.
induction fuel as [|f IH]; intros su cmap mem strings pos st v; [reflexivity|].
cbn [read_loop view_loop]. destruct (get_record mem pos) as [[[[rc len] data] next]|e]; [|reflexivity]. cbn [bind].
destruct (rc =? 10); [eauto|]. destruct (sheet_record su mem strings rc len data next st) as [[st' next']|e]; [|reflexivity].
cbn [bind]. apply IH.
Qed.

Lemma value_pos (s : str) : 0 <= le_value s.
Proof. induction s; cbn [le_value]; lia. Qed.
Lemma record_len mem pos rc len data next : get_record mem pos = Ok (rc, len, data, next) -> Z.of_nat (length data) <= len.
Proof.
  unfold get_record. destruct (sized 4 _); [|discriminate]. cbn [bind]. intro E. injection E as _ <- <- _.
  unfold pyslice at 1. rewrite firstn_length, skipn_length.
  assert (P : 0 <= u16 2 (pyslice mem pos (pos + 4))) by apply value_pos. set (x := u16 2 _) in *.
  unfold py_bound. destruct (pos + 4 <? 0) eqn:?, (pos + 4 + x <? 0) eqn:?; lia.
Qed.
Lemma sized_is n (d : str) u : sized n d = Ok u -> length d = n.
Proof. unfold sized. destruct (Nat.eqb (length d) n) eqn:E; [|discriminate]. intros _. apply Nat.eqb_eq. exact E. Qed.
Lemma bytes_len a n (d : str) : (length (bytes_at a n d) = n -> n = 0 \/ a + n <= length d)%nat.
Proof. unfold bytes_at. rewrite firstn_length, skipn_length. lia. Qed.
Lemma window_size su mem strings len data next st x : sheet_record su mem strings 574 len data next st = Ok x ->
  Z.of_nat (length data) <= len -> (14 <= len <-> (14 <= length data)%nat).
Proof.
  unfold sheet_record. cbn -[sized bytes_at Z.leb]. intros H L. destruct (14 <=? len) eqn:E; [|lia].
  destruct (sized 14 (bytes_at 0 14 data)) eqn:S; [|discriminate]. apply sized_is, bytes_len in S. lia.
Qed.
(** The record as the specification has it. *)
Definition step (cmap : list (Z * option (list Z))) (v : view) (r : Z * str) : view :=
  see cmap v (fst r) (Z.of_nat (length (snd r))) (snd r).
Lemma see_step su cmap mem strings pos rc len data next st v x : get_record mem pos = Ok (rc, len, data, next) ->
  sheet_record su mem strings rc len data next st = Ok x -> see cmap v rc len data = step cmap v (rc, data).
Proof.
  intros G S. unfold step, see. cbn [fst snd]. destruct (rc =? 574) eqn:E; [|reflexivity]. apply Z.eqb_eq in E. subst rc.
  pose proof (window_size _ _ _ _ _ _ _ _ S (record_len _ _ _ _ _ _ G)) as W.
  replace (14 <=? Z.of_nat (length data)) with (14 <=? len) by lia. reflexivity.
Qed.
Lemma loop_reads su cmap mem strings : forall fuel pos st v v', view_loop fuel su cmap mem strings pos st v = Ok v' ->
  exists l, reads su mem strings pos st l /\ v' = fold_left (step cmap) l v.
Proof.
  induction fuel as [|f IH]; intros pos st v v' E; [discriminate|]. cbn [view_loop] in E.
  destruct (get_record mem pos) as [[[[rc len] data] next]|e] eqn:G; [|discriminate]. cbn [bind] in E.
  destruct (rc =? 10) eqn:T.
  - injection E as <-. exists []. split; [|reflexivity]. apply Z.eqb_eq in T. subst rc. econstructor. exact G.
  - destruct (sheet_record su mem strings rc len data next st) as [[st' next']|e] eqn:S; [|discriminate]. cbn [bind] in E.
    apply IH in E as (l & R & ->). exists ((rc, data) :: l). split.
    + econstructor; [exact G|lia|exact S|exact R].
    + cbn [fold_left]. rewrite (see_step _ cmap _ _ _ _ _ _ _ _ v _ G S). reflexivity.
Qed.
Lemma last_cons p r l d : last_of p (r :: l) d <-> last_of p l d \/ (Forall (fun r => ~ p r) l /\ p r /\ d = snd r).
Proof.
  split.
  - intros (before & rc & after & E & P & N). destruct before as [|y before]; injection E as -> ->.
    + right. auto.
    + left. exists before, rc, after. auto.
  - intros [(before & rc & after & -> & P & N)|(N & P & ->)].
    + exists (r :: before), rc, after. auto.
    + destruct r as [rc d]. exists [], rc, l. auto.
Qed.
Lemma last_some p l d : last_of p l d -> ~ Forall (fun r => ~ p r) l.
Proof.
  intros (before & rc & after & -> & P & _) F. apply Forall_app in F as (_ & F). inversion F. contradiction.
Qed.
Lemma last_one p l d d' : last_of p l d -> last_of p l d' -> d = d'.
Proof.
  induction l as [|r l IH]; intros A B; [destruct A as ([|] & ? & ? & A & _); discriminate|].
  apply last_cons in A as [A|(N & P & ->)], B as [B|(M & Q & ->)]; auto.
  - destruct (last_some _ _ _ A M).
  - destruct (last_some _ _ _ B N).
Qed.
Lemma told_one {A} p l (f : str -> A -> Prop) default x y : (forall d x y, f d x -> f d y -> x = y) ->
  told p l f default x -> told p l f default y -> x = y.
Proof.
  intros F [(d & L & X)|(N & ->)] [(d' & L' & Y)|(M & ->)]; auto.
  - pose proof (last_one _ _ _ _ L L'). subst d'. eauto.
  - destruct (last_some _ _ _ L M).
  - destruct (last_some _ _ _ L' N).
Qed.
Lemma told_fold {A} cmap (p : Z * str -> Prop) (get : view -> A) (f : str -> A -> Prop) : (forall r, p r \/ ~ p r) ->
  (forall v r, p r -> f (snd r) (get (step cmap v r))) -> (forall v r, ~ p r -> get (step cmap v r) = get v) ->
  forall l v, told p l f (get v) (get (fold_left (step cmap) l v)).
Proof.
  intros D Y N. induction l as [|r l IH]; intro v; [right; auto|]. cbn [fold_left].
  destruct (IH (step cmap v r)) as [(d & L & F)|(M & E)].
  - left. exists d. split; [apply last_cons; auto|exact F].
  - destruct (D r) as [P|P].
    + left. exists (snd r). split; [apply last_cons; auto|]. rewrite E. apply Y. exact P.
    + right. split; [constructor; assumption|]. rewrite E. apply N. exact P.
Qed.
Lemma byte_is a (d : str) : le_value (bytes_at a 1 d) = byte d a.
Proof.
  unfold bytes_at, byte. revert d. induction a as [|a IH]; intros [|c d]; try reflexivity.
  - cbn [skipn firstn le_value nth]. lia.
  - exact (IH d).
Qed.
Lemma word_is a (d : str) : u16 a d = word d a.
Proof.
  unfold u16, bytes_at, word, byte. revert d. induction a as [|a IH]; intros [|c d]; try reflexivity.
  - destruct d; cbn [skipn firstn le_value nth Nat.add]; lia.
  - exact (IH d).
Qed.
Lemma options_nth n : forall k w, (k < n)%nat -> nth_error (take_options n w) k = Some (Z.testbit w (Z.of_nat k)).
Proof.
  induction n as [|n IH]; intros k w K; [lia|]. cbn [take_options]. destruct k as [|k].
  - cbn [nth_error]. f_equal. change 1 with (2 ^ 0). rewrite land_bit by lia. apply negb_involutive.
  - cbn [nth_error]. rewrite IH by lia. rewrite Z.shiftr_spec by lia. do 2 f_equal. lia.
Qed.
Lemma options_len n : forall w, length (take_options n w) = n.
Proof. induction n; intro w; simpl; auto. Qed.
Lemma window_dec r : is_window r \/ ~ is_window r.
Proof. unfold is_window. lia. Qed.
Lemma scl_dec r : is_scl r \/ ~ is_scl r.
Proof. unfold is_scl. lia. Qed.
Lemma long_dec r : is_long r \/ ~ is_long r.
Proof. unfold is_long. lia. Qed.
Lemma window_yes cmap v r : is_window r -> v_options (step cmap v r) = take_options 12 (u16 0 (snd r)) /\
  v_row (step cmap v r) = u16 2 (snd r) /\ v_col (step cmap v r) = u16 4 (snd r).
Proof.
  intro W. unfold step, see. rewrite W. change (574 =? 574) with true. cbv iota. destruct (14 <=? _); auto.
Qed.
Lemma window_no cmap v r : ~ is_window r -> v_options (step cmap v r) = v_options v /\ v_row (step cmap v r) = v_row v /\
  v_col (step cmap v r) = v_col v /\ v_grid (step cmap v r) = v_grid v.
Proof.
  intro W. unfold step, see. unfold is_window in W. replace (fst r =? 574) with false by lia. destruct (fst r =? 160); auto.
Qed.
Lemma option_told cmap l k : (k < 12)%nat -> option_is l k (nth k (v_options (fold_left (step cmap) l new_view)) false).
Proof.
  intro K. unfold option_is.
  replace (if in_dec Nat.eq_dec k [1; 2; 4; 5; 7]%nat then true else false) with (nth k (v_options new_view) false).
  - apply (told_fold cmap is_window (fun v => nth k (v_options v) false)).
    + apply window_dec.
    + intros v r W. rewrite (proj1 (window_yes cmap v r W)). rewrite word_is. apply nth_error_nth. apply options_nth. exact K.
    + intros v r W. rewrite (proj1 (window_no cmap v r W)). reflexivity.
  - do 12 (destruct k as [|k]; [reflexivity|]). lia.
Qed.
Lemma options_always cmap : forall l v, length (v_options v) = 12%nat -> length (v_options (fold_left (step cmap) l v)) = 12%nat.
Proof.
  induction l as [|r l IH]; intros v L; [exact L|]. cbn [fold_left]. apply IH. destruct (window_dec r) as [W|W].
  - rewrite (proj1 (window_yes cmap v r W)). apply options_len.
  - rewrite (proj1 (window_no cmap v r W)). exact L.
Qed.
Lemma option_one l k b b' : option_is l k b -> option_is l k b' -> b = b'.
Proof. apply told_one. intros; congruence. Qed.

Lemma C87_options_proof :
forall fuel su cmap mem strings pos st v,
  view_loop fuel su cmap mem strings pos st new_view = Ok v ->
  exists l, reads su mem strings pos st l /\ length (v_options v) = 12%nat /\
    (forall k b, (k < 12)%nat -> (nth_error (v_options v) k = Some b <-> option_is l k b)) /\
    told is_window l (fun d x => x = word d 2) 0 (v_row v) /\ told is_window l (fun d x => x = word d 4) 0 (v_col v).
Proof.
intros fuel su cmap mem strings pos st v E. apply loop_reads in E as (l & R & ->). exists l. split; [exact R|].
pose proof (options_always cmap l new_view eq_refl) as L. split; [exact L|]. split; [|split].
- intros k b K. pose proof (option_told cmap l k K) as T. split.
  + intro E. rewrite (nth_error_nth _ _ _ E) in T. exact T.
  + intro O. rewrite (option_one _ _ _ _ O T). apply nth_error_nth'. lia.
- apply (told_fold cmap is_window v_row); [apply window_dec| |].
  + intros v r W. rewrite (proj1 (proj2 (window_yes cmap v r W))). apply word_is.
  + intros v r W. apply (window_no cmap v r W).
- apply (told_fold cmap is_window v_col); [apply window_dec| |].
  + intros v r W. rewrite (proj2 (proj2 (window_yes cmap v r W))). apply word_is.
  + intros v r W. apply (window_no cmap v r W).
Qed.

(** The factor of SCL as used. *)
Definition scl_of (v : view) : Z := match v_scl v with None => 100 | Some z => z end.
Lemma percent_is num den : 0 <= num -> 0 <= den ->
  percent num den (let result := if negb (den =? 0) then num * 100 / den else 0 in
                   if negb ((10 <=? result) && (result <=? 400)) then 100 else result).
Proof.
  intros N D. cbv zeta. unfold percent. destruct (den =? 0) eqn:Z0; cbn [negb].
  - right. split; [lia|reflexivity].
  - set (q := num * 100 / den). assert (Q : q * den <= 100 * num < (q + 1) * den).
    { unfold q. pose proof (Z.div_mod (num * 100) den ltac:(lia)). pose proof (Z.mod_pos_bound (num * 100) den ltac:(lia)). nia. }
    destruct ((10 <=? q) && (q <=? 400)) eqn:B; cbn [negb].
    + left. split; [nia|exact Q].
    + right. split; [|reflexivity]. intros (L & H). assert (10 <= q) by nia. assert (q <= 400) by nia. lia.
Qed.
Lemma scl_told cmap l : active l (scl_of (fold_left (step cmap) l new_view)).
Proof.
  apply (told_fold cmap is_scl scl_of); [apply scl_dec| |].
  - intros v r W. unfold step, see. rewrite W. change (160 =? 574) with false. change (160 =? 160) with true. cbv iota.
    unfold scl_of. cbn [v_scl]. rewrite !word_is. apply percent_is; unfold word, byte; lia.
  - intros v r W. unfold is_scl in W. unfold step, see. replace (fst r =? 160) with false by lia.
    destruct (fst r =? 574); [|reflexivity]. destruct (14 <=? _); reflexivity.
Qed.
Lemma cached_no cmap v r : ~ is_long r -> v_preview (step cmap v r) = v_preview v /\ v_normal (step cmap v r) = v_normal v.
Proof.
  intro W. unfold step, see. unfold is_long in W. destruct (fst r =? 574) eqn:E; [|destruct (fst r =? 160); auto].
  replace (14 <=? Z.of_nat (length (snd r))) with false by lia. auto.
Qed.
Lemma cached_yes cmap v r : is_long r -> v_preview (step cmap v r) = word (snd r) 10 /\ v_normal (step cmap v r) = word (snd r) 12.
Proof.
  intros (W & L). unfold step, see. rewrite W. change (574 =? 574) with true. cbv iota.
  replace (14 <=? Z.of_nat (length (snd r))) with true by lia. rewrite <- !word_is. auto.
Qed.
Lemma preview_told cmap l : cached l 10 (v_preview (fold_left (step cmap) l new_view)).
Proof.
  apply (told_fold cmap is_long v_preview); [apply long_dec| |]; intros v r W; [apply (cached_yes cmap v r W)|apply (cached_no cmap v r W)].
Qed.
Lemma normal_told cmap l : cached l 12 (v_normal (fold_left (step cmap) l new_view)).
Proof.
  apply (told_fold cmap is_long v_normal); [apply long_dec| |]; intros v r W; [apply (cached_yes cmap v r W)|apply (cached_no cmap v r W)].
Qed.

Lemma C87_zoom_proof :
forall fuel su cmap mem strings pos st v,
  view_loop fuel su cmap mem strings pos st new_view = Ok v ->
  exists l a page normal, reads su mem strings pos st l /\ active l a /\ cached l 10 page /\ cached l 12 normal /\
    (option_is l 11 true -> (fit normal -> cooked v = (a, normal)) /\ (~ fit normal -> cooked v = (a, a))) /\
    (option_is l 11 false -> (page = 0 -> cooked v = (60, a)) /\ (fit page -> cooked v = (page, a)) /\
                             (page <> 0 -> ~ fit page -> cooked v = (a, a))).
Proof.
intros fuel su cmap mem strings pos st v E. apply loop_reads in E as (l & R & ->).
exists l, (scl_of (fold_left (step cmap) l new_view)), (v_preview (fold_left (step cmap) l new_view)), (v_normal (fold_left (step cmap) l new_view)).
split; [exact R|]. split; [apply scl_told|]. split; [apply preview_told|]. split; [apply normal_told|].
pose proof (option_told cmap l 11 ltac:(lia)) as O. set (v := fold_left (step cmap) l new_view) in *. unfold fit. split.
- intro T. pose proof (option_one _ _ _ _ O T) as F. unfold cooked. rewrite F. fold (scl_of v). cbv zeta. split; intro H.
  + replace ((10 <=? v_normal v) && (v_normal v <=? 400)) with true by lia. reflexivity.
  + replace ((10 <=? v_normal v) && (v_normal v <=? 400)) with false by lia. reflexivity.
- intro T. pose proof (option_one _ _ _ _ O T) as F. unfold cooked. rewrite F. fold (scl_of v). cbv zeta. split; [|split].
  + intro H. rewrite H. reflexivity.
  + intro H. replace (v_preview v =? 0) with false by lia.
    replace ((10 <=? v_preview v) && (v_preview v <=? 400)) with true by lia. reflexivity.
  + intros H0 H. replace (v_preview v =? 0) with false by lia.
    replace ((10 <=? v_preview v) && (v_preview v <=? 400)) with false by lia. reflexivity.
Qed.

Lemma percent_fit num den z : percent num den z -> 0 <= num -> 0 <= den -> fit z.
Proof. unfold fit. intros [((A & B) & C)|(_ & ->)] N D; [|lia]. assert (0 < den) by lia. nia. Qed.

Lemma C87_fit_proof :
forall b cmap mem pos countries v p n, view_of_sheet b cmap mem pos countries = Ok v -> cooked v = (p, n) -> fit p /\ fit n.
Proof.
intros b cmap mem pos countries v p n E C. apply loop_reads in E as (l & R & ->).
pose proof (scl_told cmap l) as A. set (v := fold_left (step cmap) l new_view) in *.
assert (F : fit (scl_of v)).
{ destruct A as [(d & _ & P)|(_ & ->)]; [|unfold fit; lia]. apply (percent_fit _ _ _ P); unfold word, byte; lia. }
unfold cooked in C. fold (scl_of v) in C. cbv zeta in C. unfold fit in *. destruct (nth 11 (v_options v) false).
- injection C as <- <-. split; [exact F|]. destruct ((10 <=? v_normal v) && (v_normal v <=? 400)) eqn:B; cbn [negb]; lia.
- injection C as <- <-. split; [|exact F]. destruct (v_preview v =? 0); [lia|].
  destruct ((10 <=? v_preview v) && (v_preview v <=? 400)) eqn:B; cbn [negb]; lia.
Qed.

Lemma C87_grid_proof :
forall fuel su cmap mem strings pos st v,
  view_loop fuel su cmap mem strings pos st new_view = Ok v ->
  exists l, reads su mem strings pos st l /\
    told is_window l (fun d x => (14 <= length d)%nat /\ x = word d 6 \/
                                 (length d < 14)%nat /\ x = nearest_colour_index cmap [byte d 6; byte d 7; byte d 8]) 64 (v_grid v).
Proof.
intros fuel su cmap mem strings pos st v E. apply loop_reads in E as (l & R & ->). exists l. split; [exact R|].
apply (told_fold cmap is_window v_grid); [apply window_dec| |].
- intros v r W. unfold step, see. rewrite W. change (574 =? 574) with true. cbv iota.
  destruct (14 <=? Z.of_nat (length (snd r))) eqn:L; cbn [v_grid].
  + left. split; [lia|apply word_is].
  + right. split; [lia|]. rewrite !byte_is. reflexivity.
- intros v r W. apply (window_no cmap v r W).
Qed.

