(** * What the bytes of a DBF field stand for: proofs of the property theorems *)

From Coq Require Import ZifyBool ZifyNat ZifyN QArith.
From Verif Require Import PyBase PyBaseFacts PyFloat NumPy SpecArray ArrayFacts Pack PackProofs Dbf SpecPack SpecDbf DbfProofs DbfSelect DbfExamples DbfThms SpecNumber NumberProofs TextProofs SpecNumeral NumeralProofs SpecField FieldProofs.
Open Scope nat_scope.
From Coq Require Import Reals ZifyBool ZifyNat ZifyN.
Open Scope nat_scope.

Lemma C78_values_proof :
forall f g f', dbfreader f = Ok g -> g_end g = Ok f' ->
  let start := f_pos f + 33 + 32 * length (g_names g) in
  let len := 1 + list_sum (map (fun x => snd (fst x)) (g_specs g)) in
  let n := Z.to_nat (u32_at (f_bytes f) (f_pos f + 4)) in
  let alive := filter (fun i => space_at (f_bytes f) (start + i * len)) (seq 0 n) in
  length (g_rows g) = length alive /\
  forall r row, nth_error (g_rows g) r = Some row ->
  exists i, nth_error alive r = Some i /\ length row = length (g_specs g) /\
  forall j typ size deci v, nth_error (g_specs g) j = Some (typ, size, deci) -> nth_error row j = Some v ->
  field_value typ deci (field_at (f_bytes f) start (g_specs g) i j) v.
Proof.
intros f g f' G E start len n alive.
destruct (C38_deleted_records_never_appear_proof f g f' G E) as (_ & _ & L & W). split; [exact L|].
intros r row R. destruct (C38_rows_are_the_live_records_proof f g f' G E r row R) as (i & I & H). exists i. split; [exact I|].
split.
{ rewrite Forall_forall in W. rewrite (W row (nth_error_In _ _ R)).
  destruct (dbfreader_inv _ _ G) as (fds & f1 & _ & _ & Hnm & Hsp & _). rewrite Hnm, Hsp, !map_length. reflexivity. }
intros j typ size deci v J V. apply conv_value. rewrite <- (H j typ size deci v J V). f_equal. unfold field_at.
assert (nth j (map (fun x => snd (fst x)) (g_specs g)) 0 = size) as ->.
{ apply nth_error_nth. rewrite nth_error_map, J. reflexivity. }
f_equal.
Qed.

(** The reader goes through the records. *)
Lemma read_goes f g : dbfreader f = Ok g ->
  let start := f_pos f + 33 + 32 * length (g_names g) in
  nth_error (f_bytes f) (start - 1) = Some 13%N ->
  exists fds, named fds /\ g_names g = map fd_name fds /\ g_specs g = map spec_of fds /\
    reader_loop (Z.to_nat (u32_at (f_bytes f) (f_pos f + 4))) (flag_field :: fds) (mkfile (f_bytes f) start) = (g_rows g, g_end g).
Proof.
  intros G start T. destruct (dbfreader_inv _ _ G) as (fds & f1 & Hh & Hn & Hnm & Hsp & [(Ht & Hl)|(e & Ht & _)] & Hb & Hp).
  - exists fds. split; [exact Hn|]. split; [exact Hnm|]. split; [exact Hsp|]. unfold start. rewrite Hnm, map_length. exact Hl.
  - exfalso. unfold read_terminator in Ht. destruct (fread 1 f1) as [b f2] eqn:E. apply fread_spec in E. destruct E as (E & _).
    rewrite Hb, Hp in E. unfold start in T. rewrite Hnm, map_length in T.
    replace (f_pos f + 33 + 32 * length fds - 1) with (f_pos f + 32 + 32 * length fds) in T by lia.
    assert (Q : bytes_at (f_pos f + 32 + 32 * length fds) 1 (f_bytes f) = [13%N]).
    { unfold bytes_at. clear -T. revert T. generalize (f_pos f + 32 + 32 * length fds) as k. generalize (f_bytes f) as l.
      induction l as [|x l IH]; intros k T; [destruct k; discriminate|]. destruct k as [|k]; [injection T as ->; reflexivity|].
      cbn [skipn]. apply IH. exact T. }
    rewrite E in Ht. rewrite Q in Ht. cbn in Ht. discriminate.
Qed.

(** The bytes of a field of a record. *)
Lemma piece fds b start i j fd : nth_error fds j = Some fd ->
  firstn (fd_size fd) (skipn (list_sum (firstn j (map fd_size fds))) (bytes_at (start + i * record_length fds + 1) (list_sum (map fd_size fds)) b)) =
  field_at b start (map spec_of fds) i j.
Proof.
  intro Ef. unfold field_at. rewrite spec_sizes.
  assert (nth j (map fd_size fds) 0 = fd_size fd) as ->.
  { apply nth_error_nth. rewrite nth_error_map, Ef. reflexivity. }
  assert (Hbound : list_sum (firstn j (map fd_size fds)) + fd_size fd <= list_sum (map fd_size fds)).
  { clear - Ef. revert j Ef. induction fds as [|x l IHl]; intros j Ef; [destruct j; discriminate|].
    destruct j as [|j]; [injection Ef as ->; simpl; change (fold_right Nat.add 0 ?q) with (list_sum q); lia|].
    cbn [nth_error] in Ef. specialize (IHl _ Ef). cbn [map firstn list_sum fold_right].
    change (fold_right Nat.add 0 ?q) with (list_sum q). lia. }
  pose proof (bytes_at_at (start + i * record_length fds + 1) (list_sum (map fd_size fds))
     (list_sum (firstn j (map fd_size fds))) (fd_size fd) b Hbound) as Q.
  unfold bytes_at in Q at 1. rewrite Q. unfold bytes_at, record_length. f_equal. f_equal. lia.
Qed.

Lemma meaning_or fds b start i j fd : nth_error fds j = Some fd ->
  (exists v, conv (fd_typ fd) (fd_deci fd) (field_at b start (map spec_of fds) i j) = Ok v) \/
  meaningless b start (map spec_of fds) i j.
Proof.
  intro J. destruct (conv (fd_typ fd) (fd_deci fd) (field_at b start (map spec_of fds) i j)) as [v|e] eqn:E; [left; eauto|].
  right. exists (fd_typ fd), (fd_size fd), (fd_deci fd). split; [rewrite nth_error_map, J; reflexivity|].
  intros v H. apply conv_value in H. congruence.
Qed.

Lemma record_ok fds b start i : named fds -> (forall j, ~ meaningless b start (map spec_of fds) i j) ->
  exists row, record_of fds b start i = Ok row.
Proof.
  intros N H. apply convert_all; [exact N|]. intros j fd J. rewrite (piece fds b start i j fd J).
  destruct (meaning_or fds b start i j fd J) as [A|A]; [exact A|destruct (H j A)].
Qed.

Lemma C78_read_proof :
forall f g, dbfreader f = Ok g ->
  let start := f_pos f + 33 + 32 * length (g_names g) in
  let len := 1 + list_sum (map (fun x => snd (fst x)) (g_specs g)) in
  let n := Z.to_nat (u32_at (f_bytes f) (f_pos f + 4)) in
  nth_error (f_bytes f) (start - 1) = Some 13%N -> start + n * len <= length (f_bytes f) ->
  (forall i j, i < n -> space_at (f_bytes f) (start + i * len) = true -> ~ meaningless (f_bytes f) start (g_specs g) i j) ->
  exists f', g_end g = Ok f'.
Proof.
intros f g G start len n T L A. destruct (read_goes f g G T) as (fds & Hn & Hnm & Hsp & Hl).
fold start in Hl. unfold len in *. rewrite Hsp, spec_sizes in *. fold n in Hl.
apply (loop_all fds (f_bytes f) n start (g_rows g) (g_end g) Hl); [exact L|].
intros i I Sp. apply record_ok; [exact Hn|]. intro j. apply A; [exact I|exact Sp].
Qed.

Lemma C78_refused_proof :
forall f g i j typ size deci, dbfreader f = Ok g ->
  let start := f_pos f + 33 + 32 * length (g_names g) in
  let len := 1 + list_sum (map (fun x => snd (fst x)) (g_specs g)) in
  let n := Z.to_nat (u32_at (f_bytes f) (f_pos f + 4)) in
  let e := if existsb (N.eqb typ) [78; 70; 68]%N then ValueError else UnicodeError in
  nth_error (f_bytes f) (start - 1) = Some 13%N -> start + n * len <= length (f_bytes f) ->
  i < n -> space_at (f_bytes f) (start + i * len) = true ->
  nth_error (g_specs g) j = Some (typ, size, deci) -> meaningless (f_bytes f) start (g_specs g) i j ->
  (forall h k, h < i -> space_at (f_bytes f) (start + h * len) = true -> ~ meaningless (f_bytes f) start (g_specs g) h k) ->
  (forall k, k < j -> ~ meaningless (f_bytes f) start (g_specs g) i k) ->
  g_end g = Err e /\ length (g_rows g) = length (filter (fun h => space_at (f_bytes f) (start + h * len)) (seq 0 i)) /\
  forall fname, dbfpack f [] fname = Err e.
Proof.
intros f g i j typ size deci G start len n e T L I Sp J M A B. destruct (read_goes f g G T) as (fds & Hn & Hnm & Hsp & Hl).
fold start in Hl. unfold len in *. rewrite Hsp, spec_sizes in *. fold n in Hl.
change (1 + list_sum (map fd_size fds)) with (record_length fds) in *.
assert (Q : g_end g = Err e /\ length (g_rows g) = live_count (f_bytes f) start (record_length fds) i).
{ apply (loop_first fds (f_bytes f) e n start (g_rows g) (g_end g) i Hl); try assumption.
  - rewrite nth_error_map in J. destruct (nth_error fds j) as [fd|] eqn:Ef; [|discriminate]. injection J as <- <- <-.
    apply (convert_first fds _ j fd e Hn Ef).
    + rewrite (piece fds (f_bytes f) start i j fd Ef). apply conv_error. destruct M as (t & s & d & E & M).
      rewrite nth_error_map, Ef in E. injection E as <- <- <-. exact M.
    + intros k fd' K F. rewrite (piece fds (f_bytes f) start i k fd' F).
      destruct (meaning_or fds (f_bytes f) start i k fd' F) as [X|X]; [exact X|destruct (B k K X)].
  - intros k K S'. apply record_ok; [exact Hn|]. intro q. apply A; assumption. }
destruct Q as [Q1 Q2]. split; [exact Q1|]. split; [exact Q2|]. intro fname. unfold dbfpack. rewrite G. cbn [bind].
unfold columns_of. rewrite Q1. reflexivity.
Qed.

Lemma idx_in ks j : In j (idx ks) <-> j < length ks /\ nth j ks false = true.
Proof. unfold idx. rewrite filter_In, in_seq. split; intros [A B]; split; try assumption; lia. Qed.

Lemma filter_ascending (p : nat -> bool) n m : forall a b, a < b < length (filter p (seq m n)) ->
  m <= nth a (filter p (seq m n)) 0 < nth b (filter p (seq m n)) 0.
Proof.
  revert m. induction n as [|n IH]; intros m a b H; [cbn in H; lia|]. cbn [seq filter] in *.
  destruct (p m); cbn [length] in H.
  - destruct b as [|b]; [lia|]. destruct a as [|a]; cbn [nth].
    + assert (I : In (nth b (filter p (seq (S m) n)) 0) (filter p (seq (S m) n))) by (apply nth_In; lia).
      apply filter_In in I. destruct I as [I _]. apply in_seq in I. lia.
    + specialize (IH (S m) a b ltac:(lia)). lia.
  - specialize (IH (S m) a b H). lia.
Qed.

Lemma idx_ascending ks a b : a < b < length (idx ks) -> nth a (idx ks) 0 < nth b (idx ks) 0.
Proof. intro H. apply (filter_ascending _ (length ks) 0 a b H). Qed.

Lemma filter_all_length {A} (p : A -> bool) l : length (filter p l) = length l -> forall x, In x l -> p x = true.
Proof.
  induction l as [|x l IH]; intros H y I; [destruct I|]. cbn [filter] in H. destruct (p x) eqn:P.
  - destruct I as [<-|I]; [exact P|]. apply IH; [cbn [length] in H; lia|exact I].
  - assert (length (filter p l) <= length l) by (clear; induction l as [|x l IH]; cbn [filter length]; [lia|]; destruct (p x); cbn [length]; lia). cbn [length] in H. lia.
Qed.

Lemma Forall2_weak {A B} (P Q : A -> B -> Prop) l l' : Forall2 P l l' -> (forall a b, In a l -> P a b -> Q a b) -> Forall2 Q l l'.
Proof. induction 1; intro H'; constructor; [apply H'; [left; reflexivity|assumption]|]. apply IHForall2. intros. apply H'; [right|]; assumption. Qed.

Lemma C78_selected_proof :
forall f names g full, dbfrecords f names = Ok g -> dbfreader f = Ok full ->
  let start := f_pos f + 33 + 32 * length (g_names full) in
  let len := 1 + list_sum (map (fun x => snd (fst x)) (g_specs full)) in
  let n := Z.to_nat (u32_at (f_bytes f) (f_pos f + 4)) in
  let alive := filter (fun i => space_at (f_bytes f) (start + i * len)) (seq 0 n) in
  let wanted j := j < length (g_names full) /\ In (nth j (g_names full) []) names in
  nth_error (f_bytes f) (start - 1) = Some 13%N -> start + n * len <= length (f_bytes f) ->
  In (last (g_names full) []) names \/ length alive = n ->
  (forall i j, In i alive -> wanted j -> ~ meaningless (f_bytes f) start (g_specs full) i j) ->
  exists js f', (forall j, In j js <-> wanted j) /\ (forall a b, a < b < length js -> nth a js 0 < nth b js 0) /\
    g_end g = Ok f' /\
    g_names g = map (fun j => nth j (g_names full) []) js /\
    Forall2 (fun i row =>
      Forall2 (fun j v => exists typ size deci, nth_error (g_specs full) j = Some (typ, size, deci) /\
        field_value typ deci (field_at (f_bytes f) start (g_specs full) i j) v) js row) alive (g_rows g).
Proof.
intros f names g full Hg G start len n alive wanted T L C A.
destruct (dbfreader_inv _ _ G) as (fds & f1 & Hh & Hn & Hnm & Hsp & Hcase & Hb & Hp).
destruct (read_goes f full G T) as (fds' & _ & Hnm' & Hsp' & _). clear fds' Hnm' Hsp'.
assert (RT : read_terminator f1 = Ok (mkfile (f_bytes f) start)).
{ destruct Hcase as [(Ht & _)|(e & Ht & _)].
  - unfold start. rewrite Hnm, map_length. exact Ht.
  - exfalso. unfold read_terminator in Ht. destruct (fread 1 f1) as [b f2] eqn:E. apply fread_spec in E. destruct E as (E & _).
    rewrite Hb, Hp in E. unfold start in T. rewrite Hnm, map_length in T.
    replace (f_pos f + 33 + 32 * length fds - 1) with (f_pos f + 32 + 32 * length fds) in T by lia.
    assert (Q : bytes_at (f_pos f + 32 + 32 * length fds) 1 (f_bytes f) = [13%N]).
    { unfold bytes_at. clear -T. revert T. generalize (f_pos f + 32 + 32 * length fds) as k. generalize (f_bytes f) as l.
      induction l as [|x l IH]; intros k T; [destruct k; discriminate|]. destruct k as [|k]; [injection T as ->; reflexivity|].
      cbn [skipn]. apply IH. exact T. }
    rewrite E in Ht. rewrite Q in Ht. cbn in Ht. discriminate. }
unfold dbfrecords in Hg. rewrite Hh in Hg. cbn [bind] in Hg. rewrite rec_end_eq in Hg. fold (sel_of names fds) in Hg. rewrite RT in Hg. fold n in Hg.
assert (LN : len = record_length fds) by (unfold len; rewrite Hsp, spec_sizes; reflexivity).
assert (AL : alive = filter (fun i => space_at (f_bytes f) (start + i * record_length fds)) (seq 0 n)) by (unfold alive; rewrite LN; reflexivity).
assert (W : forall j, In j (idx (keeps names fds)) <-> wanted j).
{ intro j. rewrite idx_in. unfold wanted, keeps. rewrite Hnm, !map_length.
  assert (Q : j < length fds -> (nth j (map (fun fd => name_in (fd_name fd) names) fds) false = true <-> In (nth j (map fd_name fds) []) names)).
  { intro J. rewrite (nth_indep _ false (name_in (fd_name no_field) names)) by (rewrite map_length; exact J).
    rewrite (map_nth (fun fd => name_in (fd_name fd) names)). rewrite (nth_indep (map fd_name fds) [] (fd_name no_field)) by (rewrite map_length; exact J).
    rewrite (map_nth fd_name). apply name_in_spec. }
  split; intros [J K]; (split; [exact J|]); apply (Q J); exact K. }
assert (JL : Forall (fun j => j < length fds) (idx (keeps names fds))).
{ apply Forall_forall. intros j J. apply W in J. unfold wanted in J. rewrite Hnm, map_length in J. apply J. }
assert (KL : length (keeps names fds) = length fds) by (unfold keeps; apply map_length).
assert (SF : selected (keeps names fds) fds = map (fun j => nth j fds no_field) (idx (keeps names fds))) by (apply selected_idx; symmetry; exact KL).
assert (SP : forall b, selected (keeps names fds) (split_fields fds b) = map (fun j => nth j (split_fields fds b) []) (idx (keeps names fds))).
{ intro b. apply selected_idx. rewrite split_fields_length, KL. reflexivity. }
assert (PC : forall i j, In j (idx (keeps names fds)) ->
  nth j (split_fields fds (bytes_at (start + i * record_length fds + 1) (list_sum (map fd_size fds)) (f_bytes f))) [] =
  field_at (f_bytes f) start (map spec_of fds) i j /\ nth_error fds j = Some (nth j fds no_field)).
{ intros i j J. rewrite Forall_forall in JL. pose proof (nth_error_nth' fds no_field (JL j J)) as E. split; [|exact E].
  rewrite (split_nth _ _ _ _ E). apply piece. exact E. }
destruct (selecting_all names fds (f_bytes f) n start) as (rows & f' & R & F).
- rewrite <- LN. exact L.
- destruct C as [C|C]; [left; rewrite Hnm in C; apply keeps_last; exact C|right]. intros i I.
  rewrite AL in C. assert (Q : length (filter (fun i => space_at (f_bytes f) (start + i * record_length fds)) (seq 0 n)) = length (seq 0 n)) by (rewrite seq_length; exact C).
  apply (filter_all_length _ _ Q). apply in_seq. lia.
- intros i I Sp. unfold selection_of. rewrite SF, SP. refine (proj2 (convert_chosen fds _ Hn _ JL) _). apply Forall_forall. intros j J. cbv beta.
  destruct (PC i j J) as [P E].
  destruct (meaning_or fds (f_bytes f) start i j _ E) as [X|X]; [rewrite <- P in X; exact X|]. exfalso. apply (A i j); [|apply W; exact J|rewrite Hsp; exact X].
  rewrite AL. apply filter_In. split; [apply in_seq; lia|exact Sp].
- rewrite R in Hg. injection Hg as <-. cbn [g_end g_names g_rows].
  exists (idx (keeps names fds)), f'. split; [exact W|]. split; [apply idx_ascending|]. split; [reflexivity|]. split.
  + change (tl (sel_of names fds)) with (filter fi_keep (finfos names flag_info fds)).
    rewrite <- (map_map fi_field fd_name). rewrite selected_fields, SF, map_map. apply map_ext_in. intros j J.
    rewrite Hnm. rewrite (nth_indep (map fd_name fds) [] (fd_name no_field)) by (rewrite map_length; rewrite Forall_forall in JL; apply JL; exact J).
    symmetry. apply map_nth.
  + rewrite AL. apply (Forall2_weak _ _ _ _ F). intros i row I S'. unfold selection_of in S'. rewrite SF, SP in S'.
    pose proof (proj1 (convert_chosen fds _ Hn _ JL) _ S') as V. apply (Forall2_weak _ _ _ _ V). intros j v J CV.
    destruct (PC i j J) as [P E].
    exists (fd_typ (nth j fds no_field)), (fd_size (nth j fds no_field)), (fd_deci (nth j fds no_field)).
    split; [rewrite Hsp, nth_error_map, E; reflexivity|]. rewrite Hsp. apply conv_value. rewrite <- P. exact CV.
Qed.

