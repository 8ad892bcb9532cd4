(** * The selecting DBF reader against the full one *)

From Coq Require Import ZifyBool ZifyNat ZifyN.
From Verif Require Import PyBase PyBaseFacts PyFloat NumPy Pack Dbf SpecPack SpecDbf DbfProofs.
Open Scope nat_scope.

(** Which fields are selected. *)
Definition keeps (names : list str) (fds : list field) : list bool :=
  map (fun fd => name_in (fd_name fd) names) fds.

Lemma finfos_fields : forall names fds prev, map fi_field (finfos names prev fds) = fds.
Proof. induction fds; intros; simpl; auto. f_equal. auto. Qed.

Lemma finfos_keep : forall names fds prev, map fi_keep (finfos names prev fds) = keeps names fds.
Proof. induction fds; intros; simpl; auto. f_equal. auto. Qed.

Lemma skipn_skipn_add : forall A a c (b : list A), skipn c (skipn a b) = skipn (a + c) b.
Proof.
  intros A a c. induction a as [|a IH]; intros b; [reflexivity|].
  destruct b; [rewrite !skipn_nil; reflexivity|]. cbn [skipn Nat.add]. apply IH.
Qed.

(** The pieces of a record the selecting reader reads. *)
Lemma read_selected_ok : forall names fds prev ref b q,
  ref + (fi_seek prev + fd_size (fi_field prev)) + list_sum (map fd_size fds) <= length b ->
  let o := fi_seek prev + fd_size (fi_field prev) in
  let fis := finfos names prev fds in
  exists q', read_selected ref (filter fi_keep fis) (mkfile b q) =
    Ok (selected (keeps names fds) (split_fields fds (bytes_at (ref + o) (list_sum (map fd_size fds)) b)),
        mkfile b q') /\
  (fds = [] -> q' = q) /\
  (fds <> [] -> last (keeps names fds) true = true -> q' = ref + o + list_sum (map fd_size fds)).
Proof.
  intros names fds. induction fds as [|fd fds IH]; intros prev ref b q Hl o fis.
  - exists q. split; [reflexivity|]. split; auto. congruence.
  - subst fis. cbn [finfos filter]. set (fi := mkfi fd (name_in (fd_name fd) names) o).
    cbn [map list_sum fold_right] in Hl. change (fold_right Nat.add 0 (map fd_size fds)) with (list_sum (map fd_size fds)) in Hl.
    fold o in Hl. fold o. fold fi.
    set (R := list_sum (map fd_size fds)) in *.
    assert (E : list_sum (map fd_size (fd :: fds)) = fd_size fd + R) by reflexivity.
    rewrite E. clear E.
    assert (Eo : fi_seek fi + fd_size (fi_field fi) = o + fd_size fd) by reflexivity.
    assert (Esk : skipn (fd_size fd) (bytes_at (ref + o) (fd_size fd + R) b) = bytes_at (ref + (o + fd_size fd)) R b).
    { unfold bytes_at. rewrite skipn_firstn_comm. replace (fd_size fd + R - fd_size fd) with R by lia. f_equal.
      rewrite Nat.add_assoc. apply skipn_skipn_add. }
    assert (Efn : firstn (fd_size fd) (bytes_at (ref + o) (fd_size fd + R) b) = bytes_at (ref + o) (fd_size fd) b).
    { unfold bytes_at. rewrite firstn_firstn. f_equal. lia. }
    cbn [split_fields keeps map]. fold (keeps names fds). rewrite Esk, Efn.
    change (fi_keep fi) with (name_in (fd_name fd) names).
    destruct (name_in (fd_name fd) names) eqn:Ek.
    + cbn [read_selected]. change (fd_size (fi_field fi)) with (fd_size fd). change (fi_seek fi) with o.
      destruct (fread _ _) as [r f1] eqn:Er. destruct (fread_spec _ _ _ _ Er) as (Hr & Hb & Hp).
      cbn [fseek f_bytes f_pos] in *.
      assert (Lr : length r = fd_size fd) by (rewrite Hr, bytes_at_length; lia).
      rewrite Lr, Nat.eqb_refl.
      assert (f1 = mkfile b (ref + o + fd_size fd)) as -> by (destruct f1; cbn in *; congruence).
      destruct (IH fi ref b (ref + o + fd_size fd)) as (q' & Hq & Hnil & Hlast); [rewrite Eo; lia|].
      rewrite Hq. cbn [bind]. exists q'. split; [rewrite Hr, Eo; reflexivity|]. split; [discriminate|].
      intros _ Hk. destruct fds as [|fd' fds'].
      * rewrite (Hnil eq_refl). unfold R. simpl. lia.
      * rewrite Hlast; [rewrite Eo; fold R; lia|discriminate|exact Hk].
    + destruct (IH fi ref b q) as (q' & Hq & Hnil & Hlast); [rewrite Eo; lia|].
      rewrite Hq. exists q'. split; [rewrite Eo; reflexivity|]. split; [discriminate|].
      intros _ Hk. destruct fds as [|fd' fds'].
      * cbn in Hk. discriminate.
      * rewrite Hlast; [rewrite Eo; fold R; lia|discriminate|exact Hk].
Qed.

Lemma selected_fields : forall names fds prev,
  map fi_field (filter fi_keep (finfos names prev fds)) = selected (keeps names fds) fds.
Proof.
  induction fds as [|fd fds IH]; intros prev; [reflexivity|].
  cbn [finfos filter keeps map]. cbn [fi_keep]. unfold selected. cbn [combine filter fst].
  destruct (name_in (fd_name fd) names); cbn [map snd]; rewrite IH; reflexivity.
Qed.

Lemma selected_cons : forall A k ks (x : A) l,
  selected (k :: ks) (x :: l) = if k then x :: selected ks l else selected ks l.
Proof. intros. unfold selected. cbn [combine filter fst]. destruct k; reflexivity. Qed.

Lemma last_info : forall names fds prev,
  let l := last (finfos names prev fds) prev in
  fi_seek l + fd_size (fi_field l) = fi_seek prev + fd_size (fi_field prev) + list_sum (map fd_size fds).
Proof.
  induction fds as [|fd fds IH]; intros prev l; subst l; [simpl; lia|].
  cbn [finfos]. set (fi := mkfi fd (name_in (fd_name fd) names) (fi_seek prev + fd_size (fi_field prev))).
  specialize (IH fi). cbv zeta in IH.
  replace (last (fi :: finfos names fi fds) prev) with (last (finfos names fi fds) fi).
  - rewrite IH. unfold fi. cbn [fi_seek fi_field map list_sum fold_right].
    change (fold_right Nat.add 0 (map fd_size fds)) with (list_sum (map fd_size fds)). lia.
  - clear. generalize (finfos names fi fds). intros l. destruct l as [|y l]; [reflexivity|].
    cbn [last]. revert y. induction l as [|z l IH]; intros y; [reflexivity|]. cbn [last] in *. apply IH.
Qed.

Lemma convert_selected : forall names fds ps row, named fds -> length ps = length fds ->
  convert_fields (zip fds ps) = Ok row ->
  convert_fields (zip (selected (keeps names fds) fds) (selected (keeps names fds) ps))
  = Ok (selected (keeps names fds) row).
Proof.
  induction fds as [|fd fds IH]; intros ps row Hn Hl H.
  - injection H as <-. reflexivity.
  - destruct ps as [|q ps]; [discriminate|]. inversion Hn; subst.
    cbn [zip convert_fields] in H. rewrite name_not_flag in H by auto.
    destruct (conv _ _ q) as [v|e] eqn:Ev; [|discriminate]. cbn [bind] in H.
    destruct (convert_fields (zip fds ps)) as [vs|e] eqn:E; [|discriminate]. injection H as <-.
    cbn [keeps map]. fold (keeps names fds). rewrite !selected_cons.
    specialize (IH ps vs H3 ltac:(simpl in Hl; lia) E).
    destruct (name_in (fd_name fd) names); auto.
    cbn [zip convert_fields]. rewrite name_not_flag by auto. rewrite Ev. cbn [bind].
    rewrite IH. reflexivity.
Qed.

(** The selection list and record end of dbfrecords. *)
Definition sel_of (names : list str) (fds : list field) : list finfo :=
  filter fi_keep (flag_info :: finfos names flag_info fds).

Lemma sel_of_eq : forall names fds,
  sel_of names fds = flag_info :: filter fi_keep (finfos names flag_info fds).
Proof. reflexivity. Qed.

Lemma rec_end_eq : forall names fds,
  let lastf := last (flag_info :: finfos names flag_info fds) flag_info in
  fi_seek lastf + fd_size (fi_field lastf) = record_length fds.
Proof.
  intros names fds lastf. pose proof (last_info names fds flag_info) as H. cbv zeta in H.
  assert (E : lastf = last (finfos names flag_info fds) flag_info).
  { unfold lastf. destruct (finfos names flag_info fds); reflexivity. }
  rewrite E, H. reflexivity.
Qed.

(** One step of the selecting reader when the record is complete. *)
Lemma records_loop_step : forall names n fds b p, p + record_length fds <= length b ->
  exists q, (last (keeps names fds) true = true -> q = p + record_length fds) /\
  records_loop (S n) (record_length fds) (sel_of names fds) (mkfile b p) =
  if space_at b p then
    match convert_fields (zip (selected (keeps names fds) fds)
       (selected (keeps names fds) (split_fields fds (bytes_at (p + 1) (list_sum (map fd_size fds)) b)))) with
    | Err e => ([], Err e)
    | Ok row => let '(rows, out) := records_loop n (record_length fds) (sel_of names fds)
                                      (mkfile b (p + record_length fds)) in
                (row :: rows, out)
    end
  else records_loop n (record_length fds) (sel_of names fds) (mkfile b q).
Proof.
  intros names n fds b p Hl.
  destruct (read_selected_ok names fds flag_info p b (p + 1)) as (q & Hq & Hnil & Hlast).
  { change (fi_seek flag_info + fd_size (fi_field flag_info)) with 1. unfold record_length in Hl. lia. }
  change (fi_seek flag_info + fd_size (fi_field flag_info)) with 1 in *.
  exists q. split.
  { intros Hk. destruct fds as [|fd fds]; [rewrite Hnil; auto; unfold record_length; simpl; lia|].
    rewrite Hlast by (auto; discriminate). unfold record_length. lia. }
  cbn [records_loop f_pos].
  assert (R : read_selected p (sel_of names fds) (mkfile b p) =
    Ok ([nth p b 0%N] :: selected (keeps names fds) (split_fields fds (bytes_at (p + 1) (list_sum (map fd_size fds)) b)),
        mkfile b q)).
  { rewrite sel_of_eq. cbn [read_selected]. change (fd_size (fi_field flag_info)) with 1.
    change (fi_seek flag_info) with 0. rewrite Nat.add_0_r.
    destruct (fread _ _) as [r f1] eqn:Er. destruct (fread_spec _ _ _ _ Er) as (Hr & Hb & Hp).
    cbn [fseek f_bytes f_pos] in *.
    assert (r = [nth p b 0%N]) as ->.
    { rewrite Hr. unfold bytes_at. replace (nth p b 0%N) with (nth 0 (skipn p b) 0%N) by (rewrite nth_skipn; f_equal; lia).
      assert (1 <= length (skipn p b)) by (rewrite skipn_length; unfold record_length in Hl; lia).
      destruct (skipn p b); [simpl in H; lia|]. reflexivity. }
    cbn [length] in *. rewrite Nat.eqb_refl.
    assert (f1 = mkfile b (p + 1)) as -> by (destruct f1; cbn in *; congruence).
    rewrite Hq. reflexivity. }
  rewrite R. cbn [is_deleted str_eqb]. rewrite andb_true_r. fold (space_at b p).
  destruct (space_at b p); cbn [negb]; [|reflexivity].
  rewrite sel_of_eq. cbn [map]. rewrite selected_fields.
  change (fi_field flag_info) with flag_field. cbn [zip convert_fields].
  change (fd_name flag_field) with flag_name. rewrite str_eqb_refl. reflexivity.
Qed.

(** The two loops side by side. *)
Lemma records_loop_sim : forall names n fds b p rows f', named fds ->
  reader_loop n (flag_field :: fds) (mkfile b p) = (rows, Ok f') ->
  (last (keeps names fds) true = true \/
   forall i, i < n -> space_at b (p + i * record_length fds) = true) ->
  records_loop n (record_length fds) (sel_of names fds) (mkfile b p) =
  (map (selected (keeps names fds)) rows, Ok f').
Proof.
  induction n as [|n IH]; intros fds b p rows f' Hn H Hc.
  - injection H as <- <-. reflexivity.
  - rewrite reader_loop_step in H.
    destruct (p + record_length fds <=? length b) eqn:Ele; [|discriminate]. apply Nat.leb_le in Ele.
    destruct (records_loop_step names n fds b p Ele) as (q & Hq & ->).
    assert (Hc' : last (keeps names fds) true = true \/
      (forall i, i < n -> space_at b (p + record_length fds + i * record_length fds) = true)).
    { destruct Hc as [|Hc]; [left; auto|right]. intros i Hi. specialize (Hc (S i) ltac:(lia)).
      rewrite <- Hc. f_equal. lia. }
    destruct (space_at b p) eqn:Esp.
    + destruct (convert_fields (zip fds _)) as [row|e] eqn:Ec; [|discriminate].
      destruct (reader_loop n _ _) as [rows1 out] eqn:El. injection H as <- ->.
      rewrite (convert_selected names _ _ _ Hn (split_fields_length _ _) Ec).
      rewrite (IH _ _ _ _ _ Hn El Hc'). reflexivity.
    + destruct Hc as [Hk|Hc].
      * rewrite (Hq Hk). apply IH; auto.
      * specialize (Hc 0 ltac:(lia)). rewrite Nat.mul_0_l, Nat.add_0_r in Hc. congruence.
Qed.

(** ** Columns of the selected rows *)

Definition idx (ks : list bool) : list nat := filter (fun j => nth j ks false) (seq 0 (length ks)).

Lemma idx_cons : forall k ks, idx (k :: ks) = (if k then [0] else []) ++ map S (idx ks).
Proof.
  intros k ks. unfold idx. cbn [length seq filter]. change (nth 0 (k :: ks) false) with k. rewrite <- seq_shift.
  assert (E : forall l, filter (fun j => nth j (k :: ks) false) (map S l) = map S (filter (fun j => nth j ks false) l)).
  { induction l as [|x l IH]; [reflexivity|]. cbn [map filter].
    change (nth (S x) (k :: ks) false) with (nth x ks false).
    destruct (nth x ks false); cbn [map]; rewrite IH; reflexivity. }
  rewrite E. destruct k; reflexivity.
Qed.

Lemma selected_idx : forall A (d : A) ks row, length row = length ks ->
  selected ks row = map (fun j => nth j row d) (idx ks).
Proof.
  induction ks as [|k ks IH]; intros row H; [destruct row; reflexivity|].
  destruct row as [|x row]; [discriminate|]. rewrite selected_cons, idx_cons, map_app, map_map.
  cbn [nth]. rewrite <- IH by (simpl in H; lia). destruct k; reflexivity.
Qed.

Lemma idx_length_selected : forall A (row : list A) ks, length row = length ks ->
  length (selected ks row) = length (idx ks).
Proof.
  intros A row ks H. destruct row as [|d row].
  - destruct ks; [reflexivity|discriminate].
  - rewrite (selected_idx A d) by auto. apply map_length.
Qed.

Lemma zipn_selected : forall A (rows : list (list A)) ks, rows <> [] ->
  (forall r, In r rows -> length r = length ks) ->
  zipn (map (selected ks) rows) = selected ks (zipn rows).
Proof.
  intros A rows ks Hne Hl.
  destruct rows as [|r0 rows0]; [congruence|]. clear Hne. set (rows := r0 :: rows0) in *.
  destruct ks as [|k0 ks0].
  { assert (zipn rows = []) as ->.
    { assert (length (zipn rows) = 0).
      { rewrite zipn_length. apply minlen_const; auto. discriminate. }
      destruct (zipn rows); auto; discriminate. }
    unfold rows. cbn. destruct rows0; reflexivity || (unfold zipn; simpl; rewrite combine_nil || idtac; reflexivity). }
  assert (exists d : A, True) as [d _].
  { specialize (Hl r0 (or_introl eq_refl)). destruct r0 as [|d r]; [discriminate|]. exists d; auto. }
  set (ks := k0 :: ks0) in *. clearbody ks.
  assert (Hsel : forall r, In r (map (selected ks) rows) -> length r = length (idx ks)).
  { intros r Hr. apply in_map_iff in Hr. destruct Hr as (r' & <- & Hr'). apply idx_length_selected. auto. }
  rewrite (@zipn_columns A d (map (selected ks) rows) (length (idx ks)) ltac:(discriminate) Hsel).
  rewrite (@zipn_columns A d rows (length ks) ltac:(discriminate) Hl).
  rewrite (selected_idx _ []) by (rewrite map_length, seq_length; reflexivity).
  assert (I : forall j, In j (idx ks) -> j < length ks).
  { intros j Hj. apply filter_In in Hj. destruct Hj as [Hj _]. apply in_seq in Hj. lia. }
  assert (E : forall l n, (forall j, In j l -> j < length ks) ->
    (forall i, i < length l -> nth (n + i) (idx ks) 0 = nth i l 0) -> n + length l = length (idx ks) ->
    map (fun i => map (fun r => nth i r d) (map (selected ks) rows)) (seq n (length l)) =
    map (fun j => nth j (map (fun j0 => map (fun r => nth j0 r d) rows) (seq 0 (length ks))) []) l).
  { induction l as [|j l IHl]; intros n Hb Hnth Hlen; [reflexivity|]. cbn [length seq map].
    f_equal.
    - rewrite (nth_map_lt (fun j0 => map (fun r => nth j0 r d) rows) (seq 0 (length ks)) [] 0)
        by (rewrite seq_length; apply Hb; left; auto).
      rewrite seq_nth by (apply Hb; left; auto). cbn [Nat.add].
      rewrite map_map. apply map_ext_in. intros r Hr.
      rewrite (selected_idx _ d) by auto.
      rewrite (nth_map_lt (fun j0 => nth j0 r d) (idx ks) d 0) by (cbn [length] in Hlen; lia).
      f_equal. specialize (Hnth 0 ltac:(simpl; lia)). rewrite Nat.add_0_r in Hnth. exact Hnth.
    - apply IHl.
      + intros x Hx. apply Hb. right; auto.
      + intros i Hi. specialize (Hnth (S i) ltac:(simpl; lia)). cbn [nth] in Hnth. rewrite <- Hnth. f_equal. lia.
      + simpl in Hlen. lia. }
  apply (E (idx ks) 0); auto.
Qed.
