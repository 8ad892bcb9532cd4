(** * DBF files: proofs of the property theorems *)

From Coq Require Import ZifyBool ZifyNat ZifyN QArith.
From Verif Require Import PyBase PyBaseFacts PyFloat NumPy SpecArray ArrayFacts Pack PackProofs Dbf SpecPack SpecDbf DbfProofs DbfSelect DbfExamples.
Open Scope nat_scope.

Lemma enum_dict_map : forall V (d : V) l,
  enum_dict l = map (fun i => (Z.of_nat i, nth i l d)) (seq 0 (length l)).
Proof.
  intros V d l. unfold enum_dict.
  assert (E : forall l n, map (fun iv : nat * V => (Z.of_nat (fst iv), snd iv)) (enum_from n l) =
     map (fun i => (Z.of_nat (n + i), nth i l d)) (seq 0 (length l))).
  { clear. induction l as [|x l IH]; intros n; [reflexivity|]. cbn [enum_from map length seq fst snd nth].
    rewrite Nat.add_0_r. f_equal. rewrite IH, <- seq_shift, map_map. apply map_ext. intros i.
    rewrite Nat.add_succ_r. reflexivity. }
  rewrite E. reflexivity.
Qed.

Lemma pack_parts : forall d n fname,
  let p := fst (set_fn (OStr fname) (new_pack d n)) in
  p_data p = d /\ p_names p = n /\ p_fn p = fname.
Proof.
  intros d n fname p. unfold p, new_pack.
  set (q := fst (set_fn (OStr []) (mkpack d n (mkarr Kf []) [] ONone None (lit "ch") [] []))).
  pose proof (mask_reset_fields q) as (Hd & Hn & _).
  cbn [set_fn fst]. unfold with_fn, with_files. cbn [p_data p_names p_fn].
  rewrite Hd, Hn. auto.
Qed.

Lemma encodes_row_cells : forall fds cs b, encodes_row fds cs b -> length cs = length fds.
Proof. intros fds cs b H. induction H; simpl; auto. Qed.

Lemma encodes_live_cells : forall fds recs rb, encodes_records fds recs rb ->
  forall cs, In cs (live recs) -> length cs = length fds.
Proof.
  intros fds recs rb H. induction H; intros cs' Hin; [destruct Hin|destruct Hin as [<-|Hin]|]; auto.
  eapply encodes_row_cells; eauto.
Qed.

Lemma row_vals_length : forall fds cs, length cs = length fds -> length (row_vals fds cs) = length fds.
Proof. intros. unfold row_vals. rewrite map_length, combine_length. lia. Qed.

Lemma row_vals_nth : forall fds cs i, length cs = length fds -> i < length fds ->
  nth i (row_vals fds cs) VNone = cell_val (nth i (map fd_typ fds) 0%N) (nth i cs CBlank).
Proof.
  induction fds as [|fd fds IH]; intros cs i Hl Hi; [simpl in Hi; lia|].
  destruct cs as [|c cs]; [discriminate|]. destruct i as [|i]; [reflexivity|].
  cbn [row_vals combine map nth]. apply IH; simpl in *; lia.
Qed.

Lemma dbfreader_encoded : forall fds recs b, encodes fds recs b ->
  exists f', dbfreader (mkfile b 0) =
    Ok (mkgen (map fd_name fds) (map spec_of fds) (map (row_vals fds) (live recs)) (Ok f')).
Proof.
  intros fds recs b (h & rb & tail & Hh & Hr & ->).
  destruct (header_enc fds (length recs) h (rb ++ tail) Hh) as (f1 & H1 & H2).
  assert (Hg : Forall good_field fds).
  { destruct Hh as (? & ? & fb & _ & _ & He & _). eapply encodes_fields_good; eauto. }
  unfold dbfreader. rewrite H1. cbn [bind]. rewrite H2, Nat2Z.id.
  rewrite (reader_records fds Hg recs rb Hr h tail). eauto.
Qed.
Lemma C36_arrays :
forall fds recs b fname, encodes fds recs b ->
  exists p, dbfpack (mkfile b 0) [] fname = Ok p /\
  p_fn p = fname /\
  p_names p = map (fun i => (Z.of_nat i, VStr (nth i (map fd_name fds) []))) (seq 0 (length fds)) /\
  (live recs = [] -> p_data p = []) /\
  (live recs <> [] ->
   p_data p = map (fun i => (Z.of_nat i,
       np_array (map (fun cs => cell_val (nth i (map fd_typ fds) 0%N) (nth i cs CBlank)) (live recs))))
     (seq 0 (length fds))).
Proof.
  intros fds recs b fname He.
  destruct (dbfreader_encoded _ _ _ He) as (f' & Hr).
  unfold dbfpack. rewrite Hr. cbn [bind columns_of g_end g_rows g_names].
  eexists. split; [reflexivity|].
  destruct (pack_parts (enum_dict (map np_array (zipn (map (row_vals fds) (live recs)))))
             (enum_dict (map VStr (map fd_name fds))) fname) as (Hd & Hn & Hf).
  rewrite Hd, Hn, Hf. clear Hd Hn Hf. split; [reflexivity|]. split.
  { rewrite (enum_dict_map _ (VStr [])), !map_length. apply map_ext_in. intros i Hi.
    f_equal. apply (map_nth VStr). }
  split.
  - intros ->. reflexivity.
  - intros Hne. destruct He as (h & rb & tail & _ & Hrec & _).
    pose proof (encodes_live_cells _ _ _ Hrec) as Hc.
    rewrite (@zipn_columns val VNone _ (length fds)).
    + rewrite map_map, (enum_dict_map _ (np_array [])), map_length, seq_length. apply map_ext_in.
      intros i Hi. apply in_seq in Hi. f_equal.
      rewrite (nth_map_lt (fun x => np_array (map (fun r => nth x r VNone) (map (row_vals fds) (live recs))))
                 (seq 0 (length fds)) (np_array []) 0) by (rewrite seq_length; lia).
      rewrite seq_nth by lia. cbn [Nat.add]. f_equal. rewrite map_map. apply map_ext_in.
      intros cs Hin. apply row_vals_nth; auto. lia.
    + intros E. apply map_eq_nil in E. auto.
    + intros r Hin. apply in_map_iff in Hin. destruct Hin as (cs & <- & Hin). apply row_vals_length. auto.
Qed.

Lemma C36_dbfpack_inverts_encoding_proof :
forall fds recs b fname, encodes fds recs b ->
  exists p, dbfpack (mkfile b 0) [] fname = Ok p /\
  p_fn p = fname /\
  p_names p = map (fun i => (Z.of_nat i, VStr (nth i (map fd_name fds) []))) (seq 0 (length fds)) /\
  (live recs = [] -> p_data p = []) /\
  (live recs <> [] ->
   holds_columns (p_data p) (map (fun i => (Z.of_nat i,
       map (fun cs => cell_val (nth i (map fd_typ fds) 0%N) (nth i cs CBlank)) (live recs)))
     (seq 0 (length fds)))).
Proof.
intros fds recs b fname E. destruct (C36_arrays fds recs b fname E) as (p & P1 & P2 & P3 & P4 & P5).
exists p. repeat (split; [assumption|]). intros N. apply columns_iff. rewrite map_map. exact (P5 N).
Qed.

Lemma name_in_spec : forall s names, name_in s names = true <-> In s names.
Proof.
  intros. unfold name_in. rewrite existsb_exists. split.
  - intros (x & Hx & E). apply str_eqb_eq in E. subst; auto.
  - intros H. exists s. split; auto. apply str_eqb_refl.
Qed.

Lemma keeps_last : forall names fds, In (last (map fd_name fds) []) names -> last (keeps names fds) true = true.
Proof.
  intros names fds H. destruct fds as [|fd0 fds0]; [reflexivity|].
  destruct (@exists_last _ (fd0 :: fds0)) as (l & x & E); [discriminate|]. rewrite E in *.
  unfold keeps. rewrite map_app in *. cbn [map] in *. rewrite last_last in *. apply name_in_spec. auto.
Qed.

Lemma enum_dict_In : forall V (l : list V) k v,
  In (k, v) (enum_dict l) <-> (0 <= k)%Z /\ nth_error l (Z.to_nat k) = Some v.
Proof.
  intros V l k v. unfold enum_dict.
  assert (E : forall l n, In (k, v) (map (fun iv : nat * V => (Z.of_nat (fst iv), snd iv)) (enum_from n l)) <->
     (Z.of_nat n <= k)%Z /\ nth_error l (Z.to_nat k - n) = Some v).
  { clear. induction l as [|x l IH]; intros n.
    - simpl. split; [tauto|]. intros [_ H]. destruct (Z.to_nat k - n); discriminate.
    - cbn [enum_from map In fst snd]. rewrite IH. split.
      + intros [H|[H1 H2]].
        * injection H as <- <-. split; [lia|]. replace (Z.to_nat (Z.of_nat n) - n) with 0 by lia. reflexivity.
        * split; [lia|]. replace (Z.to_nat k - n) with (S (Z.to_nat k - S n)) by lia. exact H2.
      + intros [H1 H2]. destruct (Z.eq_dec k (Z.of_nat n)) as [->|Hne].
        * left. replace (Z.to_nat (Z.of_nat n) - n) with 0 in H2 by lia. injection H2 as ->. reflexivity.
        * right. split; [lia|]. replace (Z.to_nat k - n) with (S (Z.to_nat k - S n)) in H2 by lia. exact H2. }
  rewrite (E l 0). rewrite Nat.sub_0_r. reflexivity.
Qed.

Lemma enum_dict_keys : forall V (l : list V), map fst (enum_dict l) = map Z.of_nat (seq 0 (length l)).
Proof.
  intros. unfold enum_dict. rewrite map_map. cbn [fst].
  rewrite <- (enum_from_map_fst l 0), map_map. reflexivity.
Qed.

Lemma filter_keys_idx : forall names fds,
  map fst (filter (fun kv : Z * str => name_in (snd kv) names) (enum_dict (map fd_name fds))) =
  map Z.of_nat (idx (keeps names fds)).
Proof.
  intros names fds. unfold enum_dict, idx.
  assert (E : forall l n, map fst (filter (fun kv : Z * str => name_in (snd kv) names)
      (map (fun iv => (Z.of_nat (fst iv), snd iv)) (enum_from n (map fd_name l)))) =
      map Z.of_nat (map (Nat.add n) (filter (fun j => nth j (keeps names l) false) (seq 0 (length (keeps names l)))))).
  { clear. induction l as [|fd l IH]; intros n; [reflexivity|].
    cbn [map enum_from filter snd fst keeps]. fold (keeps names l).
    change (filter (fun j => nth j (name_in (fd_name fd) names :: keeps names l) false)
       (seq 0 (length (name_in (fd_name fd) names :: keeps names l)))) with
       (idx (name_in (fd_name fd) names :: keeps names l)).
    rewrite idx_cons, !map_app, !map_map. specialize (IH (S n)). rewrite !map_map in IH.
    replace (map (fun x => Z.of_nat (n + S x)) (idx (keeps names l)))
      with (map (fun x => Z.of_nat (S n + x)) (idx (keeps names l)))
      by (apply map_ext; intros; f_equal; lia).
    unfold idx in IH |- *. destruct (name_in (fd_name fd) names); cbn [map app fst]; rewrite IH; auto.
    rewrite Nat.add_0_r. reflexivity. }
  rewrite (E fds 0). rewrite map_map. reflexivity.
Qed.

Lemma seq_filter_sorted : forall (g : nat -> bool) n s, Sorted Z.le (map Z.of_nat (filter g (seq s n))) /\
  Forall (fun z => (Z.of_nat s <= z)%Z) (map Z.of_nat (filter g (seq s n))).
Proof.
  induction n as [|n IH]; intros s; [split; constructor|]. cbn [seq filter].
  destruct (IH (S s)) as (A & B).
  assert (B' : Forall (fun z => (Z.of_nat s <= z)%Z) (map Z.of_nat (filter g (seq (S s) n)))).
  { eapply Forall_impl; [|exact B]. intros; cbv beta in *; lia. }
  destruct (g s); [|auto]. cbn [map]. split; constructor; auto; [|lia].
  destruct (map Z.of_nat (filter g (seq (S s) n))) as [|z l]; constructor. inversion B'; auto.
Qed.

Lemma idx_sorted : forall ks, zsort (map Z.of_nat (idx ks)) = map Z.of_nat (idx ks).
Proof. intros. apply zsort_id. apply (seq_filter_sorted _ (length ks) 0). Qed.

Lemma idx_In : forall ks j, In j (idx ks) <-> nth_error ks j = Some true.
Proof.
  intros ks j. unfold idx. rewrite filter_In, in_seq. split.
  - intros [H1 H2]. rewrite (nth_error_nth' ks false) by lia. congruence.
  - intros H. split.
    + assert (j < length ks) by (apply nth_error_Some; congruence). lia.
    + rewrite (nth_error_nth _ _ _ H). reflexivity.
Qed.

Lemma idx_NoDup : forall ks, NoDup (map Z.of_nat (idx ks)).
Proof.
  intros. apply FinFun.Injective_map_NoDup; [intros a b; lia|]. apply NoDup_filter, seq_NoDup.
Qed.

Lemma zip_idx_selected : forall A (l : list A) ks d, length l = length ks ->
  zip (map Z.of_nat (idx ks)) (selected ks l) = map (fun j => (Z.of_nat j, nth j l d)) (idx ks).
Proof.
  intros A l ks d H. rewrite (selected_idx _ d) by auto.
  generalize (idx ks). induction l0; simpl; auto. f_equal. auto.
Qed.

Lemma C37_selection_is_projection_proof :
  forall b names fname p,
  names <> [] -> dbfpack (mkfile b 0) [] fname = Ok p ->
  let fields := p_names p in
  let wanted := fun k : Z => exists s, In (k, VStr s) fields /\ In s names in
  (forall g, dbfreader (mkfile b 0) = Ok g ->
     g_names g = [] \/ In (last (g_names g) []) names \/
     let start := 33 + 32 * length (g_names g) in
     let len := 1 + list_sum (map (fun x => snd (fst x)) (g_specs g)) in
     forall i, i < Z.to_nat (u32_at b 4) -> space_at b (start + i * len) = true) ->
  exists q, dbfpack (mkfile b 0) names fname = Ok q /\ p_fn q = fname /\
  (forall k v, In (k, v) (p_names q) <-> In (k, v) (p_names p) /\ wanted k) /\
  (forall k a, In (k, a) (p_data q) <-> In (k, a) (p_data p) /\ wanted k) /\
  dict_ok (p_names q) /\ dict_ok (p_data q).
Proof.
  intros b names fname p Hne Hp fields wanted Hcond.
  unfold dbfpack in Hp. destruct (dbfreader (mkfile b 0)) as [g|e] eqn:Eg; [|discriminate]. cbn [bind] in Hp.
  specialize (Hcond g eq_refl).
  unfold dbfreader in Eg. destruct (read_header (mkfile b 0)) as [[[numrec fds] f1]|e] eqn:Eh; [|discriminate].
  cbn [bind] in Eg. destruct (read_header_ok _ _ _ _ Eh) as (Hnum & Hb1 & Hp1 & Hnamed).
  cbn [f_bytes f_pos Nat.add] in Hnum, Hb1, Hp1.
  destruct (read_terminator f1) as [f2|e] eqn:Et.
  2:{ injection Eg as <-. discriminate. }
  destruct (read_terminator_ok _ _ Et) as (Hb2 & Hp2).
  destruct (reader_loop (Z.to_nat numrec) (flag_field :: fds) f2) as [rows out] eqn:El.
  injection Eg as <-. cbn [g_names g_specs columns_of g_end g_rows] in *.
  destruct out as [f'|e]; [|discriminate]. cbn [bind] in Hp.
  assert (f2 = mkfile b (33 + 32 * length fds)) as ->.
  { destruct f2; cbn in *. f_equal; [congruence|lia]. }
  assert (Hsim : records_loop (Z.to_nat numrec) (record_length fds) (sel_of names fds) (mkfile b (33 + 32 * length fds)) =
     (map (selected (keeps names fds)) rows, Ok f')).
  { apply records_loop_sim; auto. destruct Hcond as [Hnil|[Hin|Hall]].
    - left. apply map_eq_nil in Hnil. subst. reflexivity.
    - left. apply keeps_last. exact Hin.
    - right. intros i Hi. rewrite map_length, map_map in Hall. rewrite Hnum in Hi. exact (Hall i Hi). }
  destruct (reader_loop_ok _ _ _ _ _ _ Hnamed El) as (_ & _ & _ & Hw).
  unfold dbfpack. destruct names as [|n0 names0]; [congruence|]. set (names := n0 :: names0) in *.
  unfold fseek. cbn [f_bytes]. rewrite Eh. cbn [bind]. unfold dbfrecords. rewrite Eh. cbn [bind].
  rewrite Et. rewrite rec_end_eq. fold (sel_of names fds). rewrite Hsim.
  cbn [bind columns_of g_end g_rows].
  eexists. split; [reflexivity|].
  set (chn := filter (fun kv : Z * str => name_in (snd kv) names) (enum_dict (map fd_name fds))).
  match goal with |- context [new_pack ?d ?n] => destruct (pack_parts d n fname) as (-> & -> & ->) end.
  assert (p_data p = enum_dict (map np_array (zipn rows)) /\
          p_names p = enum_dict (map VStr (map fd_name fds))) as (Pd & Pn).
  { injection Hp as <-.
    match goal with |- context [new_pack ?d ?n] => destruct (pack_parts d n fname) as (Q1 & Q2 & _) end.
    split; [exact Q1|exact Q2]. }
  assert (Hkeys : dkeys chn = map Z.of_nat (idx (keeps names fds))) by apply filter_keys_idx.
  assert (Hwant : forall k, wanted k <-> (0 <= k)%Z /\ nth_error (keeps names fds) (Z.to_nat k) = Some true).
  { intros k. unfold wanted, fields. rewrite Pn. split.
    - intros (s & Hin & Hs). apply enum_dict_In in Hin. destruct Hin as (H0 & Hn). split; auto.
      unfold keeps. rewrite nth_error_map. rewrite !nth_error_map in Hn.
      destruct (nth_error fds (Z.to_nat k)) as [fd|]; [|discriminate]. cbn [option_map] in *.
      injection Hn as <-. f_equal. apply name_in_spec. auto.
    - intros (H0 & Hn). unfold keeps in Hn. rewrite nth_error_map in Hn.
      destruct (nth_error fds (Z.to_nat k)) as [fd|] eqn:En; [|discriminate]. cbn [option_map] in Hn.
      assert (Hn' : name_in (fd_name fd) names = true) by congruence. apply name_in_spec in Hn'. exists (fd_name fd). split; auto.
      apply enum_dict_In. split; auto. rewrite !nth_error_map, En. reflexivity. }
  split; [reflexivity|]. split; [|split; [|split]].
  - intros k v. rewrite Pn, Hwant. rewrite in_map_iff. unfold chn. split.
    + intros ((k' & s) & E & Hin). injection E as <- <-. apply filter_In in Hin. destruct Hin as (Hin & Hs).
      apply enum_dict_In in Hin. destruct Hin as (H0 & Hn). cbn [snd] in Hs. rewrite nth_error_map in Hn.
      destruct (nth_error fds (Z.to_nat k')) as [fd|] eqn:En; [|discriminate]. injection Hn as <-. cbn [fst snd].
      split; [apply enum_dict_In; split; auto; rewrite !nth_error_map, En; reflexivity|].
      split; auto. unfold keeps. rewrite nth_error_map, En. cbn [option_map]. congruence.
    + intros (Hin & H0 & Hk). apply enum_dict_In in Hin. destruct Hin as (_ & Hn). rewrite !nth_error_map in Hn.
      unfold keeps in Hk. rewrite nth_error_map in Hk.
      destruct (nth_error fds (Z.to_nat k)) as [fd|] eqn:En; [|discriminate]. cbn [option_map] in *.
      injection Hn as <-. assert (Hk' : name_in (fd_name fd) names = true) by congruence. exists (k, fd_name fd). split; [reflexivity|].
      apply filter_In. split; auto. apply enum_dict_In. split; auto. rewrite nth_error_map, En. reflexivity.
  - intros k a. rewrite Pd, Hwant. rewrite Hkeys, idx_sorted.
    destruct rows as [|r0 rows0].
    + cbn. destruct (map Z.of_nat (idx (keeps names fds))); simpl; tauto.
    + set (rows := r0 :: rows0) in *.
      assert (Hrows : forall r, In r rows -> length r = length (keeps names fds)).
      { intros r Hr. unfold keeps. rewrite map_length. exact (proj1 (Forall_forall _ _) Hw r Hr). }
      rewrite zipn_selected by (auto; discriminate).
      assert (Lz : length (zipn rows) = length (keeps names fds)).
      { rewrite zipn_length. apply minlen_const; auto. discriminate. }
      rewrite <- (map_map (fun x => x) np_array). 
      replace (map np_array (map (fun x => x) (selected (keeps names fds) (zipn rows))))
        with (selected (keeps names fds) (map np_array (zipn rows))).
      2:{ rewrite map_id. unfold selected. rewrite map_map.
          assert (Q : forall ks l, map snd (filter fst (combine ks (map np_array l))) =
                      map (fun x : bool * list val => np_array (snd x)) (filter fst (combine ks l))).
          { induction ks as [|k1 ks IHk]; intros l; [reflexivity|]. destruct l; [reflexivity|].
            cbn [map combine filter fst]. destruct k1; cbn [map snd]; rewrite IHk; reflexivity. }
          apply Q. }
      rewrite (zip_idx_selected _ _ _ (np_array [])) by (rewrite map_length; exact Lz).
      rewrite in_map_iff. rewrite enum_dict_In. split.
      * intros (j & E & Hj). injection E as <- <-. apply idx_In in Hj. rewrite Nat2Z.id.
        assert (j < length (keeps names fds)) by (apply nth_error_Some; congruence).
        repeat split; auto; try lia. rewrite (nth_error_nth' _ (np_array [])) by (rewrite map_length; lia). reflexivity.
      * intros ((H0 & Ha) & _ & Hk). exists (Z.to_nat k). split.
        -- rewrite (nth_error_nth _ _ _ Ha). f_equal. lia.
        -- apply idx_In. exact Hk.
  - unfold dict_ok. rewrite map_map. cbn [fst]. change (map (fun x : Z * str => fst x) chn) with (dkeys chn).
    rewrite Hkeys. apply idx_NoDup.
  - unfold dict_ok. rewrite Hkeys, idx_sorted. 
    assert (Z1 : forall A B (l : list A) (m : list B), NoDup l -> NoDup (map fst (zip l m))).
    { induction l as [|x l IHl]; intros m Hnd; [constructor|]. destruct m; [constructor|]. inversion Hnd; subst.
      cbn [zip map fst]. constructor; auto. intros Hin. apply H1. clear - Hin. revert m Hin.
      induction l as [|y l IHl]; intros m Hin; [destruct Hin|]. destruct m; [destruct Hin|].
      destruct Hin as [<-|Hin]; [left; auto|right; eauto]. }
    apply Z1, idx_NoDup.
Qed.

Definition bad_fields : list field := [mkfield (lit "A") 67 1 0; mkfield (lit "B") 67 2 0].
Definition bad_records : list (option (list cell)) :=
  [None; Some [CText (lit "x"); CText (lit "  ")]; Some [CText (lit "y"); CText (lit "  ")]].
Definition bad_bytes : str :=
  sample_header bad_fields 3 ++ lit "*q z" ++ lit " x  " ++ lit " y  ".

Lemma bad_encodes : encodes bad_fields bad_records bad_bytes.
Proof.
  exists (sample_header bad_fields 3), (lit "*q z x   y  "), []. split; [|split; [|reflexivity]].
  - exists (zeros 4), (zeros 22), (flat_map sample_descr bad_fields).
    split; [reflexivity|]. split; [reflexivity|]. split; [|split; [reflexivity|split; reflexivity]].
    assert (A : forall fds, Forall good_field fds -> encodes_fields fds (flat_map sample_descr fds)).
    { induction 1; [constructor|]. cbn [flat_map]. unfold sample_descr at 1. rewrite <- !app_assoc.
      apply ef_cons; auto. }
    apply A. repeat constructor.
  - change (lit "*q z x   y  ") with
      (42%N :: lit "q z" ++ 32%N :: (lit "x" ++ lit "  " ++ []) ++ 32%N :: (lit "y" ++ lit "  " ++ []) ++ []).
    apply ec_deleted; [discriminate|reflexivity|].
    constructor; [|constructor; [|constructor]];
    (constructor; [|reflexivity|constructor; [|reflexivity|constructor]];
     (apply holds_text; [cbn; intuition discriminate|repeat constructor])).
Qed.

Lemma C37_selection_is_projection_refuted_proof :
  exists fds recs b p q, encodes fds recs b /\
  dbfpack (mkfile b 0) [] [] = Ok p /\ dbfpack (mkfile b 0) [lit "A"] [] = Ok q /\
  dget 0 (p_data p) = Some (np_array [VStr (lit "x"); VStr (lit "y")]) /\
  dget 0 (p_data q) = Some (np_array [VStr (lit "z"); VStr (lit " ")]).
Proof.
  exists bad_fields, bad_records, bad_bytes.
  destruct (dbfpack (mkfile bad_bytes 0) [] []) as [p|e] eqn:Ep; [|vm_compute in Ep; discriminate].
  destruct (dbfpack (mkfile bad_bytes 0) [lit "A"] []) as [q|e] eqn:Eq; [|vm_compute in Eq; discriminate].
  exists p, q. split; [exact bad_encodes|]. split; [reflexivity|]. split; [reflexivity|].
  vm_compute in Ep, Eq. injection Ep as <-. injection Eq as <-. vm_compute. auto.
Qed.

Lemma dbfreader_inv : forall f g, dbfreader f = Ok g ->
  exists fds f1, let start := f_pos f + 33 + 32 * length fds in
  let n := Z.to_nat (u32_at (f_bytes f) (f_pos f + 4)) in
  read_header f = Ok (u32_at (f_bytes f) (f_pos f + 4), fds, f1) /\
  named fds /\ g_names g = map fd_name fds /\ g_specs g = map spec_of fds /\
  ((read_terminator f1 = Ok (mkfile (f_bytes f) start) /\
    reader_loop n (flag_field :: fds) (mkfile (f_bytes f) start) = (g_rows g, g_end g)) \/
   (exists e, read_terminator f1 = Err e /\ g_rows g = [] /\ g_end g = Err e)) /\
  f_bytes f1 = f_bytes f /\ f_pos f1 = f_pos f + 32 + 32 * length fds.
Proof.
  intros f g H. unfold dbfreader in H. destruct (read_header f) as [[[numrec fds] f1]|e] eqn:Eh; [|discriminate].
  cbn [bind] in H. destruct (read_header_ok _ _ _ _ Eh) as (Hnum & Hb1 & Hp1 & Hnamed).
  exists fds, f1. intros start n. rewrite <- Hnum. split; auto. split; auto.
  destruct (read_terminator f1) as [f2|e] eqn:Et.
  - destruct (read_terminator_ok _ _ Et) as (Hb2 & Hp2).
    assert (f2 = mkfile (f_bytes f) start) as -> by (destruct f2; cbn in *; unfold start; f_equal; [congruence|lia]).
    destruct (reader_loop (Z.to_nat numrec) _ _) as [rows out] eqn:El. injection H as <-.
    cbn [g_names g_specs g_rows g_end]. repeat split; auto. left. split; auto. unfold n. rewrite <- Hnum. exact El.
  - injection H as <-. cbn. repeat split; auto. right. eauto.
Qed.

Lemma spec_sizes : forall fds, map (fun x : N * nat * N => snd (fst x)) (map spec_of fds) = map fd_size fds.
Proof. intros. rewrite map_map. reflexivity. Qed.

Lemma C38_deleted_records_never_appear_proof :
  forall f g f', dbfreader f = Ok g -> g_end g = Ok f' ->
  let start := f_pos f + 33 + 32 * length (g_names g) in
  let len := 1 + list_sum (map (fun x => snd (fst x)) (g_specs g)) in
  let n := Z.to_nat (u32_at (f_bytes f) (f_pos f + 4)) in
  f_bytes f' = f_bytes f /\
  f_pos f' = start + n * len /\
  length (g_rows g) = length (filter (fun i => space_at (f_bytes f) (start + i * len)) (seq 0 n)) /\
  Forall (fun row => length row = length (g_names g)) (g_rows g).
Proof.
  intros f g f' Hg He start len n.
  destruct (dbfreader_inv _ _ Hg) as (fds & f1 & Hh & Hn & Hnm & Hsp & [(Ht & Hl)|(e & _ & _ & He')] & Hb & Hp); [|congruence].
  rewrite He in Hl. destruct (reader_loop_ok _ _ _ _ _ _ Hn Hl) as (-> & Hc & _ & Hw). cbn [f_bytes f_pos].
  unfold start, len, n. rewrite Hsp, spec_sizes, Hnm, map_length. auto.
Qed.

Lemma convert_nth : forall fds b row, named fds -> convert_fields (zip fds (split_fields fds b)) = Ok row ->
  forall j fd v, nth_error fds j = Some fd -> nth_error row j = Some v ->
  conv (fd_typ fd) (fd_deci fd) (firstn (fd_size fd) (skipn (list_sum (firstn j (map fd_size fds))) b)) = Ok v.
Proof.
  induction fds as [|fd0 fds IH]; intros b row Hn H j fd v Hf Hr; [destruct j; discriminate|].
  inversion Hn; subst. cbn [split_fields zip convert_fields] in H. rewrite name_not_flag in H by auto.
  destruct (conv _ _ _) as [v0|e] eqn:Ev; [|discriminate]. cbn [bind] in H.
  destruct (convert_fields _) as [vs|e] eqn:Ec; [|discriminate]. injection H as <-.
  destruct j as [|j].
  - injection Hf as ->. injection Hr as ->. exact Ev.
  - cbn [nth_error] in Hf, Hr. cbn [map firstn list_sum fold_right].
    change (fold_right Nat.add 0 ?l) with (list_sum l). rewrite <- skipn_skipn_add. eauto.
Qed.

Lemma loop_rows : forall n fds b p rows f', named fds ->
  reader_loop n (flag_field :: fds) (mkfile b p) = (rows, Ok f') ->
  forall r row, nth_error rows r = Some row ->
  exists i, nth_error (filter (fun i => space_at b (p + i * record_length fds)) (seq 0 n)) r = Some i /\
   p + i * record_length fds + record_length fds <= length b /\
   convert_fields (zip fds (split_fields fds (bytes_at (p + i * record_length fds + 1) (list_sum (map fd_size fds)) b))) = Ok row.
Proof.
  induction n as [|n IH]; intros fds b p rows f' Hn H r row Hr.
  - injection H as <- <-. destruct r; discriminate.
  - rewrite reader_loop_step in H.
    destruct (p + record_length fds <=? length b) eqn:Ele; [|discriminate]. apply Nat.leb_le in Ele.
    assert (Shift : forall r i, nth_error (filter (fun i => space_at b (p + record_length fds + i * record_length fds)) (seq 0 n)) r = Some i ->
      nth_error (filter (fun i => space_at b (p + i * record_length fds)) (seq 1 n)) r = Some (S i)).
    { clear. rewrite <- seq_shift. generalize (seq 0 n). induction l as [|x l IHl]; intros r i H; [destruct r; discriminate|].
      cbn [map filter] in *. replace (p + S x * record_length fds) with (p + record_length fds + x * record_length fds) by lia.
      destruct (space_at b (p + record_length fds + x * record_length fds)); [|auto].
      destruct r; [injection H as ->; reflexivity|]. cbn [nth_error] in *. auto. }
    cbn [seq filter]. rewrite Nat.mul_0_l, Nat.add_0_r.
    destruct (space_at b p) eqn:Esp.
    + destruct (convert_fields _) as [row0|e] eqn:Ec; [|discriminate].
      destruct (reader_loop n _ _) as [rows1 out] eqn:El. injection H as <- ->.
      destruct r as [|r].
      * injection Hr as ->. exists 0. rewrite Nat.mul_0_l, Nat.add_0_r. auto.
      * cbn [nth_error] in Hr. destruct (IH _ _ _ _ _ Hn El _ _ Hr) as (i & Hi & Hlen & Hc).
        exists (S i). cbn [nth_error]. replace (p + S i * record_length fds) with (p + record_length fds + i * record_length fds) by lia.
        split; auto.
    + destruct (IH _ _ _ _ _ Hn H _ _ Hr) as (i & Hi & Hlen & Hc).
      exists (S i). replace (p + S i * record_length fds) with (p + record_length fds + i * record_length fds) by lia.
      split; auto.
Qed.

Lemma C38_rows_are_the_live_records_proof :
  forall f g f', dbfreader f = Ok g -> g_end g = Ok f' ->
  let start := f_pos f + 33 + 32 * length (g_names g) in
  let len := 1 + list_sum (map (fun x => snd (fst x)) (g_specs g)) in
  let n := Z.to_nat (u32_at (f_bytes f) (f_pos f + 4)) in
  let alive := filter (fun i => space_at (f_bytes f) (start + i * len)) (seq 0 n) in
  forall r row, nth_error (g_rows g) r = Some row ->
  exists i, nth_error alive r = Some i /\
  forall j typ size deci v, nth_error (g_specs g) j = Some (typ, size, deci) -> nth_error row j = Some v ->
  let offset := 1 + list_sum (firstn j (map (fun x => snd (fst x)) (g_specs g))) in
  conv typ deci (firstn size (skipn (start + i * len + offset) (f_bytes f))) = Ok v.
Proof.
  intros f g f' Hg He start len n alive r row Hr.
  destruct (dbfreader_inv _ _ Hg) as (fds & f1 & Hh & Hn & Hnm & Hsp & [(Ht & Hl)|(e & _ & _ & He')] & Hb & Hp); [|congruence].
  rewrite He in Hl. destruct (loop_rows _ _ _ _ _ _ Hn Hl _ _ Hr) as (i & Hi & Hlen & Hc).
  unfold alive, start, len, n. rewrite Hsp, spec_sizes, Hnm, map_length. exists i. split; [exact Hi|].
  intros j typ size deci v Hj Hv. rewrite nth_error_map in Hj.
  destruct (nth_error fds j) as [fd|] eqn:Ef; [|discriminate]. injection Hj as <- <- <-.
  pose proof (convert_nth _ _ _ Hn Hc j fd v Ef Hv) as Hv'. rewrite <- Hv'. f_equal.
  assert (Hbound : list_sum (firstn j (map fd_size fds)) + fd_size fd <= list_sum (map fd_size fds)).
  { clear - Ef. revert j Ef. induction fds as [|x l IHl]; intros j Ef; [destruct j; discriminate|].
    destruct j as [|j]; [injection Ef as ->; simpl; change (fold_right Nat.add 0 ?q) with (list_sum q); lia|].
    cbn [nth_error] in Ef. specialize (IHl _ Ef). cbn [map firstn list_sum fold_right].
    change (fold_right Nat.add 0 ?q) with (list_sum q). lia. }
  pose proof (bytes_at_at (f_pos f + 33 + 32 * length fds + i * record_length fds + 1) (list_sum (map fd_size fds))
     (list_sum (firstn j (map fd_size fds))) (fd_size fd) (f_bytes f) Hbound) as Q.
  unfold bytes_at in Q at 1. rewrite Q. unfold bytes_at, record_length.
  f_equal. f_equal. lia.
Qed.

Lemma read_fields_short : forall fds b, encodes_fields fds b -> forall pre k i, length pre = i -> k < length b ->
  read_fields (length fds) (mkfile (pre ++ firstn k b) i) = Err StructError.
Proof.
  intros fds b H. induction H as [|fd fds fill4 fill14 b Hg H4 H14 He IH]; intros pre k i Hi Hk.
  - simpl in Hk. lia.
  - set (d := fd_name fd ++ repeat 0%N (11 - length (fd_name fd)) ++ [fd_typ fd] ++ fill4 ++
       [N.of_nat (fd_size fd); fd_deci fd] ++ fill14).
    assert (E : fd_name fd ++ repeat 0%N (11 - length (fd_name fd)) ++ [fd_typ fd] ++ fill4 ++
       [N.of_nat (fd_size fd); fd_deci fd] ++ fill14 ++ b = d ++ b).
    { unfold d. rewrite <- !app_assoc. reflexivity. }
    rewrite E in *.
    assert (Ld : length d = 32).
    { unfold d. destruct Hg as [Hl _]. rewrite !app_length, repeat_length, H4, H14. cbn [length]. lia. }
    cbn [length read_fields].
    destruct (le_lt_dec 32 k) as [Hge|Hlt].
    + rewrite firstn_app, firstn_all2 by lia. rewrite Ld.
      rewrite fread_mid by auto. unfold d at 1. rewrite unpack_field_enc by auto. cbn [bind].
      rewrite app_assoc. rewrite IH; [reflexivity| |].
      * rewrite app_length. lia.
      * rewrite app_length in Hk. lia.
    + destruct (fread 32 _) as [r f1] eqn:Er. destruct (fread_spec _ _ _ _ Er) as (Hr & _).
      cbn [f_bytes f_pos] in Hr. unfold unpack_field.
      replace (length r =? 32) with false; [reflexivity|]. symmetry. apply Nat.eqb_neq.
      rewrite Hr, bytes_at_length, app_length, firstn_length. lia.
Qed.

Lemma C39_truncated_copy_raises_proof :
  forall fds recs h rb k, encodes_header fds (length recs) h -> encodes_records fds recs rb ->
  k < length h + length rb ->
  (forall fname, dbfpack (mkfile (firstn k (h ++ rb)) 0) [] fname =
     Err (if k =? length h - 1 then AssertionError else StructError)) /\
  (length h <= k -> exists g, dbfreader (mkfile (firstn k (h ++ rb)) 0) = Ok g /\
     g_end g = Err StructError /\
     g_rows g = map (row_vals fds) (live (firstn ((k - length h) / record_length fds) recs))).
Proof.
  intros fds recs h rb k Hh Hr Hk.
  assert (Hg : Forall good_field fds).
  { destruct Hh as (? & ? & fb & _ & _ & He & _). eapply encodes_fields_good; eauto. }
  destruct (le_lt_dec (length h) k) as [Hge|Hlt].
  - assert (E : firstn k (h ++ rb) = h ++ firstn (k - length h) rb) by (rewrite firstn_app, firstn_all2 by lia; reflexivity).
    rewrite E. destruct (header_enc fds (length recs) h (firstn (k - length h) rb) Hh) as (f1 & H1 & H2).
    assert (R : dbfreader (mkfile (h ++ firstn (k - length h) rb) 0) =
      Ok (mkgen (map fd_name fds) (map spec_of fds)
            (map (row_vals fds) (live (firstn ((k - length h) / record_length fds) recs))) (Err StructError))).
    { unfold dbfreader. rewrite H1. cbn [bind]. rewrite H2, Nat2Z.id.
      rewrite (reader_truncated fds Hg recs rb Hr) by lia. reflexivity. }
    split.
    + intros fname. unfold dbfpack. rewrite R. cbn [bind columns_of g_end].
      replace (k =? length h - 1) with false; [reflexivity|]. symmetry. apply Nat.eqb_neq.
      destruct Hh as (? & ? & ? & L & _ & _ & _ & _ & ->). rewrite !app_length in Hge |- *. lia.
    + intros _. eexists. split; [exact R|]. auto.
  - split; [|lia]. intros fname.
    assert (R : dbfreader (mkfile (firstn k (h ++ rb)) 0) =
       if k =? length h - 1 then Ok (mkgen (map fd_name fds) (map spec_of fds) [] (Err AssertionError)) else Err StructError).
    { assert (E : firstn k (h ++ rb) = firstn k h).
      { rewrite firstn_app. replace (k - length h) with 0 by lia. cbn [firstn]. apply app_nil_r. }
      rewrite E. destruct Hh as (pre & fill & fb & Lp & Lf & He & Hn & Hf & Eh).
      set (z := (33 + 32 * Z.of_nat (length fds))%Z) in *.
      pose proof (encodes_fields_length _ _ He) as Lfb.
      set (hd := pre ++ le_bytes 4 (Z.of_nat (length recs)) ++ le_bytes 2 z ++ fill).
      assert (Lhd : length hd = 32).
      { unfold hd. rewrite !app_length, !le_bytes_length, Lp, Lf. reflexivity. }
      assert (Eh' : h = hd ++ fb ++ [13%N]).
      { rewrite Eh. unfold hd. rewrite <- !app_assoc. reflexivity. }
      assert (Lh : length h = 33 + 32 * length fds).
      { rewrite Eh', !app_length, Lhd, Lfb. simpl. lia. }
      unfold dbfreader.
      destruct (le_lt_dec 32 k) as [H32|H32].
      - assert (E2 : firstn k h = hd ++ firstn (k - 32) fb).
        { rewrite Eh'. rewrite firstn_app, firstn_all2 by lia. rewrite Lhd. f_equal.
          rewrite firstn_app. replace (k - 32 - length fb) with 0 by lia. cbn [firstn]. apply app_nil_r. }
        rewrite E2. unfold read_header.
        change (hd ++ firstn (k - 32) fb) with ([] ++ hd ++ firstn (k - 32) fb).
        rewrite fread_mid by auto. unfold unpack_header. rewrite Lhd. cbn [Nat.eqb bind app].
        assert (E3 : bytes_at 4 4 hd = le_bytes 4 (Z.of_nat (length recs))).
        { unfold hd. apply bytes_at_mid; auto. }
        assert (E4 : bytes_at 8 2 hd = le_bytes 2 z).
        { unfold hd. rewrite app_assoc. apply bytes_at_mid; auto. rewrite app_length, le_bytes_length. lia. }
        rewrite E3, E4, !le_value_bytes.
        2:{ change (256 ^ Z.of_nat 2)%Z with (2 ^ 16)%Z. unfold z in *. lia. }
        2:{ change (256 ^ Z.of_nat 4)%Z with (2 ^ 32)%Z. lia. }
        assert (num_fields z = length fds) as ->.
        { unfold num_fields, z. replace (33 + 32 * Z.of_nat (length fds) - 33)%Z with (Z.of_nat (length fds) * 32)%Z by lia.
          rewrite Z.div_mul by lia. lia. }
        cbn [bind Nat.add].
        destruct (k =? length h - 1) eqn:Ek.
        + apply Nat.eqb_eq in Ek. rewrite (firstn_all2 fb) by lia.
          pose proof (read_fields_enc fds fb He hd [] 32 Lhd) as RF. rewrite app_nil_r in RF. rewrite RF. cbn [bind].
          unfold read_terminator. destruct (fread 1 _) as [r f1] eqn:Er. destruct (fread_spec _ _ _ _ Er) as (Hr1 & _).
          cbn [f_bytes f_pos] in Hr1.
          assert (r = []) as ->.
          { assert (length r = 0) by (rewrite Hr1, bytes_at_length, app_length; lia). destruct r; auto; discriminate. }
          reflexivity.
        + apply Nat.eqb_neq in Ek. rewrite (read_fields_short fds fb He hd (k - 32) 32 Lhd) by lia. reflexivity.
      - replace (k =? length h - 1) with false by (symmetry; apply Nat.eqb_neq; lia).
        unfold read_header. destruct (fread 32 _) as [r f1] eqn:Er. destruct (fread_spec _ _ _ _ Er) as (Hr1 & _).
        cbn [f_bytes f_pos] in Hr1. unfold unpack_header.
        replace (length r =? 32) with false; [reflexivity|]. symmetry. apply Nat.eqb_neq.
        rewrite Hr1, bytes_at_length, firstn_length. lia. }
    unfold dbfpack. rewrite R. destruct (k =? length h - 1); reflexivity.
Qed.

Lemma terminator_short : forall f, length (f_bytes f) <= f_pos f -> read_terminator f = Err AssertionError.
Proof.
  intros f H. unfold read_terminator. destruct (fread 1 f) as [b f1] eqn:E. destruct (fread_spec _ _ _ _ E) as (Hb & _).
  assert (b = []) as ->.
  { assert (length b = 0) by (rewrite Hb, bytes_at_length; lia). destruct b; auto; discriminate. }
  reflexivity.
Qed.

Lemma C39_short_file_raises_proof :
  forall f g, dbfreader f = Ok g ->
  let start := f_pos f + 33 + 32 * length (g_names g) in
  let len := 1 + list_sum (map (fun x => snd (fst x)) (g_specs g)) in
  let n := Z.to_nat (u32_at (f_bytes f) (f_pos f + 4)) in
  length (f_bytes f) < start + n * len ->
  exists e, g_end g = Err e /\
  (e = StructError -> start <= length (f_bytes f) ->
   length (g_rows g) = length (filter (fun i => space_at (f_bytes f) (start + i * len))
                                      (seq 0 ((length (f_bytes f) - start) / len)))).
Proof.
  intros f g Hg start len n Hs.
  destruct (dbfreader_inv _ _ Hg) as (fds & f1 & Hh & Hn & Hnm & Hsp & Hcase & Hb & Hp).
  assert (start = f_pos f + 33 + 32 * length fds /\ len = record_length fds) as (E1 & E2).
  { unfold start, len. rewrite Hsp, spec_sizes, Hnm, map_length. auto. }
  rewrite E1, E2 in *. clear E1 E2.
  destruct Hcase as [(Ht & Hl)|(e & Ht & Hr & He)].
  - destruct (Nat.eq_dec n 0) as [Hz|Hz].
    + rewrite Hz, Nat.mul_0_l in Hs. rewrite terminator_short in Ht by (rewrite Hb, Hp; lia). discriminate.
    + destruct (reader_loop_short _ _ _ _ _ _ Hn Hl) as (e & He & Hc); auto. exists e. split; auto.
  - exists e. split; auto. intros ->. exfalso. clear - Ht. unfold read_terminator in Ht.
    destruct (fread 1 f1) as [b f2]. destruct (str_eqb b _); discriminate.
Qed.

Lemma read_selected_short : forall names fds prev ref b q,
  length b < ref + (fi_seek prev + fd_size (fi_field prev)) + list_sum (map fd_size fds) ->
  fds <> [] -> last (keeps names fds) true = true -> last (map fd_size fds) 1 <> 0 ->
  read_selected ref (filter fi_keep (finfos names prev fds)) (mkfile b q) = Err StructError.
Proof.
  intros names fds. induction fds as [|fd fds IH]; intros prev ref b q Hl Hne Hk Hz; [congruence|].
  cbn [finfos filter]. set (o := fi_seek prev + fd_size (fi_field prev)) in *.
  set (fi := mkfi fd (name_in (fd_name fd) names) o).
  cbn [map list_sum fold_right] in Hl. change (fold_right Nat.add 0 (map fd_size fds)) with (list_sum (map fd_size fds)) in Hl.
  assert (Step : fds <> [] -> forall q', read_selected ref (filter fi_keep (finfos names fi fds)) (mkfile b q') = Err StructError).
  { intros Hf q'. apply IH; auto.
    - change (fi_seek fi + fd_size (fi_field fi)) with (o + fd_size fd). lia.
    - destruct fds; [congruence|]. exact Hk.
    - destruct fds; [congruence|]. exact Hz. }
  change (fi_keep fi) with (name_in (fd_name fd) names).
  destruct (name_in (fd_name fd) names) eqn:Ek.
  - cbn [read_selected]. change (fd_size (fi_field fi)) with (fd_size fd). change (fi_seek fi) with o.
    destruct (fread _ _) as [r f1] eqn:Er. destruct (fread_spec _ _ _ _ Er) as (Hr & Hb & Hp). cbn [fseek f_bytes f_pos] in *.
    destruct (length r =? fd_size fd) eqn:El; [|reflexivity]. apply Nat.eqb_eq in El.
    destruct fds as [|fd' fds'].
    + exfalso. cbn in Hz. rewrite Hr, bytes_at_length in El. change (list_sum (map fd_size [])) with 0 in Hl. lia.
    + destruct f1 as [b1 p1]. cbn [f_bytes] in Hb. subst b1. rewrite Step by discriminate. reflexivity.
  - destruct fds as [|fd' fds'].
    + cbn in Hk. congruence.
    + apply Step. discriminate.
Qed.

Lemma records_loop_short : forall names n fds b p rows out,
  records_loop n (record_length fds) (sel_of names fds) (mkfile b p) = (rows, out) ->
  length b < p + n * record_length fds -> n <> 0 ->
  last (keeps names fds) true = true -> last (map fd_size fds) 1 <> 0 ->
  exists e, out = Err e.
Proof.
  intros names n. induction n as [|n IH]; intros fds b p rows out H Hs Hn Hk Hz; [congruence|].
  destruct (le_lt_dec (p + record_length fds) (length b)) as [Hge|Hlt].
  - destruct (records_loop_step names n fds b p Hge) as (q & Hq & E). rewrite E in H. rewrite (Hq Hk) in H.
    assert (n <> 0) by (destruct n; lia).
    destruct (space_at b p).
    + destruct (convert_fields _); [|injection H as <- <-; eauto].
      destruct (records_loop n _ _ _) as [rows1 out1] eqn:El. injection H as <- <-.
      eapply IH; eauto. lia.
    + eapply IH; eauto. lia.
  - cbn [records_loop f_pos] in H.
    assert (R : read_selected p (sel_of names fds) (mkfile b p) = Err StructError).
    { rewrite sel_of_eq. cbn [read_selected]. destruct (fread _ _) as [r f1] eqn:Er.
      destruct (fread_spec _ _ _ _ Er) as (Hr & Hb & Hp). destruct (length r =? _) eqn:El; [|reflexivity].
      destruct f1 as [b1 p1]. cbn [fseek f_bytes f_pos] in *. subst b1. apply Nat.eqb_eq in El.
      destruct fds as [|fd0 fds0].
      { exfalso. rewrite Hr, bytes_at_length in El. change (fd_size (fi_field flag_info)) with 1 in El.
        change (fi_seek flag_info) with 0 in El. change (record_length []) with 1 in Hlt. lia. }
      rewrite read_selected_short; auto; try discriminate.
      change (fi_seek flag_info + fd_size (fi_field flag_info)) with 1. unfold record_length in Hlt. lia. }
    rewrite R in H. injection H as <- <-. eauto.
Qed.

Lemma C39_selecting_last_field_raises_proof :
  forall f names g fulln, dbfrecords f names = Ok g -> dbfreader f = Ok fulln ->
  let start := f_pos f + 33 + 32 * length (g_names fulln) in
  let sizes := map (fun x => snd (fst x)) (g_specs fulln) in
  let n := Z.to_nat (u32_at (f_bytes f) (f_pos f + 4)) in
  length (f_bytes f) < start + n * (1 + list_sum sizes) ->
  g_names fulln = [] \/ In (last (g_names fulln) []) names -> last sizes 1 <> 0 ->
  exists e, g_end g = Err e.
Proof.
  intros f names g fulln Hg Hfull start sizes n Hs Hlast Hz.
  destruct (dbfreader_inv _ _ Hfull) as (fds & f1 & Hh & Hn & Hnm & Hsp & Hcase & Hb & Hp).
  unfold sizes in *. rewrite Hsp, spec_sizes in *. unfold start in *. rewrite Hnm, map_length in *.
  unfold dbfrecords in Hg. rewrite Hh in Hg. cbn [bind] in Hg. rewrite rec_end_eq in Hg. fold (sel_of names fds) in Hg.
  destruct (read_terminator f1) as [f2|e] eqn:Et.
  2:{ injection Hg as <-. cbn. eauto. }
  destruct Hcase as [(Ht & _)|(e & Ht & _)]; [|discriminate]. injection Ht as ->.
  fold n in Hg. destruct (records_loop n _ _ _) as [rows out] eqn:El. injection Hg as <-. cbn [g_end].
  destruct (Nat.eq_dec n 0) as [Hn0|Hn0].
  { rewrite Hn0, Nat.mul_0_l in Hs. rewrite terminator_short in Et by (rewrite Hb, Hp; lia). discriminate. }
  eapply records_loop_short; eauto.
  destruct Hlast as [Hnil|Hin]; [|apply keeps_last; exact Hin]. apply map_eq_nil in Hnil. subst. reflexivity.
Qed.

Definition cut_records : list (option (list cell)) :=
  [Some [CInt 1; CText (lit "xy"); CBlank]; Some [CInt 22; CText (lit "z "); CBlank]].
Definition cut_body : str := lit "   1xy        " ++ lit "  22z         ".

Lemma cut_header_ok : encodes_header sample_fields (length cut_records) (sample_header sample_fields 2).
Proof.
  exists (zeros 4), (zeros 22), (flat_map sample_descr sample_fields).
  split; [reflexivity|]. split; [reflexivity|]. split; [|split; [reflexivity|split; reflexivity]].
  assert (A : forall fds, Forall good_field fds -> encodes_fields fds (flat_map sample_descr fds)).
  { induction 1; [constructor|]. cbn [flat_map]. unfold sample_descr at 1. rewrite <- !app_assoc.
    apply ef_cons; auto. }
  apply A. repeat constructor.
Qed.

Lemma cut_body_ok : encodes_records sample_fields cut_records cut_body.
Proof.
  change cut_body with
    (32%N :: (lit "  1" ++ lit "xy" ++ lit "        " ++ []) ++
     32%N :: (lit " 22" ++ lit "z " ++ lit "        " ++ []) ++ []).
  constructor; [|constructor; [|constructor]]; (constructor; [|reflexivity|constructor; [|reflexivity|constructor; [|reflexivity|constructor]]]).
  - apply (holds_N_int 1 (lit "1") (lit "  ") []); [repeat constructor; right; right; reflexivity|constructor|].
    exists (lit "1"). split; [discriminate|]. split; [repeat constructor; discriminate|]. left. split; reflexivity.
  - apply holds_text; [cbn; intuition discriminate|repeat constructor].
  - apply holds_D_blank. repeat constructor; right; reflexivity.
  - apply (holds_N_int 22 (lit "22") (lit " ") []); [repeat constructor; right; right; reflexivity|constructor|].
    exists (lit "22"). split; [discriminate|]. split; [repeat constructor; discriminate|]. left. split; reflexivity.
  - apply holds_text; [cbn; intuition discriminate|repeat constructor].
  - apply holds_D_blank. repeat constructor; right; reflexivity.
Qed.

Lemma C39_selecting_reader_raises_refuted_proof :
  exists fds recs h rb k p, encodes_header fds (length recs) h /\ encodes_records fds recs rb /\
  k < length h + length rb /\
  dbfpack (mkfile (firstn k (h ++ rb)) 0) [] [] = Err StructError /\
  dbfpack (mkfile (firstn k (h ++ rb)) 0) [lit "A"] [] = Ok p /\
  holds_column (p_data p) 0 (map (fun cs => cell_val 78 (nth 0 cs CBlank)) (live recs)).
Proof.
  exists sample_fields, cut_records, (sample_header sample_fields 2), cut_body, 150.
  destruct (dbfpack (mkfile (firstn 150 (sample_header sample_fields 2 ++ cut_body)) 0) [lit "A"] []) as [p|e] eqn:Ep;
    [|vm_compute in Ep; discriminate].
  exists p. split; [exact cut_header_ok|]. split; [exact cut_body_ok|].
  split; [apply Nat.ltb_lt; vm_compute; reflexivity|]. split; [vm_compute; reflexivity|]. split; [reflexivity|].
  vm_compute in Ep. injection Ep as <-. apply column_iff. vm_compute. reflexivity.
Qed.

Lemma C40_conversion_of_well_formed_fields_proof :
  forall typ deci c b, holds typ deci c b -> conv typ deci b = Ok (cell_val typ c).
Proof.
  exact conv_holds.
Qed.

Lemma int_of_str_cases : forall s, (exists z, int_of_str s = Ok z) \/ int_of_str s = Err ValueError.
Proof.
  intros s. unfold int_of_str. destruct (drop_underscores _ _) as [t|]; auto.
  destruct (take_sign t) as [neg d]. destruct d as [|c d]; auto. destruct (forallb _ _); eauto.
Qed.

Lemma float_of_str_cases : forall s, (exists x, float_of_str s = Ok x) \/ float_of_str s = Err ValueError.
Proof.
  intros s. unfold float_of_str. destruct (drop_underscores _ _) as [t|]; auto.
  destruct (take_sign t) as [neg d]. unfold float_body.
  destruct (_ || _)%bool; eauto. destruct (str_eqb _ _); eauto.
  destruct (span is_digit d) as [ip r].
  destruct (match r with [] => _ | _ => _ end) as [fp r'].
  destruct (ip ++ fp); auto. destruct (take_exponent r'); eauto.
Qed.

Lemma pad_blank : forall b, Forall pad_like b <-> lstrip ws_bytes (replace1 0 [] b) = [].
Proof.
  intros b. split.
  - intros H. apply lstrip_nil. eapply Forall_impl; [|apply replace_nul_pad; exact H].
    intros; apply ws_bytes_spec; auto.
  - intros H. apply (proj1 (lstrip_nil _ _)) in H. induction b as [|c b IH]; [constructor|].
    unfold replace1 in H. cbn [flat_map] in H. fold (replace1 0 [] b) in H.
    destruct (N.eqb c 0) eqn:E.
    + constructor; [left; lia|]. apply IH. exact H.
    + cbn [app] in H. inversion H; subst. constructor; [right; apply ws_bytes_spec; auto|auto].
Qed.

Lemma C40_numeric_fields_total_proof :
  (forall deci b, Forall pad_like b -> conv 78 deci b = Ok (VFloat fnan)) /\
  (forall b, ~ Forall pad_like b -> (exists z, conv 78 0 b = Ok (VInt z)) \/ conv 78 0 b = Err ValueError) /\
  (forall deci b, deci <> 0%N -> ~ Forall pad_like b ->
     (exists x, conv 78 deci b = Ok (VFloat x)) \/ conv 78 deci b = Err ValueError) /\
  (forall deci b, Forall space_like b -> conv 70 deci b = Ok (VFloat fnan)) /\
  (forall deci b, (exists x, conv 70 deci b = Ok (VFloat x)) \/ conv 70 deci b = Err ValueError).
Proof.
  split; [|split; [|split; [|split]]].
  - intros deci b H. apply (conv_holds 78 deci CBlank b). constructor. exact H.
  - intros b H. change (conv 78 0 b) with (conv_numeric 0 b). unfold conv_numeric. rewrite pad_blank in H.
    destruct (lstrip ws_bytes (replace1 0 [] b)) as [|c t]; [congruence|]. cbn [negb N.eqb].
    destruct (int_of_str_cases (c :: t)) as [[z ->]| ->]; cbn [bind]; eauto.
  - intros deci b Hd H. change (conv 78 deci b) with (conv_numeric deci b). unfold conv_numeric. rewrite pad_blank in H.
    destruct (lstrip ws_bytes (replace1 0 [] b)) as [|c t]; [congruence|].
    replace (N.eqb deci 0) with false by lia. cbn [negb].
    destruct (float_of_str_cases (c :: t)) as [[z ->]| ->]; cbn [bind]; eauto.
  - intros deci b H. apply (conv_holds 70 deci CBlank b). constructor. exact H.
  - intros deci b. change (conv 70 deci b) with (conv_float b). unfold conv_float.
    destruct (strip ws_bytes b); [eauto|].
    destruct (float_of_str_cases b) as [[z ->]| ->]; cbn [bind]; eauto.
Qed.

Lemma space_blank : forall b, Forall space_like b <-> strip ws_bytes b = [].
Proof.
  intros b. split; intros H.
  - apply strip_nil. eapply Forall_impl; [|exact H]. intros; apply ws_bytes_spec; auto.
  - apply (proj1 (strip_nil _ _)) in H. eapply Forall_impl; [|exact H]. intros; apply ws_bytes_spec; auto.
Qed.

Lemma make_date_only : forall y m d v, make_date y m d = Ok v -> v = VDate y m d /\ calendar_day y m d.
Proof.
  intros y m d v H. destruct (make_date_cases y m d) as [E|E]; rewrite E in H; [|discriminate].
  injection H as <-. split; auto. apply make_date_ok. exact E.
Qed.

Lemma C40_date_fields_total_proof :
  (forall deci b, conv 68 deci b = Ok VNone <-> Forall space_like b) /\
  (forall deci b, ~ Forall space_like b ->
     (exists y m d, conv 68 deci b = Ok (VDate y m d) /\ calendar_day y m d) \/ conv 68 deci b = Err ValueError) /\
  (forall deci ys ms ds, length ys = 4 -> length ms = 2 -> length ds = 2 ->
     all_digits ys -> all_digits ms -> all_digits ds ->
     (calendar_day (dec_value ys) (dec_value ms) (dec_value ds) ->
      conv 68 deci (ys ++ ms ++ ds) = Ok (VDate (dec_value ys) (dec_value ms) (dec_value ds))) /\
     (~ calendar_day (dec_value ys) (dec_value ms) (dec_value ds) ->
      conv 68 deci (ys ++ ms ++ ds) = Err ValueError)).
Proof.
  assert (A : forall deci b, ~ Forall space_like b ->
     (exists y m d, conv 68 deci b = Ok (VDate y m d) /\ calendar_day y m d) \/ conv 68 deci b = Err ValueError).
  { intros deci b H. change (conv 68 deci b) with (conv_date b). unfold conv_date. rewrite space_blank in H.
    destruct (strip ws_bytes b) as [|c t]; [congruence|].
    destruct (int_of_str_cases (bytes_at 0 4 b)) as [[y ->]| ->]; cbn [bind]; auto.
    destruct (int_of_str_cases (bytes_at 4 2 b)) as [[m ->]| ->]; cbn [bind]; auto.
    destruct (int_of_str_cases (bytes_at 6 2 b)) as [[d ->]| ->]; cbn [bind]; auto.
    destruct (make_date_cases y m d) as [E|E]; auto. left. exists y, m, d. split; auto. apply make_date_ok. auto. }
  split; [|split; [exact A|]].
  - intros deci b. split.
    + intros H. destruct (strip ws_bytes b) eqn:E; [apply space_blank; auto|].
      destruct (A deci b) as [(y & m & d & H' & _)|H']; [rewrite space_blank; congruence| |]; congruence.
    + intros H. apply (conv_holds 68 deci CBlank b). constructor. exact H.
  - intros deci ys ms ds Ly Lm Ld Dy Dm Dd.
    assert (E : conv 68 deci (ys ++ ms ++ ds) = make_date (dec_value ys) (dec_value ms) (dec_value ds)).
    { change (conv 68 deci (ys ++ ms ++ ds)) with (conv_date (ys ++ ms ++ ds)). unfold conv_date.
      pose proof (bytes_at_mid [] ys (ms ++ ds) 0 4 eq_refl Ly) as E1.
      pose proof (bytes_at_mid ys ms ds 4 2 Ly Lm) as E2.
      pose proof (bytes_at_mid (ys ++ ms) ds [] 6 2 ltac:(rewrite app_length; lia) Ld) as E3.
      rewrite app_nil_r, <- app_assoc in E3. cbn [app] in E1. rewrite E1, E2, E3.
      rewrite !int_of_digits by (auto; intros ->; discriminate). cbn [bind].
      destruct (strip ws_bytes (ys ++ ms ++ ds)) eqn:E; [|reflexivity].
      apply (proj1 (strip_nil _ _)) in E. destruct ys as [|x ys]; [discriminate|].
      inversion E; subst. inversion Dy; subst. unfold ws_bytes in H1. lia. }
    rewrite E. split; [apply make_date_ok|]. intros H.
    destruct (make_date_cases (dec_value ys) (dec_value ms) (dec_value ds)) as [Q|Q]; auto.
    exfalso. apply H. apply make_date_ok. exact Q.
Qed.

Lemma C40_logical_and_text_fields_total_proof :
  (forall deci b, In (conv 76 deci b) [Ok (VStr (lit "T")); Ok (VStr (lit "F")); Ok (VStr (lit "?"))]) /\
  (forall deci c, (conv 76 deci [c] = Ok (VStr (lit "T")) <-> In c (lit "YyTt")) /\
                  (conv 76 deci [c] = Ok (VStr (lit "F")) <-> In c (lit "NnFf"))) /\
  (forall typ deci b, ~ In typ [78; 68; 76; 70]%N -> Forall (fun c => (c < 128)%N) b ->
     conv typ deci b = Ok (VStr b)) /\
  (forall typ deci b, ~ In typ [78; 68; 76; 70]%N -> ~ Forall (fun c => (c < 128)%N) b ->
     conv typ deci b = Err UnicodeError).
Proof.
  split; [|split; [|split]].
  - intros deci b. change (conv 76 deci b) with (@Ok val (conv_logical b)). unfold conv_logical.
    destruct (is_substring _ _); [left; auto|]. destruct (is_substring _ _); [right; left; auto|right; right; left; auto].
  - intros deci c. change (conv 76 deci [c]) with (@Ok val (conv_logical [c])). unfold conv_logical.
    assert (S : forall s, is_substring [c] s = true <-> In c s).
    { induction s as [|x s IH]; [split; [discriminate|intros []]|]. cbn [is_substring strip_prefix In].
      destruct (N.eqb c x) eqn:E.
      - split; auto. intros _. left. lia.
      - rewrite IH. split; auto. intros [->|H]; auto. rewrite N.eqb_refl in E. discriminate. }
    pose proof (S (lit "YyTt")) as S1. pose proof (S (lit "NnFf")) as S2.
    split; split; intros H.
    + apply S1. destruct (is_substring [c] (lit "YyTt")); auto. destruct (is_substring [c] (lit "NnFf")); discriminate.
    + rewrite (proj2 S1 H). reflexivity.
    + apply S2. destruct (is_substring [c] (lit "YyTt")); [discriminate|]. destruct (is_substring [c] (lit "NnFf")); auto; discriminate.
    + rewrite (proj2 S2 H).
      destruct (is_substring [c] (lit "YyTt")) eqn:E; [|reflexivity]. exfalso. apply (proj1 (S (lit "YyTt"))) in E. cbn in H, E.
      repeat (destruct H as [<-|H]; [intuition discriminate|]). destruct H.
  - intros typ deci b Ht Hb. apply (conv_holds typ deci (CText b) b). constructor; auto.
    cbn in *. intuition.
  - intros typ deci b Ht Hb. unfold conv. cbn in Ht.
    replace (N.eqb typ 78) with false by lia. replace (N.eqb typ 68) with false by lia.
    replace (N.eqb typ 76) with false by lia. replace (N.eqb typ 70) with false by lia.
    unfold decode_ascii. destruct (forallb _ b) eqn:E; [|reflexivity]. exfalso. apply Hb.
    apply Forall_forall. intros x Hx. rewrite forallb_forall in E. specialize (E x Hx). lia.
Qed.

