(** * Proofs about the packs read from whatever opens *)

From Coq Require Import ZArith Lia ZifyBool ZifyNat ZifyN Sorted.
From Verif Require Import PyBase PyBaseFacts PyFloat PyText NumPy SpecArray ArrayFacts Dbf Dicts Pack PackThms ReadTextThms ReadXl SpecXl XlProofs ReadXlThms
  SpecSound SoundProofs.
Open Scope Z_scope.

Lemma upper_letters u : forallb is_upper u = true -> Forall letter u.
Proof.
  intro H. rewrite forallb_forall in H. apply Forall_forall. intros c I. specialize (H c I).
  unfold is_upper in H. unfold letter, capital. lia.
Qed.

Lemma letter2num_nonneg s n : letter2num s true = Ok n -> 0 <= n.
Proof.
  rewrite letter2num_zbase. destruct (_ && _) eqn:E; [|discriminate]. intro H. injection H as <-.
  apply andb_prop in E. destruct E as [E1 E2]. apply upper_letters in E2.
  assert (1 <= hn (upper_str s)); [|lia]. apply hn_nonempty; [exact E2|]. intro N. rewrite N in E1. discriminate.
Qed.

Lemma reference_nonneg row col a r c : 0 <= row -> 0 <= col -> cellreference row col a = Ok (r, c) -> 0 <= r /\ 0 <= c.
Proof.
  intros R C. unfold cellreference. destruct a as [[|x a]|]; try (intro H; injection H as <- <-; auto).
  destruct (span is_alpha (x :: a)) as [letters rest]. destruct letters as [|l ls]; [discriminate|].
  destruct (fst (span is_decimal rest)) as [|d ds].
  - intro H. apply bind_ok in H. destruct H as (n & L & H). injection H as <- <-. split; [exact R|]. exact (letter2num_nonneg _ _ L).
  - cbv zeta. set (q := digits_val 0 (to_ascii (d :: ds))). clearbody q. destruct (q <? 1) eqn:E; [discriminate|].
    intro H. apply bind_ok in H. destruct H as (n & L & H). injection H as <- <-. split; [lia|]. exact (letter2num_nonneg _ _ L).
Qed.

Lemma found_in wb which ws : find_sheet wb which = Ok ws -> In ws (bk_sheets wb).
Proof.
  assert (W : forall z, sheet_by_index wb z = Ok ws -> In ws (bk_sheets wb)).
  { intros z. unfold sheet_by_index, py_index. cbv zeta. set (j := if z <? 0 then _ else z). destruct (_ && _); [|discriminate].
    destruct (nth_error (bk_sheets wb) (Z.to_nat j)) eqn:E; [|discriminate]. intro H. injection H as <-.
    eapply nth_error_In. exact E. }
  unfold find_sheet. destruct which; try discriminate; try apply W. destruct (name_index _ _); [apply W|discriminate].
Qed.

(** Cells that can be read, by type and value. *)
Definition readable (fit : Z -> val -> Prop) : Prop := forall t v, fit t v -> cell_ok (v, t).
Lemma fits_readable : readable fits.
Proof. intros t v F. destruct F; (split; [lia|]); split; intro E; try discriminate E; eauto. Qed.
Lemma xml_readable : readable fits_xml.
Proof. intros t v [F|E1 E2]; [apply fits_readable; exact F|subst; split; [lia|]; split; intro; discriminate]. Qed.
Lemma early_readable : readable fits_early.
Proof. intros t v [F|f E1 E2]; [apply fits_readable; exact F|subst; split; [lia|]; split; intro; discriminate]. Qed.

Lemma cells_ok_of fit sh c r0 r1 : readable fit -> cells_fit fit sh -> rectangular sh -> 0 <= r0 -> r1 < sh_nrows sh -> 0 <= c < sh_ncols sh ->
  Forall cell_ok (cells_of sh c r0 r1).
Proof.
  intros OK F (N & L & FV & FT) R0 R1 C. unfold cells_of. apply Forall_forall. intros vt I. apply in_map_iff in I.
  destruct I as (i & <- & I). apply in_seq in I. apply OK. unfold value_at, type_at.
  set (r := Z.to_nat (r0 + Z.of_nat i)). assert (LR : (r < length (sh_values sh))%nat) by lia.
  pose proof (Forall2_nth_error _ _ _ r _ _ F) as P.
  rewrite (nth_error_nth' _ [] LR) in P. rewrite (nth_error_nth' (sh_types sh) []) in P by lia.
  pose proof (Forall2_nth_error _ _ _ (Z.to_nat c) _ _ P) as Q.
  assert (LV : (Z.to_nat c < length (nth r (sh_values sh) []))%nat).
  { rewrite Forall_forall in FV. specialize (FV (nth r (sh_values sh) []) (nth_In _ _ LR)). lia. }
  assert (LT : (Z.to_nat c < length (nth r (sh_types sh) []))%nat).
  { apply Forall2_len in P. lia. }
  rewrite (nth_error_nth' _ VNone LV), (nth_error_nth' _ 0 LT) in Q. exact Q.
Qed.

Lemma dict_of_zip_in V (l : list Z) : forall (m : list V) d k v,
  dget k (fold_left (fun d kv => dset (fst kv) (snd kv) d) (zip l m) d) = Some v -> In (k, v) (zip l m) \/ dget k d = Some v.
Proof.
  induction l as [|x l IH]; intros m d k v H; [right; exact H|]. destruct m as [|y m]; [right; exact H|].
  cbn [zip fold_left fst snd] in *. apply IH in H. destruct H as [H|H]; [left; right; exact H|].
  rewrite dget_dset in H. destruct (Z.eqb_spec k x) as [->|]; [|right; exact H].
  injection H as ->. left. left. reflexivity.
Qed.
Lemma dict_of_zip_has V (l : list Z) : forall (m : list V) d k, length m = length l -> In k l \/ (exists v, dget k d = Some v) ->
  exists v, dget k (fold_left (fun d kv => dset (fst kv) (snd kv) d) (zip l m) d) = Some v.
Proof.
  induction l as [|x l IH]; intros m d k L H; [destruct H as [[]|H]; exact H|]. destruct m as [|y m]; [discriminate|].
  cbn [zip fold_left fst snd]. apply IH; [cbn in L; lia|].
  destruct (Z.eqb_spec k x) as [->|N].
  - right. exists y. rewrite dget_dset, Z.eqb_refl. reflexivity.
  - destruct H as [[E|H]|[v H]]; [congruence|left; exact H|].
    right. exists v. rewrite dget_dset. destruct (Z.eqb_spec k x); [congruence|exact H].
Qed.
Lemma in_zip_fst A B (l : list A) : forall (m : list B) x y, In (x, y) (zip l m) -> In x l.
Proof.
  induction l as [|a l IH]; intros [|b m] x y H; try destruct H.
  - left. congruence.
  - right. eapply IH. exact H.
Qed.
Lemma Forall2_zip A B (R : A -> B -> Prop) l m x y : Forall2 R l m -> In (x, y) (zip l m) -> R x y.
Proof.
  induction 1 as [|a b l m H _ IH]; cbn; [tauto|]. intros [E|I]; [injection E as -> ->; exact H|auto].
Qed.

Lemma grid_at_col A (g : list (list A)) nc r c v : Forall (fun row => Z.of_nat (length row) = nc) g -> 0 <= c ->
  grid_at g r c = Ok v -> c < nc.
Proof.
  intros F C. unfold grid_at. destruct (py_index g r) as [row|] eqn:E; [|discriminate].
  assert (I : In row g).
  { unfold py_index in E. cbv zeta in E. set (j := if r <? 0 then _ else r) in *. destruct (_ && _); [|discriminate].
    eapply nth_error_In. exact E. }
  rewrite Forall_forall in F. specialize (F row I).
  rewrite py_index_nonneg by exact C. destruct (nth_error row (Z.to_nat c)) eqn:N; [|discriminate].
  intros _. assert (nth_error row (Z.to_nat c) <> None) by congruence. apply nth_error_Some in H. lia.
Qed.

(** One column. *)
Lemma column_of fit datemode ws c r0 r1 out : readable fit -> rectangular ws -> cells_fit fit ws -> 0 <= r0 -> -1 <= r1 -> 0 <= c ->
  (do values <- col_values ws c r0 (r1 + 1); do types <- col_types ws c r0 (r1 + 1); convert_column datemode values types) = Ok out ->
  let last := Z.min r1 (sh_nrows ws - 1) in
  (r0 <= last -> c < sh_ncols ws) /\ typed_column datemode (cells_of ws c r0 last) out /\ length out = Z.to_nat (last + 1 - r0).
Proof.
  intros RD RC CF R0 R1 C H. cbv zeta. set (last := Z.min r1 (sh_nrows ws - 1)).
  assert (K : exists values types, col_values ws c r0 (r1 + 1) = Ok values /\ col_types ws c r0 (r1 + 1) = Ok types /\
    convert_column datemode values types = Ok out).
  { apply bind_ok in H. destruct H as (vs & V & H). apply bind_ok in H. destruct H as (ts & T & H). eauto. }
  destruct K as (vs & ts & V & T & K). clear H.
  assert (B : r0 <= last -> c < sh_ncols ws).
  { intro LE. destruct RC as (N & L & FV & FT). unfold col_values, col_part in V. cbv zeta in V.
    assert (r0 <? 0 = false) as E0 by lia. rewrite E0 in V.
    assert (X : (if sh_nrows ws <? r1 + 1 then sh_nrows ws else if r1 + 1 <? 0 then r1 + 1 + sh_nrows ws else r1 + 1) = last + 1).
    { unfold last. destruct (sh_nrows ws <? r1 + 1) eqn:E; [lia|]. assert (r1 + 1 <? 0 = false) as -> by lia. lia. }
    rewrite X in V. unfold zrange in V. destruct (Z.to_nat (last + 1 - r0)) as [|n] eqn:EN; [lia|].
    cbn [seq map mapM] in V. apply bind_ok in V. destruct V as (v & V & _).
    exact (grid_at_col _ _ _ _ _ _ FV C V). }
  split; [exact B|].
  assert (VT : vs = map fst (cells_of ws c r0 last) /\ ts = map snd (cells_of ws c r0 last) /\ Forall cell_ok (cells_of ws c r0 last)).
  { destruct (Z.leb_spec r0 last) as [LE|GT].
    - specialize (B LE). destruct (column_cells ws c r0 r1 RC (conj C B) R0 R1) as [A1 A2]. fold last in A1, A2.
      rewrite V in A1. rewrite T in A2. injection A1 as ->. injection A2 as ->.
      split; [reflexivity|]. split; [reflexivity|]. apply (cells_ok_of fit); auto; unfold last; lia.
    - assert (E : cells_of ws c r0 last = []).
      { unfold cells_of. replace (Z.to_nat (last + 1 - r0)) with 0%nat by lia. reflexivity. }
      rewrite E. cbn [map].
      assert (W : forall A (g : list (list A)) o, col_part (sh_nrows ws) g c r0 (r1 + 1) = Ok o -> o = []).
      { intros A g o. unfold col_part. cbv zeta. assert (r0 <? 0 = false) as -> by lia.
        assert (X : (if sh_nrows ws <? r1 + 1 then sh_nrows ws else if r1 + 1 <? 0 then r1 + 1 + sh_nrows ws else r1 + 1) = last + 1).
        { unfold last. destruct (sh_nrows ws <? r1 + 1) eqn:E1; [lia|]. assert (r1 + 1 <? 0 = false) as -> by lia. lia. }
        rewrite X. unfold zrange. replace (Z.to_nat (last + 1 - r0)) with 0%nat by lia. cbn. intro Q. injection Q as <-. reflexivity. }
      split; [exact (W _ _ _ V)|]. split; [exact (W _ _ _ T)|constructor]. }
  destruct VT as (-> & -> & OK).
  destruct (C45_positions_proof _ _ _ K) as [LN _]. apply (proj1 (C45_typing_proof datemode _ OK)) in K.
  split; [exact K|]. rewrite LN. unfold cells_of. rewrite map_length, seq_length. reflexivity.
Qed.

Lemma header_of ws header startref usecols names ref : rectangular ws -> 0 <= fst startref ->
  Forall (fun c => 0 <= c) usecols -> header_names ws header startref usecols = Ok (names, ref) ->
  0 <= fst ref /\ (forall ns, names = Some ns -> exists k, Forall2 (fun c v => c < sh_ncols ws /\ 0 <= k < sh_nrows ws /\ v = value_at ws k c) usecols ns \/ usecols = []).
Proof.
  intros RC R U. unfold header_names.
  assert (W : forall k ns, 0 <= k -> mapM (fun col => cell_value ws k col) usecols = Ok ns ->
    Forall2 (fun c v => c < sh_ncols ws /\ 0 <= k < sh_nrows ws /\ v = value_at ws k c) usecols ns).
  { intros k ns K H. apply mapM_ok_Forall2 in H. destruct RC as (N & L & FV & FT).
    clear - H U K N FV. revert ns H. induction U as [|c l C U IH]; intros ns H; inversion H as [|? v ? ns' V H']; subst; constructor; auto.
    unfold cell_value in V. pose proof (grid_at_col _ _ _ _ _ _ FV C V) as LC.
    assert (LK : k < sh_nrows ws).
    { unfold grid_at in V. rewrite py_index_nonneg in V by exact K. destruct (nth_error (sh_values ws) (Z.to_nat k)) eqn:E; [|discriminate].
      assert (X : nth_error (sh_values ws) (Z.to_nat k) <> None) by congruence. apply nth_error_Some in X. lia. }
    split; [exact LC|]. split; [lia|].
    rewrite (grid_at_in VNone (sh_values ws) (sh_ncols ws) k c FV) in V by lia. injection V as <-. reflexivity. }
  destruct header as [|[]| | | | | | | | | | | | |]; try (intro H; injection H as <- <-; split; [exact R|discriminate]).
  - intro H. apply bind_ok in H. destruct H as (ns & M & H). apply bind_ok in H. destruct H as (rf & C & H). injection H as <- <-.
    cbn in C. injection C as <-. cbn [fst]. split; [lia|]. intros ns' E. injection E as <-. exists (fst startref). left. apply W; assumption.
  - intro H. apply bind_ok in H. destruct H as ([nr nc] & C & H). apply bind_ok in H. destruct H as (ns & M & H). injection H as <- <-.
    apply reference_nonneg in C; [|lia|lia]. split; [exact R|]. intros ns' E. injection E as <-. exists nr. left. apply W; [tauto|exact M].
Qed.

Lemma dget_map_snd V W (f : V -> W) k : forall d : dict V, dget k (map (fun kv => (fst kv, f (snd kv))) d) = option_map f (dget k d).
Proof. induction d as [|[x v] d IH]; [reflexivity|]. cbn. destruct (k =? x); [reflexivity|exact IH]. Qed.

Lemma pack_from fit wb fname which header startcell stopcell usecols p :
  readable fit -> Forall rectangular (bk_sheets wb) -> Forall (cells_fit fit) (bk_sheets wb) ->
  sheetpack wb fname which header startcell stopcell usecols = Ok p -> pack_of wb p.
Proof.
  intros RD FR FC H. unfold sheetpack in H.
  apply bind_ok in H. destruct H as ([sr sc] & SR & H). apply bind_ok in H. destruct H as ([er0 ec0] & ER & H).
  apply bind_ok in H. destruct H as (ws & FS & H). apply found_in in FS.
  rewrite Forall_forall in FR, FC. pose proof (FR ws FS) as RC. pose proof (FC ws FS) as CF.
  apply reference_nonneg in SR; [|lia|lia]. apply reference_nonneg in ER; [|lia|lia].
  apply bind_ok in H. destruct H as ([er ec] & STOP & H).
  assert (R1 : -1 <= er).
  { destruct (no_text stopcell); [|injection STOP as <- <-; lia].
    cbn in STOP. injection STOP as <- _. destruct RC as (N & _). lia. }
  apply bind_ok in H. destruct H as (given & _ & H). apply bind_ok in H. destruct H as (cols & NU & H).
  apply C44_sorted_proof in NU.
  destruct cols as [|first more]; [discriminate|]. cbn [snd] in H.
  destruct ((first <? sc) || (ec <? last (first :: more) first)) eqn:RNG; [discriminate|].
  set (cols := first :: more) in *.
  assert (POS : Forall (fun c => 0 <= c) cols).
  { apply Forall_forall. intros c I. pose proof (sorted_bounds more first NU c I). lia. }
  apply bind_ok in H. destruct H as ([names ref] & HN & H).
  apply header_of in HN; [|exact RC|cbn [fst]; lia|exact POS]. destruct HN as [R0 NM].
  apply bind_ok in H. destruct H as (columns & CL & H). cbv zeta in H.
  unfold sheet_columns in CL. cbn [fst] in CL.
  set (r1 := Z.min er (sh_nrows ws - 1)).
  assert (COL : Forall2 (fun c out => 0 <= c /\ (fst ref <= r1 -> c < sh_ncols ws) /\
     typed_column (bk_datemode wb) (cells_of ws c (fst ref) r1) out /\ length out = Z.to_nat (r1 + 1 - fst ref)) cols columns).
  { apply mapM_ok_Forall2 in CL. clear - CL POS RD RC CF R0 R1. revert POS.
    induction CL as [|c out cs outs E _ IH]; intro P; constructor; [|apply IH; inversion P; assumption].
    inversion P as [|? ? P0 P1]; subst. split; [exact P0|]. exact (column_of fit _ _ _ _ _ _ RD RC CF R0 R1 P0 E). }
  assert (LEN : length columns = length cols) by (symmetry; eapply Forall2_len; exact COL).
  apply bind_ok in H. destruct H as (named & _ & H). apply bind_ok in H. destruct H as (chnames & CN & H).
  set (data := map (fun kv => (fst kv, np_array (snd kv))) (dict_of (zip cols columns))) in *.
  injection H as <-.
  assert (DG : forall c a, dget c data = Some a -> exists out, In (c, out) (zip cols columns) /\ a = np_array out).
  { intros c a E. unfold data in E. rewrite dget_map_snd in E. destruct (dget c (dict_of (zip cols columns))) as [o|] eqn:G; [|discriminate].
    injection E as <-. exists o. split; [|reflexivity]. apply dict_of_zip_in in G. destruct G as [G|G]; [exact G|discriminate]. }
  assert (DH : forall c, In c cols -> exists a, dget c data = Some a).
  { intros c I. destruct (dict_of_zip_has _ cols columns [] c LEN (or_introl I)) as (v & E).
    exists (np_array v). unfold data. rewrite dget_map_snd. unfold dict_of. rewrite E. reflexivity. }
  exists ws, (fst ref), r1.
  assert (PD : p_data (new_pack data chnames) = data).
  { unfold new_pack, mask_reset. cbn [fst set_fn with_fn with_files p_data].
    destruct (zsort (dkeys data)); [reflexivity|]. destruct (dget z data); reflexivity. }
  assert (PN : p_names (new_pack data chnames) = chnames).
  { unfold new_pack, mask_reset. cbn [fst set_fn with_fn with_files p_data].
    destruct (zsort (dkeys data)); [reflexivity|]. destruct (dget z data); reflexivity. }
  cbn [set_fn fst with_fn with_files p_data p_names p_mask]. rewrite PD, PN.
  split; [exact FS|]. split; [exact R0|]. split; [unfold r1; lia|].
  split. { intro E. destruct (DH first (or_introl eq_refl)) as (a & E2). rewrite E in E2. discriminate. }
  split; [|split].
  - intros c a E. destruct (DG c a E) as (out & I & ->). pose proof (Forall2_zip _ _ _ _ _ _ _ COL I) as Q. cbv beta in Q.
    destruct Q as (Q1 & Q2 & Q3 & Q4). split; [exact Q1|]. split; [exact Q2|]. exists out. split; [exact Q3 | apply array_of_np].
  - intros c v E. destruct named; [|injection CN as <-; discriminate].
    destruct names as [ns|]; [|discriminate].
    assert (EN : chnames = dict_of (zip cols ns)) by congruence. rewrite EN in E. clear EN CN.
    apply dict_of_zip_in in E. destruct E as [E|E]; [|discriminate].
    destruct (NM ns eq_refl) as (k & [F|F]); [|discriminate].
    pose proof (Forall2_zip _ _ _ _ _ _ _ F E) as Q. cbv beta in Q. destruct Q as (Q1 & Q2 & Q3).
    split; [apply DH; eapply in_zip_fst; exact E|]. split; [exact Q1|]. exists k. auto.
  - unfold new_pack, mask_reset. cbn [fst set_fn with_fn with_files p_data].
    destruct (zsort (dkeys data)) as [|k ks] eqn:ES.
    + exfalso. destruct (DH first (or_introl eq_refl)) as (a & E2).
      assert (I : In first (zsort (dkeys data))) by (apply zsort_In; apply dget_Some_In; eauto). rewrite ES in I. destruct I.
    + assert (I : In k (dkeys data)) by (apply zsort_In; rewrite ES; left; reflexivity).
      apply dget_Some_In in I. destruct I as (a & E). rewrite E.
      destruct (DG k a E) as (out & I & ->). pose proof (Forall2_zip _ _ _ _ _ _ _ COL I) as Q. cbv beta in Q.
      destruct Q as (_ & _ & _ & Q4). rewrite <- Q4.
      unfold set_mask_arr, np_self_eq, barr. cbn -[np_array]. rewrite !map_length. apply (np_array_length out).
Qed.
