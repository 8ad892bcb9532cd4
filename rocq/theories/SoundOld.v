(** * Proofs about whatever opens, BIFF 2 to 7 *)

From Coq Require Import ZArith Lia ZifyBool ZifyNat ZifyN.
From Verif Require Import PyBase PyBaseFacts PyFloat PyText NumPy Dbf Dicts Pack ReadXl XlProofs XlStruct CompDoc Sst FmtDate
  XlSheet SpecXlSheet XlSheetProofs XlSheetThms XlNames XlObjects Biff BiffOld SpecXl SpecSound SoundProofs.
Open Scope Z_scope.

(** ** Grids do not depend on formats *)

(** A call with the type it gets. *)
Definition settle (su : setup) (p : put) : put :=
  mkput (pt_row p) (pt_col p)
    (match pt_type p with Some t => Some t | None => Some (match dget (pt_xf p) (su_types su) with Some t => t | None => 0 end) end)
    (pt_value p) (pt_xf p).

Lemma settle_typed su su' p t : typed su p t -> typed su' (settle su p) t.
Proof. intro T. destruct T as [r c t v x|r c v x t D]; unfold settle; cbn; [|rewrite D]; constructor. Qed.
Lemma settle_latest su l r c : latest (map (settle su) l) r c = option_map (settle su) (latest l r c).
Proof.
  unfold latest. rewrite <- map_rev. induction (rev l) as [|p m IH]; [reflexivity|]. cbn [map find].
  unfold at_cell at 1. cbn [settle pt_row pt_col]. fold (at_cell r c p). destruct (at_cell r c p); [reflexivity|exact IH].
Qed.
Lemma steady_settle su su' l g : su_fmt su' = su_fmt su -> su_max_rows su' = su_max_rows su -> su_max_cols su' = su_max_cols su ->
  steady su l g -> steady su' (map (settle su) l) g.
Proof.
  intros E1 E2 E3 (s & SH & FF & [WT WV WX] & HR & HC & G). exists s.
  split; [destruct SH as [A B C]; constructor; rewrite ?E1; assumption|]. split; [exact FF|].
  split; [|split; [|split]].
  - constructor.
    + intros r c. specialize (WT r c). unfold shows_type in *. rewrite settle_latest. destruct (latest l _ _); cbn [option_map]; [|exact WT].
      eapply settle_typed. exact WT.
    + intros r c. specialize (WV r c). unfold shows_value in *. rewrite settle_latest. destruct (latest l _ _); exact WV.
    + rewrite E1. intros F r c. specialize (WX F r c). unfold shows_xf in *. rewrite settle_latest. destruct (latest l _ _); exact WX.
  - unfold height in *. rewrite map_map. exact HR.
  - unfold width in *. rewrite map_map. exact HC.
  - apply Forall_map. eapply Forall_impl; [|exact G]. intros p [I [t T]]. split.
    + unfold inside in *. rewrite E2, E3. exact I.
    + exists t. eapply settle_typed. exact T.
Qed.

(** ** What stays so with the book *)

Definition strict (b : obook) : Prop :=
  50 <= o_version b /\ Forall (fun k => exists ty, dget k (k_formats (o_looks b)) = Some ty) (k_xfs (o_looks b)) /\
  (k_xfs (o_looks b) <> [] -> exists ty, dget 0 (k_formats (o_looks b)) = Some ty).
Definition loose (fit : Z -> val -> Prop) : Prop := forall f, fit XL_CELL_TEXT (VFloat f).

Record fine (fit : Z -> val -> Prop) (b : obook) : Prop := {
  fi_dates : o_datemode b = 0 \/ o_datemode b = 1;
  fi_types : fits_all fit (k_types (o_looks b));
  fi_keys : loose fit \/ strict b
}.

(** From one book to another. *)
Record goes (fit : Z -> val -> Prop) (b b' : obook) : Prop := {
  go_fine : fine fit b -> fine fit b';
  go_sheets : o_sheets b' = o_sheets b;
  go_read : o_read b' = o_read b;
  go_version : o_version b < 50 <-> o_version b' < 50;
  go_names : o_version b < 50 -> f_list (o_refs b') = f_list (o_refs b)
}.

Lemma goes_refl fit b : goes fit b b.
Proof. constructor; auto. split; auto. Qed.
Lemma goes_trans fit a b c : goes fit a b -> goes fit b c -> goes fit a c.
Proof.
  intros [A1 A2 A3 A4 A5] [B1 B2 B3 B4 B5]. constructor; [auto|congruence|congruence| |].
  - rewrite A4. exact B4.
  - intro V. rewrite (B5 (proj1 A4 V)). exact (A5 V).
Qed.
Lemma goes_same fit b b' : o_datemode b' = o_datemode b -> o_looks b' = o_looks b -> o_version b' = o_version b ->
  o_sheets b' = o_sheets b -> o_read b' = o_read b -> (o_version b < 50 -> f_list (o_refs b') = f_list (o_refs b)) -> goes fit b b'.
Proof.
  intros E1 E2 E3 E4 E5 E6. constructor; [|exact E4|exact E5|rewrite E3; split; auto|exact E6].
  intros [A B C]. constructor; rewrite ?E1, ?E2; auto. destruct C as [C|C]; [left; exact C|right].
  unfold strict. rewrite E2, E3. exact C.
Qed.
Ltac same_book := apply goes_same; try reflexivity.

Lemma derived_goes fit dec b b' : derived dec b = Ok b' -> goes fit b b'.
Proof. unfold derived. intro H. apply bind_ok in H. destruct H as (c & _ & H). injection H as <-. same_book. Qed.
Lemma coded_goes fit dec b b' : coded dec b = Ok b' -> goes fit b b'.
Proof.
  unfold coded. destruct (c_set _); intro H; [injection H as <-; apply goes_refl|].
  apply bind_ok in H. destruct H as (c & _ & H). injection H as <-. same_book.
Qed.
Lemma old_codepage_goes fit dec data b b' : old_codepage dec data b = Ok b' -> goes fit b b'.
Proof.
  unfold old_codepage. cbv zeta. intro H. apply bind_ok in H. destruct H as (u & _ & H). apply (derived_goes fit) in H.
  eapply goes_trans; [|exact H]. same_book.
Qed.
Lemma old_writeaccess_goes fit dec data b b' : old_writeaccess dec data b = Ok b' -> goes fit b b'.
Proof.
  unfold old_writeaccess. cbv zeta. destruct (c_set _); intro H.
  - apply bind_ok in H. destruct H as (u & _ & H). injection H as <-. apply goes_refl.
  - injection H as <-. same_book.
Qed.
Lemma old_datemode_goes fit data b b' : old_datemode data b = Ok b' -> goes fit b b'.
Proof.
  unfold old_datemode. cbv zeta. intro H. apply bind_ok in H. destruct H as (u & _ & H).
  destruct ((u16 0 data =? 0) || (u16 0 data =? 1)) eqn:E; [|discriminate]. injection H as <-.
  constructor; [|reflexivity|reflexivity|split; auto|reflexivity]. intros [A B C]. constructor; cbn [with_datemode o_datemode o_looks]; [lia|exact B|exact C].
Qed.

Lemma dset_has k0 ty k (d : dict Z) : (exists t, dget k d = Some t) -> exists t, dget k (dset k0 ty d) = Some t.
Proof. intros H. rewrite dget_dset. destruct (k =? k0); [eauto|exact H]. Qed.
Lemma fits_all_dset fit d k t : fits_all fit d -> (forall f, fit t (VFloat f)) -> fits_all fit (dset k t d).
Proof.
  intros [W H] T. split; [exact W|]. intros k' u f E. rewrite dget_dset in E. destruct (k' =? k); [injection E as <-; apply T|exact (H _ _ _ E)].
Qed.
Lemma cellty_fit fit d ty f : fits_all fit d -> fit (cellty_of ty) (VFloat f).
Proof. intros [W _]. apply W. destruct (cellty_number ty) as [-> | ->]; constructor. Qed.

Lemma old_format_goes fit dec rc data b b' : old_format dec rc data b = Ok b' -> goes fit b b'.
Proof.
  unfold old_format. cbv zeta. intro H. apply bind_ok in H. destruct H as (b1 & C & H). apply (coded_goes fit) in C.
  apply bind_ok in H. destruct H as (key & _ & H). apply bind_ok in H. destruct H as ([fmt e] & _ & H). injection H as <-.
  eapply goes_trans; [exact C|]. constructor; [|reflexivity|reflexivity|split; auto|reflexivity]. intros [A B K].
  constructor; cbn [with_looks o_datemode o_looks k_types]; [exact A|exact B|]. destruct K as [K|(K1 & K2 & K3)]; [left; exact K|right].
  unfold strict. cbn [with_looks o_version o_looks k_formats k_xfs]. split; [exact K1|]. split.
  - eapply Forall_impl; [|exact K2]. intros k. apply dset_has.
  - intro N. apply dset_has. auto.
Qed.

Lemma old_xf_goes fit data b b' : old_xf data b = Ok b' -> goes fit b b'.
Proof.
  unfold old_xf. cbv zeta. set (formats := match k_xfs (o_looks b) with [] => _ | _ => _ end). intro H.
  apply bind_ok in H. destruct H as (key & _ & H). injection H as <-. constructor; [|reflexivity|reflexivity|split; auto|reflexivity]. intros [A B K].
  constructor; cbn [with_looks o_datemode o_looks k_types]; [exact A| |].
  - apply fits_all_dset; [exact B|]. intro f. destruct (dget key formats); [eapply cellty_fit; exact B|]. destruct B as [W _]. apply W. constructor.
  - destruct K as [K|(K1 & K2 & K3)]; [left; exact K|right]. unfold strict. cbn [with_looks o_version o_looks k_formats k_xfs].
    split; [exact K1|].
    assert (Z0 : exists ty, dget 0 formats = Some ty).
    { unfold formats. destruct (k_xfs (o_looks b)) eqn:E; [replace (50 <=? o_version b) with true by lia; apply fill_in_zero|]. apply K3. discriminate. }
    split; [|intros _; exact Z0]. apply Forall_app. split.
    + unfold formats. destruct (k_xfs (o_looks b)); [constructor|exact K2].
    + constructor; [|constructor]. destruct (dmem key formats) eqn:E; [|exact Z0].
      unfold dmem in E. destruct (dget key formats) eqn:G; [eauto|discriminate].
Qed.

Lemma epilogue_fits fit formats : loose fit -> forall keys i types, fits_all fit types -> fits_all fit (epilogue_types i keys formats types).
Proof.
  intro L. induction keys as [|k keys IH]; intros i types T; cbn [epilogue_types]; [exact T|]. apply IH. apply fits_all_dset; [exact T|].
  intro f. destruct (dget k formats); [eapply cellty_fit; exact T|apply L].
Qed.
Lemma epilogue_fits_keys fit formats : forall keys i types, Forall (fun k => exists ty, dget k formats = Some ty) keys ->
  fits_all fit types -> fits_all fit (epilogue_types i keys formats types).
Proof.
  induction keys as [|k keys IH]; intros i types K T; cbn [epilogue_types]; [exact T|]. apply IH; [exact (Forall_inv_tail K)|].
  apply fits_all_dset; [exact T|]. intro f. destruct (Forall_inv K) as [ty ->]. eapply cellty_fit. exact T.
Qed.
Lemma old_epilogue_goes fit b : goes fit b (old_epilogue b).
Proof.
  constructor; [|reflexivity|reflexivity|split; auto|reflexivity]. intros [A B K]. constructor; cbn [old_epilogue with_looks o_datemode o_looks k_types]; [exact A| |exact K].
  destruct K as [K|(_ & K & _)]; [apply epilogue_fits|apply epilogue_fits_keys]; assumption.
Qed.

(** ** XFs of BIFF2 *)

(** Below BIFF5 there is nothing about the keys to keep. *)
Lemma early_fine fit b b' : o_datemode b' = o_datemode b -> o_version b < 50 ->
  (fits_all fit (k_types (o_looks b)) -> fits_all fit (k_types (o_looks b'))) -> fine fit b -> fine fit b'.
Proof.
  intros E V T [A B K]. constructor; [rewrite E; exact A|auto|]. left. destruct K as [K|[K _]]; [exact K|lia].
Qed.

Lemma ok_inj {A} (a b : A) : Ok a = Ok b -> a = b.
Proof. congruence. Qed.
Lemma insert_goes fit attr st : o_version (s_book st) < 50 ->
  goes fit (s_book st) (s_book (snd (insert_xf attr st))) /\ s_reading (snd (insert_xf attr st)) = s_reading st.
Proof.
  intro V. split; [|reflexivity]. unfold insert_xf. cbv zeta. cbn [snd s_book]. set (b := s_book st) in *. set (key := Z.land _ _).
  set (formats := if dmem key (k_formats (o_looks b)) then _ else _).
  constructor; [|reflexivity|reflexivity|split; auto|reflexivity]. apply early_fine; [reflexivity|exact V|]. cbn [with_looks o_looks k_types].
  intro B. apply fits_all_dset; [exact B|]. intro f. destruct (dget key formats); [eapply cellty_fit; exact B|]. destruct B as [W _]. apply W. constructor.
Qed.
Lemma styles_goes fit : forall n st, o_version (s_book st) < 50 ->
  goes fit (s_book st) (s_book (insert_styles n st)) /\ s_reading (insert_styles n st) = s_reading st.
Proof.
  induction n as [|n IH]; intros st V; cbn [insert_styles]; [split; [apply goes_refl|reflexivity]|].
  destruct (insert_goes fit [64; 0; 0]%N st V) as [G R].
  destruct (IH (snd (insert_xf [64; 0; 0]%N st)) (proj1 (go_version _ _ _ G) V)) as [G2 R2].
  split; [eapply goes_trans; eassumption|congruence].
Qed.
Lemma fixed_goes fit attr st xf st' : o_version (s_book st) < 50 -> fixed_xf attr st = Ok (xf, st') ->
  goes fit (s_book st) (s_book st') /\ s_reading st' = s_reading st.
Proof.
  intro V. unfold fixed_xf. cbv zeta. destruct (k_xfs (o_looks (s_book st))) eqn:EX.
  - set (st1 := with_book _ st).
    assert (G1 : goes fit (s_book st) (s_book st1) /\ s_reading st1 = s_reading st).
    { split; [|reflexivity]. constructor; [|reflexivity|reflexivity| |reflexivity].
      - apply early_fine; [reflexivity|exact V|auto].
      - cbn. destruct (_ =? 21); lia. }
    destruct G1 as [G1 R1]. pose proof (proj1 (go_version _ _ _ G1) V) as V1.
    destruct (negb _); [discriminate|]. destruct (attr_xf _ _); [intro H; injection H as _ <-; split; assumption|].
    intro H. destruct (styles_goes fit 16 st1 V1) as [G2 R2]. pose proof (proj1 (go_version _ _ _ G2) V1) as V2.
    destruct (insert_goes fit attr (insert_styles 16 st1) V2) as [G3 R3].
    apply ok_inj in H. rewrite H in G3, R3. cbn [snd] in G3, R3.
    split; [|congruence]. eapply goes_trans; [exact G1|]. eapply goes_trans; eassumption.
  - destruct (_ =? 21).
    + destruct (_ =? 63); [destruct (s_ixfe st); [|discriminate]|]; intro H; injection H as _ <-; (split; [apply goes_refl|reflexivity]).
    + destruct (negb _); [discriminate|]. destruct (attr_xf _ _); [intro H; injection H as _ <-; split; [apply goes_refl|reflexivity]|].
      intro H. apply ok_inj in H. destruct (insert_goes fit attr st V) as [G R]. rewrite H in G, R. split; assumption.
Qed.

(** ** One record of a sheet *)

Definition old_cells (fit : Z -> val -> Prop) (recs : list (Z * str)) (g g' : grid) : Prop :=
  exists b ps, fine fit b /\ put_all (old_setup b) ps g = (g', Ok tt) /\ Forall (fitting fit (old_setup b)) ps /\ Forall placed ps /\
    (ps <> [] -> exists c d, In (c, d) recs /\ In c early_codes).
Definition old_step (fit : Z -> val -> Prop) (mem : str) (pos : Z) (st : osheet) (pos' : Z) (st' : osheet) : Prop :=
  goes fit (s_book st) (s_book st') /\
  exists recs, moves mem pos pos' recs /\
    (old_cells fit recs (r_grid (s_reading st)) (r_grid (s_reading st')) \/
     forgotten recs (r_grid (s_reading st)) (r_grid (s_reading st'))).

Lemma old_cells_none fit recs b g : fine fit b -> old_cells fit recs g g.
Proof. intro F. exists b, []. split; [exact F|]. split; [reflexivity|]. split; [constructor|]. split; [constructor|]. congruence. Qed.

Lemma old_put_step fit mem pos pos' recs p st st' : fine fit (s_book st) -> old_put p st = Ok st' -> fitting fit (old_setup (s_book st)) p ->
  placed p -> moves mem pos pos' recs -> (exists c d, In (c, d) recs /\ In c early_codes) -> old_step fit mem pos st pos' st'.
Proof.
  intros F H FP P M C. unfold old_put in H. apply bind_ok in H. destruct H as (r & H & E). injection E as <-.
  split; [apply goes_refl|]. exists recs. split; [exact M|]. left. apply put1_grid in H.
  exists (s_book st), [p]. split; [exact F|]. cbn [put_all with_reading s_reading]. rewrite H.
  split; [reflexivity|]. split; [constructor; [exact FP|constructor]|]. split; [constructor; [exact P|constructor]|]. auto.
Qed.
(** The same when the book changes first. *)
Lemma old_step_book fit mem pos pos' st st1 st' : goes fit (s_book st) (s_book st1) -> s_reading st1 = s_reading st ->
  old_step fit mem pos st1 pos' st' -> old_step fit mem pos st pos' st'.
Proof.
  intros G R (G2 & recs & M & C). split; [eapply goes_trans; eassumption|]. exists recs. split; [exact M|]. rewrite R in C. exact C.
Qed.
Lemma old_step_same fit mem pos pos' recs st st' : fine fit (s_book st) -> goes fit (s_book st) (s_book st') -> s_reading st' = s_reading st ->
  moves mem pos pos' recs -> old_step fit mem pos st pos' st'.
Proof.
  intros F G R M. split; [exact G|]. exists recs. split; [exact M|]. left. rewrite R. eapply old_cells_none. exact F.
Qed.

Lemma old_contents_passes dec page mem : forall fuel raw expected found pos acc s pos',
  old_contents fuel dec page mem raw expected found pos acc = Ok (s, pos') -> passes mem pos pos'.
Proof.
  induction fuel as [|fuel IH]; intros raw expected found pos acc s pos'; cbn [old_contents]; cbv zeta;
    (destruct (dec page raw); [|discriminate]); cbn [bind];
    (destruct (_ =? _); [intro E; injection E as _ <-; apply passes_refl|]); (destruct (_ <? _); [discriminate|]); [discriminate|].
  destruct (get_record mem pos) as [[[[rc len] d2] next]|] eqn:G; [|discriminate]. cbn [bind].
  destruct (Z.eqb_spec rc 0x3c) as [->|]; cbn [negb]; [|discriminate].
  intro E. apply IH in E. apply (passes_trans mem pos next pos'); [passing G|exact E].
Qed.
Lemma old_formula_string_passes fit dec mem pos b s pos' b' : old_formula_string dec mem pos b = Ok (s, pos', b') ->
  passes mem pos pos' /\ goes fit b b'.
Proof.
  unfold old_formula_string. destruct (get_record mem pos) as [[[[rc len] d1] next]|] eqn:G; [|discriminate]. cbn [bind].
  intro H. apply bind_ok in H. destruct H as ([d2 p2] & H & K). cbv zeta in K.
  apply bind_ok in K. destruct K as (_ & _ & K). apply bind_ok in K. destruct K as (b1 & CD & K).
  apply bind_ok in K. destruct K as ([s1 p3] & K & E). injection E as <- <- <-. apply old_contents_passes in K.
  split; [|exact (coded_goes fit _ _ _ CD)].
  apply (passes_trans mem pos p2 p3); [|exact K]. clear K.
  destruct ((rc =? 0x207) || (rc =? 0x7)) eqn:E.
  - injection H as _ <-. assert (X : rc = 0x207 \/ rc = 0x7) by lia. destruct X as [-> | ->]; passing G.
  - apply bind_ok in H. destruct H as (u & A & H).
    destruct (get_record mem next) as [[[[rc2 len2] d3] next2]|] eqn:G2; [|discriminate]. cbn [bind] in H.
    destruct ((rc2 =? 0x207) || (rc2 =? 0x7)) eqn:E2; [|discriminate]. injection H as _ <-.
    apply (passes_trans mem pos next next2).
    + destruct (Z.eqb_spec rc 0x221) as [->|]; [passing G|].
      destruct (Z.eqb_spec rc 0x4bc) as [->|]; [passing G|].
      destruct (((rc =? 0x236) || (rc =? 0x37) || (rc =? 0x21) || (rc =? 0x36))) eqn:E3; [|discriminate].
      assert (X : rc = 0x236 \/ rc = 0x37 \/ rc = 0x21 \/ rc = 0x36) by lia.
      destruct X as [-> |[-> |[-> | ->]]]; passing G.
    + assert (X : rc2 = 0x207 \/ rc2 = 0x7) by lia. destruct X as [-> | ->]; passing G2.
Qed.
Lemma old_note_passes mem : forall fuel expected acc pos r pos', old_note fuel mem expected acc pos = Ok (r, pos') -> passes mem pos pos'.
Proof.
  induction fuel as [|fuel IH]; intros expected acc pos r pos'; cbn [old_note]; cbv zeta;
    (destruct (_ <=? 0); [destruct (_ =? 0); [|discriminate]; intro H; injection H as _ <-; apply passes_refl|]); [discriminate|].
  destruct (get_record mem pos) as [[[[rc len] d2] next]|] eqn:G; [|discriminate]. cbn [bind].
  destruct (Z.eqb_spec rc 0x1c) as [->|]; cbn [negb]; [|discriminate].
  intro H. apply bind_ok in H. destruct H as (u & _ & H). destruct (negb _); [discriminate|]. destruct (negb _); [discriminate|].
  apply IH in H. apply (passes_trans mem pos next pos'); [passing G|exact H].
Qed.

Lemma old_formula_step fit dec bv mem data pos pos0 rc st st' pos' : fine fit (s_book st) -> (bv < 50 <-> o_version (s_book st) < 50) ->
  In rc early_codes -> moves mem pos0 pos [(rc, data)] -> old_formula dec bv mem data pos st = Ok (st', pos') ->
  old_step fit mem pos0 st pos' st'.
Proof.
  intros F V I M. unfold old_formula. cbv zeta. intro H. apply bind_ok in H. destruct H as (u & _ & H).
  apply bind_ok in H. destruct H as ([xf st1] & X & H).
  assert (G : goes fit (s_book st) (s_book st1) /\ s_reading st1 = s_reading st).
  { destruct (30 <=? bv) eqn:E; [injection X as _ <-; split; [apply goes_refl|reflexivity]|].
    assert (V1 : o_version (s_book st) < 50) by lia. exact (fixed_goes fit _ _ _ _ V1 X). }
  destruct G as [G R]. apply (old_step_book fit mem pos0 pos' st st1 st' G R). pose proof (go_fine _ _ _ G F) as F1. clear X G R F V.
  assert (PL : forall t v x, placed (mkput (u16 0 data) (u16 2 data) t v x)).
  { intros. split; apply le_value_pos. }
  assert (CC : exists c d, In (c, d) [(rc, data)] /\ In c early_codes) by (exists rc, data; split; [left; reflexivity|exact I]).
  assert (ONE : forall p, fitting fit (old_setup (s_book st1)) p -> placed p -> (do st <- old_put p st1; Ok (st, pos)) = Ok (st', pos') ->
    old_step fit mem pos0 st1 pos' st').
  { intros p FP P K. apply bind_ok in K. destruct K as (s1 & K & E). injection E as -> ->.
    exact (old_put_step fit mem pos0 pos' [(rc, data)] p st1 st' F1 K FP P M CC). }
  pose proof (fi_types _ _ F1) as T.
  destruct (str_eqb _ _).
  - destruct (_ =? 0).
    + apply bind_ok in H. destruct H as ([[s p1] b1] & S & H). apply bind_ok in H. destruct H as (st2 & P & E). injection E as -> ->.
      apply (old_formula_string_passes fit) in S. destruct S as [(recs & S & _) GB].
      apply (old_step_book fit mem pos0 pos' st1 (with_book b1 st1) st' GB eq_refl).
      pose proof (go_fine _ _ _ GB F1) as F2.
      refine (old_put_step fit mem pos0 pos' ([(rc, data)] ++ recs) _ (with_book b1 st1) st' F2 P _ (PL _ _ _) (moves_app _ _ _ _ _ _ M S) _).
      * apply fitting_given; [exact (fi_types _ _ F2)|constructor].
      * exists rc, data. split; [left; reflexivity|exact I].
    + destruct (_ =? 1); [apply (ONE _ (fitting_given fit (old_setup (s_book st1)) _ _ _ _ _ T (fits_truth _)) (PL _ _ _) H)|].
      destruct (_ =? 2); [apply (ONE _ (fitting_given fit (old_setup (s_book st1)) _ _ _ _ _ T (fits_error _)) (PL _ _ _) H)|].
      destruct (_ =? 3); [apply (ONE _ (fitting_given fit (old_setup (s_book st1)) _ _ _ _ _ T (fits_text _)) (PL _ _ _) H)|discriminate].
  - apply bind_ok in H. destruct H as (d & _ & H).
    apply (ONE _ (fitting_float fit (old_setup (s_book st1)) _ _ _ _ T) (PL _ _ _) H).
Qed.

Lemma put_b2_step fit mem pos pos' recs data ty v st st' : fine fit (s_book st) -> o_version (s_book st) < 50 -> put_b2 data ty v st = Ok st' ->
  (match ty with Some t => fits t v | None => exists f, v = VFloat f end) ->
  moves mem pos pos' recs -> (exists c d, In (c, d) recs /\ In c early_codes) -> old_step fit mem pos st pos' st'.
Proof.
  intros F V H FV M C. unfold put_b2 in H. apply bind_ok in H. destruct H as ([xf st1] & X & H).
  destruct (fixed_goes fit _ _ _ _ V X) as [G R]. apply (old_step_book fit mem pos pos' st st1 st' G R). pose proof (go_fine _ _ _ G F) as F1.
  apply (old_put_step fit mem pos pos' recs _ st1 st' F1 H); [|split; apply le_value_pos|exact M|exact C].
  destruct ty as [t|]; [apply fitting_given; [exact (fi_types _ _ F1)|exact FV]|]. destruct FV as [f ->]. apply fitting_float. exact (fi_types _ _ F1).
Qed.

Lemma early_record_step fit dec rc len data pos pos0 mem st st' r : fine fit (s_book st) -> o_version (s_book st) < 50 ->
  moves mem pos0 pos [(rc, data)] -> early_record dec rc len data st = Some r -> r = Ok st' -> old_step fit mem pos0 st pos st'.
Proof.
  intros F V M H E. subst r. revert H. unfold early_record. cbv zeta. set (b := s_book st) in *.
  assert (BK : forall r, Some (do b0 <- r; Ok (with_book b0 st)) = Some (Ok st') -> (forall b', r = Ok b' -> goes fit b b') -> old_step fit mem pos0 st pos st').
  { intros r H G. assert (H' : (do b0 <- r; Ok (with_book b0 st)) = Ok st') by congruence. apply bind_ok in H'.
    destruct H' as (b0 & H' & E). injection E as <-. apply (old_step_same fit mem pos0 pos [(rc, data)]); [exact F|apply G; exact H'|reflexivity|exact M]. }
  assert (SAME : forall s1, s_book s1 = b -> s_reading s1 = s_reading st -> Some (Ok s1) = Some (Ok st') -> old_step fit mem pos0 st pos st').
  { intros s1 E1 E2 H. injection H as <-. apply (old_step_same fit mem pos0 pos [(rc, data)]); [exact F|fold b; rewrite E1; apply goes_refl|exact E2|exact M]. }
  assert (CC : In rc early_codes -> exists c d, In (c, d) [(rc, data)] /\ In c early_codes).
  { intro I. exists rc, data. split; [left; reflexivity|exact I]. }
  destruct ((rc =? 0x41e) || (rc =? 0x1e)); [intro H; apply (BK _ H); intros b'; apply old_format_goes|].
  destruct ((rc =? 0x31) || (rc =? 0x231) || (rc =? 0x92) || (rc =? 0x45)); [apply SAME; reflexivity|].
  destruct (rc =? 0x293).
  { intro H; apply (BK _ H); intros b' E. injection E as <-. destruct (k_done _); [apply goes_refl|apply old_epilogue_goes]. }
  destruct (rc =? 0x56); [intro H; injection H as H; apply bind_ok in H; destruct H as (u & _ & H); apply (SAME st eq_refl eq_refl); congruence|].
  destruct ((rc =? 0x443) || (rc =? 0x243) || (rc =? 0x43)); [intro H; apply (BK _ H); intros b'; apply old_xf_goes|].
  destruct (rc =? 0x22); [intro H; apply (BK _ H); intros b'; apply old_datemode_goes|].
  destruct (rc =? 0x42); [intro H; apply (BK _ H); intros b'; apply old_codepage_goes|].
  destruct (rc =? 0x2f); [discriminate|].
  destruct (rc =? 0x5c); [intro H; apply (BK _ H); intros b'; apply old_writeaccess_goes|].
  destruct (rc =? 0x44).
  { intro H; injection H as H; apply bind_ok in H; destruct H as (u & _ & H). apply ok_inj in H. apply (SAME st'); [rewrite <- H; reflexivity|rewrite <- H; reflexivity|reflexivity]. }
  destruct (rc =? 0x3) eqn:E3.
  { intro H; injection H as H; apply bind_ok in H; destruct H as (u & _ & H). apply bind_ok in H; destruct H as (d & _ & H).
    apply (put_b2_step fit mem pos0 pos [(rc, data)] data None (VFloat d) st st' F V H); [eauto|exact M|apply CC; cbn; lia]. }
  destruct (rc =? 0x2) eqn:E2.
  { intro H; injection H as H; apply bind_ok in H; destruct H as (u & _ & H).
    apply (put_b2_step fit mem pos0 pos [(rc, data)] _ _ _ st st' F V H); [eauto|exact M|apply CC; cbn; lia]. }
  destruct (rc =? 0x4) eqn:E4.
  { intro H; injection H as H; apply bind_ok in H; destruct H as (u & _ & H). apply bind_ok in H; destruct H as (b1 & CD & H).
    apply bind_ok in H; destruct H as ([s e] & _ & H). apply (coded_goes fit) in CD.
    apply (old_step_book fit mem pos0 pos st (with_book b1 st) st' CD eq_refl).
    apply (put_b2_step fit mem pos0 pos [(rc, data)] _ _ _ (with_book b1 st) st' (go_fine _ _ _ CD F) (proj1 (go_version _ _ _ CD) V) H); [constructor|exact M|apply CC; cbn; lia]. }
  destruct (rc =? 0x5) eqn:E5.
  { intro H; injection H as H; apply bind_ok in H; destruct H as (u & _ & H).
    destruct (_ =? 0); [|destruct (_ =? 1); [|discriminate]];
      (apply (put_b2_step fit mem pos0 pos [(rc, data)] _ _ _ st st' F V H); [constructor|exact M|apply CC; cbn; lia]). }
  destruct ((rc =? 0x1) || (rc =? 0x8) || (rc =? 0x24) || (rc =? 0x20)); [apply SAME; reflexivity|].
  destruct (rc =? 0x3e); [|discriminate].
  intro H; injection H as H; apply bind_ok in H; destruct H as (u & _ & H). apply bind_ok in H; destruct H as (u2 & _ & H). apply (SAME st eq_refl eq_refl); congruence.
Qed.

Lemma cells_put_early fit b recs g g' : fine fit b -> cells_put fit (old_setup b) recs g g' -> old_cells fit recs g g'.
Proof.
  intros F (ps & A & B & C & D). exists b, ps. split; [exact F|]. split; [exact A|]. split; [exact B|]. split; [exact C|].
  intro N. destruct (D N) as (c & d & I & J). exists c, d. split; [exact I|]. unfold early_codes. apply in_or_app. right. exact J.
Qed.

Lemma old_record_step fit dec bv mem rc len data pos pos0 st st' pos' : fine fit (s_book st) -> (bv < 50 <-> o_version (s_book st) < 50) ->
  record_at mem pos0 rc data pos -> (len = 0 -> data = []) -> rc <> end_code ->
  old_record dec bv mem rc len data pos st = Ok (st', pos') -> old_step fit mem pos0 st pos' st'.
Proof.
  intros F V RA L0 NE. unfold old_record. cbv zeta. set (b := s_book st) in *.
  assert (PL : forall t v x, placed (mkput (u16 0 data) (u16 2 data) t v x)).
  { intros. split; apply le_value_pos. }
  assert (MV : existsb (Z.eqb rc) begin_codes = false -> moves mem pos0 pos [(rc, data)]).
  { intro B. apply (moves_one mem pos0 rc data pos RA NE). apply not_in_by. exact B. }
  assert (CC : In rc early_codes -> exists c d, In (c, d) [(rc, data)] /\ In c early_codes).
  { intro I. exists rc, data. split; [left; reflexivity|exact I]. }
  assert (TEXT : forall b1 s, In rc early_codes -> existsb (Z.eqb rc) begin_codes = false -> goes fit b b1 ->
    (do st <- old_put (mkput (u16 0 data) (u16 2 data) (Some XL_CELL_TEXT) (VStr s) (u16 4 data)) (with_book b1 st); Ok (st, pos)) = Ok (st', pos') ->
    old_step fit mem pos0 st pos' st').
  { intros b1 s I B G K. apply bind_ok in K. destruct K as (s1 & K & E). injection E as -> ->.
    apply (old_step_book fit mem pos0 pos' st (with_book b1 st) st' G eq_refl). pose proof (go_fine _ _ _ G F) as F1.
    refine (old_put_step fit mem pos0 pos' [(rc, data)] _ (with_book b1 st) st' F1 K _ (PL _ _ _) (MV B) (CC I)).
    apply fitting_given; [exact (fi_types _ _ F1)|constructor]. }
  assert (SAME : forall s1 p1, existsb (Z.eqb rc) begin_codes = false -> goes fit b (s_book s1) -> s_reading s1 = s_reading st -> p1 = pos ->
    Ok (s1, p1) = Ok (st', pos') -> old_step fit mem pos0 st pos' st').
  { intros s1 p1 B G R -> H. injection H as <- <-. apply (old_step_same fit mem pos0 pos [(rc, data)]); [exact F|exact G|exact R|apply MV; exact B]. }
  destruct (Z.eqb_spec rc 0x204) as [->|N1].
  { intro H. apply bind_ok in H. destruct H as (u & _ & H). apply bind_ok in H. destruct H as (b1 & CD & H).
    apply bind_ok in H. destruct H as ([s e] & _ & H). apply (TEXT b1 s); [cbn; lia|reflexivity|exact (coded_goes fit _ _ _ CD)|exact H]. }
  destruct (Z.eqb_spec rc 0xd6) as [->|N2].
  { intro H. apply bind_ok in H. destruct H as (u & _ & H). apply bind_ok in H. destruct H as (b1 & CD & H).
    apply bind_ok in H. destruct H as ([s e] & _ & H). apply bind_ok in H. destruct H as (nrt & _ & H). apply bind_ok in H. destruct H as (p & _ & H).
    destruct (negb _); [discriminate|]. apply (TEXT b1 s); [cbn; lia|reflexivity|exact (coded_goes fit _ _ _ CD)|exact H]. }
  destruct ((rc =? 0x6) || (rc =? 0x406) || (rc =? 0x206)) eqn:E7.
  { apply (old_formula_step fit dec bv mem data pos pos0 rc st st' pos' F V); [cbn; lia|]. apply MV. cbn. lia. }
  destruct ((rc =? 0x200) || (rc =? 0x0)) eqn:E10.
  { assert (B : existsb (Z.eqb rc) begin_codes = false) by (cbn; lia).
    destruct (len =? 0) eqn:EL; [apply SAME; [exact B|apply goes_refl|reflexivity|reflexivity]|].
    intro H. apply bind_ok in H. destruct H as (u & K & H). injection H as <- <-. split.
    - destruct (_ && _); [apply old_epilogue_goes|apply goes_refl].
    - exists [(rc, data)]. split; [apply MV; exact B|]. right. split; [|destruct (_ && _); reflexivity].
      exists rc, data. split; [left; reflexivity|]. split; [cbn; lia|].
      intros ->. rewrite bytes_of_nil in K. discriminate. }
  destruct ((rc =? 0x5d) || (rc =? 0x1b6)) eqn:E11; [apply SAME; [cbn; lia|apply goes_refl|reflexivity|reflexivity]|].
  destruct (Z.eqb_spec rc 0x1c) as [->|N3].
  { intro H. apply bind_ok in H. destruct H as ([b1 p1] & H & K). injection K as <- <-. unfold old_handle_note in H. cbv zeta in H.
    apply bind_ok in H. destruct H as (u & _ & H). destruct (negb _); [discriminate|]. apply bind_ok in H. destruct H as ([raw p2] & NT & H).
    apply bind_ok in H. destruct H as (b2 & CD & H). apply bind_ok in H. destruct H as (t & _ & H). injection H as <- <-.
    apply old_note_passes in NT. destruct NT as (recs & NT & _).
    apply (old_step_same fit mem pos0 p2 ([(0x1c, data)] ++ recs)); [exact F|exact (coded_goes fit _ _ _ CD)|reflexivity|].
    eapply moves_app; [apply MV; reflexivity|exact NT]. }
  destruct (Z.eqb_spec rc 0x23e) as [->|N4].
  { destruct (bv <? 30); [discriminate|]. intro H. apply bind_ok in H. destruct H as (u & _ & H). apply bind_ok in H. destruct H as (u2 & _ & H).
    eapply SAME; [reflexivity|apply goes_refl| |reflexivity|exact H]. reflexivity. }
  destruct (if bv <=? 45 then _ else None) as [r|] eqn:ER.
  - intro H. destruct r as [s1|e]; [|discriminate]. cbn [bind] in H. injection H as <- <-.
    destruct (bv <=? 45) eqn:BV; [|discriminate].
    destruct (existsb (Z.eqb rc) begin_codes) eqn:B.
    + exfalso. assert (X : rc = 0x809 \/ rc = 0x409 \/ rc = 0x209 \/ rc = 0x9) by (cbn in B; lia).
      destruct X as [-> |[-> |[-> | ->]]]; discriminate ER.
    + exact (early_record_step fit dec rc len data pos pos0 mem st s1 _ F ltac:(fold b; lia) (MV eq_refl) ER eq_refl).
  - intro H. apply bind_ok in H. destruct H as ([r p1] & H & K). injection K as <- <-.
    destruct (sheet_record_step fit (old_setup b) mem (o_strings b) rc len data pos pos0 _ _ _ (fi_types _ _ F) RA L0 NE H) as (recs & M & [C|C]).
    + split; [apply goes_refl|]. exists recs. split; [exact M|]. left. apply (cells_put_early fit b); assumption.
    + split; [apply goes_refl|]. exists recs. split; [exact M|]. right. exact C.
Qed.

(** ** Sheets *)

Lemma old_steady_any b b' l g : steady (old_setup b) l g -> exists l', steady (old_setup b') l' g /\ (l = [] -> l' = []).
Proof.
  intro S. exists (map (settle (old_setup b)) l). split; [apply (steady_settle (old_setup b)); [reflexivity|reflexivity|reflexivity|exact S]|].
  intros ->. reflexivity.
Qed.

Lemma old_loop_sound (fit : Z -> val -> Prop) dec bv mem : fit XL_CELL_EMPTY empty_value -> forall fuel pos st st', fine fit (s_book st) ->
  (bv < 50 <-> o_version (s_book st) < 50) -> old_loop fuel dec bv mem pos st = Ok st' ->
  goes fit (s_book st) (s_book st') /\
  (paired fit (r_grid (s_reading st)) -> paired fit (r_grid (s_reading st'))) /\
  exists recs, sheet_records mem pos recs /\
    (~ late_among early_codes recs -> forall b l, steady (old_setup b) l (r_grid (s_reading st)) -> (l = [] \/ ~ nonempty_dimension recs) ->
     exists b' l', steady (old_setup b') l' (r_grid (s_reading st'))).
Proof.
  intro EM. induction fuel as [|fuel IH]; intros pos st st' F V H; cbn [old_loop] in H; [discriminate|].
  destruct (get_record mem pos) as [[[[rc len] data] next]|] eqn:G; [|discriminate]. cbn [bind] in H.
  apply get_record_at in G. destruct G as [G L0].
  destruct (Z.eqb_spec rc 0x0a) as [->|N].
  { injection H as <-. split; [apply goes_refl|]. split; [auto|]. exists []. split; [eapply sr_end; exact G|]. intros _ b l S _. exists b, l. exact S. }
  apply bind_ok in H. destruct H as ([st1 pos1] & K & H).
  destruct (old_record_step fit dec bv mem rc len data next pos st st1 pos1 F V G L0 N K) as (GO & recs & M & C).
  assert (V1 : bv < 50 <-> o_version (s_book st1) < 50) by (rewrite V; exact (go_version _ _ _ GO)).
  destruct (IH _ _ _ (go_fine _ _ _ GO F) V1 H) as (GO1 & P1 & rest & R & IHs).
  split; [eapply goes_trans; eassumption|]. split.
  { intro P. apply P1. destruct C as [(b & ps & FB & E & FT & _)|(_ & E)].
    - exact (put_all_paired fit (old_setup b) ps EM eq_refl FT _ _ _ P E).
    - rewrite E. apply forget_paired. exact P. }
  exists (recs ++ rest). split; [apply M; exact R|].
  intros NL b0 l S LN.
  assert (NL' : ~ late_among early_codes rest).
  { intros (a & b & k & cell & d & code & E & A). apply NL.
    exists (recs ++ a), b, k, cell, d, code. split; [rewrite E, app_assoc; reflexivity|].
    destruct A as (A1 & A2 & A3 & A4). rewrite in_app_iff. auto. }
  assert (AFTER : (exists c d, In (c, d) recs /\ In c early_codes) -> ~ nonempty_dimension rest).
  { intros (c & d & C1 & C2) (k & d2 & D1 & D2 & D3). apply NL. apply in_split in D1. destruct D1 as (a & b & ->).
    exists (recs ++ a), b, k, d, d2, c. split; [rewrite app_assoc; reflexivity|]. rewrite in_app_iff. auto. }
  destruct C as [(b & ps & FB & E & FT & P & W)|(D & E)].
  - destruct (old_steady_any b0 b l _ S) as (l1 & S1 & L1).
    apply (IHs NL' b (l1 ++ ps)); [apply (put_all_steady (old_setup b) ps eq_refl P l1 (r_grid (s_reading st))); assumption|].
    destruct ps as [|p ps].
    + rewrite app_nil_r. destruct LN as [->|LN]; [left; apply L1; reflexivity|]. right. intros (k & d & D1 & D2). apply LN.
      exists k, d. rewrite in_app_iff. auto.
    + right. apply AFTER. apply W. discriminate.
  - destruct LN as [->|LN].
    + apply (IHs NL' b0 []); [|left; reflexivity]. rewrite E.
      destruct S as (s & SH & FF & SW & HR & HC & GP). replace (forget (r_grid (s_reading st))) with (r_grid (s_reading st)).
      * exists s. auto 10.
      * unfold forget. change (height []) with 0 in HR. change (width []) with 0 in HC.
        destruct (r_grid (s_reading st)); cbn in *. congruence.
    + exfalso. apply LN. destruct D as (k & d & D1 & D2). exists k, d. rewrite in_app_iff. auto.
Qed.

Lemma fine_countries (fit : Z -> val -> Prop) c b : fine fit b -> fine fit (with_countries c b).
Proof. intros [A B C]. constructor; assumption. Qed.

Lemma old_sheet_sound (fit : Z -> val -> Prop) dec mem pos b sh b' : fit XL_CELL_EMPTY empty_value -> fine fit b -> old_sheet dec mem pos b = Ok (sh, b') ->
  goes fit b b' /\ cells_fit fit sh /\ (dimensions_among early_codes mem -> rectangular sh).
Proof.
  intros EM F H. unfold old_sheet in H. apply bind_ok in H. destruct H as ([v p] & B & H). apply bind_ok in H. destruct H as (st & R & H).
  cbv zeta in H. apply getbof_begins in B.
  destruct (tidy _ [] (r_grid (s_reading st))) as [g [u|e]] eqn:E; [|discriminate]. injection H as <- <-. destruct u.
  match type of R with old_loop _ _ _ _ _ ?s0 = _ =>
    destruct (old_loop_sound fit dec (o_version b) mem EM _ _ s0 _ F ltac:(cbn; split; auto) R) as (GO & P & recs & SR & ST) end.
  cbn [s_book s_reading r_grid] in GO, P, ST. split; [|split].
  - eapply goes_trans; [exact GO|]. apply goes_same; reflexivity.
  - apply (tidy_pair fit (old_setup (with_countries (r_countries (s_reading st)) (s_book st))) [] (r_grid (s_reading st)) g (Ok tt) EM eq_refl); [|exact E]. apply P. constructor.
  - intro D. destruct (ST (D p recs B SR) b [] (new_steady _) (or_introl eq_refl)) as (b1 & l & S1).
    destruct (old_steady_any b1 (with_countries (r_countries (s_reading st)) (s_book st)) l _ S1) as (l2 & S2 & _).
    exact (tidy_rectangular (old_setup (with_countries (r_countries (s_reading st)) (s_book st))) l2 [] (r_grid (s_reading st)) g eq_refl S2 E).
Qed.

Lemma old_sheets_sound (fit : Z -> val -> Prop) dec mem : fit XL_CELL_EMPTY empty_value -> forall l b shs b', fine fit b -> old_sheets dec mem l b = Ok (shs, b') ->
  goes fit b b' /\ length shs = length l /\ Forall (cells_fit fit) shs /\ (dimensions_among early_codes mem -> Forall rectangular shs).
Proof.
  intros EM. induction l as [|[n pos] l IH]; intros b shs b' F H; cbn [old_sheets] in H.
  - injection H as <- <-. split; [apply goes_refl|]. repeat split; constructor.
  - apply bind_ok in H. destruct H as ([sh b1] & S & H). apply bind_ok in H. destruct H as ([rest b2] & R & H). injection H as <- <-.
    destruct (old_sheet_sound fit dec mem pos b sh b1 EM F S) as (G1 & C1 & D1).
    destruct (IH b1 rest b2 (go_fine _ _ _ G1 F) R) as (G2 & L2 & C2 & D2).
    split; [eapply goes_trans; eassumption|]. split; [cbn; lia|]. split; [constructor; assumption|]. intro D. constructor; auto.
Qed.

(** ** Globals *)

(** With what has been read by SHEETHDR records. *)
Record held (fit : Z -> val -> Prop) (mem : str) (b : obook) : Prop := {
  he_fine : fine fit b;
  he_count : (length (o_read b) <= length (o_sheets b))%nat;
  he_cells : Forall (cells_fit fit) (o_read b);
  he_shape : dimensions_among early_codes mem -> Forall rectangular (o_read b)
}.

Lemma goes_held (fit : Z -> val -> Prop) mem b b' : goes fit b b' -> held fit mem b -> held fit mem b'.
Proof. intros [A B C D _] [E F G I]. constructor; rewrite ?C, ?B; auto. Qed.

Lemma old_boundsheet_held (fit : Z -> val -> Prop) mem dec base data b b' : old_boundsheet dec base data b = Ok b' -> held fit mem b -> held fit mem b'.
Proof.
  unfold old_boundsheet. intros H HB. apply bind_ok in H. destruct H as (b1 & D & H).
  pose proof (goes_held fit mem b b1 (derived_goes fit _ _ _ D) HB) as [F C CE SH]. clear HB D. cbv zeta in H.
  assert (ADD : forall x b2, goes fit b1 b2 -> held fit mem (with_sheets (o_sheets b1 ++ [x]) b2)).
  { intros x b2 G. pose proof (goes_held fit mem b1 b2 G ltac:(constructor; assumption)) as [F2 C2 CE2 SH2].
    constructor; [destruct F2; constructor; assumption| |exact CE2|exact SH2]. cbn [with_sheets o_sheets o_read]. rewrite (go_read _ _ _ G), app_length. lia. }
  assert (MP : forall i, goes fit b1 (mapped i b1)) by (intro i; apply goes_same; reflexivity).
  destruct (_ =? 45).
  - apply bind_ok in H. destruct H as ([name e] & _ & H). apply bind_ok in H. destruct H as (place & _ & H). apply ok_inj in H. subst b'. apply ADD, goes_refl.
  - apply bind_ok in H. destruct H as (u & _ & H). apply bind_ok in H. destruct H as ([name e] & _ & H).
    destruct (_ =? 0); apply ok_inj in H; subst b'; [apply ADD, MP|apply (goes_held fit mem b1); [apply MP|constructor; assumption]].
Qed.

Lemma new_looks_fine (fit : Z -> val -> Prop) b : (forall t v, fits t v -> fit t v) -> (loose fit \/ 50 <= o_version b) -> (o_datemode b = 0 \/ o_datemode b = 1) ->
  fine fit (with_looks new_looks b).
Proof.
  intros W L D. constructor; [exact D| |].
  - split; [exact W|]. intros k t f E. apply W. cbn in E. destruct (k =? 0); [injection E as <-; constructor|discriminate].
  - destruct L as [L|L]; [left; exact L|right]. split; [exact L|]. split; [constructor|]. intro N. contradiction N. reflexivity.
Qed.

Lemma old_sheethdr_held (fit : Z -> val -> Prop) dec mem data pos b b' pos' : fit XL_CELL_EMPTY empty_value -> old_sheethdr dec mem data pos b = Ok (b', pos') ->
  held fit mem b -> held fit mem b'.
Proof.
  intros EM. unfold old_sheethdr. intros H HB. apply bind_ok in H. destruct H as (b1 & D & H).
  pose proof (goes_held fit mem b b1 (derived_goes fit _ _ _ D) HB) as [F C CE SH]. clear HB D.
  apply bind_ok in H. destruct H as (u & _ & H). apply bind_ok in H. destruct H as ([name e] & _ & H).
  destruct (nth_error (o_sheets b1) (length (o_read b1))) as [[name' place]|] eqn:N; [|discriminate].
  destruct (negb _); [discriminate|]. apply bind_ok in H. destruct H as ([sh b2] & S & H). injection H as <- _.
  assert (F1 : fine fit (with_looks new_looks b1)).
  { destruct F as [A B K]. apply new_looks_fine; [exact (proj1 B)| |exact A]. destruct K as [K|[K _]]; auto. }
  destruct (old_sheet_sound fit dec mem pos _ sh b2 EM F1 S) as (G & CS & DS).
  pose proof (go_sheets _ _ _ G) as ES. pose proof (go_read _ _ _ G) as ER. cbn [with_looks o_sheets o_read] in ES, ER.
  pose proof (go_fine _ _ _ G F1) as F2. clear F G F1.
  assert (L : (length (o_read b1) < length (o_sheets b1))%nat) by (apply nth_error_Some; congruence).
  constructor; cbn [with_read o_read o_sheets].
  - destruct F2; constructor; assumption.
  - rewrite app_length, ES, ER. cbn. lia.
  - rewrite ER. apply Forall_app. split; [exact CE|]. constructor; [exact CS|constructor].
  - intro DA. rewrite ER. apply Forall_app. split; [apply SH; exact DA|]. constructor; [apply DS; exact DA|constructor].
Qed.

Lemma old_globals_record_held (fit : Z -> val -> Prop) dec mem base rc data pos b b' pos' : fit XL_CELL_EMPTY empty_value ->
  old_globals_record dec mem base rc data pos b = Ok (b', pos') -> held fit mem b ->
  held fit mem b' /\ (o_version b < 50 <-> o_version b' < 50).
Proof.
  intros EM H HB. revert H. unfold old_globals_record. cbv zeta.
  assert (KEEP : forall r, (do b <- r; Ok (b, pos)) = Ok (b', pos') -> (forall x, r = Ok x -> goes fit b x) ->
    held fit mem b' /\ (o_version b < 50 <-> o_version b' < 50)).
  { intros r H G. apply bind_ok in H. destruct H as (x & H & E). injection E as -> _. specialize (G _ H).
    split; [exact (goes_held _ _ _ _ G HB)|exact (go_version _ _ _ G)]. }
  assert (SAME : forall x p, Ok (x, p) = Ok (b', pos') -> goes fit b x -> held fit mem b' /\ (o_version b < 50 <-> o_version b' < 50)).
  { intros x p H G. injection H as -> _. split; [exact (goes_held _ _ _ _ G HB)|exact (go_version _ _ _ G)]. }
  destruct (_ =? _). { intro H. apply bind_ok in H. destruct H as ([g p] & _ & H). apply (SAME _ _ H). apply goes_same; reflexivity. }
  destruct (_ =? _). { intro H. apply (KEEP _ H). intro x. apply old_format_goes. }
  destruct (_ =? _). { intro H. apply (KEEP _ H). intro x. apply old_xf_goes. }
  destruct (_ =? _).
  { intro H. apply bind_ok in H. destruct H as (x & H & E). injection E as -> _.
    split; [exact (old_boundsheet_held fit mem _ _ _ _ _ H HB)|].
    unfold old_boundsheet in H. apply bind_ok in H. destruct H as (b1 & D & H). rewrite (go_version _ _ _ (derived_goes fit _ _ _ D)).
    cbv zeta in H. destruct (_ =? 45).
    - apply bind_ok in H. destruct H as ([name e] & _ & H). apply bind_ok in H. destruct H as (place & _ & H). apply ok_inj in H. subst b'. split; auto.
    - apply bind_ok in H. destruct H as (u & _ & H). apply bind_ok in H. destruct H as ([name e] & _ & H).
      destruct (_ =? 0); apply ok_inj in H; subst b'; split; auto. }
  destruct (_ =? _). { intro H. apply (KEEP _ H). intro x. apply old_datemode_goes. }
  destruct (_ =? _). { intro H. apply (KEEP _ H). intro x. apply old_codepage_goes. }
  destruct (_ =? _). { intro H. apply bind_ok in H. destruct H as (c & _ & H). apply (SAME _ _ H). apply goes_same; reflexivity. }
  destruct (_ =? _).
  { intro H. apply (KEEP _ H). intros x X. unfold old_externsheet in X. apply bind_ok in X. destruct X as (b1 & D & X).
    apply bind_ok in X. destruct X as (u & _ & X). apply (derived_goes fit) in D. cbv zeta in X.
    apply bind_ok in X. destruct X as (t & _ & X). apply ok_inj in X. subst x. eapply goes_trans; [exact D|]. apply goes_same; reflexivity. }
  destruct (_ =? _); [discriminate|].
  destruct (_ =? _). { intro H. apply (KEEP _ H). intro x. apply old_writeaccess_goes. }
  destruct (_ =? _). { intro H. apply bind_ok in H. destruct H as (u & _ & H). apply (SAME _ _ H). apply goes_same; reflexivity. }
  destruct (_ =? _).
  { intro H. split; [exact (old_sheethdr_held fit dec mem data pos b b' pos' EM H HB)|].
    unfold old_sheethdr in H. apply bind_ok in H. destruct H as (b1 & D & H). apply (derived_goes fit) in D. rewrite (go_version _ _ _ D).
    pose proof (go_fine _ _ _ D (he_fine _ _ _ HB)) as F.
    apply bind_ok in H. destruct H as (u & _ & H). apply bind_ok in H. destruct H as ([name e] & _ & H).
    destruct (nth_error _ _) as [[name' place]|]; [|discriminate]. destruct (negb _); [discriminate|].
    apply bind_ok in H. destruct H as ([sh b2] & S & H). injection H as <- _.
    assert (F1 : fine fit (with_looks new_looks b1)).
    { destruct F as [A B K]. apply new_looks_fine; [exact (proj1 B)| |exact A]. destruct K as [K|[K _]]; auto. }
    destruct (old_sheet_sound fit dec mem pos _ sh b2 EM F1 S) as (G & _). exact (go_version _ _ _ G). }
  destruct (_ =? _). { intro H. apply bind_ok in H. destruct H as (u & _ & H). apply (SAME _ _ H). apply goes_refl. }
  destruct (_ =? _).
  { intro H. apply (KEEP _ H). intros x X. unfold old_name in X. destruct (_ <? 50) eqn:V50; [apply ok_inj in X; subst x; apply goes_refl|].
    apply bind_ok in X. destruct X as (b1 & D & X). apply bind_ok in X. destruct X as (n & _ & X). cbv zeta in X. apply ok_inj in X. subst x.
    apply (derived_goes fit) in D. eapply goes_trans; [exact D|]. apply goes_same; try reflexivity.
    intro X. apply (proj2 (go_version _ _ _ D)) in X. lia. }
  intro H. apply (SAME _ _ H). apply goes_refl.
Qed.

Lemma old_globals_held (fit : Z -> val -> Prop) dec mem base : fit XL_CELL_EMPTY empty_value -> forall fuel pos b b',
  old_globals fuel dec mem base pos b = Ok b' -> held fit mem b -> held fit mem b'.
Proof.
  intro EM. induction fuel as [|fuel IH]; intros pos b b' H HB; cbn [old_globals] in H; [discriminate|].
  apply bind_ok in H. destruct H as ([[[rc len] data] next] & _ & H). destruct (rc =? 0x0a).
  - cbv zeta in H. apply bind_ok in H. destruct H as (nm & _ & H). apply (coded_goes fit) in H. eapply goes_held; [exact H|]. eapply goes_held; [apply old_epilogue_goes|exact HB].
  - apply bind_ok in H. destruct H as ([b1 p1] & K & H). apply (IH _ _ _ H).
    exact (proj1 (old_globals_record_held fit dec mem base rc data next b b1 p1 EM K HB)).
Qed.

Lemma new_obook_fine (fit : Z -> val -> Prop) version : (forall t v, fits t v -> fit t v) -> (loose fit \/ 50 <= version) -> fine fit (new_obook version).
Proof. intros W L. apply (new_looks_fine fit (new_obook version)); [exact W|exact L|left; reflexivity]. Qed.

(** What opens, below BIFF8. *)
Lemma open_old_sound (fit : Z -> val -> Prop) dec version mem base pos wb : (forall t v, fits t v -> fit t v) -> (loose fit \/ 50 <= version) ->
  open_old dec version mem base pos = Ok wb ->
  (bk_datemode wb = 0 \/ bk_datemode wb = 1) /\ Forall (cells_fit fit) (bk_sheets wb) /\
  (length (bk_sheets wb) <= length (bk_names wb))%nat /\ (version <> 45 -> length (bk_names wb) = length (bk_sheets wb)) /\
  (dimensions_among early_codes mem -> Forall rectangular (bk_sheets wb)).
Proof.
  intros W L H. pose proof (W _ _ fits_empty) as EM. pose proof (new_obook_fine fit version W L) as F. unfold open_old in H.
  destruct (version <=? 40).
  - apply bind_ok in H. destruct H as ([sh b] & S & H). apply ok_inj in H. subst wb.
    destruct (old_sheet_sound fit dec mem 0 _ sh b EM F S) as (G & C & D). cbn [bk_datemode bk_sheets bk_names].
    split; [exact (fi_dates _ _ (go_fine _ _ _ G F))|]. split; [constructor; [exact C|constructor]|]. split; [cbn; lia|].
    split; [reflexivity|]. intro DA. constructor; [exact (D DA)|constructor].
  - apply bind_ok in H. destruct H as (b & G & H). apply (old_globals_held fit) in G; [|exact EM|].
    2: { constructor; [exact F|cbn; lia|constructor|intros _; constructor]. }
    destruct (Z.eqb_spec version 45) as [->|N].
    + apply ok_inj in H. subst wb. destruct G as [GF GC GE GS]. cbn [bk_datemode bk_sheets bk_names].
      split; [exact (fi_dates _ _ GF)|]. split; [exact GE|]. split; [rewrite map_length; exact GC|]. split; [congruence|exact GS].
    + apply bind_ok in H. destruct H as ([shs b1] & S & H). apply ok_inj in H. subst wb.
      destruct (old_sheets_sound fit dec mem EM _ _ _ _ (he_fine _ _ _ G) S) as (GO & LS & C & D). cbn [bk_datemode bk_sheets bk_names].
      assert (LN : length (map fst (o_sheets b1)) = length shs) by (rewrite map_length, (go_sheets _ _ _ GO); congruence).
      split; [exact (fi_dates _ _ (go_fine _ _ _ GO (he_fine _ _ _ G)))|]. split; [exact C|]. split; [rewrite LN; constructor|]. split; [intros _; exact LN|exact D].
Qed.
