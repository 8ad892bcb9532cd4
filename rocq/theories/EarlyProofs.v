(** * Lemmas about BiffOld.v for BIFF 2 to 4 *)

From Coq Require Import ZifyBool ZifyNat ZifyN.
From Verif Require XlNames SpecNames NamesProofs XlObjects SpecObjects ObjectsProofs.
From Verif Require Import PyBase PyBaseFacts PyFloat PyText NumPy Dbf SpecDbf DbfProofs Dicts Pack ReadXl XlStruct CompDoc SpecCompDoc
  CompDocProofs SpecSst Sst SstProofs SstThms SpecDoc DocProofs FmtDate FmtDateThms SpecXl XlSheet SpecXlSheet XlSheetProofs
  XlSheetThms SpecFmtDate Biff SpecBiff BiffProofs BiffOld SpecOld OldProofs SpecEarly.
Open Scope nat_scope.
Open Scope Z_scope.

(** ** Cells with a type do not depend on the XFs *)

Definition setup0 : setup := mksetup false false [] 16384 256.
Lemma put_typed b r c t v xf xf' g :
  put_cell (old_setup b) r c (Some t) v xf g = put_cell setup0 r c (Some t) v xf' g.
Proof. reflexivity. Qed.
Lemma put_all_typed b : forall l g, Forall (fun p => pt_type p <> None) l -> put_all (old_setup b) l g = put_all setup0 l g.
Proof.
  induction l as [|[r c [t|] v xf] l IH]; intros g H; [reflexivity| |].
  - cbn [put_all pt_row pt_col pt_type pt_value pt_xf]. rewrite (put_typed b r c t v xf xf).
    destruct (put_cell setup0 r c (Some t) v xf g) as [g1 [u|e]]; [|reflexivity]. apply IH. exact (Forall_inv_tail H).
  - pose proof (Forall_inv H) as K. cbn in K. congruence.
Qed.
Lemma tidy_setup b m g : tidy (old_setup b) m g = tidy setup0 m g.
Proof. reflexivity. Qed.

Lemma land63 n : 0 <= n -> Z.land n 0x3f = n mod 64.
Proof. intro H. change 0x3f with (Z.ones 6). rewrite Z.land_ones by lia. reflexivity. Qed.

(** ** What is known after some entries *)

Definition fmt_type (t : str) : Z := if is_date_format_string t then FDT else FGE.
Definition date_key (L : list entry) (key : Z) : bool :=
  (0 <=? key) && match nth_error (fmts L) (Z.to_nat key) with Some t => is_date_format_string t | None => false end.
Lemma date_key_tells L : tells L (date_key L).
Proof.
  intro key. unfold date_key. rewrite andb_true_iff. split.
  - intros [P Q]. split; [lia|]. destruct (nth_error (fmts L) (Z.to_nat key)) as [t|]; [|discriminate Q]. exists t. rewrite <- date_text_iff. auto.
  - intros (P & t & E & Q). rewrite E. rewrite date_text_iff. split; [lia|exact Q].
Qed.
Definition key_type (L : list entry) (key : Z) : Z := if date_key L key then XL_CELL_DATE else XL_CELL_NUMBER.
Definition faked (l : list entry) : bool :=
  existsb is_cell2 l && match keys 2 l with [] => true | _ => false end.

Definition wide (version : Z) : Z := if version =? 45 then 45 else 10 * version.
Record early (dec : decoder) (version : Z) (L l : list entry) (st : osheet) : Prop := mkearly {
  ea_version : o_version (s_book st) = if version =? 2 then (if faked l then 20 else 21) else wide version;
  ea_datemode : o_datemode (s_book st) = date_mode l;
  ea_coding : coding_ok dec (infos L) (infos l) (o_coding (s_book st));
  ea_strings : o_strings (s_book st) = [];
  ea_count : k_count (o_looks (s_book st)) = Z.of_nat (length (fmts l));
  ea_formats : forall key, 0 <= key -> dget key (k_formats (o_looks (s_book st))) =
      match nth_error (fmts l) (Z.to_nat key) with
      | Some t => Some (fmt_type t)
      | None => if faked l then dget key (k_formats (o_looks (s_book st))) else None
      end;
  ea_fake : faked l = true -> version = 2 /\ k_xfs (o_looks (s_book st)) <> [] /\
      (forall key, 0 <= key -> nth_error (fmts l) (Z.to_nat key) = None ->
         dget key (k_formats (o_looks (s_book st))) = None \/ dget key (k_formats (o_looks (s_book st))) = Some 0) /\
      forall a x, In (a, x) (s_attrs st) -> 0 <= x < Z.of_nat (length (k_xfs (o_looks (s_book st)))) /\
        dget x (k_types (o_looks (s_book st))) = Some (key_type L (attr_byte a 1));
  ea_real : faked l = false -> s_attrs st = [] /\ k_xfs (o_looks (s_book st)) = keys version l /\
      typed_xfs (fun xf => date_key L (nth (Z.to_nat xf) (keys version l) 0)) (Z.of_nat (length (keys version l))) (old_setup (s_book st));
  ea_keys : Forall (fun key => 0 <= key < Z.of_nat (length (fmts l))) (keys version l);
  ea_cells : version <> 2 -> existsb is_cell2 l = false;
  ea_chosen : s_ixfe st = chosen l;
  ea_full : existsb is_cell2 l = true -> fmts l = fmts L;
  ea_ixfe : forall x, chosen l = Some x -> 0 <= x
}.

Lemma infos_snoc l e : infos (l ++ [e]) = infos l ++ match e with Info g => [g] | _ => [] end.
Proof. unfold infos. rewrite flat_map_app. cbn [flat_map]. rewrite app_nil_r. reflexivity. Qed.
Lemma fmts_snoc l e : fmts (l ++ [e]) = fmts l ++ match e with Fmt _ _ _ t _ => [t] | _ => [] end.
Proof. unfold fmts. rewrite flat_map_app. cbn [flat_map]. rewrite app_nil_r. reflexivity. Qed.
Lemma keys_snoc v l e : keys v (l ++ [e]) = keys v l ++ match e with Attr _ _ key _ => [attr_key v key] | _ => [] end.
Proof. unfold keys. rewrite flat_map_app. cbn [flat_map]. rewrite app_nil_r. reflexivity. Qed.
Lemma chosen_snoc l e : chosen (l ++ [e]) = match e with Chosen x => Some x | _ => chosen l end.
Proof. unfold chosen. rewrite fold_left_app. reflexivity. Qed.
Lemma mode_snoc l e : date_mode (l ++ [e]) = match e with Info (SpecOld.Datemode n _) => n | _ => date_mode l end.
Proof. unfold date_mode. rewrite fold_left_app. reflexivity. Qed.
Lemma cell2_snoc l e : existsb is_cell2 (l ++ [e]) = existsb is_cell2 l || is_cell2 e.
Proof. rewrite existsb_app. cbn [existsb]. rewrite orb_false_r. reflexivity. Qed.
Lemma keys_none v v' l : keys v l = [] -> keys v' l = [].
Proof.
  induction l as [|e l IH]; [reflexivity|]. destruct e; unfold keys; cbn [flat_map app]; try exact IH. discriminate.
Qed.

(** An entry that says nothing. *)
Definition dumb (e : entry) : Prop :=
  match e with Info (SpecOld.Datemode _ _) | Fmt _ _ _ _ _ | Attr _ _ _ _ | Chosen _ | Cell2 _ _ _ _ => False | _ => True end.
Lemma dumb_faked l e : dumb e -> faked (l ++ [e]) = faked l.
Proof.
  intro D. unfold faked. rewrite cell2_snoc, keys_snoc. destruct e; try contradiction D; cbn [is_cell2]; rewrite ?orb_false_r, app_nil_r; reflexivity.
Qed.
(** The reading and the encoding of the book are of no matter. *)
Lemma early_dumb dec version L l e st r c : early dec version L l st -> dumb e -> coding_ok dec (infos L) (infos (l ++ [e])) c ->
  early dec version L (l ++ [e]) (with_book (with_coding c (s_book st)) (with_reading r st)).
Proof.
  intros [H1 H2 H3 H4 H5 H6 H7 H8 H9 H10 H11 H12 H13] D K.
  assert (EF : fmts (l ++ [e]) = fmts l) by (rewrite fmts_snoc; destruct e; try contradiction D; apply app_nil_r).
  assert (EK : keys version (l ++ [e]) = keys version l) by (rewrite keys_snoc; destruct e; try contradiction D; apply app_nil_r).
  assert (EC : chosen (l ++ [e]) = chosen l) by (rewrite chosen_snoc; destruct e; try contradiction D; reflexivity).
  assert (EM : date_mode (l ++ [e]) = date_mode l) by (rewrite mode_snoc; destruct e as [[]| | | | | | |]; try contradiction D; reflexivity).
  assert (EX : existsb is_cell2 (l ++ [e]) = existsb is_cell2 l) by (rewrite cell2_snoc; destruct e; try contradiction D; apply orb_false_r).
  constructor; rewrite ?(dumb_faked l e D), ?EF, ?EK, ?EC, ?EM, ?EX; assumption.
Qed.
Lemma coding_neutral dec L l e c : (forall g, e <> Info g) -> coding_ok dec (infos L) (infos l) c -> coding_ok dec (infos L) (infos (l ++ [e])) c.
Proof. intros N K. rewrite infos_snoc. destruct e; try (rewrite app_nil_r; exact K). destruct (N g eq_refl). Qed.
Lemma coding_kept dec L l b b' : coding_ok dec L l (o_coding b) -> kept dec (page_of l) b b' ->
  coding_ok dec L l (o_coding b') /\ b' = with_coding (o_coding b') b.
Proof.
  intros K (c & -> & _ & H). cbn [with_coding o_coding]. split; [|reflexivity]. destruct H as [->|H]; [exact K|].
  rewrite (old_derive_ok dec L l _ K) in H. injection H as <-. eapply coding_set. exact K.
Qed.

(** The last steps of the XFs change nothing. *)
Lemma epilogue_get x : forall ks i formats types, 0 <= i ->
  dget x (epilogue_types i ks formats types) =
  if (i <=? x) && (x <? i + Z.of_nat (length ks))
  then Some (match dget (nth (Z.to_nat (x - i)) ks 0) formats with Some ty => cellty_of ty | None => XL_CELL_TEXT end)
  else dget x types.
Proof.
  induction ks as [|k ks IH]; intros i formats types P; cbn [epilogue_types length].
  - replace ((i <=? x) && (x <? i + Z.of_nat 0)) with false by lia. reflexivity.
  - cbv zeta. rewrite IH by lia. rewrite dget_dset.
    destruct (Z.eqb_spec x i) as [->|NE].
    + replace ((i + 1 <=? i) && _) with false by lia. replace ((i <=? i) && (i <? i + Z.of_nat (S (length ks)))) with true by lia.
      rewrite Z.sub_diag. reflexivity.
    + destruct ((i + 1 <=? x) && (x <? i + 1 + Z.of_nat (length ks))) eqn:E.
      * replace ((i <=? x) && (x <? i + Z.of_nat (S (length ks)))) with true by lia.
        replace (Z.to_nat (x - i)) with (S (Z.to_nat (x - (i + 1)))) by lia. reflexivity.
      * replace ((i <=? x) && (x <? i + Z.of_nat (S (length ks)))) with false by lia. reflexivity.
Qed.
Lemma fmt_cellty L l key : (exists after, L = l ++ after) -> 0 <= key < Z.of_nat (length (fmts l)) ->
  exists t, nth_error (fmts l) (Z.to_nat key) = Some t /\ cellty_of (fmt_type t) = key_type L key.
Proof.
  intros [after ->] K. destruct (nth_error (fmts l) (Z.to_nat key)) as [t|] eqn:E; [|apply nth_error_None in E; lia].
  exists t. split; [reflexivity|]. unfold key_type, date_key, fmts. rewrite flat_map_app. fold (fmts l) (fmts after).
  rewrite nth_error_app1 by (apply nth_error_Some; congruence). rewrite E. replace (0 <=? key) with true by lia. cbn [andb].
  unfold fmt_type, cellty_of. destruct (is_date_format_string t); reflexivity.
Qed.
Lemma early_epilogue dec version L l st : (exists after, L = l ++ after) -> early dec version L l st -> faked l = false ->
  early dec version L l (with_book (old_epilogue (s_book st)) st).
Proof.
  intros A [H1 H2 H3 H4 H5 H6 H7 H8 H9 H10 H11 H12 H13] NF.
  constructor; try assumption; [congruence|]. intro F. destruct (H8 F) as (A1 & A2 & T). split; [exact A1|]. split; [exact A2|].
  intros xf X. cbn [with_book s_book old_epilogue with_looks o_looks old_setup su_types k_types].
  rewrite epilogue_get by lia. rewrite A2. replace ((0 <=? xf) && (xf <? 0 + Z.of_nat (length (keys version l)))) with true by lia.
  rewrite Z.sub_0_r. set (k := nth (Z.to_nat xf) (keys version l) 0).
  assert (K : 0 <= k < Z.of_nat (length (fmts l))).
  { rewrite Forall_forall in H9. apply H9. apply nth_In. lia. }
  destruct (fmt_cellty L l k A K) as (t & E & C). rewrite (H6 k) by lia. rewrite E, C. reflexivity.
Qed.

(** ** Steps *)

Definition estep (dec : decoder) (version : Z) (country : Z * Z) (mem : str) (L l : list entry) (e : entry) (pos : Z) (st : osheet) (g : grid)
  (l2 : list item) : Prop :=
  exists st', early dec version L (l ++ [e]) st' /\ r_grid (s_reading st') = g /\ countries_ok country (r_countries (s_reading st')) /\
    anchored (r_link (s_reading st')) l2 /\
    forall f, old_loop (S f) dec (if version =? 2 then 21 else wide version) mem pos st
            = old_loop f dec (if version =? 2 then 21 else wide version) mem (pos + size (entry_bytes e)) st'.

(** A record that only [early_record] reads. *)
Lemma early_step dec version mem pos code data tail st st' : In version [2; 3; 4; 45] -> word16 code -> short data ->
  from mem pos (record code data ++ tail) -> In code SpecEarly.early_codes ->
  early_record dec code (size data) data st = Some (Ok st') ->
  forall f, old_loop (S f) dec (if version =? 2 then 21 else wide version) mem pos st
          = old_loop f dec (if version =? 2 then 21 else wide version) mem (pos + size (record code data)) st'.
Proof.
  intros V W S F I E. rewrite record_size, Z.add_assoc. apply (ostep dec _ mem pos code data tail); try assumption.
  { cbn [In SpecEarly.early_codes] in I. lia. }
  unfold old_record. cbv zeta.
  repeat match goal with |- (if ?c then _ else _) = _ => replace c with false by (cbn [In SpecEarly.early_codes] in I; lia) end.
  replace ((if version =? 2 then 21 else wide version) <=? 45) with true by (destruct V as [<-|[<-|[<-|[<-|[]]]]]; reflexivity).
  rewrite E. reflexivity.
Qed.

Lemma info_ok dec version country mem L l g after pos rest st grid0 l2 : In version [2; 3; 4; 45] -> early dec version L l st -> L = l ++ Info g :: after ->
  good_entry dec country version L l (Info g) -> from mem pos (entry_bytes (Info g) ++ rest) ->
  countries_ok country (r_countries (s_reading st)) -> r_grid (s_reading st) = grid0 -> anchored (r_link (s_reading st)) l2 ->
  estep dec version country mem L l (Info g) pos st grid0 l2.
Proof.
  intros V EA EL [IG G] F C RG A. cbn [entry_bytes] in *. pose proof (ea_coding _ _ _ _ _ EA) as KC.
  assert (GI : In g (infos L)) by (rewrite EL; unfold infos; rewrite flat_map_app; apply in_or_app; right; cbn [flat_map]; left; reflexivity).
  destruct g as [offset vis kind raw name extra|key raw fmt extra|font key more|m extra|c extra|x y extra|total table|raw extra|n kind more|nd|code data];
    try contradiction IG; cbn [good_global global_bytes] in *.
  - destruct G as (M & S). set (data := le_bytes 2 m ++ extra) in *.
    assert (SD : short data).
    { unfold short, data in *. rewrite !size_app in *. rewrite size_bytes. change (size (repeat 0%N 2)) with 2 in S. lia. }
    exists (with_book (with_datemode m (s_book st)) st). split; [|split; [exact RG|split; [exact C|split; [exact A|]]]].
    + destruct EA as [H1 H2 H3 H4 H5 H6 H7 H8 H9 H10 H11 H12 H13].
      assert (FK : faked (l ++ [Info (SpecOld.Datemode m extra)]) = faked l) by (unfold faked; rewrite cell2_snoc, keys_snoc, app_nil_r, orb_false_r; reflexivity).
      constructor; rewrite ?FK, ?fmts_snoc, ?keys_snoc, ?chosen_snoc, ?cell2_snoc, ?mode_snoc, ?infos_snoc, ?app_nil_r, ?orb_false_r; try assumption; [reflexivity|].
      apply coding_other; [discriminate|exact H3].
    + apply (early_step dec version mem pos 0x22 data rest); try assumption; [unfold word16; lia|cbn; lia|].
      unfold early_record. cbn [Z.eqb Pos.eqb orb]. cbv zeta. unfold old_datemode. change (sized 2 (bytes_at 0 2 data)) with (@Ok unit tt). cbn [bind].
      unfold data. rewrite u16_first by (unfold word16; lia). cbv zeta. replace ((m =? 0) || (m =? 1)) with true by lia. reflexivity.
  - destruct G as (U & S). set (data := le_bytes 2 c ++ extra) in *.
    assert (SD : short data).
    { unfold short, data in *. rewrite !size_app in *. rewrite size_bytes. change (size (repeat 0%N 2)) with 2 in S. lia. }
    assert (W : word16 c). { unfold word16. cbn [In usual] in U. lia. }
    assert (PS : page_of (infos l ++ [SpecOld.Codepage c extra]) = Some c) by (unfold page_of; rewrite fold_left_app; reflexivity).
    assert (CK : coding_ok dec (infos L) (infos l ++ [SpecOld.Codepage c extra]) (mkcoding (Some c) (c_set (o_coding (s_book st))) (c_user (o_coding (s_book st))))).
    { destruct KC as (_ & _ & _ & KU). unfold coding_ok. cbn [c_page c_user]. split; [symmetry; exact PS|]. split; [intros p [= <-]; exact U|].
      split; [right; exists c, extra; split; [reflexivity|exact GI]|exact KU]. }
    eexists (with_book (with_coding _ (s_book st)) (with_reading (s_reading st) st)). split; [apply early_dumb; [exact EA|exact I|rewrite infos_snoc; eapply coding_set; exact CK]|].
    split; [exact RG|split; [exact C|split; [exact A|]]].
    apply (early_step dec version mem pos 0x42 data rest); try assumption; [unfold word16; lia|cbn; lia|].
    unfold early_record. cbn [Z.eqb Pos.eqb orb]. cbv zeta. unfold old_codepage. change (sized 2 (bytes_at 0 2 data)) with (@Ok unit tt). cbn [bind].
    unfold data at 1. rewrite u16_first by exact W. cbv zeta. unfold derived. cbn [with_coding o_coding]. rewrite (old_derive_ok _ _ _ _ CK). reflexivity.
  - destruct G as (D & SR & S). set (data := coded_text 1 raw ++ extra) in *.
    assert (SD : short data).
    { unfold short, data, coded_text in *. rewrite !size_app in *. rewrite size_bytes. change (size (repeat 0%N 1)) with 1 in S. lia. }
    assert (Q : exists c, old_writeaccess dec data (s_book st) = Ok (with_coding c (s_book st)) /\ coding_ok dec (infos L) (infos l) c).
    { unfold old_writeaccess. cbv zeta. destruct (c_set (o_coding (s_book st))) eqn:CS.
      - exists (o_coding (s_book st)). destruct (D (c_page (o_coding (s_book st)))) as [t D']; [destruct KC as (_ & _ & UP & _); exact UP|].
        unfold data. rewrite (user_ok _ _ _ _ _ D' SR). cbn [bind]. split; [destruct (s_book st); reflexivity|exact KC].
      - eexists. split; [reflexivity|]. destruct KC as (P & U & UP & _). unfold coding_ok. cbn [c_page c_user]. repeat (split; [assumption|]).
        intros u [= <-]. exists raw, extra. split; [reflexivity|]. split; [exact SR|exact D]. }
    destruct Q as (c & Q & CK).
    exists (with_book (with_coding c (s_book st)) (with_reading (s_reading st) st)). split; [apply early_dumb; [exact EA|exact I|rewrite infos_snoc; apply coding_other; [discriminate|exact CK]]|].
    split; [exact RG|split; [exact C|split; [exact A|]]].
    apply (early_step dec version mem pos 0x5c data rest); try assumption; [unfold word16; lia|cbn; lia|].
    unfold early_record. cbn [Z.eqb Pos.eqb orb]. cbv zeta. rewrite Q. reflexivity.
Qed.

Lemma fmt_ok dec version country mem L l code head raw fmt extra after pos rest st grid0 l2 : In version [2; 3; 4; 45] -> early dec version L l st ->
  L = l ++ Fmt code head raw fmt extra :: after ->
  good_entry dec country version L l (Fmt code head raw fmt extra) -> from mem pos (entry_bytes (Fmt code head raw fmt extra) ++ rest) ->
  countries_ok country (r_countries (s_reading st)) -> r_grid (s_reading st) = grid0 -> anchored (r_link (s_reading st)) l2 ->
  estep dec version country mem L l (Fmt code head raw fmt extra) pos st grid0 l2.
Proof.
  intros V EA EL (HD & D & SR & S) F C RG A. cbn [entry_bytes] in *. pose proof (ea_coding _ _ _ _ _ EA) as KC.
  destruct (coding_coded dec (infos L) (infos l) (s_book st) KC) as (c & CD & CK & PG).
  assert (NC : existsb is_cell2 l = false).
  { destruct (existsb is_cell2 l) eqn:X; [|reflexivity]. pose proof (ea_full _ _ _ _ _ EA X) as Y. rewrite EL in Y. unfold fmts in Y at 2. rewrite flat_map_app in Y.
    cbn [flat_map app] in Y. fold (fmts l) in Y. apply (f_equal (@length str)) in Y. rewrite app_length in Y. cbn [length] in Y. lia. }
  assert (NF : faked l = false) by (unfold faked; rewrite NC; reflexivity).
  set (data := head ++ coded_text 1 raw ++ extra) in *.
  set (k := o_looks (s_book st)).
  exists (with_book (with_looks (mklooks (dset (k_count k) (fmt_type fmt) (k_formats k)) (k_count k + 1) (k_xfs k) (k_types k) (k_done k)) (with_coding c (s_book st))) st).
  split; [|split; [exact RG|split; [exact C|split; [exact A|]]]].
  - destruct EA as [H1 H2 H3 H4 H5 H6 H7 H8 H9 H10 H11 H12 H13].
    assert (FK : faked (l ++ [Fmt code head raw fmt extra]) = false) by (unfold faked; rewrite cell2_snoc, NC; reflexivity).
    constructor; rewrite ?FK, ?fmts_snoc, ?keys_snoc, ?chosen_snoc, ?cell2_snoc, ?mode_snoc, ?infos_snoc, ?app_nil_r, ?orb_false_r;
      cbn [with_book s_book with_looks with_coding o_version o_datemode o_coding o_strings o_looks k_count k_formats k_xfs k_types s_attrs s_ixfe]; try assumption.
    + rewrite H1, NF. reflexivity.
    + fold k in H5. rewrite H5, app_length. cbn [length]. lia.
    + intros key P. rewrite dget_dset. fold k in H5, H6. rewrite H5. destruct (Z.eqb_spec key (Z.of_nat (length (fmts l)))) as [->|NE].
      * rewrite nth_error_app2 by lia. replace (Z.to_nat _ - _)%nat with 0%nat by lia. reflexivity.
      * rewrite H6 by exact P. rewrite NF. destruct (Z_lt_le_dec key (Z.of_nat (length (fmts l)))).
        -- rewrite nth_error_app1 by lia. reflexivity.
        -- rewrite nth_error_app2 by lia. replace (nth_error (fmts l) (Z.to_nat key)) with (@None str) by (symmetry; apply nth_error_None; lia).
           symmetry. replace (nth_error [fmt] _) with (@None str) by (symmetry; apply nth_error_None; cbn [length]; lia). reflexivity.
    + discriminate.
    + intros _. exact (H8 NF).
    + eapply Forall_impl; [|exact H9]. intros x X. rewrite app_length. cbv beta in X. lia.
    + rewrite NC. discriminate.
  - assert (W : word16 code /\ In code [0x41e; 0x1e]) by (unfold word16; cbn [In]; lia).
    destruct W as [W WI].
    apply (early_step dec version mem pos code data rest); try assumption; [cbn [In SpecEarly.early_codes] in *; lia|].
    unfold early_record. replace ((code =? 0x41e) || (code =? 0x1e)) with true by (cbn [In] in WI; lia). cbv zeta.
    unfold old_format. cbv zeta. rewrite CD. cbn [bind with_coding o_coding o_looks o_version]. fold k.
    pose proof (ea_version _ _ _ _ _ EA) as OV. rewrite NF in OV.
    set (bv := if code =? 30 then _ else _).
    assert (BV : bv < 50 /\ (if bv <=? 30 then 0 else 2) = size head).
    { unfold bv. rewrite OV. cbn [In] in V. destruct HD as [(VI & -> & HD)|[-> ->]].
      - rewrite (size_of _ _ HD). destruct VI as [<-|[<-|[]]]; cbn; lia.
      - change (size []) with 0. cbn [Z.eqb Pos.eqb]. destruct V as [<-|[<-|[<-|[<-|[]]]]]; cbn; lia. }
    destruct BV as [BV1 BV2]. replace (50 <=? bv) with false by lia. cbn [bind]. rewrite BV2, PG.
    pose proof (old_string_ok dec (page_of (infos l)) 1 head raw fmt extra ltac:(lia) D SR) as Q. fold data in Q. rewrite Q. reflexivity.
Qed.

Lemma byte1 (x : N) : le_value [x] = Z.of_N x.
Proof. cbn. lia. Qed.
Lemma bytes_mid (pre : str) n x post : length pre = n -> bytes_at n 1 (pre ++ x :: post) = [x].
Proof. intros <-. unfold bytes_at. rewrite skipn_app, skipn_all, Nat.sub_diag. reflexivity. Qed.
Lemma attr_ok dec version country mem L l code front key more after pos rest st grid0 l2 : In version [2; 3; 4; 45] -> early dec version L l st ->
  L = l ++ Attr code front key more :: after ->
  good_entry dec country version L l (Attr code front key more) -> from mem pos (entry_bytes (Attr code front key more) ++ rest) ->
  countries_ok country (r_countries (s_reading st)) -> r_grid (s_reading st) = grid0 -> anchored (r_link (s_reading st)) l2 ->
  estep dec version country mem L l (Attr code front key more) pos st grid0 l2.
Proof.
  intros V EA EL (HD & S & KB & KC) F C RG A. cbn [entry_bytes] in *.
  assert (NF : faked l = false).
  { unfold faked. destruct (keys 2 l) eqn:KE; [|apply andb_false_r]. destruct (Z.eqb_spec version 2) as [E2|NE].
    - destruct HD as (_ & _ & _ & HD). specialize (HD eq_refl). rewrite andb_true_r. clear -HD. induction HD as [|e l H _ IH]; [reflexivity|]. cbn [existsb]. rewrite H, IH. reflexivity.
    - rewrite (ea_cells _ _ _ _ _ EA NE). reflexivity. }
  set (e := Attr code front key more) in *. set (data := front ++ key :: more) in *. set (k := o_looks (s_book st)).
  assert (K0 : 0 <= attr_key version key) by (unfold attr_key; destruct (version =? 2); [apply Z.mod_pos_bound; lia|lia]).
  destruct (ea_real _ _ _ _ _ EA NF) as (AT & XF & TY).
  destruct (fmt_cellty L l (attr_key version key) ltac:(eexists; exact EL) ltac:(lia)) as (t & ET & CT).
  pose proof (ea_formats _ _ _ _ _ EA (attr_key version key) K0) as DF. rewrite ET in DF. fold k in DF.
  exists (with_book (with_looks (mklooks (k_formats k) (k_count k) (k_xfs k ++ [attr_key version key]) (dset (Z.of_nat (length (k_xfs k))) (key_type L (attr_key version key)) (k_types k)) (k_done k)) (s_book st)) st).
  split; [|split; [exact RG|split; [exact C|split; [exact A|]]]].
  - destruct EA as [H1 H2 H3 H4 H5 H6 H7 H8 H9 H10 H11 H12 H13].
    assert (FK : faked (l ++ [e]) = false).
    { unfold faked. rewrite keys_snoc. cbn [e]. destruct (keys 2 l); apply andb_false_r. }
    constructor; rewrite ?FK, ?fmts_snoc, ?keys_snoc, ?chosen_snoc, ?cell2_snoc, ?mode_snoc, ?infos_snoc, ?app_nil_r, ?orb_false_r;
      cbn [e is_cell2 with_book s_book with_looks with_coding o_version o_datemode o_coding o_strings o_looks k_count k_formats k_xfs k_types s_attrs s_ixfe]; rewrite ?app_nil_r, ?orb_false_r; try assumption.
    + rewrite H1, NF. reflexivity.
    + intros x P. fold k in H6. rewrite H6 by exact P. rewrite NF. reflexivity.
    + discriminate.
    + intros _. split; [exact AT|]. split; [fold k in XF; rewrite XF; reflexivity|].
      intros xf X. cbn [old_setup su_types with_looks o_looks k_types]. rewrite dget_dset. fold k in XF. rewrite XF. rewrite app_length in X. cbn [length] in X.
      unfold number_type. destruct (Z.eqb_spec xf (Z.of_nat (length (keys version l)))) as [->|NE].
      * rewrite app_nth2 by lia. replace (Z.to_nat _ - _)%nat with 0%nat by lia. reflexivity.
      * rewrite app_nth1 by lia. specialize (TY xf ltac:(lia)). exact TY.
    + apply Forall_app. split; [exact H9|]. constructor; [lia|constructor].
  - assert (W : word16 code /\ In code [0x443; 0x243; 0x43]).
    { unfold word16; cbn [In]. destruct (version =? 2); [lia|destruct (version =? 3); lia]. }
    destruct W as [W WI].
    apply (early_step dec version mem pos code data rest); try assumption; [cbn [In SpecEarly.early_codes] in *; lia|].
    unfold early_record. repeat match goal with |- (if ?c then _ else _) = _ => first [replace c with false by (cbn [In] in WI; lia) | replace c with true by (cbn [In] in WI; lia)] end.
    cbv zeta. unfold old_xf. cbv zeta. fold k.
    pose proof (ea_version _ _ _ _ _ EA) as OV. rewrite NF in OV.
    assert (KEY : old_xf_key (o_version (s_book st)) data = Ok (attr_key version key)).
    { unfold old_xf_key. destruct V as [<-|[<-|[<-|[<-|[]]]]].
      - change (o_version (s_book st) = 21) in OV. rewrite OV. cbn [Z.eqb Pos.eqb Z.leb Z.compare Pos.compare Pos.compare_cont] in *. destruct HD as (_ & LF & LR & _). unfold sized. unfold data at 1. rewrite app_length. cbn [length]. unfold str in *. rewrite LF, LR. cbn [Nat.add Nat.eqb bind].
        unfold data. rewrite bytes_mid by exact LF. rewrite byte1, land63 by lia. reflexivity.
      - change (o_version (s_book st) = 30) in OV. rewrite OV. cbn [Z.eqb Pos.eqb Z.leb Z.compare Pos.compare Pos.compare_cont] in *. destruct HD as (_ & LF & LR).
        rewrite sized_at by (apply size_of in LF; unfold data; rewrite size_app; change (size (key :: more)) with (Z.of_nat (1 + length more)); rewrite LF; unfold size in LR; lia). cbn [bind].
        unfold data. rewrite bytes_mid by exact LF. rewrite byte1. reflexivity.
      - change (o_version (s_book st) = 40) in OV. rewrite OV. cbn [Z.eqb Pos.eqb Z.leb Z.compare Pos.compare Pos.compare_cont] in *. destruct HD as (_ & LF & LR).
        rewrite sized_at by (apply size_of in LF; unfold data; rewrite size_app; change (size (key :: more)) with (Z.of_nat (1 + length more)); rewrite LF; unfold size in LR; lia). cbn [bind].
        unfold data. rewrite bytes_mid by exact LF. rewrite byte1. reflexivity.
      - change (o_version (s_book st) = 45) in OV. rewrite OV. cbn [Z.eqb Pos.eqb Z.leb Z.compare Pos.compare Pos.compare_cont] in *. destruct HD as (_ & LF & LR).
        rewrite sized_at by (apply size_of in LF; unfold data; rewrite size_app; change (size (key :: more)) with (Z.of_nat (1 + length more)); rewrite LF; unfold size in LR; lia). cbn [bind].
        unfold data. rewrite bytes_mid by exact LF. rewrite byte1. reflexivity. }
    rewrite KEY. cbn [bind].
    assert (FM : match k_xfs k with [] => if 50 <=? o_version (s_book st) then fill_in (k_formats k) else k_formats k | _ => k_formats k end = k_formats k).
    { replace (50 <=? o_version (s_book st)) with false by (rewrite OV; destruct V as [<-|[<-|[<-|[<-|[]]]]]; reflexivity). destruct (k_xfs k); reflexivity. }
    rewrite FM. unfold dmem. rewrite DF, CT. reflexivity.
Qed.

Lemma finish_ok dec version country mem L l data after pos rest st grid0 l2 : In version [2; 3; 4; 45] -> early dec version L l st ->
  L = l ++ Finish data :: after ->
  good_entry dec country version L l (Finish data) -> from mem pos (entry_bytes (Finish data) ++ rest) ->
  countries_ok country (r_countries (s_reading st)) -> r_grid (s_reading st) = grid0 -> anchored (r_link (s_reading st)) l2 ->
  estep dec version country mem L l (Finish data) pos st grid0 l2.
Proof.
  intros V EA EL (NV & S) F C RG A. cbn [entry_bytes] in *.
  assert (NF : faked l = false) by (unfold faked; rewrite (ea_cells _ _ _ _ _ EA NV); reflexivity).
  pose (b := if k_done (o_looks (s_book st)) then s_book st else old_epilogue (s_book st)).
  assert (EB : early dec version L l (with_book b st)).
  { unfold b. destruct (k_done (o_looks (s_book st))); [destruct st; exact EA|]. apply early_epilogue; [eexists; exact EL|exact EA|exact NF]. }
  exists (with_book (with_coding (o_coding b) b) (with_reading (s_reading st) (with_book b st))). split; [|split; [exact RG|split; [exact C|split; [exact A|]]]].
  - apply (early_dumb dec version L l (Finish data) (with_book b st) _ _ EB I). apply coding_neutral; [discriminate|]. exact (ea_coding _ _ _ _ _ EB).
  - apply (early_step dec version mem pos 0x293 data rest); try assumption; [unfold word16; lia|cbn; lia|].
    unfold early_record. cbn [Z.eqb Pos.eqb orb]. cbv zeta. fold b. cbn [bind]. destruct st, b; reflexivity.
Qed.

Lemma chosen_ok dec version country mem L l x after pos rest st grid0 l2 : In version [2; 3; 4; 45] -> early dec version L l st ->
  L = l ++ Chosen x :: after ->
  good_entry dec country version L l (Chosen x) -> from mem pos (entry_bytes (Chosen x) ++ rest) ->
  countries_ok country (r_countries (s_reading st)) -> r_grid (s_reading st) = grid0 -> anchored (r_link (s_reading st)) l2 ->
  estep dec version country mem L l (Chosen x) pos st grid0 l2.
Proof.
  intros V EA EL (_ & W) F C RG A. cbn [entry_bytes] in *.
  exists (mkosheet (s_reading st) (s_book st) (Some x) (s_attrs st)). split; [|split; [exact RG|split; [exact C|split; [exact A|]]]].
  - destruct EA as [H1 H2 H3 H4 H5 H6 H7 H8 H9 H10 H11 H12 H13].
    assert (FK : faked (l ++ [Chosen x]) = faked l) by (unfold faked; rewrite cell2_snoc, keys_snoc, app_nil_r, orb_false_r; reflexivity).
    constructor; rewrite ?FK, ?fmts_snoc, ?keys_snoc, ?chosen_snoc, ?cell2_snoc, ?mode_snoc, ?infos_snoc, ?app_nil_r, ?orb_false_r; try assumption; [reflexivity|]. intros y [= <-]. unfold word16 in W. lia.
  - apply (early_step dec version mem pos 0x44 (le_bytes 2 x) rest); try assumption; [unfold word16; lia|unfold short; rewrite size_bytes; lia|cbn; lia|].
    unfold early_record. cbn [Z.eqb Pos.eqb orb]. cbv zeta. change (sized 2 (le_bytes 2 x)) with (@Ok unit tt). cbn [bind].
    rewrite <- (app_nil_r (le_bytes 2 x)), u16_first by exact W. reflexivity.
Qed.

Lemma unread_ok dec version country mem L l code data after pos rest st grid0 l2 : In version [2; 3; 4; 45] -> early dec version L l st ->
  L = l ++ Unread code data :: after ->
  good_entry dec country version L l (Unread code data) -> from mem pos (entry_bytes (Unread code data) ++ rest) ->
  countries_ok country (r_countries (s_reading st)) -> r_grid (s_reading st) = grid0 -> anchored (r_link (s_reading st)) l2 ->
  estep dec version country mem L l (Unread code data) pos st grid0 l2.
Proof.
  intros V EA EL (S & K) F C RG A. cbn [entry_bytes] in *.
  exists (with_book (with_coding (o_coding (s_book st)) (s_book st)) (with_reading (s_reading st) st)). split; [|split; [exact RG|split; [exact C|split; [exact A|]]]].
  - apply (early_dumb dec version L l (Unread code data) st _ _ EA I). apply coding_neutral; [discriminate|]. exact (ea_coding _ _ _ _ _ EA).
  - apply (early_step dec version mem pos code data rest); try assumption.
    { unfold word16; cbn [In] in K; lia. } { cbn [In SpecEarly.early_codes] in *; lia. }
    assert (ST : with_book (with_coding (o_coding (s_book st)) (s_book st)) (with_reading (s_reading st) st) = st) by (destruct st as [? [] ? ?]; reflexivity). rewrite ST.
    destruct K as [K|[[-> K]|[-> K]]].
    + cbn [In] in K. repeat destruct K as [<-|K]; try reflexivity. destruct K.
    + unfold early_record. cbn [Z.eqb Pos.eqb orb]. rewrite sized_at by lia. reflexivity.
    + unfold early_record. cbn [Z.eqb Pos.eqb orb]. unfold sized. rewrite !bytes_at_length.
      replace (Nat.min 5 (length data - 5)) with 5%nat by (unfold size in K; lia). replace (Nat.min 3 (length data - 10)) with 3%nat by (unfold size in K; lia). reflexivity.
Qed.

Lemma late_foreign dec country shared xfs it : good_item dec country shared xfs it -> foreign it -> late_item it.
Proof.
  intros G FO. destruct it as [it| | | | | |]; try exact I. destruct G as [CO G].
  destruct it as [p c|row col l|data|x y|a b|code data inner|k|ar s|head author pad|d|t|code data]; cbn [late_item item_code common] in *; try contradiction; try (cbn [In OldProofs.early_codes]; lia).
  - destruct CO as [_ CO]. destruct c; cbn [content_code] in *; try contradiction; cbn [In OldProofs.early_codes]; lia.
  - destruct G as (B & _). cbn [In bof_codes OldProofs.early_codes] in *. lia.
  - exact FO.
Qed.
Lemma small_of dec country shared xfs it : good_item dec country shared xfs it ->
  is_cell it = false /\ match it with Same (SpecBiff.Passed code _) => code <> 0x23e | _ => True end -> small_item it.
Proof.
  intros G [IC H]. split; [exact IC|]. destruct it as [it| | | | | |]; try exact I. destruct G as [CO G].
  destruct it as [p c|row col l|data|x y|a b|code data inner|k|ar s|head author pad|d|t|code data]; cbn [item_code common] in *; try contradiction; try lia; try discriminate IC.
  destruct G as (B & _). cbn [In bof_codes] in *. lia.
Qed.

Lemma piece_ok dec version country mem L l it after pos rest st g l2 : In version [2; 3; 4; 45] -> early dec version L l st ->
  L = l ++ Piece it :: after ->
  good_entry dec country version L l (Piece it) -> from mem pos (entry_bytes (Piece it) ++ rest) ->
  countries_ok country (r_countries (s_reading st)) ->
  (is_extent it = true -> r_grid (s_reading st) = new_grid /\ existsb is_cell2 l = false) ->
  put_all setup0 (entry_cells version (date_key L) l (Piece it)) (r_grid (s_reading st)) = (g, Ok tt) ->
  anchored (r_link (s_reading st)) (it :: l2) ->
  estep dec version country mem L l (Piece it) pos st g l2.
Proof.
  intros V EA EL (G & FO & V2) F C D P A. cbn [entry_bytes entry_cells] in *.
  pose proof (ea_coding _ _ _ _ _ EA) as KC. pose proof (coding_ready _ _ _ _ KC) as RD.
  rewrite <- (put_all_typed (s_book st)) in P by apply old_item_typed.
  set (bv := if version =? 2 then 21 else wide version).
  destruct (is_extent it) eqn:IE.
  - destruct it as [| | | |code data| |]; try discriminate IE. destruct data as [|x data]; [discriminate IE|]. set (dt := x :: data) in *.
    destruct (D eq_refl) as [RG NC]. cbn [item_cells put_all] in P. injection P as <-.
    assert (NF : faked l = false) by (unfold faked; rewrite NC; reflexivity).
    pose (late := match k_xfs (o_looks (s_book st)) with [] => false | _ => negb (k_done (o_looks (s_book st))) end).
    pose (b := if ((bv =? 21) || (bv =? 30) || (bv =? 40)) && late then old_epilogue (s_book st) else s_book st).
    assert (EB : early dec version L l (with_book b st)).
    { unfold b. destruct (_ && late); [|destruct st; exact EA]. apply early_epilogue; [eexists; exact EL|exact EA|exact NF]. }
    exists (with_book (with_coding (o_coding b) b) (with_reading (s_reading st) (with_book b st))). split; [|split; [reflexivity|split; [exact C|split; [exact A|]]]].
    + apply (early_dumb dec version L l (Piece (Extent code dt)) (with_book b st) _ _ EB I). apply coding_neutral; [discriminate|]. exact (ea_coding _ _ _ _ _ EB).
    + cbn [item_bytes entry_bytes] in *. destruct G as (GC & S & G). rewrite record_size, Z.add_assoc. fold bv.
      apply (ostep dec bv mem pos code dt rest); [unfold word16; cbn [In] in GC; lia|exact S|cbn [In] in GC; lia|exact F|].
      assert (Q : old_record dec bv mem code (size dt) dt (pos + 4 + size dt) st = old_record dec bv mem 0x200 (size dt) dt (pos + 4 + size dt) st)
        by (destruct GC as [<-|[<-|[]]]; reflexivity).
      rewrite Q. unfold old_record. cbn [Z.eqb Pos.eqb orb]. cbv zeta.
      destruct G as [G|G]; [discriminate G|]. replace (size dt =? 0) with false by lia.
      unfold sized. rewrite bytes_at_length. replace (Nat.min 6 (length dt - 2)) with 6%nat by (unfold size in G; lia). cbn [Nat.eqb bind].
      rewrite RG.
      assert (ST : with_reading (with_grid (mkgrid 0 0 (g_types new_grid) (g_values new_grid) (g_xfs new_grid) (g_full new_grid)) (s_reading st)) st = st).
      { destruct st as [[gr co li dr] bk ix at_]. cbn [s_reading r_grid] in RG. subst gr. reflexivity. }
      rewrite ST. fold late. unfold b. destruct (((bv =? 21) || (bv =? 30) || (bv =? 40)) && late); destruct st as [? [] ? ?]; reflexivity.
  - set (date := fun xf => date_key L (nth (Z.to_nat xf) (keys version l) 0)) in *.
    assert (T : typed_xfs date (Z.of_nat (length (keys version l))) (old_setup (s_book st))).
    { destruct (faked l) eqn:FK; [|destruct (ea_real _ _ _ _ _ EA FK) as (_ & _ & T); exact T].
      unfold faked in FK. apply andb_true_iff in FK. destruct FK as [_ FK]. destruct (keys 2 l) eqn:E2; [|discriminate FK].
      rewrite (keys_none 2 version l E2). intros xf X. cbn [length] in X. lia. }
    assert (VV : (30 <= bv /\ 30 <= o_version (s_book st)) \/ small_item it).
    { rewrite (ea_version _ _ _ _ _ EA). unfold bv. destruct (Z.eqb_spec version 2) as [E2|N2].
      - right. eapply small_of; [exact G|]. exact (V2 E2).
      - left. destruct V as [<-|[<-|[<-|[<-|[]]]]]; try (exfalso; lia); vm_compute; split; discriminate. }
    destruct (old_item_ok dec (page_of (infos l)) bv country [] _ date mem it pos rest st g l2 VV T (ea_strings _ _ _ _ _ EA) RD ltac:(congruence) G (fun _ => late_foreign _ _ _ _ _ G FO) F C ltac:(congruence) P A)
      as (st' & E1 & E2 & E3 & (K & KX & KA) & R).
    pose proof (coding_kept _ _ _ _ _ KC K) as [CK EB].
    exists st'. split; [|split; [exact E1|split; [exact E2|split; [exact E3|exact R]]]].
    replace st' with (with_book (with_coding (o_coding (s_book st')) (s_book st)) (with_reading (s_reading st') st)).
    + apply early_dumb; [exact EA|exact I|]. apply coding_neutral; [discriminate|exact CK].
    + rewrite <- EB. unfold with_book, with_reading. cbn [s_reading s_ixfe s_attrs]. rewrite <- KX, <- KA. destruct st'. reflexivity.
Qed.

(** ** Cells of BIFF2 *)

Lemma early_recode dec version L l st r c : early dec version L l st -> coding_ok dec (infos L) (infos l) c ->
  early dec version L l (with_book (with_coding c (s_book st)) (with_reading r st)).
Proof. intros [H1 H2 H3 H4 H5 H6 H7 H8 H9 H10 H11 H12 H13] K. constructor; assumption. Qed.

Definition fake_state (L : list entry) (st : osheet) : Prop :=
  (forall key, 0 <= key -> match nth_error (fmts L) (Z.to_nat key) with
     | Some t => dget key (k_formats (o_looks (s_book st))) = Some (fmt_type t)
     | None => dget key (k_formats (o_looks (s_book st))) = None \/ dget key (k_formats (o_looks (s_book st))) = Some 0
     end) /\
  (forall a x, In (a, x) (s_attrs st) -> 0 <= x < Z.of_nat (length (k_xfs (o_looks (s_book st)))) /\
     dget x (k_types (o_looks (s_book st))) = Some (key_type L (attr_byte a 1))).
(** What [insert_xf] leaves alone. *)
Definition like (st st' : osheet) : Prop :=
  s_reading st' = s_reading st /\ s_ixfe st' = s_ixfe st /\
  exists f x t, s_book st' = with_looks (mklooks f (k_count (o_looks (s_book st))) x t (k_done (o_looks (s_book st)))) (s_book st).
Lemma like_trans a b c : like a b -> like b c -> like a c.
Proof.
  intros (A1 & A2 & f & x & t & A3) (B1 & B2 & f' & x' & t' & B3). split; [congruence|]. split; [congruence|].
  exists f', x', t'. rewrite B3, A3. reflexivity.
Qed.
Lemma attr_key1 a : (2 <= length a)%nat -> Z.land (le_value (bytes_at 1 1 a)) 0x3f = attr_byte a 1.
Proof.
  intro LA. destruct a as [|a0 [|a1 a]]; cbn [length] in LA; try lia. change (bytes_at 1 1 (a0 :: a1 :: a)) with [a1].
  rewrite byte1, land63 by lia. reflexivity.
Qed.
Lemma attr_key0 a : (1 <= length a)%nat -> Z.land (le_value (bytes_at 0 1 a)) 0x3f = attr_byte a 0.
Proof.
  intro LA. destruct a as [|a0 a]; cbn [length] in LA; try lia. change (bytes_at 0 1 (a0 :: a)) with [a0].
  rewrite byte1, land63 by lia. reflexivity.
Qed.
Lemma attr_byte_pos a i : 0 <= attr_byte a i < 64.
Proof. unfold attr_byte. apply Z.mod_pos_bound. lia. Qed.
Lemma insert_xf_ok L a st : (2 <= length a)%nat -> fake_state L st ->
  let (x, st') := insert_xf a st in
  fake_state L st' /\ like st st' /\ k_xfs (o_looks (s_book st')) <> [] /\
  dget x (k_types (o_looks (s_book st'))) = Some (key_type L (attr_byte a 1)).
Proof.
  intros LA (F & A). unfold insert_xf. cbv zeta. rewrite attr_key1 by exact LA. set (k := o_looks (s_book st)) in *. set (key := attr_byte a 1).
  assert (K0 : 0 <= key) by (unfold key; apply attr_byte_pos).
  set (formats := if dmem key (k_formats k) then k_formats k else dset key 0 (k_formats k)).
  assert (FO : forall y, 0 <= y -> match nth_error (fmts L) (Z.to_nat y) with
     | Some t => dget y formats = Some (fmt_type t)
     | None => dget y formats = None \/ dget y formats = Some 0
     end).
  { intros y Y. specialize (F y Y). unfold formats, dmem. destruct (dget key (k_formats k)) eqn:E; [exact F|]. rewrite dget_dset.
    destruct (Z.eqb_spec y key) as [->|NE]; [|exact F]. destruct (nth_error (fmts L) (Z.to_nat key)); [congruence|right; reflexivity]. }
  assert (CT : match dget key formats with Some ty => cellty_of ty | None => XL_CELL_NUMBER end = key_type L key).
  { specialize (FO key K0). unfold key_type, date_key. replace (0 <=? key) with true by lia. cbn [andb].
    destruct (nth_error (fmts L) (Z.to_nat key)) as [t|].
    - rewrite FO. unfold fmt_type, cellty_of. destruct (is_date_format_string t); reflexivity.
    - destruct FO as [-> | ->]; reflexivity. }
  rewrite CT.
  split; [|split; [|split]].
  - split; cbn [s_book with_looks o_looks k_formats s_attrs k_xfs k_types]; [exact FO|].
    intros a' x' [E|H].
    + injection E as <- <-. rewrite app_length, dget_dset, Z.eqb_refl. cbn [length]. split; [lia|reflexivity].
    + specialize (A a' x' H). rewrite app_length, dget_dset. cbn [length]. fold k in A. destruct (Z.eqb_spec x' (Z.of_nat (length (k_xfs k)))); [lia|]. split; [lia|apply A].
  - split; [reflexivity|]. split; [reflexivity|]. eexists _, _, _. cbn [s_book]. reflexivity.
  - cbn [s_book with_looks o_looks k_xfs]. destruct (k_xfs k); discriminate.
  - cbn [s_book with_looks o_looks k_types]. rewrite dget_dset, Z.eqb_refl. reflexivity.
Qed.
Lemma insert_styles_ok L : forall n st, fake_state L st -> fake_state L (insert_styles n st) /\ like st (insert_styles n st).
Proof.
  induction n as [|n IH]; intros st F; cbn [insert_styles].
  - split; [exact F|]. split; [reflexivity|]. split; [reflexivity|]. exists (k_formats (o_looks (s_book st))), (k_xfs (o_looks (s_book st))), (k_types (o_looks (s_book st))).
    destruct st as [? [? ? [] ? ? ? ? ? ?] ? ?]; reflexivity.
  - pose proof (insert_xf_ok L [64; 0; 0]%N st ltac:(cbn; lia) F) as H. destruct (insert_xf [64; 0; 0]%N st) as [x st1]. destruct H as (F1 & K1 & _).
    cbn [snd]. destruct (IH st1 F1) as [F2 K2]. split; [exact F2|exact (like_trans _ _ _ K1 K2)].
Qed.

Lemma fake_early dec L l e st st' : early dec 2 L l st -> faked (l ++ [e]) = true -> fmts l = fmts L -> is_cell2 e = true ->
  o_version (s_book st) = 20 \/ o_version (s_book st) = 21 ->
  fake_state L st' -> like (with_book (with_version 20 (s_book st)) st) st' -> k_xfs (o_looks (s_book st')) <> [] ->
  early dec 2 L (l ++ [e]) st'.
Proof.
  intros [H1 H2 H3 H4 H5 H6 H7 H8 H9 H10 H11 H12 H13] FK FL IC OV (F & A) (L1 & L2 & f & x & t & LB) NE.
  destruct e; try discriminate IC. cbn [with_book s_book] in LB. rewrite LB in F, A, NE. cbn [with_looks with_version o_looks k_formats k_xfs k_types] in F, A, NE.
  constructor; rewrite ?LB, ?FK, ?fmts_snoc, ?keys_snoc, ?chosen_snoc, ?cell2_snoc, ?mode_snoc, ?infos_snoc, ?app_nil_r, ?orb_false_r;
    cbn [with_looks with_version o_version o_datemode o_coding o_strings o_looks k_count k_formats k_xfs k_types Z.eqb Pos.eqb]; try assumption; try reflexivity.
  - intros key P. specialize (F key P). rewrite <- FL in F. destruct (nth_error (fmts l) (Z.to_nat key)); [exact F|reflexivity].
  - intros _. split; [reflexivity|]. split; [exact NE|]. split; [|exact A].
    intros key P N. specialize (F key P). rewrite <- FL, N in F. exact F.
  - discriminate.
  - congruence.
  - rewrite L2. exact H11.
  - intros _. exact FL.
Qed.

Lemma str_eqb_true a b : str_eqb a b = true -> a = b.
Proof. apply str_eqb_eq. Qed.
Lemma fixed_ok dec L l row col attr c st country : early dec 2 L l st -> good_entry dec country 2 L l (Cell2 row col attr c) ->
  exists x st', fixed_xf attr st = Ok (x, st') /\ s_reading st' = s_reading st /\ o_coding (s_book st') = o_coding (s_book st) /\
    early dec 2 L (l ++ [Cell2 row col attr c]) st' /\
    dget x (k_types (o_looks (s_book st'))) = Some (key_type L (format_key l attr)).
Proof.
  intros EA (_ & _ & _ & LA & _ & _ & _ & FL & GK). set (e := Cell2 row col attr c).
  unfold fixed_xf. rewrite attr_key0 by lia. cbv zeta. set (k := o_looks (s_book st)) in *. unfold format_key.
  pose proof (ea_version _ _ _ _ _ EA) as OV. cbn [Z.eqb Pos.eqb] in OV.
  assert (CE : existsb is_cell2 (l ++ [e]) = true) by (rewrite cell2_snoc; apply orb_true_r).
  assert (KE : keys 2 (l ++ [e]) = keys 2 l) by (rewrite keys_snoc; apply app_nil_r).
  destruct (keys 2 l) as [|k0 ks] eqn:EK.
  - assert (FK : faked (l ++ [e]) = true) by (unfold faked; rewrite CE, KE; reflexivity).
    destruct (faked l) eqn:FF.
    + destruct (ea_fake _ _ _ _ _ EA FF) as (_ & NE & FO & AT). fold k in NE, FO, AT. rewrite OV, GK. cbn [Z.eqb Pos.eqb negb].
      assert (FS : fake_state L st).
      { split; [|exact AT]. fold k. intros key P. specialize (FO key P). pose proof (ea_formats _ _ _ _ _ EA key P) as H. fold k in H. rewrite FL in H, FO.
        destruct (nth_error (fmts L) (Z.to_nat key)); [exact H|apply FO; reflexivity]. }
      assert (LV : with_book (with_version 20 (s_book st)) st = st).
      { unfold with_book, with_version. rewrite <- OV. destruct st as [? [] ? ?]. reflexivity. }
      destruct (k_xfs k) as [|y ys] eqn:KX; [congruence|]. destruct (attr_xf attr (s_attrs st)) as [x|] eqn:AX.
      * unfold attr_xf in AX. destruct (find _ (s_attrs st)) as [[a x']|] eqn:FD; [|discriminate AX]. injection AX as ->.
        apply find_some in FD. destruct FD as [I1 I2]. apply str_eqb_true in I2. cbn [fst] in I2. subst a. destruct (AT _ _ I1) as [_ TY].
        exists x, st. split; [reflexivity|]. split; [reflexivity|]. split; [reflexivity|]. split; [|exact TY].
        apply (fake_early dec L l e st st); try assumption; try reflexivity; [left; exact OV| |fold k; rewrite KX; discriminate].
        rewrite LV. split; [reflexivity|]. split; [reflexivity|]. exists (k_formats k), (k_xfs k), (k_types k). unfold k. destruct st as [? [? ? [] ? ? ? ? ? ?] ? ?]; reflexivity.
      * pose proof (insert_xf_ok L attr st ltac:(lia) FS) as H. destruct (insert_xf attr st) as [x st'] eqn:IX. destruct H as (FS' & LK & NE' & TY).
        exists x, st'. split; [reflexivity|]. pose proof LK as (L1 & _ & f & xs & t & LB). split; [exact L1|]. split; [rewrite LB; reflexivity|]. split; [|exact TY].
        apply (fake_early dec L l e st st'); try assumption; try reflexivity; [left; exact OV|]. rewrite LV. exact LK.
    + destruct (ea_real _ _ _ _ _ EA FF) as (AT & KX & _). fold k in KX. rewrite KX, EK, GK. rewrite OV. cbn [Z.eqb Pos.eqb negb].
      set (st0 := with_book (with_version 20 (s_book st)) st).
      assert (FS : fake_state L st0).
      { split; [|cbn [st0 with_book s_attrs]; rewrite AT; intros a x []]. cbn [st0 with_book s_book with_version o_looks]. fold k.
        intros key P. pose proof (ea_formats _ _ _ _ _ EA key P) as H. fold k in H. rewrite FL, FF in H.
        destruct (nth_error (fmts L) (Z.to_nat key)); [exact H|left; exact H]. }
      replace (attr_xf attr (s_attrs st0)) with (@None Z) by (cbn [st0 with_book s_attrs]; rewrite AT; reflexivity).
      destruct (insert_styles_ok L 16 st0 FS) as [FS1 LK1]. set (st1 := insert_styles 16 st0) in *.
      pose proof (insert_xf_ok L attr st1 ltac:(lia) FS1) as H. destruct (insert_xf attr st1) as [x st'] eqn:IX. destruct H as (FS' & LK & NE' & TY).
      pose proof (like_trans _ _ _ LK1 LK) as LK2.
      exists x, st'. split; [reflexivity|]. pose proof LK2 as (L1 & _ & f & xs & t & LB). split; [exact L1|]. split; [rewrite LB; reflexivity|]. split; [|exact TY].
      apply (fake_early dec L l e st st'); try assumption; try reflexivity. right; exact OV.
  - assert (FF : faked l = false) by (unfold faked; rewrite EK; apply andb_false_r).
    destruct (ea_real _ _ _ _ _ EA FF) as (AT & KX & TY). fold k in KX. rewrite KX, EK. rewrite FF in OV. rewrite OV. cbn [Z.eqb Pos.eqb].
    assert (EA' : early dec 2 L (l ++ [e]) st).
    { destruct EA as [H1 H2 H3 H4 H5 H6 H7 H8 H9 H10 H11 H12 H13].
      assert (FK : faked (l ++ [e]) = false) by (unfold faked; rewrite KE; apply andb_false_r).
      constructor; rewrite ?FK, ?fmts_snoc, ?keys_snoc, ?chosen_snoc, ?mode_snoc, ?infos_snoc, ?app_nil_r; try assumption.
      - intros key P. rewrite H6 by exact P. rewrite FF. reflexivity.
      - discriminate.
      - intros _. exact (H8 FF).
      - congruence.
      - intros _. exact FL. }
    destruct GK as [GK GC]. exists (xf_of l attr), st.
    split; [|split; [reflexivity|split; [reflexivity|split; [exact EA'|]]]].
    + unfold xf_of. pose proof (ea_chosen _ _ _ _ _ EA) as CH. destruct (Z.eqb_spec (attr_byte attr 0) 63) as [E|NE].
      * rewrite CH. destruct (chosen l); [reflexivity|]. destruct (GC E eq_refl).
      * reflexivity.
    + assert (X0 : 0 <= xf_of l attr).
      { unfold xf_of. destruct (attr_byte attr 0 =? 63); [|apply attr_byte_pos]. destruct (chosen l) eqn:CH; [|lia]. exact (ea_ixfe _ _ _ _ _ EA _ CH). }
      rewrite EK in TY. specialize (TY (xf_of l attr) ltac:(lia)). exact TY.
Qed.

Lemma fake_put t r c v x st g : put_all setup0 [mkput r c (Some t) v 0] (r_grid (s_reading st)) = (g, Ok tt) ->
  old_put (mkput r c (Some t) v x) st = Ok (with_reading (with_grid g (s_reading st)) st).
Proof. intro P. apply old_put_ok. exact P. Qed.
Lemma fake_number t r c v x st g : dget x (k_types (o_looks (s_book st))) = Some t ->
  put_all setup0 [mkput r c (Some t) v 0] (r_grid (s_reading st)) = (g, Ok tt) ->
  old_put (mkput r c None v x) st = Ok (with_reading (with_grid g (s_reading st)) st).
Proof. intros T P. apply (old_put_typed t); [exact T|exact P]. Qed.

Lemma cell2_ok dec country mem L l row col attr c after pos rest st g l2 : early dec 2 L l st ->
  L = l ++ Cell2 row col attr c :: after ->
  good_entry dec country 2 L l (Cell2 row col attr c) -> from mem pos (entry_bytes (Cell2 row col attr c) ++ rest) ->
  countries_ok country (r_countries (s_reading st)) ->
  put_all setup0 (entry_cells 2 (date_key L) l (Cell2 row col attr c)) (r_grid (s_reading st)) = (g, Ok tt) ->
  anchored (r_link (s_reading st)) l2 ->
  estep dec 2 country mem L l (Cell2 row col attr c) pos st g l2.
Proof.
  intros EA EL G F C P A. pose proof G as (_ & RR & CC & LA & _ & GC & S & FL & GK). cbn [entry_bytes entry_cells] in *.
  pose proof (ea_coding _ _ _ _ _ EA) as KC. set (e := Cell2 row col attr c) in *.
  set (data := le_bytes 2 row ++ le_bytes 2 col ++ attr ++ content2_bytes c) in *.
  assert (WR : word16 row) by (unfold word16; lia). assert (WC : word16 col) by (unfold word16; lia).
  assert (U0 : u16 0 data = row) by (apply u16_first; exact WR).
  assert (U2 : u16 2 data = col) by (apply u16_at; [apply le_bytes_length|exact WC]).
  assert (BA : bytes_at 4 3 data = attr).
  { unfold data. rewrite app_assoc. apply bytes_at_mid; [rewrite app_length, !le_bytes_length; reflexivity|exact LA]. }
  assert (B7 : forall i n, bytes_at (7 + i) n data = bytes_at i n (content2_bytes c)).
  { intros i n. unfold data, bytes_at. rewrite !app_assoc, skipn_app, skipn_all2 by (rewrite !app_length, !le_bytes_length; ulia).
    rewrite !app_length, !le_bytes_length. unfold str in *. rewrite LA. cbn [app]. replace (7 + i - (2 + 2 + 3))%nat with i by lia. reflexivity. }
  assert (SD : size data = 7 + size (content2_bytes c)).
  { unfold data. rewrite !size_app, !size_bytes, (size_of _ _ LA). lia. }
  assert (PUT : forall ty v st0, s_reading st0 = s_reading st -> early dec 2 L l st0 ->
    put_all setup0 [mkput row col (Some (match ty with Some t => t | None => key_type L (format_key l attr) end)) v 0] (r_grid (s_reading st)) = (g, Ok tt) ->
    exists st', put_b2 data ty v st0 = Ok st' /\ early dec 2 L (l ++ [e]) st' /\ r_grid (s_reading st') = g /\
      countries_ok country (r_countries (s_reading st')) /\ anchored (r_link (s_reading st')) l2).
  { intros ty v st0 R0 E0 P0. destruct (fixed_ok dec L l row col attr c st0 country E0 G) as (x & st1 & FX & R1 & _ & E1 & TY).
    unfold put_b2. rewrite BA, FX. cbn [bind]. rewrite U0, U2. exists (with_reading (with_grid g (s_reading st1)) st1).
    assert (RS : s_reading st1 = s_reading st) by congruence. rewrite <- RS in P0.
    split; [|split; [|split; [reflexivity|]]].
    - destruct ty as [t|]; [apply fake_put; exact P0|eapply fake_number; [exact TY|exact P0]].
    - pose proof (early_recode dec 2 L (l ++ [e]) st1 (with_grid g (s_reading st1)) _ E1 (ea_coding _ _ _ _ _ E1)) as H.
      replace (with_reading (with_grid g (s_reading st1)) st1) with (with_book (with_coding (o_coding (s_book st1)) (s_book st1)) (with_reading (with_grid g (s_reading st1)) st1)); [exact H|].
      destruct st1 as [? [] ? ?]; reflexivity.
    - rewrite RS. split; [exact C|exact A]. }
  assert (STEP : forall st', In (content2_code c) SpecEarly.early_codes -> content2_records c = [] ->
    early_record dec (content2_code c) (size data) data st = Some (Ok st') ->
    forall f, old_loop (Datatypes.S f) dec (if 2 =? 2 then 21 else wide 2) mem pos st
          = old_loop f dec (if 2 =? 2 then 21 else wide 2) mem (pos + size (entry_bytes e)) st').
  { intros st' IC RC H f. cbn [entry_bytes e]. fold data. rewrite RC, app_nil_r in *.
    apply (early_step dec 2 mem pos (content2_code c) data rest); try assumption; [cbn; lia|destruct c; cbn [content2_code]; unfold word16; lia]. }
  destruct c as [d|n|raw t extra|error v|r more]; cbn [content2_code content2_bytes content2_records cell2_put good_content2] in *.
  - destruct (PUT None (VFloat d) st eq_refl EA P) as (st' & E1 & E2 & E3 & E4 & E5).
    exists st'. repeat (split; [assumption|]). apply STEP; [cbn; lia|reflexivity|].
    unfold early_record. cbn [Z.eqb Pos.eqb orb]. cbv zeta.
    unfold sized. replace (length data =? 15)%nat with true by (symmetry; apply Nat.eqb_eq; unfold size in SD; unfold double_bytes in SD; rewrite le_bytes_length in SD; ulia). cbn [bind].
    change (bytes_at 7 8 data) with (bytes_at (7 + 0) 8 data). rewrite B7.
    replace (bytes_at 0 8 (double_bytes d)) with (double_bytes d) by (unfold bytes_at; cbn [skipn]; symmetry; apply firstn_all2; unfold double_bytes; rewrite le_bytes_length; lia).
    rewrite unpack_double by exact GC. cbn [bind]. rewrite E1. reflexivity.
  - destruct (PUT None (VFloat (float_of_Z n)) st eq_refl EA P) as (st' & E1 & E2 & E3 & E4 & E5).
    exists st'. repeat (split; [assumption|]). apply STEP; [cbn; lia|reflexivity|].
    unfold early_record. cbn [Z.eqb Pos.eqb orb]. cbv zeta.
    unfold sized. replace (length data =? 9)%nat with true by (symmetry; apply Nat.eqb_eq; rewrite size_bytes in SD; unfold size in SD; ulia). cbn [bind].
    replace (u16 7 data) with n; [rewrite E1; reflexivity|]. symmetry. unfold u16. change (bytes_at 7 2 data) with (bytes_at (7 + 0) 2 data). rewrite B7.
    rewrite <- (app_nil_r (le_bytes 2 n)). exact (u16_first n [] GC).
  - destruct GC as [D SR]. destruct (coding_coded dec (infos L) (infos l) (s_book st) KC) as (cc & CD & CK & PG).
    pose proof (early_recode dec 2 L l st (s_reading st) cc EA CK) as EA'.
    destruct (PUT (Some XL_CELL_TEXT) (VStr t) (with_book (with_coding cc (s_book st)) (with_reading (s_reading st) st)) eq_refl EA' P) as (st' & E1 & E2 & E3 & E4 & E5).
    exists st'. repeat (split; [assumption|]). apply STEP; [cbn; lia|reflexivity|].
    unfold early_record. cbn [Z.eqb Pos.eqb orb]. cbv zeta.
    rewrite sized_at by (match goal with H : size data = 7 + size ?x |- _ => pose proof (size_pos x) end; lia). cbn [bind]. rewrite CD. cbn [bind with_coding o_coding]. rewrite PG.
    pose proof (old_string_ok dec (page_of (infos l)) 1 (le_bytes 2 row ++ le_bytes 2 col ++ attr) raw t extra ltac:(lia) D SR) as Q.
    rewrite <- !app_assoc in Q. fold data in Q. rewrite !size_app, !size_bytes, (size_of _ _ LA) in Q.
    change (Z.of_nat 2 + (Z.of_nat 2 + Z.of_nat 3)) with 7 in Q. rewrite Q. cbn [bind].
    replace (with_book (with_coding cc (s_book st)) st) with (with_book (with_coding cc (s_book st)) (with_reading (s_reading st) st)) by (destruct st; reflexivity).
    rewrite E1. reflexivity.
  - destruct (PUT (Some (if error then XL_CELL_ERROR else XL_CELL_BOOLEAN)) (VInt (Z.of_N v)) st eq_refl EA P) as (st' & E1 & E2 & E3 & E4 & E5).
    exists st'. repeat (split; [assumption|]). apply STEP; [cbn; lia|reflexivity|].
    unfold early_record. cbn [Z.eqb Pos.eqb orb]. cbv zeta.
    unfold sized. replace (length data =? 9)%nat with true by (symmetry; apply Nat.eqb_eq; unfold size in SD; cbn [length] in SD; ulia). cbn [bind].
    change (bytes_at 7 1 data) with (bytes_at (7 + 0) 1 data). change (bytes_at 8 1 data) with (bytes_at (7 + 1) 1 data). rewrite !B7.
    change (bytes_at 0 1 [v; if error then 1%N else 0%N]) with [v]. change (bytes_at 1 1 [v; if error then 1%N else 0%N]) with [if error then 1%N else 0%N]. rewrite !byte1.
    destruct error; cbn [Z.of_N Z.eqb Pos.eqb]; rewrite E1; reflexivity.
  - destruct GC as [GR MN]. destruct (fixed_ok dec L l row col attr (Result r more) st country EA G) as (x & st1 & FX & R1 & CO1 & E1 & TY). fold e in E1.
    assert (W : word16 6) by (unfold word16; lia).
    rewrite <- app_assoc in F. destruct (get_record_ok _ _ _ _ _ W S F) as [_ F1].
    assert (OV : (if 30 <=? o_version (s_book st1) then 2%nat else 1%nat) = 1%nat).
    { rewrite (ea_version _ _ _ _ _ E1). cbn [Z.eqb Pos.eqb]. destruct (faked (l ++ [e])); reflexivity. }
    assert (KC1 : coding_ok dec (infos L) (infos l) (o_coding (s_book st1))) by (rewrite CO1; exact KC).
    pose proof (coding_ready _ _ _ _ KC1) as RD.
    set (dt := date_key L (format_key l attr)) in *.
    destruct (old_result_ok 1 dec (page_of (infos l)) (fun _ => dt) mem row col x r rest (pos + 4 + size data) st1 g OV) as (b' & K & ER); try assumption.
    { rewrite R1. replace (result_type (fun _ => dt) x r) with (result_type (fun _ => dt) 0 r) by (destruct r as [[]|]; reflexivity).
      destruct r; exact P. }
    pose proof (coding_kept _ _ _ _ _ KC1 K) as [CK EB].
    pose proof (early_recode dec 2 L (l ++ [e]) st1 (with_grid g (s_reading st1)) (o_coding b') E1 ltac:(apply coding_neutral; [discriminate|exact CK])) as E2.
    rewrite <- EB in E2. eexists. split; [exact E2|]. split; [reflexivity|]. cbn [with_book with_reading s_reading with_grid r_countries r_link]. rewrite R1.
    split; [exact C|]. split; [exact A|]. cbn [entry_bytes e content2_code content2_bytes content2_records]. fold data. rewrite size_app, record_size.
    apply (ostep dec _ mem pos 6 data (result_records 1 r ++ rest)); [exact W|exact S|lia|exact F|].
    assert (Q : old_record dec (if 2 =? 2 then 21 else wide 2) mem 6 (size data) data (pos + 4 + size data) st = old_formula dec 21 mem data (pos + 4 + size data) st) by reflexivity.
    rewrite Q. unfold old_formula.
    pose proof (result_8 1 _ r GR) as R8. assert (MS : 1 <= size more) by (destruct more; [congruence|unfold size; cbn [length]; lia]).
    rewrite sized_at by (rewrite SD, size_app; unfold size at 1; rewrite R8; lia). cbn [bind]. cbv zeta. cbn [Z.leb Z.compare Pos.compare Pos.compare_cont].
    rewrite U0, U2, BA, FX. cbn [bind]. change (bytes_at 7 8 data) with (bytes_at (7 + 0) 8 data). rewrite B7, bytes_at_first by exact R8.
    fold (old_result dec mem (pos + 4 + size data) row col x (result_bytes r) st1). rewrite ER, R1. f_equal. f_equal. lia.
Qed.

(** ** Sheets *)

Lemma pieces_cons e l : pieces (e :: l) = match e with Piece it => [it] | _ => [] end ++ pieces l.
Proof. reflexivity. Qed.
Lemma entry_one dec version country mem L l e after pos rest st g l2 : In version [2; 3; 4; 45] -> early dec version L l st ->
  L = l ++ e :: after -> good_entry dec country version L l e -> from mem pos (entry_bytes e ++ rest) ->
  countries_ok country (r_countries (s_reading st)) ->
  (is_dims e = true -> r_grid (s_reading st) = new_grid /\ existsb is_cell2 l = false) ->
  put_all setup0 (entry_cells version (date_key L) l e) (r_grid (s_reading st)) = (g, Ok tt) ->
  anchored (r_link (s_reading st)) (match e with Piece it => [it] | _ => [] end ++ l2) ->
  estep dec version country mem L l e pos st g l2.
Proof.
  intros V EA EL G F C D P A. destruct e as [gl|code head raw fmt extra|code front key more|data|x|row col attr c|it|code data];
    cbn [app] in A; try (cbn [entry_cells put_all] in P; injection P as P).
  - eapply info_ok; eassumption.
  - eapply fmt_ok; eassumption.
  - eapply attr_ok; eassumption.
  - eapply finish_ok; eassumption.
  - eapply chosen_ok; eassumption.
  - assert (version = 2) by (destruct G as [G _]; exact G). subst version. eapply cell2_ok; eassumption.
  - eapply piece_ok; eassumption.
  - eapply unread_ok; eassumption.
Qed.
Lemma entry_no_cells version date l e : is_cells e = false -> entry_cells version date l e = [].
Proof.
  destruct e as [| | | | | |it|]; try reflexivity; [discriminate|]. cbn [is_cells entry_cells]. intro H.
  destruct it as [it| | | | | |]; try discriminate H; try reflexivity. destruct it; try discriminate H; reflexivity.
Qed.
Lemma cell2_cells l : Forall (fun e => is_cells e = false) l -> existsb is_cell2 l = false.
Proof. induction 1 as [|e l H _ IH]; [reflexivity|]. cbn [existsb]. rewrite IH. destruct e; try reflexivity. discriminate H. Qed.
Lemma entries_ok dec version country mem L rest : In version [2; 3; 4; 45] ->
  forall b a l l2 pos st g, (forall x e y, b = x ++ e :: y -> good_entry dec country version L (l ++ x) e) -> L = l ++ b ++ a -> early dec version L l st -> from mem pos (flat_map entry_bytes b ++ rest) ->
  countries_ok country (r_countries (s_reading st)) ->
  Forall (fun e => is_dims e = false) b \/ (Forall (fun e => is_cells e = false) (l ++ b) /\ r_grid (s_reading st) = new_grid) ->
  put_all setup0 (cells_after version (date_key L) l b) (r_grid (s_reading st)) = (g, Ok tt) ->
  anchored (r_link (s_reading st)) (pieces b ++ l2) ->
  exists st', early dec version L (l ++ b) st' /\ r_grid (s_reading st') = g /\ countries_ok country (r_countries (s_reading st')) /\
    anchored (r_link (s_reading st')) l2 /\
    forall f, old_loop (length b + f) dec (if version =? 2 then 21 else wide version) mem pos st
            = old_loop f dec (if version =? 2 then 21 else wide version) mem (pos + size (flat_map entry_bytes b)) st'.
Proof.
  intros V. induction b as [|e b IH]; intros a l l2 pos st g GG EL EA F C O P A; cbn [flat_map length cells_after] in *.
  - cbn [put_all] in P. injection P as <-. exists st. rewrite app_nil_r. split; [exact EA|]. split; [reflexivity|]. split; [exact C|]. split; [exact A|].
    intro f. change (size []) with 0. rewrite Z.add_0_r. reflexivity.
  - rewrite put_all_app in P. destruct (put_all setup0 (entry_cells version (date_key L) l e) (r_grid (s_reading st))) as [g1 [[]|er]] eqn:P1; [|discriminate P].
    rewrite <- app_assoc in F. rewrite pieces_cons, <- app_assoc in A. cbn [app] in EL.
    pose proof (GG [] e b eq_refl) as GE. rewrite app_nil_r in GE.
    destruct (entry_one dec version country mem L l e (b ++ a) pos _ st g1 (pieces b ++ l2) V EA EL GE F C) as (st1 & E1 & R1 & C1 & A1 & S1); [|exact P1|exact A|].
    { intro D. destruct O as [O|[O1 O2]]; [inversion O; congruence|]. split; [exact O2|]. apply cell2_cells. apply Forall_app in O1. apply O1. }
    apply from_next in F.
    destruct (IH a (l ++ [e]) l2 (pos + size (entry_bytes e)) st1 g) as (st2 & E2 & R2 & C2 & A2 & S2); try assumption.
    + intros x e' y E. rewrite <- app_assoc. apply (GG (e :: x) e' y). rewrite E. reflexivity.
    + rewrite <- app_assoc. exact EL.
    + destruct O as [O|[O1 O2]]; [left; exact (Forall_inv_tail O)|right]. rewrite <- app_assoc. split; [exact O1|].
      rewrite entry_no_cells in P1. { cbn [put_all] in P1. injection P1 as P1. rewrite R1, <- P1. exact O2. }
      apply Forall_app in O1. destruct O1 as [_ O1]. exact (Forall_inv O1).
    + rewrite R1. exact P.
    + exists st2. rewrite <- app_assoc in E2. split; [exact E2|]. split; [exact R2|]. split; [exact C2|]. split; [exact A2|].
      intro f. cbn [Nat.add]. rewrite S1, S2, size_app. f_equal. lia.
Qed.
Lemma entry_4 e : 4 <= size (entry_bytes e).
Proof.
  destruct e as [gl|code head raw fmt extra|code front key more|data|x|row col attr c|it|code data]; cbn [entry_bytes]; try apply record_4; try apply old_item_4.
  - destruct gl as [| | | | | |total table| | | |]; cbn [global_bytes]; try apply record_4. unfold shared_records.
    destruct (records_head (total ++ le_bytes 4 (Z.of_nat (length table))) (table_tokens table)) as (d & rs & E & _).
    rewrite E. cbn [continued]. rewrite size_app. match goal with |- context [size (record ?c ?d) + size ?x] => pose proof (record_4 c d); pose proof (size_pos x) end. lia.
  - rewrite size_app. match goal with |- context [size (record ?c ?d) + size ?x] => pose proof (record_4 c d); pose proof (size_pos x) end. lia.
Qed.
Lemma entries_length l : 4 * Z.of_nat (length l) <= size (flat_map entry_bytes l).
Proof. induction l as [|e l IH]; [unfold size; cbn; lia|]. cbn [flat_map length]. rewrite size_app. pose proof (entry_4 e). lia. Qed.

Lemma early_new dec version L : In version [2; 3; 4; 45] ->
  early dec version L [] (mkosheet (mkreading new_grid (0, 0) None false) (new_obook (if version =? 2 then 21 else wide version)) None []).
Proof.
  intro V. constructor; cbn [s_book new_obook o_version o_datemode o_coding o_strings o_looks new_looks k_count k_formats k_xfs k_types s_attrs s_ixfe]; try reflexivity; try discriminate.
  - repeat split; try discriminate. left. reflexivity.
  - intros key P. cbn [fmts flat_map]. destruct (Z.to_nat key); reflexivity.
  - intros _. split; [reflexivity|]. split; [reflexivity|]. intros xf X. cbn in X. lia.
  - constructor.
Qed.
Lemma cells_after_app version date l : forall a b, cells_after version date l (a ++ b) = cells_after version date l a ++ cells_after version date (l ++ a) b.
Proof.
  intro a. revert l. induction a as [|e a IH]; intros l b; cbn [app cells_after].
  - rewrite app_nil_r. reflexivity.
  - rewrite IH, <- !app_assoc. reflexivity.
Qed.
Lemma cells_after_good dec country version L date :
  forall b l, (forall x e y, b = x ++ e :: y -> good_entry dec country version L (l ++ x) e) -> Forall (good_put setup0) (cells_after version date l b) /\ Forall (fun p => pt_type p <> None) (cells_after version date l b).
Proof.
  induction b as [|e b IH]; intros l GG; cbn [cells_after]; [split; constructor|].
  destruct (IH (l ++ [e])) as [I1 I2]; [intros x e' y E; rewrite <- app_assoc; apply (GG (e :: x) e' y); rewrite E; reflexivity|].
  specialize (GG [] e b eq_refl). rewrite app_nil_r in GG.
  assert (H : Forall (good_put setup0) (entry_cells version date l e) /\ Forall (fun p => pt_type p <> None) (entry_cells version date l e)).
  { destruct e as [gl|code head raw fmt extra|code front key more|data|x|row col attr c|it|code data]; cbn [entry_cells]; try (split; constructor; fail).
    - destruct GG as (_ & RR & CC & _). split; (constructor; [|constructor]).
      + split; [unfold inside; destruct c; cbn [cell2_put pt_row pt_col setup0 su_max_rows su_max_cols]; lia|].
        destruct c; cbn [cell2_put]; eexists; constructor.
      + destruct c; cbn [cell2_put pt_type]; discriminate.
    - destruct GG as (G & _). split; [|apply old_item_typed].
      pose proof (old_item_good (new_obook 0) _ _ _ _ (fun xf => date (nth (Z.to_nat xf) (keys version l) 0)) it G) as Q.
      pose proof (old_item_typed [] (fun xf => date (nth (Z.to_nat xf) (keys version l) 0)) it) as Q2.
      rewrite Forall_forall in *. intros p I. specialize (Q p I). destruct Q as [Q3 [t Q4]]. split; [exact Q3|]. destruct Q4; [eexists; constructor|]. destruct (Q2 _ I eq_refl). }
  destruct H as [H1 H2]. split; apply Forall_app; auto.
Qed.
Lemma early_bof version head more mem pos rest rqd : In version [2; 3; 4] -> length head = 2%nat -> size more <= 16 -> rqd = 5 \/ rqd = 0x10 ->
  from mem pos (record (bof_code version) (head ++ le_bytes 2 0x10 ++ more) ++ rest) ->
  getbof mem pos rqd = Ok (if version =? 2 then 21 else wide version, pos + size (record (bof_code version) (head ++ le_bytes 2 0x10 ++ more))) /\
  from mem (pos + size (record (bof_code version) (head ++ le_bytes 2 0x10 ++ more))) rest.
Proof.
  intros V LH SM RQ F. set (data := head ++ le_bytes 2 0x10 ++ more) in *. pose proof (size_pos more).
  assert (SD : size data = 4 + size more) by (unfold data; rewrite !size_app, size_bytes, (size_of _ _ LH); lia).
  assert (U : u16 2 data = 0x10) by (unfold data; apply u16_at; [exact LH|unfold word16; lia]).
  assert (BV : bof_version (bof_code version) (data ++ padding (bof_code version) data) = if version =? 2 then 21 else wide version).
  { assert (U' : forall x, u16 2 (data ++ x) = 0x10) by (intro x; unfold data; rewrite <- !app_assoc; apply u16_at; [exact LH|unfold word16; lia]).
    unfold bof_version. cbv zeta. rewrite U'. destruct V as [<-|[<-|[<-|[]]]]; reflexivity. }
  rewrite record_size, Z.add_assoc. rewrite <- BV.
  apply getbof_any; [destruct V as [<-|[<-|[<-|[]]]]; cbn; auto|lia|exact F|].
  right. rewrite BV. split; [destruct V as [<-|[<-|[<-|[]]]]; reflexivity|exact U].
Qed.
Lemma early_sheet_ok dec country S mem rest : good_single dec country S -> from mem 0 (file_bytes S ++ rest) ->
  exists sh b, old_sheet dec mem 0 (new_obook (if e_version S =? 2 then 21 else wide (e_version S))) = Ok (sh, b) /\
    o_datemode b = date_mode (e_entries S) /\ shows_cells (cells S (date_key (e_entries S))) sh.
Proof.
  intros (V & LH & SM & GG & (a & b & E & OA & OB) & AN) F. unfold file_bytes in F. rewrite <- !app_assoc in F.
  destruct (early_bof _ _ _ _ _ _ 0x10 V LH SM (or_intror eq_refl) F) as [B F1]. clear F. set (pos := 0 + size _) in *. set (L := e_entries S) in *. set (version := e_version S) in *.
  unfold cells. fold L version. assert (V4 : In version [2; 3; 4; 45]) by (cbn [In] in *; lia).
  destruct (cells_after_good dec country version L (date_key L) L [] GG) as [GP GT].
  destruct (shows_built setup0 (cells_after version (date_key L) [] L) eq_refl GP GT) as (g & g' & P & TI & SH). rewrite E in P, F1, AN.
  rewrite cells_after_app, put_all_app in P. destruct (put_all setup0 (cells_after version (date_key (a ++ b)) [] a) new_grid) as [g1 [[]|er]] eqn:P1; [|discriminate P].
  rewrite <- E in P, P1. rewrite flat_map_app, <- app_assoc in F1. unfold pieces in AN. rewrite flat_map_app in AN. fold (pieces a) (pieces b) in AN.
  set (st0 := mkosheet (mkreading new_grid (0, 0) None false) (new_obook (if version =? 2 then 21 else wide version)) None []).
  assert (GA : forall x e y, a = x ++ e :: y -> good_entry dec country version L ([] ++ x) e).
  { intros x e y EA. apply (GG x e (y ++ b)). fold L. rewrite E, EA, <- app_assoc. reflexivity. }
  assert (GB : forall x e y, b = x ++ e :: y -> good_entry dec country version L (a ++ x) e).
  { intros x e y EB. apply (GG (a ++ x) e y). fold L. rewrite E, EB, <- app_assoc. reflexivity. }
  destruct (entries_ok dec version country mem L _ V4 a b [] (pieces b) pos st0 g1 GA E (early_new dec version L V4) F1) as (s1 & E1 & G1 & C1 & A1 & R1);
    [left; reflexivity|right; split; [exact OA|reflexivity]|exact P1|exact AN|].
  pose proof F1 as F0. apply from_next in F1.
  destruct (entries_ok dec version country mem L (eof ++ rest) V4 b [] a [] _ s1 g GB ltac:(rewrite app_nil_r; exact E) E1 F1 C1 (or_introl OB) ltac:(rewrite G1; exact P) ltac:(rewrite app_nil_r; exact A1))
    as (s2 & E2 & G2 & C2 & _ & R2).
  exists (sheet_of g'), (with_countries (r_countries (s_reading s2)) (s_book s2)). split; [|split; [|exact SH]].
  - unfold old_sheet. rewrite B. cbn [bind]. change (o_countries (new_obook (if version =? 2 then 21 else wide version))) with (0, 0). fold st0.
    change (o_version (new_obook (if version =? 2 then 21 else wide version))) with (if version =? 2 then 21 else wide version).
    apply from_length in F0. destruct F0 as [P0 L0]. rewrite !size_app in L0. pose proof (entries_length a). pose proof (entries_length b). pose proof (record_4 10 []).
    pose proof (size_pos rest).
    assert (LM : exists k, Datatypes.S (length mem) = (length a + (length b + Datatypes.S k))%nat).
    { exists (length mem - length a - length b)%nat. unfold size in L0 at 1. change (record 10 []) with eof in *. lia. }
    destruct LM as [k LM]. rewrite LM, R1, R2. apply from_next in F1.
    cbn [old_loop]. unfold eof in F1. destruct (get_record_ok _ _ 10 [] _ ltac:(unfold word16; lia) ltac:(unfold short, size; cbn; lia) F1) as [R _].
    rewrite R. cbn [bind Z.eqb Pos.eqb]. cbv zeta. rewrite G2, tidy_setup, TI. reflexivity.
  - cbn [with_countries o_datemode]. rewrite (ea_datemode _ _ _ _ _ E2), E. reflexivity.
Qed.

Lemma early_opened dec country S mem rest : good_single dec country S -> from mem 0 (file_bytes S ++ rest) ->
  exists sh, old_opened dec mem 0 = Ok (mkbook [lit "Sheet 1"] [sh] (date_mode (e_entries S))) /\
    shows_cells (cells S (date_key (e_entries S))) sh.
Proof.
  intros G F. destruct (early_sheet_ok dec country S mem rest G F) as (sh & b & E & D & SH). exists sh. split; [|exact SH].
  pose proof G as (V & LH & SM & _). unfold file_bytes in F. rewrite <- !app_assoc in F.
  destruct (early_bof _ _ _ _ _ _ 5 V LH SM (or_introl eq_refl) F) as [B _]. unfold old_opened. rewrite B. cbn [bind].
  set (v := if e_version S =? 2 then 21 else wide (e_version S)) in *.
  assert (VV : v = 21 \/ v = 30 \/ v = 40) by (unfold v; destruct V as [<-|[<-|[<-|[]]]]; auto).
  replace (v =? 0) with false by lia. replace (v =? 80) with false by lia. unfold open_old. replace (v <=? 40) with true by lia. rewrite E. cbn [bind]. rewrite D. reflexivity.
Qed.
