(** * Lemmas about BiffOld.v for BIFF 4W *)

From Coq Require Import ZifyBool ZifyNat ZifyN.
From Verif Require XlNames SpecNames NamesProofs XlObjects SpecObjects ObjectsProofs.
From Verif Require Import PyBase PyBaseFacts PyFloat PyText NumPy Dbf SpecDbf DbfProofs Dicts Pack ReadXl XlStruct CompDoc SpecCompDoc
  CompDocProofs SpecSst Sst SstProofs SstThms SpecDoc DocProofs FmtDate FmtDateThms SpecXl XlSheet SpecXlSheet XlSheetProofs
  XlSheetThms SpecFmtDate Biff SpecBiff BiffProofs BiffOld SpecOld OldProofs SpecEarly EarlyProofs SpecXlw.
From Verif Require SoundOld.
Open Scope nat_scope.
Open Scope Z_scope.

(** ** What has been said before a sheet *)

Lemma infos_map l : infos (map Info l) = l.
Proof. induction l as [|g l IH]; [reflexivity|]. cbn [map infos flat_map app]. fold (infos (map Info l)). rewrite IH. reflexivity. Qed.
Lemma infos_app a b : infos (a ++ b) = infos a ++ infos b.
Proof. apply flat_map_app. Qed.
Lemma fmts_map l : fmts (map Info l) = [].
Proof. induction l as [|g l IH]; [reflexivity|exact IH]. Qed.
Lemma keys_map v l : keys v (map Info l) = [].
Proof. induction l as [|g l IH]; [reflexivity|exact IH]. Qed.
Lemma chosen_map l : chosen (map Info l) = None.
Proof. unfold chosen. induction l as [|g l IH]; [reflexivity|exact IH]. Qed.
Lemma cell2_map l : existsb is_cell2 (map Info l) = false.
Proof. induction l as [|g l IH]; [reflexivity|exact IH]. Qed.
Lemma cells_map l : Forall (fun e => is_cells e = false) (map Info l).
Proof. induction l as [|g l IH]; constructor; [reflexivity|exact IH]. Qed.
Lemma fmts_around p e q : fmts (map Info p ++ e ++ map Info q) = fmts e.
Proof. unfold fmts. rewrite !flat_map_app. fold (fmts (map Info p)) (fmts (map Info q)). rewrite !fmts_map. apply app_nil_r. Qed.
Lemma date_around p e q : date_key (map Info p ++ e ++ map Info q) = date_key e.
Proof. unfold date_key. rewrite fmts_around. reflexivity. Qed.
Lemma cells_around date p : forall e b, cells_after 45 date (map Info p ++ b) e = cells_after 45 date b e.
Proof.
  induction e as [|x e IH]; intro b; [reflexivity|]. cbn [cells_after]. rewrite <- app_assoc, IH. f_equal.
  assert (K : forall v, keys v (map Info p ++ b) = keys v b) by (intro v; unfold keys; rewrite flat_map_app; fold (keys v (map Info p)); rewrite keys_map; reflexivity).
  assert (C : chosen (map Info p ++ b) = chosen b).
  { unfold chosen. rewrite fold_left_app. fold (chosen (map Info p)). rewrite chosen_map. reflexivity. }
  destruct x; cbn [entry_cells]; try reflexivity.
  - unfold format_key, xf_of. rewrite K, C. reflexivity.
  - rewrite K. reflexivity.
Qed.
Lemma mode_app a b : date_mode (a ++ b) = fold_left (fun m e => match e with Info (SpecOld.Datemode n _) => n | _ => m end) b (date_mode a).
Proof. unfold date_mode. apply fold_left_app. Qed.
Definition mode_of (l : list global) : Z := fold_left (fun m g => match g with SpecOld.Datemode n _ => n | _ => m end) l 0.
Lemma mode_infos l : date_mode l = mode_of (infos l).
Proof.
  unfold date_mode, mode_of. generalize 0. induction l as [|e l IH]; intro m; [reflexivity|].
  cbn [fold_left infos flat_map]. rewrite fold_left_app. fold (infos l). rewrite IH. destruct e as [[]| | | | | | |]; reflexivity.
Qed.

Lemma early_started dec P L b : o_version b = 45 -> o_looks b = new_looks -> o_datemode b = mode_of P ->
  coding_ok dec (infos L) P (o_coding b) -> o_strings b = [] ->
  early dec 45 L (map Info P) (mkosheet (mkreading new_grid (o_countries b) None false) b None []).
Proof.
  intros V K D C S.
  assert (FK : faked (map Info P) = false) by (unfold faked; rewrite cell2_map; reflexivity).
  constructor; cbn [s_book s_attrs s_ixfe]; rewrite ?FK, ?fmts_map, ?keys_map, ?chosen_map, ?cell2_map, ?infos_map; try assumption; try reflexivity; try discriminate.
  - rewrite mode_infos, infos_map. exact D.
  - rewrite K. reflexivity.
  - intros key _. rewrite K. cbn. destruct (Z.to_nat key); reflexivity.
  - intros _. split; [reflexivity|]. split; [rewrite K; reflexivity|]. intros xf X. cbn in X. lia.
  - constructor.
Qed.

Lemma bof4 head more mem pos rest rqd v : length head = 2%nat -> size more <= 16 ->
  (v = 40 /\ rqd = 0x10) \/ (v = 45 /\ rqd = 5) ->
  let data := head ++ le_bytes 2 (if v =? 40 then 0x10 else 0x100) ++ more in
  from mem pos (record 0x409 data ++ rest) ->
  getbof mem pos rqd = Ok (v, pos + size (record 0x409 data)) /\ from mem (pos + size (record 0x409 data)) rest.
Proof.
  intros LH SM V data F. pose proof (size_pos more).
  set (t := if v =? 40 then 0x10 else 0x100) in *. assert (WT : word16 t) by (unfold word16, t; destruct (v =? 40); lia).
  assert (SD : size data = 4 + size more) by (unfold data; rewrite !size_app, size_bytes, (size_of _ _ LH); lia).
  assert (U : u16 2 data = t) by (unfold data; apply u16_at; [exact LH|exact WT]).
  assert (BV : bof_version 0x409 (data ++ padding 0x409 data) = v).
  { assert (U' : forall x, u16 2 (data ++ x) = t) by (intro x; unfold data; rewrite <- !app_assoc; apply u16_at; [exact LH|exact WT]).
    unfold bof_version. cbv zeta. rewrite U'. unfold t. destruct V as [[-> _]|[-> _]]; reflexivity. }
  rewrite record_size, Z.add_assoc.
  pose proof (getbof_all mem pos 0x409 data rest rqd ltac:(cbn; auto) ltac:(lia) F) as Q. cbv zeta in Q. rewrite BV in Q. apply Q.
  destruct V as [[-> ->]|[-> ->]]; [left; exact U|right; right; auto].
Qed.

Lemma wide_sheet_ok dec country P Q s mem pos rest b : good_sheet4 dec country P Q s -> from mem pos (sheet4_bytes s ++ rest) ->
  o_version b = 45 -> o_looks b = new_looks -> o_datemode b = mode_of P -> coding_ok dec (P ++ infos (x_entries s) ++ Q) P (o_coding b) ->
  o_strings b = [] -> countries_ok country (o_countries b) ->
  exists sh b', old_sheet dec mem pos b = Ok (sh, b') /\ o_version b' = 45 /\ o_datemode b' = mode_of (P ++ infos (x_entries s)) /\
    coding_ok dec (P ++ infos (x_entries s) ++ Q) (P ++ infos (x_entries s)) (o_coding b') /\ o_strings b' = [] /\
    countries_ok country (o_countries b') /\ shows_cells (cells4 s (date_key (x_entries s))) sh.
Proof.
  intros (LH & SM & GG & (a & b2 & E & OA & OB) & AN) F V K D CO S CN. unfold sheet4_bytes in F. rewrite <- !app_assoc in F.
  destruct (bof4 _ _ _ _ _ 0x10 40 LH SM (or_introl (conj eq_refl eq_refl)) F) as [B F1]. clear F. set (pos1 := pos + size _) in *.
  set (EN := x_entries s) in *. set (L := map Info P ++ EN ++ map Info Q) in *.
  assert (IL : infos L = P ++ infos EN ++ Q) by (unfold L; rewrite !infos_app, !infos_map; reflexivity).
  rewrite <- IL in *.
  destruct (cells_after_good dec country 45 L (date_key L) EN (map Info P) GG) as [GP GT].
  destruct (shows_built setup0 (cells_after 45 (date_key L) (map Info P) EN) eq_refl GP GT) as (g & g' & PA & TI & SH).
  assert (CE : cells_after 45 (date_key L) (map Info P) EN = cells4 s (date_key EN)).
  { unfold L. rewrite date_around. pose proof (cells_around (date_key EN) P EN []) as H. rewrite app_nil_r in H. exact H. }
  rewrite CE in SH. rewrite E in PA, F1, AN.
  rewrite cells_after_app, put_all_app in PA. destruct (put_all setup0 (cells_after 45 (date_key L) (map Info P) a) new_grid) as [g1 [[]|er]] eqn:P1; [|discriminate PA].
  rewrite flat_map_app, <- app_assoc in F1. unfold pieces in AN. rewrite flat_map_app in AN. fold (pieces a) (pieces b2) in AN.
  assert (V4 : In 45 [2; 3; 4; 45]) by (cbn; auto).
  assert (GA : forall x e y, a = x ++ e :: y -> good_entry dec country 45 L (map Info P ++ x) e).
  { intros x e y EA. apply (GG x e (y ++ b2)). rewrite E, EA, <- app_assoc. reflexivity. }
  assert (GB : forall x e y, b2 = x ++ e :: y -> good_entry dec country 45 L ((map Info P ++ a) ++ x) e).
  { intros x e y EB. rewrite <- app_assoc. apply (GG (a ++ x) e y). rewrite E, EB, <- app_assoc. reflexivity. }
  assert (LE : L = map Info P ++ a ++ b2 ++ map Info Q) by (unfold L; rewrite E, <- app_assoc; reflexivity).
  set (st0 := mkosheet (mkreading new_grid (o_countries b) None false) b None []).
  assert (EA : early dec 45 L (map Info P) st0) by (apply early_started; assumption).
  destruct (entries_ok dec 45 country mem L _ V4 a (b2 ++ map Info Q) (map Info P) (pieces b2) pos1 st0 g1 GA LE EA F1 CN) as (s1 & E1 & G1 & C1 & A1 & R1).
  { right. split; [apply Forall_app; split; [apply cells_map|exact OA]|reflexivity]. }
  { exact P1. }
  { exact AN. }
  pose proof F1 as F0. apply from_next in F1.
  destruct (entries_ok dec 45 country mem L (eof ++ rest) V4 b2 (map Info Q) (map Info P ++ a) [] (pos1 + size (flat_map entry_bytes a)) s1 g GB ltac:(rewrite <- app_assoc; exact LE) E1 F1 C1 (or_introl OB) ltac:(rewrite G1; exact PA) ltac:(rewrite app_nil_r; exact A1))
    as (s2 & E2 & G2 & C2 & _ & R2).
  rewrite <- app_assoc, <- E in E2.
  exists (sheet_of g'), (with_countries (r_countries (s_reading s2)) (s_book s2)). split.
  { unfold old_sheet. rewrite B. cbn [bind]. fold st0. rewrite V.
    apply from_length in F0. destruct F0 as [P0 L0]. rewrite !size_app in L0. pose proof (entries_length a). pose proof (entries_length b2). pose proof (record_4 10 []).
    pose proof (size_pos rest).
    assert (LM : exists k, Datatypes.S (length mem) = (length a + (length b2 + Datatypes.S k))%nat).
    { exists (length mem - length a - length b2)%nat. unfold size in L0 at 1. change (record 10 []) with eof in *. lia. }
    destruct LM as [k LM]. cbn [Z.eqb Pos.eqb wide] in R1, R2. change (wide 45) with 45 in R1, R2. rewrite LM, R1, R2. apply from_next in F1.
    cbn [old_loop]. unfold eof in F1. destruct (get_record_ok _ _ 10 [] _ ltac:(unfold word16; lia) ltac:(unfold short, size; cbn; lia) F1) as [R _].
    rewrite R. cbn [bind Z.eqb Pos.eqb]. cbv zeta. rewrite G2, tidy_setup, TI. reflexivity. }
  destruct E2 as [H1 H2 H3 H4 _ _ _ _ _ _ _ _ _]. rewrite mode_infos in H2. rewrite infos_app, infos_map in H2, H3.
  cbn [with_countries o_version o_datemode o_coding o_strings o_countries]. auto 10.
Qed.

(** ** Globals *)

Record knows4 (dec : decoder) (country : Z * Z) (L l : list part) (b : obook) : Prop := mkknows4 {
  k4_version : o_version b = 45;
  k4_mode : o_datemode b = mode_of (said l);
  k4_dates : o_datemode b = 0 \/ o_datemode b = 1;
  k4_coding : coding_ok dec (said L) (said l) (o_coding b);
  k4_strings : o_strings b = [];
  k4_country : countries_ok country (o_countries b);
  k4_names : map fst (o_sheets b) = names l;
  k4_start : o_sheets b = [] -> (exists z, In (Start z) l) -> o_offset b <> None;
  k4_read : Forall2 (fun s sh => shows_cells (cells4 s (date_key (x_entries s))) sh) (sheets l) (o_read b);
  k4_list : f_list (o_refs b) = [];
  k4_unplaced : (forall z, ~ In (Start z) l) -> sheets l = [] -> o_offset b = None
}.
Lemma said_snoc l p : said (l ++ [p]) = said l ++ match p with Said g => lasts g | Sheet _ _ s _ => infos (x_entries s) | _ => [] end.
Proof. unfold said. rewrite flat_map_app. cbn [flat_map]. rewrite app_nil_r. reflexivity. Qed.
Lemma names4_snoc l p : names (l ++ [p]) = names l ++ match p with Bound _ name _ => [name] | _ => [] end.
Proof. unfold names. rewrite flat_map_app. cbn [flat_map]. rewrite app_nil_r. reflexivity. Qed.
Lemma sheets4_snoc l p : sheets (l ++ [p]) = sheets l ++ match p with Sheet _ _ s _ => [s] | _ => [] end.
Proof. unfold sheets. rewrite flat_map_app. cbn [flat_map]. rewrite app_nil_r. reflexivity. Qed.
Lemma start_snoc l p : (forall z, p <> Start z) -> (exists z, In (Start z) (l ++ [p])) -> exists z, In (Start z) l.
Proof. intros N [z I]. exists z. apply in_app_iff in I. destruct I as [I|[I|[]]]; [exact I|]. destruct (N z I). Qed.
Lemma mode_of_app a b : mode_of (a ++ b) = fold_left (fun m g => match g with SpecOld.Datemode n _ => n | _ => m end) b (mode_of a).
Proof. apply fold_left_app. Qed.

(** Steps that leave the sheets alone. *)
Definition calm (p : part) : Prop := match p with Said _ | Other _ _ => True | _ => False end.
Lemma knows4_calm dec country L l p b b' : knows4 dec country L l b -> calm p ->
  o_version b' = o_version b -> o_datemode b' = mode_of (said (l ++ [p])) -> o_datemode b' = 0 \/ o_datemode b' = 1 ->
  coding_ok dec (said L) (said (l ++ [p])) (o_coding b') -> o_strings b' = o_strings b -> countries_ok country (o_countries b') ->
  o_sheets b' = o_sheets b -> o_offset b' = o_offset b -> o_read b' = o_read b -> f_list (o_refs b') = f_list (o_refs b) ->
  knows4 dec country L (l ++ [p]) b'.
Proof.
  intros [K1 K2 K3 K4 K5 K6 K7 K8 K9 K10 K11] CA E1 E2 E3 E4 E5 E6 E7 E8 E9 E10.
  constructor; rewrite ?E1, ?E5, ?E7, ?E8, ?E9, ?E10; try assumption.
  - rewrite names4_snoc. destruct p; try contradiction CA; rewrite app_nil_r; exact K7.
  - intros N H. apply K8; [exact N|]. eapply start_snoc; [|exact H]. intros z ->. exact CA.
  - rewrite sheets4_snoc. destruct p; try contradiction CA; rewrite app_nil_r; exact K9.
  - intros N E. apply K11; [intros z I; exact (N z (in_or_app _ _ _ (or_introl I)))|]. rewrite sheets4_snoc in E. destruct p; try contradiction CA; rewrite app_nil_r in E; exact E.
Qed.
Lemma said_kept l p : said (l ++ [p]) = said l -> mode_of (said (l ++ [p])) = mode_of (said l).
Proof. intros ->. reflexivity. Qed.

Lemma said_ok dec country base mem g L l after b pos rest : knows4 dec country L l b -> good_part dec country l (Said g) after ->
  L = l ++ Said g :: after -> from mem pos (global_bytes g ++ rest) ->
  exists b', knows4 dec country L (l ++ [Said g]) b' /\
    forall f, old_globals (S f) dec mem base pos b = old_globals f dec mem base (pos + size (global_bytes g)) b'.
Proof.
  intros K (GK & G) EL F. rewrite <- EL in G. pose proof K as [K1 K2 K3 K4 K5 K6 K7 K8 K9 K10 K11].
  pose proof (said_snoc l (Said g)) as SN.
  destruct g as [offset vis kind raw name extra|key raw fmt extra|font key more|m extra|c extra|x y extra|total table|raw extra|n kind more|nd|code data];
    try contradiction GK; clear GK; cbn [good_global global_bytes lasts] in *.
  - destruct G as (W & D & SR & S). set (data := le_bytes 2 key ++ coded_text 1 raw ++ extra) in *.
    assert (SD : short data).
    { unfold short, data, coded_text in *. rewrite !size_app in *. rewrite !size_bytes. change (size (repeat 0%N 3)) with 3 in S. lia. }
    rewrite app_nil_r in SN. rewrite record_size, Z.add_assoc. destruct (coding_coded dec (said L) (said l) b K4) as (c & CD & CK & PG).
    eexists. split; [|apply (ogstep dec mem base pos 0x41e data rest); [unfold word16; lia|exact SD|lia|exact F|]].
    2: { unfold old_globals_record. cbn [Z.eqb Pos.eqb]. cbv zeta. unfold old_format. cbn [Z.eqb Pos.eqb]. cbv zeta. rewrite CD. cbn [bind with_coding o_coding o_looks].
      replace (50 <=? o_version b) with false by lia. cbn [bind]. replace (o_version b <=? 30) with false by lia. rewrite PG.
      pose proof (old_string_ok dec (page_of (said l)) 1 (le_bytes 2 key) raw fmt extra ltac:(lia) D SR) as Q. fold data in Q. change (size (le_bytes 2 key)) with 2 in Q.
      rewrite Q. cbn [bind]. reflexivity. }
    apply (knows4_calm dec country L l _ b); try exact K; try reflexivity; cbn [with_looks with_coding o_datemode o_coding o_countries]; rewrite ?SN; assumption.
  - destruct G as (M & S). set (data := le_bytes 2 m ++ extra) in *.
    assert (SD : short data).
    { unfold short, data in *. rewrite !size_app in *. rewrite size_bytes. change (size (repeat 0%N 2)) with 2 in S. lia. }
    rewrite record_size, Z.add_assoc.
    exists (with_datemode m b). split; [|apply (ogstep dec mem base pos 0x22 data rest); [unfold word16; lia|exact SD|lia|exact F|]].
    2: { unfold old_globals_record. cbn [Z.eqb Pos.eqb]. cbv zeta. unfold old_datemode. change (sized 2 (bytes_at 0 2 data)) with (@Ok unit tt). cbn [bind].
      unfold data. rewrite u16_first by (unfold word16; lia). cbv zeta. replace ((m =? 0) || (m =? 1)) with true by lia. reflexivity. }
    apply (knows4_calm dec country L l _ b); try exact K; try reflexivity; cbn [with_datemode o_datemode o_coding o_countries]; try assumption.
    + rewrite SN, mode_of_app. reflexivity.
    + rewrite SN. apply coding_other; [discriminate|exact K4].
  - destruct G as (U & S). set (data := le_bytes 2 c ++ extra) in *.
    assert (SD : short data).
    { unfold short, data in *. rewrite !size_app in *. rewrite size_bytes. change (size (repeat 0%N 2)) with 2 in S. lia. }
    rewrite record_size, Z.add_assoc. assert (W : word16 c). { unfold word16. cbn [In usual] in U. lia. }
    assert (GI : In (Codepage c extra) (said L)).
    { rewrite EL. unfold said. apply in_flat_map. exists (Said (Codepage c extra)). split; [apply in_elt|left; reflexivity]. }
    assert (PS : page_of (said (l ++ [Said (Codepage c extra)])) = Some c) by (rewrite SN; unfold page_of; rewrite fold_left_app; reflexivity).
    assert (CK : coding_ok dec (said L) (said (l ++ [Said (Codepage c extra)])) (mkcoding (Some c) (c_set (o_coding b)) (c_user (o_coding b)))).
    { destruct K4 as (_ & _ & _ & KU). unfold coding_ok. cbn [c_page c_user]. split; [symmetry; exact PS|]. split; [intros p [= <-]; exact U|].
      split; [right; exists c, extra; split; [reflexivity|exact GI]|exact KU]. }
    eexists. split; [|apply (ogstep dec mem base pos 0x42 data rest); [unfold word16; lia|exact SD|lia|exact F|]].
    2: { unfold old_globals_record. cbn [Z.eqb Pos.eqb]. cbv zeta. unfold old_codepage. change (sized 2 (bytes_at 0 2 data)) with (@Ok unit tt). cbn [bind].
      unfold data at 1. rewrite u16_first by exact W. cbv zeta. unfold derived. cbn [with_coding o_coding]. rewrite (old_derive_ok _ _ _ _ CK). reflexivity. }
    apply (knows4_calm dec country L l _ b); try exact K; try reflexivity; cbn [with_coding o_datemode o_coding o_countries]; try assumption.
    + rewrite SN, mode_of_app. exact K2.
    + eapply coding_set; exact CK.
  - destruct G as (E & S). subst country. set (data := le_bytes 2 x ++ le_bytes 2 y ++ extra) in *.
    assert (SD : short data).
    { unfold short, data in *. rewrite !size_app in *. rewrite !size_bytes. change (size (repeat 0%N 4)) with 4 in S. lia. }
    rewrite app_nil_r in SN. rewrite record_size, Z.add_assoc.
    eexists. split; [|apply (ogstep dec mem base pos 0x8c data rest); [unfold word16; lia|exact SD|lia|exact F|]].
    2: { unfold old_globals_record. cbn [Z.eqb Pos.eqb]. cbv zeta. pose proof (country_ok (x, y) (o_countries b) extra K6) as H. cbn [fst snd] in H. fold data in H. rewrite H. reflexivity. }
    apply (knows4_calm dec (x, y) L l _ b); try exact K; try reflexivity; cbn [with_countries o_datemode o_coding o_countries]; rewrite ?SN; try assumption. right. reflexivity.
  - destruct G as (D & SR & S). set (data := coded_text 1 raw ++ extra) in *.
    assert (SD : short data).
    { unfold short, data, coded_text in *. rewrite !size_app in *. rewrite size_bytes. change (size (repeat 0%N 1)) with 1 in S. lia. }
    rewrite record_size, Z.add_assoc.
    assert (Q : exists c, old_writeaccess dec data b = Ok (with_coding c b) /\ coding_ok dec (said L) (said l) c).
    { unfold old_writeaccess. cbv zeta. destruct (c_set (o_coding b)) eqn:CS.
      - exists (o_coding b). destruct (D (c_page (o_coding b))) as [t D']; [destruct K4 as (_ & _ & UP & _); exact UP|].
        unfold data. rewrite (user_ok _ _ _ _ _ D' SR). cbn [bind]. split; [destruct b; reflexivity|exact K4].
      - eexists. split; [reflexivity|]. destruct K4 as (P & U & UP & _). unfold coding_ok. cbn [c_page c_user]. repeat (split; [assumption|]).
        intros u [= <-]. exists raw, extra. split; [reflexivity|]. split; [exact SR|exact D]. }
    destruct Q as (c & Q & CK).
    exists (with_coding c b). split; [|apply (ogstep dec mem base pos 0x5c data rest); [unfold word16; lia|exact SD|lia|exact F|]].
    2: { unfold old_globals_record. cbn [Z.eqb Pos.eqb]. cbv zeta. rewrite Q. reflexivity. }
    apply (knows4_calm dec country L l _ b); try exact K; try reflexivity; cbn [with_coding o_datemode o_coding o_countries]; try assumption.
    + rewrite SN, mode_of_app. exact K2.
    + rewrite SN. apply coding_other; [discriminate|exact CK].
  - destruct G as (NN & NK & D & S). set (data := n :: kind :: more) in *.
    assert (SD : short data).
    { unfold short, data in *. rewrite size_app in S. change (size (repeat 0%N 2)) with 2 in S. unfold size in *. cbn [length]. lia. }
    rewrite app_nil_r in SN. rewrite record_size, Z.add_assoc.
    set (b1 := with_coding (mkcoding (page_of (said l)) true None) b).
    assert (Q : exists names, (if Z.of_N kind =? 3
        then do s <- dec (page_of (said l)) (pyslice data 2 (Z.of_N n + 2)); Ok (f_names (o_refs b) ++ [(Z.of_nat (length (f_types (o_refs b))) + 1, s)])
        else Ok (f_names (o_refs b))) = Ok names).
    { destruct (Z.eqb_spec (Z.of_N kind) 3) as [EK|_]; [|eexists; reflexivity]. destruct (D ltac:(lia)) as [t D'].
      replace (pyslice data 2 (Z.of_N n + 2)) with (firstn (N.to_nat n) more) by (symmetry; apply slice_two). rewrite D'. cbn [bind].
      eexists. reflexivity. }
    destruct Q as (names & Q1).
    exists (with_refs (mkrefs (f_map (o_refs b)) (f_types (o_refs b) ++ [type_of kind]) names (f_list (o_refs b))) b1).
    split; [|apply (ogstep dec mem base pos 0x17 data rest); [unfold word16; lia|exact SD|lia|exact F|]].
    2: { unfold old_globals_record. cbn [Z.eqb Pos.eqb]. cbv zeta. unfold old_externsheet, derived. rewrite (old_derive_ok dec (said L) (said l) _ K4). fold b1. cbn [bind].
      change (sized 2 (bytes_at 0 2 data)) with (@Ok unit tt). cbn [bind].
      assert (B1 : le_value (bytes_at 1 1 data) = Z.of_N kind) by (cbn; lia). assert (B0 : le_value (bytes_at 0 1 data) = Z.of_N n) by (cbn; lia).
      cbv zeta. rewrite B1, B0. change (c_page (o_coding b1)) with (page_of (said l)). change (o_refs b1) with (o_refs b). match goal with |- bind (bind ?x _) _ = _ => replace x with (@Ok (list (Z * str)) names) by (symmetry; exact Q1) end. reflexivity. }
    apply (knows4_calm dec country L l _ b); try exact K; try reflexivity; cbn [with_refs b1 with_coding o_datemode o_coding o_countries]; rewrite ?SN; try assumption.
    eapply coding_set; exact K4.
Qed.

Lemma le_signed4 z : - 2 ^ 31 <= z < 2 ^ 31 -> le_signed (le_bytes 4 z) = z.
Proof. intro H. apply le_signed_bytes. unfold is_int. lia. Qed.

Lemma part_ok dec country base mem p L l after b pos rest : knows4 dec country L l b -> good_part dec country l p after ->
  L = l ++ p :: after -> from mem pos (part_bytes p ++ rest) ->
  exists b', knows4 dec country L (l ++ [p]) b' /\
    forall f, old_globals (S f) dec mem base pos b = old_globals f dec mem base (pos + size (part_bytes p)) b'.
Proof.
  intros K G EL F. destruct p as [g|z|raw name extra|raw extra s gap|code data]; [eapply said_ok; eassumption| | | |]; pose proof K as [K1 K2 K3 K4 K5 K6 K7 K8 K9 K10 K11];
    cbn [good_part part_bytes] in *.
  - pose proof (said_snoc l (Start z)) as SN. rewrite app_nil_r in SN. rewrite record_size, Z.add_assoc.
    exists (with_offset (Some z) b). split; [|apply (ogstep dec mem base pos 0x8e (le_bytes 4 z) rest); [unfold word16; lia|unfold short; rewrite size_bytes; lia|lia|exact F|]].
    2: { unfold old_globals_record. cbn [Z.eqb Pos.eqb]. cbv zeta. unfold sized. rewrite le_bytes_length. cbn [Nat.eqb bind]. rewrite le_signed4 by exact G. reflexivity. }
    constructor; cbn [with_offset o_version o_datemode o_coding o_strings o_countries o_sheets o_offset o_read o_refs]; rewrite ?SN, ?names4_snoc, ?sheets4_snoc, ?app_nil_r; try assumption; [discriminate|].
    intros N _. destruct (N z). apply in_elt.
  - destruct G as (D & SR & S & ST). pose proof (said_snoc l (Bound raw name extra)) as SN. rewrite app_nil_r in SN. rewrite record_size, Z.add_assoc.
    set (data := coded_text 1 raw ++ extra) in *.
    assert (SD : short data).
    { unfold short, data, coded_text in *. rewrite !size_app in *. rewrite size_bytes. change (size (repeat 0%N 1)) with 1 in S. lia. }
    set (c := mkcoding (page_of (said l)) true None).
    assert (PL : exists place, match o_sheets b with [] => match o_offset b with Some z => Ok (z + base) | None => Err AttributeError end | _ => Ok (-1) end = @Ok Z place).
    { destruct (o_sheets b) as [|x xs] eqn:ES; [|eexists; reflexivity]. cbn [map] in K7. destruct (o_offset b) as [z|]; [eexists; reflexivity|]. destruct (K8 eq_refl (ST (eq_sym K7)) eq_refl). }
    destruct PL as [place PL].
    exists (with_sheets (o_sheets b ++ [(name, place)]) (with_coding c b)). split; [|apply (ogstep dec mem base pos 0x85 data rest); [unfold word16; lia|exact SD|lia|exact F|]].
    2: { unfold old_globals_record. cbn [Z.eqb Pos.eqb]. cbv zeta. unfold old_boundsheet, derived. rewrite (old_derive_ok dec (said L) (said l) _ K4). fold c. cbn [bind with_coding o_version o_coding c_page c].
      rewrite K1. cbn [Z.eqb Pos.eqb]. pose proof (user_ok dec (page_of (said l)) raw extra name D SR) as Q. fold data in Q. rewrite Q. cbn [bind o_sheets o_offset].
      match goal with |- bind (bind ?x _) _ = _ => replace x with (@Ok Z place) by (symmetry; exact PL) end. reflexivity. }
    constructor; cbn [with_sheets with_coding o_version o_datemode o_coding o_strings o_countries o_sheets o_offset o_read o_refs]; rewrite ?SN, ?names4_snoc, ?sheets4_snoc, ?app_nil_r; try assumption.
    + eapply coding_set; exact K4.
    + rewrite map_app, K7. reflexivity.
    + intro N. destruct (o_sheets b); discriminate N.
    + intros N E. apply K11; [|exact E]. intros z I. exact (N z (in_or_app _ _ _ (or_introl I))).
  - destruct G as ((name & NN & D) & SR & S & SL & GS). pose proof (said_snoc l (Sheet raw extra s gap)) as SN. cbn beta iota in SN.
    set (n := size (sheet4_bytes s ++ gap)) in *. set (data := le_bytes 4 n ++ coded_text 1 raw ++ extra) in *.
    assert (N0 : 0 <= n) by (unfold n; apply size_pos).
    assert (SD : short data).
    { unfold short, data, coded_text in *. rewrite !size_app in *. rewrite !size_bytes. change (size (repeat 0%N 5)) with 5 in S. lia. }
    set (c := mkcoding (page_of (said l)) true None). set (b1 := with_looks new_looks (with_coding c b)).
    assert (SE : said L = said l ++ infos (x_entries s) ++ said after) by (rewrite EL; unfold said; rewrite flat_map_app; reflexivity).
    rewrite <- !app_assoc in F. pose proof F as F1. apply from_next in F1.
    destruct (wide_sheet_ok dec country (said l) (said after) s mem (pos + size (record 0x8f data)) (gap ++ rest) b1 GS F1) as (sh & b2 & E & V2 & D2 & C2 & S2 & N2 & SH); try assumption; try reflexivity.
    { rewrite <- SE. eapply coding_set; exact K4. }
    pose (fit := fun (_ : Z) (_ : val) => True).
    assert (FI : SoundOld.fine fit b1).
    { constructor; [exact K3|split; unfold fit; auto|left; intro x; exact I]. }
    destruct (SoundOld.old_sheet_sound fit dec mem _ b1 sh b2 I FI E) as (GO & _ & _).
    pose proof (SoundOld.go_sheets _ _ _ GO) as GSH. pose proof (SoundOld.go_read _ _ _ GO) as GRD.
    pose proof (SoundOld.fi_dates _ _ (SoundOld.go_fine _ _ _ GO FI)) as GD.
    assert (GL : f_list (o_refs b2) = []) by (rewrite (SoundOld.go_names _ _ _ GO); [exact K10|change (o_version b1) with (o_version b); lia]).
    change (o_sheets b1) with (o_sheets b) in GSH. change (o_read b1) with (o_read b) in GRD.
    exists (with_read (o_read b2 ++ [sh]) b2). split.
    + constructor; cbn [with_read o_version o_datemode o_coding o_strings o_countries o_sheets o_offset o_read o_refs]; rewrite ?SN, ?names4_snoc, ?sheets4_snoc, ?app_nil_r; try assumption.
      * rewrite <- SE in C2. exact C2.
      * rewrite GSH. exact K7.
      * rewrite GSH. intro NE. rewrite NE in K7. cbn [map] in K7. rewrite <- K7 in NN. destruct (length (sheets l)); discriminate NN.
      * rewrite GRD. apply Forall2_app; [exact K9|]. constructor; [exact SH|constructor].
      * intros _ E0. destruct (sheets l); discriminate E0.
    + intro f. rewrite size_app. fold n. rewrite record_size. 
      apply (ogstep dec mem base pos 0x8f data (sheet4_bytes s ++ gap ++ rest)); [unfold word16; lia|exact SD|lia|exact F|].
      unfold old_globals_record. cbn [Z.eqb Pos.eqb]. cbv zeta. unfold old_sheethdr, derived. rewrite (old_derive_ok dec (said L) (said l) _ K4). fold c. cbn [bind with_coding o_coding c_page c].
      change (sized 4 (bytes_at 0 4 data)) with (@Ok unit tt). cbn [bind].
      pose proof (old_string_ok dec (page_of (said l)) 1 (le_bytes 4 n) raw name extra ltac:(lia) D SR) as Q. fold data in Q. change (size (le_bytes 4 n)) with 4 in Q. rewrite Q. cbn [bind o_sheets o_read].
      assert (LR : length (o_read b) = length (sheets l)) by (clear - K9; induction K9; cbn [length]; congruence).
      assert (NE : exists place, nth_error (o_sheets b) (length (o_read b)) = Some (name, place)).
      { rewrite LR. rewrite <- K7, nth_error_map in NN. destruct (nth_error (o_sheets b) (length (sheets l))) as [[nm place]|]; [|discriminate NN]. injection NN as ->. exists place. reflexivity. }
      destruct NE as [place NE].
      match goal with |- match ?x with _ => _ end = _ => replace x with (Some (name, place)) by (symmetry; exact NE) end.
      rewrite str_eqb_refl. cbn [negb].
      rewrite record_size, Z.add_assoc in E.
      match goal with |- bind ?x _ = _ => replace x with (@Ok (sheet * obook) (sh, b2)) by (symmetry; exact E) end. cbn [bind].
      change (bytes_at 0 4 data) with (le_bytes 4 n). rewrite le_signed4 by lia. f_equal. f_equal. lia.
  - destruct G as (W & S & N). cbn [In codes4] in N. rewrite record_size, Z.add_assoc.
    exists b. split; [|apply (ogstep dec mem base pos code data rest); [exact W|exact S|lia|exact F|]].
    2: { unfold old_globals_record. cbv zeta. destruct (Z.eqb_spec code 0x18) as [->|N18].
      - cbn [Z.eqb Pos.eqb]. unfold old_name. rewrite K1. reflexivity.
      - repeat match goal with |- (if ?c then _ else _) = _ => replace c with false by lia end. reflexivity. }
    pose proof (said_snoc l (Other code data)) as SN. rewrite app_nil_r in SN.
    apply (knows4_calm dec country L l _ b); try exact K; try reflexivity; rewrite ?SN; assumption.
Qed.

Lemma part_4 p : 4 <= size (part_bytes p).
Proof.
  destruct p as [g|z|raw name extra|raw extra s gap|code data]; cbn [part_bytes]; try apply record_4.
  - pose proof (entry_4 (Info g)) as H. exact H.
  - rewrite size_app. match goal with |- context [size (record ?c ?d) + size ?x] => pose proof (record_4 c d); pose proof (size_pos x) end. lia.
Qed.
Lemma parts_ok dec country base mem rest L : (forall before p after, L = before ++ p :: after -> good_part dec country before p after) ->
  forall l2 l1 b pos, L = l1 ++ l2 -> knows4 dec country L l1 b -> from mem pos (flat_map part_bytes l2 ++ rest) ->
  exists b', knows4 dec country L L b' /\ 4 * Z.of_nat (length l2) <= size (flat_map part_bytes l2) /\
    forall f, old_globals (length l2 + f) dec mem base pos b = old_globals f dec mem base (pos + size (flat_map part_bytes l2)) b'.
Proof.
  intros G. induction l2 as [|p l2 IH]; intros l1 b pos E K F; cbn [flat_map length] in *.
  - exists b. rewrite app_nil_r in E. subst l1. split; [exact K|]. split; [unfold size; cbn; lia|]. intro f. change (size []) with 0. rewrite Z.add_0_r. reflexivity.
  - rewrite <- app_assoc in F. pose proof (G _ _ _ E) as G1.
    destruct (part_ok dec country base mem p L l1 l2 b pos (flat_map part_bytes l2 ++ rest) K G1 E F) as (b1 & K1 & R1).
    apply from_next in F. destruct (IH (l1 ++ [p]) b1 _ ltac:(rewrite <- app_assoc; exact E) K1 F) as (b2 & K2 & L2 & R2).
    exists b2. split; [exact K2|]. rewrite size_app. pose proof (part_4 p). split; [lia|]. intro f. cbn [Nat.add]. rewrite R1, R2. f_equal. lia.
Qed.

(** What opening makes of some good parts and what follows them. *)
Lemma parts_opened dec country W mem base rest : good_book4 dec country W ->
  from mem base (record 0x409 (q_head W ++ le_bytes 2 0x100 ++ q_more W) ++ flat_map part_bytes (q_parts W) ++ rest) -> 4 <= size rest ->
  exists b pos f, knows4 dec country (q_parts W) (q_parts W) b /\ from mem pos rest /\ getbof mem base 5 = Ok (45, base + size (record 0x409 (q_head W ++ le_bytes 2 0x100 ++ q_more W))) /\ old_opened dec mem base = (do b <- old_globals (S f) dec mem base pos b; Ok (mkbook (map fst (o_sheets b)) (o_read b) (o_datemode b))).
Proof.
  intros (LH & SM & GG) F S4.
  destruct (bof4 _ _ _ _ _ 5 45 LH SM (or_intror (conj eq_refl eq_refl)) F) as [B F1]. clear F. set (pos := base + size _) in *. set (L := q_parts W) in *.
  destruct (parts_ok dec country base mem rest L GG L [] (new_obook 45) pos eq_refl) as (b & K & LL & R).
  { constructor; try reflexivity; [left; reflexivity| |left; reflexivity|intros _ [z []]|constructor]. repeat split; try discriminate. left. reflexivity. }
  { exact F1. }
  pose proof F1 as F0. apply from_length in F0. destruct F0 as [P0 P1]. rewrite !size_app in P1.
  assert (LM : exists k, S (2 * length mem) = (length L + S k)%nat).
  { exists (2 * length mem - length L)%nat. unfold size in P1 at 1. unfold L in *. lia. }
  destruct LM as [k LM]. exists b, (pos + size (flat_map part_bytes L)), k. split; [exact K|]. split; [apply from_next in F1; exact F1|]. split; [exact B|].
  unfold old_opened. rewrite B. cbn [bind Z.eqb Pos.eqb]. unfold open_old. cbn [Z.leb Z.compare Pos.compare Pos.compare_cont]. rewrite LM, R. reflexivity.
Qed.

Lemma wide_opened dec country W mem base rest : good_book4 dec country W -> from mem base (book4_bytes W ++ rest) ->
  exists shs, old_opened dec mem base = Ok (mkbook (names (q_parts W)) shs (mode4 W)) /\
    Forall2 (fun s sh => shows_cells (cells4 s (date_key (x_entries s))) sh) (sheets (q_parts W)) shs.
Proof.
  intros G F. unfold book4_bytes in F. rewrite <- !app_assoc in F.
  destruct (parts_opened dec country W mem base (eof ++ rest) G F) as (b & pos & f & K & F1 & _ & O).
  { rewrite size_app. pose proof (size_pos rest). change (size eof) with 4. lia. }
  destruct K as [K1 K2 K3 K4 K5 K6 K7 K8 K9 K10 K11]. set (L := q_parts W) in *.
  destruct (coding_coded dec (said L) (said L) (old_epilogue b) K4) as (c & CD & CK & PG).
  exists (o_read b). split; [|exact K9]. rewrite O. cbn [old_globals]. unfold eof in F1.
  destruct (get_record_ok _ _ 10 [] _ ltac:(unfold word16; lia) ltac:(unfold short, size; cbn; lia) F1) as [RR _]. rewrite RR. cbn [bind Z.eqb Pos.eqb].
  cbv zeta. change (f_list (o_refs (old_epilogue b))) with (f_list (o_refs b)). rewrite K10.
  assert (NM : exists nm, XlNames.names_epilogue (old_links dec (old_epilogue b)) [] = Ok nm) by (eexists; reflexivity). destruct NM as [nm NM]. rewrite NM. cbn [bind]. rewrite CD. cbn [bind].
  change (o_sheets (with_coding c (old_epilogue b))) with (o_sheets b). change (o_datemode (with_coding c (old_epilogue b))) with (o_datemode b).
  change (o_read (with_coding c (old_epilogue b))) with (o_read b). rewrite K7, K2. reflexivity.
Qed.

(** Sheets have names. *)
Lemma no_more_sheets dec country L : (forall before p after, L = before ++ p :: after -> good_part dec country before p after) ->
  (length (sheets L) <= length (names L))%nat.
Proof.
  assert (H : forall l2 l1, (forall before p after, l1 ++ l2 = before ++ p :: after -> good_part dec country before p after) ->
    (length (sheets l1) <= length (names l1))%nat -> (length (sheets (l1 ++ l2)) <= length (names (l1 ++ l2)))%nat).
  { induction l2 as [|p l2 IH]; intros l1 G LE; [rewrite app_nil_r; exact LE|].
    pose proof (G l1 p l2 eq_refl) as GP. replace (l1 ++ p :: l2) with ((l1 ++ [p]) ++ l2) in * by (rewrite <- app_assoc; reflexivity).
    apply IH; [exact G|]. rewrite sheets4_snoc, names4_snoc, !app_length. destruct p; cbn [length good_part] in *; try lia.
    destruct GP as ((name & NN & _) & _). assert (LT : (length (sheets l1) < length (names l1))%nat) by (apply nth_error_Some; congruence). lia. }
  intro G. exact (H L [] G (Nat.le_refl _)).
Qed.
Lemma no_sheets dec country L : (forall before p after, L = before ++ p :: after -> good_part dec country before p after) ->
  names L = [] -> sheets L = [].
Proof. intros G N. pose proof (no_more_sheets dec country L G) as H. rewrite N in H. destruct (sheets L); [reflexivity|cbn in H; lia]. Qed.

(** The name of the first sheet before the place of the sheets. *)
Lemma unplaced_opened dec country W mem base raw name extra rest : good_book4 dec country W -> names (q_parts W) = [] -> (forall z, ~ In (Start z) (q_parts W)) ->
  dec (page_of (said (q_parts W))) raw = Ok name -> size raw < 256 -> short (repeat 0%N 1 ++ raw ++ extra) ->
  from mem base (record 0x409 (q_head W ++ le_bytes 2 0x100 ++ q_more W) ++ flat_map part_bytes (q_parts W) ++ part_bytes (Bound raw name extra) ++ rest) ->
  old_opened dec mem base = Err AttributeError.
Proof.
  intros G NN NS D SR S F.
  destruct (parts_opened dec country W mem base (part_bytes (Bound raw name extra) ++ rest) G F) as (b & pos & f & K & F1 & _ & O).
  { rewrite size_app. pose proof (size_pos rest). pose proof (part_4 (Bound raw name extra)). lia. }
  destruct K as [K1 K2 K3 K4 K5 K6 K7 K8 K9 K10 K11]. set (L := q_parts W) in *. cbn [part_bytes] in F1.
  set (data := coded_text 1 raw ++ extra) in *.
  assert (SD : short data).
  { unfold short, data, coded_text in *. rewrite !size_app in *. rewrite size_bytes. change (size (repeat 0%N 1)) with 1 in S. lia. }
  destruct (get_record_ok _ _ 0x85 data _ ltac:(unfold word16; lia) SD F1) as [RR _].
  assert (SE : o_sheets b = []) by (destruct (o_sheets b); [reflexivity|rewrite NN in K7; discriminate K7]).
  rewrite O. cbn [old_globals]. rewrite RR. cbn [bind Z.eqb Pos.eqb].
  unfold old_globals_record. cbn [Z.eqb Pos.eqb]. cbv zeta. unfold old_boundsheet, derived. rewrite (old_derive_ok dec (said L) (said L) _ K4). cbn [bind with_coding o_version o_coding c_page].
  rewrite K1. cbn [Z.eqb Pos.eqb]. pose proof (user_ok dec (page_of (said L)) raw extra name D SR) as Q. fold data in Q. rewrite Q. cbn [bind with_coding o_sheets o_offset].
  rewrite SE, K11; [reflexivity|exact NS|]. apply (no_sheets dec country); [exact (proj2 (proj2 G))|exact NN].
Qed.

(** A sheet whose name is not the next of the names. *)
Lemma misnamed_opened dec country W mem base n raw name extra rest : good_book4 dec country W ->
  nth_error (names (q_parts W)) (length (sheets (q_parts W))) <> Some name ->
  dec (page_of (said (q_parts W))) raw = Ok name -> size raw < 256 -> short (repeat 0%N 5 ++ raw ++ extra) ->
  from mem base (record 0x409 (q_head W ++ le_bytes 2 0x100 ++ q_more W) ++ flat_map part_bytes (q_parts W) ++ record 0x8f (le_bytes 4 n ++ coded_text 1 raw ++ extra) ++ rest) ->
  old_opened dec mem base = Err (if Nat.eqb (length (sheets (q_parts W))) (length (names (q_parts W))) then IndexError else AssertionError).
Proof.
  intros G NN D SR S F. set (data := le_bytes 4 n ++ coded_text 1 raw ++ extra) in *.
  destruct (parts_opened dec country W mem base (record 0x8f data ++ rest) G F) as (b & pos & f & K & F1 & _ & O).
  { rewrite size_app. pose proof (size_pos rest). pose proof (record_4 0x8f data). lia. }
  destruct K as [K1 K2 K3 K4 K5 K6 K7 K8 K9 K10 K11]. set (L := q_parts W) in *.
  assert (SD : short data).
  { unfold short, data, coded_text in *. rewrite !size_app in *. rewrite !size_bytes. change (size (repeat 0%N 5)) with 5 in S. lia. }
  destruct (get_record_ok _ _ 0x8f data _ ltac:(unfold word16; lia) SD F1) as [RR _].
  rewrite O. cbn [old_globals]. rewrite RR. cbn [bind Z.eqb Pos.eqb].
  unfold old_globals_record. cbn [Z.eqb Pos.eqb]. cbv zeta. unfold old_sheethdr, derived. rewrite (old_derive_ok dec (said L) (said L) _ K4). cbn [bind with_coding o_coding c_page].
  change (sized 4 (bytes_at 0 4 data)) with (@Ok unit tt). cbn [bind].
  pose proof (old_string_ok dec (page_of (said L)) 1 (le_bytes 4 n) raw name extra ltac:(lia) D SR) as Q. fold data in Q. change (size (le_bytes 4 n)) with 4 in Q. rewrite Q. cbn [bind with_coding o_sheets o_read].
  assert (LR : length (o_read b) = length (sheets L)) by (clear - K9; induction K9; cbn [length]; congruence).
  rewrite LR. rewrite <- K7 in NN |- *. rewrite nth_error_map in NN. rewrite map_length.
  pose proof (no_more_sheets dec country L (proj2 (proj2 G))) as LE. rewrite <- K7, map_length in LE.
  destruct (nth_error (o_sheets b) (length (sheets L))) as [[nm place]|] eqn:NE.
  - assert (LT : (length (sheets L) < length (o_sheets b))%nat) by (apply nth_error_Some; congruence).
    replace (length (sheets L) =? length (o_sheets b))%nat with false by (symmetry; apply Nat.eqb_neq; lia).
    cbn in NN. destruct (str_eqb name nm) eqn:EQ; [|reflexivity]. apply str_eqb_true in EQ. congruence.
  - apply nth_error_None in NE. replace (length (sheets L) =? length (o_sheets b))%nat with true by (symmetry; apply Nat.eqb_eq; lia). reflexivity.
Qed.
