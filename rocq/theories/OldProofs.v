(** * Lemmas about BiffOld.v *)

From Coq Require Import ZifyBool ZifyNat ZifyN.
From Verif Require XlNames SpecNames NamesProofs XlObjects SpecObjects ObjectsProofs.
From Verif Require Import PyBase PyBaseFacts PyFloat PyText NumPy Dbf SpecDbf DbfProofs Dicts Pack ReadXl XlStruct CompDoc SpecCompDoc
  CompDocProofs SpecSst Sst SstProofs SstThms SpecDoc DocProofs FmtDate FmtDateThms SpecXl XlSheet SpecXlSheet XlSheetProofs
  XlSheetThms SpecFmtDate Biff SpecBiff BiffProofs BiffOld SpecOld.
Open Scope nat_scope.
Open Scope Z_scope.

Ltac ulia := unfold str in *; lia.

Lemma size_of (s : str) n : length s = n -> size s = Z.of_nat n.
Proof. intros <-. reflexivity. Qed.

Lemma u16_at (pre : str) n v l : length pre = n -> word16 v -> u16 n (pre ++ le_bytes 2 v ++ l) = v.
Proof.
  intros <- W. unfold u16, bytes_at. rewrite skipn_app, skipn_all, Nat.sub_diag. exact (u16_first v l W).
Qed.
Lemma skip_at (pre : str) n l : length pre = n -> skipn n (pre ++ l) = l.
Proof. intros <-. rewrite skipn_app, skipn_all, Nat.sub_diag. reflexivity. Qed.

(** ** Texts *)

Lemma old_string_ok dec page n pre raw t extra : (0 < n)%nat -> dec page raw = Ok t -> size raw < 256 ^ Z.of_nat n ->
  old_string dec page (pre ++ coded_text n raw ++ extra) (size pre) n = Ok (t, size pre + Z.of_nat n + size raw).
Proof.
  intros N D S. unfold old_string, coded_text. cbv zeta. pose proof (size_pos raw).
  assert (F : from (pre ++ (le_bytes n (size raw) ++ raw) ++ extra) (size pre) (le_bytes n (size raw) ++ raw ++ extra)).
  { rewrite <- app_assoc. apply from_app. }
  rewrite (from_slice _ _ _ _ (Z.of_nat n) F) by (apply size_bytes).
  unfold sized. rewrite le_bytes_length, Nat.eqb_refl. cbn [bind].
  rewrite le_value_bytes by lia. apply from_next in F. rewrite size_bytes in F.
  rewrite (from_slice _ _ _ _ (size raw) F) by reflexivity. rewrite D. reflexivity.
Qed.

(** The encoding is known or can be had. *)
Definition ready (dec : decoder) (page : option Z) (b : obook) : Prop :=
  exists c, (if c_set (o_coding b) then Ok (o_coding b) else old_derive dec (o_coding b)) = Ok c /\ c_page c = page /\ c_set c = true.
Definition kept (dec : decoder) (page : option Z) (b b' : obook) : Prop :=
  exists c, b' = with_coding c b /\ ready dec page b' /\ (c = o_coding b \/ old_derive dec (o_coding b) = Ok c).
Lemma ready_coded dec page b : ready dec page b -> exists c, coded dec b = Ok (with_coding c b) /\ c_page c = page /\ kept dec page b (with_coding c b).
Proof.
  intros (c & H & P & S). exists c. unfold coded, kept, ready. cbn [with_coding o_coding]. split; [|split; [exact P|exists c; rewrite S; split; [reflexivity|split; [exists c; auto|]]]].
  - destruct (c_set (o_coding b)).
    + injection H as <-. destruct b; reflexivity.
    + rewrite H. reflexivity.
  - destruct (c_set (o_coding b)); [left; congruence|right; exact H].
Qed.
Lemma kept_self dec page b : ready dec page b -> kept dec page b b.
Proof. intro R. exists (o_coding b). split; [destruct b; reflexivity|]. split; [exact R|left; reflexivity]. Qed.

(** ** The text of a formula *)

Definition told_bytes (more : list (str * str)) : str := flat_map (fun p => record 0x3c (fst p)) more.
Definition told_more (more : list (str * str)) : Z := fold_right Z.add 0 (map (fun p : str * str => size (snd p)) more).
Lemma told_more_pos more : 0 <= told_more more.
Proof.
  induction more as [|p more IH]; [discriminate|]. change (told_more (p :: more)) with (size (snd p) + told_more more).
  pose proof (size_pos (snd p)). lia.
Qed.
Lemma told_more_last more : more <> [] -> snd (last more ([], [])) <> [] -> 0 < told_more more.
Proof.
  induction more as [|p more IH]; intros N P; [congruence|]. change (told_more (p :: more)) with (size (snd p) + told_more more).
  pose proof (size_pos (snd p)). pose proof (told_more_pos more). destruct more as [|q more].
  - cbn [last] in P. destruct (snd p) as [|x r]; [congruence|]. unfold size. cbn [length]. lia.
  - assert (0 < told_more (q :: more)) by (apply IH; [discriminate|exact P]). lia.
Qed.
Lemma told_size more : Z.of_nat (length more) <= size (told_bytes more).
Proof.
  induction more as [|p more IH]; [unfold size; cbn; lia|]. cbn [told_bytes flat_map length]. rewrite size_app, record_size.
  fold (told_bytes more). pose proof (size_pos (fst p)). lia.
Qed.

Lemma old_contents_ok (dec : decoder) page mem rest : forall (more : list (str * str)) (first : str * str) fuel pos found expected acc,
  Forall (fun p : str * str => dec page (fst p) = Ok (snd p)) (first :: more) -> (more <> [] -> snd (last more ([], [])) <> []) ->
  Forall (fun p : str * str => short (fst p)) more -> from mem pos (told_bytes more ++ rest) -> expected = found + told_length first more ->
  (length more <= fuel)%nat ->
  old_contents fuel dec page mem (fst first) expected found pos acc = Ok (acc ++ snd first ++ flat_map snd more, pos + size (told_bytes more)).
Proof.
  induction more as [|p more IH]; intros first fuel pos found expected acc D L S F E K; inversion D as [|? ? D1 D2]; subst.
  - destruct fuel as [|fuel]; cbn [old_contents]; rewrite D1; cbn [bind]; cbv zeta;
      unfold told_length; cbn [map fold_right]; rewrite Z.add_0_r; change (Z.of_nat (length (snd first))) with (size (snd first)); rewrite Z.eqb_refl; cbn [flat_map told_bytes]; rewrite app_nil_r; change (size []) with 0; rewrite Z.add_0_r; reflexivity.
  - destruct fuel as [|fuel]; [cbn [length] in K; lia|]. cbn [old_contents]. rewrite D1. cbn [bind]. cbv zeta.
    inversion S as [|? ? S1 S2]; subst. change (Z.of_nat (length (snd first))) with (size (snd first)).
    assert (T : told_length first (p :: more) = size (snd first) + told_more (p :: more)) by reflexivity.
    pose proof (told_more_last (p :: more) ltac:(discriminate) (L ltac:(discriminate))).
    replace (found + size (snd first) =? _) with false by lia. replace (_ <? _) with false by lia.
    cbn [told_bytes flat_map] in F. rewrite <- app_assoc in F.
    destruct (get_record_ok mem pos 0x3c (fst p) _ ltac:(unfold word16; lia) S1 F) as [R F1]. rewrite R. cbn [bind Z.eqb Pos.eqb negb].
    rewrite (IH p fuel _ _ _ (acc ++ snd first) D2); try assumption.
    + cbn [flat_map told_bytes]. fold (told_bytes more). rewrite size_app, record_size, <- !app_assoc. f_equal. f_equal. ulia.
    + intro NE. specialize (L ltac:(discriminate)). destruct more; [congruence|exact L].
    + rewrite T. change (told_more (p :: more)) with (told_length p more). lia.
    + cbn [length] in K. lia.
Qed.

Lemma old_formula_string_ok n dec page mem pos rest b code junk between first more : (if 30 <=? o_version b then 2%nat else 1%nat) = n -> ready dec page b ->
  good_result n (dec page) (Told code junk between first more) ->
  from mem pos (result_records n (Told code junk between first more) ++ rest) ->
  exists b', kept dec page b b' /\ old_formula_string dec mem pos b
    = Ok (snd first ++ flat_map snd more, pos + size (result_records n (Told code junk between first more)), b').
Proof.
  intros V RD (C & J & GB & D & L & S1 & SM & T) F. destruct (ready_coded dec page b RD) as (c & CD & PG & RD').
  exists (with_coding c b). split; [exact RD'|].
  unfold old_formula_string. cbn [result_records] in *. fold (told_bytes more) in *.
  set (d := le_bytes n (told_length first more) ++ fst first) in *.
  assert (SD : short d) by (unfold short, d in *; rewrite size_app, size_bytes in *; exact S1).
  pose proof (told_more_pos more) as TM. pose proof (size_pos (snd first)) as TF. assert (TL : told_length first more = size (snd first) + told_more more) by reflexivity.
  assert (WC : word16 code /\ ((code =? 0x207) || (code =? 0x7) = true)) by (unfold word16; cbn [In] in C; lia). destruct WC as [WC WC'].
  assert (X : forall pos0, from mem pos0 (record code d ++ told_bytes more ++ rest) ->
    get_record mem pos0 = Ok (code, size d, d, pos0 + 4 + size d) /\
    old_contents (S (length mem)) dec page mem (fst first) (told_length first more) 0 (pos0 + 4 + size d) []
      = Ok (snd first ++ flat_map snd more, pos0 + 4 + size d + size (told_bytes more))).
  { intros pos0 F0. destruct (get_record_ok mem pos0 code d _ WC SD F0) as [R F1]. split; [exact R|].
    refine (old_contents_ok dec page mem rest more first _ _ _ _ [] D L SM F1 _ _); [lia|].
    apply from_length in F1. destruct F1 as [P1 P2]. rewrite size_app in P2. pose proof (told_size more). pose proof (size_pos rest). pose proof (size_pos d).
    unfold size in P2 at 1. lia. }
  assert (BA : bytes_at 0 n d = le_bytes n (told_length first more)).
  { unfold bytes_at, d. cbn [skipn]. rewrite firstn_app, le_bytes_length, Nat.sub_diag. cbn [firstn]. rewrite app_nil_r. apply firstn_all2. rewrite le_bytes_length. lia. }
  assert (U : le_value (bytes_at 0 n d) = told_length first more) by (rewrite BA; apply le_value_bytes; lia).
  assert (SZ : sized n (bytes_at 0 n d) = Ok tt) by (rewrite BA; unfold sized; rewrite le_bytes_length, Nat.eqb_refl; reflexivity).
  assert (SK : skipn n d = fst first) by (unfold d; apply skip_at; apply le_bytes_length).
  rewrite V. cbv zeta. rewrite !size_app.
  destruct between as [[bc data]|].
  - destruct GB as [SB GB]. rewrite <- !app_assoc in F.
    assert (W : word16 bc) by (unfold word16; cbn in GB; lia).
    destruct (get_record_ok mem pos bc data _ W SB F) as [R F1]. rewrite R. cbn [bind].
    destruct (X _ F1) as [R1 C1]. clear X.
    assert (N : (bc =? 0x207) || (bc =? 0x7) = false) by (cbn in GB; lia). rewrite N.
    assert (K : (if bc =? 0x221 then sized 14 (bytes_at 0 14 data)
                else if bc =? 0x4bc then sized 10 (bytes_at 0 10 data)
                else if (bc =? 0x236) || (bc =? 0x37) || (bc =? 0x21) || (bc =? 0x36) then Ok tt
                else Err XLRDError) = Ok tt).
    { destruct GB as [[-> Q]|[[-> Q]|Q]]; [cbn [Z.eqb Pos.eqb]; apply sized_at; lia|cbn [Z.eqb Pos.eqb]; apply sized_at; lia|].
      cbn [In] in Q. replace (bc =? 0x221) with false by lia. replace (bc =? 0x4bc) with false by lia.
      replace ((bc =? 0x236) || (bc =? 0x37) || (bc =? 0x21) || (bc =? 0x36)) with true by lia. reflexivity. }
    rewrite K. cbn [bind]. rewrite R1. cbn [bind]. rewrite WC'. cbn [bind]. rewrite SZ. cbn [bind]. rewrite CD. cbn [bind]. cbn [with_coding o_coding].
    rewrite PG, U, SK, C1. cbn [bind]. rewrite !record_size. f_equal. f_equal. f_equal. lia.
  - cbn [app] in F. rewrite <- app_assoc in F. destruct (X _ F) as [R1 C1]. rewrite R1. cbn [bind]. rewrite WC'. cbn [bind]. rewrite SZ. cbn [bind]. rewrite CD. cbn [bind with_coding o_coding].
    rewrite PG, U, SK, C1. cbn [bind]. rewrite record_size. f_equal. f_equal. f_equal. change (size []) with 0. lia.
Qed.

Lemma result_8 n dec r : good_result n dec r -> length (result_bytes r) = 8%nat.
Proof.
  destruct r as [r|code junk bt fi mo]; cbn [good_result result_bytes]; [intros [G _]; apply result_length; exact G|].
  intros (_ & J & _). apply marked_8. exact J.
Qed.

Lemma old_put_ok p st g : put_all (old_setup (s_book st)) [p] (r_grid (s_reading st)) = (g, Ok tt) ->
  old_put p st = Ok (with_reading (with_grid g (s_reading st)) st).
Proof. intro P. unfold old_put. rewrite (put1_ok _ _ _ _ P). reflexivity. Qed.
Lemma old_put_typed t r c v xf st g : dget xf (k_types (o_looks (s_book st))) = Some t ->
  put_all (old_setup (s_book st)) [mkput r c (Some t) v xf] (r_grid (s_reading st)) = (g, Ok tt) ->
  old_put (mkput r c None v xf) st = Ok (with_reading (with_grid g (s_reading st)) st).
Proof.
  intros T P. apply old_put_ok. rewrite <- P. cbn [put_all pt_row pt_col pt_type pt_value pt_xf].
  unfold put_cell, put_cell_unragged, cell_type_in. cbn [old_setup su_ragged su_types]. rewrite T. reflexivity.
Qed.
Lemma old_put_number date xfs r c v xf st g : typed_xfs date xfs (old_setup (s_book st)) -> 0 <= xf < xfs ->
  put_all (old_setup (s_book st)) [mkput r c (Some (number_type date xf)) v xf] (r_grid (s_reading st)) = (g, Ok tt) ->
  old_put (mkput r c None v xf) st = Ok (with_reading (with_grid g (s_reading st)) st).
Proof. intros T X P. unfold old_put. rewrite (put1_number _ date xfs _ _ _ _ _ _ T X P). reflexivity. Qed.
Lemma setup_coding c b : old_setup (with_coding c b) = old_setup b.
Proof. reflexivity. Qed.

(** The end of [old_formula], with the type of numbers known. *)
Definition old_result (dec : decoder) (mem : str) (pos rowx colx xf : Z) (result : str) (st : osheet) : res (osheet * Z) :=
  let value := VInt (le_value (bytes_at 2 1 result)) in
  let done p := do st <- old_put p st; Ok (st, pos) in
  if str_eqb (bytes_at 6 2 result) [255; 255]%N then
    let first_byte := le_value (bytes_at 0 1 result) in
    if first_byte =? 0 then
      do (strg, pos, b) <- old_formula_string dec mem pos (s_book st);
      do st <- old_put (mkput rowx colx (Some XL_CELL_TEXT) (VStr strg) xf) (with_book b st);
      Ok (st, pos)
    else if first_byte =? 1 then done (mkput rowx colx (Some XL_CELL_BOOLEAN) value xf)
    else if first_byte =? 2 then done (mkput rowx colx (Some XL_CELL_ERROR) value xf)
    else if first_byte =? 3 then done (mkput rowx colx (Some XL_CELL_TEXT) (VStr []) xf)
    else Err XLRDError
  else
    do d <- unpack_d result;
    done (mkput rowx colx None (VFloat d) xf).
Lemma old_result_ok n dec page date mem row col xf r tail pos st g : (if 30 <=? o_version (s_book st) then 2%nat else 1%nat) = n ->
  dget xf (k_types (o_looks (s_book st))) = Some (number_type date xf) -> ready dec page (s_book st) ->
  good_result n (dec page) r -> from mem pos (result_records n r ++ tail) ->
  put_all (old_setup (s_book st)) [mkput row col (Some (result_type date xf r)) (result_value r) xf] (r_grid (s_reading st)) = (g, Ok tt) ->
  exists b', kept dec page (s_book st) b' /\
    old_result dec mem pos row col xf (result_bytes r) st
    = Ok (with_book b' (with_reading (with_grid g (s_reading st)) st), pos + size (result_records n r)).
Proof.
  intros OV T RD G F P. unfold old_result. cbv zeta.
  assert (SELF : forall st0 : osheet, with_book (s_book st) (with_reading (with_grid g (s_reading st)) st) = with_reading (with_grid g (s_reading st)) st) by (intros; destruct st; reflexivity).
  destruct r as [[f|junk bt fl fi mo|v x junk|v x junk|junk]|code junk bt fi mo].
  - destruct G as [G _]. cbn [result_bytes SpecBiff.result_bytes result_type result_value content_type content_value result_records good_result SpecBiff.good_result] in *.
    exists (s_book st). split; [apply kept_self; exact RD|]. rewrite double_not_marked by exact G.
    rewrite unpack_double by exact G. cbn [bind]. rewrite (old_put_typed (number_type date xf) _ _ _ _ _ g T P). cbn [bind]. rewrite SELF by exact st.
    change (size []) with 0. rewrite Z.add_0_r. reflexivity.
  - destruct G as [_ []].
  - exists (s_book st). split; [apply kept_self; exact RD|]. destruct G as [G _]. cbn [result_bytes result_records result_type result_value] in *.
    rewrite result_marked by (exact G || exact I). destruct G as [G GV]. 
    change (le_value (bytes_at 0 1 (SpecBiff.result_bytes (RBool v x junk)))) with 1. cbn [Z.eqb Pos.eqb].
    replace (le_value (bytes_at 2 1 (SpecBiff.result_bytes (RBool v x junk)))) with (Z.of_N v) by (cbn; lia).
    cbn [content_type content_value] in P. rewrite (old_put_ok _ _ _ P). cbn [bind]. rewrite SELF by exact st. change (size []) with 0. rewrite Z.add_0_r. reflexivity.
  - exists (s_book st). split; [apply kept_self; exact RD|]. destruct G as [G _]. cbn [result_bytes result_records result_type result_value] in *.
    rewrite result_marked by (exact G || exact I). destruct G as [G GV].
    change (le_value (bytes_at 0 1 (SpecBiff.result_bytes (RError v x junk)))) with 2. cbn [Z.eqb Pos.eqb].
    replace (le_value (bytes_at 2 1 (SpecBiff.result_bytes (RError v x junk)))) with (Z.of_N v) by (cbn; lia).
    cbn [content_type content_value] in P. rewrite (old_put_ok _ _ _ P). cbn [bind]. rewrite SELF by exact st. change (size []) with 0. rewrite Z.add_0_r. reflexivity.
  - exists (s_book st). split; [apply kept_self; exact RD|]. destruct G as [G _]. cbn [result_bytes result_records result_type result_value] in *.
    rewrite result_marked by (exact G || exact I).
    change (le_value (bytes_at 0 1 (SpecBiff.result_bytes (REmpty junk)))) with 3. cbn [Z.eqb Pos.eqb].
    cbn [content_type content_value] in P. rewrite (old_put_ok _ _ _ P). cbn [bind]. rewrite SELF by exact st. change (size []) with 0. rewrite Z.add_0_r. reflexivity.
  - destruct (old_formula_string_ok n dec page mem pos tail (s_book st) code junk bt fi mo OV RD G F) as (b' & K & E). exists b'. split; [exact K|].
    pose proof G as (_ & J & _). cbn [result_bytes].
    replace (str_eqb (bytes_at 6 2 (marked 0 junk)) [255; 255]%N) with true.
    2: { symmetry. apply str_eqb_eq. destruct junk as [|? [|? [|? [|? [|? [|]]]]]]; try discriminate J. reflexivity. }
    change (le_value (bytes_at 0 1 (marked 0 junk))) with 0. cbn [Z.eqb]. rewrite E. cbn [bind].
    destruct K as (c & -> & _). cbn [result_type result_value] in P.
    rewrite (old_put_ok _ (with_book (with_coding c (s_book st)) st) g) by exact P. reflexivity.
Qed.

Lemma old_formula_ok dec page bv date xfs mem p r flags rest tail pos st g : 30 <= bv -> 30 <= o_version (s_book st) ->
  typed_xfs date xfs (old_setup (s_book st)) -> ready dec page (s_book st) -> good_place xfs p ->
  good_result 2 (dec page) r -> length flags = 2%nat -> from mem pos (result_records 2 r ++ tail) ->
  put_all (old_setup (s_book st)) [cell_at p (result_type date (pl_xf p) r) (result_value r)] (r_grid (s_reading st)) = (g, Ok tt) ->
  exists b', kept dec page (s_book st) b' /\
    old_formula dec bv mem (place_bytes p ++ result_bytes r ++ flags ++ rest) pos st
    = Ok (with_book b' (with_reading (with_grid g (s_reading st)) st), pos + size (result_records 2 r)).
Proof.
  intros V OV T RD (R0 & C0 & X & WX) G FL F P.
  assert (WR : word16 (pl_row p)) by (unfold word16; lia). assert (WC : word16 (pl_col p)) by (unfold word16; lia).
  destruct (old_result_ok 2 dec page date mem (pl_row p) (pl_col p) (pl_xf p) r tail pos st g ltac:(replace (30 <=? o_version (s_book st)) with true by lia; reflexivity)
    (T _ X) RD G F P) as (b' & K & E). exists b'. split; [exact K|]. rewrite <- E. unfold old_formula.
  rewrite sized_at by (rewrite !size_app, size_place; pose proof (result_8 2 (dec page) r G); pose proof (size_pos rest); unfold size in *; lia).
  cbn [bind]. cbv zeta. rewrite place_row, place_col by assumption. replace (30 <=? bv) with true by lia. cbn [bind]. rewrite place_xf by assumption.
  rewrite (after_place p _ 0 8). rewrite bytes_at_first by (apply (result_8 2 (dec page)); exact G). reflexivity.
Qed.

(** ** Notes *)

Definition remark_bytes (more : list (str * str)) : str :=
  flat_map (fun p => record 0x1c (le_bytes 2 0xffff ++ fst p ++ le_bytes 2 (size (snd p)) ++ snd p)) more.
Lemma old_note_ok mem rest : forall (more : list (str * str)) fuel pos acc,
  (more <> [] -> snd (last more ([], [])) <> []) -> Forall (fun p : str * str => length (fst p) = 2%nat) more ->
  Forall (fun d => short (repeat 0%N 6 ++ d)) (map snd more) -> from mem pos (remark_bytes more ++ rest) -> (length more <= fuel)%nat ->
  old_note fuel mem (told_more more) acc pos = Ok (acc ++ concat (map snd more), pos + size (remark_bytes more)).
Proof.
  induction more as [|p more IH]; intros fuel pos acc L J S F K.
  - destruct fuel; cbn [old_note told_more map fold_right Z.leb Z.eqb concat remark_bytes flat_map]; rewrite app_nil_r; change (size []) with 0; rewrite Z.add_0_r; reflexivity.
  - destruct fuel as [|fuel]; [cbn [length] in K; lia|].
    pose proof (told_more_last (p :: more) ltac:(discriminate) (L ltac:(discriminate))) as TL.
    inversion J as [|? ? J1 J2]; subst. inversion S as [|? ? S1 S2]; subst.
    cbn [remark_bytes flat_map] in F. rewrite <- app_assoc in F. set (d := le_bytes 2 65535 ++ _) in *.
    assert (SD : size d = 6 + size (snd p)) by (unfold d; rewrite !size_app, !size_bytes; pose proof (size_of _ _ J1); ulia).
    unfold short in S1. rewrite size_app in S1. change (size (repeat 0%N 6)) with 6 in S1.
    destruct (get_record_ok mem pos 0x1c d _ ltac:(unfold word16; lia) ltac:(unfold short; lia) F) as [R F1].
    cbn [old_note]. replace (told_more (p :: more) <=? 0) with false by lia. rewrite R. cbn [bind Z.eqb Pos.eqb negb].
    rewrite sized_at by (pose proof (size_pos (snd p)); lia). cbn [bind]. cbv zeta.
    assert (U0 : u16 0 d = 65535) by (apply u16_first; unfold word16; lia).
    assert (U4 : u16 4 d = size (snd p)).
    { unfold d. rewrite app_assoc. apply u16_at; [rewrite app_length, le_bytes_length; unfold str in *; rewrite J1; reflexivity|].
      apply word16_size. unfold short. pose proof (size_pos (snd p)). ulia. }
    assert (SK : skipn 6 d = snd p).
    { unfold d. rewrite !app_assoc. apply skip_at. rewrite !app_length, !le_bytes_length. unfold str in *. rewrite J1. reflexivity. }
    rewrite U0, U4, SK. cbn [Z.eqb Pos.eqb negb]. replace (size (snd p) =? size d - 6) with true by lia. cbn [negb].
    replace (told_more (p :: more) - size (snd p)) with (told_more more) by (unfold told_more; cbn [map fold_right]; lia).
    rewrite (IH fuel _ _) by (assumption || (cbn [length] in K; lia) || (intro NE; specialize (L ltac:(discriminate)); destruct more; [congruence|exact L])).
    cbn [map concat remark_bytes flat_map]. fold (remark_bytes more). fold d. rewrite size_app, record_size, <- app_assoc. f_equal. f_equal. lia.
Qed.
Lemma remark_size (more : list (str * str)) : Z.of_nat (length more) <= size (remark_bytes more).
Proof.
  induction more as [|p more IH]; [unfold size; cbn; lia|]. cbn [remark_bytes flat_map length]. rewrite size_app, record_size.
  fold (remark_bytes more). match goal with |- context [4 + size ?x] => pose proof (size_pos x) end. lia.
Qed.
Lemma old_handle_note_ok dec page mem pos rest b at_ first more country shared xfs : ready dec page b ->
  good_item (dec page) country shared xfs (Remark at_ first more) -> from mem pos (remark_bytes more ++ rest) ->
  exists b', kept dec page b b' /\
    old_handle_note dec mem (at_ ++ le_bytes 2 (remark_length first more) ++ first) pos b = Ok (b', pos + size (remark_bytes more)).
Proof.
  intros RD (LA & (t & D) & L & J & RL & S) F. destruct (ready_coded dec page b RD) as (c & CD & PG & RD').
  exists (with_coding c b). split; [exact RD'|].
  pose proof (Forall_inv S) as S1. pose proof (Forall_inv_tail S) as S2. cbv beta in S1. pose proof (told_more_pos more) as TM. pose proof (size_pos first).
  assert (TL : remark_length first more = size first + told_more more) by reflexivity.
  set (data := at_ ++ le_bytes 2 _ ++ first).
  assert (SD : size data = 6 + size first) by (unfold data; rewrite !size_app, size_bytes; pose proof (size_of _ _ LA); ulia).
  unfold old_handle_note. rewrite sized_at by lia. cbn [bind]. cbv zeta.
  assert (U : u16 4 data = remark_length first more /\ skipn 6 data = first).
  { unfold data. split; [apply u16_at; [exact LA|unfold word16; ulia]|].
    rewrite app_assoc. apply skip_at. rewrite app_length, le_bytes_length, LA. reflexivity. }
  destruct U as [U SK]. rewrite U, SK. change (Z.of_nat (length data)) with (size data).
  replace (size data - 6 <=? remark_length first more) with true by lia. cbn [negb].
  replace (remark_length first more - (size data - 6)) with (told_more more) by lia.
  rewrite (old_note_ok mem rest) by (assumption || (apply from_length in F; destruct F as [P1 P2]; rewrite size_app in P2; pose proof (remark_size more); pose proof (size_pos rest); unfold size in P2 at 1; lia)).
  cbn [bind]. rewrite CD. cbn [bind with_coding o_coding]. rewrite PG, D. reflexivity.
Qed.

(** ** Items *)

Lemma ostep dec bv mem pos code data tail st st' pos' : word16 code -> short data -> code <> 10 ->
  from mem pos (record code data ++ tail) ->
  old_record dec bv mem code (size data) data (pos + 4 + size data) st = Ok (st', pos') ->
  forall f, old_loop (S f) dec bv mem pos st = old_loop f dec bv mem pos' st'.
Proof.
  intros W S N F H f. destruct (get_record_ok mem pos code data tail W S F) as [R _].
  cbn [old_loop]. rewrite R. cbn [bind]. replace (code =? 10) with false by lia. rewrite H. reflexivity.
Qed.

(** The codes of records that are read otherwise below BIFF5. *)
Definition early_codes : list Z :=
  [0x41e; 0x1e; 0x31; 0x231; 0x92; 0x45; 0x293; 0x56; 0x443; 0x243; 0x43; 0x22; 0x42; 0x2f; 0x5c; 0x44; 0x3; 0x2; 0x4; 0x5; 0x1; 0x8; 0x24; 0x20; 0x3e].
Definition late_item (it : item) : Prop := match it with Same it => ~ In (item_code it) early_codes | _ => True end.
Lemma late_record dec rc len data st : ~ In rc early_codes -> early_record dec rc len data st = None.
Proof.
  intro N. cbn [In early_codes] in N. unfold early_record.
  repeat match goal with |- context [if ?c then _ else _] => replace c with false by lia end. reflexivity.
Qed.
Lemma common_codes it country shared xfs : common it -> SpecBiff.good_item country shared xfs it ->
  ~ In (item_code it) [0x204; 0xd6; 0x6; 0x406; 0x206; 0x200; 0x0; 0x5d; 0x1b6; 0x1c].
Proof.
  intros C G. destruct it as [p c|row col l|data|x y|a b|code data inner|k|ar s|head author pad|d|t|code data]; cbn [common item_code] in *; try contradiction;
    try (cbn [In]; lia).
  - destruct C as [_ C]. destruct c; cbn [content_code]; try contradiction; cbn [In]; lia.
  - destruct G as (B & _). cbn [In bof_codes] in *. lia.
  - destruct G as (_ & _ & N & _). cbn [In app sheet_codes] in *. lia.
Qed.

Lemma tip_kept country shared xfs date su mem it pos rest st g l2 : typed_xfs date xfs su -> SpecBiff.good_item country shared xfs it ->
  common it -> from mem pos (SpecBiff.item_bytes it ++ rest) -> countries_ok country (r_countries st) ->
  put_all su (SpecBiff.item_cells shared date it) (r_grid st) = (g, Ok tt) -> anchored (r_link st) (Same it :: l2) ->
  exists st', r_grid st' = g /\ countries_ok country (r_countries st') /\ anchored (r_link st') l2 /\
    one_step (item_code it) su mem shared pos st st' (pos + size (SpecBiff.item_bytes it)).
Proof.
  intros T G CO F C P A.
  assert (MONO : forall l, anchored None l -> forall x, anchored x l).
  { clear. induction l as [|[[]| | | | | |] l IH]; cbn [anchored]; intros H la; auto; try (apply IH; exact H). destruct H; discriminate. }
  assert (D : SpecBiff.is_dimension it = true -> r_grid st = new_grid) by (destruct it; intro H; try discriminate H; contradiction CO).
  assert (W : exists la, match it with SpecBiff.Link k => la = Some (SpecObjects.lk_area k) | _ => la = r_link st end) by (destruct it; eauto).
  destruct W as [la W].
  destruct (item_one country shared xfs date su mem it pos rest st g (match la with Some a => [SpecBiff.Tip a []] | None => [] end) T G F C D P) as (st' & E1 & E2 & E3 & E4).
  { destruct it; cbn [SpecBiff.anchored anchored common] in *; try contradiction; subst la; try (destruct (r_link st); cbn; auto; fail); cbn; auto.
    destruct A as [A _]. rewrite A. cbn. auto. }
  exists st'. split; [exact E1|]. split; [exact E2|]. split; [|exact E4].
  assert (A' : anchored la l2) by (destruct it; cbn [anchored] in A; subst la; try exact A; destruct A as [_ A]; exact A).
  destruct la as [a|]; [|apply MONO; exact A']. cbn [SpecBiff.anchored] in E3. destruct E3 as [E3 _]. rewrite E3. exact A'.
Qed.

(** Nothing is left to be done when the dimensions are read. *)
Definition settled (bv : Z) (b : obook) : Prop := In bv [21; 30; 40] -> k_xfs (o_looks b) = [] \/ k_done (o_looks b) = true.

(** What is read the same way in BIFF2. *)
Definition small_item (it : item) : Prop :=
  is_cell it = false /\ match it with Same it => item_code it <> 0x23e | _ => True end.
Lemma old_item_ok dec page bv country shared xfs date mem it pos rest st g l2 : (30 <= bv /\ 30 <= o_version (s_book st)) \/ small_item it ->
  typed_xfs date xfs (old_setup (s_book st)) -> o_strings (s_book st) = shared -> ready dec page (s_book st) -> (is_extent it = true -> settled bv (s_book st)) ->
  good_item (dec page) country shared xfs it -> (bv <= 45 -> late_item it) -> from mem pos (item_bytes it ++ rest) ->
  countries_ok country (r_countries (s_reading st)) -> (is_extent it = true -> r_grid (s_reading st) = new_grid) ->
  put_all (old_setup (s_book st)) (item_cells shared date it) (r_grid (s_reading st)) = (g, Ok tt) ->
  anchored (r_link (s_reading st)) (it :: l2) ->
  exists st', r_grid (s_reading st') = g /\ countries_ok country (r_countries (s_reading st')) /\ anchored (r_link (s_reading st')) l2 /\
    (kept dec page (s_book st) (s_book st') /\ s_ixfe st' = s_ixfe st /\ s_attrs st' = s_attrs st) /\
    forall f, old_loop (S f) dec bv mem pos st = old_loop f dec bv mem (pos + size (item_bytes it)) st'.
Proof.
  intros VV T SH RD SE G LT F C D P A.
  destruct it as [it|p raw t extra|p raw t runs|p code r flags more|code data|at_ first more|code data].
  - destruct G as [CO G]. cbn [item_bytes item_cells] in *. cbn [late_item] in LT.
    destruct (tip_kept country shared xfs date _ mem it pos rest (s_reading st) g l2 T G CO F C P A) as (r & E1 & E2 & E3 & (data & tail & W & S & N & F1 & E4)).
    exists (with_reading r st). split; [exact E1|]. split; [exact E2|]. split; [exact E3|]. split; [split; [apply kept_self; exact RD|split; reflexivity]|].
    apply (ostep dec bv mem pos (item_code it) data tail); try assumption. pose proof (common_codes it country shared xfs CO G) as NC. cbn [In] in NC.
    unfold old_record. cbv zeta.
    repeat match goal with |- (if ?c then _ else _) = _ => replace c with false by lia end.
    destruct (Z.eqb_spec (item_code it) 0x23e) as [E|NE].
    + (* WINDOW2 *)
      destruct it as [p c|row col l|dd|x y|a b|code dd inner|k|ar s|head author pad|d|tt'|code dd]; cbn [item_code common] in *; try discriminate E; try contradiction;
        try (exfalso; destruct c; destruct CO as [_ CO]; first [discriminate E|contradiction CO]).
      * destruct G as (B & _). cbn [In bof_codes] in B. lia.
      * subst code. replace (bv <? 30) with false by (destruct VV as [VV|[_ VV]]; [lia|cbn [item_code] in VV; congruence]).
        cbn [SpecBiff.item_bytes] in F. destruct (get_record_ok _ _ _ _ _ W S F1) as [Q1 _]. pose proof G as (W' & S' & _ & _ & _ & _ & _ & G9 & _).
        destruct (get_record_ok _ _ _ _ _ W' S' F) as [Q2 _]. rewrite Q1 in Q2. injection Q2 as Q2 Q3 Q4. subst dd. specialize (G9 eq_refl).
        rewrite sized_at by lia. cbn [bind]. unfold sized at 1. rewrite bytes_at_length. replace (Nat.min 3 (length data - 6)) with 3%nat by (unfold size in G9; lia). cbn [Nat.eqb bind].
        rewrite passed_ok in E4 by exact G. injection E4 as <- E4. cbn [SpecBiff.item_bytes] in E4. cbn [SpecBiff.item_bytes]. rewrite <- E4. destruct st; reflexivity.
    + replace (if bv <=? 45 then early_record dec (item_code it) (size data) data st else None) with (@None (res osheet)).
      2: { destruct (Z.leb_spec bv 45); [|reflexivity]. symmetry. apply late_record. auto. }
      rewrite SH, E4. reflexivity.
  - destruct G as (GP & DC & S). pose proof GP as (R0 & C0 & X & WX). cbn [item_bytes item_cells] in *.
    assert (WR : word16 (pl_row p)) by (unfold word16; lia). assert (WC : word16 (pl_col p)) by (unfold word16; lia).
    destruct (ready_coded dec page (s_book st) RD) as (c & CD & PG & RD').
    exists (with_reading (with_grid g (s_reading st)) (with_book (with_coding c (s_book st)) st)).
    split; [reflexivity|]. split; [exact C|]. split; [exact A|]. split; [split; [exact RD'|split; reflexivity]|].
    rewrite record_size, Z.add_assoc. set (data := place_bytes p ++ _) in *.
    apply (ostep dec bv mem pos 0x204 data rest); [unfold word16; lia|exact S|lia|exact F|].
    unfold old_record. cbn [Z.eqb Pos.eqb]. cbv zeta.
    rewrite sized_at by (unfold data; rewrite !size_app, size_place; pose proof (size_pos (coded_text 2 raw)); pose proof (size_pos extra); lia). cbn [bind].
    rewrite CD. cbn [bind with_coding o_coding]. rewrite PG.
    assert (SR : size raw < 256 ^ Z.of_nat 2).
    { unfold short, data, coded_text in S. rewrite !size_app, size_bytes in S. pose proof (size_pos extra). rewrite size_place in S. change (256 ^ Z.of_nat 2) with (2 ^ 16). lia. }
    pose proof (old_string_ok dec page 2 (place_bytes p) raw t extra ltac:(lia) DC SR) as OS. fold data in OS. rewrite size_place in OS. rewrite OS. cbn [bind].
    unfold data. rewrite place_row, place_col, place_xf by assumption. fold data.
    rewrite (old_put_ok _ (with_book (with_coding c (s_book st)) st) g) by exact P. reflexivity.
  - destruct G as (GP & DC & RL & S). pose proof GP as (R0 & C0 & X & WX). cbn [item_bytes item_cells] in *.
    assert (WR : word16 (pl_row p)) by (unfold word16; lia). assert (WC : word16 (pl_col p)) by (unfold word16; lia).
    destruct (ready_coded dec page (s_book st) RD) as (c & CD & PG & RD').
    exists (with_reading (with_grid g (s_reading st)) (with_book (with_coding c (s_book st)) st)).
    split; [reflexivity|]. split; [exact C|]. split; [exact A|]. split; [split; [exact RD'|split; reflexivity]|].
    rewrite record_size, Z.add_assoc. set (rb := flat_map _ runs) in *. set (data := place_bytes p ++ coded_text 2 raw ++ [N.of_nat (length runs)] ++ rb) in *.
    assert (SD : short data) by (unfold short, data in *; rewrite !size_app in *; exact S).
    apply (ostep dec bv mem pos 0xd6 data rest); [unfold word16; lia|exact SD|lia|exact F|].
    unfold old_record. cbn [Z.eqb Pos.eqb]. cbv zeta.
    rewrite sized_at by (unfold data; rewrite !size_app, size_place; pose proof (size_pos (coded_text 2 raw)); pose proof (size_pos rb); unfold size at 2; cbn [length]; lia). cbn [bind].
    rewrite CD. cbn [bind with_coding o_coding]. rewrite PG.
    assert (SR : size raw < 256 ^ Z.of_nat 2).
    { unfold short, data, coded_text in SD. rewrite !size_app, size_bytes in SD. pose proof (size_pos rb). rewrite size_place in SD. unfold size at 2 in SD. cbn [length] in SD. change (256 ^ Z.of_nat 2) with (2 ^ 16). lia. }
    pose proof (old_string_ok dec page 2 (place_bytes p) raw t ([N.of_nat (length runs)] ++ rb) ltac:(lia) DC SR) as OS.
    fold data in OS. rewrite size_place in OS. rewrite OS. cbn [bind].
    assert (F0 : from data (6 + Z.of_nat 2 + size raw) (N.of_nat (length runs) :: rb)).
    { unfold data, coded_text. rewrite <- !app_assoc. exists (place_bytes p ++ le_bytes 2 (size raw) ++ raw). split; [rewrite <- !app_assoc; reflexivity|].
      rewrite !size_app, size_place, size_bytes. ulia. }
    destruct (NamesProofs.from_byte _ _ _ _ F0) as [B1 F1]. rewrite B1. cbn [bind]. rewrite Nat2N.id.
    assert (OR : forall rs pos, from data pos (flat_map (fun r : N * N => [fst r; snd r]) rs) -> old_runs (length rs) data pos = Ok (pos + 2 * Z.of_nat (length rs))).
    { clearbody data. clear. induction rs as [|r rs IH]; intros pos F; cbn [length old_runs].
      { f_equal. lia. }
      cbn [flat_map] in F.
      rewrite (from_slice _ _ [fst r; snd r] _ 2 F) by reflexivity. change (sized 2 [fst r; snd r]) with (@Ok unit tt). cbn [bind].
      apply (from_next _ _ [fst r; snd r]) in F. change (size [fst r; snd r]) with 2 in F. rewrite (IH _ F). f_equal. lia. }
    rewrite (OR _ _ F1). cbn [bind].
    assert (LR : size rb = 2 * Z.of_nat (length runs)).
    { unfold rb. generalize runs. clear. intro rs. induction rs as [|r rs IH]; [reflexivity|]. cbn [flat_map length]. rewrite size_app, IH. change (size [fst r; snd r]) with 2. lia. }
    apply from_length in F1. destruct F1 as [_ F1]. rewrite LR in F1. change (Z.of_nat (length data)) with (size data). rewrite F1, Z.eqb_refl. cbn [negb].
    unfold data. rewrite place_row, place_col, place_xf by assumption. fold data.
    rewrite (old_put_ok _ (with_book (with_coding c (s_book st)) st) g) by exact P. reflexivity.
  - destruct G as (GP & GC & GR & FL & S). cbn [item_bytes item_cells] in *. rewrite <- app_assoc in F.
    assert (W : word16 code /\ code <> 10) by (unfold word16; cbn [In] in GC; lia). destruct W as [W N].
    destruct (get_record_ok _ _ _ _ _ W S F) as [_ F1].
    destruct VV as [[V OV]|[VV _]]; [|discriminate VV].
    destruct (old_formula_ok dec page bv date xfs mem p r flags more rest _ st g V OV T RD GP GR FL F1 P) as (b' & K & E).
    exists (with_book b' (with_reading (with_grid g (s_reading st)) st)). split; [reflexivity|]. split; [exact C|]. split; [exact A|]. split; [split; [exact K|split; reflexivity]|].
    rewrite size_app, record_size.
    apply (ostep dec bv mem pos code _ _ _ _ _ W S N F).
    assert (Q : old_record dec bv mem code (size (place_bytes p ++ result_bytes r ++ flags ++ more)) (place_bytes p ++ result_bytes r ++ flags ++ more)
       (pos + 4 + size (place_bytes p ++ result_bytes r ++ flags ++ more)) st
       = old_formula dec bv mem (place_bytes p ++ result_bytes r ++ flags ++ more) (pos + 4 + size (place_bytes p ++ result_bytes r ++ flags ++ more)) st)
      by (destruct GC as [<-|[<-|[<-|[]]]]; reflexivity).
    rewrite Q, E. f_equal. f_equal. lia.
  - destruct G as (GC & S & G). cbn [item_bytes item_cells is_extent put_all] in *. injection P as <-.
    exists st. split; [reflexivity|]. split; [exact C|]. split; [exact A|]. split; [split; [apply kept_self; exact RD|split; reflexivity]|].
    rewrite record_size, Z.add_assoc.
    apply (ostep dec bv mem pos code data rest); [unfold word16; cbn [In] in GC; lia|exact S|cbn [In] in GC; lia|exact F|].
    assert (Q : old_record dec bv mem code (size data) data (pos + 4 + size data) st = old_record dec bv mem 0x200 (size data) data (pos + 4 + size data) st)
      by (destruct GC as [<-|[<-|[]]]; reflexivity).
    rewrite Q. unfold old_record. cbn [Z.eqb Pos.eqb orb]. cbv zeta.
    destruct data as [|x data]; [change (size []) with 0; cbn [Z.eqb]; reflexivity|].
    destruct G as [G|G]; [discriminate G|]. replace (size (x :: data) =? 0) with false by lia.
    unfold sized. rewrite bytes_at_length. replace (Nat.min 6 (length (x :: data) - 2)) with 6%nat by (unfold size in G; lia). cbn [Nat.eqb bind].
    cbv zeta. rewrite D by reflexivity.
    assert (ST : with_reading (with_grid (mkgrid 0 0 (g_types new_grid) (g_values new_grid) (g_xfs new_grid) (g_full new_grid)) (s_reading st)) st = st).
    { specialize (D eq_refl). destruct st as [[gr co li dr] bk ix at_]. cbn [s_reading r_grid] in D. subst gr. reflexivity. }
    rewrite ST.
    replace (((bv =? 21) || (bv =? 30) || (bv =? 40)) && match k_xfs (o_looks (s_book st)) with [] => false | _ => negb (k_done (o_looks (s_book st))) end) with false; [reflexivity|].
    symmetry. destruct ((bv =? 21) || (bv =? 30) || (bv =? 40)) eqn:EB; [|reflexivity]. destruct (SE eq_refl) as [SE'|SE']; [cbn [In]; lia|rewrite SE'; reflexivity|rewrite SE'; destruct (k_xfs _); reflexivity].
  - cbn [item_bytes item_cells put_all] in *. injection P as <-. fold (remark_bytes more) in *. rewrite <- app_assoc in F.
    pose proof G as (LA & _ & _ & _ & RL & SS). pose proof (Forall_inv SS) as S1. pose proof (Forall_inv_tail SS) as S2. cbv beta in S1.
    set (data := at_ ++ le_bytes 2 _ ++ first) in *.
    assert (S : short data).
    { unfold short, data in *. rewrite !size_app in *. rewrite size_bytes. change (size (repeat 0%N 6)) with 6 in S1. pose proof (size_of _ _ LA). ulia. }
    destruct (get_record_ok _ _ 0x1c data _ ltac:(unfold word16; lia) S F) as [_ F1].
    destruct (old_handle_note_ok dec page mem _ rest (s_book st) at_ first more country _ xfs RD G F1) as (b' & K & E). fold data in E.
    exists (with_book b' st). split; [reflexivity|]. split; [exact C|]. split; [exact A|]. split; [split; [exact K|split; reflexivity]|].
    rewrite size_app, record_size.
    apply (ostep dec bv mem pos 0x1c data (remark_bytes more ++ rest)); [unfold word16; lia|exact S|lia|exact F|].
    unfold old_record. cbn [Z.eqb Pos.eqb orb]. cbv zeta. rewrite E. cbn [bind]. f_equal. f_equal. lia.
  - destruct G as (GC & S). cbn [item_bytes item_cells put_all] in *. injection P as <-.
    exists st. split; [reflexivity|]. split; [exact C|]. split; [exact A|]. split; [split; [apply kept_self; exact RD|split; reflexivity]|].
    rewrite record_size, Z.add_assoc.
    apply (ostep dec bv mem pos code data rest); [unfold word16; cbn [In] in GC; lia|exact S|cbn [In] in GC; lia|exact F|].
    destruct GC as [<-|[<-|[]]]; reflexivity.
Qed.

(** ** Sheets *)

Lemma kept_trans dec page b b1 b2 : kept dec page b b1 -> kept dec page b1 b2 -> kept dec page b b2.
Proof.
  intros (c & -> & _ & H) (c' & -> & R & H'). exists c'. split; [reflexivity|]. split; [exact R|]. cbn [with_coding o_coding] in H'.
  destruct H' as [->|H']; [exact H|]. destruct H as [->|H]; [right; exact H'|]. right. rewrite <- H'. rewrite H. clear R.
  unfold old_derive in *. destruct (match c_page (o_coding b) with None => _ | Some p => _ end) as [[]|] eqn:E1; [|discriminate H].
  cbn [bind] in H. destruct (match c_user (o_coding b) with None => _ | Some u => _ end) as [[]|]; [|discriminate H]. injection H as <-.
  cbn [c_page c_user]. rewrite E1. reflexivity.
Qed.

Lemma old_items_ok dec page bv country shared xfs date mem rest : 30 <= bv -> forall l l2 pos st g, 30 <= o_version (s_book st) ->
  typed_xfs date xfs (old_setup (s_book st)) -> o_strings (s_book st) = shared -> ready dec page (s_book st) -> settled bv (s_book st) ->
  Forall (good_item (dec page) country shared xfs) l -> (bv <= 45 -> Forall late_item l) -> from mem pos (flat_map item_bytes l ++ rest) ->
  countries_ok country (r_countries (s_reading st)) ->
  Forall (fun it => is_extent it = false) l \/ (Forall (fun it => is_cell it = false) l /\ r_grid (s_reading st) = new_grid) ->
  put_all (old_setup (s_book st)) (flat_map (item_cells shared date) l) (r_grid (s_reading st)) = (g, Ok tt) ->
  anchored (r_link (s_reading st)) (l ++ l2) ->
  exists st', r_grid (s_reading st') = g /\ countries_ok country (r_countries (s_reading st')) /\ anchored (r_link (s_reading st')) l2 /\
    kept dec page (s_book st) (s_book st') /\
    forall f, old_loop (length l + f) dec bv mem pos st = old_loop f dec bv mem (pos + size (flat_map item_bytes l)) st'.
Proof.
  intro V. induction l as [|it l IH]; intros l2 pos st g OV T SH RD SE G LT F C O P A; cbn [flat_map length app] in *.
  - cbn [put_all] in P. injection P as <-. exists st. split; [reflexivity|]. split; [exact C|]. split; [exact A|]. split; [apply kept_self; exact RD|].
    intro f. change (size []) with 0. rewrite Z.add_0_r. reflexivity.
  - pose proof (Forall_inv G) as G1. pose proof (Forall_inv_tail G) as G2. rewrite <- app_assoc in F. rewrite put_all_app in P.
    destruct (put_all (old_setup (s_book st)) (item_cells shared date it) (r_grid (s_reading st))) as [g1 [[]|e]] eqn:P1; [|discriminate P].
    destruct (old_item_ok dec page bv country shared xfs date mem it pos _ st g1 (l ++ l2) (or_introl (conj V OV)) T SH RD (fun _ => SE) G1 (fun H => Forall_inv (LT H)) F C) as (st1 & E1 & C' & A' & [K _] & R);
      [|exact P1|exact A|].
    { intro D. destruct O as [O|[_ O]]; [|exact O]. inversion O. congruence. }
    apply from_next in F. pose proof K as (c & EB & RD1 & _).
    destruct (IH l2 (pos + size (item_bytes it)) st1 g) as (st2 & E2 & C2 & A2 & K2 & R2); try assumption.
    + rewrite EB. exact OV.
    + rewrite EB. exact T.
    + rewrite EB. exact SH.
    + rewrite EB. exact SE.
    + intro H. exact (Forall_inv_tail (LT H)).
    + destruct O as [O|[O N]]; [left; inversion O; assumption|right]. inversion O as [|? ? O1 O2]; subst. split; [exact O2|].
      assert (I : item_cells (o_strings (s_book st)) date it = []).
      { destruct it as [it|? ? ? ?|? ? ? ?|? ? ? ? ?|? ?|? ? ?|? ?]; try discriminate O1; try reflexivity.
        destruct it; try discriminate O1; reflexivity. }
      rewrite I in P1. cbn [put_all] in P1. injection P1 as P1. rewrite <- P1. exact N.
    + rewrite EB, E1. exact P.
    + exists st2. split; [exact E2|]. split; [exact C2|]. split; [exact A2|]. split; [exact (kept_trans _ _ _ _ _ K K2)|].
      intro f. cbn [Nat.add]. rewrite R, R2, size_app. f_equal. lia.
Qed.

Lemma old_item_4 it : 4 <= size (item_bytes it).
Proof.
  destruct it as [it|p raw t extra|p raw t runs|p code r flags rest|code data|at_ first more|code data]; cbn [item_bytes]; try apply item_4; try apply record_4; rewrite size_app.
  - pose proof (record_4 code (place_bytes p ++ result_bytes r ++ flags ++ rest)). pose proof (size_pos (result_records 2 r)). lia.
  - match goal with |- context [size (record ?c ?d) + size ?x] => pose proof (record_4 c d); pose proof (size_pos x) end. lia.
Qed.
Lemma old_items_length l : 4 * Z.of_nat (length l) <= size (flat_map item_bytes l).
Proof.
  induction l as [|it l IH]; [unfold size; cbn; lia|]. cbn [flat_map length]. rewrite size_app. pose proof (old_item_4 it). lia.
Qed.
Lemma old_item_good b dec country shared xfs date it : good_item dec country shared xfs it ->
  Forall (good_put (old_setup b)) (item_cells shared date it).
Proof.
  assert (X : forall p t v, good_place xfs p -> Forall (good_put (old_setup b)) [cell_at p t v]).
  { intros p t v (R & C & _). constructor; [|constructor]. split; [unfold inside; cbn [pt_row pt_col cell_at old_setup su_max_rows su_max_cols]; lia|]. eexists. constructor. }
  intro G. destruct it as [it|p raw t extra|p raw t runs|p code r flags rest|code data|at_ first more|code data]; cbn [item_cells]; try (constructor; fail);
    try (apply X; destruct G as [G _]; exact G).
  destruct G as [CO G]. destruct it as [p c|row col l|data|x y|a b'|code data inner|k|ar s|head author pad|d|t|code data]; try contradiction CO; try constructor; cbn [SpecBiff.good_item SpecBiff.item_cells common] in *.
  - destruct G as (WR & WC & _). unfold word16 in WR. destruct CO as [CO _]. split; [unfold inside; cbn [pt_row pt_col old_setup su_max_rows su_max_cols]; lia|]. eexists. constructor.
  - constructor.
  - destruct G as (WR & C0 & _ & C1 & _). unfold word16 in WR. apply row_cells_good; cbn [old_setup su_max_rows su_max_cols]; lia.
Qed.
Lemma old_item_typed shared date it : Forall (fun p => pt_type p <> None) (item_cells shared date it).
Proof. destruct it; cbn [item_cells]; try apply item_typed; repeat constructor; discriminate. Qed.

Definition kept_sheet (dec : decoder) (page : option Z) (country : Z * Z) (b b' : obook) : Prop :=
  exists c co, b' = with_countries co (with_coding c b) /\ ready dec page b' /\ countries_ok country co.

Lemma old_sheet_ok dec page country shared xfs date mem pos s rest b : 30 <= o_version b ->
  typed_xfs date xfs (old_setup b) -> o_strings b = shared -> ready dec page b -> settled (o_version b) b ->
  countries_ok country (o_countries b) -> word16 (sd_version s) -> good_bof (sd_more s) -> in_order (sd_items s) -> anchored None (sd_items s) ->
  Forall (good_item (dec page) country shared xfs) (sd_items s) -> (o_version b <= 45 -> Forall late_item (sd_items s)) ->
  from mem pos (sheet_bytes s ++ rest) ->
  exists sh b', old_sheet dec mem pos b = Ok (sh, b') /\ kept_sheet dec page country b b' /\
    shows_cells (flat_map (item_cells shared date) (sd_items s)) sh.
Proof.
  intros V T ST RD SE C WV GB (a & b' & E & OA & OB) AN G LT F.
  unfold sheet_bytes in F. rewrite <- !app_assoc in F.
  destruct (getbof_ok _ _ _ 16 _ _ WV GB ltac:(right; reflexivity) F) as (v & B & _ & F1). clear F.
  set (cells := flat_map (item_cells shared date) (sd_items s)).
  assert (GP : Forall (good_put (old_setup b)) cells).
  { unfold cells. apply Forall_flat_map. eapply Forall_impl; [|exact G]. intros it GI. eapply old_item_good. exact GI. }
  assert (GT : Forall (fun p => pt_type p <> None) cells).
  { unfold cells. apply Forall_flat_map. apply Forall_forall. intros it _. apply old_item_typed. }
  destruct (shows_built (old_setup b) cells eq_refl GP GT) as (g & g' & P & TI & SH).
  unfold cells in P. rewrite E, flat_map_app, put_all_app in P. rewrite E in F1, G, AN, LT. rewrite flat_map_app, <- app_assoc in F1.
  apply Forall_app in G. destruct G as [GA GB'].
  destruct (put_all (old_setup b) (flat_map _ a) new_grid) as [g1 [[]|e]] eqn:P1; [|discriminate P].
  assert (LA : o_version b <= 45 -> Forall late_item a /\ Forall late_item b') by (intro H; apply Forall_app; exact (LT H)).
  set (st0 := mkosheet (mkreading new_grid (o_countries b) None false) b None []).
  destruct (old_items_ok dec page (o_version b) country shared xfs date mem _ V a b' _ st0 g1 V T ST RD SE GA (fun H => proj1 (LA H)) F1 C) as (s1 & G1 & C1 & A1 & K1 & R1);
    [right; auto|exact P1|exact AN|].
  pose proof F1 as F0. apply from_next in F1. pose proof K1 as (c1 & EB & RD1 & _). cbn [st0 s_book] in EB.
  destruct (old_items_ok dec page (o_version b) country shared xfs date mem _ V b' [] _ s1 g ltac:(rewrite EB; exact V) ltac:(rewrite EB; exact T)
    ltac:(rewrite EB; exact ST) RD1 ltac:(rewrite EB; exact SE) GB' (fun H => proj2 (LA H)) F1 C1 (or_introl OB) ltac:(rewrite EB, G1; exact P)
    ltac:(rewrite app_nil_r; exact A1)) as (s2 & G2 & C2 & _ & K2 & R2).
  pose proof (kept_trans _ _ _ _ _ K1 K2) as (c2 & EB2 & RD2 & _). cbn [st0 s_book] in EB2.
  exists (sheet_of g'), (with_countries (r_countries (s_reading s2)) (s_book s2)). split; [|split; [|exact SH]].
  - unfold old_sheet. rewrite B. cbn [bind]. fold st0.
    apply from_length in F0. destruct F0 as [P0 L0]. rewrite !size_app in L0. pose proof (old_items_length a). pose proof (old_items_length b'). pose proof (record_4 10 []).
    pose proof (size_pos rest).
    assert (LM : exists k, S (length mem) = (length a + (length b' + S k))%nat).
    { exists (length mem - length a - length b')%nat. unfold size in L0 at 1. change (record 10 []) with eof in *. lia. }
    destruct LM as [k LM]. rewrite LM, R1, R2. apply from_next in F1.
    cbn [old_loop]. unfold eof in F1. destruct (get_record_ok _ _ 10 [] _ ltac:(unfold word16; lia) ltac:(unfold short, size; cbn; lia) F1) as [R _].
    rewrite R. cbn [bind Z.eqb Pos.eqb]. cbv zeta. rewrite G2, EB2.
    change (old_setup (with_countries (r_countries (s_reading s2)) (with_coding c2 b))) with (old_setup b). rewrite TI. reflexivity.
  - exists c2, (r_countries (s_reading s2)). rewrite EB2. split; [reflexivity|]. split; [|exact C2]. rewrite EB2 in RD2. exact RD2.
Qed.

Lemma old_sheets_ok dec page country shared xfs date mem base : forall tb ss b, 50 <= o_version b ->
  typed_xfs date xfs (old_setup b) -> o_strings b = shared -> ready dec page b -> countries_ok country (o_countries b) ->
  Forall2 (fun tab s => holds_at mem (snd tab + base) (sheet_bytes s)) tb ss ->
  Forall (fun s => word16 (sd_version s) /\ good_bof (sd_more s) /\ in_order (sd_items s) /\ anchored None (sd_items s) /\
    Forall (good_item (dec page) country shared xfs) (sd_items s)) ss ->
  exists shs b', old_sheets dec mem (map (fun t : str * Z => (fst t, snd t + base)) tb) b = Ok (shs, b') /\
    o_sheets b' = o_sheets b /\ o_datemode b' = o_datemode b /\
    Forall2 (fun s sh => shows_cells (flat_map (item_cells shared date) (sd_items s)) sh) ss shs.
Proof.
  intros tb ss b V T ST RD C H. revert b V T ST RD C. induction H as [|[name off] s tb ss H _ IH]; intros b V T ST RD C G.
  - exists [], b. repeat split. constructor.
  - inversion G as [|? ? (WV & GB & O & AN & GI) G2]; subst. cbn [map old_sheets fst snd] in *.
    apply holds_from in H. destruct H as [post F].
    destruct (old_sheet_ok dec page country (o_strings b) xfs date mem (off + base) s post b) as (sh & b1 & R & (c & co & E & RD1 & C1) & SH); try assumption; try reflexivity; try lia.
    { intro I. cbn [In] in I. lia. }
    rewrite R. cbn [bind]. subst b1.
    destruct (IH (with_countries co (with_coding c b))) as (shs & b2 & E2 & S2 & D2 & A); try assumption; try reflexivity.
    rewrite E2. cbn [bind]. exists (sh :: shs), b2. split; [reflexivity|]. split; [exact S2|]. split; [exact D2|]. constructor; assumption.
Qed.

(** ** Globals *)

Definition coding_ok (dec : decoder) (L l : list global) (c : coding) : Prop :=
  c_page c = page_of l /\ (forall p, c_page c = Some p -> In p usual) /\ used_page L (c_page c) /\
  (forall u, c_user c = Some u -> exists raw extra, u = coded_text 1 raw ++ extra /\ size raw < 256 /\
     forall page, used_page L page -> exists t, dec page raw = Ok t).
Lemma user_ok (dec : decoder) page raw extra t : dec page raw = Ok t -> size raw < 256 ->
  old_string dec page (coded_text 1 raw ++ extra) 0 1 = Ok (t, 0 + Z.of_nat 1 + size raw).
Proof. intros D S. exact (old_string_ok dec page 1 [] raw t extra ltac:(lia) D S). Qed.
Lemma old_derive_ok dec L l c : coding_ok dec L l c -> old_derive dec c = Ok (mkcoding (page_of l) true None).
Proof.
  intros (P & U & UP & W). unfold old_derive. rewrite <- P.
  assert (E : match c_page c with None => Ok tt | Some p => if existsb (Z.eqb p) (1200 :: codecs) then Ok tt else Err OtherError end = Ok tt).
  { destruct (c_page c) as [p|]; [|reflexivity]. specialize (U p eq_refl).
    assert (F : forallb (fun p => existsb (Z.eqb p) (1200 :: codecs)) usual = true) by (vm_compute; reflexivity).
    rewrite forallb_forall in F. rewrite (F p U). reflexivity. }
  rewrite E. cbn [bind]. destruct (c_user c) as [u|]; [|reflexivity].
  destruct (W u eq_refl) as (raw & extra & -> & S & D). destruct (D _ UP) as [t D']. rewrite (user_ok _ _ _ _ _ D' S). reflexivity.
Qed.
Lemma coding_set dec L l c : coding_ok dec L l c -> coding_ok dec L l (mkcoding (page_of l) true None).
Proof. intros (P & U & UP & W). unfold coding_ok. cbn [c_page c_user]. rewrite P in U, UP. repeat split; try assumption. discriminate. Qed.
Lemma coding_ready dec L l b : coding_ok dec L l (o_coding b) -> ready dec (page_of l) b.
Proof.
  intro K. unfold ready. destruct (c_set (o_coding b)) eqn:S.
  - exists (o_coding b). destruct K as (P & _). auto.
  - rewrite (old_derive_ok dec L l _ K). eexists. split; [reflexivity|]. split; reflexivity.
Qed.
Lemma coding_coded dec L l b : coding_ok dec L l (o_coding b) ->
  exists c, coded dec b = Ok (with_coding c b) /\ coding_ok dec L l c /\ c_page c = page_of l.
Proof.
  intro K. unfold coded. destruct (c_set (o_coding b)) eqn:S.
  - exists (o_coding b). split; [destruct b; reflexivity|]. split; [exact K|]. destruct K as (P & _). exact P.
  - rewrite (old_derive_ok dec L l _ K). eexists. split; [reflexivity|]. split; [eapply coding_set; exact K|reflexivity].
Qed.
Lemma coding_other dec L l g c : (forall p x, g <> Codepage p x) -> coding_ok dec L l c -> coding_ok dec L (l ++ [g]) c.
Proof.
  intros N (P & K). split; [|exact K]. rewrite P. unfold page_of. rewrite fold_left_app. cbn [fold_left]. destruct g; try reflexivity. destruct (N c0 extra eq_refl).
Qed.

Record facts (base : Z) (l : list SpecBiff.global) (b : obook) : Prop := mkfacts {
  fa_version : 50 <= o_version b;
  fa_datemode : o_datemode b = datemode_of l;
  fa_formats : forall key, dget key (k_formats (o_looks b)) = format_type l key;
  fa_count : Z.of_nat (length (k_xfs (o_looks b))) = xf_count l;
  fa_xfs : forall i before key, xf_at l i before key -> nth_error (k_xfs (o_looks b)) (Z.to_nat i) = Some (if known before key then key else 0);
  fa_strings : o_strings b = shared_of l;
  fa_sheets : o_sheets b = map (fun t => (fst t, snd t + base)) (tabs l)
}.
Lemma facts_new base version : 50 <= version -> facts base [] (new_obook version).
Proof. intro V. constructor; try reflexivity; [exact V|]. intros i before key (font & rest & after & E & _). destruct before; discriminate E. Qed.
Ltac said := unfold datemode_of, shared_of; rewrite last_said_snoc; reflexivity.
Lemma facts_skip base l b : facts base l b -> facts base (l ++ [SpecBiff.Skipped 0 []]) b.
Proof.
  intros [K0 K3 K4 K5 K6 K7 K8]. constructor; [exact K0| | | | | |].
  - rewrite K3. said.
  - intro k. rewrite K4. unfold format_type, format_of. rewrite last_said_snoc, xf_count_snoc. cbn [is_xf]. rewrite Z.add_0_r. reflexivity.
  - rewrite K5, xf_count_snoc. cbn [is_xf]. lia.
  - intros i before k H. apply xf_at_snoc in H. destruct H as [H|(font & r & X & _)]; [exact (K6 _ _ _ H)|discriminate X].
  - rewrite K7. said.
  - rewrite K8, tabs_snoc. cbn [tabs flat_map]. rewrite app_nil_r. reflexivity.
Qed.
Lemma facts_coding base l c b : facts base l b -> facts base l (with_coding c b).
Proof. intros [K0 K3 K4 K5 K6 K7 K8]. constructor; assumption. Qed.
Lemma facts_refs base l r b : facts base l b -> facts base l (with_refs r b).
Proof. intros [K0 K3 K4 K5 K6 K7 K8]. constructor; assumption. Qed.
Lemma facts_countries base l c b : facts base l b -> facts base l (with_countries c b).
Proof. intros [K0 K3 K4 K5 K6 K7 K8]. constructor; assumption. Qed.

(** What is known of names and sheets that may be referred to. *)
Definition type_of (k : N) : Z := if (1 <=? Z.of_N k) && (Z.of_N k <=? 4) then Z.of_N k else 0.
Record rfacts (dec : decoder) (l : list global) (r : refs) : Prop := mkrfacts {
  rf_types : f_types r = map type_of (kinds_of l);
  rf_names : forall i name, names_sheet dec l i name -> exists k, find (fun e => fst e =? i) (f_names r) = Some (k, name);
  rf_only : forall i k name, find (fun e => fst e =? i) (f_names r) = Some (k, name) -> names_sheet dec l i name;
  rf_bound : Forall (fun e => fst e <= Z.of_nat (length (f_types r))) (f_names r);
  rf_list : f_list r = map NamesProofs.name_obj (names_of l)
}.
Definition quiet (g : global) : Prop := match g with Reference _ _ _ | Named _ => False | _ => True end.
Lemma kinds_snoc l g : kinds_of (l ++ [g]) = kinds_of l ++ kinds_of [g].
Proof. apply flat_map_app. Qed.
Lemma names_snoc l g : names_of (l ++ [g]) = names_of l ++ names_of [g].
Proof. apply flat_map_app. Qed.
Lemma names_sheet_snoc dec l g i name : names_sheet dec (l ++ [g]) i name ->
  names_sheet dec l i name \/
  exists n rest, g = Reference n 3 rest /\ Z.of_nat (length (kinds_of l)) + 1 = i /\ dec (page_of l) (firstn (N.to_nat n) rest) = Ok name.
Proof.
  intros (before & n & rest & after & E & I & D). destruct after as [|x after _] using rev_ind.
  - apply app_inj_tail in E. destruct E as [-> ->]. right. exists n, rest. auto.
  - rewrite app_comm_cons, app_assoc in E. apply app_inj_tail in E. destruct E as [-> ->]. left. exists before, n, rest, after. auto.
Qed.
Lemma names_sheet_more dec l g i name : names_sheet dec l i name -> names_sheet dec (l ++ [g]) i name.
Proof. intros (before & n & rest & after & -> & H). exists before, n, rest, (after ++ [g]). split; [rewrite <- app_assoc; reflexivity|exact H]. Qed.
Lemma rfacts_other dec l g r r' : quiet g -> f_types r' = f_types r -> f_names r' = f_names r -> f_list r' = f_list r ->
  rfacts dec l r -> rfacts dec (l ++ [g]) r'.
Proof.
  intros Q E1 E2 E3 [R1 R2 R5 R3 R4]. constructor.
  - rewrite E1, R1, kinds_snoc. destruct g; try destruct Q; cbn; rewrite app_nil_r; reflexivity.
  - intros i name H. rewrite E2. apply R2. apply names_sheet_snoc in H. destruct H as [H|(n & rest & -> & _)]; [exact H|destruct Q].
  - intros i k name. rewrite E2. intro H. apply names_sheet_more. exact (R5 _ _ _ H).
  - rewrite E1, E2. exact R3.
  - rewrite E3, R4, names_snoc. destruct g; try destruct Q; cbn; rewrite app_nil_r; reflexivity.
Qed.
Lemma rfacts_new dec : rfacts dec [] new_refs.
Proof. constructor; try reflexivity; [|discriminate|constructor]. intros i name (before & n & rest & after & E & _). destruct before; discriminate E. Qed.
Lemma find_snoc {A} (p : A -> bool) l x y : find p l = Some y -> find p (l ++ [x]) = Some y.
Proof. induction l as [|z l IH]; cbn [find app]; [discriminate|]. destruct (p z); auto. Qed.
Lemma find_app {A} (p : A -> bool) l x : find p (l ++ [x]) = match find p l with Some y => Some y | None => find p [x] end.
Proof. induction l as [|z l IH]; cbn [find app]; [reflexivity|]. destruct (p z); [reflexivity|exact IH]. Qed.
Lemma find_new {A} (p : A -> bool) l x : Forall (fun z => p z = false) l -> p x = true -> find p (l ++ [x]) = Some x.
Proof. intros F P. induction F as [|z l Z1 _ IH]; cbn [find app]; [rewrite P|rewrite Z1, IH]; reflexivity. Qed.
Lemma rfacts_reference dec l n kind more r names : rfacts dec l r ->
  (if Z.of_N kind =? 3 then exists s, dec (page_of l) (firstn (N.to_nat n) more) = Ok s /\ names = f_names r ++ [(Z.of_nat (length (f_types r)) + 1, s)]
   else names = f_names r) ->
  rfacts dec (l ++ [Reference n kind more]) (mkrefs (f_map r) (f_types r ++ [type_of kind]) names (f_list r)).
Proof.
  intros [R1 R2 R5 R3 R4] E. constructor; cbn [f_types f_names f_list f_map].
  - rewrite R1, kinds_snoc, map_app. reflexivity.
  - intros i name H. apply names_sheet_snoc in H. destruct H as [H|(n' & rest & X & I & D)].
    + destruct (R2 i name H) as [k K]. exists k. destruct (Z.of_N kind =? 3); [destruct E as (s & _ & ->); apply find_snoc; exact K|rewrite E; exact K].
    + injection X as <- -> <-. cbn [Z.of_N Z.eqb Pos.eqb] in E. destruct E as (s & D' & ->). rewrite D in D'. injection D' as <-.
      assert (LT : Z.of_nat (length (f_types r)) + 1 = i) by (rewrite R1, map_length; exact I). exists i. rewrite LT. apply find_new; [|cbn [fst]; apply Z.eqb_refl].
      eapply Forall_impl; [|exact R3]. intros e B. cbv beta in B. lia.
  - intros i k name H. destruct (Z.eqb_spec (Z.of_N kind) 3) as [K|_]; [|rewrite E in H; apply names_sheet_more; exact (R5 _ _ _ H)].
    destruct E as (s & D & ->). destruct (find (fun e => fst e =? i) (f_names r)) as [[k' s']|] eqn:FD.
    + rewrite (find_snoc _ _ _ _ FD) in H. injection H as <- <-. apply names_sheet_more. exact (R5 _ _ _ FD).
    + rewrite find_app, FD in H. cbn [find fst] in H. destruct (Z.eqb_spec (Z.of_nat (length (f_types r)) + 1) i) as [EI|_]; [|discriminate H].
      injection H as _ <-. exists l, n, more, []. split; [replace kind with 3%N by lia; reflexivity|]. split; [rewrite <- EI, R1, map_length; reflexivity|exact D].
  - rewrite app_length. cbn [length]. assert (B : Forall (fun e => fst e <= Z.of_nat (length (f_types r) + 1)) (f_names r))
      by (eapply Forall_impl; [|exact R3]; intros e B; cbv beta in B; lia).
    destruct (Z.of_N kind =? 3); [|rewrite E; exact B]. destruct E as (s & _ & ->). apply Forall_app. split; [exact B|]. constructor; [cbn [fst]; lia|constructor].
  - rewrite R4, names_snoc. cbn. rewrite app_nil_r. reflexivity.
Qed.
Lemma rfacts_named dec l n r : rfacts dec l r ->
  rfacts dec (l ++ [Named n]) (mkrefs (f_map r) (f_types r) (f_names r) (f_list r ++ [NamesProofs.name_obj (SpecNames.as_name n)])).
Proof.
  intros [R1 R2 R5 R3 R4]. constructor; cbn [f_types f_names f_list f_map].
  - rewrite R1, kinds_snoc. cbn. rewrite app_nil_r. reflexivity.
  - intros i name H. apply names_sheet_snoc in H. destruct H as [H|(n' & rest & X & _)]; [apply R2; exact H|discriminate X].
  - intros i k name H. apply names_sheet_more. exact (R5 _ _ _ H).
  - exact R3.
  - rewrite R4, names_snoc, map_app. reflexivity.
Qed.
Lemma sheet_num_in tabs name : forall i found, In name tabs -> i <= XlNames.sheet_num tabs i name found < i + Z.of_nat (length tabs).
Proof.
  induction tabs as [|t tabs IH]; intros i found I; [destruct I|]. cbn [XlNames.sheet_num length].
  destruct (in_dec (list_eq_dec N.eq_dec) name tabs) as [J|J]; [pose proof (IH (i + 1) (if str_eqb t name then i else found) J); lia|].
  destruct I as [->|I]; [|contradiction]. rewrite str_eqb_refl. clear IH.
  assert (H : forall l k f, ~ In name l -> XlNames.sheet_num l k name f = f).
  { induction l as [|u l IH]; intros k f N; cbn [XlNames.sheet_num]; [reflexivity|]. rewrite IH by (intro X; apply N; right; exact X).
    destruct (str_eqb u name) eqn:Q; [|reflexivity]. apply str_eqb_eq in Q. destruct N. left. exact Q. }
  rewrite H by exact J. lia.
Qed.
Lemma old_names_ok dec l b : rfacts dec l (o_refs b) -> c_page (o_coding b) = page_of l -> map fst (o_sheets b) = map fst (tabs (map as8 l)) ->
  good_names dec l -> exists nm, XlNames.names_epilogue (old_links dec b) (f_list (o_refs b)) = Ok nm.
Proof.
  intros [R1 R2 R5 R3 R4] P T (SC & sheets & SH & H). rewrite R4.
  assert (LS : length (o_sheets b) = length (tabs (map as8 l))) by (rewrite <- (map_length fst), T, map_length; reflexivity).
  apply (NamesProofs.names_ok _ (Some (in_formulas dec l)) sheets (foreign l)).
  - unfold NamesProofs.suits, old_links. cbn [XlNames.l_old XlNames.ol_dec XlNames.ol_types]. rewrite P. split; [intros raw X; exact X|].
    intros e _ PR NE. cbn [in_formulas SpecNames.present] in PR. rewrite R1.
    destruct (nth_error (kinds_of l) (Z.to_nat (- e - 1))) as [k|] eqn:K; [|apply nth_error_None in K; lia].
    exists (type_of k). split; [rewrite nth_error_map, K; reflexivity|]. intros [F|F] X; [lia|]. rewrite K in F. apply F. f_equal.
    unfold type_of in X. destruct ((1 <=? Z.of_N k) && (Z.of_N k <=? 4)); lia.
  - intros k N o S. destruct (SH k N) as (name & RF & I). destruct (R2 _ _ RF) as [j J].
    unfold XlNames.scope, old_links, XlNames.extern_name. cbn [XlNames.l_old XlNames.ol_names XlNames.ol_tabs XlNames.l_sheets]. cbv zeta. rewrite S.
    replace (Z.of_nat k + 1 =? 0) with false by lia. rewrite J. rewrite T, LS. pose proof (sheet_num_in (map fst (tabs (map as8 l))) name 0 (-2) I) as B.
    rewrite map_length in B. lia.
  - clear H SH R4. induction SC as [|n ns N1 _ IH]; [reflexivity|]. cbn [map XlNames.check_scopes].
    change (XlNames.l_old (old_links dec b)) with (Some (XlNames.mkoldlinks (dec (c_page (o_coding b))) (f_types (o_refs b)) (f_names (o_refs b)) (map fst (o_sheets b)))).
    cbv iota. change (XlNames.n_sheet (NamesProofs.name_obj n)) with (SpecNames.nm_sheet n). destruct (Z.eqb_spec (SpecNames.nm_sheet n) 0) as [_|NZ]; [exact IH|].
    destruct N1 as [N1|(name & N1)]; [contradiction|]. destruct (R2 _ _ N1) as [j J]. unfold XlNames.extern_name. cbn [XlNames.ol_names]. rewrite J. exact IH.
  - exact H.
Qed.
(** A name for a sheet that is not told by a Reference. *)
Lemma old_names_bad dec l b : rfacts dec l (o_refs b) ->
  Exists (fun n => SpecNames.nm_sheet n <> 0 /\ forall name, ~ names_sheet dec l (SpecNames.nm_sheet n) name) (names_of l) ->
  XlNames.names_epilogue (old_links dec b) (f_list (o_refs b)) = Err KeyError.
Proof.
  intros [R1 R2 R5 R3 R4] E. rewrite R4. clear R4. unfold XlNames.names_epilogue. match goal with |- bind ?x _ = _ => replace x with (@Err unit KeyError); [reflexivity|] end.
  symmetry. induction (names_of l) as [|n ns IH]; [inversion E|]. cbn [map XlNames.check_scopes].
  change (XlNames.l_old (old_links dec b)) with (Some (XlNames.mkoldlinks (dec (c_page (o_coding b))) (f_types (o_refs b)) (f_names (o_refs b)) (map fst (o_sheets b)))).
  cbv iota. change (XlNames.n_sheet (NamesProofs.name_obj n)) with (SpecNames.nm_sheet n). unfold XlNames.extern_name. cbn [XlNames.ol_names].
  destruct (Z.eqb_spec (SpecNames.nm_sheet n) 0) as [Z0|NZ].
  - inversion E as [? ? [X _]|? ? X]; subst; [contradiction|exact (IH X)].
  - destruct (find _ _) as [[k name]|] eqn:FD; [|reflexivity]. inversion E as [? ? [_ X]|? ? X]; subst; [|exact (IH X)].
    destruct (X name). exact (R5 _ _ _ FD).
Qed.

Record knows_old (dec : decoder) (country : Z * Z) (base : Z) (L l : list global) (b : obook) : Prop := mkknowsold {
  ko_facts : facts base (map as8 l) b;
  ko_coding : coding_ok dec L l (o_coding b);
  ko_country : countries_ok country (o_countries b);
  ko_refs : rfacts dec l (o_refs b)
}.

Lemma ogstep dec mem base pos code data tail b b' pos' : word16 code -> short data -> code <> 10 ->
  from mem pos (record code data ++ tail) ->
  old_globals_record dec mem base code data (pos + 4 + size data) b = Ok (b', pos') ->
  forall f, old_globals (S f) dec mem base pos b = old_globals f dec mem base pos' b'.
Proof.
  intros W S N F H f. destruct (get_record_ok mem pos code data tail W S F) as [R _].
  cbn [old_globals]. rewrite R. cbn [bind]. replace (code =? 10) with false by lia. rewrite H. reflexivity.
Qed.
Lemma text_whole t : text (whole t) = t.
Proof. unfold text, whole. cbn. apply app_nil_r. Qed.

Lemma slice_two (x y : N) (l : str) n : pyslice (x :: y :: l) 2 (Z.of_N n + 2) = firstn (N.to_nat n) l.
Proof.
  unfold pyslice, py_bound. cbv zeta. cbn [length]. set (k := Z.of_nat (S (S (length l)))). assert (K : k = 2 + Z.of_nat (length l)) by (unfold k; lia).
  replace (2 <? 0) with false by lia. replace (Z.of_N n + 2 <? 0) with false by lia. replace (Z.min 2 k) with 2 by lia.
  change (skipn (Z.to_nat 2) (x :: y :: l)) with l. destruct (Nat.le_gt_cases (N.to_nat n) (length l)).
  - f_equal. lia.
  - rewrite !firstn_all2 by lia. reflexivity.
Qed.
Lemma old_global_ok dec country base mem g L l b pos rest : knows_old dec country base L l b -> good_global dec country L l g -> In g L ->
  from mem pos (global_bytes g ++ rest) -> starts rest ->
  exists b', knows_old dec country base L (l ++ [g]) b' /\
    forall f, old_globals (S f) dec mem base pos b = old_globals f dec mem base (pos + size (global_bytes g)) b'.
Proof.
  intros [KF KC KN KR] G GI F ST. pose proof KF as [K0 K3 K4 K5 K6 K7 K8].
  destruct g as [offset vis kind raw name extra|key raw fmt extra|font key more|m extra|c extra|x y extra|total table|raw extra|n kind more|nd|code data];
    cbn [good_global global_bytes] in *.
  - destruct G as (O & KD & D & SR & S). set (data := le_bytes 4 offset ++ [vis; kind] ++ coded_text 1 raw ++ extra) in *.
    assert (SD : short data).
    { unfold short, data, coded_text in *. rewrite !size_app in *. rewrite !size_bytes. change (size [vis; kind]) with 2. change (size (repeat 0%N 7)) with 7 in S. lia. }
    rewrite record_size, Z.add_assoc. set (c := mkcoding (page_of l) true None).
    exists (with_sheets (if (kind =? 0)%N then o_sheets b ++ [(name, offset + base)] else o_sheets b)
              (mapped (if (kind =? 0)%N then Z.of_nat (length (o_sheets b)) else -1) (with_coding c b))). split.
    + constructor; [| |exact KN|apply (rfacts_other _ _ _ (o_refs b)); [exact I|reflexivity..|exact KR]].
      * rewrite map_app. cbn [map as8]. constructor; cbn [with_sheets mapped with_refs with_coding o_version o_datemode o_looks o_strings o_sheets]; [exact K0| | | | | |].
        -- rewrite K3. said.
        -- intro k. rewrite K4. unfold format_type, format_of. rewrite last_said_snoc, xf_count_snoc. cbn [is_xf]. rewrite Z.add_0_r. reflexivity.
        -- rewrite K5, xf_count_snoc. cbn [is_xf]. lia.
        -- intros i before k H. apply xf_at_snoc in H. destruct H as [H|(font & r & X & _)]; [exact (K6 _ _ _ H)|discriminate X].
        -- rewrite K7. said.
        -- rewrite K8, tabs_snoc, map_app. destruct (N.eqb_spec kind 0) as [->|NZ].
           ++ cbn [tabs flat_map map app fst snd]. rewrite text_whole. reflexivity.
           ++ destruct kind; [congruence|]. cbn [tabs flat_map map]. rewrite app_nil_r. reflexivity.
      * apply coding_other; [discriminate|]. eapply coding_set. exact KC.
    + apply (ogstep dec mem base pos 0x85 data rest); [unfold word16; lia|exact SD|lia|exact F|].
      unfold old_globals_record. cbn [Z.eqb Pos.eqb]. cbv zeta. unfold old_boundsheet, derived. rewrite (old_derive_ok dec L l _ KC). cbn [bind with_coding o_version o_coding c_page].
      fold c. replace (o_version b =? 45) with false by lia. change (sized 6 (bytes_at 0 6 data)) with (@Ok unit tt). cbn [bind].
      pose proof (old_string_ok dec (page_of l) 1 (le_bytes 4 offset ++ [vis; kind]) raw name extra ltac:(lia) D SR) as Q.
      rewrite <- app_assoc in Q. fold data in Q. change (size (le_bytes 4 offset ++ [vis; kind])) with 6 in Q. rewrite Q. cbn [bind].
      change (bytes_at 0 4 data) with (le_bytes 4 offset). rewrite le_signed_bytes by (unfold is_int; lia).
      replace (le_value (bytes_at 5 1 data)) with (Z.of_N kind) by (cbn; lia).
      destruct (N.eqb_spec kind 0) as [->|NZ]; [reflexivity|]. replace (Z.of_N kind =? 0) with false by lia. reflexivity.
  - destruct G as (W & D & SR & S). set (data := le_bytes 2 key ++ coded_text 1 raw ++ extra) in *.
    assert (SD : short data).
    { unfold short, data, coded_text in *. rewrite !size_app in *. rewrite !size_bytes. change (size (repeat 0%N 3)) with 3 in S. lia. }
    rewrite record_size, Z.add_assoc. destruct (coding_coded dec L l b KC) as (c & CD & CK & PG).
    eexists. split; [|apply (ogstep dec mem base pos 0x41e data rest); [unfold word16; lia|exact SD|lia|exact F|]].
    2: { unfold old_globals_record. cbn [Z.eqb Pos.eqb]. cbv zeta. unfold old_format. cbn [Z.eqb Pos.eqb]. cbv zeta. rewrite CD. cbn [bind with_coding o_coding o_looks].
      replace (50 <=? o_version b) with true by lia. change (sized 2 (bytes_at 0 2 data)) with (@Ok unit tt). cbn [bind].
      replace (o_version b <=? 30) with false by lia. rewrite PG.
      pose proof (old_string_ok dec (page_of l) 1 (le_bytes 2 key) raw fmt extra ltac:(lia) D SR) as Q. fold data in Q. change (size (le_bytes 2 key)) with 2 in Q.
      rewrite Q. cbn [bind]. unfold data. rewrite u16_first by exact W. reflexivity. }
    constructor; [| |exact KN|apply (rfacts_other _ _ _ (o_refs b)); [exact I|reflexivity..|exact KR]].
    + rewrite map_app. cbn [map as8]. constructor; cbn [with_looks with_coding o_version o_datemode o_looks o_strings o_sheets k_formats k_xfs]; [exact K0| | | | | |].
      * rewrite K3. said.
      * intro k. rewrite dget_dset, K4. unfold format_type, format_of. rewrite last_said_snoc, xf_count_snoc. cbn [is_xf]. rewrite Z.add_0_r, (Z.eqb_sym k key), text_whole.
        destruct (key =? k); reflexivity.
      * rewrite K5, xf_count_snoc. cbn [is_xf]. lia.
      * intros i before k H. apply xf_at_snoc in H. destruct H as [H|(font & r & X & _)]; [exact (K6 _ _ _ H)|discriminate X].
      * rewrite K7. said.
      * rewrite K8, tabs_snoc. cbn [tabs flat_map]. rewrite app_nil_r. reflexivity.
    + cbn [with_looks with_coding o_coding]. apply coding_other; [discriminate|exact CK].
  - destruct G as (FL & W & MS & S). set (data := font ++ le_bytes 2 key ++ more) in *.
    assert (SD : short data).
    { unfold short, data in *. rewrite !size_app in S. rewrite !size_app. rewrite size_bytes. change (size (repeat 0%N 4)) with 4 in S. pose proof (size_of _ _ FL). ulia. }
    rewrite record_size, Z.add_assoc. set (l8 := map as8 l) in *.
    set (formats := match k_xfs (o_looks b) with [] => fill_in (k_formats (o_looks b)) | _ => k_formats (o_looks b) end).
    assert (FM : forall k, dget k formats = match format_of k l8 with Some t => Some (if is_date_format_string t then FDT else FGE) | None => dget k std_format_code_types end).
    { intro k. unfold formats. destruct (k_xfs (o_looks b)) as [|x0 xs] eqn:EX; cbn [length] in K5.
      - rewrite fill_in_get, K4. unfold format_type. replace (xf_count l8 =? 0) with true by lia. destruct (format_of k l8); reflexivity.
      - rewrite K4. unfold format_type. replace (xf_count l8 =? 0) with false by lia. reflexivity. }
    assert (KW : forall k, dmem k formats = known l8 k).
    { intro k. unfold dmem, known. rewrite FM. destruct (format_of k l8); reflexivity. }
    assert (Q : exists t, old_globals_record dec mem base 0xe0 data (pos + 4 + size data) b =
      Ok (with_looks (mklooks formats (k_count (o_looks b)) (k_xfs (o_looks b) ++ [if known l8 key then key else 0]) t (k_done (o_looks b))) b, pos + 4 + size data)).
    { eexists. unfold old_globals_record. cbn [Z.eqb Pos.eqb]. cbv zeta. unfold old_xf. cbv zeta.
      replace (match k_xfs (o_looks b) with [] => if 50 <=? o_version b then fill_in (k_formats (o_looks b)) else k_formats (o_looks b) | _ => k_formats (o_looks b) end) with formats
        by (unfold formats; replace (50 <=? o_version b) with true by lia; reflexivity).
      unfold old_xf_key. replace (50 <=? o_version b) with true by lia.
      rewrite sized_at by (unfold data; rewrite !size_app, size_bytes; pose proof (size_of _ _ FL); ulia). cbn [bind].
      replace (u16 2 data) with key by (symmetry; unfold data; apply u16_at; [exact FL|exact W]).
      rewrite KW. reflexivity. }
    destruct Q as (t & Q).
    eexists. split; [|apply (ogstep dec mem base pos 0xe0 data rest); [unfold word16; lia|exact SD|lia|exact F|exact Q]].
    constructor; [| |exact KN|apply (rfacts_other _ _ _ (o_refs b)); [exact I|reflexivity..|exact KR]].
    + rewrite map_app. cbn [map as8]. fold l8. constructor; cbn [with_looks with_coding o_version o_datemode o_looks o_strings o_sheets k_formats k_xfs]; [exact K0| | | | | |].
      * rewrite K3. said.
      * intro k. rewrite FM. unfold format_type, format_of. rewrite last_said_snoc, xf_count_snoc. cbn [is_xf].
        pose proof (xf_count_pos l8). replace (xf_count l8 + 1 =? 0) with false by lia. reflexivity.
      * rewrite app_length, xf_count_snoc. cbn [is_xf length]. lia.
      * intros i before k H. apply xf_at_snoc in H. destruct H as [H|(f1 & r & X & -> & ->)].
        -- pose proof (K6 _ _ _ H) as Z1. rewrite nth_error_app1; [exact Z1|]. apply nth_error_Some. congruence.
        -- injection X as -> -> ->. rewrite nth_error_app2 by lia. replace (Z.to_nat (xf_count l8) - length (k_xfs (o_looks b)))%nat with 0%nat by lia. reflexivity.
      * rewrite K7. said.
      * rewrite K8, tabs_snoc. cbn [tabs flat_map]. rewrite app_nil_r. reflexivity.
    + apply coding_other; [discriminate|exact KC].
  - destruct G as (M & S). set (data := le_bytes 2 m ++ extra) in *.
    assert (SD : short data).
    { unfold short, data in *. rewrite !size_app in *. rewrite size_bytes. change (size (repeat 0%N 2)) with 2 in S. lia. }
    rewrite record_size, Z.add_assoc.
    exists (with_datemode m b). split; [|apply (ogstep dec mem base pos 0x22 data rest); [unfold word16; lia|exact SD|lia|exact F|]].
    2: { unfold old_globals_record. cbn [Z.eqb Pos.eqb]. cbv zeta. unfold old_datemode. change (sized 2 (bytes_at 0 2 data)) with (@Ok unit tt). cbn [bind].
      unfold data. rewrite u16_first by (unfold word16; lia). cbv zeta. replace ((m =? 0) || (m =? 1)) with true by lia. reflexivity. }
    constructor; [|apply coding_other; [discriminate|exact KC]|exact KN|apply (rfacts_other _ _ _ (o_refs b)); [exact I|reflexivity..|exact KR]].
    rewrite map_app. cbn [map as8]. constructor; cbn [with_datemode o_version o_datemode o_looks o_strings o_sheets]; [exact K0| | | | | |].
    + unfold datemode_of. rewrite last_said_snoc. reflexivity.
    + intro k. rewrite K4. unfold format_type, format_of. rewrite last_said_snoc, xf_count_snoc. cbn [is_xf]. rewrite Z.add_0_r. reflexivity.
    + rewrite K5, xf_count_snoc. cbn [is_xf]. lia.
    + intros i before k H. apply xf_at_snoc in H. destruct H as [H|(font & r & X & _)]; [exact (K6 _ _ _ H)|discriminate X].
    + rewrite K7. said.
    + rewrite K8, tabs_snoc. cbn [tabs flat_map]. rewrite app_nil_r. reflexivity.
  - destruct G as (U & S). set (data := le_bytes 2 c ++ extra) in *.
    assert (SD : short data).
    { unfold short, data in *. rewrite !size_app in *. rewrite size_bytes. change (size (repeat 0%N 2)) with 2 in S. lia. }
    rewrite record_size, Z.add_assoc. assert (W : word16 c). { unfold word16. cbn [In usual] in U. lia. }
    assert (PS : page_of (l ++ [Codepage c extra]) = Some c) by (unfold page_of; rewrite fold_left_app; reflexivity).
    assert (CK : coding_ok dec L (l ++ [Codepage c extra]) (mkcoding (Some c) (c_set (o_coding b)) (c_user (o_coding b)))).
    { destruct KC as (_ & _ & _ & KU). unfold coding_ok. cbn [c_page c_user]. split; [symmetry; exact PS|]. split; [intros p [= <-]; exact U|].
      split; [right; exists c, extra; split; [reflexivity|exact GI]|exact KU]. }
    eexists. split; [|apply (ogstep dec mem base pos 0x42 data rest); [unfold word16; lia|exact SD|lia|exact F|]].
    2: { unfold old_globals_record. cbn [Z.eqb Pos.eqb]. cbv zeta. unfold old_codepage. change (sized 2 (bytes_at 0 2 data)) with (@Ok unit tt). cbn [bind].
      unfold data at 1. rewrite u16_first by exact W. cbv zeta. unfold derived. cbn [with_coding o_coding]. rewrite (old_derive_ok _ _ _ _ CK). reflexivity. }
    constructor; [|eapply coding_set; exact CK|exact KN|apply (rfacts_other _ _ _ (o_refs b)); [exact I|reflexivity..|exact KR]]. rewrite map_app. apply facts_skip. exact (facts_coding _ _ _ _ (facts_coding _ _ _ _ KF)).
  - destruct G as (E & S). subst country. set (data := le_bytes 2 x ++ le_bytes 2 y ++ extra) in *.
    assert (SD : short data).
    { unfold short, data in *. rewrite !size_app in *. rewrite !size_bytes. change (size (repeat 0%N 4)) with 4 in S. lia. }
    rewrite record_size, Z.add_assoc.
    eexists. split; [|apply (ogstep dec mem base pos 0x8c data rest); [unfold word16; lia|exact SD|lia|exact F|]].
    2: { unfold old_globals_record. cbn [Z.eqb Pos.eqb]. cbv zeta. pose proof (country_ok (x, y) (o_countries b) extra KN) as H. cbn [fst snd] in H. fold data in H. rewrite H. reflexivity. }
    constructor; [|apply coding_other; [discriminate|exact KC]|right; reflexivity|apply (rfacts_other _ _ _ (o_refs b)); [exact I|reflexivity..|exact KR]]. rewrite map_app. apply facts_skip. exact (facts_countries _ _ _ _ KF).
  - destruct G as (TL & GT & LT & GS). unfold shared_records in *.
    set (pre := total ++ le_bytes 4 (Z.of_nat (length table))) in *.
    destruct (records_head pre (table_tokens table)) as (d & rs & E & _). rewrite E in *. cbn [continued] in *.
    pose proof (Forall_inv GS) as S1. pose proof (Forall_inv_tail GS) as S2.
    rewrite <- app_assoc in F. destruct (get_record_ok mem pos 0xfc (pre ++ d) _ ltac:(unfold word16; lia) S1 F) as [_ F1].
    rewrite size_app, record_size.
    replace (pos + (4 + size (pre ++ d) + size (flat_map (record 60) rs))) with (pos + 4 + size (pre ++ d) + size (flat_map (record 60) rs)) by lia.
    eexists. split; [|apply (ogstep dec mem base pos 0xfc (pre ++ d) (flat_map (record 60) rs ++ rest)); [unfold word16; lia|exact S1|lia|exact F|]].
    2: { unfold old_globals_record. cbn [Z.eqb Pos.eqb]. cbv zeta. unfold handle_sst.
      assert (B4 : bytes_at 4 4 (pre ++ d) = le_bytes 4 (Z.of_nat (length table))).
      { unfold pre. rewrite <- app_assoc. apply bytes_at_mid; [exact TL|apply le_bytes_length]. }
      rewrite B4. unfold unpack_i. rewrite le_bytes_length. cbn [Nat.eqb bind]. rewrite le_signed_bytes by (unfold is_int; lia).
      rewrite (continues_ok mem rest ST rs) by (assumption || (apply from_length in F1; destruct F1 as [P0 P1]; rewrite !size_app in P1; rewrite !size_app in P0; pose proof (continued_size rs); pose proof (size_pos rest); unfold size in P1 at 1; lia)).
      cbn [bind]. pose proof (C54_table_proof pre table) as C54. rewrite E in C54. rewrite C54; [|unfold pre; rewrite app_length, le_bytes_length; lia|exact GT].
      cbn [bind]. reflexivity. }
    constructor; [|apply coding_other; [discriminate|exact KC]|exact KN|apply (rfacts_other _ _ _ (o_refs b)); [exact I|reflexivity..|exact KR]].
    rewrite map_app. cbn [map as8]. constructor; cbn [with_strings o_version o_datemode o_looks o_strings o_sheets b_strings]; [exact K0| | | | | |].
    + rewrite K3. said.
    + intro k. rewrite K4. unfold format_type, format_of. rewrite last_said_snoc, xf_count_snoc. cbn [is_xf]. rewrite Z.add_0_r. reflexivity.
    + rewrite K5, xf_count_snoc. cbn [is_xf]. lia.
    + intros i before k H. apply xf_at_snoc in H. destruct H as [H|(font & r & X & _)]; [exact (K6 _ _ _ H)|discriminate X].
    + unfold shared_of. rewrite last_said_snoc. reflexivity.
    + rewrite K8, tabs_snoc. cbn [tabs flat_map]. rewrite app_nil_r. reflexivity.
  - destruct G as (D & SR & S). set (data := coded_text 1 raw ++ extra) in *.
    assert (SD : short data).
    { unfold short, data, coded_text in *. rewrite !size_app in *. rewrite size_bytes. change (size (repeat 0%N 1)) with 1 in S. lia. }
    rewrite record_size, Z.add_assoc.
    assert (Q : exists c, old_writeaccess dec data b = Ok (with_coding c b) /\ coding_ok dec L l c).
    { unfold old_writeaccess. cbv zeta. destruct (c_set (o_coding b)) eqn:CS.
      - exists (o_coding b). destruct (D (c_page (o_coding b))) as [t D']; [destruct KC as (_ & _ & UP & _); exact UP|].
        unfold data. rewrite (user_ok _ _ _ _ _ D' SR). cbn [bind]. split; [destruct b; reflexivity|exact KC].
      - eexists. split; [reflexivity|]. destruct KC as (P & U & UP & _). unfold coding_ok. cbn [c_page c_user]. repeat (split; [assumption|]).
        intros u [= <-]. exists raw, extra. split; [reflexivity|]. split; [exact SR|exact D]. }
    destruct Q as (c & Q & CK).
    exists (with_coding c b). split; [|apply (ogstep dec mem base pos 0x5c data rest); [unfold word16; lia|exact SD|lia|exact F|]].
    2: { unfold old_globals_record. cbn [Z.eqb Pos.eqb]. cbv zeta. rewrite Q. reflexivity. }
    constructor; [|apply coding_other; [discriminate|exact CK]|exact KN|apply (rfacts_other _ _ _ (o_refs b)); [exact I|reflexivity..|exact KR]]. rewrite map_app. apply facts_skip. exact (facts_coding _ _ _ _ KF).
  - destruct G as (NN & NK & D & S). set (data := n :: kind :: more) in *.
    assert (SD : short data).
    { unfold short, data in *. rewrite size_app in S. change (size (repeat 0%N 2)) with 2 in S. unfold size in *. cbn [length]. lia. }
    rewrite record_size, Z.add_assoc.
    set (b1 := with_coding (mkcoding (page_of l) true None) b).
    assert (Q : exists names, (if Z.of_N kind =? 3
        then do s <- dec (page_of l) (pyslice data 2 (Z.of_N n + 2)); Ok (f_names (o_refs b) ++ [(Z.of_nat (length (f_types (o_refs b))) + 1, s)])
        else Ok (f_names (o_refs b))) = Ok names /\
      (if Z.of_N kind =? 3 then exists s, dec (page_of l) (firstn (N.to_nat n) more) = Ok s /\ names = f_names (o_refs b) ++ [(Z.of_nat (length (f_types (o_refs b))) + 1, s)]
       else names = f_names (o_refs b))).
    { destruct (Z.eqb_spec (Z.of_N kind) 3) as [EK|_]; [|eexists; split; reflexivity]. destruct (D ltac:(lia)) as [t D'].
      replace (pyslice data 2 (Z.of_N n + 2)) with (firstn (N.to_nat n) more) by (symmetry; apply slice_two). rewrite D'. cbn [bind].
      eexists. split; [reflexivity|]. exists t. split; reflexivity. }
    destruct Q as (names & Q1 & Q2).
    exists (with_refs (mkrefs (f_map (o_refs b)) (f_types (o_refs b) ++ [type_of kind]) names (f_list (o_refs b))) b1).
    split; [|apply (ogstep dec mem base pos 0x17 data rest); [unfold word16; lia|exact SD|lia|exact F|]].
    2: { unfold old_globals_record. cbn [Z.eqb Pos.eqb]. cbv zeta. unfold old_externsheet, derived. rewrite (old_derive_ok dec L l _ KC). fold b1. cbn [bind].
      change (sized 2 (bytes_at 0 2 data)) with (@Ok unit tt). cbn [bind].
      assert (B1 : le_value (bytes_at 1 1 data) = Z.of_N kind) by (cbn; lia). assert (B0 : le_value (bytes_at 0 1 data) = Z.of_N n) by (cbn; lia).
      cbv zeta. rewrite B1, B0. change (c_page (o_coding b1)) with (page_of l). change (o_refs b1) with (o_refs b). match goal with |- bind (bind ?x _) _ = _ => replace x with (@Ok (list (Z * str)) names) by (symmetry; exact Q1) end. reflexivity. }
    constructor; [|apply coding_other; [discriminate|eapply coding_set; exact KC]|exact KN|apply rfacts_reference; assumption].
    rewrite map_app. apply facts_skip. exact (facts_refs _ _ _ _ (facts_coding _ _ _ _ KF)).
  - set (data := SpecNames.old_name_bytes nd) in *. assert (SD : short data) by (destruct G as (_ & _ & _ & _ & _ & S); exact S).
    rewrite record_size, Z.add_assoc.
    eexists. split; [|apply (ogstep dec mem base pos 0x18 data rest); [unfold word16; lia|exact SD|lia|exact F|]].
    2: { unfold old_globals_record. cbn [Z.eqb Pos.eqb]. cbv zeta. unfold old_name. replace (o_version b <? 50) with false by lia. unfold derived. rewrite (old_derive_ok dec L l _ KC).
      cbn [bind with_coding o_coding c_page]. unfold data. rewrite (NamesProofs.old_name_ok (dec (page_of l)) _ nd (fun raw X => X) G). cbn [bind]. cbv zeta. reflexivity. }
    constructor; [|apply coding_other; [discriminate|eapply coding_set; exact KC]|exact KN|cbn [with_refs o_refs with_coding]; apply rfacts_named; exact KR].
    rewrite map_app. apply facts_skip. exact (facts_refs _ _ _ _ (facts_coding _ _ _ _ KF)).
  - destruct G as (W & S & N). cbn [In global_codes] in N. rewrite record_size, Z.add_assoc.
    exists b. split; [|apply (ogstep dec mem base pos code data rest); [exact W|exact S|lia|exact F|]].
    2: { unfold old_globals_record. cbv zeta. repeat match goal with |- (if ?c then _ else _) = _ => replace c with false by lia end. reflexivity. }
    constructor; [|apply coding_other; [discriminate|exact KC]|exact KN|apply (rfacts_other _ _ _ (o_refs b)); [exact I|reflexivity..|exact KR]]. rewrite map_app. apply facts_skip. exact KF.
Qed.
Lemma old_global_starts dec country L l g rest : good_global dec country L l g -> starts (global_bytes g ++ rest).
Proof.
  assert (H : forall code data r, word16 code -> code <> 0x3c -> starts ((record code data ++ r) ++ rest)).
  { intros code data r W N. exists code, data, (r ++ rest). rewrite <- app_assoc. auto. }
  assert (H' : forall code data, word16 code -> code <> 0x3c -> starts (record code data ++ rest)).
  { intros code data W N. exists code, data, rest. auto. }
  intro G. destruct g as [offset vis kind raw name extra|key raw fmt extra|font key more|m extra|c extra|x y extra|total table|raw extra|n kind more|nd|code data];
    cbn [global_bytes good_global] in *; try (apply H'; unfold word16; lia).
  - unfold shared_records. destruct (records_head (total ++ le_bytes 4 (Z.of_nat (length table))) (table_tokens table)) as (d & rs & E & _).
    rewrite E. cbn [continued]. apply H; unfold word16; lia.
  - destruct G as (W & _ & N). cbn [In global_codes] in N. apply H'; [exact W|lia].
Qed.
Lemma old_global_4 dec country L l g : good_global dec country L l g -> 4 <= size (global_bytes g).
Proof.
  intro G. destruct (old_global_starts dec country L l g [] G) as (code & data & r & E & _). rewrite app_nil_r in E. rewrite E, size_app.
  pose proof (record_4 code data). pose proof (size_pos r). lia.
Qed.

Lemma old_globals_ok dec country base mem rest L : starts rest -> (forall before g after, L = before ++ g :: after -> good_global dec country L before g) ->
  forall l2 l1 b pos, L = l1 ++ l2 -> knows_old dec country base L l1 b -> from mem pos (flat_map global_bytes l2 ++ rest) ->
  exists b', knows_old dec country base L L b' /\ 4 * Z.of_nat (length l2) <= size (flat_map global_bytes l2) /\
    forall f, old_globals (length l2 + f) dec mem base pos b = old_globals f dec mem base (pos + size (flat_map global_bytes l2)) b'.
Proof.
  intros ST G. induction l2 as [|g l2 IH]; intros l1 b pos E K F; cbn [flat_map length] in *.
  - exists b. rewrite app_nil_r in E. subst l1. split; [exact K|]. split; [unfold size; cbn; lia|]. intro f. change (size []) with 0. rewrite Z.add_0_r. reflexivity.
  - rewrite <- app_assoc in F. pose proof (G _ _ _ E) as G1.
    assert (ST1 : starts (flat_map global_bytes l2 ++ rest)).
    { destruct l2 as [|h l2]; [exact ST|]. cbn [flat_map]. rewrite <- app_assoc. apply (old_global_starts dec country L (l1 ++ [g])). eapply G. rewrite <- app_assoc. exact E. }
    destruct (old_global_ok dec country base mem g L l1 b pos (flat_map global_bytes l2 ++ rest) K G1) as (b1 & K1 & R1); [rewrite E; apply in_elt|exact F|exact ST1|].
    apply from_next in F. destruct (IH (l1 ++ [g]) b1 _ ltac:(rewrite <- app_assoc; exact E) K1 F) as (b2 & K2 & L2 & R2).
    exists b2. split; [exact K2|]. rewrite size_app. pose proof (old_global_4 _ _ _ _ _ G1). split; [lia|]. intro f. cbn [Nat.add]. rewrite R1, R2. f_equal. lia.
Qed.

(** ** Files *)

Definition padding (opcode : Z) (data : str) : str :=
  repeat 0%N (Z.to_nat (Z.max 0 (match boflen opcode with Some n => n | None => 0 end - size data))).
Lemma getbof_all mem pos opcode data rest rqd : In opcode bof_codes -> 4 <= size data <= 20 ->
  from mem pos (record opcode data ++ rest) ->
  let v := bof_version opcode (data ++ padding opcode data) in
  u16 2 data = rqd \/ (v < 50 /\ u16 2 data = 16) \/ (rqd = 5 /\ v = 45 /\ u16 2 data = 0x100) ->
  getbof mem pos rqd = Ok (v, pos + 4 + size data) /\ from mem (pos + 4 + size data) rest.
Proof.
  intros I SD F v K. split.
  - unfold getbof. unfold record in F. rewrite <- !app_assoc in F. assert (W : word16 opcode) by (unfold word16; cbn [In bof_codes] in I; lia).
    destruct (get2_ok _ _ opcode _ W F) as [E1 F1]. rewrite E1.
    assert (BL : exists full, boflen opcode = Some full) by (cbn [In bof_codes] in I; destruct I as [<-|[<-|[<-|[<-|[]]]]]; eexists; reflexivity).
    destruct BL as [full BL]. rewrite BL.
    destruct (get2_ok _ _ (size data) _ ltac:(unfold word16; lia) F1) as [E2 F2]. rewrite E2.
    replace ((4 <=? size data) && (size data <=? 20)) with true by lia. cbn [negb]. cbv zeta.
    rewrite (from_slice _ _ data rest (size data) F2) by reflexivity. change (Z.of_nat (length data)) with (size data).
    replace (size data <? size data) with false by lia.
    assert (P : repeat 0%N (Z.to_nat (Z.max 0 (full - size data))) = padding opcode data) by (unfold padding; rewrite BL; reflexivity). rewrite P.
    assert (U : u16 2 (data ++ padding opcode data) = u16 2 data).
    { destruct data as [|x1 [|x2 [|x3 [|x4 data]]]]; try (unfold size in SD; cbn [length] in SD; lia). reflexivity. }
    rewrite U. fold v. replace (pos + 2 + 2 + size data) with (pos + 4 + size data) by lia.
    destruct K as [K|[[K1 K2]|(-> & K1 & K2)]].
    + rewrite K, Z.eqb_refl. rewrite orb_true_r. reflexivity.
    + rewrite K2. replace (v <? 50) with true by lia. cbn [Z.eqb Pos.eqb andb]. match goal with |- (if ?c then _ else _) = _ => destruct c; reflexivity end.
    + rewrite K1, K2. reflexivity.
  - apply from_next in F. rewrite record_size in F. replace (pos + 4 + size data) with (pos + (4 + size data)) by lia. exact F.
Qed.
Lemma getbof_any mem pos opcode data rest rqd : In opcode bof_codes -> 4 <= size data <= 20 ->
  from mem pos (record opcode data ++ rest) ->
  let v := bof_version opcode (data ++ padding opcode data) in
  u16 2 data = rqd \/ (v < 50 /\ u16 2 data = 16) ->
  getbof mem pos rqd = Ok (v, pos + 4 + size data) /\ from mem (pos + 4 + size data) rest.
Proof. intros I SD F v K. apply getbof_all; try assumption. destruct K as [K|K]; auto. Qed.

Definition old_opened (dec : decoder) (mem : str) (base : Z) : res book :=
  do (version, pos) <- getbof mem base 5;
  if version =? 0 then Err XLRDError
  else if version =? 80 then Err NotModelled
  else open_old dec version mem base pos.
Definition old_stored_at (W : workbook) (mem : str) (base : Z) : Prop :=
  holds_at mem base (globals_bytes W) /\
  Forall2 (fun tab s => holds_at mem (snd tab + base) (sheet_bytes s)) (tabs (says W)) (wb_sheets W).

Lemma old_bof mem pos more rest : good_bof more -> from mem pos (bof 0x500 5 more ++ rest) ->
  exists v, (v = 50 \/ v = 70) /\ getbof mem pos 5 = Ok (v, pos + size (bof 0x500 5 more)) /\ from mem (pos + size (bof 0x500 5 more)) rest.
Proof.
  intros G F. set (data := le_bytes 2 0x500 ++ le_bytes 2 5 ++ more). unfold good_bof in G. pose proof (size_pos more).
  assert (SD : size data = 4 + size more) by (unfold data; rewrite !size_app, !size_bytes; lia).
  assert (U : u16 2 data = 5) by (unfold data; apply u16_at; [reflexivity|unfold word16; lia]).
  destruct (getbof_any mem pos 0x809 data rest 5 ltac:(cbn; auto) ltac:(lia) F (or_introl U)) as [B F1].
  eexists. split; [|unfold bof; fold data; rewrite record_size, Z.add_assoc; split; [exact B|exact F1]].
  unfold bof_version. cbv zeta. assert (U0 : u16 0 (data ++ padding 0x809 data) = 0x500) by reflexivity. rewrite U0.
  cbn [Z.eqb Pos.eqb Z.div Z.div_eucl Z.pos_div_eucl]. change (0x809 / 256 =? 8) with true. cbv iota.
  destruct ((u16 6 (data ++ padding 0x809 data) <? 1994) || _ || _ || _); cbn [Z.eqb Pos.eqb andb]; auto.
Qed.

Lemma old_opened_ok dec country W mem base : good_workbook dec country W -> old_stored_at W mem base ->
  exists date shs, old_opened dec mem base = Ok (mkbook (map fst (tabs (says W))) shs (datemode_of (says W))) /\
    tells_dates (says W) date /\
    Forall2 (fun s sh => shows_cells (cells_of W date s) sh) (wb_sheets W) shs.
Proof.
  intros (GB & GG & GN & GS) [H1 H2]. apply holds_from in H1. destruct H1 as [post F]. unfold globals_bytes in F. rewrite <- !app_assoc in F.
  destruct (old_bof _ _ _ _ GB F) as (v & V & B & F1). set (pos := base + size (bof 0x500 5 (wb_more W))) in *. set (L := wb_globals W) in *.
  destruct (old_globals_ok dec country base mem (eof ++ post) L (eof_starts post) GG L [] (new_obook v) pos eq_refl) as (b & [KF KC KN KR] & LL & R).
  { constructor; [apply facts_new; lia| |left; reflexivity|apply rfacts_new]. repeat split; try discriminate. left. reflexivity. }
  { exact F1. }
  pose proof F1 as F0. apply from_length in F0. destruct F0 as [P0 P1]. rewrite !size_app in P1.
  pose proof (record_4 10 []). change (record 10 []) with eof in *. pose proof (size_pos post).
  assert (LM : exists k, S (2 * length mem) = (length L + S k)%nat).
  { exists (2 * length mem - length L)%nat. unfold size in P1 at 1. unfold L in *. lia. }
  destruct LM as [k LM]. pose proof KF as [K0 K3 K4 K5 K6 K7 K8]. change (map as8 L) with (says W) in *.
  pose (g := mkglobals None false (0, 0) 0 (k_formats (o_looks b)) (k_xfs (o_looks b)) (k_types (o_looks b)) [] [] O (b_links new_globals) []).
  destruct (dates_ok (says W) g K4 K5 K6) as [TD TT]. change (b_types (xf_epilogue g)) with (k_types (o_looks (old_epilogue b))) in TT.
  destruct (coding_coded dec L L (old_epilogue b) KC) as (c & CD & CK & PG).
  destruct (old_sheets_ok dec (page_of L) country (shared_of (says W)) (xf_count (says W)) (date_of g) mem base (tabs (says W)) (wb_sheets W) (with_coding c (old_epilogue b)))
    as (shs & b' & E & ES & ED & A); try assumption.
  { apply (coding_ready dec L L). exact CK. }
  exists (date_of g), shs. split; [|split; [exact TD|exact A]].
  unfold old_opened. rewrite B. cbn [bind]. replace (v =? 0) with false by lia. replace (v =? 80) with false by lia.
  unfold open_old. replace (v <=? 40) with false by lia. rewrite LM, R. apply from_next in F1. cbn [old_globals]. unfold eof in F1.
  destruct (get_record_ok _ _ 10 [] _ ltac:(unfold word16; lia) ltac:(unfold short, size; cbn; lia) F1) as [RR _]. rewrite RR. cbn [bind Z.eqb Pos.eqb].
  destruct (old_names_ok dec L (old_epilogue b) KR (proj1 KC)) as [nm NM]; [cbn [old_epilogue with_looks o_sheets]; rewrite K8, map_map; reflexivity|exact GN|].
  cbv zeta. rewrite NM. cbn [bind]. rewrite CD. cbn [bind]. replace (v =? 45) with false by lia.
  change (o_sheets (with_coding c (old_epilogue b))) with (o_sheets b) in *. change (o_datemode (with_coding c (old_epilogue b))) with (o_datemode b) in *.
  rewrite K8, E. cbn [bind]. rewrite ES, ED, K8, K3, map_map. reflexivity.
Qed.
