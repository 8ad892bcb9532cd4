(** * Lemmas about Biff.v *)

From Coq Require Import ZifyBool ZifyNat ZifyN.
From Verif Require XlNames SpecNames NamesProofs XlObjects SpecObjects ObjectsProofs.
From Verif Require Import PyBase PyBaseFacts PyFloat PyText NumPy Dbf SpecDbf DbfProofs Dicts Pack ReadXl XlStruct CompDoc SpecCompDoc
  CompDocProofs SpecSst Sst SstProofs SstThms SpecDoc DocProofs FmtDate FmtDateThms SpecXl XlSheet SpecXlSheet XlSheetProofs
  XlSheetThms SpecFmtDate Biff SpecBiff.
From Verif Require Export BytesProofs.
Open Scope nat_scope.
Open Scope Z_scope.

(** ** Numbers *)

(** No double ends in two bytes of ones. *)
Lemma le_bytes_split n m z : le_bytes (n + m) z = le_bytes n z ++ le_bytes m (z / 256 ^ Z.of_nat n).
Proof.
  revert z. induction n as [|n IH]; intro z; [cbn; rewrite Z.div_1_r; reflexivity|].
  cbn [Nat.add le_bytes app]. rewrite IH. f_equal. f_equal. f_equal.
  rewrite Z.div_div by lia. f_equal. replace (Z.of_nat (S n)) with (1 + Z.of_nat n) by lia. rewrite Z.pow_add_r by lia. lia.
Qed.
Lemma double_not_marked f : is_double f -> str_eqb (bytes_at 6 2 (double_bytes f)) [255; 255]%N = false.
Proof.
  intro D. apply str_eqb_neq. intro E. unfold double_bytes in E. change 8%nat with (6 + 2)%nat in E. rewrite le_bytes_split in E.
  rewrite <- (app_nil_r (le_bytes 2 _)) in E. rewrite bytes_at_mid in E by apply le_bytes_length.
  apply (f_equal le_value) in E. change (le_value [255; 255]%N) with 65535 in E.
  pose proof (double_bits_range f D) as R. change (256 ^ Z.of_nat 6) with (2 ^ 48) in E.
  rewrite le_value_bytes in E.
  - assert (B : 65535 * 2 ^ 48 <= double_bits f) by (Z.div_mod_to_equations; lia).
    assert (A : forall s, 0 <= sign_bit s <= 2 ^ 63) by (intros []; cbn; lia).
    destruct f as [s|s| |s m e]; cbn [is_double double_bits] in *; try (specialize (A s)); try lia.
    destruct (Z.ltb_spec (Zpos m) (2 ^ 52)); lia.
  - change (256 ^ Z.of_nat 2) with (2 ^ 16). Z.div_mod_to_equations. lia.
Qed.

Lemma low_bit w k : (k < 8)%N -> N.testbit (Z.to_N (w mod 256)) k = Z.odd (w / 2 ^ Z.of_N k).
Proof.
  intro K. rewrite <- N2Z.inj_testbit. rewrite Z2N.id by (apply Z.mod_pos_bound; lia).
  change 256 with (2 ^ 8). rewrite Z.mod_pow2_bits_low by lia. rewrite Z.testbit_odd, Z.shiftr_div_pow2 by lia. reflexivity.
Qed.
Lemma land2 w : negb (N.land (Z.to_N (w mod 256)) 2 =? 0)%N = Z.odd (w / 2).
Proof. change 2%N with (2 ^ 1)%N. rewrite land_bit, low_bit by lia. reflexivity. Qed.
Lemma land1 w : negb (N.land (Z.to_N (w mod 256)) 1 =? 0)%N = Z.odd w.
Proof. change 1%N with (2 ^ 0)%N. rewrite land_bit, low_bit by lia. cbn [Z.of_N Z.pow]. rewrite Z.div_1_r. reflexivity. Qed.
Lemma land252 x : (x < 256)%N -> N.land x 252 = (4 * (x / 4))%N.
Proof.
  intro L. assert (F : forallb (fun n => N.land (N.of_nat n) 252 =? 4 * (N.of_nat n / 4))%N (seq 0 256) = true) by (vm_compute; reflexivity).
  rewrite forallb_forall in F. specialize (F (N.to_nat x)). rewrite N2Nat.id in F. apply N.eqb_eq, F. apply in_seq. lia.
Qed.
Lemma rk_bytes_length k : length (rk_bytes k) = 4%nat.
Proof. destruct k; apply le_bytes_length. Qed.
Ltac Zify.zify_post_hook ::= Z.div_mod_to_equations.
Lemma unpack_rk k : good_rk k -> unpack_RK (rk_bytes k) = Ok (rk_value k).
Proof.
  destruct k as [n h|f h]; cbn [good_rk rk_bytes rk_value]; intro G.
  - unfold unpack_RK. cbn [le_bytes]. rewrite land2, land1.
    change (Z.to_N ((4 * n + 2 + Z.b2z h) mod 256) :: _) with (le_bytes 4 (4 * n + 2 + Z.b2z h)).
    assert (H0 : 0 <= Z.b2z h <= 1) by (destruct h; cbn; lia).
    replace (Z.odd ((4 * n + 2 + Z.b2z h) / 2)) with true
      by (replace ((4 * n + 2 + Z.b2z h) / 2) with (1 + 2 * n) by lia; rewrite Z.odd_add_mul_2; reflexivity).
    replace (Z.odd (4 * n + 2 + Z.b2z h)) with h
      by (replace (4 * n + 2 + Z.b2z h) with (Z.b2z h + 2 * (2 * n + 1)) by lia; rewrite Z.odd_add_mul_2; destruct h; reflexivity).
    unfold unpack_i. rewrite le_bytes_length. cbn [Nat.eqb bind]. rewrite le_signed_bytes by (unfold is_int; lia).
    rewrite Z.shiftr_div_pow2 by lia. change (2 ^ 2) with 4. replace ((4 * n + 2 + Z.b2z h) / 4) with n by lia.
    destruct h; reflexivity.
  - destruct G as [D M]. pose proof (double_bits_range f D) as R. set (B := double_bits f) in *.
    assert (H0 : 0 <= Z.b2z h <= 1) by (destruct h; cbn; lia).
    assert (Q : exists q, B = q * 2 ^ 34) by (exists (B / 2 ^ 34); lia). destruct Q as [q Q].
    assert (E : B / 2 ^ 32 = 4 * q) by (rewrite Q; lia). rewrite E.
    unfold unpack_RK. cbn [le_bytes]. rewrite land2, land1. cbn [firstn].
    replace (Z.odd ((4 * q + Z.b2z h) / 2)) with false
      by (replace ((4 * q + Z.b2z h) / 2) with (0 + 2 * q) by lia; rewrite Z.odd_add_mul_2; reflexivity).
    replace (Z.odd (4 * q + Z.b2z h)) with h
      by (replace (4 * q + Z.b2z h) with (Z.b2z h + 2 * (2 * q)) by lia; rewrite Z.odd_add_mul_2; destruct h; reflexivity).
    rewrite land252 by lia.
    replace ([0; 0; 0; 0]%N ++ _) with (double_bytes f).
    + rewrite unpack_double by exact D. cbn [bind]. destruct h; reflexivity.
    + unfold double_bytes. change 8%nat with (4 + 4)%nat. rewrite le_bytes_split.
      fold B. change (256 ^ Z.of_nat 4) with (2 ^ 32). rewrite E. f_equal.
      * cbn [le_bytes]. rewrite Q. rewrite !Z.div_div by lia.
        f_equal; [lia|]. f_equal; [lia|]. f_equal; [lia|]. f_equal. lia.
      * cbn [le_bytes app]. f_equal; [|f_equal; [|f_equal; [|f_equal]]].
        -- replace ((4 * q + Z.b2z h) mod 256) with (4 * (q mod 64) + Z.b2z h) by lia.
           replace ((4 * q) mod 256) with (4 * (q mod 64)) by lia. lia.
        -- f_equal. f_equal. lia.
        -- f_equal. f_equal. f_equal. lia.
        -- f_equal. f_equal. f_equal. f_equal. lia.
Qed.
Ltac Zify.zify_post_hook ::= idtac.

(** ** Records *)

Lemma holds_from c pos b : holds_at c pos b <-> exists post, from c pos (b ++ post).
Proof. split; [intros (pre & post & E & S); exists post, pre; auto|intros (post & pre & E & S); exists pre, post; auto]. Qed.

Lemma record_size code data : size (record code data) = 4 + size data.
Proof. unfold size, record. rewrite !app_length, !le_bytes_length. lia. Qed.
Lemma u16_first z l : word16 z -> u16 0 (le_bytes 2 z ++ l) = z.
Proof.
  intro W. change (u16 0 (le_bytes 2 z ++ l)) with (le_value (le_bytes 2 z)). apply le_value_bytes. exact W.
Qed.
Lemma u16_later a l : u16 (2 + a) l = u16 a (skipn 2 l).
Proof. unfold u16, bytes_at. rewrite skipn_add. reflexivity. Qed.
Lemma u16_mod z l : u16 0 (le_bytes 2 z ++ l) = z mod 2 ^ 16.
Proof. change (u16 0 (le_bytes 2 z ++ l)) with (le_value (le_bytes 2 z)). apply le_value_mod. Qed.
Lemma word16_size data : short data -> word16 (size data).
Proof. unfold short, word16, size. lia. Qed.
Lemma get_record_ok mem pos code data rest : word16 code -> short data -> from mem pos (record code data ++ rest) ->
  get_record mem pos = Ok (code, size data, data, pos + 4 + size data) /\ from mem (pos + 4 + size data) rest.
Proof.
  intros C D F. split.
  - unfold get_record. unfold record in F. rewrite <- !app_assoc in F.
    assert (H : pyslice mem pos (pos + 4) = le_bytes 2 code ++ le_bytes 2 (size data)).
    { apply (from_slice _ _ _ (data ++ rest)); [rewrite <- app_assoc; exact F|]. unfold size. rewrite app_length, !le_bytes_length. reflexivity. }
    rewrite H. cbv zeta. unfold sized. rewrite app_length, !le_bytes_length. cbn [Nat.add Nat.eqb bind].
    rewrite u16_first by exact C. rewrite (u16_later 0).
    change (skipn 2 (le_bytes 2 code ++ le_bytes 2 (size data))) with (le_bytes 2 (size data)).
    rewrite <- (app_nil_r (le_bytes 2 (size data))). rewrite u16_first by (apply word16_size; exact D).
    assert (H' : pyslice mem (pos + 4) (pos + 4 + size data) = data); [|rewrite H'; reflexivity].
    rewrite app_assoc in F. apply from_next in F.
    apply (from_slice _ _ _ rest); [|reflexivity].
    replace (size (le_bytes 2 code ++ le_bytes 2 (size data))) with 4 in F by (unfold size; rewrite app_length, !le_bytes_length; reflexivity). exact F.
  - apply from_next in F. rewrite record_size in F. replace (pos + 4 + size data) with (pos + (4 + size data)) by lia. exact F.
Qed.
Lemma sized_at n data : Z.of_nat n <= size data -> sized n (bytes_at 0 n data) = Ok tt.
Proof. intro L. unfold sized, size in *. rewrite bytes_at_length. replace (Nat.min n (length data - 0)) with n by lia. rewrite Nat.eqb_refl. reflexivity. Qed.
Lemma sized_all n data : size data = Z.of_nat n -> sized n data = Ok tt.
Proof. intro L. unfold sized, size in *. replace (length data) with n by lia. rewrite Nat.eqb_refl. reflexivity. Qed.

(** ** Cells *)

Definition typed_xfs (date : Z -> bool) (xfs : Z) (su : setup) : Prop :=
  forall xf, 0 <= xf < xfs -> dget xf (su_types su) = Some (number_type date xf).
Lemma put_number su date xfs r c v xf g : typed_xfs date xfs su -> 0 <= xf < xfs ->
  put_cell su r c None v xf g = put_cell su r c (Some (number_type date xf)) v xf g.
Proof.
  intros T X. unfold put_cell, put_cell_unragged, put_cell_ragged, cell_type_in. destruct (su_ragged su); rewrite (T xf X); reflexivity.
Qed.
Lemma put1_ok su p st g : put_all su [p] (r_grid st) = (g, Ok tt) -> put1 su p st = Ok (with_grid g st).
Proof.
  unfold put1. cbn [put_all]. destruct (put_cell _ _ _ _ _ _ _) as [g' [u|e]]; intro H; [injection H as ->; reflexivity|discriminate H].
Qed.
Lemma put1_number su date xfs r c v xf st g : typed_xfs date xfs su -> 0 <= xf < xfs ->
  put_all su [mkput r c (Some (number_type date xf)) v xf] (r_grid st) = (g, Ok tt) ->
  put1 su (mkput r c None v xf) st = Ok (with_grid g st).
Proof.
  intros T X H. apply put1_ok. cbn [put_all pt_row pt_col pt_type pt_value pt_xf] in *. rewrite (put_number su date xfs) by assumption. exact H.
Qed.

Lemma place_length p : length (place_bytes p) = 6%nat.
Proof. reflexivity. Qed.
Lemma place_row p d : word16 (pl_row p) -> u16 0 (place_bytes p ++ d) = pl_row p.
Proof. intro W. unfold place_bytes. rewrite <- app_assoc. apply u16_first. exact W. Qed.
Lemma place_col p d : word16 (pl_col p) -> u16 2 (place_bytes p ++ d) = pl_col p.
Proof.
  intro W. change (u16 2 (place_bytes p ++ d)) with (u16 0 (le_bytes 2 (pl_col p) ++ le_bytes 2 (pl_xf p) ++ d)). apply u16_first. exact W.
Qed.
Lemma place_xf p d : word16 (pl_xf p) -> u16 4 (place_bytes p ++ d) = pl_xf p.
Proof.
  intro W. change (u16 4 (place_bytes p ++ d)) with (u16 0 (le_bytes 2 (pl_xf p) ++ d)). apply u16_first. exact W.
Qed.
Lemma after_place p d a n : bytes_at (6 + a) n (place_bytes p ++ d) = bytes_at a n d.
Proof. reflexivity. Qed.
Lemma bytes_at_first n a b : length a = n -> bytes_at 0 n (a ++ b) = a.
Proof. apply bytes_at_0. Qed.

(** *** Runs of a rich text *)
Lemma rstring_runs_ok data runs : forall pos rest, from data pos (flat_map run_bytes runs ++ rest) ->
  rstring_runs (length runs) data pos = Ok (pos + 4 * Z.of_nat (length runs)).
Proof.
  induction runs as [|r runs IH]; intros pos rest F; cbn [length rstring_runs flat_map] in *; [f_equal; lia|].
  rewrite <- app_assoc in F.
  assert (L : size (run_bytes r) = 4) by reflexivity.
  rewrite (from_slice _ _ (run_bytes r) (flat_map run_bytes runs ++ rest)) by assumption.
  change (sized 4 (run_bytes r)) with (@Ok unit tt). cbn [bind].
  apply from_next in F. rewrite L in F. rewrite (IH _ rest F). f_equal. lia.
Qed.

(** *** The text of a formula *)
Lemma narrow_length t : Forall (fun c => (c < 65536)%N) t -> length (flat_map utf16 t) = length t.
Proof.
  induction 1 as [|c t H _ IH]; [reflexivity|]. cbn [flat_map]. rewrite app_length, IH. cbn [length].
  unfold utf16. replace (c <? 65536)%N with true by lia. reflexivity.
Qed.
Lemma text_length s : good_text s -> units s = Z.of_nat (length (snd s)).
Proof. intros [_ B]. unfold units. destruct (fst s); [rewrite narrow_length by exact B|]; reflexivity. Qed.
Lemma text_decoded s flags : N.testbit flags 0 = fst s -> good_text s ->
  (if opt_wide flags then utf16_le (stretch_bytes s) else Ok (stretch_bytes s)) = Ok (snd s).
Proof.
  intros B [G _]. rewrite opt_wide_bit, B. unfold good_stretch, stretch_bytes in *. destruct (fst s); [|reflexivity].
  apply utf16_le_bytes. exact G.
Qed.
Definition more_bytes (more : list (N * stretch)) : str := flat_map (fun fs => record 0x3c (fst fs :: stretch_bytes (snd fs))) more.
Definition more_units (more : list (N * stretch)) : Z := fold_right Z.add 0 (map (fun fs => units (snd fs)) more).
Lemma more_units_cons fs more : more_units (fs :: more) = units (snd fs) + more_units more.
Proof. reflexivity. Qed.
Lemma more_units_pos more : 0 <= more_units more.
Proof. induction more as [|fs more IH]; cbn; [lia|]. pose proof (units_pos (snd fs)). fold (more_units more). lia. Qed.
Lemma more_units_last more : more <> [] -> 0 < units (snd (last more (0%N, (false, [])))) -> 0 < more_units more.
Proof.
  induction more as [|fs more IH]; intros N P; [congruence|].
  rewrite more_units_cons.
  pose proof (units_pos (snd fs)). pose proof (more_units_pos more). destruct more as [|fs' more]; [apply Z.add_pos_nonneg; [exact P|assumption]|].
  assert (0 < more_units (fs' :: more)) by (apply IH; [discriminate|exact P]). apply Z.add_nonneg_pos; assumption.
Qed.
Lemma contents_ok mem rest : forall more first flags pre fuel pos found expected acc,
  N.testbit flags 0 = fst first -> good_text first ->
  Forall (fun fs => N.testbit (fst fs) 0 = fst (snd fs) /\ good_text (snd fs) /\ short (fst fs :: stretch_bytes (snd fs))) more ->
  (more <> [] -> 0 < units (snd (last more (0%N, (false, []))))) ->
  from mem pos (more_bytes more ++ rest) -> expected = found + units first + more_units more -> (length more <= fuel)%nat ->
  string_contents fuel mem (pre ++ flags :: stretch_bytes first) (size pre) expected found pos acc
  = Ok (acc ++ snd first ++ flat_map (fun fs => snd (snd fs)) more, pos + size (more_bytes more)).
Proof.
  induction more as [|[fl s] more IH]; intros first flags pre fuel pos found expected acc B G M L F E K.
  - destruct fuel as [|fuel]; cbn [string_contents]; 
    (unfold byte_at; rewrite py_index_pos by (unfold size; lia); unfold size at 1; rewrite Nat2Z.id, nth_error_app2, Nat.sub_diag by lia;
      cbn [nth_error bind]; cbv zeta;
      replace (pyslice _ (size pre + 1) _) with (stretch_bytes first)
       by (symmetry; replace (Z.of_nat _) with (size pre + 1 + size (stretch_bytes first)) by (unfold size; rewrite app_length; cbn [length]; lia);
        apply (from_slice _ _ _ []); [|reflexivity]; rewrite app_nil_r;
        exists (pre ++ [flags]); split; [rewrite <- app_assoc; reflexivity|unfold size; rewrite app_length; cbn [length]; lia]);
      rewrite text_decoded by assumption; cbn [bind];
      rewrite <- (text_length first) by exact G;
      replace (found + units first =? expected) with true by (cbn in E; lia);
      cbn [flat_map more_bytes]; rewrite app_nil_r; f_equal; f_equal; unfold size; cbn [length]; lia).
  - destruct fuel as [|fuel]; [cbn [length] in K; lia|]. cbn [string_contents].
    unfold byte_at; rewrite py_index_pos by (unfold size; lia); unfold size at 1; rewrite Nat2Z.id, nth_error_app2, Nat.sub_diag by lia;
      cbn [nth_error bind]; cbv zeta;
      replace (pyslice _ (size pre + 1) _) with (stretch_bytes first)
       by (symmetry; replace (Z.of_nat _) with (size pre + 1 + size (stretch_bytes first)) by (unfold size; rewrite app_length; cbn [length]; lia);
        apply (from_slice _ _ _ []); [|reflexivity]; rewrite app_nil_r;
        exists (pre ++ [flags]); split; [rewrite <- app_assoc; reflexivity|unfold size; rewrite app_length; cbn [length]; lia]);
      rewrite text_decoded by assumption; cbn [bind];
      rewrite <- (text_length first) by exact G.
    inversion M as [|? ? (MB & MG & MS) M']; subst. cbn [fst snd] in *.
    assert (P : 0 < more_units ((fl, s) :: more)) by (apply more_units_last; [discriminate|apply L; discriminate]).
    replace (found + units first =? _) with false by lia. replace (found + units first + more_units ((fl, s) :: more) <? _) with false by lia.
    cbn [more_bytes flat_map fst snd] in F. rewrite <- app_assoc in F.
    destruct (get_record_ok mem pos 0x3c _ _ ltac:(unfold word16; lia) MS F) as [R F']. rewrite R. cbn [bind Z.eqb Pos.eqb negb].
    refine (eq_trans (IH s fl [] fuel _ _ _ _ MB MG M' _ F' _ _) _).
    + intro N. specialize (L ltac:(discriminate)). destruct more as [|x more]; [congruence|exact L].
    + rewrite more_units_cons. cbn [snd]. lia.
    + cbn [length] in K. lia.
    + rewrite <- !app_assoc. cbn [flat_map fst snd app]. f_equal. f_equal.
      change (more_bytes ((fl, s) :: more)) with (record 60 (fl :: stretch_bytes s) ++ more_bytes more).
      assert (A : forall a b : str, size (a ++ b) = size a + size b) by (intros; unfold size; rewrite app_length; lia).
      rewrite A, record_size. lia.
Qed.

Lemma size_place p : size (place_bytes p) = 6.
Proof. reflexivity. Qed.
Lemma from_sub mem a b : from mem (size a) b <-> True /\ exists pre, mem = pre ++ b /\ size pre = size a.
Proof. split; [intros F; split; [exact I|exact F]|intros [_ F]; exact F]. Qed.
Lemma formula_string_ok mem pos rest junk between flags first more :
  good_result (RText junk between flags first more) ->
  from mem pos (result_records (RText junk between flags first more) ++ rest) ->
  formula_string mem pos
  = Ok (snd first ++ flat_map (fun fs => snd (snd fs)) more, pos + size (result_records (RText junk between flags first more))).
Proof.
  intros (J & GB & B & G & M & L & T & S3) F. unfold formula_string.
  cbn [result_records] in *.
  set (d := le_bytes 2 (text_units first more) ++ flags :: stretch_bytes first) in *.
  assert (SD : short d).
  { unfold short, d. rewrite size_app, size_bytes. change (flags :: stretch_bytes first) with ([flags] ++ stretch_bytes first).
    rewrite size_app. change (size [flags]) with 1. lia. }
  assert (TU : 0 <= text_units first more) by (pose proof (more_units_pos more); pose proof (units_pos first); unfold text_units; fold (more_units more); lia).
  assert (X : forall pos0, from mem pos0 (record 0x207 d ++ more_bytes more ++ rest) ->
    get_record mem pos0 = Ok (0x207, size d, d, pos0 + 4 + size d) /\
    string_contents (S (length mem)) mem d 2 (text_units first more) 0 (pos0 + 4 + size d) []
      = Ok (snd first ++ flat_map (fun fs => snd (snd fs)) more, pos0 + 4 + size d + size (more_bytes more))).
  { intros pos0 F0. destruct (get_record_ok mem pos0 0x207 d _ ltac:(unfold word16; lia) SD F0) as [R F1]. split; [exact R|].
    apply (contents_ok mem rest more first flags (le_bytes 2 (text_units first more))); try assumption.
    - unfold text_units. fold (more_units more). lia.
    - apply from_length in F1. destruct F1 as [P1 P2]. rewrite size_app in P2.
      assert (Y : Z.of_nat (length more) <= size (more_bytes more)).
      { clear. induction more as [|fs more IH]; [unfold size; cbn; lia|]. cbn [more_bytes flat_map length].
        rewrite size_app, record_size. pose proof (size_pos (fst fs :: stretch_bytes (snd fs))). fold (more_bytes more). lia. }
      pose proof (size_pos rest). pose proof (size_pos d). unfold size in P2 at 1.
      change (length more <= S (length mem))%nat. lia. }
  assert (U : u16 0 d = text_units first more) by (apply u16_first; unfold word16; lia).
  assert (SZ : sized 2 (bytes_at 0 2 d) = Ok tt) by reflexivity.
  rewrite !size_app. fold (more_bytes more). fold (more_bytes more) in F.
  destruct between as [[code data]|].
  - destruct GB as [SB GB]. rewrite <- !app_assoc in F.
    assert (W : word16 code) by (unfold word16; cbn in GB; lia).
    destruct (get_record_ok mem pos code data _ W SB F) as [R F1]. rewrite R. cbn [bind].
    destruct (X _ F1) as [R1 C1]. clear X.
    assert (N : (code =? 0x207) || (code =? 0x7) = false) by (cbn in GB; lia). rewrite N.
    assert (K : (if code =? 0x221 then sized 14 (bytes_at 0 14 data)
                else if code =? 0x4bc then sized 10 (bytes_at 0 10 data)
                else if (code =? 0x236) || (code =? 0x37) || (code =? 0x21) || (code =? 0x36) then Ok tt
                else Err XLRDError) = Ok tt).
    { destruct GB as [[-> Q]|[[-> Q]|Q]]; [cbn [Z.eqb Pos.eqb]; apply sized_at; lia|cbn [Z.eqb Pos.eqb]; apply sized_at; lia|].
      cbn [In] in Q. replace (code =? 0x221) with false by lia. replace (code =? 0x4bc) with false by lia.
      replace ((code =? 0x236) || (code =? 0x37) || (code =? 0x21) || (code =? 0x36)) with true by lia. reflexivity. }
    rewrite K. cbn [bind]. rewrite R1. cbn [bind Z.eqb Pos.eqb orb]. rewrite SZ. cbn [bind]. rewrite U, C1, record_size, record_size. f_equal. f_equal. lia.
  - cbn [app] in F. rewrite <- app_assoc in F. destruct (X _ F) as [R1 C1]. rewrite R1. cbn [bind Z.eqb Pos.eqb orb]. rewrite SZ. cbn [bind].
    rewrite U, C1, record_size. f_equal. f_equal. change (size []) with 0. lia.
Qed.

Ltac listlen l := repeat (destruct l as [|? l]; [try discriminate|]); try discriminate.
Lemma marked_8 k b : length b = 5%nat -> length (marked k b) = 8%nat.
Proof. intro L. unfold marked. cbn [length]. rewrite app_length, L. reflexivity. Qed.
Lemma result_length r : good_result r -> length (result_bytes r) = 8%nat.
Proof.
  destruct r; cbn [good_result result_bytes]; intro G; [apply double_bytes_length|..]; apply marked_8; cbn [length]; intuition lia.
Qed.
Lemma result_marked r : good_result r -> match r with RNumber _ => False | _ => True end ->
  str_eqb (bytes_at 6 2 (result_bytes r)) [255; 255]%N = true.
Proof.
  intros G K. apply str_eqb_eq. destruct r as [f|junk bt fl fi mo|v x junk|v x junk|junk]; [contradiction|..]; cbn [good_result result_bytes] in *.
  - destruct G as [L _]. destruct junk as [|a [|b [|c [|d [|e [|]]]]]]; try discriminate L. reflexivity.
  - destruct G as [L _]. destruct junk as [|a [|b [|c [|d]]]]; try discriminate L. reflexivity.
  - destruct G as [L _]. destruct junk as [|a [|b [|c [|d]]]]; try discriminate L. reflexivity.
  - destruct junk as [|a [|b [|c [|d [|e [|]]]]]]; try discriminate G. reflexivity.
Qed.

Lemma formula_ok su date xfs mem p r flags rest tail pos st g :
  typed_xfs date xfs su -> word16 (pl_row p) -> word16 (pl_col p) -> word16 (pl_xf p) -> 0 <= pl_xf p < xfs ->
  good_result r -> length flags = 2%nat -> from mem pos (result_records r ++ tail) ->
  put_all su [mkput (pl_row p) (pl_col p) (Some (content_type date (pl_xf p) (CFormula 6 r flags rest)))
     (content_value [] (CFormula 6 r flags rest)) (pl_xf p)] (r_grid st) = (g, Ok tt) ->
  formula_record su mem (place_bytes p ++ result_bytes r ++ flags ++ rest) pos st
  = Ok (with_grid g st, pos + size (result_records r)).
Proof.
  intros T WR WC WX X G FL F P. unfold formula_record.
  rewrite sized_at by (rewrite !size_app, size_place; pose proof (result_length r G); pose proof (size_pos rest); unfold size in *; lia).
  cbn [bind]. cbv zeta. rewrite place_row, place_col, place_xf by assumption.
  rewrite (after_place p _ 0 8). rewrite bytes_at_first by (apply result_length; exact G).
  destruct r as [f|junk bt fl fi mo|v x junk|v x junk|junk].
  1: { cbn [result_bytes content_type content_value result_records] in *. rewrite double_not_marked by exact G.
    rewrite unpack_double by exact G. cbn [bind].
    rewrite (put1_number su date xfs) with (g := g) by assumption. cbn [bind]. f_equal. f_equal. unfold size. cbn [length]. lia. }
  all: rewrite result_marked by (exact G || exact I).
  - change (le_value (bytes_at 0 1 (result_bytes (RText junk bt fl fi mo)))) with 0. cbn [Z.eqb].
    rewrite (formula_string_ok mem pos tail junk bt fl fi mo) by assumption. cbn [bind].
    cbn [content_type content_value] in P. rewrite (put1_ok _ _ _ _ P). reflexivity.
  - change (le_value (bytes_at 0 1 (result_bytes (RBool v x junk)))) with 1. cbn [Z.eqb Pos.eqb].
    replace (le_value (bytes_at 2 1 (result_bytes (RBool v x junk)))) with (Z.of_N v) by (cbn; lia).
    cbn [content_type content_value] in P. rewrite (put1_ok _ _ _ _ P). cbn [bind result_records]. unfold size. cbn [length]. rewrite Z.add_0_r. reflexivity.
  - change (le_value (bytes_at 0 1 (result_bytes (RError v x junk)))) with 2. cbn [Z.eqb Pos.eqb].
    replace (le_value (bytes_at 2 1 (result_bytes (RError v x junk)))) with (Z.of_N v) by (cbn; lia).
    cbn [content_type content_value] in P. rewrite (put1_ok _ _ _ _ P). cbn [bind result_records]. unfold size. cbn [length]. rewrite Z.add_0_r. reflexivity.
  - change (le_value (bytes_at 0 1 (result_bytes (REmpty junk)))) with 3. cbn [Z.eqb Pos.eqb].
    cbn [content_type content_value] in P. rewrite (put1_ok _ _ _ _ P). cbn [bind result_records]. unfold size. cbn [length]. rewrite Z.add_0_r. reflexivity.
Qed.

(** ** Items of a sheet *)

Definition countries_ok (country c : Z * Z) : Prop :=
  c = (0, 0) \/ c = (fst country mod 2 ^ 16, snd country mod 2 ^ 16).
Lemma country_ok country c extra : countries_ok country c ->
  handle_country (le_bytes 2 (fst country) ++ le_bytes 2 (snd country) ++ extra) c = Ok (fst country mod 2 ^ 16, snd country mod 2 ^ 16).
Proof.
  intro H. unfold handle_country. rewrite sized_at by (rewrite !size_app, !size_bytes; pose proof (size_pos extra); lia). cbn [bind].
  destruct c as [x y]. cbv zeta. rewrite u16_mod.
  change (u16 2 (le_bytes 2 (fst country) ++ le_bytes 2 (snd country) ++ extra)) with (u16 0 (le_bytes 2 (snd country) ++ extra)). rewrite u16_mod.
  destruct H as [H|H]; injection H as -> ->; [reflexivity|]. rewrite !Z.eqb_refl, orb_true_r. reflexivity.
Qed.

Lemma step su mem shared pos code data tail st st' pos' : word16 code -> short data -> code <> 10 ->
  from mem pos (record code data ++ tail) ->
  sheet_record su mem shared code (size data) data (pos + 4 + size data) st = Ok (st', pos') ->
  forall f, read_loop (S f) su mem shared pos st = read_loop f su mem shared pos' st'.
Proof.
  intros W S N F H f. destruct (get_record_ok mem pos code data tail W S F) as [R _].
  cbn [read_loop]. rewrite R. cbn [bind]. replace (code =? 10) with false by lia. rewrite H. reflexivity.
Qed.
(** A record with this code, read from pos on. *)
Definition one_step (code : Z) su mem shared (pos : Z) (st st' : reading) (pos' : Z) : Prop :=
  exists data tail, word16 code /\ short data /\ code <> 10 /\ from mem pos (record code data ++ tail) /\
    sheet_record su mem shared code (size data) data (pos + 4 + size data) st = Ok (st', pos').
Lemma one su mem shared pos code data tail st st' pos' : word16 code -> short data -> code <> 10 ->
  from mem pos (record code data ++ tail) ->
  sheet_record su mem shared code (size data) data (pos + 4 + size data) st = Ok (st', pos') ->
  one_step code su mem shared pos st st' pos'.
Proof. intros. exists data, tail. auto. Qed.
Definition item_code (it : item) : Z :=
  match it with
  | Cell _ c => content_code c | Cells _ _ _ => 0xbd | Dimension _ => 0x200 | Country _ _ => 0x8c | Ranges _ _ => 0x15f
  | Embedded code _ _ => code | Link _ => 0x1b8 | Tip _ _ => 0x800 | Note _ _ _ => 0x1c | Drawn _ => 0x5d | Written _ => 0x1b6
  | Passed code _ => code
  end.

Lemma cell_ok country shared xfs date su mem p c pos rest st g :
  typed_xfs date xfs su -> good_item country shared xfs (Cell p c) -> from mem pos (item_bytes (Cell p c) ++ rest) ->
  put_all su (item_cells shared date (Cell p c)) (r_grid st) = (g, Ok tt) ->
  one_step (content_code c) su mem shared pos st (with_grid g st) (pos + size (item_bytes (Cell p c))).
Proof.
  intros T (WR & WC' & X & WX & G & S) F P. cbn [item_bytes item_cells] in *.
  assert (WC : word16 (pl_col p)) by (unfold word16; lia).
  assert (CW : word16 (content_code c) /\ content_code c <> 10).
  { unfold word16. destruct c; cbn [content_code good_content In] in *; lia. }
  destruct CW as [CW CN].
  rewrite size_app, record_size. rewrite <- app_assoc in F.
  replace (pos + (4 + size (place_bytes p ++ content_bytes c) + size (content_records c)))
    with (pos + 4 + size (place_bytes p ++ content_bytes c) + size (content_records c)) by lia.
  apply (one _ _ _ _ _ _ _ _ _ _ CW S CN F).
  assert (F' : from mem (pos + 4 + size (place_bytes p ++ content_bytes c)) (content_records c ++ rest)).
  { apply from_next in F. rewrite record_size in F. rewrite <- Z.add_assoc. exact F. }
  set (pos' := pos + 4 + size (place_bytes p ++ content_bytes c)) in *. clearbody pos'. clear F.
  assert (Z0 : forall z, z + size [] = z) by (intro; change (size []) with 0; lia).
  destruct c as [d extra|k extra|i|lo extra|lo runs|err v extra|code r flags more];
    cbn [content_code content_bytes content_records content_value content_type good_content] in *.
  - unfold sheet_record. cbn [Z.eqb Pos.eqb].
    rewrite sized_at by (rewrite !size_app, size_place; unfold size; rewrite double_bytes_length; lia). cbn [bind].
    rewrite (after_place p _ 0 8), bytes_at_first by apply double_bytes_length. rewrite unpack_double by exact G. cbn [bind].
    rewrite place_row, place_col, place_xf by assumption.
    rewrite (put1_number su date xfs) with (g := g) by assumption. cbn [bind]. rewrite Z0. reflexivity.
  - unfold sheet_record. cbn [Z.eqb Pos.eqb].
    rewrite sized_at by (rewrite !size_app, size_place; pose proof (size_pos (rk_bytes k)); pose proof (size_pos extra); lia). cbn [bind].
    rewrite (after_place p _ 0 4), bytes_at_first by apply rk_bytes_length. rewrite unpack_rk by exact G. cbn [bind].
    rewrite place_row, place_col, place_xf by assumption.
    rewrite (put1_number su date xfs) with (g := g) by assumption. cbn [bind]. rewrite Z0. reflexivity.
  - unfold sheet_record. cbn [Z.eqb Pos.eqb].
    rewrite sized_all by reflexivity. cbn [bind].
    rewrite <- (app_nil_r (le_bytes 4 i)).
    rewrite (after_place p _ 0 4), bytes_at_first by apply le_bytes_length. rewrite le_signed_bytes by (unfold is_int; lia).
    rewrite py_index_pos by lia. rewrite (nth_error_nth' shared []) by lia.
    rewrite place_row, place_col, place_xf by assumption.
    rewrite (put1_ok _ _ _ _ P). cbn [bind]. rewrite Z0. reflexivity.
  - unfold sheet_record. cbn [Z.eqb Pos.eqb]. destruct G as [G U].
    rewrite sized_at by (rewrite !size_app, size_place; pose proof (size_pos (string_bytes 2 lo)); pose proof (size_pos extra); lia). cbn [bind].
    destruct (C54_unicode_proof 2 (place_bytes p) lo extra ltac:(right; reflexivity) G U) as [Q _];
      [destruct G as (_ & _ & _ & _ & _ & _ & G & _); exact G|].
    change (Z.of_nat (length (place_bytes p))) with 6 in Q. change (Z.of_nat 2) with 2 in Q. rewrite Q. cbn [bind].
    rewrite place_row, place_col, place_xf by assumption.
    rewrite (put1_ok _ _ _ _ P). cbn [bind]. rewrite Z0. reflexivity.
  - unfold sheet_record. cbn [Z.eqb Pos.eqb]. destruct G as (G & U & RL).
    rewrite sized_at by (rewrite !size_app, size_place, size_bytes; pose proof (size_pos (string_bytes 2 lo)); pose proof (size_pos (flat_map run_bytes runs)); lia). cbn [bind].
    set (d := place_bytes p ++ _) in *.
    assert (F0 : from d (6 + size (string_bytes 2 lo)) (le_bytes 2 (Z.of_nat (length runs)) ++ flat_map run_bytes runs)).
    { apply from_next with (a := string_bytes 2 lo). change 6 with (size (place_bytes p)). apply from_app. }
    destruct (C54_unicode_proof 2 (place_bytes p) lo (le_bytes 2 (Z.of_nat (length runs)) ++ flat_map run_bytes runs) ltac:(right; reflexivity) G U) as [_ Q];
      [destruct G as (_ & _ & _ & _ & _ & _ & G & _); exact G|].
    fold d in Q. change (Z.of_nat (length (place_bytes p))) with 6 in Q. change (Z.of_nat 2) with 2 in Q. rewrite Q. cbn [bind].
    change (Z.of_nat (length (string_bytes 2 lo))) with (size (string_bytes 2 lo)).
    rewrite (from_slice _ _ _ _ 2 F0) by reflexivity. change (sized 2 (le_bytes 2 _)) with (@Ok unit tt). cbn [bind].
    rewrite le_value_bytes by (change (256 ^ Z.of_nat 2) with (2 ^ 16); lia). rewrite Nat2Z.id.
    apply from_next in F0. rewrite size_bytes in F0. change (Z.of_nat 2) with 2 in F0.
    rewrite (rstring_runs_ok d runs _ []) by (rewrite app_nil_r; exact F0). cbn [bind].
    apply from_length in F0. destruct F0 as [_ F0].
    assert (FL : size (flat_map run_bytes runs) = 4 * Z.of_nat (length runs)).
    { clear. induction runs as [|r runs IH]; [reflexivity|]. cbn [flat_map length]. rewrite size_app, IH. change (size (run_bytes r)) with 4. lia. }
    rewrite FL in F0. change (Z.of_nat (length d)) with (size d). rewrite F0, Z.eqb_refl. cbn [negb].
    unfold d. rewrite place_row, place_col, place_xf by assumption.
    rewrite (put1_ok _ _ _ _ P). cbn [bind]. rewrite Z0. reflexivity.
  - unfold sheet_record. cbn [Z.eqb Pos.eqb].
    rewrite sized_at by (rewrite size_app, size_place; unfold size; cbn [length]; lia). cbn [bind].
    rewrite place_row, place_col, place_xf by assumption.
    replace (le_value (bytes_at 6 1 _)) with (Z.of_N v) by (cbn; lia).
    change (le_value (bytes_at 7 1 _)) with (le_value [if err then 1%N else 0%N]).
    destruct err; cbn [Z.eqb Pos.eqb]; change (le_value [1%N]) with 1; change (le_value [0%N]) with 0; cbn [Z.eqb Pos.eqb];
    rewrite (put1_ok _ _ _ _ P); cbn [bind]; rewrite Z0; reflexivity.
  - destruct G as (GC & GR & FL). cbn [In] in GC.
    assert (E : sheet_record su mem shared code (size (place_bytes p ++ result_bytes r ++ flags ++ more)) (place_bytes p ++ result_bytes r ++ flags ++ more) pos' st
       = formula_record su mem (place_bytes p ++ result_bytes r ++ flags ++ more) pos' st).
    { destruct GC as [<-|[<-|[<-|[]]]]; reflexivity. }
    rewrite E. apply (formula_ok su date xfs mem p r flags more rest); assumption.
Qed.

(** *** Numbers side by side *)
Lemma zrange_nil a : zrange a a = [].
Proof. unfold zrange. rewrite Z.sub_diag. reflexivity. Qed.
Lemma zrange_cons a b : a < b -> zrange a b = a :: zrange (a + 1) b.
Proof.
  intro L. unfold zrange. replace (Z.to_nat (b - a)) with (S (Z.to_nat (b - (a + 1)))) by lia. cbn [seq map].
  rewrite Z.add_0_r. f_equal. rewrite <- seq_shift, map_map. apply map_ext. intro. lia.
Qed.
Lemma mulrk_ok su date xfs data row tail : typed_xfs date xfs su -> forall l col pos st g,
  Forall (fun xk => 0 <= fst xk < xfs /\ word16 (fst xk) /\ good_rk (snd xk)) l ->
  from data pos (flat_map (fun xk => le_bytes 2 (fst xk) ++ rk_bytes (snd xk)) l ++ tail) ->
  put_all su (row_cells date row col l) (r_grid st) = (g, Ok tt) ->
  mulrk_loop su data pos row (zrange col (col + Z.of_nat (length l))) st = Ok (with_grid g st).
Proof.
  intro T. induction l as [|[xf k] l IH]; intros col pos st g G F P; cbn [length flat_map row_cells fst snd] in *.
  - rewrite Z.add_0_r, zrange_nil. cbn [mulrk_loop put_all] in *. injection P as <-. destruct st. reflexivity.
  - inversion G as [|? ? (X & W & K) G']; subst. cbn [fst snd] in *.
    rewrite zrange_cons by lia. cbn [mulrk_loop]. rewrite <- !app_assoc in F.
    rewrite (from_slice _ _ _ _ 2 F) by reflexivity. change (sized 2 (le_bytes 2 xf)) with (@Ok unit tt). cbn [bind].
    apply from_next in F. rewrite size_bytes in F. change (Z.of_nat 2) with 2 in F.
    assert (KL : size (rk_bytes k) = 4) by (unfold size; rewrite rk_bytes_length; reflexivity).
    replace (pos + 6) with (pos + 2 + 4) by lia. rewrite (from_slice _ _ _ _ 4 F) by exact KL.
    rewrite unpack_rk by exact K. cbn [bind]. rewrite le_value_bytes by exact W.
    cbn [put_all pt_row pt_col pt_type pt_value pt_xf] in P.
    unfold put1. cbn [pt_row pt_col pt_type pt_value pt_xf]. rewrite (put_number su date xfs) by assumption.
    destruct (put_cell su row col _ _ xf (r_grid st)) as [g1 [u|e]]; [|discriminate P]. cbn [bind].
    apply from_next in F. rewrite KL in F.
    replace (col + Z.of_nat (S (length l))) with (col + 1 + Z.of_nat (length l)) by lia.
    rewrite (IH (col + 1) (pos + 2 + 4) (with_grid g1 st) g G' F P). reflexivity.
Qed.
Lemma cells_size l : size (flat_map (fun xk => le_bytes 2 (fst xk) ++ rk_bytes (snd xk)) l) = 6 * Z.of_nat (length l).
Proof.
  induction l as [|[xf k] l IH]; [reflexivity|]. cbn [flat_map length fst snd]. rewrite !size_app, IH, size_bytes.
  unfold size at 1. rewrite rk_bytes_length. lia.
Qed.

(** *** Others *)
Lemma skip_ok mem rest : forall inner pos fuel, Forall (fun cd => word16 (fst cd) /\ fst cd <> 0xa /\ short (snd cd)) inner ->
  from mem pos (flat_map (fun cd => record (fst cd) (snd cd)) inner ++ record 0x0a [] ++ rest) -> (length inner < fuel)%nat ->
  skip_embedded fuel mem pos = Ok (pos + size (flat_map (fun cd => record (fst cd) (snd cd)) inner) + 4).
Proof.
  induction inner as [|[code data] inner IH]; intros pos fuel G F L; destruct fuel as [|fuel]; try lia; cbn [flat_map fst snd skip_embedded] in *.
  - destruct (get_record_ok mem pos 10 [] rest ltac:(unfold word16; lia) ltac:(unfold short, size; cbn; lia) F) as [R _].
    rewrite R. cbn [bind Z.eqb Pos.eqb]. change (size []) with 0. f_equal. lia.
  - inversion G as [|? ? (W & N & S) G']; subst. cbn [fst snd] in *. rewrite <- app_assoc in F.
    destruct (get_record_ok mem pos code data _ W S F) as [R F']. rewrite R. cbn [bind].
    replace (code =? 10) with false by lia. cbn [length] in L. rewrite (IH _ _ G' F') by lia.
    rewrite size_app, record_size. f_equal. lia.
Qed.
Lemma inner_size inner : 4 * Z.of_nat (length inner) <= size (flat_map (fun cd : Z * str => record (fst cd) (snd cd)) inner).
Proof.
  induction inner as [|[code data] inner IH]; [unfold size; cbn; lia|]. cbn [flat_map length fst snd]. rewrite size_app, record_size.
  pose proof (size_pos data). lia.
Qed.
Lemma address_loop_ok data tail : forall (l : list str) pos, Forall (fun r : str => length r = 8%nat) l -> from data pos (concat l ++ tail) ->
  address_loop (length l) data pos = Ok (pos + 8 * Z.of_nat (length l)).
Proof.
  induction l as [|r l IH]; intros pos G F; cbn [length concat address_loop] in *; [f_equal; lia|].
  inversion G as [|? ? L G']; subst. rewrite <- app_assoc in F.
  assert (S : size r = 8) by (unfold size; lia).
  rewrite (from_slice _ _ _ _ 8 F) by exact S. rewrite sized_all by exact S. cbn [bind].
  apply from_next in F. rewrite S in F. rewrite (IH _ G' F). f_equal. lia.
Qed.
Lemma concat_size n (l : list str) : Forall (fun r : str => length r = n) l -> size (concat l) = Z.of_nat n * Z.of_nat (length l).
Proof.
  induction 1 as [|r l L _ IH]; [unfold size; cbn; lia|]. cbn [concat length]. rewrite size_app, IH. unfold size. rewrite L. lia.
Qed.
Lemma address_list_ok data tail (l : list str) pos : Forall (fun r : str => length r = 8%nat) l -> Z.of_nat (length l) < 2 ^ 16 ->
  from data pos (le_bytes 2 (Z.of_nat (length l)) ++ concat l ++ tail) ->
  address_list data pos = Ok (pos + 2 + 8 * Z.of_nat (length l)) /\ from data (pos + 2 + 8 * Z.of_nat (length l)) tail.
Proof.
  intros G L F. unfold address_list. rewrite (from_slice _ _ _ _ 2 F) by reflexivity.
  change (sized 2 (le_bytes 2 _)) with (@Ok unit tt). cbn [bind].
  rewrite le_value_bytes by (change (256 ^ Z.of_nat 2) with (2 ^ 16); lia). rewrite Nat2Z.id.
  apply from_next in F. rewrite size_bytes in F. change (Z.of_nat 2) with 2 in F. split; [apply (address_loop_ok data tail); assumption|].
  apply from_next in F. rewrite (concat_size 8) in F by exact G. exact F.
Qed.

Lemma passed_ok su mem shared code data pos st : good_passed code data ->
  sheet_record su mem shared code (size data) data pos st = Ok (st, pos).
Proof.
  intros (W & S & N & A & SH & DC & SW & W2 & SC & PA).
  cbn [In app sheet_codes bof_codes] in N. unfold sheet_record. cbv zeta.
  replace (code =? 0x203) with false by lia. replace (code =? 0xfd) with false by lia. replace (code =? 0x204) with false by lia.
  replace (code =? 0xd6) with false by lia. replace (code =? 0x27e) with false by lia. replace (code =? 0xbd) with false by lia.
  replace ((code =? 0x6) || (code =? 0x406) || (code =? 0x206)) with false by lia. replace (code =? 0x205) with false by lia.
  destruct ((code =? 0x55) || (code =? 0x99)) eqn:E1. { rewrite sized_at by lia. reflexivity. }
  replace ((code =? 0x200) || (code =? 0x0)) with false by lia.
  replace (code =? 0x1b8) with false by lia. replace (code =? 0x800) with false by lia. replace (code =? 0x5d) with false by lia.
  replace (code =? 0x1b6) with false by lia. replace (code =? 0x1c) with false by lia.
  replace ((code =? 0x809) || (code =? 0x409) || (code =? 0x209) || (code =? 0x9)) with false by lia.
  replace (code =? 0x8c) with false by lia. replace (code =? 0x15f) with false by lia.
  destruct (Z.eqb_spec code 0x221). { rewrite sized_at by lia. reflexivity. }
  destruct (Z.eqb_spec code 0x4bc). { rewrite sized_at by lia. reflexivity. }
  destruct (Z.eqb_spec code 0x225).
  { destruct (Z.eqb_spec (size data) 4); [rewrite sized_at by lia; reflexivity|].
    destruct (Z.eqb_spec (size data) 2); [rewrite sized_at by lia; reflexivity|reflexivity]. }
  destruct (Z.eqb_spec code 0x23e).
  { destruct (Z.leb_spec 14 (size data)); [rewrite sized_at by lia; reflexivity|]. rewrite sized_at by lia. cbn [bind].
    unfold sized. rewrite bytes_at_length. replace (Nat.min 3 (length data - 6)) with 3%nat by (unfold size in *; lia). reflexivity. }
  destruct (Z.eqb_spec code 0xa0). { rewrite sized_all by lia. reflexivity. }
  destruct (Z.eqb_spec code 0x41). { rewrite sized_at by lia. reflexivity. }
  reflexivity.
Qed.

(** *** Text boxes *)
Lemma le_flat (l : list stretch) : fold_right Z.add 0 (map units l) >= 0.
Proof. induction l as [|s l IH]; cbn [map fold_right]; [lia|]. pose proof (units_pos s). lia. Qed.
Lemma piece_ok s : good_stretch s -> XlNames.unpack_known (SpecObjects.piece_bytes s) 0 (units s) = Ok (snd s, size (SpecObjects.piece_bytes s)).
Proof.
  intro G. unfold XlNames.unpack_known. set (data := SpecObjects.piece_bytes s).
  assert (F : from data 0 (data ++ [])) by (exists []; rewrite app_nil_r; split; reflexivity).
  pose proof (from_slice _ _ _ _ _ F eq_refl) as SL. change (0 + size data) with (size data) in SL. fold (size data). rewrite SL.
  replace (Nat.eqb (length data) 0) with false by reflexivity. rewrite andb_false_r.
  rewrite app_nil_r in F. unfold data at 2, SpecObjects.piece_bytes in F. apply NamesProofs.from_byte in F. destruct F as [E F]. rewrite E. cbn [bind]. cbv zeta.
  rewrite <- (app_nil_r (stretch_bytes s)) in F. pose proof (stretch_length s) as SS. fold (size (stretch_bytes s)) in SS.
  assert (SD : size data = 1 + size (stretch_bytes s)) by (unfold data, SpecObjects.piece_bytes, size; cbn [length]; lia).
  unfold good_stretch in G. unfold stretch_bytes in F at 1. destruct s as [w t]. cbn [fst snd] in *. destruct w.
  - change (opt_rich 1) with false. change (opt_phonetic 1) with false. change (opt_wide 1) with true. cbn [bind].
    rewrite (from_slice _ _ _ _ _ F) by (rewrite <- SS; reflexivity).
    rewrite utf16_le_bytes by exact G. cbn [bind]. rewrite SD, SS. f_equal. f_equal. lia.
  - change (opt_rich 0) with false. change (opt_phonetic 0) with false. change (opt_wide 0) with false. cbn [bind].
    rewrite (from_slice _ _ _ _ _ F) by reflexivity. rewrite SD, SS. f_equal. f_equal. lia.
Qed.
Lemma piece_size s : size (SpecObjects.piece_bytes s) = 1 + (if fst s then 2 else 1) * units s.
Proof. unfold SpecObjects.piece_bytes, size. cbn [length]. rewrite Nat2Z.inj_succ. pose proof (stretch_length s). lia. Qed.
Lemma txo_text_ok mem rest : forall l pos tot fuel, Forall (fun s => good_stretch s /\ 0 < units s) l -> Forall short (map SpecObjects.piece_bytes l) ->
  from mem pos (flat_map (record 0x3c) (map SpecObjects.piece_bytes l) ++ rest) -> (length l <= fuel)%nat ->
  txo_text fuel mem pos tot (tot + fold_right Z.add 0 (map units l)) = Ok (pos + size (flat_map (record 0x3c) (map SpecObjects.piece_bytes l))).
Proof.
  induction l as [|s l IH]; intros pos tot fuel G B F L; cbn [map flat_map fold_right length] in *.
  - rewrite !Z.add_0_r. destruct fuel; cbn [txo_text]; replace (tot <? tot) with false by lia; cbn [negb]; f_equal; change (size []) with 0; lia.
  - inversion G as [|? ? [GS US] G2]; inversion B as [|? ? BS B2]; subst. destruct fuel as [|fuel]; [lia|]. cbn [txo_text].
    pose proof (le_flat l). replace (tot <? _) with true by lia. cbn [negb]. rewrite <- app_assoc in F.
    destruct (get_record_ok mem pos 0x3c (SpecObjects.piece_bytes s) _ ltac:(unfold word16; lia) BS F) as [R F1]. rewrite R. cbn [bind Z.eqb Pos.eqb negb].
    change (Sst.byte_at (SpecObjects.piece_bytes s) 0) with (@Ok N (if fst s then 1%N else 0%N)). cbn [bind].
    assert (NC : (if ((if fst s then 1 else 0) =? 0)%N then Ok (size (SpecObjects.piece_bytes s) - 1)
       else if (size (SpecObjects.piece_bytes s) - 1) mod 2 =? 0 then Ok ((size (SpecObjects.piece_bytes s) - 1) / 2) else Err AssertionError) = Ok (units s)).
    { rewrite piece_size. destruct (fst s); cbn [N.eqb].
      - replace (1 + 2 * units s - 1) with (units s * 2) by lia. rewrite Z.mod_mul, Z.div_mul by lia. reflexivity.
      - f_equal. lia. }
    cbv zeta. rewrite NC. cbn [bind]. rewrite piece_ok by exact GS. cbn [bind]. rewrite Z.eqb_refl.
    replace (tot + (units s + fold_right Z.add 0 (map units l))) with (tot + units s + fold_right Z.add 0 (map units l)) by lia.
    rewrite IH; [|assumption..|lia]. rewrite size_app, record_size. f_equal. lia.
Qed.
Lemma runs_size l : Forall (fun r : str => size r = 8) l -> size (concat l) = 8 * Z.of_nat (length l).
Proof. induction 1 as [|r l R _ IH]; [reflexivity|]. cbn [concat length]. rewrite size_app, R, IH. lia. Qed.
Lemma txo_runs_ok mem rest : forall l pos tot fuel, Forall (fun l => l <> [] /\ Forall (fun r : str => size r = 8) l) l -> Forall short (map (@concat N) l) ->
  from mem pos (flat_map (record 0x3c) (map (@concat N) l) ++ rest) -> (length l <= fuel)%nat ->
  txo_runs fuel mem pos tot (tot + 8 * Z.of_nat (length (concat l))) = Ok (pos + size (flat_map (record 0x3c) (map (@concat N) l))).
Proof.
  induction l as [|s l IH]; intros pos tot fuel G B F L; cbn [map flat_map concat length] in *.
  - rewrite Z.mul_0_r, Z.add_0_r. destruct fuel; cbn [txo_runs]; replace (tot <? tot) with false by lia; cbn [negb]; f_equal; change (size []) with 0; lia.
  - inversion G as [|? ? [GN GS] G2]; inversion B as [|? ? BS B2]; subst. destruct fuel as [|fuel]; [lia|]. cbn [txo_runs].
    assert (1 <= length s)%nat by (destruct s; [congruence|cbn [length]; lia]). rewrite app_length.
    replace (tot <? _) with true by lia. cbn [negb]. rewrite <- app_assoc in F.
    destruct (get_record_ok mem pos 0x3c (concat s) _ ltac:(unfold word16; lia) BS F) as [R F1]. rewrite R. cbn [bind Z.eqb Pos.eqb negb].
    assert (SZ : size (concat s) = 8 * Z.of_nat (length s)) by (apply runs_size; exact GS).
    replace (size (concat s) mod 8 =? 0) with true by (rewrite SZ, Z.mul_comm, Z.mod_mul by lia; reflexivity). cbn [negb].
    fold (size (concat s)). rewrite Z.eqb_refl. cbn [negb].
    replace (tot + 8 * Z.of_nat (length s + length (concat l))) with (tot + size (concat s) + 8 * Z.of_nat (length (concat l))) by lia.
    rewrite IH; [|assumption..|lia]. rewrite size_app, record_size. f_equal. lia.
Qed.
Lemma records_many code (l : list str) : 4 * Z.of_nat (length l) <= size (flat_map (record code) l).
Proof. induction l as [|d l IH]; [unfold size; cbn; lia|]. cbn [flat_map length]. rewrite size_app, record_size. pose proof (size_pos d). lia. Qed.
Lemma txo_ok mem t pos rest : SpecObjects.good_textbox t -> from mem pos (flat_map (record 0x3c) (SpecObjects.textbox_pieces t) ++ rest) ->
  handle_txo mem (SpecObjects.textbox_bytes t) pos = Ok (pos + size (flat_map (record 0x3c) (SpecObjects.textbox_pieces t))).
Proof.
  intros (SH & SR & B & UU & RR & GP & GR & GS) F. unfold handle_txo, SpecObjects.textbox_pieces in *. rewrite flat_map_app, <- app_assoc in F.
  apply Forall_app in GS. destruct GS as [GS1 GS2].
  pose proof (le_flat (SpecObjects.tb_pieces t)) as UP. fold (SpecObjects.tb_units t) in UP.
  assert (U1 : u16 10 (SpecObjects.textbox_bytes t) = SpecObjects.tb_units t).
  { unfold u16, SpecObjects.textbox_bytes. rewrite bytes_at_mid by (unfold size in SH; lia || apply le_bytes_length). apply le_value_bytes. change (256 ^ Z.of_nat 2) with (2 ^ 16). lia. }
  assert (U2 : u16 12 (SpecObjects.textbox_bytes t) = SpecObjects.tb_run_bytes t).
  { unfold u16, SpecObjects.textbox_bytes. rewrite app_assoc. rewrite bytes_at_mid by (rewrite ?app_length, ?le_bytes_length; unfold size in SH; lia).
    apply le_value_bytes. unfold SpecObjects.tb_run_bytes in *. change (256 ^ Z.of_nat 2) with (2 ^ 16). lia. }
  rewrite U1, U2.
  rewrite sized_at by (unfold SpecObjects.textbox_bytes; rewrite !size_app, !size_bytes; lia). cbn [bind].
  pose proof (from_length _ _ _ F) as [P0 P1]. rewrite !size_app in P1. pose proof (size_pos rest).
  pose proof (records_many 0x3c (map SpecObjects.piece_bytes (SpecObjects.tb_pieces t))) as M1. match type of P1 with context [size (flat_map _ ?l) + size rest] => pose proof (records_many 0x3c l) as M2 end.
  rewrite map_length in M1, M2.
  pose proof (txo_text_ok mem _ (SpecObjects.tb_pieces t) pos 0 (S (length mem)) GP GS1 F ltac:(unfold size in P1 at 1; lia)) as E1.
  fold (SpecObjects.tb_units t) in E1. rewrite Z.add_0_l in E1. rewrite E1. cbn [bind].
  apply from_next in F.
  pose proof (txo_runs_ok mem rest (SpecObjects.tb_runs t) _ 0 (S (length mem)) GR GS2 F ltac:(change (@length (list str)) with (@length (list (list N))); unfold size in P1 at 1; lia)) as E2.
  rewrite Z.add_0_l in E2. fold (SpecObjects.tb_run_bytes t) in E2. rewrite E2. rewrite flat_map_app, size_app. f_equal. lia.
Qed.

Lemma item_one country shared xfs date su mem it pos rest st g l2 :
  typed_xfs date xfs su -> good_item country shared xfs it -> from mem pos (item_bytes it ++ rest) ->
  countries_ok country (r_countries st) -> (is_dimension it = true -> r_grid st = new_grid) ->
  put_all su (item_cells shared date it) (r_grid st) = (g, Ok tt) ->
  anchored (r_link st) (r_drawn st) (it :: l2) ->
  exists st', r_grid st' = g /\ countries_ok country (r_countries st') /\ anchored (r_link st') (r_drawn st') l2 /\
    one_step (item_code it) su mem shared pos st st' (pos + size (item_bytes it)).
Proof.
  intros T G F C D P A.
  destruct it as [p c|row col l|data|x y|a b|code data inner|k|ar s|head author pad|d|t|code data].
  - exists (with_grid g st). split; [reflexivity|]. split; [exact C|]. split; [exact A|]. apply (cell_ok country shared xfs date) with (rest := rest); assumption.
  - exists (with_grid g st). split; [reflexivity|]. split; [exact C|]. split; [exact A|]. cbn [item_bytes item_cells good_item] in *.
    destruct G as (WR & C0 & NE & C1 & G).
    set (fm := flat_map _ l) in *. set (data := le_bytes 2 row ++ _) in *.
    assert (L1 : 1 <= Z.of_nat (length l)) by (destruct l; [congruence|cbn [length]; lia]).
    assert (SD : size data = 6 + 6 * Z.of_nat (length l)) by (unfold data; rewrite !size_app, !size_bytes; unfold fm; rewrite cells_size; lia).
    rewrite record_size, Z.add_assoc.
    apply one with (code := 0xbd) (data := data) (tail := rest); [unfold word16; lia|unfold short; lia|lia|exact F|].
    unfold sheet_record. cbn [Z.eqb Pos.eqb]. rewrite sized_at by lia. cbn [bind].
    assert (E : data = (le_bytes 2 row ++ le_bytes 2 col ++ fm) ++ le_bytes 2 (col + Z.of_nat (length l) - 1)) by (unfold data; rewrite <- !app_assoc; reflexivity).
    assert (PE : pyslice data (-2) (Z.of_nat (length data)) = le_bytes 2 (col + Z.of_nat (length l) - 1)) by (rewrite E; apply ObjectsProofs.pyslice_end; reflexivity).
    rewrite PE. clear E PE. change (sized 2 (le_bytes 2 _)) with (@Ok unit tt). cbn [bind].
    rewrite le_value_bytes by (change (256 ^ Z.of_nat 2) with (2 ^ 16); lia).
    replace (u16 0 data) with row by (symmetry; apply u16_first; exact WR).
    replace (u16 2 data) with col by (symmetry; change (u16 2 data) with (u16 0 (le_bytes 2 col ++ fm ++ le_bytes 2 (col + Z.of_nat (length l) - 1))); apply u16_first; unfold word16; lia).
    replace (col + Z.of_nat (length l) - 1 + 1) with (col + Z.of_nat (length l)) by lia.
    rewrite (mulrk_ok su date xfs data row (le_bytes 2 (col + Z.of_nat (length l) - 1))) with (g := g); try assumption.
    + reflexivity.
    + exists (le_bytes 2 row ++ le_bytes 2 col). split; [unfold data; rewrite <- app_assoc; reflexivity|reflexivity].
  - exists (with_grid g st). split; [reflexivity|]. split; [exact C|]. split; [exact A|]. cbn [item_bytes item_cells good_item is_dimension put_all] in *.
    injection P as <-. destruct G as [S G]. rewrite record_size, Z.add_assoc.
    apply one with (code := 0x200) (data := data) (tail := rest); [unfold word16; lia|exact S|lia|exact F|].
    unfold sheet_record. cbn [Z.eqb Pos.eqb orb].
    destruct data as [|b data]; [change (size []) with 0; cbn [Z.eqb]; destruct st; reflexivity|].
    destruct G as [G|G]; [discriminate G|]. replace (size (b :: data) =? 0) with false by lia.
    unfold sized. rewrite bytes_at_length. replace (Nat.min 8 (length (b :: data) - 4)) with 8%nat by (unfold size in G; lia). cbn [Nat.eqb bind].
    cbv zeta. rewrite D by reflexivity. reflexivity.
  - exists (mkreading g (fst country mod 2 ^ 16, snd country mod 2 ^ 16) (r_link st) (r_drawn st)). split; [reflexivity|]. split; [right; reflexivity|]. split; [exact A|].
    cbn [item_bytes item_cells good_item put_all] in *. injection P as <-. subst country. rewrite record_size, Z.add_assoc.
    apply one with (code := 0x8c) (data := le_bytes 2 x ++ le_bytes 2 y) (tail := rest); [unfold word16; lia|unfold short; rewrite size_app, !size_bytes; lia|lia|exact F|].
    unfold sheet_record. cbn [Z.eqb Pos.eqb orb].
    pose proof (country_ok (x, y) (r_countries st) [] C) as H. cbn [fst snd] in H. rewrite app_nil_r in H. rewrite H. reflexivity.
  - exists (with_grid g st). split; [reflexivity|]. split; [exact C|]. split; [exact A|]. cbn [item_bytes item_cells good_item put_all] in *. injection P as <-.
    destruct G as [G L]. apply Forall_app in G. destruct G as [GA GB]. rewrite app_length in L. rewrite record_size, Z.add_assoc.
    set (data := le_bytes 2 _ ++ concat a ++ _) in *.
    assert (SD : size data = 4 + 8 * Z.of_nat (length a) + 8 * Z.of_nat (length b)).
    { unfold data. rewrite !size_app, !size_bytes, (concat_size 8 a), (concat_size 8 b) by assumption. lia. }
    apply one with (code := 0x15f) (data := data) (tail := rest); [unfold word16; lia|unfold short; lia|lia|exact F|].
    unfold sheet_record. cbn [Z.eqb Pos.eqb orb].
    destruct (address_list_ok data (le_bytes 2 (Z.of_nat (length b)) ++ concat b) a 0 GA ltac:(lia)) as [A1 F1]; [exists []; split; reflexivity|].
    rewrite A1. cbn [bind].
    destruct (address_list_ok data [] b _ GB ltac:(lia) ltac:(rewrite app_nil_r; exact F1)) as [A2 _]. rewrite A2. cbn [bind].
    replace (_ =? size data) with true by lia. destruct st. reflexivity.
  - exists (with_grid g st). split; [reflexivity|]. split; [exact C|]. split; [exact A|]. cbn [item_bytes item_cells good_item put_all] in *. injection P as <-.
    destruct G as (B & SD & S4 & G). rewrite <- !app_assoc in F. cbn [In bof_codes] in B.
    assert (W : word16 code) by (unfold word16; lia).
    apply one with (code := code) (data := data) (tail := flat_map (fun cd => record (fst cd) (snd cd)) inner ++ record 10 [] ++ rest);
      [exact W|exact SD|lia|exact F|].
    destruct (get_record_ok mem pos code data _ W SD F) as [_ F1].
    assert (E : sheet_record su mem shared code (size data) data (pos + 4 + size data) st
      = do _ <- sized 4 (bytes_at 0 4 data); do pos <- skip_embedded (S (length mem)) mem (pos + 4 + size data); Ok (st, pos)).
    { destruct B as [<-|[<-|[<-|[<-|[]]]]]; reflexivity. }
    rewrite E. rewrite sized_at by lia. cbn [bind]. rewrite (skip_ok mem rest) with (inner := inner); [|assumption..|].
    + cbn [bind]. rewrite !size_app, !record_size. change (size []) with 0. destruct st. f_equal. f_equal. lia.
    + apply from_length in F1. destruct F1 as [P0 P1]. rewrite !size_app in P1. pose proof (inner_size inner). pose proof (size_pos (record 10 [])). pose proof (size_pos rest).
      unfold size in P1 at 1. lia.
  - cbn [item_bytes item_cells good_item put_all anchored] in *. injection P as <-.
    exists (mkreading (r_grid st) (r_countries st) (Some (SpecObjects.lk_area k)) (r_drawn st)). split; [reflexivity|]. split; [exact C|]. split; [exact A|].
    rewrite record_size, Z.add_assoc. pose proof G as (_ & _ & _ & _ & _ & _ & _ & B).
    apply one with (code := 0x1b8) (data := SpecObjects.link_bytes k) (tail := rest); [unfold word16; lia|exact B|lia|exact F|].
    unfold sheet_record. cbn [Z.eqb Pos.eqb orb]. rewrite ObjectsProofs.hlink_ok by exact G. reflexivity.
  - cbn [item_bytes item_cells good_item put_all anchored] in *. injection P as <-. destruct A as [LK A].
    exists (with_grid (r_grid st) st). split; [reflexivity|]. split; [exact C|]. split; [exact A|].
    rewrite record_size, Z.add_assoc. pose proof G as (_ & _ & B).
    apply one with (code := 0x800) (data := SpecObjects.tip_bytes ar s) (tail := rest); [unfold word16; lia|exact B|lia|exact F|].
    unfold sheet_record. cbn [Z.eqb Pos.eqb orb]. rewrite LK, ObjectsProofs.tip_ok by exact G. destruct st. reflexivity.
  - cbn [item_bytes item_cells good_item put_all anchored] in *. injection P as <-.
    exists (with_grid (r_grid st) st). split; [reflexivity|]. split; [exact C|]. split; [exact A|].
    rewrite record_size, Z.add_assoc. pose proof G as (_ & _ & _ & _ & B).
    apply one with (code := 0x1c) (data := SpecObjects.note_bytes head author pad) (tail := rest); [unfold word16; lia|exact B|lia|exact F|].
    unfold sheet_record. cbn [Z.eqb Pos.eqb orb]. rewrite ObjectsProofs.note_ok by exact G. destruct st. reflexivity.
  - cbn [item_bytes item_cells good_item put_all anchored] in *. injection P as <-.
    exists (mkreading (r_grid st) (r_countries st) (r_link st) true). split; [reflexivity|]. split; [exact C|]. split; [exact A|].
    rewrite record_size, Z.add_assoc. pose proof G as (B & _).
    apply one with (code := 0x5d) (data := SpecObjects.drawing_bytes d) (tail := rest); [unfold word16; lia|exact B|lia|exact F|].
    unfold sheet_record. cbn [Z.eqb Pos.eqb orb]. rewrite ObjectsProofs.drawing_ok by exact G. reflexivity.
  - cbn [item_bytes item_cells good_item put_all anchored] in *. injection P as <-. destruct A as [DR A].
    exists (with_grid (r_grid st) st). split; [reflexivity|]. split; [exact C|]. split; [exact A|].
    rewrite <- app_assoc in F. pose proof G as (_ & _ & B & _).
    apply one with (code := 0x1b6) (data := SpecObjects.textbox_bytes t) (tail := flat_map (record 0x3c) (SpecObjects.textbox_pieces t) ++ rest); [unfold word16; lia|exact B|lia|exact F|].
    destruct (get_record_ok mem pos 0x1b6 (SpecObjects.textbox_bytes t) _ ltac:(unfold word16; lia) B F) as [_ F1].
    unfold sheet_record. cbn [Z.eqb Pos.eqb orb]. rewrite (txo_ok mem t _ rest G F1). cbn [bind]. rewrite DR, size_app, record_size. destruct st. cbn [with_grid]. f_equal. f_equal. lia.
  - exists (with_grid g st). split; [reflexivity|]. split; [exact C|]. split; [exact A|]. cbn [item_bytes item_cells good_item put_all] in *. injection P as <-.
    rewrite record_size, Z.add_assoc. pose proof G as (W & S & N & _).
    apply one with (code := code) (data := data) (tail := rest); [exact W|exact S|cbn [In app sheet_codes] in N; lia|exact F|].
    rewrite passed_ok by exact G. destruct st. reflexivity.
Qed.

Lemma item_ok country shared xfs date su mem it pos rest st g l2 :
  typed_xfs date xfs su -> good_item country shared xfs it -> from mem pos (item_bytes it ++ rest) ->
  countries_ok country (r_countries st) -> (is_dimension it = true -> r_grid st = new_grid) ->
  put_all su (item_cells shared date it) (r_grid st) = (g, Ok tt) ->
  anchored (r_link st) (r_drawn st) (it :: l2) ->
  exists st', r_grid st' = g /\ countries_ok country (r_countries st') /\ anchored (r_link st') (r_drawn st') l2 /\
    forall f, read_loop (S f) su mem shared pos st = read_loop f su mem shared (pos + size (item_bytes it)) st'.
Proof.
  intros T G F C D P A. destruct (item_one country shared xfs date su mem it pos rest st g l2 T G F C D P A) as (st' & E & C' & A' & data & tail & W & S & N & F' & H).
  exists st'. repeat (split; [assumption|]). exact (step _ _ _ _ _ _ _ _ _ _ W S N F' H).
Qed.

(** ** Sheets *)

Lemma loop_ok country shared xfs date su mem rest : typed_xfs date xfs su -> forall l l2 pos st g,
  Forall (good_item country shared xfs) l -> from mem pos (flat_map item_bytes l ++ rest) ->
  countries_ok country (r_countries st) ->
  Forall (fun it => is_dimension it = false) l \/ (Forall (fun it => is_cell it = false) l /\ r_grid st = new_grid) ->
  put_all su (flat_map (item_cells shared date) l) (r_grid st) = (g, Ok tt) ->
  anchored (r_link st) (r_drawn st) (l ++ l2) ->
  exists st', r_grid st' = g /\ countries_ok country (r_countries st') /\ anchored (r_link st') (r_drawn st') l2 /\
    forall f, read_loop (length l + f) su mem shared pos st = read_loop f su mem shared (pos + size (flat_map item_bytes l)) st'.
Proof.
  intro T. induction l as [|it l IH]; intros l2 pos st g G F C O P A; cbn [flat_map length app] in *.
  - cbn [put_all] in P. injection P as <-. exists st. split; [reflexivity|]. split; [exact C|]. split; [exact A|]. intro f. change (size []) with 0. rewrite Z.add_0_r.
    reflexivity.
  - inversion G as [|? ? G1 G2]; subst. rewrite <- app_assoc in F. rewrite put_all_app in P.
    destruct (put_all su (item_cells shared date it) (r_grid st)) as [g1 [[]|e]] eqn:P1; [|discriminate P].
    destruct (item_ok country shared xfs date su mem it pos _ st g1 (l ++ l2) T G1 F C) as (st1 & E1 & C' & A' & R); [|exact P1|exact A|].
    { intro D. destruct O as [O|[_ O]]; [|exact O]. inversion O. congruence. }
    apply from_next in F.
    destruct (IH l2 (pos + size (item_bytes it)) st1 g G2 F C') as (st2 & E2 & C2 & A2 & R2); [|rewrite E1; exact P|exact A'|].
    { destruct O as [O|[O N]]; [left; inversion O; assumption|right]. inversion O as [|? ? O1 O2]; subst. split; [exact O2|].
      destruct it; try discriminate O1; cbn [item_cells put_all] in P1; injection P1 as P1; rewrite <- P1; exact N. }
    exists st2. split; [exact E2|]. split; [exact C2|]. split; [exact A2|]. intro f. cbn [Nat.add]. rewrite R, R2, size_app. f_equal. lia.
Qed.
Lemma record_4 code data : 4 <= size (record code data).
Proof. rewrite record_size. pose proof (size_pos data). lia. Qed.
Lemma item_4 it : 4 <= size (item_bytes it).
Proof.
  destruct it as [p c|row col l|data|x y|a b|code data inner|k|ar s|head author pad|d|t|code data]; cbn [item_bytes]; try apply record_4; rewrite size_app.
  - pose proof (record_4 (content_code c) (place_bytes p ++ content_bytes c)). pose proof (size_pos (content_records c)). lia.
  - pose proof (record_4 code data). match goal with |- context [size (?x ++ ?y)] => pose proof (size_pos (x ++ y)) end. lia.
  - pose proof (record_4 0x1b6 (SpecObjects.textbox_bytes t)). match goal with |- context [size (flat_map ?x ?y)] => pose proof (size_pos (flat_map x y)) end. lia.
Qed.
Lemma items_length l : 4 * Z.of_nat (length l) <= size (flat_map item_bytes l).
Proof.
  induction l as [|it l IH]; [unfold size; cbn; lia|]. cbn [flat_map length]. rewrite size_app. pose proof (item_4 it). lia.
Qed.

Lemma row_cells_good su date row l : forall col, 0 <= row < su_max_rows su -> 0 <= col -> col + Z.of_nat (length l) <= su_max_cols su ->
  Forall (good_put su) (row_cells date row col l).
Proof.
  induction l as [|[xf k] l IH]; intros col R C L; cbn [row_cells length] in *; [constructor|].
  constructor; [|apply IH; lia]. split; [unfold inside; cbn [pt_row pt_col]; lia|]. eexists. constructor.
Qed.
Lemma item_good su country shared xfs date it : su_max_rows su = 65536 -> su_max_cols su = 256 -> good_item country shared xfs it ->
  Forall (good_put su) (item_cells shared date it).
Proof.
  intros R C G. destruct it as [p c|row col l|data|x y|a b|code data inner|k|ar s|head author pad|d|t|code data]; try constructor; cbn [good_item item_cells] in *.
  - destruct G as (WR & WC & _). unfold word16 in WR. split; [unfold inside; cbn [pt_row pt_col]; lia|]. eexists. constructor.
  - constructor.
  - destruct G as (WR & C0 & _ & C1 & _). unfold word16 in WR. apply row_cells_good; lia.
Qed.

Lemma all_typed l : Forall (fun p => pt_type p <> None) l -> forall r c p, latest l r c = Some p -> pt_type p <> None.
Proof.
  intros F r c p H. unfold latest in H. apply find_some in H. destruct H as [H _]. apply in_rev in H.
  rewrite Forall_forall in F. apply F, H.
Qed.
Lemma row_cells_typed date row l : forall col, Forall (fun p => pt_type p <> None) (row_cells date row col l).
Proof. induction l as [|[xf k] l IH]; intro col; cbn [row_cells]; constructor; [discriminate|apply IH]. Qed.
Lemma item_typed shared date it : Forall (fun p => pt_type p <> None) (item_cells shared date it).
Proof. destruct it; cbn [item_cells]; try constructor; [discriminate|constructor|apply row_cells_typed]. Qed.

Lemma shows_built su l : su_ragged su = false -> Forall (good_put su) l -> Forall (fun p => pt_type p <> None) l ->
  exists g g', put_all su l new_grid = (g, Ok tt) /\ tidy su [] g = (g', Ok tt) /\ shows_cells l (sheet_of g').
Proof.
  intros R G T. destruct (C49_grid_proof su l [] R G (Forall_nil _)) as (g' & B & RE & HR & HC & CE).
  unfold build in B. destruct (put_all su l new_grid) as [g [[]|e]] eqn:P; [|discriminate B].
  destruct (tidy su [] g) as [g2 [[]|e]] eqn:TI; [|discriminate B]. injection B as ->.
  exists g, g'. split; [reflexivity|]. split; [exact TI|].
  change (range_height []) with 0 in HR. change (range_width []) with 0 in HC.
  pose proof (height_nonneg l) as HP. pose proof (width_nonneg l) as WP.
  split; [change (sh_nrows (sheet_of g')) with (g_nrows g'); lia|]. split; [change (sh_ncols (sheet_of g')) with (g_ncols g'); lia|]. split; [exact RE|].
  intros r c HR' HC'. destruct (CE r c HR' HC') as (V & (t & E & S) & _). split; [exact V|]. exists t. split; [exact E|].
  unfold shows_type in S. destruct (latest l r c) as [p|] eqn:L; [|exact S]. destruct S as [|r0 c0 v x t D]; [reflexivity|].
  exfalso. apply (all_typed l T r c _ L). reflexivity.
Qed.

Lemma read_sheet_ok country l date b mem pos s rest countries :
  (forall xf, 0 <= xf < xf_count l -> dget xf (b_types b) = Some (number_type date xf)) -> b_strings b = shared_of l ->
  in_order (sd_items s) -> anchored None false (sd_items s) -> Forall (good_item country (shared_of l) (xf_count l)) (sd_items s) ->
  from mem pos (flat_map item_bytes (sd_items s) ++ eof ++ rest) -> countries_ok country countries ->
  exists sh c, read_sheet b mem pos countries = Ok (sh, c) /\ countries_ok country c /\ shows_cells (cells_of l date s) sh.
Proof.
  intros T ST (a & b' & E & OA & OB) AN G F C.
  set (su := sheet_setup b). assert (TX : typed_xfs date (xf_count l) su) by exact T.
  assert (GP : Forall (good_put su) (cells_of l date s)).
  { unfold cells_of. apply Forall_flat_map. eapply Forall_impl; [|exact G]. intros it GI. apply (item_good su country _ (xf_count l)); [reflexivity..|exact GI]. }
  assert (GT : Forall (fun p => pt_type p <> None) (cells_of l date s)).
  { unfold cells_of. apply Forall_flat_map. apply Forall_forall. intros it _. apply item_typed. }
  destruct (shows_built su (cells_of l date s) eq_refl GP GT) as (g & g' & P & TI & SH).
  unfold cells_of in P. rewrite E, flat_map_app, put_all_app in P. rewrite E in F, G, AN. rewrite flat_map_app, <- app_assoc in F.
  apply Forall_app in G. destruct G as [GA GB].
  destruct (put_all su (flat_map _ a) new_grid) as [g1 [[]|e]] eqn:P1; [|discriminate P].
  destruct (loop_ok country (shared_of l) (xf_count l) date su mem _ TX a b' pos (mkreading new_grid countries None false) g1 GA F C) as (s1 & G1 & C1 & A1 & R1); [right; auto|exact P1|exact AN|].
  pose proof F as F0. apply from_next in F.
  destruct (loop_ok country (shared_of l) (xf_count l) date su mem _ TX b' [] _ s1 g GB F C1) as (s2 & G2 & C2 & _ & R2); [left; exact OB|rewrite G1; exact P|rewrite app_nil_r; exact A1|].
  exists (sheet_of g'), (r_countries s2). split; [|split; [exact C2|exact SH]].
  unfold read_sheet. fold su. rewrite ST.
  apply from_length in F0. destruct F0 as [P0 L0]. rewrite !size_app in L0. pose proof (items_length a). pose proof (items_length b'). pose proof (record_4 10 []).
  pose proof (size_pos rest).
  assert (LM : exists k, S (length mem) = (length a + (length b' + S k))%nat).
  { exists (length mem - length a - length b')%nat. unfold size in L0 at 1. change (record 10 []) with eof in *. lia. }
  destruct LM as [k LM]. rewrite LM, R1, R2. apply from_next in F.
  cbn [read_loop]. unfold eof in F. destruct (get_record_ok _ _ 10 [] _ ltac:(unfold word16; lia) ltac:(unfold short, size; cbn; lia) F) as [R _].
  rewrite R. cbn [bind Z.eqb Pos.eqb]. rewrite G2, TI. reflexivity.
Qed.

Lemma get2_ok mem pos z rest : word16 z -> from mem pos (le_bytes 2 z ++ rest) ->
  get2bytes mem pos = (Some z, pos + 2) /\ from mem (pos + 2) rest.
Proof.
  intros W F. split; [|apply from_next in F; exact F]. unfold get2bytes. rewrite (from_slice _ _ _ _ 2 F) by reflexivity. cbv zeta.
  change (Z.of_nat (length (le_bytes 2 z)) <? 2) with false. cbv iota. rewrite le_value_bytes by exact W. reflexivity.
Qed.
Lemma getbof_ok mem pos version kind more rest : word16 version -> good_bof more -> kind = 5 \/ kind = 16 ->
  from mem pos (bof version kind more ++ rest) ->
  exists v, getbof mem pos kind = Ok (v, pos + size (bof version kind more)) /\ (version = 0x600 -> v = 80) /\
    from mem (pos + size (bof version kind more)) rest.
Proof.
  intros W G K F. unfold good_bof in G. pose proof (size_pos more) as SP.
  exists (bof_version 0x809 ((le_bytes 2 version ++ le_bytes 2 kind ++ more) ++ repeat 0%N (Z.to_nat (Z.max 0 (8 - (4 + size more)))))).
  split; [|split; [|apply from_next in F; exact F]].
  - unfold getbof. unfold bof, record in F. rewrite <- !app_assoc in F.
    destruct (get2_ok _ _ 0x809 _ ltac:(unfold word16; lia) F) as [E1 F1]. rewrite E1. cbn [boflen Z.eqb Pos.eqb].
    set (d := le_bytes 2 version ++ le_bytes 2 kind ++ more) in *.
    assert (SD : size d = 4 + size more) by (unfold d; rewrite !size_app, !size_bytes; lia).
    destruct (get2_ok _ _ (size d) _ ltac:(unfold word16; lia) F1) as [E2 F2]. rewrite E2.
    replace ((4 <=? size d) && (size d <=? 20)) with true by lia. cbn [negb]. cbv zeta.
    assert (F3 : from mem (pos + 2 + 2) (d ++ rest)) by (unfold d; rewrite <- !app_assoc; exact F2).
    rewrite (from_slice _ _ d rest (size d) F3) by reflexivity. change (Z.of_nat (length d)) with (size d).
    replace (size d <? size d) with false by lia.
    assert (U : u16 2 (d ++ repeat 0%N (Z.to_nat (Z.max 0 (8 - size d)))) = kind).
    { unfold d. rewrite <- !app_assoc. set (x := more ++ _).
      change (u16 2 (le_bytes 2 version ++ le_bytes 2 kind ++ x)) with (u16 0 (le_bytes 2 kind ++ x)). apply u16_first. unfold word16. lia. }
    rewrite U, SD. replace (pos + 2 + 2 + (4 + size more)) with (pos + size (bof version kind more)) by (unfold bof; rewrite record_size; fold d; lia).
    destruct K as [->| ->]; cbn [Z.eqb Pos.eqb orb andb]; reflexivity.
  - intros ->. unfold bof_version. cbv zeta. rewrite <- !app_assoc. rewrite u16_first by (unfold word16; lia). reflexivity.
Qed.

(** ** Globals *)

(** *** Formats *)
Lemma fill_in_get formats k : dget k (fill_in formats) = match dget k formats with Some t => Some t | None => dget k std_format_code_types end.
Proof.
  unfold fill_in. generalize std_format_code_types. intro l. revert formats.
  induction l as [|[k0 t0] l IH]; intro d; cbn [fold_left fst snd]; [cbn [dget]; destruct (dget k d); reflexivity|].
  rewrite IH. cbn [dget]. unfold dmem. destruct (dget k0 d) as [t1|] eqn:E.
  - destruct (dget k d) as [t|] eqn:D; [reflexivity|]. destruct (Z.eqb_spec k k0) as [->|N]; [congruence|reflexivity].
  - rewrite dget_dset. destruct (Z.eqb_spec k k0) as [->|N]; [rewrite E; reflexivity|reflexivity].
Qed.
Lemma std_types key :
  match dget key std_format_code_types with
  | Some ty => standard key /\ (ty = FDT <-> standard_date key)
  | None => ~ standard key
  end.
Proof.
  unfold standard, standard_date.
  destruct (Z.leb_spec 0 key) as [L|L]; [destruct (Z.leb_spec key 81) as [U|U]|].
  - assert (F : forallb (fun n => match dget (Z.of_nat n) std_format_code_types with
        | Some ty => ((n <=? 22) || (27 <=? n) && (n <=? 62) || (67 <=? n))%nat &&
            Bool.eqb (ty =? FDT) ((14 <=? n) && (n <=? 22) || (27 <=? n) && (n <=? 36) || (45 <=? n) && (n <=? 47) || (50 <=? n) && (n <=? 58) || (71 <=? n))%nat
        | None => negb ((n <=? 22) || (27 <=? n) && (n <=? 62) || (67 <=? n))%nat end) (seq 0 82) = true) by (vm_compute; reflexivity).
    rewrite forallb_forall in F. specialize (F (Z.to_nat key) ltac:(apply in_seq; lia)). rewrite Z2Nat.id in F by exact L.
    destruct (dget key std_format_code_types) as [ty|]; [|lia].
    apply andb_prop in F. destruct F as [F1 F2]. apply Bool.eqb_prop in F2. split; [lia|]. lia.
  - assert (F : forallb (fun kt => fst kt <=? 81) std_format_code_types = true) by (vm_compute; reflexivity).
    destruct (dget key std_format_code_types) as [ty|] eqn:E; [|lia]. exfalso.
    apply dget_In in E. rewrite forallb_forall in F. specialize (F _ E). cbn [fst] in F. lia.
  - assert (F : forallb (fun kt => 0 <=? fst kt) std_format_code_types = true) by (vm_compute; reflexivity).
    destruct (dget key std_format_code_types) as [ty|] eqn:E; [|lia]. exfalso.
    apply dget_In in E. rewrite forallb_forall in F. specialize (F _ E). cbn [fst] in F. lia.
Qed.
Lemma date_text_iff t : is_date_format_string t = true <-> date_text t.
Proof.
  split.
  - intro H. destruct (C53_pieces_proof t) as (l & e & G & GE & ->).
    destruct (counts_some date_char (fun c => In_either c _) (plain l)) as [d D].
    destruct (counts_some num_char (fun c => In_either c _) (plain l)) as [n N].
    exists l, e, d, n. repeat (split; [assumption || reflexivity|]). apply (C53_verdict_proof l e d n); assumption.
  - intros (l & e & d & n & G & GE & -> & D & N & L). apply (C53_verdict_proof l e d n); assumption.
Qed.

(** *** What has been read *)
Lemma last_said_snoc A (f : global -> option A) l g : last_said f (l ++ [g]) = match f g with Some x => Some x | None => last_said f l end.
Proof. induction l as [|h l IH]; cbn [app last_said]; [destruct (f g); reflexivity|]. rewrite IH. destruct (f g); reflexivity. Qed.
Lemma tabs_snoc l g : tabs (l ++ [g]) = tabs l ++ tabs [g].
Proof. unfold tabs. apply flat_map_app. Qed.
Lemma xf_count_snoc l g : xf_count (l ++ [g]) = xf_count l + if is_xf g then 1 else 0.
Proof. unfold xf_count. rewrite filter_app, app_length. cbn [filter]. destruct (is_xf g); cbn [length]; lia. Qed.
Lemma xf_count_pos l : 0 <= xf_count l.
Proof. unfold xf_count. lia. Qed.
Lemma xf_at_snoc l g i before key : xf_at (l ++ [g]) i before key ->
  xf_at l i before key \/ exists font rest, g = Xf font key rest /\ before = l /\ i = xf_count l.
Proof.
  intros (font & rest & after & E & C). destruct after as [|h after'] using rev_ind.
  - apply app_inj_tail in E. destruct E as [-> ->]. right. exists font, rest. auto.
  - clear IHafter'. rewrite app_comm_cons, app_assoc in E. apply app_inj_tail in E. destruct E as [-> _]. left. exists font, rest, after'. auto.
Qed.
Lemma xf_at_exists l i : 0 <= i < xf_count l -> exists before key, xf_at l i before key.
Proof.
  induction l as [|g l IH] using rev_ind; intro R; [unfold xf_count in R; cbn in R; lia|].
  rewrite xf_count_snoc in R. destruct (Z.lt_ge_cases i (xf_count l)) as [L|L].
  - destruct (IH ltac:(lia)) as (before & key & font & rest & after & -> & C). exists before, key, font, rest, (after ++ [g]).
    split; [rewrite <- app_assoc; reflexivity|exact C].
  - destruct g as [| |font key rest| | | | | | | | | | | |]; cbn [is_xf] in R; try lia. exists l, key, font, rest, []. split; [reflexivity|lia].
Qed.
Definition format_type (l : list global) (key : Z) : option Z :=
  match format_of key l with
  | Some t => Some (if is_date_format_string t then FDT else FGE)
  | None => if xf_count l =? 0 then None else dget key std_format_code_types
  end.
Definition known (l : list global) (key : Z) : bool :=
  match format_of key l with
  | Some _ => true
  | None => match dget key std_format_code_types with Some _ => true | None => false end
  end.
Definition usual_page (b : globals) : Prop := match b_codepage b with None => True | Some c => In c usual end.
Definition sheets_ok (l : list global) (k : XlNames.links) : Prop :=
  length (XlNames.l_map k) = length (kinds_of l) /\ (NamesProofs.sheets_mapped k (kinds_of l) /\ XlNames.l_old k = None).
Definition book_at (l : list global) (x : linked) (i : Z) : Prop := 0 <= i /\ nth_error (books_of l) (Z.to_nat i) = Some x.
Definition books_ok (l : list global) (k : XlNames.links) (n : nat) : Prop :=
  XlNames.l_externs k = references_of l /\ n = length (books_of l) /\
  (forall i, XlNames.l_locals k = Some i -> book_at l Itself i) /\ (forall i, XlNames.l_addins k = Some i -> book_at l Addins i).
Definition links_ok (l : list global) (k : XlNames.links) (n : nat) : Prop := sheets_ok l k /\ books_ok l k n.
Lemma books_snoc l g : books_of (l ++ [g]) = books_of l ++ books_of [g].
Proof. apply flat_map_app. Qed.
Lemma references_snoc l g : references_of (l ++ [g]) = references_of l ++ references_of [g].
Proof. apply flat_map_app. Qed.
Lemma book_at_snoc l g x i : book_at l x i -> book_at (l ++ [g]) x i.
Proof. intros [P H]. split; [exact P|]. rewrite books_snoc, nth_error_app1; [exact H|]. apply nth_error_Some. congruence. Qed.
Lemma book_at_last l g x : books_of [g] = [x] -> book_at (l ++ [g]) x (Z.of_nat (S (length (books_of l))) - 1).
Proof.
  intro H. split; [lia|]. rewrite books_snoc, H, nth_error_app2 by lia.
  replace (Z.to_nat (Z.of_nat (S (length (books_of l))) - 1) - length (books_of l))%nat with 0%nat by lia. reflexivity.
Qed.
Lemma kinds_snoc l g : kinds_of (l ++ [g]) = kinds_of l ++ kinds_of [g].
Proof. apply flat_map_app. Qed.
Lemma names_snoc l g : names_of (l ++ [g]) = names_of l ++ names_of [g].
Proof. apply flat_map_app. Qed.
Lemma links_other l g k n : kinds_of [g] = [] -> books_of [g] = [] -> references_of [g] = [] -> links_ok l k n -> links_ok (l ++ [g]) k n.
Proof.
  intros H1 H2 H3 [[A1 A2] (B1 & B2 & B3 & B4)]. unfold links_ok, sheets_ok, books_ok. rewrite kinds_snoc, H1, app_nil_r, references_snoc, H3, app_nil_r.
  split; [split; assumption|]. split; [exact B1|]. split; [rewrite books_snoc, H2, app_nil_r; exact B2|].
  split; intros i E; apply book_at_snoc; auto.
Qed.
(** Another sheet. *)
Lemma links_tab l k n o v kind name extra :
  let k' := XlNames.mklinks (XlNames.l_map k ++ [if (kind =? 0)%N then Z.of_nat (XlNames.l_sheets k) else -1]) (XlNames.l_externs k)
              (XlNames.l_locals k) (XlNames.l_addins k) (if (kind =? 0)%N then S (XlNames.l_sheets k) else XlNames.l_sheets k) (XlNames.l_old k) in
  links_ok l k n -> links_ok (l ++ [Tab o v kind name extra]) k' n.
Proof.
  intros k' [[L [S OD]] (B1 & B2 & B3 & B4)]. split.
  - unfold k', sheets_ok. rewrite kinds_snoc. cbn [kinds_of flat_map app XlNames.l_map].
    split; [rewrite !app_length, L; reflexivity|]. split; [|exact OD].
    intros i H. cbn [XlNames.l_map XlNames.l_sheets]. destruct (Nat.lt_ge_cases i (length (kinds_of l))) as [B|B].
    + rewrite nth_error_app1 in H by exact B. destruct (S i H) as (z & Z1 & Z2). exists z. rewrite nth_error_app1 by lia.
      split; [exact Z1|]. destruct (kind =? 0)%N; lia.
    + rewrite nth_error_app2 in H by exact B. rewrite nth_error_app2 by lia. rewrite L.
      destruct (i - length (kinds_of l))%nat as [|j]; [|destruct j; discriminate H]. cbn [nth_error] in *. injection H as ->. eexists. split; [reflexivity|]. lia.
  - unfold books_ok. cbn [k' XlNames.l_externs XlNames.l_locals XlNames.l_addins]. rewrite references_snoc. cbn [references_of flat_map]. rewrite app_nil_r.
    split; [exact B1|]. split; [rewrite books_snoc; cbn [books_of flat_map]; rewrite app_nil_r; exact B2|].
    split; intros i E; apply book_at_snoc; auto.
Qed.
Record knows (country : Z * Z) (base : Z) (l : list global) (b : globals) : Prop := mkknows {
  kn_page : usual_page b;
  kn_country : countries_ok country (b_countries b);
  kn_datemode : b_datemode b = datemode_of l;
  kn_formats : forall key, dget key (b_formats b) = format_type l key;
  kn_count : Z.of_nat (length (b_xfs b)) = xf_count l;
  kn_xfs : forall i before key, xf_at l i before key -> nth_error (b_xfs b) (Z.to_nat i) = Some (if known before key then key else 0);
  kn_strings : b_strings b = shared_of l;
  kn_sheets : b_sheets b = map (fun t => (fst t, snd t + base)) (tabs l);
  kn_links : links_ok l (b_links b) (b_supbooks b);
  kn_names : b_names b = map NamesProofs.name_obj (names_of l)
}.
Lemma knows_new country base : knows country base [] new_globals.
Proof.
  constructor; try reflexivity; [left; reflexivity| |split; [split; [reflexivity|split; [intros [|]; discriminate|reflexivity]]|repeat split; discriminate]]. intros i before key (font & rest & after & E & _).
  destruct before; discriminate E.
Qed.

Lemma derive_ok b : usual_page b -> exists c e, In c usual /\
  derive_encoding b = Ok (mkglobals (Some c) e (b_countries b) (b_datemode b) (b_formats b) (b_xfs b) (b_types b) (b_strings b) (b_sheets b) (b_supbooks b) (b_links b) (b_names b)).
Proof.
  unfold usual_page, derive_encoding. destruct (b_codepage b) as [c|].
  - intro U. cbn [In usual] in U.
    assert (F : forallb (fun c => (c =? 1200) || (existsb (Z.eqb c) [10000; 10006; 10007; 10029; 10079; 10081; 32768; 32769] || ((300 <=? c) && (c <=? 1999)))
       && existsb (Z.eqb c) codecs) usual = true) by (vm_compute; reflexivity).
    rewrite forallb_forall in F. specialize (F c U). cbv zeta. destruct (Z.eqb_spec c 1200) as [->|N].
    + exists 1200, true. split; [exact U|reflexivity].
    + cbn [orb] in F. apply andb_prop in F. destruct F as [F1 F2]. rewrite F1, F2. exists c, true. split; [exact U|reflexivity].
  - intros _. exists 1200, (b_encoding b). split; [cbn; tauto|reflexivity].
Qed.

(** *** One record *)
Definition starts (rest : str) : Prop := exists code data rest', rest = record code data ++ rest' /\ word16 code /\ code <> 0x3c.

Lemma continues_ok mem rest : starts rest -> forall (l : list str) pos fuel, Forall short l -> from mem pos (flat_map (record 0x3c) l ++ rest) -> (length l <= fuel)%nat ->
  continues fuel mem pos = Ok (l, pos + size (flat_map (record 0x3c) l)).
Proof.
  intros (code & data & rest' & -> & W & N). induction l as [|d l IH]; intros pos fuel S F L.
  - cbn [flat_map app] in *. unfold record in F. rewrite <- !app_assoc, app_assoc in F.
    assert (H : pyslice mem pos (pos + 4) = le_bytes 2 code ++ le_bytes 2 (size data)) by (apply (from_slice _ _ _ _ 4 F); reflexivity).
    assert (U : u16 0 (le_bytes 2 code ++ le_bytes 2 (size data)) = code) by (apply u16_first; exact W).
    change (size []) with 0. rewrite Z.add_0_r.
    destruct fuel; cbn [continues]; rewrite H; cbv zeta; change (sized 4 (le_bytes 2 code ++ le_bytes 2 (size data))) with (@Ok unit tt); cbn [bind];
      rewrite U; replace (code =? 0x3c) with false by lia; reflexivity.
  - destruct fuel as [|fuel]; [cbn [length] in L; lia|]. inversion S as [|? ? S1 S2]; subst. cbn [flat_map] in *. rewrite <- app_assoc in F.
    pose proof F as F0. unfold record at 1 in F0. rewrite <- !app_assoc, app_assoc in F0.
    assert (H : pyslice mem pos (pos + 4) = le_bytes 2 60 ++ le_bytes 2 (size d)) by (apply (from_slice _ _ _ _ 4 F0); reflexivity).
    assert (U : u16 0 (le_bytes 2 60 ++ le_bytes 2 (size d)) = 60) by (apply u16_first; unfold word16; lia).
    assert (U2 : u16 2 (le_bytes 2 60 ++ le_bytes 2 (size d)) = size d).
    { change (u16 2 (le_bytes 2 60 ++ le_bytes 2 (size d))) with (u16 0 (le_bytes 2 (size d) ++ [])). apply u16_first, word16_size, S1. }
    cbn [continues]. rewrite H. cbv zeta. change (sized 4 (le_bytes 2 60 ++ le_bytes 2 (size d))) with (@Ok unit tt). cbn [bind].
    rewrite U, U2. cbn [Z.eqb Pos.eqb negb].
    apply from_next in F0. change (size (le_bytes 2 60 ++ le_bytes 2 (size d))) with 4 in F0.
    rewrite (from_slice _ _ _ _ (size d) F0) by reflexivity.
    apply from_next in F. rewrite record_size, Z.add_assoc in F. cbn [length] in L. rewrite (IH _ fuel S2 F) by lia. cbn [bind].
    rewrite size_app, record_size. f_equal. f_equal. lia.
Qed.
Lemma continued_size (l : list str) : 4 * Z.of_nat (length l) <= size (flat_map (record 0x3c) l).
Proof. induction l as [|d l IH]; [unfold size; cbn; lia|]. cbn [flat_map length]. rewrite size_app. pose proof (record_4 0x3c d). lia. Qed.

Lemma gstep mem base pos code data tail b b' pos' : word16 code -> short data -> code <> 10 ->
  from mem pos (record code data ++ tail) ->
  globals_record mem base code data (pos + 4 + size data) b = Ok (b', pos') ->
  forall f, parse_globals (S f) mem base pos b = parse_globals f mem base pos' b'.
Proof.
  intros W S N F H f. destruct (get_record_ok mem pos code data tail W S F) as [R _].
  cbn [parse_globals]. rewrite R. cbn [bind]. replace (code =? 10) with false by lia. rewrite H. reflexivity.
Qed.

(** Only what g says is new. *)
Definition only_links (g : global) : Prop :=
  match g with Xf _ _ _ | Datemode _ _ | Shared _ _ | Format _ _ _ | Tab _ _ _ _ _ | Named _ => False | _ => True end.
Lemma knows_links country base l g cp e co t n k b : only_links g -> match cp with None => True | Some c => In c usual end -> countries_ok country co ->
  knows country base l b -> links_ok (l ++ [g]) k n ->
  knows country base (l ++ [g]) (mkglobals cp e co (b_datemode b) (b_formats b) (b_xfs b) t (b_strings b) (b_sheets b) n k (b_names b)).
Proof.
  intros NG U C [K1 K2 K3 K4 K5 K6 K7 K8 K9 K10] LK.
  assert (NX : is_xf g = false) by (destruct g; try reflexivity; contradiction).
  assert (XC : xf_count (l ++ [g]) = xf_count l) by (rewrite xf_count_snoc, NX; lia).
  constructor; cbn [b_codepage b_countries b_datemode b_formats b_xfs b_strings b_sheets b_supbooks b_links b_names]; try assumption.
  - rewrite K3. unfold datemode_of. rewrite last_said_snoc. destruct g; try reflexivity; contradiction.
  - intro key. rewrite K4. unfold format_type, format_of. rewrite last_said_snoc, XC. destruct g; try reflexivity; contradiction.
  - rewrite XC. exact K5.
  - intros i before key H. apply xf_at_snoc in H. destruct H as [H|(font & rest & -> & _)]; [exact (K6 _ _ _ H)|discriminate NX].
  - rewrite K7. unfold shared_of. rewrite last_said_snoc. destruct g; try reflexivity; contradiction.
  - rewrite K8, tabs_snoc. f_equal. destruct g; try contradiction; rewrite app_nil_r; reflexivity.
  - rewrite K10, names_snoc. replace (names_of [g]) with (@nil SpecNames.name_data) by (destruct g; try contradiction; reflexivity). rewrite app_nil_r. reflexivity.
Qed.
Lemma knows_same country base l g b : only_links g -> books_of [g] = [] -> references_of [g] = [] -> knows country base l b -> knows country base (l ++ [g]) b.
Proof.
  intros NG H1 H2 K. destruct b as [cp e co dm fo xf ty st sh n k nm] eqn:EB.
  apply (knows_links country base l g cp e co ty n k _ NG (kn_page _ _ _ _ K) (kn_country _ _ _ _ K) K).
  apply links_other; [destruct g; try contradiction; reflexivity|exact H1|exact H2|]. exact (kn_links _ _ _ _ K).
Qed.

Lemma u16_start z l n : word16 z -> (2 <= n)%nat -> u16 0 (bytes_at 0 n (le_bytes 2 z ++ l)) = z.
Proof.
  intros W N. unfold u16. rewrite bytes_at_at by lia. apply u16_first. exact W.
Qed.

Lemma records_head pre l : exists (d : str) (rs : list str), records (Bytes pre :: l) = ((pre ++ d : str) :: rs) /\ records l = d :: rs.
Proof.
  assert (H : exists d rs, records l = d :: rs).
  { induction l as [|[x|] l [d [rs E]]]; cbn [records]; [exists [], []; reflexivity|rewrite E; eauto|eauto]. }
  destruct H as (d & rs & E). exists d, rs. split; [cbn [records]; rewrite E; reflexivity|exact E].
Qed.

Lemma names_size names : Z.of_nat (length names) <= size (flat_map (string_bytes 2) names).
Proof.
  induction names as [|lo names IH]; [unfold size; cbn; lia|]. cbn [flat_map length]. rewrite size_app. unfold string_bytes at 1. rewrite size_app, size_bytes.
  match goal with |- context [_ + size ?x + _] => pose proof (size_pos x) end. lia.
Qed.
Lemma supbook_names_ok : forall names pre extra, Forall (fun lo => good_layout lo /\ uncut lo) names ->
  exists r, supbook_names (length names) (pre ++ flat_map (string_bytes 2) names ++ extra) (Z.of_nat (length pre)) = Ok r.
Proof.
  induction names as [|lo names IH]; intros pre extra G; [eexists; reflexivity|]. inversion G as [|? ? [G1 G2] G3]; subst.
  cbn [length supbook_names flat_map]. rewrite <- app_assoc.
  destruct (C54_unicode_proof 2 pre lo (flat_map (string_bytes 2) names ++ extra) ltac:(right; reflexivity) G1 G2) as [_ Q];
    [destruct G1 as (_ & _ & _ & _ & _ & _ & G1 & _); exact G1|].
  change (Z.of_nat 2) with 2 in Q. rewrite Q. destruct (IH (pre ++ string_bytes 2 lo) extra G3) as (r & R). exists r.
  rewrite app_length, Nat2Z.inj_add, <- app_assoc in R. exact R.
Qed.
Lemma supbook_head n url rest : 0 <= total_units url < 2 ^ 16 -> 0 <= n < 2 ^ 16 -> total_units url <> 0x401 -> ~ (n = 1 /\ total_units url = 0x3a01) ->
  str_eqb (bytes_at 2 2 (le_bytes 2 n ++ string_bytes 2 url ++ rest)) [1; 4]%N = false /\
  str_eqb (bytes_at 0 4 (le_bytes 2 n ++ string_bytes 2 url ++ rest)) [1; 0; 1; 58]%N = false.
Proof.
  intros TU N N1 N2. unfold string_bytes. rewrite <- app_assoc. set (x := _ ++ rest).
  change (bytes_at 2 2 (le_bytes 2 n ++ le_bytes 2 (total_units url) ++ x)) with (le_bytes 2 (total_units url)).
  change (bytes_at 0 4 (le_bytes 2 n ++ le_bytes 2 (total_units url) ++ x)) with (le_bytes 2 n ++ le_bytes 2 (total_units url)).
  pose proof (le_value_bytes 2 (total_units url) TU) as V. pose proof (le_value_bytes 2 n N) as VN.
  split.
  - destruct (str_eqb _ _) eqn:E; [|reflexivity]. apply str_eqb_eq in E. rewrite E in V. change (le_value [1; 4]%N) with 0x401 in V. congruence.
  - destruct (str_eqb _ _) eqn:E; [|reflexivity]. apply str_eqb_eq in E. exfalso. apply N2.
    change [1; 0; 1; 58]%N with ([1; 0] ++ [1; 58])%N in E. 
    assert (E1 := f_equal (firstn 2) E). assert (E2 := f_equal (skipn 2) E). change (le_bytes 2 n = [1; 0]%N) in E1. change (le_bytes 2 (total_units url) = [1; 58]%N) in E2.
    rewrite E1 in VN. rewrite E2 in V. change (le_value [1; 0]%N) with 1 in VN. change (le_value [1; 58]%N) with 0x3a01 in V. auto.
Qed.
Lemma references_size l : size (flat_map reference_bytes l) = 6 * Z.of_nat (length l).
Proof.
  induction l as [|[[a b] c] l IH]; [reflexivity|]. cbn [flat_map length reference_bytes]. rewrite size_app, IH, !size_app, !size_bytes. lia.
Qed.
Lemma skipn_bytes z l : skipn 2 (le_bytes 2 z ++ l) = l.
Proof. reflexivity. Qed.
Lemma infos_ok : forall l, Forall (fun r : Z * Z * Z => let '(book, first, last) := r in word16 book /\ word16 first /\ word16 last) l ->
  extern_infos (length l) (flat_map reference_bytes l) = l.
Proof.
  induction 1 as [|[[a b] c] l (A & B & C) _ IH]; [reflexivity|]. cbn [flat_map length extern_infos reference_bytes].
  rewrite <- !app_assoc. f_equal; [|exact IH].
  rewrite u16_first by exact A. f_equal; [f_equal|].
  - change 2%nat with (2 + 0)%nat at 1. rewrite u16_later, skipn_bytes. apply u16_first. exact B.
  - change 4%nat with (2 + (2 + 0))%nat at 1. rewrite !u16_later, !skipn_bytes. apply u16_first. exact C.
Qed.
Lemma global_ok country base mem g l b pos rest :
  knows country base l b -> good_global country g -> (forall head name extra, g = Foreign head name extra -> books_of l <> []) ->
  from mem pos (global_bytes g ++ rest) -> starts rest ->
  exists b', knows country base (l ++ [g]) b' /\
    forall f, parse_globals (S f) mem base pos b = parse_globals f mem base (pos + size (global_bytes g)) b'.
Proof.
  intros K G PL F ST. pose proof K as [K1 K2 K3 K4 K5 K6 K7 K8 K9 K10].
  destruct g as [offset vis kind name extra|key fmt extra|font key more|m extra|c extra|x y extra|total table|name extra|n extra|extra|url names extra|head name extra|refs|nd|code data];
    cbn [good_global global_bytes] in *.
  - destruct G as (O & KD & GL & GU & TU & S).
    destruct (derive_ok b K1) as (c & e & U & D).
    set (data := le_bytes 4 offset ++ _) in *.
    assert (SD : short data).
    { unfold short, data in *. rewrite !size_app in S. rewrite !size_app. rewrite size_bytes. change (size [vis; kind]) with 2. change (size (repeat 0%N 6)) with 6 in S. lia. }
    rewrite record_size, Z.add_assoc.
    set (LK := XlNames.mklinks (XlNames.l_map (b_links b) ++ [if (kind =? 0)%N then Z.of_nat (XlNames.l_sheets (b_links b)) else -1])
              (XlNames.l_externs (b_links b)) (XlNames.l_locals (b_links b)) (XlNames.l_addins (b_links b))
              (if (kind =? 0)%N then (1 + XlNames.l_sheets (b_links b))%nat else XlNames.l_sheets (b_links b)) (XlNames.l_old (b_links b))).
    assert (Q : globals_record mem base 0x85 data (pos + 4 + size data) b =
      Ok (mkglobals (Some c) e (b_countries b) (b_datemode b) (b_formats b) (b_xfs b) (b_types b) (b_strings b)
            (if (kind =? 0)%N then b_sheets b ++ [(text name, offset + base)] else b_sheets b) (b_supbooks b) LK (b_names b), pos + 4 + size data)).
    { unfold globals_record. cbn [Z.eqb Pos.eqb]. unfold handle_boundsheet. rewrite D. cbn [bind b_codepage b_encoding b_countries b_datemode b_formats b_xfs b_types b_strings b_sheets b_supbooks b_links b_names].
      change (sized 6 (bytes_at 0 6 data)) with (@Ok unit tt). cbn [bind].
      destruct (C54_unicode_proof 1 (le_bytes 4 offset ++ [vis; kind]) name extra ltac:(left; reflexivity) GL GU) as [Q _]; [exact TU|].
      rewrite <- app_assoc in Q. fold data in Q. change (Z.of_nat (length (le_bytes 4 offset ++ [vis; kind]))) with 6 in Q. change (Z.of_nat 1) with 1 in Q.
      rewrite Q. cbn [bind]. change (bytes_at 0 4 data) with (le_bytes 4 offset). rewrite le_signed_bytes by (unfold is_int; lia).
      replace (le_value (bytes_at 5 1 data)) with (Z.of_N kind) by (cbn; lia).
      unfold LK. destruct (N.eqb_spec kind 0) as [->|NZ]; [reflexivity|]. replace (Z.of_N kind =? 0) with false by lia. reflexivity. }
    { eexists. split; [|apply (gstep mem base pos 0x85 data rest); [unfold word16; lia|exact SD|lia|exact F|exact Q]].
      constructor; cbn [b_codepage b_countries b_datemode b_formats b_xfs b_strings b_sheets b_links b_names].
      * exact U.
      * exact K2.
      * rewrite K3. unfold datemode_of. rewrite last_said_snoc. reflexivity.
      * intro k. rewrite K4. unfold format_type, format_of. rewrite last_said_snoc, xf_count_snoc. cbn [is_xf]. rewrite Z.add_0_r. reflexivity.
      * rewrite K5, xf_count_snoc. cbn [is_xf]. lia.
      * intros i before k H. apply xf_at_snoc in H. destruct H as [H|(font & r & X & _)]; [exact (K6 _ _ _ H)|discriminate X].
      * rewrite K7. unfold shared_of. rewrite last_said_snoc. reflexivity.
      * rewrite K8, tabs_snoc, map_app. destruct (N.eqb_spec kind 0) as [->|NZ]; [reflexivity|]. destruct kind; [congruence|]. cbn [tabs flat_map map]. rewrite app_nil_r. reflexivity.
      * apply links_tab. exact K9.
      * rewrite K10, names_snoc. cbn [names_of flat_map]. rewrite app_nil_r. reflexivity. }
  - destruct G as (W & GL & GU & S). set (data := le_bytes 2 key ++ _) in *.
    assert (SD : short data).
    { unfold short, data in *. rewrite !size_app in S. rewrite !size_app. rewrite size_bytes. change (size (repeat 0%N 2)) with 2 in S. lia. }
    rewrite record_size, Z.add_assoc.
    assert (B : exists cp e, (usual_page (mkglobals cp e (b_countries b) (b_datemode b) (b_formats b) (b_xfs b) (b_types b) (b_strings b) (b_sheets b) (b_supbooks b) (b_links b) (b_names b))) /\
       (if b_encoding b then Ok b else derive_encoding b) = Ok (mkglobals cp e (b_countries b) (b_datemode b) (b_formats b) (b_xfs b) (b_types b) (b_strings b) (b_sheets b) (b_supbooks b) (b_links b) (b_names b))).
    { destruct (b_encoding b); [exists (b_codepage b), (b_encoding b); destruct b; split; [exact K1|reflexivity]|].
      destruct (derive_ok b K1) as (c & e & U & D). exists (Some c), e. split; [exact U|exact D]. }
    destruct B as (cp & e & U & D).
    assert (Q : globals_record mem base 0x41e data (pos + 4 + size data) b =
      Ok (mkglobals cp e (b_countries b) (b_datemode b) (dset key (if is_date_format_string (text fmt) then FDT else FGE) (b_formats b)) (b_xfs b) (b_types b) (b_strings b) (b_sheets b) (b_supbooks b) (b_links b) (b_names b), pos + 4 + size data)).
    { unfold globals_record. cbn [Z.eqb Pos.eqb]. unfold handle_format. rewrite D. cbn [bind b_codepage b_encoding b_countries b_datemode b_formats b_xfs b_types b_strings b_sheets b_supbooks b_links b_names].
      change (sized 2 (bytes_at 0 2 data)) with (@Ok unit tt). cbn [bind].
      destruct (C54_unicode_proof 2 (le_bytes 2 key) fmt extra ltac:(right; reflexivity) GL GU) as [Q _];
        [destruct GL as (_ & _ & _ & _ & _ & _ & GL & _); exact GL|].
      fold data in Q. change (Z.of_nat (length (le_bytes 2 key))) with 2 in Q. change (Z.of_nat 2) with 2 in Q.
      rewrite Q. cbn [bind]. unfold data. rewrite u16_first by exact W. reflexivity. }
    eexists. split; [|apply (gstep mem base pos 0x41e data rest); [unfold word16; lia|exact SD|lia|exact F|exact Q]].
    constructor; cbn [b_codepage b_countries b_datemode b_formats b_xfs b_strings b_sheets b_links b_names].
    + exact U.
    + exact K2.
    + rewrite K3. unfold datemode_of. rewrite last_said_snoc. reflexivity.
    + intro k. rewrite dget_dset, K4. unfold format_type, format_of. rewrite last_said_snoc, xf_count_snoc. cbn [is_xf]. rewrite Z.add_0_r, (Z.eqb_sym k key).
      destruct (key =? k); reflexivity.
    + rewrite K5, xf_count_snoc. cbn [is_xf]. lia.
    + intros i before k H. apply xf_at_snoc in H. destruct H as [H|(font & r & X & _)]; [exact (K6 _ _ _ H)|discriminate X].
    + rewrite K7. unfold shared_of. rewrite last_said_snoc. reflexivity.
    + rewrite K8, tabs_snoc. cbn [tabs flat_map]. rewrite app_nil_r. reflexivity.
    + apply links_other; [reflexivity..|exact K9].
    + rewrite K10, names_snoc. cbn [names_of flat_map]. rewrite app_nil_r. reflexivity.
  - destruct G as (FL & W & MS & S). set (data := font ++ le_bytes 2 key ++ more) in *.
    assert (SD : short data).
    { unfold short, data in *. rewrite !size_app in S. rewrite !size_app. rewrite size_bytes. change (size (repeat 0%N 2)) with 2 in S. lia. }
    rewrite record_size, Z.add_assoc.
    set (formats := match b_xfs b with [] => fill_in (b_formats b) | _ => b_formats b end).
    assert (KF : forall k, dget k formats = match format_of k l with Some t => Some (if is_date_format_string t then FDT else FGE) | None => dget k std_format_code_types end).
    { intro k. unfold formats. destruct (b_xfs b) as [|x0 xs] eqn:EX; cbn [length] in K5.
      - rewrite fill_in_get, K4. unfold format_type. replace (xf_count l =? 0) with true by lia. destruct (format_of k l); reflexivity.
      - rewrite K4. unfold format_type. replace (xf_count l =? 0) with false by lia. reflexivity. }
    assert (KN : forall k, dmem k formats = known l k).
    { intro k. unfold dmem, known. rewrite KF. destruct (format_of k l); reflexivity. }
    assert (Q : exists t, globals_record mem base 0xe0 data (pos + 4 + size data) b =
      Ok (mkglobals (b_codepage b) (b_encoding b) (b_countries b) (b_datemode b) formats (b_xfs b ++ [if known l key then key else 0]) t (b_strings b) (b_sheets b) (b_supbooks b) (b_links b) (b_names b), pos + 4 + size data)).
    { eexists. unfold globals_record. cbn [Z.eqb Pos.eqb]. unfold handle_xf. fold formats.
      rewrite sized_at by (unfold data; rewrite !size_app, size_bytes; unfold size in *; lia). cbn [bind].
      assert (E : u16 2 data = key).
      { unfold data. destruct font as [|x1 [|x2 [|]]]; try discriminate FL. change (u16 2 ([x1; x2] ++ le_bytes 2 key ++ more)) with (u16 0 (le_bytes 2 key ++ more)).
        apply u16_first. exact W. }
      rewrite E, KN. reflexivity. }
    destruct Q as (t & Q).
    eexists. split; [|apply (gstep mem base pos 0xe0 data rest); [unfold word16; lia|exact SD|lia|exact F|exact Q]].
    constructor; cbn [b_codepage b_countries b_datemode b_formats b_xfs b_strings b_sheets b_links b_names].
    + exact K1.
    + exact K2.
    + rewrite K3. unfold datemode_of. rewrite last_said_snoc. reflexivity.
    + intro k. rewrite KF. unfold format_type, format_of. rewrite last_said_snoc, xf_count_snoc. cbn [is_xf].
      pose proof (xf_count_pos l). replace (xf_count l + 1 =? 0) with false by lia. reflexivity.
    + rewrite app_length, xf_count_snoc. cbn [is_xf length]. lia.
    + intros i before k H. pose proof H as (f0 & r0 & a0 & E0 & C0). apply xf_at_snoc in H. destruct H as [H|(f1 & r & X & -> & ->)].
      * pose proof (K6 _ _ _ H) as Z1. rewrite nth_error_app1; [exact Z1|]. apply nth_error_Some. congruence.
      * injection X as -> -> ->. rewrite nth_error_app2 by lia. replace (Z.to_nat (xf_count l) - length (b_xfs b))%nat with 0%nat by lia. reflexivity.
    + rewrite K7. unfold shared_of. rewrite last_said_snoc. reflexivity.
    + rewrite K8, tabs_snoc. cbn [tabs flat_map]. rewrite app_nil_r. reflexivity.
    + apply links_other; [reflexivity..|exact K9].
    + rewrite K10, names_snoc. cbn [names_of flat_map]. rewrite app_nil_r. reflexivity.
  - destruct G as (M & S). set (data := le_bytes 2 m ++ _) in *.
    assert (SD : short data).
    { unfold short, data in *. rewrite !size_app in S. rewrite !size_app. rewrite size_bytes. change (size (repeat 0%N 2)) with 2 in S. lia. }
    rewrite record_size, Z.add_assoc.
    assert (Q : globals_record mem base 0x22 data (pos + 4 + size data) b =
      Ok (mkglobals (b_codepage b) (b_encoding b) (b_countries b) m (b_formats b) (b_xfs b) (b_types b) (b_strings b) (b_sheets b) (b_supbooks b) (b_links b) (b_names b), pos + 4 + size data)).
    { unfold globals_record. cbn [Z.eqb Pos.eqb]. unfold handle_datemode. change (sized 2 (bytes_at 0 2 data)) with (@Ok unit tt). cbn [bind].
      unfold data. rewrite u16_first by (unfold word16; lia). cbv zeta. replace ((m =? 0) || (m =? 1)) with true by lia. reflexivity. }
    eexists. split; [|apply (gstep mem base pos 0x22 data rest); [unfold word16; lia|exact SD|lia|exact F|exact Q]].
    constructor; cbn [b_codepage b_countries b_datemode b_formats b_xfs b_strings b_sheets b_links b_names].
    + exact K1.
    + exact K2.
    + unfold datemode_of. rewrite last_said_snoc. reflexivity.
    + intro k. rewrite K4. unfold format_type, format_of. rewrite last_said_snoc, xf_count_snoc. cbn [is_xf]. rewrite Z.add_0_r. reflexivity.
    + rewrite K5, xf_count_snoc. cbn [is_xf]. lia.
    + intros i before k H. apply xf_at_snoc in H. destruct H as [H|(font & r & X & _)]; [exact (K6 _ _ _ H)|discriminate X].
    + rewrite K7. unfold shared_of. rewrite last_said_snoc. reflexivity.
    + rewrite K8, tabs_snoc. cbn [tabs flat_map]. rewrite app_nil_r. reflexivity.
    + apply links_other; [reflexivity..|exact K9].
    + rewrite K10, names_snoc. cbn [names_of flat_map]. rewrite app_nil_r. reflexivity.
  - destruct G as (U0 & S). set (data := le_bytes 2 c ++ _) in *.
    assert (SD : short data).
    { unfold short, data in *. rewrite !size_app in S. rewrite !size_app. rewrite size_bytes. change (size (repeat 0%N 2)) with 2 in S. lia. }
    rewrite record_size, Z.add_assoc.
    assert (W : word16 c). { unfold word16. cbn [In usual] in U0. lia. }
    destruct (derive_ok (mkglobals (Some c) (b_encoding b) (b_countries b) (b_datemode b) (b_formats b) (b_xfs b) (b_types b) (b_strings b) (b_sheets b) (b_supbooks b) (b_links b) (b_names b)) U0) as (c' & e & U & D).
    cbn [b_countries b_datemode b_formats b_xfs b_types b_strings b_sheets b_supbooks b_links b_names] in D.
    eexists. split; [|apply (gstep mem base pos 0x42 data rest); [unfold word16; lia|exact SD|lia|exact F|]].
    2: { unfold globals_record. cbn [Z.eqb Pos.eqb]. unfold handle_codepage. change (sized 2 (bytes_at 0 2 data)) with (@Ok unit tt). cbn [bind].
      unfold data at 1. rewrite u16_first by exact W. rewrite D. reflexivity. }
    apply knows_links; try assumption; [exact I|]. apply links_other; [reflexivity..|exact K9].
  - destruct G as (E & S). subst country. set (data := le_bytes 2 x ++ _) in *.
    assert (SD : short data).
    { unfold short, data in *. rewrite !size_app in S. rewrite !size_app. rewrite !size_bytes. change (size (repeat 0%N 4)) with 4 in S. lia. }
    rewrite record_size, Z.add_assoc.
    eexists. split; [|apply (gstep mem base pos 0x8c data rest); [unfold word16; lia|exact SD|lia|exact F|]].
    2: { unfold globals_record. cbn [Z.eqb Pos.eqb]. pose proof (country_ok (x, y) (b_countries b) extra K2) as H. cbn [fst snd] in H. fold data in H. rewrite H. reflexivity. }
    apply knows_links; try assumption; first [exact I|right; reflexivity|apply links_other; [reflexivity..|exact K9]].
  - destruct G as (TL & GT & LT & GS). unfold shared_records in *.
    set (pre := total ++ le_bytes 4 (Z.of_nat (length table))) in *.
    destruct (records_head pre (table_tokens table)) as (d & rs & E & _). rewrite E in *. cbn [continued] in *. inversion GS as [|? ? S1 S2]; subst.
    rewrite <- app_assoc in F. destruct (get_record_ok mem pos 0xfc (pre ++ d) _ ltac:(unfold word16; lia) S1 F) as [_ F1].
    rewrite size_app, record_size.
    replace (pos + (4 + size (pre ++ d) + size (flat_map (record 60) rs))) with (pos + 4 + size (pre ++ d) + size (flat_map (record 60) rs)) by lia.
    eexists. split; [|apply (gstep mem base pos 0xfc (pre ++ d) (flat_map (record 60) rs ++ rest)); [unfold word16; lia|exact S1|lia|exact F|]].
    2: { unfold globals_record. cbn [Z.eqb Pos.eqb]. unfold handle_sst.
      assert (B4 : bytes_at 4 4 (pre ++ d) = le_bytes 4 (Z.of_nat (length table))).
      { unfold pre. rewrite <- app_assoc. apply bytes_at_mid; [exact TL|apply le_bytes_length]. }
      rewrite B4. unfold unpack_i. rewrite le_bytes_length. cbn [Nat.eqb bind]. rewrite le_signed_bytes by (unfold is_int; lia).
      rewrite (continues_ok mem rest ST rs) by (assumption || (apply from_length in F1; destruct F1 as [P0 P1]; rewrite !size_app in P1; rewrite !size_app in P0; pose proof (continued_size rs); pose proof (size_pos rest); unfold size in P1 at 1; lia)).
      cbn [bind]. pose proof (C54_table_proof pre table) as C54. rewrite E in C54. rewrite C54; [|unfold pre; rewrite app_length, le_bytes_length; lia|exact GT].
      cbn [bind]. reflexivity. }
    constructor; cbn [b_codepage b_countries b_datemode b_formats b_xfs b_strings b_sheets b_links b_names].
    + exact K1.
    + exact K2.
    + rewrite K3. unfold datemode_of. rewrite last_said_snoc. reflexivity.
    + intro k. rewrite K4. unfold format_type, format_of. rewrite last_said_snoc, xf_count_snoc. cbn [is_xf]. rewrite Z.add_0_r. reflexivity.
    + rewrite K5, xf_count_snoc. cbn [is_xf]. lia.
    + intros i before k H. apply xf_at_snoc in H. destruct H as [H|(font & r & X & _)]; [exact (K6 _ _ _ H)|discriminate X].
    + unfold shared_of. rewrite last_said_snoc. reflexivity.
    + rewrite K8, tabs_snoc. cbn [tabs flat_map]. rewrite app_nil_r. reflexivity.
    + apply links_other; [reflexivity..|exact K9].
    + rewrite K10, names_snoc. cbn [names_of flat_map]. rewrite app_nil_r. reflexivity.
  - destruct G as (GL & GU & S). exists b. split; [apply knows_same; [exact I|reflexivity..|exact K]|].
    rewrite record_size, Z.add_assoc.
    apply (gstep mem base pos 0x5c (string_bytes 2 name ++ extra) rest); [unfold word16; lia|exact S|lia|exact F|].
    unfold globals_record. cbn [Z.eqb Pos.eqb]. unfold handle_writeaccess.
    destruct (C54_unicode_proof 2 [] name extra ltac:(right; reflexivity) GL GU) as [Q _];
      [destruct GL as (_ & _ & _ & _ & _ & _ & GL & _); exact GL|].
    cbn [app length] in Q. change (Z.of_nat 0) with 0 in Q. change (Z.of_nat 2) with 2 in Q. rewrite Q. reflexivity.
  - set (data := le_bytes 2 n ++ _) in *.
    assert (SD : short data).
    { unfold short, data in *. rewrite !size_app in G. rewrite !size_app. rewrite size_bytes. change (size [1; 4]%N) with 2. change (size (repeat 0%N 4)) with 4 in G. lia. }
    rewrite record_size, Z.add_assoc.
    eexists. split; [|apply (gstep mem base pos 0x1ae data rest); [unfold word16; lia|exact SD|lia|exact F|]].
    2: { unfold globals_record. cbn [Z.eqb Pos.eqb]. unfold handle_supbook. change (sized 2 (bytes_at 0 2 data)) with (@Ok unit tt). cbn [bind].
      change (str_eqb (bytes_at 2 2 data) [1; 4]%N) with true. reflexivity. }
    destruct K9 as [A (B1 & B2 & B3 & B4)]. apply (knows_links country base l (Books n extra) (b_codepage b) (b_encoding b) (b_countries b) (b_types b) _ _ b); try assumption; [exact I|].
    cbn [b_supbooks b_links]. split; [unfold sheets_ok; rewrite kinds_snoc; cbn [kinds_of flat_map]; rewrite app_nil_r; exact A|].
    unfold books_ok. cbn [XlNames.l_externs XlNames.l_locals XlNames.l_addins]. rewrite B2. split; [rewrite references_snoc, B1; symmetry; apply app_nil_r|].
    split; [rewrite books_snoc, app_length, Nat.add_comm; reflexivity|]. split; intros i E.
    + injection E as <-. apply book_at_last. reflexivity.
    + apply book_at_snoc. auto.
  - set (data := le_bytes 2 1 ++ _) in *.
    assert (SD : short data).
    { unfold short, data in *. rewrite !size_app in G. rewrite !size_app. rewrite size_bytes. change (size [1; 58]%N) with 2. change (size (repeat 0%N 4)) with 4 in G. lia. }
    rewrite record_size, Z.add_assoc.
    eexists. split; [|apply (gstep mem base pos 0x1ae data rest); [unfold word16; lia|exact SD|lia|exact F|]].
    2: { unfold globals_record. cbn [Z.eqb Pos.eqb]. unfold handle_supbook. change (sized 2 (bytes_at 0 2 data)) with (@Ok unit tt). cbn [bind].
      change (str_eqb (bytes_at 2 2 data) [1; 4]%N) with false. change (str_eqb (bytes_at 0 4 data) [1; 0; 1; 58]%N) with true. reflexivity. }
    destruct K9 as [A (B1 & B2 & B3 & B4)].
    apply (knows_links country base l (Functions extra) (b_codepage b) (b_encoding b) (b_countries b) (b_types b) _ _ b); try assumption; [exact I|].
    cbn [b_supbooks b_links]. split; [unfold sheets_ok; rewrite kinds_snoc; cbn [kinds_of flat_map]; rewrite app_nil_r; exact A|].
    unfold books_ok. cbn [XlNames.l_externs XlNames.l_locals XlNames.l_addins]. rewrite B2. split; [rewrite references_snoc, B1; symmetry; apply app_nil_r|].
    split; [rewrite books_snoc, app_length, Nat.add_comm; reflexivity|]. split; intros i E.
    + apply book_at_snoc. auto.
    + injection E as <-. apply book_at_last. reflexivity.
  - destruct G as (GL & NU & NF & S). set (data := le_bytes 2 (Z.of_nat (length names)) ++ _) in *.
    assert (SD : short data).
    { unfold short, data in *. rewrite !size_app in S. rewrite !size_app, size_bytes. change (size (repeat 0%N 2)) with 2 in S. lia. }
    inversion GL as [|? ? [GL1 GL2] GL3]; subst.
    assert (TU : 0 <= total_units url < 2 ^ 16).
    { destruct GL1 as (_ & _ & _ & _ & _ & _ & GLU & _). split; [apply total_units_pos|exact GLU]. }
    assert (LN : 0 <= Z.of_nat (length names) < 2 ^ 16).
    { pose proof (names_size names). unfold short in S. rewrite !size_app in S. pose proof (size_pos (string_bytes 2 url)). pose proof (size_pos extra). change (size (repeat 0%N 2)) with 2 in S. lia. }
    rewrite record_size, Z.add_assoc.
    eexists. split; [|apply (gstep mem base pos 0x1ae data rest); [unfold word16; lia|exact SD|lia|exact F|]].
    2: { unfold globals_record. cbn [Z.eqb Pos.eqb]. unfold handle_supbook. change (sized 2 (bytes_at 0 2 data)) with (@Ok unit tt). cbn [bind].
      destruct (supbook_head (Z.of_nat (length names)) url (flat_map (string_bytes 2) names ++ extra)) as [H1 H2]; [assumption..|intros [Q1 Q2]; apply NF; split; lia|].
      fold data in H1, H2. cbn [b_links b_supbooks]. rewrite H1, H2.
      destruct (C54_unicode_proof 2 (le_bytes 2 (Z.of_nat (length names))) url (flat_map (string_bytes 2) names ++ extra) ltac:(right; reflexivity) GL1 GL2 ltac:(change (256 ^ Z.of_nat 2) with (2 ^ 16); lia)) as [_ Q].
      fold data in Q. rewrite le_bytes_length in Q. change (Z.of_nat 2) with 2 in Q. rewrite Q. cbn [bind].
      assert (E : u16 0 data = Z.of_nat (length names)) by (unfold data; apply u16_first; unfold word16; lia). rewrite E, Nat2Z.id.
      destruct (supbook_names_ok names (le_bytes 2 (Z.of_nat (length names)) ++ string_bytes 2 url) extra GL3) as (r & R).
      rewrite <- app_assoc in R. fold data in R. rewrite app_length, le_bytes_length in R.
      replace (Z.of_nat (2 + length (string_bytes 2 url))) with (2 + Z.of_nat (length (string_bytes 2 url))) in R by lia. rewrite R. cbn [bind]. reflexivity. }
    destruct K9 as [A (B1 & B2 & B3 & B4)].
    apply (knows_links country base l (Elsewhere url names extra) (b_codepage b) (b_encoding b) (b_countries b) (b_types b) _ _ b); try assumption; [exact I|].
    split; [unfold sheets_ok; rewrite kinds_snoc; cbn [kinds_of flat_map]; rewrite app_nil_r; exact A|].
    unfold books_ok. rewrite B2. split; [rewrite references_snoc, B1; symmetry; apply app_nil_r|].
    split; [rewrite books_snoc, app_length, Nat.add_comm; reflexivity|]. split; intros i E; apply book_at_snoc; auto.
  - destruct G as (LH & GL & GU & TU & S). exists b. split; [apply knows_same; [exact I|reflexivity..|exact K]|].
    set (data := head ++ _) in *.
    assert (SD : short data).
    { unfold short, data in *. rewrite !size_app in S. rewrite !size_app. change (size (repeat 0%N 6)) with 6 in S. unfold size at 1. rewrite LH. lia. }
    rewrite record_size, Z.add_assoc.
    apply (gstep mem base pos 0x23 data rest); [unfold word16; lia|exact SD|lia|exact F|].
    unfold globals_record. cbn [Z.eqb Pos.eqb]. unfold handle_externname.
    replace (sized 6 (bytes_at 0 6 data)) with (@Ok unit tt).
    2:{ unfold data. do 6 (destruct head as [|? head]; [discriminate LH|]). reflexivity. }
    cbn [bind].
    destruct (C54_unicode_proof 1 head name extra ltac:(left; reflexivity) GL GU TU) as [_ Q]. fold data in Q. rewrite LH in Q.
    change (Z.of_nat 6) with 6 in Q. change (Z.of_nat 1) with 1 in Q. rewrite Q. cbn [bind].
    destruct K9 as [_ (_ & B2 & _)]. rewrite B2. destruct (books_of l) as [|x bl] eqn:EB; [exfalso; apply (PL head name extra); reflexivity|]. reflexivity.
  - destruct G as (GR & L). set (data := le_bytes 2 (Z.of_nat (length refs)) ++ _) in *.
    assert (SZ : size data = 2 + 6 * Z.of_nat (length refs)) by (unfold data; rewrite size_app, size_bytes, references_size; lia).
    rewrite record_size, Z.add_assoc. destruct (derive_ok b K1) as (c & e & U & D).
    eexists. split; [|apply (gstep mem base pos 0x17 data rest); [unfold word16; lia|unfold short; lia|lia|exact F|]].
    2: { unfold globals_record. cbn [Z.eqb Pos.eqb]. unfold handle_externsheet. rewrite D. cbn [bind]. change (sized 2 (bytes_at 0 2 data)) with (@Ok unit tt). cbn [bind].
      assert (E : u16 0 data = Z.of_nat (length refs)) by (unfold data; apply u16_first; unfold word16; lia). rewrite E.
      cbn [externsheet_loop]. change (Z.of_nat (length data)) with (size data). replace (_ <=? size data) with true by lia. cbn [bind].
      change (skipn 2 data) with (flat_map reference_bytes refs). rewrite Nat2Z.id, (infos_ok refs GR). reflexivity. }
    destruct K9 as [A (B1 & B2 & B3 & B4)].
    apply (knows_links country base l (References refs) (Some c) e (b_countries b) (b_types b) _ _ b); try assumption; [exact I|].
    split; [unfold sheets_ok; rewrite kinds_snoc; cbn [kinds_of flat_map]; rewrite app_nil_r; exact A|].
    unfold books_ok. cbn [b_links b_supbooks XlNames.l_externs XlNames.l_locals XlNames.l_addins]. split; [rewrite references_snoc, B1; cbn [references_of flat_map]; rewrite app_nil_r; reflexivity|].
    split; [rewrite books_snoc, app_length, Nat.add_comm; exact B2|]. split; intros i E; apply book_at_snoc; auto.
  - set (data := SpecNames.name_bytes nd) in *.
    assert (SD : short data) by (unfold short; apply G). destruct (derive_ok b K1) as (c & e & U & D).
    rewrite record_size, Z.add_assoc.
    eexists. split; [|apply (gstep mem base pos 0x18 data rest); [unfold word16; lia|exact SD|lia|exact F|]].
    2: { unfold globals_record. cbn [Z.eqb Pos.eqb]. unfold handle_name. rewrite D. cbn [bind]. unfold data. rewrite NamesProofs.new_name_ok by exact G. cbn [bind]. reflexivity. }
    constructor; cbn [b_codepage b_countries b_datemode b_formats b_xfs b_strings b_sheets b_links b_names].
    + exact U.
    + exact K2.
    + rewrite K3. unfold datemode_of. rewrite last_said_snoc. reflexivity.
    + intro k. rewrite K4. unfold format_type, format_of. rewrite last_said_snoc, xf_count_snoc. cbn [is_xf]. rewrite Z.add_0_r. reflexivity.
    + rewrite K5, xf_count_snoc. cbn [is_xf]. lia.
    + intros i before k H. apply xf_at_snoc in H. destruct H as [H|(font & r & X & _)]; [exact (K6 _ _ _ H)|discriminate X].
    + rewrite K7. unfold shared_of. rewrite last_said_snoc. reflexivity.
    + rewrite K8, tabs_snoc. cbn [tabs flat_map]. rewrite app_nil_r. reflexivity.
    + apply links_other; [reflexivity..|exact K9].
    + rewrite K10, names_snoc, map_app. reflexivity.
  - destruct G as (W & S & N). exists b. split; [apply knows_same; [exact I|reflexivity..|exact K]|].
    rewrite record_size, Z.add_assoc. cbn [In global_codes] in N.
    apply (gstep mem base pos code data rest); [exact W|exact S|lia|exact F|].
    unfold globals_record. cbv zeta.
    repeat match goal with |- context [code =? ?k] => replace (code =? k) with false by lia end. reflexivity.
Qed.

(** *** All records *)
Lemma global_starts country g rest : good_global country g -> starts (global_bytes g ++ rest).
Proof.
  assert (H : forall code data r, word16 code -> code <> 0x3c -> starts ((record code data ++ r) ++ rest)).
  { intros code data r W N. exists code, data, (r ++ rest). rewrite <- app_assoc. auto. }
  assert (H' : forall code data, word16 code -> code <> 0x3c -> starts (record code data ++ rest)).
  { intros code data W N. exists code, data, rest. auto. }
  intro G. destruct g as [offset vis kind name extra|key fmt extra|font key more|m extra|c extra|x y extra|total table|name extra|n extra|extra|url names extra|head name extra|refs|nd|code data];
    cbn [global_bytes good_global] in *; try (apply H'; unfold word16; lia).
  - unfold shared_records. destruct (records_head (total ++ le_bytes 4 (Z.of_nat (length table))) (table_tokens table)) as (d & rs & E & _).
    rewrite E. cbn [continued]. apply H; unfold word16; lia.
  - destruct G as (W & _ & N). cbn [In global_codes] in N. apply H'; [exact W|lia].
Qed.
Lemma globals_starts country l rest : Forall (good_global country) l -> starts rest -> starts (flat_map global_bytes l ++ rest).
Proof.
  intros G R. destruct G as [|g l G _]; cbn [flat_map app].
  - exact R.
  - rewrite <- app_assoc. apply (global_starts country). exact G.
Qed.
Lemma eof_starts rest : starts (eof ++ rest).
Proof. exists 10, [], rest. unfold word16. repeat split; lia. Qed.
Lemma globals_ok country base mem rest : starts rest -> forall l2 l1 b pos, knows country base l1 b -> Forall (good_global country) l2 ->
  (forall before head name extra after, l1 ++ l2 = before ++ Foreign head name extra :: after -> books_of before <> []) ->
  from mem pos (flat_map global_bytes l2 ++ rest) ->
  exists b', knows country base (l1 ++ l2) b' /\
    forall f, parse_globals (length l2 + f) mem base pos b = parse_globals f mem base (pos + size (flat_map global_bytes l2)) b'.
Proof.
  intro ST. induction l2 as [|g l2 IH]; intros l1 b pos K G PL F; cbn [flat_map length] in *.
  - exists b. rewrite app_nil_r. split; [exact K|]. intro f. change (size []) with 0. rewrite Z.add_0_r. reflexivity.
  - inversion G as [|? ? G1 G2]; subst. rewrite <- app_assoc in F.
    destruct (global_ok country base mem g l1 b pos _ K G1 ltac:(intros head name extra ->; eapply PL; reflexivity) F (globals_starts country l2 rest G2 ST)) as (b1 & K' & R1).
    apply from_next in F. destruct (IH (l1 ++ [g]) b1 _ K' G2 ltac:(rewrite <- app_assoc; exact PL) F) as (b2 & K2 & R2).
    exists b2. rewrite <- app_assoc in K2. split; [exact K2|]. intro f. cbn [Nat.add]. rewrite R1, R2, size_app. f_equal. lia.
Qed.
Lemma global_4 country g : good_global country g -> 4 <= size (global_bytes g).
Proof.
  intro G. destruct g as [offset vis kind name extra|key fmt extra|font key more|m extra|c extra|x y extra|total table|name extra|n extra|extra|url names extra|head name extra|refs|nd|code data];
    cbn [global_bytes good_global] in *; try apply record_4.
  unfold shared_records. destruct (records_head (total ++ le_bytes 4 (Z.of_nat (length table))) (table_tokens table)) as (d & rs & E & _).
  rewrite E. cbn [continued]. rewrite size_app. pose proof (record_4 252 ((total ++ le_bytes 4 (Z.of_nat (length table))) ++ d)).
  pose proof (size_pos (flat_map (record 60) rs)). lia.
Qed.
Lemma globals_length country l : Forall (good_global country) l -> 4 * Z.of_nat (length l) <= size (flat_map global_bytes l).
Proof.
  induction 1 as [|g l G _ IH]; [unfold size; cbn; lia|]. cbn [flat_map length]. rewrite size_app. pose proof (global_4 country g G). lia.
Qed.

(** *** The types of the XFs *)
Definition type_of_key (formats : dict Z) (key : Z) : Z := match dget key formats with Some ty => cellty_of ty | None => XL_CELL_TEXT end.
Lemma epilogue_get formats : forall keys j types i, dget i (epilogue_types j keys formats types) =
  if (j <=? i) && (i <? j + Z.of_nat (length keys))
  then match nth_error keys (Z.to_nat (i - j)) with Some key => Some (type_of_key formats key) | None => None end else dget i types.
Proof.
  induction keys as [|key keys IH]; intros j types i; cbn [epilogue_types length].
  - replace ((j <=? i) && (i <? j + Z.of_nat 0)) with false by lia. reflexivity.
  - rewrite IH, dget_dset. destruct (Z.eqb_spec i j) as [->|N].
    + replace ((j + 1 <=? j) && (j <? j + 1 + Z.of_nat (length keys))) with false by lia.
      replace ((j <=? j) && (j <? j + Z.of_nat (S (length keys)))) with true by lia. rewrite Z.sub_diag. reflexivity.
    + destruct ((j + 1 <=? i) && (i <? j + 1 + Z.of_nat (length keys))) eqn:E.
      * replace ((j <=? i) && (i <? j + Z.of_nat (S (length keys)))) with true by lia.
        replace (Z.to_nat (i - j)) with (S (Z.to_nat (i - (j + 1)))) by lia. reflexivity.
      * replace ((j <=? i) && (i <? j + Z.of_nat (S (length keys)))) with false by lia. reflexivity.
Qed.
Lemma format_of_later key before g after : format_of key before <> None -> format_of key (before ++ g :: after) <> None.
Proof.
  unfold format_of. induction before as [|h before IH]; cbn [app last_said]; [congruence|].
  intro H. destruct (last_said _ before) eqn:E.
  - specialize (IH ltac:(discriminate)). destruct (last_said _ (before ++ g :: after)); [discriminate|congruence].
  - destruct (last_said _ (before ++ g :: after)); [discriminate|exact H].
Qed.
Lemma known_iff l key : known l key = true <-> standard key \/ format_of key l <> None.
Proof.
  unfold known. pose proof (std_types key) as H. destruct (format_of key l); [split; [right; discriminate|reflexivity]|].
  destruct (dget key std_format_code_types); split; try discriminate; tauto.
Qed.
Lemma type_date l key : 0 < xf_count l -> standard key \/ format_of key l <> None ->
  exists ty, format_type l key = Some ty /\ (ty = FDT <-> date_key l key).
Proof.
  intros C H. unfold format_type, date_key. destruct (format_of key l) as [t|].
  - eexists. split; [reflexivity|]. rewrite <- date_text_iff. destruct (is_date_format_string t); split; unfold FDT, FGE; try reflexivity; discriminate.
  - replace (xf_count l =? 0) with false by lia. pose proof (std_types key) as S. destruct H as [H|H]; [|congruence].
    destruct (dget key std_format_code_types) as [ty|]; [|contradiction]. exists ty. split; [reflexivity|apply S].
Qed.
Definition date_of (b : globals) (i : Z) : bool :=
  match nth_error (b_xfs b) (Z.to_nat i) with
  | Some k => match dget k (b_formats b) with Some ty => ty =? FDT | None => false end
  | None => false
  end.
Lemma zero_standard : standard 0.
Proof. unfold standard. lia. Qed.
Lemma dates_ok l b : (forall key, dget key (b_formats b) = format_type l key) -> Z.of_nat (length (b_xfs b)) = xf_count l ->
  (forall i before key, xf_at l i before key -> nth_error (b_xfs b) (Z.to_nat i) = Some (if known before key then key else 0)) ->
  tells_dates l (date_of b) /\
  forall i, 0 <= i < xf_count l -> dget i (b_types (xf_epilogue b)) = Some (number_type (date_of b) i).
Proof.
  intros K4 K5 K6.
  assert (X : forall i, 0 <= i < xf_count l -> forall before key, xf_at l i before key ->
    exists ty, nth_error (b_xfs b) (Z.to_nat i) = Some (if known before key then key else 0) /\
      dget (if known before key then key else 0) (b_formats b) = Some ty /\ (ty = FDT <-> date_key l (if known before key then key else 0))).
  { intros i R before key A. pose proof (K6 i before key A) as E. destruct A as (font & rest & after & EL & C).
    assert (S : standard (if known before key then key else 0) \/ format_of (if known before key then key else 0) l <> None).
    { destruct (known before key) eqn:KN; [|left; apply zero_standard]. apply known_iff in KN. destruct KN as [KN|KN]; [left; exact KN|right].
      rewrite EL. apply format_of_later. exact KN. }
    destruct (type_date l _ ltac:(lia) S) as (ty & T & D). exists ty. rewrite K4. auto. }
  split.
  - intros i R. unfold date_of. split.
    + intro H. destruct (xf_at_exists l i R) as (before & key & A). destruct (X i R before key A) as (ty & E & T & D). rewrite E, T in H.
      exists before, key. split; [exact A|]. destruct (known before key) eqn:KN.
      * left. split; [apply known_iff; exact KN|apply D; lia].
      * right. assert (NK : ~ (standard key \/ format_of key before <> None)) by (rewrite <- known_iff; congruence).
        split; [tauto|]. split; [destruct (format_of key before); [exfalso; apply NK; right; discriminate|reflexivity]|apply D; lia].
    + intros (before & key & A & H). destruct (X i R before key A) as (ty & E & T & D). rewrite E, T.
      assert (Q : date_key l (if known before key then key else 0)).
      { destruct H as [[KN H]|(NS & NF & H)].
        - apply known_iff in KN. rewrite KN. exact H.
        - replace (known before key) with false; [exact H|]. symmetry. destruct (known before key) eqn:KN; [|reflexivity].
          apply known_iff in KN. destruct KN; contradiction. }
      apply D in Q. lia.
  - intros i R. cbn [xf_epilogue b_types]. rewrite epilogue_get. replace ((0 <=? i) && (i <? 0 + Z.of_nat (length (b_xfs b)))) with true by lia.
    rewrite Z.sub_0_r. destruct (xf_at_exists l i R) as (before & key & A). destruct (X i R before key A) as (ty & E & T & D).
    unfold number_type, date_of. rewrite E, T. unfold type_of_key. rewrite T. unfold cellty_of. reflexivity.
Qed.

Lemma date_of_ok country base l b : knows country base l b ->
  tells_dates l (date_of b) /\
  forall i, 0 <= i < xf_count l -> dget i (b_types (xf_epilogue b)) = Some (number_type (date_of b) i).
Proof. intros [K1 K2 K3 K4 K5 K6 K7 K8 K9 K10]. apply dates_ok; assumption. Qed.

(** *** Links *)
Lemma links_are_fair l k n : books_ok l k n ->
  (forall book first last, In (book, first, last) (references_of l) ->
     nth_error (books_of l) (Z.to_nat book) = Some Addins -> first = 0xfffe /\ last = 0xfffe) ->
  NamesProofs.links_fair k (foreign l).
Proof.
  intros (B1 & _ & B3 & B4) GF x _. unfold XlNames.local_range. rewrite B1. destruct (nth_error (references_of l) (Z.to_nat x)) as [[[book first] last]|] eqn:E.
  2: { eexists. split; [reflexivity|]. lia. }
  destruct (XlNames.opt_is (XlNames.l_addins k) book) eqn:A.
  - unfold XlNames.opt_is in A. destruct (XlNames.l_addins k) as [i|]; [|discriminate]. apply Z.eqb_eq in A. subst i. destruct (B4 _ eq_refl) as [_ B].
    destruct (GF book first last (nth_error_In _ _ E) B) as [-> ->]. eexists. split; [reflexivity|]. lia.
  - destruct (XlNames.opt_is (XlNames.l_locals k) book) eqn:LO; cbn [negb].
    + unfold XlNames.opt_is in LO. destruct (XlNames.l_locals k) as [i|]; [|discriminate]. apply Z.eqb_eq in LO. subst i. destruct (B3 _ eq_refl) as [_ B].
      match goal with |- exists sh, ?t = Ok sh /\ _ => assert (Q : exists sh, t = Ok sh) by (cbv zeta; repeat match goal with |- context [if ?c then _ else _] => destruct c end; eauto) end.
      destruct Q as (sh & ->). exists sh. split; [reflexivity|]. intro FO. exfalso. exact (FO _ _ _ E B).
    + eexists. split; [reflexivity|]. lia.
Qed.

(** ** Workbooks *)

Lemma get_sheets_ok country l date b mem : forall tb base ss countries,
  (forall xf, 0 <= xf < xf_count l -> dget xf (b_types b) = Some (number_type date xf)) -> b_strings b = shared_of l ->
  countries_ok country countries ->
  Forall2 (fun tab s => holds_at mem (snd tab + base) (sheet_bytes s)) tb ss -> Forall (good_sheet country l) ss ->
  exists shs, get_sheets b mem (map (fun t : str * Z => (fst t, snd t + base)) tb) countries = Ok shs /\
    Forall2 (fun s sh => shows_cells (cells_of l date s) sh) ss shs.
Proof.
  intros tb base ss countries T ST C H. revert countries C. induction H as [|[name off] s tb ss H _ IH]; intros countries C G.
  - exists []. split; [reflexivity|constructor].
  - inversion G as [|? ? (WV & GB & O & AN & GI) G2]; subst. cbn [map get_sheets fst snd] in *.
    apply holds_from in H. destruct H as [post F]. unfold sheet_bytes in F. rewrite <- !app_assoc in F.
    destruct (getbof_ok _ _ _ 16 _ _ WV GB ltac:(right; reflexivity) F) as (v & B & _ & F1). rewrite B. cbn [bind].
    destruct (read_sheet_ok country l date b mem _ s post countries T ST O AN GI F1 C) as (sh & c & R & C' & SH). rewrite R. cbn [bind].
    destruct (IH c C' G2) as (shs & E & A). rewrite E. cbn [bind]. exists (sh :: shs). split; [reflexivity|]. constructor; assumption.
Qed.

(** What open_xls does once mem and base are known. *)
Definition opened (mem : str) (base : Z) : res book :=
  do (version, pos) <- getbof mem base 5;
  if version =? 0 then Err XLRDError
  else if negb (version =? 80) then Err NotModelled
  else
    do b <- parse_globals (S (length mem)) mem base pos new_globals;
    do sheets <- get_sheets b mem (b_sheets b) (b_countries b);
    Ok (mkbook (map fst (b_sheets b)) sheets (b_datemode b)).
Definition stored_at (W : workbook) (mem : str) (base : Z) : Prop :=
  holds_at mem base (globals_bytes W) /\
  Forall2 (fun tab s => holds_at mem (snd tab + base) (sheet_bytes s)) (tabs (wb_globals W)) (wb_sheets W).

Lemma parse_ok country base W mem pos post : good_workbook country W ->
  from mem pos (flat_map global_bytes (wb_globals W) ++ eof ++ post) ->
  exists b date, parse_globals (S (length mem)) mem base pos new_globals = Ok b /\ tells_dates (wb_globals W) date /\
    b_sheets b = map (fun t => (fst t, snd t + base)) (tabs (wb_globals W)) /\ b_datemode b = datemode_of (wb_globals W) /\
    countries_ok country (b_countries b) /\ b_strings b = shared_of (wb_globals W) /\
    forall xf, 0 <= xf < xf_count (wb_globals W) -> dget xf (b_types b) = Some (number_type date xf).
Proof.
  intros (_ & GG & (GF & GA) & GN & _) F. set (l := wb_globals W) in *.
  destruct (globals_ok country base mem (eof ++ post) (eof_starts post) l [] new_globals pos (knows_new country base) GG GA F) as (b & K & R). cbn [app] in K.
  destruct (date_of_ok country base l b K) as [TD TT].
  pose proof F as F0. apply from_length in F0. destruct F0 as [P0 P1]. rewrite !size_app in P1. pose proof (globals_length country l GG).
  pose proof (record_4 10 []). change (record 10 []) with eof in *. pose proof (size_pos post).
  assert (LM : exists k, S (length mem) = (length l + S k)%nat).
  { exists (length mem - length l)%nat. unfold size in P1 at 1. lia. }
  destruct LM as [k LM]. rewrite LM, R. apply from_next in F. cbn [parse_globals]. unfold eof in F.
  destruct (get_record_ok _ _ 10 [] _ ltac:(unfold word16; lia) ltac:(unfold short, size; cbn; lia) F) as [RR _]. rewrite RR. cbn [bind Z.eqb Pos.eqb].
  pose proof K as [K1 K2 K3 K4 K5 K6 K7 K8 K9 K10].
  assert (NE : exists nm, XlNames.names_epilogue (b_links (xf_epilogue b)) (b_names (xf_epilogue b)) = Ok nm).
  { cbn [xf_epilogue b_links b_names]. rewrite K10. destruct K9 as [[_ [KS KO]] KB].
    apply (NamesProofs.names_ok _ None (kinds_of l) (foreign l)); [unfold NamesProofs.suits; rewrite KO; eapply links_are_fair; eassumption|apply NamesProofs.mapped_known; assumption|destruct (map NamesProofs.name_obj (names_of l)); cbn [XlNames.check_scopes]; rewrite KO; reflexivity|assumption]. }
  destruct NE as (nm & NE). rewrite NE. cbn [bind].
  destruct (b_encoding (xf_epilogue b)).
  - exists (xf_epilogue b), (date_of b). repeat (split; [assumption || reflexivity|]). exact TT.
  - destruct (derive_ok (xf_epilogue b) K1) as (c & e & U & D). rewrite D.
    eexists _, (date_of b). split; [reflexivity|]. cbn [b_sheets b_datemode b_countries b_strings b_types]. repeat (split; [assumption || reflexivity|]). exact TT.
Qed.

Lemma opened_ok country W mem base : good_workbook country W -> stored_at W mem base ->
  exists date shs, opened mem base = Ok (mkbook (map fst (tabs (wb_globals W))) shs (datemode_of (wb_globals W))) /\
    tells_dates (wb_globals W) date /\
    Forall2 (fun s sh => shows_cells (cells_of (wb_globals W) date s) sh) (wb_sheets W) shs.
Proof.
  intros G [H1 H2]. pose proof G as (GB & GG & _ & _ & GS). apply holds_from in H1. destruct H1 as [post F]. unfold globals_bytes in F. rewrite <- !app_assoc in F.
  destruct (getbof_ok _ _ 0x600 5 _ _ ltac:(unfold word16; lia) GB ltac:(left; reflexivity) F) as (v & B & V & F1).
  destruct (parse_ok country base W mem _ post G F1) as (b & date & P & TD & SH & DM & CO & SS & TT).
  destruct (get_sheets_ok country (wb_globals W) date b mem _ base _ (b_countries b) TT SS CO H2 GS) as (shs & E & A).
  exists date, shs. split; [|split; [exact TD|exact A]].
  unfold opened. rewrite B. cbn [bind]. rewrite V by reflexivity. cbn [Z.eqb Pos.eqb negb]. rewrite P. cbn [bind]. rewrite SH, E. cbn [bind].
  rewrite DM, map_map. reflexivity.
Qed.

(** ** Reading ends *)

Definition ends {A} (r : res A) : Prop := r <> Err NonTermination.
Lemma ends_ok {A} (x : A) : ends (Ok x).
Proof. discriminate. Qed.
Lemma ends_bind {A B} (r : res A) (f : A -> res B) : ends r -> (forall x, r = Ok x -> ends (f x)) -> ends (bind r f).
Proof. intros R F. destruct r as [x|e]; cbn [bind]; [apply F; reflexivity|]. intro H. apply R. congruence. Qed.
Ltac fin :=
  repeat match goal with
  | |- ends (Ok _) => apply ends_ok
  | |- ends (Err _) => discriminate
  | |- ends (bind _ _) => apply ends_bind; [|let x := fresh "x" in let E := fresh "E" in intros x E]
  | |- ends (let (_, _) := ?p in _) => destruct p
  | |- ends (if ?c then _ else _) => destruct c
  | |- ends (match ?c with _ => _ end) => destruct c
  end.

Lemma sized_ends n b : ends (sized n b).
Proof. unfold sized. fin. Qed.
Lemma unpack_u_ends n d p : ends (unpack_u n d p).
Proof. unfold unpack_u. cbv zeta. fin. Qed.
Lemma unpack_i_ends b : ends (unpack_i b).
Proof. unfold unpack_i. fin. Qed.
Lemma unpack_d_ends b : ends (unpack_d b).
Proof. unfold unpack_d. fin. Qed.
Lemma unpack_RK_ends b : ends (unpack_RK b).
Proof. unfold unpack_RK. destruct b; [discriminate|]. cbv zeta. fin; try apply unpack_i_ends; try apply unpack_d_ends. Qed.
Lemma byte_ends d p : ends (Sst.byte_at d p).
Proof. unfold Sst.byte_at. destruct (py_index d p); discriminate. Qed.
Lemma units_ends : forall n b, (length b <= n)%nat -> ends (utf16_units b).
Proof.
  induction n as [|n IH]; intros [|x [|y b]] L; cbn [utf16_units length] in *; try discriminate; try lia.
  apply ends_bind; [apply IH; lia|]. intros. discriminate.
Qed.
Lemma join_ends : forall n l, (length l <= n)%nat -> ends (utf16_join l).
Proof.
  induction n as [|n IH]; intros [|u l] L; cbn [utf16_join length] in *; try discriminate; try lia.
  repeat match goal with
  | |- ends (match ?x with _ => _ end) => destruct x
  end; try discriminate; (apply ends_bind; [apply IH; cbn [length] in *; lia|intros; discriminate]).
Qed.
Lemma utf16_ends b : ends (utf16_le b).
Proof. unfold utf16_le. apply ends_bind; [apply (units_ends (length b)); lia|]. intros l _. apply (join_ends (length l)). lia. Qed.
#[local] Hint Resolve sized_ends unpack_u_ends unpack_i_ends unpack_d_ends unpack_RK_ends byte_ends utf16_ends ends_ok : ends.
Ltac go := fin; auto with ends.

Lemma unicode_ends d p n : ends (unpack_unicode d p n).
Proof. unfold unpack_unicode. cbv zeta. go. Qed.
Lemma unicode_pos_ends d p n : ends (unpack_unicode_update_pos d p n).
Proof. unfold unpack_unicode_update_pos. cbv zeta. go. Qed.
Lemma chars_ends : forall rest data pos options need acc, ends (sst_chars data pos rest options need acc).
Proof.
  induction rest as [|d rest IH]; intros; cbn [sst_chars]; cbv zeta; go.
Qed.
Lemma runs_ends : forall n rd, ends (sst_runs n rd).
Proof. induction n as [|n IH]; intro rd; cbn [sst_runs]; cbv zeta; go. unfold next_record. destruct (rd_rest rd); discriminate. Qed.
#[local] Hint Resolve unicode_ends unicode_pos_ends chars_ends runs_ends : ends.
Lemma sst_string_ends l rd : ends (sst_string l rd).
Proof. unfold sst_string. cbv zeta. go. Qed.
#[local] Hint Resolve sst_string_ends : ends.
Lemma sst_loop_ends : forall n k rd, ends (sst_loop n k rd).
Proof. induction n as [|n IH]; intros; cbn [sst_loop]; go. Qed.
Lemma sst_ends l n : ends (unpack_SST_table l n).
Proof. unfold unpack_SST_table. destruct l; [discriminate|apply sst_loop_ends]. Qed.
#[local] Hint Resolve sst_ends : ends.

(** *** Positions *)
Lemma slice_length {A} (l : list A) a n : length (pyslice l a (a + Z.of_nat n)) = n -> (0 < n)%nat ->
  - Z.of_nat (length l) <= a <= Z.of_nat (length l) - Z.of_nat n.
Proof.
  unfold pyslice, py_bound. cbv zeta. rewrite firstn_length, skipn_length. intros H N.
  destruct (a <? 0) eqn:E1, (a + Z.of_nat n <? 0) eqn:E2; lia.
Qed.
Lemma u16_nonneg k b : 0 <= u16 k b.
Proof.
  unfold u16. induction (bytes_at k 2 b) as [|x l IH]; cbn [le_value]; lia.
Qed.
Lemma get_record_inv mem pos code len data pos' : get_record mem pos = Ok (code, len, data, pos') ->
  - size mem <= pos <= size mem - 4 /\ pos + 4 <= pos'.
Proof.
  unfold get_record. cbv zeta. destruct (sized 4 (pyslice mem pos (pos + 4))) eqn:E; [|discriminate].
  cbn [bind]. intro H. injection H as _ _ _ <-. unfold sized in E. destruct (Nat.eqb_spec (length (pyslice mem pos (pos + 4))) 4) as [L|]; [|discriminate].
  apply (slice_length mem pos 4) in L; [|lia]. pose proof (u16_nonneg 2 (pyslice mem pos (pos + 4))). unfold size. lia.
Qed.
Lemma get_record_ends mem pos : ends (get_record mem pos).
Proof. unfold get_record. cbv zeta. go. Qed.
#[local] Hint Resolve get_record_ends : ends.

(** Fuel is enough for a position. *)
Definition enough (mem : str) (fuel : nat) (pos : Z) : Prop := pos < - size mem \/ size mem - 4 < pos + 4 * Z.of_nat fuel.
Lemma enough_step mem fuel pos pos' : enough mem (S fuel) pos -> - size mem <= pos <= size mem - 4 -> pos + 4 <= pos' -> enough mem fuel pos'.
Proof. unfold enough. lia. Qed.
Lemma enough_first mem pos : enough mem (length mem) pos.
Proof. unfold enough, size. lia. Qed.

Lemma externsheet_ends mem : forall fuel pos have reqd, enough mem fuel pos -> ends (externsheet_loop (S fuel) mem pos have reqd).
Proof.
  induction fuel as [|fuel IH]; intros pos have reqd E.
  - cbn [externsheet_loop]. destruct (reqd <=? Z.of_nat (length have)); [discriminate|]. apply ends_bind; [go|]. intros [[[code len] data] pos'] R.
    apply get_record_inv in R. unfold enough in E. lia.
  - remember (S fuel) as f. cbn [externsheet_loop]. destruct (reqd <=? Z.of_nat (length have)); [discriminate|]. subst f. apply ends_bind; [go|]. intros [[[code len] data] pos'] R.
    destruct (negb (code =? 60)); [discriminate|]. apply IH. apply get_record_inv in R. apply (enough_step mem fuel pos); tauto.
Qed.
Lemma externsheet_pos mem : forall fuel pos have reqd d' p, externsheet_loop fuel mem pos have reqd = Ok (d', p) -> pos <= p.
Proof.
  induction fuel as [|fuel IH]; intros pos have reqd d' p; cbn [externsheet_loop]; destruct (reqd <=? Z.of_nat (length have)).
  - intro H. injection H as _ <-. lia.
  - discriminate.
  - intro H. injection H as _ <-. lia.
  - destruct (get_record mem pos) as [[[[code len] data] pos']|] eqn:R; [|discriminate]. cbn [bind]. destruct (negb (code =? 60)); [discriminate|].
    intro H. apply IH in H. apply get_record_inv in R. lia.
Qed.
Lemma continues_inv mem pos : Nat.eqb (length (pyslice mem pos (pos + 4))) 4 = true -> - size mem <= pos <= size mem - 4.
Proof. intro L. apply Nat.eqb_eq in L. apply (slice_length mem pos 4) in L; [|lia]. unfold size. lia. Qed.
Lemma continues_ends mem : forall fuel pos, enough mem fuel pos -> ends (continues (S fuel) mem pos).
Proof.
  induction fuel as [|fuel IH]; intros pos E.
  - cbn [continues]. cbv zeta. unfold sized at 1. destruct (Nat.eqb (length (pyslice mem pos (pos + 4))) 4) eqn:L; [|discriminate].
    apply continues_inv in L. unfold enough in E. lia.
  - remember (S fuel) as f. cbn [continues]. cbv zeta. unfold sized at 1. destruct (Nat.eqb (length (pyslice mem pos (pos + 4))) 4) eqn:L; [|discriminate].
    apply continues_inv in L. cbn [bind]. destruct (negb (u16 0 (pyslice mem pos (pos + 4)) =? 60)); [discriminate|]. subst f.
    apply ends_bind; [|intros [? ?] _; discriminate]. apply IH. pose proof (u16_nonneg 2 (pyslice mem pos (pos + 4))).
    apply (enough_step mem fuel pos); [exact E|exact L|lia].
Qed.
Lemma continues_pos mem : forall fuel pos l p, continues fuel mem pos = Ok (l, p) -> pos <= p.
Proof.
  induction fuel as [|fuel IH]; intros pos l p; cbn [continues]; cbv zeta;
    destruct (sized 4 (pyslice mem pos (pos + 4))); try discriminate; cbn [bind];
    (destruct (negb (u16 0 (pyslice mem pos (pos + 4)) =? 60)); [intro H; injection H as _ <-; lia|]); [discriminate|].
  destruct (continues fuel mem _) as [[l' p']|] eqn:E; [|discriminate]. cbn [bind]. intro H. injection H as _ <-.
  apply IH in E. pose proof (u16_nonneg 2 (pyslice mem pos (pos + 4))). lia.
Qed.
Lemma skip_ends mem : forall fuel pos, enough mem fuel pos -> ends (skip_embedded (S fuel) mem pos).
Proof.
  induction fuel as [|fuel IH]; intros pos E.
  - cbn [skip_embedded]. apply ends_bind; [go|]. intros [[[code len] data] pos'] R. apply get_record_inv in R. unfold enough in E. lia.
  - remember (S fuel) as f. cbn [skip_embedded]. subst f. apply ends_bind; [go|]. intros [[[code len] data] pos'] R. destruct (code =? 10); [discriminate|].
    apply IH. apply get_record_inv in R. apply (enough_step mem fuel pos); tauto.
Qed.
Lemma skip_pos mem : forall fuel pos p, skip_embedded fuel mem pos = Ok p -> pos <= p.
Proof.
  induction fuel as [|fuel IH]; intros pos p; cbn [skip_embedded]; [discriminate|].
  destruct (get_record mem pos) as [[[[code len] data] pos']|] eqn:R; [|discriminate]. apply get_record_inv in R. cbn [bind].
  destruct (code =? 10); intro H; [injection H as <-; lia|apply IH in H; lia].
Qed.
Lemma contents_ends mem : forall fuel data offset expected found pos acc, enough mem fuel pos ->
  ends (string_contents (S fuel) mem data offset expected found pos acc).
Proof.
  induction fuel as [|fuel IH]; intros data offset expected found pos acc E; [|remember (S fuel) as f]; cbn [string_contents]; cbv zeta; try subst f;
    (apply ends_bind; [go|]; intros flag _; apply ends_bind; [go|]; intros chunk _);
    (destruct (_ =? _); [discriminate|]); (destruct (_ <? _); [discriminate|]);
    (apply ends_bind; [go|]; intros [[[code len] data'] pos'] R; apply get_record_inv in R; destruct (negb _); [discriminate|]).
  - unfold enough in E. lia.
  - apply IH. apply (enough_step mem fuel pos); tauto.
Qed.
Lemma contents_pos mem : forall fuel data offset expected found pos acc t p, string_contents fuel mem data offset expected found pos acc = Ok (t, p) -> pos <= p.
Proof.
  induction fuel as [|fuel IH]; intros data offset expected found pos acc t p; cbn [string_contents]; cbv zeta;
    destruct (Sst.byte_at data offset) as [flag|]; try discriminate; cbn [bind];
    destruct (if opt_wide flag then _ else _) as [chunk|]; try discriminate; cbn [bind];
    (destruct (_ =? _); [intro H; injection H as _ <-; lia|]); (destruct (_ <? _); [discriminate|]); [discriminate|].
  destruct (get_record mem pos) as [[[[code len] data'] pos']|] eqn:R; [|discriminate]. apply get_record_inv in R. cbn [bind].
  destruct (negb _); [discriminate|]. intro H. apply IH in H. lia.
Qed.
Lemma formula_string_ends mem pos : ends (formula_string mem pos).
Proof.
  unfold formula_string. apply ends_bind; [go|]. intros [[[rc2 len] data2] pos'] R.
  apply ends_bind; [go|]. intros [d p] _. apply ends_bind; [go|]. intros ? _. apply contents_ends, enough_first.
Qed.
Lemma formula_string_pos mem pos t p : formula_string mem pos = Ok (t, p) -> pos <= p.
Proof.
  unfold formula_string. destruct (get_record mem pos) as [[[[rc2 len] data2] pos']|] eqn:R; [|discriminate]. apply get_record_inv in R. cbn [bind].
  match goal with |- bind ?r _ = _ -> _ => destruct r as [[d p']|] eqn:E; [|discriminate] end. cbn [bind].
  destruct (sized 2 (bytes_at 0 2 d)); [|discriminate]. cbn [bind]. intro H. apply contents_pos in H.
  enough (pos' <= p') by lia. destruct ((rc2 =? 519) || (rc2 =? 7)); [injection E as _ <-; lia|].
  match type of E with bind ?r _ = _ => destruct r; [|discriminate] end. cbn [bind] in E.
  destruct (get_record mem pos') as [[[[rc3 len3] data3] pos3]|] eqn:R3; [|discriminate]. apply get_record_inv in R3. cbn [bind] in E.
  destruct ((rc3 =? 519) || (rc3 =? 7)); [injection E as _ <-; lia|discriminate].
Qed.

(** *** The globals *)
Lemma derive_ends b : ends (derive_encoding b).
Proof. unfold derive_encoding. cbv zeta. go. Qed.
#[local] Hint Resolve derive_ends : ends.
Lemma country_ends d c : ends (handle_country d c).
Proof. unfold handle_country. cbv zeta. go. Qed.
Lemma names_ends : forall n d p, ends (supbook_names n d p).
Proof.
  induction n as [|n IH]; intros d p; cbn [supbook_names]; [discriminate|]. pose proof (unicode_pos_ends d p 2) as H.
  destruct (unpack_unicode_update_pos d p 2) as [[? ?]|e]; [apply IH|]. destruct e; try discriminate. exfalso. apply H. reflexivity.
Qed.
#[local] Hint Resolve country_ends names_ends : ends.
Lemma access_ends d : ends (handle_writeaccess d).
Proof.
  unfold handle_writeaccess. pose proof (unicode_ends d 0 2) as H. destruct (unpack_unicode d 0 2) as [?|e]; [discriminate|].
  destruct e; try discriminate; [go|]. exfalso. apply H. reflexivity.
Qed.
#[local] Hint Resolve access_ends : ends.
Lemma known_ends d p n : ends (XlNames.unpack_known d p n).
Proof. unfold XlNames.unpack_known. cbv zeta. go. Qed.
#[local] Hint Resolve known_ends : ends.
Lemma new_name_ends d : ends (XlNames.new_name d).
Proof. unfold XlNames.new_name. go. Qed.
#[local] Hint Resolve new_name_ends : ends.
Lemma no_bare_ends : forall l, ends (XlNames.no_bare l).
Proof. induction l as [|x l IH]; cbn [XlNames.no_bare]; [discriminate|]. apply ends_bind; [destruct x; discriminate|]. intros. exact IH. Qed.
Lemma operand_ends x : ends (XlNames.the_operand x).
Proof. destruct x; discriminate. Qed.
Lemma float_ends t : ends (float_of_str t).
Proof. unfold float_of_str, float_body. cbv zeta. go. Qed.
Lemma one_area_ends v : ends (XlNames.one_area v).
Proof. unfold XlNames.one_area, XlNames.areas. go. Qed.
Lemma float_text_ends t : ends (float_of_text t).
Proof. apply float_ends. Qed.
#[local] Hint Resolve no_bare_ends operand_ends float_ends float_text_ends one_area_ends : ends.
Lemma number_arg_ends k v : ends (XlNames.number_arg k v).
Proof. unfold XlNames.number_arg. destruct k; try discriminate; destruct v; try discriminate. apply ends_bind; [apply float_text_ends|discriminate]. Qed.
Lemma pynum_float_ends x : ends (pynum_float x).
Proof. unfold pynum_float. go. Qed.
Lemma int_divide_ends x y : ends (XlNames.int_divide x y).
Proof. unfold XlNames.int_divide. go. Qed.
Lemma divide_ends x y : ends (XlNames.py_divide x y).
Proof. unfold XlNames.py_divide. go. Qed.
#[local] Hint Resolve number_arg_ends pynum_float_ends int_divide_ends divide_ends : ends.
Lemma arith_ends op x y : ends (XlNames.arith op x y).
Proof. unfold XlNames.arith. go. Qed.
Lemma unary_ends op x : ends (XlNames.unary op x).
Proof. unfold XlNames.unary. go. Qed.
#[local] Hint Resolve arith_ends unary_ends : ends.
Lemma binop_value_ends op ka a kb b : ends (XlNames.binop_value op ka a kb b).
Proof. unfold XlNames.binop_value. go. Qed.
#[local] Hint Resolve binop_value_ends : ends.
Lemma binop_ends op st : ends (XlNames.do_binop op st).
Proof. unfold XlNames.do_binop. destruct st as [|? [|? ?]]; try discriminate. go. Qed.
Lemma unaryop_ends op st : ends (XlNames.do_unaryop op st).
Proof. unfold XlNames.do_unaryop. go. Qed.
Lemma ranges_ends bare st : ends (XlNames.do_ranges bare st).
Proof. unfold XlNames.do_ranges. destruct st as [|? [|? ?]]; try discriminate. go. Qed.
Lemma list_ends st : ends (XlNames.do_list st).
Proof. unfold XlNames.do_list, XlNames.areas. destruct st as [|? [|? ?]]; try discriminate. go. Qed.
Lemma func_ends f st : ends (XlNames.do_func f st).
Proof. unfold XlNames.do_func. go. Qed.
Lemma from_top_ends n st : ends (XlNames.from_top n st).
Proof. unfold XlNames.from_top. go. Qed.
Lemma int_of_float_ends f : ends (int_of_float f).
Proof. unfold int_of_float. go. Qed.
Lemma py_int_ends x : ends (py_int x).
Proof. destruct x; [discriminate|apply int_of_float_ends]. Qed.
#[local] Hint Resolve binop_ends unaryop_ends ranges_ends list_ends func_ends from_top_ends py_int_ends : ends.
Lemma if_ends n st : ends (XlNames.if_result n st).
Proof. unfold XlNames.if_result. go. Qed.
Lemma choose_ends n st : ends (XlNames.choose_result n st).
Proof. unfold XlNames.choose_result. go. Qed.
#[local] Hint Resolve if_ends choose_ends : ends.
Lemma funcvar_ends n f st : ends (XlNames.do_funcvar n f st).
Proof. unfold XlNames.do_funcvar. go. Qed.
Lemma local_range_ends bk r : ends (XlNames.local_range bk r).
Proof. unfold XlNames.local_range. go. Qed.
Lemma cell_addr_ends bk d p : ends (XlNames.cell_addr bk d p).
Proof. unfold XlNames.cell_addr. go. Qed.
Lemma range_addr_ends bk d p : ends (XlNames.range_addr bk d p).
Proof. unfold XlNames.range_addr. go. Qed.
#[local] Hint Resolve funcvar_ends local_range_ends cell_addr_ends range_addr_ends : ends.
(** Reading texts ends. *)
Definition reads_end (bk : XlNames.links) : Prop := forall o, XlNames.l_old bk = Some o -> forall b, ends (XlNames.ol_dec o b).
Lemma text_token_ends bk d p : reads_end bk -> ends (XlNames.text_token bk d p).
Proof.
  intro R. unfold XlNames.text_token. destruct (XlNames.l_old bk) as [o|] eqn:O; [|go].
  apply ends_bind; [go|]. intros n _. apply ends_bind; [apply (R o O)|discriminate].
Qed.
Lemma plain_token_ends bk d p sz op st : reads_end bk -> ends (XlNames.plain_token bk d p sz op st).
Proof. intro R. unfold XlNames.plain_token. cbv zeta. pose proof (fun p => text_token_ends bk d p R) as T. go. Qed.
Lemma ref_sheet_ends bk d p : ends (XlNames.ref_sheet bk d p).
Proof. unfold XlNames.ref_sheet. go. Qed.
Lemma name_place_ends bk d p : match XlNames.name_place bk d p with Ok (_, Some place) => ends place | Ok _ => True | Err e => ends (@Err unit e) end.
Proof.
  unfold XlNames.name_place. destruct (XlNames.l_old bk) as [o|].
  - pose proof (unpack_u_ends 12 d (p + 1)) as U. destruct (unpack_u 12 d (p + 1)) as [?|]; [|intro H; apply U; congruence].
    pose proof (unpack_u_ends 2 d (p + 11)) as U'. cbn [bind]. destruct (unpack_u 2 d (p + 11)) as [?|]; [|intro H; apply U'; congruence].
    cbn [bind]. destruct (_ =? 0); [exact I|]. destruct (_ <? _); [discriminate|]. destruct (nth_error _ _); discriminate.
  - pose proof (unpack_u_ends 2 d (p + 1)) as U. destruct (unpack_u 2 d (p + 1)) as [?|]; [|intro H; apply U; congruence].
    pose proof (unpack_u_ends 2 d (p + 3)) as U'. cbn [bind]. destruct (unpack_u 2 d (p + 3)) as [?|]; [|intro H; apply U'; congruence].
    cbn [bind]. apply local_range_ends.
Qed.
#[local] Hint Resolve ref_sheet_ends : ends.
Lemma name_operand_ends run bk x names : (forall i l, ends (run i l)) -> ends (XlNames.name_operand run bk x names).
Proof. intro R. unfold XlNames.name_operand. cbv zeta. go. Qed.
Lemma class_token_ends run bk self d p op v st names : (forall i l, ends (run i l)) -> ends (XlNames.class_token run bk self d p op v st names).
Proof.
  intro R. unfold XlNames.class_token. cbv zeta.
  assert (NX : ends (do (tgt, place) <- XlNames.name_place bk d p;
    if tgt =? self then Ok (XlNames.Opnd XlNames.oUNK XlNames.NoVal :: st, true, names)
    else match place with
         | None => Ok (XlNames.Opnd XlNames.oUNK XlNames.NoVal :: st, false, names)
         | Some place => do sh <- place;
             if sh <? -1 then Ok (XlNames.Opnd XlNames.oUNK XlNames.NoVal :: st, false, names)
             else do (x, bad, names) <- XlNames.name_operand run bk tgt names; Ok (x :: st, bad, names)
         end)).
  { pose proof (name_place_ends bk d p) as P. destruct (XlNames.name_place bk d p) as [[tgt place]|e]; cbn [bind]; [|intro H; apply P; congruence].
    destruct (tgt =? self); [discriminate|]. destruct place as [place|]; [|discriminate]. apply ends_bind; [exact P|]. intros sh _.
    destruct (sh <? -1); [discriminate|]. apply ends_bind; [apply name_operand_ends; exact R|]. intros [[? ?] ?] _. discriminate. }
  repeat match goal with |- ends (if ?c then _ else _) => destruct c; [first [exact NX|solve [go; apply name_operand_ends; exact R]]|] end; go.
Qed.
Lemma token_ends run bk self d p st names : reads_end bk -> (forall i l, ends (run i l)) -> ends (XlNames.one_token run bk self d p st names).
Proof.
  intros D R. unfold XlNames.one_token. cbv zeta. pose proof (fun sz op st => plain_token_ends bk d p sz op st D) as PT.
  go. apply class_token_ends. exact R.
Qed.
Lemma token_loop_ends run bk self d len : reads_end bk -> (forall i l, ends (run i l)) -> forall fuel p st e names, len - p <= Z.of_nat fuel ->
  ends (XlNames.token_loop fuel run bk self d len p st e names).
Proof.
  intros D R. induction fuel as [|fuel IH]; intros p st e names L; cbn [XlNames.token_loop].
  - replace (negb (p <? len)) with true by lia. discriminate.
  - destruct (negb (p <? len)); [discriminate|]. apply ends_bind; [apply token_ends; assumption|]. intros [[[sz st1] bad] nm1] T.
    apply NamesProofs.token_pos in T. apply IH. lia.
Qed.
Lemma eval_name_ends bk : reads_end bk -> forall depth i names, ends (XlNames.eval_name depth bk i names).
Proof.
  intro D. induction depth as [|d IH]; intros i names; cbn [XlNames.eval_name]; [discriminate|]. destruct (py_index names i); [|discriminate].
  cbv zeta. apply ends_bind; [|intros [[? ?] ?] _; discriminate]. apply token_loop_ends; [exact D|exact IH|lia].
Qed.
Lemma eval_names_ends bk : reads_end bk -> forall l names, ends (XlNames.eval_names l bk names).
Proof.
  intro D. induction l as [|i l IH]; intro names; cbn [XlNames.eval_names]; [discriminate|]. destruct (py_index names i); [|discriminate].
  apply ends_bind; [|intros; apply IH]. destruct (XlNames.n_skip _); [discriminate|]. destruct (XlNames.n_done _); [discriminate|]. apply eval_name_ends. exact D.
Qed.
Lemma check_scopes_ends bk : forall l, ends (XlNames.check_scopes bk l).
Proof.
  induction l as [|n l IH]; cbn [XlNames.check_scopes]; destruct (XlNames.l_old bk); try discriminate.
  destruct (_ =? 0); [exact IH|]. destruct (XlNames.extern_name _ _); [exact IH|discriminate].
Qed.
Lemma names_epilogue_ends bk names : reads_end bk -> ends (XlNames.names_epilogue bk names).
Proof. intro D. unfold XlNames.names_epilogue. apply ends_bind; [apply check_scopes_ends|]. intros _ _. apply eval_names_ends. exact D. Qed.
Lemma global_ends mem base rc data pos b : ends (globals_record mem base rc data pos b).
Proof.
  unfold globals_record, handle_sst, handle_format, handle_xf, handle_boundsheet, handle_datemode, handle_codepage, handle_externname, handle_externsheet, handle_supbook, handle_name.
  cbv zeta.
  repeat match goal with |- ends (if ?c =? ?d then _ else _) => destruct (c =? d) end; go.
  - apply continues_ends, enough_first.
  - apply externsheet_ends, enough_first.
Qed.
Ltac low := repeat match goal with
  | |- (if ?c then _ else _) = Ok _ -> _ => destruct c
  | |- bind ?r _ = _ -> _ => destruct r; [|discriminate]; cbn [bind]
  | |- match ?x with _ => _ end = Ok _ -> _ => destruct x; try discriminate
  | |- Ok _ = Ok _ -> _ => let H := fresh in intro H; injection H as _ <-; lia
  | |- Err _ = Ok _ -> _ => discriminate
  end.
Lemma global_pos mem base rc data pos b b' p : globals_record mem base rc data pos b = Ok (b', p) -> pos <= p.
Proof.
  unfold globals_record. cbv zeta. destruct (rc =? 252).
  { unfold handle_sst. destruct (unpack_i _); [|discriminate]. cbn [bind]. destruct (continues _ _ _) as [[l p']|] eqn:E; [|discriminate]. cbn [bind].
    destruct (unpack_SST_table _ _) as [[? ?]|]; [|discriminate]. cbn [bind]. intro H. injection H as _ <-. apply continues_pos in E. exact E. }
  do 7 (match goal with |- (if ?c then _ else _) = Ok _ -> _ => destruct c; [low|] end).
  destruct (rc =? 23).
  { unfold handle_externsheet. destruct (derive_encoding b); [|discriminate]. cbn [bind]. destruct (sized _ _); [|discriminate]. cbn [bind].
    destruct (externsheet_loop _ _ _ _ _) as [[d' q]|] eqn:E; [|discriminate]. cbn [bind]. intro H. injection H as _ <-. apply externsheet_pos in E. exact E. }
  low.
Qed.
Lemma derive_links b b' : derive_encoding b = Ok b' -> b_links b' = b_links b.
Proof.
  unfold derive_encoding. cbv zeta. destruct (b_codepage b) as [c|]; [|intro H; injection H as <-; reflexivity].
  repeat match goal with |- (if ?c then _ else _) = Ok _ -> _ => destruct c end; intro H; try discriminate H; injection H as <-; reflexivity.
Qed.
Ltac none := repeat match goal with
  | H : derive_encoding _ = Ok _ |- _ => apply derive_links in H
  | H : Err _ = Ok _ |- _ => discriminate H
  | H : Ok _ = Ok _ |- _ => injection H as H; try (match type of H with _ = (_, _) => fail 1 | _ => idtac end); subst
  | H : bind ?r _ = Ok _ |- _ => let E := fresh in destruct r eqn:E; [|discriminate H]; cbn [bind] in H
  | H : (if ?c then _ else _) = Ok _ |- _ => destruct c
  | H : match ?x with _ => _ end = Ok _ |- _ => destruct x
  end.
Lemma global_old mem base rc data pos b b' p : globals_record mem base rc data pos b = Ok (b', p) ->
  XlNames.l_old (b_links b) = None -> XlNames.l_old (b_links b') = None.
Proof.
  intros G O.
  unfold globals_record, handle_sst, handle_format, handle_xf, handle_boundsheet, handle_datemode, handle_codepage, handle_externname, handle_externsheet, handle_supbook, handle_name in G.
  cbv zeta in G. none; cbn [with_links b_links XlNames.l_old] in *; congruence.
Qed.
Lemma parse_ends mem base : forall fuel pos b, XlNames.l_old (b_links b) = None -> enough mem fuel pos -> ends (parse_globals (S fuel) mem base pos b).
Proof.
  induction fuel as [|fuel IH]; intros pos b O E; [|remember (S fuel) as f]; cbn [parse_globals]; try subst f;
    (apply ends_bind; [go|]; intros [[[code len] data'] pos'] R; apply get_record_inv in R;
     destruct (code =? 10); [apply ends_bind; [apply names_epilogue_ends; intros o H; cbn in H; congruence|intros ? _; go]|]);
    (apply ends_bind; [apply global_ends|]; intros [b' p] G; pose proof (global_old _ _ _ _ _ _ _ _ G O) as O'; apply global_pos in G).
  - unfold enough in E. lia.
  - apply IH; [exact O'|]. apply (enough_step mem fuel pos); [exact E|tauto|lia].
Qed.

(** *** Sheets *)
Lemma set_ends {A} (l : list A) i x : ends (py_set l i x).
Proof. unfold py_set. cbv zeta. go. Qed.
Lemma cell_set_ends {A} (g : list (list A)) r c x : ends (cell_set g r c x).
Proof. unfold cell_set. destruct (py_index g r); [|discriminate]. apply ends_bind; intros; apply set_ends. Qed.
Lemma store_ends su g r c t v x : ends (snd (store su g r c t v x)).
Proof.
  unfold store. pose proof (cell_set_ends (g_types g) r c t) as H1. destruct (cell_set (g_types g) r c t) as [ts|e]; [|cbn [snd]; intro H; apply H1; congruence].
  cbv zeta. cbn [g_values g_xfs]. pose proof (cell_set_ends (g_values g) r c v) as H2. destruct (cell_set (g_values g) r c v) as [vs|e]; [|cbn [snd]; intro H; apply H2; congruence].
  destruct (su_fmt su); [|discriminate].
  pose proof (cell_set_ends (g_xfs g) r c x) as H3. destruct (cell_set (g_xfs g) r c x) as [xs|e]; [discriminate|cbn [snd]; intro H; apply H3; congruence].
Qed.
Lemma put_ends b p st : ends (put1 (sheet_setup b) p st).
Proof.
  unfold put1. assert (H : ends (snd (put_cell (sheet_setup b) (pt_row p) (pt_col p) (pt_type p) (pt_value p) (pt_xf p) (r_grid st)))).
  { unfold put_cell. cbn [su_ragged sheet_setup]. unfold put_cell_unragged. unfold cell_type_in. cbv zeta.
    destruct (match pt_type p with Some t => Ok t | None => _ end) as [t|e] eqn:E.
    - destruct (store _ (r_grid st) _ _ _ _ _) as [g [[]|e]]; [discriminate|].
      destruct (negb _); [discriminate|]. destruct (negb _); [discriminate|]. apply store_ends.
    - destruct (pt_type p); [discriminate|]. destruct (dget _ _); [discriminate|]. injection E as <-. discriminate. }
  destruct (put_cell _ _ _ _ _ _ _) as [g [u|e]]; [discriminate|]. cbn [snd] in H. intro X. apply H. congruence.
Qed.
#[local] Hint Resolve put_ends : ends.
Lemma mulrk_ends b data row : forall cols pos st, ends (mulrk_loop (sheet_setup b) data pos row cols st).
Proof. induction cols as [|c cols IH]; intros pos st; cbn [mulrk_loop]; go. Qed.
Lemma rstring_ends data : forall n pos, ends (rstring_runs n data pos).
Proof. induction n as [|n IH]; intro pos; cbn [rstring_runs]; go. Qed.
Lemma addresses_ends data : forall n pos, ends (address_loop n data pos).
Proof. induction n as [|n IH]; intro pos; cbn [address_loop]; go. Qed.
#[local] Hint Resolve mulrk_ends rstring_ends addresses_ends formula_string_ends : ends.
Lemma address_list_ends data pos : ends (address_list data pos).
Proof. unfold address_list. go. Qed.
#[local] Hint Resolve address_list_ends : ends.
Lemma formula_ends b mem data pos st : ends (formula_record (sheet_setup b) mem data pos st).
Proof. unfold formula_record. cbv zeta. go. Qed.
#[local] Hint Resolve formula_ends : ends.
Lemma nul_text_ends data ofs : ends (XlObjects.nul_text data ofs).
Proof. unfold XlObjects.nul_text, XlObjects.unpack_l. cbv zeta. go. Qed.
Lemma url_ends data ofs : ends (XlObjects.url_moniker data ofs).
Proof. unfold XlObjects.url_moniker, XlObjects.unpack_l. cbv zeta. go. Qed.
Lemma file_ends data ofs : ends (XlObjects.file_moniker data ofs).
Proof. unfold XlObjects.file_moniker, XlObjects.unpack_at. cbv zeta. go. Qed.
#[local] Hint Resolve nul_text_ends url_ends file_ends : ends.
Lemma hlink_ends data : ends (XlObjects.handle_hlink data).
Proof. unfold XlObjects.handle_hlink. cbv zeta. go. Qed.
Lemma quicktip_ends data last : ends (XlObjects.handle_quicktip data last).
Proof. unfold XlObjects.handle_quicktip. cbv zeta. destruct last as [[[[a b] c] d]|]; go. Qed.
Lemma obj_ends data : ends (XlObjects.handle_obj data).
Proof.
  unfold XlObjects.handle_obj. destruct data as [|x data']; [discriminate|]. set (data := x :: data').
  apply ends_bind; [go|]. intros ft _. apply ends_bind; [go|]. intros cb _. destruct (negb _); [discriminate|]. destruct (negb _); [discriminate|].
  apply ObjectsProofs.obj_loop_ends. unfold size. lia.
Qed.
Lemma note_ends data : ends (XlObjects.handle_note data).
Proof. unfold XlObjects.handle_note. cbv zeta. go. Qed.
Lemma txo_text_ends mem : forall fuel pos tot n, enough mem fuel pos -> ends (txo_text (S fuel) mem pos tot n).
Proof.
  induction fuel as [|fuel IH]; intros pos tot n E; [|remember (S fuel) as f]; cbn [txo_text]; cbv zeta; try subst f;
    (destruct (negb _); [discriminate|]); (apply ends_bind; [go|]; intros [[[code len] data] pos'] R; apply get_record_inv in R).
  - unfold enough in E. lia.
  - destruct (negb _); [discriminate|]. apply ends_bind; [go|]. intros nb _. apply ends_bind; [go|]. intros k _.
    apply ends_bind; [go|]. intros [t e] _. destruct (_ =? _); [|discriminate]. apply IH. apply (enough_step mem fuel pos); tauto.
Qed.
Lemma txo_runs_ends mem : forall fuel pos tot n, enough mem fuel pos -> ends (txo_runs (S fuel) mem pos tot n).
Proof.
  induction fuel as [|fuel IH]; intros pos tot n E; [|remember (S fuel) as f]; cbn [txo_runs]; cbv zeta; try subst f;
    (destruct (negb _); [discriminate|]); (apply ends_bind; [go|]; intros [[[code len] data] pos'] R; apply get_record_inv in R).
  - unfold enough in E. lia.
  - destruct (negb _); [discriminate|]. destruct (negb _); [discriminate|]. destruct (negb _); [discriminate|].
    apply IH. apply (enough_step mem fuel pos); tauto.
Qed.
Lemma txo_ends mem data pos : ends (handle_txo mem data pos).
Proof.
  unfold handle_txo. apply ends_bind; [go|]. intros _ _. apply ends_bind; [apply txo_text_ends, enough_first|].
  intros p _. apply txo_runs_ends, enough_first.
Qed.
#[local] Hint Resolve hlink_ends quicktip_ends obj_ends note_ends txo_ends : ends.
Lemma txo_text_pos mem : forall fuel pos tot n p, txo_text fuel mem pos tot n = Ok p -> pos <= p.
Proof.
  induction fuel as [|fuel IH]; intros pos tot n p; cbn [txo_text]; cbv zeta; (destruct (negb _); [intro H; injection H as <-; lia|]); [discriminate|].
  destruct (get_record mem pos) as [[[[code len] data] pos']|] eqn:R; [|discriminate]. apply get_record_inv in R. cbn [bind].
  destruct (negb _); [discriminate|]. destruct (byte_at _ _); [|discriminate]. cbn [bind].
  match goal with |- bind ?x _ = _ -> _ => destruct x; [|discriminate] end. cbn [bind].
  destruct (XlNames.unpack_known _ _ _) as [[t e]|]; [|discriminate]. cbn [bind]. destruct (_ =? _); [|discriminate]. intro H. apply IH in H. lia.
Qed.
Lemma txo_runs_pos mem : forall fuel pos tot n p, txo_runs fuel mem pos tot n = Ok p -> pos <= p.
Proof.
  induction fuel as [|fuel IH]; intros pos tot n p; cbn [txo_runs]; cbv zeta; (destruct (negb _); [intro H; injection H as <-; lia|]); [discriminate|].
  destruct (get_record mem pos) as [[[[code len] data] pos']|] eqn:R; [|discriminate]. apply get_record_inv in R. cbn [bind].
  destruct (negb _); [discriminate|]. destruct (negb _); [discriminate|]. destruct (negb _); [discriminate|]. intro H. apply IH in H. lia.
Qed.
Lemma txo_pos mem data pos p : handle_txo mem data pos = Ok p -> pos <= p.
Proof.
  unfold handle_txo. destruct (sized _ _); [|discriminate]. cbn [bind]. destruct (txo_text _ _ _ _ _) as [q|] eqn:E; [|discriminate]. cbn [bind].
  apply txo_text_pos in E. intro H. apply txo_runs_pos in H. lia.
Qed.
Lemma record_ends b mem strings rc len data pos st : ends (sheet_record (sheet_setup b) mem strings rc len data pos st).
Proof.
  unfold sheet_record. cbv zeta.
  repeat match goal with |- ends (if rc =? ?d then _ else _) => destruct (rc =? d) end; go.
  apply skip_ends, enough_first.
Qed.
Lemma formula_pos su mem data pos st st' p : formula_record su mem data pos st = Ok (st', p) -> pos <= p.
Proof.
  unfold formula_record. cbv zeta. destruct (sized _ _); [|discriminate]. cbn [bind]. destruct (str_eqb _ _); [|low].
  destruct (_ =? 0); [|low]. destruct (formula_string mem pos) as [[t q]|] eqn:E; [|discriminate]. cbn [bind]. apply formula_string_pos in E. low.
Qed.
Lemma record_pos su mem strings rc len data pos st st' p : sheet_record su mem strings rc len data pos st = Ok (st', p) -> pos <= p.
Proof.
  unfold sheet_record. cbv zeta.
  do 6 (match goal with |- (if ?c then _ else _) = Ok _ -> _ => destruct c; [low|] end).
  match goal with |- (if ?c then _ else _) = Ok _ -> _ => destruct c; [apply formula_pos|] end.
  do 6 (match goal with |- (if ?c then _ else _) = Ok _ -> _ => destruct c; [low|] end).
  match goal with |- (if ?c then _ else _) = Ok _ -> _ => destruct c end.
  { destruct (handle_txo _ _ _) eqn:E; [|discriminate]. cbn [bind]. apply txo_pos in E. destruct (r_drawn st); [|discriminate].
    intro H. injection H as _ <-. exact E. }
  match goal with |- (if ?c then _ else _) = Ok _ -> _ => destruct c; [low|] end.
  match goal with |- (if ?c then _ else _) = Ok _ -> _ => destruct c end.
  { destruct (sized _ _); [|discriminate]. cbn [bind]. destruct (skip_embedded _ _ _) eqn:E; [|discriminate]. cbn [bind]. apply skip_pos in E.
    intro H. injection H as _ <-. exact E. }
  low.
Qed.
Lemma read_ends b mem strings : forall fuel pos st, enough mem fuel pos -> ends (read_loop (S fuel) (sheet_setup b) mem strings pos st).
Proof.
  induction fuel as [|fuel IH]; intros pos st E; [|remember (S fuel) as f]; cbn [read_loop]; try subst f;
    (apply ends_bind; [go|]; intros [[[code len] data'] pos'] R; apply get_record_inv in R; destruct (code =? 10); [go|]);
    (apply ends_bind; [apply record_ends|]; intros [b' p] G; apply record_pos in G).
  - unfold enough in E. lia.
  - apply IH. apply (enough_step mem fuel pos); [exact E|tauto|lia].
Qed.
Lemma read_sheet_ends b mem pos c : ends (read_sheet b mem pos c).
Proof.
  unfold read_sheet. cbv zeta. apply ends_bind; [apply read_ends, enough_first|]. intros st _. discriminate.
Qed.
Lemma getbof_ends mem pos rqd : ends (getbof mem pos rqd).
Proof. unfold getbof. cbv zeta. go. Qed.
#[local] Hint Resolve read_sheet_ends getbof_ends : ends.
Lemma sheets_ends b mem : forall l c, ends (get_sheets b mem l c).
Proof. induction l as [|[n p] l IH]; intro c; cbn [get_sheets]; go. Qed.
Lemma opened_ends mem base : ends (opened mem base).
Proof.
  unfold opened. apply ends_bind; [go|]. intros [v p] _. fin; try apply sheets_ends. apply parse_ends; [reflexivity|apply enough_first].
Qed.
