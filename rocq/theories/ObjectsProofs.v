(** * Lemmas about XlObjects.v *)

From Coq Require Import ZifyBool ZifyNat ZifyN.
From Verif Require Import PyBase PyBaseFacts PyFloat Dbf SpecDbf DbfProofs XlStruct CompDoc SpecCompDoc CompDocProofs SpecDoc DocProofs SpecSst Sst SstProofs SstThms
  SpecBytes BytesProofs XlObjects SpecObjects.
From Verif Require XlNames NamesProofs.
Import NamesProofs(from_byte, from_unpack, from_any, from_word, size_cons).
Open Scope nat_scope.
Open Scope Z_scope.

(** ** Texts *)

Lemma wide_text s : good_wide s -> utf16_le (wide s) = Ok s.
Proof. apply utf16_le_bytes. Qed.
Lemma wide_size s : size (wide s) = 2 * unit_count s.
Proof. unfold wide, size. rewrite stretch_length. reflexivity. Qed.
Lemma wide_app a b : wide (a ++ b) = wide a ++ wide b.
Proof. unfold wide, stretch_bytes. cbn [fst snd]. rewrite !flat_map_app. reflexivity. Qed.
Lemma good_wide_zero s : good_wide s -> good_wide (s ++ [0%N]).
Proof. intro G. apply Forall_app. split; [exact G|]. constructor; [left; lia|constructor]. Qed.

Lemma nul_text_ok data pos s rest : good_wide s -> size data < 2 ^ 16 -> from data pos (counted s ++ rest) ->
  nul_text data pos = Ok (pos + size (counted s)) /\ from data (pos + size (counted s)) rest.
Proof.
  intros G B F. split; [|apply from_next; exact F].
  pose proof (from_length _ _ _ F) as [P L]. rewrite size_app in L. pose proof (size_pos rest).
  unfold counted in *. rewrite size_app, size_bytes, wide_size in L. set (u := unit_count (s ++ [0%N])) in *.
  assert (U : 0 <= u) by apply units_pos. rewrite <- app_assoc in F.
  apply (from_unpack 4) in F; [|change (256 ^ Z.of_nat 4) with (2 ^ 32); lia]. destruct F as [E F].
  unfold nul_text, unpack_l. change 4 with (Z.of_nat 4) at 1. rewrite E. cbn [bind]. change (Z.of_nat 4) with 4 in F.
  rewrite (from_slice _ _ _ _ (u * 2) F) by (rewrite wide_size; fold u; lia).
  rewrite wide_text by (apply good_wide_zero; exact G). cbn [bind]. rewrite size_app, size_bytes, wide_size. fold u. f_equal. lia.
Qed.
Lemma opt_text_ok (b : bool) data pos o rest : b = is_some o -> good_opt o -> size data < 2 ^ 16 -> from data pos (opt_bytes o ++ rest) ->
  (if b then nul_text data pos else Ok pos) = Ok (pos + size (opt_bytes o)) /\ from data (pos + size (opt_bytes o)) rest.
Proof.
  intros -> G B F. destruct o as [s|]; cbn [is_some opt_bytes good_opt] in *; [apply nul_text_ok; assumption|].
  change (size []) with 0. rewrite Z.add_0_r. split; [reflexivity|exact F].
Qed.

(** ** Options *)

Lemma low_bits o : 0 <= o mod 512 < 512.
Proof. apply Z.mod_pos_bound. lia. Qed.
Lemma bit_low o k : 0 <= k < 9 -> bit o k = Z.testbit (o mod 512) k.
Proof. intro K. change 512 with (2 ^ 9). rewrite Z.mod_pow2_bits_low by lia. reflexivity. Qed.
Lemma land_low o m : 0 <= m < 512 -> Z.land o m = Z.land (o mod 512) m.
Proof.
  intro M. apply Z.bits_inj'. intros k K. rewrite !Z.land_spec. destruct (Z_lt_ge_dec k 9) as [L|L].
  - change 512 with (2 ^ 9). rewrite Z.mod_pow2_bits_low by lia. reflexivity.
  - replace (Z.testbit m k) with false; [rewrite !andb_false_r; reflexivity|].
    symmetry. destruct (Z.eq_dec m 0) as [->|N]; [apply Z.testbit_0_l|]. apply Z.bits_above_log2; [lia|].
    assert (Z.log2 m < 9) by (apply Z.log2_lt_pow2; lia). lia.
Qed.
Lemma below_512 (P : Z -> bool) : forallb (fun n => P (Z.of_nat n)) (seq 0 512) = true -> forall o, P (o mod 512) = true.
Proof.
  intros F o. rewrite forallb_forall in F. specialize (F (Z.to_nat (o mod 512))). pose proof (low_bits o).
  rewrite Z2Nat.id in F by lia. apply F. apply in_seq. lia.
Qed.
Lemma has_text o : has o 0x14 = bit o 2 || bit o 4.
Proof.
  unfold has. rewrite land_low by lia. rewrite (bit_low o 2), (bit_low o 4) by lia. apply eqb_prop.
  apply (below_512 (fun x => Bool.eqb (negb (Z.land x 20 =? 0)) (Z.testbit x 2 || Z.testbit x 4))). vm_compute. reflexivity.
Qed.
Lemma has_frame o : has o 0x80 = bit o 7.
Proof.
  unfold has. rewrite land_low by lia. rewrite (bit_low o 7) by lia. apply eqb_prop.
  apply (below_512 (fun x => Bool.eqb (negb (Z.land x 128 =? 0)) (Z.testbit x 7))). vm_compute. reflexivity.
Qed.
Lemma has_target o : has o 1 = bit o 0.
Proof.
  unfold has. rewrite land_low by lia. rewrite (bit_low o 0) by lia. apply eqb_prop.
  apply (below_512 (fun x => Bool.eqb (negb (Z.land x 1 =? 0)) (Z.testbit x 0))). vm_compute. reflexivity.
Qed.
Lemma has_string o : has o 0x100 = bit o 8.
Proof.
  unfold has. rewrite land_low by lia. rewrite (bit_low o 8) by lia. apply eqb_prop.
  apply (below_512 (fun x => Bool.eqb (negb (Z.land x 256 =? 0)) (Z.testbit x 8))). vm_compute. reflexivity.
Qed.
Lemma has_mark o : has o 8 = bit o 3.
Proof.
  unfold has. rewrite land_low by lia. rewrite (bit_low o 3) by lia. apply eqb_prop.
  apply (below_512 (fun x => Bool.eqb (negb (Z.land x 8 =? 0)) (Z.testbit x 3))). vm_compute. reflexivity.
Qed.
Lemma is_share o : (Z.land o 0x163 =? 0x103) = bit o 0 && bit o 1 && bit o 8 && negb (bit o 5) && negb (bit o 6).
Proof.
  rewrite land_low by lia. rewrite (bit_low o 0), (bit_low o 1), (bit_low o 8), (bit_low o 5), (bit_low o 6) by lia. apply eqb_prop.
  apply (below_512 (fun x => Bool.eqb (Z.land x 355 =? 259)
    (Z.testbit x 0 && Z.testbit x 1 && Z.testbit x 8 && negb (Z.testbit x 5) && negb (Z.testbit x 6)))). vm_compute. reflexivity.
Qed.

(** ** Targets *)

Lemma find_first u rest i : Forall (fun c => (0 < c < 65536)%N) u -> find_nul (u ++ 0%N :: rest) i = i + Z.of_nat (length u).
Proof.
  revert i. induction u as [|c u IH]; intros i G; cbn [app find_nul length]; [cbn [N.eqb]; lia|].
  inversion G; subst. replace (c =? 0)%N with false by lia. rewrite IH by assumption. lia.
Qed.
Lemma plain_units u : Forall (fun c => (0 < c < 65536)%N) u -> unit_count u = Z.of_nat (length u).
Proof.
  unfold unit_count, units. cbn [fst snd]. induction 1 as [|c u C _ IH]; [reflexivity|]. cbn [flat_map length]. rewrite app_length.
  unfold utf16 at 1. replace (c <? 65536)%N with true by lia. cbn [length]. lia.
Qed.
Lemma units_app a b : unit_count (a ++ b) = unit_count a + unit_count b.
Proof. unfold unit_count, units. cbn [fst snd]. rewrite flat_map_app, app_length. lia. Qed.

Lemma url_ok data pos u tail rest : good_target (Url u tail) -> size data < 2 ^ 16 ->
  from data pos (le_bytes 4 (size (wide (u ++ [0%N] ++ tail))) ++ wide (u ++ [0%N] ++ tail) ++ rest) ->
  url_moniker data pos = Ok (pos + 4 + size (wide (u ++ [0%N] ++ tail))).
Proof.
  intros (G & NZ & T) B F. pose proof (from_length _ _ _ F) as [P L]. rewrite !size_app, size_bytes in L. pose proof (size_pos rest).
  set (t := u ++ [0%N] ++ tail) in *. pose proof (size_pos (wide t)).
  apply (from_unpack 4) in F; [|change (256 ^ Z.of_nat 4) with (2 ^ 32); lia]. destruct F as [E F].
  unfold url_moniker, unpack_l. change 4 with (Z.of_nat 4) at 1. rewrite E. cbn [bind]. cbv zeta. change (Z.of_nat 4) with 4 in *.
  rewrite (from_slice _ _ _ _ _ F) by reflexivity.
  apply Forall_app in G. destruct G as [GU GT].
  rewrite wide_text by (unfold t; apply Forall_app; split; [exact GU|]; constructor; [left; lia|exact GT]). cbn [bind].
  assert (FN : find_nul t 0 = Z.of_nat (length u)) by (unfold t; cbn [app]; rewrite find_first by exact NZ; reflexivity). rewrite FN.
  assert (S : size (wide t) = 2 * (Z.of_nat (length u) + 1) + size (wide tail)).
  { unfold t. rewrite !wide_size, !units_app. rewrite plain_units by exact NZ. change (unit_count [0%N]) with 1. lia. }
  rewrite S. replace ((_ =? 24) || (_ =? 0)) with true.
  - f_equal. lia.
  - destruct T as [-> |T]; [change (size (wide [])) with 0; symmetry; lia|rewrite T; symmetry; lia].
Qed.

Lemma signed_bytes z : 0 <= z < 2 ^ 31 -> le_signed (le_bytes 4 z) = z.
Proof.
  intro L. unfold le_signed. rewrite le_value_mod, le_bytes_length.
  change (2 ^ (8 * Z.of_nat 4)) with (2 ^ 32). change (256 ^ Z.of_nat 4) with (2 ^ 32).
  rewrite Z.mod_small by lia. replace (2 * z <? 2 ^ 32) with true by lia. reflexivity.
Qed.
Lemma unpack_at_ok data pos z rest : 0 <= z < 2 ^ 31 -> from data pos (le_bytes 4 z ++ rest) ->
  unpack_at data pos = Ok z /\ from data (pos + 4) rest.
Proof.
  intros L F. split; [|apply from_next in F; rewrite size_bytes in F; exact F].
  unfold unpack_at. rewrite (from_slice _ _ _ _ 4 F) by apply size_bytes. unfold unpack_i. rewrite le_bytes_length. cbn [Nat.eqb].
  rewrite signed_bytes by exact L. reflexivity.
Qed.

Lemma path_ok data pos up path version full rest : good_target (Path up path version full) -> size data < 2 ^ 16 ->
  from data pos (skipn 16 (target_bytes (Path up path version full)) ++ rest) ->
  file_moniker data pos = Ok (pos + size (skipn 16 (target_bytes (Path up path version full)))).
Proof.
  intros (W & SV & G) B F. cbn [target_bytes] in *.
  set (t := skipn 16 _) in *. unfold file_id in t. cbn [app skipn] in t. unfold t in *. clear t.
  set (tl := match full with None => le_bytes 4 0 | Some (key, s) => le_bytes 4 (size (wide s) + 6) ++ le_bytes 4 (size (wide s)) ++ key ++ wide s end) in *.
  pose proof (from_length _ _ _ F) as [P L]. rewrite !size_app, !size_bytes in L. pose proof (size_pos rest). pose proof (size_pos path). pose proof (size_pos tl).
  unfold file_moniker.
  assert (F1 : from data pos ((le_bytes 2 up ++ le_bytes 4 (size path)) ++ path ++ version ++ tl ++ rest)) by (rewrite <- !app_assoc in *; exact F).
  rewrite (from_slice _ _ _ _ 6 F1) by reflexivity.
  replace (length (le_bytes 2 up ++ le_bytes 4 (size path))) with 6%nat by reflexivity. cbn [Nat.eqb negb]. cbv zeta.
  change (bytes_at 2 4 (le_bytes 2 up ++ le_bytes 4 (size path))) with (le_bytes 4 (size path)).
  rewrite signed_bytes by lia. apply from_next in F1. change (size (le_bytes 2 up ++ _)) with 6 in F1.
  apply from_next in F1. apply from_next in F1. rewrite SV in F1. rewrite !size_app, SV, !size_bytes. unfold tl in *.
  destruct full as [[key s]|].
  - destruct G as [SK GW]. rewrite !size_app, !size_bytes, SK in *. pose proof (size_pos (wide s)). rewrite <- !app_assoc in F1.
    apply unpack_at_ok in F1; [|lia]. destruct F1 as [E1 F1]. rewrite E1. cbn [bind].
    replace (size (wide s) + 6 =? 0) with false by lia.
    apply unpack_at_ok in F1; [|lia]. destruct F1 as [E2 F1]. rewrite E2. cbn [bind].
    apply from_next in F1. rewrite SK in F1.
    rewrite (from_slice _ _ _ _ _ F1) by reflexivity. rewrite wide_text by exact GW. cbn [bind]. f_equal. lia.
  - rewrite !size_bytes in *. apply unpack_at_ok in F1; [|lia]. destruct F1 as [E1 F1]. rewrite E1. cbn [bind Z.eqb]. f_equal. lia.
Qed.

Lemma target_ok data pos o k rest : good_options o k -> good_target (lk_target k) -> size data < 2 ^ 16 ->
  from data pos (target_bytes (lk_target k) ++ rest) ->
  exists p, (if has o 1 && negb (has o 0x100) then
         let clsid := pyslice data pos (pos + 16) in
         if negb (Nat.eqb (length clsid) 16) then Err StructError
         else
           let offset := pos + 16 in
           if str_eqb clsid url_clsid then url_moniker data offset
           else if str_eqb clsid file_clsid then file_moniker data offset
           else Ok offset
       else if Z.land o 0x163 =? 0x103 then nul_text data pos
       else Ok pos) = Ok p /\ p <= pos + size (target_bytes (lk_target k)) /\
   (lk_mark k <> None -> p = pos + size (target_bytes (lk_target k))).
Proof.
  intros (_ & _ & _ & O) G B F. rewrite has_target, has_string, is_share.
  destruct (lk_target k) as [u tail|up path version full|clsid body|s|].
  - destruct O as [-> ->]. cbn [andb negb target_bytes] in *. rewrite <- !app_assoc in F.
    exists (pos + size (url_id ++ le_bytes 4 (size (wide (u ++ [0%N] ++ tail))) ++ wide (u ++ [0%N] ++ tail))). split; [|split; [lia|reflexivity]].
    cbv zeta. rewrite (from_slice _ _ _ _ 16 F) by reflexivity. change (str_eqb url_id url_clsid) with true. cbn [length url_id Nat.eqb negb].
    apply from_next in F. change (size url_id) with 16 in F. rewrite (url_ok _ _ u tail rest) by assumption. rewrite !size_app, size_bytes.
    change (size url_id) with 16. f_equal. lia.
  - destruct O as [-> ->]. cbn [andb negb]. set (P := Path up path version full) in *.
    assert (T : target_bytes P = file_id ++ skipn 16 (target_bytes P)) by reflexivity.
    assert (SZ : size (target_bytes P) = 16 + size (skipn 16 (target_bytes P))) by (rewrite T at 1; rewrite size_app; reflexivity).
    rewrite T, <- app_assoc in F. clear T. exists (pos + size (target_bytes P)). split; [|split; [lia|reflexivity]].
    cbv zeta. rewrite (from_slice _ _ _ _ 16 F) by reflexivity. change (str_eqb file_id url_clsid) with false. change (str_eqb file_id file_clsid) with true.
    cbn [length file_id Nat.eqb negb]. apply from_next in F. change (size file_id) with 16 in F. 
    rewrite (path_ok _ _ up path version full rest G B F : file_moniker data (pos + 16) = Ok (pos + 16 + size (skipn 16 (target_bytes P)))).
    rewrite SZ. f_equal. lia.
  - destruct O as (-> & -> & M). cbn [andb negb target_bytes good_target] in *. destruct G as (SC & N1 & N2). rewrite <- app_assoc in F.
    exists (pos + 16). rewrite size_app, SC. pose proof (size_pos body). split; [|split; [lia|congruence]].
    cbv zeta. rewrite (from_slice _ _ _ _ 16 F) by exact SC. replace (length clsid) with 16%nat by (unfold size in SC; lia). cbn [Nat.eqb negb].
    replace (str_eqb clsid url_clsid) with false by (symmetry; apply str_eqb_neq; exact N1).
    replace (str_eqb clsid file_clsid) with false by (symmetry; apply str_eqb_neq; exact N2). reflexivity.
  - destruct O as (-> & -> & -> & -> & ->). cbn [andb negb target_bytes good_target] in *.
    exists (pos + size (counted s)). split; [|split; [lia|reflexivity]]. apply nul_text_ok with (rest := rest); assumption.
  - destruct O as (-> & ->). cbn [andb negb target_bytes] in *. exists pos. change (size []) with 0. split; [reflexivity|]. split; [lia|intros; lia].
Qed.

Lemma area_size a : size (area_bytes a) = 8.
Proof. destruct a as [[[r1 r2] c1] c2]. reflexivity. Qed.

Lemma hlink_ok k : good_link k -> handle_hlink (link_bytes k) = Ok (lk_area k).
Proof.
  intros (GA & LO & GO & GT & GF & GG & GM & B). pose proof GO as (O1 & O2 & O3 & _). unfold handle_hlink.
  set (data := link_bytes k) in *.
  assert (F : from data 0 (link_bytes k)) by (exists []; split; reflexivity). unfold link_bytes in F.
  set (R := opt_bytes (lk_text k) ++ _) in F.
  assert (HD : bytes_at 0 32 data = area_bytes (lk_area k) ++ link_id ++ [2; 0; 0; 0]%N ++ le_bytes 4 (lk_options k)).
  { unfold data, link_bytes. fold R. destruct (lk_area k) as [[[r1 r2] c1] c2]. reflexivity. }
  rewrite HD. cbv zeta.
  assert (F32 : from data 32 R).
  { do 4 apply from_next in F. rewrite area_size, size_bytes in F. exact F. }
  unfold R in F32. clear F.
  destruct (opt_text_ok (has (lk_options k) 0x14) data 32 (lk_text k) _ ltac:(rewrite has_text; exact O1) GT B F32) as [E1 F1].
  destruct (opt_text_ok (has (lk_options k) 0x80) data _ (lk_frame k) _ ltac:(rewrite has_frame; exact O3) GF B F1) as [E2 F2].
  destruct (target_ok data _ (lk_options k) k _ GO GG B F2) as (p & E3 & LE & MK). cbv zeta in E3.
  pose proof (from_next _ _ _ _ F2) as F3.
  assert (E4 : exists q, (if has (lk_options k) 8 then nul_text data p else Ok p) = Ok q /\ q <= size data).
  { apply from_length in F3. destruct F3 as [Q0 Q1]. rewrite has_mark, O2. destruct (lk_mark k) as [s|] eqn:M; cbn [is_some].
    - rewrite MK by discriminate. eexists. split; [apply (nul_text_ok data _ s (lk_extra k) GM B)|].
      + apply from_next in F2. exact F2.
      + rewrite size_app in Q1. cbn [opt_bytes] in Q1. pose proof (size_pos (lk_extra k)). lia.
    - exists p. split; [reflexivity|]. rewrite size_app in Q1. pose proof (size_pos (opt_bytes None)). pose proof (size_pos (lk_extra k)). lia. }
  destruct E4 as (q & E4 & Q). 
  destruct (lk_area k) as [[[r1 r2] c1] c2].
  set (head := area_bytes _ ++ _) in *.
  change (length head) with 32%nat. cbn [Nat.eqb negb].
  change (bytes_at 8 16 head) with link_id. change (str_eqb link_id link_guid) with true. cbn [negb].
  change (bytes_at 24 4 head) with [2; 0; 0; 0]%N. change (str_eqb [2; 0; 0; 0]%N [2; 0; 0; 0]%N) with true. cbn [negb].
  change (bytes_at 28 4 head) with (le_bytes 4 (lk_options k)).
  rewrite le_value_bytes by (change (256 ^ Z.of_nat 4) with (2 ^ 32); exact LO).
  rewrite E1. cbn [bind]. rewrite E2. cbn [bind]. rewrite E3. cbn [bind]. rewrite E4. cbn [bind].
  fold (size data). replace (size data - q <? 0) with false by lia.
  change (bytes_at 0 2 head) with (le_bytes 2 r1). change (bytes_at 2 2 head) with (le_bytes 2 r2).
  change (bytes_at 4 2 head) with (le_bytes 2 c1). change (bytes_at 6 2 head) with (le_bytes 2 c2).
  destruct GA as (A1 & A2 & A3 & A4). rewrite !le_value_bytes by assumption. reflexivity.
Qed.

Lemma pyslice_end a b : size b = 2 -> pyslice (a ++ b) (-2) (Z.of_nat (length (a ++ b))) = b.
Proof.
  intro S. unfold pyslice, py_bound. cbv zeta. pose proof (size_app a b) as L. unfold size in *.
  replace (-2 <? 0) with true by lia. replace (Z.of_nat (length (a ++ b)) <? 0) with false by lia.
  replace (Z.to_nat (Z.max 0 (-2 + Z.of_nat (length (a ++ b))))) with (length a) by lia.
  rewrite skipn_app, skipn_all, Nat.sub_diag. cbn [app skipn]. apply firstn_all2. lia.
Qed.
Lemma tip_ok a s : good_tip a s -> handle_quicktip (tip_bytes a s) (Some a) = Ok tt.
Proof.
  intros (GA & GW & B). unfold handle_quicktip. destruct a as [[[r1 r2] c1] c2]. destruct GA as (A1 & A2 & A3 & A4).
  set (data := tip_bytes _ s) in *. cbv zeta.
  assert (HD : bytes_at 0 10 data = le_bytes 2 0x800 ++ area_bytes (r1, r2, c1, c2)) by reflexivity. rewrite HD.
  set (head := le_bytes 2 0x800 ++ _) in *.
  change (length head) with 10%nat. cbn [Nat.eqb negb]. change (bytes_at 0 2 head) with (le_bytes 2 0x800). change (le_value (le_bytes 2 0x800)) with 0x800.
  rewrite Z.eqb_refl. cbn [negb].
  change (bytes_at 2 2 head) with (le_bytes 2 r1). change (bytes_at 4 2 head) with (le_bytes 2 r2).
  change (bytes_at 6 2 head) with (le_bytes 2 c1). change (bytes_at 8 2 head) with (le_bytes 2 c2).
  rewrite !le_value_bytes by assumption. rewrite !Z.eqb_refl. cbn [andb negb].
  assert (E : data = (head ++ wide s) ++ [0; 0]%N) by (unfold data, head, tip_bytes; rewrite <- !app_assoc; reflexivity).
  pose proof (size_pos (wide s)) as WP.
  assert (SD : size data = 10 + size (wide s) + 2) by (rewrite E, !size_app; reflexivity).
  assert (S1 : pyslice data (-2) (Z.of_nat (length data)) = [0; 0]%N).
  { rewrite E. apply pyslice_end. reflexivity. }
  rewrite S1. change (str_eqb [0; 0]%N [0; 0]%N) with true. cbn [negb].
  assert (S2 : pyslice data 10 (-2) = wide s).
  { unfold pyslice, py_bound. cbv zeta. fold (size data). cbn [Z.ltb Z.compare].
    replace (Z.to_nat (Z.max 0 (-2 + size data) - Z.min 10 (size data))) with (length (wide s)) by (unfold size in *; lia).
    replace (Z.to_nat (Z.min 10 (size data))) with 10%nat by lia.
    rewrite E. change (skipn 10 ((head ++ wide s) ++ [0; 0]%N)) with (wide s ++ [0; 0]%N).
    rewrite firstn_app, firstn_all, Nat.sub_diag. cbn [firstn]. apply app_nil_r. }
  rewrite S2, wide_text by exact GW. reflexivity.
Qed.

(** ** Notes *)
Lemma note_ok head author pad : good_note head author pad -> handle_note (note_bytes head author pad) = Ok tt.
Proof.
  intros (SH & G & U & SP & B). unfold handle_note, note_bytes in *. rewrite !size_app in B. pose proof (size_pos head).
  assert (L8 : length head = 8%nat) by (unfold size in SH; lia).
  assert (E : bytes_at 0 8 (head ++ string_bytes 2 author ++ pad) = head).
  { unfold bytes_at. cbn [skipn]. rewrite firstn_app. rewrite <- L8, firstn_all, Nat.sub_diag. cbn [firstn]. apply app_nil_r. }
  rewrite E, L8. cbn [Nat.eqb negb].
  destruct (C54_unicode_proof 2 head author pad ltac:(auto) G U) as [_ R].
  { destruct G as (_ & _ & _ & _ & _ & _ & G & _). exact G. }
  rewrite L8 in R. change (Z.of_nat 8) with 8 in R. change (Z.of_nat 2) with 2 in R. rewrite R. cbn [bind]. cbv zeta.
  rewrite !app_length, L8. pose proof (size_pos pad). unfold size in *.
  replace ((_ =? 0) || (_ =? 1)) with true by (symmetry; lia). reflexivity.
Qed.

(** ** Drawn objects *)
Lemma all_zero n : forallb (N.eqb 0) (repeat 0%N n) = true.
Proof. induction n; [reflexivity|exact IHn]. Qed.
Lemma obj_loop_ok data filter e : size data < 2 ^ 16 ->
  match e with Zeros n => n = 0%nat \/ (4 <= n)%nat | Arrow rest => filter = true /\ 2 <= size rest end ->
  forall parts pos fuel, Forall good_part parts -> from data pos (flat_map part_bytes parts ++ ending_bytes e) ->
  size data - pos <= Z.of_nat fuel -> obj_loop fuel data pos filter = Ok tt.
Proof.
  intros B GE. induction parts as [|[ft body] parts IH]; intros pos fuel G F L.
  - cbn [flat_map app] in F. pose proof (from_length _ _ _ F) as [P Q]. destruct e as [n|rest]; cbn [ending_bytes] in *.
    + assert (SZ : size (repeat 0%N n) = Z.of_nat n) by (unfold size; rewrite repeat_length; reflexivity). rewrite SZ in Q.
      destruct fuel as [|fuel]; cbn [obj_loop]; fold (size data).
      { replace (pos <? size data) with false by lia. reflexivity. }
      destruct (Z.ltb_spec pos (size data)) as [N|N]; cbn [negb]; [|reflexivity].
      destruct GE as [->|GE]; [lia|].
      assert (RE : repeat 0%N n = le_bytes 2 0 ++ le_bytes 2 0 ++ repeat 0%N (n - 4)).
      { replace n with (4 + (n - 4))%nat at 1 by lia. reflexivity. }
      assert (F0 := F). rewrite RE in F.
      apply from_word in F; [|unfold word16; lia]. destruct F as [E1 F]. apply from_word in F; [|unfold word16; lia]. destruct F as [E2 F].
      rewrite E1. cbn [bind]. rewrite E2. cbn [bind]. cbv zeta. cbn [Z.eqb].
      replace (pyslice data pos (size data)) with (repeat 0%N n); [rewrite all_zero; reflexivity|].
      rewrite Q. symmetry. rewrite <- (app_nil_r (repeat 0%N n)) in F0. apply (from_slice _ _ _ _ _ F0). exact SZ.
    + destruct GE as [-> S2]. rewrite size_app, size_bytes in Q.
      destruct fuel as [|fuel]; cbn [obj_loop]; fold (size data).
      { lia. }
      replace (pos <? size data) with true by lia. cbn [negb].
      apply from_word in F; [|unfold word16; lia]. destruct F as [E1 F]. rewrite E1. cbn [bind].
      assert (E2 : exists cb, unpack_u 2 data (pos + 2) = Ok cb).
      { destruct rest as [|x [|y rest]]; [unfold size in S2; cbn in S2; lia|unfold size in S2; cbn in S2; lia|].
        apply (from_any 2 data (pos + 2) [x; y] rest); [reflexivity|exact F]. }
      destruct E2 as [cb E2]. rewrite E2. cbn [bind]. cbn [Z.eqb Pos.eqb]. reflexivity.
  - inversion G as [|? ? (W & N0 & N15 & NC) G2]; subst. cbn [fst snd] in *. cbn [flat_map] in F. rewrite <- app_assoc in F. unfold part_bytes at 1 in F. cbn [fst snd] in F.
    rewrite <- !app_assoc in F. pose proof (from_length _ _ _ F) as [P Q]. rewrite !size_app, !size_bytes in Q.
    pose proof (size_pos body). set (tl := flat_map part_bytes parts) in *. pose proof (size_pos tl). pose proof (size_pos (ending_bytes e)).
    destruct fuel as [|fuel]; [lia|]. cbn [obj_loop]. fold (size data). replace (pos <? size data) with true by lia. cbn [negb].
    apply from_word in F; [|exact W]. destruct F as [E1 F]. apply from_word in F; [|unfold word16; lia]. destruct F as [E2 F].
    rewrite E1. cbn [bind]. rewrite E2. cbn [bind]. cbv zeta.
    assert (NX : obj_loop fuel data (pos + size body + 4) filter = Ok tt).
    { apply IH; [exact G2| |lia]. apply from_next in F. replace (pos + 2 + 2 + size body) with (pos + size body + 4) in F by lia. exact F. }
    rewrite NX. replace (ft =? 21) with false by lia. replace (ft =? 0) with false by lia.
    destruct (Z.eqb_spec ft 12) as [E12|E12]; [|destruct (ft =? 19); [destruct filter; reflexivity|reflexivity]].
    specialize (NC E12). replace (pos + 18) with (pos + 8 + 10) by lia. rewrite pyslice_nonneg by lia.
    rewrite firstn_length, skipn_length. replace (Nat.min _ _) with 10%nat by (unfold size in *; lia). reflexivity.
Qed.
Lemma has_arrow o : has o 0x100 = bit o 8.
Proof. apply has_string. Qed.
Lemma drawing_ok d : good_drawing d -> handle_obj (drawing_bytes d) = Ok tt.
Proof.
  intros [B G]. unfold handle_obj.
  destruct d as [code rest|kind id flags reserved parts e].
  - destruct G as (W & N & S2). set (data := drawing_bytes _) in *.
    assert (F : from data 0 (le_bytes 2 code ++ rest)) by (exists []; split; reflexivity).
    destruct data as [|x data'] eqn:D; [discriminate D|]. rewrite <- D in *.
    apply from_word in F; [|exact W]. destruct F as [E1 F]. rewrite E1. cbn [bind].
    assert (E2 : exists cb, unpack_u 2 data 2 = Ok cb).
    { destruct rest as [|y [|z rest]]; [unfold size in S2; cbn in S2; lia|unfold size in S2; cbn in S2; lia|].
      apply (from_any 2 data (0 + 2) [y; z] rest); [reflexivity|exact F]. }
    destruct E2 as [cb E2]. rewrite E2. cbn [bind]. replace (code =? 21) with false by lia. reflexivity.
  - destruct G as (WF & SR & GP & GE). set (data := drawing_bytes _) in *.
    assert (F : from data 0 (drawing_bytes (Object kind id flags reserved parts e))) by (exists []; split; reflexivity).
    assert (HD : exists x data', data = x :: data') by (unfold data; cbn [drawing_bytes]; eexists; eexists; reflexivity).
    destruct HD as (x & data' & D). rewrite D. rewrite <- D.
    cbn [drawing_bytes] in F. unfold part_bytes at 1 in F. cbn [fst snd] in F.
    set (cmo := le_bytes 2 kind ++ le_bytes 2 id ++ le_bytes 2 flags ++ reserved) in *.
    assert (SC : size cmo = 18) by (unfold cmo; rewrite !size_app, !size_bytes, SR; reflexivity).
    rewrite SC in F. rewrite <- !app_assoc in F.
    apply from_word in F; [|unfold word16; lia]. destruct F as [E1 F]. apply from_word in F; [|unfold word16; lia]. destruct F as [E2 F].
    rewrite E1. cbn [bind]. change (0 + 2) with 2 in *. rewrite E2. cbn [bind Z.eqb Pos.eqb andb negb].
    apply from_next in F. rewrite SC in F. change (2 + 2 + 18) with 22 in F.
    assert (DL : 22 <= size data) by (apply from_length in F; pose proof (size_pos (flat_map part_bytes parts ++ ending_bytes e)); lia).
    replace (length (bytes_at 4 6 data)) with 6%nat by (unfold bytes_at; rewrite firstn_length, skipn_length; unfold size in DL; lia). cbn [Nat.eqb negb].
    assert (FL : bytes_at 8 2 data = le_bytes 2 flags) by reflexivity. rewrite FL, le_value_bytes by exact WF.
    apply (obj_loop_ok data _ e B) with (parts := parts); [|exact GP|exact F|unfold size; lia].
    rewrite has_arrow. destruct e as [n|rest]; exact GE.
Qed.

(** ** Ends *)
Lemma obj_loop_ends data filter : forall fuel pos, size data - pos <= Z.of_nat fuel -> obj_loop fuel data pos filter <> Err NonTermination.
Proof.
  induction fuel as [|fuel IH]; intros pos L; cbn [obj_loop]; fold (size data).
  - replace (pos <? size data) with false by lia. discriminate.
  - destruct (pos <? size data); cbn [negb]; [|discriminate].
    unfold unpack_u. destruct (_ =? 2); [|discriminate]. cbn [bind]. destruct (_ =? 2) eqn:E; [|discriminate]. cbn [bind]. cbv zeta.
    assert (NX : forall b, 0 <= b -> obj_loop fuel data (pos + b + 4) filter <> Err NonTermination) by (intros b NB; apply IH; lia).
    assert (VP : forall b, 0 <= le_value b) by (intro b; induction b as [|c b IHb]; cbn [le_value]; lia).
    repeat match goal with |- (if ?c then _ else _) <> _ => destruct c end; try discriminate; apply NX, VP.
Qed.
