(** * Strings in workbook records (C54): proofs of the property theorems *)

From Coq Require Import ZifyBool ZifyNat ZifyN QArith.
From Verif Require Import PyBase PyFloat PyBaseFacts Dbf SpecDbf DbfProofs XlStruct CompDoc SpecCompDoc CompDocProofs Sst SpecSst SstProofs.
Open Scope nat_scope.
Open Scope Z_scope.
Open Scope string_scope.
Open Scope list_scope.

(** A rich string of five characters, cut after two, the rest in two bytes a
    unit; then one with cut phonetic data; then an empty one. *)
Definition lo1 : layout :=
  mklayout 8 (false, lit "ab") [(1%N, (true, [8364; 128512]%N)); (0%N, (false, lit "c"))]
    (Some [(true, (0, 5)); (false, (3, 6))]) None.
Definition lo2 : layout := mklayout 5 (true, [12354]%N) [] None (Some (lit "xy", Some (lit "z"))).
Definition lo3 : layout := mklayout 0 (false, []) [] None None.
Definition lo4 : layout := mklayout 13 (true, [12354; 97]%N) [] (Some [(false, (1, 2))]) (Some (lit "xy", None)).

Lemma C54_table_proof :
forall pre l, length pre = 8%nat -> good_table l ->
  unpack_SST_table (records (Bytes pre :: table_tokens l)) (Z.of_nat (length l)) = Ok (texts l, rich 0 l).
Proof.
intros pre l L G.
assert (R : exists data rest, records (Bytes pre :: table_tokens l) = data :: rest /\ at_ (table_tokens l) (mkreader data 8 rest)).
{ destruct (records_cons (Bytes pre :: table_tokens l)) as (d & rs & E). exists d, rs. split; [exact E|].
  assert (A : at_ (Bytes pre :: table_tokens l) (mkreader d 0 rs)).
  { exists d. cbn [rd_data rd_pos rd_rest]. split; [exact E|]. split; [lia|reflexivity]. }
  apply at_bytes in A. rewrite L in A. exact (proj2 A). }
destruct R as (data & rest & R & A). rewrite R. unfold unpack_SST_table. rewrite Nat2Z.id. apply sst_loop_ok; [exact G|]. intros _. exact A.
Qed.

Lemma C54_cuts_proof :
forall pre pre' l l', length pre = 8%nat -> length pre' = 8%nat -> good_table l -> good_table l' ->
  map (fun x => (text (fst x), runs_of (fst x))) l = map (fun x => (text (fst x), runs_of (fst x))) l' ->
  unpack_SST_table (records (Bytes pre :: table_tokens l)) (Z.of_nat (length l))
  = unpack_SST_table (records (Bytes pre' :: table_tokens l')) (Z.of_nat (length l')).
Proof.
intros pre pre' l l' L L' G G' E. rewrite !C54_table_proof by assumption. f_equal. f_equal.
- unfold texts. assert (X : map fst (map (fun x : layout * bool => (text (fst x), runs_of (fst x))) l)
                          = map fst (map (fun x : layout * bool => (text (fst x), runs_of (fst x))) l')) by (rewrite E; reflexivity).
  rewrite !map_map in X. exact X.
- clear L L' G G'. generalize 0. revert l' E. induction l as [|[lo c] l IH]; intros [|[lo' c'] l'] E k; try discriminate E; [reflexivity|].
  cbn [map fst] in E. injection E as E1 E2 E3. cbn [rich]. rewrite E2, (IH l' E3). reflexivity.
Qed.

Lemma runs_length rs : length (flat_map run_bytes rs) = (4 * length rs)%nat.
Proof. induction rs as [|r rs IH]; [reflexivity|]. cbn [flat_map]. rewrite app_length, IH. unfold run_bytes. rewrite app_length, !le_bytes_length. cbn [length]. lia. Qed.
Lemma units_zero s : units s = 0 -> snd s = [].
Proof.
  unfold units. destruct s as [w t]. cbn [fst snd]. destruct t as [|c t]; [reflexivity|]. destruct w; cbn [flat_map length]; [|lia].
  rewrite app_length. unfold utf16 at 1. destruct (c <? 65536)%N; cbn [length]; lia.
Qed.
Lemma wide_read s data pos l rest : good_stretch s -> at_ (Bytes (stretch_bytes s) :: l) (mkreader data pos rest) ->
  (if fst s then utf16_le (pyslice data pos (pos + 2 * units s)) else Ok (pyslice data pos (pos + units s))) = Ok (snd s) /\
  at_ l (mkreader data (pos + (if fst s then 2 * units s else units s)) rest).
Proof.
  intros G A. apply at_bytes in A. rewrite stretch_length in A. destruct A as [A1 A2]. unfold stretch_bytes, good_stretch in *.
  destruct (fst s).
  - rewrite A1. split; [apply utf16_le_bytes; exact G|exact A2].
  - rewrite Z.mul_1_l in *. rewrite A1. split; [reflexivity|exact A2].
Qed.
Lemma at_start l : forall d rs, records l = d :: rs -> at_ l (mkreader d 0 rs).
Proof. intros d rs E. exists d. cbn [rd_data rd_pos rd_rest]. split; [exact E|]. split; [lia|reflexivity]. Qed.

Lemma C54_unicode_proof :
forall n pre lo post, (n = 1 \/ n = 2)%nat -> good_layout lo -> uncut lo -> total_units lo < 256 ^ Z.of_nat n ->
  unpack_unicode (pre ++ string_bytes n lo ++ post) (Z.of_nat (length pre)) (Z.of_nat n) = Ok (text lo) /\
  unpack_unicode_update_pos (pre ++ string_bytes n lo ++ post) (Z.of_nat (length pre)) (Z.of_nat n)
  = Ok (text lo, Z.of_nat (length pre) + Z.of_nat (length (string_bytes n lo))).
Proof.
intros n pre lo post N1 (G0 & G2 & G3 & GF & _ & _ & GU & GR & _ & GP & _) (UM & UR & UP) TU.
set (data := pre ++ string_bytes n lo ++ post).
assert (TE : text lo = snd (lo_first lo)) by (unfold text; rewrite UM; cbn [flat_map]; apply app_nil_r).
assert (TT : total_units lo = units (lo_first lo)) by (unfold total_units; rewrite UM; cbn [map fold_right]; lia).
assert (A : at_ (Bytes pre :: Bytes (string_bytes n lo) :: Bytes post :: []) (mkreader data 0 [])).
{ apply at_start. cbn [records]. rewrite app_nil_r. reflexivity. }
apply at_bytes in A. destruct A as [_ A]. rewrite Z.add_0_l in A. unfold string_bytes in A.
rewrite at_bytes_app in A. apply at_unpack_u in A; [|split; [apply total_units_pos|exact TU]]. destruct A as [H1 A].
rewrite at_bytes_app in A. pose proof (at_room _ _ _ _ _ A) as [Q1 Q2]. apply at_byte in A. destruct A as [H2 A].
rewrite at_bytes_app in A. cbn [length] in Q2.
set (p := Z.of_nat (length pre)) in *. set (pos := p + Z.of_nat n + 1) in *.
assert (LS : Z.of_nat (length (string_bytes n lo)) = Z.of_nat n + 1 + (if is_some (lo_runs lo) then 2 else 0)
   + (if is_some (lo_phonetic lo) then 4 else 0) + Z.of_nat (length (stretch_bytes (lo_first lo)))
   + 4 * Z.of_nat (length (run_list lo)) + phonetic_size lo).
{ unfold string_bytes. rewrite !app_length, le_bytes_length, runs_length. unfold runs_of. rewrite map_length. cbn [length].
  unfold phonetic_size. unfold cut_phonetic in UP. destruct (lo_runs lo), (lo_phonetic lo) as [[a [b|]]|]; try discriminate UP; cbn [is_some];
    rewrite ?le_bytes_length; cbn [length]; lia. }
assert (B1 : exists l1, at_ (Bytes (if is_some (lo_phonetic lo) then le_bytes 4 (phonetic_size lo) else []) ::
     Bytes (stretch_bytes (lo_first lo) ++ l1) :: [Bytes post]) (mkreader data (if is_some (lo_runs lo) then pos + 2 else pos) []) /\
     (if is_some (lo_runs lo) then do rt <- unpack_u 2 data pos; Ok (rt, pos + 2) else Ok (0, pos))
     = Ok (Z.of_nat (length (run_list lo)), if is_some (lo_runs lo) then pos + 2 else pos)).
{ eexists. destruct (lo_runs lo) eqn:RL; cbn [is_some] in *.
  - apply at_unpack_u in A; [|change (256 ^ Z.of_nat 2) with (2 ^ 16); lia]. destruct A as [H3 A]. change (Z.of_nat 2) with 2 in *.
    rewrite at_bytes_app in A. split; [exact A|]. rewrite H3. reflexivity.
  - rewrite at_bytes_nil in A. rewrite at_bytes_app in A. split; [exact A|]. unfold run_list. rewrite RL. reflexivity. }
destruct B1 as (l1 & A1 & R1).
set (pos1 := if is_some (lo_runs lo) then pos + 2 else pos) in *.
assert (B2 : at_ (Bytes (stretch_bytes (lo_first lo)) :: Bytes l1 :: [Bytes post]) (mkreader data (if is_some (lo_phonetic lo) then pos1 + 4 else pos1) []) /\
     (if is_some (lo_phonetic lo) then do sz <- unpack_i (pyslice data pos1 (pos1 + 4)); Ok (sz, pos1 + 4) else Ok (0, pos1))
     = Ok (phonetic_size lo, if is_some (lo_phonetic lo) then pos1 + 4 else pos1)).
{ destruct (lo_phonetic lo) as [ph|] eqn:PH; cbn [is_some] in *.
  - apply at_unpack_i in A1; [|pose proof (phonetic_size_pos lo); lia]. destruct A1 as [H3 A1].
    rewrite at_bytes_app in A1. split; [exact A1|]. rewrite H3. reflexivity.
  - rewrite at_bytes_nil in A1. rewrite at_bytes_app in A1. split; [exact A1|]. unfold phonetic_size. rewrite PH. reflexivity. }
destruct B2 as (A2 & R2). set (pos2 := if is_some (lo_phonetic lo) then pos1 + 4 else pos1) in *.
pose proof (stretch_length (lo_first lo)) as SL.
apply wide_read in A2; [|exact GF]. destruct A2 as [W _]. split.
- unfold unpack_unicode. rewrite H1. cbn [bind]. destruct (Z.eqb_spec (total_units lo) 0) as [Z0|Z0].
  { rewrite TE, units_zero by lia. reflexivity. }
  rewrite H2. cbn [bind]. rewrite opt_rich_bit, opt_phonetic_bit, opt_wide_bit, G3, G2, G0. fold pos. fold pos1. fold pos2.
  rewrite TT, TE. exact W.
- unfold unpack_unicode_update_pos. rewrite H1. cbn [bind].
  assert (E : Nat.eqb (length (pyslice data (p + Z.of_nat n) (Z.of_nat (length data)))) 0 = false).
  { replace (Z.of_nat (length data)) with (p + Z.of_nat n + (Z.of_nat (length data) - (p + Z.of_nat n))) by lia.
    rewrite pyslice_nonneg by lia. rewrite firstn_length, skipn_length. lia. }
  rewrite E, andb_false_r. rewrite H2. cbn [bind]. rewrite opt_rich_bit, opt_phonetic_bit, opt_wide_bit, G3, G2, G0. fold pos.
  rewrite R1. cbn [bind]. rewrite R2. cbn [bind]. rewrite TT.
  assert (RZ : (if is_some (lo_runs lo) then 4 * Z.of_nat (length (run_list lo)) else 0) = 4 * Z.of_nat (length (run_list lo))).
  { unfold run_list. destruct (lo_runs lo); reflexivity. }
  assert (PZ : (if is_some (lo_phonetic lo) then phonetic_size lo else 0) = phonetic_size lo).
  { unfold phonetic_size. destruct (lo_phonetic lo) as [[a [b|]]|]; reflexivity. }
  rewrite RZ, PZ, LS, SL, TE. unfold pos2, pos1, pos in *. destruct (fst (lo_first lo)).
  + rewrite W. cbn [bind]. f_equal. f_equal. destruct (is_some (lo_runs lo)), (is_some (lo_phonetic lo)); lia.
  + apply (f_equal (fun r => match r with Ok x => x | Err _ => [] end)) in W. cbn beta iota in W. rewrite W. cbn [bind]. f_equal. f_equal.
    destruct (is_some (lo_runs lo)), (is_some (lo_phonetic lo)); lia.
Qed.

Lemma C54_unicode_empty_proof :
forall n pre, (n = 1 \/ n = 2)%nat ->
  unpack_unicode (pre ++ le_bytes n 0) (Z.of_nat (length pre)) (Z.of_nat n) = Ok [] /\
  unpack_unicode_update_pos (pre ++ le_bytes n 0) (Z.of_nat (length pre)) (Z.of_nat n)
  = Ok ([], Z.of_nat (length pre) + Z.of_nat n).
Proof.
intros n pre N1. set (data := pre ++ le_bytes n 0).
assert (A : at_ (Bytes pre :: Bytes (le_bytes n 0) :: []) (mkreader data 0 [])).
{ apply at_start. cbn [records]. rewrite app_nil_r. reflexivity. }
apply at_bytes in A. destruct A as [_ A]. rewrite Z.add_0_l in A.
apply at_unpack_u in A; [|split; [lia|apply Z.pow_pos_nonneg; lia]]. destruct A as [H1 A].
apply at_end in A. destruct A as [P _]. unfold unpack_unicode, unpack_unicode_update_pos. rewrite H1. cbn [bind].
split; [reflexivity|]. rewrite <- P.
replace (pyslice data (Z.of_nat (length pre) + Z.of_nat n) (Z.of_nat (length pre) + Z.of_nat n)) with (@nil N); [reflexivity|].
rewrite <- (Z.add_0_r (Z.of_nat (length pre) + Z.of_nat n)) at 2. rewrite pyslice_nonneg by lia. reflexivity.
Qed.

Lemma C54_surrogates_refuted_proof :
exists a b c : str, unpack_SST_table [a ++ b ++ c] 1 = Ok ([[128512]%N], []) /\
  unpack_SST_table [a ++ b; 1%N :: c] 1 = Err UnicodeError.
Proof.
exists ([0; 0; 0; 0; 0; 0; 0; 0; 2; 0; 1]%N), ([61; 216]%N), ([0; 222]%N). split; vm_compute; reflexivity.
Qed.

Lemma C54_phonetic_refuted_proof :
exists a b c : str, unpack_SST_table [a; b ++ c] 2 = Ok ([lit "a"; lit "b"], []) /\
  unpack_SST_table [a; b; c] 2 = Err StructError.
Proof.
exists ([0; 0; 0; 0; 0; 0; 0; 0; 1; 0; 4; 2; 0; 0; 0; 97; 7]%N), ([7]%N), ([1; 0; 0; 98]%N). split; vm_compute; reflexivity.
Qed.

