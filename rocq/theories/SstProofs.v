(** * Lemmas about Sst.v *)

From Coq Require Import ZifyBool ZifyNat ZifyN.
From Verif Require Import PyBase PyFloat PyBaseFacts Dbf SpecDbf DbfProofs XlStruct CompDoc SpecCompDoc CompDocProofs Sst SpecSst.
Open Scope Z_scope.

(** ** Flags *)

Lemma land_bit o k : negb (N.land o (2 ^ k) =? 0)%N = N.testbit o k.
Proof.
  destruct (N.testbit o k) eqn:T.
  - destruct (N.eqb_spec (N.land o (2 ^ k)) 0) as [E|E]; [|reflexivity].
    exfalso. assert (X : N.testbit (N.land o (2 ^ k)) k = true) by (rewrite N.land_spec, T, N.pow2_bits_true; reflexivity).
    rewrite E, N.bits_0 in X. discriminate X.
  - replace (N.land o (2 ^ k)) with 0%N; [reflexivity|]. symmetry. apply N.bits_inj. intro i. rewrite N.land_spec, N.bits_0.
    destruct (N.eq_dec i k) as [->|Q]; [rewrite T; reflexivity|]. rewrite N.pow2_bits_false by congruence. apply andb_false_r.
Qed.
Lemma opt_wide_bit o : opt_wide o = N.testbit o 0.
Proof. exact (land_bit o 0). Qed.
Lemma opt_phonetic_bit o : opt_phonetic o = N.testbit o 2.
Proof. exact (land_bit o 2). Qed.
Lemma opt_rich_bit o : opt_rich o = N.testbit o 3.
Proof. exact (land_bit o 3). Qed.

(** ** UTF-16 *)

Lemma utf16_units_bytes us : Forall (fun u => 0 <= u < 65536) us ->
  utf16_units (flat_map (le_bytes 2) us) = Ok (map Z.to_N us).
Proof.
  induction 1 as [|u us U _ IH]; [reflexivity|].
  change (flat_map (le_bytes 2) (u :: us)) with (Z.to_N (u mod 256) :: Z.to_N (u / 256 mod 256) :: flat_map (le_bytes 2) us).
  cbn [utf16_units]. rewrite IH. cbn [bind map].
  f_equal. f_equal. Ltac Zify.zify_post_hook ::= Z.div_mod_to_equations. lia.
Qed.
Lemma utf16_range c : scalar c -> Forall (fun u => 0 <= u < 65536) (utf16 c).
Proof.
  intros S. unfold utf16. unfold scalar in S. destruct (N.ltb_spec c 65536) as [L|L].
  - constructor; [lia|constructor].
  - constructor; [lia|]. constructor; [lia|constructor].
Qed.
Lemma utf16_join_units t : Forall scalar t -> utf16_join (map Z.to_N (flat_map utf16 t)) = Ok t.
Proof.
  induction 1 as [|c t S _ IH]; [reflexivity|]. cbn [flat_map]. rewrite map_app. unfold scalar in S.
  unfold utf16 at 1. destruct (N.ltb_spec c 65536) as [L|L]; cbn [map app utf16_join].
  - rewrite N2Z.id. unfold low_surrogate, high_surrogate.
    replace ((56320 <=? c) && (c <? 57344))%N with false by lia.
    replace ((55296 <=? c) && (c <? 56320))%N with false by lia. rewrite IH. reflexivity.
  - assert (D : 0 <= (Z.of_N c - 65536) / 1024 < 1024) by lia.
    assert (M : 0 <= (Z.of_N c - 65536) mod 1024 < 1024) by lia.
    assert (E : Z.of_N c - 65536 = 1024 * ((Z.of_N c - 65536) / 1024) + (Z.of_N c - 65536) mod 1024) by (apply Z.div_mod; lia).
    set (d := (Z.of_N c - 65536) / 1024) in *. set (m := (Z.of_N c - 65536) mod 1024) in *. clearbody d m.
    unfold low_surrogate, high_surrogate.
    replace ((56320 <=? Z.to_N (55296 + d)) && (Z.to_N (55296 + d) <? 57344))%N with false by lia.
    replace ((55296 <=? Z.to_N (55296 + d)) && (Z.to_N (55296 + d) <? 56320))%N with true by lia.
    replace ((56320 <=? Z.to_N (56320 + m)) && (Z.to_N (56320 + m) <? 57344))%N with true by lia.
    rewrite IH. cbn [bind]. f_equal. f_equal. lia.
Qed.
Ltac Zify.zify_post_hook ::= idtac.
Lemma utf16_le_bytes t : Forall scalar t -> utf16_le (flat_map (le_bytes 2) (flat_map utf16 t)) = Ok t.
Proof.
  intro S. unfold utf16_le. rewrite utf16_units_bytes.
  - cbn [bind]. apply utf16_join_units. exact S.
  - apply Forall_flat_map. eapply Forall_impl; [|exact S]. exact utf16_range.
Qed.
Lemma wide_length us : length (flat_map (le_bytes 2) us) = (2 * length us)%nat.
Proof. induction us as [|u us IH]; [reflexivity|]. cbn [flat_map]. rewrite app_length, IH, le_bytes_length. cbn [length]. lia. Qed.
Lemma stretch_length s : Z.of_nat (length (stretch_bytes s)) = (if fst s then 2 else 1) * units s.
Proof. unfold stretch_bytes, units. destruct (fst s); [rewrite wide_length|]; lia. Qed.
Lemma units_pos s : 0 <= units s.
Proof. unfold units. destruct (fst s); lia. Qed.

(** ** The reader on tokens *)

Definition at_ (l : list token) (rd : reader) : Prop :=
  exists r, records l = r :: rd_rest rd /\ 0 <= rd_pos rd <= Z.of_nat (length (rd_data rd)) /\
    skipn (Z.to_nat (rd_pos rd)) (rd_data rd) = r.

Lemma records_cons l : exists r rs, records l = r :: rs.
Proof. destruct l as [|[b|] l]; cbn [records]; [eauto| |eauto]. destruct (records l); eauto. Qed.

Lemma at_bytes b l data pos rest : at_ (Bytes b :: l) (mkreader data pos rest) ->
  pyslice data pos (pos + Z.of_nat (length b)) = b /\ at_ l (mkreader data (pos + Z.of_nat (length b)) rest).
Proof.
  intros (r & R & P & S). cbn [rd_data rd_pos rd_rest] in *. cbn [records] in R.
  destruct (records_cons l) as (r1 & rs & E). rewrite E in R. injection R as R1 R2.
  assert (L : length (skipn (Z.to_nat pos) data) = (length b + length r1)%nat) by (rewrite S, <- R1; apply app_length).
  rewrite skipn_length in L. split.
  - rewrite pyslice_nonneg by lia. rewrite S, <- R1, Nat2Z.id. rewrite firstn_app, Nat.sub_diag, firstn_all. apply app_nil_r.
  - exists r1. cbn [rd_data rd_pos rd_rest]. split; [congruence|]. split; [lia|].
    rewrite Z2Nat.inj_add by lia. rewrite <- skipn_add, S, <- R1, Nat2Z.id.
    rewrite skipn_app, Nat.sub_diag, skipn_all. reflexivity.
Qed.
Lemma at_cut l data pos rest : at_ (Cut :: l) (mkreader data pos rest) ->
  pos = Z.of_nat (length data) /\ exists d rest', rest = d :: rest' /\ at_ l (mkreader d 0 rest').
Proof.
  intros (r & R & P & S). cbn [rd_data rd_pos rd_rest] in *. cbn [records] in R. injection R as R1 R2.
  assert (L : length (skipn (Z.to_nat pos) data) = 0%nat) by (rewrite S, <- R1; reflexivity). rewrite skipn_length in L.
  split; [lia|]. destruct (records_cons l) as (d & rs & E). exists d, rs. split; [congruence|].
  exists d. cbn [rd_data rd_pos rd_rest]. split; [exact E|]. split; [lia|reflexivity].
Qed.
Lemma at_end data pos rest : at_ [] (mkreader data pos rest) -> pos = Z.of_nat (length data) /\ rest = [].
Proof.
  intros (r & R & P & S). cbn [rd_data rd_pos rd_rest] in *. cbn [records] in R. injection R as R1 R2.
  assert (L : length (skipn (Z.to_nat pos) data) = 0%nat) by (rewrite S, <- R1; reflexivity). rewrite skipn_length in L.
  split; [lia|symmetry; exact R2].
Qed.
Lemma at_room b l data pos rest : at_ (Bytes b :: l) (mkreader data pos rest) -> 0 <= pos /\
  pos + Z.of_nat (length b) <= Z.of_nat (length data).
Proof.
  intro A. destruct (at_bytes _ _ _ _ _ A) as [_ (r & _ & P & _)]. cbn [rd_data rd_pos rd_rest] in P.
  destruct A as (r' & _ & P' & _). cbn [rd_data rd_pos rd_rest] in P'. lia.
Qed.
Lemma at_bytes_app b1 b2 l rd : at_ (Bytes (b1 ++ b2) :: l) rd <-> at_ (Bytes b1 :: Bytes b2 :: l) rd.
Proof.
  unfold at_. cbn [records]. destruct (records_cons l) as (r & rs & ->). rewrite app_assoc. reflexivity.
Qed.
Lemma at_bytes_nil l rd : at_ (Bytes [] :: l) rd <-> at_ l rd.
Proof. unfold at_. cbn [records]. destruct (records_cons l) as (r & rs & ->). reflexivity. Qed.

Lemma at_unpack_u n z l data pos rest : 0 <= z < 256 ^ Z.of_nat n ->
  at_ (Bytes (le_bytes n z) :: l) (mkreader data pos rest) ->
  unpack_u (Z.of_nat n) data pos = Ok z /\ at_ l (mkreader data (pos + Z.of_nat n) rest).
Proof.
  intros Z0 A. apply at_bytes in A. rewrite le_bytes_length in A. destruct A as [A1 A2]. split; [|exact A2].
  unfold unpack_u. rewrite A1. rewrite le_bytes_length, Z.eqb_refl. rewrite le_value_bytes by exact Z0. reflexivity.
Qed.
Lemma at_byte o l data pos rest : at_ (Bytes [o] :: l) (mkreader data pos rest) ->
  byte_at data pos = Ok o /\ at_ l (mkreader data (pos + 1) rest).
Proof.
  intro A. pose proof (at_room _ _ _ _ _ A) as [R1 R2]. apply at_bytes in A. destruct A as [A1 A2]. split; [|exact A2].
  cbn [length] in *. rewrite pyslice_nonneg in A1 by lia. unfold byte_at. rewrite py_index_pos by lia.
  change (Z.to_nat (Z.of_nat 1)) with 1%nat in A1.
  rewrite <- (firstn_skipn (Z.to_nat pos) data). rewrite nth_error_app2 by (rewrite firstn_length; lia).
  rewrite firstn_length, Nat.min_l by lia. rewrite Nat.sub_diag.
  destruct (skipn (Z.to_nat pos) data) as [|x s]; [discriminate A1|]. cbn in A1. injection A1 as ->. reflexivity.
Qed.
Lemma at_unpack_i z l data pos rest : 0 <= z < 2 ^ 31 ->
  at_ (Bytes (le_bytes 4 z) :: l) (mkreader data pos rest) ->
  unpack_i (pyslice data pos (pos + 4)) = Ok z /\ at_ l (mkreader data (pos + 4) rest).
Proof.
  intros Z0 A. apply at_bytes in A. rewrite le_bytes_length in A. destruct A as [A1 A2]. split; [|exact A2].
  change (Z.of_nat 4) with 4 in A1. rewrite A1. unfold unpack_i. rewrite le_bytes_length. cbn [Nat.eqb].
  unfold le_signed. rewrite le_bytes_length. rewrite le_value_bytes by (change (256 ^ Z.of_nat 4) with (2 ^ 32); lia).
  change (2 ^ (8 * Z.of_nat 4)) with (2 ^ 32). cbv zeta. replace (2 * z <? 2 ^ 32) with true by lia. reflexivity.
Qed.

(** ** Characters *)

Definition more_units (more : list (N * stretch)) : Z := fold_right Z.add 0 (map (fun fs => units (snd fs)) more).
Lemma more_units_pos more : 0 <= more_units more.
Proof. induction more as [|fs more IH]; cbn; [lia|]. pose proof (units_pos (snd fs)). unfold more_units in IH. lia. Qed.
Lemma more_units_last more : more <> [] -> 0 < units (snd (last more (0%N, (false, [])))) -> 0 < more_units more.
Proof.
  induction more as [|fs more IH]; intros NE L; [congruence|]. unfold more_units. cbn [map fold_right].
  destruct more as [|fs2 more]; [cbn [map fold_right]; rewrite Z.add_0_r; exact L|].
  assert (0 < more_units (fs2 :: more)) by (apply IH; [discriminate|exact L]).
  apply Z.add_nonneg_pos; [apply units_pos|assumption].
Qed.

Lemma sst_chars_ok more : forall o s data pos rest acc t,
  N.testbit o 0 = fst s -> good_stretch s ->
  Forall (fun fs => N.testbit (fst fs) 0 = fst (snd fs) /\ good_stretch (snd fs)) more ->
  (more <> [] -> 0 < units (snd (last more (0%N, (false, []))))) ->
  at_ (Bytes (stretch_bytes s) :: flat_map (fun fs : N * stretch => [Cut; Bytes (fst fs :: stretch_bytes (snd fs))]) more ++ t)
    (mkreader data pos rest) ->
  exists rd, sst_chars data pos rest o (units s + more_units more) acc
      = Ok (acc ++ snd s ++ flat_map (fun fs => snd (snd fs)) more, rd) /\ at_ t rd.
Proof.
  induction more as [|[o2 s2] more IH]; intros o s data pos rest acc t O G F NE A.
  - cbn [flat_map app] in *. pose proof (at_room _ _ _ _ _ A) as [R1 R2]. apply at_bytes in A. destruct A as [A1 A2].
    pose proof (units_pos s) as UP. rewrite stretch_length in *. unfold more_units. cbn [map fold_right]. rewrite Z.add_0_r, app_nil_r.
    destruct rest as [|r0 rest]; cbn [sst_chars]; rewrite opt_wide_bit, O;
      unfold stretch_bytes, good_stretch in *; destruct (fst s) eqn:W.
    all: try (replace (Z.min (Z.shiftr (Z.of_nat (length data) - pos) 1) (units s)) with (units s)
               by (rewrite Z.shiftr_div_pow2 by lia; change (2 ^ 1) with 2;
                   assert (units s <= (Z.of_nat (length data) - pos) / 2) by (apply Z.div_le_lower_bound; lia); lia);
              rewrite A1, utf16_le_bytes by exact G; cbn [bind]; rewrite Z.eqb_refl; eexists; split; [reflexivity|exact A2]).
    all: rewrite Z.mul_1_l in *; replace (Z.min (Z.of_nat (length data) - pos) (units s)) with (units s) by lia;
         rewrite A1; cbn [bind]; rewrite Z.eqb_refl; eexists; split; [reflexivity|exact A2].
  - cbn [flat_map app] in A. pose proof (at_room _ _ _ _ _ A) as [R1 R2]. apply at_bytes in A. destruct A as [A1 A2].
    apply at_cut in A2. destruct A2 as [P (d & rest' & -> & A2)]. 
    pose proof (units_pos s) as UP. pose proof (more_units_last ((o2, s2) :: more) ltac:(discriminate) (NE ltac:(discriminate))) as MP.
    rewrite stretch_length in *.
    apply (at_bytes_app [o2]) in A2. apply at_byte in A2. destruct A2 as [B A2]. rewrite Z.add_0_l in A2.
    apply Forall_cons_iff in F. cbn [fst snd] in F. destruct F as [[O2 G2] F].
    assert (M : more_units ((o2, s2) :: more) = units s2 + more_units more) by reflexivity.
    destruct (IH o2 s2 d 1 rest' (acc ++ snd s) t O2 G2 F) as (rd & C & A3).
    { intro Q. specialize (NE ltac:(discriminate)). destruct more; [congruence|exact NE]. }
    { exact A2. }
    exists rd. split; [|exact A3]. cbn [sst_chars]. rewrite opt_wide_bit, O.
    assert (E : forall (X : res (str * reader)), X = Ok (acc ++ snd s ++ flat_map (fun fs => snd (snd fs)) ((o2, s2) :: more), rd) ->
              X = Ok (acc ++ snd s ++ flat_map (fun fs => snd (snd fs)) ((o2, s2) :: more), rd)) by (intros; assumption).
    apply E. clear E.
    unfold stretch_bytes, good_stretch in A1, G. destruct (fst s) eqn:W.
    + replace (Z.min (Z.shiftr (Z.of_nat (length data) - pos) 1) (units s + more_units ((o2, s2) :: more))) with (units s)
        by (rewrite Z.shiftr_div_pow2 by lia; change (2 ^ 1) with 2; replace (Z.of_nat (length data) - pos) with (units s * 2) by lia;
            rewrite Z.div_mul by lia; lia).
      rewrite A1, utf16_le_bytes by exact G. cbn [bind].
      replace (units s =? units s + more_units ((o2, s2) :: more)) with false by lia.
      rewrite B. cbn [bind]. replace (units s + more_units ((o2, s2) :: more) - units s) with (units s2 + more_units more) by lia.
      rewrite C. cbn [flat_map snd]. rewrite <- app_assoc. reflexivity.
    + rewrite Z.mul_1_l in *.
      replace (Z.min (Z.of_nat (length data) - pos) (units s + more_units ((o2, s2) :: more))) with (units s) by lia.
      rewrite A1. cbn [bind].
      replace (units s =? units s + more_units ((o2, s2) :: more)) with false by lia.
      rewrite B. cbn [bind]. replace (units s + more_units ((o2, s2) :: more) - units s) with (units s2 + more_units more) by lia.
      rewrite C. cbn [flat_map snd]. rewrite <- app_assoc. reflexivity.
Qed.

(** ** Runs *)

Lemma sst_runs_ok runs : forall rd t,
  Forall (fun r : bool * (Z * Z) => 0 <= fst (snd r) < 2 ^ 16 /\ 0 <= snd (snd r) < 2 ^ 16) runs ->
  at_ (flat_map (fun r : bool * (Z * Z) => (if fst r then [Cut] else []) ++ [Bytes (run_bytes (snd r))]) runs ++ t) rd ->
  exists rd', sst_runs (length runs) rd = Ok (map snd runs, rd') /\ at_ t rd'.
Proof.
  induction runs as [|[cut [a b]] runs IH]; intros rd t F A.
  - exists rd. split; [reflexivity|exact A].
  - apply Forall_cons_iff in F. cbn [fst snd] in F. destruct F as [[FA FB] F].
    cbn [flat_map fst snd length sst_runs map] in *. destruct rd as [data pos rest].
    assert (X : exists data' pos' rest', (if pos =? Z.of_nat (length data) then next_record (mkreader data pos rest) 0 else Ok (mkreader data pos rest))
                  = Ok (mkreader data' pos' rest') /\
               at_ (Bytes (run_bytes (a, b)) :: flat_map (fun r : bool * (Z * Z) => (if fst r then [Cut] else []) ++ [Bytes (run_bytes (snd r))]) runs ++ t)
                   (mkreader data' pos' rest')).
    { destruct cut; cbn [app] in A.
      - apply at_cut in A. destruct A as [-> (d & rest' & -> & A)]. exists d, 0, rest'. rewrite Z.eqb_refl. split; [reflexivity|exact A].
      - exists data, pos, rest. pose proof (at_room _ _ _ _ _ A) as [R1 R2].
        unfold run_bytes in R2. rewrite app_length, !le_bytes_length in R2.
        replace (pos =? Z.of_nat (length data)) with false by lia. split; [reflexivity|exact A]. }
    destruct X as (data' & pos' & rest' & E & A'). cbn [rd_pos rd_data]. rewrite E. cbn [bind rd_data rd_pos rd_rest].
    apply at_bytes in A'. destruct A' as [A1 A2].
    assert (LR : length (run_bytes (a, b)) = 4%nat) by (unfold run_bytes; rewrite app_length, !le_bytes_length; reflexivity).
    rewrite LR in *. change (Z.of_nat 4) with 4 in *. rewrite A1, LR. cbn [Nat.eqb bind].
    destruct (IH _ _ F A2) as (rd' & R & A3). rewrite R. cbn [bind]. exists rd'. split; [|exact A3].
    f_equal. f_equal. f_equal. unfold run_bytes. cbn [fst snd].
    rewrite firstn_app, le_bytes_length, Nat.sub_diag, firstn_all2 by (rewrite le_bytes_length; lia).
    rewrite skipn_app, le_bytes_length, Nat.sub_diag, skipn_all2 by (rewrite le_bytes_length; lia).
    cbn [firstn skipn app]. rewrite app_nil_r. rewrite !le_value_bytes by (change (256 ^ Z.of_nat 2) with (2 ^ 16); lia). reflexivity.
Qed.

(** ** Strings *)

Lemma header_nonempty lo : (3 <= length (header lo))%nat.
Proof. unfold header. rewrite !app_length, le_bytes_length. cbn [length]. lia. Qed.

Lemma total_units_pos lo : 0 <= total_units lo.
Proof. unfold total_units. pose proof (units_pos (lo_first lo)). pose proof (more_units_pos (lo_more lo)). unfold more_units in *. lia. Qed.
Lemma phonetic_size_pos lo : 0 <= phonetic_size lo.
Proof. unfold phonetic_size. destruct (lo_phonetic lo) as [[a [b|]]|]; lia. Qed.

(** After a string the reader stands at what follows: the next string, in this
    or the next record, or the end. *)
Lemma sst_string_ok lo cut l data pos rest : good_layout lo -> (cut = true -> cut_phonetic lo = false /\ l <> []) ->
  at_ ((tokens lo ++ if cut then [Cut] else []) ++ table_tokens l) (mkreader data pos rest) ->
  exists rd, sst_string (match l with [] => true | _ => false end) (mkreader data pos rest)
    = Ok (text lo, (match runs_of lo with [] => None | r => Some r end), rd) /\
    (l <> [] -> at_ (table_tokens l) rd).
Proof.
  intros (G0 & G2 & G3 & GF & GM & GL & GU & GR & GRR & GP & GB) CUT A.
  unfold sst_string. cbn [rd_data rd_pos rd_rest]. unfold tokens in A. rewrite <- !app_assoc in A. cbn [app] in A.
  unfold header in A. rewrite at_bytes_app in A. apply at_unpack_u in A; [|pose proof (total_units_pos lo); change (256 ^ Z.of_nat 2) with (2 ^ 16); lia].
  destruct A as [H1 A]. change (Z.of_nat 2) with 2 in *. rewrite H1. cbn [bind].
  rewrite at_bytes_app in A. apply at_byte in A. destruct A as [H2 A]. rewrite H2. cbn [bind].
  rewrite at_bytes_app in A.
  rewrite opt_rich_bit, G3.
  set (tail := flat_map (fun fs : N * stretch => [Cut; Bytes (fst fs :: stretch_bytes (snd fs))]) (lo_more lo)
     ++ flat_map (fun r : bool * (Z * Z) => (if fst r then [Cut] else []) ++ [Bytes (run_bytes (snd r))]) (run_list lo)
     ++ match lo_phonetic lo with
        | Some (a, Some b) => [Bytes a; Cut; Bytes b]
        | Some (a, None) => [Bytes a]
        | None => []
        end ++ (if cut then [Cut] else []) ++ table_tokens l) in A.
  assert (R1 : exists pos1, (if is_some (lo_runs lo) then do rt <- unpack_u 2 data (pos + 2 + 1); Ok (rt, pos + 2 + 1 + 2) else Ok (0, pos + 2 + 1))
     = Ok (Z.of_nat (length (run_list lo)), pos1) /\
     at_ (Bytes (if is_some (lo_phonetic lo) then le_bytes 4 (phonetic_size lo) else []) :: Bytes (stretch_bytes (lo_first lo)) :: tail)
       (mkreader data pos1 rest)).
  { destruct (lo_runs lo) as [rl|] eqn:RL; cbn [is_some] in *.
    - apply at_unpack_u in A; [|change (256 ^ Z.of_nat 2) with (2 ^ 16); lia]. destruct A as [H3 A]. change (Z.of_nat 2) with 2 in *.
      rewrite H3. cbn [bind]. eexists. split; [reflexivity|exact A].
    - rewrite at_bytes_nil in A. eexists. split; [|exact A]. unfold run_list. rewrite RL. reflexivity. }
  destruct R1 as (pos1 & R1 & A1). rewrite R1. cbn [bind]. rewrite opt_phonetic_bit, G2.
  assert (R2 : exists pos2, (if is_some (lo_phonetic lo) then do sz <- unpack_i (pyslice data pos1 (pos1 + 4)); Ok (sz, pos1 + 4) else Ok (0, pos1))
     = Ok (phonetic_size lo, pos2) /\ at_ (Bytes (stretch_bytes (lo_first lo)) :: tail) (mkreader data pos2 rest)).
  { destruct (lo_phonetic lo) as [ph|] eqn:PH; cbn [is_some] in *.
    - apply at_unpack_i in A1; [|pose proof (phonetic_size_pos lo); lia]. destruct A1 as [H3 A1].
      rewrite H3. cbn [bind]. eexists. split; [reflexivity|exact A1].
    - rewrite at_bytes_nil in A1. eexists. split; [|exact A1]. unfold phonetic_size. rewrite PH. reflexivity. }
  destruct R2 as (pos2 & R2 & A2). rewrite R2. cbn [bind].
  unfold tail in A2. apply (sst_chars_ok (lo_more lo) (lo_flags lo) (lo_first lo) data pos2 rest []) in A2; try assumption.
  destruct A2 as (rd1 & C & A2). 
  change (units (lo_first lo) + more_units (lo_more lo)) with (total_units lo) in C. rewrite C. cbn [bind app].
  fold (text lo).
  apply sst_runs_ok in A2; [|exact GRR]. destruct A2 as (rd2 & R3 & A3).
  assert (R4 : (if Z.of_nat (length (run_list lo)) =? 0 then Ok (None, rd1)
                else do (runs, rd) <- sst_runs (Z.to_nat (Z.of_nat (length (run_list lo)))) rd1; Ok (Some runs, rd))
             = Ok ((match runs_of lo with [] => None | r => Some r end), rd2)).
  { rewrite Nat2Z.id. unfold runs_of. destruct (run_list lo) as [|r rl]; cbn [length] in *.
    - cbn [sst_runs map] in *. injection R3 as <-. reflexivity.
    - replace (Z.of_nat (S (length rl)) =? 0) with false by lia. rewrite R3. cbn [bind map]. reflexivity. }
  rewrite R4. cbn [bind]. clear R1 R2 R3 R4 C A A1. destruct rd2 as [data2 pos2' rest2]. cbn [rd_data rd_pos rd_rest].
  destruct (lo_phonetic lo) as [[a [b|]]|] eqn:PH.
  - assert (cut = false). { destruct cut; [|reflexivity]. destruct (CUT eq_refl) as [Q _]. unfold cut_phonetic in Q. rewrite PH in Q. discriminate Q. }
    subst cut. cbn [app] in A3. apply at_bytes in A3. destruct A3 as [_ A3]. apply at_cut in A3. destruct A3 as [P (d & rest' & -> & A3)].
    unfold phonetic_size. rewrite PH. replace (Z.of_nat (length data2) <=? pos2' + (Z.of_nat (length a) + Z.of_nat (length b))) with true by lia.
    eexists. split; [reflexivity|]. intros _. apply at_bytes in A3. destruct A3 as [_ A3].
    replace (pos2' + (Z.of_nat (length a) + Z.of_nat (length b)) - Z.of_nat (length data2)) with (0 + Z.of_nat (length b)) by lia. exact A3.
  - assert (A4 : at_ ((if cut then [Cut] else []) ++ table_tokens l) (mkreader data2 (pos2' + phonetic_size lo) rest2)).
    { unfold phonetic_size. rewrite PH. cbn [app] in A3. apply at_bytes in A3. destruct A3 as [_ A3]. exact A3. }
    clear A3. revert A4. generalize (pos2' + phonetic_size lo). intros p A4. destruct cut; cbn [app] in A4.
    + apply at_cut in A4. destruct A4 as [-> (d & rest' & -> & A4)]. rewrite Z.leb_refl, Z.sub_diag.
      eexists. split; [reflexivity|]. intros _. exact A4.
    + destruct l as [|[lo2 cut2] l].
      * apply at_end in A4. destruct A4 as [-> ->]. rewrite Z.leb_refl. eexists. split; [reflexivity|congruence].
      * assert (W : p < Z.of_nat (length data2)).
        { cbn [table_tokens flat_map fst] in A4. unfold tokens in A4. cbn [app] in A4. apply at_room in A4. pose proof (header_nonempty lo2). lia. }
        replace (Z.of_nat (length data2) <=? p) with false by lia. eexists. split; [reflexivity|]. intros _. exact A4.
  - assert (A4 : at_ ((if cut then [Cut] else []) ++ table_tokens l) (mkreader data2 (pos2' + phonetic_size lo) rest2)).
    { unfold phonetic_size. rewrite PH. cbn [app] in A3. rewrite Z.add_0_r. exact A3. }
    clear A3. revert A4. generalize (pos2' + phonetic_size lo). intros p A4. destruct cut; cbn [app] in A4.
    + apply at_cut in A4. destruct A4 as [-> (d & rest' & -> & A4)]. rewrite Z.leb_refl, Z.sub_diag.
      eexists. split; [reflexivity|]. intros _. exact A4.
    + destruct l as [|[lo2 cut2] l].
      * apply at_end in A4. destruct A4 as [-> ->]. rewrite Z.leb_refl. eexists. split; [reflexivity|congruence].
      * assert (W : p < Z.of_nat (length data2)).
        { cbn [table_tokens flat_map fst] in A4. unfold tokens in A4. cbn [app] in A4. apply at_room in A4. pose proof (header_nonempty lo2). lia. }
        replace (Z.of_nat (length data2) <=? p) with false by lia. eexists. split; [reflexivity|]. intros _. exact A4.
Qed.

Lemma sst_loop_ok l : forall k rd, good_table l -> (l <> [] -> at_ (table_tokens l) rd) ->
  sst_loop (length l) k rd = Ok (texts l, rich k l).
Proof.
  induction l as [|[lo cut] l IH]; intros k rd G A; [reflexivity|].
  specialize (A ltac:(discriminate)). cbn [table_tokens flat_map fst snd] in A. destruct rd as [data pos rest].
  assert (GL : good_layout lo /\ (cut = true -> cut_phonetic lo = false /\ l <> []) /\ good_table l).
  { destruct l as [|x l]; cbn [good_table] in G.
    - destruct G as [G ->]. split; [exact G|]. split; [discriminate|exact I].
    - destruct G as (G1 & G2 & G3). split; [exact G1|]. split; [intro; split; [auto|discriminate]|exact G3]. }
  destruct GL as (G1 & G2 & G3).
  destruct (sst_string_ok lo cut l data pos rest G1 G2 A) as (rd & E & A2).
  cbn [length sst_loop]. replace (Nat.eqb (length l) 0) with (match l with [] => true | _ => false end) by (destruct l; reflexivity).
  rewrite E. cbn [bind]. rewrite (IH (k + 1) rd G3 A2). cbn [bind fst snd texts map rich].
  f_equal. f_equal. destruct (runs_of lo); reflexivity.
Qed.
