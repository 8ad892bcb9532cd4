(** * Which texts are numbers: proofs of the property theorems *)

From Coq Require Import ZifyBool ZifyNat ZifyN QArith.
From Verif Require Import PyBase PyBaseFacts PyFloat PyText NumPy SpecArray ArrayFacts Pack PackProofs SpecPack SpecDbf DbfProofs DbfThms ReadText SpecChars CharFacts SpecText TextProofs ReadTextThms SpecNumber NumberProofs NumberThms SpecNumeral NumeralProofs.
Open Scope nat_scope.
From Coq Require Import Reals.
Open Scope nat_scope.

Lemma commas_iff m row0 : (exists s, In s row0 /\ ~ is_number m s /\ is_number m (dots s)) <-> comma_table m row0.
Proof.
  unfold comma_table, comma_number.
  split; intros (s & I & N & F); exists s; (split; [exact I|]); rewrite is_number_iff in *; split; try assumption.
  apply is_number_iff. exact F.
Qed.

Lemma number_or m s : is_number m s \/ is_number m (dots s) <-> number m s.
Proof.
  rewrite !is_number_iff. unfold number, comma_number. fold (plain_number m (dots s)). split; [|intros [H|[_ H]]; auto].
  intros [H|H]; [auto|]. destruct (float_of m s) as [f|e] eqn:E; [left; apply plain_iff; eauto|].
  right. split; [|exact H]. intro P. apply plain_iff in P. destruct P as (f & P). congruence.
Qed.

Lemma texts_kind (l : list val) : l <> [] -> Forall (fun v => exists s, v = VStr s) l \/ Forall (fun v => exists s, v = VBytes s) l ->
  akind (np_array l) <> Kf.
Proof.
  intros N [F|F]; (destruct F as [|v l (s & ->) F]; [congruence|]; cbn [np_array akind kind_of_val]).
  - assert (E : fold_left (fun k w => promote k (kind_of_val w)) l KU = KU).
    { clear N. induction F as [|v l (t & ->) F IH]; [reflexivity|exact IH]. }
    rewrite E. discriminate.
  - assert (E : fold_left (fun k w => promote k (kind_of_val w)) l KS = KS).
    { clear N. induction F as [|v l (t & ->) F IH]; [reflexivity|exact IH]. }
    rewrite E. discriminate.
Qed.

(** The cells of a channel. *)
Lemma channel_cells src a m row0 rows p c ch :
  m = mode_of (src_bytes src) (t_encoding a) ->
  t_names a = [] -> t_hasnames a = false -> t_debug a = false -> t_converters a = [] -> t_usecols a = ColsNone ->
  table_after src (Z.to_nat (t_skiprows a)) m (t_delimiter a) row0 rows ->
  textpack src a = Ok p -> dget (Z.of_nat c) (p_data p) = Some ch ->
  exists g, ch = np_array (map g (row0 :: rows)) /\
    forall r, In r (row0 :: rows) -> cell m (t_stripstrings a) [] row0 c (nth c r []) (g r).
Proof.
  intros M N H D CV U T E G. rewrite (@textpack_table src a m row0 rows M N H T) in E. rewrite CV in E.
  destruct (@line_funcs_ok m (t_stripstrings a) [] row0) as (funcs & LF & L & F); [split; [constructor|intros k []]|].
  rewrite LF in E. cbn [bind] in E. rewrite D, U in E. cbn [cols_seq] in E.
  destruct (gather false None (map (line_tuple m funcs None) (row0 :: rows))) as [data|] eqn:GA; [|discriminate].
  cbn [bind] in E. apply ok_inj in E. subst p.
  destruct (@gathered m funcs None (row0 :: rows) data ltac:(discriminate) GA) as (k & K1 & K2 & _ & K).
  pose proof (K None I ltac:(intros; reflexivity)) as GA'. rewrite GA in GA'. apply ok_inj in GA'. subst data.
  rewrite chosen_all in G. unfold make in G.
  match type of G with context [new_pack ?d ?n] => destruct (pack_parts d n (src_name src)) as (Q & _) end. rewrite Q in G. clear Q.
  apply dget_In in G. rewrite map_map in G. apply in_map_iff in G. destruct G as (j & G & J). cbn [fst snd] in G. apply in_seq in J.
  pose proof (f_equal fst G) as G1. pose proof (f_equal snd G) as G2. cbn [fst snd] in G1, G2. apply Nat2Z.inj in G1. subst j.
  exists (fun r => cell_of m funcs r c). split; [symmetry; exact G2|]. intros r R. apply F; [lia|].
  unfold gather in GA. destruct (all_rows (map (line_tuple m funcs None) (row0 :: rows))) as [ts|] eqn:A; [|discriminate].
  unfold all_rows in A. rewrite mapM_map in A. destruct (mapM_ok_in _ _ _ r A R) as (t & T').
  rewrite line_tuple_seq in T'. destruct (mapM_ok_in _ _ _ c T') as (v & V).
  - rewrite chosen_all. apply in_seq. specialize (K2 r R). lia.
  - rewrite (cell_of_ok _ _ _ _ _ V). exact V.
Qed.

Lemma C77_columns_proof :
forall src a m row0 rows p c ch,
  m = reading_mode (src_bytes src) (t_encoding a) ->
  t_names a = [] -> t_hasnames a = false -> t_debug a = false -> t_converters a = [] -> t_usecols a = ColsNone ->
  table_after src (Z.to_nat (t_skiprows a)) m (t_delimiter a) row0 rows ->
  textpack src a = Ok p -> dget (Z.of_nat c) (p_data p) = Some ch ->
  let commas := exists s, In s row0 /\ ~ is_number m s /\ is_number m (dots s) in
  let first := nth c row0 [] in
  (is_number m first \/ is_number m (dots first) ->
     akind ch = Kf /\
     forall r row, nth_error (row0 :: rows) r = Some row ->
       exists f, nth_error (aelems ch) r = Some (VFloat f) /\
         (nth c row [] = [] /\ f = S754_nan \/
          ~ commas /\ number_in m (nth c row []) f \/
          commas /\ number_in m (dots (nth c row [])) f)) /\
  (~ (is_number m first \/ is_number m (dots first)) -> akind ch <> Kf).
Proof.
intros src a m row0 rows p c ch M N H D CV U T E G. cbv zeta.
change (reading_mode (src_bytes src) (t_encoding a)) with (mode_of (src_bytes src) (t_encoding a)) in M.
destruct (channel_cells src a m row0 rows p c ch M N H D CV U T E G) as (g & -> & C).
rewrite number_or. pose proof (commas_iff m row0) as CI. split.
- intro NB.
  assert (FL : Forall (fun v => exists f, v = VFloat f) (map g (row0 :: rows))).
  { apply Forall_forall. intros v I. apply in_map_iff in I. destruct I as (r & <- & R). specialize (C r R).
    inversion C; subst; eauto; try contradiction. discriminate. }
  rewrite (promote_floats _ FL). cbn [akind aelems]. split; [reflexivity|]. intros r row R.
  assert (I : In row (row0 :: rows)) by (eapply nth_error_In; exact R). specialize (C row I).
  assert (NE : nth_error (map g (row0 :: rows)) r = Some (g row)) by (apply map_nth_error; exact R). rewrite NE. clear NE.
  inversion C as [f v X|X Y Z|x X Y Z W|x X Y Z W|t X Y|t X Y|co t u X Y]; subst; try contradiction; try discriminate X.
  + exists S754_nan. split; [reflexivity|]. left. split; [exact Z|reflexivity].
  + exists x. split; [reflexivity|]. right. left. split; [intro Q; apply Z, CI, Q|apply number_reads; exact W].
  + exists x. split; [reflexivity|]. right. right. split; [apply CI; exact Z|apply number_reads; exact W].
- intro NB. apply texts_kind; [discriminate|].
  assert (KS : forall r, In r (row0 :: rows) ->
    (exists s, g r = VBytes s /\ m = Raw) \/ (exists s, g r = VStr s /\ m <> Raw)).
  { intros r R. specialize (C r R). inversion C; subst; try contradiction; try discriminate; eauto;
      right; eexists; (split; [reflexivity|congruence]). }
  destruct m.
  + left. apply Forall_forall. intros v I. apply in_map_iff in I. destruct I as (r & <- & R).
    destruct (KS r R) as [(s & _ & X)|(s & X & _)]; [discriminate|eauto].
  + right. apply Forall_forall. intros v I. apply in_map_iff in I. destruct I as (r & <- & R).
    destruct (KS r R) as [(s & X & _)|(s & _ & X)]; [eauto|congruence].
  + left. apply Forall_forall. intros v I. apply in_map_iff in I. destruct I as (r & <- & R).
    destruct (KS r R) as [(s & _ & X)|(s & X & _)]; [discriminate|eauto].
Qed.

Lemma C77_refused_proof :
forall src a m row0 rows row c,
  m = reading_mode (src_bytes src) (t_encoding a) -> src_bytes src = false \/ t_encoding a = None ->
  t_names a = [] -> t_hasnames a = false -> t_debug a = false -> t_converters a = [] -> t_usecols a = ColsNone ->
  table_after src (Z.to_nat (t_skiprows a)) m (t_delimiter a) row0 rows ->
  In row rows -> c < length row0 -> c < length row ->
  is_number m (nth c row0 []) \/ is_number m (dots (nth c row0 [])) ->
  nth c row [] <> [] -> ~ is_number m (nth c row []) ->
  ~ ((exists s, In s row0 /\ ~ is_number m s /\ is_number m (dots s)) /\ is_number m (dots (nth c row []))) ->
  textpack src a = Err ValueError.
Proof.
intros src a m row0 rows row c M X N H D CV U T R C1 C2 F NE NN NC.
destruct (C30_fails_proof src a m row0 rows row c M N H T) as (e & E); try assumption.
- rewrite CV. split; [constructor|intros k []].
- right. exact R.
- rewrite U. exact I.
- rewrite CV. rewrite number_or in F. rewrite commas_iff in NC. rewrite is_number_iff in NN. intros v CE.
  inversion CE; subst; try contradiction; try discriminate.
  + apply NN. exists x. assumption.
  + apply NC. split; [assumption|]. exists x. apply number_reads. assumption.
- rewrite E. f_equal. apply (C30_value_error_proof src a e X CV D E).
Qed.

