(** * Bytes without an encoding (C75): proofs of the property theorems *)

From Coq Require Import ZifyBool ZifyNat ZifyN QArith.
From Verif Require Import PyBase PyBaseFacts PyFloat PyText NumPy Pack ReadText SpecArray ArrayFacts SpecRaw.
Open Scope nat_scope.
Open Scope nat_scope.

(** The functions of the two readings. *)
Lemma Forall2_len' A B (R : A -> B -> Prop) l m : Forall2 R l m -> length l = length m.
Proof. induction 1; cbn; congruence. Qed.
Definition is_text (f : func) : bool := match f with AsIsDecode | AsIsStrippedDecode => true | _ => false end.
Inductive frel : func -> func -> Prop :=
| fr_nan : frel MaybeNan MaybeNan
| fr_float : frel FloatIt FloatIt
| fr_given f : frel (Given f) (Given f)
| fr_text : frel AsIsDecode AsIs
| fr_strip : frel AsIsStrippedDecode AsIsStripped.
Definition vrel (c : codec) (k : bool) (v w : val) : Prop := if k then text_of c v w else v = w.
Lemma frel_apply c f g s v : frel f g -> apply_func (Coded c) f s = Ok v ->
  exists w, apply_func Raw g s = Ok w /\ vrel c (is_text f) v w.
Proof.
  intros F E. destruct F; try (exists v; split; [exact E | reflexivity]).
  - cbn in *. destruct (decode c s) as [t|e] eqn:D; [|discriminate E]. cbn in E. inversion E; subst v.
    exists (VBytes s). split; [reflexivity|]. exists t, s. auto.
  - cbn in *. destruct (decode c (strip ws_bytes s)) as [t|e] eqn:D; [|discriminate E]. cbn in E. inversion E; subst v.
    exists (VBytes (strip ws_bytes s)). split; [reflexivity|]. exists t, (strip ws_bytes s). auto.
Qed.
Lemma frel_field c ss v : frel (field_func (Coded c) ss v) (field_func Raw ss v).
Proof.
  unfold field_func. cbn [float_of]. destruct (float_of_str v); [constructor|]. destruct (float_of_str (comma_to_dot v)); [constructor|].
  destruct ss; constructor.
Qed.
Lemma frel_floatit l l' : Forall2 frel l l' -> existsb is_floatit l = existsb is_floatit l'.
Proof. induction 1 as [|f g l l' F _ IH]; [reflexivity|]. cbn. rewrite IH. destruct F; reflexivity. Qed.
Lemma forall2_firstn {A B} (R : A -> B -> Prop) n : forall l l', Forall2 R l l' -> Forall2 R (firstn n l) (firstn n l').
Proof.
  induction n as [|n IH]; intros l l' H; [constructor|]. destruct H; [constructor|]. cbn. constructor; [assumption | apply IH; assumption].
Qed.
Lemma forall2_skipn {A B} (R : A -> B -> Prop) n : forall l l', Forall2 R l l' -> Forall2 R (skipn n l) (skipn n l').
Proof.
  induction n as [|n IH]; intros l l' H; [exact H|]. destruct H; [constructor | cbn; apply IH; assumption].
Qed.
Lemma frel_set convs : forall l l' fs, Forall2 frel l l' -> set_funcs l convs = Ok fs ->
  exists fs', set_funcs l' convs = Ok fs' /\ Forall2 frel fs fs'.
Proof.
  induction convs as [|[k f] convs IH]; intros l l' fs H E; cbn in *.
  - inversion E; subst fs. exists l'. auto.
  - unfold list_set in *. assert (N : length l = length l') by (eapply Forall2_len'; exact H). rewrite <- N.
    destruct ((0 <=? _) && _)%Z; [|discriminate E]. cbn [bind] in *.
    eapply IH; [|exact E]. apply Forall2_app; [apply forall2_firstn; exact H|].
    constructor; [constructor | apply forall2_skipn; exact H].
Qed.
Lemma frel_line c ss convs fv fs : line_funcs (Coded c) ss convs fv = Ok fs ->
  exists fs', line_funcs Raw ss convs fv = Ok fs' /\ Forall2 frel fs fs'.
Proof.
  unfold line_funcs. intros E.
  assert (H : Forall2 frel (map (field_func (Coded c) ss) fv) (map (field_func Raw ss) fv)).
  { clear E. induction fv as [|v fv IH]; constructor; [apply frel_field | exact IH]. }
  rewrite <- (frel_floatit _ _ H).
  eapply frel_set; [|exact E]. destruct (existsb is_floatit (map (field_func (Coded c) ss) fv)); [|exact H].
  clear E. induction H as [|f g l l' F _ IH]; constructor; [|exact IH]. destruct F; constructor.
Qed.
(** Rows, which may be shorter than there are columns. *)
Inductive rowrel (c : codec) : list bool -> list val -> list val -> Prop :=
| rr_nil ks : rowrel c ks [] []
| rr_cons k ks v w r r' : vrel c k v w -> rowrel c ks r r' -> rowrel c (k :: ks) (v :: r) (w :: r').
Definition kinds (u : option (list Z)) (n : nat) (fs : list func) : list bool :=
  map (fun cf => is_text (snd cf)) (filter (fun cf => in_cols u (fst cf)) (enum_from n fs)).
Lemma rowrel_line c u fs fs' : Forall2 frel fs fs' -> forall n vals r,
  mapM (fun cfv => apply_func (Coded c) (fst (snd cfv)) (snd (snd cfv)))
    (filter (fun cfv => in_cols u (fst cfv)) (enum_from n (zip fs vals))) = Ok r ->
  exists r', mapM (fun cfv => apply_func Raw (fst (snd cfv)) (snd (snd cfv)))
    (filter (fun cfv => in_cols u (fst cfv)) (enum_from n (zip fs' vals))) = Ok r' /\ rowrel c (kinds u n fs) r r'.
Proof.
  induction 1 as [|f g fs fs' F _ IH]; intros n vals r E.
  - cbn in *. inversion E; subst r. exists []. split; [reflexivity | constructor].
  - destruct vals as [|s vals]; [cbn in *; inversion E; subst r; exists []; split; [reflexivity | constructor]|].
    unfold kinds. cbn [zip enum_from filter fst snd] in *. destruct (in_cols u n).
    + cbn [mapM fst snd] in E. destruct (apply_func (Coded c) f s) as [v|e] eqn:Ev; [|discriminate E]. cbn [bind] in E.
      destruct (mapM _ _) as [r1|e] eqn:E1 in E; [|discriminate E]. cbn [bind] in E. inversion E; subst r.
      destruct (IH (S n) vals r1 E1) as (r' & E' & R').
      destruct (frel_apply c f g s v F Ev) as (w & Ew & V).
      exists (w :: r'). split; [|cbn [map snd]; constructor; [exact V | exact R']].
      cbn [mapM fst snd]. rewrite Ew. cbn [bind]. rewrite E'. reflexivity.
    + apply IH. exact E.
Qed.
Lemma rows_rel c delim u fs fs' lines rows : Forall2 frel fs fs' ->
  all_rows (flat_map (data_line (Coded c) delim fs u) lines) = Ok rows ->
  exists rows', all_rows (flat_map (data_line Raw delim fs' u) lines) = Ok rows' /\ Forall2 (rowrel c (kinds u 0 fs)) rows rows'.
Proof.
  intros F. revert rows. unfold all_rows. induction lines as [|l lines IH]; intros rows E.
  - cbn in *. inversion E; subst rows. exists []. split; [reflexivity | constructor].
  - cbn [flat_map] in *. unfold data_line at 1. unfold data_line at 1 in E.
    destruct (strip_line delim l) as [|x sl]; [apply IH; exact E|].
    cbn [app mapM] in *.
    change (split_line (Coded c) delim (x :: sl)) with (split_line Raw delim (x :: sl)) in E.
    destruct (split_line Raw delim (x :: sl)) as [vals|e]; [|discriminate E]. cbn [bind] in *.
    unfold line_tuple in *. destruct (mapM (fun cfv => apply_func (Coded c) (fst (snd cfv)) (snd (snd cfv))) _) as [r|e] eqn:Er in E; [|discriminate E].
    cbn [bind] in E. destruct (mapM (fun r => r) _) as [rest|e] eqn:Es in E; [|discriminate E]. cbn [bind] in E. inversion E; subst rows.
    destruct (rowrel_line c u fs fs' F 0 vals r Er) as (r' & Er' & R).
    destruct (IH rest Es) as (rest' & Es' & Rs).
    exists (r' :: rest'). split; [|constructor; assumption].
    rewrite Er'. cbn [bind]. rewrite Es'. reflexivity.
Qed.
(** Columns. *)
Lemma rowrel_heads c ks rows rows' : Forall2 (rowrel c ks) rows rows' -> rows <> [] -> forall hs ts, heads rows = Some (hs, ts) ->
  exists k ks' hs' ts', ks = k :: ks' /\ heads rows' = Some (hs', ts') /\ Forall2 (vrel c k) hs hs' /\ Forall2 (rowrel c ks') ts ts'.
Proof.
  induction 1 as [|r r' rows rows' R RS IH]; intros NE hs ts E; [congruence|].
  cbn in E. destruct r as [|v r]; [discriminate E|]. destruct (heads rows) as [[hs1 ts1]|] eqn:E1; [|discriminate E].
  inversion E; subst hs ts. inversion R as [|k ks' v0 w r0 r1 V R1]; subst.
  destruct rows as [|r2 rows].
  - inversion RS; subst. cbn in E1. inversion E1; subst hs1 ts1. exists k, ks', [w], [r1].
    split; [reflexivity | split; [reflexivity | split; constructor; (assumption || constructor)]].
  - destruct (IH ltac:(discriminate) hs1 ts1 eq_refl) as (k2 & ks2 & hs' & ts' & Ek & Eh & Vh & Rt).
    inversion Ek; subst k2 ks2. exists k, ks', (w :: hs'), (r1 :: ts').
    split; [reflexivity | split; [cbn; rewrite Eh; reflexivity | split; constructor; assumption]].
Qed.
Lemma rowrel_heads_none c ks rows rows' : Forall2 (rowrel c ks) rows rows' -> heads rows = None -> heads rows' = None.
Proof.
  induction 1 as [|r r' rows rows' R RS IH]; intros E; [discriminate E|]. cbn in *.
  destruct R; [reflexivity|]. destruct (heads rows) as [[hs ts]|]; [discriminate E|]. rewrite (IH eq_refl). reflexivity.
Qed.
Definition colrel (c : codec) (x y : list val) : Prop := exists k, x <> [] /\ Forall2 (vrel c k) x y.
Lemma heads_len {A} (ls : list (list A)) hs ts : heads ls = Some (hs, ts) -> ls <> [] -> hs <> [] /\ ts <> [].
Proof.
  destruct ls as [|[|x l] ls]; cbn; [congruence|discriminate|].
  destruct (heads ls) as [[h t]|]; [|discriminate]. intros E _. inversion E. split; discriminate.
Qed.
Lemma columns_rel c : forall n ks rows rows', Forall2 (rowrel c ks) rows rows' -> rows <> [] ->
  Forall2 (colrel c) (zipn_fuel n rows) (zipn_fuel n rows').
Proof.
  induction n as [|n IH]; intros ks rows rows' R NE; [constructor|]. cbn.
  destruct (heads rows) as [[hs ts]|] eqn:E.
  - destruct (rowrel_heads c ks rows rows' R NE hs ts E) as (k & ks' & hs' & ts' & _ & E' & V & RT). rewrite E'.
    destruct (heads_len rows hs ts E NE) as [N1 N2].
    constructor; [exists k; split; assumption | apply (IH ks'); assumption].
  - rewrite (rowrel_heads_none c ks rows rows' R E). constructor.
Qed.
Lemma rowrel_len c ks r r' : rowrel c ks r r' -> length r = length r'.
Proof. induction 1; cbn; congruence. Qed.
Lemma zipn_rel c ks rows rows' : Forall2 (rowrel c ks) rows rows' -> Forall2 (colrel c) (zipn rows) (zipn rows').
Proof.
  intros R. destruct R as [|r r' rows rows' R RS]; [constructor|]. cbn [zipn].
  rewrite <- (rowrel_len c ks r r' R). apply (columns_rel c _ ks); [constructor; assumption | discriminate].
Qed.
(** Dicts. *)
Definition drel {A B} (R : A -> B -> Prop) (x : Z * A) (y : Z * B) : Prop := fst x = fst y /\ R (snd x) (snd y).
Lemma zip_rel {A B} (R : A -> B -> Prop) l l' : Forall2 R l l' -> forall u, Forall2 (drel R) (zip u l) (zip u l').
Proof.
  induction 1 as [|x y l l' H _ IH]; intros u; destruct u as [|k u]; try constructor; [split; [reflexivity | exact H] | apply IH].
Qed.
Lemma label_rel {A B} (R : A -> B -> Prop) u l l' : Forall2 R l l' -> Forall2 (drel R) (label u l) (label u l').
Proof.
  intros H. destruct u as [u|]; cbn; [apply zip_rel; exact H|]. generalize 0.
  induction H as [|x y l l' X _ IH]; intros n; constructor; [split; [reflexivity | exact X] | apply IH].
Qed.
Lemma dset_rel {A B} (R : A -> B -> Prop) k x y d d' : R x y -> Forall2 (drel R) d d' -> Forall2 (drel R) (dset k x d) (dset k y d').
Proof.
  intros X. induction 1 as [|[k1 x1] [k2 y1] d d' [E1 E2] T IH]; cbn; [constructor; [split; [reflexivity | exact X] | constructor]|].
  cbn in E1. subst k2. destruct (Z.eqb k k1); constructor; first [exact T | exact IH | split; (reflexivity || assumption)].
Qed.
Lemma dict_of_rel {A B} (R : A -> B -> Prop) l l' : Forall2 (drel R) l l' -> Forall2 (drel R) (dict_of l) (dict_of l').
Proof.
  intros H. unfold dict_of. cut (forall d d', Forall2 (drel R) d d' ->
    Forall2 (drel R) (fold_left (fun d kv => dset (fst kv) (snd kv) d) l d) (fold_left (fun d kv => dset (fst kv) (snd kv) d) l' d')).
  { intros K. apply K. constructor. }
  induction H as [|x y l l' [E1 E2] _ IH]; intros d d' D; [exact D|]. cbn. apply IH. rewrite E1. apply dset_rel; assumption.
Qed.
(** Arrays. *)
Definition held_of (c : codec) (v w : val) : Prop :=
  exists t b ht hb, v = VStr ht /\ w = VBytes hb /\ padded t ht /\ padded b hb /\ decode c b = Ok t.
Lemma held_cast c v w : text_of c v w -> held_of c (cast KU v) (cast KS w).
Proof.
  intros (t & b & -> & -> & D). exists t, b, (drop_nuls t), (drop_nuls b).
  split; [reflexivity | split; [reflexivity | split; [apply drop_padded | split; [apply drop_padded | exact D]]]].
Qed.
Lemma array_rel c x y : colrel c x y -> undecoded c (np_array x) (np_array y) /\ length (aelems (np_array x)) = length (aelems (np_array y)).
Proof.
  intros ([|] & NE & H).
  - assert (K : forall l l', Forall2 (text_of c) l l' ->
      fold_left (fun k w => promote k (kind_of_val w)) l KU = KU /\ fold_left (fun k w => promote k (kind_of_val w)) l' KS = KS /\
      Forall2 (held_of c) (map (cast KU) l) (map (cast KS) l')).
    { clear. induction 1 as [|v w l l' T _ (I1 & I2 & I3)]; [split; [reflexivity | split; [reflexivity | constructor]]|].
      split; [|split; [|cbn [map]; constructor; [apply held_cast; exact T | exact I3]]];
        destruct T as (t & b & -> & -> & D); cbn; assumption. }
    destruct H as [|v w l l' T H]; [congruence|]. destruct (K l l' H) as (K1 & K2 & K3). pose proof (held_cast c v w T) as K0.
    destruct T as (t & b & -> & -> & D). unfold np_array. cbn [kind_of_val]. rewrite K1, K2.
    assert (F : Forall2 (held_of c) (map (cast KU) (VStr t :: l)) (map (cast KS) (VBytes b :: l'))) by (cbn [map]; constructor; assumption).
    split; [right; split; [reflexivity | split; [reflexivity | exact F]] | eapply Forall2_len'; exact F].
  - assert (x = y) by (clear NE; induction H as [|v w l l' E _ IH]; [reflexivity | cbn in E; congruence]). subst y.
    split; [left; reflexivity | reflexivity].
Qed.
Lemma self_eq_rel c x y : undecoded c x y -> np_self_eq x = np_self_eq y.
Proof.
  intros [->|(_ & _ & H)]; [reflexivity|]. unfold np_self_eq. f_equal.
  induction H as [|v w l l' (t & b & ht & hb & -> & -> & _) _ IH]; [reflexivity|]. cbn. rewrite IH. reflexivity.
Qed.
Lemma drel_keys {A B} (R : A -> B -> Prop) d d' : Forall2 (drel R) d d' -> dkeys d = dkeys d'.
Proof. induction 1 as [|x y d d' [E _] _ IH]; [reflexivity|]. unfold dkeys in *. cbn. rewrite E, IH. reflexivity. Qed.
Lemma drel_get {A B} (R : A -> B -> Prop) k d d' : Forall2 (drel R) d d' ->
  match dget k d, dget k d' with Some x, Some y => R x y | None, None => True | _, _ => False end.
Proof.
  induction 1 as [|[k1 x] [k2 y] d d' [E X] _ IH]; [exact I|]. cbn in E. subst k2. cbn.
  destruct (Z.eqb k k1); [exact X | exact IH].
Qed.
Lemma reset_rel c d d' n n' : Forall2 (drel (undecoded c)) d d' ->
  forall q, new_pack d n = q -> new_pack d' n' = mkpack d' n' (p_mask q) (p_cache q) (p_nof q) (p_mindur q) (p_prefix q) (p_fn q) (p_files q)
    /\ p_data q = d /\ p_names q = n.
Proof.
  intros H q <-. unfold new_pack, mask_reset. cbn [set_fn p_files p_data fst with_fn with_files]. rewrite <- (drel_keys _ _ _ H).
  destruct (zsort (dkeys d)) as [|k ks]; [repeat split|].
  pose proof (drel_get _ k _ _ H) as G. destruct (dget k d) as [x|], (dget k d') as [y|]; try contradiction; [|repeat split].
  rewrite (self_eq_rel c x y G). repeat split.
Qed.
Lemma names_rel c u fields n ns : names_tuple (Coded c) u fields n = Ok ns ->
  exists ns', names_tuple Raw u fields n = Ok ns' /\ Forall2 (text_of c) ns ns'.
Proof.
  unfold names_tuple. generalize (filter (fun cn : nat * str => in_cols u (fst cn)) (firstn n (enum_from 0 fields))).
  intros l. revert ns. induction l as [|x l IH]; intros ns E; [cbn in *; inversion E; subst ns; exists []; split; [reflexivity | constructor]|].
  cbn [mapM] in *. unfold decode_in at 1 in E. destruct (decode c (strip ws_bytes (snd x))) as [t|e] eqn:D; [|discriminate E].
  cbn [bind] in *. destruct (mapM _ l) as [r|e] eqn:Er in E; [|discriminate E]. cbn [bind] in E. inversion E; subst ns.
  destruct (IH r Er) as (r' & E' & R). rewrite E'. exists (VBytes (strip ws_bytes (snd x)) :: r').
  split; [reflexivity | constructor; [exists t, (strip ws_bytes (snd x)); auto | exact R]].
Qed.
Lemma mapM_cons_ok (x : res (list val)) l r : all_rows (x :: l) = Ok r -> exists a q, x = Ok a /\ all_rows l = Ok q /\ r = a :: q.
Proof.
  unfold all_rows. cbn. destruct x as [a|e]; [|discriminate]. cbn. destruct (mapM (fun r => r) l) as [q|e]; [|discriminate].
  cbn. intros E. inversion E. exists a, q. auto.
Qed.
Lemma datadict_rel c s u h a data names : t_debug a = false -> datadict s (Coded c) u h a = Ok (data, names) ->
  exists data' names', datadict s Raw u h (without_encoding a) = Ok (data', names') /\
    Forall2 (drel (colrel c)) data data' /\ Forall2 (drel (text_of c)) names names'.
Proof.
  intros D E. unfold datadict in *. rewrite D in E.
  change (t_debug (without_encoding a)) with (t_debug a). rewrite D.
  change (t_delimiter (without_encoding a)) with (t_delimiter a).
  change (t_converters (without_encoding a)) with (t_converters a).
  change (t_stripstrings (without_encoding a)) with (t_stripstrings a).
  destruct (linetuples s (Coded c) (t_delimiter a) u (t_converters a) (t_stripstrings a) h) as [y|e] eqn:Y; [|discriminate E].
  cbn [bind] in E. unfold linetuples in *.
  change (split_line (Coded c)) with (split_line Raw) in Y. change (ws_of (Coded c)) with (ws_of Raw) in Y.
  destruct (if h then _ else _) as [[fields s1]|e]; [|discriminate Y]. cbn [bind] in *.
  destruct (readline s1) as [first s2].
  destruct (split_line Raw (t_delimiter a) (strip_line (t_delimiter a) first)) as [fv|e]; [|discriminate Y]. cbn [bind] in *.
  destruct (line_funcs (Coded c) (t_stripstrings a) (t_converters a) fv) as [fs|e] eqn:F; [|discriminate Y]. cbn [bind] in Y.
  destruct (frel_line _ _ _ _ _ F) as (fs' & F' & FR). rewrite F'. cbn [bind]. inversion Y; subst y. clear Y. cbn [y_names y_rows] in *.
  assert (N : exists names', (if h then do ns <- names_tuple Raw u fields (length fv); Ok (dict_of (label u ns)) else Ok []) = Ok names'
     /\ Forall2 (drel (text_of c)) names names' /\ (do rows <- all_rows (line_tuple (Coded c) fs u fv :: flat_map (data_line (Coded c) (t_delimiter a) fs u) (lines_of s2));
         Ok (dict_of (label u (zipn rows)))) = Ok data).
  { destruct h.
    - destruct (names_tuple (Coded c) u fields (length fv)) as [ns|e] eqn:En; [|discriminate E]. cbn [bind] in E.
      destruct (names_rel _ _ _ _ _ En) as (ns' & En' & Rn). rewrite En'. cbn [bind].
      exists (dict_of (label u ns')). split; [reflexivity|].
      destruct (do rows <- all_rows _; _) as [dd|e] in E |- *; [|discriminate E]. cbn [bind] in E. inversion E; subst.
      split; [apply dict_of_rel, label_rel; exact Rn | reflexivity].
    - cbn [bind] in E. exists []. split; [reflexivity|].
      destruct (do rows <- all_rows _; _) as [dd|e] in E |- *; [|discriminate E]. cbn [bind] in E. inversion E; subst.
      split; [constructor | reflexivity]. }
  destruct N as (names' & -> & NR & E1). cbn [bind]. clear E.
  destruct (all_rows (line_tuple (Coded c) _ _ _ :: _)) as [rows|e] eqn:R; [|discriminate E1]. cbn [bind] in E1. inversion E1; subst data.
  apply mapM_cons_ok in R. destruct R as (r & q & Er & Eq & ->).
  destruct (rows_rel c _ u fs fs' _ q FR Eq) as (q' & Eq' & RR).
  destruct (rowrel_line c u fs fs' FR 0 fv r Er) as (r' & Er' & R1).
  assert (A : all_rows (line_tuple Raw fs' u fv :: flat_map (data_line Raw (t_delimiter a) fs' u) (lines_of s2)) = Ok (r' :: q')).
  { unfold all_rows in *. cbn [mapM]. unfold line_tuple at 1. rewrite Er'. cbn [bind]. rewrite Eq'. reflexivity. }
  rewrite A. cbn [bind]. exists (dict_of (label u (zipn (r' :: q')))), names'. split; [reflexivity | split; [|exact NR]].
  apply dict_of_rel, label_rel. apply (zipn_rel c (kinds u 0 fs)). constructor; assumption.
Qed.

Lemma C75_raw_proof :
forall c src a p, src_bytes src = true -> t_encoding a = Some c -> t_debug a = false ->
textpack src a = Ok p ->
exists p', textpack src (without_encoding a) = Ok p' /\
  Forall2 (fun x y => fst x = fst y /\ undecoded c (snd x) (snd y)) (p_data p) (p_data p') /\
  Forall2 (fun x y => fst x = fst y /\ (snd x = snd y \/ text_of c (snd x) (snd y))) (p_names p) (p_names p') /\
  p' = mkpack (p_data p') (p_names p') (p_mask p) (p_cache p) (p_nof p) (p_mindur p) (p_prefix p) (p_fn p) (p_files p).
Proof.
intros c src a p B E D R. unfold textpack in *. rewrite B, E in R. rewrite B.
change (t_names (without_encoding a)) with (t_names a).
change (t_hasnames (without_encoding a)) with (t_hasnames a).
change (t_usecols (without_encoding a)) with (t_usecols a).
change (t_skiprows (without_encoding a)) with (t_skiprows a).
change (t_encoding (without_encoding a)) with (@None codec). cbn [mode_of] in *.
destruct (match t_names a with [] => _ | _ => _ end) as [[u h] k].
destruct (datadict _ (Coded c) u h a) as [[data names]|e] eqn:DD; [|discriminate R]. cbn [bind] in R.
destruct (datadict_rel c _ u h a data names D DD) as (data' & names' & -> & DR & NR). cbn [bind].
set (nn := match t_names a with [] => names | _ => t_names a end) in *.
set (nn' := match t_names a with [] => names' | _ => t_names a end) in *.
set (dd := map (fun kv => (fst kv, np_array (snd kv))) data) in *.
set (dd' := map (fun kv => (fst kv, np_array (snd kv))) data') in *.
assert (HD : Forall2 (drel (undecoded c)) dd dd').
{ subst dd dd'. clear - DR. induction DR as [|x y d d' [K X] _ IH]; constructor; [|exact IH].
  split; [exact K | apply array_rel; exact X]. }
assert (HN : Forall2 (fun x y => fst x = fst y /\ (snd x = snd y \/ text_of c (snd x) (snd y))) nn nn').
{ subst nn nn'. destruct (t_names a) as [|kv l].
  - clear - NR. induction NR as [|x y d d' [K X] _ IH]; constructor; [split; [exact K | right; exact X] | exact IH].
  - generalize (kv :: l). intros m. induction m as [|z m IH]; constructor; [split; [reflexivity | left; reflexivity] | exact IH]. }
destruct (reset_rel c dd dd' nn nn' HD _ eq_refl) as (P & Q1 & Q2).
assert (X : p = fst (set_fn (OStr (src_name src)) (new_pack dd nn))) by (inversion R; reflexivity). clear R.
exists (fst (set_fn (OStr (src_name src)) (new_pack dd' nn'))). split; [reflexivity|]. subst p. rewrite P.
destruct (new_pack dd nn) as [d n m ca nf md pr fn fi]. cbn in Q1, Q2. subst d n. cbn.
split; [exact HD | split; [exact HN | reflexivity]].
Qed.

Definition alike {A B} (P : Prop) (e : exn) (x : res A) (y : res B) : Prop :=
  (forall v, x = Ok v -> exists w, y = Ok w) /\ (x = Err e -> P \/ y = Err e).
Lemma mapM_alike {A B C D} (P : Prop) e (f : A -> res B) (g : C -> res D) l l' :
  Forall2 (fun x y => alike P e (f x) (g y)) l l' -> alike P e (mapM f l) (mapM g l').
Proof.
  induction 1 as [|x y l l' [O E] _ [IO IE]]; [split; [intros v _; exists []; reflexivity | discriminate]|].
  cbn [mapM]. split.
  - intros v H. destruct (f x) as [u|] eqn:F; [|discriminate H]. destruct (O u eq_refl) as (w & ->). cbn [bind] in *.
    destruct (mapM f l) as [us|]; [|discriminate H]. destruct (IO us eq_refl) as (ws & ->). exists (w :: ws). reflexivity.
  - intros H. destruct (f x) as [u|e1] eqn:F.
    + destruct (O u eq_refl) as (w & ->). cbn [bind] in *. destruct (mapM f l) as [us|e1]; [discriminate H|].
      cbn [bind] in H. inversion H; subst e1. destruct (IE eq_refl) as [p | ->]; [left; exact p | right; reflexivity].
    + cbn [bind] in H. inversion H; subst e1. destruct (E eq_refl) as [p | ->]; [left; exact p | right; reflexivity].
Qed.
Lemma alike_bind {A B C D} (P : Prop) e (x : res A) (y : res B) (f : A -> res C) (g : B -> res D) :
  alike P e x y -> (forall v w, x = Ok v -> y = Ok w -> alike P e (f v) (g w)) -> alike P e (bind x f) (bind y g).
Proof.
  intros [O E] H. split.
  - intros u K. destruct x as [v|]; [|discriminate K]. destruct (O v eq_refl) as (w & ->). exact (proj1 (H v w eq_refl eq_refl) u K).
  - intros K. destruct x as [v|e1].
    + destruct (O v eq_refl) as (w & ->). exact (proj2 (H v w eq_refl eq_refl) K).
    + cbn in K. inversion K; subst e1. destruct (E eq_refl) as [p | ->]; [left; exact p | right; reflexivity].
Qed.
Lemma alike_refl {A} (P : Prop) e (x : res A) : alike P e x x.
Proof. split; [intros v ->; exists v; reflexivity | intros ->; right; reflexivity]. Qed.
Lemma alike_ok {A B} (P : Prop) e (x : A) (y : B) : alike P e (Ok x) (Ok y).
Proof. split; [intros v _; exists y; reflexivity | discriminate]. Qed.
Lemma apply_alike c e f g s : frel f g -> alike (exists b, decode c b = Err e) e (apply_func (Coded c) f s) (apply_func Raw g s).
Proof.
  intros F. destruct F; try apply alike_refl; cbn.
  - destruct (decode c s) as [t|e1] eqn:D; [apply alike_ok|]. split; [discriminate|]. intros E. left. exists s. rewrite D. inversion E. reflexivity.
  - destruct (decode c (strip ws_bytes s)) as [t|e1] eqn:D; [apply alike_ok|]. split; [discriminate|].
    intros E. left. exists (strip ws_bytes s). rewrite D. inversion E. reflexivity.
Qed.
Lemma line_alike c e u fs fs' vals : Forall2 frel fs fs' ->
  alike (exists b, decode c b = Err e) e (line_tuple (Coded c) fs u vals) (line_tuple Raw fs' u vals).
Proof.
  intros F. unfold line_tuple. apply mapM_alike. generalize 0. revert vals.
  induction F as [|f g fs fs' X _ IH]; intros vals n; [constructor|].
  destruct vals as [|s vals]; [constructor|]. cbn. destruct (in_cols u n); [|apply IH].
  constructor; [apply apply_alike; exact X | apply IH].
Qed.
Lemma rows_alike c e delim u fs fs' lines : Forall2 frel fs fs' ->
  Forall2 (alike (exists b, decode c b = Err e) e) (flat_map (data_line (Coded c) delim fs u) lines) (flat_map (data_line Raw delim fs' u) lines).
Proof.
  intros F. induction lines as [|l lines IH]; [constructor|]. cbn [flat_map]. apply Forall2_app; [|exact IH].
  unfold data_line. destruct (strip_line delim l) as [|x sl]; [constructor|]. constructor; [|constructor].
  apply alike_bind; [apply alike_refl|]. intros v w Ev Ew.
  change (split_line (Coded c)) with (split_line Raw) in Ev. rewrite Ev in Ew. inversion Ew; subst w. apply line_alike. exact F.
Qed.
Lemma set_alike P e convs : forall l l', length l = length l' -> alike P e (set_funcs l convs) (set_funcs l' convs).
Proof.
  induction convs as [|[k f] convs IH]; intros l l' N; [apply alike_ok|]. cbn [set_funcs]. unfold list_set. rewrite <- N.
  set (j := (if (k <? 0)%Z then _ else _)). destruct ((0 <=? j) && (j <? Z.of_nat (length l)))%Z; cbn [bind].
  - apply IH. rewrite !app_length. cbn [length]. rewrite !firstn_length, !skipn_length, N. reflexivity.
  - split; [discriminate | intros E; right; inversion E; reflexivity].
Qed.
Lemma funcs_alike c P e ss convs fv : alike P e (line_funcs (Coded c) ss convs fv) (line_funcs Raw ss convs fv).
Proof.
  unfold line_funcs.
  assert (H : Forall2 frel (map (field_func (Coded c) ss) fv) (map (field_func Raw ss) fv)).
  { induction fv as [|v fv IH]; constructor; [apply frel_field | exact IH]. }
  rewrite <- (frel_floatit _ _ H). destruct (existsb is_floatit _).
  - apply Forall2_len' in H. clear - H.
    assert (N : length (map (fun f => match f with MaybeNan => FloatIt | _ => f end) (map (field_func (Coded c) ss) fv)) =
                length (map (fun f => match f with MaybeNan => FloatIt | _ => f end) (map (field_func Raw ss) fv))) by (rewrite !map_length; reflexivity).
    clear H. revert N. generalize (map (fun f => match f with MaybeNan => FloatIt | _ => f end) (map (field_func (Coded c) ss) fv)).
    generalize (map (fun f => match f with MaybeNan => FloatIt | _ => f end) (map (field_func Raw ss) fv)).
    intros l' l N. apply set_alike. exact N.
  - apply set_alike. eapply Forall2_len'. exact H.
Qed.
Lemma names_alike c e u fields n : alike (exists b, decode c b = Err e) e (names_tuple (Coded c) u fields n) (names_tuple Raw u fields n).
Proof.
  unfold names_tuple. apply mapM_alike. induction (filter _ _) as [|x l IH]; constructor; [|exact IH]. unfold decode_in.
  destruct (decode c (strip ws_bytes (snd x))) as [t|e1] eqn:D; [apply alike_ok|]. split; [discriminate|].
  intros E. left. exists (strip ws_bytes (snd x)). rewrite D. inversion E. reflexivity.
Qed.
Lemma datadict_alike c e s u h a : t_debug a = false ->
  alike (exists b, decode c b = Err e) e (datadict s (Coded c) u h a) (datadict s Raw u h (without_encoding a)).
Proof.
  intros D. unfold datadict, linetuples. rewrite D.
  change (t_debug (without_encoding a)) with (t_debug a). rewrite D.
  change (t_delimiter (without_encoding a)) with (t_delimiter a).
  change (t_converters (without_encoding a)) with (t_converters a).
  change (t_stripstrings (without_encoding a)) with (t_stripstrings a).
  change (split_line (Coded c)) with (split_line Raw). change (ws_of (Coded c)) with (ws_of Raw).
  destruct (if h then _ else _) as [[fields s1]|e1] eqn:X; cbn [bind]; [|split; [discriminate | intros E; right; inversion E; reflexivity]].
  destruct (readline s1) as [first s2].
  destruct (split_line Raw (t_delimiter a) (strip_line (t_delimiter a) first)) as [fv|e1]; cbn [bind];
    [|split; [discriminate | intros E; right; inversion E; reflexivity]].
  pose proof (funcs_alike c (exists b, decode c b = Err e) e (t_stripstrings a) (t_converters a) fv) as FA.
  destruct (line_funcs (Coded c) (t_stripstrings a) (t_converters a) fv) as [fs|e1] eqn:F; cbn [bind].
  - destruct (frel_line _ _ _ _ _ F) as (fs' & F' & FR). rewrite F'. cbn [bind y_names y_rows].
    apply alike_bind.
    + destruct h; [|apply alike_ok]. apply alike_bind; [apply names_alike | intros; apply alike_ok].
    + intros v w _ _. apply alike_bind; [|intros; apply alike_ok].
      apply alike_bind; [|intros; apply alike_ok]. apply mapM_alike. constructor; [apply line_alike; exact FR | apply rows_alike; exact FR].
  - split; [discriminate|]. intros E. cbn in E. inversion E; subst e1. destruct FA as [_ FE].
    destruct (FE eq_refl) as [p | ->]; [left; exact p | right; reflexivity].
Qed.

Lemma C75_raw_error_proof :
forall c src a e, src_bytes src = true -> t_encoding a = Some c -> t_debug a = false ->
textpack src a = Err e ->
(exists b, decode c b = Err e) \/ textpack src (without_encoding a) = Err e.
Proof.
intros c src a e B E D R. unfold textpack in *. rewrite B, E in R. rewrite B.
change (t_names (without_encoding a)) with (t_names a).
change (t_hasnames (without_encoding a)) with (t_hasnames a).
change (t_usecols (without_encoding a)) with (t_usecols a).
change (t_skiprows (without_encoding a)) with (t_skiprows a).
change (t_encoding (without_encoding a)) with (@None codec). cbn [mode_of] in *.
destruct (match t_names a with [] => _ | _ => _ end) as [[u h] k].
pose proof (datadict_alike c e (skip_lines (Z.to_nat k) (skipn (src_pos src) (src_text src))) u h a D) as [_ A].
destruct (datadict _ (Coded c) u h a) as [[data names]|e1] eqn:DD; [discriminate R|]. cbn [bind] in R. inversion R; subst e1.
destruct (A eq_refl) as [p | ->]; [left; exact p | right; reflexivity].
Qed.

