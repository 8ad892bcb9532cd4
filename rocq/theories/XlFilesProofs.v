(** * What sheetpack leaves open *)

From Verif Require Import PyBase PyText NumPy Pack Dbf ReadXl CompDoc Biff BiffOld FileIO XlFiles FileIOProofs.
From Coq Require Import Lia.
Open Scope nat_scope.

(** Nothing is mapped; whoever has the map is the Book. *)
Definition unmapped (s : osys) : Prop := os_map s = false.
Definition held (s : osys) : Prop := os_map s = true -> os_filestr s = Map.

Lemma unmapped_held s : unmapped s -> held s.
Proof. unfold unmapped, held. intros -> X. discriminate X. Qed.

(** [m] returns what [p] says or what the first failing call raised; it leaves
    as many files open as there were, does not lose the map, and does not touch
    the archive. *)
Definition psim {A} (fl : faults) (I J : osys -> Prop) (m : prog A) (p : res A) : Prop :=
  forall s s' r, I s -> m s = (s', r) ->
  held s' /\ (is_ok r = true -> J s') /\ os_files s' = os_files s /\ os_zip s' = os_zip s /\ os_calls s <= os_calls s' /\
  ((exists k e, os_calls s' = S k /\ os_calls s <= k /\ fl k = Some e /\ quiet fl (os_calls s) k /\ r = Err e) \/
   (quiet fl (os_calls s) (os_calls s') /\ r = p)).

Definition inner (f : osys -> osys) : Prop := forall s,
  os_files (f s) = os_files s /\ os_zip (f s) = os_zip s /\ os_calls (f s) = os_calls s.

Lemma psim_set {A} fl (I J : osys -> Prop) (f : osys -> osys) (r : res A) :
  inner f -> (forall s, I s -> held (f s) /\ J (f s)) -> psim fl I J (fun s => (f s, r)) r.
Proof.
  intros Hf HI s s' r' H R. inversion R; subst s' r'. destruct (Hf s) as (F & Zp & C).
  destruct (HI s H) as [H1 H2]. split; [exact H1 | split; [intros _; exact H2|]].
  rewrite F, Zp, C. split; [reflexivity | split; [reflexivity | split; [lia | right]]].
  split; [apply quiet_none | reflexivity].
Qed.

Lemma psim_just {A} fl (I : osys -> Prop) (p : res A) : (forall s, I s -> held s) -> psim fl I I (just p) p.
Proof.
  intros H. apply (psim_set fl I I (fun s => s)); [intros s; repeat split | intros s Hs; split; [exact (H s Hs) | exact Hs]].
Qed.

Lemma psim_next {A B} fl I J K (m : prog A) (f : A -> prog B) p q :
  psim fl I J m p -> (forall a, psim fl J K (f a) (q a)) -> psim fl I K (next m f) (bind p q).
Proof.
  intros Hm Hf s s' r H R. unfold next in R. destruct (m s) as [s1 r1] eqn:E1.
  destruct (Hm s s1 r1 H E1) as (H1 & J1 & F1 & Z1 & O1 & D1). destruct r1 as [a|e1].
  - destruct (Hf a s1 s' r (J1 eq_refl) R) as (H2 & J2 & F2 & Z2 & O2 & D2).
    split; [exact H2 | split; [exact J2 | split; [congruence | split; [congruence | split; [lia|]]]]].
    destruct D1 as [(k & e & _ & _ & _ & _ & X) | [Q1 V1]]; [discriminate X|]. subst p.
    destruct D2 as [(k & e & K1 & K2 & K3 & K4 & K5) | [Q2 V2]].
    + left. exists k, e. split; [exact K1 | split; [lia | split; [exact K3 | split; [|exact K5]]]].
      exact (quiet_app fl _ _ _ Q1 K4).
    + right. split; [exact (quiet_app fl _ _ _ Q1 Q2) | exact V2].
  - inversion R; subst s' r. split; [exact H1 | split; [intros X; discriminate X | split; [exact F1 | split; [exact Z1 | split; [exact O1|]]]]].
    destruct D1 as [(k & e & K1 & K2 & K3 & K4 & K5) | [Q1 V1]].
    + left. exists k, e. inversion K5; subst e1. auto 8.
    + right. split; [exact Q1|]. subst p. reflexivity.
Qed.

(** A call that raises leaves all as it is but the number of calls. *)
Definition stable (I : osys -> Prop) : Prop := forall s n,
  I s -> I (mkos (os_files s) (os_map s) (os_zip s) (os_mem s) (os_filestr s) n).

Lemma psim_call fl (I J : osys -> Prop) f : stable I -> (forall s, I s -> held s) -> inner f ->
  (forall s, I s -> held (f s) /\ J (f s)) -> psim fl I J (oscall fl f) (Ok tt).
Proof.
  intros St Hh Hf HI s s' r H R. unfold oscall in R. destruct (fl (os_calls s)) as [e|] eqn:E.
  - inversion R; subst s' r. cbn.
    split; [exact (Hh _ (St s _ H)) | split; [intros X; discriminate X | split; [reflexivity | split; [reflexivity | split; [lia | left]]]]].
    exists (os_calls s), e. split; [reflexivity | split; [lia | split; [exact E | split; [apply quiet_none | reflexivity]]]].
  - set (s1 := mkos _ _ _ _ _ _) in R. inversion R; subst s' r.
    destruct (Hf s1) as (F & Zp & C). destruct (HI s1 (St s _ H)) as [H1 H2].
    split; [exact H1 | split; [intros _; exact H2|]].
    rewrite F, Zp, C. cbn. split; [reflexivity | split; [reflexivity | split; [lia | right]]].
    split; [|reflexivity]. intros k Hk. replace k with (os_calls s) by lia. exact E.
Qed.

(** The number of files and calls does not matter to [I]. *)
Definition blind (I : osys -> Prop) : Prop := forall s f n,
  I s -> I (mkos f (os_map s) (os_zip s) (os_mem s) (os_filestr s) n).

Lemma psim_open {A} fl (I J : osys -> Prop) (body : prog A) p : blind I -> blind J -> (forall s, I s -> held s) ->
  psim fl I J body p -> psim fl I J (with_open fl body) p.
Proof.
  intros BI BJ Hh Hb s s' r H R. unfold with_open, next, oscall in R. destruct (fl (os_calls s)) as [e|] eqn:E.
  - inversion R; subst s' r. cbn.
    split; [exact (Hh _ (BI s _ _ H)) | split; [intros X; discriminate X | split; [reflexivity | split; [reflexivity | split; [lia | left]]]]].
    exists (os_calls s), e. split; [reflexivity | split; [lia | split; [exact E | split; [apply quiet_none | reflexivity]]]].
  - set (s1 := set_files S _) in R. destruct (body s1) as [s2 r2] eqn:E2.
    assert (H1 : I s1) by exact (BI s _ _ H).
    destruct (Hb s1 s2 r2 H1 E2) as (H2 & J2 & F2 & Z2 & O2 & D2). inversion R; subst s' r.
    assert (C1 : os_calls s1 = S (os_calls s)) by reflexivity. rewrite C1 in *.
    assert (Q1 : quiet fl (os_calls s) (S (os_calls s))).
    { intros k Hk. replace k with (os_calls s) by lia. exact E. }
    split; [exact H2 | split; [intros X; exact (BJ s2 _ _ (J2 X))|]].
    split; [cbn; rewrite F2; reflexivity | split; [cbn; rewrite Z2; reflexivity | split; [cbn; lia|]]].
    destruct D2 as [(k & e & K1 & K2 & K3 & K4 & K5) | [Q2 V2]].
    + left. exists k, e. split; [exact K1 | split; [lia | split; [exact K3 | split; [|exact K5]]]].
      exact (quiet_app fl _ _ _ Q1 K4).
    + right. split; [exact (quiet_app fl _ _ _ Q1 Q2) | exact V2].
Qed.

Lemma psim_eq {A} fl I J (m : prog A) p q : psim fl I J m p -> p = q -> psim fl I J m q.
Proof. intros H <-. exact H. Qed.

Lemma blind_unmapped : blind unmapped.
Proof. intros s f n H. exact H. Qed.

Lemma blind_held : blind held.
Proof. intros s f n H. exact H. Qed.

Lemma psim_plain fl I : blind I -> (forall s, I s -> held s) -> psim fl I I (oscall fl (fun s => s)) (Ok tt).
Proof.
  intros B H. apply psim_call; [intros s n X; apply B; exact X | exact H | intros s; repeat split|].
  intros s X. split; [exact (H s X) | exact X].
Qed.

Lemma psim_load fl use_mmap same file :
  psim fl unmapped held (load_files fl use_mmap same file)
    (match file with [] => Err XLRDError | _ => do _ <- load file; Ok tt end).
Proof.
  unfold load_files.
  apply (psim_eq fl _ _ _ (do _ <- (do _ <- Ok tt; do _ <- Ok tt; do _ <- Ok tt;
      match file with [] => Err XLRDError | _ => Ok tt end);
      if negb (str_eqb (bytes_at 0 8 file) SIGNATURE) then Ok tt else do _ <- load file; Ok tt)).
  2:{ destruct file as [|c file]; [reflexivity|]. cbn [bind]. unfold load.
      destruct (negb (str_eqb (bytes_at 0 8 (c :: file)) SIGNATURE)); reflexivity. }
  apply (psim_next fl unmapped held held).
  - apply psim_open; [exact blind_unmapped | exact blind_held | exact unmapped_held|].
    apply (psim_next fl unmapped unmapped held); [apply psim_plain; [exact blind_unmapped | exact unmapped_held] | intros _].
    apply (psim_next fl unmapped unmapped held); [apply psim_plain; [exact blind_unmapped | exact unmapped_held] | intros _].
    apply (psim_next fl unmapped unmapped held); [apply psim_plain; [exact blind_unmapped | exact unmapped_held] | intros _].
    destruct file as [|c file].
    + apply (psim_set fl unmapped held (fun s => s)); [intros s; repeat split|].
      intros s H. split; exact (unmapped_held s H).
    + destruct use_mmap.
      * apply psim_call; [intros s n H; exact H | exact unmapped_held | intros s; repeat split|].
        intros s H. split; intros _; reflexivity.
      * apply psim_call; [intros s n H; exact H | exact unmapped_held | intros s; repeat split|].
        intros s H. split; intros X; unfold unmapped in H; cbn in X; congruence.
  - intros _. destruct (negb (str_eqb (bytes_at 0 8 file) SIGNATURE)).
    + apply (psim_set fl held held (fun s => set_mem (os_filestr s) s)); [intros s; repeat split|].
      intros s H. split; exact H.
    + apply (psim_next fl held held held); [apply psim_just; auto|]. intros _.
      destruct same.
      * apply (psim_set fl held held (fun s => set_mem (os_filestr s) s)); [intros s; repeat split|].
        intros s H. split; exact H.
      * apply (psim_set fl held held (fun s => set_filestr Bytes (close_owned (os_filestr s) (set_mem Bytes s)))).
        -- intros s. destruct (os_filestr s); repeat split.
        -- intros s H. unfold held in *.
           assert (X : os_map (set_filestr Bytes (close_owned (os_filestr s) (set_mem Bytes s))) = false).
           { destruct (os_filestr s) eqn:E; cbn; [|reflexivity|]; destruct (os_map s); auto; discriminate (H eq_refl). }
           split; rewrite X; discriminate.
Qed.

Lemma release_all s : held s -> os_map (release s) = false /\ os_files (release s) = os_files s /\
  os_zip (release s) = os_zip s /\ os_calls (release s) = os_calls s.
Proof.
  intros H. unfold release, held in *. destruct s as [f m z me fs c]. cbn in *.
  destruct me, fs, m; cbn; repeat split; try discriminate (H eq_refl).
Qed.

Lemma psim_xls fl dec use_mmap same file :
  psim fl unmapped unmapped (open_xls_files fl dec use_mmap same file) (open_xls_dec dec file).
Proof.
  intros s s' r H R. unfold open_xls_files in R.
  pose (w := do _ <- (match file with [] => Err XLRDError | _ => do _ <- load file; Ok tt end); open_xls_dec dec file).
  assert (W : w = open_xls_dec dec file).
  { unfold w, open_xls_dec. destruct file as [|c file]; [reflexivity|].
    destruct (load (c :: file)) as [[m b]|e]; reflexivity. }
  assert (P : psim fl unmapped held (let+ _ := load_files fl use_mmap same file in just (open_xls_dec dec file)) w).
  { apply (psim_next fl unmapped held held); [apply psim_load | intros _; apply psim_just; auto]. }
  rewrite W in P.
  destruct ((let+ _ := load_files fl use_mmap same file in just (open_xls_dec dec file)) s) as [s1 r1] eqn:E.
  destruct (P s s1 r1 H E) as (H1 & _ & F1 & Z1 & O1 & D1). inversion R; subst s' r.
  destruct (release_all s1 H1) as (M & F & Zp & C). rewrite F, Zp, C.
  split; [apply unmapped_held; exact M | split; [intros _; exact M | split; [exact F1 | split; [exact Z1 | split; [exact O1 | exact D1]]]]].
Qed.

Lemma psim_sheetpack fl dec use_mmap same file zipped fname which header startcell stopcell usecols :
  str_eqb (bytes_at 0 4 file) [80; 75; 3; 4]%N = false ->
  psim fl unmapped unmapped
    (sheetpack_files fl dec use_mmap same file zipped fname which header startcell stopcell usecols)
    (sheetpack_dec dec file fname which header startcell stopcell usecols).
Proof.
  intros NZ. unfold sheetpack_files, sheetpack_dec, open_workbook_dec. rewrite NZ.
  apply (psim_next fl unmapped unmapped unmapped); [apply psim_just; exact unmapped_held | intros _].
  apply (psim_next fl unmapped unmapped unmapped); [apply psim_just; exact unmapped_held | intros _].
  apply (psim_next fl unmapped unmapped unmapped).
  - unfold open_files. rewrite NZ.
    apply (psim_eq fl _ _ _ (do _ <- Ok tt; open_xls_dec dec file)); [|reflexivity].
    apply (psim_next fl unmapped unmapped unmapped).
    + apply psim_open; [exact blind_unmapped | exact blind_unmapped | exact unmapped_held|].
      apply psim_plain; [exact blind_unmapped | exact unmapped_held].
    + intros _. apply psim_xls.
  - intros wb. apply (psim_set fl unmapped unmapped release).
    + intros s. unfold release. destruct (os_mem s), (os_filestr s) eqn:E; cbn; rewrite ?E; cbn; repeat split.
    + intros s H. destruct (release_all s (unmapped_held s H)) as (M & _).
      split; [apply unmapped_held; exact M | exact M].
Qed.

(** The state at which sheetpack raises. *)
Lemma raised_unmapped fl dec use_mmap same file zipped fname which header startcell stopcell usecols s e :
  str_eqb (bytes_at 0 4 file) [80; 75; 3; 4]%N = false ->
  sheetpack_files fl dec use_mmap same file zipped fname which header startcell stopcell usecols os_start = (s, Err e) ->
  os_map s = false.
Proof.
  intros NZ R. unfold sheetpack_files in R. unfold next at 1 in R. unfold just at 1 in R.
  destruct (cellreference 0 0 startcell); [|inversion R; reflexivity].
  unfold next at 1 in R. unfold just at 1 in R.
  destruct (cellreference 0 0 stopcell); [|inversion R; reflexivity].
  unfold next at 1 in R. unfold open_files in R. rewrite NZ in R. unfold next at 1 in R.
  destruct (with_open fl (oscall fl (fun s => s)) os_start) as [s1 r1] eqn:E1.
  assert (U1 : os_map s1 = false).
  { unfold with_open, next, oscall in E1. destruct (fl (os_calls os_start)); [inversion E1; reflexivity|].
    destruct (fl _) in E1; inversion E1; reflexivity. }
  destruct r1; [|inversion R; subst; exact U1].
  destruct (open_xls_files fl dec use_mmap same file s1) as [s2 r2] eqn:E2.
  assert (U2 : os_map s2 = false).
  { unfold open_xls_files in E2.
    destruct ((let+ _ := load_files fl use_mmap same file in just (open_xls_dec dec file)) s1) as [s3 r3] eqn:E3.
    inversion E2; subst s2 r2.
    assert (P : psim fl unmapped held (let+ _ := load_files fl use_mmap same file in just (open_xls_dec dec file))
        (do _ <- (match file with [] => Err XLRDError | _ => do _ <- load file; Ok tt end); open_xls_dec dec file)).
    { apply (psim_next fl unmapped held held); [apply psim_load | intros _; apply psim_just; auto]. }
    destruct (P s1 s3 r3 U1 E3) as (H3 & _). exact (proj1 (release_all s3 H3)). }
  destruct r2 as [wb|e2]; [|inversion R; subst; exact U2].
  inversion R; subst s. exact (proj1 (release_all s2 (unmapped_held s2 U2))).
Qed.
