(** * Sheets read when they are asked for: proofs of the property theorems *)

From Coq Require Import ZifyBool ZifyNat ZifyN QArith.
From Verif Require Import PyBase PyText PyFloat NumPy Dbf ReadXl CompDoc XlSheet Biff SpecFmtDate SpecXlSheet SpecDoc SpecBiff SpecAccess XlDemand SpecDemand PyBaseFacts BiffProofs BiffThms AccessProofs DemandProofs.
Open Scope nat_scope.
Open Scope Z_scope.
(** Two sheets with a cell each; the countries are told once for the book. *)
Definition ex_two : str := [9; 8; 8; 0; 0; 6; 5; 0; 187; 13; 204; 7; 133; 0; 9; 0; 50; 0; 0; 0; 0; 0; 1; 0; 97; 133; 0; 9; 0; 78; 0; 0; 0; 0; 0; 1; 0; 98; 140; 0; 4; 0; 1; 0; 1; 0; 10; 0; 0; 0;
  9; 8; 8; 0; 0; 6; 16; 0; 187; 13; 204; 7; 5; 2; 8; 0; 0; 0; 0; 0; 0; 0; 1; 0; 10; 0; 0; 0;
  9; 8; 8; 0; 0; 6; 16; 0; 187; 13; 204; 7; 5; 2; 8; 0; 0; 0; 0; 0; 0; 0; 0; 0; 10; 0; 0; 0]%N.
(** Two empty sheets, the first with countries 0, 0 and the second with 1, 1. *)
Definition ex_order : str := [9; 8; 8; 0; 0; 6; 5; 0; 187; 13; 204; 7; 133; 0; 9; 0; 42; 0; 0; 0; 0; 0; 1; 0; 97; 133; 0; 9; 0; 66; 0; 0; 0; 0; 0; 1; 0; 98; 10; 0; 0; 0;
  9; 8; 8; 0; 0; 6; 16; 0; 187; 13; 204; 7; 140; 0; 4; 0; 0; 0; 0; 0; 10; 0; 0; 0;
  9; 8; 8; 0; 0; 6; 16; 0; 187; 13; 204; 7; 140; 0; 4; 0; 1; 0; 1; 0; 10; 0; 0; 0]%N.
(** Countries 1, 1 and a record that is too short in the first sheet, countries 2, 2 in the second. *)
Definition ex_fails : str := [9; 8; 8; 0; 0; 6; 5; 0; 187; 13; 204; 7; 133; 0; 9; 0; 42; 0; 0; 0; 0; 0; 1; 0; 97; 133; 0; 9; 0; 72; 0; 0; 0; 0; 0; 1; 0; 98; 10; 0; 0; 0; 9; 8; 8; 0; 0; 6; 16; 0; 187; 13; 204; 7; 140; 0; 4; 0; 1; 0; 1; 0; 3; 2; 2; 0; 0; 0; 10; 0; 0; 0; 9; 8; 8; 0; 0; 6; 16; 0; 187; 13; 204; 7; 140; 0; 4; 0; 2; 0; 2; 0; 10; 0; 0; 0]%N.
Definition ex_a : sheet := mksheet 1 1 [[VInt 1]] [[4]].
Definition ex_b : sheet := mksheet 1 1 [[VInt 0]] [[4]].
(** The book, if the file opens on demand. *)
Definition ex_book_of (file : str) : obook :=
  match open_book file true with Ok a => a | Err _ => mkobook [] new_globals (0, 0) [] true 0 end.
(** What calls on a file opened on demand give. *)
Definition on_demand (file : str) (cs : list call) : list (res answer) :=
  match open_book file true with Ok a => snd (run a cs) | Err e => [Err e] end.

Lemma loads_none xs : forall bk l, ob_list bk = map Some xs -> (forall i, In i l -> 0 <= i < Z.of_nat (length xs)) -> load_missing bk l = (bk, Ok tt).
Proof.
  intros bk l E. induction l as [|i l IH]; intro B; cbn [load_missing]; [reflexivity|].
  assert (0 <= i < Z.of_nat (length xs)) as I by (apply B; left; reflexivity).
  assert (exists x, nth_error xs (Z.to_nat i) = Some x) as (x & X) by (apply slot; lia).
  replace (py_index (ob_list bk) i) with (Some (Some x)). { apply IH. intros j J. apply B. right. exact J. }
  symmetry. rewrite py_index_nonneg by lia. rewrite E, nth_error_map, X. reflexivity.
Qed.
Lemma opened_both file :
  match open_xls file with
  | Ok wb => exists a e xs, open_book file true = Ok a /\ open_book file false = Ok e /\
      ob_mem e = ob_mem a /\ ob_globals e = ob_globals a /\ reads (ob_globals a) (ob_mem a) (ob_countries a) (b_sheets (ob_globals a)) (bk_sheets wb) (ob_countries e) /\
      ob_released a = false /\ ob_list a = map (fun _ => None) (b_sheets (ob_globals a)) /\ ob_released e = true /\
      ob_list e = map Some xs /\ map l_sheet xs = bk_sheets wb /\ map l_name xs = bk_names wb /\ bk_names wb = names_of (ob_globals a) /\
      map l_number xs = map Z.of_nat (seq 0 (length (bk_names wb)))
  | Err x => open_book file false = Err x
  end.
Proof.
  unfold open_xls, open_book. destruct file as [|ch file]; [reflexivity|]. set (F := ch :: file). destruct (load F) as [[mem base]|x]; [|reflexivity]. cbn [bind].
  destruct (getbof mem base 5) as [[v pos]|x]; [|reflexivity]. cbn [bind]. destruct (v =? 0); [reflexivity|]. destruct (negb _); [reflexivity|].
  destruct (parse_globals _ _ _ _ _) as [b|x]; [|reflexivity]. cbn [bind]. cbv zeta.
  set (bk := mkobook _ _ _ _ _ _). rewrite zrange_seq.
  pose proof (get_all_is b mem (b_sheets b) [] (b_countries b) bk eq_refl eq_refl eq_refl eq_refl eq_refl (map_length _ _)) as H. cbn [length] in H.
  destruct (Biff.get_sheets b mem (b_sheets b) (b_countries b)) as [shs|x]; cbn [bind].
  - destruct H as (bk' & xs & H1 & H2 & H3 & H4 & H5 & H6 & H7 & H8). rewrite H1. exists bk, (release_resources bk'), xs. cbn [bk_sheets bk_names].
    rewrite map_length. repeat (split; [try reflexivity; try assumption|]); try assumption.
  - destruct H as (bk' & ->). reflexivity.
Qed.

Lemma C83_opens_proof :
forall file,
  match open_xls file with
  | Ok wb => (exists a, open_book file true = Ok a) /\
      exists e xs, open_book file false = Ok e /\
        snd (run e [CNames; CCount; CSheets]) = [Ok (ANames (bk_names wb)); Ok (ANum (Z.of_nat (length (bk_names wb)))); Ok (AList (map Some xs))] /\
        map l_sheet xs = bk_sheets wb /\ map l_name xs = bk_names wb /\ map l_number xs = map Z.of_nat (seq 0 (length (bk_names wb)))
  | Err x => open_book file false = Err x
  end.
Proof.
intro file. pose proof (opened_both file) as H. destruct (open_xls file) as [wb|x]; [|exact H].
destruct H as (a & e & xs & A & E & _ & G & _ & _ & _ & _ & L & S & N & NN & NU). split; [exists a; exact A|]. exists e, xs. split; [exact E|].
assert (length xs = length (bk_names wb)) as LX by (rewrite <- N, map_length; reflexivity).
split; [|auto]. cbn [run respond to_answer]. unfold to_answer, sheets, nsheets. rewrite (loads_none xs e); [|exact L|].
- cbn [fst snd bind]. rewrite G, L, map_length, LX, NN. reflexivity.
- intros i I. rewrite L, map_length, zrange_seq, in_map_iff in I. destruct I as (k & <- & K). apply in_seq in K. lia.
Qed.

Lemma new_follows mem g right (P : Z * Z -> Prop) bk : ob_mem bk = mem -> ob_globals bk = g -> ob_released bk = false -> P (ob_countries bk) ->
  ob_list bk = map (fun _ => None) (b_sheets g) -> follows mem g right P [] bk.
Proof.
  intros A B C D E. exists false. split; [split; [discriminate|intros []]|]. split; [exact A|]. split; [exact B|]. split; [rewrite E; apply map_length|].
  split; [exact C|]. split; [intros _; exact D|]. intros k o K. rewrite E, nth_error_map in K. destruct (nth_error _ k); [|discriminate]. injection K as <-.
  intro H. inversion H.
Qed.

Lemma C83_answers_proof :
forall file wb a e, open_xls file = Ok wb -> open_book file true = Ok a -> open_book file false = Ok e ->
  ob_countries a = ob_countries e \/ ob_countries a <> (0, 0) ->
  forall cs, explained (bk_names wb) (fun k sh => nth_error (bk_sheets wb) k = Some sh) [] cs (snd (run a cs)).
Proof.
intros file wb a e W A E C cs. pose proof (opened_both file) as H. rewrite W in H.
destruct H as (a' & e' & xs & A' & E' & _ & G & R & RA & LA & _ & _ & _ & _ & NN & _). rewrite A in A'. rewrite E in E'. injection A' as <-. injection E' as <-.
assert (ob_countries e = ob_countries a) as CE.
{ destruct C as [C|C]; [congruence|]. destruct (reads_zero _ _ _ _ _ _ R) as [Z|Z]; [destruct (C Z)|exact Z]. }
rewrite CE in R. rewrite NN. apply (run_follows (ob_mem a) (ob_globals a) _ (fun c => c = ob_countries a)).
- intros k name pos c K ->. destruct (reads_constant _ _ _ _ _ R k name pos K) as (v & p & sh & H1 & H2 & H3). exists v, p, sh, (ob_countries a). auto.
- apply new_follows; auto.
Qed.

Lemma C83_country_refuted_proof :
exists file wb x, open_xls file = Ok wb /\
  (exists a y, open_book file true = Ok a /\ snd (run a [CByIndex 0; CByIndex 1]) = [Ok (ASheet y); Ok (ASheet x)]) /\
  (exists a y, open_book file true = Ok a /\ snd (run a [CByIndex 1; CByIndex 0]) = [Ok (ASheet y); Err AssertionError]).
Proof.
set (none := mksheet 0 0 [] []). exists ex_order, (mkbook [lit "a"; lit "b"] [none; none] 0), (mkloaded 1 1 (lit "b") none).
split; [vm_compute; reflexivity|]. split.
- exists (ex_book_of ex_order), (mkloaded 0 0 (lit "a") none). split; vm_compute; reflexivity.
- exists (ex_book_of ex_order), (mkloaded 0 1 (lit "b") none). split; vm_compute; reflexivity.
Qed.

Lemma C83_eager_proof :
forall file wb e, open_xls file = Ok wb -> open_book file false = Ok e ->
  forall cs, explained (bk_names wb) (fun k sh => nth_error (bk_sheets wb) k = Some sh) [CRelease; CSheets] cs (snd (run e cs)).
Proof.
intros file wb e W E cs. pose proof (opened_both file) as H. rewrite W in H.
destruct H as (a & e' & xs & A & E' & M & G & R & _ & _ & RE & L & S & N & NN & NU). rewrite E in E'. injection E' as <-.
assert (length xs = length (b_sheets (ob_globals a))) as LX by (rewrite <- names_length, <- NN, <- N, map_length; reflexivity).
rewrite NN. apply (run_follows (ob_mem a) (ob_globals a) _ (fun _ => False)); [intros k name pos c _ []|].
exists true. split; [cbn [In]; split; auto|]. split; [exact M|]. split; [exact G|]. split; [rewrite L, map_length; exact LX|]. split; [exact RE|]. split; [discriminate|].
intros k o K. rewrite L, nth_error_map in K. destruct (nth_error xs k) as [x|] eqn:X; [|discriminate]. injection K as <-.
assert (k < length (b_sheets (ob_globals a)))%nat as LT by (rewrite <- LX; apply nth_error_Some; congruence). split.
- apply kept_old; [|intro D; inversion D]. apply kept_new; [constructor; rewrite names_length; exact LT|intros []].
- split; [rewrite <- NN, <- N, nth_error_map, X; reflexivity|]. split; [rewrite <- S, nth_error_map, X; reflexivity|].
  assert (nth_error (map l_number xs) k = Some (l_number x)) as Q by (rewrite nth_error_map, X; reflexivity).
  rewrite NU, nth_error_map in Q. destruct (nth_error (seq 0 _) k) as [j|] eqn:J; [|discriminate]. cbn [option_map] in Q. apply nth_seq in J. cbn in J. subst j.
  injection Q as <-. rewrite names_length. apply means_nat. exact LT.
Qed.

Lemma two_nth_l {A B} (R : A -> B -> Prop) : forall l l', Forall2 R l l' -> forall k x, nth_error l k = Some x -> exists y, nth_error l' k = Some y /\ R x y.
Proof.
  induction 1 as [|x y l l' H _ IH]; intros k z K; [destruct k; discriminate|]. destruct k as [|k]; cbn [nth_error] in *; [|exact (IH k z K)].
  injection K as <-. exists y. auto.
Qed.
Lemma good_at country W s k : good_workbook country W -> nth_error (wb_sheets W) k = Some s -> good_sheet country (wb_globals W) s.
Proof. intros (_ & _ & _ & _ & GS) K. apply nth_error_In in K. rewrite Forall_forall in GS. exact (GS s K). Qed.

Lemma C83_stored_proof :
forall country W c, good_workbook country W -> stored W c ->
  exists a, open_book c true = Ok a /\
    forall date, tells_dates (wb_globals W) date -> forall cs,
      explained (map fst (tabs (wb_globals W)))
        (fun k sh => exists s, nth_error (wb_sheets W) k = Some s /\ shows_cells (SpecBiff.cells_of (wb_globals W) date s) sh)
        [] cs (snd (run a cs)).
Proof.
intros country W c G ST. pose proof (stored_zero W c ST) as [H1 H2]. pose proof G as (GB & GG & _ & _ & GS).
pose proof H1 as HB. destruct (proj1 (holds_from _ _ _) H1) as [post F]. unfold globals_bytes in F. rewrite <- !app_assoc in F.
destruct (getbof_ok _ _ 0x600 5 _ _ ltac:(unfold word16; lia) GB ltac:(left; reflexivity) F) as (v & B & V & F1).
destruct (parse_ok country 0 W c _ post G F1) as (b & d0 & P & TD & SH & DM & CO & SS & TT).
assert (exists c', c = 9%N :: 8%N :: c') as [c' CE]. { unfold globals_bytes in HB. rewrite <- ?app_assoc in HB. exact (bof_start c _ _ HB). }
exists (mkobook c b (b_countries b) (map (fun _ => None) (b_sheets b)) false 0). split.
- unfold open_book. assert (load c = Ok (c, 0)) as ->.
  { unfold load. replace (str_eqb (bytes_at 0 8 c) SIGNATURE) with false by (rewrite CE; reflexivity). reflexivity. }
  cbn [bind]. rewrite B. cbn [bind]. rewrite V by reflexivity. cbn [Z.eqb Pos.eqb negb]. rewrite P. rewrite CE at 1. reflexivity.
- intros date TDD cs. replace (map fst (tabs (wb_globals W))) with (names_of b) by (unfold names_of; rewrite SH, map_map; reflexivity).
  apply (run_follows c b _ (countries_ok country)); [|apply new_follows; auto].
  intros k name pos c0 K C0. rewrite SH, nth_error_map in K. destruct (nth_error (tabs (wb_globals W)) k) as [[nm off]|] eqn:T; [|discriminate].
  cbn [option_map fst snd] in K. injection K as <- <-.
  destruct (two_nth_l _ _ _ H2 k _ T) as (s & S & HS). pose proof (good_at country W s k G S) as GD. pose proof GD as (WV & GBS & O & AN & GI).
  cbn [snd] in HS. apply holds_from in HS. destruct HS as [post' FS]. unfold sheet_bytes in FS. rewrite <- !app_assoc in FS.
  destruct (getbof_ok _ _ _ 16 _ _ WV GBS ltac:(right; reflexivity) FS) as (v' & B' & _ & FS1).
  destruct (read_sheet_ok country (wb_globals W) d0 b c _ s post' c0 TT SS O AN GI FS1 C0) as (sh & c1 & R & C1 & SHS).
  do 4 eexists. split; [exact B'|]. split; [exact R|]. split; [exact C1|]. exists s. split; [exact S|].
  rewrite (cells_same country _ date d0 s TDD TD GD). exact SHS.
Qed.

Lemma open_fits file od bk : open_book file od = Ok bk -> fits (length (b_sheets (ob_globals bk))) bk.
Proof.
  destruct od.
  - unfold open_book. destruct file as [|ch file]; [discriminate|]. destruct (load _) as [[mem base]|]; [|discriminate]. cbn [bind].
    destruct (getbof _ _ _) as [[v p]|]; [|discriminate]. cbn [bind]. destruct (v =? 0); [discriminate|]. destruct (negb _); [discriminate|].
    destruct (parse_globals _ _ _ _ _) as [b|]; [|discriminate]. cbn [bind]. intro H. injection H as <-. split; [apply map_length|reflexivity].
  - intro E. pose proof (opened_both file) as H. destruct (open_xls file) as [wb|x]; [|congruence].
    destruct H as (a & e' & xs & A & E' & M & G & R & _ & _ & RE & L & S & N & NN & NU). rewrite E in E'. injection E' as <-. split; [|reflexivity].
    rewrite L, map_length, G, <- names_length, <- NN, <- N, map_length. reflexivity.
Qed.
Lemma names_seen bk names : snd (respond bk CNames) = Ok (ANames names) -> names = names_of (ob_globals bk).
Proof. cbn [respond snd]. intro H. injection H as <-. reflexivity. Qed.
Lemma asks_step bk c key : asks c key -> respond bk c = to_answer ASheet (item bk key).
Proof. intro A. destruct A; reflexivity. Qed.
Lemma run_app : forall l bk l', fst (run bk (l ++ l')) = fst (run (fst (run bk l)) l').
Proof.
  induction l as [|c l IH]; intros bk l'; [reflexivity|]. cbn [app]. rewrite (proj1 (run_cons bk c (l ++ l'))), (proj1 (run_cons bk c l)). apply IH.
Qed.
Lemma ask_there bk c key k x : fits (length (b_sheets (ob_globals bk))) bk -> asks c key -> stands (names_of (ob_globals bk)) key k ->
  nth_error (ob_list bk) k = Some (Some x) -> snd (respond bk c) = Ok (ASheet x).
Proof.
  intros (F1 & F2) A S N. rewrite (asks_step bk c key A). unfold to_answer, item. destruct (key_ok bk key k S) as (i & -> & M & _). rewrite <- F1 in M.
  unfold XlDemand.sheet_by_index. destruct (index_means _ _ _ M) as [-> _]. rewrite N. reflexivity.
Qed.
Lemma ask_left bk c key k x : fits (length (b_sheets (ob_globals bk))) bk -> asks c key -> stands (names_of (ob_globals bk)) key k ->
  snd (respond bk c) = Ok (ASheet x) -> nth_error (ob_list (fst (respond bk c))) k = Some (Some x).
Proof.
  intros (F1 & F2) A S. rewrite (asks_step bk c key A). unfold to_answer, item. destruct (key_ok bk key k S) as (i & -> & M & _). cbn [fst snd].
  pose proof M as M'. rewrite <- F1 in M'. unfold XlDemand.sheet_by_index. destruct (index_means _ _ _ M') as [-> LT]. destruct (nth_error (ob_list bk) k) as [[y|]|] eqn:N; cbn [fst snd bind].
  - intro H. injection H as <-. exact N.
  - unfold get_sheet. destruct (ob_released bk); [discriminate|]. cbv zeta. destruct (py_index _ _) as [[name pos]|]; [|discriminate].
    destruct (getbof _ _ _) as [[v p]|]; [|discriminate]. destruct (read_sheet _ _ _ _) as [[sh cc]|]; [|discriminate].
    destruct (put_means (Some (mkloaded (ob_made bk) i name sh)) _ _ _ M') as [-> _]. cbn [fst snd bind ob_list]. intro H. injection H as <-. apply put_same. exact LT.
  - discriminate.
Qed.
Lemma ask_gone bk c key k : fits (length (b_sheets (ob_globals bk))) bk -> asks c key -> stands (names_of (ob_globals bk)) key k ->
  nth_error (ob_list bk) k = Some None -> ob_released bk = true -> snd (respond bk c) = Err XLRDError.
Proof.
  intros (F1 & F2) A S N R. rewrite (asks_step bk c key A). unfold to_answer, item. destruct (key_ok bk key k S) as (i & -> & M & _). rewrite <- F1 in M.
  unfold XlDemand.sheet_by_index. destruct (index_means _ _ _ M) as [-> _]. rewrite N. unfold get_sheet. rewrite R. reflexivity.
Qed.
Lemma stays_there g k x : forall cs bk, fits (length (b_sheets g)) bk -> ob_globals bk = g -> (forall c, In c cs -> ~ drops (names_of g) c k) ->
  nth_error (ob_list bk) k = Some (Some x) -> nth_error (ob_list (fst (run bk cs))) k = Some (Some x).
Proof.
  induction cs as [|c cs IH]; intros bk F G D N; [exact N|]. rewrite (proj1 (run_cons bk c cs)).
  destruct (step_keeps g bk c F G) as (F' & G'). apply IH; [exact F'|exact G'|intros d I; apply D; right; exact I|].
  destruct (respond bk c) as [b r] eqn:E. pose proof F as F0. rewrite <- G in F0. destruct (step_moves bk c b r F0 E) as ((_ & _ & _ & _ & K) & _). cbn [fst].
  destruct (K k _ N) as (o & O & [-> |[(_ & Q)|(Q & _)]]); [exact O| |discriminate]. rewrite G in Q. destruct (D c (or_introl eq_refl) Q).
Qed.

Lemma C83_same_proof :
forall file od bk before c1 key1 x between c2 key2 k names,
  open_book file od = Ok bk -> snd (respond bk CNames) = Ok (ANames names) ->
  asks c1 key1 -> stands names key1 k -> asks c2 key2 -> stands names key2 k ->
  (forall c, In c between -> ~ drops names c k) ->
  snd (respond (fst (run bk before)) c1) = Ok (ASheet x) ->
  snd (respond (fst (run bk (before ++ c1 :: between))) c2) = Ok (ASheet x).
Proof.
intros file od bk before c1 key1 x between c2 key2 k names O NS A1 S1 A2 S2 D R. apply names_seen in NS. subst names.
set (g := ob_globals bk) in *. destruct (run_keeps g before bk (open_fits _ _ _ O) eq_refl) as (F1 & G1). rewrite run_app, (proj1 (run_cons _ c1 between)).
set (b1 := fst (run bk before)) in *. destruct (step_keeps g b1 c1 F1 G1) as (F2 & G2). destruct (run_keeps g between _ F2 G2) as (F3 & G3).
apply (ask_there _ c2 key2 k); try (rewrite G3; assumption); try assumption.
apply (stays_there g); try assumption. apply (ask_left _ c1 key1 k); try (rewrite G1; assumption); assumption.
Qed.

Definition born (bk : obook) : Prop := forall k x, nth_error (ob_list bk) k = Some (Some x) -> (l_id x < ob_made bk)%nat.
Lemma step_born g bk c : fits (length (b_sheets g)) bk -> ob_globals bk = g -> born bk -> born (fst (respond bk c)).
Proof.
  intros F G B. destruct (respond bk c) as [b r] eqn:E. pose proof F as F0. rewrite <- G in F0. destruct (step_moves bk c b r F0 E) as ((_ & _ & L & M & K) & _). cbn [fst].
  intros k x X. assert (exists o, nth_error (ob_list bk) k = Some o) as (o & O).
  { apply slot. rewrite <- L. apply nth_error_Some. congruence. }
  destruct (K k o O) as (o' & O' & H). rewrite X in O'. injection O' as <-. destruct H as [<- |[(H & _)|(_ & _ & y & H & I & _)]]; [|discriminate|].
  - specialize (B k x O). lia.
  - injection H as <-. lia.
Qed.
Lemma run_born g : forall cs bk, fits (length (b_sheets g)) bk -> ob_globals bk = g -> born bk -> born (fst (run bk cs)).
Proof.
  induction cs as [|c cs IH]; intros bk F G B; [exact B|]. rewrite (proj1 (run_cons bk c cs)). destruct (step_keeps g bk c F G) as (F' & G').
  apply IH; try assumption. apply (step_born g); assumption.
Qed.
Definition younger (k m : nat) (bk : obook) : Prop := (m <= ob_made bk)%nat /\ forall y, nth_error (ob_list bk) k = Some (Some y) -> (m <= l_id y)%nat.
Lemma step_younger g k m bk c : fits (length (b_sheets g)) bk -> ob_globals bk = g -> younger k m bk -> younger k m (fst (respond bk c)).
Proof.
  intros F G (B1 & B2). destruct (respond bk c) as [b r] eqn:E. pose proof F as F0. rewrite <- G in F0. destruct (step_moves bk c b r F0 E) as ((_ & _ & L & M & K) & _). cbn [fst].
  split; [lia|]. intros x X. assert (exists o, nth_error (ob_list bk) k = Some o) as (o & O).
  { apply slot. rewrite <- L. apply nth_error_Some. congruence. }
  destruct (K k o O) as (o' & O' & H). rewrite X in O'. injection O' as <-. destruct H as [<- |[(H & _)|(_ & _ & y & H & I & _)]]; [|discriminate|].
  - exact (B2 x O).
  - injection H as <-. lia.
Qed.
Lemma run_younger g k m : forall cs bk, fits (length (b_sheets g)) bk -> ob_globals bk = g -> younger k m bk -> younger k m (fst (run bk cs)).
Proof.
  induction cs as [|c cs IH]; intros bk F G B; [exact B|]. rewrite (proj1 (run_cons bk c cs)). destruct (step_keeps g bk c F G) as (F' & G').
  apply IH; try assumption. apply (step_younger g); assumption.
Qed.
Lemma drop_empty bk c k : fits (length (b_sheets (ob_globals bk))) bk -> drops (names_of (ob_globals bk)) c k ->
  nth_error (ob_list (fst (respond bk c))) k = Some None.
Proof.
  intros (F1 & F2) D. destruct D as [key k S]. cbn [respond]. unfold to_answer, unload_sheet. destruct (key_ok bk key k S) as (i & -> & M & _). rewrite <- F1 in M.
  destruct (put_means (@None loaded) _ _ _ M) as [-> LT]. cbn [fst ob_list]. apply put_same. exact LT.
Qed.
Lemma step_made g bk c : fits (length (b_sheets g)) bk -> ob_globals bk = g -> (ob_made bk <= ob_made (fst (respond bk c)))%nat.
Proof.
  intros F G. destruct (respond bk c) as [b r] eqn:E. pose proof F as F0. rewrite <- G in F0. destruct (step_moves bk c b r F0 E) as ((_ & _ & _ & M & _) & _). exact M.
Qed.
Lemma open_born file od bk : open_book file od = Ok bk -> born bk.
Proof.
  intro O. destruct od.
  - unfold open_book in O. destruct file as [|ch file]; [discriminate|]. destruct (load _) as [[mem base]|]; [|discriminate]. cbn [bind] in O.
    destruct (getbof _ _ _) as [[v p]|]; [|discriminate]. cbn [bind] in O. destruct (v =? 0); [discriminate|]. destruct (negb _); [discriminate|].
    destruct (parse_globals _ _ _ _ _) as [b|]; [|discriminate]. cbn [bind] in O. injection O as <-. intros k x X. cbn [ob_list] in X.
    rewrite nth_error_map in X. destruct (nth_error _ k); discriminate.
  - unfold open_book in O. destruct file as [|ch file]; [discriminate|]. destruct (load _) as [[mem base]|]; [|discriminate]. cbn [bind] in O.
    destruct (getbof _ _ _) as [[v p]|]; [|discriminate]. cbn [bind] in O. destruct (v =? 0); [discriminate|]. destruct (negb _); [discriminate|].
    destruct (parse_globals _ _ _ _ _) as [b|]; [|discriminate]. cbn [bind] in O. cbv zeta in O.
    assert (forall l q q' u, born q -> get_all q l = (q', u) -> born q') as GA.
    { induction l as [|i l IH]; intros q q' u B; cbn [get_all]; [intro H; injection H as <- _; exact B|].
      destruct (get_sheet q i) as [q1 r] eqn:GS. assert (born q1) as B1.
      { unfold get_sheet in GS. destruct (ob_released q); [injection GS as <- _; exact B|]. cbv zeta in GS. destruct (py_index _ _) as [[name ps]|]; [|injection GS as <- _; exact B].
        destruct (getbof _ ps _) as [[v' p']|]; [|injection GS as <- _; exact B]. destruct (read_sheet _ _ _ _) as [[sh cc]|].
        2:{ injection GS as <- _. intros k x X. cbn in *. specialize (B k x X). lia. }
        destruct (py_put _ _ _) as [l1|] eqn:PP; injection GS as <- _; intros k x X; cbn in *; [|specialize (B k x X); lia].
        unfold py_put in PP. cbv zeta in PP. destruct (_ && _); [|discriminate]. injection PP as <-.
        match type of X with nth_error (put ?j _ ?ll) _ = _ => destruct (Nat.eq_dec k j) as [->|NE]; [destruct (Nat.lt_ge_cases j (length ll)) as [LT|GE]|] end.
        - rewrite put_same in X by exact LT. injection X as <-. cbn. lia.
        - assert (nth_error (put (Z.to_nat (if i <? 0 then i + Z.of_nat (length (ob_list q)) else i)) (Some (mkloaded (ob_made q) i name sh)) (ob_list q))
            (Z.to_nat (if i <? 0 then i + Z.of_nat (length (ob_list q)) else i)) = None) as NN by (apply nth_error_None; rewrite put_length; exact GE). congruence.
        - rewrite put_other in X by exact NE. specialize (B k x X). lia. }
      destruct r; [apply IH; exact B1|]. intro H. injection H as <- _. exact B1. }
    destruct (get_all _ _) as [q [u|]] eqn:E; [|discriminate]. injection O as <-.
    assert (born q) as BQ. { eapply GA; [|exact E]. intros k x X. cbn [ob_list] in X. rewrite nth_error_map in X. destruct (nth_error _ k); discriminate. }
    exact BQ.
Qed.

Lemma C83_new_proof :
forall file od bk before c1 key1 x between c2 key2 k names y,
  open_book file od = Ok bk -> snd (respond bk CNames) = Ok (ANames names) ->
  asks c1 key1 -> stands names key1 k -> asks c2 key2 -> stands names key2 k ->
  (exists c, In c between /\ drops names c k) ->
  snd (respond (fst (run bk before)) c1) = Ok (ASheet x) ->
  snd (respond (fst (run bk (before ++ c1 :: between))) c2) = Ok (ASheet y) -> l_id x <> l_id y.
Proof.
intros file od bk before c1 key1 x between c2 key2 k names y O NS A1 S1 A2 S2 (d & ID & DK) R1 R2. apply names_seen in NS. subst names.
set (g := ob_globals bk) in *. pose proof (open_fits _ _ _ O) as F0. destruct (run_keeps g before bk F0 eq_refl) as (F1 & G1).
pose proof (run_born g before bk F0 eq_refl (open_born _ _ _ O)) as B1. rewrite run_app, (proj1 (run_cons _ c1 between)) in R2. set (b1 := fst (run bk before)) in *.
destruct (step_keeps g b1 c1 F1 G1) as (F2 & G2). pose proof (step_born g b1 c1 F1 G1 B1) as B2.
assert (nth_error (ob_list (fst (respond b1 c1))) k = Some (Some x)) as X by (apply (ask_left _ c1 key1 k); try (rewrite G1; assumption); assumption).
specialize (B2 k x X). set (b2 := fst (respond b1 c1)) in *. apply in_split in ID. destruct ID as (l1 & l2 & ->).
rewrite run_app, (proj1 (run_cons _ d l2)) in R2. destruct (run_keeps g l1 b2 F2 G2) as (F3 & G3).
assert (ob_made b2 <= ob_made (fst (run b2 l1)))%nat as M3.
{ clear - F2 G2. revert F2 G2. generalize b2 as q. induction l1 as [|c l IH]; intros q F G; [cbn; lia|]. rewrite (proj1 (run_cons q c l)).
  destruct (step_keeps g q c F G) as (F' & G'). specialize (IH _ F' G'). pose proof (step_made g q c F G). lia. }
set (b3 := fst (run b2 l1)) in *. destruct (step_keeps g b3 d F3 G3) as (F4 & G4).
assert (younger k (ob_made b2) (fst (respond b3 d))) as Y.
{ split; [pose proof (step_made g b3 d F3 G3); lia|]. intros q Q. rewrite (drop_empty b3 d k) in Q; [discriminate| |]; rewrite G3; assumption. }
apply (run_younger g k _ l2 _ F4 G4) in Y. destruct (run_keeps g l2 _ F4 G4) as (F5 & G5). set (b5 := fst (run (fst (respond b3 d)) l2)) in *.
apply (step_younger g k _ b5 c2 F5 G5) in Y. destruct Y as (_ & Y).
assert (nth_error (ob_list (fst (respond b5 c2))) k = Some (Some y)) as YY by (apply (ask_left _ c2 key2 k); try (rewrite G5; assumption); assumption).
specialize (Y y YY). lia.
Qed.

Lemma drops_dec names c k : drops names c k \/ ~ drops names c k.
Proof.
  destruct c as [key|i|s| | |key|key| | |]; try (right; intro H; inversion H; fail).
  destruct (stands_dec names key) as [(j & J)|J].
  - destruct (Nat.eq_dec j k) as [->|NE]; [left; constructor; exact J|]. right. intro H. inversion H; subst. apply NE. eapply stands_one; eassumption.
  - right. intro H. inversion H; subst. eapply J; eassumption.
Qed.
Lemma any_drops names k : forall cs, (exists d, In d cs /\ drops names d k) \/ (forall d, In d cs -> ~ drops names d k).
Proof.
  induction cs as [|c cs IH]; [right; intros d []|]. destruct (drops_dec names c k) as [H|H]; [left; exists c; split; [left; reflexivity|exact H]|].
  destruct IH as [(d & I & D)|IH]; [left; exists d; split; [right; exact I|exact D]|]. right. intros d [<-|I]; [exact H|exact (IH d I)].
Qed.
Lemma stays_empty g k : forall cs bk, fits (length (b_sheets g)) bk -> ob_globals bk = g -> ob_released bk = true ->
  nth_error (ob_list bk) k = Some None -> nth_error (ob_list (fst (run bk cs))) k = Some None.
Proof.
  induction cs as [|c cs IH]; intros bk F G R N; [exact N|]. rewrite (proj1 (run_cons bk c cs)).
  destruct (step_keeps g bk c F G) as (F' & G'). pose proof F as F0. rewrite <- G in F0. destruct (respond bk c) as [b r] eqn:E.
  destruct (step_moves bk c b r F0 E) as ((_ & _ & _ & _ & K) & RR). cbn [fst] in *. apply IH; [exact F'|exact G'|apply RR; right; exact R|].
  destruct (K k _ N) as (o & O & [-> |[(-> & Q)|(_ & Q & _)]]); [exact O|exact O|congruence].
Qed.
Lemma stays_released g : forall cs bk, fits (length (b_sheets g)) bk -> ob_globals bk = g -> ob_released bk = true -> ob_released (fst (run bk cs)) = true.
Proof.
  induction cs as [|c cs IH]; intros bk F G R; [exact R|]. rewrite (proj1 (run_cons bk c cs)).
  destruct (step_keeps g bk c F G) as (F' & G'). pose proof F as F0. rewrite <- G in F0. destruct (respond bk c) as [b r] eqn:E.
  destruct (step_moves bk c b r F0 E) as (_ & RR). cbn [fst] in *. apply IH; [exact F'|exact G'|apply RR; right; exact R].
Qed.

Lemma C83_released_proof :
forall file od bk before between c key k names,
  open_book file od = Ok bk -> snd (respond bk CNames) = Ok (ANames names) -> asks c key -> stands names key k ->
  let was := snd (respond (fst (run bk before)) (CLoaded key)) in
  let now := snd (respond (fst (run bk (before ++ CRelease :: between))) c) in
  was = Ok (ABool true) /\ (forall d, In d between -> ~ drops names d k) /\ (exists x, now = Ok (ASheet x)) \/
  (was = Ok (ABool false) \/ exists d, In d between /\ drops names d k) /\ now = Err XLRDError.
Proof.
intros file od bk before between c key k names O NS A S. cbv zeta. apply names_seen in NS. subst names.
set (g := ob_globals bk) in *. destruct (run_keeps g before bk (open_fits _ _ _ O) eq_refl) as (F1 & G1).
rewrite run_app, (proj1 (run_cons _ CRelease between)). set (b1 := fst (run bk before)) in *. cbn [respond fst].
set (b2 := release_resources b1). assert (fits (length (b_sheets g)) b2) as F2 by exact F1. assert (ob_globals b2 = g) as G2 by exact G1.
destruct (run_keeps g between b2 F2 G2) as (F3 & G3). pose proof (stays_released g between b2 F2 G2 eq_refl) as R3.
pose proof (stands_lt _ _ _ S) as LT. rewrite names_length in LT. destruct F1 as (F1a & F1b). assert (exists o, nth_error (ob_list b1) k = Some o) as (o & OB) by (apply slot; lia).
assert (snd (b1, do b <- sheet_loaded b1 key; Ok (ABool b)) = Ok (ABool (match o with Some _ => true | None => false end))) as W.
{ cbn [snd]. unfold sheet_loaded. assert (stands (names_of (ob_globals b1)) key k) as S1 by (rewrite G1; exact S).
  destruct (key_ok b1 key k S1) as (i & -> & M & _). rewrite F1b, <- F1a in M. cbn [bind]. destruct (index_means _ _ _ M) as [-> _]. rewrite OB. destruct o; reflexivity. }
rewrite W. destruct (any_drops (names_of g) k between) as [(d & I & D)|ND].
- right. split; [right; exists d; auto|]. apply in_split in I. destruct I as (l1 & l2 & ->). rewrite run_app, (proj1 (run_cons _ d l2)) in *.
  destruct (run_keeps g l1 b2 F2 G2) as (F4 & G4). set (b4 := fst (run b2 l1)) in *. destruct (step_keeps g b4 d F4 G4) as (F5 & G5).
  apply (ask_gone _ c key k); try (rewrite G3; assumption); try assumption. apply (stays_empty g); try assumption.
  + pose proof (stays_released g l1 b2 F2 G2 eq_refl) as R4. fold b4 in R4. pose proof F4 as F0. rewrite <- G4 in F0. destruct (respond b4 d) as [b r] eqn:E.
    destruct (step_moves b4 d b r F0 E) as (_ & RR). apply RR. right. exact R4.
  + apply drop_empty; rewrite G4; assumption.
- destruct o as [x|].
  + left. split; [reflexivity|]. split; [exact ND|]. exists x. apply (ask_there _ c key k); try (rewrite G3; assumption); try assumption.
    apply (stays_there g); assumption.
  + right. split; [left; reflexivity|]. apply (ask_gone _ c key k); try (rewrite G3; assumption); try assumption. apply (stays_empty g); try assumption. reflexivity.
Qed.

Lemma C83_number_refuted_proof :
exists file a x, open_book file true = Ok a /\ snd (run a [CByIndex (-1); CByIndex 1]) = [Ok (ASheet x); Ok (ASheet x)] /\ l_number x = -1.
Proof.
exists ex_two, (ex_book_of ex_two), (mkloaded 0 (-1) (lit "b") ex_b). split; [vm_compute; reflexivity|]. split; vm_compute; reflexivity.
Qed.

Definition placed (bk : obook) : Prop := forall k x, nth_error (ob_list bk) k = Some (Some x) -> l_number x = Z.of_nat k.
Lemma step_placed g bk c : fits (length (b_sheets g)) bk -> ob_globals bk = g -> (forall i, asks c (inl i) -> 0 <= i) -> placed bk -> placed (fst (respond bk c)).
Proof.
  intros F G NN B. destruct (respond bk c) as [b r] eqn:E. pose proof F as F0. rewrite <- G in F0. destruct (step_moves bk c b r F0 E) as ((_ & _ & L & M & K) & _). cbn [fst].
  intros k x X. assert (exists o, nth_error (ob_list bk) k = Some o) as (o & O).
  { apply slot. rewrite <- L. apply nth_error_Some. congruence. }
  destruct (K k o O) as (o' & O' & H). rewrite X in O'. injection O' as <-. destruct H as [<- |[(H & _)|(_ & _ & y & H & I & NU & ME)]]; [exact (B k x O)|discriminate|].
  injection H as <-. assert (0 <= l_number x) by (destruct NU as [NU|NU]; [exact (NN _ NU)|exact NU]). unfold means in ME. lia.
Qed.
Lemma run_placed g : forall cs bk, fits (length (b_sheets g)) bk -> ob_globals bk = g -> (forall d i, In d cs -> asks d (inl i) -> 0 <= i) -> placed bk -> placed (fst (run bk cs)).
Proof.
  induction cs as [|c cs IH]; intros bk F G NN B; [exact B|]. rewrite (proj1 (run_cons bk c cs)). destruct (step_keeps g bk c F G) as (F' & G').
  apply IH; try assumption. { intros d i I. apply NN. right. exact I. } apply (step_placed g); try assumption. intros i. apply NN. left. reflexivity.
Qed.

Lemma C83_numbers_proof :
forall file bk before c key x k names,
  open_book file true = Ok bk -> snd (respond bk CNames) = Ok (ANames names) ->
  (forall d i, In d (before ++ [c]) -> asks d (inl i) -> 0 <= i) -> asks c key -> stands names key k ->
  snd (respond (fst (run bk before)) c) = Ok (ASheet x) -> l_number x = Z.of_nat k.
Proof.
intros file bk before c key x k names O NS NN A S R. apply names_seen in NS. subst names. set (g := ob_globals bk) in *. pose proof (open_fits _ _ _ O) as F0.
assert (placed bk) as P0.
{ unfold open_book in O. destruct file as [|ch file]; [discriminate|]. destruct (load _) as [[mem base]|]; [|discriminate]. cbn [bind] in O.
  destruct (getbof _ _ _) as [[v p]|]; [|discriminate]. cbn [bind] in O. destruct (v =? 0); [discriminate|]. destruct (negb _); [discriminate|].
  destruct (parse_globals _ _ _ _ _) as [b|]; [|discriminate]. cbn [bind] in O. injection O as <-. intros j y Y. cbn [ob_list] in Y.
  rewrite nth_error_map in Y. destruct (nth_error _ j); discriminate. }
destruct (run_keeps g before bk F0 eq_refl) as (F1 & G1). assert (placed (fst (run bk before))) as P1.
{ apply (run_placed g); try assumption; [reflexivity|]. intros d i I. apply NN, in_or_app. left. exact I. }
set (b1 := fst (run bk before)) in *. assert (placed (fst (respond b1 c))) as P2.
{ apply (step_placed g); try assumption. intros i. apply NN, in_or_app. right. left. reflexivity. }
apply P2. apply (ask_left _ c key k); try (rewrite G1; assumption); assumption.
Qed.

Lemma C83_failing_refuted_proof :
exists file a x e, open_book file true = Ok a /\ snd (run a [CByIndex 1]) = [Ok (ASheet x)] /\
  snd (run a [CByIndex 0; CByIndex 1]) = [Err e; Err AssertionError].
Proof.
exists ex_fails, (ex_book_of ex_fails), (mkloaded 0 1 (lit "b") (mksheet 0 0 [] [])), StructError.
split; [vm_compute; reflexivity|]. split; vm_compute; reflexivity.
Qed.

Lemma left_countries su mem strings : forall fuel pos st, r_countries st <> (0, 0) -> countries_left fuel su mem strings pos st = r_countries st.
Proof.
  induction fuel as [|fuel IH]; intros pos st N; cbn [countries_left]; [reflexivity|].
  destruct (get_record mem pos) as [[[[rc len] data] p]|]; [|reflexivity]. destruct (rc =? 10); [reflexivity|].
  destruct (sheet_record _ _ _ _ _ _ _ _) as [[s q]|] eqn:E; [|reflexivity]. apply record_countries in E. destruct E as [E|E]; [destruct (N E)|].
  rewrite IH; [exact E|]. rewrite E. exact N.
Qed.
Lemma get_known bk i : ob_countries bk <> (0, 0) -> ob_countries (fst (get_sheet bk i)) = ob_countries bk.
Proof.
  intro N. unfold get_sheet. destruct (ob_released bk); [reflexivity|]. cbv zeta. destruct (py_index _ _) as [[name pos]|]; [|reflexivity].
  destruct (getbof _ _ _) as [[v p]|e]; [|reflexivity]. destruct (read_sheet _ _ _ _) as [[sh c]|e] eqn:R.
  - apply sheet_countries in R. destruct R as [R|R]; [destruct (N R)|]. destruct (py_put _ _ _); exact R.
  - cbn [fst ob_countries]. apply left_countries. exact N.
Qed.
Lemma index_known bk i : ob_countries bk <> (0, 0) -> ob_countries (fst (XlDemand.sheet_by_index bk i)) = ob_countries bk.
Proof. intro N. unfold XlDemand.sheet_by_index. destruct (py_index _ _) as [[x|]|]; [reflexivity|apply get_known; exact N|reflexivity]. Qed.
Lemma missing_known : forall l bk, ob_countries bk <> (0, 0) -> ob_countries (fst (load_missing bk l)) = ob_countries bk.
Proof.
  induction l as [|i l IH]; intros bk N; cbn [load_missing]; [reflexivity|]. destruct (py_index _ _) as [[x|]|]; [apply IH; exact N| |reflexivity].
  pose proof (get_known bk i N) as G. destruct (get_sheet bk i) as [b [x|e]]; cbn [fst] in *; [|exact G]. rewrite IH; [exact G|]. rewrite G. exact N.
Qed.
Lemma iter_known : forall l bk, ob_countries bk <> (0, 0) -> ob_countries (fst (iter_loop bk l)) = ob_countries bk.
Proof.
  induction l as [|i l IH]; intros bk N; cbn [iter_loop]; [reflexivity|].
  pose proof (index_known bk i N) as G. destruct (XlDemand.sheet_by_index bk i) as [b [x|e]]; cbn [fst] in *; [|exact G].
  assert (ob_countries b <> (0, 0)) as NB by (rewrite G; exact N). specialize (IH b NB). destruct (iter_loop b l) as [b' [xs|e]]; cbn [fst] in *; congruence.
Qed.
Lemma item_known bk key : ob_countries bk <> (0, 0) -> ob_countries (fst (item bk key)) = ob_countries bk.
Proof. intro N. unfold item. destruct (key_index bk key); [apply index_known; exact N|reflexivity]. Qed.
Lemma respond_known bk c : ob_countries bk <> (0, 0) -> ob_countries (fst (respond bk c)) = ob_countries bk.
Proof.
  intro N. destruct c as [key|i|s| | |key|key| | |]; cbn [respond]; unfold to_answer; cbn [fst]; try reflexivity.
  - apply item_known. exact N.
  - apply index_known. exact N.
  - apply item_known. exact N.
  - unfold sheets. pose proof (missing_known (zrange 0 (nsheets bk)) bk N) as M. destruct (load_missing _ _) as [b [u|e]]; exact M.
  - apply iter_known. exact N.
  - unfold unload_sheet. destruct (key_index bk key); [|reflexivity]. destruct (py_put _ _ _); reflexivity.
Qed.

Lemma C83_countries_proof :
forall file od bk before cs, open_book file od = Ok bk -> ob_countries (fst (run bk before)) <> (0, 0) ->
  ob_countries (fst (run bk (before ++ cs))) = ob_countries (fst (run bk before)).
Proof.
intros file od bk before cs _. rewrite run_app. generalize (fst (run bk before)) as b. clear. induction cs as [|c cs IH]; intros b N; [reflexivity|].
rewrite (proj1 (run_cons b c cs)). pose proof (respond_known b c N) as R. rewrite IH; [exact R|]. rewrite R. exact N.
Qed.

Lemma get_ends bk i : snd (get_sheet bk i) <> Err NonTermination.
Proof.
  unfold get_sheet. destruct (ob_released bk); [discriminate|]. cbv zeta. destruct (py_index _ _) as [[name pos]|]; [|discriminate].
  pose proof (getbof_ends (ob_mem bk) pos 16) as B. unfold ends in B. destruct (getbof _ _ _) as [[v p]|e]; [|cbn [snd]; congruence].
  pose proof (read_sheet_ends (ob_globals bk) (ob_mem bk) p (ob_countries bk)) as R. unfold ends in R. destruct (read_sheet _ _ _ _) as [[sh c]|e]; [|cbn [snd]; congruence].
  destruct (py_put _ _ _); discriminate.
Qed.
Lemma index_ends bk i : snd (XlDemand.sheet_by_index bk i) <> Err NonTermination.
Proof. unfold XlDemand.sheet_by_index. destruct (py_index _ _) as [[x|]|]; [discriminate|apply get_ends|discriminate]. Qed.
Lemma missing_ends : forall l bk, snd (load_missing bk l) <> Err NonTermination.
Proof.
  induction l as [|i l IH]; intro bk; cbn [load_missing]; [discriminate|]. destruct (py_index _ _) as [[x|]|]; [apply IH| |discriminate].
  pose proof (get_ends bk i) as G. destruct (get_sheet bk i) as [b [x|e]]; [apply IH|]. cbn [snd] in *. congruence.
Qed.
Lemma all_ends : forall l bk, snd (get_all bk l) <> Err NonTermination.
Proof.
  induction l as [|i l IH]; intro bk; cbn [get_all]; [discriminate|].
  pose proof (get_ends bk i) as G. destruct (get_sheet bk i) as [b [x|e]]; [apply IH|]. cbn [snd] in *. congruence.
Qed.
Lemma iter_ends : forall l bk, snd (iter_loop bk l) <> Err NonTermination.
Proof.
  induction l as [|i l IH]; intro bk; cbn [iter_loop]; [discriminate|].
  pose proof (index_ends bk i) as G. destruct (XlDemand.sheet_by_index bk i) as [b [x|e]]; [|cbn [snd] in *; congruence].
  specialize (IH b). destruct (iter_loop b l) as [b' [xs|e]]; cbn [snd] in *; congruence.
Qed.
Lemma answer_ends {A} (f : A -> answer) p : snd p <> Err NonTermination -> snd (to_answer f p) <> Err NonTermination.
Proof. intro H. unfold to_answer. cbn [snd]. destruct (snd p); cbn [bind]; congruence. Qed.
Lemma key_ends bk key : key_index bk key <> Err NonTermination.
Proof. destruct key; cbn [key_index]; [discriminate|]. destruct (name_index _ _); discriminate. Qed.
Lemma item_ends bk key : snd (item bk key) <> Err NonTermination.
Proof. unfold item. pose proof (key_ends bk key) as K. destruct (key_index bk key); [apply index_ends|]. cbn [snd]. congruence. Qed.
Lemma step_ends bk c : snd (respond bk c) <> Err NonTermination.
Proof.
  destruct c as [key|i|s| | |key|key| | |]; cbn [respond]; try discriminate; try (apply answer_ends).
  - apply item_ends.
  - apply index_ends.
  - apply item_ends.
  - unfold sheets. pose proof (missing_ends (zrange 0 (nsheets bk)) bk) as M. destruct (load_missing _ _) as [b [u|e]]; cbn [snd] in *; congruence.
  - apply iter_ends.
  - cbn [snd]. unfold sheet_loaded. pose proof (key_ends bk key) as K. destruct (key_index bk key) as [i|e]; cbn [bind]; [|congruence].
    destruct (py_index _ _) as [[x|]|]; discriminate.
  - unfold unload_sheet. pose proof (key_ends bk key) as K. destruct (key_index bk key) as [i|e]; [|cbn [snd]; congruence]. destruct (py_put _ _ _); discriminate.
Qed.

Lemma C83_ends_proof :
forall file od, (firstn 8 file <> [208; 207; 17; 224; 161; 177; 26; 225]%N -> open_book file od <> Err NonTermination) /\
  forall bk, open_book file od = Ok bk -> forall cs, Forall (fun r => r <> Err NonTermination) (snd (run bk cs)).
Proof.
intros file od. split.
- intro NS. destruct file as [|ch file]; [discriminate|]. assert (L : load (ch :: file) = Ok (ch :: file, 0)).
  { unfold load. replace (str_eqb (bytes_at 0 8 (ch :: file)) SIGNATURE) with false; [reflexivity|]. symmetry. destruct (str_eqb _ _) eqn:E; [|reflexivity].
    exfalso. apply NS. apply str_eqb_eq in E. exact E. }
  pose proof (opened_ends (ch :: file) 0) as H. unfold ends, BiffProofs.opened in H. unfold open_book. rewrite L. cbn [bind].
  destruct (getbof _ _ _) as [[v p]|e]; cbn [bind] in *; [|congruence]. destruct (v =? 0); [discriminate|]. destruct (negb _); [discriminate|].
  destruct (parse_globals _ _ _ _ _) as [b|e]; cbn [bind] in *; [|congruence]. cbv zeta. destruct od; [discriminate|].
  match goal with |- context [get_all ?q ?l] => pose proof (all_ends l q) as GA; destruct (get_all q l) as [bk' [u|e]]; cbn [snd] in GA; congruence end.
- intros bk _ cs. revert bk. induction cs as [|c cs IH]; intro bk; [constructor|]. rewrite (proj2 (run_cons bk c cs)). constructor; [apply step_ends|apply IH].
Qed.

