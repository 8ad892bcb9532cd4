(** * BIFF8 workbooks, from the file to the pack (C58, C59): proofs of the property theorems *)

From Coq Require Import ZifyBool ZifyNat ZifyN QArith.
From Verif Require Import PyBase PyBaseFacts PyFloat PyText NumPy SpecArray ArrayFacts SpecPack Dbf SpecDbf DbfProofs Dicts Pack XlDate ReadXl XlProofs ReadXlThms XlStruct CompDoc SpecCompDoc CompDocProofs CompDocThms SpecSst Sst SstProofs SstThms SpecDoc DocProofs DocThms FmtDate FmtDateThms SpecXl XlSheet SpecXlSheet XlSheetProofs XlSheetThms SpecFmtDate Biff SpecBiff BiffProofs.
Open Scope nat_scope.
Open Scope Z_scope.

Lemma row_cells_same xfs d1 d2 row : (forall i, 0 <= i < xfs -> d1 i = d2 i) -> forall l col,
  Forall (fun xk : Z * rk => 0 <= fst xk < xfs /\ word16 (fst xk) /\ good_rk (snd xk)) l -> row_cells d1 row col l = row_cells d2 row col l.
Proof.
  intro E. induction l as [|[x k] l IH]; intros col G; [reflexivity|]. inversion G as [|? ? (G1 & _) G2]; subst. cbn [row_cells fst] in *.
  unfold number_type. rewrite (E x G1), (IH _ G2). reflexivity.
Qed.
Lemma item_cells_same country shared xfs d1 d2 it : (forall i, 0 <= i < xfs -> d1 i = d2 i) -> good_item country shared xfs it ->
  item_cells shared d1 it = item_cells shared d2 it.
Proof.
  intros E G. destruct it as [p c|row col l|data|x y|a b|code data inner|k|ar t|head author pad|d|t|code data]; cbn [item_cells]; try reflexivity.
  - destruct G as (_ & _ & X & _). cbn [good_item] in X. unfold content_type, number_type. rewrite (E _ X). reflexivity.
  - destruct G as (_ & _ & _ & _ & G). apply (row_cells_same xfs); assumption.
Qed.
Lemma cells_same country l d1 d2 s : tells_dates l d1 -> tells_dates l d2 -> good_sheet country l s ->
  SpecBiff.cells_of l d1 s = SpecBiff.cells_of l d2 s.
Proof.
  intros T1 T2 (_ & _ & _ & _ & G). assert (E : forall i, 0 <= i < xf_count l -> d1 i = d2 i).
  { intros i I. pose proof (T1 i I). pose proof (T2 i I). destruct (d1 i), (d2 i); try reflexivity; exfalso; intuition discriminate. }
  unfold SpecBiff.cells_of. induction G as [|it its G1 _ IH]; [reflexivity|]. cbn [flat_map]. rewrite IH. f_equal. apply (item_cells_same country _ (xf_count l)); assumption.
Qed.
Lemma opened_dates country W mem base : good_workbook country W -> stored_at W mem base ->
  (exists date, tells_dates (wb_globals W) date) /\
  forall date, tells_dates (wb_globals W) date ->
  exists shs, BiffProofs.opened mem base = Ok (mkbook (map fst (tabs (wb_globals W))) shs (datemode_of (wb_globals W))) /\
    Forall2 (fun s sh => shows_cells (SpecBiff.cells_of (wb_globals W) date s) sh) (wb_sheets W) shs.
Proof.
  intros G S. destruct (opened_ok country W mem base G S) as (d & shs & O & T & A). split; [exists d; exact T|].
  intros date TD. exists shs. split; [exact O|]. pose proof G as (_ & _ & _ & _ & GS). clear O G S. revert GS. induction A as [|s sh ss shs A1 _ IH]; intro GS; [constructor|].
  inversion GS as [|? ? GS1 GS2]; subst. constructor; [|apply IH; exact GS2]. rewrite (cells_same country _ date d s TD T GS1). exact A1.
Qed.
Lemma stored_zero W c : stored W c -> stored_at W c 0.
Proof.
  intros [A B]. split; [exact A|]. induction B as [|t s ts ss B _ IH]; [constructor|]. constructor; [|apply IH]. rewrite Z.add_0_r. exact B.
Qed.
Lemma bof_start c : forall more rest, holds_at c 0 (bof 0x600 5 more ++ rest) -> exists c', c = 9%N :: 8%N :: c'.
Proof.
  intros more rest (pre & post & E & S). destruct pre; [|unfold size in S; cbn in S; lia]. cbn [app] in E. rewrite E. eexists. unfold bof, record.
  change (le_bytes 2 0x809) with [9%N; 8%N]. cbn [app]. reflexivity.
Qed.
Lemma bare_open more rest c : holds_at c 0 (bof 0x600 5 more ++ rest) -> open_workbook c = BiffProofs.opened c 0.
Proof.
  intro H. destruct (bof_start c more rest H) as [c' ->]. unfold open_workbook. 
  replace (str_eqb (bytes_at 0 4 (9%N :: 8%N :: c')) [80; 75; 3; 4]%N) with false by reflexivity.
  unfold open_xls, load. replace (str_eqb (bytes_at 0 8 (9%N :: 8%N :: c')) SIGNATURE) with false by reflexivity. reflexivity.
Qed.

Lemma C58_opens_proof :
forall country W c, good_workbook country W -> stored W c ->
(exists date, tells_dates (wb_globals W) date) /\
forall date, tells_dates (wb_globals W) date ->
exists shs, open_workbook c = Ok (mkbook (map fst (tabs (wb_globals W))) shs (datemode_of (wb_globals W))) /\
  Forall2 (fun s sh => shows_cells (SpecBiff.cells_of (wb_globals W) date s) sh) (wb_sheets W) shs.
Proof.
intros country W c G S. pose proof S as [H _]. rewrite (bare_open _ _ _ H). apply (opened_dates country); [exact G|apply stored_zero, S].
Qed.

Lemma C58_encrypted_proof :
forall country l more data c, good_bof more -> Forall (good_global country) l -> good_links l -> short data ->
holds_at c 0 (bof 0x600 5 more ++ flat_map global_bytes l ++ record 0x2f data) -> open_workbook c = Err XLRDError.
Proof.
intros country l more data c GB GG [_ GL] SD H. rewrite (bare_open _ _ _ H). apply holds_from in H. destruct H as [post F]. rewrite <- !app_assoc in F.
destruct (getbof_ok _ _ 0x600 5 _ _ ltac:(unfold word16; lia) GB ltac:(left; reflexivity) F) as (v & B & V & F1).
unfold BiffProofs.opened. rewrite B. cbn [bind]. rewrite V by reflexivity. cbn [Z.eqb Pos.eqb negb].
assert (ST : starts (record 0x2f data ++ post)) by (exists 0x2f, data, post; unfold word16; repeat split; lia).
destruct (globals_ok country 0 c _ ST l [] new_globals _ (knows_new country 0) GG GL F1) as (b & K & R).
pose proof F1 as F0. apply from_length in F0. destruct F0 as [P0 P1]. rewrite !size_app in P1. pose proof (globals_length country l GG).
pose proof (record_4 0x2f data). pose proof (size_pos post).
assert (LM : exists k, S (length c) = (length l + S k)%nat) by (exists (length c - length l)%nat; unfold size in P1 at 1; lia).
destruct LM as [k LM]. rewrite LM, R. apply from_next in F1. cbn [parse_globals].
destruct (get_record_ok _ _ 0x2f data _ ltac:(unfold word16; lia) SD F1) as [RR _]. rewrite RR. reflexivity.
Qed.

Lemma get_record_end mem pos : from mem pos [] -> get_record mem pos = Err StructError.
Proof.
  intro F. apply from_length in F. destruct F as [P L]. unfold get_record. cbv zeta.
  enough (E : length (pyslice mem pos (pos + 4)) = 0%nat) by (unfold sized; rewrite E; reflexivity).
  rewrite pyslice_nonneg by lia. rewrite firstn_length, skipn_length. unfold size in L. cbn in L. lia.
Qed.
Lemma read_sheet_cut country l date b mem pos items countries :
  (forall xf, 0 <= xf < xf_count l -> dget xf (b_types b) = Some (number_type date xf)) -> b_strings b = shared_of l ->
  in_order items -> anchored None false items -> Forall (good_item country (shared_of l) (xf_count l)) items ->
  from mem pos (flat_map item_bytes items) -> countries_ok country countries ->
  read_sheet b mem pos countries = Err StructError.
Proof.
  intros T ST (a & b' & E & OA & OB) AN G F C.
  set (su := sheet_setup b). assert (TX : typed_xfs date (xf_count l) su) by exact T.
  set (s := mksheetdata 0 [] items).
  assert (GP : Forall (good_put su) (SpecBiff.cells_of l date s)).
  { unfold SpecBiff.cells_of. apply Forall_flat_map. eapply Forall_impl; [|exact G]. intros it GI. apply (item_good su country _ (xf_count l)); [reflexivity..|exact GI]. }
  assert (GT : Forall (fun p => pt_type p <> None) (SpecBiff.cells_of l date s)).
  { unfold SpecBiff.cells_of. apply Forall_flat_map. apply Forall_forall. intros it _. apply item_typed. }
  destruct (shows_built su (SpecBiff.cells_of l date s) eq_refl GP GT) as (g & g' & P & TI & SH).
  unfold SpecBiff.cells_of in P. cbn [sd_items s] in P. rewrite E, flat_map_app, put_all_app in P. rewrite E in F, G, AN.
  rewrite flat_map_app in F. rewrite <- (app_nil_r (flat_map item_bytes b')) in F.
  apply Forall_app in G. destruct G as [GA GB].
  destruct (put_all su (flat_map _ a) new_grid) as [g1 [[]|e]] eqn:P1; [|discriminate P].
  destruct (loop_ok country (shared_of l) (xf_count l) date su mem _ TX a b' pos (mkreading new_grid countries None false) g1 GA F C) as (s1 & G1 & C1 & A1 & R1); [right; auto|exact P1|exact AN|].
  pose proof F as F0. apply from_next in F.
  destruct (loop_ok country (shared_of l) (xf_count l) date su mem _ TX b' [] _ s1 g GB F C1) as (s2 & G2 & C2 & _ & R2); [left; exact OB|rewrite G1; exact P|rewrite app_nil_r; exact A1|].
  unfold read_sheet. fold su. rewrite ST.
  apply from_length in F0. destruct F0 as [P0 L0]. rewrite !size_app in L0. pose proof (items_length a). pose proof (items_length b').
  assert (LM : exists k, S (length mem) = (length a + (length b' + S k))%nat).
  { exists (length mem - length a - length b')%nat. unfold size in L0 at 1. pose proof (size_pos []). lia. }
  destruct LM as [k LM]. rewrite LM, R1, R2. apply from_next in F. cbn [read_loop]. rewrite (get_record_end _ _ F). reflexivity.
Qed.
Lemma get_sheets_cut country l date b mem version more items : forall tb ss tab tb2 countries,
  (forall xf, 0 <= xf < xf_count l -> dget xf (b_types b) = Some (number_type date xf)) -> b_strings b = shared_of l ->
  countries_ok country countries ->
  Forall2 (fun tab s => holds_at mem (snd tab) (sheet_bytes s)) tb ss -> Forall (good_sheet country l) ss ->
  good_sheet country l (mksheetdata version more items) -> from mem (snd tab) (bof version 0x10 more ++ flat_map item_bytes items) ->
  get_sheets b mem (tb ++ tab :: tb2 : list (str * Z)) countries = Err StructError.
Proof.
  intros tb ss tab tb2 countries T ST C H. revert countries C. induction H as [|[name off] s tb ss H _ IH]; intros countries C G (WV & GB & O & AN & GI) F.
  - destruct tab as [name off]. cbn [app get_sheets snd sd_version sd_more sd_items] in *.
    destruct (getbof_ok _ _ _ 16 _ _ WV GB ltac:(right; reflexivity) F) as (v & B & _ & F1). rewrite B. cbn [bind].
    rewrite (read_sheet_cut country l date b mem _ items countries T ST O AN GI F1 C). reflexivity.
  - inversion G as [|? ? (WV' & GB' & O' & AN' & GI') G2]; subst. cbn [app get_sheets fst snd] in *.
    apply holds_from in H. destruct H as [post F']. unfold sheet_bytes in F'. rewrite <- !app_assoc in F'.
    destruct (getbof_ok _ _ _ 16 _ _ WV' GB' ltac:(right; reflexivity) F') as (v & B & _ & F1). rewrite B. cbn [bind].
    destruct (read_sheet_ok country l date b mem _ s post countries T ST O' AN' GI' F1 C) as (sh & c & R & C' & SH). rewrite R. cbn [bind].
    rewrite (IH c C' G2 (conj WV (conj GB (conj O (conj AN GI)))) F). reflexivity.
Qed.

Lemma C58_cut_proof :
forall country more l ss sh items c tabs1 tab tabs2,
good_bof more -> Forall (good_global country) l -> good_links l -> SpecNames.harmless_names None (kinds_of l) (foreign l) (names_of l) ->
Forall (good_sheet country l) ss ->
good_sheet country l (mksheetdata (sd_version sh) (sd_more sh) items) ->
holds_at c 0 (bof 0x600 5 more ++ flat_map global_bytes l ++ eof) -> tabs l = tabs1 ++ tab :: tabs2 ->
Forall2 (fun tb s => holds_at c (snd tb) (sheet_bytes s)) tabs1 ss ->
(exists before, c = before ++ bof (sd_version sh) 0x10 (sd_more sh) ++ flat_map item_bytes items /\ size before = snd tab) ->
open_workbook c = Err StructError.
Proof.
intros country more l ss sh items c tabs1 tab tabs2 GB GG GL GN GS GI H E FS (before & EC & SB).
set (W := mkworkbook more l []). assert (G : good_workbook country W) by (split; [exact GB|split; [exact GG|split; [exact GL|split; [exact GN|constructor]]]]).
rewrite (bare_open _ _ _ H). apply holds_from in H. destruct H as [post F]. rewrite <- !app_assoc in F.
destruct (getbof_ok _ _ 0x600 5 _ _ ltac:(unfold word16; lia) GB ltac:(left; reflexivity) F) as (v & B & V & F1).
destruct (parse_ok country 0 W c _ post G F1) as (b & date & P & TD & SH & DM & CO & SS & TT).
unfold BiffProofs.opened. rewrite B. cbn [bind]. rewrite V by reflexivity. cbn [Z.eqb Pos.eqb negb]. rewrite P. cbn [bind].
assert (SH' : b_sheets b = tabs1 ++ tab :: tabs2).
{ rewrite SH. cbn [wb_globals W]. rewrite E. rewrite <- map_id. apply map_ext. intros [? ?]. cbn [fst snd]. rewrite Z.add_0_r. reflexivity. }
rewrite SH'. rewrite (get_sheets_cut country l date b c (sd_version sh) (sd_more sh) items tabs1 ss tab tabs2 (b_countries b) TT SS CO FS GS GI); [reflexivity|].
exists before. split; [exact EC|exact SB].
Qed.

Lemma C58_ends_proof :
forall c, firstn 8 c <> [208; 207; 17; 224; 161; 177; 26; 225]%N -> open_workbook c <> Err NonTermination.
Proof.
intros c NS. unfold open_workbook. destruct (str_eqb _ _); [discriminate|]. unfold open_xls. destruct c as [|x c]; [discriminate|].
assert (L : load (x :: c) = Ok (x :: c, 0)).
{ unfold load. replace (str_eqb (bytes_at 0 8 (x :: c)) SIGNATURE) with false; [reflexivity|]. symmetry. destruct (str_eqb _ _) eqn:E; [|reflexivity].
  exfalso. apply NS. apply str_eqb_eq in E. exact E. }
rewrite L. cbn [bind]. exact (opened_ends (x :: c) 0).
Qed.

Definition beyond_globals off := [Xf [0; 0]%N 0 (repeat 0%N 16); Tab off 0 0 (mklayout 0 (false, lit "s") [] None None) []].
Lemma beyond_links off : good_links (beyond_globals off).
Proof.
  split; [intros ? ? ? []|]. intros before head name extra after E. exfalso.
  do 2 (destruct before as [|? before]; [discriminate E|cbn [app] in E; injection E as <- E]). destruct before; discriminate E.
Qed.
Lemma beyond_names off : SpecNames.harmless_names None (kinds_of (beyond_globals off)) (foreign (beyond_globals off)) (names_of (beyond_globals off)).
Proof. exists (fun _ => []), (fun _ => O). intros [|i] n N; discriminate N. Qed.
Definition beyond_sheet := mksheetdata 0x600 [] [Cell (mkplace 0 0 0) (CFormula 6 (RText (repeat 0%N 5) None 1 (true, [97; 128512]%N) []) [0; 0]%N [])].

Lemma C58_beyond_refuted_proof :
exists first c W, good_stretch first /\ snd first = [97; 128512]%N /\
  wb_sheets W = [mksheetdata 0x600 [] [Cell (mkplace 0 0 0) (CFormula 6 (RText (repeat 0%N 5) None 1 first []) [0; 0]%N [])]] /\
  stored W c /\ good_workbook (0, 0) (mkworkbook (wb_more W) (wb_globals W) []) /\ open_workbook c = Err XLRDError.
Proof.
set (off := size (globals_bytes (mkworkbook [] (beyond_globals 0) []))).
exists (true, [97; 128512]%N), (globals_bytes (mkworkbook [] (beyond_globals off) []) ++ sheet_bytes beyond_sheet), (mkworkbook [] (beyond_globals off) [beyond_sheet]).
split; [cbn; repeat (constructor; [unfold scalar; lia|]); constructor|]. split; [reflexivity|]. split; [reflexivity|]. split; [|split; [|vm_compute; reflexivity]].
- split; [exists [], (sheet_bytes beyond_sheet); split; reflexivity|]. constructor; [|constructor].
  exists (globals_bytes (mkworkbook [] (beyond_globals off) [])), []. split; [rewrite app_nil_r; reflexivity|vm_compute; reflexivity].
- split; [unfold good_bof, size; cbn; lia|]. split; [|split; [apply beyond_links|split; [apply beyond_names|constructor]]]. constructor; [|constructor; [|constructor]].
  + cbn. unfold word16, short, size. cbn. lia.
  + cbn [good_global]. split; [vm_compute; split; [discriminate|reflexivity]|]. split; [reflexivity|]. split.
    * unfold good_layout, good_stretch, total_units, units, run_list, phonetic_size. cbn.
      repeat (apply Forall_cons || apply Forall_nil || split); cbn; intros; try discriminate; try congruence; try lia; auto.
    * unfold uncut, run_list, total_units, units, short, size. cbn. repeat split; try constructor; try lia.
Qed.

Definition forgot_sheet := mksheetdata 0x600 [] [Cell (mkplace 0 0 0) (CRk (RkInt 7 false) []); Dimension (repeat 0%N 14)].

Lemma C58_dimension_refuted_proof :
exists W c bk, stored W c /\ good_workbook (0, 0) (mkworkbook (wb_more W) (wb_globals W) []) /\
  wb_sheets W = [mksheetdata 0x600 [] [Cell (mkplace 0 0 0) (CRk (RkInt 7 false) []); Dimension (repeat 0%N 14)]] /\
  open_workbook c = Ok bk /\ map sh_nrows (bk_sheets bk) = [0].
Proof.
set (off := size (globals_bytes (mkworkbook [] (beyond_globals 0) []))).
eexists (mkworkbook [] (beyond_globals off) [forgot_sheet]), (globals_bytes (mkworkbook [] (beyond_globals off) []) ++ sheet_bytes forgot_sheet), _.
split; [|split; [|split; [reflexivity|split; [vm_compute; reflexivity|reflexivity]]]].
- split; [exists [], (sheet_bytes forgot_sheet); split; reflexivity|]. constructor; [|constructor].
  exists (globals_bytes (mkworkbook [] (beyond_globals off) [])), []. split; [rewrite app_nil_r; reflexivity|vm_compute; reflexivity].
- split; [unfold good_bof, size; cbn; lia|]. split; [|split; [apply beyond_links|split; [apply beyond_names|constructor]]]. constructor; [|constructor; [|constructor]].
  + cbn. unfold word16, short, size. cbn. lia.
  + cbn [good_global]. split; [vm_compute; split; [discriminate|reflexivity]|]. split; [reflexivity|]. split.
    * unfold good_layout, good_stretch, total_units, units, run_list, phonetic_size. cbn.
      repeat (apply Forall_cons || apply Forall_nil || split); cbn; intros; try discriminate; try congruence; try lia; auto.
    * unfold uncut, run_list, total_units, units, short, size. cbn. repeat split; try constructor; try lia.
Qed.

Lemma cut_holds m pos c : 0 <= pos -> firstn (length c) (skipn (Z.to_nat pos) m) = c -> c <> [] ->
  forall off b, holds_at c off b -> holds_at m (off + pos) b.
Proof.
  intros P E NE.
  assert (M : m = firstn (Z.to_nat pos) m ++ c ++ skipn (length c) (skipn (Z.to_nat pos) m)).
  { rewrite <- E at 1. rewrite firstn_skipn, firstn_skipn. reflexivity. }
  assert (LP : size (firstn (Z.to_nat pos) m) = pos).
  { unfold size. rewrite firstn_length. assert (X : length (skipn (Z.to_nat pos) m) <> 0%nat).
    { intro X. apply length_zero_iff_nil in X. rewrite X, firstn_nil in E. congruence. }
    rewrite skipn_length in X. lia. }
  intros off b (pre & post & EC & SZ). exists (firstn (Z.to_nat pos) m ++ pre), (post ++ skipn (length c) (skipn (Z.to_nat pos) m)).
  split; [|rewrite size_app; lia]. rewrite M at 1. rewrite EC at 1. rewrite <- !app_assoc. reflexivity.
Qed.
Lemma stored_cut W m pos c : stored W c -> 0 <= pos -> firstn (length c) (skipn (Z.to_nat pos) m) = c -> c <> [] -> stored_at W m pos.
Proof.
  intros [A B] P E NE. pose proof (cut_holds m pos c P E NE) as H.
  split; [exact (H 0 _ A)|]. induction B as [|t s ts ss B _ IH]; [constructor|]. constructor; [apply H; exact B|]. apply IH.
Qed.
Lemma document_mem D t name d l c : good_document D -> dir_tree D t -> distinct_names (o_entries D) t ->
  Forall (fun n => no_kelvin (dn_name n)) (o_entries D) ->
  (name = lit "Workbook" \/ name = lit "Book" /\ SpecDoc.missing (o_entries D) t [lit "Workbook"]) ->
  leads_to (o_entries D) t [name] d -> stream D d l c -> d <= 249 -> NoDup (system D ++ l) -> c <> [] ->
  exists m pos, load (doc_file D) = Ok (m, pos) /\ 0 <= pos /\ firstn (length c) (skipn (Z.to_nat pos) m) = c.
Proof.
  intros G T DN K NM L S B ND NE. destruct (init_ok D false G) as (seen & k & E & FA & U).
  change (init (doc_file D) false = Ok (DocProofs.opened D false k seen)) in E.
  pose proof T as (root & T1 & T2 & T3 & T4).
  assert (R0 : nth_error (o_entries D) 0 = Some root) by (destruct (o_entries D); exact T1).
  assert (PW : Forall SpecDoc.plain [lit "Workbook"]) by (constructor; [unfold SpecDoc.plain; cbn; repeat (constructor; [lia|]); constructor|constructor]).
  assert (PB : Forall SpecDoc.plain [lit "Book"]) by (constructor; [unfold SpecDoc.plain; cbn; repeat (constructor; [lia|]); constructor|constructor]).
  destruct (NoDup_app_parts _ _ _ ND) as (_ & _ & ND3).
  assert (FR : forall s, In s l -> ~ In s (system D)) by (intros s S1 S2; exact (ND3 s S2 S1)).
  assert (SR : forall nm, Forall SpecDoc.plain [nm] -> leads_to (o_entries D) t [nm] d -> dir_search [nm] (o_entries D) k 0 = Ok (Some d)).
  { intros nm P LD. destruct (C57_search_proof (o_entries D) root t k [nm] R0 T3 T4 FA DN K P ltac:(discriminate)) as (H & _). apply H. exists [nm], []. split; [reflexivity|exact LD]. }
  unfold load. replace (str_eqb (bytes_at 0 8 (doc_file D)) SIGNATURE) with true by reflexivity. cbn [negb]. rewrite E. cbn [bind].
  destruct NM as [->|[-> MI]].
  - destruct (locate_ok D false k seen _ d l c (system D) G (SR _ PW L) S B U FR) as (seen' & m & pos & R & _ & P' & C').
      rewrite R. cbn [bind]. destruct m as [|x m]; [exfalso; apply NE; rewrite <- C', skipn_nil, firstn_nil; reflexivity|]. exists (x :: m), pos. split; [reflexivity|split; assumption].
  - assert (SN : dir_search [lit "Workbook"] (o_entries D) k 0 = Ok None).
      { destruct (C57_search_proof (o_entries D) root t k [lit "Workbook"] R0 T3 T4 FA DN K PW ltac:(discriminate)) as (_ & H & _). apply H. exact MI. }
      assert (LN : locate_named_stream [lit "Workbook"] (DocProofs.opened D false k seen) = (DocProofs.opened D false k seen, Ok None)).
      { unfold locate_named_stream. change (cd_dirlist (DocProofs.opened D false k seen)) with (o_entries D). change (cd_kin (DocProofs.opened D false k seen)) with k.
        rewrite SN. reflexivity. }
      rewrite LN. cbn [bind].
      destruct (locate_ok D false k seen _ d l c (system D) G (SR _ PB L) S B U FR) as (seen' & m & pos & R & _ & P' & C').
      rewrite R. cbn [bind]. destruct m as [|x m]; [exfalso; apply NE; rewrite <- C', skipn_nil, firstn_nil; reflexivity|]. exists (x :: m), pos. split; [reflexivity|split; assumption].
Qed.
Lemma document_load W D t name d l c : good_document D -> dir_tree D t -> distinct_names (o_entries D) t ->
  Forall (fun n => no_kelvin (dn_name n)) (o_entries D) ->
  (name = lit "Workbook" \/ name = lit "Book" /\ SpecDoc.missing (o_entries D) t [lit "Workbook"]) ->
  leads_to (o_entries D) t [name] d -> stream D d l c -> d <= 249 -> NoDup (system D ++ l) -> stored W c ->
  exists m pos, open_workbook (doc_file D) = BiffProofs.opened m pos /\ stored_at W m pos.
Proof.
  intros G T DN K NM L S B ND ST.
  assert (NE : c <> []). { destruct ST as [(pre & post & EC & _) _]. intros ->. destruct pre; discriminate EC. }
  destruct (document_mem D t name d l c G T DN K NM L S B ND NE) as (m & pos & LO & P & C).
  exists m, pos. split; [|exact (stored_cut W m pos c ST P C NE)].
  unfold open_workbook. replace (str_eqb (bytes_at 0 4 (doc_file D)) [80; 75; 3; 4]%N) with false by reflexivity.
  unfold open_xls. destruct (doc_file D) as [|x f] eqn:EF; [discriminate EF|]. rewrite LO. reflexivity.
Qed.

Lemma C59_opens_proof :
forall country W file date, good_workbook country W -> workbook_file W file -> tells_dates (wb_globals W) date ->
exists shs, open_workbook file = Ok (mkbook (map fst (tabs (wb_globals W))) shs (datemode_of (wb_globals W))) /\
  Forall2 (fun s sh => shows_cells (SpecBiff.cells_of (wb_globals W) date s) sh) (wb_sheets W) shs.
Proof.
intros country W file date G F T. destruct F as [c S|D t name d l c GD DT DN K NM L S B ND ST].
- exact (proj2 (C58_opens_proof country W c G S) date T).
- destruct (document_load W D t name d l c GD DT DN K NM L S B ND ST) as (m & pos & -> & SA). exact (proj2 (opened_dates country W m pos G SA) date T).
Qed.

Lemma value_shown sh r c v : 0 <= r -> 0 <= c -> grid_at (sh_values sh) r c = Ok v -> value_at sh r c = v.
Proof.
  intros R C E. unfold grid_at in E. rewrite py_index_nonneg in E by exact R. unfold value_at.
  destruct (nth_error (sh_values sh) (Z.to_nat r)) as [row|] eqn:E1; [|discriminate E].
  rewrite py_index_nonneg in E by exact C. rewrite (nth_error_nth _ _ _ E1).
  destruct (nth_error row (Z.to_nat c)) as [x|] eqn:E2; [|discriminate E]. rewrite (nth_error_nth _ _ _ E2). congruence.
Qed.
Lemma type_shown sh r c t : 0 <= r -> 0 <= c -> grid_at (sh_types sh) r c = Ok t -> type_at sh r c = t.
Proof.
  intros R C E. unfold grid_at in E. rewrite py_index_nonneg in E by exact R. unfold type_at.
  destruct (nth_error (sh_types sh) (Z.to_nat r)) as [row|] eqn:E1; [|discriminate E].
  rewrite py_index_nonneg in E by exact C. rewrite (nth_error_nth _ _ _ E1).
  destruct (nth_error row (Z.to_nat c)) as [x|] eqn:E2; [|discriminate E]. rewrite (nth_error_nth _ _ _ E2). congruence.
Qed.
Lemma kind_det l r c t1 t2 : shows_kind l r c t1 -> shows_kind l r c t2 -> t1 = t2.
Proof. unfold shows_kind. destruct (latest l r c); congruence. Qed.
Lemma column_shown l sh c r n cells : shows_cells l sh -> column_of l c r n cells -> 0 <= r -> 0 <= c < width l -> n = Z.max 0 (n + 0) -> r + n <= Z.max r (height l) ->
  SpecXl.cells_of sh c r (r + n - 1) = cells.
Proof.
  intros (H & W & RC & SH) (LC & CC) R C N B. unfold SpecXl.cells_of. apply list_ext. intro i.
  destruct (nth_error cells i) as [[v t]|] eqn:E.
  - assert (Hi : (i < length cells)%nat) by (apply nth_error_Some; congruence).
    rewrite (map_nth_error _ i _ (d := i)).
    + destruct (CC i v t E) as [A1 A2]. destruct (SH (r + Z.of_nat i) c) as ((v' & V1 & V2) & (t' & T1 & T2)); [lia|lia|].
      apply value_shown in V1; [|lia|lia]. apply type_shown in T1; [|lia|lia]. rewrite V1, T1.
      rewrite (shows_value_det _ _ _ _ _ V2 A1). rewrite (kind_det l (r + Z.of_nat i) c t' t T2 A2). reflexivity.
    + rewrite (nth_error_nth' _ 0%nat) by (rewrite seq_length; lia). rewrite seq_nth by lia. reflexivity.
  - apply nth_error_None in E. apply nth_error_None. rewrite map_length, seq_length. lia.
Qed.
Lemma nth_forall2 A B (R : A -> B -> Prop) a b i x : Forall2 R a b -> nth_error a i = Some x -> exists y, nth_error b i = Some y /\ R x y.
Proof.
  intro H. revert i. induction H as [|x' y' a b H _ IH]; intros [|i] E; try discriminate.
  - injection E as ->. exists y'. auto.
  - apply IH. exact E.
Qed.
Lemma picked W which s shs (P : sheet_data -> sheet -> Prop) dm : picks W which s -> Forall2 P (wb_sheets W) shs ->
  exists sh, P s sh /\ chosen_sheet (mkbook (map fst (tabs (wb_globals W))) shs dm) which sh.
Proof.
  intros H F. destruct H as [i s E|before name offset after s E NI E2].
  - destruct (nth_forall2 _ _ _ _ _ _ _ F E) as (sh & E' & H). exists sh. split; [exact H|]. apply cs_index. exact E'.
  - destruct (nth_forall2 _ _ _ _ _ _ _ F E2) as (sh & E' & H). exists sh. split; [exact H|]. apply cs_name with (i := length before); [| |exact E'].
    + cbn [bk_names]. rewrite E, map_app. rewrite nth_error_app2 by (rewrite map_length; lia). rewrite map_length, Nat.sub_diag. reflexivity.
    + intros j J X. cbn [bk_names] in X. rewrite E, map_app in X. rewrite nth_error_app1 in X by (rewrite map_length; lia). apply NI. apply nth_error_In in X. exact X.
Qed.
Lemma shown_pack wb fname which sh header startcell stopcell usecols r0 c0 r1 c1 cols nr r cells f l :
  shows_cells l sh -> chosen_sheet wb which sh ->
  refers startcell r0 c0 -> stops_at (height l) (width l) stopcell r1 c1 -> c1 < width l ->
  chosen_columns c0 c1 usecols cols -> cols <> [] -> Forall (fun c => c0 <= c <= c1) cols ->
  headed header r0 nr r -> (forall k, nr = Some k -> k < height l) ->
  (forall c, In c cols -> column_of l c r (Z.max 0 (Z.min (r1 + 1) (height l) - r)) (cells c) /\
                          typed_column (bk_datemode wb) (cells c) (f c)) ->
  cellreference 0 0 startcell = Ok (r0, c0) /\ (exists rc, cellreference 0 0 stopcell = Ok rc) /\
  exists p, sheetpack wb fname which header startcell stopcell usecols = Ok p /\ p_fn p = fname /\
  (forall c, In c cols -> holds_column (p_data p) c (f c)) /\
  (forall c, ~ In c cols -> dget c (p_data p) = None) /\
  (forall c, In c cols -> match nr with
                          | Some k => exists v, dget c (p_names p) = Some v /\ shows_value l k c v
                          | None => dget c (p_names p) = None
                          end) /\
  (forall c, ~ In c cols -> dget c (p_names p) = None).
Proof.
intros SH CH RF SP CW CC CN CF HD NR CL.
pose proof SH as (H & WD & RC & VT). pose proof (refers_nonneg _ _ _ RF) as [P0 P1].
assert (CR : cellreference 0 0 startcell = Ok (r0, c0)) by (apply refers_ref; exact RF).
assert (CS : exists rc, cellreference 0 0 stopcell = Ok rc).
{ destruct SP as [a [->| ->]|a r' c' _ _ R']; [eexists; reflexivity..|]. exists (r', c'). apply refers_ref. exact R'. }
split; [exact CR|]. split; [exact CS|].
assert (RN : 0 <= r /\ (forall k, nr = Some k -> 0 <= k)).
{ destruct HD as [r0'|r0' a r' c' NA R'|r0']; (split; [lia|]); intros k EK; try discriminate; injection EK as <-; [lia|]. apply refers_nonneg in R'. lia. }
destruct RN as [RN KN].
destruct (C46_rectangle_proof wb fname which header startcell stopcell usecols sh r0 c0 r1 c1 cols nr r f)
  as (p & E & FN & D1 & D2 & N1 & N2); try assumption.
- destruct SP as [a Ha|a r' c' A1 A2 R']; [rewrite <- H, <- WD; apply st_sheet; exact Ha|apply st_cell; assumption].
- lia.
- intros k EK. specialize (NR k EK). lia.
- intros c I. destruct (CL c I) as [C1 C2]. rewrite Forall_forall in CF. specialize (CF c I).
  replace (SpecXl.cells_of sh c r (Z.min r1 (sh_nrows sh - 1))) with (cells c); [exact C2|]. symmetry.
  destruct (Z.le_gt_cases r (Z.min r1 (sh_nrows sh - 1) + 1)) as [LE|GT].
  + rewrite <- (column_shown l sh c r _ (cells c) SH C1); [f_equal; lia|lia|lia|lia|lia].
  + destruct C1 as [C1 _]. assert (Z0 : cells c = []) by (apply length_zero_iff_nil; lia). rewrite Z0. unfold SpecXl.cells_of.
    replace (Z.to_nat (Z.min r1 (sh_nrows sh - 1) + 1 - r)) with 0%nat by lia. reflexivity.
- exists p. split; [exact E|]. split; [exact FN|]. split; [exact D1|]. split; [exact D2|]. split; [|exact N2].
  intros c I. rewrite (N1 c I). destruct nr as [k|]; [|reflexivity]. rewrite Forall_forall in CF. specialize (CF c I).
  specialize (NR k eq_refl). specialize (KN k eq_refl). destruct (VT k c) as ((v & V1 & V2) & _); [lia|lia|].
  apply value_shown in V1; [|lia|lia]. exists v. rewrite V1. auto.
Qed.

Lemma C59_pack_proof :
forall country W file date fname which s header startcell stopcell usecols r0 c0 r1 c1 cols nr r cells f l,
good_workbook country W -> workbook_file W file -> tells_dates (wb_globals W) date ->
picks W which s -> l = SpecBiff.cells_of (wb_globals W) date s ->
refers startcell r0 c0 -> stops_at (height l) (width l) stopcell r1 c1 -> c1 < width l ->
chosen_columns c0 c1 usecols cols -> cols <> [] -> Forall (fun c => c0 <= c <= c1) cols ->
headed header r0 nr r -> (forall k, nr = Some k -> k < height l) ->
(forall c, In c cols -> column_of l c r (Z.max 0 (Z.min (r1 + 1) (height l) - r)) (cells c) /\
                        typed_column (datemode_of (wb_globals W)) (cells c) (f c)) ->
exists p, sheetpack_file file fname which header startcell stopcell usecols = Ok p /\ p_fn p = fname /\
  (forall c, In c cols -> holds_column (p_data p) c (f c)) /\
  (forall c, ~ In c cols -> dget c (p_data p) = None) /\
  (forall c, In c cols -> match nr with
                          | Some k => exists v, dget c (p_names p) = Some v /\ shows_value l k c v
                          | None => dget c (p_names p) = None
                          end) /\
  (forall c, ~ In c cols -> dget c (p_names p) = None).
Proof.
intros country W file date fname which s header startcell stopcell usecols r0 c0 r1 c1 cols nr r cells f l G F T PK EL RF SP CW CC CN CF HD NR CL.
destruct (C59_opens_proof country W file date G F T) as (shs & O & A).
destruct (picked W which s shs _ (datemode_of (wb_globals W)) PK A) as (sh & SH & CH). rewrite <- EL in SH.
destruct (shown_pack _ fname which sh header startcell stopcell usecols r0 c0 r1 c1 cols nr r cells f l SH CH RF SP CW CC CN CF HD NR CL) as (CR & (rc & CS) & P).
unfold sheetpack_file. rewrite CR, CS, O. exact P.
Qed.

