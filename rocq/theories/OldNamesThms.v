(** * Defined names in workbooks of BIFF 5 and 7 (C71): proofs of the property theorems *)

From Coq Require Import ZifyBool ZifyNat ZifyN QArith.
From Verif Require Import PyBase PyBaseFacts PyFloat PyText NumPy SpecPack Dbf SpecDbf DbfProofs Dicts Pack XlDate ReadXl XlProofs ReadXlThms XlStruct CompDoc SpecCompDoc CompDocProofs SpecSst Sst SpecDoc DocProofs FmtDate SpecXl XlSheet SpecXlSheet XlSheetProofs SpecFmtDate Biff SpecBiff BiffProofs BiffThms BiffOld SpecOld OldProofs OldThms.
Open Scope nat_scope.
From Verif Require SpecNames XlNames.
From Verif Require PropsOld NamesThms.
Open Scope Z_scope.

(** The same but for skipped records and offsets. *)
Inductive alike : list SpecBiff.global -> list SpecBiff.global -> Prop :=
| al_nil : alike [] []
| al_drop : forall l l', alike l l' -> alike (SpecBiff.Skipped 0 [] :: l) l'
| al_tab : forall o o' v k name extra l l', alike l l' -> alike (SpecBiff.Tab o v k name extra :: l) (SpecBiff.Tab o' v k name extra :: l')
| al_keep : forall g l l', alike l l' -> alike (g :: l) (g :: l').
Lemma unnamed_alike l l' : unnamed l l' -> alike (map as8 l) (map as8 l').
Proof. induction 1; cbn [map as8]; constructor; assumption. Qed.
Lemma al_last {A} (f : SpecBiff.global -> option A) l l' : alike l l' -> f (SpecBiff.Skipped 0 []) = None -> (forall o o' v k n e, f (SpecBiff.Tab o v k n e) = f (SpecBiff.Tab o' v k n e)) ->
  last_said f l = last_said f l'.
Proof.
  intros U N T. induction U as [|l l' U IH|o o' v k name extra l l' U IH|g l l' U IH]; cbn [last_said]; [reflexivity|..].
  - rewrite IH, N. destruct (last_said f l'); reflexivity.
  - rewrite IH, (T o o'). reflexivity.
  - rewrite IH. reflexivity.
Qed.
Lemma al_xfs l l' : alike l l' -> filter is_xf l = filter is_xf l'.
Proof. induction 1 as [|l l' U IH|o o' v k name extra l l' U IH|g l l' U IH]; cbn [filter is_xf]; [reflexivity|assumption|assumption|]. rewrite IH. reflexivity. Qed.
Lemma al_count l l' : alike l l' -> xf_count l = xf_count l'.
Proof. intro U. unfold xf_count. rewrite (al_xfs _ _ U). reflexivity. Qed.
Lemma al_format l l' key : alike l l' -> format_of key l = format_of key l'.
Proof. intro U. apply al_last; [exact U|reflexivity|reflexivity]. Qed.
Definition afixed (g : SpecBiff.global) : Prop := match g with SpecBiff.Skipped _ _ | SpecBiff.Tab _ _ _ _ _ => False | _ => True end.
Lemma al_split l l' : alike l l' -> forall before g after, afixed g -> l = before ++ g :: after ->
  exists before' after', l' = before' ++ g :: after' /\ alike before before'.
Proof.
  induction 1 as [|l l' U IH|o o' v k name extra l l' U IH|h l l' U IH]; intros before g after FX E.
  - destruct before; discriminate E.
  - destruct before as [|x before]; [cbn [app] in E; injection E as <- E; contradiction|]. injection E as <- E.
    destruct (IH _ _ _ FX E) as (b & a & E' & U'). exists b, a. split; [exact E'|constructor; exact U'].
  - destruct before as [|x before]; [cbn [app] in E; injection E as <- E; contradiction|]. injection E as <- E. destruct (IH _ _ _ FX E) as (b & a & E' & U').
    exists (SpecBiff.Tab o' v k name extra :: b), a. split; [cbn [app]; rewrite <- E'; reflexivity|constructor; exact U'].
  - destruct before as [|x before].
    + cbn [app] in E. injection E as -> E. exists [], l'. split; [reflexivity|constructor].
    + injection E as <- E. destruct (IH _ _ _ FX E) as (b & a & E' & U'). exists (h :: b), a. split; [cbn [app]; rewrite <- E'; reflexivity|constructor; assumption].
Qed.
Lemma al_split' l l' : alike l l' -> forall before' g after', afixed g -> l' = before' ++ g :: after' ->
  exists before after, l = before ++ g :: after /\ alike before before'.
Proof.
  induction 1 as [|l l' U IH|o o' v k name extra l l' U IH|h l l' U IH]; intros before g after FX E.
  - destruct before; discriminate E.
  - destruct (IH _ _ _ FX E) as (b & a & E' & U'). exists (SpecBiff.Skipped 0 [] :: b), a. split; [cbn [app]; rewrite <- E'; reflexivity|constructor; exact U'].
  - destruct before as [|x before]; [cbn [app] in E; injection E as <- E; contradiction|]. injection E as <- E. destruct (IH _ _ _ FX E) as (b & a & E' & U').
    exists (SpecBiff.Tab o v k name extra :: b), a. split; [cbn [app]; rewrite <- E'; reflexivity|constructor; exact U'].
  - destruct before as [|x before].
    + cbn [app] in E. injection E as -> E. exists [], l. split; [reflexivity|constructor].
    + injection E as <- E. destruct (IH _ _ _ FX E) as (b & a & E' & U'). exists (h :: b), a. split; [cbn [app]; rewrite <- E'; reflexivity|constructor; assumption].
Qed.
Lemma al_key l l' key : alike l l' -> (date_key l key <-> date_key l' key).
Proof. intro U. unfold date_key. rewrite (al_format _ _ _ U). reflexivity. Qed.
Lemma al_date l l' i : alike l l' -> (date_xf l i <-> date_xf l' i).
Proof.
  intro U. split; intros (before & key & (font & rest & after & E & C) & H).
  - destruct (al_split l l' U before (SpecBiff.Xf font key rest) after I E) as (b & a & E' & U'). exists b, key. split; [exists font, rest, a; split; [exact E'|rewrite <- (al_count _ _ U'); exact C]|].
    rewrite <- (al_format _ _ key U'), <- (al_key l l' key U), <- (al_key l l' 0 U). exact H.
  - destruct (al_split' l l' U before (SpecBiff.Xf font key rest) after I E) as (b & a & E' & U'). exists b, key. split; [exists font, rest, a; split; [exact E'|rewrite (al_count _ _ U'); exact C]|].
    rewrite (al_format _ _ key U'), (al_key l l' key U), (al_key l l' 0 U). exact H.
Qed.
Lemma al_tabs l l' : alike l l' -> map fst (tabs l) = map fst (tabs l').
Proof.
  induction 1 as [|l l' U IH|o o' v k name extra l l' U IH|g l l' U IH]; cbn [tabs flat_map]; [reflexivity|exact IH|..]; rewrite !map_app; fold (tabs l) (tabs l'); rewrite IH; f_equal.
  destruct k; reflexivity.
Qed.
Lemma al_shared l l' : alike l l' -> shared_of l = shared_of l'.
Proof. intro U. unfold shared_of. erewrite al_last; [reflexivity|exact U|reflexivity|reflexivity]. Qed.
Lemma old_un_names l l' : unnamed l l' -> names_of l' = [].
Proof. induction 1 as [|n l l' U IH|o o' v k raw name extra l l' U IH|g l l' NG U IH]; cbn [names_of flat_map]; try assumption; [reflexivity|]. destruct g; try contradiction; exact IH. Qed.
Lemma old_un_page l l' : unnamed l l' -> page_of l = page_of l'.
Proof. intro U. unfold page_of. generalize (@None Z). induction U; intro p; cbn [fold_left]; try reflexivity; apply IHU. Qed.
Lemma old_un_good dec country W W' : good_workbook dec country W -> unnamed (wb_globals W) (wb_globals W') ->
  (forall before g after, wb_globals W' = before ++ g :: after -> good_global dec country (wb_globals W') before g) ->
  wb_more W' = wb_more W -> wb_sheets W' = wb_sheets W -> good_workbook dec country W'.
Proof.
  intros (GB & GG & GN & GS) U GG' M SH. split; [rewrite M; exact GB|]. split; [exact GG'|]. split.
  - split; [rewrite (old_un_names _ _ U); constructor|]. exists []. split; [intros [|k] N; discriminate N|].
    rewrite (old_un_names _ _ U). exists (fun _ => []), (fun _ => O). intros [|i] n N; discriminate N.
  - pose proof (unnamed_alike _ _ U) as AL. rewrite SH. eapply Forall_impl; [|exact GS]. intros s. unfold good_sheet.
    rewrite (al_count _ _ AL), (al_shared _ _ AL), (old_un_page _ _ U). intro H; exact H.
Qed.

Lemma C71_same_proof :
forall dec country W W' c c' file file', good_workbook dec country W -> stored W c -> in_file c file ->
unnamed (wb_globals W) (wb_globals W') ->
(forall before g after, wb_globals W' = before ++ g :: after -> good_global dec country (wb_globals W') before g) ->
wb_more W' = wb_more W -> wb_sheets W' = wb_sheets W -> stored W' c' -> in_file c' file' ->
exists bk bk', open_workbook_dec dec file = Ok bk /\ open_workbook_dec dec file' = Ok bk' /\
  bk_names bk = bk_names bk' /\ bk_datemode bk = bk_datemode bk' /\ Forall2 same_cells (bk_sheets bk) (bk_sheets bk').
Proof.
intros dec country W W' c c' file file' G S F U GG' M SH S' F'.
pose proof (old_un_good dec country W W' G U GG' M SH) as G'. pose proof (unnamed_alike _ _ U) as AL.
destruct (C69_opens_proof dec country W c file G S F) as ((date & TD) & H). destruct (H date TD) as (shs & O & A).
assert (TD' : tells_dates (says W') date).
{ intros i R. unfold says in *. rewrite <- (al_count _ _ AL) in R. rewrite (TD i R). apply al_date. exact AL. }
destruct (proj2 (C69_opens_proof dec country W' c' file' G' S' F') date TD') as (shs' & O' & A').
eexists _, _. split; [exact O|]. split; [exact O'|]. cbn [bk_names bk_sheets bk_datemode]. split; [apply al_tabs; exact AL|].
split; [unfold datemode_of; erewrite al_last; [reflexivity|exact AL|reflexivity|reflexivity]|].
rewrite SH in A'. assert (C : forall s, SpecOld.cells_of W' date s = SpecOld.cells_of W date s).
{ intro s. unfold SpecOld.cells_of. unfold says. rewrite (al_shared _ _ AL). reflexivity. }
clear - A A' C. revert shs' A'. induction A as [|s sh ss shs A1 _ IH]; intros shs' A'; inversion A' as [|? sh' ? ? A1' A2']; subst; constructor.
- rewrite C in A1'. eapply NamesThms.same_shown; eassumption.
- apply IH. exact A2'.
Qed.

Lemma old_opened_bad dec country W mem base : good_bof (wb_more W) ->
  (forall before g after, wb_globals W = before ++ g :: after -> good_global dec country (wb_globals W) before g) ->
  Exists (fun n => SpecNames.nm_sheet n <> 0 /\ forall name, ~ names_sheet dec (wb_globals W) (SpecNames.nm_sheet n) name) (names_of (wb_globals W)) ->
  old_stored_at W mem base -> old_opened dec mem base = Err KeyError.
Proof.
  intros GB GG GN [H1 H2]. apply holds_from in H1. destruct H1 as [post F]. unfold globals_bytes in F. rewrite <- !app_assoc in F.
  destruct (old_bof _ _ _ _ GB F) as (v & V & B & F1). set (pos := base + size (bof 0x500 5 (wb_more W))) in *. set (L := wb_globals W) in *.
  destruct (old_globals_ok dec country base mem (eof ++ post) L (eof_starts post) GG L [] (new_obook v) pos eq_refl) as (b & [KF KC KN KR] & LL & R).
  { constructor; [apply facts_new; lia| |left; reflexivity|apply rfacts_new]. repeat split; try discriminate. left. reflexivity. }
  { exact F1. }
  pose proof F1 as F0. apply from_length in F0. destruct F0 as [P0 P1]. rewrite !size_app in P1.
  pose proof (record_4 10 []). change (record 10 []) with eof in *. pose proof (size_pos post).
  assert (LM : exists k, S (2 * length mem) = (length L + S k)%nat).
  { exists (2 * length mem - length L)%nat. unfold size in P1 at 1. unfold L in *. lia. }
  destruct LM as [k LM]. unfold old_opened. rewrite B. cbn [bind]. replace (v =? 0) with false by lia. replace (v =? 80) with false by lia.
  unfold open_old. replace (v <=? 40) with false by lia. rewrite LM, R. apply from_next in F1. cbn [old_globals]. unfold eof in F1.
  destruct (get_record_ok _ _ 10 [] _ ltac:(unfold word16; lia) ltac:(unfold short, size; cbn; lia) F1) as [RR _]. rewrite RR. cbn [bind Z.eqb Pos.eqb].
  cbv zeta. rewrite (old_names_bad dec L (old_epilogue b) KR GN). reflexivity.
Qed.

Lemma C71_reference_refuted_proof :
forall dec country W c file, good_bof (wb_more W) ->
(forall before g after, wb_globals W = before ++ g :: after -> good_global dec country (wb_globals W) before g) ->
Exists (fun n => SpecNames.nm_sheet n <> 0 /\ forall name, ~ names_sheet dec (wb_globals W) (SpecNames.nm_sheet n) name) (names_of (wb_globals W)) ->
stored W c -> in_file c file ->
open_workbook_dec dec file = Err KeyError.
Proof.
intros dec country W c file GB GG EX S F. destruct (old_file dec W c file S F) as (m & pos & SA & O).
pose proof (old_opened_bad dec country W m pos GB GG EX SA) as R.
destruct SA as [H1 _]. apply holds_from in H1. destruct H1 as [post FR]. unfold globals_bytes in FR. rewrite <- !app_assoc in FR.
destruct (old_bof _ _ _ _ GB FR) as (v & V & B & _). rewrite (O _ _ B) by lia. exact R.
Qed.

