(** * Links, tips, notes, drawn objects and text boxes in BIFF8 sheets (C64): proofs of the property theorems *)

From Coq Require Import ZifyBool ZifyNat ZifyN QArith.
From Verif Require Import PyBase PyBaseFacts PyFloat PyText NumPy SpecPack Dbf SpecDbf DbfProofs Dicts Pack XlDate ReadXl XlProofs ReadXlThms XlStruct CompDoc SpecCompDoc SpecSst Sst SstProofs SstThms SpecXl XlSheet SpecXlSheet XlSheetProofs XlSheetThms SpecFmtDate FmtDate Biff SpecBiff BiffProofs BiffThms NamesThms.
Open Scope nat_scope.
From Verif Require SpecNames SpecObjects.
Open Scope Z_scope.
(** A workbook with one sheet, in it some items and a number in A1. *)
Definition drawn_sheet (items : list item) : sheet_data := mksheetdata 0x600 [] (items ++ [Cell (mkplace 0 0 0) (CRk (RkInt 7 false) [])]).
Definition drawn_globals (off : Z) : list global := [Xf [0; 0]%N 0 (repeat 0%N 16); Tab off 0 0 (mklayout 0 (false, lit "s") [] None None) []].
Definition drawn_book (items : list item) : workbook :=
  mkworkbook [] (drawn_globals (size (globals_bytes (mkworkbook [] (drawn_globals 0) [])))) [drawn_sheet items].
Definition drawn_stream (items : list item) : str := globals_bytes (drawn_book items) ++ sheet_bytes (drawn_sheet items).
(** These items keep the workbook from opening, which opens without. *)
Definition keeps_closed (items : list item) (e : exn) : Prop :=
  stored (drawn_book items) (drawn_stream items) /\ Forall (good_global (0, 0)) (wb_globals (drawn_book items)) /\
  open_workbook (drawn_stream items) = Err e /\
  exists bk, open_workbook (drawn_stream []) = Ok bk /\ map sh_values (bk_sheets bk) = [[[VFloat (float_of_Z 7)]]].
Definition a_box : SpecObjects.textbox := SpecObjects.mktextbox (repeat 0%N 10) [(true, lit "hi")] (repeat 0%N 4) [[repeat 0%N 8; repeat 0%N 8]].
Definition a_link (u : str) : SpecObjects.link := SpecObjects.mklink (0, 0, 0, 0) 3 None None (SpecObjects.Url u []) None [].

Definition unplaced {A} (f : global -> A) : Prop := forall o o' v k n e, f (Tab o v k n e) = f (Tab o' v k n e).
Lemma mv_eq {A} (f : global -> A) g g' : unplaced f -> moved_tab g g' -> f g' = f g.
Proof. intros U M. destruct g; cbn [moved_tab] in M; try (subst g'; reflexivity). destruct M as [o' ->]. apply U. Qed.
Lemma mv_last {A} (f : global -> option A) l l' : unplaced f -> Forall2 moved_tab l l' -> last_said f l' = last_said f l.
Proof. intros U M. induction M as [|g g' l l' M _ IH]; [reflexivity|]. cbn [last_said]. rewrite IH, (mv_eq f g g' U M). reflexivity. Qed.
Lemma mv_flat {A} (f : global -> list A) l l' : unplaced f -> Forall2 moved_tab l l' -> flat_map f l' = flat_map f l.
Proof. intros U M. induction M as [|g g' l l' M _ IH]; [reflexivity|]. cbn [flat_map]. rewrite IH, (mv_eq f g g' U M). reflexivity. Qed.
Lemma mv_count l l' : Forall2 moved_tab l l' -> xf_count l' = xf_count l.
Proof.
  intro M. unfold xf_count. f_equal. induction M as [|g g' l l' M _ IH]; [reflexivity|]. cbn [filter].
  rewrite (mv_eq is_xf g g' (fun _ _ _ _ _ _ => eq_refl) M). destruct (is_xf g); cbn [length]; rewrite IH; reflexivity.
Qed.
Lemma mv_split l l' : Forall2 moved_tab l l' -> forall before' g after', fixed g -> l' = before' ++ g :: after' ->
  exists before after, l = before ++ g :: after /\ Forall2 moved_tab before before'.
Proof.
  induction 1 as [|h h' l l' M F IH]; intros before g after FX E; [destruct before; discriminate E|].
  destruct before as [|x before]; cbn [app] in E; injection E as -> E.
  - exists [], l. split; [|constructor]. destruct h; cbn [moved_tab] in M; try (subst g; reflexivity). destruct M as [o' ->]. contradiction.
  - destruct (IH _ _ _ FX E) as (b & a & E' & U). exists (h :: b), a. split; [cbn [app]; rewrite <- E'; reflexivity|constructor; assumption].
Qed.
Lemma mv_sym l l' : Forall2 moved_tab l l' -> Forall2 moved_tab l' l.
Proof.
  induction 1 as [|g g' l l' M F IH]; constructor; [|exact IH]. destruct g; cbn [moved_tab] in M; try (subst g'; reflexivity). destruct M as [o' ->]. exists offset. reflexivity.
Qed.
Lemma mv_format l l' key : Forall2 moved_tab l l' -> format_of key l' = format_of key l.
Proof. intro M. apply mv_last; [intros ? ? ? ? ? ?; reflexivity|exact M]. Qed.
Lemma mv_key l l' key : Forall2 moved_tab l l' -> (date_key l' key <-> date_key l key).
Proof. intro U. unfold date_key. rewrite (mv_format _ _ _ U). reflexivity. Qed.
Lemma mv_date_1 l l' i : Forall2 moved_tab l l' -> date_xf l' i -> date_xf l i.
Proof.
  intros U (before & key & (font & rest & after & E & C) & H).
  destruct (mv_split l l' U before (Xf font key rest) after I E) as (b & a & E' & U'). exists b, key. split; [exists font, rest, a; split; [exact E'|rewrite <- (mv_count _ _ U'); exact C]|].
  rewrite <- (mv_format _ _ key U'), <- (mv_key l l' key U), <- (mv_key l l' 0 U). exact H.
Qed.
Lemma mv_date l l' i : Forall2 moved_tab l l' -> (date_xf l' i <-> date_xf l i).
Proof. intro U. split; apply mv_date_1; [exact U|apply mv_sym; exact U]. Qed.
Lemma mv_books l l' : Forall2 moved_tab l l' -> books_of l' = books_of l.
Proof. apply mv_flat. intros ? ? ? ? ? ?. reflexivity. Qed.
Lemma mv_refs l l' : Forall2 moved_tab l l' -> references_of l' = references_of l.
Proof. apply mv_flat. intros ? ? ? ? ? ?. reflexivity. Qed.
Lemma mv_names l l' : Forall2 moved_tab l l' -> names_of l' = names_of l.
Proof. apply mv_flat. intros ? ? ? ? ? ?. reflexivity. Qed.
Lemma mv_kinds l l' : Forall2 moved_tab l l' -> kinds_of l' = kinds_of l.
Proof. apply mv_flat. intros ? ? ? ? ? ?. reflexivity. Qed.
Lemma mv_shared l l' : Forall2 moved_tab l l' -> shared_of l' = shared_of l.
Proof. intro M. unfold shared_of. erewrite mv_last; [reflexivity|intros ? ? ? ? ? ?; reflexivity|exact M]. Qed.
Lemma mv_tabs l l' : Forall2 moved_tab l l' -> map fst (tabs l') = map fst (tabs l).
Proof.
  induction 1 as [|g g' l l' M F IH]; [reflexivity|]. cbn [tabs flat_map]. rewrite !map_app. fold (tabs l) (tabs l'). rewrite IH. f_equal.
  destruct g; cbn [moved_tab] in M; try (subst g'; reflexivity). destruct M as [o' ->]. destruct kind; reflexivity.
Qed.
Lemma kept_order l : in_order l -> in_order (filter (fun it => negb (extra_item it)) l).
Proof.
  assert (K : forall (P : item -> Prop) l, Forall P l -> Forall P (filter (fun it => negb (extra_item it)) l)).
  { intros P x F. apply Forall_forall. intros it X. apply filter_In in X. rewrite Forall_forall in F. apply F, X. }
  intros (a & b & -> & A & B). exists (filter (fun it => negb (extra_item it)) a), (filter (fun it => negb (extra_item it)) b).
  split; [apply filter_app|]. split; apply K; assumption.
Qed.
Lemma kept_anchored : forall l link drawn, anchored link drawn (filter (fun it => negb (extra_item it)) l).
Proof. induction l as [|it l IH]; intros; [exact I|]. destruct it; cbn [filter extra_item negb]; try apply IH; exact (IH link drawn). Qed.
Lemma kept_good country l l' s : Forall2 moved_tab l l' -> good_sheet country l s -> good_sheet country l' (without_extras s).
Proof.
  intros M (V & B & O & A & G). split; [exact V|]. split; [exact B|]. split; [apply kept_order; exact O|]. split; [apply kept_anchored|].
  rewrite (mv_shared _ _ M), (mv_count _ _ M). apply Forall_forall. intros it X. apply filter_In in X. rewrite Forall_forall in G. apply G, X.
Qed.
Lemma kept_cells l l' date s : Forall2 moved_tab l l' -> SpecBiff.cells_of l' date (without_extras s) = SpecBiff.cells_of l date s.
Proof.
  intro M. unfold SpecBiff.cells_of. rewrite (mv_shared _ _ M). destruct s as [v more items]. unfold without_extras. cbn [sd_items].
  induction items as [|it items IH]; [reflexivity|]. cbn [filter]. destruct it; cbn [extra_item negb flat_map]; rewrite <- IH; reflexivity.
Qed.
Lemma mv_good country W W' : good_workbook country W -> wb_more W' = wb_more W -> Forall2 moved_tab (wb_globals W) (wb_globals W') ->
  Forall (good_global country) (wb_globals W') -> wb_sheets W' = map without_extras (wb_sheets W) -> good_workbook country W'.
Proof.
  intros (GB & GG & (GF & GA) & GN & GS) E M GG' SH. split; [rewrite E; exact GB|]. split; [exact GG'|]. split; [split|split].
  - rewrite (mv_books _ _ M), (mv_refs _ _ M). exact GF.
  - intros before head name extra after E'. destruct (mv_split _ _ M before (Foreign head name extra) after I E') as (b & a & E2 & U'). rewrite (mv_books _ _ U'). eapply GA. exact E2.
  - rewrite (mv_names _ _ M), (mv_kinds _ _ M). unfold foreign. rewrite (mv_refs _ _ M), (mv_books _ _ M). exact GN.
  - rewrite SH. apply Forall_map. eapply Forall_impl; [|exact GS]. intros s G. apply (kept_good country _ _ s M G).
Qed.
Lemma drawn_size off sheets : size (globals_bytes (mkworkbook [] (drawn_globals off) sheets)) = size (globals_bytes (mkworkbook [] (drawn_globals 0) [])).
Proof.
  unfold globals_bytes, drawn_globals. cbn [wb_globals wb_more flat_map global_bytes].
  rewrite !size_app, !record_size, !size_app, !size_bytes. reflexivity.
Qed.
Lemma drawn_stored l : stored (drawn_book l) (drawn_stream l).
Proof.
  split; [exists [], (sheet_bytes (drawn_sheet l)); split; reflexivity|]. unfold drawn_book, drawn_globals. cbn [wb_globals wb_sheets tabs flat_map app].
  constructor; [|constructor]. exists (globals_bytes (drawn_book l)), []. split; [rewrite app_nil_r; reflexivity|].
  unfold drawn_book at 1. cbn [snd]. symmetry. apply drawn_size.
Qed.
Lemma drawn_good l : Forall (good_global (0, 0)) (wb_globals (drawn_book l)).
Proof.
  unfold drawn_book, drawn_globals. cbn [wb_globals]. repeat (apply Forall_cons || apply Forall_nil); cbn [good_global].
  - unfold word16, short, size. cbn. lia.
  - destruct (plain_layout (lit "s") ltac:(auto)). split; [vm_compute; split; [discriminate|reflexivity]|]. split; [reflexivity|]. split; [assumption|]. split; [assumption|].
    split; [reflexivity|reflexivity].
Qed.

Lemma C64_same_proof :
forall country W W' c c', good_workbook country W -> stored W c ->
wb_more W' = wb_more W -> Forall2 moved_tab (wb_globals W) (wb_globals W') -> Forall (good_global country) (wb_globals W') ->
wb_sheets W' = map without_extras (wb_sheets W) -> stored W' c' ->
exists bk bk', open_workbook c = Ok bk /\ open_workbook c' = Ok bk' /\
  bk_names bk = bk_names bk' /\ bk_datemode bk = bk_datemode bk' /\ Forall2 same_cells (bk_sheets bk) (bk_sheets bk').
Proof.
intros country W W' c c' G S E M GG' SH S'.
pose proof (mv_good country W W' G E M GG' SH) as G'.
destruct (C58_opens_proof country W c G S) as ((date & TD) & H). destruct (H date TD) as (shs & O & A).
assert (TD' : tells_dates (wb_globals W') date).
{ intros i R. rewrite (mv_count _ _ M) in R. rewrite (TD i R). symmetry. apply mv_date. exact M. }
destruct (proj2 (C58_opens_proof country W' c' G' S') date TD') as (shs' & O' & A').
eexists _, _. split; [exact O|]. split; [exact O'|]. cbn [bk_names bk_sheets bk_datemode]. split; [symmetry; apply mv_tabs; exact M|].
split; [unfold datemode_of; erewrite (mv_last _ _ (wb_globals W')); [reflexivity|intros ? ? ? ? ? ?; reflexivity|exact M]|].
rewrite SH in A'. clear - A A' M. revert shs' A'. induction A as [|s sh ss shs A1 _ IH]; intros shs' A'; cbn [map] in A'; inversion A' as [|? sh' ? ? A1' A2']; subst; constructor.
- rewrite (kept_cells _ _ _ _ M) in A1'. eapply same_shown; eassumption.
- apply IH. exact A2'.
Qed.

Lemma C64_url_refuted_proof :
keeps_closed [Link (a_link [104; 128512]%N)] AssertionError /\
exists bk, open_workbook (drawn_stream [Link (a_link [104; 8364]%N)]) = Ok bk.
Proof.
split; [|eexists; vm_compute; reflexivity].
split; [apply drawn_stored|]. split; [apply drawn_good|]. split; [vm_compute; reflexivity|]. eexists. split; [vm_compute; reflexivity|reflexivity].
Qed.

Lemma C64_box_refuted_proof :
keeps_closed [Written a_box] UnboundLocalError /\ SpecObjects.good_textbox a_box.
Proof.
split; [split; [apply drawn_stored|]; split; [apply drawn_good|]; split; [vm_compute; reflexivity|]; eexists; split; [vm_compute; reflexivity|reflexivity]|].
unfold SpecObjects.good_textbox, good_stretch, units, scalar, size. cbn. repeat (apply Forall_cons || apply Forall_nil || split); try reflexivity; try lia; try discriminate; auto.
Qed.

Lemma C64_object_refuted_proof :
keeps_closed [Passed 0x5d []] AttributeError.
Proof.
split; [apply drawn_stored|]. split; [apply drawn_good|]. split; [vm_compute; reflexivity|]. eexists. split; [vm_compute; reflexivity|reflexivity].
Qed.

Lemma C64_tip_refuted_proof :
keeps_closed [Tip (0, 0, 0, 0) (lit "t")] AssertionError /\
keeps_closed [Link (a_link (lit "http://e.org")); Tip (0, 0, 0, 1) (lit "t")] AssertionError.
Proof.
split; (split; [apply drawn_stored|]; split; [apply drawn_good|]; split; [vm_compute; reflexivity|]; eexists; split; [vm_compute; reflexivity|reflexivity]).
Qed.

Lemma C64_mark_refuted_proof :
keeps_closed [Link (SpecObjects.mklink (0, 0, 0, 0) 11 None None (SpecObjects.Other (repeat 4%N 16) [100; 0; 0; 0]%N) (Some (lit "m")) [])] XLRDError.
Proof.
split; [apply drawn_stored|]. split; [apply drawn_good|]. split; [vm_compute; reflexivity|]. eexists. split; [vm_compute; reflexivity|reflexivity].
Qed.

