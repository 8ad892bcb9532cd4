(** * Defined names in BIFF8 workbooks (C63): proofs of the property theorems *)

From Coq Require Import ZifyBool ZifyNat ZifyN QArith.
From Verif Require Import PyBase PyBaseFacts PyFloat PyText NumPy SpecPack Dbf SpecDbf DbfProofs Dicts Pack XlDate ReadXl XlProofs ReadXlThms XlStruct CompDoc SpecCompDoc SpecSst Sst SstProofs SstThms SpecXl XlSheet SpecXlSheet XlSheetProofs XlSheetThms SpecFmtDate FmtDate Biff SpecBiff BiffProofs BiffThms.
Open Scope nat_scope.
From Verif Require SpecNames.
Open Scope Z_scope.
(** A workbook with one sheet and some names. *)
Definition one_sheet : sheet_data := mksheetdata 0x600 [] [Cell (mkplace 0 0 0) (CRk (RkInt 7 false) [])].
Definition plain_name (sheet : Z) (m : SpecNames.meaning) : SpecNames.name_data :=
  SpecNames.mkname 0 0 0 sheet (repeat 0%N 4) (mklayout 0 (false, lit "n") [] None None) m [].
Definition named_globals (off : Z) (l : list SpecNames.meaning) : list global :=
  [Xf [0; 0]%N 0 (repeat 0%N 16); Tab off 0 0 (mklayout 0 (false, lit "s") [] None None) []; Books 1 []; References [(0, 0, 0)]]
  ++ map (fun m => Named (plain_name 0 m)) l.
Definition named_book (l : list SpecNames.meaning) : workbook :=
  mkworkbook [] (named_globals (size (globals_bytes (mkworkbook [] (named_globals 0 l) []))) l) [one_sheet].
Definition named_stream (l : list SpecNames.meaning) : str := globals_bytes (named_book l) ++ sheet_bytes one_sheet.
(** The formulas l as names keep the workbook from opening, which opens without. *)
Definition keeps_shut (l : list SpecNames.expr) (e : exn) : Prop :=
  let ms := map SpecNames.Formula l in
  stored (named_book ms) (named_stream ms) /\ Forall (good_global (0, 0)) (wb_globals (named_book ms)) /\
  good_links (wb_globals (named_book ms)) /\ Forall (good_sheet (0, 0) (wb_globals (named_book ms))) (wb_sheets (named_book ms)) /\
  open_workbook (named_stream ms) = Err e /\
  exists bk, open_workbook (named_stream []) = Ok bk /\ map sh_values (bk_sheets bk) = [[[VFloat (float_of_Z 7)]]].
(** With a chart sheet beside the sheet, and any names: the name n keeps the
    workbook from opening, which opens with the names l alone. *)
Definition charted_globals (off : Z) (l : list SpecNames.name_data) : list global :=
  [Xf [0; 0]%N 0 (repeat 0%N 16); Tab off 0 0 (mklayout 0 (false, lit "s") [] None None) []; Tab 0 0 2 (mklayout 0 (false, lit "n") [] None None) [];
   Books 2 []; References [(0, 0, 0)]] ++ map Named l.
Definition charted_book (l : list SpecNames.name_data) : workbook :=
  mkworkbook [] (charted_globals (size (globals_bytes (mkworkbook [] (charted_globals 0 l) []))) l) [one_sheet].
Definition charted_stream (l : list SpecNames.name_data) : str := globals_bytes (charted_book l) ++ sheet_bytes one_sheet.
Definition shut_by (l : list SpecNames.name_data) (n : SpecNames.name_data) (e : exn) : Prop :=
  let L := l ++ [n] in
  stored (charted_book L) (charted_stream L) /\ Forall (good_global (0, 0)) (wb_globals (charted_book L)) /\
  good_links (wb_globals (charted_book L)) /\ Forall (good_sheet (0, 0) (wb_globals (charted_book L))) (wb_sheets (charted_book L)) /\
  open_workbook (charted_stream L) = Err e /\
  exists bk, open_workbook (charted_stream l) = Ok bk /\ map sh_values (bk_sheets bk) = [[[VFloat (float_of_Z 7)]]].

Lemma un_last {A} (f : global -> option A) l l' : unnamed l l' -> (forall n, f (Named n) = None) -> (forall o o' v k n e, f (Tab o v k n e) = f (Tab o' v k n e)) ->
  last_said f l = last_said f l'.
Proof.
  intros U N T. induction U as [|n l l' U IH|o o' v k name extra l l' U IH|g l l' NG U IH]; cbn [last_said]; [reflexivity|..].
  - rewrite IH, N. destruct (last_said f l'); reflexivity.
  - rewrite IH, (T o o'). reflexivity.
  - rewrite IH. reflexivity.
Qed.
Lemma un_flat {A} (f : global -> list A) l l' : unnamed l l' -> (forall n, f (Named n) = []) -> (forall o o' v k n e, f (Tab o v k n e) = f (Tab o' v k n e)) ->
  flat_map f l = flat_map f l'.
Proof.
  intros U N T. induction U as [|n l l' U IH|o o' v k name extra l l' U IH|g l l' NG U IH]; cbn [flat_map]; [reflexivity|..].
  - rewrite N. exact IH.
  - rewrite IH, (T o o'). reflexivity.
  - rewrite IH. reflexivity.
Qed.
Lemma un_xfs l l' : unnamed l l' -> filter is_xf l = filter is_xf l'.
Proof.
  induction 1 as [|n l l' U IH|o o' v k name extra l l' U IH|g l l' NG U IH]; cbn [filter is_xf]; [reflexivity|assumption|assumption|].
  rewrite IH. reflexivity.
Qed.
Lemma un_count l l' : unnamed l l' -> xf_count l = xf_count l'.
Proof. intro U. unfold xf_count. rewrite (un_xfs _ _ U). reflexivity. Qed.
Lemma un_format l l' key : unnamed l l' -> format_of key l = format_of key l'.
Proof. intro U. apply un_last; [exact U|reflexivity|reflexivity]. Qed.
Definition fixed (g : global) : Prop := match g with Named _ | Tab _ _ _ _ _ => False | _ => True end.
Lemma un_split l l' : unnamed l l' -> forall before g after, fixed g -> l = before ++ g :: after ->
  exists before' after', l' = before' ++ g :: after' /\ unnamed before before'.
Proof.
  induction 1 as [|n l l' U IH|o o' v k name extra l l' U IH|h l l' NG U IH]; intros before g after FX E.
  - destruct before; discriminate E.
  - destruct before as [|x before]; [cbn [app] in E; injection E as <- E; contradiction|]. injection E as <- E.
    destruct (IH _ _ _ FX E) as (b & a & E' & U'). exists b, a. split; [exact E'|constructor; exact U'].
  - destruct before as [|x before]; [cbn [app] in E; injection E as <- E; contradiction|]. injection E as <- E. destruct (IH _ _ _ FX E) as (b & a & E' & U').
    exists (Tab o' v k name extra :: b), a. split; [cbn [app]; rewrite <- E'; reflexivity|constructor; exact U'].
  - destruct before as [|x before].
    + cbn [app] in E. injection E as -> E. exists [], l'. split; [reflexivity|constructor].
    + injection E as <- E. destruct (IH _ _ _ FX E) as (b & a & E' & U'). exists (h :: b), a. split; [cbn [app]; rewrite <- E'; reflexivity|constructor; assumption].
Qed.
Lemma un_split' l l' : unnamed l l' -> forall before' g after', fixed g -> l' = before' ++ g :: after' ->
  exists before after, l = before ++ g :: after /\ unnamed before before'.
Proof.
  induction 1 as [|n l l' U IH|o o' v k name extra l l' U IH|h l l' NG U IH]; intros before g after FX E.
  - destruct before; discriminate E.
  - destruct (IH _ _ _ FX E) as (b & a & E' & U'). exists (Named n :: b), a. split; [cbn [app]; rewrite <- E'; reflexivity|constructor; exact U'].
  - destruct before as [|x before]; [cbn [app] in E; injection E as <- E; contradiction|]. injection E as <- E. destruct (IH _ _ _ FX E) as (b & a & E' & U').
    exists (Tab o v k name extra :: b), a. split; [cbn [app]; rewrite <- E'; reflexivity|constructor; exact U'].
  - destruct before as [|x before].
    + cbn [app] in E. injection E as -> E. exists [], l. split; [reflexivity|constructor].
    + injection E as <- E. destruct (IH _ _ _ FX E) as (b & a & E' & U'). exists (h :: b), a. split; [cbn [app]; rewrite <- E'; reflexivity|constructor; assumption].
Qed.
Lemma un_key l l' key : unnamed l l' -> (date_key l key <-> date_key l' key).
Proof. intro U. unfold date_key. rewrite (un_format _ _ _ U). reflexivity. Qed.
Lemma un_date l l' i : unnamed l l' -> (date_xf l i <-> date_xf l' i).
Proof.
  intro U. split; intros (before & key & (font & rest & after & E & C) & H).
  - destruct (un_split l l' U before (Xf font key rest) after I E) as (b & a & E' & U'). exists b, key. split; [exists font, rest, a; split; [exact E'|rewrite <- (un_count _ _ U'); exact C]|].
    rewrite <- (un_format _ _ key U'), <- (un_key l l' key U), <- (un_key l l' 0 U). exact H.
  - destruct (un_split' l l' U before (Xf font key rest) after I E) as (b & a & E' & U'). exists b, key. split; [exists font, rest, a; split; [exact E'|rewrite (un_count _ _ U'); exact C]|].
    rewrite (un_format _ _ key U'), (un_key l l' key U), (un_key l l' 0 U). exact H.
Qed.
Lemma un_books l l' : unnamed l l' -> books_of l = books_of l'.
Proof. intro U. apply un_flat; [exact U|reflexivity|reflexivity]. Qed.
Lemma un_tabs l l' : unnamed l l' -> map fst (tabs l) = map fst (tabs l').
Proof.
  induction 1 as [|n l l' U IH|o o' v k name extra l l' U IH|g l l' NG U IH]; cbn [tabs flat_map]; [reflexivity|exact IH|..]; rewrite !map_app; fold (tabs l) (tabs l'); rewrite IH; f_equal.
  destruct k; reflexivity.
Qed.
Lemma un_names l l' : unnamed l l' -> names_of l' = [].
Proof. induction 1 as [|n l l' U IH|o o' v k name extra l l' U IH|g l l' NG U IH]; cbn [names_of flat_map]; try assumption; [reflexivity|]. destruct g; try contradiction; exact IH. Qed.
Lemma un_good country W W' : good_workbook country W -> unnamed (wb_globals W) (wb_globals W') -> Forall (good_global country) (wb_globals W') ->
  wb_more W' = wb_more W -> wb_sheets W' = wb_sheets W -> good_workbook country W'.
Proof.
  intros (GB & GG & (GF & GA) & GN & GS) U GG' M SH. split; [rewrite M; exact GB|]. split; [exact GG'|]. split; [split|split].
  - rewrite <- (un_books _ _ U). unfold references_of. erewrite <- un_flat; [exact GF|exact U|reflexivity|reflexivity].
  - intros before head name extra after E. destruct (un_split' _ _ U before (Foreign head name extra) after I E) as (b & a & E' & U'). rewrite <- (un_books _ _ U'). eapply GA. exact E'.
  - rewrite (un_names _ _ U). exists (fun _ => []), (fun _ => O). intros [|i] n N; discriminate N.
  - rewrite SH. eapply Forall_impl; [|exact GS]. intros s. unfold good_sheet. rewrite (un_count _ _ U). unfold shared_of. erewrite un_last; [intro H; exact H|exact U|reflexivity|reflexivity].
Qed.
Lemma same_shown l sh sh' : shows_cells l sh -> shows_cells l sh' -> same_cells sh sh'.
Proof.
  intros (H & W & _ & S) (H' & W' & _ & S'). split; [congruence|]. split; [congruence|]. intros r c R C.
  destruct (S r c R C) as ((v & V1 & V2) & (t & T1 & T2)). destruct (S' r c ltac:(congruence) ltac:(congruence)) as ((v' & V1' & V2') & (t' & T1' & T2')).
  rewrite V1, V1', T1, T1'. rewrite (shows_value_det _ _ _ _ _ V2 V2'). split; [reflexivity|]. f_equal. exact (kind_det l r c t t' T2 T2').
Qed.
Lemma named_size off l sheets : size (globals_bytes (mkworkbook [] (named_globals off l) sheets)) = size (globals_bytes (mkworkbook [] (named_globals 0 l) [])).
Proof.
  unfold globals_bytes, named_globals. cbn [wb_globals wb_more app flat_map global_bytes].
  rewrite !size_app, !record_size, !size_app, !size_bytes. reflexivity.
Qed.
Lemma named_stored l : stored (named_book l) (named_stream l).
Proof.
  split; [exists [], (sheet_bytes one_sheet); split; reflexivity|]. unfold tabs, named_book, named_globals. cbn [wb_globals wb_sheets].
  rewrite flat_map_app. replace (flat_map _ (map (fun m => Named (plain_name 0 m)) l)) with (@nil (str * Z)) by (clear; induction l; [reflexivity|assumption]).
  constructor; [|constructor]. exists (globals_bytes (named_book l)), []. split; [rewrite app_nil_r; reflexivity|].
  unfold named_book at 1. cbn [snd]. symmetry. apply named_size.
Qed.
Lemma plain_layout t : t = lit "n" \/ t = lit "s" -> good_layout (mklayout 0 (false, t) [] None None) /\ uncut (mklayout 0 (false, t) [] None None).
Proof.
  intro H. split; [|unfold uncut, run_list; cbn; repeat split; constructor]. unfold good_layout, good_stretch, total_units, units, run_list, phonetic_size.
  destruct H as [-> | ->]; cbn; repeat (apply Forall_cons || apply Forall_nil || split); cbn; intros; try discriminate; try congruence; try lia; auto.
Qed.
Lemma named_good l : 0 <= size (globals_bytes (mkworkbook [] (named_globals 0 l) [])) < 2 ^ 31 -> Forall (fun m => size (SpecNames.meaning_bytes m) < 1000) l ->
  Forall (good_global (0, 0)) (wb_globals (named_book l)).
Proof.
  intros B F. unfold named_book, named_globals. cbn [wb_globals]. apply Forall_app. split.
  - repeat (apply Forall_cons || apply Forall_nil); cbn [good_global].
    + unfold word16, short, size. cbn. lia.
    + destruct (plain_layout (lit "s") ltac:(auto)). split; [exact B|]. split; [reflexivity|]. split; [assumption|]. split; [assumption|]. split; [reflexivity|reflexivity].
    + reflexivity.
    + split; [repeat constructor; unfold word16; lia|reflexivity].
  - apply Forall_map. eapply Forall_impl; [|exact F]. intros m L. cbn [good_global]. destruct (plain_layout (lit "n") ltac:(auto)).
    split; [unfold word16; cbn; lia|]. split; [unfold word16; cbn; lia|]. split; [reflexivity|]. split; [assumption|]. split; [assumption|]. split; [reflexivity|].
    unfold SpecNames.name_bytes. rewrite !size_app, !size_bytes. cbn [plain_name SpecNames.nm_meaning SpecNames.nm_extra SpecNames.nm_sizes SpecNames.nm_name SpecNames.nm_key].
    change (size (skipn 1 _)) with 2. change (size (repeat 0%N 4)) with 4. change (size [_]) with 1. change (size []) with 0. cbv beta in L. lia.
Qed.
Lemma named_links l : good_links (wb_globals (named_book l)).
Proof.
  split.
  - intros book first last I. unfold named_book, named_globals, references_of in I. cbn [wb_globals] in I. rewrite flat_map_app in I. apply in_app_iff in I. destruct I as [I|I].
    + cbn in I. destruct I as [I|[]]. injection I as <- <- <-. cbn. discriminate.
    + exfalso. clear - I. induction l as [|m l IH]; [exact I|]. apply IH. exact I.
  - intros before head name extra after E. exfalso. assert (I : In (Foreign head name extra) (wb_globals (named_book l))) by (rewrite E; apply in_elt).
    apply in_app_iff in I. destruct I as [I|I]; [cbn in I; intuition discriminate|]. apply in_map_iff in I. destruct I as (m & X & _). discriminate X.
Qed.
Lemma named_xfs l : xf_count (wb_globals (named_book l)) = 1.
Proof.
  unfold xf_count, named_book, named_globals. cbn [wb_globals]. rewrite filter_app. replace (filter is_xf (map _ l)) with (@nil global) by (clear; induction l; [reflexivity|assumption]). reflexivity.
Qed.
Lemma named_sheet l : Forall (good_sheet (0, 0) (wb_globals (named_book l))) [one_sheet].
Proof.
  constructor; [|constructor]. split; [unfold word16; cbn; lia|]. split; [unfold good_bof, size; cbn; lia|]. split.
  - exists [], (sd_items one_sheet). split; [reflexivity|]. split; repeat constructor.
  - split; [exact I|]. rewrite named_xfs. constructor; [|constructor]. cbn. unfold word16. repeat split; try lia; try reflexivity.
Qed.

Lemma C63_same_proof :
forall country W W' c c', good_workbook country W -> stored W c ->
unnamed (wb_globals W) (wb_globals W') -> Forall (good_global country) (wb_globals W') ->
wb_more W' = wb_more W -> wb_sheets W' = wb_sheets W -> stored W' c' ->
exists bk bk', open_workbook c = Ok bk /\ open_workbook c' = Ok bk' /\
  bk_names bk = bk_names bk' /\ bk_datemode bk = bk_datemode bk' /\ Forall2 same_cells (bk_sheets bk) (bk_sheets bk').
Proof.
intros country W W' c c' G S U GG' M SH S'.
pose proof (un_good country W W' G U GG' M SH) as G'.
destruct (C58_opens_proof country W c G S) as ((date & TD) & H). destruct (H date TD) as (shs & O & A).
assert (TD' : tells_dates (wb_globals W') date).
{ intros i R. rewrite <- (un_count _ _ U) in R. rewrite (TD i R). apply un_date. exact U. }
destruct (proj2 (C58_opens_proof country W' c' G' S') date TD') as (shs' & O' & A').
eexists _, _. split; [exact O|]. split; [exact O'|]. cbn [bk_names bk_sheets bk_datemode]. split; [apply un_tabs; exact U|].
split; [unfold datemode_of; erewrite un_last; [reflexivity|exact U|reflexivity|reflexivity]|].
rewrite SH in A'. assert (C : forall s, SpecBiff.cells_of (wb_globals W') date s = SpecBiff.cells_of (wb_globals W) date s).
{ intro s. unfold SpecBiff.cells_of, shared_of. erewrite <- un_last; [reflexivity|exact U|reflexivity|reflexivity]. }
clear - A A' C. revert shs' A'. induction A as [|s sh ss shs A1 _ IH]; intros shs' A'; inversion A' as [|? sh' ? ? A1' A2']; subst; constructor.
- rewrite C in A1'. eapply same_shown; eassumption.
- apply IH. exact A2'.
Qed.

Lemma C63_division_refuted_proof :
keeps_shut [SpecNames.Oper 6 (SpecNames.Whole 1) (SpecNames.Whole 0)] ZeroDivisionError.
Proof.
split; [apply named_stored|]. split; [apply named_good; [vm_compute; split; [discriminate|reflexivity]|repeat constructor]|]. split; [apply named_links|]. split; [apply named_sheet|].
split; [vm_compute; reflexivity|]. eexists. split; [vm_compute; reflexivity|reflexivity].
Qed.

Lemma C63_empty_call_refuted_proof :
keeps_shut [SpecNames.Oper 3 (SpecNames.Whole 1) (SpecNames.Variadic 2 false false 8 [])] AssertionError.
Proof.
split; [apply named_stored|]. split; [apply named_good; [vm_compute; split; [discriminate|reflexivity]|repeat constructor]|]. split; [apply named_links|]. split; [apply named_sheet|].
split; [vm_compute; reflexivity|]. eexists. split; [vm_compute; reflexivity|reflexivity].
Qed.

Lemma C63_compare_refuted_proof :
keeps_shut [SpecNames.Oper 9 (SpecNames.Whole 1) (SpecNames.Quote (mklayout 0 (false, lit "n") [] None None))] TypeError.
Proof.
split; [apply named_stored|]. split; [apply named_good; [vm_compute; split; [discriminate|reflexivity]|repeat constructor]|]. split; [apply named_links|]. split; [apply named_sheet|].
split; [vm_compute; reflexivity|]. eexists. split; [vm_compute; reflexivity|reflexivity].
Qed.

Lemma C63_union_refuted_proof :
keeps_shut [SpecNames.Union (SpecNames.Ref 1 0 false (repeat 0%N 4)) (SpecNames.Union (SpecNames.Ref 1 0 false (repeat 0%N 4)) (SpecNames.Ref 1 0 false (repeat 0%N 4)))] AssertionError.
Proof.
split; [apply named_stored|]. split; [apply named_good; [vm_compute; split; [discriminate|reflexivity]|repeat constructor]|]. split; [apply named_links|]. split; [apply named_sheet|].
split; [vm_compute; reflexivity|]. eexists. split; [vm_compute; reflexivity|reflexivity].
Qed.

Lemma C63_choose_refuted_proof :
keeps_shut [SpecNames.Variadic 2 false false 100 [SpecNames.Oper 3 (SpecNames.Ref 2 0 false (repeat 0%N 4)) (SpecNames.Whole 1); SpecNames.Whole 1; SpecNames.Whole 2]] TypeError.
Proof.
split; [apply named_stored|]. split; [apply named_good; [vm_compute; split; [discriminate|reflexivity]|repeat constructor]|]. split; [apply named_links|]. split; [apply named_sheet|].
split; [vm_compute; reflexivity|]. eexists. split; [vm_compute; reflexivity|reflexivity].
Qed.

Lemma C63_span_refuted_proof :
keeps_shut [SpecNames.Oper 3 (SpecNames.Span (SpecNames.Lost 1 10 (repeat 0%N 4)) (SpecNames.Ref 1 0 false (repeat 0%N 4))) (SpecNames.Whole 1)] AttributeError.
Proof.
split; [apply named_stored|]. split; [apply named_good; [vm_compute; split; [discriminate|reflexivity]|repeat constructor]|]. split; [apply named_links|]. split; [apply named_sheet|].
split; [vm_compute; reflexivity|]. eexists. split; [vm_compute; reflexivity|reflexivity].
Qed.

Lemma C63_chain_refuted_proof :
keeps_shut (map (fun i => SpecNames.Other 2 (Z.of_nat i) [0; 0]%N) (seq 2 11) ++ [SpecNames.Whole 1]) XLRDError.
Proof.
split; [apply named_stored|]. split; [apply named_good; [vm_compute; split; [discriminate|reflexivity]|repeat constructor]|]. split; [apply named_links|]. split; [apply named_sheet|].
split; [vm_compute; reflexivity|]. eexists. split; [vm_compute; reflexivity|reflexivity].
Qed.

Lemma C63_self_refuted_proof :
keeps_shut [SpecNames.Oper 3 (SpecNames.Other 2 1 [0; 0]%N) (SpecNames.Whole 1)] XLRDError.
Proof.
split; [apply named_stored|]. split; [apply named_good; [vm_compute; split; [discriminate|reflexivity]|repeat constructor]|]. split; [apply named_links|]. split; [apply named_sheet|].
split; [vm_compute; reflexivity|]. eexists. split; [vm_compute; reflexivity|reflexivity].
Qed.

Lemma C63_text_refuted_proof :
keeps_shut [SpecNames.Oper 3 (SpecNames.Quote (mklayout 0 (false, lit "n") [] None None)) (SpecNames.Whole 1)] ValueError.
Proof.
split; [apply named_stored|]. split; [apply named_good; [vm_compute; split; [discriminate|reflexivity]|repeat constructor]|]. split; [apply named_links|]. split; [apply named_sheet|].
split; [vm_compute; reflexivity|]. eexists. split; [vm_compute; reflexivity|reflexivity].
Qed.

Lemma C63_huge_refuted_proof :
keeps_shut
  (let four e := SpecNames.Oper 5 (SpecNames.Oper 5 e e) (SpecNames.Oper 5 e e) in
   let one := SpecNames.Sign 19 (SpecNames.Logical true) in
   [fold_right (SpecNames.Oper 3) one (repeat one 15)] ++
   map (fun i => four (SpecNames.Other 2 i [0; 0]%N)) [1; 2; 3; 4] ++
   [SpecNames.Oper 3 (SpecNames.Other 2 5 [0; 0]%N) (SpecNames.Real (S754_finite false 4503599627370496 (-53)))]) OverflowError.
Proof.
split; [apply named_stored|]. split; [apply named_good; [vm_compute; split; [discriminate|reflexivity]|repeat constructor]|]. split; [apply named_links|]. split; [apply named_sheet|].
split; [vm_compute; reflexivity|]. eexists. split; [vm_compute; reflexivity|reflexivity].
Qed.

Lemma charted_links l : good_links (wb_globals (charted_book l)).
Proof.
  split.
  - intros book first last I. unfold charted_book, charted_globals, references_of in I. cbn [wb_globals] in I. rewrite flat_map_app in I. apply in_app_iff in I. destruct I as [I|I].
    + cbn in I. destruct I as [I|[]]. injection I as <- <- <-. cbn. discriminate.
    + exfalso. clear - I. induction l as [|m l IH]; [exact I|]. apply IH. exact I.
  - intros before head name extra after E. exfalso. assert (I : In (Foreign head name extra) (wb_globals (charted_book l))) by (rewrite E; apply in_elt).
    apply in_app_iff in I. destruct I as [I|I]; [cbn in I; intuition discriminate|]. apply in_map_iff in I. destruct I as (m & X & _). discriminate X.
Qed.
Ltac shut_by_good :=
  repeat (apply Forall_cons || apply Forall_nil); cbn [good_global];
  [ unfold word16, short, size; cbn; lia
  | destruct (plain_layout (lit "s") ltac:(auto)); split; [vm_compute; split; [discriminate|reflexivity]|]; split; [reflexivity|]; split; [assumption|]; split; [assumption|]; split; reflexivity
  | destruct (plain_layout (lit "n") ltac:(auto)); split; [vm_compute; split; [discriminate|reflexivity]|]; split; [reflexivity|]; split; [assumption|]; split; [assumption|]; split; reflexivity
  | reflexivity
  | split; [repeat constructor; unfold word16; lia|reflexivity]
  | ..];
  destruct (plain_layout (lit "n") ltac:(auto)); (split; [unfold word16; cbn; lia|]); (split; [unfold word16; cbn; lia|]); (split; [reflexivity|]); (split; [assumption|]); (split; [assumption|]); split; reflexivity.
Ltac shut_by_all :=
  unfold shut_by; cbv zeta; split;
  [ split; [exists [], (sheet_bytes one_sheet); split; vm_compute; reflexivity|]; constructor; [|constructor];
    eexists _, []; split; [rewrite app_nil_r; reflexivity|vm_compute; reflexivity] |];
  split; [shut_by_good|];
  split; [apply charted_links|];
  split;
  [ constructor; [|constructor]; split; [unfold word16; cbn; lia|]; split; [unfold good_bof, size; cbn; lia|]; split;
    [exists [], (sd_items one_sheet); split; [reflexivity|]; split; repeat constructor|];
    split; [exact I|]; constructor; [|constructor]; cbn; unfold word16; repeat split; try lia; try reflexivity |];
  split; [vm_compute; reflexivity|]; eexists; split; [vm_compute; reflexivity|reflexivity].

Lemma C63_sheetless_refuted_proof :
shut_by [plain_name 2 (SpecNames.Formula (SpecNames.Whole 3))] (plain_name 0 (SpecNames.Formula (SpecNames.Other 2 1 [0; 0]%N))) IndexError.
Proof.
shut_by_all.
Qed.

Lemma C63_macro_refuted_proof :
shut_by [SpecNames.mkname 8 0 0 0 (repeat 0%N 4) (mklayout 0 (false, lit "n") [] None None) (SpecNames.Opaque [1; 0; 0]%N) []] (plain_name 0 (SpecNames.Formula (SpecNames.Other 2 1 [0; 0]%N))) FormulaError.
Proof.
shut_by_all.
Qed.

