(** * Proofs about whatever opens *)

From Coq Require Import ZArith Lia ZifyBool ZifyNat ZifyN.
From Verif Require Import PyBase PyBaseFacts PyFloat PyText NumPy Dbf Dicts Pack ReadXl XlProofs XlStruct CompDoc Sst FmtDate
  XlSheet SpecXlSheet XlSheetProofs XlSheetThms XlNames XlObjects Biff SpecXl SpecSound.
Open Scope Z_scope.

(** ** Types and values side by side *)

Lemma Forall2_len A B (R : A -> B -> Prop) l m : Forall2 R l m -> length l = length m.
Proof. induction 1; cbn; lia. Qed.

Lemma Forall2_firstn A B (R : A -> B -> Prop) n : forall l m, Forall2 R l m -> Forall2 R (firstn n l) (firstn n m).
Proof. induction n as [|n IH]; intros l m [|]; cbn; constructor; auto. Qed.
Lemma Forall2_skipn A B (R : A -> B -> Prop) n : forall l m, Forall2 R l m -> Forall2 R (skipn n l) (skipn n m).
Proof. induction n as [|n IH]; intros l m H; [exact H|]. destruct H; cbn; [constructor|auto]. Qed.
Lemma Forall2_nth_error A B (R : A -> B -> Prop) n : forall l m, Forall2 R l m ->
  match nth_error l n, nth_error m n with
  | Some x, Some y => R x y
  | None, None => True
  | _, _ => False
  end.
Proof. induction n as [|n IH]; intros l m [|]; cbn; auto. apply IH. assumption. Qed.

Lemma Forall2_repeat A B (R : A -> B -> Prop) x y n : R x y -> Forall2 R (repeat x n) (repeat y n).
Proof. intro H. induction n; constructor; auto. Qed.

Lemma py_set_pair A B (R : A -> B -> Prop) l m i x y : Forall2 R l m -> R x y ->
  match py_set l i x, py_set m i y with
  | Ok l', Ok m' => Forall2 R l' m'
  | Err _, Err _ => True
  | _, _ => False
  end.
Proof.
  intros H Hx. unfold py_set. rewrite (Forall2_len _ _ _ _ _ H).
  set (j := if i <? 0 then _ else i). destruct (_ && _); [|exact I].
  apply Forall2_app; [apply Forall2_firstn; exact H|].
  constructor; [exact Hx|]. apply Forall2_skipn. exact H.
Qed.

Lemma py_index_pair A B (R : A -> B -> Prop) l m i : Forall2 R l m ->
  match py_index l i, py_index m i with
  | Some x, Some y => R x y
  | None, None => True
  | _, _ => False
  end.
Proof.
  intro H. unfold py_index. rewrite (Forall2_len _ _ _ _ _ H).
  set (j := if i <? 0 then _ else i). destruct (_ && _); [|exact I].
  apply Forall2_nth_error. exact H.
Qed.

Definition paired (fit : Z -> val -> Prop) (g : grid) : Prop := Forall2 (Forall2 fit) (g_types g) (g_values g).

Lemma cell_set_pair (fit : Z -> val -> Prop) ts vs r c t v : Forall2 (Forall2 fit) ts vs -> fit t v ->
  match cell_set ts r c t, cell_set vs r c v with
  | Ok ts', Ok vs' => Forall2 (Forall2 fit) ts' vs'
  | Err _, Err _ => True
  | _, _ => False
  end.
Proof.
  intros H F. unfold cell_set. pose proof (py_index_pair _ _ _ _ _ r H) as P.
  destruct (py_index ts r) as [a|], (py_index vs r) as [b|]; try contradiction; [|exact I].
  pose proof (py_set_pair _ _ _ _ _ c t v P F) as Q.
  destruct (py_set a c t) as [a'|], (py_set b c v) as [b'|]; try contradiction; cbn [bind]; [|exact I].
  apply py_set_pair; assumption.
Qed.

Lemma store_pair fit su g r c t v x g' e : paired fit g -> fit t v -> store su g r c t v x = (g', e) -> paired fit g'.
Proof.
  intros H F. unfold store. pose proof (cell_set_pair fit _ _ r c t v H F) as P.
  destruct (cell_set (g_types g) r c t) as [ts|] eqn:E1; [|intro E; injection E as <- _; exact H].
  cbn [g_values g_nrows g_ncols g_xfs g_full].
  destruct (cell_set (g_values g) r c v) as [vs|] eqn:E2; [|contradiction].
  destruct (su_fmt su).
  - destruct (cell_set (g_xfs _) r c x); intro E; injection E as <- _; exact P.
  - intro E; injection E as <- _; exact P.
Qed.

Lemma times_pair (fit : Z -> val -> Prop) n : fit XL_CELL_EMPTY empty_value -> Forall2 fit (times XL_CELL_EMPTY n) (times empty_value n).
Proof. intro Hempty. apply Forall2_repeat. exact Hempty. Qed.

Lemma extend_pair (fit : Z -> val -> Prop) ts vs r n : fit XL_CELL_EMPTY empty_value -> Forall2 (Forall2 fit) ts vs ->
  Forall2 (Forall2 fit) (extend_row ts r XL_CELL_EMPTY n) (extend_row vs r empty_value n).
Proof.
  intros Hempty H. unfold extend_row. apply Forall2_app; [apply Forall2_firstn; exact H|].
  pose proof (Forall2_nth_error _ _ _ (Z.to_nat r) _ _ H) as P.
  destruct (nth_error ts _), (nth_error vs _); try contradiction; [|constructor].
  constructor; [|apply Forall2_skipn; exact H]. apply Forall2_app; [exact P|apply times_pair; exact Hempty].
Qed.

Lemma widen_pair fit r nc nr g : paired fit g -> paired fit (widen r nc nr g).
Proof. unfold widen. destruct (_ <? _); intro H; exact H. Qed.

Lemma lengthen_pair (fit : Z -> val -> Prop) su r nr g : fit XL_CELL_EMPTY empty_value -> paired fit g -> paired fit (lengthen su r nr g).
Proof.
  intros Hempty H. unfold lengthen. destruct (_ <=? _).
  - destruct (0 <? _); [|exact H]. apply extend_pair; [exact Hempty|]. exact H.
  - apply Forall2_app; [exact H|]. apply Forall2_repeat. apply times_pair; exact Hempty.
Qed.

(** A call with a value that fits every type it may get. *)
Definition fitting (fit : Z -> val -> Prop) (su : setup) (p : put) : Prop := forall t, typed su p t -> fit t (pt_value p).

Lemma typed_in su p t : cell_type_in su (pt_type p) (pt_xf p) = Ok t -> typed su p t.
Proof.
  destruct p as [r c [u|] v x]; cbn; intro H.
  - injection H as <-. constructor.
  - destruct (dget x (su_types su)) eqn:E; [|discriminate]. injection H as <-. constructor. exact E.
Qed.

Lemma put_pair (fit : Z -> val -> Prop) su p g g' e : fit XL_CELL_EMPTY empty_value -> su_ragged su = false -> paired fit g -> fitting fit su p ->
  put_cell su (pt_row p) (pt_col p) (pt_type p) (pt_value p) (pt_xf p) g = (g', e) -> paired fit g'.
Proof.
  intros Hempty RG H F. unfold put_cell. rewrite RG. unfold put_cell_unragged.
  destruct (cell_type_in su _ _) as [t|] eqn:T; [|intro E; injection E as <- _; exact H].
  apply typed_in in T. specialize (F t T).
  destruct (store su g _ _ _ _ _) as [g1 [u|x]] eqn:S1.
  - intro E; injection E as <- _. eapply store_pair; eassumption.
  - pose proof (store_pair fit _ _ _ _ _ _ _ _ _ H F S1) as H1.
    destruct (negb _); [intro E; injection E as <- _; exact H1|].
    destruct (negb _); [intro E; injection E as <- _; exact H1|].
    intro S2. refine (store_pair fit _ _ _ _ _ _ _ _ _ _ F S2). apply lengthen_pair; [exact Hempty|]. apply widen_pair. exact H1.
Qed.

Lemma fix_rows_pair (fit : Z -> val -> Prop) n nc : fit XL_CELL_EMPTY empty_value -> forall ts vs, Forall2 (Forall2 fit) ts vs ->
  Forall2 (Forall2 fit) (fix_rows n nc XL_CELL_EMPTY ts ts) (fix_rows n nc empty_value ts vs).
Proof.
  intro Hempty. induction n as [|n IH]; intros ts vs H; [destruct ts; exact H|].
  destruct H as [|a b ts vs P H]; cbn [fix_rows]; [constructor|].
  constructor; [|apply IH; exact H].
  destruct (0 <? _); [|exact P].
  apply Forall2_app; [apply Forall2_firstn; exact P|apply times_pair; exact Hempty].
Qed.

Lemma tidy_pair (fit : Z -> val -> Prop) su merged g g' e : fit XL_CELL_EMPTY empty_value -> su_ragged su = false -> paired fit g -> tidy su merged g = (g', e) -> paired fit g'.
Proof.
  intros Hempty RG H. unfold tidy.
  set (X := match merged with [] => (g, Ok tt) | _ => _ end).
  assert (HX : paired fit (fst X)).
  { unfold X. clear X. destruct merged as [|m ms]; [exact H|].
    set (g1 := if g_ncols g <? _ then _ else g).
    assert (H1 : paired fit g1) by (unfold g1; clear g1; destruct (g_ncols g <? _); exact H).
    destruct (g_nrows g1 <? _); [|exact H1].
    set (q := mkput (merged_rows (m :: ms) - 1) 0 (Some XL_CELL_EMPTY) empty_value (-1)).
    change (paired fit (fst (put_cell su (pt_row q) (pt_col q) (pt_type q) (pt_value q) (pt_xf q) g1))).
    destruct (put_cell _ _ _ _ _ _ _) as [g2 e2] eqn:P. cbn [fst].
    apply (put_pair fit su q g1 g2 e2 Hempty RG H1); [|exact P].
    intros t T. inversion T; subst. exact Hempty. }
  destruct X as [g1 [u|x]]; cbn [fst] in HX; [|intro E; injection E as <- _; exact HX].
  rewrite RG. intro E; injection E as <- _. apply fix_rows_pair; assumption.
Qed.

(** ** The shape *)

(** The state after calls that all succeeded. *)
Definition steady (su : setup) (l : list put) (g : grid) : Prop :=
  exists s, shaped su s g /\ full_from s g /\ shows su l g /\ g_nrows g = height l /\ g_ncols g = width l /\
    Forall (good_put su) l.

Lemma new_steady su : steady su [] new_grid.
Proof.
  exists []. split; [apply new_shaped|]. split; [apply new_full|]. split; [apply new_shows|]. auto.
Qed.

Lemma put_steady su l p g g' : su_ragged su = false -> steady su l g -> 0 <= pt_row p -> 0 <= pt_col p ->
  put_cell su (pt_row p) (pt_col p) (pt_type p) (pt_value p) (pt_xf p) g = (g', Ok tt) -> steady su (l ++ [p]) g'.
Proof.
  intros RG (s & SH & FF & SW & HR & HC & G) R C P. unfold put_cell in P. rewrite RG in P.
  assert (T : exists t, typed su p t).
  { unfold put_cell_unragged in P. destruct (cell_type_in su _ _) as [t|] eqn:T; [|discriminate].
    exists t. apply typed_in. exact T. }
  destruct T as [t T].
  assert (D : inside su p \/ ~ inside su p) by (unfold inside; lia).
  destruct D as [D|D].
  - destruct (put_unragged su s l g p t SH FF SW D T) as (s' & g2 & E & SH' & FF' & SW' & HR' & HC').
    rewrite E in P. injection P as <-.
    exists s'. rewrite height_snoc, width_snoc. repeat (split; [assumption || congruence|]).
    apply Forall_app. split; [exact G|]. constructor; [|constructor]. split; [exact D|]. exists t. exact T.
  - rewrite (refused_unragged su s l g p t SH FF G HR HC R C T D) in P. discriminate.
Qed.

Lemma tidy_rectangular su l merged g g' : su_ragged su = false -> steady su l g ->
  tidy su merged g = (g', Ok tt) -> rectangular (sheet_of g').
Proof.
  intros RG (s & SH & FF & SW & HR & HC & G). unfold tidy.
  pose proof (height_nonneg l) as HP. pose proof (width_nonneg l) as WP.
  assert (DONE : forall s2 l2 g2, shaped su s2 g2 -> full_from s2 g2 -> shows su l2 g2 -> 0 <= g_nrows g2 -> 0 <= g_ncols g2 ->
    (mkgrid (g_nrows g2) (g_ncols g2)
           (fix_rows (Z.to_nat (if g_full g2 =? -2 then g_nrows g2 else g_full g2)) (g_ncols g2) XL_CELL_EMPTY (g_types g2) (g_types g2))
           (fix_rows (Z.to_nat (if g_full g2 =? -2 then g_nrows g2 else g_full g2)) (g_ncols g2) empty_value (g_types g2) (g_values g2))
           (if su_fmt su then fix_rows (Z.to_nat (if g_full g2 =? -2 then g_nrows g2 else g_full g2)) (g_ncols g2) (-1) (g_types g2) (g_xfs g2) else g_xfs g2)
           (g_full g2), Ok tt) = (g', Ok tt) -> rectangular (sheet_of g')).
  { intros s2 l2 g2 S2 F2 W2 N1 N2 E. destruct (finish su s2 l2 g2 RG S2 F2 W2) as [A B].
    injection E as <-. apply (rectangular_of su); [exact N1|exact N2|exact A]. }
  destruct merged as [|m ms].
  - rewrite RG. apply (DONE s l); auto; lia.
  - set (nr := merged_rows (m :: ms)). set (nc := merged_cols (m :: ms)). clearbody nr nc.
    set (g1 := if g_ncols g <? nc then _ else g).
    assert (X : shaped su s g1 /\ full_from s g1 /\ shows su l g1 /\ g_nrows g1 = g_nrows g /\ g_ncols g1 = Z.max (g_ncols g) nc).
    { unfold g1. destruct (g_ncols g <? nc) eqn:E1.
      - destruct FF as [F1 F2 F3 F4]. destruct SH as [S1 S2 S3].
        split; [constructor; assumption|].
        split; [constructor; cbn [g_nrows g_ncols g_full]; [exact F1|lia|intro i; specialize (F3 i); lia|left; reflexivity]|].
        split; [apply (shows_same su l g); auto|]. cbn [g_nrows g_ncols]. lia.
      - repeat (split; [assumption|]). split; [reflexivity|]. lia. }
    destruct X as (SH1 & FF1 & SW1 & R1 & C1).
    destruct (g_nrows g1 <? nr) eqn:E2.
    + set (q := mkput (nr - 1) 0 (Some XL_CELL_EMPTY) empty_value (-1)).
      unfold put_cell. rewrite RG.
      change (put_cell_unragged su (nr - 1) 0 (Some XL_CELL_EMPTY) empty_value (-1) g1)
        with (put_cell_unragged su (pt_row q) (pt_col q) (pt_type q) (pt_value q) (pt_xf q) g1).
      destruct (put_cell_unragged su _ _ _ _ _ g1) as [g2 [u|x]] eqn:P; [|intro E; discriminate].
      assert (D : inside su q \/ ~ inside su q) by (unfold inside; lia).
      destruct D as [D|D].
      * destruct (put_unragged su s l g1 q XL_CELL_EMPTY SH1 FF1 SW1 D) as (s2 & g3 & E & SH2 & FF2 & SW2 & HR2 & HC2).
        { constructor. }
        rewrite E in P. injection P as <- _.
        cbn [q pt_row pt_col] in HR2, HC2. apply (DONE s2 (l ++ [q])); auto; lia.
      * exfalso. unfold put_cell_unragged in P. cbn [q pt_type cell_type_in] in P.
        assert (IS : in_shape s (Z.to_nat (nr - 1)) (Z.to_nat 0) = false).
        { unfold in_shape. destruct FF1 as [F1 F2 F3 F4]. rewrite nth_overflow by lia. reflexivity. }
        pose proof (store_err su s g1 _ _ XL_CELL_EMPTY empty_value (-1) SH1 IS) as SE.
        rewrite !Z2Nat.id in SE by lia. cbn [q pt_row pt_col pt_value pt_xf] in P. rewrite SE in P.
        unfold inside in D. cbn [q pt_row pt_col] in D.
        destruct ((1 <=? 0 + 1) && (0 + 1 <=? su_max_cols su)) eqn:B1; cbn [negb] in P; [|discriminate].
        destruct ((1 <=? nr - 1 + 1) && (nr - 1 + 1 <=? su_max_rows su)) eqn:B2; cbn [negb] in P; [|discriminate].
        apply D. lia.
    + rewrite RG. apply (DONE s l); auto; lia.
Qed.

(** ** Sheets of .xls files *)

(** The formats stand for numbers and dates only. *)
Definition number_types (d : dict Z) : Prop := forall k t, dget k d = Some t -> t = XL_CELL_NUMBER \/ t = XL_CELL_DATE.

(** What goes together may also be more than [fits] says, but a number must go
    with all the types that formats stand for. *)
Definition fits_all (fit : Z -> val -> Prop) (types : dict Z) : Prop :=
  (forall t v, fits t v -> fit t v) /\ forall k t f, dget k types = Some t -> fit t (VFloat f).

Lemma numbers_fit types : number_types types -> fits_all fits types.
Proof. intro H. split; [auto|]. intros k t f D. destruct (H _ _ D) as [->| ->]; constructor. Qed.
Lemma all_empty fit types : fits_all fit types -> fit XL_CELL_EMPTY empty_value.
Proof. intros [H _]. apply H. constructor. Qed.

Lemma fitting_float fit su r c f x : fits_all fit (su_types su) -> fitting fit su (mkput r c None (VFloat f) x).
Proof. intros [_ H] t T. inversion T; subst.
  match goal with D : dget _ _ = Some _ |- _ => exact (H _ _ _ D) end. Qed.
Lemma fitting_given fit su r c t v x : fits_all fit (su_types su) -> fits t v -> fitting fit su (mkput r c (Some t) v x).
Proof. intros [W _] H u T. inversion T; subst. apply W. exact H. Qed.

Definition placed (p : put) : Prop := 0 <= pt_row p /\ 0 <= pt_col p.

Lemma le_value_pos b : 0 <= le_value b.
Proof. induction b as [|x b IH]; cbn [le_value]; lia. Qed.

Lemma put_all_paired (fit : Z -> val -> Prop) su ps : fit XL_CELL_EMPTY empty_value -> su_ragged su = false -> Forall (fitting fit su) ps ->
  forall g g' e, paired fit g -> put_all su ps g = (g', e) -> paired fit g'.
Proof.
  intros EM RG. induction 1 as [|p ps F _ IH]; intros g g' e P E; [injection E as <- _; exact P|].
  cbn [put_all] in E. destruct (put_cell su _ _ _ _ _ g) as [g1 [u|x]] eqn:Q.
  - apply (IH g1 g' e); [|exact E]. exact (put_pair fit su p g g1 _ EM RG P F Q).
  - injection E as <- _. exact (put_pair fit su p g g1 _ EM RG P F Q).
Qed.

Lemma put_all_steady su ps : su_ragged su = false -> Forall placed ps -> forall l g g', steady su l g ->
  put_all su ps g = (g', Ok tt) -> steady su (l ++ ps) g'.
Proof.
  intros RG. induction 1 as [|p ps [R C] _ IH]; intros l g g' P E.
  - injection E as <-. rewrite app_nil_r. exact P.
  - cbn [put_all] in E. destruct (put_cell su _ _ _ _ _ g) as [g1 [u|x]] eqn:Q; [|discriminate].
    destruct u. change (p :: ps) with ([p] ++ ps). rewrite app_assoc.
    apply (IH (l ++ [p]) g1 g'); [|exact E]. apply (put_steady su l p g g1); assumption.
Qed.

(** *** Places in the stream *)

Lemma get_record_at mem pos rc len data next : get_record mem pos = Ok (rc, len, data, next) ->
  record_at mem pos rc data next /\ (len = 0 -> data = []).
Proof.
  unfold get_record. cbv zeta. unfold sized. destruct (Nat.eqb_spec (length (pyslice mem pos (pos + 4))) 4) as [L|]; [|discriminate].
  cbn [bind]. intro H. injection H as <- <- <- <-.
  destruct (pyslice mem pos (pos + 4)) as [|a [|b [|c [|d [|? ?]]]]] eqn:E; cbn [length] in L; try lia.
  assert (U0 : u16 0 [a; b; c; d] = two a b) by (unfold u16, two, bytes_at; cbn [skipn firstn le_value]; lia).
  assert (U2 : u16 2 [a; b; c; d] = two c d) by (unfold u16, two, bytes_at; cbn [skipn firstn le_value]; lia).
  rewrite U0, U2. split; [constructor; exact E|].
  intro Z0. rewrite Z0, Z.add_0_r. unfold pyslice. cbv zeta. rewrite Z.sub_diag. reflexivity.
Qed.

Definition harmless (r : Z * str) : Prop := ~ In (fst r) cell_codes /\ ~ In (fst r) dimension_codes.

(** From one place to another, records are passed. *)
Definition moves (mem : str) (pos pos' : Z) (recs : list (Z * str)) : Prop :=
  forall l, sheet_records mem pos' l -> sheet_records mem pos (recs ++ l).

Lemma moves_nil mem pos : moves mem pos pos [].
Proof. intros l H. exact H. Qed.
Lemma moves_app mem p q r a b : moves mem p q a -> moves mem q r b -> moves mem p r (a ++ b).
Proof. intros A B l H. rewrite <- app_assoc. apply A, B, H. Qed.
Lemma moves_one mem pos code data next : record_at mem pos code data next -> code <> end_code ->
  ~ In code begin_codes -> moves mem pos next [(code, data)].
Proof. intros R E B l H. apply (sr_more mem pos code data next); assumption. Qed.

(** Records passed that mean nothing here. *)
Definition passes (mem : str) (pos pos' : Z) : Prop := exists recs, moves mem pos pos' recs /\ Forall harmless recs.

Lemma passes_refl mem pos : passes mem pos pos.
Proof. exists []. split; [apply moves_nil|constructor]. Qed.
Lemma passes_trans mem p q r : passes mem p q -> passes mem q r -> passes mem p r.
Proof. intros (a & A & A') (b & B & B'). exists (a ++ b). split; [eapply moves_app; eassumption|apply Forall_app; auto]. Qed.
Lemma passes_one mem pos rc len data next : get_record mem pos = Ok (rc, len, data, next) ->
  rc <> end_code -> ~ In rc begin_codes -> ~ In rc cell_codes -> ~ In rc dimension_codes -> passes mem pos next.
Proof.
  intros G E B C D. apply get_record_at in G. destruct G as [G _]. exists [(rc, data)].
  split; [apply moves_one; assumption|]. constructor; [split; assumption|constructor].
Qed.
Lemma not_in_by (x : Z) l : existsb (Z.eqb x) l = false -> ~ In x l.
Proof.
  intros H I. assert (E : existsb (Z.eqb x) l = true); [|congruence].
  apply existsb_exists. exists x. split; [exact I|apply Z.eqb_refl].
Qed.
Ltac passing G := apply (passes_one _ _ _ _ _ _ G); [discriminate| | |]; apply not_in_by; reflexivity.

Lemma string_contents_passes : forall fuel mem data offset expected found pos acc s pos',
  string_contents fuel mem data offset expected found pos acc = Ok (s, pos') -> passes mem pos pos'.
Proof.
  induction fuel as [|fuel IH]; intros mem data offset expected found pos acc s pos'; cbn [string_contents].
  - destruct (byte_at data offset); [|discriminate]. cbn [bind]. cbv zeta.
    destruct (if opt_wide _ then _ else _); [|discriminate]. cbn [bind].
    destruct (_ =? _); [intro E; injection E as _ <-; apply passes_refl|].
    destruct (_ <? _); discriminate.
  - destruct (byte_at data offset); [|discriminate]. cbn [bind]. cbv zeta.
    destruct (if opt_wide _ then _ else _); [|discriminate]. cbn [bind].
    destruct (_ =? _); [intro E; injection E as _ <-; apply passes_refl|].
    destruct (_ <? _); [discriminate|].
    destruct (get_record mem pos) as [[[[rc len] d2] next]|] eqn:G; [|discriminate]. cbn [bind].
    destruct (Z.eqb_spec rc 0x3c) as [->|]; cbn [negb]; [|discriminate].
    intro E. apply IH in E. apply (passes_trans mem pos next pos'); [passing G|exact E].
Qed.

Lemma formula_string_passes mem pos s pos' : formula_string mem pos = Ok (s, pos') -> passes mem pos pos'.
Proof.
  unfold formula_string. destruct (get_record mem pos) as [[[[rc len] d1] next]|] eqn:G; [|discriminate]. cbn [bind].
  intro H. apply bind_ok in H. destruct H as ([d2 p2] & H & K).
  apply bind_ok in K. destruct K as (_ & _ & K). apply string_contents_passes in K.
  apply (passes_trans mem pos p2 pos'); [|exact K]. clear K.
  destruct ((rc =? 0x207) || (rc =? 0x7)) eqn:E.
  - injection H as _ <-. assert (X : rc = 0x207 \/ rc = 0x7) by lia. destruct X as [-> | ->]; passing G.
  - apply bind_ok in H. destruct H as (u & A & H).
    destruct (get_record mem next) as [[[[rc2 len2] d3] next2]|] eqn:G2; [|discriminate]. cbn [bind] in H.
    destruct ((rc2 =? 0x207) || (rc2 =? 0x7)) eqn:E2; [|discriminate]. injection H as _ <-.
    apply (passes_trans mem pos next next2).
    + destruct (Z.eqb_spec rc 0x221) as [->|]; [passing G|].
      destruct (Z.eqb_spec rc 0x4bc) as [->|]; [passing G|].
      destruct (((rc =? 0x236) || (rc =? 0x37) || (rc =? 0x21) || (rc =? 0x36))) eqn:E3; [|discriminate].
      assert (X : rc = 0x236 \/ rc = 0x37 \/ rc = 0x21 \/ rc = 0x36) by lia.
      destruct X as [-> |[-> |[-> | ->]]]; passing G.
    + assert (X : rc2 = 0x207 \/ rc2 = 0x7) by lia. destruct X as [-> | ->]; passing G2.
Qed.

Lemma txo_text_passes : forall fuel mem pos a b pos', txo_text fuel mem pos a b = Ok pos' -> passes mem pos pos'.
Proof.
  induction fuel as [|fuel IH]; intros mem pos a b pos'; cbn [txo_text].
  - destruct (negb _); [intro E; injection E as <-; apply passes_refl|discriminate].
  - destruct (negb _); [intro E; injection E as <-; apply passes_refl|].
    destruct (get_record mem pos) as [[[[rc len] d2] next]|] eqn:G; [|discriminate]. cbn [bind].
    destruct (Z.eqb_spec rc 0x3c) as [->|]; cbn [negb]; [|discriminate].
    intro H. apply bind_ok in H. destruct H as (nb & _ & H). cbv zeta in H.
    apply bind_ok in H. destruct H as (nc & _ & H). apply bind_ok in H. destruct H as ([s e] & _ & H).
    destruct (e =? len); [|discriminate]. apply IH in H. apply (passes_trans mem pos next pos'); [passing G|exact H].
Qed.
Lemma txo_runs_passes : forall fuel mem pos a b pos', txo_runs fuel mem pos a b = Ok pos' -> passes mem pos pos'.
Proof.
  induction fuel as [|fuel IH]; intros mem pos a b pos'; cbn [txo_runs].
  - destruct (negb _); [intro E; injection E as <-; apply passes_refl|discriminate].
  - destruct (negb _); [intro E; injection E as <-; apply passes_refl|].
    destruct (get_record mem pos) as [[[[rc len] d2] next]|] eqn:G; [|discriminate]. cbn [bind].
    destruct (Z.eqb_spec rc 0x3c) as [->|]; cbn [negb]; [|discriminate].
    destruct (negb _); [discriminate|]. destruct (negb _); [discriminate|].
    intro H. apply IH in H. apply (passes_trans mem pos next pos'); [passing G|exact H].
Qed.
Lemma handle_txo_passes mem data pos pos' : handle_txo mem data pos = Ok pos' -> passes mem pos pos'.
Proof.
  unfold handle_txo. intro H. apply bind_ok in H. destruct H as (_ & _ & H). apply bind_ok in H. destruct H as (p & H & K).
  apply txo_text_passes in H. apply txo_runs_passes in K. eapply passes_trans; eassumption.
Qed.
Lemma skip_embedded_out : forall fuel mem pos pos', skip_embedded fuel mem pos = Ok pos' -> left_out mem pos pos'.
Proof.
  induction fuel as [|fuel IH]; intros mem pos pos'; cbn [skip_embedded]; [discriminate|].
  destruct (get_record mem pos) as [[[[rc len] d2] next]|] eqn:G; [|discriminate]. cbn [bind].
  apply get_record_at in G. destruct G as [G _].
  destruct (Z.eqb_spec rc 0x0a) as [->|N]; intro H.
  - injection H as <-. eapply lo_end. exact G.
  - apply IH in H. eapply lo_more; [exact G|exact N|exact H].
Qed.

(** *** One record *)

Definition forget (g : grid) : grid := mkgrid 0 0 (g_types g) (g_values g) (g_xfs g) (g_full g).

Definition cells_put (fit : Z -> val -> Prop) (su : setup) (recs : list (Z * str)) (g g' : grid) : Prop :=
  exists ps, put_all su ps g = (g', Ok tt) /\ Forall (fitting fit su) ps /\ Forall placed ps /\
    (ps <> [] -> exists c d, In (c, d) recs /\ In c cell_codes).
Definition forgotten (recs : list (Z * str)) (g g' : grid) : Prop :=
  (exists k d, In (k, d) recs /\ In k dimension_codes /\ d <> []) /\ g' = forget g.

Definition record_step (fit : Z -> val -> Prop) (su : setup) (mem : str) (pos : Z) (st : reading) (pos' : Z) (st' : reading) : Prop :=
  exists recs, moves mem pos pos' recs /\
    (cells_put fit su recs (r_grid st) (r_grid st') \/ forgotten recs (r_grid st) (r_grid st')).

Lemma cells_put_none fit su recs g : cells_put fit su recs g g.
Proof. exists []. split; [reflexivity|]. split; [constructor|]. split; [constructor|]. congruence. Qed.

Lemma put1_grid su p st st' : put1 su p st = Ok st' ->
  put_cell su (pt_row p) (pt_col p) (pt_type p) (pt_value p) (pt_xf p) (r_grid st) = (r_grid st', Ok tt).
Proof.
  unfold put1. destruct (put_cell _ _ _ _ _ _ _) as [g [u|e]] eqn:E; [|discriminate].
  intro H. injection H as <-. destruct u. reflexivity.
Qed.

Lemma one_put fit su p st st' recs : put1 su p st = Ok st' -> fitting fit su p -> placed p ->
  (exists c d, In (c, d) recs /\ In c cell_codes) -> cells_put fit su recs (r_grid st) (r_grid st').
Proof.
  intros H F P C. apply put1_grid in H. exists [p]. cbn [put_all]. rewrite H.
  split; [reflexivity|]. split; [constructor; [exact F|constructor]|]. split; [constructor; [exact P|constructor]|]. auto.
Qed.

Lemma mulrk_puts fit su data row : fits_all fit (su_types su) -> 0 <= row -> forall cols pos st st',
  mulrk_loop su data pos row cols st = Ok st' -> Forall (fun c => 0 <= c) cols ->
  exists ps, put_all su ps (r_grid st) = (r_grid st', Ok tt) /\ Forall (fitting fit su) ps /\ Forall placed ps.
Proof.
  intros T R. induction cols as [|c cols IH]; intros pos st st' H C; cbn [mulrk_loop] in H.
  - injection H as <-. exists []. repeat split; constructor.
  - inversion C as [|? ? C0 C1]; subst.
    apply bind_ok in H. destruct H as (u & _ & H). apply bind_ok in H. destruct H as (d & _ & H).
    apply bind_ok in H. destruct H as (st1 & P & H). apply put1_grid in P.
    destruct (IH _ _ _ H C1) as (ps & E & F & G).
    exists (mkput row c None (VFloat d) (le_value (pyslice data pos (pos + 2))) :: ps).
    cbn [put_all]. rewrite P. split; [exact E|].
    split; constructor; auto; [apply fitting_float; exact T|split; cbn; assumption].
Qed.

Lemma zrange_from a b : Forall (fun c => a <= c) (zrange a b).
Proof. unfold zrange. apply Forall_forall. intros x H. apply in_map_iff in H. destruct H as (i & <- & _). lia. Qed.

Lemma formula_step fit su mem data pos st st' pos' pos0 rc : fits_all fit (su_types su) -> In rc cell_codes ->
  moves mem pos0 pos [(rc, data)] -> formula_record su mem data pos st = Ok (st', pos') ->
  record_step fit su mem pos0 st pos' st'.
Proof.
  intros T I M. unfold formula_record. intro H. apply bind_ok in H. destruct H as (u & _ & H). cbv zeta in H.
  assert (PL : forall t v x, placed (mkput (u16 0 data) (u16 2 data) t v x)).
  { intros. split; apply le_value_pos. }
  assert (ONE : forall p, fitting fit su p -> placed p -> (do st <- put1 su p st; Ok (st, pos)) = Ok (st', pos') ->
    record_step fit su mem pos0 st pos' st').
  { intros p F P K. apply bind_ok in K. destruct K as (s1 & K & E). injection E as -> ->.
    exists [(rc, data)]. split; [exact M|]. left. apply (one_put fit su p); auto. exists rc, data. split; [left; reflexivity|exact I]. }
  destruct (str_eqb _ _).
  - destruct (_ =? 0).
    + apply bind_ok in H. destruct H as ([s p1] & S & H). apply bind_ok in H. destruct H as (st1 & P & E). injection E as -> ->.
      apply formula_string_passes in S. destruct S as (recs & S & _).
      exists ([(rc, data)] ++ recs). split; [eapply moves_app; eassumption|].
      left. eapply one_put; [exact P|apply fitting_given; [exact T|constructor]|apply PL|].
      exists rc, data. split; [left; reflexivity|exact I].
    + destruct (_ =? 1); [apply (ONE _ (fitting_given fit su _ _ _ _ _ T (fits_truth _)) (PL _ _ _) H)|].
      destruct (_ =? 2); [apply (ONE _ (fitting_given fit su _ _ _ _ _ T (fits_error _)) (PL _ _ _) H)|].
      destruct (_ =? 3); [apply (ONE _ (fitting_given fit su _ _ _ _ _ T (fits_text _)) (PL _ _ _) H)|discriminate].
  - apply bind_ok in H. destruct H as (d & _ & H).
    apply (ONE _ (fitting_float fit su _ _ _ _ T) (PL _ _ _) H).
Qed.

Lemma bytes_of_nil a n : bytes_at a n [] = [].
Proof. unfold bytes_at. rewrite skipn_nil, firstn_nil. reflexivity. Qed.

Ltac bs H := repeat (apply bind_ok in H; let u := fresh "u" in let K := fresh "K" in destruct H as (u & K & H)).

Lemma sheet_record_step fit su mem strings rc len data pos pos0 st st' pos' : fits_all fit (su_types su) ->
  record_at mem pos0 rc data pos -> (len = 0 -> data = []) -> rc <> end_code ->
  sheet_record su mem strings rc len data pos st = Ok (st', pos') ->
  record_step fit su mem pos0 st pos' st'.
Proof.
  intros T RA L0 NE. unfold sheet_record. cbv zeta.
  assert (PL : forall t v x, placed (mkput (u16 0 data) (u16 2 data) t v x)).
  { intros. split; apply le_value_pos. }
  destruct ((rc =? 0x809) || (rc =? 0x409) || (rc =? 0x209) || (rc =? 0x9)) eqn:B.
  { (* a substream inside *)
    assert (I : In rc begin_codes) by (cbn; lia).
    repeat match goal with |- (if ?c then _ else _) = _ -> _ => replace c with false by lia end.
    intro H. apply bind_ok in H. destruct H as (u & _ & H). apply bind_ok in H. destruct H as (p & K & H).
    injection H as <- <-. apply skip_embedded_out in K.
    exists []. split; [intros l S; apply (sr_inner mem pos0 rc data pos p l); assumption|]. left. apply cells_put_none. }
  assert (NB : ~ In rc begin_codes) by (cbn; lia).
  pose proof (moves_one mem pos0 rc data pos RA NE NB) as M.
  assert (SAME : forall s1 p1, r_grid s1 = r_grid st -> p1 = pos -> Ok (s1, p1) = Ok (st', pos') -> record_step fit su mem pos0 st pos' st').
  { intros s1 p1 E -> H. injection H as <- <-. exists [(rc, data)]. split; [exact M|]. left. rewrite E. apply cells_put_none. }
  assert (CHECK : forall n, (do _ <- sized n (bytes_at 0 n data); Ok (st, pos)) = Ok (st', pos') -> record_step fit su mem pos0 st pos' st').
  { intros n H. apply bind_ok in H. destruct H as (u & _ & H). apply (SAME st pos); auto. }
  assert (ONE : forall p, In rc cell_codes -> fitting fit su p -> placed p -> (do st <- put1 su p st; Ok (st, pos)) = Ok (st', pos') ->
    record_step fit su mem pos0 st pos' st').
  { intros p I F P K. apply bind_ok in K. destruct K as (s1 & K & E). injection E as -> ->.
    exists [(rc, data)]. split; [exact M|]. left. apply (one_put fit su p); auto. exists rc, data. split; [left; reflexivity|exact I]. }
  destruct (rc =? 0x203) eqn:E1.
  { intro H. apply bind_ok in H. destruct H as (u & _ & H). apply bind_ok in H. destruct H as (d & _ & H).
    refine (ONE _ _ (fitting_float fit su _ _ _ _ T) (PL _ _ _) H). cbn; lia. }
  destruct (rc =? 0xfd) eqn:E2.
  { intro H. apply bind_ok in H. destruct H as (u & _ & H). destruct (py_index strings _); [|discriminate].
    refine (ONE _ _ (fitting_given fit su _ _ _ _ _ T (fits_text _)) (PL _ _ _) H). cbn; lia. }
  destruct (rc =? 0x204) eqn:E3.
  { intro H. apply bind_ok in H. destruct H as (u & _ & H). apply bind_ok in H. destruct H as (d & _ & H).
    refine (ONE _ _ (fitting_given fit su _ _ _ _ _ T (fits_text _)) (PL _ _ _) H). cbn; lia. }
  destruct (rc =? 0xd6) eqn:E4.
  { intro H. apply bind_ok in H. destruct H as (u & _ & H). apply bind_ok in H. destruct H as ([s p] & _ & H).
    apply bind_ok in H. destruct H as (u2 & _ & H). apply bind_ok in H. destruct H as (p2 & _ & H).
    destruct (negb _); [discriminate|].
    refine (ONE _ _ (fitting_given fit su _ _ _ _ _ T (fits_text _)) (PL _ _ _) H). cbn; lia. }
  destruct (rc =? 0x27e) eqn:E5.
  { intro H. apply bind_ok in H. destruct H as (u & _ & H). apply bind_ok in H. destruct H as (d & _ & H).
    refine (ONE _ _ (fitting_float fit su _ _ _ _ T) (PL _ _ _) H). cbn; lia. }
  destruct (rc =? 0xbd) eqn:E6.
  { intro H. apply bind_ok in H. destruct H as (u & _ & H). apply bind_ok in H. destruct H as (u2 & _ & H).
    apply bind_ok in H. destruct H as (s1 & K & H). injection H as <- <-.
    apply (mulrk_puts fit) in K; [|exact T|apply le_value_pos|].
    - destruct K as (ps & E & F & P). exists [(rc, data)]. split; [exact M|]. left. exists ps.
      split; [exact E|]. split; [exact F|]. split; [exact P|]. intros _. exists rc, data. split; [left; reflexivity|cbn; lia].
    - eapply Forall_impl; [|apply zrange_from]. intros a A. pose proof (le_value_pos (bytes_at 2 2 data)). unfold u16 in A.
      cbv beta in A. lia. }
  destruct ((rc =? 0x6) || (rc =? 0x406) || (rc =? 0x206)) eqn:E7.
  { apply (formula_step fit su mem data pos st st' pos' pos0 rc T); [cbn; lia|exact M]. }
  destruct (rc =? 0x205) eqn:E8.
  { intro H. apply bind_ok in H. destruct H as (u & _ & H).
    destruct (_ =? 0).
    - refine (ONE _ _ (fitting_given fit su _ _ _ _ _ T (fits_truth _)) (PL _ _ _) H). cbn; lia.
    - destruct (_ =? 1); [|discriminate].
      refine (ONE _ _ (fitting_given fit su _ _ _ _ _ T (fits_error _)) (PL _ _ _) H). cbn; lia. }
  destruct ((rc =? 0x55) || (rc =? 0x99)) eqn:E9; [apply CHECK|].
  destruct ((rc =? 0x200) || (rc =? 0x0)) eqn:E10.
  { destruct (len =? 0) eqn:EL; [apply SAME; reflexivity|].
    intro H. apply bind_ok in H. destruct H as (u & K & H). injection H as <- <-.
    exists [(rc, data)]. split; [exact M|]. right. split; [|reflexivity].
    exists rc, data. split; [left; reflexivity|]. split; [cbn; lia|].
    intros ->. rewrite bytes_of_nil in K. discriminate. }
  destruct (rc =? 0x1b8).
  { intro H. apply bind_ok in H. destruct H as (u & _ & H). eapply SAME; [| |exact H]; reflexivity. }
  destruct (rc =? 0x800).
  { intro H. apply bind_ok in H. destruct H as (u & _ & H). eapply SAME; [| |exact H]; reflexivity. }
  destruct (rc =? 0x5d).
  { intro H. apply bind_ok in H. destruct H as (u & _ & H). eapply SAME; [| |exact H]; reflexivity. }
  destruct (rc =? 0x1b6) eqn:E11.
  { intro H. apply bind_ok in H. destruct H as (p & K & H). destruct (r_drawn st); [|discriminate]. injection H as <- <-.
    apply handle_txo_passes in K. destruct K as (recs & K & _).
    exists ([(rc, data)] ++ recs). split; [eapply moves_app; eassumption|]. left. apply cells_put_none. }
  destruct (rc =? 0x1c).
  { intro H. apply bind_ok in H. destruct H as (u & _ & H). eapply SAME; [| |exact H]; reflexivity. }
  destruct (rc =? 0x8c).
  { intro H. apply bind_ok in H. destruct H as (u & _ & H). eapply SAME; [| |exact H]; reflexivity. }
  destruct (rc =? 0x15f).
  { intro H. apply bind_ok in H. destruct H as (u & _ & H). apply bind_ok in H. destruct H as (u2 & _ & H).
    destruct (_ =? len); [|discriminate]. eapply SAME; [| |exact H]; reflexivity. }
  destruct (rc =? 0x221); [apply CHECK|].
  destruct (rc =? 0x4bc); [apply CHECK|].
  destruct (rc =? 0x225).
  { destruct (len =? 4); [apply CHECK|]. destruct (len =? 2); [apply CHECK|]. apply SAME; reflexivity. }
  destruct (rc =? 0x23e).
  { destruct (14 <=? len); [apply CHECK|].
    intro H. apply bind_ok in H. destruct H as (u & _ & H). apply bind_ok in H. destruct H as (u2 & _ & H).
    eapply SAME; [| |exact H]; reflexivity. }
  destruct (rc =? 0xa0).
  { intro H. apply bind_ok in H. destruct H as (u & _ & H). eapply SAME; [| |exact H]; reflexivity. }
  destruct (rc =? 0x41); [apply CHECK|].
  apply SAME; reflexivity.
Qed.

(** *** The loop *)

Lemma forget_paired fit g : paired fit g -> paired fit (forget g).
Proof. intro H. exact H. Qed.

Lemma read_loop_paired su mem strings : su_ragged su = false -> number_types (su_types su) -> forall fuel pos st st',
  read_loop fuel su mem strings pos st = Ok st' -> paired fits (r_grid st) -> paired fits (r_grid st').
Proof.
  intros RG T. induction fuel as [|fuel IH]; intros pos st st' H P; cbn [read_loop] in H; [discriminate|].
  destruct (get_record mem pos) as [[[[rc len] data] next]|] eqn:G; [|discriminate]. cbn [bind] in H.
  destruct (Z.eqb_spec rc 0x0a) as [->|N]; [injection H as <-; exact P|].
  apply bind_ok in H. destruct H as ([st1 pos1] & K & H). apply get_record_at in G. destruct G as [G L0].
  destruct (sheet_record_step fits su mem strings rc len data next pos st st1 pos1 (numbers_fit _ T) G L0 N K) as (recs & _ & [(ps & E & F & _)|(_ & E)]).
  - apply (IH _ _ _ H). exact (put_all_paired fits su ps fits_empty RG F _ _ _ P E).
  - apply (IH _ _ _ H). rewrite E. apply forget_paired. exact P.
Qed.

Definition nonempty_dimension (recs : list (Z * str)) : Prop :=
  exists k d, In (k, d) recs /\ In k dimension_codes /\ d <> [].

Lemma read_loop_steady su mem strings : su_ragged su = false -> number_types (su_types su) -> forall fuel pos st st',
  read_loop fuel su mem strings pos st = Ok st' ->
  exists recs, sheet_records mem pos recs /\
    (~ late_dimension recs -> forall l, steady su l (r_grid st) -> (l = [] \/ ~ nonempty_dimension recs) ->
     exists l', steady su l' (r_grid st')).
Proof.
  intros RG T. induction fuel as [|fuel IH]; intros pos st st' H; cbn [read_loop] in H; [discriminate|].
  destruct (get_record mem pos) as [[[[rc len] data] next]|] eqn:G; [|discriminate]. cbn [bind] in H.
  apply get_record_at in G. destruct G as [G L0].
  destruct (Z.eqb_spec rc 0x0a) as [->|N].
  { injection H as <-. exists []. split; [eapply sr_end; exact G|]. intros _ l S _. exists l. exact S. }
  apply bind_ok in H. destruct H as ([st1 pos1] & K & H).
  destruct (IH _ _ _ H) as (rest & R & IHs).
  destruct (sheet_record_step fits su mem strings rc len data next pos st st1 pos1 (numbers_fit _ T) G L0 N K) as (recs & M & C).
  exists (recs ++ rest). split; [apply M; exact R|].
  intros NL l S LN.
  assert (NL' : ~ late_dimension rest).
  { intros (a & b & k & cell & d & code & E & A). apply NL.
    exists (recs ++ a), b, k, cell, d, code. split; [rewrite E, app_assoc; reflexivity|].
    destruct A as (A1 & A2 & A3 & A4). rewrite in_app_iff. auto. }
  assert (AFTER : (exists c d, In (c, d) recs /\ In c cell_codes) -> ~ nonempty_dimension rest).
  { intros (c & d & C1 & C2) (k & d2 & D1 & D2 & D3). apply NL. apply in_split in D1. destruct D1 as (a & b & ->).
    exists (recs ++ a), b, k, d, d2, c. split; [rewrite app_assoc; reflexivity|]. rewrite in_app_iff. auto. }
  destruct C as [(ps & E & F & P & W)|(D & E)].
  - apply (IHs NL' (l ++ ps)); [apply (put_all_steady su ps RG P l (r_grid st)); assumption|].
    destruct ps as [|p ps].
    + rewrite app_nil_r. destruct LN as [->|LN]; [left; reflexivity|]. right. intros (k & d & D1 & D2). apply LN.
      exists k, d. rewrite in_app_iff. auto.
    + right. apply AFTER. apply W. discriminate.
  - destruct LN as [->|LN].
    + apply (IHs NL' []); [|left; reflexivity]. rewrite E.
      destruct S as (s & SH & FF & SW & HR & HC & GP). replace (forget (r_grid st)) with (r_grid st).
      * exists s. auto 10.
      * unfold forget. change (height []) with 0 in HR. change (width []) with 0 in HC.
        destruct (r_grid st); cbn in *. congruence.
    + exfalso. apply LN. destruct D as (k & d & D1 & D2). exists k, d. rewrite in_app_iff. auto.
Qed.

Lemma read_sheet_sound b mem pos countries sh c : number_types (b_types b) ->
  read_sheet b mem pos countries = Ok (sh, c) ->
  cells_fit fits sh /\ exists recs, sheet_records mem pos recs /\ (~ late_dimension recs -> rectangular sh).
Proof.
  intros T H. unfold read_sheet in H. cbv zeta in H. apply bind_ok in H. destruct H as (st & R & H).
  destruct (tidy (sheet_setup b) [] (r_grid st)) as [g [u|e]] eqn:E; [|discriminate]. injection H as <- _.
  destruct u.
  assert (RG : su_ragged (sheet_setup b) = false) by reflexivity.
  assert (T' : number_types (su_types (sheet_setup b))) by exact T.
  split.
  - apply (tidy_pair fits (sheet_setup b) [] (r_grid st) g (Ok tt) fits_empty RG); [|exact E].
    apply (read_loop_paired _ _ _ RG T' _ _ _ _ R). constructor.
  - destruct (read_loop_steady _ _ _ RG T' _ _ _ _ R) as (recs & S & K). exists recs. split; [exact S|].
    intro NL. destruct (K NL [] (new_steady _) (or_introl eq_refl)) as (l & ST).
    apply (tidy_rectangular (sheet_setup b) l [] (r_grid st) g RG ST E).
Qed.

Lemma getbof_begins mem pos rqd v next : getbof mem pos rqd = Ok (v, next) -> begins mem next.
Proof.
  unfold getbof, get2bytes. cbv zeta.
  destruct (_ <? 2) eqn:E1; [discriminate|].
  destruct (boflen (le_value (pyslice mem pos (pos + 2)))) as [full|] eqn:BL; [|discriminate].
  destruct (Z.of_nat (length (pyslice mem (pos + 2) (pos + 2 + 2))) <? 2) eqn:E2; [discriminate|].
  assert (LE : forall p, Z.of_nat (length (pyslice mem p (p + 2))) <? 2 = false -> exists a b, pyslice mem p (p + 2) = [a; b]).
  { intros p H. assert (Q : (length (pyslice mem p (p + 2)) <= 2)%nat).
    { unfold pyslice. cbv zeta. rewrite firstn_length.
      enough (py_bound (Z.of_nat (length mem)) (p + 2) - py_bound (Z.of_nat (length mem)) p <= 2) by lia.
      unfold py_bound. destruct (p + 2 <? 0) eqn:A, (p <? 0) eqn:B; lia. }
    destruct (pyslice mem p (p + 2)) as [|a [|b [|c r]]]; cbn [length] in *; try lia. exists a, b. reflexivity. }
  destruct (LE pos E1) as (a & b & EA). destruct (LE (pos + 2) E2) as (c & d & EB).
  rewrite EA in BL. rewrite EB.
  assert (V : forall x y, le_value [x; y] = two x y) by (intros; unfold two; cbn [le_value]; lia).
  rewrite V in *.
  destruct (negb _) eqn:RNG; [discriminate|].
  destruct (_ <? two c d) eqn:SH; [discriminate|].
  intro H.
  assert (LQ : Z.of_nat (length (pyslice mem (pos + 2 + 2) (pos + 2 + 2 + two c d))) = two c d).
  { assert (Z.of_nat (length (pyslice mem (pos + 2 + 2) (pos + 2 + 2 + two c d))) <= two c d); [|lia].
    unfold pyslice. cbv zeta. rewrite firstn_length.
    enough (py_bound (Z.of_nat (length mem)) (pos + 2 + 2 + two c d) - py_bound (Z.of_nat (length mem)) (pos + 2 + 2) <= two c d) by lia.
    unfold py_bound. destruct (pos + 2 + 2 + two c d <? 0) eqn:A, (pos + 2 + 2 <? 0) eqn:B; lia. }
  rewrite LQ in H.
  assert (N : next = pos + 4 + two c d).
  { destruct (_ || _) in H; [injection H as _ <-; lia|]. destruct (_ && _) in H; [injection H as _ <-; lia|discriminate]. }
  subst next. apply (begins_after mem pos a b c d).
  - unfold boflen in BL. cbn. revert BL. 
    destruct (two a b =? 2057) eqn:X1; [lia|]. destruct (two a b =? 1033) eqn:X2; [lia|].
    destruct (two a b =? 521) eqn:X3; [lia|]. destruct (two a b =? 9) eqn:X4; [lia|discriminate].
  - exact EA.
  - rewrite <- EB. f_equal. lia.
Qed.

Lemma get_sheets_sound b mem : number_types (b_types b) -> forall l countries shs, get_sheets b mem l countries = Ok shs ->
  length shs = length l /\ Forall (cells_fit fits) shs /\ (dimensions_first mem -> Forall rectangular shs).
Proof.
  intros T. induction l as [|[n pos] l IH]; intros countries shs H; cbn [get_sheets] in H.
  - injection H as <-. repeat split; constructor.
  - apply bind_ok in H. destruct H as ([v p] & B & H). apply bind_ok in H. destruct H as ([sh c] & R & H).
    apply bind_ok in H. destruct H as (rest & G & H). injection H as <-.
    destruct (IH _ _ G) as (L & F & D). apply getbof_begins in B.
    destruct (read_sheet_sound b mem p countries sh c T R) as (FS & recs & SR & RC).
    split; [cbn; lia|]. split; [constructor; assumption|].
    intro DF. constructor; [|auto]. apply RC. apply (DF p recs B SR).
Qed.

(** ** The globals *)

Record steady_globals (b : globals) : Prop := {
  sg_dates : b_datemode b = 0 \/ b_datemode b = 1;
  sg_types : number_types (b_types b);
  sg_keys : Forall (fun k => exists ty, dget k (b_formats b) = Some ty) (b_xfs b);
  sg_zero : b_xfs b <> [] -> exists ty, dget 0 (b_formats b) = Some ty
}.

Lemma number_types_dset d k t : number_types d -> t = XL_CELL_NUMBER \/ t = XL_CELL_DATE -> number_types (dset k t d).
Proof.
  intros H T k' u E. rewrite dget_dset in E. destruct (k' =? k); [injection E as <-; exact T|exact (H _ _ E)].
Qed.

Lemma new_globals_steady : steady_globals new_globals.
Proof.
  constructor; [left; reflexivity| |apply Forall_nil|intro H; exfalso; apply H; reflexivity].
  intros k t. cbn. destruct (k =? 0); [|discriminate]. intro E. injection E as <-. left. reflexivity.
Qed.

Lemma steady_same b b' : b_datemode b' = b_datemode b -> b_types b' = b_types b -> b_formats b' = b_formats b ->
  b_xfs b' = b_xfs b -> steady_globals b -> steady_globals b'.
Proof. intros E1 E2 E3 E4 [A B C D]. constructor; rewrite ?E1, ?E2, ?E3, ?E4; assumption. Qed.
Ltac same S := eapply steady_same; [| | | |exact S]; reflexivity.

Lemma derive_steady b b' : derive_encoding b = Ok b' -> steady_globals b -> steady_globals b'.
Proof.
  unfold derive_encoding. cbv zeta. intros H S.
  destruct (b_codepage b) as [c|]; [|injection H as <-; same S].
  destruct (c =? 1200); [injection H as <-; same S|].
  destruct (_ || _); [|injection H as <-; same S].
  destruct (existsb _ _); [|discriminate]. injection H as <-; same S.
Qed.

Lemma fill_in_keys formats k : (exists ty, dget k formats = Some ty) -> exists ty, dget k (fill_in formats) = Some ty.
Proof.
  unfold fill_in. generalize std_format_code_types as l. induction l as [|kt l IH] in formats |- *; intro H; [exact H|].
  cbn [fold_left]. apply IH. destruct (dmem _ _); [exact H|]. rewrite dget_dset. destruct (k =? _); [eauto|exact H].
Qed.
Lemma fill_in_some l : forall d k, (exists ty, dget k d = Some ty) \/ existsb (fun kt => k =? fst kt) l = true ->
  exists ty, dget k (fold_left (fun d kt => if dmem (fst kt) d then d else dset (fst kt) (snd kt) d) l d) = Some (ty : Z).
Proof.
  induction l as [|kt l IH]; intros d k H; [destruct H as [H|H]; [exact H|discriminate]|].
  cbn [fold_left existsb] in *. apply IH.
  destruct (dmem (fst kt) d) eqn:E.
  - destruct H as [H|H]; [left; exact H|]. destruct (Z.eqb_spec k (fst kt)) as [EK|]; [|right; exact H].
    left. rewrite EK. unfold dmem in E. destruct (dget (fst kt) d); [eauto|discriminate].
  - rewrite dget_dset. destruct (k =? fst kt); [left; eauto|]. destruct H as [H|H]; [left; exact H|right; exact H].
Qed.
Lemma fill_in_zero formats : exists ty, dget 0 (fill_in formats) = Some ty.
Proof. apply fill_in_some. right. vm_compute. reflexivity. Qed.

Lemma cellty_number ty : cellty_of ty = XL_CELL_NUMBER \/ cellty_of ty = XL_CELL_DATE.
Proof. unfold cellty_of. destruct (_ =? _); auto. Qed.

Lemma handle_xf_steady data b b' : handle_xf data b = Ok b' -> steady_globals b -> steady_globals b'.
Proof.
  unfold handle_xf. cbv zeta. intros H [A B C D].
  set (formats := match b_xfs b with [] => _ | _ => _ end) in *.
  assert (Z0 : exists ty, dget 0 formats = Some ty).
  { unfold formats. destruct (b_xfs b) eqn:E; [apply fill_in_zero|]. apply D. discriminate. }
  assert (K : Forall (fun k => exists ty, dget k formats = Some ty) (b_xfs b)).
  { unfold formats. destruct (b_xfs b) eqn:E; [constructor|exact C]. }
  apply bind_ok in H. destruct H as (u & _ & H). injection H as <-.
  constructor; cbn [b_datemode b_types b_formats b_xfs].
  - exact A.
  - apply number_types_dset; [exact B|]. destruct (dget (u16 2 data) formats); [apply cellty_number|left; reflexivity].
  - apply Forall_app. split; [exact K|]. constructor; [|constructor].
    destruct (dmem (u16 2 data) formats) eqn:E; [|exact Z0].
    unfold dmem in E. destruct (dget (u16 2 data) formats) eqn:G; [eauto|discriminate].
  - intros _. exact Z0.
Qed.

Lemma epilogue_number formats : forall keys i types, Forall (fun k => exists ty, dget k formats = Some ty) keys ->
  number_types types -> number_types (epilogue_types i keys formats types).
Proof.
  induction keys as [|k keys IH]; intros i types K T; cbn [epilogue_types]; [exact T|].
  inversion K as [|? ? [ty K0] K1]; subst. apply IH; [exact K1|]. apply number_types_dset; [exact T|].
  rewrite K0. apply cellty_number.
Qed.

Lemma xf_epilogue_steady b : steady_globals b -> steady_globals (xf_epilogue b).
Proof.
  intros [A B C D]. constructor; cbn [xf_epilogue b_datemode b_types b_formats b_xfs]; auto.
  apply epilogue_number; assumption.
Qed.

Lemma globals_record_steady mem base rc data pos b b' pos' :
  globals_record mem base rc data pos b = Ok (b', pos') -> steady_globals b -> steady_globals b'.
Proof.
  unfold globals_record. cbv zeta.
  assert (KEEP : forall r, (do b <- r; Ok (b, pos)) = Ok (b', pos') -> r = Ok b').
  { intros r H. apply bind_ok in H. destruct H as (b1 & -> & H). injection H as -> _. reflexivity. }
  destruct (rc =? 0xfc).
  { unfold handle_sst. intros H S. apply bind_ok in H. destruct H as (n & _ & H). apply bind_ok in H. destruct H as ([m p] & _ & H).
    apply bind_ok in H. destruct H as ([s r] & _ & H). injection H as <- _. same S. }
  destruct (rc =? 0x41e).
  { intros H S. apply KEEP in H. unfold handle_format in H. apply bind_ok in H. destruct H as (b1 & E & H).
    assert (S1 : steady_globals b1).
    { destruct (b_encoding b); [injection E as <-; exact S|]. exact (derive_steady _ _ E S). }
    apply bind_ok in H. destruct H as (u & _ & H). apply bind_ok in H. destruct H as (f & _ & H). cbv zeta in H. injection H as <-.
    destruct S1 as [A B C D]. 
    assert (W : forall k, (exists ty, dget k (b_formats b1) = Some ty) -> exists ty, dget k (dset (u16 0 data)
       (if is_date_format_string f then FDT else FGE) (b_formats b1)) = Some ty).
    { intros k K. rewrite dget_dset. destruct (k =? _); [eauto|exact K]. }
    constructor; cbn [b_datemode b_types b_formats b_xfs]; auto.
    eapply Forall_impl; [|exact C]. intros k K. apply W. exact K. }
  destruct (rc =? 0xe0).
  { intros H S. apply KEEP in H. exact (handle_xf_steady _ _ _ H S). }
  destruct (rc =? 0x85).
  { intros H S. apply KEEP in H. unfold handle_boundsheet in H. apply bind_ok in H. destruct H as (b1 & E & H).
    pose proof (derive_steady _ _ E S) as S1. apply bind_ok in H. destruct H as (u & _ & H). cbv zeta in H.
    apply bind_ok in H. destruct H as (n & _ & H). destruct (_ =? 0); injection H as <-; same S1. }
  destruct (rc =? 0x22).
  { intros H S. apply KEEP in H. unfold handle_datemode in H. apply bind_ok in H. destruct H as (u & _ & H). cbv zeta in H.
    destruct ((u16 0 data =? 0) || (u16 0 data =? 1)) eqn:E; [|discriminate]. injection H as <-.
    destruct S as [A B C D]. constructor; cbn [b_datemode b_types b_formats b_xfs]; auto. lia. }
  destruct (rc =? 0x42).
  { intros H S. apply KEEP in H. unfold handle_codepage in H. apply bind_ok in H. destruct H as (u & _ & H).
    apply (derive_steady _ _ H). same S. }
  destruct (rc =? 0x8c).
  { intros H S. apply bind_ok in H. destruct H as (c & _ & H). injection H as <- _. same S. }
  destruct (rc =? 0x23).
  { intros H S. apply KEEP in H. unfold handle_externname in H. apply bind_ok in H. destruct H as (u & _ & H).
    apply bind_ok in H. destruct H as (u2 & _ & H). destruct (Nat.eqb _ _); [discriminate|]. injection H as <-. exact S. }
  destruct (rc =? 0x17).
  { unfold handle_externsheet. intros H S. apply bind_ok in H. destruct H as (b1 & E & H).
    pose proof (derive_steady _ _ E S) as S1. apply bind_ok in H. destruct H as (u & _ & H). cbv zeta in H.
    apply bind_ok in H. destruct H as ([d p] & _ & H). injection H as <- _. same S1. }
  destruct (rc =? 0x2f); [discriminate|].
  destruct (rc =? 0x5c).
  { intros H S. apply bind_ok in H. destruct H as (u & _ & H). injection H as <- _. exact S. }
  destruct (rc =? 0x8e).
  { intros H S. apply bind_ok in H. destruct H as (u & _ & H). injection H as <- _. exact S. }
  destruct (rc =? 0x8f); [discriminate|].
  destruct (rc =? 0x1ae).
  { intros H S. apply KEEP in H. unfold handle_supbook in H. cbv zeta in H. apply bind_ok in H. destruct H as (u & _ & H).
    destruct (str_eqb _ _); [injection H as <-; same S|]. destruct (str_eqb _ _); [injection H as <-; same S|].
    apply bind_ok in H. destruct H as ([t p] & _ & H). apply bind_ok in H. destruct H as (u2 & _ & H). injection H as <-. same S. }
  destruct (rc =? 0x18).
  { intros H S. apply KEEP in H. unfold handle_name in H. apply bind_ok in H. destruct H as (b1 & E & H).
    pose proof (derive_steady _ _ E S) as S1. apply bind_ok in H. destruct H as (n & _ & H). injection H as <-. same S1. }
  intros H S. injection H as <- _. exact S.
Qed.

Lemma parse_globals_steady : forall fuel mem base pos b b', parse_globals fuel mem base pos b = Ok b' ->
  steady_globals b -> steady_globals b'.
Proof.
  induction fuel as [|fuel IH]; intros mem base pos b b' H S; cbn [parse_globals] in H; [discriminate|].
  apply bind_ok in H. destruct H as ([[[rc len] data] next] & _ & H).
  destruct (rc =? 0x0a).
  - cbv zeta in H. apply bind_ok in H. destruct H as (u & _ & H). pose proof (xf_epilogue_steady b S) as S1.
    destruct (b_encoding _); [injection H as <-; exact S1|]. exact (derive_steady _ _ H S1).
  - apply bind_ok in H. destruct H as ([b1 p1] & G & H). apply (IH _ _ _ _ _ H). exact (globals_record_steady _ _ _ _ _ _ _ _ G S).
Qed.

Lemma open_sound file wb : open_workbook file = Ok wb ->
  sound_book fits wb /\
  ((forall mem base, load file = Ok (mem, base) -> dimensions_first mem) -> Forall rectangular (bk_sheets wb)).
Proof.
  unfold open_workbook. destruct (str_eqb _ _); [discriminate|]. unfold open_xls.
  destruct file as [|x file]; [discriminate|]. intro H. remember (x :: file) as f. clear Heqf x file.
  apply bind_ok in H. destruct H as ([mem base] & L & H). apply bind_ok in H. destruct H as ([v pos] & B & H).
  destruct (v =? 0); [discriminate|]. destruct (negb _); [discriminate|].
  apply bind_ok in H. destruct H as (b & G & H). apply bind_ok in H. destruct H as (shs & S & H). injection H as <-.
  pose proof (parse_globals_steady _ _ _ _ _ _ G new_globals_steady) as SG.
  destruct (get_sheets_sound b mem (sg_types _ SG) _ _ _ S) as (A1 & A2 & A3).
  split.
  - constructor; cbn [bk_names bk_sheets bk_datemode]; [rewrite map_length; congruence|apply (sg_dates _ SG)|exact A2].
  - intro D. cbn [bk_sheets]. apply A3. apply (D mem base). exact L.
Qed.
