(** * Lemmas about XlSheet.v *)

From Coq Require Import ZifyBool ZifyNat ZifyN.
From Verif Require Import PyBase PyFloat NumPy PyBaseFacts ReadXl XlSheet SpecXlSheet.
Open Scope Z_scope.

Definition ref {A} (d : A) (g : list (list A)) (r c : nat) : A := nth c (nth r g []) d.
Definition shape {A} (g : list (list A)) : list nat := map (@length A) g.

Definition set_nth {A} (n : nat) (x : A) (l : list A) : list A := firstn n l ++ x :: skipn (S n) l.

Lemma set_nth_length A n (x : A) l : (n < length l)%nat -> length (set_nth n x l) = length l.
Proof. intro H. unfold set_nth. rewrite app_length, firstn_length. cbn [length]. rewrite skipn_length. lia. Qed.

Lemma nth_set_nth A n (x : A) l i d : (n < length l)%nat ->
  nth i (set_nth n x l) d = if Nat.eqb i n then x else nth i l d.
Proof.
  intro H. unfold set_nth.
  destruct (Nat.lt_trichotomy i n) as [L|[->|G]].
  - rewrite app_nth1 by (rewrite firstn_length; lia).
    replace (Nat.eqb i n) with false by (symmetry; apply Nat.eqb_neq; lia).
    rewrite <- (firstn_skipn n l) at 2. rewrite app_nth1 by (rewrite firstn_length; lia). reflexivity.
  - rewrite app_nth2 by (rewrite firstn_length; lia). rewrite firstn_length, Nat.min_l, Nat.sub_diag by lia.
    rewrite Nat.eqb_refl. reflexivity.
  - rewrite app_nth2 by (rewrite firstn_length; lia). rewrite firstn_length, Nat.min_l by lia.
    replace (Nat.eqb i n) with false by (symmetry; apply Nat.eqb_neq; lia).
    destruct (i - n)%nat as [|k] eqn:E; [lia|]. cbn [nth].
    rewrite <- (firstn_skipn (S n) l) at 2. rewrite app_nth2 by (rewrite firstn_length; lia).
    rewrite firstn_length. f_equal. lia.
Qed.

Lemma map_set_nth A B (f : A -> B) n x l : map f (set_nth n x l) = set_nth n (f x) (map f l).
Proof. unfold set_nth. rewrite map_app. cbn [map]. rewrite firstn_map, skipn_map. reflexivity. Qed.

Lemma set_nth_same A n (l : list A) d : (n < length l)%nat -> set_nth n (nth n l d) l = l.
Proof.
  intro H. apply nth_ext with d d.
  - apply set_nth_length; exact H.
  - intros i _. rewrite nth_set_nth by exact H. destruct (Nat.eqb_spec i n); subst; reflexivity.
Qed.

Lemma shape_length A (g : list (list A)) : length (shape g) = length g.
Proof. apply map_length. Qed.
Lemma shape_nth A (g : list (list A)) r : nth r (shape g) 0%nat = length (nth r g []).
Proof. unfold shape. change 0%nat with (@length A []). apply map_nth. Qed.

Lemma py_set_ok A (l : list A) i x : 0 <= i < Z.of_nat (length l) ->
  py_set l i x = Ok (set_nth (Z.to_nat i) x l).
Proof.
  intro H. unfold py_set, set_nth. replace (i <? 0) with false by lia. cbv zeta.
  replace ((0 <=? i) && (i <? Z.of_nat (length l))) with true by lia. reflexivity.
Qed.
Lemma py_set_err A (l : list A) i x : Z.of_nat (length l) <= i -> py_set l i x = Err IndexError.
Proof.
  intro H. unfold py_set. replace (i <? 0) with false by lia. cbv zeta.
  replace ((0 <=? i) && (i <? Z.of_nat (length l))) with false by lia. reflexivity.
Qed.

(** In range is a matter of the shape. *)
Definition in_shape (s : list nat) (r c : nat) : bool := Nat.ltb c (nth r s 0%nat).

Lemma cell_set_ok A (g : list (list A)) r c x : in_shape (shape g) r c = true ->
  cell_set g (Z.of_nat r) (Z.of_nat c) x = Ok (set_nth r (set_nth c x (nth r g [])) g).
Proof.
  unfold in_shape. rewrite shape_nth. intro H. apply Nat.ltb_lt in H.
  assert (R : (r < length g)%nat).
  { destruct (Nat.lt_ge_cases r (length g)) as [L|L]; [exact L|]. rewrite nth_overflow in H by exact L. cbn in H; lia. }
  unfold cell_set. rewrite py_index_nonneg, Nat2Z.id by lia.
  rewrite (nth_error_nth' g [] R). rewrite py_set_ok by lia. cbn [bind].
  rewrite py_set_ok by lia. rewrite !Nat2Z.id. reflexivity.
Qed.

Lemma cell_set_err A (g : list (list A)) r c x : in_shape (shape g) r c = false ->
  cell_set g (Z.of_nat r) (Z.of_nat c) x = Err IndexError.
Proof.
  unfold in_shape. rewrite shape_nth. intro H. apply Nat.ltb_ge in H.
  unfold cell_set. rewrite py_index_nonneg, Nat2Z.id by lia.
  destruct (nth_error g r) as [row|] eqn:E; [|reflexivity].
  apply (nth_error_nth _ _ []) in E. rewrite E in H. rewrite py_set_err by lia. reflexivity.
Qed.

Lemma ref_cell A (d : A) g r c x r' c' : in_shape (shape g) r c = true ->
  ref d (set_nth r (set_nth c x (nth r g [])) g) r' c' =
  if (Nat.eqb r' r && Nat.eqb c' c)%bool then x else ref d g r' c'.
Proof.
  unfold in_shape. rewrite shape_nth. intro H. apply Nat.ltb_lt in H.
  assert (R : (r < length g)%nat).
  { destruct (Nat.lt_ge_cases r (length g)) as [L|L]; [exact L|]. rewrite nth_overflow in H by exact L. cbn in H; lia. }
  unfold ref. rewrite nth_set_nth by exact R.
  destruct (Nat.eqb_spec r' r) as [->|N]; cbn [andb]; [|reflexivity].
  rewrite nth_set_nth by exact H. reflexivity.
Qed.

Lemma shape_cell A g r c (x : A) : in_shape (shape g) r c = true ->
  shape (set_nth r (set_nth c x (nth r g [])) g) = shape g.
Proof.
  unfold in_shape. rewrite shape_nth. intro H. apply Nat.ltb_lt in H.
  assert (R : (r < length g)%nat).
  { destruct (Nat.lt_ge_cases r (length g)) as [L|L]; [exact L|]. rewrite nth_overflow in H by exact L. cbn in H; lia. }
  unfold shape. rewrite map_set_nth, set_nth_length by exact H.
  rewrite <- (map_nth (@length A)). apply set_nth_same. rewrite map_length. exact R.
Qed.

Lemma nth_repeat_any A (x d : A) n i : nth i (repeat x n) d = if Nat.ltb i n then x else d.
Proof.
  revert i. induction n as [|n IH]; intro i; cbn [repeat nth].
  - destruct i; reflexivity.
  - destruct i; [reflexivity|]. apply IH.
Qed.

Lemma nth_app_repeat A (d : A) row n c : nth c (row ++ repeat d n) d = nth c row d.
Proof.
  destruct (Nat.lt_ge_cases c (length row)) as [L|L].
  - apply app_nth1. exact L.
  - rewrite app_nth2, (nth_overflow row) by exact L. rewrite nth_repeat_any. destruct (Nat.ltb _ _); reflexivity.
Qed.

Lemma extend_row_eq A g r (x : A) n : (r < length g)%nat ->
  extend_row g (Z.of_nat r) x n = set_nth r (nth r g [] ++ times x n) g.
Proof. intro H. unfold extend_row. rewrite Nat2Z.id, (nth_error_nth' g [] H). reflexivity. Qed.

Lemma ref_extend A (d : A) g r n r' c' : (r < length g)%nat ->
  ref d (extend_row g (Z.of_nat r) d n) r' c' = ref d g r' c'.
Proof.
  intro H. rewrite extend_row_eq by exact H. unfold ref. rewrite nth_set_nth by exact H.
  destruct (Nat.eqb_spec r' r) as [->|N]; [|reflexivity]. apply nth_app_repeat.
Qed.
Lemma shape_extend A (d : A) g r n : (r < length g)%nat ->
  shape (extend_row g (Z.of_nat r) d n) = set_nth r (nth r (shape g) 0 + Z.to_nat n)%nat (shape g).
Proof.
  intro H. rewrite extend_row_eq by exact H. rewrite shape_nth. unfold shape. rewrite map_set_nth, app_length.
  unfold times. rewrite repeat_length. reflexivity.
Qed.

Lemma ref_append A (d : A) g k n r c : ref d (g ++ times (times d k) n) r c = ref d g r c.
Proof.
  unfold ref, times. destruct (Nat.lt_ge_cases r (length g)) as [L|L].
  - rewrite app_nth1 by exact L. reflexivity.
  - rewrite app_nth2, (nth_overflow g) by exact L. rewrite nth_repeat_any.
    destruct (Nat.ltb _ _); [|reflexivity].
    rewrite nth_repeat_any. destruct c; destruct (Nat.ltb _ _); reflexivity.
Qed.
Lemma map_repeat' A B (f : A -> B) x n : map f (repeat x n) = repeat (f x) n.
Proof. induction n; cbn; congruence. Qed.
Lemma shape_append A (d : A) g k n :
  shape (g ++ times (times d k) n) = shape g ++ repeat (Z.to_nat k) (Z.to_nat n).
Proof. unfold shape, times. rewrite map_app, map_repeat', repeat_length. reflexivity. Qed.

(** ** The specification *)

Lemma latest_snoc l p r c : latest (l ++ [p]) r c = if at_cell r c p then Some p else latest l r c.
Proof. unfold latest. rewrite rev_app_distr. reflexivity. Qed.

Lemma largest_app a b : largest (a ++ b) = Z.max (largest a) (largest b).
Proof.
  unfold largest. induction a as [|x a IH]; cbn [app fold_right].
  - assert (0 <= fold_right Z.max 0 b) by (clear; induction b; cbn; lia). lia.
  - rewrite IH. lia.
Qed.
Lemma largest_nonneg l : 0 <= largest l.
Proof. unfold largest. induction l; cbn [fold_right]; lia. Qed.
Lemma height_snoc l p : height (l ++ [p]) = Z.max (height l) (pt_row p + 1).
Proof. unfold height. rewrite map_app, largest_app. cbn [map]. pose proof (largest_nonneg (map (fun p => pt_row p + 1) l)).
  change (largest [pt_row p + 1]) with (Z.max (pt_row p + 1) 0). lia. Qed.
Lemma width_snoc l p : width (l ++ [p]) = Z.max (width l) (pt_col p + 1).
Proof. unfold width. rewrite map_app, largest_app. cbn [map]. pose proof (largest_nonneg (map (fun p => pt_col p + 1) l)).
  change (largest [pt_col p + 1]) with (Z.max (pt_col p + 1) 0). lia. Qed.
Lemma height_nonneg l : 0 <= height l. Proof. apply largest_nonneg. Qed.
Lemma width_nonneg l : 0 <= width l. Proof. apply largest_nonneg. Qed.

Lemma cell_ctype_typed su p t : typed su p t -> cell_type_in su (pt_type p) (pt_xf p) = Ok t.
Proof. intro H. destruct H; cbn; [reflexivity|]. rewrite H. reflexivity. Qed.
Lemma typed_det su p t u : typed su p t -> typed su p u -> t = u.
Proof.
  intros H1 H2. apply cell_ctype_typed in H1, H2. rewrite H1 in H2. congruence.
Qed.
Lemma cell_ctype_untyped su p : (forall t, ~ typed su p t) -> cell_type_in su (pt_type p) (pt_xf p) = Err KeyError.
Proof.
  intro H. destruct p as [r c [t|] v x]; cbn in *.
  - exfalso. apply (H t). constructor.
  - destruct (dget x (su_types su)) as [t|] eqn:E; [|reflexivity].
    exfalso. apply (H t). constructor. exact E.
Qed.

(** ** The invariant *)

(** What the grids show of the calls made so far, whatever the length of the
    rows. *)
Record shows (su : setup) (l : list put) (g : grid) : Prop := {
  sw_types : forall r c, shows_type su l (Z.of_nat r) (Z.of_nat c) (ref XL_CELL_EMPTY (g_types g) r c);
  sw_values : forall r c, shows_value l (Z.of_nat r) (Z.of_nat c) (ref empty_value (g_values g) r c);
  sw_xfs : su_fmt su = true ->
           forall r c, shows_xf l (Z.of_nat r) (Z.of_nat c) (ref (-1) (g_xfs g) r c)
}.

Record shaped (su : setup) (s : list nat) (g : grid) : Prop := {
  sp_types : shape (g_types g) = s;
  sp_values : shape (g_values g) = s;
  sp_xfs : su_fmt su = true -> shape (g_xfs g) = s
}.

Record full_from (s : list nat) (g : grid) : Prop := {
  ff_rows : g_nrows g = Z.of_nat (length s);
  ff_cols : 0 <= g_ncols g;
  ff_short : forall i, Z.of_nat (nth i s 0%nat) <= g_ncols g;
  ff_mark : g_full g = -2 \/
    (-1 <= g_full g <= g_nrows g /\
     forall i, g_full g <= Z.of_nat i < g_nrows g -> Z.of_nat (nth i s 0%nat) = g_ncols g)
}.

Lemma store_ok su s g r c t v x : shaped su s g -> in_shape s r c = true ->
  exists g', store su g (Z.of_nat r) (Z.of_nat c) t v x = (g', Ok tt) /\ shaped su s g' /\
    g_nrows g' = g_nrows g /\ g_ncols g' = g_ncols g /\ g_full g' = g_full g /\
    (forall r' c', ref XL_CELL_EMPTY (g_types g') r' c' =
       if (Nat.eqb r' r && Nat.eqb c' c)%bool then t else ref XL_CELL_EMPTY (g_types g) r' c') /\
    (forall r' c', ref empty_value (g_values g') r' c' =
       if (Nat.eqb r' r && Nat.eqb c' c)%bool then v else ref empty_value (g_values g) r' c') /\
    (su_fmt su = true -> forall r' c', ref (-1) (g_xfs g') r' c' =
       if (Nat.eqb r' r && Nat.eqb c' c)%bool then x else ref (-1) (g_xfs g) r' c').
Proof.
  intros [ST SV SX] I. unfold store.
  rewrite cell_set_ok by (rewrite ST; exact I). cbn [g_values g_xfs g_nrows g_ncols g_full].
  rewrite cell_set_ok by (rewrite SV; exact I). cbn [g_values g_xfs g_nrows g_ncols g_full].
  destruct (su_fmt su) eqn:F.
  - rewrite cell_set_ok by (rewrite SX by reflexivity; exact I).
    eexists. split; [reflexivity|]. cbn [g_types g_values g_xfs g_nrows g_ncols g_full].
    split; [constructor; cbn [g_types g_values g_xfs]; intros|].
    + rewrite shape_cell; [exact ST|rewrite ST; exact I].
    + rewrite shape_cell; [exact SV|rewrite SV; exact I].
    + rewrite shape_cell; [exact (SX eq_refl)|rewrite SX by reflexivity; exact I].
    + do 3 (split; [reflexivity|]). split; [|split]; intros; apply ref_cell.
      * rewrite ST. exact I.
      * rewrite SV. exact I.
      * rewrite SX by reflexivity. exact I.
  - eexists. split; [reflexivity|]. cbn [g_types g_values g_xfs g_nrows g_ncols g_full].
    split; [constructor; cbn [g_types g_values g_xfs]; intros; [| |congruence]|].
    + rewrite shape_cell; [exact ST|rewrite ST; exact I].
    + rewrite shape_cell; [exact SV|rewrite SV; exact I].
    + do 3 (split; [reflexivity|]). split; [|split]; intros; [| |congruence]; apply ref_cell.
      * rewrite ST. exact I.
      * rewrite SV. exact I.
Qed.

Lemma store_err su s g r c t v x : shaped su s g -> in_shape s r c = false ->
  store su g (Z.of_nat r) (Z.of_nat c) t v x = (g, Err IndexError).
Proof. intros [ST _ _] I. unfold store. rewrite cell_set_err by (rewrite ST; exact I). reflexivity. Qed.

Lemma shows_snoc su l p t g g' : typed su p t -> 0 <= pt_row p -> 0 <= pt_col p -> shows su l g ->
  (forall r' c', ref XL_CELL_EMPTY (g_types g') r' c' =
     if (Nat.eqb r' (Z.to_nat (pt_row p)) && Nat.eqb c' (Z.to_nat (pt_col p)))%bool
     then t else ref XL_CELL_EMPTY (g_types g) r' c') ->
  (forall r' c', ref empty_value (g_values g') r' c' =
     if (Nat.eqb r' (Z.to_nat (pt_row p)) && Nat.eqb c' (Z.to_nat (pt_col p)))%bool
     then pt_value p else ref empty_value (g_values g) r' c') ->
  (su_fmt su = true -> forall r' c', ref (-1) (g_xfs g') r' c' =
     if (Nat.eqb r' (Z.to_nat (pt_row p)) && Nat.eqb c' (Z.to_nat (pt_col p)))%bool
     then pt_xf p else ref (-1) (g_xfs g) r' c') ->
  shows su (l ++ [p]) g'.
Proof.
  intros T R C [WT WV WX] HT HV HX.
  assert (E : forall r c, at_cell (Z.of_nat r) (Z.of_nat c) p =
                (Nat.eqb r (Z.to_nat (pt_row p)) && Nat.eqb c (Z.to_nat (pt_col p)))%bool).
  { intros r c. unfold at_cell. lia. }
  constructor.
  - intros r c. unfold shows_type. rewrite latest_snoc, E, HT.
    destruct (_ && _)%bool; [exact T|apply WT].
  - intros r c. unfold shows_value. rewrite latest_snoc, E, HV.
    destruct (_ && _)%bool; [reflexivity|apply WV].
  - intros F r c. unfold shows_xf. rewrite latest_snoc, E, HX by exact F.
    destruct (_ && _)%bool; [reflexivity|apply WX; exact F].
Qed.

Lemma shows_same su l g g' :
  (forall r c, ref XL_CELL_EMPTY (g_types g') r c = ref XL_CELL_EMPTY (g_types g) r c) ->
  (forall r c, ref empty_value (g_values g') r c = ref empty_value (g_values g) r c) ->
  (su_fmt su = true -> forall r c, ref (-1) (g_xfs g') r c = ref (-1) (g_xfs g) r c) ->
  shows su l g -> shows su l g'.
Proof.
  intros HT HV HX [WT WV WX]. constructor; intros; [rewrite HT|rewrite HV|rewrite HX by assumption]; auto.
Qed.

(** ** Extension *)

Lemma widen_fields r nc nr g : g_types (widen r nc nr g) = g_types g /\ g_values (widen r nc nr g) = g_values g /\
  g_xfs (widen r nc nr g) = g_xfs g /\ g_nrows (widen r nc nr g) = g_nrows g /\
  g_ncols (widen r nc nr g) = Z.max (g_ncols g) nc.
Proof. unfold widen. destruct (g_ncols g <? nc) eqn:E; cbn; repeat split; lia. Qed.

(** After widening for the row [r] and lengthening, the cell exists. *)
Lemma grow su s l r c g : shaped su s g -> full_from s g -> shows su l g ->
  in_shape s r c = false ->
  let g1 := lengthen su (Z.of_nat r) (Z.of_nat r + 1) (widen (Z.of_nat r) (Z.of_nat c + 1) (Z.of_nat r + 1) g) in
  exists s', shaped su s' g1 /\ full_from s' g1 /\ shows su l g1 /\ in_shape s' r c = true /\
    g_nrows g1 = Z.max (g_nrows g) (Z.of_nat r + 1) /\ g_ncols g1 = Z.max (g_ncols g) (Z.of_nat c + 1).
Proof.
  intros SH FF SW IN. cbv zeta.
  set (w := widen (Z.of_nat r) (Z.of_nat c + 1) (Z.of_nat r + 1) g).
  destruct (widen_fields (Z.of_nat r) (Z.of_nat c + 1) (Z.of_nat r + 1) g) as (WT & WV & WX & WR & WC). fold w in WT, WV, WX, WR, WC.
  assert (SHw : shaped su s w).
  { destruct SH as [A B C]. constructor; [rewrite WT|rewrite WV|rewrite WX]; auto. }
  assert (SWw : shows su l w).
  { apply (shows_same su l g); [rewrite WT|rewrite WV|rewrite WX|]; auto. }
  destruct FF as [FR FC FS FM].
  unfold in_shape in IN. apply Nat.ltb_ge in IN.
  (* what widening did to the mark *)
  assert (WM : g_ncols w = g_ncols g /\ g_full w = g_full g \/
               g_ncols w = Z.of_nat c + 1 /\ g_ncols g < Z.of_nat c + 1 /\
               (g_full w = -2 \/ g_nrows g <= Z.of_nat r + 1 /\ -2 < g_full g /\
                                 g_full w = Z.max (g_full g) (Z.of_nat r))).
  { unfold w, widen. destruct (g_ncols g <? Z.of_nat c + 1) eqn:E; [right|left]; cbn [g_ncols g_full].
    - split; [reflexivity|]. split; [lia|].
      destruct (Z.of_nat r + 1 <? g_nrows g) eqn:E2; [left; reflexivity|].
      destruct FM as [->|[FM _]]; [left; rewrite andb_false_r; reflexivity|]. right.
      split; [lia|]. split; [lia|].
      destruct ((g_full g <? Z.of_nat r) && (-2 <? g_full g)) eqn:E3; lia.
    - split; lia. }
  destruct SHw as [ST SV SX].
  assert (LT : length (g_types w) = length s) by (rewrite <- ST; symmetry; apply shape_length).
  assert (LV : length (g_values w) = length s) by (rewrite <- SV; symmetry; apply shape_length).
  assert (LX : su_fmt su = true -> length (g_xfs w) = length s) by (intro F; rewrite <- (SX F); symmetry; apply shape_length).
  unfold lengthen. rewrite WR. destruct (Z.of_nat r + 1 <=? g_nrows g) eqn:E.
  - (* an existing row *)
    assert (R : (r < length s)%nat) by lia.
    rewrite Nat2Z.id, <- shape_nth, ST.
    replace (0 <? g_ncols w - Z.of_nat (nth r s 0%nat)) with true by lia.
    exists (set_nth r (nth r s 0 + Z.to_nat (g_ncols w - Z.of_nat (nth r s 0)))%nat s).
    assert (RW : Z.of_nat (nth r s 0 + Z.to_nat (g_ncols w - Z.of_nat (nth r s 0)))%nat = g_ncols w).
    { specialize (FS r). lia. }
    split; [|split; [|split; [|split; [|split]]]].
    + constructor; cbn [g_types g_values g_xfs].
      * rewrite shape_extend, ST by lia. reflexivity.
      * rewrite shape_extend, SV by lia. reflexivity.
      * intro F. rewrite F, shape_extend, SX by (rewrite ?LX; auto; lia). reflexivity.
    + constructor; cbn [g_nrows g_ncols g_full].
      * rewrite set_nth_length by exact R. exact FR.
      * lia.
      * intro i. rewrite nth_set_nth by exact R. destruct (Nat.eqb i r); [lia|]. specialize (FS i). lia.
      * destruct WM as [[WC' WF]|(WC' & WL & [WF|(WL2 & WL3 & WF)])].
        -- rewrite WF. destruct FM as [FM|[FM1 FM2]]; [left; exact FM|right]. split; [lia|].
           intros i Hi. rewrite nth_set_nth by exact R. destruct (Nat.eqb i r); [exact RW|].
           rewrite FM2 by lia. lia.
        -- left. exact WF.
        -- right. split; [lia|]. intros i Hi. rewrite nth_set_nth by exact R.
           destruct (Nat.eqb_spec i r) as [_|N]; [exact RW|]. lia.
    + apply (shows_same su l w); cbn [g_types g_values g_xfs]; [| |intro F; rewrite F|exact SWw]; intros; apply ref_extend.
      * lia.
      * lia.
      * rewrite LX by exact F. exact R.
    + unfold in_shape. rewrite nth_set_nth, Nat.eqb_refl by exact R. apply Nat.ltb_lt. lia.
    + cbn [g_nrows]. lia.
    + cbn [g_ncols]. lia.
  - (* new rows *)
    assert (R : (length s <= r)%nat) by lia.
    set (n := Z.of_nat r + 1 - g_nrows g).
    exists (s ++ repeat (Z.to_nat (g_ncols w)) (Z.to_nat n)).
    split; [|split; [|split; [|split; [|split]]]].
    + constructor; cbn [g_types g_values g_xfs].
      * rewrite shape_append, ST. reflexivity.
      * rewrite shape_append, SV. reflexivity.
      * intro F. rewrite F, shape_append, SX by exact F. reflexivity.
    + constructor; cbn [g_nrows g_ncols g_full].
      * rewrite app_length, repeat_length. unfold n. lia.
      * lia.
      * intro i. destruct (Nat.lt_ge_cases i (length s)) as [L|L].
        -- rewrite app_nth1 by exact L. specialize (FS i). lia.
        -- rewrite app_nth2, nth_repeat_any by exact L. destruct (Nat.ltb _ _); lia.
      * assert (NEW : forall i, (length s <= i)%nat -> Z.of_nat i < Z.of_nat r + 1 ->
                  Z.of_nat (nth i (s ++ repeat (Z.to_nat (g_ncols w)) (Z.to_nat n)) 0%nat) = g_ncols w).
        { intros i L1 L2. rewrite app_nth2, nth_repeat_any by exact L1.
          replace (Nat.ltb (i - length s) (Z.to_nat n)) with true; [lia|].
          symmetry. apply Nat.ltb_lt. unfold n. lia. }
        destruct WM as [[WC' WF]|(WC' & WL & [WF|(WL2 & WL3 & WF)])].
        -- rewrite WF. destruct FM as [FM|[FM1 FM2]]; [left; exact FM|right]. split; [lia|].
           intros i Hi. destruct (Nat.lt_ge_cases i (length s)) as [L|L]; [|apply NEW; lia].
           rewrite app_nth1 by exact L. rewrite FM2 by lia. lia.
        -- left. exact WF.
        -- right. destruct FM as [FM|[FM1 FM2]]; [lia|]. split; [lia|]. intros i Hi. apply NEW; lia.
    + apply (shows_same su l w); cbn [g_types g_values g_xfs]; [| |intro F; rewrite F|exact SWw]; intros; apply ref_append.
    + unfold in_shape. rewrite app_nth2, nth_repeat_any by exact R.
      replace (Nat.ltb (r - length s) (Z.to_nat n)) with true; [apply Nat.ltb_lt; lia|].
      symmetry. apply Nat.ltb_lt. unfold n. lia.
    + cbn [g_nrows]. lia.
    + cbn [g_ncols]. lia.
Qed.

(** ** One call *)

Lemma put_unragged su s l g p t : shaped su s g -> full_from s g -> shows su l g ->
  inside su p -> typed su p t ->
  exists s' g', put_cell_unragged su (pt_row p) (pt_col p) (pt_type p) (pt_value p) (pt_xf p) g = (g', Ok tt) /\
    shaped su s' g' /\ full_from s' g' /\ shows su (l ++ [p]) g' /\
    g_nrows g' = Z.max (g_nrows g) (pt_row p + 1) /\ g_ncols g' = Z.max (g_ncols g) (pt_col p + 1).
Proof.
  intros SH FF SW [IR IC] T. unfold put_cell_unragged. rewrite (cell_ctype_typed _ _ _ T).
  set (r := Z.to_nat (pt_row p)). set (c := Z.to_nat (pt_col p)).
  assert (Er : pt_row p = Z.of_nat r) by lia. assert (Ec : pt_col p = Z.of_nat c) by lia.
  rewrite Er, Ec.
  destruct (in_shape s r c) eqn:IN.
  - destruct (store_ok su s g r c t (pt_value p) (pt_xf p) SH IN) as (g' & -> & SH' & N1 & N2 & N3 & HT & HV & HX).
    exists s, g'. split; [reflexivity|]. split; [exact SH'|].
    assert (IN' := IN). unfold in_shape in IN'. apply Nat.ltb_lt in IN'.
    assert (R : (r < length s)%nat).
    { destruct (Nat.lt_ge_cases r (length s)) as [L|L]; [exact L|]. rewrite nth_overflow in IN' by exact L. lia. }
    split; [destruct FF as [F1 F2 F3 F4]; constructor; rewrite ?N1, ?N2, ?N3; assumption|].
    split; [apply (shows_snoc su l p t g); auto; lia|].
    destruct FF as [F1 F2 F3 F4]. specialize (F3 r). rewrite N1, N2. split; lia.
  - rewrite (store_err su s g r c t (pt_value p) (pt_xf p) SH IN).
    replace ((1 <=? Z.of_nat c + 1) && (Z.of_nat c + 1 <=? su_max_cols su)) with true by lia.
    replace ((1 <=? Z.of_nat r + 1) && (Z.of_nat r + 1 <=? su_max_rows su)) with true by lia.
    cbn [negb].
    destruct (grow su s l r c g SH FF SW IN) as (s' & SH' & FF' & SW' & IN' & G1 & G2).
    set (g1 := lengthen _ _ _ _) in *.
    destruct (store_ok su s' g1 r c t (pt_value p) (pt_xf p) SH' IN') as (g' & -> & SH2 & N1 & N2 & N3 & HT & HV & HX).
    exists s', g'. split; [reflexivity|]. split; [exact SH2|].
    split; [destruct FF' as [F1 F2 F3 F4]; constructor; rewrite ?N1, ?N2, ?N3; assumption|].
    split; [apply (shows_snoc su l p t g1); auto; lia|].
    rewrite N1, N2. split; lia.
Qed.

Lemma put_all_unragged su : su_ragged su = false -> forall todo done s g,
  Forall (good_put su) todo -> shaped su s g -> full_from s g -> shows su done g ->
  g_nrows g = height done -> g_ncols g = width done ->
  exists s' g', put_all su todo g = (g', Ok tt) /\ shaped su s' g' /\ full_from s' g' /\
    shows su (done ++ todo) g' /\ g_nrows g' = height (done ++ todo) /\ g_ncols g' = width (done ++ todo).
Proof.
  intro RG. induction todo as [|p todo IH]; intros done s g G SH FF SW H W.
  - exists s, g. rewrite app_nil_r. auto 10.
  - inversion G as [|? ? [IN [t T]] G']; subst.
    destruct (put_unragged su s done g p t SH FF SW IN T) as (s1 & g1 & E & SH1 & FF1 & SW1 & R1 & C1).
    cbn [put_all]. unfold put_cell. rewrite RG, E.
    destruct (IH (done ++ [p]) s1 g1 G' SH1 FF1 SW1) as (s2 & g2 & E2 & A).
    { rewrite R1, H, height_snoc. reflexivity. }
    { rewrite C1, W, width_snoc. reflexivity. }
    exists s2, g2. rewrite <- app_assoc in A. split; [exact E2|exact A].
Qed.

(** ** Tidying *)

Lemma latest_nil r c : latest [] r c = None. Proof. reflexivity. Qed.

Lemma new_shaped su : shaped su [] new_grid.
Proof. constructor; reflexivity. Qed.
Lemma new_full : full_from [] new_grid.
Proof. constructor; cbn; try lia. - intros [|]; cbn; lia. - right. split; [lia|]. intros; lia. Qed.
Lemma new_shows su : shows su [] new_grid.
Proof. constructor; intros; cbn; destruct r, c; reflexivity. Qed.

Lemma fold_max {M} (f : M -> Z) l a :
  fold_left (fun nr c => if nr <? f c then f c else nr) l a = Z.max a (fold_right Z.max a (map f l)).
Proof.
  revert a. induction l as [|m l IH]; intro a; cbn [fold_left map fold_right]; [lia|].
  rewrite IH. clear IH. revert a. induction l as [|x l IH]; intro a; cbn [map fold_right].
  - destruct (a <? f m) eqn:E; lia.
  - specialize (IH a). destruct (a <? f m) eqn:E; lia.
Qed.

Lemma merged_rows_eq l : merged_rows l = range_height l.
Proof.
  unfold merged_rows, range_height, largest.
  pose proof (fold_max (fun m : mrange => let '(_, rhi, _, _) := m in rhi) l 0) as H.
  assert (P : 0 <= fold_right Z.max 0 (map (fun m : mrange => let '(_, rhi, _, _) := m in rhi) l)) by apply largest_nonneg.
  eapply eq_trans; [|exact (Z.max_r _ _ P)].
  rewrite <- H. clear. generalize 0. induction l as [|[[[a b] c] d] l IH]; intro z; cbn; [reflexivity|]. apply IH.
Qed.
Lemma merged_cols_eq l : merged_cols l = range_width l.
Proof.
  unfold merged_cols, range_width, largest.
  pose proof (fold_max (fun m : mrange => let '(_, _, _, chi) := m in chi) l 0) as H.
  assert (P : 0 <= fold_right Z.max 0 (map (fun m : mrange => let '(_, _, _, chi) := m in chi) l)) by apply largest_nonneg.
  eapply eq_trans; [|exact (Z.max_r _ _ P)].
  rewrite <- H. clear. generalize 0. induction l as [|[[[a b] c] d] l IH]; intro z; cbn; [reflexivity|]. apply IH.
Qed.

Lemma range_bounds su l : Forall (good_range su) l -> l <> [] ->
  1 <= range_height l <= su_max_rows su /\ 1 <= range_width l <= su_max_cols su.
Proof.
  intros F N. unfold range_height, range_width, largest.
  induction F as [|[[[a b] c] d] l (A & B & C & D) F IH]; [congruence|].
  cbn [map fold_right]. destruct l as [|m l]; [cbn; lia|].
  specialize (IH ltac:(discriminate)). lia.
Qed.

(** Rows below ubound are filled up, the others are left. *)
Lemma fix_rows_shape A B (x : A) nc : forall ub (ts : list (list B)) (g : list (list A)), shape g = shape ts ->
  shape (fix_rows ub nc x ts g) =
  map (fun n => Nat.max n (Z.to_nat nc)) (firstn ub (shape ts)) ++ skipn ub (shape ts).
Proof.
  induction ub as [|ub IH]; intros ts g E.
  - destruct ts, g; cbn [fix_rows firstn skipn map app]; exact E.
  - destruct ts as [|trow ts], g as [|row g]; try discriminate E; [reflexivity|].
    cbn [shape map] in E. injection E as E1 E2.
    cbn [fix_rows shape map firstn skipn app]. f_equal; [|apply IH; exact E2].
    destruct (0 <? nc - Z.of_nat (length trow)) eqn:L.
    + rewrite app_length, firstn_length. unfold times. rewrite repeat_length. rewrite E1. lia.
    + rewrite E1. lia.
Qed.
Lemma fix_rows_ref A B (x : A) nc : forall ub (ts : list (list B)) (g : list (list A)) r c, shape g = shape ts ->
  ref x (fix_rows ub nc x ts g) r c = ref x g r c.
Proof.
  induction ub as [|ub IH]; intros ts g r c E.
  - destruct ts, g; reflexivity.
  - destruct ts as [|trow ts], g as [|row g]; try discriminate E; [reflexivity|].
    cbn [shape map] in E. injection E as E1 E2.
    cbn [fix_rows]. destruct r as [|r].
    + unfold ref. cbn [nth]. destruct (0 <? nc - Z.of_nat (length trow)); [|reflexivity].
      rewrite firstn_all2 by lia. apply nth_app_repeat.
    + apply (IH ts g r c E2).
Qed.

Lemma finish su s l g : su_ragged su = false -> shaped su s g -> full_from s g -> shows su l g ->
  let ub := Z.to_nat (if g_full g =? -2 then g_nrows g else g_full g) in
  let g' := mkgrid (g_nrows g) (g_ncols g)
           (fix_rows ub (g_ncols g) XL_CELL_EMPTY (g_types g) (g_types g))
           (fix_rows ub (g_ncols g) empty_value (g_types g) (g_values g))
           (if su_fmt su then fix_rows ub (g_ncols g) (-1) (g_types g) (g_xfs g) else g_xfs g)
           (g_full g) in
  shaped su (repeat (Z.to_nat (g_ncols g)) (Z.to_nat (g_nrows g))) g' /\ shows su l g'.
Proof.
  intros RG [ST SV SX] [FR FC FS FM] SW. cbv zeta.
  set (ub := Z.to_nat (if g_full g =? -2 then g_nrows g else g_full g)).
  assert (EQ : map (fun n => Nat.max n (Z.to_nat (g_ncols g))) (firstn ub s) ++ skipn ub s =
               repeat (Z.to_nat (g_ncols g)) (Z.to_nat (g_nrows g))).
  { assert (UB : (ub <= length s)%nat).
    { unfold ub. clear ub. destruct FM as [FM|[FM _]].
      - rewrite FM. cbn [Z.eqb Pos.eqb]. lia.
      - destruct (Z.eqb_spec (g_full g) (-2)); lia. }
    apply nth_ext with 0%nat 0%nat.
    - rewrite app_length, map_length, firstn_length, skipn_length, repeat_length. lia.
    - intros i Hi. rewrite app_length, map_length, firstn_length, skipn_length in Hi.
      rewrite nth_repeat_any. replace (Nat.ltb i (Z.to_nat (g_nrows g))) with true by (symmetry; apply Nat.ltb_lt; lia).
      destruct (Nat.lt_ge_cases i ub) as [L|L].
      + rewrite app_nth1 by (rewrite map_length, firstn_length; lia).
        rewrite (nth_indep _ 0%nat (Nat.max 0 (Z.to_nat (g_ncols g)))) by (rewrite map_length, firstn_length; lia).
        rewrite (map_nth (fun n => Nat.max n (Z.to_nat (g_ncols g)))).
        specialize (FS i). rewrite <- (firstn_skipn ub s) in FS at 1.
        rewrite app_nth1 in FS by (rewrite firstn_length; lia). lia.
      + rewrite app_nth2 by (rewrite map_length, firstn_length; lia).
        rewrite map_length, firstn_length, Nat.min_l by lia.
        destruct FM as [FM|[FM1 FM2]].
        * exfalso. revert L. unfold ub. rewrite FM. cbn [Z.eqb Pos.eqb]. lia.
        * assert (NE : (g_full g =? -2) = false) by lia.
          assert (Hi2 : g_full g <= Z.of_nat i < g_nrows g).
          { revert L. unfold ub. rewrite NE. lia. }
          specialize (FM2 i Hi2). rewrite <- (firstn_skipn ub s) in FM2 at 1.
          rewrite app_nth2 in FM2 by (rewrite firstn_length; lia).
          rewrite firstn_length, Nat.min_l in FM2 by lia. lia. }
  split.
  - constructor; cbn [g_types g_values g_xfs].
    + rewrite fix_rows_shape by reflexivity. rewrite ST. exact EQ.
    + rewrite fix_rows_shape by congruence. rewrite ST. exact EQ.
    + intro F. rewrite F, fix_rows_shape by (rewrite SX by exact F; congruence). rewrite ST. exact EQ.
  - apply (shows_same su l g); cbn [g_types g_values g_xfs]; [| |intro F; rewrite F|exact SW]; intros; apply fix_rows_ref.
    + reflexivity.
    + congruence.
    + rewrite SX by exact F. congruence.
Qed.

(** An empty cell put where nothing was put shows nothing. *)
Lemma shows_drop_empty su l g r : shows su (l ++ [mkput r 0 (Some XL_CELL_EMPTY) empty_value (-1)]) g ->
  height l <= r -> shows su l g.
Proof.
  intros [WT WV WX] H.
  assert (L : forall i j, at_cell i j (mkput r 0 (Some XL_CELL_EMPTY) empty_value (-1)) = true -> latest l i j = None).
  { intros i j E. unfold at_cell in E. cbn [pt_row pt_col] in E. unfold latest.
    destruct (find (at_cell i j) (rev l)) as [p|] eqn:F; [|reflexivity].
    apply find_some in F. destruct F as [F1 F2]. apply in_rev in F1. unfold at_cell in F2.
    assert (pt_row p + 1 <= height l).
    { unfold height, largest. clear - F1. induction l as [|q l IH]; [destruct F1|].
      cbn [map fold_right]. destruct F1 as [->|F1]; [lia|]. specialize (IH F1). lia. }
    lia. }
  constructor.
  - intros i j. specialize (WT i j). unfold shows_type in *. rewrite latest_snoc in WT.
    destruct (at_cell _ _ _) eqn:E in WT; [|exact WT]. rewrite (L _ _ E). inversion WT; auto.
  - intros i j. specialize (WV i j). unfold shows_value in *. rewrite latest_snoc in WV.
    destruct (at_cell _ _ _) eqn:E in WV; [|exact WV]. rewrite (L _ _ E). exact WV.
  - intros F i j. specialize (WX F i j). unfold shows_xf in *. rewrite latest_snoc in WX.
    destruct (at_cell _ _ _) eqn:E in WX; [|exact WX]. rewrite (L _ _ E). exact WX.
Qed.

Lemma build_unragged su l merged : su_ragged su = false -> Forall (good_put su) l ->
  Forall (good_range su) merged ->
  exists g, build su l merged = Ok g /\
    g_nrows g = Z.max (height l) (range_height merged) /\
    g_ncols g = Z.max (width l) (range_width merged) /\
    shaped su (repeat (Z.to_nat (g_ncols g)) (Z.to_nat (g_nrows g))) g /\ shows su l g.
Proof.
  intros RG G M.
  destruct (put_all_unragged su RG l [] [] new_grid G (new_shaped su) new_full (new_shows su) eq_refl eq_refl)
    as (s & g & E & SH & FF & SW & HR & HC). rewrite app_nil_l in *.
  unfold build. rewrite E. unfold tidy.
  pose proof (height_nonneg l) as HP. pose proof (width_nonneg l) as WP.
  destruct merged as [|m ms].
  - destruct (finish su s l g RG SH FF SW) as [A B]. rewrite RG.
    eexists. split; [reflexivity|]. cbn [g_nrows g_ncols].
    split; [cbn; lia|]. split; [cbn; lia|]. split; assumption.
  - destruct (range_bounds su (m :: ms) M ltac:(discriminate)) as [RB1 RB2].
    rewrite merged_rows_eq, merged_cols_eq.
    set (nr := range_height (m :: ms)) in *. set (nc := range_width (m :: ms)) in *.
    clearbody nr nc.
    set (g1 := if g_ncols g <? nc then _ else g).
    assert (X : shaped su s g1 /\ full_from s g1 /\ shows su l g1 /\ g_nrows g1 = g_nrows g /\ g_ncols g1 = Z.max (g_ncols g) nc).
    { unfold g1. destruct (g_ncols g <? nc) eqn:E1.
      - destruct FF as [F1 F2 F3 F4]. destruct SH as [S1 S2 S3].
        split; [constructor; assumption|].
        split; [constructor; cbn [g_nrows g_ncols g_full]; [exact F1|lia|intro i; specialize (F3 i); lia|left; reflexivity]|].
        split; [apply (shows_same su l g); auto|]. cbn [g_nrows g_ncols]. lia.
      - repeat (split; [assumption|]). split; [reflexivity|]. lia. }
    destruct X as (SH1 & FF1 & SW1 & R1 & C1).
    destruct (g_nrows g1 <? nr) eqn:E2.
    + set (q := mkput (nr - 1) 0 (Some XL_CELL_EMPTY) empty_value (-1)).
      destruct (put_unragged su s l g1 q XL_CELL_EMPTY SH1 FF1 SW1) as (s2 & g2 & P & SH2 & FF2 & SW2 & R2 & C2).
      { unfold q, inside. cbn [pt_row pt_col]. lia. }
      { constructor. }
      unfold put_cell. rewrite RG. change (pt_row q) with (nr - 1) in *. change (pt_col q) with 0 in *.
      change (put_cell_unragged su (nr - 1) 0 (Some XL_CELL_EMPTY) empty_value (-1) g1 = (g2, Ok tt)) in P.
      rewrite P.
      assert (SW3 : shows su l g2) by (apply (shows_drop_empty su l g2 (nr - 1) SW2); lia).
      destruct (finish su s2 l g2 RG SH2 FF2 SW3) as [A B].
      eexists. split; [reflexivity|]. cbn [g_nrows g_ncols]. split; [lia|]. split; [lia|]. split; assumption.
    + destruct (finish su s l g1 RG SH1 FF1 SW1) as [A B]. rewrite RG.
      eexists. split; [reflexivity|]. cbn [g_nrows g_ncols]. split; [lia|]. split; [lia|]. split; assumption.
Qed.

(** ** Ragged rows *)

Record ragged (su : setup) (l : list put) (g : grid) : Prop := {
  rg_types : length (g_types g) = Z.to_nat (height l) /\
    forall i, length (nth i (g_types g) []) = Z.to_nat (row_width l (Z.of_nat i));
  rg_values : length (g_values g) = Z.to_nat (height l) /\
    forall i, length (nth i (g_values g) []) = Z.to_nat (row_width l (Z.of_nat i));
  rg_xfs : su_fmt su = true -> length (g_xfs g) = Z.to_nat (height l) /\
    forall i, length (nth i (g_xfs g) []) = Z.to_nat (row_width l (Z.of_nat i))
}.

Lemma row_width_snoc l p r : row_width (l ++ [p]) r =
  if pt_row p =? r then Z.max (row_width l r) (pt_col p + 1) else row_width l r.
Proof.
  unfold row_width. rewrite filter_app. cbn [filter]. destruct (pt_row p =? r).
  - apply width_snoc.
  - rewrite app_nil_r. reflexivity.
Qed.

Lemma ragged_set_length A (d x : A) row c :
  length (ragged_set d row (Z.of_nat c) x) = Nat.max (length row) (c + 1).
Proof.
  unfold ragged_set. destruct (Z.eqb_spec (Z.of_nat c - Z.of_nat (length row)) 0) as [E|E].
  - rewrite app_length. cbn [length]. lia.
  - rewrite Nat2Z.id. destruct (Z.ltb_spec 0 (Z.of_nat c - Z.of_nat (length row))) as [L|L];
      rewrite app_length, firstn_length; cbn [length]; rewrite skipn_length;
      unfold times; rewrite ?app_length, ?repeat_length; lia.
Qed.

Lemma ragged_set_nth A (d x : A) row c j :
  nth j (ragged_set d row (Z.of_nat c) x) d = if Nat.eqb j c then x else nth j row d.
Proof.
  unfold ragged_set. destruct (Z.eqb_spec (Z.of_nat c - Z.of_nat (length row)) 0) as [E|E].
  - assert (c = length row) as -> by lia. destruct (Nat.eqb_spec j (length row)) as [->|N].
    + apply nth_middle.
    + destruct (Nat.lt_ge_cases j (length row)) as [L|L].
      * apply app_nth1. exact L.
      * rewrite app_nth2, (nth_overflow row) by lia. destruct (j - length row)%nat as [|k] eqn:K; [lia|]. destruct k; reflexivity.
  - rewrite Nat2Z.id. destruct (Z.ltb_spec 0 (Z.of_nat c - Z.of_nat (length row))) as [L|L].
    + change (nth j (set_nth c x (row ++ times d (Z.of_nat c - Z.of_nat (length row) + 1))) d = if Nat.eqb j c then x else nth j row d).
      rewrite nth_set_nth by (unfold times; rewrite app_length, repeat_length; lia).
      destruct (Nat.eqb j c); [reflexivity|]. apply nth_app_repeat.
    + change (nth j (set_nth c x row) d = if Nat.eqb j c then x else nth j row d).
      apply nth_set_nth. lia.
Qed.

(** One grid after the rows are added and the row is set. *)
Lemma ragged_grid A (d x : A) (G : list (list A)) nrows r c l p :
  pt_row p = Z.of_nat r -> pt_col p = Z.of_nat c -> nrows = height l ->
  length G = Z.to_nat (height l) /\ (forall i, length (nth i G []) = Z.to_nat (row_width l (Z.of_nat i))) ->
  let G1 := if nrows <? Z.of_nat r + 1 then G ++ times [] (Z.of_nat r + 1 - nrows) else G in
  let G2 := on_row (fun row => ragged_set d row (Z.of_nat c) x) G1 (Z.of_nat r) in
  (length G2 = Z.to_nat (height (l ++ [p])) /\
   forall i, length (nth i G2 []) = Z.to_nat (row_width (l ++ [p]) (Z.of_nat i))) /\
  forall i j, ref d G2 i j = if (Nat.eqb i r && Nat.eqb j c)%bool then x else ref d G i j.
Proof.
  intros PR PC -> [LG LR]. cbv zeta. set (G1 := if height l <? _ then _ else G).
  pose proof (height_nonneg l) as HN.
  assert (L1 : length G1 = Z.to_nat (Z.max (height l) (Z.of_nat r + 1))).
  { unfold G1. destruct (Z.ltb_spec (height l) (Z.of_nat r + 1)); [|lia].
    rewrite app_length. unfold times. rewrite repeat_length. lia. }
  assert (N1 : forall i, nth i G1 [] = nth i G []).
  { intro i. unfold G1. destruct (Z.ltb _ _); [|reflexivity]. apply nth_app_repeat. }
  assert (E : on_row (fun row => ragged_set d row (Z.of_nat c) x) G1 (Z.of_nat r) =
              set_nth r (ragged_set d (nth r G1 []) (Z.of_nat c) x) G1).
  { unfold on_row. rewrite Nat2Z.id, (nth_error_nth' G1 []) by lia. reflexivity. }
  rewrite E. split; [split|].
  - rewrite set_nth_length by lia. rewrite height_snoc, PR. exact L1.
  - intro i. rewrite nth_set_nth by lia. rewrite row_width_snoc, PR, PC.
    destruct (Nat.eqb_spec i r) as [->|N].
    + rewrite Z.eqb_refl, ragged_set_length, N1, LR. lia.
    + destruct (Z.eqb_spec (Z.of_nat r) (Z.of_nat i)); [lia|]. rewrite N1. apply LR.
  - intros i j. unfold ref. rewrite nth_set_nth by lia.
    destruct (Nat.eqb_spec i r) as [->|N]; cbn [andb]; [|rewrite N1; reflexivity].
    rewrite ragged_set_nth, N1. reflexivity.
Qed.

Lemma put_ragged su l g p t : ragged su l g -> shows su l g -> g_nrows g = height l -> inside su p -> typed su p t ->
  exists g', put_cell_ragged su (pt_row p) (pt_col p) (pt_type p) (pt_value p) (pt_xf p) g = (g', Ok tt) /\
    ragged su (l ++ [p]) g' /\ shows su (l ++ [p]) g' /\ g_nrows g' = height (l ++ [p]) /\
    g_ncols g' = Z.max (g_ncols g) (pt_col p + 1).
Proof.
  intros [RT RV RX] SW H [I1 I2] T. unfold put_cell_ragged. rewrite (cell_ctype_typed _ _ _ T).
  assert ((0 <=? pt_col p) && (pt_col p <? su_max_cols su) = true) as -> by lia.
  assert ((0 <=? pt_row p) && (pt_row p <? su_max_rows su) = true) as -> by lia.
  cbn [negb]. cbv zeta. set (g1 := if _ <? _ then _ else g).
  assert (PR : pt_row p = Z.of_nat (Z.to_nat (pt_row p))) by lia.
  assert (PC : pt_col p = Z.of_nat (Z.to_nat (pt_col p))) by lia.
  pose proof (ragged_grid _ XL_CELL_EMPTY t (g_types g) _ _ _ l p PR PC H RT) as GT.
  pose proof (ragged_grid _ empty_value (pt_value p) (g_values g) _ _ _ l p PR PC H RV) as GV.
  pose proof (fun F => ragged_grid _ (-1) (pt_xf p) (g_xfs g) _ _ _ l p PR PC H (RX F)) as GX.
  cbv zeta in GT, GV, GX. rewrite <- PR, <- PC in GT, GV, GX.
  assert (E1 : g_types g1 = if g_nrows g <? pt_row p + 1 then g_types g ++ times [] (pt_row p + 1 - g_nrows g) else g_types g)
    by (unfold g1; destruct (_ <? _); reflexivity).
  assert (E2 : g_values g1 = if g_nrows g <? pt_row p + 1 then g_values g ++ times [] (pt_row p + 1 - g_nrows g) else g_values g)
    by (unfold g1; destruct (_ <? _); reflexivity).
  assert (E3 : su_fmt su = true -> g_xfs g1 = if g_nrows g <? pt_row p + 1 then g_xfs g ++ times [] (pt_row p + 1 - g_nrows g) else g_xfs g)
    by (intro F; unfold g1; destruct (_ <? _); cbn [g_xfs]; rewrite ?F; reflexivity).
  assert (E4 : g_nrows g1 = Z.max (g_nrows g) (pt_row p + 1)) by (unfold g1; destruct (_ <? _) eqn:E; cbn [g_nrows]; lia).
  assert (E5 : g_ncols g1 = g_ncols g) by (unfold g1; destruct (_ <? _) eqn:E; reflexivity).
  rewrite <- E1 in GT. rewrite <- E2 in GV.
  eexists. split; [reflexivity|]. split; [|split; [|split]].
  - constructor; cbn [g_types g_values g_xfs].
    + apply GT.
    + apply GV.
    + intro F. rewrite F. specialize (GX F). rewrite <- (E3 F) in GX. apply GX.
  - apply (shows_snoc su l p t g); cbn [g_types g_values g_xfs]; auto; try lia.
    + apply GT.
    + apply GV.
    + intro F. rewrite F. specialize (GX F). rewrite <- (E3 F) in GX. apply GX.
  - cbn [g_nrows]. rewrite E4, H, height_snoc. reflexivity.
  - cbn [g_ncols]. rewrite E5. destruct (g_ncols g <=? pt_col p) eqn:E; lia.
Qed.

Lemma put_all_ragged su : su_ragged su = true -> forall todo done g,
  Forall (good_put su) todo -> ragged su done g -> shows su done g ->
  g_nrows g = height done -> g_ncols g = width done ->
  exists g', put_all su todo g = (g', Ok tt) /\ ragged su (done ++ todo) g' /\ shows su (done ++ todo) g' /\
    g_nrows g' = height (done ++ todo) /\ g_ncols g' = width (done ++ todo).
Proof.
  intros RG todo. induction todo as [|p todo IH]; intros done g G RD SW H W.
  - exists g. rewrite app_nil_r. split; [reflexivity|]. auto.
  - inversion G as [|? ? [IN [t T]] G']; subst.
    destruct (put_ragged su done g p t RD SW H IN T) as (g1 & E & RD1 & SW1 & R1 & C1).
    cbn [put_all]. unfold put_cell. rewrite RG, E.
    destruct (IH (done ++ [p]) g1 G' RD1 SW1 R1) as (g2 & E2 & A).
    { rewrite C1, W, width_snoc. reflexivity. }
    exists g2. rewrite <- app_assoc in A. split; [exact E2|exact A].
Qed.

Lemma new_ragged su : ragged su [] new_grid.
Proof. constructor; intros; split; try reflexivity; intros [|i]; reflexivity. Qed.

(** The call tidy_dimensions makes for merged ranges below the last row. *)
Definition filler (l : list put) (merged : list mrange) : list put :=
  if height l <? range_height merged
  then [mkput (range_height merged - 1) 0 (Some XL_CELL_EMPTY) empty_value (-1)] else [].

Lemma build_ragged su l merged : su_ragged su = true -> Forall (good_put su) l ->
  Forall (good_range su) merged ->
  exists g, build su l merged = Ok g /\
    g_nrows g = Z.max (height l) (range_height merged) /\
    g_ncols g = Z.max (width l) (range_width merged) /\
    ragged su (l ++ filler l merged) g /\ shows su l g.
Proof.
  intros RG G M.
  destruct (put_all_ragged su RG l [] new_grid G (new_ragged su) (new_shows su) eq_refl eq_refl)
    as (g & E & RD & SW & HR & HC). rewrite app_nil_l in *.
  unfold build. rewrite E. unfold tidy.
  pose proof (height_nonneg l) as HP. pose proof (width_nonneg l) as WP.
  destruct merged as [|m ms].
  - rewrite RG. exists g. split; [reflexivity|].
    unfold filler. change (range_height []) with 0. change (range_width []) with 0.
    assert (height l <? 0 = false) as -> by lia. rewrite app_nil_r.
    split; [lia|]. split; [lia|]. split; assumption.
  - destruct (range_bounds su (m :: ms) M ltac:(discriminate)) as [RB1 RB2].
    rewrite merged_rows_eq, merged_cols_eq. unfold filler.
    set (nr := range_height (m :: ms)) in *. set (nc := range_width (m :: ms)) in *.
    clearbody nr nc.
    set (g1 := if g_ncols g <? nc then _ else g).
    assert (X : ragged su l g1 /\ shows su l g1 /\ g_nrows g1 = height l /\ g_ncols g1 = Z.max (g_ncols g) nc).
    { unfold g1. destruct (g_ncols g <? nc) eqn:E1.
      - destruct RD as [S1 S2 S3].
        split; [constructor; assumption|].
        split; [apply (shows_same su l g); auto|]. cbn [g_nrows g_ncols]. lia.
      - repeat (split; [assumption|]). lia. }
    destruct X as (RD1 & SW1 & R1 & C1).
    rewrite R1. destruct (height l <? nr) eqn:E2.
    + set (q := mkput (nr - 1) 0 (Some XL_CELL_EMPTY) empty_value (-1)).
      destruct (put_ragged su l g1 q XL_CELL_EMPTY RD1 SW1 R1) as (g2 & P & RD2 & SW2 & R2 & C2).
      { unfold q, inside. cbn [pt_row pt_col]. lia. }
      { constructor. }
      unfold put_cell. rewrite RG.
      change (put_cell_ragged su (nr - 1) 0 (Some XL_CELL_EMPTY) empty_value (-1) g1 = (g2, Ok tt)) in P.
      rewrite P.
      assert (SW3 : shows su l g2) by (apply (shows_drop_empty su l g2 (nr - 1) SW2); lia).
      exists g2. split; [reflexivity|]. rewrite R2, height_snoc.
      split; [cbn [pt_row q]; lia|]. split; [rewrite C2; change (pt_col q) with 0; lia|]. split; assumption.
    + rewrite RG. exists g1. rewrite app_nil_r. split; [reflexivity|]. split; [lia|]. split; [lia|]. split; assumption.
Qed.

(** ** Calls that are refused *)

Lemma put_all_app su a b g : put_all su (a ++ b) g =
  match put_all su a g with (g', Ok _) => put_all su b g' | r => r end.
Proof.
  revert g. induction a as [|p a IH]; intro g; [reflexivity|].
  cbn [app put_all]. destruct (put_cell _ _ _ _ _ _ _) as [g' [|]]; [apply IH|reflexivity].
Qed.

Lemma below_height l r : 0 <= r < height l -> exists p, In p l /\ r <= pt_row p.
Proof.
  unfold height, largest. induction l as [|p l IH]; cbn [map fold_right]; [lia|]. intro H.
  destruct (Z.le_gt_cases r (pt_row p)) as [L|L].
  - exists p. split; [left; reflexivity|exact L].
  - destruct IH as (q & I & Q); [lia|]. exists q. split; [right; exact I|exact Q].
Qed.
Lemma below_width l c : 0 <= c < width l -> exists p, In p l /\ c <= pt_col p.
Proof.
  unfold width, largest. induction l as [|p l IH]; cbn [map fold_right]; [lia|]. intro H.
  destruct (Z.le_gt_cases c (pt_col p)) as [L|L].
  - exists p. split; [left; reflexivity|exact L].
  - destruct IH as (q & I & Q); [lia|]. exists q. split; [right; exact I|exact Q].
Qed.

Lemma refused_unragged su s l g p t : shaped su s g -> full_from s g -> Forall (good_put su) l ->
  g_nrows g = height l -> g_ncols g = width l -> 0 <= pt_row p -> 0 <= pt_col p ->
  typed su p t -> ~ inside su p ->
  put_cell_unragged su (pt_row p) (pt_col p) (pt_type p) (pt_value p) (pt_xf p) g = (g, Err AssertionError).
Proof.
  intros SH [FR FC FS FM] G HR HC R C T NI. unfold put_cell_unragged. rewrite (cell_ctype_typed _ _ _ T).
  assert (IS : in_shape s (Z.to_nat (pt_row p)) (Z.to_nat (pt_col p)) = false).
  { destruct (in_shape _ _ _) eqn:E; [|reflexivity]. exfalso. apply NI.
    unfold in_shape in E. apply Nat.ltb_lt in E. specialize (FS (Z.to_nat (pt_row p))).
    assert (L : (Z.to_nat (pt_row p) < length s)%nat).
    { destruct (Nat.lt_ge_cases (Z.to_nat (pt_row p)) (length s)) as [L|L]; [exact L|].
      rewrite nth_overflow in E by exact L. lia. }
    destruct (below_height l (pt_row p)) as (q1 & I1 & Q1); [lia|].
    destruct (below_width l (pt_col p)) as (q2 & I2 & Q2); [lia|].
    rewrite Forall_forall in G. destruct (G q1 I1) as [[A1 _] _]. destruct (G q2 I2) as [[_ A2] _].
    split; lia. }
  pose proof (store_err su s g _ _ t (pt_value p) (pt_xf p) SH IS) as SE.
  rewrite !Z2Nat.id in SE by lia. rewrite SE.
  unfold inside in NI.
  destruct ((1 <=? pt_col p + 1) && (pt_col p + 1 <=? su_max_cols su)) eqn:B1; cbn [negb]; [|reflexivity].
  destruct ((1 <=? pt_row p + 1) && (pt_row p + 1 <=? su_max_rows su)) eqn:B2; cbn [negb]; [|reflexivity].
  exfalso. apply NI. lia.
Qed.

Lemma refused_ragged su g p t : typed su p t -> ~ inside su p ->
  put_cell_ragged su (pt_row p) (pt_col p) (pt_type p) (pt_value p) (pt_xf p) g = (g, Err AssertionError).
Proof.
  intros T NI. unfold put_cell_ragged. rewrite (cell_ctype_typed _ _ _ T). unfold inside in NI.
  destruct ((0 <=? pt_col p) && (pt_col p <? su_max_cols su)) eqn:B1; cbn [negb]; [|reflexivity].
  destruct ((0 <=? pt_row p) && (pt_row p <? su_max_rows su)) eqn:B2; cbn [negb]; [|reflexivity].
  exfalso. apply NI. lia.
Qed.

(** The state after acceptable calls, in either mode. *)
Lemma put_all_good su l : Forall (good_put su) l -> exists g, put_all su l new_grid = (g, Ok tt) /\
  (su_ragged su = false -> exists s, shaped su s g /\ full_from s g /\ g_nrows g = height l /\ g_ncols g = width l).
Proof.
  intro G. destruct (su_ragged su) eqn:RG.
  - destruct (put_all_ragged su RG l [] new_grid G (new_ragged su) (new_shows su) eq_refl eq_refl) as (g & E & _).
    exists g. split; [exact E|discriminate].
  - destruct (put_all_unragged su RG l [] [] new_grid G (new_shaped su) new_full (new_shows su) eq_refl eq_refl)
      as (s & g & E & SH & FF & SW & HR & HC).
    exists g. split; [exact E|]. intros _. exists s. auto.
Qed.

Lemma put_refused su l p g e : put_all su l new_grid = (g, Ok tt) ->
  put_cell su (pt_row p) (pt_col p) (pt_type p) (pt_value p) (pt_xf p) g = (g, Err e) ->
  forall rest merged, build su (l ++ p :: rest) merged = Err e.
Proof.
  intros E P rest merged. unfold build. rewrite put_all_app, E. cbn [put_all]. rewrite P. reflexivity.
Qed.

(** ** Grids with the same cells *)

Lemma grid_ext A (d : A) g1 g2 : shape g1 = shape g2 -> (forall r c, ref d g1 r c = ref d g2 r c) -> g1 = g2.
Proof.
  revert g2. induction g1 as [|a g1 IH]; intros [|b g2] S1 R; try discriminate S1; [reflexivity|].
  cbn [shape map] in S1. injection S1 as L S1. f_equal.
  - apply nth_ext with d d; [exact L|]. intros i _. apply (R 0%nat i).
  - apply IH; [exact S1|]. intros r c. apply (R (S r) c).
Qed.

Lemma shows_type_det su l r c t u : shows_type su l r c t -> shows_type su l r c u -> t = u.
Proof. unfold shows_type. destruct (latest l r c); [apply typed_det|congruence]. Qed.
Lemma shows_value_det l r c t u : shows_value l r c t -> shows_value l r c u -> t = u.
Proof. unfold shows_value. destruct (latest l r c); congruence. Qed.
Lemma shows_xf_det l r c t u : shows_xf l r c t -> shows_xf l r c u -> t = u.
Proof. unfold shows_xf. destruct (latest l r c); congruence. Qed.

Lemma shows_ext su l1 l2 g : (forall r c, latest l1 r c = latest l2 r c) -> shows su l1 g -> shows su l2 g.
Proof.
  intros E [A B C]. constructor.
  - intros r c. specialize (A r c). unfold shows_type in *. rewrite <- E. exact A.
  - intros r c. specialize (B r c). unfold shows_value in *. rewrite <- E. exact B.
  - intros F r c. specialize (C F r c). unfold shows_xf in *. rewrite <- E. exact C.
Qed.

Lemma ragged_shape su l g : ragged su l g ->
  let s := map (fun i => Z.to_nat (row_width l (Z.of_nat i))) (seq 0 (Z.to_nat (height l))) in shaped su s g.
Proof.
  intros [RT RV RX]. cbv zeta.
  assert (X : forall A (G : list (list A)), length G = Z.to_nat (height l) /\
            (forall i, length (nth i G []) = Z.to_nat (row_width l (Z.of_nat i))) ->
            shape G = map (fun i => Z.to_nat (row_width l (Z.of_nat i))) (seq 0 (Z.to_nat (height l)))).
  { intros A G [L N]. apply nth_ext with 0%nat 0%nat.
    - rewrite shape_length, map_length, seq_length. exact L.
    - intros i Hi. rewrite shape_length in Hi. rewrite shape_nth, N.
      rewrite (nth_indep _ 0%nat (Z.to_nat (row_width l (Z.of_nat 0)))) by (rewrite map_length, seq_length; lia).
      rewrite (map_nth (fun i => Z.to_nat (row_width l (Z.of_nat i)))), seq_nth by lia. reflexivity. }
  constructor; auto.
Qed.

(** The same sizes and the same last calls: the same grids. *)
Lemma same_grids su s l g1 g2 : shaped su s g1 -> shaped su s g2 -> shows su l g1 -> shows su l g2 ->
  g_types g1 = g_types g2 /\ g_values g1 = g_values g2 /\ (su_fmt su = true -> g_xfs g1 = g_xfs g2).
Proof.
  intros [A1 A2 A3] [B1 B2 B3] [C1 C2 C3] [D1 D2 D3]. split; [|split].
  - apply (grid_ext _ XL_CELL_EMPTY); [congruence|]. intros r c. eapply shows_type_det; [apply C1|apply D1].
  - apply (grid_ext _ empty_value); [congruence|]. intros r c. eapply shows_value_det; [apply C2|apply D2].
  - intro F. apply (grid_ext _ (-1)); [rewrite A3, B3 by exact F; reflexivity|].
    intros r c. eapply shows_xf_det; [apply C3|apply D3]; exact F.
Qed.

Lemma same_build su l1 l2 merged : Forall (good_put su) l1 -> Forall (good_put su) l2 -> Forall (good_range su) merged ->
  (forall r c, latest l1 r c = latest l2 r c) -> height l1 = height l2 -> width l1 = width l2 ->
  (forall r, row_width l1 r = row_width l2 r) ->
  exists g1 g2, build su l1 merged = Ok g1 /\ build su l2 merged = Ok g2 /\
    g_nrows g1 = g_nrows g2 /\ g_ncols g1 = g_ncols g2 /\
    g_types g1 = g_types g2 /\ g_values g1 = g_values g2 /\ (su_fmt su = true -> g_xfs g1 = g_xfs g2).
Proof.
  intros G1 G2 M EL EH EW ER. destruct (su_ragged su) eqn:RG.
  - destruct (build_ragged su l1 merged RG G1 M) as (g1 & B1 & R1 & C1 & S1 & W1).
    destruct (build_ragged su l2 merged RG G2 M) as (g2 & B2 & R2 & C2 & S2 & W2).
    exists g1, g2. split; [exact B1|]. split; [exact B2|]. split; [congruence|]. split; [congruence|].
    apply ragged_shape in S1, S2. cbv zeta in S1, S2.
    apply (same_grids su _ l2 g1 g2 S1); [|apply (shows_ext su l1 l2); assumption|assumption].
    assert (EF : filler l1 merged = filler l2 merged) by (unfold filler; rewrite EH; reflexivity).
    assert (E1 : height (l1 ++ filler l1 merged) = height (l2 ++ filler l2 merged)).
    { rewrite EF. unfold height. rewrite !map_app, !largest_app. fold (height l1) (height l2). rewrite EH. reflexivity. }
    assert (E2 : forall r, row_width (l1 ++ filler l1 merged) r = row_width (l2 ++ filler l2 merged) r).
    { intro r. rewrite EF. unfold row_width, width. rewrite !filter_app, !map_app, !largest_app.
      f_equal. apply ER. }
    rewrite E1. erewrite map_ext; [exact S2|]. intro i. cbn beta. rewrite E2. reflexivity.
  - destruct (build_unragged su l1 merged RG G1 M) as (g1 & B1 & R1 & C1 & S1 & W1).
    destruct (build_unragged su l2 merged RG G2 M) as (g2 & B2 & R2 & C2 & S2 & W2).
    exists g1, g2. split; [exact B1|]. split; [exact B2|].
    assert (ERr : g_nrows g1 = g_nrows g2) by congruence. assert (ECc : g_ncols g1 = g_ncols g2) by congruence.
    split; [exact ERr|]. split; [exact ECc|]. rewrite ERr, ECc in S1.
    apply (same_grids su _ l2 g1 g2 S1 S2); [apply (shows_ext su l1 l2); assumption|assumption].
Qed.

(** The API of a rectangular grid. *)
Lemma grid_at_ref A (d : A) g r c : 0 <= r -> 0 <= c -> in_shape (shape g) (Z.to_nat r) (Z.to_nat c) = true ->
  grid_at g r c = Ok (ref d g (Z.to_nat r) (Z.to_nat c)).
Proof.
  intros R C I. unfold in_shape in I. apply Nat.ltb_lt in I. rewrite shape_nth in I.
  assert (L : (Z.to_nat r < length g)%nat).
  { destruct (Nat.lt_ge_cases (Z.to_nat r) (length g)) as [L|L]; [exact L|]. rewrite nth_overflow in I by exact L. cbn in I; lia. }
  unfold grid_at. rewrite py_index_nonneg by exact R. rewrite (nth_error_nth' g [] L).
  rewrite py_index_nonneg by exact C. rewrite (nth_error_nth' _ d I). reflexivity.
Qed.
Lemma in_repeat_shape n m r c : in_shape (repeat n m) r c = (Nat.ltb r m && Nat.ltb c n)%bool.
Proof. unfold in_shape. rewrite nth_repeat_any. destruct (Nat.ltb r m); [reflexivity|]. destruct c; reflexivity. Qed.
