(** * Access to the cells of a sheet: proofs of the property theorems *)

From Coq Require Import ZifyBool ZifyNat ZifyN QArith.
From Verif Require Import PyBase PyText PyFloat NumPy CompDoc ReadXl SpecXl XlAccess SpecAccess PyBaseFacts AccessProofs.
Open Scope nat_scope.
Open Scope Z_scope.
(** Two rows, the second one shorter. *)
Definition ragged : sheet := mksheet 2 3
  [[VInt 10; VInt 11; VInt 12]; [VInt 20; VInt 21]] [[2; 2; 3]; [2; 4]].
(** Two rows of two cells. *)
Definition square : sheet := mksheet 2 2 [[VInt 10; VInt 11]; [VInt 20; VInt 21]] [[2; 2]; [2; 4]].
(** Three sheets, two of one name. *)
Definition three : book := mkbook [lit "a"; lit "b"; lit "a"] [ragged; square; mksheet 0 0 [] []] 0.

Lemma C79_rows_proof :
forall sh r ts vs, matched sh -> at_index (sh_types sh) r ts -> at_index (sh_values sh) r vs ->
  row_len sh r = Ok (Z.of_nat (length vs)) /\
  (forall k t v, (exists cells, sheet_row sh r = Ok cells /\ nth_error cells k = Some (t, v)) <->
                 nth_error ts k = Some t /\ nth_error vs k = Some v) /\
  forall a b,
    (forall p, row_values sh r a b = Ok p <-> sliced vs a b p) /\
    (forall p, row_types sh r a b = Ok p <-> sliced ts a b p) /\
    (forall p, row_slice sh r a b = Ok p <-> sliced (combine ts vs) a b p).
Proof.
intros sh r ts vs M T V. split; [|split].
- unfold row_len. rewrite (proj2 (grid_row_iff _ _ _) V). reflexivity.
- intros k t v. rewrite (row_is sh r ts vs M T V). split.
  + intros (cells & E & H). injection E as <-. apply combine_nth. exact H.
  + intro H. exists (combine ts vs). split; [reflexivity|]. apply combine_nth. exact H.
- intros a b. split; [|split].
  + intro p. unfold row_values. rewrite (proj2 (grid_row_iff _ _ _) V). cbn [bind].
    rewrite <- open_slice_iff. split; congruence.
  + intro p. unfold row_types. rewrite (proj2 (grid_row_iff _ _ _) T). cbn [bind].
    rewrite <- open_slice_iff. split; congruence.
  + intro p. apply row_slice_iff; assumption.
Qed.

Lemma C79_no_row_proof :
forall sh r a b, matched sh -> ~ (- sh_nrows sh <= r < sh_nrows sh) ->
  row_len sh r = Err IndexError /\ sheet_row sh r = Err IndexError /\
  row_values sh r a b = Err IndexError /\ row_types sh r a b = Err IndexError /\ row_slice sh r a b = Err IndexError.
Proof.
intros sh r a b M H. pose proof (matched_len sh M) as L. destruct M as (N0 & _).
assert (forall row, ~ at_index (sh_values sh) r row) as V.
{ intros row (k & K & _). unfold means in K. lia. }
assert (forall row, ~ at_index (sh_types sh) r row) as T.
{ intros row (k & K & _). unfold means in K. lia. }
unfold sheet_row, row_slice, row_values, row_types, row_len.
rewrite (proj2 (grid_row_err _ _ IndexError) (conj eq_refl V)).
rewrite (proj2 (grid_row_err _ _ IndexError) (conj eq_refl T)).
cbn [bind]. split; [reflexivity|]. split; [reflexivity|]. split; [reflexivity|]. split; reflexivity.
Qed.

Lemma C79_columns_proof :
forall sh c a b, matched sh ->
  (forall p, column_values sh c a b = Ok p <-> down (sh_values sh) c a b p) /\
  (forall p, column_types sh c a b = Ok p <-> down (sh_types sh) c a b p) /\
  (forall p, col_slice sh c a b = Ok p <->
     exists pt pv, down (sh_types sh) c a b pt /\ down (sh_values sh) c a b pv /\ p = combine pt pv) /\
  (forall e, column_values sh c a b = Err e <-> e = IndexError /\ gap (sh_values sh) c a b) /\
  (forall e, column_types sh c a b = Err e <-> e = IndexError /\ gap (sh_types sh) c a b) /\
  (forall e, col_slice sh c a b = Err e -> e = IndexError).
Proof.
intros sh c a b M. pose proof (matched_len sh M) as L. pose proof (proj1 M) as N0.
split; [intro p; apply down_iff; lia|]. split; [intro p; apply down_iff; lia|].
split; [intro p; apply cells_down; exact M|].
split; [intro e; apply gap_iff; lia|]. split; [intro e; apply gap_iff; lia|].
intros e H. unfold col_slice in H. apply (mapM_err_iff _ IndexError) in H; [exact (proj1 H)|].
intros x e'. apply sheet_cell_err.
Qed.

Lemma C79_readxl_proof :
forall sh c a b, matched sh ->
  (forall p, col_values sh c a b = Ok p <-> down (sh_values sh) c a (Some b) p) /\
  (forall p, col_types sh c a b = Ok p <-> down (sh_types sh) c a (Some b) p).
Proof.
intros sh c a b M. pose proof (matched_len sh M) as L. pose proof (proj1 M) as N0.
split; intro p; [apply (down_iff (sh_values sh) c a (Some b))|apply (down_iff (sh_types sh) c a (Some b))]; lia.
Qed.

Lemma C79_cells_proof :
forall sh r c,
  (forall v, cell_value sh r c = Ok v <-> exists row, at_index (sh_values sh) r row /\ at_index row c v) /\
  (forall t, cell_type sh r c = Ok t <-> exists row, at_index (sh_types sh) r row /\ at_index row c t) /\
  (forall t v, sheet_cell sh r c = Ok (t, v) <-> cell_type sh r c = Ok t /\ cell_value sh r c = Ok v) /\
  (forall e, cell_value sh r c = Err e \/ cell_type sh r c = Err e \/ sheet_cell sh r c = Err e -> e = IndexError) /\
  cell_xf_index sh r c = Err XLRDError /\
  (forall cells, sheet_item sh (inl r) = Ok (inl cells) <-> sheet_row sh r = Ok cells) /\
  (forall d, sheet_item sh (inr (r, c)) = Ok (inr d) <-> sheet_cell sh r c = Ok d).
Proof.
intros sh r c. split; [intro v; apply grid_iff|]. split; [intro t; apply grid_iff|].
split; [intros t v; apply sheet_cell_iff|]. split.
{ intros e [H|[H|H]]; [exact (grid_err _ _ _ _ H)|exact (grid_err _ _ _ _ H)|exact (sheet_cell_err _ _ _ _ H)]. }
split; [reflexivity|]. split.
- intro cells. unfold sheet_item. destruct (sheet_row sh r); cbn [bind]; split; congruence.
- intro d. unfold sheet_item. destruct (sheet_cell sh r c); cbn [bind]; split; congruence.
Qed.

Lemma C79_iteration_proof :
forall sh, matched sh -> exists rows, get_rows sh = Ok rows /\ Z.of_nat (length rows) = sh_nrows sh /\
  forall k row, nth_error rows k = Some row <->
    exists ts vs, nth_error (sh_types sh) k = Some ts /\ nth_error (sh_values sh) k = Some vs /\ row = combine ts vs.
Proof.
intros sh M. eexists. split; [exact (get_rows_is sh M)|]. pose proof (matched_len sh M) as L. split.
- rewrite map_length, combine_length, (proj1 M). lia.
- intros k row. rewrite nth_error_map. split.
  + destruct (nth_error (combine (sh_types sh) (sh_values sh)) k) as [[ts vs]|] eqn:E; [|discriminate].
    intro H. injection H as <-. apply combine_nth in E as (T & V). exists ts, vs. auto.
  + intros (ts & vs & T & V & ->).
    rewrite (proj2 (combine_nth (sh_types sh) (sh_values sh) k ts vs) (conj T V)). reflexivity.
Qed.

Lemma rectangular_matched sh : rectangular sh -> matched sh.
Proof.
  intros (R & L & V & T). split; [exact R|]. clear R. revert T V L.
  generalize (sh_values sh). generalize (sh_types sh). induction l as [|t ts IH]; intros [|v vs] T V L; simpl in L; try lia; constructor.
  - inversion T; subst. inversion V; subst. lia.
  - inversion T; subst. inversion V; subst. apply IH; [assumption|assumption|lia].
Qed.
Lemma whole {A} (l : list A) : sliced l 0 None l.
Proof.
  exists 0%nat, (length l). unfold lies. split; [lia|]. split; [reflexivity|]. split; [lia|]. reflexivity.
Qed.

Lemma C79_rectangle_proof :
forall sh c, rectangular sh -> - sh_ncols sh <= c < sh_ncols sh ->
  matched sh /\
  exists col, column_values sh c 0 None = Ok col /\ Z.of_nat (length col) = sh_nrows sh /\
  forall r v, (cell_value sh r c = Ok v <-> at_index col r v) /\
              (cell_value sh r c = Ok v <-> exists row, row_values sh r 0 None = Ok row /\ at_index row c v).
Proof.
intros sh c R C. pose proof (rectangular_matched sh R) as M. split; [exact M|].
destruct R as (N0 & L & V & T).
assert (exists col, Forall2 (fun row v => at_index row c v) (sh_values sh) col) as (col & F).
{ clear - V C. induction V as [|row rows E V IH]; [exists []; constructor|].
  destruct IH as (col & F). destruct (py_index row c) as [v|] eqn:P.
  - exists (v :: col). constructor; [apply index_iff; exact P|exact F].
  - apply py_index_None in P. lia. }
assert (column_values sh c 0 None = Ok col) as K.
{ apply down_iff; [lia|]. exists (sh_values sh). split; [apply whole|exact F]. }
assert (length col = length (sh_values sh)) as Lc. { clear - F. induction F; simpl; congruence. }
exists col. split; [exact K|]. split; [lia|]. intros r v. split.
- unfold cell_value. rewrite grid_iff. split.
  + intros (row & (k & Kk & Rk) & X). exists k. rewrite Lc. split; [exact Kk|].
    clear - F Rk X. revert k Rk. induction F as [|r0 v0 rs vs H F IH]; intros [|k] Rk; simpl in *; try discriminate.
    * injection Rk as ->. apply index_iff in H, X. congruence.
    * exact (IH k Rk).
  + intros (k & Kk & Vk). rewrite Lc in Kk.
    assert (exists row, nth_error (sh_values sh) k = Some row /\ at_index row c v) as (row & Rk & X).
    { clear - F Vk. revert k Vk. induction F as [|r0 v0 rs vs H F IH]; intros [|k] Vk; simpl in *; try discriminate.
      - injection Vk as ->. exists r0. split; [reflexivity|exact H].
      - exact (IH k Vk). }
    exists row. split; [|exact X]. exists k. split; assumption.
- unfold cell_value. rewrite grid_iff. split.
  + intros (row & H & X). exists row. split; [|exact X].
    unfold row_values. rewrite (proj2 (grid_row_iff _ _ _) H). cbn [bind]. f_equal. apply open_slice_iff. apply whole.
  + intros (row & H & X). unfold row_values in H. apply bind_ok in H as (row' & H & E). assert (open_slice row' 0 None = row) as E' by congruence. clear E. rename E' into E.
    apply open_slice_iff in E. rewrite (sliced_one _ _ _ _ _ E (whole row')) in *. exists row'. split; [|exact X].
    apply grid_row_iff. exact H.
Qed.

Lemma C79_sheets_proof :
forall wb,
  (forall i sh, book_item wb (inl i) = Ok sh <-> at_index (bk_sheets wb) i sh) /\
  (forall i e, book_item wb (inl i) = Err e -> e = IndexError) /\
  (length (bk_names wb) = length (bk_sheets wb) -> forall s sh,
     book_item wb (inr s) = Ok sh <-> exists k, first_name (bk_names wb) s k /\ nth_error (bk_sheets wb) k = Some sh) /\
  (length (bk_names wb) = length (bk_sheets wb) -> forall s e,
     book_item wb (inr s) = Err e <-> e = XLRDError /\ ~ In s (bk_names wb)) /\
  book_iter wb = Ok (bk_sheets wb).
Proof.
intro wb. split; [|split; [|split; [|split]]].
- intros i sh. apply (elem_iff i (bk_sheets wb) sh).
- intros i e H. apply (elem_err i (bk_sheets wb) e) in H. exact (proj1 H).
- intros L s sh. cbn [book_item]. unfold sheet_by_name. destruct (name_index s (bk_names wb)) as [k|] eqn:E.
  + unfold sheet_by_index. rewrite index_nat. split.
    * intro H. exists k. split; [apply name_iff; exact E|]. destruct (nth_error (bk_sheets wb) k); congruence.
    * intros (k' & F & H). apply name_iff in F. assert (k' = k) as -> by congruence. rewrite H. reflexivity.
  + split; [discriminate|]. intros (k & F & _). apply name_iff in F. congruence.
- intros L s e. cbn [book_item]. unfold sheet_by_name. rewrite <- name_none. destruct (name_index s (bk_names wb)) as [k|] eqn:E.
  + apply name_iff in E as (F & _). unfold sheet_by_index. rewrite index_nat.
    destruct (nth_error (bk_sheets wb) k) as [sh|] eqn:X.
    * split; [discriminate|]. intros (_ & ?). discriminate.
    * apply nth_error_None in X. assert (k < length (bk_names wb))%nat; [|lia]. apply nth_error_Some. congruence.
  + split; [intro H; split; congruence|]. intros (-> & _). reflexivity.
- apply iter_all.
Qed.

