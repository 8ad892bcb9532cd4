(** * Proofs about access to cells *)

From Coq Require Import ZArith Lia ZifyBool ZifyNat.
From Verif Require Import PyBase PyText PyFloat NumPy CompDoc ReadXl XlAccess SpecAccess PyBaseFacts.
Open Scope Z_scope.

Lemma index_iff {A} (l : list A) i x : py_index l i = Some x <-> at_index l i x.
Proof.
  unfold py_index, at_index, means. split.
  - destruct (i <? 0) eqn:E; destruct (_ && _) eqn:E1; try discriminate; intro H.
    + exists (Z.to_nat (i + Z.of_nat (length l))). split; [|exact H]. right. split; [lia|]. f_equal. lia.
    + exists (Z.to_nat i). split; [|exact H]. left. split; [lia|reflexivity].
  - intros (k & [[B ->]|[B ->]] & H).
    + destruct (i <? 0) eqn:E; [lia|]. destruct (_ && _) eqn:E1; [exact H|lia].
    + destruct (i <? 0) eqn:E; [|lia]. destruct (_ && _) eqn:E1; [|lia]. rewrite Z.add_comm. exact H.
Qed.

Lemma index_no {A} (l : list A) i : py_index l i = None <-> forall x, ~ at_index l i x.
Proof.
  split.
  - intros H x K. apply index_iff in K. congruence.
  - intro H. destruct (py_index l i) as [x|] eqn:E; [|reflexivity]. apply index_iff in E. destruct (H x E).
Qed.

Lemma lies_one n i k k' : lies n i k -> lies n i k' -> k = k'.
Proof. unfold lies. lia. Qed.
Lemma lies_is n i : 0 <= n -> exists k, lies n i k /\ (k <= Z.to_nat n)%nat.
Proof.
  intro H. exists (Z.to_nat (if i <? 0 then Z.max 0 (i + n) else Z.min i n)). unfold lies.
  destruct (i <? 0) eqn:E; lia.
Qed.

(** The two bounds. *)
Definition reach (n a : Z) (b : option Z) (x y : nat) : Prop :=
  lies n a x /\ match b with Some b => lies n b y | None => y = Z.to_nat n end.

Lemma reach_is n a b : 0 <= n -> exists x y, reach n a b x y /\ (x <= Z.to_nat n)%nat /\ (y <= Z.to_nat n)%nat.
Proof.
  intro H. destruct (lies_is n a H) as (x & X & Lx). destruct b as [b|].
  - destruct (lies_is n b H) as (y & Y & Ly). exists x, y. repeat split; assumption.
  - exists x, (Z.to_nat n). repeat split; auto.
Qed.

Lemma firstn_skipn_nth {A} (l : list A) x m k : (k < m)%nat -> nth_error (firstn m (skipn x l)) k = nth_error l (x + k).
Proof.
  revert l m k. induction x as [|x IH]; intros l m k H.
  - simpl. revert l k H. induction m as [|m IHm]; intros [|u l] [|k] H; try lia; simpl; auto. apply IHm. lia.
  - destruct l as [|u l]; simpl.
    + rewrite firstn_nil. destruct k; reflexivity.
    + apply IH. exact H.
Qed.

Lemma nth_same {A} (l m : list A) : length l = length m ->
  (forall k, (k < length l)%nat -> nth_error l k = nth_error m k) -> l = m.
Proof.
  revert m. induction l as [|x l IH]; intros [|y m] L H; simpl in L; try lia; [reflexivity|].
  pose proof (H 0%nat ltac:(simpl; lia)) as E. simpl in E. injection E as ->. f_equal.
  apply IH; [lia|]. intros k K. exact (H (S k) ltac:(simpl; lia)).
Qed.

Lemma sliced_iff {A} (l p : list A) a b x y : reach (Z.of_nat (length l)) a b x y -> (x <= length l)%nat -> (y <= length l)%nat ->
  sliced l a b p <-> p = firstn (y - x) (skipn x l).
Proof.
  intros (Rx & Ry) Lx Ly. split.
  - intros (x' & y' & X & Y & L & H). rewrite (lies_one _ _ _ _ X Rx) in *.
    assert (y' = y) as ->.
    { destruct b as [b|]; [exact (lies_one _ _ _ _ Y Ry)|]. lia. }
    apply nth_same.
    + rewrite L, firstn_length, skipn_length. lia.
    + intros k K. rewrite L in K. rewrite (H k K). symmetry. apply firstn_skipn_nth. exact K.
  - intros ->. exists x, y. split; [exact Rx|]. split; [destruct b; [exact Ry|lia]|]. split.
    + rewrite firstn_length, skipn_length. lia.
    + intros k K. apply firstn_skipn_nth. exact K.
Qed.

Lemma bound_is n i k : 0 <= n -> lies n i k -> py_bound n i = Z.of_nat k.
Proof. unfold lies, py_bound. destruct (i <? 0) eqn:E; lia. Qed.

Lemma open_slice_iff {A} (l p : list A) a b : open_slice l a b = p <-> sliced l a b p.
Proof.
  destruct (reach_is (Z.of_nat (length l)) a b) as (x & y & R & Lx & Ly); [lia|].
  rewrite (sliced_iff l p a b x y R) by lia. destruct R as (Rx & Ry).
  assert (open_slice l a b = firstn (y - x) (skipn x l)) as ->; [|split; congruence].
  unfold open_slice, pyslice. destruct b as [b|].
  - rewrite (bound_is _ _ _ (Zle_0_nat _) Rx), (bound_is _ _ _ (Zle_0_nat _) Ry). f_equal; [lia|]. f_equal. lia.
  - rewrite (bound_is _ _ _ (Zle_0_nat _) Rx). unfold py_bound. destruct (_ <? 0) eqn:E; [lia|]. f_equal; [lia|]. f_equal. lia.
Qed.

Lemma range_is n a b x y : 0 <= n -> reach n a b x y -> (y <= Z.to_nat n)%nat ->
  slice_range n a b = map Z.of_nat (seq x (y - x)).
Proof.
  intros P (Rx & Ry) Ly. unfold slice_range. cbv zeta.
  set (s := if a <? 0 then _ else a).
  set (e := match b with None => n | Some _ => _ end).
  assert (0 <= s /\ (s <= n -> s = Z.of_nat x) /\ (n < s -> x = Z.to_nat n)) as (S0 & S1 & S2).
  { clear - Rx P. unfold s, lies in *. clear s. destruct (Z.ltb_spec a 0); [|lia]. destruct (Z.ltb_spec (a + n) 0); lia. }
  assert (e <= n /\ (0 <= e -> e = Z.of_nat y) /\ (e < 0 -> y = 0%nat)) as (E0 & E1 & E2).
  { clear - Ry P Ly. unfold e, lies in *. clear e. destruct b as [b|]; [|lia]. destruct (Z.ltb_spec n b); [lia|]. destruct (Z.ltb_spec b 0); lia. }
  unfold zrange. destruct (Z_lt_le_dec s e) as [L|L].
  - rewrite (S1 ltac:(lia)), (E1 ltac:(lia)).
    replace (Z.to_nat (Z.of_nat y - Z.of_nat x)) with (y - x)%nat by lia.
    generalize (y - x)%nat. intro m. clear. 
    assert (forall k, map (fun i => Z.of_nat x + Z.of_nat i) (seq k m) = map Z.of_nat (seq (x + k) m)) as H.
    { induction m as [|m IH]; intro k; simpl; [reflexivity|]. f_equal; [lia|]. rewrite IH. do 2 f_equal. lia. }
    rewrite H. do 2 f_equal. lia.
  - replace (Z.to_nat (e - s)) with 0%nat by lia. replace (y - x)%nat with 0%nat by lia. reflexivity.
Qed.

(** Reading index after index of a slice reads the slice. *)
Lemma over_range {A B} (f : Z -> res B) (h : A -> res B) (l : list A) a b n :
  n = Z.of_nat (length l) ->
  (forall k u, nth_error l k = Some u -> f (Z.of_nat k) = h u) ->
  exists p, sliced l a b p /\ mapM f (slice_range n a b) = mapM h p.
Proof.
  intros -> H.
  destruct (reach_is (Z.of_nat (length l)) a b) as (x & y & R & Lx & Ly); [lia|].
  exists (firstn (y - x) (skipn x l)). split; [apply (sliced_iff l _ a b x y R); [lia|lia|reflexivity]|].
  rewrite (range_is _ a b x y (Zle_0_nat _) R Ly).
  assert (x + (y - x) <= length l)%nat as L by lia.
  clear R Lx Ly. revert L. generalize (y - x)%nat. clear y. intro m. revert x.
  induction m as [|m IH]; intros x L; [reflexivity|].
  destruct (nth_error l x) as [u|] eqn:U; [|apply nth_error_None in U; lia].
  assert (skipn x l = u :: skipn (S x) l) as E.
  { clear - U. revert l U. induction x as [|x IH]; intros [|v l] U; simpl in *; try discriminate; [congruence|apply IH; exact U]. }
  rewrite E. cbn [seq map firstn mapM]. rewrite (H x u U), (IH (S x)) by lia. reflexivity.
Qed.

Lemma sliced_one {A} (l p q : list A) a b : sliced l a b p -> sliced l a b q -> p = q.
Proof. intros P Q. apply open_slice_iff in P, Q. congruence. Qed.
Lemma sliced_is {A} (l : list A) a b : exists p, sliced l a b p.
Proof. exists (open_slice l a b). apply open_slice_iff. reflexivity. Qed.

(** An element of a row. *)
Definition elem {A} (c : Z) (row : list A) : res A :=
  match py_index row c with Some x => Ok x | None => Err IndexError end.

Lemma elem_iff {A} c (row : list A) x : elem c row = Ok x <-> at_index row c x.
Proof. unfold elem. rewrite <- index_iff. destruct (py_index row c); split; congruence. Qed.
Lemma elem_err {A} c (row : list A) e : elem c row = Err e <-> e = IndexError /\ forall x, ~ at_index row c x.
Proof.
  unfold elem. rewrite <- index_no. destruct (py_index row c); split; try (intros (? & ?)); try split; congruence.
Qed.

Lemma index_nat {A} (l : list A) k : py_index l (Z.of_nat k) = nth_error l k.
Proof. rewrite py_index_nonneg by lia. f_equal. lia. Qed.

Lemma grid_elem {A} (g : list (list A)) c k row : nth_error g k = Some row -> grid_at g (Z.of_nat k) c = elem c row.
Proof. intro H. unfold grid_at, elem. rewrite index_nat, H. reflexivity. Qed.

Lemma mapM_err_iff {A B} (f : A -> res B) e0 l e : (forall x e', f x = Err e' -> e' = e0) ->
  mapM f l = Err e <-> e = e0 /\ exists x e', In x l /\ f x = Err e'.
Proof.
  intro H. induction l as [|u l IH]; simpl.
  - split; [discriminate|]. intros (_ & x & e' & [] & _).
  - destruct (f u) as [v|e'] eqn:U; simpl.
    + destruct (mapM f l) as [q|q] eqn:Q; simpl.
      * split; [discriminate|]. intros (-> & x & e' & [->|K] & F); [congruence|].
        assert (Ok q = Err e0 :> res (list B)) as X; [|discriminate].
        apply IH. split; [reflexivity|]. exists x, e'. split; assumption.
      * split.
        -- intro E. injection E as ->. destruct (proj1 IH eq_refl) as (-> & x & e' & K & F).
           split; [reflexivity|]. exists x, e'. split; [right; exact K|exact F].
        -- intros (-> & x & e' & [->|K] & F); [congruence|].
           apply IH. split; [reflexivity|]. exists x, e'. split; assumption.
    + split.
      * intro E. injection E as <-. split; [exact (H _ _ U)|]. exists u, e'. split; [left; reflexivity|exact U].
      * intros (-> & _). f_equal. exact (H _ _ U).
Qed.


Lemma down_iff {A} (g : list (list A)) c a b n p : n = Z.of_nat (length g) ->
  mapM (fun rowx => grid_at g rowx c) (slice_range n a b) = Ok p <-> down g c a b p.
Proof.
  intro L. destruct (over_range (fun rowx => grid_at g rowx c) (elem c) g a b n L) as (rows & S & ->).
  { intros k u U. apply grid_elem. exact U. }
  rewrite mapM_ok_Forall2. split.
  - intro F. exists rows. split; [exact S|]. revert F. clear. induction 1; constructor; auto. apply elem_iff. assumption.
  - intros (rows' & S' & F). rewrite (sliced_one _ _ _ _ _ S S').
    revert F. clear. induction 1; constructor; auto. apply elem_iff. assumption.
Qed.

Lemma gap_iff {A} (g : list (list A)) c a b n e : n = Z.of_nat (length g) ->
  mapM (fun rowx => grid_at g rowx c) (slice_range n a b) = Err e <-> e = IndexError /\ gap g c a b.
Proof.
  intro L. destruct (over_range (fun rowx => grid_at g rowx c) (elem c) g a b n L) as (rows & S & ->).
  { intros k u U. apply grid_elem. exact U. }
  rewrite (mapM_err_iff (elem c) IndexError rows e).
  - split; intros (-> & H); (split; [reflexivity|]).
    + destruct H as (row & e' & K & F). apply elem_err in F. exists rows, row. split; [exact S|]. split; [exact K|]. apply F.
    + destruct H as (rows' & row & S' & K & F). exists row, IndexError. rewrite (sliced_one _ _ _ _ _ S S').
      split; [exact K|]. apply elem_err. split; [reflexivity|exact F].
  - intros x e' H. apply elem_err in H. apply H.
Qed.

(** ** Rows *)

Lemma grid_row_iff {A} (g : list (list A)) r row : grid_row g r = Ok row <-> at_index g r row.
Proof. unfold grid_row. rewrite <- index_iff. destruct (py_index g r); split; congruence. Qed.
Lemma grid_row_err {A} (g : list (list A)) r e : grid_row g r = Err e <-> e = IndexError /\ forall row, ~ at_index g r row.
Proof. apply (elem_err (A := list A)). Qed.

Lemma matched_len sh : matched sh -> length (sh_types sh) = length (sh_values sh).
Proof. intros (_ & H). induction H; simpl; congruence. Qed.

Lemma matched_at sh k ts vs : matched sh -> nth_error (sh_types sh) k = Some ts -> nth_error (sh_values sh) k = Some vs ->
  length ts = length vs.
Proof.
  intros (_ & H). revert k. induction H as [|t v tl vl L H IH]; intros [|k] T V; simpl in *; try discriminate.
  - injection T as ->. injection V as ->. exact L.
  - exact (IH k T V).
Qed.

Lemma at_rows sh r ts vs : matched sh -> at_index (sh_types sh) r ts -> at_index (sh_values sh) r vs -> length ts = length vs.
Proof.
  intros M (k & K & T) (k' & K' & V). rewrite <- (matched_len sh M) in K'.
  assert (k' = k) as -> by (unfold means in *; lia). exact (matched_at sh k ts vs M T V).
Qed.

Lemma combine_nth {A B} (l : list A) (m : list B) k x y : nth_error (combine l m) k = Some (x, y) <->
  nth_error l k = Some x /\ nth_error m k = Some y.
Proof.
  revert m k. induction l as [|u l IH]; intros [|v m] [|k]; simpl; try (split; [discriminate|intros (? & ?); discriminate]).
  - split; [intro E; injection E as -> ->; auto|]. intros (E & F). congruence.
  - apply IH.
Qed.

Lemma cell_elem sh r ts vs k t v : at_index (sh_types sh) r ts -> at_index (sh_values sh) r vs ->
  nth_error (combine ts vs) k = Some (t, v) -> sheet_cell sh r (Z.of_nat k) = Ok (t, v).
Proof.
  intros T V H. apply combine_nth in H as (X & Y). apply index_iff in T, V.
  unfold sheet_cell, grid_at. rewrite T, V, !index_nat, X, Y. reflexivity.
Qed.

Lemma mapM_self {A} (l : list A) : mapM (fun x => Ok x) l = Ok l.
Proof. induction l; simpl; [reflexivity|]. rewrite IHl. reflexivity. Qed.

Lemma row_slice_iff sh r a b ts vs p : matched sh -> at_index (sh_types sh) r ts -> at_index (sh_values sh) r vs ->
  row_slice sh r a b = Ok p <-> sliced (combine ts vs) a b p.
Proof.
  intros M T V. pose proof (at_rows sh r ts vs M T V) as L.
  unfold row_slice, row_len. rewrite (proj2 (grid_row_iff _ _ _) V). cbn [bind].
  destruct (over_range (sheet_cell sh r) (fun x => Ok x) (combine ts vs) a b (Z.of_nat (length vs))) as (q & S & ->).
  - f_equal. symmetry. etransitivity; [exact (combine_length ts vs)|lia].
  - intros k (t & v) H. exact (cell_elem sh r ts vs k t v T V H).
  - rewrite mapM_self. split; [intro E; injection E as <-; exact S|]. intro S'. f_equal. exact (sliced_one _ _ _ _ _ S S').
Qed.

Lemma row_is sh r ts vs : matched sh -> at_index (sh_types sh) r ts -> at_index (sh_values sh) r vs ->
  sheet_row sh r = Ok (combine ts vs).
Proof.
  intros M T V. assert (sheet_row sh r = row_slice sh r 0 None) as ->.
  { unfold sheet_row, row_slice, slice_range. reflexivity. }
  apply (row_slice_iff sh r 0 None ts vs _ M T V).
  apply open_slice_iff. unfold open_slice, pyslice, py_bound. simpl.
  destruct (_ <? 0) eqn:E; [lia|].
  replace (Z.to_nat _) with (length (combine ts vs)) by lia.
  rewrite (Z.min_l 0) by lia. apply firstn_all.
Qed.

(** ** Columns of cells *)

Lemma cells_down sh c a b p : matched sh ->
  col_slice sh c a b = Ok p <->
  exists pt pv, down (sh_types sh) c a b pt /\ down (sh_values sh) c a b pv /\ p = combine pt pv.
Proof.
  intro M. destruct (proj1 M) as []. pose proof (matched_len sh M) as L. destruct M as (N0 & _).
  assert (forall p, down (sh_types sh) c a b p <-> column_types sh c a b = Ok p) as HT.
  { intro q. symmetry. apply down_iff. lia. }
  assert (forall p, down (sh_values sh) c a b p <-> column_values sh c a b = Ok p) as HV.
  { intro q. symmetry. apply down_iff. lia. }
  unfold col_slice, column_types, column_values in *.
  assert (forall l p, mapM (fun rowx => sheet_cell sh rowx c) l = Ok p <->
     exists pt pv, mapM (fun rowx => grid_at (sh_types sh) rowx c) l = Ok pt /\
       mapM (fun rowx => grid_at (sh_values sh) rowx c) l = Ok pv /\ p = combine pt pv) as H.
  { clear. induction l as [|u l IH]; intro p; simpl.
    - split; [intro E; injection E as <-; exists [], []; auto|]. intros (pt & pv & T & V & ->). injection T as <-. reflexivity.
    - unfold sheet_cell at 1.
      destruct (grid_at (sh_types sh) u c) as [t|e]; simpl; [|split; [discriminate|intros (? & ? & ? & _); discriminate]].
      destruct (grid_at (sh_values sh) u c) as [v|e]; simpl; [|split; [discriminate|intros (? & ? & _ & ? & _); discriminate]].
      split.
      + intro E. apply bind_ok in E as (q & Q & E). injection E as <-. apply IH in Q as (pt & pv & T & V & ->).
        rewrite T, V. simpl. exists (t :: pt), (v :: pv). auto.
      + intros (pt & pv & T & V & ->). apply bind_ok in T as (pt' & T & E). injection E as <-.
        apply bind_ok in V as (pv' & V & E). injection E as <-.
        rewrite (proj2 (IH (combine pt' pv'))); [reflexivity|]. exists pt', pv'. auto. }
  rewrite H. split; intros (pt & pv & T & V & E); exists pt, pv; (split; [apply HT; exact T|]); (split; [apply HV; exact V|exact E]).
Qed.

Lemma sheet_cell_err sh r c e : sheet_cell sh r c = Err e -> e = IndexError.
Proof.
  unfold sheet_cell, grid_at. destruct (py_index (sh_types sh) r) as [ts|]; simpl; [|congruence].
  destruct (py_index ts c); simpl; [|congruence].
  destruct (py_index (sh_values sh) r) as [vs|]; simpl; [|congruence].
  destruct (py_index vs c); simpl; congruence.
Qed.

(** ** Cells *)

Lemma grid_iff {A} (g : list (list A)) r c x : grid_at g r c = Ok x <-> exists row, at_index g r row /\ at_index row c x.
Proof.
  unfold grid_at. destruct (py_index g r) as [row|] eqn:R.
  - apply index_iff in R as R'. split.
    + intro H. exists row. split; [exact R'|]. apply index_iff. destruct (py_index row c); congruence.
    + intros (row' & R1 & X). apply index_iff in R1, X. assert (row' = row) as -> by congruence. rewrite X. reflexivity.
  - split; [discriminate|]. intros (row & R1 & _). apply index_iff in R1. congruence.
Qed.

Lemma grid_err {A} (g : list (list A)) r c e : grid_at g r c = Err e -> e = IndexError.
Proof. unfold grid_at. destruct (py_index g r) as [row|]; [destruct (py_index row c)|]; congruence. Qed.

Lemma sheet_cell_iff sh r c t v : sheet_cell sh r c = Ok (t, v) <->
  grid_at (sh_types sh) r c = Ok t /\ grid_at (sh_values sh) r c = Ok v.
Proof.
  unfold sheet_cell. destruct (grid_at (sh_types sh) r c); simpl; [|split; [discriminate|intros (? & _); discriminate]].
  destruct (grid_at (sh_values sh) r c); simpl; [|split; [discriminate|intros (_ & ?); discriminate]].
  split; [intro E; injection E as -> ->; auto|]. intros (E & F). congruence.
Qed.

(** ** Sheets of a book *)

Lemma name_iff names s i : name_index s names = Some i <-> first_name names s i.
Proof.
  revert i. induction names as [|m names IH]; intro i; simpl.
  - split; [discriminate|]. intros (H & _). destruct i; discriminate.
  - destruct (str_eqb m s) eqn:E.
    + apply str_eqb_eq in E. subst m. split.
      * intro H. injection H as <-. split; [reflexivity|]. intros j J. lia.
      * intros (_ & H). destruct i as [|i]; [reflexivity|]. destruct (H 0%nat ltac:(lia)). reflexivity.
    + assert (m <> s) as NE. { intros ->. rewrite (proj2 (str_eqb_eq s s) eq_refl) in E. discriminate. }
      destruct (name_index s names) as [j|] eqn:F; simpl.
      * split.
        -- intro H. injection H as <-. destruct (proj1 (IH j) eq_refl) as (H1 & H2). split; [exact H1|].
           intros [|j'] J; simpl; [congruence|]. apply H2. lia.
        -- intros (H1 & H2). destruct i as [|i]; simpl in H1; [congruence|].
           f_equal. f_equal. assert (first_name names s i) as K.
           { split; [exact H1|]. intros j' J. exact (H2 (S j') ltac:(lia)). }
           apply IH in K. congruence.
      * split; [discriminate|]. intros (H1 & H2). destruct i as [|i]; simpl in H1; [congruence|].
        assert (first_name names s i) as K.
        { split; [exact H1|]. intros j' J. exact (H2 (S j') ltac:(lia)). }
        apply IH in K. discriminate.
Qed.

Lemma name_none names s : name_index s names = None <-> ~ In s names.
Proof.
  induction names as [|m names IH]; simpl.
  - split; [intros _ []|reflexivity].
  - destruct (str_eqb m s) eqn:E.
    + apply str_eqb_eq in E. subst m. split; [discriminate|]. intro H. destruct H. left. reflexivity.
    + assert (m <> s) as NE. { intros ->. rewrite (proj2 (str_eqb_eq s s) eq_refl) in E. discriminate. }
      destruct (name_index s names) as [j|]; simpl.
      * split; [discriminate|]. intro H. assert (Some j = None) as X; [|discriminate]. apply IH. intro K. apply H. right. exact K.
      * split; [|reflexivity]. intros _ [K|K]; [exact (NE K)|]. exact (proj1 IH eq_refl K).
Qed.

Lemma iter_all wb : book_iter wb = Ok (bk_sheets wb).
Proof.
  unfold book_iter.
  destruct (over_range (sheet_by_index wb) (fun x => Ok x) (bk_sheets wb) 0 None (Z.of_nat (length (bk_sheets wb))) eq_refl)
    as (p & S & H).
  { intros k u U. unfold sheet_by_index. rewrite index_nat, U. reflexivity. }
  change (slice_range (Z.of_nat (length (bk_sheets wb))) 0 None) with (zrange 0 (Z.of_nat (length (bk_sheets wb)))) in H.
  rewrite H, mapM_self. f_equal. apply open_slice_iff in S. rewrite <- S.
  unfold open_slice, pyslice, py_bound. simpl. destruct (_ <? 0) eqn:E; [lia|].
  rewrite (Z.min_l 0) by lia. replace (Z.to_nat _) with (length (bk_sheets wb)) by lia. apply firstn_all.
Qed.

Lemma get_rows_is sh : matched sh -> get_rows sh = Ok (map (fun tv => combine (fst tv) (snd tv)) (combine (sh_types sh) (sh_values sh))).
Proof.
  intro M. unfold get_rows.
  pose proof (matched_len sh M) as L.
  set (l := combine (sh_types sh) (sh_values sh)).
  assert (length l = length (sh_values sh)) as Ll. { unfold l. rewrite combine_length. lia. }
  destruct (over_range (sheet_row sh) (fun tv => Ok (combine (fst tv) (snd tv))) l 0 None (sh_nrows sh))
    as (p & S & H).
  { rewrite (proj1 M). lia. }
  { intros k (ts & vs) U. apply combine_nth in U as (T & V). cbn [fst snd].
    apply row_is; [exact M| |].
    - apply index_iff. rewrite index_nat. exact T.
    - apply index_iff. rewrite index_nat. exact V. }
  change (slice_range (sh_nrows sh) 0 None) with (zrange 0 (sh_nrows sh)) in H.
  rewrite H. assert (p = l) as ->.
  { apply open_slice_iff in S. rewrite <- S.
    unfold open_slice, pyslice, py_bound. simpl. destruct (_ <? 0) eqn:E; [lia|].
    rewrite (Z.min_l 0) by lia. replace (Z.to_nat _) with (length l) by lia. apply firstn_all. }
  apply (mapM_all_ok (fun tv : list Z * list val => Ok (combine (fst tv) (snd tv))) (fun tv => combine (fst tv) (snd tv))).
  auto.
Qed.
