(** * Cells and areas of names: proofs of the property theorems *)

From Coq Require Import ZifyBool ZifyNat ZifyN QArith.
From Verif Require Import PyBase PyText PyFloat NumPy CompDoc ReadXl SpecXl XlAccess XlNames SpecAccess PyBaseFacts AccessProofs NameArea SpecArea.
Open Scope nat_scope.
Open Scope Z_scope.
(** A book of two sheets: the first is empty, the second has two rows of two cells. *)
Definition area_book : book := mkbook [lit "a"; lit "b"]
  [mksheet 0 0 [] []; mksheet 2 2 [[VInt 10; VInt 11]; [VInt 20; VInt 21]] [[2; 2]; [2; 4]]] 0.
(** b!$B$1 and b!$B$1:$C$65536. *)
Definition place_b1 : result := Some (oREF, Some [mkref 1 2 0 1 1 2]).
Definition area_b : result := Some (oREF, Some [mkref 1 2 0 65536 1 3]).
(** b!$B$1 and b!$B$2 together. *)
Definition two_places : result := Some (oREF, Some [mkref 1 2 0 1 1 2; mkref 1 2 1 2 1 2]).

Lemma only_iff res r : only_ref res = Ok (Some r) <-> refers res r.
Proof.
  unfold only_ref, refers. destruct res as [[k [[|x [|y l]]|]]|]; try (split; congruence);
    destruct k; simpl; split; congruence.
Qed.
Lemma only_err res e : only_ref res = Err e <-> e = TypeError /\ unknown res.
Proof.
  unfold only_ref, unknown. destruct res as [[k [[|x [|y l]]|]]|]; try (split; [congruence|intros (? & ?); congruence]);
    destruct k; simpl; split; try congruence; try (intros (? & ?); congruence); intro E; split; congruence.
Qed.
Lemma only_none res : only_ref res = Ok None <-> ~ unknown res /\ forall r, ~ refers res r.
Proof.
  split.
  - intro E. split; [intro U; pose proof (proj2 (only_err res TypeError) (conj eq_refl U)); congruence|].
    intros r R. apply only_iff in R. congruence.
  - intros (U & R). destruct (only_ref res) as [[r|]|e] eqn:E; [exfalso; apply (R r), only_iff; exact E|reflexivity|].
    exfalso. apply U. apply only_err in E. tauto.
Qed.
Lemma sheet_iff wb k sh : sheet_by_index wb (Z.of_nat k) = Ok sh <-> nth_error (bk_sheets wb) k = Some sh.
Proof. unfold sheet_by_index. rewrite index_nat. destruct (nth_error (bk_sheets wb) k); split; congruence. Qed.
Lemma sheet_err wb k e : sheet_by_index wb (Z.of_nat k) = Err e <-> e = IndexError /\ nth_error (bk_sheets wb) k = None.
Proof.
  unfold sheet_by_index. rewrite index_nat. destruct (nth_error (bk_sheets wb) k); split; try congruence.
  - intros (_ & ?); discriminate.
  - intro E; split; congruence.
  - intros (-> & _). reflexivity.
Qed.
Lemma cell_iff sh i j t v : sheet_cell sh i j = Ok (t, v) <-> has_cell sh i j t v.
Proof. rewrite sheet_cell_iff. unfold has_cell. rewrite !grid_iff. reflexivity. Qed.
Lemma place_iff r : (0 <=? shtxlo r) && (shtxlo r =? shtxhi r - 1) && (rowxlo r =? rowxhi r - 1) && (colxlo r =? colxhi r - 1) = true <->
  exists k i j, on_place r k i j.
Proof.
  unfold on_place. destruct r as [a b c d e f]. simpl. split.
  - intro H. exists (Z.to_nat a), c, e. f_equal; lia.
  - intros (k & i & j & E). injection E as -> -> -> -> -> ->. lia.
Qed.
Lemma on_iff r : (0 <=? shtxlo r) && (shtxlo r =? shtxhi r - 1) = true <-> exists k, on_sheet r k.
Proof.
  unfold on_sheet. split.
  - intro H. exists (Z.to_nat (shtxlo r)). lia.
  - intros (k & A & B). lia.
Qed.
Lemma place_is wb res r k i j : refers res r -> on_place r k i j ->
  name_cell wb res = bind (sheet_by_index wb (Z.of_nat k)) (fun sh => sheet_cell sh i j).
Proof.
  intros R P. unfold name_cell. rewrite (proj2 (only_iff res r) R). cbn [bind].
  rewrite (proj2 (place_iff r)) by eauto. rewrite P. reflexivity.
Qed.
Lemma place_no wb res : (~ exists r k i j, refers res r /\ on_place r k i j) -> ~ unknown res ->
  name_cell wb res = Err XLRDError.
Proof.
  intros N U. unfold name_cell. destruct (only_ref res) as [[r|]|e] eqn:E.
  - cbn [bind]. destruct (_ && _) eqn:C; [|reflexivity]. apply place_iff in C. destruct C as (k & i & j & P).
    exfalso. apply N. exists r, k, i, j. split; [apply only_iff; exact E|exact P].
  - reflexivity.
  - apply only_err in E. tauto.
Qed.
Lemma place_unknown wb res : unknown res -> name_cell wb res = Err TypeError.
Proof. intros ->. reflexivity. Qed.
Lemma cases res : unknown res \/ (exists r, refers res r) \/ ~ unknown res /\ forall r, ~ refers res r.
Proof.
  destruct (only_ref res) as [[r|]|e] eqn:E.
  - right. left. exists r. apply only_iff. exact E.
  - right. right. apply only_none. exact E.
  - left. apply only_err in E. tauto.
Qed.
Lemma place_cases res : unknown res \/ (exists r k i j, refers res r /\ on_place r k i j) \/
  ~ unknown res /\ ~ exists r k i j, refers res r /\ on_place r k i j.
Proof.
  destruct (cases res) as [U|[(r & R)|(U & N)]]; [auto| |].
  - right. destruct ((0 <=? shtxlo r) && (shtxlo r =? shtxhi r - 1) && (rowxlo r =? rowxhi r - 1) && (colxlo r =? colxhi r - 1)) eqn:C.
    + left. apply place_iff in C. destruct C as (k & i & j & P). exists r, k, i, j. auto.
    + right. split; [unfold unknown, refers in *; congruence|]. intros (r' & k & i & j & R' & P).
      unfold refers in *. rewrite R in R'. injection R' as <-. rewrite (proj2 (place_iff r)) in C by eauto. discriminate.
  - right. right. split; [exact U|]. intros (r & k & i & j & R & _). exact (N r R).
Qed.

Lemma C84_cell_proof :
forall wb res t v,
  name_cell wb res = Ok (t, v) <->
  exists r k i j sh, refers res r /\ on_place r k i j /\ nth_error (bk_sheets wb) k = Some sh /\ has_cell sh i j t v.
Proof.
intros wb res t v. split.
- intro E. destruct (place_cases res) as [U|[(r & k & i & j & R & P)|(U & N)]].
  + rewrite (place_unknown wb res U) in E. discriminate.
  + rewrite (place_is wb res r k i j R P) in E. destruct (sheet_by_index wb (Z.of_nat k)) as [sh|] eqn:S; [|discriminate].
    exists r, k, i, j, sh. split; [exact R|]. split; [exact P|]. split; [apply sheet_iff; exact S|]. apply cell_iff. exact E.
  + rewrite (place_no wb res N U) in E. discriminate.
- intros (r & k & i & j & sh & R & P & S & C). rewrite (place_is wb res r k i j R P).
  rewrite (proj2 (sheet_iff wb k sh) S). apply cell_iff. exact C.
Qed.

Lemma C84_cell_fails_proof :
forall wb res e,
  name_cell wb res = Err e <->
  (e = TypeError /\ unknown res) \/
  (e = XLRDError /\ ~ unknown res /\ ~ exists r k i j, refers res r /\ on_place r k i j) \/
  (e = IndexError /\ exists r k i j, refers res r /\ on_place r k i j /\
     ~ exists sh t v, nth_error (bk_sheets wb) k = Some sh /\ has_cell sh i j t v).
Proof.
intros wb res e. destruct (place_cases res) as [U|[(r & k & i & j & R & P)|(U & N)]].
- rewrite (place_unknown wb res U). split; [intro E; injection E as <-; auto|].
  intros [(-> & _)|[(_ & V & _)|(_ & r & k & i & j & R & _)]]; [reflexivity|contradiction|].
  unfold unknown, refers in *. congruence.
- rewrite (place_is wb res r k i j R P). split.
  + intro E. right. right.
    assert (F : e = IndexError).
    { destruct (sheet_by_index wb (Z.of_nat k)) as [sh|] eqn:S; cbn [bind] in E; [exact (sheet_cell_err _ _ _ _ E)|].
      injection E as <-. apply sheet_err in S. tauto. }
    split; [exact F|]. exists r, k, i, j. split; [exact R|]. split; [exact P|]. intros (sh & t & v & S & C).
    rewrite (proj2 (sheet_iff wb k sh) S) in E. cbn [bind] in E. apply cell_iff in C. congruence.
  + intros [(_ & V)|[(_ & _ & N)|(-> & r' & k' & i' & j' & R' & P' & N)]].
    * unfold unknown, refers in *. congruence.
    * exfalso. apply N. eauto 6.
    * unfold refers in *. rewrite R in R'. injection R' as <-. unfold on_place in *. rewrite P in P'. injection P' as K _ I _ J _.
      apply Nat2Z.inj in K. subst k' i' j'.
      destruct (sheet_by_index wb (Z.of_nat k)) as [sh|e'] eqn:S; cbn [bind]; [|f_equal; apply sheet_err in S; tauto].
      destruct (sheet_cell sh i j) as [(t, v)|e'] eqn:C; [|f_equal; exact (sheet_cell_err _ _ _ _ C)].
      exfalso. apply N. exists sh, t, v. split; [apply sheet_iff; exact S|apply cell_iff; exact C].
- rewrite (place_no wb res N U). split; [intro E; injection E as <-; auto|].
  intros [(_ & V)|[(-> & _)|(_ & r & k & i & j & R & P & _)]]; [contradiction|reflexivity|]. exfalso. apply N. eauto 6.
Qed.

Lemma C84_documented_refuted_proof :
do_ranges true [Opnd oUNK NoVal; Opnd oREF (RefsVal [absolute])] = Ok [Opnd oREF NoVal] /\
  forall wb res clipped, res = Some (oREF, None) ->
  name_cell wb res = Err TypeError /\ name_area2d wb res clipped = Err TypeError.
Proof.
split; [reflexivity|]. intros wb res clipped ->. split; reflexivity.
Qed.

(** What area2d does with a sheet, book.py l.270-279. *)
Definition clip (sh : sheet) (r : ref3d) (clipped : bool) : PyBase.res (sheet * (Z * Z * Z * Z)) :=
  if negb clipped then Ok (sh, (rowxlo r, rowxhi r, colxlo r, colxhi r))
  else
    let rowlo := Z.min (rowxlo r) (sh_nrows sh) in
    let rowhi := Z.max rowlo (Z.min (rowxhi r) (sh_nrows sh)) in
    let collo := Z.min (colxlo r) (sh_ncols sh) in
    let colhi := Z.max collo (Z.min (colxhi r) (sh_ncols sh)) in
    if negb ((0 <=? rowlo) && (rowlo <=? rowhi) && (rowhi <=? sh_nrows sh)) then Err AssertionError
    else if negb ((0 <=? collo) && (collo <=? colhi) && (colhi <=? sh_ncols sh)) then Err AssertionError
    else Ok (sh, (rowlo, rowhi, collo, colhi)).
Lemma area_is wb res r k clipped : refers res r -> on_sheet r k ->
  name_area2d wb res clipped = bind (sheet_by_index wb (Z.of_nat k)) (fun sh => clip sh r clipped).
Proof.
  intros R P. unfold name_area2d. rewrite (proj2 (only_iff res r) R). cbn [bind].
  rewrite (proj2 (on_iff r)) by eauto. rewrite (proj1 P). reflexivity.
Qed.
Lemma area_no wb res clipped : (~ exists r k, refers res r /\ on_sheet r k) -> ~ unknown res ->
  name_area2d wb res clipped = Err XLRDError.
Proof.
  intros N U. unfold name_area2d. destruct (only_ref res) as [[r|]|e] eqn:E.
  - cbn [bind]. destruct (_ && _) eqn:C; [|reflexivity]. apply on_iff in C. destruct C as (k & P).
    exfalso. apply N. exists r, k. split; [apply only_iff; exact E|exact P].
  - reflexivity.
  - apply only_err in E. tauto.
Qed.
Lemma area_unknown wb res clipped : unknown res -> name_area2d wb res clipped = Err TypeError.
Proof. intros ->. reflexivity. Qed.
Lemma area_cases res : unknown res \/ (exists r k, refers res r /\ on_sheet r k) \/
  ~ unknown res /\ ~ exists r k, refers res r /\ on_sheet r k.
Proof.
  destruct (cases res) as [U|[(r & R)|(U & N)]]; [auto| |].
  - right. destruct ((0 <=? shtxlo r) && (shtxlo r =? shtxhi r - 1)) eqn:C.
    + left. apply on_iff in C. destruct C as (k & P). exists r, k. auto.
    + right. split; [unfold unknown, refers in *; congruence|]. intros (r' & k & R' & P).
      unfold refers in *. rewrite R in R'. injection R' as <-. rewrite (proj2 (on_iff r)) in C by eauto. discriminate.
  - right. right. split; [exact U|]. intros (r & k & R & _). exact (N r R).
Qed.
Lemma area_ok wb res clipped out : name_area2d wb res clipped = Ok out <->
  exists r k sh, refers res r /\ on_sheet r k /\ nth_error (bk_sheets wb) k = Some sh /\ clip sh r clipped = Ok out.
Proof.
  split.
  - intro E. destruct (area_cases res) as [U|[(r & k & R & P)|(U & N)]].
    + rewrite (area_unknown wb res clipped U) in E. discriminate.
    + rewrite (area_is wb res r k clipped R P) in E. destruct (sheet_by_index wb (Z.of_nat k)) as [sh|] eqn:S; [|discriminate].
      exists r, k, sh. split; [exact R|]. split; [exact P|]. split; [apply sheet_iff; exact S|exact E].
    + rewrite (area_no wb res clipped N U) in E. discriminate.
  - intros (r & k & sh & R & P & S & C). rewrite (area_is wb res r k clipped R P).
    rewrite (proj2 (sheet_iff wb k sh) S). exact C.
Qed.

Lemma C84_area_proof :
forall wb res sh a b c d,
  name_area2d wb res false = Ok (sh, (a, b, c, d)) <->
  exists k, refers res (mkref (Z.of_nat k) (Z.of_nat k + 1) a b c d) /\ nth_error (bk_sheets wb) k = Some sh.
Proof.
intros wb res sh a b c d. rewrite area_ok. split.
- intros (r & k & sh' & R & (P & Q) & S & C). unfold clip in C. cbn [negb] in C. injection C as -> <- <- <- <-.
  exists k. rewrite <- P, <- Q at 1. split; [|exact S]. rewrite R. destruct r. reflexivity.
- intros (k & R & S). eexists _, k, sh. split; [exact R|]. split; [split; reflexivity|]. split; [exact S|reflexivity].
Qed.

Lemma C84_clipped_proof :
forall wb res sh a b c d,
  name_area2d wb res true = Ok (sh, (a, b, c, d)) ->
  exists r k, refers res r /\ on_sheet r k /\ nth_error (bk_sheets wb) k = Some sh /\
    usable (rowxlo r) (rowxhi r) (sh_nrows sh) a b /\ usable (colxlo r) (colxhi r) (sh_ncols sh) c d.
Proof.
intros wb res sh a b c d E. apply area_ok in E. destruct E as (r & k & sh' & R & P & S & C).
unfold clip in C. cbn [negb] in C. cbv zeta in C.
destruct (negb _) eqn:X in C; [discriminate|]. destruct (negb _) eqn:Y in C; [discriminate|].
injection C as -> <- <- <- <-. exists r, k. split; [exact R|]. split; [exact P|]. split; [exact S|].
unfold usable. split; repeat split; intros; lia.
Qed.

Lemma full {A} (g : list (list A)) n i j : Forall (fun row => Z.of_nat (length row) = n) g -> 0 <= i < Z.of_nat (length g) ->
  0 <= j < n -> exists row x, at_index g i row /\ at_index row j x.
Proof.
  intros F I J. destruct (nth_error g (Z.to_nat i)) as [row|] eqn:G.
  - assert (L : Z.of_nat (length row) = n) by (exact (proj1 (Forall_forall _ _) F row (nth_error_In _ _ G))).
    destruct (nth_error row (Z.to_nat j)) as [x|] eqn:X.
    + exists row, x. rewrite <- (index_iff g), <- (index_iff row).
      replace i with (Z.of_nat (Z.to_nat i)) by lia. replace j with (Z.of_nat (Z.to_nat j)) by lia. rewrite !index_nat. auto.
    + apply nth_error_None in X. lia.
  - apply nth_error_None in G. lia.
Qed.

Lemma C84_places_proof :
forall wb res sh a b c d i j,
  name_area2d wb res true = Ok (sh, (a, b, c, d)) -> rectangular sh -> a <= i < b -> c <= j < d ->
  exists t v, has_cell sh i j t v /\ sheet_cell sh i j = Ok (t, v).
Proof.
intros wb res sh a b c d i j E (N & T & V & Y) I J. apply C84_clipped_proof in E.
destruct E as (r & k & _ & _ & _ & U & W). destruct U as (A1 & A2 & _ & _), W as (B1 & B2 & _ & _).
destruct (full (sh_types sh) (sh_ncols sh) i j Y ltac:(lia) ltac:(lia)) as (ts & t & T1 & T2).
destruct (full (sh_values sh) (sh_ncols sh) i j V ltac:(lia) ltac:(lia)) as (vs & v & V1 & V2).
exists t, v. assert (C : has_cell sh i j t v) by (split; eauto). split; [exact C|]. apply cell_iff. exact C.
Qed.

Lemma clip_err sh r clipped e : 0 <= sh_nrows sh -> 0 <= sh_ncols sh ->
  clip sh r clipped = Err e <-> e = AssertionError /\ clipped = true /\ (rowxlo r < 0 \/ colxlo r < 0).
Proof.
  intros N M. unfold clip. destruct clipped; cbn [negb]; cbv zeta; [|split; [discriminate|intros (_ & ? & _); discriminate]].
  destruct (negb _) eqn:X; [split; [intro E; injection E as <-; repeat split; lia|intros (-> & _); reflexivity]|].
  destruct (negb (_ && _ && (_ <=? sh_ncols sh))) eqn:Y; [split; [intro E; injection E as <-; repeat split; lia|intros (-> & _); reflexivity]|].
  split; [discriminate|]. intros (_ & _ & ?). lia.
Qed.

Lemma C84_area_fails_proof :
forall wb res clipped e, sized wb ->
  (name_area2d wb res clipped = Err e <->
  (e = TypeError /\ unknown res) \/
  (e = XLRDError /\ ~ unknown res /\ ~ exists r k, refers res r /\ on_sheet r k) \/
  (exists r k, refers res r /\ on_sheet r k /\
     (e = IndexError /\ nth_error (bk_sheets wb) k = None \/
      e = AssertionError /\ nth_error (bk_sheets wb) k <> None /\ clipped = true /\ (rowxlo r < 0 \/ colxlo r < 0)))).
Proof.
intros wb res clipped e W. destruct (area_cases res) as [U|[(r & k & R & P)|(U & N)]].
- rewrite (area_unknown wb res clipped U). split; [intro E; injection E as <-; auto|].
  intros [(-> & _)|[(_ & V & _)|(r & k & R & _)]]; [reflexivity|contradiction|]. unfold unknown, refers in *. congruence.
- rewrite (area_is wb res r k clipped R P). split.
  + intro E. right. right. exists r, k. split; [exact R|]. split; [exact P|].
    destruct (sheet_by_index wb (Z.of_nat k)) as [sh|e'] eqn:S; cbn [bind] in E.
    * apply sheet_iff in S. right. pose proof (proj1 (Forall_forall _ _) W sh (nth_error_In _ _ S)) as (H1 & H2).
      apply clip_err in E; [|assumption|assumption]. destruct E as (-> & E). split; [reflexivity|]. split; [congruence|exact E].
    * left. injection E as <-. apply sheet_err. exact S.
  + intros [(_ & V)|[(_ & _ & N)|(r' & k' & R' & P' & H)]].
    * unfold unknown, refers in *. congruence.
    * exfalso. apply N. eauto.
    * unfold refers in *. rewrite R in R'. injection R' as <-.
      assert (k' = k) by (unfold on_sheet in *; lia). subst k'.
      destruct H as [(-> & H)|(-> & H & C & L)].
      { rewrite (proj2 (sheet_err wb k IndexError) (conj eq_refl H)). reflexivity. }
      destruct (nth_error (bk_sheets wb) k) as [sh|] eqn:S; [|congruence].
      rewrite (proj2 (sheet_iff wb k sh) S). cbn [bind].
      pose proof (proj1 (Forall_forall _ _) W sh (nth_error_In _ _ S)) as (H1 & H2). apply clip_err; auto.
- rewrite (area_no wb res clipped N U). split; [intro E; injection E as <-; auto|].
  intros [(_ & V)|[(-> & _)|(r & k & R & P & _)]]; [contradiction|reflexivity|]. exfalso. apply N. eauto.
Qed.

Lemma at_below {A} (l : list A) i x : at_index l i x -> i < Z.of_nat (length l).
Proof. intros (k & M & H). assert ((k < length l)%nat) by (apply nth_error_Some; congruence). unfold means in M. lia. Qed.
Lemma at_in {A} (l : list A) i x : at_index l i x -> In x l.
Proof. intros (k & _ & H). exact (nth_error_In _ _ H). Qed.

Lemma C84_agree_proof :
forall wb res t v, name_cell wb res = Ok (t, v) ->
  exists sh i j, name_area2d wb res false = Ok (sh, (i, i + 1, j, j + 1)) /\ has_cell sh i j t v /\
    (rectangular sh -> 0 <= i -> 0 <= j -> name_area2d wb res true = Ok (sh, (i, i + 1, j, j + 1))).
Proof.
intros wb res t v E. apply C84_cell_proof in E. destruct E as (r & k & i & j & sh & R & P & S & C).
exists sh, i, j. assert (O : on_sheet r k) by (rewrite P; split; reflexivity).
split; [|split; [exact C|]].
- apply area_ok. exists r, k, sh. repeat split; try assumption; try apply O. unfold clip. rewrite P. reflexivity.
- intros (N & T & V & _) I J. apply area_ok. exists r, k, sh. repeat split; try assumption; try apply O.
  destruct C as (_ & vs & C1 & C2). pose proof (at_below _ _ _ C1). pose proof (at_below _ _ _ C2).
  pose proof (proj1 (Forall_forall _ _) V vs (at_in _ _ _ C1)) as L. cbv beta in L.
  unfold clip. rewrite P. cbn [negb rowxlo rowxhi colxlo colxhi]. cbv zeta.
  replace (Z.min i (sh_nrows sh)) with i by lia. replace (Z.max i (Z.min (i + 1) (sh_nrows sh))) with (i + 1) by lia.
  replace (Z.min j (sh_ncols sh)) with j by lia. replace (Z.max j (Z.min (j + 1) (sh_ncols sh))) with (j + 1) by lia.
  replace (negb _) with false by lia. replace (negb _) with false by lia. reflexivity.
Qed.

