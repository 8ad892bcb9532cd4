(** * Proofs about the count of records *)

From Coq Require Import ZArith Lia ZifyBool ZifyNat ZifyN Sorting.Sorted.
From Verif Require Import PyBase PyText PyFloat NumPy Dbf CompDoc Biff XlCount SpecRepr SpecCount PyBaseFacts ReprProofs.
Open Scope Z_scope.

(** ** Names *)

Lemma get_name_in rc l name : get_name rc l = Some name -> In (rc, name) l.
Proof.
  induction l as [|(c, n) l IH]; simpl; [discriminate|]. destruct (c =? rc) eqn:E.
  - intro H. injection H as ->. left. f_equal. lia.
  - intro H. right. exact (IH H).
Qed.
Lemma get_name_none rc l : get_name rc l = None -> forall n, ~ In (rc, n) l.
Proof.
  induction l as [|(c, n) l IH]; simpl; intros H m [K|K] || intros H m []; try (destruct K; fail).
  - injection K as -> ->. rewrite Z.eqb_refl in H. discriminate.
  - destruct (c =? rc) eqn:E; [discriminate|]. exact (IH H m K).
Qed.

Lemma hex_is z : 0 <= z < 16 -> hexadecimal (hex_digit z) z.
Proof. intro H. unfold hexadecimal, hex_digit. destruct (z <? 10) eqn:E; lia. Qed.

Lemma same_names : biff_rec_name_dict = code_names.
Proof. reflexivity. Qed.

Lemma recname_named rc len : 0 <= rc < 65536 -> named (rc, len) (recname rc len).
Proof.
  intro B. unfold recname, named. cbn [fst]. destruct (rc =? 0) eqn:E, (len =? 0) eqn:F; cbn [andb].
  1: { left. split; [f_equal; lia|reflexivity]. }
  all: right; (split; [intro H; injection H as -> ->; lia|]).
  all: destruct (get_name rc biff_rec_name_dict) as [n|] eqn:G;
    [left; rewrite <- same_names; exact (get_name_in _ _ _ G)|right; split; [rewrite <- same_names; exact (get_name_none _ _ G)|]].
  all: exists (hex_digit (rc / 4096)), (hex_digit (rc / 256 mod 16)), (hex_digit (rc / 16 mod 16)), (hex_digit (rc mod 16)),
    (rc / 4096), (rc / 256 mod 16), (rc / 16 mod 16), (rc mod 16).
  all: split; [apply hex_is; lia|]; split; [apply hex_is; lia|]; split; [apply hex_is; lia|]; split; [apply hex_is; lia|]; split; [lia|reflexivity].
Qed.

(** ** The tally *)

Definition tally_of (names : list str) (t : list (str * Z)) : list (str * Z) := fold_left (fun t n => bump n t) names t.

Lemma bump_keys name t : forall n, In n (map fst (bump name t)) <-> n = name \/ In n (map fst t).
Proof.
  induction t as [|(m, k) t IH]; intro n; simpl.
  - split; [intros [<-|[]]; left; reflexivity|intros [->|[]]; left; reflexivity].
  - destruct (str_eqb m name) eqn:E; simpl.
    + apply str_eqb_eq in E. subst m. split; [intros [<-|H]; [right; left; reflexivity|right; right; exact H]|].
      intros [->|[<-|H]]; [left; reflexivity|left; reflexivity|right; exact H].
    + rewrite IH. split.
      * intros [<-|[->|H]]; [right; left; reflexivity|left; reflexivity|right; right; exact H].
      * intros [->|[<-|H]]; [right; left; reflexivity|left; reflexivity|right; right; exact H].
Qed.

Lemma bump_nodup name t : NoDup (map fst t) -> NoDup (map fst (bump name t)).
Proof.
  induction t as [|(m, k) t IH]; simpl; intro H.
  - constructor; [intros []|constructor].
  - inversion H as [|x l NI ND]; subst. destruct (str_eqb m name) eqn:E; simpl.
    + constructor; assumption.
    + constructor; [|apply IH; exact ND]. rewrite bump_keys. intros [->|K]; [|exact (NI K)].
      rewrite (proj2 (str_eqb_eq name name) eq_refl) in E. discriminate.
Qed.

(** Counts in a tally, 0 for those it does not have. *)
Fixpoint count_in (name : str) (t : list (str * Z)) : Z :=
  match t with [] => 0 | (n, k) :: t' => if str_eqb n name then k else count_in name t' end.

Lemma count_bump name n t : count_in n (bump name t) = count_in n t + (if str_eqb name n then 1 else 0).
Proof.
  induction t as [|(m, k) t IH]; simpl.
  - destruct (str_eqb name n); reflexivity.
  - destruct (str_eqb m name) eqn:E; simpl.
    + apply str_eqb_eq in E. subst m. destruct (str_eqb name n); lia.
    + destruct (str_eqb m n) eqn:F; [|exact IH]. apply str_eqb_eq in F. subst n.
      destruct (str_eqb name m) eqn:G; [|lia]. apply str_eqb_eq in G. subst m.
      rewrite (proj2 (str_eqb_eq name name) eq_refl) in E. discriminate.
Qed.

Lemma bump_pos name t : Forall (fun x => 0 < snd x) t -> Forall (fun x => 0 < snd x) (bump name t).
Proof.
  induction 1 as [|(m, k) t P F IH]; simpl.
  - constructor; [simpl; lia|constructor].
  - destruct (str_eqb m name); constructor; simpl in *; try lia; assumption.
Qed.

Lemma tally_facts names : forall t, NoDup (map fst t) -> Forall (fun x => 0 < snd x) t ->
  NoDup (map fst (tally_of names t)) /\ Forall (fun x => 0 < snd x) (tally_of names t) /\
  forall n, count_in n (tally_of names t) = count_in n t + Z.of_nat (count_occ (list_eq_dec N.eq_dec) names n).
Proof.
  induction names as [|m names IH]; intros t ND P; simpl.
  - split; [exact ND|]. split; [exact P|]. intro n. lia.
  - destruct (IH (bump m t) (bump_nodup m t ND) (bump_pos m t P)) as (A & B & C).
    split; [exact A|]. split; [exact B|]. intro n. rewrite C, count_bump.
    destruct (list_eq_dec N.eq_dec m n) as [->|NE].
    + rewrite (proj2 (str_eqb_eq n n) eq_refl). lia.
    + destruct (str_eqb m n) eqn:E; [apply str_eqb_eq in E; contradiction|lia].
Qed.

Lemma count_item n k t : NoDup (map fst t) -> Forall (fun x => 0 < snd x) t ->
  In (n, k) t <-> 0 < k /\ k = count_in n t.
Proof.
  induction t as [|(m, j) t IH]; simpl; intros ND P.
  - split; [intros []|lia].
  - inversion ND as [|x l NI ND']; subst. inversion P as [|x l P1 P2]; subst. simpl in P1.
    specialize (IH ND' P2). destruct (str_eqb m n) eqn:E.
    + apply str_eqb_eq in E. subst m. split.
      * intros [H|H]; [injection H as ->; lia|]. destruct NI. exact (in_map fst _ _ H).
      * intros (_ & ->). left. reflexivity.
    + split.
      * intros [H|H]; [|apply IH; exact H]. injection H as -> _. rewrite (proj2 (str_eqb_eq n n) eq_refl) in E. discriminate.
      * intro H. right. apply IH. exact H.
Qed.

(** ** Sorting *)

Lemma leb_before a b : text_leb a b = true -> a <> b -> before a b.
Proof.
  revert b. induction a as [|x a IH]; intros [|y b] H NE; simpl in H; try congruence; [constructor|].
  destruct (N.ltb x y) eqn:L; [apply before_less; lia|]. destruct (N.eqb x y) eqn:Q; [|discriminate].
  assert (x = y) as -> by lia. apply before_same. apply IH; [exact H|congruence].
Qed.
Lemma leb_not a b : text_leb a b = false -> before b a.
Proof.
  revert b. induction a as [|x a IH]; intros [|y b] H; simpl in H; try discriminate; [constructor|].
  destruct (N.ltb x y) eqn:L; [discriminate|]. destruct (N.eqb x y) eqn:Q; [|apply before_less; lia].
  assert (x = y) as -> by lia. apply before_same. exact (IH _ H).
Qed.
Lemma before_trans a b c : before a b -> before b c -> before a c.
Proof.
  intro H. revert c. induction H as [y b|x y a b L|x a b H IH]; intros c K; inversion K; subst.
  - constructor.
  - constructor.
  - apply before_less. lia.
  - apply before_less. exact L.
  - apply before_less. assumption.
  - apply before_same. apply IH. assumption.
Qed.

Lemma insert_in x l y : In y (insert_item x l) <-> y = x \/ In y l.
Proof.
  induction l as [|z l IH]; simpl.
  - split; [intros [<-|[]]; left; reflexivity|intros [->|[]]; left; reflexivity].
  - destruct (text_leb (fst x) (fst z)); simpl; [|rewrite IH]; split.
    + intros [<-|[<-|H]]; [left; reflexivity|right; left; reflexivity|right; right; exact H].
    + intros [->|[<-|H]]; [left; reflexivity|right; left; reflexivity|right; right; exact H].
    + intros [<-|[->|H]]; [right; left; reflexivity|left; reflexivity|right; right; exact H].
    + intros [->|[<-|H]]; [right; left; reflexivity|left; reflexivity|right; right; exact H].
Qed.

Lemma insert_keys x l : forall n, In n (map fst (insert_item x l)) -> n = fst x \/ In n (map fst l).
Proof.
  intros n H. apply in_map_iff in H as (y & <- & H). apply insert_in in H as [->|H]; [left; reflexivity|].
  right. apply in_map. exact H.
Qed.

Lemma insert_sorted x l : ~ In (fst x) (map fst l) -> StronglySorted before (map fst l) ->
  StronglySorted before (map fst (insert_item x l)).
Proof.
  induction l as [|z l IH]; simpl; intros NI S1.
  - constructor; [constructor|constructor].
  - inversion S1 as [|u v S2 F]; subst. destruct (text_leb (fst x) (fst z)) eqn:E; simpl.
    + assert (before (fst x) (fst z)) as B. { apply leb_before; [exact E|]. intro Q. apply NI. left. congruence. }
      constructor; [exact S1|]. constructor; [exact B|]. eapply Forall_impl; [|exact F]. intros u U. exact (before_trans _ _ _ B U).
    + constructor; [apply IH; [intro K; apply NI; right; exact K|exact S2]|].
      apply Forall_forall. intros n H. apply insert_keys in H as [->|H]; [exact (leb_not _ _ E)|].
      exact (proj1 (Forall_forall _ _) F n H).
Qed.

Lemma sort_facts l : NoDup (map fst l) -> StronglySorted before (map fst (sort_items l)) /\ (forall y, In y (sort_items l) <-> In y l).
Proof.
  induction l as [|x l IH]; simpl; intro ND.
  - split; [constructor|]. intro y. split; intro H; exact H.
  - inversion ND as [|u v NI ND']; subst. destruct (IH ND') as (S1 & M). split.
    + apply insert_sorted; [|exact S1]. intro H. apply in_map_iff in H as (y & Q & H). apply M in H.
      apply NI. rewrite <- Q. apply in_map. exact H.
    + intro y. change (In y (insert_item x (sort_items l)) <-> x = y \/ In y l). rewrite insert_in, M.
      split; (intros [H|H]; [left; congruence|right; exact H]).
Qed.

Lemma lines_printed out : printed out (flat_map count_line out).
Proof.
  induction out as [|(n, k) out IH]; [constructor|]. cbn [flat_map]. unfold count_line at 1. cbn [fst snd].
  set (d := str_of_Z k).
  replace ((repeat 32%N (8 - length d) ++ d ++ lit " " ++ n ++ [10%N]) ++ flat_map count_line out)
    with (repeat 32%N (8 - length d) ++ d ++ 32%N :: n ++ 10%N :: flat_map count_line out).
  - apply printed_cons; [apply str_of_Z_decimal|exact IH].
  - rewrite <- !app_assoc. reflexivity.
Qed.

Lemma summary_is names : summary names (sort_items (tally_of names [])).
Proof.
  destruct (tally_facts names [] ltac:(constructor) ltac:(constructor)) as (ND & P & C).
  destruct (sort_facts _ ND) as (S1 & M). split; [exact S1|].
  intros name k. rewrite M, (count_item name k _ ND P), C. simpl. reflexivity.
Qed.

(** ** The loop *)

Lemma slice4 (pre s rest : str) : (4 <= length s)%nat ->
  pyslice (pre ++ s ++ rest) (Z.of_nat (length pre)) (Z.of_nat (length pre) + 4) = firstn 4 s.
Proof.
  intro L. unfold pyslice, py_bound. rewrite !app_length.
  destruct (Z.of_nat (length pre) <? 0) eqn:E; [lia|]. destruct (Z.of_nat (length pre) + 4 <? 0) eqn:F; [lia|].
  rewrite !Z.min_l by lia. rewrite Nat2Z.id, skipn_app, skipn_all, Nat.sub_diag. simpl skipn.
  replace (Z.to_nat _) with 4%nat by lia. cbn [app]. rewrite firstn_app.
  replace (4 - length s)%nat with 0%nat by lia. rewrite firstn_O, app_nil_r. reflexivity.
Qed.

Lemma slice_end (pre s : str) : pyslice (pre ++ s) (Z.of_nat (length pre)) (Z.of_nat (length (pre ++ s))) = s.
Proof.
  unfold pyslice, py_bound. rewrite !app_length.
  destruct (Z.of_nat (length pre) <? 0) eqn:E; [lia|]. destruct (Z.of_nat (length pre + length s) <? 0) eqn:F; [lia|].
  rewrite !Z.min_l by lia. rewrite Nat2Z.id, skipn_app, skipn_all, Nat.sub_diag. simpl skipn.
  replace (Z.to_nat _) with (length s) by lia. apply firstn_all.
Qed.

Lemma zeros_iff (s rest : str) : s ++ rest = repeat 0%N (length s) <-> Forall (fun x => x = 0%N) s /\ rest = [].
Proof.
  split.
  - intro H. assert (rest = []) as ->.
    { apply (f_equal (@length N)) in H. rewrite app_length, repeat_length in H. destruct rest; [reflexivity|simpl in H; lia]. }
    split; [|reflexivity]. rewrite app_nil_r in H. rewrite H. apply Forall_forall. intros x X. exact (repeat_spec _ _ _ X).
  - intros (F & ->). rewrite app_nil_r. induction F as [|x l -> F IH]; simpl; [reflexivity|]. f_equal. exact IH.
Qed.

Lemma count_loop_is rest : forall fuel pre s t, (length s < fuel)%nat ->
  Forall (fun x => (x < 256)%N) s ->
  exists recs names, stream_holds rest s recs /\ Forall2 named recs names /\
    count_loop fuel (pre ++ s ++ rest) (Z.of_nat (length pre)) (Z.of_nat (length pre) + Z.of_nat (length s)) t = Ok (tally_of names t).
Proof.
  induction fuel as [|fuel IH]; intros pre s t L B; [lia|]. cbn [count_loop].
  destruct (_ <? 4) eqn:E4.
  - exists [], []. split; [apply sh_end; lia|]. split; [constructor|reflexivity].
  - rewrite slice4 by lia.
    destruct s as [|a [|b [|c [|d s]]]]; try (cbn [length] in E4; lia).
    cbn [firstn]. set (mem := pre ++ (a :: b :: c :: d :: s) ++ rest).
    assert (pyslice mem (Z.of_nat (length pre)) (Z.of_nat (length mem)) = (a :: b :: c :: d :: s) ++ rest) as -> by apply slice_end.
    replace (Z.to_nat (Z.of_nat (length pre) + Z.of_nat (length (a :: b :: c :: d :: s)) - Z.of_nat (length pre)))
      with (length (a :: b :: c :: d :: s)) by lia.
    cbv zeta.
    assert (le_value [a; b] = Z.of_N a + 256 * Z.of_N b) as -> by (cbn [le_value]; lia).
    assert (le_value [c; d] = Z.of_N c + 256 * Z.of_N d) as -> by (cbn [le_value]; lia).
    set (rc := Z.of_N a + 256 * Z.of_N b). set (len := Z.of_N c + 256 * Z.of_N d).
    pose proof (zeros_iff (a :: b :: c :: d :: s) rest) as ZI.
    pose proof (str_eqb_eq ((a :: b :: c :: d :: s) ++ rest) (repeat 0%N (length (a :: b :: c :: d :: s)))) as SE.
    destruct (str_eqb ((a :: b :: c :: d :: s) ++ rest) (repeat 0%N (length (a :: b :: c :: d :: s)))) eqn:Q.
    + (* zeros to the end *)
      destruct (proj1 ZI (proj1 SE eq_refl)) as (F & R).
      inversion F as [|x l -> F1]; subst. inversion F1 as [|x l -> F2]; subst.
      inversion F2 as [|x l -> F3]; subst. inversion F3 as [|x l -> F4]; subst.
      exists [], []. split; [apply sh_zeros; [simpl; lia|exact F|reflexivity]|]. split; [constructor|reflexivity].
    + assert (~ (Forall (fun x => x = 0%N) (a :: b :: c :: d :: s) /\ rest = [])) as NZ.
      { intro K. apply ZI in K. apply SE in K. discriminate. }
      rewrite andb_false_r.
      inversion B as [|x l Ba B1]; subst. inversion B1 as [|x l Bb B2]; subst.
      inversion B2 as [|x l Bc B3]; subst. inversion B3 as [|x l Bd B4]; subst.
      assert (named (rc, len) (recname rc len)) as NM by (apply recname_named; unfold rc; lia).
      destruct (Z_le_gt_dec len (Z.of_nat (length s))) as [LE|GT].
      * (* a whole record *)
        set (data := firstn (Z.to_nat len) s). set (s' := skipn (Z.to_nat len) s).
        assert (s = data ++ s') as Es by (symmetry; apply firstn_skipn).
        assert (0 <= len) as L0 by (unfold len; lia).
        assert (Z.of_nat (length data) = len) as Ld by (unfold data; rewrite firstn_length; lia).
        destruct (IH (pre ++ a :: b :: c :: d :: data) s' (bump (recname rc len) t)) as (recs & names & H & N1 & E).
        { unfold s'. rewrite skipn_length. cbn [length] in L. lia. }
        { unfold s'. clear - B4. revert s B4. induction (Z.to_nat len) as [|k IHk]; intros s B4; [exact B4|].
          destruct s; [constructor|]. inversion B4; subst. apply IHk. assumption. }
        exists ((rc, len) :: recs), (recname rc len :: names). split.
        { rewrite Es. apply sh_record; [exact Ld| |exact H]. rewrite <- Es. exact NZ. }
        split; [constructor; assumption|].
        unfold tally_of in *. cbn [fold_left]. rewrite <- E. clear E H.
        assert (mem = (pre ++ a :: b :: c :: d :: data) ++ s' ++ rest) as ->.
        { unfold mem. rewrite Es. rewrite <- !app_assoc. cbn [app]. rewrite <- !app_assoc. reflexivity. }
        rewrite app_length. cbn [length]. rewrite (app_length data s') || idtac.
        assert (length s = (length data + length s')%nat) as Ls by (rewrite Es at 1; apply app_length).
        f_equal; lia.
      * (* the last one, cut short *)
        exists [(rc, len)], [recname rc len]. split; [apply sh_cut; unfold len in GT; lia|]. split; [constructor; [exact NM|constructor]|].
        destruct fuel as [|fuel]; [cbn [length] in L; lia|]. cbn [count_loop].
        match goal with |- context [if ?x <? 4 then _ else _] => destruct (Z.ltb_spec x 4) as [X|X] end; [reflexivity|].
        cbn [length] in X. lia.
Qed.

Lemma holds_one rest s l l' : stream_holds rest s l -> stream_holds rest s l' -> l = l'.
Proof.
  intro H. revert l'. induction H as [s L|s L F R|a b c d data s l L NZ H IH|a b c d data L]; intros l' K.
  - inversion K; subst; [reflexivity|reflexivity| |]; cbn [length] in L; lia.
  - inversion K; subst; try reflexivity.
    + match goal with X : ~ _ |- _ => destruct X; split; [exact F|reflexivity] end.
    + inversion F as [|x y -> F1]; subst. inversion F1 as [|x y -> F2]; subst.
      inversion F2 as [|x y -> F3]; subst. inversion F3; subst. lia.
  - inversion K; subst.
    + match goal with X : (_ < 4)%nat |- _ => cbn [length] in X; lia end.
    + destruct NZ. split; [assumption|reflexivity].
    + match goal with X : _ ++ _ = _ ++ _ |- _ => rename X into E end.
      assert (length data0 = length data) as LL by lia.
      assert (data0 = data /\ s0 = s) as (-> & ->).
      { clear - E LL. revert data E LL. induction data0 as [|x u IHu]; intros [|y v] E LL; simpl in *; try lia; [auto|].
        injection E as -> E. destruct (IHu v E ltac:(lia)) as (-> & ->). auto. }
      f_equal. apply IH. assumption.
    + match goal with X : Z.of_nat (length (data ++ s)) < _ |- _ => rewrite app_length in X; lia end.
  - inversion K; subst.
    + match goal with X : (_ < 4)%nat |- _ => cbn [length] in X; lia end.
    + match goal with X : Forall _ _ |- _ => rename X into F end.
      inversion F as [|x y -> F1]; subst. inversion F1 as [|x y -> F2]; subst.
      inversion F2 as [|x y -> F3]; subst. inversion F3; subst. lia.
    + rewrite app_length in L. lia.
    + reflexivity.
Qed.

Lemma written_holds rest : forall recs bytes tail, Forall2 written recs bytes ->
  (forall l r, recs = l ++ [r] -> fst r <> 0 \/ snd r <> []) ->
  ((length tail < 4)%nat \/ Forall (fun x => x = 0%N) tail /\ rest = []) ->
  stream_holds rest (concat bytes ++ tail) (map (fun r => (fst r, Z.of_nat (length (snd r)))) recs).
Proof.
  intros recs bytes tail F. induction F as [|r s recs bytes W F IH]; intros LAST T.
  - simpl. destruct (le_lt_dec 4 (length tail)) as [G|G]; [|apply sh_end; exact G].
    destruct T as [T|(T & R)]; [lia|]. apply sh_zeros; assumption.
  - destruct W as (a & b & c & d & C & L & ->). destruct r as (rc, data). cbn [fst snd] in C, L. cbn [map concat fst snd]. rewrite C, L, <- app_assoc. cbn [app].
    apply sh_record; [exact L| |].
    + intros (Z0 & R).
      (* some record from here on is no dummy *)
      assert (forall recs bytes, Forall2 written recs bytes -> recs <> [] ->
        (forall l r, recs = l ++ [r] -> fst r <> 0 \/ snd r <> []) -> ~ Forall (fun x => x = 0%N) (concat bytes ++ tail)) as KEY.
      { clear. induction 1 as [|r s recs bytes W F IH]; intros NE LAST Z0; [congruence|].
        cbn [concat] in Z0. rewrite <- app_assoc in Z0. apply Forall_app in Z0 as (Zs & Zr).
        destruct recs as [|r' recs].
        - destruct W as (a & b & c & d & C & L & ->).
          inversion Zs as [|x y -> F1]; subst. inversion F1 as [|x y -> F2]; subst.
          inversion F2 as [|x y -> F3]; subst. inversion F3; subst.
          destruct (LAST [] r eq_refl) as [H|H]; [lia|]. destruct (snd r); [congruence|simpl in L; lia].
        - apply IH; [discriminate| |exact Zr]. intros l q E. apply (LAST (r :: l) q). rewrite E. reflexivity. }
      apply (KEY ((rc, data) :: recs) ((a :: b :: c :: d :: data) :: bytes)).
      * constructor; [exists a, b, c, d; auto|exact F].
      * discriminate.
      * exact LAST.
      * cbn [concat]. rewrite <- app_assoc. exact Z0.
    + apply IH; [|exact T]. intros l q E. apply (LAST ((rc, data) :: l) q). rewrite E. reflexivity.
Qed.

Lemma count_ends : forall fuel mem pos stop t, (Z.to_nat (stop - pos) < fuel)%nat ->
  (exists t', count_loop fuel mem pos stop t = Ok t') \/ count_loop fuel mem pos stop t = Err StructError.
Proof.
  induction fuel as [|fuel IH]; intros mem pos stop t L; [lia|]. cbn [count_loop].
  destruct (_ <? 4) eqn:E; [left; eexists; reflexivity|].
  destruct (pyslice mem pos (pos + 4)) as [|a [|b [|c [|d [|x l]]]]]; try (right; reflexivity).
  cbv zeta. destruct (_ && _); [left; eexists; reflexivity|].
  assert (0 <= le_value [c; d]) by (cbn [le_value]; lia). apply IH. lia.
Qed.

(** ** One name *)

Fixpoint rising (z : Z) (l : list (Z * str)) : bool :=
  match l with [] => true | (c, _) :: l' => (z <? c) && rising c l' end.
Lemma rising_above l : forall z c n, rising z l = true -> In (c, n) l -> z < c.
Proof.
  induction l as [|(c0, n0) l IH]; intros z c n R H; [destruct H|]. cbn [rising] in R.
  apply andb_prop in R as (A & B). destruct H as [H|H]; [injection H as -> _; lia|].
  specialize (IH _ _ _ B H). lia.
Qed.
Lemma rising_one l : forall z c n n', rising z l = true -> In (c, n) l -> In (c, n') l -> n = n'.
Proof.
  induction l as [|(c0, n0) l IH]; intros z c n n' R H K; [destruct H|]. cbn [rising] in R.
  apply andb_prop in R as (A & B). destruct H as [H|H], K as [K|K].
  - congruence.
  - injection H as -> _. pose proof (rising_above _ _ _ _ B K). lia.
  - injection K as -> _. pose proof (rising_above _ _ _ _ B H). lia.
  - exact (IH _ _ _ _ B H K).
Qed.
Lemma code_names_rising : rising (-1) code_names = true.
Proof. reflexivity. Qed.

Lemma hex_range c v : hexadecimal c v -> 0 <= v < 16.
Proof. unfold hexadecimal. lia. Qed.
Lemma hex_one c c' v : hexadecimal c v -> hexadecimal c' v -> c = c'.
Proof. unfold hexadecimal. lia. Qed.

Lemma named_one r n n' : named r n -> named r n' -> n = n'.
Proof.
  intros [(E & ->)|(NE & H)] [(E' & ->)|(NE' & H')]; try congruence.
  destruct H as [H|(H & c1 & c2 & c3 & c4 & v1 & v2 & v3 & v4 & A1 & A2 & A3 & A4 & S1 & ->)],
    H' as [H'|(H' & d1 & d2 & d3 & d4 & w1 & w2 & w3 & w4 & B1 & B2 & B3 & B4 & S2 & ->)].
  - exact (rising_one _ _ _ _ _ code_names_rising H H').
  - destruct (H' _ H).
  - destruct (H _ H').
  - pose proof (hex_range _ _ A1). pose proof (hex_range _ _ A2). pose proof (hex_range _ _ A3). pose proof (hex_range _ _ A4).
    pose proof (hex_range _ _ B1). pose proof (hex_range _ _ B2). pose proof (hex_range _ _ B3). pose proof (hex_range _ _ B4).
    assert (w1 = v1 /\ w2 = v2 /\ w3 = v3 /\ w4 = v4) as (-> & -> & -> & ->) by lia.
    rewrite (hex_one _ _ _ A1 B1), (hex_one _ _ _ A2 B2), (hex_one _ _ _ A3 B3), (hex_one _ _ _ A4 B4). reflexivity.
Qed.

Lemma before_irrefl a : ~ before a a.
Proof. induction a as [|x a IH]; intro H; inversion H; subst; [lia|exact (IH ltac:(assumption))]. Qed.

Lemma sorted_one (l l' : list (str * Z)) : StronglySorted before (map fst l) -> StronglySorted before (map fst l') ->
  (forall x, In x l <-> In x l') -> l = l'.
Proof.
  revert l'. induction l as [|x l IH]; intros l' A B H.
  - destruct l' as [|y l']; [reflexivity|]. destruct (proj2 (H y) (or_introl eq_refl)).
  - destruct l' as [|y l']; [destruct (proj1 (H x) (or_introl eq_refl))|].
    cbn [map] in A, B. inversion A as [|u v A1 A2]; subst. inversion B as [|u v B1 B2]; subst.
    assert (forall z (l : list (str * Z)), Forall (before (fst z)) (map fst l) -> ~ In z l) as NI.
    { intros z k F K. apply (before_irrefl (fst z)). exact (proj1 (Forall_forall _ _) F _ (in_map fst _ _ K)). }
    assert (x = y) as ->.
    { destruct (proj1 (H x) (or_introl eq_refl)) as [E|E]; [congruence|].
      destruct (proj2 (H y) (or_introl eq_refl)) as [E'|E']; [congruence|].
      exfalso. apply (before_irrefl (fst x)).
      apply before_trans with (fst y).
      - exact (proj1 (Forall_forall _ _) A2 _ (in_map fst _ _ E')).
      - exact (proj1 (Forall_forall _ _) B2 _ (in_map fst _ _ E)). }
    f_equal. apply IH; [exact A1|exact B1|]. intro z. split; intro K.
    + destruct (proj1 (H z) (or_intror K)) as [<-|E]; [destruct (NI _ _ A2 K)|exact E].
    + destruct (proj2 (H z) (or_intror K)) as [<-|E]; [destruct (NI _ _ B2 K)|exact E].
Qed.

Lemma summary_one names l l' : summary names l -> summary names l' -> l = l'.
Proof.
  intros (A & B) (A' & B'). apply sorted_one; [exact A|exact A'|]. intros (n, k). rewrite B, B'. reflexivity.
Qed.

(** ** The text *)

Lemma count_records_is mem off len : 0 <= off -> 0 <= len -> off + len <= Z.of_nat (length mem) ->
  Forall (fun x => (x < 256)%N) (firstn (Z.to_nat len) (skipn (Z.to_nat off) mem)) ->
  exists recs names out text,
    stream_holds (skipn (Z.to_nat (off + len)) mem) (firstn (Z.to_nat len) (skipn (Z.to_nat off) mem)) recs /\
    Forall2 named recs names /\ summary names out /\ printed out text /\ biff_count_records mem off len = Ok text.
Proof.
  intros O0 L0 LE BS. set (rest := skipn (Z.to_nat (off + len)) mem). set (s := firstn (Z.to_nat len) (skipn (Z.to_nat off) mem)).
  set (pre := firstn (Z.to_nat off) mem).
  assert (mem = pre ++ s ++ rest) as EM.
  { unfold pre, s, rest. rewrite <- (firstn_skipn (Z.to_nat off) mem) at 1. f_equal.
    rewrite <- (firstn_skipn (Z.to_nat len) (skipn (Z.to_nat off) mem)) at 1. f_equal.
    replace (Z.to_nat (off + len)) with (Z.to_nat off + Z.to_nat len)%nat by lia. clear.
    revert mem. induction (Z.to_nat off) as [|k IH]; intro mem; [reflexivity|]. destruct mem; [|exact (IH _)].
    simpl. destruct (Z.to_nat len); reflexivity. }
  assert (Z.of_nat (length pre) = off) as LP by (unfold pre; rewrite firstn_length; lia).
  assert (Z.of_nat (length s) = len) as LS by (unfold s; rewrite firstn_length, skipn_length; lia).
  destruct (count_loop_is rest (S (Z.to_nat len)) pre s [] ltac:(lia) BS) as (recs & names & H & N1 & E).
  exists recs, names, (sort_items (tally_of names [])), (flat_map count_line (sort_items (tally_of names []))).
  split; [exact H|]. split; [exact N1|]. split; [apply summary_is|]. split; [apply lines_printed|].
  unfold biff_count_records. rewrite <- EM, LP, LS in E. rewrite E. reflexivity.
Qed.

Lemma biff_count_ends mem off len :
  (exists t, biff_count_records mem off len = Ok t) \/ biff_count_records mem off len = Err StructError.
Proof.
  unfold biff_count_records.
  destruct (count_ends (S (Z.to_nat len)) mem off (off + len) [] ltac:(lia)) as [(t & ->)| ->];
    [left; eexists; reflexivity|right; reflexivity].
Qed.
