(** * Proofs about sheets read when they are asked for *)

From Coq Require Import ZArith Lia ZifyBool.
From Verif Require Import PyBase PyBaseFacts PyText PyFloat NumPy Dbf ReadXl CompDoc XlSheet Biff BiffProofs SpecAccess AccessProofs XlDemand SpecDemand.
Open Scope Z_scope.

(** ** Lists *)

Lemma put_length {A} (x : A) : forall l k, length (put k x l) = length l.
Proof. induction l as [|y l IH]; intros [|k]; cbn [put length]; congruence. Qed.
Lemma put_same {A} (x : A) : forall l k, (k < length l)%nat -> nth_error (put k x l) k = Some x.
Proof. induction l as [|y l IH]; intros [|k] H; cbn [put length nth_error] in *; try lia; [reflexivity|]. apply IH. lia. Qed.
Lemma put_other {A} (x : A) : forall l k j, j <> k -> nth_error (put k x l) j = nth_error l j.
Proof. induction l as [|y l IH]; intros [|k] [|j] H; cbn [put nth_error] in *; try reflexivity; try congruence. apply IH. congruence. Qed.
Lemma put_first {A} (x : A) : forall l k, (k < length l)%nat -> firstn (S k) (put k x l) = firstn k l ++ [x].
Proof.
  induction l as [|y l IH]; intros [|k] H; cbn [length] in H; try lia; [reflexivity|].
  change (firstn (S (S k)) (put (S k) x (y :: l))) with (y :: firstn (S k) (put k x l)). rewrite IH by lia. reflexivity.
Qed.
Lemma put_means {A} (x : A) l i k : means (Z.of_nat (length l)) i k -> py_put l i x = Some (put k x l) /\ (k < length l)%nat.
Proof.
  unfold means, py_put. cbv zeta. intros [[H ->]|[H ->]].
  - replace (i <? 0) with false by lia. replace ((0 <=? i) && (i <? Z.of_nat (length l))) with true by lia. split; [reflexivity|lia].
  - replace (i <? 0) with true by lia. replace ((0 <=? i + Z.of_nat (length l)) && (i + Z.of_nat (length l) <? Z.of_nat (length l))) with true by lia.
    split; [|lia]. f_equal. f_equal. lia.
Qed.
Lemma put_none {A} (x : A) l i : (forall k, ~ means (Z.of_nat (length l)) i k) -> py_put l i x = None.
Proof.
  intro H. unfold py_put. cbv zeta. destruct (i <? 0) eqn:E.
  - destruct ((0 <=? _) && _) eqn:F; [|reflexivity]. destruct (H (Z.to_nat (Z.of_nat (length l) + i))). right. lia.
  - destruct ((0 <=? _) && _) eqn:F; [|reflexivity]. destruct (H (Z.to_nat i)). left. lia.
Qed.
Lemma index_means {A} (l : list A) i k : means (Z.of_nat (length l)) i k -> py_index l i = nth_error l k /\ (k < length l)%nat.
Proof.
  unfold means, py_index. cbv zeta. intros [[H ->]|[H ->]].
  - replace (i <? 0) with false by lia. replace ((0 <=? i) && (i <? Z.of_nat (length l))) with true by lia. split; [reflexivity|lia].
  - replace (i <? 0) with true by lia. replace ((0 <=? i + Z.of_nat (length l)) && (i + Z.of_nat (length l) <? Z.of_nat (length l))) with true by lia.
    split; [|lia]. f_equal. lia.
Qed.
Lemma index_absent {A} (l : list A) i : (forall k, ~ means (Z.of_nat (length l)) i k) -> py_index l i = None.
Proof.
  intro H. apply index_no. intros x (k & M & _). exact (H k M).
Qed.
Lemma means_dec n i : 0 <= n -> (exists k, means n i k) \/ (forall k, ~ means n i k).
Proof.
  intro P. unfold means. destruct (Z_lt_dec i 0).
  - destruct (Z_le_dec (- n) i); [left; exists (Z.to_nat (n + i)); lia|right; intros k; lia].
  - destruct (Z_lt_dec i n); [left; exists (Z.to_nat i); lia|right; intros k; lia].
Qed.
Lemma means_nat n k : (k < n)%nat -> means (Z.of_nat n) (Z.of_nat k) k.
Proof. intro H. left. lia. Qed.
Lemma means_one n i k k' : means n i k -> means n i k' -> k = k'.
Proof. unfold means. lia. Qed.
Lemma stands_one names key k k' : stands names key k -> stands names key k' -> k = k'.
Proof.
  destruct key as [i|s]; [apply means_one|]. cbn [stands]. rewrite <- !name_iff. congruence.
Qed.
Lemma stands_dec names key : (exists k, stands names key k) \/ (forall k, ~ stands names key k).
Proof.
  destruct key as [i|s]; cbn [stands]; [apply means_dec; lia|].
  destruct (name_index s names) as [k|] eqn:E; [left; exists k; apply name_iff, E|]. right. intros k H. apply name_iff in H. congruence.
Qed.
Lemma stands_lt names key k : stands names key k -> (k < length names)%nat.
Proof.
  destruct key as [i|s]; cbn [stands]; [unfold means; lia|]. intros (H & _). apply nth_error_Some. congruence.
Qed.
Lemma zrange_seq n : zrange 0 (Z.of_nat n) = map Z.of_nat (seq 0 n).
Proof.
  change 0 with (Z.of_nat 0). replace (Z.of_nat n) with (Z.of_nat (0 + n)) by lia. generalize 0%nat as a. induction n as [|n IH]; intro a.
  - replace (a + 0)%nat with a by lia. apply zrange_nil.
  - rewrite zrange_cons by lia. cbn [seq map]. f_equal. replace (Z.of_nat a + 1) with (Z.of_nat (S a)) by lia.
    replace (a + S n)%nat with (S a + n)%nat by lia. apply IH.
Qed.

(** ** The countries *)

Definition zero2 (c : Z * Z) : Prop := c = (0, 0).
Ltac stays := repeat match goal with
  | |- Ok _ = Ok _ -> _ => let H := fresh in intro H; injection H; clear H; intros; subst; auto
  | |- Err _ = Ok _ -> _ => discriminate
  | |- bind ?x _ = Ok _ -> _ => let E := fresh "E" in destruct x eqn:E; cbn [bind]; [|discriminate]
  | |- (let (_, _) := ?p in _) = Ok _ -> _ => destruct p
  | |- (if ?c then _ else _) = Ok _ -> _ => destruct c
  | |- match ?x with Some _ => _ | None => _ end = Ok _ -> _ => destruct x
  end.
Lemma put1_countries su p st st' : put1 su p st = Ok st' -> r_countries st' = r_countries st.
Proof. unfold put1. destruct (put_cell _ _ _ _ _ _ _) as [g [u|e]]; [|discriminate]. intro H. injection H as <-. reflexivity. Qed.
Lemma mulrk_countries su data row : forall cols pos st st', mulrk_loop su data pos row cols st = Ok st' -> r_countries st' = r_countries st.
Proof.
  induction cols as [|c cols IH]; intros pos st st'; cbn [mulrk_loop]; [stays|].
  destruct (sized _ _); [|discriminate]. cbn [bind]. match goal with |- bind ?x _ = _ -> _ => destruct x; [|discriminate] end. cbn [bind].
  destruct (put1 _ _ _) eqn:E; [|discriminate]. cbn [bind]. intro H. apply IH in H. apply put1_countries in E. congruence.
Qed.
Lemma formula_countries su mem data pos st st' p : formula_record su mem data pos st = Ok (st', p) -> r_countries st' = r_countries st.
Proof. unfold formula_record. cbv zeta. stays; eapply put1_countries; eassumption. Qed.
Lemma record_countries su mem strings rc len data pos st st' p : sheet_record su mem strings rc len data pos st = Ok (st', p) ->
  zero2 (r_countries st) \/ r_countries st' = r_countries st.
Proof.
  unfold sheet_record. cbv zeta.
  do 6 (match goal with |- (if ?c then _ else _) = Ok _ -> _ => destruct c; [stays; right; solve [eapply put1_countries; eassumption|eapply mulrk_countries; eassumption]|] end).
  match goal with |- (if ?c then _ else _) = Ok _ -> _ => destruct c; [intro H; right; eapply formula_countries; eassumption|] end.
  match goal with |- (if ?c then _ else _) = Ok _ -> _ => destruct c; [stays; right; eapply put1_countries; eassumption|] end.
  do 8 (match goal with |- (if ?c then _ else _) = Ok _ -> _ => destruct c; [stays|] end).
  match goal with |- (if ?c then _ else _) = Ok _ -> _ => destruct c end; [|stays].
  unfold handle_country. destruct (sized _ _); [|discriminate]. cbn [bind]. destruct (r_countries st) as [x y] eqn:C. cbv zeta.
  destruct (_ || _) eqn:E; [|discriminate]. cbn [bind]. intro H. injection H as <- _. cbn [r_countries]. unfold zero2.
  apply Bool.orb_true_iff in E. destruct E as [E|E]; apply Bool.andb_true_iff in E; destruct E as [E1 E2]; apply Z.eqb_eq in E1, E2; subst; auto.
Qed.
Lemma read_countries su mem strings : forall fuel pos st st', read_loop fuel su mem strings pos st = Ok st' ->
  zero2 (r_countries st) \/ r_countries st' = r_countries st.
Proof.
  induction fuel as [|fuel IH]; intros pos st st'; cbn [read_loop]; [discriminate|].
  destruct (get_record mem pos) as [[[[rc len] data] p]|]; [|discriminate]. cbn [bind]. destruct (rc =? 10).
  { intro H. injection H as <-. right. reflexivity. }
  destruct (sheet_record _ _ _ _ _ _ _ _) as [[s q]|] eqn:E; [|discriminate]. cbn [bind]. intro H. apply IH in H. apply record_countries in E.
  destruct E as [E|E]; [left; exact E|]. rewrite E in H. exact H.
Qed.
Lemma sheet_countries b mem pos c sh c' : read_sheet b mem pos c = Ok (sh, c') -> zero2 c \/ c' = c.
Proof.
  unfold read_sheet. cbv zeta. destruct (read_loop _ _ _ _ _ _) as [st|] eqn:E; [|discriminate]. cbn [bind].
  destruct (tidy _ _ _) as [g [u|e]]; [|discriminate]. intro H. injection H as <- <-. apply read_countries in E. exact E.
Qed.

(** ** Reading all sheets *)

Inductive reads (b : globals) (mem : str) : Z * Z -> list (str * Z) -> list sheet -> Z * Z -> Prop :=
| reads_nil c : reads b mem c [] [] c
| reads_cons c name pos v p sh c1 l shs c2 : getbof mem pos 0x10 = Ok (v, p) -> read_sheet b mem p c = Ok (sh, c1) ->
    reads b mem c1 l shs c2 -> reads b mem c ((name, pos) :: l) (sh :: shs) c2.
Lemma reads_zero b mem c l shs c' : reads b mem c l shs c' -> zero2 c \/ c' = c.
Proof.
  induction 1 as [c|c name pos v p sh c1 l shs c2 B R _ IH]; [right; reflexivity|]. apply sheet_countries in R.
  destruct R as [R|R]; [left; exact R|]. rewrite <- R. exact IH.
Qed.
Lemma reads_constant b mem c l shs : reads b mem c l shs c -> forall k name pos, nth_error l k = Some (name, pos) ->
  exists v p sh, getbof mem pos 0x10 = Ok (v, p) /\ read_sheet b mem p c = Ok (sh, c) /\ nth_error shs k = Some sh.
Proof.
  intro H. remember c as c' in H at 2. revert Heqc'. induction H as [c|c name pos v p sh c1 l shs c2 B R H IH]; intros E k n q K; [destruct k; discriminate|].
  subst c2. assert (c1 = c) as ->.
  { destruct (sheet_countries _ _ _ _ _ _ R) as [Q|Q]; [|exact Q]. destruct (reads_zero _ _ _ _ _ _ H) as [W|W]; unfold zero2 in *; congruence. }
  destruct k as [|k]; cbn [nth_error] in *; [|exact (IH eq_refl k n q K)].
  injection K as <- <-. exists v, p, sh. auto.
Qed.

Lemma get_all_is b mem : forall l pre c bk, b_sheets b = pre ++ l -> ob_mem bk = mem -> ob_globals bk = b -> ob_countries bk = c ->
  ob_released bk = false -> length (ob_list bk) = length (b_sheets b) ->
  match Biff.get_sheets b mem l c with
  | Ok shs => exists bk' xs, get_all bk (map Z.of_nat (seq (length pre) (length l))) = (bk', Ok tt) /\
      ob_mem bk' = mem /\ ob_globals bk' = b /\ reads b mem c l shs (ob_countries bk') /\
      ob_list bk' = firstn (length pre) (ob_list bk) ++ map Some xs /\
      map l_sheet xs = shs /\ map l_name xs = map fst l /\ map l_number xs = map Z.of_nat (seq (length pre) (length l))
  | Err e => exists bk', get_all bk (map Z.of_nat (seq (length pre) (length l))) = (bk', Err e)
  end.
Proof.
  induction l as [|[name pos] l IH]; intros pre c bk S M G C R L; cbn [Biff.get_sheets length seq map get_all].
  - exists bk, []. rewrite app_nil_r in S. subst c. repeat (split; [try assumption; try reflexivity|]); try constructor.
    cbn [map]. rewrite app_nil_r, firstn_all2; [reflexivity|]. rewrite L, S. lia.
  - assert (means (Z.of_nat (length (b_sheets b))) (Z.of_nat (length pre)) (length pre)) as ME.
    { apply means_nat. rewrite S, app_length. cbn [length]. lia. }
    unfold get_sheet. rewrite R, M, G, C. cbv zeta. destruct (index_means _ _ _ ME) as [-> _].
    assert (nth_error (b_sheets b) (length pre) = Some (name, pos)) as ->.
    { rewrite S, nth_error_app2, Nat.sub_diag; [reflexivity|lia]. }
    destruct (getbof mem pos 16) as [[v p]|e] eqn:B; cbn [bind]; [|eexists; reflexivity].
    destruct (read_sheet b mem p c) as [[sh c1]|e] eqn:RS; cbn [bind]; [|eexists; reflexivity].
    rewrite <- L in ME. destruct (put_means (Some (mkloaded (ob_made bk) (Z.of_nat (length pre)) name sh)) (ob_list bk) _ _ ME) as [-> LT].
    match goal with |- context [get_all ?k _] => set (bk1 := k) end.
    specialize (IH (pre ++ [(name, pos)]) c1 bk1). rewrite app_length in IH. cbn [length] in IH. rewrite Nat.add_comm in IH. cbn [Nat.add] in IH.
    destruct (Biff.get_sheets b mem l c1) as [shs|e]; cbn [bind].
    + destruct IH as (bk' & xs & H1 & H2 & H3 & H4 & H5 & H6 & H7 & H8); try reflexivity; try exact R.
      { rewrite <- app_assoc. exact S. } { cbn. rewrite put_length. exact L. }
      exists bk', (mkloaded (ob_made bk) (Z.of_nat (length pre)) name sh :: xs). split; [exact H1|]. split; [exact H2|]. split; [exact H3|].
      split; [econstructor; eassumption|]. split; [|cbn [map l_sheet l_name l_number fst]; split; [congruence|split; congruence]].
      rewrite H5. cbn [ob_list bk1 map]. rewrite put_first by exact LT. rewrite <- app_assoc. reflexivity.
    + apply IH; try reflexivity; try exact R. { rewrite <- app_assoc. exact S. } { cbn. rewrite put_length. exact L. }
Qed.

(** ** What the calls change *)

(** The slots of the list after a call: as before, emptied, or filled with a new
    sheet. *)
Definition moves (n : nat) (dropped : nat -> Prop) (nums : Z -> Prop) (bk bk' : obook) : Prop :=
  ob_mem bk' = ob_mem bk /\ ob_globals bk' = ob_globals bk /\ length (ob_list bk') = length (ob_list bk) /\
  (ob_made bk <= ob_made bk')%nat /\
  forall k o, nth_error (ob_list bk) k = Some o -> exists o', nth_error (ob_list bk') k = Some o' /\
    (o' = o \/ o' = None /\ dropped k \/
     o = None /\ ob_released bk = false /\ exists x, o' = Some x /\ (ob_made bk <= l_id x < ob_made bk')%nat /\
       nums (l_number x) /\ means (Z.of_nat n) (l_number x) k).

Lemma moves_refl n D N bk : moves n D N bk bk.
Proof. repeat (split; [reflexivity|]). intros k o H. exists o. auto. Qed.
Lemma moves_trans n N b1 b2 b3 : ob_released b2 = ob_released b1 -> moves n (fun _ => False) N b1 b2 -> moves n (fun _ => False) N b2 b3 ->
  moves n (fun _ => False) N b1 b3.
Proof.
  intros R (A1 & A2 & A3 & A4 & A5) (B1 & B2 & B3 & B4 & B5). split; [congruence|]. split; [congruence|]. split; [congruence|]. split; [lia|].
  intros k o H. destruct (A5 k o H) as (o' & H' & C). destruct (B5 k o' H') as (o2 & H2 & D). exists o2. split; [exact H2|].
  destruct C as [->|[(_ & [])|(-> & R1 & x & -> & I & NX & MX)]].
  - destruct D as [->|[(_ & [])|(-> & R2 & x & -> & I & NX & MX)]]; [left; reflexivity|]. right. right. split; [reflexivity|]. split; [congruence|].
    exists x. repeat split; try assumption; lia.
  - destruct D as [->|[(_ & [])|(E & _)]]; [|discriminate]. right. right. split; [reflexivity|]. split; [exact R1|]. exists x. repeat split; try assumption; lia.
Qed.

Definition fits (n : nat) (bk : obook) : Prop := length (ob_list bk) = n /\ length (b_sheets (ob_globals bk)) = n.
Lemma moves_fits n D N bk bk' : moves n D N bk bk' -> fits n bk -> fits n bk'.
Proof. intros (_ & B & C & _) (F1 & F2). split; congruence. Qed.

Lemma get_moves n (N : Z -> Prop) bk i bk' r : fits n bk -> N i -> (forall x, py_index (ob_list bk) i <> Some (Some x)) ->
  get_sheet bk i = (bk', r) -> moves n (fun _ => False) N bk bk' /\ ob_released bk' = ob_released bk.
Proof.
  intros (F1 & F2) NI NL. unfold get_sheet. cbv zeta. destruct (ob_released bk) eqn:R.
  { intro H. injection H as <- <-. split; [apply moves_refl|exact R]. }
  destruct (means_dec (Z.of_nat n) i ltac:(lia)) as [(k & M)|M].
  2:{ rewrite index_absent; [|rewrite F2; exact M]. intro H. injection H as <- <-. split; [apply moves_refl|exact R]. }
  destruct (index_means (b_sheets (ob_globals bk)) i k) as [-> _]; [rewrite F2; exact M|].
  destruct (nth_error _ k) as [[name pos]|]. 2:{ intro H. injection H as <- <-. split; [apply moves_refl|exact R]. }
  destruct (getbof _ _ _) as [[v p]|e]. 2:{ intro H. injection H as <- <-. split; [apply moves_refl|exact R]. }
  destruct (read_sheet _ _ _ _) as [[sh c]|e].
  2:{ intro H. injection H as <- <-. split; [|reflexivity]. repeat (split; [reflexivity|]). split; [cbn; lia|]. intros j o H. exists o. auto. }
  rewrite <- F1 in M. destruct (put_means (Some (mkloaded (ob_made bk) i name sh)) _ _ _ M) as [-> LT].
  intro H. injection H as <- <-. split; [|reflexivity]. split; [reflexivity|]. split; [reflexivity|]. split; [cbn; apply put_length|]. split; [cbn; lia|].
  intros j o H. cbn [ob_list]. destruct (Nat.eq_dec j k) as [->|NE].
  - rewrite put_same by exact LT. eexists. split; [reflexivity|]. right. right.
    assert (o = None) as ->. { destruct o as [x|]; [|reflexivity]. destruct (NL x). destruct (index_means _ _ _ M) as [-> _]. exact H. }
    split; [reflexivity|]. split; [exact R|]. eexists. split; [reflexivity|]. cbn. rewrite F1 in M. repeat split; try assumption; lia.
  - rewrite put_other by exact NE. exists o. auto.
Qed.
Lemma by_index_moves n (N : Z -> Prop) bk i bk' r : fits n bk -> N i -> sheet_by_index bk i = (bk', r) ->
  moves n (fun _ => False) N bk bk' /\ ob_released bk' = ob_released bk.
Proof.
  intros F NI. unfold sheet_by_index. destruct (py_index (ob_list bk) i) as [[x|]|] eqn:E.
  - intro H. injection H as <- <-. split; [apply moves_refl|reflexivity].
  - apply get_moves; [exact F|exact NI|]. congruence.
  - intro H. injection H as <- <-. split; [apply moves_refl|reflexivity].
Qed.
Lemma missing_moves n (N : Z -> Prop) : forall l bk bk' r, fits n bk -> (forall i, In i l -> N i) -> load_missing bk l = (bk', r) ->
  moves n (fun _ => False) N bk bk' /\ ob_released bk' = ob_released bk.
Proof.
  induction l as [|i l IH]; intros bk bk' r F NI; cbn [load_missing].
  { intro H. injection H as <- <-. split; [apply moves_refl|reflexivity]. }
  destruct (py_index (ob_list bk) i) as [[x|]|] eqn:E.
  - apply IH; [exact F|]. intros j J. apply NI. right. exact J.
  - destruct (get_sheet bk i) as [b1 [x|e]] eqn:G; destruct (get_moves n N bk i b1 _ F (NI i (or_introl eq_refl)) ltac:(congruence) G) as (M & R).
    + intro H. destruct (IH b1 bk' r (moves_fits _ _ _ _ _ M F) (fun j J => NI j (or_intror J)) H) as (M2 & R2).
      split; [eapply moves_trans; eassumption|congruence].
    + intro H. injection H as <- <-. auto.
  - intro H. injection H as <- <-. split; [apply moves_refl|reflexivity].
Qed.
Lemma iter_moves n (N : Z -> Prop) : forall l bk bk' r, fits n bk -> (forall i, In i l -> N i) -> iter_loop bk l = (bk', r) ->
  moves n (fun _ => False) N bk bk' /\ ob_released bk' = ob_released bk.
Proof.
  induction l as [|i l IH]; intros bk bk' r F NI; cbn [iter_loop].
  { intro H. injection H as <- <-. split; [apply moves_refl|reflexivity]. }
  destruct (sheet_by_index bk i) as [b1 [x|e]] eqn:G; destruct (by_index_moves n N bk i b1 _ F (NI i (or_introl eq_refl)) G) as (M & R).
  - destruct (iter_loop b1 l) as [b2 q] eqn:H. destruct (IH b1 b2 q (moves_fits _ _ _ _ _ M F) (fun j J => NI j (or_intror J)) H) as (M2 & R2).
    assert (moves n (fun _ => False) N bk b2 /\ ob_released b2 = ob_released bk) as Z by (split; [eapply moves_trans; eassumption|congruence]).
    destruct q; intro K; injection K as <- <-; exact Z.
  - intro H. injection H as <- <-. auto.
Qed.

(** ** Keys *)

Definition names_of (g : globals) : list str := map fst (b_sheets g).
Lemma names_length g : length (names_of g) = length (b_sheets g).
Proof. apply map_length. Qed.
Lemma key_ok bk key k : stands (names_of (ob_globals bk)) key k ->
  exists i, key_index bk key = Ok i /\ means (Z.of_nat (length (b_sheets (ob_globals bk)))) i k /\ (key = inl i \/ 0 <= i).
Proof.
  intro H. pose proof (stands_lt _ _ _ H) as LT. rewrite names_length in LT. destruct key as [i|s]; cbn [stands key_index] in *.
  - exists i. rewrite names_length in H. auto.
  - apply name_iff in H. unfold names_of in H. rewrite H. eexists. split; [reflexivity|]. split; [apply means_nat; exact LT|right; lia].
Qed.
Lemma key_bad bk key : (forall k, ~ stands (names_of (ob_globals bk)) key k) ->
  key_index bk key = Err (absent key) \/
  exists i, key_index bk key = Ok i /\ (forall k, ~ means (Z.of_nat (length (b_sheets (ob_globals bk)))) i k) /\ absent key = IndexError.
Proof.
  intro H. destruct key as [i|s]; cbn [stands key_index absent] in *.
  - right. exists i. rewrite names_length in H. auto.
  - left. fold (names_of (ob_globals bk)). destruct (name_index s (names_of (ob_globals bk))) as [k|] eqn:E; [|reflexivity]. apply name_iff in E. destruct (H k E).
Qed.
Lemma by_index_bad bk i : (forall k, ~ means (Z.of_nat (length (ob_list bk))) i k) -> sheet_by_index bk i = (bk, Err IndexError).
Proof. intro H. unfold sheet_by_index. rewrite index_absent by exact H. reflexivity. Qed.
Lemma item_bad bk key : fits (length (b_sheets (ob_globals bk))) bk -> (forall k, ~ stands (names_of (ob_globals bk)) key k) -> item bk key = (bk, Err (absent key)).
Proof.
  intros (F & _) H. unfold item. destruct (key_bad bk key H) as [-> |(i & -> & B & ->)]; [reflexivity|]. apply by_index_bad. rewrite F. exact B.
Qed.

(** ** One call *)

(** The numbers that a call may give to new sheets. *)
Definition gives (c : call) (i : Z) : Prop := asks c (inl i) \/ 0 <= i.
Lemma moves_weaken n (D D' : nat -> Prop) N bk bk' : (forall k, D k -> D' k) -> moves n D N bk bk' -> moves n D' N bk bk'.
Proof.
  intros W (A & B & C & M & K). repeat (split; [assumption|]). intros k o H. destruct (K k o H) as (o' & E & [Q|[(Q & X)|Q]]); exists o'; (split; [exact E|]); [left; exact Q|right; left; split; [exact Q|apply W; exact X]|right; right; exact Q].
Qed.
Lemma pair_fst {A B C} (f : A -> C) (p : B * res A) (q : B) (r : res C) : (fst p, do x <- snd p; Ok (f x)) = (q, r) ->
  exists u, p = (q, u) /\ r = (do x <- u; Ok (f x)).
Proof. destruct p as [b u]. cbn [fst snd]. intro H. injection H as <- <-. exists u. auto. Qed.

Lemma item_moves n c key bk bk' r : fits n bk -> asks c key -> item bk key = (bk', r) ->
  moves n (fun _ => False) (gives c) bk bk' /\ ob_released bk' = ob_released bk.
Proof.
  intros F A. unfold item. destruct (stands_dec (names_of (ob_globals bk)) key) as [(k & S)|S].
  - destruct (key_ok bk key k S) as (i & -> & _ & G). apply by_index_moves; [exact F|]. destruct G as [-> |G]; [left; exact A|right; exact G].
  - destruct (key_bad bk key S) as [-> |(i & E & B & AB)].
    { intro H. injection H as <- <-. split; [apply moves_refl|reflexivity]. }
    rewrite E. rewrite by_index_bad. { intro H. injection H as <- <-. split; [apply moves_refl|reflexivity]. }
    destruct F as (F1 & F2). rewrite F1, <- F2. exact B.
Qed.
Lemma range_pos n i : In i (zrange 0 (Z.of_nat n)) -> 0 <= i.
Proof. rewrite zrange_seq, in_map_iff. intros (k & <- & _). lia. Qed.
Lemma step_moves bk c bk' r : fits (length (b_sheets (ob_globals bk))) bk -> respond bk c = (bk', r) ->
  moves (length (b_sheets (ob_globals bk))) (drops (names_of (ob_globals bk)) c) (gives c) bk bk' /\
  (ob_released bk' = true <-> c = CRelease \/ ob_released bk = true).
Proof.
  set (n := length (b_sheets (ob_globals bk))). intros F.
  assert (forall bk', c <> CRelease -> moves n (fun _ => False) (gives c) bk bk' /\ ob_released bk' = ob_released bk ->
    moves n (drops (names_of (ob_globals bk)) c) (gives c) bk bk' /\ (ob_released bk' = true <-> c = CRelease \/ ob_released bk = true)) as W.
  { intros b NE (M & R). split; [eapply moves_weaken; [|exact M]; intros _ []|]. rewrite R. split; [auto|]. intros [H|H]; [destruct (NE H)|exact H]. }
  assert (NC : forall b : obook, bk = b -> moves n (fun _ => False) (gives c) bk b /\ ob_released b = ob_released bk).
  { intros b <-. split; [apply moves_refl|reflexivity]. }
  destruct c as [key|i|s| | |key|key| | |]; cbn [respond]; unfold to_answer; intro H.
  - apply pair_fst in H. destruct H as (u & H & _). apply W; [discriminate|]. eapply item_moves; [exact F| |exact H]. constructor.
  - apply pair_fst in H. destruct H as (u & H & _). apply W; [discriminate|]. eapply by_index_moves; [exact F| |exact H]. left. constructor.
  - apply pair_fst in H. destruct H as (u & H & _). apply W; [discriminate|]. eapply item_moves; [exact F| |exact H]. constructor.
  - apply pair_fst in H. destruct H as (u & H & _). apply W; [discriminate|]. unfold sheets, nsheets in H.
    destruct (load_missing bk _) as [b q] eqn:E. assert (b = bk') as <- by (destruct q; congruence).
    eapply missing_moves; [exact F| |exact E]. intros i I. right. eapply range_pos. exact I.
  - apply pair_fst in H. destruct H as (u & H & _). apply W; [discriminate|]. unfold iter, nsheets in H.
    eapply iter_moves; [exact F| |exact H]. intros i I. right. eapply range_pos. exact I.
  - apply W; [discriminate|]. apply NC. congruence.
  - apply pair_fst in H. destruct H as (u & H & _). unfold unload_sheet in H.
    destruct (stands_dec (names_of (ob_globals bk)) key) as [(k & S)|S].
    + destruct (key_ok bk key k S) as (i & E & M & _). rewrite E in H. fold n in M. destruct F as (F1 & F2). rewrite <- F1 in M.
      destruct (put_means (@None loaded) _ _ _ M) as [Q LT]. rewrite Q in H. injection H as <- <-. split.
      * split; [reflexivity|]. split; [reflexivity|]. split; [cbn; apply put_length|]. split; [cbn; lia|]. intros j o J. cbn [ob_list].
        destruct (Nat.eq_dec j k) as [->|NE]; [rewrite put_same by exact LT; exists None; split; [reflexivity|]; right; left; split; [reflexivity|constructor; exact S]|].
        rewrite put_other by exact NE. exists o. auto.
      * cbn. split; [auto|]. intros [K|K]; [discriminate|exact K].
    + apply W; [discriminate|]. apply NC. destruct (key_bad bk key S) as [E|(i & E & B & _)]; rewrite E in H; [congruence|].
      rewrite put_none in H; [congruence|]. destruct F as (F1 & _). rewrite F1. exact B.
  - injection H as <- _. split; [|cbn; split; auto]. repeat (split; [reflexivity|]). intros k o K. exists o. auto.
  - apply W; [discriminate|]. apply NC. congruence.
  - apply W; [discriminate|]. apply NC. congruence.
Qed.

Lemma run_cons bk c cs : fst (run bk (c :: cs)) = fst (run (fst (respond bk c)) cs) /\
  snd (run bk (c :: cs)) = snd (respond bk c) :: snd (run (fst (respond bk c)) cs).
Proof. cbn [run]. destruct (respond bk c) as [b r]. cbn [fst snd]. destruct (run b cs). auto. Qed.
Lemma step_keeps g bk c : fits (length (b_sheets g)) bk -> ob_globals bk = g -> fits (length (b_sheets g)) (fst (respond bk c)) /\ ob_globals (fst (respond bk c)) = g.
Proof.
  intros F <-. destruct (respond bk c) as [b r] eqn:E. destruct (step_moves bk c b r F E) as (M & _). cbn [fst].
  split; [exact (moves_fits _ _ _ _ _ M F)|]. destruct M as (_ & G & _). exact G.
Qed.
Lemma run_keeps g : forall cs bk, fits (length (b_sheets g)) bk -> ob_globals bk = g ->
  fits (length (b_sheets g)) (fst (run bk cs)) /\ ob_globals (fst (run bk cs)) = g.
Proof.
  induction cs as [|c cs IH]; intros bk F G; [auto|]. rewrite (proj1 (run_cons bk c cs)).
  destruct (step_keeps g bk c F G) as (F1 & G1). exact (IH _ F1 G1).
Qed.

(** ** Calls explained *)

(** Whatever the countries are so far, as long as [P] holds of them, each sheet
    can be read and is right. *)
Definition steady (mem : str) (g : globals) (right : nat -> sheet -> Prop) (P : Z * Z -> Prop) : Prop :=
  forall k name pos c, nth_error (b_sheets g) k = Some (name, pos) -> P c ->
    exists v p sh c', getbof mem pos 0x10 = Ok (v, p) /\ read_sheet g mem p c = Ok (sh, c') /\ P c' /\ right k sh.
(** The sheets in [live] are loaded. *)
Definition holds (mem : str) (g : globals) (right : nat -> sheet -> Prop) (P : Z * Z -> Prop) (rel : bool) (live : nat -> Prop) (bk : obook) : Prop :=
  ob_mem bk = mem /\ ob_globals bk = g /\ length (ob_list bk) = length (b_sheets g) /\ ob_released bk = rel /\
  (rel = false -> P (ob_countries bk)) /\
  forall k o, nth_error (ob_list bk) k = Some o ->
    match o with Some x => live k /\ is_sheet (names_of g) right k x | None => ~ live k end.
Lemma holds_iff mem g right P rel (L L' : nat -> Prop) bk : (forall k, (k < length (b_sheets g))%nat -> (L k <-> L' k)) ->
  holds mem g right P rel L bk -> holds mem g right P rel L' bk.
Proof.
  intros I (A & B & C & D & E & F). repeat (split; [assumption|]). intros k o H. specialize (F k o H).
  assert (k < length (b_sheets g))%nat as LT by (rewrite <- C; apply nth_error_Some; congruence). specialize (I k LT).
  destruct o; [destruct F as (F1 & F2); split; [apply I; exact F1|exact F2]|]. intro K. apply F, I, K.
Qed.
Lemma slot {A} (l : list A) k : (k < length l)%nat -> exists o, nth_error l k = Some o.
Proof. intro H. destruct (nth_error l k) as [o|] eqn:E; [exists o; reflexivity|]. apply nth_error_None in E. lia. Qed.

Lemma get_holds mem g right P L bk i k : steady mem g right P -> holds mem g right P false L bk -> means (Z.of_nat (length (b_sheets g))) i k ->
  exists bk' x, get_sheet bk i = (bk', Ok x) /\ holds mem g right P false (fun j => L j \/ j = k) bk' /\ is_sheet (names_of g) right k x.
Proof.
  intros S (A & B & C & D & E & F) M. unfold get_sheet. rewrite D, B, A. cbv zeta.
  destruct (index_means (b_sheets g) i k M) as [-> LT]. destruct (slot _ _ LT) as ([name pos] & N). rewrite N.
  destruct (S k name pos _ N (E eq_refl)) as (v & p & sh & c & -> & -> & PC & RT).
  set (x := mkloaded (ob_made bk) i name sh). pose proof M as M'. rewrite <- C in M'. destruct (put_means (Some x) _ _ _ M') as [-> LT'].
  assert (is_sheet (names_of g) right k x) as IS.
  { split; [unfold names_of; rewrite nth_error_map, N; reflexivity|]. split; [exact RT|]. cbn [l_number x]. rewrite names_length. exact M. }
  eexists _, x. split; [reflexivity|]. split; [|exact IS]. split; [reflexivity|]. split; [reflexivity|]. split; [cbn; rewrite put_length; exact C|].
  split; [reflexivity|]. split; [intros _; exact PC|]. cbn [ob_list]. intros j o J. destruct (Nat.eq_dec j k) as [->|NE].
  - rewrite put_same in J by exact LT'. injection J as <-. auto.
  - rewrite put_other in J by exact NE. specialize (F j o J). destruct o; [destruct F; auto|]. intros [K|K]; [exact (F K)|exact (NE K)].
Qed.
Lemma by_index_holds mem g right P rel L bk i k : steady mem g right P -> holds mem g right P rel L bk -> means (Z.of_nat (length (b_sheets g))) i k ->
  (exists bk' x, sheet_by_index bk i = (bk', Ok x) /\ (L k \/ rel = false) /\ holds mem g right P rel (fun j => L j \/ j = k) bk' /\ is_sheet (names_of g) right k x) \/
  sheet_by_index bk i = (bk, Err XLRDError) /\ ~ L k /\ rel = true.
Proof.
  intros S H M. pose proof H as (A & B & C & D & E & F). unfold sheet_by_index.
  pose proof M as M'. rewrite <- C in M'. destruct (index_means (ob_list bk) i k M') as [-> LT]. destruct (slot _ _ LT) as ([x|] & N); rewrite N; specialize (F k _ N).
  - destruct F as (F1 & F2). left. exists bk, x. split; [reflexivity|]. split; [left; exact F1|]. split; [|exact F2].
    eapply holds_iff; [|exact H]. intros j _. split; [auto|]. intros [K|K]; [exact K|subst j; exact F1].
  - destruct rel.
    + right. unfold get_sheet. rewrite D. auto.
    + left. destruct (get_holds mem g right P L bk i k S H M) as (bk' & x & G1 & G2 & G3). exists bk', x. auto.
Qed.
Lemma missing_holds mem g right P rel : steady mem g right P -> forall ks L bk, holds mem g right P rel L bk ->
  (forall k, In k ks -> (k < length (b_sheets g))%nat) ->
  (exists bk', load_missing bk (map Z.of_nat ks) = (bk', Ok tt) /\ (forall k, In k ks -> L k \/ rel = false) /\
     holds mem g right P rel (fun j => L j \/ In j ks) bk') \/
  load_missing bk (map Z.of_nat ks) = (bk, Err XLRDError) /\ exists k, In k ks /\ ~ L k /\ rel = true.
Proof.
  intro S. induction ks as [|k ks IH]; intros L bk H LT; cbn [map load_missing].
  { left. exists bk. split; [reflexivity|]. split; [intros k []|]. eapply holds_iff; [|exact H]. intros j _. cbn [In]. split; [auto|]. intros [K|[]]; exact K. }
  pose proof H as (A & B & C & D & E & F). pose proof (LT k (or_introl eq_refl)) as LK. pose proof (means_nat _ _ LK) as M.
  pose proof M as M'. rewrite <- C in M'. destruct (index_means (ob_list bk) _ k M') as [-> LT']. destruct (slot _ _ LT') as ([x|] & N); rewrite N; specialize (F k _ N).
  - destruct F as (F1 & F2). destruct (IH L bk H (fun j J => LT j (or_intror J))) as [(bk' & G1 & G2 & G3)|(G1 & j & J & NL & R)].
    + left. exists bk'. split; [exact G1|]. split; [intros j [<-|J]; [left; exact F1|exact (G2 j J)]|].
      eapply holds_iff; [|exact G3]. intros j _. cbn [In]. split; [intros [K|K]; auto|]. intros [K|[<-|K]]; auto.
    + right. split; [exact G1|]. exists j. cbn [In]. auto.
  - destruct rel.
    + right. unfold get_sheet. rewrite D. split; [reflexivity|]. exists k. cbn [In]. auto.
    + destruct (get_holds mem g right P L bk _ k S H M) as (b1 & x & -> & H1 & _).
      destruct (IH _ b1 H1 (fun j J => LT j (or_intror J))) as [(bk' & G1 & G2 & G3)|(G1 & j & J & NL & R)]; [|discriminate].
      left. exists bk'. split; [exact G1|]. split; [auto|]. eapply holds_iff; [|exact G3]. intros j _. cbn [In].
      split; [intros [[K| ->]|K]; auto|]. intros [K|[<-|K]]; auto.
Qed.
Lemma iter_holds mem g right P rel : steady mem g right P -> forall ks L bk, holds mem g right P rel L bk ->
  (forall k, In k ks -> (k < length (b_sheets g))%nat) ->
  (exists bk' xs, iter_loop bk (map Z.of_nat ks) = (bk', Ok xs) /\ (forall k, In k ks -> L k \/ rel = false) /\
     holds mem g right P rel (fun j => L j \/ In j ks) bk' /\ Forall2 (is_sheet (names_of g) right) ks xs) \/
  (exists bk', iter_loop bk (map Z.of_nat ks) = (bk', Err XLRDError) /\ holds mem g right P rel L bk') /\ exists k, In k ks /\ ~ L k /\ rel = true.
Proof.
  intro S. induction ks as [|k ks IH]; intros L bk H LT; cbn [map iter_loop].
  { left. exists bk, []. split; [reflexivity|]. split; [intros k []|]. split; [|constructor]. eapply holds_iff; [|exact H]. intros j _. cbn [In]. split; [auto|]. intros [K|[]]; exact K. }
  pose proof (means_nat _ _ (LT k (or_introl eq_refl))) as M.
  destruct (by_index_holds mem g right P rel L bk _ k S H M) as [(b1 & x & -> & LK & H1 & IS)|(-> & NL & R)].
  - destruct (IH _ b1 H1 (fun j J => LT j (or_intror J))) as [(bk' & xs & -> & G2 & G3 & G4)|((bk' & -> & G3) & j & J & NL & R)].
    + left. exists bk', (x :: xs). split; [reflexivity|]. split; [intros j [<-|J]; [exact LK|]; destruct (G2 j J) as [[K| ->]|K]; auto|].
      split; [|constructor; assumption]. eapply holds_iff; [|exact G3]. intros j _. cbn [In]. split; [intros [[K| ->]|K]; auto|]. intros [K|[<-|K]]; auto.
    + right. assert (L k) as LK' by (destruct LK as [K|K]; [exact K|congruence]). split.
      * exists bk'. split; [reflexivity|]. eapply holds_iff; [|exact G3]. intros q _. split; [intros [K| ->]; assumption|auto].
      * exists j. cbn [In]. split; [auto|]. split; [|exact R]. intro K. apply NL. left. exact K.
  - right. split; [exists bk; auto|]. exists k. cbn [In]. auto.
Qed.

Lemma kept_cons names c past k : kept names (c :: past) k <-> wants names c k /\ ~ In CRelease past \/ kept names past k /\ ~ drops names c k.
Proof.
  split; [intro H; inversion H; subst; auto|]. intros [(H1 & H2)|(H1 & H2)]; [apply kept_new|apply kept_old]; assumption.
Qed.
Lemma not_drops names c k : (forall key, c <> CUnload key) -> ~ drops names c k.
Proof. intros N H. inversion H; subst. exact (N _ eq_refl). Qed.
Lemma not_wants names c k : (forall key, ~ asks c key) -> c <> CSheets -> c <> CIter -> ~ wants names c k.
Proof. intros N1 N2 N3 H. inversion H; subst; [eapply N1; eassumption|congruence|congruence]. Qed.
Lemma asks_one c k k' : asks c k -> asks c k' -> k = k'.
Proof. intro H. destruct H; intro H'; inversion H'; reflexivity. Qed.
Lemma wants_asks names c key k j : asks c key -> stands names key k -> wants names c j -> j = k.
Proof.
  intros A S H. inversion H as [c' key' j' A' S'|j' LT|j' LT]; subst; try (inversion A; fail).
  rewrite (asks_one _ _ _ A' A) in S'. eapply stands_one; eassumption.
Qed.
Lemma asks_quiet c key : asks c key -> forall q, c <> CUnload q.
Proof. intros A q ->. inversion A. Qed.

(** The state that goes with the calls made so far. *)
Definition follows mem g right P past bk : Prop :=
  exists rel, (rel = true <-> In CRelease past) /\ holds mem g right P rel (kept (names_of g) past) bk.
Lemma hand_of names past rel k : (rel = true <-> In CRelease past) -> kept names past k \/ rel = false -> at_hand names past k.
Proof. intros R [H|H]; [left; exact H|right]. intro K. apply R in K. congruence. Qed.
Lemma no_hand names past rel k : (rel = true <-> In CRelease past) -> ~ kept names past k -> rel = true -> ~ at_hand names past k.
Proof. intros R H T [K|K]; [exact (H K)|]. apply K, R, T. Qed.
Lemma rel_cons rel c past : c <> CRelease -> (rel = true <-> In CRelease past) -> (rel = true <-> In CRelease (c :: past)).
Proof. intros N R. cbn [In]. split; [intro H; right; apply R, H|]. intros [H|H]; [congruence|apply R, H]. Qed.

Lemma ask_follows mem g right P past bk c key : steady mem g right P -> follows mem g right P past bk -> asks c key ->
  respond bk c = to_answer ASheet (item bk key) ->
  answered (names_of g) right past c (snd (respond bk c)) /\ follows mem g right P (c :: past) (fst (respond bk c)).
Proof.
  intros S (rel & R & H) A E. pose proof H as (B1 & B2 & B3 & B4 & B5 & B6). rewrite E. unfold to_answer. cbn [fst snd].
  assert (NR : c <> CRelease) by (intros ->; inversion A).
  destruct (stands_dec (names_of g) key) as [(k & K)|K].
  - pose proof K as K'. rewrite <- B2 in K'. destruct (key_ok bk key k K') as (i & I & M & _). rewrite B2 in M. unfold item. rewrite I.
    destruct (by_index_holds mem g right P rel _ bk i k S H M) as [(bk' & x & -> & HD & H' & IS)|(-> & NL & RT)]; cbn [fst snd bind].
    + split; [eapply sheet_given; try eassumption; eapply hand_of; eassumption|]. exists rel. split; [apply rel_cons; assumption|].
      eapply holds_iff; [|exact H']. intros j _. rewrite kept_cons. split.
      * intros [J| ->]; [right; split; [exact J|apply not_drops, (asks_quiet _ _ A)]|].
        destruct HD as [HD|HD]; [right; split; [exact HD|apply not_drops, (asks_quiet _ _ A)]|left]. split; [econstructor; eassumption|].
        intro Q. apply R in Q. congruence.
      * intros [(W & _)|(J & _)]; [right; exact (wants_asks _ _ _ _ _ A K W)|left; exact J].
    + split; [eapply sheet_gone; try eassumption; eapply no_hand; eassumption|]. exists rel. split; [apply rel_cons; assumption|].
      eapply holds_iff; [|exact H]. intros j _. rewrite kept_cons. split; [intro J; right; split; [exact J|apply not_drops, (asks_quiet _ _ A)]|].
      intros [(_ & W)|(J & _)]; [destruct W; apply R; exact RT|exact J].
  - rewrite item_bad; [|split; [congruence|reflexivity]|rewrite B2; exact K]. cbn [fst snd bind].
    split; [eapply sheet_absent; eassumption|]. exists rel. split; [apply rel_cons; assumption|].
    eapply holds_iff; [|exact H]. intros j _. rewrite kept_cons. split; [intro J; right; split; [exact J|apply not_drops, (asks_quiet _ _ A)]|].
    intros [(W & _)|(J & _)]; [|exact J]. inversion W as [c' key' j' A' S'|j' LT|j' LT]; subst; try (inversion A; fail).
    rewrite (asks_one _ _ _ A' A) in S'. destruct (K _ S').
Qed.
Lemma quiet_follows mem g right P past bk c : (forall key, ~ asks c key) -> c <> CSheets -> c <> CIter -> (forall key, c <> CUnload key) -> c <> CRelease ->
  follows mem g right P past bk -> follows mem g right P (c :: past) bk.
Proof.
  intros A1 A2 A3 A4 A5 (rel & R & H). exists rel. split; [apply rel_cons; assumption|]. eapply holds_iff; [|exact H]. intros j _. rewrite kept_cons.
  split; [intro J; right; split; [exact J|apply not_drops, A4]|]. intros [(W & _)|(J & _)]; [destruct (not_wants _ _ _ A1 A2 A3 W)|exact J].
Qed.
Lemma all_lt g k : In k (seq 0 (length (b_sheets g))) -> (k < length (b_sheets g))%nat.
Proof. rewrite in_seq. lia. Qed.
Lemma all_in g k : (k < length (names_of g))%nat -> In k (seq 0 (length (b_sheets g))).
Proof. rewrite in_seq, names_length. lia. Qed.
Lemma all_follows mem g right P past c rel bk : (c = CSheets \/ c = CIter) -> (rel = true <-> In CRelease past) ->
  (forall k, In k (seq 0 (length (b_sheets g))) -> kept (names_of g) past k \/ rel = false) ->
  holds mem g right P rel (fun j => kept (names_of g) past j \/ In j (seq 0 (length (b_sheets g)))) bk ->
  follows mem g right P (c :: past) bk.
Proof.
  intros C R A H. exists rel. split; [apply rel_cons; [destruct C; subst; discriminate|exact R]|]. eapply holds_iff; [|exact H].
  intros j LT. rewrite kept_cons. assert (~ drops (names_of g) c j) as ND by (apply not_drops; intros q ->; destruct C; discriminate).
  assert (In j (seq 0 (length (b_sheets g)))) as I by (rewrite in_seq; lia).
  assert (wants (names_of g) c j) as W by (destruct C; subst; constructor; rewrite names_length; exact LT).
  split; [|auto]. intros _. destruct (A j I) as [K|K]; [right; auto|left]. split; [exact W|]. intro Q. apply R in Q. congruence.
Qed.
Lemma same_follows mem g right P past c rel bk : (c = CSheets \/ c = CIter) -> (rel = true <-> In CRelease past) -> rel = true ->
  holds mem g right P rel (kept (names_of g) past) bk -> follows mem g right P (c :: past) bk.
Proof.
  intros C R T H. exists rel. split; [apply rel_cons; [destruct C; subst; discriminate|exact R]|]. eapply holds_iff; [|exact H].
  intros j LT. rewrite kept_cons. assert (~ drops (names_of g) c j) as ND by (apply not_drops; intros q ->; destruct C; discriminate).
  split; [auto|]. intros [(_ & W)|(J & _)]; [destruct W; apply R; exact T|exact J].
Qed.
Lemma all_loaded mem g right P rel L bk : holds mem g right P rel L bk -> (forall k, (k < length (b_sheets g))%nat -> L k) ->
  exists xs, ob_list bk = map Some xs /\ are_sheets (names_of g) right xs.
Proof.
  intros (_ & _ & C & _ & _ & F) A. assert (forall k, (k < length (ob_list bk))%nat -> L k) as A' by (rewrite C; exact A).
  unfold are_sheets. rewrite names_length, <- C. clear C A. revert F A'. generalize (ob_list bk) as l.
  assert (forall l, (forall o, In o l -> o <> None) -> exists xs : list loaded, l = map Some xs) as SM.
  { induction l as [|[x|] l IH]; intro N.
    - exists []. reflexivity.
    - destruct (IH (fun o H => N o (or_intror H))) as (xs & ->). exists (x :: xs). reflexivity.
    - destruct (N None (or_introl eq_refl) eq_refl). }
  intros l F A'. destruct (SM l) as (xs & ->).
  { intros o I ->. apply In_nth_error in I. destruct I as (k & K). specialize (F k _ K). cbn in F. apply F, A'. apply nth_error_Some. congruence. }
  exists xs. split; [reflexivity|]. rewrite map_length. split; [reflexivity|]. intros k x K. specialize (F k (Some x)). rewrite nth_error_map, K in F.
  destruct (F eq_refl) as (_ & IS). exact IS.
Qed.
Lemma two_nth {A B} (R : A -> B -> Prop) : forall l l', Forall2 R l l' -> forall k y, nth_error l' k = Some y -> exists x, nth_error l k = Some x /\ R x y.
Proof.
  induction 1 as [|x y l l' H _ IH]; intros k z K; [destruct k; discriminate|]. destruct k as [|k]; cbn [nth_error] in *; [|exact (IH k z K)].
  injection K as <-. exists x. auto.
Qed.
Lemma two_length {A B} (R : A -> B -> Prop) l l' : Forall2 R l l' -> length l = length l'.
Proof. induction 1; cbn [length]; congruence. Qed.
Lemma nth_seq n : forall a k j, nth_error (seq a n) k = Some j -> j = (a + k)%nat.
Proof.
  induction n as [|n IH]; intros a k j H; [destruct k; discriminate|]. destruct k as [|k]; cbn [seq nth_error] in H; [injection H as <-; lia|].
  apply IH in H. lia.
Qed.

Lemma step_follows mem g right P past bk c : steady mem g right P -> follows mem g right P past bk ->
  answered (names_of g) right past c (snd (respond bk c)) /\ follows mem g right P (c :: past) (fst (respond bk c)).
Proof.
  intros S F. pose proof F as (rel & R & H). pose proof H as (B1 & B2 & B3 & B4 & B5 & B6).
  destruct c as [key|i|s| | |key|key| | |].
  - apply (ask_follows mem g right P past bk _ key S F); [constructor|reflexivity].
  - apply (ask_follows mem g right P past bk _ (inl i) S F); [constructor|reflexivity].
  - apply (ask_follows mem g right P past bk _ (inr s) S F); [constructor|reflexivity].
  - cbn [respond]. unfold to_answer, sheets, nsheets. rewrite B3, zrange_seq.
    destruct (missing_holds mem g right P rel S _ _ bk H (all_lt g)) as [(bk' & -> & A & H')|(-> & k & I & NL & T)]; cbn [fst snd bind].
    + split; [|eapply all_follows; try eassumption; auto].
      destruct (all_loaded _ _ _ _ _ _ _ H') as (xs & -> & AS). { intros k LT. right. rewrite in_seq. lia. }
      apply list_given; [|exact AS]. intros k LT. eapply hand_of; [exact R|]. apply A, all_in, LT.
    + split; [|eapply same_follows; try eassumption; auto]. apply (list_gone _ _ _ k); [rewrite names_length; apply all_lt, I|eapply no_hand; eassumption].
  - cbn [respond]. unfold to_answer, iter, nsheets. rewrite B3, zrange_seq.
    destruct (iter_holds mem g right P rel S _ _ bk H (all_lt g)) as [(bk' & xs & -> & A & H' & AS)|((bk' & -> & H') & k & I & NL & T)]; cbn [fst snd bind].
    + split; [|eapply all_follows; try eassumption; auto]. apply iter_given.
      * intros k LT. eapply hand_of; [exact R|]. apply A, all_in, LT.
      * split; [rewrite names_length, <- (two_length _ _ _ AS), seq_length; reflexivity|]. intros k x K.
        destruct (two_nth _ _ _ AS k x K) as (j & J & IS). apply nth_seq in J. cbn in J. subst j. exact IS.
    + split; [|eapply same_follows; try eassumption; auto]. apply (iter_gone _ _ _ k); [rewrite names_length; apply all_lt, I|eapply no_hand; eassumption].
  - cbn [respond fst snd]. split; [|apply quiet_follows; try assumption; try discriminate; intros q Q; inversion Q].
    unfold sheet_loaded. destruct (stands_dec (names_of g) key) as [(k & K)|K].
    + pose proof K as K'. rewrite <- B2 in K'. destruct (key_ok bk key k K') as (i & -> & M & _). rewrite B2, <- B3 in M. cbn [bind].
      destruct (index_means _ _ _ M) as [-> LT]. destruct (slot _ _ LT) as ([x|] & N); rewrite N; cbn [bind]; specialize (B6 k _ N).
      * destruct B6 as (B6 & _). eapply is_loaded; eassumption.
      * eapply not_loaded; eassumption.
    + pose proof K as K'. rewrite <- B2 in K'. destruct (key_bad bk key K') as [-> |(i & -> & M & AB)]; cbn [bind]; [apply loaded_absent; exact K|].
      rewrite index_absent; [|rewrite B3, <- B2; exact M]. cbn [bind]. rewrite <- AB. apply loaded_absent. exact K.
  - cbn [respond]. unfold to_answer, unload_sheet. destruct (stands_dec (names_of g) key) as [(k & K)|K].
    + pose proof K as K'. rewrite <- B2 in K'. destruct (key_ok bk key k K') as (i & -> & M & _). rewrite B2, <- B3 in M.
      destruct (put_means (@None loaded) _ _ _ M) as [-> LT]. cbn [fst snd bind]. split; [eapply unloaded; exact K|].
      exists rel. split; [apply rel_cons; [discriminate|exact R]|]. split; [exact B1|]. split; [exact B2|]. split; [cbn; rewrite put_length; exact B3|].
      split; [exact B4|]. split; [exact B5|]. cbn [ob_list]. intros j o J.
      assert (~ wants (names_of g) (CUnload key) j) as NW by (apply not_wants; try discriminate; intros q Q; inversion Q).
      destruct (Nat.eq_dec j k) as [->|NE].
      * rewrite put_same in J by exact LT. injection J as <-. rewrite kept_cons. intros [(W & _)|(_ & W)]; [exact (NW W)|]. apply W. constructor. exact K.
      * rewrite put_other in J by exact NE. specialize (B6 j o J). destruct o as [x|].
        -- destruct B6 as (Q1 & Q2). split; [|exact Q2]. rewrite kept_cons. right. split; [exact Q1|]. intro W. inversion W; subst. apply NE. eapply stands_one; eassumption.
        -- rewrite kept_cons. intros [(W & _)|(W & _)]; [exact (NW W)|exact (B6 W)].
    + assert (forall bk' r, (bk' = bk /\ r = Err (absent key)) -> answered (names_of g) right past (CUnload key) r /\ follows mem g right P (CUnload key :: past) bk') as G.
      { intros bk' r (-> & ->). split; [apply unload_absent; exact K|]. exists rel. split; [apply rel_cons; [discriminate|exact R]|].
        eapply holds_iff; [|exact H]. intros j _. rewrite kept_cons. split.
        - intro J. right. split; [exact J|]. intro W. inversion W; subst. eapply K; eassumption.
        - intros [(W & _)|(J & _)]; [inversion W as [? ? ? Q| |]; inversion Q|exact J]. }
      pose proof K as K'. rewrite <- B2 in K'. destruct (key_bad bk key K') as [-> |(i & -> & M & AB)]; cbn [fst snd bind]; [apply G; auto|].
      rewrite put_none; [|rewrite B3, <- B2; exact M]. cbn [fst snd bind]. apply G. rewrite AB. auto.
  - cbn [respond fst snd]. split; [constructor|]. exists true. split; [cbn [In]; split; auto|].
    split; [exact B1|]. split; [exact B2|]. split; [exact B3|]. split; [reflexivity|]. split; [discriminate|]. cbn [release_resources ob_list].
    intros k o K. assert (~ drops (names_of g) CRelease k) as ND by (apply not_drops; discriminate).
    specialize (B6 k o K). destruct o; rewrite kept_cons; [destruct B6; auto|]. intros [(W & _)|(W & _)]; [inversion W as [? ? ? Q| |]; inversion Q|exact (B6 W)].
  - cbn [respond fst snd]. rewrite B2. split; [apply names_given|apply quiet_follows; try assumption; try discriminate; intros q Q; inversion Q].
  - cbn [respond fst snd]. unfold nsheets. rewrite B3. rewrite <- (names_length g) at 1. split; [apply count_given|apply quiet_follows; try assumption; try discriminate; intros q Q; inversion Q].
Qed.
Lemma run_follows mem g right P : steady mem g right P -> forall cs past bk, follows mem g right P past bk ->
  explained (names_of g) right past cs (snd (run bk cs)).
Proof.
  intro S. induction cs as [|c cs IH]; intros past bk F; [constructor|]. rewrite (proj2 (run_cons bk c cs)).
  destruct (step_follows mem g right P past bk c S F) as (A & F'). constructor; [exact A|]. apply IH. exact F'.
Qed.
