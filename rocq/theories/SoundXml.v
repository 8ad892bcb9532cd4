(** * Proofs about whatever .xlsx file opens, and about packs *)

From Coq Require Import ZArith Lia ZifyBool ZifyNat ZifyN Sorted.
From Verif Require Import PyBase PyBaseFacts PyFloat PyText NumPy Dbf Dicts Pack ReadXl SpecXl XlProofs ReadXlThms XlSheet
  SpecXlSheet XlSheetProofs Xlsx SpecSound SoundProofs.
Open Scope Z_scope.

Lemma foldM_keeps A S (P : S -> Prop) (f : A -> S -> res S) : (forall x s s', f x s = Ok s' -> P s -> P s') ->
  forall l s s', foldM f l s = Ok s' -> P s -> P s'.
Proof.
  intro H. induction l as [|x l IH]; intros s s' E; cbn [foldM] in E; [injection E as <-; auto|].
  apply bind_ok in E. destruct E as (s1 & E1 & E). intro Hs. apply (IH s1 s' E). exact (H _ _ _ E1 Hs).
Qed.

Lemma fits_fitting (fit : Z -> val -> Prop) su r c t v x : (forall u, t = Some u -> fit u v) ->
  (t = None -> forall k u, dget k (su_types su) = Some u -> fit u v) -> fitting fit su (mkput r c t v x).
Proof. intros A B u T. inversion T; subst; [apply A; reflexivity|]. eapply B; [reflexivity|eassumption]. Qed.

Lemma content_fits sst e t v : cell_content sst e = Ok (Some (t, v)) ->
  match t with Some u => fits_xml u v | None => exists f, v = VFloat f end.
Proof.
  unfold cell_content. cbv zeta.
  set (type := match get _ e with Some t => t | None => _ end).
  destruct (str_eqb type (lit "n")).
  { intro H. apply bind_ok in H. destruct H as (w & _ & H). destruct w as [[|]|]; try discriminate.
    apply bind_ok in H. destruct H as (f & _ & H). injection H as <- <-. eauto. }
  destruct (str_eqb type (lit "s")).
  { intro H. apply bind_ok in H. destruct H as (w & _ & H). destruct w as [[|]|]; try discriminate.
    apply bind_ok in H. destruct H as (i & _ & H). destruct (py_index sst i); [|discriminate]. injection H as <- <-.
    left. constructor. }
  destruct (str_eqb type (lit "str")).
  { intro H. apply bind_ok in H. destruct H as (w & _ & H). injection H as <- <-.
    destruct w; [left; constructor|right; reflexivity]. }
  destruct (str_eqb type (lit "b")).
  { intro H. apply bind_ok in H. destruct H as (w & _ & H). apply bind_ok in H. destruct H as (b & _ & H). injection H as <- <-.
    left. constructor. }
  destruct (str_eqb type (lit "e")).
  { intro H. apply bind_ok in H. destruct H as (w & _ & H). apply bind_ok in H. destruct H as (b & _ & H). injection H as <- <-.
    left. constructor. }
  destruct (str_eqb type (lit "inlineStr")); [|discriminate].
  intro H. apply bind_ok in H. destruct H as (w & _ & H). destruct w as [[|]|]; try discriminate. injection H as <- <-.
  left. constructor.
Qed.

Lemma row_name_col : forall s charx colx c k, 0 <= colx -> row_name_loop s charx colx = Ok (c, k) -> 0 <= c.
Proof.
  induction s as [|x s IH]; intros charx colx c k P H; cbn [row_name_loop] in H; [injection H as <- _; exact P|].
  cbv zeta in H. destruct (x =? 36)%N; [eapply IH; eassumption|].
  unfold letter_value in H. destruct (is_upper x) eqn:U.
  - assert (65 <= x <= 90)%N by (unfold is_upper in U; lia).
    destruct (Z.of_N x - 64 =? 0); cbn [negb] in H.
    + destruct (_ && _) eqn:B in H; [|discriminate]. injection H as <- _. lia.
    + apply IH in H; lia.
  - destruct (_ && _)%N in H; [|discriminate]. cbn [Z.eqb negb] in H.
    destruct (_ && _) eqn:B in H; [|discriminate]. injection H as <- _. lia.
Qed.

Lemma cell_column_col row_number e colx c : -1 <= colx -> cell_column row_number e colx = Ok c -> 0 <= c.
Proof.
  intros P H. unfold cell_column in H. destruct (get (lit "r") e) as [name|]; [|injection H as <-; lia].
  apply bind_ok in H. destruct H as ([c1 k] & H & E).
  apply row_name_col in H; [|lia]. destruct row_number as [r|]; [|injection E as <-; exact H].
  destruct (str_eqb _ _); [injection E as <-; exact H|discriminate].
Qed.

Definition good_grid (su : setup) (g : grid) : Prop := paired fits_xml g /\ exists l, steady su l g.

Lemma fits_xml_empty : fits_xml XL_CELL_EMPTY empty_value.
Proof. left. constructor. Qed.

Lemma do_cell_good su sst rn rowx : su_ragged su = false -> number_types (su_types su) -> 0 <= rowx -> forall e s s',
  do_cell su sst rn rowx e s = Ok s' -> -1 <= fst s /\ good_grid su (snd s) -> -1 <= fst s' /\ good_grid su (snd s').
Proof.
  intros RG T R e [colx g] s' H [P [G1 [l G2]]]. cbn [fst snd] in *. unfold do_cell in H.
  apply bind_ok in H. destruct H as (c & C & H). apply cell_column_col in C; [|exact P].
  apply bind_ok in H. destruct H as (xf & _ & H). apply bind_ok in H. destruct H as ([[t v]|] & K & H).
  - destruct (put_cell su rowx c t v xf g) as [g1 [u|x]] eqn:Q; [|discriminate]. injection H as <-. destruct u. cbn [fst snd].
    split; [lia|]. apply content_fits in K.
    change (put_cell su (pt_row (mkput rowx c t v xf)) (pt_col (mkput rowx c t v xf)) (pt_type (mkput rowx c t v xf))
              (pt_value (mkput rowx c t v xf)) (pt_xf (mkput rowx c t v xf)) g = (g1, Ok tt)) in Q.
    split.
    + refine (put_pair fits_xml su _ g g1 _ fits_xml_empty RG G1 _ Q). apply fits_fitting.
      * intros u ->. exact K.
      * intros -> k u D. destruct K as [f ->]. left. destruct (T _ _ D) as [->| ->]; constructor.
    + exists (l ++ [mkput rowx c t v xf]). apply (put_steady su l _ g g1 RG G2); [exact R|exact C|exact Q].
  - injection H as <-. cbn [fst snd]. split; [lia|]. split; [exact G1|exists l; exact G2].
Qed.

Lemma sheet_elem_good su sst : su_ragged su = false -> number_types (su_types su) -> forall e s s',
  sheet_elem su sst e s = Ok s' -> good_grid su (s_grid s) -> good_grid su (s_grid s').
Proof.
  intros RG T e s s' H G. unfold sheet_elem in H.
  destruct (is_tag (lit "row") e).
  { unfold do_row in H. cbv zeta in H. apply bind_ok in H. destruct H as (rowx & _ & H).
    destruct (negb ((0 <=? rowx) && (rowx <? 2 ^ 20))) eqn:B; [discriminate|].
    apply bind_ok in H. destruct H as ([c g] & F & H). injection H as <-. cbn [s_grid].
    refine (proj2 (foldM_keeps _ _ (fun s => -1 <= fst s /\ good_grid su (snd s)) _ _ _ _ _ F _)).
    - intros x q q'. apply do_cell_good; [exact RG|exact T|lia].
    - cbn [fst snd]. split; [lia|exact G]. }
  destruct (is_tag (lit "dimension") e).
  { unfold do_dimension in H. destruct (get _ e) as [[|]|]; try (injection H as <-; exact G).
    apply bind_ok in H. destruct H as (u & _ & H). injection H as <-. exact G. }
  destruct (is_tag (lit "mergeCell") e); [|injection H as <-; exact G].
  unfold do_merge_cell in H. destruct (get _ e) as [[|x r]|]; try (injection H as <-; exact G).
  destruct (match split_on 58 (x :: r) with [a; b] => (a, b) | _ => _ end) as [a b].
  apply bind_ok in H. destruct H as ([r0 c0] & _ & H). apply bind_ok in H. destruct H as ([r1 c1] & _ & H).
  destruct c0, c1; try discriminate. injection H as <-. exact G.
Qed.

Lemma load_sheet_good z su sst fname sh : su_ragged su = false -> number_types (su_types su) ->
  load_sheet z su sst fname = Ok sh -> cells_fit fits_xml sh /\ rectangular sh.
Proof.
  intros RG T H. unfold load_sheet in H. apply bind_ok in H. destruct H as (root & _ & H).
  apply bind_ok in H. destruct H as (st & P & H). cbv zeta in H. apply bind_ok in H. destruct H as (rels & _ & H).
  apply bind_ok in H. destruct H as (u & _ & H).
  destruct (tidy su (s_merged st) (s_grid st)) as [g [w|x]] eqn:E; [|discriminate]. injection H as <-. destruct w.
  assert (G : good_grid su (s_grid st)).
  { unfold process_sheet in P. refine (foldM_keeps _ _ (fun s => good_grid su (s_grid s)) _ _ _ _ _ P _).
    - intros e s s'. apply sheet_elem_good; assumption.
    - split; [constructor|exists []; apply new_steady]. }
  destruct G as [G1 [l G2]]. split.
  - exact (tidy_pair fits_xml su _ _ g _ fits_xml_empty RG G1 E).
  - exact (tidy_rectangular su l _ _ g RG G2 E).
Qed.

Lemma styles_numbers root y : process_styles root = Ok y -> number_types (y_types y).
Proof.
  unfold process_styles. intro H.
  refine (foldM_keeps _ _ (fun y => number_types (y_types y)) _ _ _ _ _ H _).
  - intros e s s' K N. unfold styles_elem in K.
    destruct (is_key _ e); [injection K as <-; exact N|]. destruct (is_key _ e); [injection K as <-; exact N|].
    destruct (is_key _ e).
    { unfold do_numfmt in K. apply bind_ok in K. destruct K as (id & _ & K). destruct (get _ e); [|discriminate]. injection K as <-. exact N. }
    destruct (is_key _ e); [|injection K as <-; exact N].
    unfold do_xf in K. destruct (y_kind s) as [[|[]|]|]; try (injection K as <-; exact N).
    apply bind_ok in K. destruct K as (id & _ & K). cbv zeta in K. injection K as <-. cbn [y_types].
    apply number_types_dset; [exact N|]. destruct (match dget id _ with Some b => b | None => false end); auto.
  - intros k t. cbn. destruct (k =? 0); [|discriminate]. intro E. injection E as <-. left. reflexivity.
Qed.

Lemma book_dates rels root x : process_book rels root = Ok x -> x_datemode x = 0 \/ x_datemode x = 1.
Proof.
  unfold process_book. intro H.
  refine (foldM_keeps _ _ (fun x => x_datemode x = 0 \/ x_datemode x = 1) _ _ _ _ _ H _); [|left; reflexivity].
  intros e s s' K N. unfold book_elem in K.
  destruct (is_key _ e). { apply bind_ok in K. destruct K as (u & _ & K). injection K as <-. exact N. }
  destruct (is_key _ e).
  { apply bind_ok in K. destruct K as (d & D & K). injection K as <-. cbn [x_datemode].
    unfold cnv_xsd_boolean in D. revert D.
    repeat match goal with |- context [match ?c with _ => _ end] => destruct c end; intro D; try discriminate; injection D as <-; auto. }
  destruct (is_key _ e); [|injection K as <-; exact N].
  unfold do_sheet in K. apply bind_ok in K. destruct K as (i & _ & K). destruct (get (lit "name") e); [|discriminate].
  destruct (rel_get _ rels) as [[ty tg]|]; [|discriminate].
  destruct (str_eqb _ _); injection K as <-; exact N.
Qed.

Lemma zip_sound z wb : open_zip z = Ok wb -> sound_book fits_xml wb /\ Forall rectangular (bk_sheets wb).
Proof.
  unfold open_zip. destruct (has_part _ _); [|discriminate]. unfold open_xlsx. intro H.
  apply bind_ok in H. destruct H as (r1 & _ & H). apply bind_ok in H. destruct H as (rels & _ & H).
  apply bind_ok in H. destruct H as (r2 & _ & H). apply bind_ok in H. destruct H as (x & X & H).
  apply bind_ok in H. destruct H as (u & _ & H). apply bind_ok in H. destruct H as (y & Y & H).
  apply bind_ok in H. destruct H as (sst & _ & H). apply bind_ok in H. destruct H as (shs & S & H). injection H as <-.
  assert (N : number_types (y_types y)).
  { destruct (has_part z (lit "xl/styles.xml")).
    - apply bind_ok in Y. destruct Y as (r & _ & Y). exact (styles_numbers _ _ Y).
    - injection Y as <-. intros k t. cbn. destruct (k =? 0); [|discriminate]. intro E. injection E as <-. left. reflexivity. }
  assert (A : Forall (fun sh => cells_fit fits_xml sh /\ rectangular sh) shs).
  { clear - S N. apply mapM_ok_Forall2 in S. induction S as [|s sh l shs L _ IH]; constructor; [|exact IH].
    eapply load_sheet_good; [| |exact L]; [reflexivity|exact N]. }
  apply Forall_and_inv in A. destruct A as [A1 A2]. cbn [bk_sheets]. split; [|exact A2].
  constructor; cbn [bk_names bk_sheets bk_datemode]; [|exact (book_dates _ _ _ X)|exact A1].
  rewrite map_length. apply mapM_ok_length in S. congruence.
Qed.
