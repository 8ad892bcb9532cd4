(** * Lemmas about Xlsx.v *)

From Coq Require Import ZifyBool ZifyNat ZifyN.
From Verif Require Import PyBase PyBaseFacts PyFloat PyText NumPy SpecPack SpecDbf DbfProofs Dicts Pack ReadXl SpecXl XlProofs ReadXlThms
  FmtDate XlSheet SpecXlSheet XlSheetProofs XlSheetThms SpecNumber NumberProofs Xlsx SpecXlsx.
From Verif Require CharFacts TextProofs SpecBiff BiffProofs.
Open Scope nat_scope.
Open Scope Z_scope.

(** ** Elements *)

Definition elem_ind' (P : elem -> Prop) (H : forall e, Forall P (e_children e) -> P e) : forall e, P e :=
  fix go (e : elem) : P e :=
    let 'Elem t a x l := e return P e in
    H (Elem t a x l) ((fix all (l : list elem) : Forall P l :=
                         match l return Forall P l with
                         | [] => Forall_nil P
                         | c :: l' => Forall_cons c (go c) (all l')
                         end) l).

Lemma attr_first n v a b : ~ In n (map fst a) -> attr n (a ++ (n, v) :: b) = Some v.
Proof.
  induction a as [|[k w] a IH]; intro H; cbn [app attr].
  - rewrite str_eqb_refl. reflexivity.
  - destruct (str_eqb k n) eqn:E; [apply str_eqb_eq in E; exfalso; apply H; left; exact E|]. apply IH. intro I. apply H. right. exact I.
Qed.
Lemma get_says e n v : says e n v -> get n e = Some v.
Proof. intros (a & b & E & H). unfold get. rewrite E. apply attr_first. exact H. Qed.
Lemma get_silent e n : silent e n -> get n e = None.
Proof.
  unfold silent, get. induction (e_attrs e) as [|[k w] l IH]; intro H; [reflexivity|]. cbn [attr].
  destruct (str_eqb k n) eqn:E; [apply str_eqb_eq in E; exfalso; apply H; left; exact E|]. apply IH. intro I. apply H. right. exact I.
Qed.
Lemma says_get e n v : get n e = Some v -> says e n v.
Proof.
  unfold says, get. induction (e_attrs e) as [|[k w] l IH]; intro H; [discriminate|]. cbn [attr] in H.
  destruct (str_eqb k n) eqn:E.
  - apply str_eqb_eq in E. injection H as ->. subst k. exists [], l. split; [reflexivity|intros []].
  - destruct (IH H) as (a & b & -> & N). exists ((k, w) :: a), b. split; [reflexivity|]. intros [X|X]; [|exact (N X)].
    apply str_eqb_neq in E. apply E. exact X.
Qed.

Lemma named_iff n e : is_tag n e = true <-> named n e.
Proof. apply str_eqb_eq. Qed.
Lemma named_not n e : is_tag n e = false <-> ~ named n e.
Proof. rewrite <- named_iff. destruct (is_tag n e); split; congruence. Qed.
Lemma called_iff n e : is_key n e = true <-> called n e.
Proof. unfold is_key, called. rewrite Bool.orb_true_iff, named_iff, str_eqb_eq. reflexivity. Qed.
Lemma called_not n e : is_key n e = false <-> ~ called n e.
Proof. rewrite <- called_iff. destruct (is_key n e); split; congruence. Qed.

Lemma main_inj n m : main_ns ++ n = main_ns ++ m -> n = m.
Proof. apply app_inv_head. Qed.
Lemma named_other n m e : named n e -> n <> m -> is_tag m e = false.
Proof. intros H D. apply named_not. intro X. apply D. apply main_inj. unfold named in *. congruence. Qed.
(** Names of the methods do not begin with a brace. *)
Lemma called_other n m e : called n e -> n <> m -> hd_error n <> Some 123%N -> hd_error m <> Some 123%N -> is_key m e = false.
Proof.
  intros H D B1 B2. apply called_not. unfold called, named in *. intros [X|X]; destruct H as [H|H].
  - congruence.
  - apply B2. rewrite <- X, H. reflexivity.
  - apply B1. rewrite <- H, X. reflexivity.
  - apply D. apply main_inj. congruence.
Qed.

Lemma concat_iter l ls : Forall (fun e => forall L, listed e L -> L = iter e) l -> Forall2 listed l ls -> concat ls = flat_map iter l.
Proof.
  intro F. revert ls. induction F as [|e l H _ IH]; intros ls A; inversion A; subst; [reflexivity|].
  cbn [concat flat_map]. rewrite (H _ H2), (IH _ H4). reflexivity.
Qed.
Lemma listed_iter : forall e L, listed e L -> L = iter e.
Proof.
  induction e as [e IH] using elem_ind'. intros L H. destruct H as [e ls F].
  rewrite (concat_iter _ _ IH F). destruct e as [t a x l]. reflexivity.
Qed.

Lemma at_end_tag n e : e_tag (at_end n e) = e_tag e.
Proof. destruct e; reflexivity. Qed.
Lemma at_end_id n : forall e, (forall d, within d e -> ~ named n d) -> at_end n e = e.
Proof.
  induction e as [e IH] using elem_ind'. intro H. destruct e as [t a x l]. cbn [at_end e_tag e_attrs e_text e_children] in *.
  f_equal. rewrite <- (map_id l) at 2. apply map_ext_in. intros c I.
  assert (N : ~ named n c) by (apply H; apply wi_child; exact I).
  apply named_not in N. rewrite N. rewrite Forall_forall in IH. apply IH; [exact I|].
  intros d W. apply H. eapply wi_deeper; [exact I|exact W].
Qed.

Lemma filter_flat_map A B (p : B -> bool) (f : A -> list B) l : filter p (flat_map f l) = flat_map (fun x => filter p (f x)) l.
Proof. induction l as [|x l IH]; [reflexivity|]. cbn [flat_map]. rewrite filter_app, IH. reflexivity. Qed.
Lemma ends_none n p : (forall e, p (at_end n e) = p e) -> forall e, (forall d, within d e -> p d = false) -> p e = false ->
  filter p (ends n e) = [].
Proof.
  intro T. induction e as [e IH] using elem_ind'. intros W H. destruct e as [t a x l]. cbn [ends e_children] in *.
  rewrite filter_app, filter_flat_map. cbn [filter]. rewrite T, H, app_nil_r.
  assert (A : forall d, In d l -> filter p (ends n d) = []).
  { intros d I. rewrite Forall_forall in IH. apply IH; [exact I| |].
    - intros d' W'. apply W. eapply wi_deeper; [exact I|exact W'].
    - apply W. apply wi_child. exact I. }
  clear - A. induction l as [|c l IH]; [reflexivity|]. cbn [flat_map]. rewrite A by (left; reflexivity). apply IH. intros d I. apply A. right. exact I.
Qed.
Lemma ends_marked n p m : (forall e, p (at_end n e) = p e) -> (forall e, p e = true <-> m e) -> (forall e, named n e -> m e) ->
  forall e es, marked m e es -> filter p (ends n e) = es.
Proof.
  intros T PM NM. assert (PN : forall e, ~ m e -> p e = false).
  { intros e H. destruct (p e) eqn:E; [|reflexivity]. apply PM in E. contradiction. }
  induction e as [e IH] using elem_ind'. intros es M. inversion M as [e' H W|e' ls H F]; subst.
  - assert (EN : ends n e = flat_map (ends n) (e_children e) ++ [at_end n e]) by (destruct e; reflexivity). rewrite EN.
    rewrite filter_app. cbn [filter]. rewrite T, (proj2 (PM e) H). rewrite at_end_id by (intros d WD X; apply (W d WD), NM, X).
    replace (filter p (flat_map (ends n) (e_children e))) with (@nil elem); [reflexivity|]. symmetry. rewrite filter_flat_map.
    assert (A : forall d, In d (e_children e) -> filter p (ends n d) = []).
    { intros d I. apply ends_none; [exact T| |].
      - intros d' W'. apply PN, W. eapply wi_deeper; [exact I|exact W'].
      - apply PN, W, wi_child, I. }
    clear - A. induction (e_children e) as [|c l IHl]; [reflexivity|]. cbn [flat_map]. rewrite A by (left; reflexivity). apply IHl. intros d I. apply A. right. exact I.
  - assert (EN : ends n e = flat_map (ends n) (e_children e) ++ [at_end n e]) by (destruct e; reflexivity). rewrite EN.
    rewrite filter_app. cbn [filter]. rewrite T, (PN e H), app_nil_r, filter_flat_map.
    clear - IH F. revert ls F. induction IH as [|c l H _ IHl]; intros ls F; inversion F; subst; [reflexivity|].
    cbn [flat_map concat]. rewrite (H _ H2), (IHl _ H4). reflexivity.
Qed.
Lemma foldM_filter A S (f : A -> S -> res S) p : (forall x s, p x = false -> f x s = Ok s) ->
  forall l s, foldM f l s = foldM f (filter p l) s.
Proof.
  intro H. induction l as [|x l IH]; intro s; [reflexivity|]. cbn [foldM filter]. destruct (p x) eqn:E.
  - cbn [foldM]. destruct (f x s); cbn [bind]; [apply IH|reflexivity].
  - rewrite (H x s E). cbn [bind]. apply IH.
Qed.
Lemma foldM_app A S (f : A -> S -> res S) a b s : foldM f (a ++ b) s = do s <- foldM f a s; foldM f b s.
Proof. revert s. induction a as [|x a IH]; intro s; [reflexivity|]. cbn [app foldM]. destruct (f x s); cbn [bind]; [apply IH|reflexivity]. Qed.

(** ** Texts *)

Lemma hex_ok c v : hex c v -> Xlsx.hex_digit c = Some v.
Proof.
  intros [d H|d H|d H]; unfold Xlsx.hex_digit, is_digit.
  - assert (((48 <=? d) && (d <=? 57))%N = true) as -> by lia. reflexivity.
  - assert (((48 <=? d) && (d <=? 57))%N = false) as -> by lia. assert (((65 <=? d) && (d <=? 70))%N = true) as -> by lia. reflexivity.
  - assert (((48 <=? d) && (d <=? 57))%N = false) as -> by lia. assert (((65 <=? d) && (d <=? 70))%N = false) as -> by lia.
    assert (((97 <=? d) && (d <=? 102))%N = true) as -> by lia. reflexivity.
Qed.
Lemma hex_of c v : Xlsx.hex_digit c = Some v -> hex c v.
Proof.
  unfold Xlsx.hex_digit, is_digit. destruct (((48 <=? c) && (c <=? 57))%N) eqn:E; [intro H; injection H as <-; apply hx_digit; lia|].
  destruct (((65 <=? c) && (c <=? 70))%N) eqn:E2; [intro H; injection H as <-; apply hx_upper; lia|].
  destruct (((97 <=? c) && (c <=? 102))%N) eqn:E3; [intro H; injection H as <-; apply hx_lower; lia|discriminate].
Qed.
Lemma unescape_code k n s : code_text k n -> unescape (k ++ s) = n :: unescape s.
Proof.
  intros [a b c d va vb vc vd A B C D]. cbn [app unescape]. unfold hex4.
  rewrite (hex_ok _ _ A), (hex_ok _ _ B), (hex_ok _ _ C), (hex_ok _ _ D). cbn [N.eqb Pos.eqb andb]. f_equal. lia.
Qed.
Lemma unescape_char c s : (forall k n u, code_text k n -> c :: s <> k ++ u) -> unescape (c :: s) = c :: unescape s.
Proof.
  intro H. destruct s as [|x1 [|x2 [|x3 [|x4 [|x5 [|x6 s]]]]]]; try reflexivity.
  set (s' := x1 :: x2 :: x3 :: x4 :: x5 :: x6 :: s) in *.
  change (unescape (c :: s')) with
    (match hex4 x2 x3 x4 x5 with
     | Some z => if ((c =? 95) && (x1 =? 120) && (x6 =? 95))%N then z :: unescape s else c :: unescape s'
     | None => c :: unescape s'
     end). unfold hex4.
  destruct (Xlsx.hex_digit x2) as [v2|] eqn:E2; [|reflexivity]. destruct (Xlsx.hex_digit x3) as [v3|] eqn:E3; [|reflexivity].
  destruct (Xlsx.hex_digit x4) as [v4|] eqn:E4; [|reflexivity]. destruct (Xlsx.hex_digit x5) as [v5|] eqn:E5; [|reflexivity].
  destruct ((c =? 95) && (x1 =? 120) && (x6 =? 95))%N eqn:E; [|reflexivity]. exfalso.
  eapply H; [apply (ct_code x2 x3 x4 x5 v2 v3 v4 v5); apply hex_of; assumption|].
  assert (c = 95%N) as -> by lia. unfold s'. assert (x1 = 120%N) as -> by lia. assert (x6 = 95%N) as -> by lia. reflexivity.
Qed.
Lemma unescape_ok s t : escaped s t -> unescape s = t.
Proof.
  induction 1 as [|k n s t K E IH|c s t N E IH]; [reflexivity| |].
  - rewrite (unescape_code _ _ _ K), IH. reflexivity.
  - rewrite (unescape_char _ _ N), IH. reflexivity.
Qed.
Lemma escaped_unescape : forall n s, (length s < n)%nat -> escaped s (unescape s).
Proof.
  induction n as [|n IH]; intros s L; [lia|]. destruct s as [|c s]; [constructor|].
  assert (D : (exists k v u, code_text k v /\ c :: s = k ++ u) \/ forall k v u, code_text k v -> c :: s <> k ++ u).
  { destruct s as [|x1 [|x2 [|x3 [|x4 [|x5 [|x6 s]]]]]]; try (right; intros k v u [a b c' d]; cbn; discriminate).
    destruct (N.eq_dec c 95) as [->|]; [|right; intros k v u [a b c' d]; cbn; congruence].
    destruct (N.eq_dec x1 120) as [->|]; [|right; intros k v u [a b c' d]; cbn; congruence].
    destruct (N.eq_dec x6 95) as [->|]; [|right; intros k v u [a b c' d]; cbn; congruence].
    destruct (Xlsx.hex_digit x2) as [v2|] eqn:E2; [|right; intros k v u [a b c' d va vb vc vd HA HB HC HD] X; cbn in X; injection X; intros; subst; apply hex_ok in HA; congruence].
    destruct (Xlsx.hex_digit x3) as [v3|] eqn:E3; [|right; intros k v u [a b c' d va vb vc vd HA HB HC HD] X; cbn in X; injection X; intros; subst; apply hex_ok in HB; congruence].
    destruct (Xlsx.hex_digit x4) as [v4|] eqn:E4; [|right; intros k v u [a b c' d va vb vc vd HA HB HC HD] X; cbn in X; injection X; intros; subst; apply hex_ok in HC; congruence].
    destruct (Xlsx.hex_digit x5) as [v5|] eqn:E5; [|right; intros k v u [a b c' d va vb vc vd HA HB HC HD] X; cbn in X; injection X; intros; subst; apply hex_ok in HD; congruence].
    left. eexists _, _, s. split; [apply (ct_code x2 x3 x4 x5); apply hex_of; eassumption|reflexivity]. }
  destruct D as [(k & v & u & K & E)|D].
  - rewrite E in *. rewrite (unescape_code k v u K). apply esc_code; [exact K|]. apply IH. rewrite app_length in L. destruct K. cbn in L. lia.
  - rewrite unescape_char by exact D. apply esc_char; [exact D|]. apply IH. cbn in L. lia.
Qed.

Lemma xml_white_iff c : xml_white c = true <-> xml_space c.
Proof. unfold xml_white, xml_space. lia. Qed.
Lemma xml_white_not c : ~ xml_space c -> xml_white c = false.
Proof. intro H. destruct (xml_white c) eqn:E; [|reflexivity]. apply xml_white_iff in E. contradiction. Qed.
Lemma xml_whites l : Forall xml_space l -> Forall (fun c => xml_white c = true) l.
Proof. apply Forall_impl. intro c. apply xml_white_iff. Qed.
Lemma trimmed_strip t u : trimmed t u -> strip xml_white t = u.
Proof.
  intros [w W|l c r L R C|l c m d r L R C D].
  - apply TextProofs.strip_all, xml_whites, W.
  - apply (TextProofs.strip_around xml_white l [c] r); [apply xml_whites; assumption..| |]; intros x X; cbn in X; injection X as <-; apply xml_white_not, C.
  - apply (TextProofs.strip_around xml_white l (c :: m ++ [d]) r); [apply xml_whites; assumption..| |].
    + intros x X. cbn in X. injection X as <-. apply xml_white_not, C.
    + intros x X. cbn [rev] in X. rewrite rev_app_distr in X. cbn in X. injection X as <-. apply xml_white_not, D.
Qed.
Lemma strip_trimmed t : trimmed t (strip xml_white t).
Proof.
  destruct (TextProofs.strip_split xml_white t) as (a & b & E & A & B & H1 & H2).
  assert (W : forall l, Forall (fun c => xml_white c = true) l -> Forall xml_space l) by (intro l; apply Forall_impl; intro c; apply xml_white_iff).
  assert (NW : forall c, xml_white c = false -> ~ xml_space c) by (intros c X Y; apply xml_white_iff in Y; congruence).
  destruct (strip xml_white t) as [|c m]; [rewrite E; apply tr_white, W, Forall_app; split; assumption|].
  destruct m as [|d m] using rev_ind.
  - rewrite E. apply tr_one; [apply W, A|apply W, B|]. apply NW. apply H1. reflexivity.
  - clear IHm. rewrite E. apply tr_more; [apply W, A|apply W, B|apply NW, H1; reflexivity|]. apply NW, H2. cbn [rev]. rewrite rev_app_distr. reflexivity.
Qed.

Lemma cooked_ok e s : text_of e s -> cooked_text e = s.
Proof.
  intros [e' X|e' t u X P E|e' t u v X P T E]; unfold cooked_text; rewrite X; [reflexivity| |].
  - change XML_SPACE_ATTR with space_name. rewrite (get_says _ _ _ P), str_eqb_refl. apply unescape_ok, E.
  - change XML_SPACE_ATTR with space_name. destruct (get space_name e') as [w|] eqn:G.
    + destruct (str_eqb w (lit "preserve")) eqn:Q.
      * apply str_eqb_eq in Q. subst w. exfalso. apply P. apply says_get. exact G.
      * rewrite (trimmed_strip _ _ T). apply unescape_ok, E.
    + rewrite (trimmed_strip _ _ T). apply unescape_ok, E.
Qed.
Lemma t_piece_ok e s : t_piece e s -> (if is_tag (lit "t") e then cooked_text e else []) = s.
Proof.
  intros [e' u N T|e' N].
  - rewrite (proj2 (named_iff _ _) N). apply cooked_ok, T.
  - rewrite (proj2 (named_not _ _) N). reflexivity.
Qed.
Lemma flat_map_forall2 A B (R : A -> list B -> Prop) f l ls : (forall x y, R x y -> f x = y) -> Forall2 R l ls -> flat_map f l = concat ls.
Proof. intros H F. induction F as [|x y l ls A1 _ IH]; [reflexivity|]. cbn [flat_map concat]. rewrite (H _ _ A1), IH. reflexivity. Qed.
Lemma si_text_ok e s : string_item e s -> si_text e = s.
Proof.
  intros (l & F & ->). unfold si_text. refine (flat_map_forall2 _ _ si_piece _ _ _ _ F). clear.
  intros e s [e' u N T|e' l N F|e' N1 N2].
  - rewrite (proj2 (named_iff _ _) N). apply cooked_ok, T.
  - rewrite (named_other _ (lit "t") _ N) by discriminate. rewrite (proj2 (named_iff _ _) N).
    exact (flat_map_forall2 _ _ t_piece _ _ _ t_piece_ok F).
  - rewrite (proj2 (named_not _ _) N1), (proj2 (named_not _ _) N2). reflexivity.
Qed.

Lemma map_filter A B (p : A -> bool) (f : A -> B) l : flat_map (fun e => if p e then [f e] else []) l = map f (filter p l).
Proof. induction l as [|x l IH]; [reflexivity|]. cbn [flat_map filter]. destruct (p x); cbn [map app]; rewrite IH; reflexivity. Qed.
Lemma process_sst_ok root es l : marked (named (lit "si")) root es -> Forall2 string_item es l -> process_sst root = l.
Proof.
  intros M F. unfold process_sst. rewrite map_filter.
  rewrite (ends_marked (lit "si") (is_tag (lit "si")) (named (lit "si"))) with (es := es); [| | |auto|exact M].
  - clear M. induction F as [|x y es l H _ IH]; [reflexivity|]. cbn [map]. rewrite (si_text_ok _ _ H), IH. reflexivity.
  - intro e. unfold is_tag. rewrite at_end_tag. reflexivity.
  - intro e. apply named_iff.
Qed.

(** ** Attributes *)

Lemma digits_int d : digits d -> int_of_text d = Ok (dec_value d).
Proof.
  intros [N D]. rewrite CharFacts.int_of_text_low by (eapply Forall_impl; [|exact D]; cbv beta; lia).
  apply int_of_digits; assumption.
Qed.
Lemma truth_ok s b : truth s b -> cnv_xsd_boolean (Some s) = Ok b.
Proof. intros [t I|t I]; cbn [In] in I; intuition (subst; reflexivity). Qed.
Lemma flag_ok e n b : flag e n b -> cnv_xsd_boolean (get n e) = Ok b.
Proof.
  intros [H|H|s c H T].
  - rewrite (get_silent _ _ H). reflexivity.
  - rewrite (get_says _ _ _ H). reflexivity.
  - rewrite (get_says _ _ _ H). apply truth_ok, T.
Qed.

(** ** Cells *)

Lemma column_signs s l : dollar_column s l -> Forall (fun c => c = 36%N \/ letter c) s.
Proof.
  intros [[_ L] E]. subst l. induction s as [|c s IH]; [constructor|]. cbn [filter] in L. destruct (c =? 36)%N eqn:C; cbn [negb] in L.
  - constructor; [left; lia|apply IH, L].
  - inversion L; subst. constructor; [right; assumption|apply IH; assumption].
Qed.
Lemma name_loop_signs s : forall charx colx tail, Forall (fun c => c = 36%N \/ letter c) s ->
  row_name_loop (upper_str s ++ tail) charx colx =
  row_name_loop tail (charx + Z.of_nat (length s)) (fold_left (fun n c => 26 * n + letter_no c) (filter (fun c => negb (c =? 36)%N) s) colx).
Proof.
  induction s as [|c s IH]; intros charx colx tail F.
  - cbn. f_equal. lia.
  - inversion F as [|? ? H1 H2]; subst. change (upper_str (c :: s)) with (upper_char c ++ upper_str s). rewrite <- app_assoc. cbn [filter length].
    destruct H1 as [->|L].
    + change (upper_char 36) with [36%N]. cbn [app row_name_loop N.eqb Pos.eqb negb]. rewrite IH by exact H2. f_equal. lia.
    + destruct (upper_char_letter c L) as (u & E & C & N). rewrite E. cbn [app row_name_loop].
      assert ((c =? 36)%N = false) as -> by (unfold letter, capital in *; lia). assert ((u =? 36)%N = false) as -> by (unfold capital in *; lia).
      rewrite (letter_value_capital u C). pose proof (letter_no_range u (capital_letter u C)).
      assert (letter_no u =? 0 = false) as -> by lia. cbn [negb fold_left]. rewrite IH by exact H2. f_equal; [lia|]. f_equal. lia.
Qed.
Lemma row_digits_parts d : row_digits d -> d <> [] /\ all_digits d /\ hd_error d <> Some 48%N.
Proof. intros (D & x & d' & -> & N). repeat split; [discriminate|exact D|]. cbn. congruence. Qed.
Lemma name_loop_digit d charx colx : row_digits d -> 0 <= colx - 1 < 2 ^ 14 -> row_name_loop d charx colx = Ok (colx - 1, charx + 1).
Proof.
  intros (D & x & d' & -> & N) C. inversion D; subst. cbn [row_name_loop]. assert ((x =? 36)%N = false) as -> by lia.
  assert (letter_value x = Some 0) as ->.
  { unfold letter_value. assert (is_upper x = false) as -> by (unfold is_upper; lia).
    assert (((49 <=? x) && (x <=? 57))%N = true) as -> by lia. reflexivity. }
  cbn [Z.eqb negb]. assert ((0 <=? colx - 1) && (colx - 1 <? 2 ^ 14) = true) as -> by lia. reflexivity.
Qed.
Lemma column_no_pos l : column_text l -> 0 <= column_no l.
Proof. intros [N L]. rewrite column_no_hn. pose proof (hn_nonempty l L N). lia. Qed.
Lemma cell_name_parts s d l : dollar_column s l -> row_digits d -> column_no l < 2 ^ 14 ->
  row_name_loop (upper_str (s ++ d)) (-1) 0 = Ok (column_no l, Z.of_nat (length s)) /\ from_index (Z.of_nat (length s)) (s ++ d) = d.
Proof.
  intros C D L. destruct (row_digits_parts d D) as (_ & AD & _). split.
  - rewrite upper_str_app, (upper_str_digits d AD), name_loop_signs by (eapply column_signs; exact C).
    destruct C as [CT E]. pose proof (column_no_pos l CT) as P. rewrite E. rewrite name_loop_digit; [|exact D|].
    + unfold column_no. f_equal. f_equal. lia.
    + unfold column_no in *. lia.
  - unfold from_index. assert (Z.of_nat (length s) <? 0 = false) as -> by lia. rewrite Nat2Z.id, skipn_app, skipn_all, Nat.sub_diag. reflexivity.
Qed.
Lemma cell_column_ok number r prev e c : cell_place number r prev e c -> c < 2 ^ 14 -> cell_column number e prev = Ok c.
Proof.
  intros [H|s l d H C D _ N] L; unfold cell_column.
  - rewrite (get_silent _ _ H). reflexivity.
  - rewrite (get_says _ _ _ H). destruct (cell_name_parts s d l C D L) as [E1 E2]. rewrite E1. cbn [bind]. destruct number as [n|]; [|reflexivity].
    rewrite E2, (N n eq_refl), str_eqb_refl. reflexivity.
Qed.
Lemma cell_place_range number r prev e c : cell_place number r prev e c -> -1 <= prev -> 0 <= c.
Proof. intros [H|s l d H C D _ N] P; [lia|]. apply column_no_pos. exact (proj1 C). Qed.
Lemma cell_xf_ok e xf : cell_xf e xf -> int_of_text (match get (lit "s") e with Some t => t | None => lit "0" end) = Ok xf /\ 0 <= xf.
Proof.
  intros [H|d H D].
  - rewrite (get_silent _ _ H). split; [reflexivity|lia].
  - rewrite (get_says _ _ _ H). split; [apply digits_int, D|]. apply dec_value_nonneg. exact (proj2 D).
Qed.

Lemma formulas_value val l v : (forall c, named (lit "f") c -> val c = None) -> formulas l -> children_value val l v = Ok v.
Proof.
  intros H F. induction F as [|c l N _ IH]; [reflexivity|]. cbn [children_value]. rewrite (H c N), (proj2 (named_iff _ _) N). exact IH.
Qed.
Lemma formulas_value_app val a l v : (forall c, named (lit "f") c -> val c = None) -> formulas a -> children_value val (a ++ l) v = children_value val l v.
Proof.
  intros H F. induction F as [|c a N _ IH]; [reflexivity|]. cbn [children_value app]. rewrite (H c N), (proj2 (named_iff _ _) N). exact IH.
Qed.
Lemma holder_value n e h val v w : holder n e h -> (forall c, named (lit "f") c -> val c = None) -> val h = Some w ->
  children_value val (e_children e) v = Ok w.
Proof.
  intros [a h' b E A B N] H V. rewrite E, (formulas_value_app _ _ _ _ H A). cbn [children_value]. rewrite V. apply formulas_value; assumption.
Qed.
Lemma holder_named n e h : holder n e h -> named n h.
Proof. intros []. assumption. Qed.
Lemma v_text_formula c : named (lit "f") c -> v_text c = None.
Proof. intro N. unfold v_text. rewrite (named_other _ (lit "v") _ N) by discriminate. reflexivity. Qed.
Lemma v_cooked_formula c : named (lit "f") c -> v_cooked c = None.
Proof. intro N. unfold v_cooked. rewrite (named_other _ (lit "v") _ N) by discriminate. reflexivity. Qed.
Lemma v_inline_formula c : named (lit "f") c -> v_inline c = None.
Proof. intro N. unfold v_inline. rewrite (named_other _ (lit "is") _ N) by discriminate. apply v_text_formula, N. Qed.
Lemma value_text_ok e t v : value_text e t -> children_value v_text (e_children e) v = Ok t \/ formulas (e_children e) /\ t = None.
Proof.
  intros [F|h H]; [right; auto|left]. eapply holder_value; [exact H|apply v_text_formula|]. unfold v_text.
  rewrite (proj2 (named_iff _ _) (holder_named _ _ _ H)). reflexivity.
Qed.
Lemma value_text_none e t : value_text e t -> children_value v_text (e_children e) None = Ok t.
Proof. intro H. destruct (value_text_ok e t None H) as [E|[F ->]]; [exact E|]. apply formulas_value; [apply v_text_formula|exact F]. Qed.
Lemma value_inline e t : value_text e t -> children_value v_inline (e_children e) None = Ok t.
Proof.
  intros [F|h H]; [apply formulas_value; [apply v_inline_formula|exact F]|]. eapply holder_value; [exact H|apply v_inline_formula|].
  pose proof (holder_named _ _ _ H) as N. unfold v_inline. rewrite (named_other _ (lit "is") _ N) by discriminate. unfold v_text. rewrite (proj2 (named_iff _ _) N). reflexivity.
Qed.
Lemma inline_item e h s : holder (lit "is") e h -> string_item h s -> children_value v_inline (e_children e) None = Ok (Some s).
Proof.
  intros H S. eapply holder_value; [exact H|apply v_inline_formula|]. unfold v_inline. rewrite (proj2 (named_iff _ _) (holder_named _ _ _ H)).
  rewrite (si_text_ok _ _ S). reflexivity.
Qed.
Lemma kind_ok e k : cell_kind e k -> match get (lit "t") e with Some t => t | None => lit "n" end = k.
Proof. intros [H|[H ->]]; [rewrite (get_says _ _ _ H)|rewrite (get_silent _ _ H)]; reflexivity. Qed.
Lemma error_ok s c : error_text s c -> error_code (Some s) = Ok c.
Proof. intros []; reflexivity. Qed.

(** What a number cell puts has no type of its own. *)
Definition put_kind (date : Prop) (t : Z) (k : option Z) : Prop :=
  k = Some t \/ k = None /\ (date /\ t = XL_CELL_DATE \/ ~ date /\ t = XL_CELL_NUMBER).
Lemma decimal_value l t r neg x f : Forall space_like l -> Forall space_like r -> decimal t neg x -> nearest neg x f ->
  float_of_text (l ++ t ++ r) = Ok f /\ l ++ t ++ r <> [].
Proof.
  intros L R D N. destruct (float_of_decimal l t r neg x L R D) as (g & E & G).
  rewrite CharFacts.float_of_text_low.
  2: { pose proof (proj1 (decimal_chars _ _ _ D)) as C. rewrite !Forall_app. split; [|split]; eapply Forall_impl; try eassumption; cbv beta;
       unfold space_like, dchar; lia. }
  split; [rewrite E; f_equal; exact (nearest_unique neg x g f (decimal_nonneg _ _ _ D) G N)|]. intro X. rewrite X in E. discriminate E.
Qed.
Lemma content_ok shared date e o : holds shared date e o ->
  match o with
  | None => cell_content shared e = Ok None
  | Some (t, v) => exists k, cell_content shared e = Ok (Some (k, v)) /\ put_kind date t k
  end.
Proof.
  intro H. unfold cell_content. destruct H as
    [k t K I V N|l t r neg x f K V L R D NE DT|l t r neg x f K V L R D NE DT|d s K V D S|h s K H T|K F|s b K V T|t K V N|s c K V E|K F|h s K H S NE|h K H S|s K V NE];
    rewrite (kind_ok e _ K).
  - cbn [In] in I. destruct I as [<-|[<-|[<-|[]]]].
    + replace (str_eqb (lit "n") (lit "n")) with true by reflexivity. rewrite (value_text_none _ _ V). cbn [bind]. destruct N as [->| ->]; reflexivity.
    + replace (str_eqb (lit "s") (lit "n")) with false by reflexivity. replace (str_eqb (lit "s") (lit "s")) with true by reflexivity.
      rewrite (value_text_none _ _ V). cbn [bind]. destruct N as [->| ->]; reflexivity.
    + repeat match goal with |- context [str_eqb ?a ?b] => let r := eval vm_compute in (str_eqb a b) in replace (str_eqb a b) with r by reflexivity end.
      cbv iota. rewrite (value_inline _ _ V). cbn [bind]. destruct N as [->| ->]; reflexivity.
  - destruct (decimal_value l t r neg x f L R D NE) as [E NN]. replace (str_eqb (lit "n") (lit "n")) with true by reflexivity.
    rewrite (value_text_none _ _ V). cbn [bind]. destruct (l ++ t ++ r) as [|c u]; [congruence|]. rewrite E. cbn [bind]. exists None. split; [reflexivity|]. right. auto.
  - destruct (decimal_value l t r neg x f L R D NE) as [E NN]. replace (str_eqb (lit "n") (lit "n")) with true by reflexivity.
    rewrite (value_text_none _ _ V). cbn [bind]. destruct (l ++ t ++ r) as [|c u]; [congruence|]. rewrite E. cbn [bind]. exists None. split; [reflexivity|]. right. auto.
  - repeat match goal with |- context [str_eqb ?a ?b] => let r := eval vm_compute in (str_eqb a b) in replace (str_eqb a b) with r by reflexivity end.
    cbv iota. rewrite (value_text_none _ _ V). cbn [bind]. pose proof (digits_int d D) as E. destruct D as [D1 D2]. destruct d as [|c u]; [congruence|]. rewrite E. cbn [bind].
    rewrite py_index_nonneg by (apply dec_value_nonneg; exact D2). rewrite S. eexists. split; [reflexivity|]. left. reflexivity.
  - repeat match goal with |- context [str_eqb ?a ?b] => let r := eval vm_compute in (str_eqb a b) in replace (str_eqb a b) with r by reflexivity end.
    cbv iota. rewrite (holder_value _ _ _ v_cooked None (Some s) H v_cooked_formula); [|unfold v_cooked; rewrite (proj2 (named_iff _ _) (holder_named _ _ _ H)), (cooked_ok _ _ T); reflexivity].
    cbn [bind]. eexists. split; [reflexivity|]. left. reflexivity.
  - repeat match goal with |- context [str_eqb ?a ?b] => let r := eval vm_compute in (str_eqb a b) in replace (str_eqb a b) with r by reflexivity end.
    cbv iota. rewrite (formulas_value _ _ _ v_cooked_formula F). cbn [bind]. eexists. split; [reflexivity|]. left. reflexivity.
  - repeat match goal with |- context [str_eqb ?a ?b] => let r := eval vm_compute in (str_eqb a b) in replace (str_eqb a b) with r by reflexivity end.
    cbv iota. rewrite (value_text_none _ _ V). cbn [bind]. rewrite (truth_ok _ _ T). cbn [bind]. eexists. split; [reflexivity|]. left. reflexivity.
  - repeat match goal with |- context [str_eqb ?a ?b] => let r := eval vm_compute in (str_eqb a b) in replace (str_eqb a b) with r by reflexivity end.
    cbv iota. rewrite (value_text_none _ _ V). cbn [bind]. destruct N as [->| ->]; (eexists; split; [reflexivity|left; reflexivity]).
  - repeat match goal with |- context [str_eqb ?a ?b] => let r := eval vm_compute in (str_eqb a b) in replace (str_eqb a b) with r by reflexivity end.
    cbv iota. destruct (value_text_ok e _ (Some (lit "#N/A")) V) as [X|[_ X]]; [|discriminate X]. rewrite X. cbn [bind]. rewrite (error_ok _ _ E). cbn [bind].
    eexists. split; [reflexivity|]. left. reflexivity.
  - repeat match goal with |- context [str_eqb ?a ?b] => let r := eval vm_compute in (str_eqb a b) in replace (str_eqb a b) with r by reflexivity end.
    cbv iota. rewrite (formulas_value _ _ _ v_text_formula F). cbn [bind]. eexists. split; [reflexivity|]. left. reflexivity.
  - repeat match goal with |- context [str_eqb ?a ?b] => let r := eval vm_compute in (str_eqb a b) in replace (str_eqb a b) with r by reflexivity end.
    cbv iota. rewrite (inline_item _ _ _ H S). cbn [bind]. destruct s as [|c s]; [congruence|]. eexists. split; [reflexivity|]. left. reflexivity.
  - repeat match goal with |- context [str_eqb ?a ?b] => let r := eval vm_compute in (str_eqb a b) in replace (str_eqb a b) with r by reflexivity end.
    cbv iota. rewrite (inline_item _ _ _ H S). reflexivity.
  - repeat match goal with |- context [str_eqb ?a ?b] => let r := eval vm_compute in (str_eqb a b) in replace (str_eqb a b) with r by reflexivity end.
    cbv iota. rewrite (value_inline _ _ V). cbn [bind]. destruct s as [|c s]; [congruence|]. eexists. split; [reflexivity|]. left. reflexivity.
Qed.

(** ** Rows and sheets *)

Definition types_told (date : Z -> Prop) (xfs : Z) (su : setup) : Prop :=
  forall xf, 0 <= xf < xfs -> date xf /\ dget xf (su_types su) = Some XL_CELL_DATE \/ ~ date xf /\ dget xf (su_types su) = Some XL_CELL_NUMBER.
Lemma put_told su date xfs r c t k v xf g : types_told date xfs su -> 0 <= xf < xfs -> put_kind (date xf) t k ->
  put_cell su r c k v xf g = put_cell su r c (Some t) v xf g.
Proof.
  intros T X [->|[-> K]]; [reflexivity|]. unfold put_cell, put_cell_unragged, put_cell_ragged, cell_type_in.
  destruct (su_ragged su); destruct (T xf X) as [[D E]|[D E]]; destruct K as [[D' ->]|[D' ->]]; try contradiction; rewrite E; reflexivity.
Qed.

Lemma cells_ok su shared date xfs number r : types_told date xfs su -> forall prev es ps, cells_in shared date xfs number r prev es ps ->
  forall g g', put_all su ps g = (g', Ok tt) -> exists c, foldM (do_cell su shared number r) es (prev, g) = Ok (c, g').
Proof.
  intros T. induction 1 as [prev|prev e es c xf ps N P L X H _ IH|prev e es c xf t v ps N P L X B H _ IH]; intros g g' PA.
  - cbn in PA. injection PA as ->. exists prev. reflexivity.
  - cbn [foldM]. unfold do_cell at 1. rewrite (cell_column_ok _ _ _ _ _ P L). cbn [bind]. destruct (cell_xf_ok _ _ X) as [E _]. rewrite E. cbn [bind].
    pose proof (content_ok _ _ _ _ H) as C. cbn beta iota in C. rewrite C. cbn [bind]. apply IH. exact PA.
  - cbn [foldM]. unfold do_cell at 1. rewrite (cell_column_ok _ _ _ _ _ P L). cbn [bind]. destruct (cell_xf_ok _ _ X) as [E XP]. rewrite E. cbn [bind].
    destruct (content_ok _ _ _ _ H) as (k & C & K). rewrite C. cbn [bind]. rewrite (put_told su date xfs r c t k v xf g T (conj XP B) K).
    cbn [put_all pt_row pt_col pt_type pt_value pt_xf] in PA. destruct (put_cell su r c (Some t) v xf g) as [g1 [[]|x]]; [|discriminate PA].
    cbn [bind]. apply IH. exact PA.
Qed.
Lemma cells_good shared date xfs number r : 0 <= r < 2 ^ 20 -> forall prev es ps, cells_in shared date xfs number r prev es ps -> -1 <= prev ->
  forall su, su_max_rows su = 2 ^ 20 -> su_max_cols su = 2 ^ 14 -> Forall (good_put su) ps /\ Forall (fun p => pt_type p <> None) ps.
Proof.
  intro R. induction 1 as [prev|prev e es c xf ps N P L X H _ IH|prev e es c xf t v ps N P L X B H _ IH]; intros PR su S1 S2.
  - split; constructor.
  - apply IH; [|assumption..]. pose proof (cell_place_range _ _ _ _ _ P PR). lia.
  - pose proof (cell_place_range _ _ _ _ _ P PR). destruct (IH ltac:(lia) su S1 S2) as [I1 I2]. split; constructor; try assumption; [|discriminate].
    split; [unfold inside; cbn [pt_row pt_col]; lia|]. exists t. constructor.
Qed.

Lemma range_split t a b : range_text t a b -> match split_on 58 t with [x; y] => (x, y) | _ => (t, t) end = (a, b) /\ last (split_on 58 t) [] = b.
Proof.
  assert (F : forall s, ~ In colon s -> Forall (fun x => x <> 58%N) s).
  { intros s H. apply Forall_forall. intros x I ->. exact (H I). }
  intros [x y X Y|x X].
  - unfold colon. rewrite split_on_app by (apply F, X). rewrite split_on_none by (apply F, Y). split; reflexivity.
  - rewrite split_on_none by (apply F, X). split; reflexivity.
Qed.
Lemma address_ok t r c b : address t r c -> cell_name_to_rowx_colx t b = Ok (r, Some c).
Proof.
  intros [l d [L1 L2] D B]. destruct (row_digits_parts d D) as (D1 & D2 & D3). rewrite (cell_name_spec l d b L1 L2 D1 D2 D3).
  assert (column_no l <? 16384 = true) as -> by lia. reflexivity.
Qed.
Lemma row_digits_pos d : row_digits d -> 1 <= dec_value d.
Proof.
  intros (D & x & d' & -> & N). inversion D as [|? ? H1 H2]; subst. unfold dec_value.
  cbn [fold_left]. assert (G : forall l a, 1 <= a -> all_digits l -> 1 <= fold_left (fun acc c => acc * 10 + (Z.of_N c - 48)) l a).
  { induction l as [|c l IH]; intros a A F; [exact A|]. inversion F; subst. cbn [fold_left]. apply IH; [lia|assumption]. }
  apply G; [lia|exact H2].
Qed.
Lemma address_range t r c : address t r c -> 0 <= r /\ 0 <= c < 2 ^ 14 /\ t <> [].
Proof.
  intros [l d L D B]. pose proof (row_digits_pos d D). pose proof (column_no_pos l L). split; [lia|]. split; [lia|].
  destruct L as [L _]. destruct l; [congruence|discriminate].
Qed.
Lemma range_nonempty t a b r c : range_text t a b -> address b r c -> t <> [].
Proof. intros [x y X Y|x X] A; [destruct x; discriminate|]. apply (address_range _ _ _ A). Qed.

Lemma items_ok su shared date xfs : types_told date xfs su -> forall prev es ps ms, items shared date xfs prev es ps ms ->
  forall g g' ms0, put_all su ps g = (g', Ok tt) ->
  exists r, foldM (sheet_elem su shared) es (mkxsheet prev g ms0) = Ok (mkxsheet r g' (ms0 ++ ms)).
Proof.
  intros T. induction 1 as [prev|prev e es number r ps qs ms N P R C _ IH|prev e es ps ms N D _ IH|prev e es t a b r0 c0 r1 c1 ps ms N S RT A0 A1 R C _ IH];
    intros g g' ms0 PA.
  - cbn in PA. injection PA as ->. exists prev. rewrite app_nil_r. reflexivity.
  - rewrite put_all_app in PA. destruct (put_all su ps g) as [g1 [[]|x]] eqn:P1; [|discriminate PA].
    destruct (cells_ok su shared date xfs number r T _ _ _ C _ _ P1) as (c & F).
    destruct (IH g1 g' ms0 PA) as (r' & E). exists r'. cbn [foldM].
    assert (SE : sheet_elem su shared e (mkxsheet prev g ms0) = Ok (mkxsheet r g1 ms0)); [|rewrite SE; exact E].
    unfold sheet_elem. rewrite (proj2 (named_iff _ _) N). unfold do_row. cbn [s_rowx s_grid s_merged].
    assert (B : (0 <=? r) && (r <? 2 ^ 20) = true) by lia.
    destruct P as [d SY DG|SL].
    + rewrite (get_says _ _ _ SY), (digits_int d DG). cbn [bind]. rewrite B. cbn [negb]. rewrite F. reflexivity.
    + rewrite (get_silent _ _ SL). cbn [bind]. rewrite B. cbn [negb]. rewrite F. reflexivity.
  - destruct (IH g g' ms0 PA) as (r' & E). exists r'. cbn [foldM].
    assert (SE : sheet_elem su shared e (mkxsheet prev g ms0) = Ok (mkxsheet prev g ms0)); [|rewrite SE; exact E].
    unfold sheet_elem. rewrite (named_other _ (lit "row") _ N) by discriminate. rewrite (proj2 (named_iff _ _) N). unfold do_dimension.
    destruct D as [SL|(t & a & b & r & c & SY & RT & AD)]; [rewrite (get_silent _ _ SL); reflexivity|].
    rewrite (get_says _ _ _ SY). pose proof (range_nonempty _ _ _ _ _ RT AD) as NE. destruct (range_split _ _ _ RT) as [_ E2].
    destruct t as [|x t]; [congruence|]. rewrite E2, (address_ok _ _ _ true AD). reflexivity.
  - destruct (IH g g' (ms0 ++ [(r0, r1 + 1, c0, c1 + 1)]) PA) as (r' & E). exists r'. cbn [foldM]. rewrite <- app_assoc in E.
    assert (SE : sheet_elem su shared e (mkxsheet prev g ms0) = Ok (mkxsheet prev g (ms0 ++ [(r0, r1 + 1, c0, c1 + 1)]))); [|rewrite SE; exact E].
    unfold sheet_elem. rewrite (named_other _ (lit "row") _ N) by discriminate. rewrite (named_other _ (lit "dimension") _ N) by discriminate.
    rewrite (proj2 (named_iff _ _) N). unfold do_merge_cell. rewrite (get_says _ _ _ S).
    pose proof (range_nonempty _ _ _ _ _ RT A1) as NE. destruct (range_split _ _ _ RT) as [E1 _].
    destruct t as [|x t]; [congruence|]. rewrite E1. rewrite (address_ok _ _ _ false A0), (address_ok _ _ _ false A1). reflexivity.
Qed.
Lemma row_place_range prev e number r : row_place prev e number r -> 0 <= r -> -1 <= r.
Proof. lia. Qed.
Lemma items_good su shared date xfs : su_max_rows su = 2 ^ 20 -> su_max_cols su = 2 ^ 14 -> forall prev es ps ms, items shared date xfs prev es ps ms ->
  Forall (good_put su) ps /\ Forall (fun p => pt_type p <> None) ps /\ Forall (good_range su) ms.
Proof.
  intros S1 S2. induction 1 as [prev|prev e es number r ps qs ms N P R C _ IH|prev e es ps ms N D _ IH|prev e es t a b r0 c0 r1 c1 ps ms N S RT A0 A1 R C _ IH].
  - repeat split; constructor.
  - destruct IH as (I1 & I2 & I3). destruct (cells_good shared date xfs number r R _ _ _ C ltac:(lia) su S1 S2) as [G1 G2].
    split; [apply Forall_app; auto|]. split; [apply Forall_app; auto|exact I3].
  - exact IH.
  - destruct IH as (I1 & I2 & I3). split; [exact I1|]. split; [exact I2|]. constructor; [|exact I3]. unfold good_range. rewrite S1, S2.
    pose proof (address_range _ _ _ A0). pose proof (address_range _ _ _ A1). lia.
Qed.

Lemma shows_grid su l m name : su_ragged su = false -> Forall (good_put su) l -> Forall (fun p => pt_type p <> None) l -> Forall (good_range su) m ->
  exists g g', put_all su l new_grid = (g, Ok tt) /\ tidy su m g = (g', Ok tt) /\ shows_sheet (mkcontent name l m) (sheet_of g').
Proof.
  intros R G T M. destruct (C49_grid_proof su l m R G M) as (g' & B & RE & HR & HC & CE).
  unfold build in B. destruct (put_all su l new_grid) as [g [[]|e]] eqn:P; [|discriminate B].
  destruct (tidy su m g) as [g2 [[]|e]] eqn:TI; [|discriminate B]. injection B as ->.
  exists g, g'. split; [reflexivity|]. split; [exact TI|].
  split; [exact HR|]. split; [exact HC|]. split; [exact RE|].
  intros r c HR' HC'. destruct (CE r c HR' HC') as (V & (t & E & S) & _). split; [exact V|]. exists t. split; [exact E|].
  unfold SpecBiff.shows_kind. cbn [ct_cells]. unfold shows_type in S. destruct (latest l r c) as [p|] eqn:L; [|exact S].
  destruct S as [|r0 c0 v x t D]; [reflexivity|]. exfalso. apply (BiffProofs.all_typed l T r c _ L). reflexivity.
Qed.

Definition sheet_mark (e : elem) : bool := is_tag (lit "row") e || is_tag (lit "dimension") e || is_tag (lit "mergeCell") e.
Lemma sheet_ok su shared date xfs root c : su_ragged su = false -> su_max_rows su = 2 ^ 20 -> su_max_cols su = 2 ^ 14 -> types_told date xfs su ->
  sheet_part shared date xfs root (ct_cells c) (ct_merged c) ->
  exists st g', process_sheet su shared root = Ok st /\ tidy su (s_merged st) (s_grid st) = (g', Ok tt) /\ shows_sheet c (sheet_of g').
Proof.
  intros R S1 S2 T (es & M & I). destruct (items_good su shared date xfs S1 S2 _ _ _ _ I) as (G1 & G2 & G3).
  destruct (shows_grid su _ _ (ct_name c) R G1 G2 G3) as (g & g' & P & TI & SH).
  destruct (items_ok su shared date xfs T _ _ _ _ I _ _ [] P) as (r & F). cbn [app] in F.
  exists (mkxsheet r g (ct_merged c)), g'. split; [|split; [exact TI|destruct c; exact SH]].
  unfold process_sheet. rewrite (foldM_filter _ _ _ sheet_mark).
  - erewrite (ends_marked (lit "row") sheet_mark); [exact F| | | |exact M].
    + intro e. unfold sheet_mark, is_tag. rewrite at_end_tag. reflexivity.
    + intro e. unfold sheet_mark. rewrite !Bool.orb_true_iff, !named_iff. tauto.
    + intros e N. left. exact N.
  - intros e s H. unfold sheet_mark in H. rewrite !Bool.orb_false_iff in H. destruct H as [[H1 H2] H3]. unfold sheet_elem. rewrite H1, H2, H3. reflexivity.
Qed.

(** ** Styles *)

Lemma dget_dset_same V k (v : V) d : dget k (dset k v d) = Some v.
Proof. rewrite dget_dset, Z.eqb_refl. reflexivity. Qed.
Lemma dget_dset_other V k k' (v : V) d : k <> k' -> dget k (dset k' v d) = dget k d.
Proof. intro N. rewrite dget_dset. destruct (Z.eqb_spec k k'); [contradiction|reflexivity]. Qed.

Definition set_format (d : dict bool) (f : Z * str) : dict bool := dset (fst f) (is_date_format_string (snd f)) d.
Lemma set_formats_get fs : forall d key, dget key (fold_left set_format fs d) =
  match last_format key fs with Some t => Some (is_date_format_string t) | None => dget key d end.
Proof.
  induction fs as [|[k t] fs IH]; intros d key; [reflexivity|]. cbn [fold_left last_format]. rewrite IH.
  destruct (last_format key fs); [reflexivity|]. unfold set_format. cbn [fst snd]. destruct (Z.eqb_spec k key) as [->|N].
  - apply dget_dset_same.
  - apply dget_dset_other. congruence.
Qed.
Lemma called_style a b e : called (lit a) e -> lit a <> lit b -> hd_error (lit a) <> Some 123%N -> hd_error (lit b) <> Some 123%N -> is_key (lit b) e = false.
Proof. apply called_other. Qed.

Lemma none_here n l e es : none_called l (e :: es) -> In n l -> is_key n e = false.
Proof. intros N I. apply called_not. apply Forall_inv in N. rewrite Forall_forall in N. apply N, I. Qed.
Lemma none_rest l e es : none_called l (e :: es) -> none_called l es.
Proof. apply Forall_inv_tail. Qed.

(** Elements without cell formats in force. *)
Lemma formats_ok es fs : formats_in es fs -> none_called [lit "cellXfs"] es -> forall y, y_kind y <> Some 1 ->
  exists k, foldM styles_elem es y = Ok (mkstyles (fold_left set_format fs (y_dates y)) (y_types y) k (y_count y)) /\ k <> Some 1.
Proof.
  induction 1 as [|e es d code fs C S D SC _ IH|e es fs C _ IH]; intros N y K.
  - exists (y_kind y). destruct y. split; [reflexivity|exact K].
  - pose proof (none_rest _ _ _ N) as N2.
    destruct (IH N2 (mkstyles (set_format (y_dates y) (dec_value d, code)) (y_types y) (y_kind y) (y_count y)) K) as (k & E & NK).
    exists k. split; [|exact NK]. cbn [foldM]. unfold styles_elem at 1.
    rewrite (called_other _ (lit "cellStyleXfs") _ C) by (cbv; discriminate). rewrite (called_other _ (lit "cellXfs") _ C) by (cbv; discriminate).
    rewrite (proj2 (called_iff _ _) C). unfold do_numfmt. rewrite (get_says _ _ _ S). cbn [int_attr]. rewrite (digits_int d D). cbn [bind].
    rewrite (get_says _ _ _ SC). cbn [bind]. exact E.
  - pose proof (none_rest _ _ _ N) as N2. pose proof (none_here (lit "cellXfs") _ _ _ N ltac:(cbn; auto)) as N3. cbn [foldM]. unfold styles_elem at 1.
    destruct (is_key (lit "cellStyleXfs") e) eqn:K1.
    + destruct (IH N2 (mkstyles (y_dates y) (y_types y) (Some 0) (y_count y))) as (k & E & NK); [discriminate|]. exists k. split; [exact E|exact NK].
    + rewrite N3, (proj2 (called_not _ _) C). destruct (is_key (lit "xf") e); [|cbn [bind]; apply IH; assumption].
      assert (X : do_xf e y = Ok y).
      { unfold do_xf. destruct (y_kind y) as [[|[p|p|]|p]|]; try reflexivity. congruence. }
      rewrite X. cbn [bind]. apply IH; assumption.
Qed.
(** After the cell formats. *)
Lemma later_ok es fs : formats_in es fs -> none_called [lit "cellXfs"; lit "xf"] es -> forall y,
  exists y', foldM styles_elem es y = Ok y' /\ y_types y' = y_types y.
Proof.
  induction 1 as [|e es d code fs C S D SC _ IH|e es fs C _ IH]; intros N y.
  - exists y. split; reflexivity.
  - pose proof (none_rest _ _ _ N) as N2.
    destruct (IH N2 (mkstyles (set_format (y_dates y) (dec_value d, code)) (y_types y) (y_kind y) (y_count y))) as (y' & E & T).
    exists y'. split; [|exact T]. cbn [foldM]. unfold styles_elem at 1.
    rewrite (called_other _ (lit "cellStyleXfs") _ C) by (cbv; discriminate). rewrite (called_other _ (lit "cellXfs") _ C) by (cbv; discriminate).
    rewrite (proj2 (called_iff _ _) C). unfold do_numfmt. rewrite (get_says _ _ _ S). cbn [int_attr]. rewrite (digits_int d D). cbn [bind].
    rewrite (get_says _ _ _ SC). cbn [bind]. exact E.
  - pose proof (none_rest _ _ _ N) as N2. pose proof (none_here (lit "cellXfs") _ _ _ N ltac:(cbn; auto)) as N3. pose proof (none_here (lit "xf") _ _ _ N ltac:(cbn; auto)) as N5. cbn [foldM]. unfold styles_elem at 1.
    destruct (is_key (lit "cellStyleXfs") e) eqn:K1.
    + destruct (IH N2 (mkstyles (y_dates y) (y_types y) (Some 0) (y_count y))) as (y' & E & T). exists y'. split; [exact E|exact T].
    + rewrite N3, (proj2 (called_not _ _) C), N5. cbn [bind]. apply IH. exact N2.
Qed.
(** The cell formats. *)
Definition xf_kind (dates : dict bool) (key : Z) : Z :=
  if match dget key dates with Some b => b | None => false end then XL_CELL_DATE else XL_CELL_NUMBER.
Lemma xfs_ok es xs : xfs_in es xs -> none_called [lit "cellXfs"; lit "cellStyleXfs"; lit "numFmt"] es -> forall y, y_kind y = Some 1 -> 0 <= y_count y ->
  exists y', foldM styles_elem es y = Ok y' /\ y_dates y' = y_dates y /\
    forall i, dget i (y_types y') = match (if i <? y_count y then None else nth_error xs (Z.to_nat (i - y_count y))) with
                                    | Some key => Some (xf_kind (y_dates y) key)
                                    | None => dget i (y_types y)
                                    end.
Proof.
  assert (NE : forall e es, none_called [lit "cellXfs"; lit "cellStyleXfs"; lit "numFmt"] (e :: es) ->
    is_key (lit "cellXfs") e = false /\ is_key (lit "cellStyleXfs") e = false /\ is_key (lit "numFmt") e = false /\
    none_called [lit "cellXfs"; lit "cellStyleXfs"; lit "numFmt"] es).
  { intros e es1 N. repeat split; try (apply (none_here _ _ _ _ N); cbn; auto). exact (none_rest _ _ _ N). }
  assert (ST : forall key e es xs y, y_kind y = Some 1 -> 0 <= y_count y -> is_key (lit "xf") e = true ->
    int_of_text (match get (lit "numFmtId") e with Some t => t | None => lit "0" end) = Ok key ->
    is_key (lit "cellXfs") e = false -> is_key (lit "cellStyleXfs") e = false -> is_key (lit "numFmt") e = false ->
    (forall y, y_kind y = Some 1 -> 0 <= y_count y -> exists y', foldM styles_elem es y = Ok y' /\ y_dates y' = y_dates y /\
       forall i, dget i (y_types y') = match (if i <? y_count y then None else nth_error xs (Z.to_nat (i - y_count y))) with
                                       | Some key => Some (xf_kind (y_dates y) key)
                                       | None => dget i (y_types y)
                                       end) ->
    exists y', foldM styles_elem (e :: es) y = Ok y' /\ y_dates y' = y_dates y /\
       forall i, dget i (y_types y') = match (if i <? y_count y then None else nth_error (key :: xs) (Z.to_nat (i - y_count y))) with
                                       | Some key => Some (xf_kind (y_dates y) key)
                                       | None => dget i (y_types y)
                                       end).
  { intros key e es' xs' y K P X E N1 N2 N3 IH. cbn [foldM]. unfold styles_elem at 1. rewrite N1, N2, N3, X. unfold do_xf. rewrite K, E. cbn [bind].
    fold (xf_kind (y_dates y) key).
    destruct (IH (mkstyles (y_dates y) (dset (y_count y) (xf_kind (y_dates y) key) (y_types y)) (Some 1) (y_count y + 1)) eq_refl ltac:(cbn; lia)) as (y' & F & D & T).
    exists y'. split; [exact F|]. split; [exact D|]. intro i. rewrite T. cbn [y_count y_dates y_types].
    destruct (Z.ltb_spec i (y_count y)) as [L|L].
    - assert (i <? y_count y + 1 = true) as -> by lia. apply dget_dset_other. lia.
    - destruct (Z.eq_dec i (y_count y)) as [->|NE'].
      + assert (y_count y <? y_count y + 1 = true) as -> by lia. rewrite Z.sub_diag. cbn [Z.to_nat nth_error]. apply dget_dset_same.
      + assert (i <? y_count y + 1 = false) as -> by lia. replace (Z.to_nat (i - y_count y)) with (S (Z.to_nat (i - (y_count y + 1)))) by lia.
        cbn [nth_error]. destruct (nth_error xs' _); [reflexivity|]. apply dget_dset_other. lia. }
  induction 1 as [|e es d xs C S D _ IH|e es xs C S _ IH|e es xs C _ IH]; intros N y K P.
  - exists y. split; [reflexivity|]. split; [reflexivity|]. intro i. destruct (i <? y_count y); [reflexivity|]. destruct (Z.to_nat (i - y_count y)); reflexivity.
  - destruct (NE _ _ N) as (N1 & N2 & N3 & N4). apply (ST (dec_value d) e es xs y K P); try assumption; [apply called_iff, C|rewrite (get_says _ _ _ S); apply digits_int, D|].
    intros y1. apply IH. exact N4.
  - destruct (NE _ _ N) as (N1 & N2 & N3 & N4). apply (ST 0 e es xs y K P); try assumption; [apply called_iff, C|rewrite (get_silent _ _ S); reflexivity|].
    intros y1. apply IH. exact N4.
  - destruct (NE _ _ N) as (N1 & N2 & N3 & N4). destruct (IH N4 y K P) as (y' & F & R). exists y'. split; [|exact R]. cbn [foldM]. unfold styles_elem at 1.
    rewrite N1, N2, N3, (proj2 (called_not _ _) C). exact F.
Qed.


Lemma dget_true key l : dget key (map (fun k => (k, true)) l) = if existsb (Z.eqb key) l then Some true else None.
Proof. induction l as [|k l IH]; [reflexivity|]. cbn [map dget existsb]. rewrite IH. destruct (key =? k); reflexivity. Qed.
Lemma new_dates key : match dget key (y_dates new_styles) with Some b => b | None => false end = true <-> 14 <= key <= 22 \/ 45 <= key <= 47.
Proof.
  unfold new_styles. cbn [y_dates]. rewrite dget_true.
  assert (E : existsb (Z.eqb key) (zrange 14 23 ++ zrange 45 48) = true <-> 14 <= key <= 22 \/ 45 <= key <= 47).
  { let l := eval vm_compute in (zrange 14 23 ++ zrange 45 48) in change (zrange 14 23 ++ zrange 45 48) with l. cbn [existsb]. lia. }
  destruct (existsb _ _); rewrite <- E; split; congruence.
Qed.
Lemma xf_kind_ok fs key :
  date_key fs key /\ xf_kind (fold_left set_format fs (y_dates new_styles)) key = XL_CELL_DATE \/
  ~ date_key fs key /\ xf_kind (fold_left set_format fs (y_dates new_styles)) key = XL_CELL_NUMBER.
Proof.
  unfold xf_kind, date_key. rewrite set_formats_get. destruct (last_format key fs) as [t|].
  - rewrite <- BiffProofs.date_text_iff. destruct (is_date_format_string t); [left; auto|right; split; [discriminate|reflexivity]].
  - rewrite <- new_dates. destruct (match dget key (y_dates new_styles) with Some b => b | None => false end); [left; auto|right; split; [discriminate|reflexivity]].
Qed.
Lemma styles_ok root fs xs : styles_part root fs xs -> exists y, process_styles root = Ok y /\
  forall rows cols, types_told (date_xf fs xs) (Z.max 1 (Z.of_nat (length xs))) (mksetup false false (y_types y) rows cols).
Proof.
  intros [pre cx body post later L LX C N1 F N2 X N3 F2|es L N F ->]; unfold process_styles; rewrite <- (listed_iter _ _ L).
  - rewrite foldM_app. destruct (formats_ok pre fs F N1 new_styles ltac:(discriminate)) as (k & E & _). rewrite E. cbn [bind foldM].
    unfold styles_elem at 1. rewrite (called_other _ (lit "cellStyleXfs") _ C) by (cbv; discriminate). rewrite (proj2 (called_iff _ _) C). cbn [bind].
    rewrite foldM_app. match goal with |- context [foldM styles_elem body ?y] => destruct (xfs_ok body xs X N2 y eq_refl ltac:(cbn; lia)) as (y1 & E1 & D1 & T1) end.
    rewrite E1. cbn [bind]. destruct (later_ok post later F2 N3 y1) as (y2 & E2 & T2). exists y2. split; [exact E2|].
    intros rows cols xf R. cbn [su_types]. rewrite T2, T1. cbn [y_count y_dates y_types]. assert (xf <? y_count new_styles = false) as -> by (cbn; lia).
    change (y_count new_styles) with 0. rewrite Z.sub_0_r. unfold date_xf. destruct (nth_error xs (Z.to_nat xf)) as [key|] eqn:NX.
    + destruct (xf_kind_ok fs key) as [[D K]|[D K]]; rewrite K; [left|right]; (split; [|reflexivity]).
      * exists key. repeat split; [lia|exact D].
      * intros (key' & _ & E' & D'). injection E' as ->. contradiction.
    + apply nth_error_None in NX. assert (xf = 0) as -> by lia. right. split; [|reflexivity]. intros (key' & _ & E' & _). discriminate.
  - destruct (formats_ok es fs F N new_styles ltac:(discriminate)) as (k & E & _). rewrite E. eexists. split; [reflexivity|].
    intros rows cols xf R. cbn [length] in R. assert (xf = 0) as -> by lia. right. split; [|reflexivity]. intros (key' & _ & E' & _). discriminate.
Qed.
Lemma no_styles rows cols : types_told (date_xf [] []) (Z.max 1 (Z.of_nat (@length Z []))) (mksetup false false (y_types new_styles) rows cols).
Proof. intros xf R. cbn [length] in R. assert (xf = 0) as -> by lia. right. split; [|reflexivity]. intros (key' & _ & E' & _). discriminate. Qed.

(** ** Names of parts *)

Definition conv (c : N) : N := lower (if (c =? 92)%N then 47%N else c).
Lemma convert_map s : convert_filename s = map conv s.
Proof.
  unfold convert_filename, replace1. induction s as [|c s IH]; [reflexivity|]. cbn [flat_map map]. rewrite map_app, IH. unfold conv.
  destruct (c =? 92)%N; reflexivity.
Qed.
Lemma conv_same a b : conv a = conv b <-> same_char a b.
Proof.
  unfold conv, same_char, lower, is_upper. destruct (N.eqb_spec a 92), (N.eqb_spec b 92); cbn [andb];
    repeat match goal with |- context [if ?x then _ else _] => destruct x eqn:? end; lia.
Qed.
Lemma convert_same a b : convert_filename a = convert_filename b <-> same_name a b.
Proof.
  rewrite !convert_map. unfold same_name. split.
  - revert b. induction a as [|x a IH]; intros [|y b] H; try discriminate; [constructor|]. cbn in H. injection H as H1 H2.
    constructor; [apply conv_same, H1|apply IH, H2].
  - induction 1 as [|x y a b H _ IH]; [reflexivity|]. cbn [map]. rewrite IH. f_equal. apply conv_same, H.
Qed.
Lemma convert_small k : small_name k -> convert_filename k = k.
Proof.
  rewrite convert_map. induction 1 as [|c k [H1 H2] _ IH]; [reflexivity|]. cbn [map]. rewrite IH. f_equal. unfold conv, lower, is_upper.
  destruct (N.eqb_spec c 92); [contradiction|]. assert (((65 <=? c) && (c <=? 90))%N = false) as -> by lia. reflexivity.
Qed.
Lemma small_convert k : small_name (convert_filename k).
Proof.
  rewrite convert_map. apply Forall_map, Forall_forall. intros c _. unfold conv, lower, is_upper.
  destruct (N.eqb_spec c 92); [split; cbn; lia|]. destruct ((65 <=? c) && (c <=? 90))%N eqn:E; split; lia.
Qed.
Lemma convert_app a b : convert_filename (a ++ b) = convert_filename a ++ convert_filename b.
Proof. rewrite !convert_map. apply map_app. Qed.

Lemma component_none z n : missing_part z n -> component z (convert_filename n) = None.
Proof.
  induction 1 as [|[k p] z H _ IH]; [reflexivity|]. cbn [component]. rewrite IH.
  destruct (str_eqb (convert_filename k) (convert_filename n)) eqn:E; [|reflexivity]. apply str_eqb_eq, convert_same in E. contradiction.
Qed.
Lemma component_app z1 z2 key : component (z1 ++ z2) key = match component z2 key with Some k => Some k | None => component z1 key end.
Proof.
  induction z1 as [|[k p] z1 IH]; [cbn; destruct (component z2 key); reflexivity|]. cbn [app component]. rewrite IH.
  destruct (component z2 key); reflexivity.
Qed.
Lemma zf_open_app z1 z2 k : zf_open (z1 ++ z2) k = match zf_open z2 k with Some p => Some p | None => zf_open z1 k end.
Proof.
  induction z1 as [|[k' p] z1 IH]; [cbn; destruct (zf_open z2 k); reflexivity|]. cbn [app zf_open]. rewrite IH.
  destruct (zf_open z2 k); reflexivity.
Qed.
Lemma zf_open_none z k : ~ In k (map fst z) -> zf_open z k = None.
Proof.
  induction z as [|[k' p] z IH]; intro H; [reflexivity|]. cbn [zf_open]. rewrite IH by (intro I; apply H; right; exact I).
  destruct (str_eqb k' k) eqn:E; [|reflexivity]. apply str_eqb_eq in E. exfalso. apply H. left. exact E.
Qed.
Lemma member_open z k e : member_at z k e -> zf_open z k = Some (Some e).
Proof. intros (a & b & -> & N). rewrite zf_open_app. cbn [zf_open]. rewrite (zf_open_none b k N), str_eqb_refl. reflexivity. Qed.
Lemma part_component z n e : part_at z n e -> exists k, component z (convert_filename n) = Some k /\ zf_open z k = Some (Some e).
Proof.
  intros (a & k & b & -> & S & M). exists k. split.
  - rewrite component_app. cbn [component]. rewrite (component_none b n M), (proj2 (convert_same k n) S), str_eqb_refl. reflexivity.
  - apply member_open. exists a, b. split; [reflexivity|]. intro I. apply in_map_iff in I. destruct I as ([k' p] & E & I). cbn in E. subst k'.
    unfold missing_part in M. rewrite Forall_forall in M. apply (M _ I). exact S.
Qed.
Lemma part_ok z n e : part_at z n e -> has_part z (convert_filename n) = true /\ part z (convert_filename n) = Ok e.
Proof. intro P. destruct (part_component z n e P) as (k & C & O). unfold has_part, part, parse. rewrite C, O. auto. Qed.
Lemma part_missing z n : missing_part z n -> has_part z (convert_filename n) = false.
Proof. intro M. unfold has_part. rewrite (component_none z n M). reflexivity. Qed.
Lemma member_ok z k e : member_at z k e -> parse z k = Ok e.
Proof. intro M. unfold parse. rewrite (member_open _ _ _ M). reflexivity. Qed.
Lemma component_in z key k : component z key = Some k -> convert_filename k = key /\ In k (map fst z).
Proof.
  induction z as [|[k' p] z IH]; [discriminate|]. cbn [component map fst]. destruct (component z key) as [q|].
  - intro E. injection E as ->. destruct (IH eq_refl). split; [assumption|right; assumption].
  - destruct (str_eqb (convert_filename k') key) eqn:E; [|discriminate]. intro X. injection X as ->. apply str_eqb_eq in E. split; [exact E|left; reflexivity].
Qed.
Lemma has_part_member z k e : member_at z k e -> small_name k -> has_part z k = true.
Proof.
  intros (a & b & -> & N) S. unfold has_part. rewrite component_app. cbn [component]. rewrite (convert_small k S), str_eqb_refl.
  destruct (component b k); reflexivity.
Qed.

(** ** Relationships *)

Lemma split_on_last c d t : last (split_on c (d ++ c :: t)) [] = last (split_on c t) [].
Proof.
  induction d as [|x d IH]; cbn [app split_on].
  - rewrite N.eqb_refl. pose proof (split_on_nonempty c t). destruct (split_on c t); [congruence|reflexivity].
  - destruct (x =? c)%N.
    + pose proof (split_on_nonempty c (d ++ c :: t)). destruct (split_on c (d ++ c :: t)); [congruence|exact IH].
    + assert (TWO : exists f g r, split_on c (d ++ c :: t) = f :: g :: r).
      { clear IH. induction d as [|y d IH]; cbn [app split_on].
        - rewrite N.eqb_refl. pose proof (split_on_nonempty c t). destruct (split_on c t) as [|g r]; [congruence|]. eauto.
        - destruct IH as (f & g & r & E). rewrite E. destruct (y =? c)%N; eauto. }
      destruct TWO as (f & g & r & E). rewrite E in *. exact IH.
Qed.
Lemma no_slash t : ~ In 47%N t -> Forall (fun x => x <> 47%N) t.
Proof. intro H. apply Forall_forall. intros x I ->. contradiction. Qed.
Lemma last_piece_ok t k : after_slash t k -> last_piece t = k.
Proof.
  unfold last_piece. intros [u N|d u N].
  - rewrite split_on_none by (apply no_slash, N). reflexivity.
  - rewrite split_on_last, split_on_none by (apply no_slash, N). reflexivity.
Qed.

Lemma same_id_iff a b : same_id (Some a) (Some b) = true <-> a = b.
Proof. apply str_eqb_eq. Qed.
Lemma rel_get_set id v r : rel_get id (rel_set id v r) = Some v.
Proof.
  assert (R : same_id id id = true) by (destruct id; [apply str_eqb_refl|reflexivity]).
  induction r as [|[k w] r IH]; cbn [rel_set rel_get]; [rewrite R; reflexivity|]. destruct (same_id id k) eqn:E; cbn [rel_get]; rewrite E; [reflexivity|exact IH].
Qed.
Lemma rel_get_other a b v r : a <> b -> rel_get (Some a) (rel_set (Some b) v r) = rel_get (Some a) r.
Proof.
  intro N. assert (AB : same_id (Some a) (Some b) = false) by (cbn; apply str_eqb_neq, N).
  induction r as [|[k w] r IH]; cbn [rel_set rel_get]; [rewrite AB; reflexivity|]. destruct (same_id (Some b) k) eqn:E; cbn [rel_get].
  - destruct k as [k|]; [|discriminate E]. apply same_id_iff in E. subst k. rewrite AB. reflexivity.
  - destruct (same_id (Some a) k); [reflexivity|exact IH].
Qed.
Definition path_of (target : str) : str :=
  match convert_filename target with 47%N :: rest => rest | _ => lit "xl/" ++ convert_filename target end.
Lemma path_ok t n : target_name t n -> path_of t = convert_filename n.
Proof.
  intros [c u S|u S]; unfold path_of.
  - rewrite !convert_map. cbn [map]. replace (conv c) with 47%N by (destruct S as [->| ->]; reflexivity). reflexivity.
  - rewrite convert_app. change (convert_filename (lit "xl/")) with (lit "xl/").
    destruct u as [|c u]; [reflexivity|]. rewrite convert_map. cbn [map]. specialize (S c u eq_refl).
    assert (X : conv c <> 47%N).
    { unfold conv, lower, is_upper, slash in *. destruct (N.eqb_spec c 92); [tauto|]. destruct ((65 <=? c) && (c <=? 90))%N eqn:E; [lia|tauto]. }
    destruct (conv c) as [|p]; [reflexivity|]. do 6 (destruct p as [p|p|]; try reflexivity). congruence.
Qed.
Lemma relations_ok es rels : relations_in es rels -> forall r, exists r', foldM add_rel (filter relationship es) r = Ok r' /\
  (forall id, ~ In id (map rl_id rels) -> rel_get (Some id) r' = rel_get (Some id) r) /\
  (NoDup (map rl_id rels) -> forall id kind target, In (mkrel id kind target) rels -> rel_get (Some id) r' = Some (kind, path_of target)).
Proof.
  induction 1 as [|e es id type kind target rs T I TY K TA _ IH|e es rs T _ IH]; intro r.
  - exists r. split; [reflexivity|]. split; [reflexivity|]. intros _ ? ? ? [].
  - cbn [filter]. unfold relationship at 1. change U_PKGREL with package_ns. rewrite T, str_eqb_refl. cbn [foldM]. unfold add_rel at 1.
    rewrite (get_says _ _ _ TA), (get_says _ _ _ TY), (get_says _ _ _ I), (last_piece_ok _ _ K). cbn [bind].
    fold (path_of target). destruct (IH (rel_set (Some id) (kind, path_of target) r)) as (r' & E & H1 & H2). exists r'. split; [exact E|].
    cbn [map rl_id]. split.
    + intros id' N. rewrite H1 by (intro X; apply N; right; exact X). apply rel_get_other. intro X. apply N. left. congruence.
    + intros ND id' kind' target' [X|X]; inversion ND as [|? ? N1 N2]; subst.
      * injection X as <- <- <-. rewrite H1 by exact N1. apply rel_get_set.
      * apply H2; assumption.
  - cbn [filter]. unfold relationship at 1. change U_PKGREL with package_ns. rewrite (proj2 (str_eqb_neq _ _) T). apply IH.
Qed.

(** ** The workbook *)

Lemma natural_ok e n : natural_attr e n -> check_unsigned (get n e) = Ok tt.
Proof.
  intros [H|[H|(d & H & D)]].
  - rewrite (get_silent _ _ H). reflexivity.
  - rewrite (get_says _ _ _ H). reflexivity.
  - rewrite (get_says _ _ _ H). unfold check_unsigned. pose proof (digits_int d D) as E. destruct D as [N D]. destruct d as [|c d]; [congruence|]. rewrite E. cbn [bind].
    pose proof (dec_value_nonneg _ D). assert (0 <=? dec_value (c :: d) = true) as -> by lia. reflexivity.
Qed.
Lemma defined_ok l : Forall good_defined_name l -> foldM do_defined_name l tt = Ok tt.
Proof.
  induction 1 as [|e l (A & B & (b1 & C1) & (b2 & C2) & (b3 & C3) & (b4 & C4)) _ IH]; [reflexivity|]. cbn [foldM].
  assert (E : do_defined_name e tt = Ok tt).
  { unfold do_defined_name. rewrite (natural_ok _ _ A), (flag_ok _ _ _ C1), (flag_ok _ _ _ C2), (flag_ok _ _ _ C3), (flag_ok _ _ _ C4). cbn [bind]. apply natural_ok, B. }
  rewrite E. exact IH.
Qed.
Definition tab_paths (ws : list (str * str)) : list (str * str) := map (fun w => (fst w, convert_filename (snd w))) ws.
Lemma book_ok rels r : NoDup (map rl_id rels) ->
  (forall id kind target, In (mkrel id kind target) rels -> rel_get (Some id) r = Some (kind, path_of target)) ->
  forall dm es ts dm', tabs_in dm es ts dm' -> forall ws, worksheets rels ts ws -> forall acc,
  foldM (book_elem r) es (mkx12 acc dm) = Ok (mkx12 (acc ++ tab_paths ws) dm').
Proof.
  intros ND RG. induction 1 as [dm|dm e es d name text id ts dm' C SI D NA ES ID _ IH|dm e es b ts dm' C F _ IH|dm e es ts dm' C F _ IH|dm e es ts dm' N1 N2 N3 _ IH]; intros ws W acc.
  - inversion W; subst. cbn. rewrite app_nil_r. reflexivity.
  - cbn [foldM]. unfold book_elem at 1.
    rewrite (called_other _ (lit "definedNames") _ C) by (cbv; discriminate). rewrite (called_other _ (lit "workbookPr") _ C) by (cbv; discriminate).
    rewrite (proj2 (called_iff _ _) C). unfold do_sheet. rewrite (get_says _ _ _ SI). cbn [int_attr]. rewrite (digits_int d D). cbn [bind].
    rewrite (get_says _ _ _ NA). change U_ODREL with office_ns. rewrite (get_says _ _ _ ID).
    inversion W as [|name' id' target part ts' ws' I TN W' E1 E2|name' id' kind target ts' ws' I KN W' E1 E2]; subst.
    + rewrite (RG _ _ _ I), str_eqb_refl. cbn [bind x_sheets x_datemode]. rewrite (IH _ W'), (unescape_ok _ _ ES), (path_ok _ _ TN).
      unfold tab_paths. cbn [map fst snd]. rewrite <- app_assoc. reflexivity.
    + rewrite (RG _ _ _ I). rewrite (proj2 (str_eqb_neq _ _) KN). cbn [bind]. apply IH, W'.
  - cbn [foldM]. unfold book_elem at 1. rewrite (called_other _ (lit "definedNames") _ C) by (cbv; discriminate).
    rewrite (proj2 (called_iff _ _) C), (flag_ok _ _ _ F). cbn [bind x_sheets]. apply IH, W.
  - cbn [foldM]. unfold book_elem at 1. rewrite (proj2 (called_iff _ _) C), (defined_ok _ F). cbn [bind]. apply IH, W.
  - cbn [foldM]. unfold book_elem at 1. rewrite (proj2 (called_not _ _) N1), (proj2 (called_not _ _) N2), (proj2 (called_not _ _) N3). cbn [bind]. apply IH, W.
Qed.
Lemma tabs_told z dm ws : lists_sheets z dm ws -> exists r rels b x,
  part z (lit "xl/_rels/workbook.xml.rels") = Ok r /\ process_rels r = Ok rels /\ has_part z (lit "xl/workbook.xml") = true /\
  part z (lit "xl/workbook.xml") = Ok b /\ process_book rels b = Ok x /\ x = mkx12 (tab_paths ws) dm.
Proof.
  intros (r & rels & b & es & ts & P1 & R & ND & P2 & L & T & W).
  destruct (relations_ok _ _ R []) as (rs & E & _ & RG).
  exists r, rs, b, (mkx12 (tab_paths ws) dm). split; [exact (proj2 (part_ok _ _ _ P1))|]. split; [exact E|].
  split; [exact (proj1 (part_ok _ _ _ P2))|]. split; [exact (proj2 (part_ok _ _ _ P2))|]. split; [|reflexivity].
  unfold process_book. rewrite <- (listed_iter _ _ L). apply (book_ok rels rs ND (RG ND) _ _ _ _ T _ W []).
Qed.

(** ** Comments *)

Lemma comment_ok root a b rest : e_children root = a :: b :: rest -> named (lit "authors") a -> named (lit "commentList") b ->
  (forall c, In c (e_children b) -> named (lit "comment") c -> good_comment (Z.of_nat (length (e_children a))) c) -> process_comments root = Ok tt.
Proof.
  intros E A B G. unfold process_comments. rewrite E, (proj2 (named_iff _ _) A), (proj2 (named_iff _ _) B). cbn [negb].
  assert (F : Forall (good_comment (Z.of_nat (length (e_children a)))) (filter (is_tag (lit "comment")) (e_children b))).
  { apply Forall_forall. intros c I. apply filter_In in I. destruct I as [I T]. apply G; [exact I|apply named_iff, T]. }
  induction F as [|c l (d & t & r & k & S1 & D & L & S2 & AD) _ IH]; [reflexivity|]. cbn [foldM].
  assert (X : do_comment (map e_text (e_children a)) c tt = Ok tt).
  { unfold do_comment. rewrite (get_says _ _ _ S1). cbn [int_attr]. rewrite (digits_int d D). cbn [bind].
    pose proof (dec_value_nonneg d (proj2 D)). rewrite py_index_nonneg by assumption.
    destruct (nth_error (map e_text (e_children a)) (Z.to_nat (dec_value d))) eqn:N.
    - rewrite (get_says _ _ _ S2), (address_ok _ _ _ false AD). reflexivity.
    - apply nth_error_None in N. rewrite map_length in N. lia. }
  rewrite X. exact IH.
Qed.
Lemma comments_ok root : comments_part root -> process_comments root = Ok tt.
Proof. intros (a & b & rest & E & A & B & G). exact (comment_ok root a b rest E A B G). Qed.

Lemma file_name_comp x : file_name x -> str_eqb x [] = false /\ str_eqb x (lit ".") = false /\ str_eqb x (lit "..") = false /\ split_on 47 x = [x].
Proof.
  intros [N F]. repeat split; try (apply str_eqb_neq; intros ->; apply F; cbn; tauto). apply split_on_none, no_slash, N.
Qed.
Lemma comments_path t n : comments_name t n -> normpath (join_path t) = n.
Proof.
  intros [x F|x F]; destruct (file_name_comp x F) as (E1 & E2 & E3 & E4).
  - change (join_path (lit "../" ++ x)) with (lit "xl" ++ 47%N :: lit "worksheets" ++ 47%N :: lit ".." ++ 47%N :: x).
    unfold normpath. change (match lit "xl" ++ 47%N :: lit "worksheets" ++ 47%N :: lit ".." ++ 47%N :: x with
              | 47%N :: 47%N :: 47%N :: _ => lit "/" | 47%N :: 47%N :: _ => lit "//" | 47%N :: _ => lit "/" | _ => [] end) with (@nil N).
    rewrite !split_on_app by (apply no_slash; cbn; lia). rewrite E4. cbn [app norm_comps]. rewrite E1, E2, E3.
    repeat match goal with |- context [str_eqb ?a ?b] => let r := eval vm_compute in (str_eqb a b) in replace (str_eqb a b) with r by reflexivity end.
    reflexivity.
  - assert (J : join_path x = lit "xl" ++ 47%N :: lit "worksheets" ++ 47%N :: x).
    { destruct x as [|c x]; [exfalso; apply F; left; reflexivity|]. unfold join_path. assert (X : c <> 47%N) by (intros ->; apply (proj1 F); left; reflexivity).
      destruct c as [|p]; [reflexivity|]. do 6 (destruct p as [p|p|]; try reflexivity). congruence. }
    rewrite J. unfold normpath. change (match lit "xl" ++ 47%N :: lit "worksheets" ++ 47%N :: x with
              | 47%N :: 47%N :: 47%N :: _ => lit "/" | 47%N :: 47%N :: _ => lit "//" | 47%N :: _ => lit "/" | _ => [] end) with (@nil N).
    rewrite !split_on_app by (apply no_slash; cbn; lia). rewrite E4. cbn [app norm_comps]. rewrite E1, E2, E3.
    repeat match goal with |- context [str_eqb ?a ?b] => let r := eval vm_compute in (str_eqb a b) in replace (str_eqb a b) with r by reflexivity end.
    reflexivity.
Qed.
Lemma absolute_path t : exists u, normpath (join_path (47%N :: t)) = 47%N :: u.
Proof.
  cbn [join_path]. unfold normpath. set (j := join_comps _).
  assert (R : exists v, match 47%N :: t with 47%N :: 47%N :: 47%N :: _ => lit "/" | 47%N :: 47%N :: _ => lit "//" | 47%N :: _ => lit "/" | _ => [] end = 47%N :: v).
  { destruct t as [|c t]; [eexists; reflexivity|]. destruct c as [|p]; [eexists; reflexivity|]. do 6 (destruct p as [p|p|]; try (eexists; reflexivity)).
    destruct t as [|c t]; [eexists; reflexivity|]. destruct c as [|p]; [eexists; reflexivity|]. do 6 (destruct p as [p|p|]; try (eexists; reflexivity)). }
  destruct R as [v E]. rewrite E. cbn [app]. eexists. reflexivity.
Qed.
Lemma has_part_small z n : ~ small_name n -> has_part z n = false.
Proof.
  intro S. unfold has_part. destruct (component z n) as [k|] eqn:C; [|reflexivity]. apply component_in in C. destruct C as [C _].
  exfalso. apply S. rewrite <- C. apply small_convert.
Qed.
Lemma has_part_absent z n : missing_part z n -> has_part z n = false.
Proof.
  intro M. unfold has_part. destruct (component z n) as [k|] eqn:C; [|reflexivity]. apply component_in in C. destruct C as [C I].
  exfalso. unfold missing_part in M. rewrite Forall_forall in M. apply in_map_iff in I. destruct I as (m & E & I). apply (M m I). rewrite E.
  apply convert_same. rewrite <- C. symmetry. apply convert_small, small_convert.
Qed.
Lemma small_dec n : small_name n \/ ~ small_name n.
Proof.
  unfold small_name. induction n as [|c n [IH|IH]]; [left; constructor| |right; intro H; inversion H; contradiction].
  destruct (N.eq_dec c 92) as [->|N]; [right; intro H; inversion H as [|? ? [_ X] _]; congruence|].
  destruct ((65 <=? c) && (c <=? 90))%N eqn:E; [right; intro H; inversion H as [|? ? [X _] _]; lia|left; constructor; [split; lia|exact IH]].
Qed.
Lemma harmless_ok z id kind target : harmless z kind target -> process_comment_rel z (id, (kind, normpath (join_path target))) tt = Ok tt.
Proof.
  intros [N|t -> A|n CN M|n root CN M C]; unfold process_comment_rel.
  - rewrite (proj2 (str_eqb_neq _ _) N). reflexivity.
  - destruct (absolute_path t) as [u E]. rewrite E. assert (X : has_part z (47%N :: u) = false); [|rewrite X, Bool.andb_false_r; reflexivity].
    unfold has_part. destruct (component z (47%N :: u)) as [k|] eqn:C; [|reflexivity]. exfalso. apply component_in in C. destruct C as [C I].
    apply in_map_iff in I. destruct I as (m & EM & I). rewrite Forall_forall in A. rewrite convert_map in C. destruct k as [|c k]; [discriminate C|]. cbn [map] in C. injection C as C _.
    apply (A m I c k EM). unfold slash. unfold conv, lower, is_upper in C. destruct (N.eqb_spec c 92); [auto|]. destruct ((65 <=? c) && (c <=? 90))%N eqn:X; lia.
  - rewrite (comments_path _ _ CN). assert (X : has_part z n = false); [|rewrite X, Bool.andb_false_r; reflexivity].
    destruct M as [M|M]; [apply has_part_absent, M|apply has_part_small, M].
  - rewrite (comments_path _ _ CN), (member_ok _ _ _ M). cbn [bind]. rewrite (comments_ok _ C). destruct (_ && _); reflexivity.
Qed.
Lemma rel_set_forall (P : str * str -> Prop) id v r : P v -> Forall (fun x => P (snd x)) r -> Forall (fun x => P (snd x)) (rel_set id v r).
Proof.
  intros H F. induction F as [|[k w] r H1 F IH]; cbn [rel_set]; [repeat constructor; exact H|]. destruct (same_id id k); constructor; assumption.
Qed.
Lemma sheet_rels_ok z es : (forall e, In e es -> e_tag e = package_ns ++ lit "Relationship" ->
    exists type kind target, says e (lit "Type") type /\ after_slash type kind /\ says e (lit "Target") target /\ harmless z kind target) ->
  forall r, Forall (fun x => forall id, process_comment_rel z (id, snd x) tt = Ok tt) r ->
  exists r', foldM add_sheet_rel (filter relationship es) r = Ok r' /\ Forall (fun x => forall id, process_comment_rel z (id, snd x) tt = Ok tt) r'.
Proof.
  induction es as [|e es IH]; intros H r F; [exists r; split; [reflexivity|exact F]|]. cbn [filter]. destruct (relationship e) eqn:R.
  - unfold relationship in R. apply str_eqb_eq in R. destruct (H e (or_introl eq_refl) R) as (type & kind & target & TY & K & TA & HA).
    cbn [foldM]. unfold add_sheet_rel at 1. rewrite (get_says _ _ _ TY), (get_says _ _ _ TA), (last_piece_ok _ _ K). cbn [bind].
    apply IH; [intros e' I; apply H; right; exact I|].
    apply (rel_set_forall (fun v => forall id, process_comment_rel z (id, v) tt = Ok tt)); [|exact F]. intro id. apply harmless_ok, HA.
  - apply IH; [intros e' I; apply H; right; exact I|exact F].
Qed.
Lemma comment_rels_ok z r : Forall (fun x => forall id, process_comment_rel z (id, snd x) tt = Ok tt) r -> foldM (process_comment_rel z) r tt = Ok tt.
Proof. induction 1 as [|[id v] r H _ IH]; [reflexivity|]. cbn [foldM]. specialize (H id). cbn [snd] in H. rewrite H. exact IH. Qed.

Lemma after_last_convert n x : after_last slash n x -> after_slash (convert_filename n) (convert_filename x).
Proof.
  assert (S : forall t, Forall (fun c => ~ slash c) t -> ~ In 47%N (convert_filename t)).
  { intros t F I. rewrite convert_map in I. apply in_map_iff in I. destruct I as (c & E & I). rewrite Forall_forall in F. apply (F c I).
    unfold slash. unfold conv, lower, is_upper in E. destruct (N.eqb_spec c 92); [auto|]. destruct ((65 <=? c) && (c <=? 90))%N eqn:X; lia. }
  intros [t F|d s t SL F].
  - apply as_all, S, F.
  - rewrite convert_app. change (s :: t) with ([s] ++ t). rewrite convert_app. replace (convert_filename [s]) with [47%N] by (destruct SL as [->| ->]; reflexivity).
    apply as_last, S, F.
Qed.

(** ** Sheets in the archive, and the book *)

Lemma load_ok z su shared date xfs w c : su_ragged su = false -> su_max_rows su = 2 ^ 20 -> su_max_cols su = 2 ^ 14 -> types_told date xfs su ->
  sheet_at z shared date xfs w c -> exists sh, load_sheet z su shared (convert_filename (snd w)) = Ok sh /\ shows_sheet c sh.
Proof.
  intros R S1 S2 T (_ & SR & root & P & SP). destruct (sheet_ok su shared date xfs root c R S1 S2 T SP) as (st & g & E & TI & SH).
  exists (sheet_of g). split; [|exact SH]. unfold load_sheet. rewrite (proj2 (part_ok _ _ _ P)). cbn [bind]. rewrite E. cbn [bind].
  assert (X : exists rels, (if has_part z (lit "xl/worksheets/_rels/" ++ last_piece (convert_filename (snd w)) ++ lit ".rels")
    then do root <- parse z (lit "xl/worksheets/_rels/" ++ last_piece (convert_filename (snd w)) ++ lit ".rels"); process_sheet_rels root else Ok []) = Ok rels /\
    Forall (fun x => forall id, process_comment_rel z (id, snd x) tt = Ok tt) rels).
  { destruct SR as [x AL M|x k root' AL SN SM ME HA]; rewrite (last_piece_ok _ _ (after_last_convert _ _ AL)).
    - exists []. split; [|constructor]. replace (lit "xl/worksheets/_rels/" ++ convert_filename x ++ lit ".rels") with (convert_filename (lit "xl/worksheets/_rels/" ++ x ++ lit ".rels")) by (rewrite !convert_app; reflexivity).
      rewrite (part_missing _ _ M). reflexivity.
    - replace (lit "xl/worksheets/_rels/" ++ convert_filename x ++ lit ".rels") with k.
      + rewrite (has_part_member _ _ _ ME SM), (member_ok _ _ _ ME). cbn [bind]. exact (sheet_rels_ok z _ HA [] (Forall_nil _)).
      + rewrite <- (convert_small k SM). rewrite (proj2 (convert_same _ _) SN). rewrite !convert_app. reflexivity. }
  destruct X as (rels & -> & F). cbn [bind]. rewrite (comment_rels_ok _ _ F). cbn [bind]. rewrite TI. reflexivity.
Qed.
Lemma loads_ok z su shared date xfs ws l : su_ragged su = false -> su_max_rows su = 2 ^ 20 -> su_max_cols su = 2 ^ 14 -> types_told date xfs su ->
  Forall2 (sheet_at z shared date xfs) ws l ->
  exists shs, mapM (fun s => load_sheet z su shared (snd s)) (tab_paths ws) = Ok shs /\ Forall2 shows_sheet l shs /\ map fst (tab_paths ws) = map ct_name l.
Proof.
  intros R S1 S2 T. induction 1 as [|w c ws l H _ (shs & E & F & N)]; [exists []; repeat split; constructor|].
  destruct (load_ok z su shared date xfs w c R S1 S2 T H) as (sh & E1 & SH). exists (sh :: shs). cbn [tab_paths map mapM fst snd].
  rewrite E1. cbn [bind]. fold (tab_paths ws). rewrite E. cbn [bind]. split; [reflexivity|]. split; [constructor; assumption|].
  rewrite N. destruct H as (-> & _). reflexivity.
Qed.
Lemma shared_ok z l : shared_at z l ->
  foldM (fun key sst => if has_part z key then do root <- part z key; Ok (sst ++ process_sst root) else Ok sst)
    [lit "xl/sharedstrings.xml"; lit "sharedstrings.xml"] [] = Ok l.
Proof.
  change (lit "xl/sharedstrings.xml") with (convert_filename (lit "xl/sharedStrings.xml")).
  change (lit "sharedstrings.xml") with (convert_filename (lit "sharedStrings.xml")).
  intros [M1 M2|here other root es l' HO P M MA F]; cbn [foldM].
  - rewrite (part_missing _ _ M1), (part_missing _ _ M2). reflexivity.
  - destruct (part_ok _ _ _ P) as [P1 P2]. pose proof (part_missing _ _ M) as M1. pose proof (process_sst_ok _ _ _ MA F) as SS.
    destruct HO as [E|E]; apply pair_equal_spec in E; destruct E as [-> ->]; rewrite M1, P1, P2; cbn [bind app]; rewrite SS; reflexivity.
Qed.
Lemma opens_ok z dm l : xlsx_file z dm l -> exists shs, open_zip z = Ok (mkbook (map ct_name l) shs dm) /\ Forall2 shows_sheet l shs.
Proof.
  intros (ws & formats & xfs & shared & TB & CP & SY & SA & SH). destruct (tabs_told z dm ws TB) as (r & rels & b & x & P1 & R & H & P2 & B & ->).
  unfold open_zip. rewrite H. unfold open_xlsx. rewrite P1. cbn [bind]. rewrite R. cbn [bind]. rewrite P2. cbn [bind]. rewrite B. cbn [bind].
  assert (C : (if has_part z (lit "docprops/core.xml") then do _ <- part z (lit "docprops/core.xml"); Ok tt else Ok tt) = Ok tt).
  { change (lit "docprops/core.xml") with (convert_filename (lit "docProps/core.xml")). destruct CP as [M|[e P]].
    - rewrite (part_missing _ _ M). reflexivity.
    - destruct (part_ok _ _ _ P) as [-> ->]. reflexivity. }
  rewrite C. cbn [bind].
  assert (Y : exists y, (if has_part z (lit "xl/styles.xml") then do root <- part z (lit "xl/styles.xml"); process_styles root else Ok new_styles) = Ok y /\
     forall rows cols, types_told (date_xf formats xfs) (Z.max 1 (Z.of_nat (length xfs))) (mksetup false false (y_types y) rows cols)).
  { change (lit "xl/styles.xml") with (convert_filename (lit "xl/styles.xml")). destruct SY as [(M & -> & ->)|(root & P & S)].
    - rewrite (part_missing _ _ M). exists new_styles. split; [reflexivity|apply no_styles].
    - destruct (part_ok _ _ _ P) as [-> ->]. cbn [bind]. apply styles_ok, S. }
  destruct Y as (y & E & TT). rewrite E. cbn [bind]. rewrite (shared_ok z shared SA). cbn [bind x_sheets x_datemode].
  destruct (loads_ok z (mksetup false false (y_types y) (2 ^ 20) (2 ^ 14)) shared _ _ ws l eq_refl eq_refl eq_refl (TT _ _) SH) as (shs & E2 & F & N).
  exists shs. rewrite E2. cbn [bind]. rewrite N. split; [reflexivity|exact F].
Qed.

(** ** What is refused *)

Lemma foldM_in A S (f : A -> S -> res S) l s s' x : foldM f l s = Ok s' -> In x l -> exists s1 s2, f x s1 = Ok s2.
Proof.
  revert s. induction l as [|y l IH]; intros s E I; [destruct I|]. cbn [foldM] in E. destruct (f y s) as [s1|e] eqn:Y; [|discriminate E]. cbn [bind] in E.
  destruct I as [->|I]; [eauto|exact (IH _ E I)].
Qed.
Lemma in_ends n : forall root e, e = root \/ within e root -> In (at_end n e) (ends n root).
Proof.
  induction root as [root IH] using elem_ind'. intros e H.
  assert (EN : ends n root = flat_map (ends n) (e_children root) ++ [at_end n root]) by (destruct root; reflexivity). rewrite EN. apply in_or_app.
  destruct H as [->|W]; [right; left; reflexivity|left]. apply in_flat_map. rewrite Forall_forall in IH.
  inversion W; subst; [exists e; split; [assumption|apply IH; [assumption|left; reflexivity]]|exists c; split; [assumption|apply IH; [assumption|right; assumption]]].
Qed.
Lemma at_end_attrs n e : e_attrs (at_end n e) = e_attrs e. Proof. destruct e; reflexivity. Qed.
Lemma at_end_text n e : e_text (at_end n e) = e_text e. Proof. destruct e; reflexivity. Qed.
Lemma at_end_get n e a : get a (at_end n e) = get a e. Proof. unfold get. rewrite at_end_attrs. reflexivity. Qed.
Lemma at_end_children n e : e_children (at_end n e) = map (fun c => if is_tag n c then clear c else at_end n c) (e_children e).
Proof. destruct e; reflexivity. Qed.
Lemma at_end_is_tag n m e : is_tag m (at_end n e) = is_tag m e. Proof. unfold is_tag. rewrite at_end_tag. reflexivity. Qed.
Lemma at_end_value l : forall v, children_value v_text (map (fun c => if is_tag (lit "row") c then clear c else at_end (lit "row") c) l) v = children_value v_text l v.
Proof.
  induction l as [|c l IH]; intro v; [reflexivity|]. cbn [map children_value].
  assert (E : v_text (if is_tag (lit "row") c then clear c else at_end (lit "row") c) = v_text c /\
              is_tag (lit "f") (if is_tag (lit "row") c then clear c else at_end (lit "row") c) = is_tag (lit "f") c).
  { destruct (is_tag (lit "row") c) eqn:R.
    - apply named_iff in R. split; [|reflexivity]. unfold v_text. change (is_tag (lit "v") (clear c)) with (is_tag (lit "v") c).
      rewrite (named_other _ (lit "v") _ R) by discriminate. reflexivity.
    - split; [|apply at_end_is_tag]. unfold v_text. rewrite at_end_is_tag, at_end_text. reflexivity. }
  destruct E as [-> ->]. destruct (v_text c); [apply IH|]. destruct (is_tag (lit "f") c); [apply IH|reflexivity].
Qed.

(** Every cell of every row of a sheet that is read can be read. *)
Lemma row_read su sst root st row : process_sheet su sst root = Ok st -> row = root \/ within row root -> named (lit "row") row ->
  exists rowx, (forall d, get (lit "r") row = Some d -> exists n, int_of_text d = Ok n /\ rowx = n - 1) /\ 0 <= rowx < 2 ^ 20 /\
  forall c, In c (e_children row) -> named (lit "c") c -> exists s1 s2, do_cell su sst (get (lit "r") row) rowx (at_end (lit "row") c) s1 = Ok s2.
Proof.
  intros E W N. unfold process_sheet in E. destruct (foldM_in _ _ _ _ _ _ _ E (in_ends (lit "row") root row W)) as (s1 & s2 & F). clear E.
  unfold sheet_elem in F. rewrite at_end_is_tag, (proj2 (named_iff _ _) N) in F. unfold do_row in F. rewrite at_end_get in F.
  destruct (match get (lit "r") row with None => Ok (s_rowx s1 + 1) | Some r => do n <- int_of_text r; Ok (n - 1) end) as [rowx|e] eqn:RX; [|discriminate F].
  cbn [bind] in F. destruct (negb ((0 <=? rowx) && (rowx <? 2 ^ 20))) eqn:B; [discriminate F|].
  destruct (foldM _ _ _) as [st'|e] eqn:FO; [|discriminate F].
  exists rowx. split; [|split; [lia|]].
  - intros d G. rewrite G in RX. destruct (int_of_text d) as [n|x]; [|discriminate RX]. cbn [bind] in RX. injection RX as <-. eauto.
  - intros c I NC. eapply foldM_in; [exact FO|]. rewrite at_end_children. apply in_map_iff. exists c. split; [|exact I].
    rewrite (named_other _ (lit "row") _ NC) by discriminate. reflexivity.
Qed.
Lemma bad_cell_fails su sst row rowx c s1 s2 : bad_cell sst row c -> do_cell su sst (get (lit "r") row) rowx (at_end (lit "row") c) s1 = Ok s2 -> False.
Proof.
  intros B E. destruct s1 as [colx g]. unfold do_cell in E. destruct (cell_column _ _ _) as [colx'|e] eqn:CC; [|discriminate E]. cbn [bind] in E.
  destruct (int_of_text _) as [xf|e]; [|discriminate E]. cbn [bind] in E. destruct (cell_content _ _) as [o|e] eqn:CT; [|discriminate E]. clear E.
  unfold cell_content in CT. rewrite at_end_get, at_end_children, !at_end_value in CT.
  destruct B as [k S N|n s l d SR SC D RD NE|d K V D L|t K V NE T|t K V T].
  - rewrite (get_says _ _ _ S) in CT. cbn [In] in N.
    repeat match type of CT with context [str_eqb k ?b] => rewrite (proj2 (str_eqb_neq k b)) in CT by (intros ->; tauto) end. discriminate CT.
  - clear CT. unfold cell_column in CC. rewrite at_end_get, (get_says _ _ _ SC), (get_says _ _ _ SR) in CC.
    destruct (Z.lt_ge_cases (column_no l) (2 ^ 14)) as [LT|GE].
    + destruct (cell_name_parts s d l D RD LT) as [E1 E2]. rewrite E1 in CC. cbn [bind] in CC. rewrite E2, (proj2 (str_eqb_neq _ _) NE) in CC. discriminate CC.
    + destruct (row_digits_parts d RD) as (_ & AD & _). rewrite upper_str_app, (upper_str_digits d AD), name_loop_signs in CC by (eapply column_signs; exact D).
      destruct D as [CTX E]. rewrite E in CC. destruct RD as (_ & x & d' & -> & NX). inversion AD; subst. cbn [row_name_loop] in CC.
      assert (X1 : (x =? 36)%N = false) by lia. rewrite X1 in CC.
      assert (X2 : letter_value x = Some 0).
      { unfold letter_value. assert (is_upper x = false) as -> by (unfold is_upper; lia). assert (((49 <=? x) && (x <=? 57))%N = true) as -> by lia. reflexivity. }
      rewrite X2 in CC. cbn [Z.eqb negb] in CC. unfold column_no in GE.
      match type of CC with context [if ?b then _ else _] => assert (X3 : b = false) by lia; rewrite X3 in CC end. discriminate CC.
  - rewrite (kind_ok _ _ K) in CT.
    repeat match type of CT with context [str_eqb ?a ?b] => let r := eval vm_compute in (str_eqb a b) in replace (str_eqb a b) with r in CT by reflexivity end.
    cbv iota in CT. rewrite (value_text_none _ _ V) in CT. cbn [bind] in CT. pose proof (digits_int d D) as E. destruct D as [D1 D2]. destruct d as [|x u]; [congruence|]. rewrite E in CT. cbn [bind] in CT.
    rewrite py_index_nonneg in CT by (apply dec_value_nonneg; exact D2). rewrite (proj2 (nth_error_None sst _)) in CT by lia. discriminate CT.
  - rewrite (kind_ok _ _ K) in CT.
    repeat match type of CT with context [str_eqb ?a ?b] => let r := eval vm_compute in (str_eqb a b) in replace (str_eqb a b) with r in CT by reflexivity end.
    cbv iota in CT. rewrite (value_text_none _ _ V) in CT. cbn [bind] in CT. unfold cnv_xsd_boolean in CT. destruct t as [|x t]; [congruence|].
    destruct (existsb _ [lit "1"; _; _]) eqn:E1.
    + apply existsb_exists in E1. destruct E1 as (y & I & Y). apply str_eqb_eq in Y. subst y. apply (T 1). apply tr_yes, I.
    + destruct (existsb _ [lit "0"; _; _]) eqn:E2; [|discriminate CT].
      apply existsb_exists in E2. destruct E2 as (y & I & Y). apply str_eqb_eq in Y. subst y. apply (T 0). apply tr_no, I.
  - rewrite (kind_ok _ _ K) in CT.
    repeat match type of CT with context [str_eqb ?a ?b] => let r := eval vm_compute in (str_eqb a b) in replace (str_eqb a b) with r in CT by reflexivity end.
    cbv iota in CT. destruct (value_text_ok c _ (Some (lit "#N/A")) V) as [X|[_ X]]; [|discriminate X]. rewrite X in CT. cbn [bind] in CT. unfold error_code in CT.
    destruct (find _ _) as [[code name]|] eqn:FD; [|discriminate CT]. apply find_some in FD. destruct FD as [I Y]. cbn [snd] in Y. apply str_eqb_eq in Y. subst name.
    cbn [In] in I. repeat (destruct I as [I|I]; [injection I as <- <-; eapply T; constructor|]). destruct I.
Qed.

(** The sheets of a workbook that opens have been read. *)
Lemma opened_sheets z dm ws b w : lists_sheets z dm ws -> open_zip z = Ok b -> In w ws ->
  exists su sst sh, load_sheet z su sst (convert_filename (snd w)) = Ok sh /\ forall shared, shared_at z shared -> sst = shared.
Proof.
  intros TB O I. destruct (tabs_told z dm ws TB) as (r & rels & bk & x & P1 & R & H & P2 & B & ->).
  unfold open_zip in O. rewrite H in O. unfold open_xlsx in O. rewrite P1 in O. cbn [bind] in O. rewrite R in O. cbn [bind] in O. rewrite P2 in O. cbn [bind] in O. rewrite B in O. cbn [bind] in O.
  destruct (if has_part z (lit "docprops/core.xml") then _ else _) as [[]|e]; [|discriminate O]. cbn [bind] in O.
  destruct (if has_part z (lit "xl/styles.xml") then _ else _) as [y|e]; [|discriminate O]. cbn [bind] in O.
  destruct (foldM _ [lit "xl/sharedstrings.xml"; _] _) as [sst|e] eqn:SS; [|discriminate O]. cbn [bind x_sheets] in O.
  destruct (mapM _ (tab_paths ws)) as [shs|e] eqn:M; [|discriminate O].
  destruct (TextProofs.mapM_ok_in _ _ _ (fst w, convert_filename (snd w)) M) as (sh & E); [apply in_map_iff; exists w; split; [reflexivity|exact I]|].
  cbn [snd] in E. eexists _, sst, sh. split; [exact E|]. intros shared SA. rewrite (shared_ok z shared SA) in SS. congruence.
Qed.
Lemma bad_row_refused z dm ws w shared root row : lists_sheets z dm ws -> In w ws -> part_at z (snd w) root -> shared_at z shared ->
  row = root \/ within row root -> bad_row shared row -> forall b, open_zip z <> Ok b.
Proof.
  intros TB I P SA W [N BR] b O. destruct (opened_sheets z dm ws b w TB O I) as (su & sst & sh & L & ES). specialize (ES shared SA). subst sst.
  unfold load_sheet in L. rewrite (proj2 (part_ok _ _ _ P)) in L. cbn [bind] in L. destruct (process_sheet su shared root) as [st|e] eqn:PS; [|discriminate L].
  destruct (row_read su shared root st row PS W N) as (rowx & RX & RB & CE). destruct BR as [(d & S & D & V)|(c & IC & NC & BC)].
  - destruct (RX d (get_says _ _ _ S)) as (n & E & ->). rewrite (digits_int d D) in E. injection E as <-. lia.
  - destruct (CE c IC NC) as (s1 & s2 & E). exact (bad_cell_fails su shared row rowx c s1 s2 BC E).
Qed.
Lemma missing_sheet_refused z dm ws w : lists_sheets z dm ws -> In w ws -> missing_part z (snd w) -> forall b, open_zip z <> Ok b.
Proof.
  intros TB I M b O. destruct (opened_sheets z dm ws b w TB O I) as (su & sst & sh & L & _). unfold load_sheet, part in L.
  rewrite (component_none _ _ M) in L. discriminate L.
Qed.
(** A member with relationships under a name with capitals. *)
Lemma capital_relations_refused z dm ws w x k e : lists_sheets z dm ws -> In w ws -> after_last slash (snd w) x ->
  In (k, e) z -> same_name k (lit "xl/worksheets/_rels/" ++ x ++ lit ".rels") ->
  (forall m, In m z -> same_name (fst m) (lit "xl/worksheets/_rels/" ++ x ++ lit ".rels") -> ~ small_name (fst m)) ->
  forall b, open_zip z <> Ok b.
Proof.
  intros TB I AL IK SN CAP b O. destruct (opened_sheets z dm ws b w TB O I) as (su & sst & sh & L & _). unfold load_sheet in L.
  destruct (part z _) as [root|]; [|discriminate L]. cbn [bind] in L. destruct (process_sheet su sst root) as [st|]; [|discriminate L]. cbn [bind] in L.
  rewrite (last_piece_ok _ _ (after_last_convert _ _ AL)) in L.
  set (n := lit "xl/worksheets/_rels/" ++ x ++ lit ".rels") in *.
  assert (EN : lit "xl/worksheets/_rels/" ++ convert_filename x ++ lit ".rels" = convert_filename n) by (unfold n; rewrite !convert_app; reflexivity).
  rewrite EN in L.
  assert (H : has_part z (convert_filename n) = true).
  { unfold has_part. destruct (component z (convert_filename n)) eqn:C; [reflexivity|]. exfalso. clear - C IK SN.
    induction z as [|[k' p] z IH]; [destruct IK|]. cbn [component] in C. destruct (component z (convert_filename n)); [discriminate C|].
    destruct IK as [E|IK]; [|exact (IH IK (eq_refl))]. injection E as -> ->. rewrite (proj2 (convert_same _ _) SN), str_eqb_refl in C. discriminate C. }
  rewrite H in L. assert (Z0 : zf_open z (convert_filename n) = None).
  { apply zf_open_none. intro J. apply in_map_iff in J. destruct J as (m & E & J). apply (CAP m J); [|rewrite E; apply small_convert].
    apply convert_same. rewrite E. apply convert_small, small_convert. }
  unfold parse in L. rewrite Z0 in L. discriminate L.
Qed.
Lemma no_workbook z : missing_part z (lit "xl/workbook.xml") -> open_zip z = Err XLRDError.
Proof. intro M. unfold open_zip. change (lit "xl/workbook.xml") with (convert_filename (lit "xl/workbook.xml")). rewrite (part_missing _ _ M). reflexivity. Qed.

(** ** The specification of concrete documents, by computing *)

Lemma silent_get e n : get n e = None -> silent e n.
Proof.
  unfold silent, get. induction (e_attrs e) as [|[k w] l IH]; intro H; [intros []|]. cbn [attr] in H. destruct (str_eqb k n) eqn:E; [discriminate H|].
  intros [X|X]; [apply str_eqb_neq in E; exact (E X)|exact (IH H X)].
Qed.
Lemma listed_all : forall e, listed e (iter e).
Proof.
  induction e as [e IH] using elem_ind'. destruct e as [t a x l]. cbn [iter e_children] in *. rewrite flat_map_concat_map. apply (ls_elem (Elem t a x l)). cbn [e_children].
  induction IH as [|c l H _ IH]; cbn [map]; constructor; assumption.
Qed.
Lemma within_iter : forall e d, within d e -> In d (iter e).
Proof.
  intros e d W. induction W as [c e I|d c e I W IH].
  - destruct e as [t a x l]. right. apply in_flat_map. exists c. split; [exact I|]. destruct c; left; reflexivity.
  - destruct e as [t a x l]. right. apply in_flat_map. exists c. split; assumption.
Qed.
Lemma within_tl e d : within d e -> In d (flat_map iter (e_children e)).
Proof.
  intro W. inversion W; subst; apply in_flat_map; eexists; (split; [eassumption|]).
  - destruct d; left; reflexivity.
  - apply within_iter; assumption.
Qed.
Fixpoint marks (p : elem -> bool) (e : elem) : list elem := if p e then [e] else flat_map (marks p) (e_children e).
Definition apart (p : elem -> bool) (e : elem) : bool := forallb (fun x => negb (p x && existsb p (flat_map iter (e_children x)))) (iter e).
Lemma marks_ok p m : (forall e, p e = true <-> m e) -> forall e, apart p e = true -> marked m e (marks p e).
Proof.
  intro PM. induction e as [e IH] using elem_ind'. intro A. assert (EM : marks p e = if p e then [e] else flat_map (marks p) (e_children e)) by (destruct e; reflexivity).
  rewrite EM. unfold apart in A. assert (EI : iter e = e :: flat_map iter (e_children e)) by (destruct e; reflexivity). rewrite EI in A. cbn [forallb] in A.
  apply Bool.andb_true_iff in A. destruct A as [A1 A2]. destruct (p e) eqn:E.
  - apply mk_here; [apply PM, E|]. intros d W M. apply PM in M. cbn [andb] in A1. apply Bool.negb_true_iff in A1.
    assert (X : existsb p (flat_map iter (e_children e)) = true) by (apply existsb_exists; exists d; split; [apply within_tl, W|exact M]). congruence.
  - rewrite flat_map_concat_map. apply mk_inside; [intro M; apply PM in M; congruence|].
    clear - IH A2. induction IH as [|c l H _ IHl]; cbn [map]; [constructor|]. cbn [flat_map] in A2. rewrite forallb_app in A2. apply Bool.andb_true_iff in A2. destruct A2 as [A2 A3].
    constructor; [apply H, A2|apply IHl, A3].
Qed.
Lemma text_of_all e : text_of e (cooked_text e).
Proof.
  unfold cooked_text. destruct (e_text e) as [t|] eqn:T; [|apply tx_none, T]. change XML_SPACE_ATTR with space_name.
  assert (U : forall s, escaped s (unescape s)) by (intro s; apply (escaped_unescape (S (length s))); lia).
  destruct (get space_name e) as [v|] eqn:G.
  - destruct (str_eqb v (lit "preserve")) eqn:E.
    + apply str_eqb_eq in E. subst v. apply (tx_preserved e t); [exact T|apply says_get, G|apply U].
    + apply (tx_trimmed e t (strip xml_white t)); [exact T| |apply strip_trimmed|apply U].
      intro S. apply get_says in S. rewrite G in S. injection S as ->. rewrite str_eqb_refl in E. discriminate.
  - apply (tx_trimmed e t (strip xml_white t)); [exact T| |apply strip_trimmed|apply U].
    intro S. apply get_says in S. congruence.
Qed.
Lemma string_item_all e : string_item e (si_text e).
Proof.
  unfold string_item, si_text. rewrite flat_map_concat_map. eexists. split; [|reflexivity].
  induction (e_children e) as [|c l IH]; cbn [map]; constructor; [|exact IH]. destruct (is_tag (lit "t") c) eqn:T.
  - apply sp_text; [apply named_iff, T|apply text_of_all].
  - destruct (is_tag (lit "r") c) eqn:R; [|apply sp_other; apply named_not; assumption].
    rewrite flat_map_concat_map. apply sp_run; [apply named_iff, R|]. clear.
    induction (e_children c) as [|d l IH]; cbn [map]; constructor; [|exact IH]. destruct (is_tag (lit "t") d) eqn:T.
    + apply tp_text; [apply named_iff, T|apply text_of_all].
    + apply tp_other, named_not, T.
Qed.
Lemma missing_by z n : component z (convert_filename n) = None -> missing_part z n.
Proof.
  induction z as [|[k p] z IH]; intro C; [constructor|]. cbn [component] in C. destruct (component z (convert_filename n)); [discriminate C|].
  constructor; [|apply IH; reflexivity]. cbn [fst]. intro S. rewrite (proj2 (convert_same _ _) S), str_eqb_refl in C. discriminate C.
Qed.
Lemma part_by z n e : part z (convert_filename n) = Ok e -> part_at z n e.
Proof.
  unfold part, parse. destruct (component z (convert_filename n)) as [k|] eqn:C; [|discriminate]. destruct (zf_open z k) as [[p|]|] eqn:O; try discriminate.
  intro E. injection E as ->. revert C O. induction z as [|[k' p'] z IH]; intros C O; [discriminate C|]. cbn [component] in C. cbn [zf_open] in O.
  destruct (component z (convert_filename n)) as [q|] eqn:C2.
  - injection C as ->. destruct (zf_open z k) as [p2|] eqn:O2.
    + injection O as ->. destruct (IH eq_refl eq_refl) as (a & k2 & b & -> & S & M). exists ((k', p') :: a), k2, b. repeat split; assumption.
    + apply component_in in C2. destruct C2 as [_ I]. exfalso. clear - I O2. induction z as [|[k2 p2] z IH]; [destruct I|]. cbn [zf_open] in O2.
      destruct (zf_open z k) eqn:Z; [discriminate|]. destruct I as [E|I]; [|exact (IH eq_refl I)]. cbn in E. subst k2. rewrite str_eqb_refl in O2. discriminate.
  - destruct (str_eqb (convert_filename k') (convert_filename n)) eqn:E; [|discriminate C]. injection C as ->. apply str_eqb_eq, convert_same in E.
    pose proof (missing_by _ _ C2) as M. exists [], k, z. split; [|split; [exact E|exact M]]. cbn [app].
    destruct (zf_open z k) as [p2|] eqn:O2.
    + exfalso. clear - M O2 E. induction M as [|[k2 p3] z H M IH]; [discriminate O2|]. cbn [zf_open] in O2. destruct (zf_open z k) eqn:Z; [apply IH; congruence|].
      destruct (str_eqb k2 k) eqn:X; [|discriminate]. apply str_eqb_eq in X. subst k2. exact (H E).
    + rewrite str_eqb_refl in O. injection O as ->. reflexivity.
Qed.
