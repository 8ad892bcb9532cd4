(** * Proofs about text kept as bytes: textpack *)

From Coq Require Import ZifyBool ZifyNat ZifyN.
From Verif Require Import PyBase PyBaseFacts PyFloat PyText NumPy Pack SpecDbf DbfProofs DbfThms ReadText SpecChars CharFacts SpecText TextProofs ReadTextThms NumberThms.
From Verif Require Import Preparse SpecPreparse PreparseProofs PreparseThms SpecCoded CodedProofs.
Open Scope nat_scope.

(** ** White space *)

Lemma ws_alike x : alike x -> ws_text x = ws_bytes x.
Proof.
  intros (A & _ & W & _). destruct (N.lt_ge_cases x 128) as [L|G].
  - apply eq_iff_eq_true. rewrite ws_text_iff. unfold ws_bytes. split.
    + intros [H|[H|H]]; [lia|lia|]. exfalso. apply W, H.
    + intro H. unfold text_space. lia.
  - destruct (ws_text x) eqn:E.
    + apply wide_space_iff in E; [contradiction|exact G].
    + symmetry. unfold ws_bytes. lia.
Qed.

Lemma ws_bytes_high b : (128 <= b)%N -> ws_bytes b = false.
Proof. unfold ws_bytes. lia. Qed.

Lemma lstrip_ext p q s : Forall (fun x => p x = q x) s -> lstrip p s = lstrip q s.
Proof. induction 1 as [|x s X F IH]; [reflexivity|]. cbn [lstrip]. rewrite X, IH. reflexivity. Qed.

Lemma strip_ext p q s : Forall (fun x => p x = q x) s -> strip p s = strip q s.
Proof.
  intro F. unfold strip, rstrip. rewrite (lstrip_ext p q s F). f_equal. apply lstrip_ext, rev_Forall, lstrip_Forall, F.
Qed.

Lemma split_ws_ext p q s : Forall (fun x => p x = q x) s -> split_ws p s = split_ws q s.
Proof.
  induction 1 as [|x s X F IH]; [reflexivity|]. cbn [split_ws]. rewrite X, IH. destruct (q x); [reflexivity|].
  destruct s as [|d s]; [reflexivity|]. inversion F; subst. rewrite H1. reflexivity.
Qed.

Lemma good_shape c enc ok s : encoding c enc ok -> Forall (good ok) s -> Forall (shape enc) s.
Proof. intros EN F. eapply Forall_impl; [|exact F]. intros x (O & _). apply (ok_shape c enc ok x EN O). Qed.

Lemma good_ok ok s : Forall (good ok) s -> Forall ok s.
Proof. intro F. eapply Forall_impl; [|exact F]. intros x (O & _). exact O. Qed.

Lemma good_ws ok s : Forall (good ok) s -> Forall (fun x => ws_text x = ws_bytes x) s.
Proof. intro F. eapply Forall_impl; [|exact F]. intros x (_ & A). apply ws_alike, A. Qed.

(** ** Lines *)

Definition line_rel (enc : N -> str) (ok : N -> Prop) (l lb : str) : Prop :=
  exists u w wb, l = u ++ w /\ lb = flat_map enc u ++ wb /\ Forall (good ok) u /\ ~ In 10%N u /\
    ((w = [] /\ wb = []) \/ (w = [10%N] /\ (wb = [10%N] \/ wb = [13; 10]%N))).

Lemma line_rel_cons enc ok x l lb : good ok x -> x <> 10%N -> line_rel enc ok l lb -> line_rel enc ok (x :: l) (enc x ++ lb).
Proof.
  intros G N (u & w & wb & -> & -> & F & I & W). exists (x :: u), w, wb. split; [reflexivity|].
  split; [cbn [flat_map]; apply app_assoc|]. split; [constructor; assumption|]. split; [|exact W].
  intros [E|E]; [congruence|exact (I E)].
Qed.

Lemma enc_no_newline enc x : shape enc x -> x <> 10%N -> ~ In 10%N (enc x).
Proof.
  intros [(_ & E)|(_ & _ & F)] N I; [rewrite E in I; destruct I as [I|[]]; congruence|].
  rewrite Forall_forall in F. apply F in I. lia.
Qed.

Lemma readline_pre h s : ~ In 10%N h -> readline (h ++ s) = (h ++ fst (readline s), snd (readline s)).
Proof.
  induction h as [|c h IH]; intro H; [cbn [app]; destruct (readline s); reflexivity|]. cbn [app readline].
  assert ((c =? 10)%N = false) as -> by (apply N.eqb_neq; intros ->; apply H; left; reflexivity).
  rewrite IH by (intro I; apply H; right; exact I). reflexivity.
Qed.

Lemma lines_of_pre h s : h <> [] -> ~ In 10%N h ->
  lines_of (h ++ s) = match lines_of s with l :: r => (h ++ l) :: r | [] => [h] end.
Proof.
  intros NE. induction h as [|c h IH]; intro H; [congruence|]. clear NE. cbn [app lines_of].
  assert ((c =? 10)%N = false) as -> by (apply N.eqb_neq; intros ->; apply H; left; reflexivity).
  destruct h as [|d h]; [cbn [app]; reflexivity|].
  rewrite IH by (discriminate || (intro I; apply H; right; exact I)). destruct (lines_of s); reflexivity.
Qed.

Lemma readline_written c enc ok t b : encoding c enc ok -> Forall (good ok) t -> written enc t b ->
  line_rel enc ok (fst (readline t)) (fst (readline b)) /\
  written enc (snd (readline t)) (snd (readline b)) /\ Forall (good ok) (snd (readline t)).
Proof.
  intros EN F W. induction W as [|x t b X W IH|t b W IH|t b W IH]; cbn [readline fst snd].
  - split; [|split; [constructor|constructor]]. exists [], [], []. repeat split; auto.
  - inversion F as [|? ? G F']; subst. destruct (IH F') as (L & W' & G').
    assert ((x =? 10)%N = false) as -> by lia. destruct (readline t) as [l t'] eqn:R. cbn [fst snd] in *.
    rewrite readline_pre by (apply enc_no_newline; [apply (ok_shape c enc ok x EN), G|exact X]). cbn [fst snd].
    split; [apply line_rel_cons; assumption|]. split; assumption.
  - inversion F; subst. split; [|split; assumption]. exists [], [10%N], [10%N]. repeat split; auto.
  - inversion F; subst. change (13 =? 10)%N with false. cbv iota. cbn [N.eqb Pos.eqb]. cbn [fst snd].
    split; [|split; assumption]. exists [], [10%N], [13; 10]%N. repeat split; auto.
Qed.

Lemma skip_written c enc ok n : encoding c enc ok -> forall t b, Forall (good ok) t -> written enc t b ->
  written enc (skip_lines n t) (skip_lines n b) /\ Forall (good ok) (skip_lines n t).
Proof.
  intros EN. induction n as [|n IH]; intros t b F W; [split; assumption|]. cbn [skip_lines].
  destruct (readline_written c enc ok t b EN F W) as (_ & W' & F'). apply IH; assumption.
Qed.

Lemma take_written c enc ok n : encoding c enc ok -> forall t b, Forall (good ok) t -> written enc t b ->
  Forall2 (line_rel enc ok) (take_lines n t) (take_lines n b).
Proof.
  intros EN. induction n as [|n IH]; intros t b F W; [constructor|]. cbn [take_lines].
  destruct (readline_written c enc ok t b EN F W) as (L & W' & F').
  destruct (readline t), (readline b). cbn [fst snd] in *. constructor; [exact L|]. apply IH; assumption.
Qed.

Lemma lines_written c enc ok t b : encoding c enc ok -> Forall (good ok) t -> written enc t b ->
  Forall2 (line_rel enc ok) (lines_of t) (lines_of b).
Proof.
  intros EN F W. induction W as [|x t b X W IH|t b W IH|t b W IH]; cbn [lines_of].
  - constructor.
  - inversion F as [|? ? G F']; subst. specialize (IH F'). assert ((x =? 10)%N = false) as -> by lia.
    pose proof (ok_shape c enc ok x EN (proj1 G)) as S.
    assert (NE : enc x <> []) by (destruct S as [(_ & E)|(_ & N & _)]; [rewrite E; discriminate|exact N]).
    rewrite lines_of_pre by (exact NE || (apply enc_no_newline; assumption)).
    inversion IH as [|l lb r rb L R]; subst.
    + constructor; [|constructor]. pose proof (line_rel_cons enc ok x [] [] G X) as Q.
      rewrite app_nil_r in Q. apply Q. exists [], [], []. repeat split; auto.
    + constructor; [apply line_rel_cons; assumption|assumption].
  - inversion F; subst. constructor; [|auto]. exists [], [10%N], [10%N]. repeat split; auto.
  - inversion F; subst. change (13 =? 10)%N with false. cbv iota. cbn [N.eqb Pos.eqb].
    constructor; [|auto]. exists [], [10%N], [13; 10]%N. repeat split; auto.
Qed.

(** ** Fields *)

Lemma delimiter_ok enc ok d db : same_delimiter enc ok d db ->
  match d with Some s => Forall ok s /\ ~ In 10%N s /\ ~ In 13%N s | None => True end.
Proof.
  destruct d as [s|]; destruct db as [b|]; cbn; try tauto. intros (_ & F). rewrite !Forall_forall in *.
  repeat split.
  - intros x I. apply F in I. tauto.
  - intro I. apply F in I. tauto.
  - intro I. apply F in I. destruct I as (_ & (_ & A & _) & _). congruence.
Qed.

Lemma replace_skip old p s : replace_str old [] (length p) (p ++ s) = replace_str old [] 0 s.
Proof. induction p as [|c p IH]; [reflexivity|]. exact IH. Qed.

Lemma replace_enc c enc ok d s : encoding c enc ok -> d <> [] -> Forall ok d -> Forall (fun x => x < 128)%N s ->
  replace_str (flat_map enc d) [] 0 s = replace_str d [] 0 s.
Proof.
  intros EN ND FD. remember (length s) as n eqn:L. assert (L' : length s <= n) by lia. clear L. revert s L'.
  induction n as [|n IH]; intros s L FS; [destruct s; [reflexivity|cbn in L; lia]|].
  destruct s as [|x s]; [reflexivity|].
  assert (E : forall l, Forall (fun x => x < 128)%N l -> flat_map enc l = l).
  { intros l F. apply enc_ascii; [|exact F]. eapply Forall_impl; [|exact F]. intros y Y. left. split; [exact Y|]. apply (en_ascii c enc ok EN y Y). }
  assert (FO : Forall ok (x :: s)).
  { eapply Forall_impl; [|exact FS]. intros y Y. apply (en_ascii c enc ok EN y Y). }
  pose proof (prefix_enc c enc ok d (x :: s) EN FD FO) as P. rewrite (E (x :: s) FS) in P.
  cbn [replace_str]. rewrite P. destruct (strip_prefix d (x :: s)) as [r|] eqn:Q; cbn [option_map].
  - apply strip_prefix_app in Q.
    assert (FR : Forall (fun x => x < 128)%N (d ++ r)) by (rewrite <- Q; exact FS).
    apply Forall_app in FR. destruct FR as [FD' FR].
    rewrite (E d FD'). reflexivity.
  - inversion FS; subst. f_equal. apply IH; [cbn in L; lia|assumption].
Qed.

Lemma strip_chars_enc c enc ok d db : encoding c enc ok -> same_delimiter enc ok d db -> strip_chars db = strip_chars d.
Proof.
  intros EN D. pose proof (delimiter_ok enc ok d db D) as O. destruct d as [s|]; destruct db as [b|]; try (destruct D; fail); [|reflexivity].
  destruct D as (-> & F). destruct O as (O & _). unfold strip_chars. destruct s as [|x s]; [reflexivity|].
  assert (NE : flat_map enc (x :: s) <> []).
  { intro Z. apply flat_nil in Z; [discriminate|]. eapply Forall_impl; [|exact O]. intro. apply (ok_shape c enc ok _ EN). }
  rewrite <- (replace_enc c enc ok (x :: s) whitespace EN) by (discriminate || assumption || (unfold whitespace; repeat constructor)).
  destruct (flat_map enc (x :: s)); [congruence|reflexivity].
Qed.

Lemma stripped_facts enc ok d db : same_delimiter enc ok d db ->
  stripped d 10%N = true /\ stripped d 13%N = true /\ forall b, (128 <= b)%N -> stripped d b = false.
Proof.
  intro D. pose proof (delimiter_ok enc ok d db D) as O.
  assert (K : forall x, x = 10%N \/ x = 13%N -> stripped d x = true).
  { intros x X. apply stripped_in. unfold strip_chars. destruct d as [[|y s]|].
    1, 3 : destruct X as [-> | ->]; cbn; auto 10.
    apply (replace_keeps (y :: s) whitespace ltac:(discriminate) []).
    - destruct O as (_ & A & B). destruct X as [-> | ->]; assumption.
    - intros z [].
    - exists whitespace. reflexivity.
    - destruct X as [-> | ->]; cbn; auto 10. }
  split; [apply K; auto|]. split; [apply K; auto|]. intros b B.
  destruct (stripped d b) eqn:S; [|reflexivity]. apply stripped_in in S. unfold strip_chars in S. apply replace_incl in S.
  unfold whitespace in S. cbn [In] in S. lia.
Qed.

Lemma strip_line_enc c enc ok d db l lb : encoding c enc ok -> same_delimiter enc ok d db -> line_rel enc ok l lb ->
  strip_line db lb = flat_map enc (strip_line d l) /\ Forall (good ok) (strip_line d l).
Proof.
  intros EN D (u & w & wb & -> & -> & F & _ & W). destruct (stripped_facts enc ok d db D) as (S10 & S13 & SH).
  assert (E : strip_line db (flat_map enc u ++ wb) = strip (stripped d) (flat_map enc u ++ wb))
    by (unfold strip_line, stripped; rewrite (strip_chars_enc c enc ok d db EN D); reflexivity).
  rewrite E, strip_line_eq. rewrite !strip_post.
  - split; [apply strip_enc; [exact SH|apply (good_shape c enc ok); assumption]|apply strip_Forall; exact F].
  - destruct W as [(-> & _)|(-> & _)]; repeat constructor; assumption.
  - destruct W as [(_ & ->)|(_ & [-> | ->])]; repeat constructor; assumption.
Qed.

Lemma split_str_Forall (P : N -> Prop) d s : Forall P s -> forall k, Forall (Forall P) (split_str d k s).
Proof.
  induction 1 as [|x s X F IH]; intro k; [repeat constructor|]. cbn [split_str]. destruct k as [|k]; [|apply IH].
  destruct (strip_prefix d (x :: s)); [constructor; [constructor|apply IH]|].
  specialize (IH 0). destruct (split_str d 0 s) as [|f r]; [repeat constructor; exact X|]. inversion IH; subst.
  constructor; [constructor|]; assumption.
Qed.

Lemma split_ws_Forall (P : N -> Prop) ws s : Forall P s -> Forall (Forall P) (split_ws ws s).
Proof.
  induction 1 as [|x s X F IH]; [constructor|]. cbn [split_ws]. destruct (ws x); [exact IH|].
  destruct s as [|d s]; [repeat constructor; exact X|].
  destruct (ws d); [constructor; [repeat constructor; exact X|exact IH]|].
  destruct (split_ws ws (d :: s)) as [|f r]; [repeat constructor; exact X|]. inversion IH; subst.
  constructor; [constructor|]; assumption.
Qed.

Lemma split_line_enc c enc ok d db s : encoding c enc ok -> same_delimiter enc ok d db -> Forall (good ok) s ->
  match split_line Text d s with
  | Ok fs => split_line (Coded c) db (flat_map enc s) = Ok (map (flat_map enc) fs) /\ Forall (Forall (good ok)) fs
  | Err e => split_line (Coded c) db (flat_map enc s) = Err e
  end.
Proof.
  intros EN D F. pose proof (delimiter_ok enc ok d db D) as O.
  destruct d as [[|x d]|]; destruct db as [b|]; try (destruct D; fail); try destruct D as (-> & D); cbn [split_line].
  - reflexivity.
  - destruct O as (O & _). split; [|apply split_str_Forall; exact F].
    assert (NE : flat_map enc (x :: d) <> []).
    { intro Z. apply flat_nil in Z; [discriminate|]. eapply Forall_impl; [|exact O]. intro. apply (ok_shape c enc ok _ EN). }
    rewrite <- (split_enc c enc ok) by (assumption || discriminate || (apply good_ok; assumption)).
    destruct (flat_map enc (x :: d)); [congruence|reflexivity].
  - cbn [ws_of]. split; [|apply split_ws_Forall; exact F].
    rewrite split_ws_enc by (exact ws_bytes_high || apply (good_shape c enc ok s EN F)).
    rewrite (split_ws_ext ws_text ws_bytes) by (apply (good_ws ok); exact F). reflexivity.
Qed.

(** ** Functions *)

Definition func_rel (enc : N -> str) (ok : N -> Prop) (f fb : func) : Prop :=
  match f, fb with
  | MaybeNan, MaybeNan | FloatIt, FloatIt | AsIs, AsIsDecode | AsIsStripped, AsIsStrippedDecode => True
  | Given g, Given gb => forall s, Forall (good ok) s -> gb (flat_map enc s) = g s
  | _, _ => False
  end.

Lemma strip_good c enc ok s : encoding c enc ok -> Forall (good ok) s ->
  strip ws_bytes (flat_map enc s) = flat_map enc (strip ws_text s).
Proof.
  intros EN F. rewrite strip_enc by (exact ws_bytes_high || apply (good_shape c enc ok s EN F)).
  rewrite (strip_ext ws_text ws_bytes) by (apply (good_ws ok); exact F). reflexivity.
Qed.

Lemma decode_good c enc ok s : encoding c enc ok -> Forall (good ok) s -> decode_in (Coded c) (flat_map enc s) = Ok (VStr s).
Proof. intros EN F. unfold decode_in. rewrite (en_decode c enc ok EN s (good_ok ok s F)). reflexivity. Qed.

Lemma dot_ok c enc ok : encoding c enc ok -> shape enc 46%N /\ good ok 46%N.
Proof.
  intro EN. assert (O : ok 46%N) by (apply (en_ascii c enc ok EN); reflexivity).
  split; [apply (ok_shape c enc ok _ EN O)|]. split; [exact O|]. split; [lia|]. split; [lia|].
  split; [unfold wide_spaces; cbn [In]; lia|]. intros (z & I & Z). unfold wide_zeros in I. cbn [In] in I. lia.
Qed.

Lemma float_good c enc ok s : encoding c enc ok -> Forall (good ok) s -> float_of_str (flat_map enc s) = float_of_text s.
Proof.
  intros EN F. rewrite alike_float by (eapply Forall_impl; [|exact F]; intros a A; apply A).
  apply float_enc. apply (good_shape c enc ok s EN F).
Qed.

Lemma comma_float c enc ok s : encoding c enc ok -> Forall (good ok) s ->
  float_of_str (comma_to_dot (flat_map enc s)) = float_of_text (comma_to_dot s).
Proof.
  intros EN F. destruct (dot_ok c enc ok EN) as [S G]. rewrite comma_enc by (apply (good_shape c enc ok s EN F) || exact S).
  apply (float_good c enc ok _ EN). apply comma_Forall; assumption.
Qed.

Lemma apply_enc c enc ok f fb s : encoding c enc ok -> func_rel enc ok f fb -> Forall (good ok) s ->
  apply_func (Coded c) fb (flat_map enc s) = apply_func Text f s.
Proof.
  intros EN R F. pose proof (good_shape c enc ok s EN F) as S.
  assert (NE : forall {A} (x y : A), match flat_map enc s with [] => x | _ => y end = match s with [] => x | _ => y end).
  { intros A x y. destruct s as [|z s]; [reflexivity|]. destruct (flat_map enc (z :: s)) eqn:Z; [|reflexivity].
    apply flat_nil in Z; [discriminate|exact S]. }
  destruct f, fb; try destruct R; cbn [apply_func field_val].
  - unfold float_or_nan. cbn [float_of]. rewrite (float_good c enc ok s EN F). apply (NE (res val)).
  - cbn [float_of]. rewrite (comma_float c enc ok s EN F). apply (NE (res val)).
  - apply (decode_good c enc ok); assumption.
  - cbn [ws_of]. rewrite (strip_good c enc ok) by assumption. apply (decode_good c enc ok); [assumption|].
    apply strip_Forall. exact F.
  - apply R. exact F.
Qed.

Lemma field_func_enc c enc ok b s : encoding c enc ok -> Forall (good ok) s ->
  func_rel enc ok (field_func Text b s) (field_func (Coded c) b (flat_map enc s)).
Proof.
  intros EN F. unfold field_func. cbn [float_of]. rewrite (float_good c enc ok s EN F).
  destruct (float_of_text s); [exact I|]. rewrite (comma_float c enc ok) by assumption.
  destruct (float_of_text (comma_to_dot s)); [exact I|]. destruct b; exact I.
Qed.

Lemma list_set_enc enc ok fs fbs i g gb : Forall2 (func_rel enc ok) fs fbs -> func_rel enc ok (Given g) (Given gb) ->
  match list_set fs i (Given g) with
  | Ok l => exists lb, list_set fbs i (Given gb) = Ok lb /\ Forall2 (func_rel enc ok) l lb
  | Err e => list_set fbs i (Given gb) = Err e
  end.
Proof.
  intros F G. unfold list_set. assert (L : length fbs = length fs) by (clear - F; induction F; cbn [length]; congruence).
  rewrite L. set (j := if (i <? 0)%Z then (i + Z.of_nat (length fs))%Z else i). clearbody j.
  destruct ((0 <=? j) && (j <? Z.of_nat (length fs)))%Z; [|reflexivity]. eexists. split; [reflexivity|].
  set (n := Z.to_nat j). clearbody n.
  assert (T : forall n, Forall2 (func_rel enc ok) (firstn n fs) (firstn n fbs)).
  { clear - F. induction F as [|x y l k R F IH]; intros [|n]; cbn [firstn]; constructor; auto. }
  assert (D : forall n, Forall2 (func_rel enc ok) (skipn n fs) (skipn n fbs)).
  { clear - F. induction F as [|x y l k R F IH]; intros [|n]; cbn [skipn]; try constructor; auto. }
  apply Forall2_app; [apply T|]. constructor; [exact G|apply D].
Qed.

Lemma set_funcs_enc enc ok cv cvb : same_converters enc ok cv cvb -> forall fs fbs, Forall2 (func_rel enc ok) fs fbs ->
  match set_funcs fs cv with
  | Ok l => exists lb, set_funcs fbs cvb = Ok lb /\ Forall2 (func_rel enc ok) l lb
  | Err e => set_funcs fbs cvb = Err e
  end.
Proof.
  induction 1 as [|[k g] [kb gb] cv cvb (K & G) R IH]; intros fs fbs F; cbn [set_funcs]; [eauto|].
  cbn [fst snd] in *. subst kb. pose proof (list_set_enc enc ok fs fbs k g gb F G) as L.
  destruct (list_set fs k (Given g)) as [l|e].
  - destruct L as (lb & -> & L). cbn [bind]. apply IH. exact L.
  - rewrite L. reflexivity.
Qed.

Lemma line_funcs_enc c enc ok b cv cvb vals : encoding c enc ok -> same_converters enc ok cv cvb -> Forall (Forall (good ok)) vals ->
  match line_funcs Text b cv vals with
  | Ok l => exists lb, line_funcs (Coded c) b cvb (map (flat_map enc) vals) = Ok lb /\ Forall2 (func_rel enc ok) l lb
  | Err e => line_funcs (Coded c) b cvb (map (flat_map enc) vals) = Err e
  end.
Proof.
  intros EN C F. unfold line_funcs. apply set_funcs_enc; [exact C|].
  assert (R : Forall2 (func_rel enc ok) (map (field_func Text b) vals) (map (field_func (Coded c) b) (map (flat_map enc) vals))).
  { induction F; constructor; [apply field_func_enc|]; assumption. }
  assert (X : existsb is_floatit (map (field_func (Coded c) b) (map (flat_map enc) vals)) = existsb is_floatit (map (field_func Text b) vals)).
  { clear - R. induction R as [|f g l k H R IH]; [reflexivity|]. cbn [existsb]. rewrite IH. f_equal.
    destruct f, g; try destruct H; reflexivity. }
  rewrite X. destruct (existsb is_floatit (map (field_func Text b) vals)); [|exact R].
  clear - R. induction R as [|f g l k H R IH]; constructor; [|exact IH]. destruct f, g; try destruct H; try exact I; exact H.
Qed.

Lemma line_tuple_enc c enc ok fs fbs u vals : encoding c enc ok -> Forall2 (func_rel enc ok) fs fbs -> Forall (Forall (good ok)) vals ->
  line_tuple (Coded c) fbs u (map (flat_map enc) vals) = line_tuple Text fs u vals.
Proof.
  intros EN R. unfold line_tuple. generalize 0. revert vals. induction R as [|f fb fs fbs H R IH]; intros vals n F.
  - reflexivity.
  - destruct F as [|v vals V F]; [reflexivity|]. cbn [map zip enum_from filter fst snd].
    destruct (in_cols u n); [|apply IH; exact F]. cbn [mapM fst snd]. rewrite (apply_enc c enc ok f fb v EN H V).
    rewrite IH by exact F. reflexivity.
Qed.

Lemma data_line_enc c enc ok d db fs fbs u l lb : encoding c enc ok -> same_delimiter enc ok d db ->
  Forall2 (func_rel enc ok) fs fbs -> line_rel enc ok l lb ->
  data_line (Coded c) db fbs u lb = data_line Text d fs u l.
Proof.
  intros EN D R L. unfold data_line. destruct (strip_line_enc c enc ok d db l lb EN D L) as [-> F].
  destruct (strip_line d l) as [|x s] eqn:E; [reflexivity|].
  assert (NE : flat_map enc (x :: s) <> []) by (intro Z; apply flat_nil in Z; [discriminate|apply (good_shape c enc ok _ EN F)]).
  pose proof (split_line_enc c enc ok d db (x :: s) EN D F) as S.
  assert (Q : (do vals <- split_line (Coded c) db (flat_map enc (x :: s)); line_tuple (Coded c) fbs u vals)
              = (do vals <- split_line Text d (x :: s); line_tuple Text fs u vals)).
  { destruct (split_line Text d (x :: s)) as [vs|e]; [|rewrite S; reflexivity]. destruct S as [-> S]. cbn [bind].
    apply (line_tuple_enc c enc ok); assumption. }
  destruct (flat_map enc (x :: s)) as [|y z]; [congruence|]. rewrite Q. reflexivity.
Qed.

Lemma names_tuple_enc c enc ok u ns w : encoding c enc ok -> Forall (Forall (good ok)) ns ->
  names_tuple (Coded c) u (map (flat_map enc) ns) w = names_tuple Text u ns w.
Proof.
  intros EN. unfold names_tuple. generalize 0. revert ns. induction w as [|w IH]; intros ns n F; [reflexivity|].
  destruct F as [|v ns V F]; [reflexivity|]. cbn [map enum_from firstn filter fst].
  destruct (in_cols u n); [|apply IH; exact F]. cbn [mapM snd]. rewrite IH by exact F.
  rewrite (strip_good c enc ok v EN V), (decode_good c enc ok) by (assumption || apply strip_Forall, V). reflexivity.
Qed.

(** Functions yielded are related, the rest is the same. *)
Lemma linetuples_enc c enc ok t b d db u cv cvb ss hn : encoding c enc ok -> Forall (good ok) t -> written enc t b ->
  same_delimiter enc ok d db -> same_converters enc ok cv cvb ->
  match linetuples t Text d u cv ss hn with
  | Ok y => exists yb, linetuples b (Coded c) db u cvb ss hn = Ok yb /\ y_names yb = y_names y /\ y_rows yb = y_rows y
  | Err e => linetuples b (Coded c) db u cvb ss hn = Err e
  end.
Proof.
  intros EN F W D C. unfold linetuples.
  match goal with |- match bind ?x _ with Ok y => exists yb, bind ?z _ = _ /\ _ | Err _ => _ end => set (X := x); set (Z := z) end.
  assert (H : match X with
              | Ok (ns, t') => exists b', Z = Ok (map (flat_map enc) ns, b') /\ Forall (Forall (good ok)) ns /\ Forall (good ok) t' /\ written enc t' b'
              | Err e => Z = Err e
              end).
  { subst X Z. destruct hn; [|exists b; split; [reflexivity|split; [constructor|split; assumption]]].
    destruct (readline_written c enc ok t b EN F W) as (L & W' & F').
    destruct (readline t) as [l t'], (readline b) as [lb b']. cbn [fst snd] in *.
    destruct (strip_line_enc c enc ok d db l lb EN D L) as [-> FL].
    pose proof (split_line_enc c enc ok d db _ EN D FL) as S.
    destruct (split_line Text d (strip_line d l)) as [fs|e]; [|rewrite S; reflexivity]. destruct S as [-> S]. cbn [bind].
    exists b'. split; [|split; [|split; assumption]].
    - f_equal. f_equal. cbn [ws_of]. clear - EN S. induction S as [|f fs G S IH]; [reflexivity|]. cbn [map].
      rewrite IH, (strip_good c enc ok) by assumption. reflexivity.
    - clear - S. induction S; constructor; [apply strip_Forall|]; assumption. }
  clearbody X Z. destruct X as [[ns t']|e]; [|rewrite H; reflexivity].
  destruct H as (b' & -> & FN & F' & W'). cbn [bind]. clear F W.
  destruct (readline_written c enc ok t' b' EN F' W') as (L & W2 & F2).
  destruct (readline t') as [l t2], (readline b') as [lb b2]. cbn [fst snd] in *.
  destruct (strip_line_enc c enc ok d db l lb EN D L) as [-> FL].
  pose proof (split_line_enc c enc ok d db _ EN D FL) as S.
  destruct (split_line Text d (strip_line d l)) as [vs|e]; [|rewrite S; reflexivity]. destruct S as [-> S]. cbn [bind].
  pose proof (line_funcs_enc c enc ok ss cv cvb vs EN C S) as FF.
  destruct (line_funcs Text ss cv vs) as [fs|e]; [|rewrite FF; reflexivity]. destruct FF as (fbs & -> & R). cbn [bind].
  eexists. split; [reflexivity|]. cbn [y_names y_rows]. rewrite map_length. split; [apply (names_tuple_enc c enc ok); assumption|].
  f_equal; [apply (line_tuple_enc c enc ok); assumption|].
  pose proof (lines_written c enc ok t2 b2 EN F2 W2) as LL. clear - EN D R LL.
  induction LL as [|x y l k H LL IH]; [reflexivity|]. cbn [flat_map]. rewrite IH. f_equal. apply (data_line_enc c enc ok); assumption.
Qed.

Lemma textpack_enc c enc ok t1 t2 b1 b2 name a ab : encoding c enc ok -> Forall (good ok) t2 -> written enc t2 b2 ->
  same_args c enc ok a ab ->
  textpack (mksource true (b1 ++ b2) (length b1) name) ab = textpack (mksource false (t1 ++ t2) (length t1) name) a.
Proof.
  intros EN F W (N & S & U & H & SS & DB & E & D & C). unfold textpack. cbn [src_pos src_text src_bytes src_name].
  rewrite N, S, U, H, E. cbn [mode_of].
  assert (SK : forall (x y : str), skipn (length x) (x ++ y) = y).
  { intros x y. rewrite skipn_app, skipn_all, Nat.sub_diag. reflexivity. }
  rewrite !SK.
  match goal with |- match ?x with (_, _) => _ end = _ => destruct x as [[u hn] sk] end.
  destruct (skip_written c enc ok (Z.to_nat sk) EN t2 b2 F W) as [W' F'].
  unfold datadict. rewrite SS, DB.
  pose proof (linetuples_enc c enc ok _ _ (t_delimiter a) (t_delimiter ab) u (t_converters a) (t_converters ab) (t_stripstrings a) hn EN F' W' D C) as L.
  destruct (linetuples (skip_lines (Z.to_nat sk) t2) Text (t_delimiter a) u (t_converters a) (t_stripstrings a) hn) as [y|e].
  - destruct L as (yb & -> & Y1 & Y2). cbn [bind]. rewrite Y1, Y2. reflexivity.
  - rewrite L. reflexivity.
Qed.
