(** * Date formats (C53): proofs of the property theorems *)

From Coq Require Import ZifyBool ZifyNat ZifyN QArith.
From Verif Require Import PyBase PyBaseFacts FmtDate SpecFmtDate.
Open Scope nat_scope.
Open Scope N_scope.

(** First without brackets. *)
Lemma atoms_of : forall n fmt, (length fmt <= n)%nat ->
  exists l e, Forall good_atom l /\ good_ending e /\ fmt = flat_map atom_text l ++ ending_text e.
Proof.
  induction n as [|n IH]; intros fmt L.
  - destruct fmt; [|cbn in L; lia]. exists [], Closed. repeat split. constructor.
  - destruct fmt as [|c fmt]; [exists [], Closed; repeat split; constructor|]. cbn [length] in L.
    destruct (N.eq_dec c quote) as [->|Q].
    + destruct (in_dec N.eq_dec quote fmt) as [I|I].
      * assert (X : exists a b, fmt = a ++ quote :: b /\ ~ In quote a).
        { clear - I. induction fmt as [|d fmt IH]; [destruct I|]. destruct (N.eq_dec d quote) as [->|D].
          - exists [], fmt. split; [reflexivity|intros []].
          - destruct I as [I|I]; [congruence|]. destruct (IH I) as (a & b & -> & N). exists (d :: a), b.
            split; [reflexivity|]. intros [X|X]; [congruence|contradiction]. }
        destruct X as (a & b & -> & N). destruct (IH b) as (l & e & G & E & ->).
        { rewrite app_length in L. cbn [length] in L. lia. }
        exists (Quoted a :: l), e. split; [constructor; assumption|]. split; [exact E|].
        cbn [flat_map atom_text app]. rewrite <- !app_assoc. reflexivity.
      * exists [], (OpenQuote fmt). repeat split; [constructor|exact I].
    + destruct (N.eq_dec c 92) as [E1|E1]; [|destruct (N.eq_dec c 95) as [E2|E2]; [|destruct (N.eq_dec c 42) as [E3|E3]]].
      4: { destruct (IH fmt ltac:(lia)) as (l & e & G & E & ->). exists (Char c :: l), e.
           split; [constructor; [split; [exact Q|unfold escape; tauto]|exact G]|]. split; [exact E|reflexivity]. }
      all: assert (EC : escape c) by (unfold escape; tauto).
      all: destruct fmt as [|d fmt]; [exists [], (LoneEscape c); repeat split; [constructor|exact EC]|].
      all: destruct (IH fmt ltac:(cbn in L; lia)) as (l & e & G & E & ->); exists (Escaped c d :: l), e;
           split; [constructor; assumption|]; split; [exact E|reflexivity].
Qed.
Lemma atom_eq_dec (a b : atom) : {a = b} + {a <> b}.
Proof. decide equality; try apply N.eq_dec. apply list_eq_dec, N.eq_dec. Qed.
(** Then the brackets. *)
Lemma brackets_of : forall n l, (length l <= n)%nat -> Forall good_atom l ->
  exists ps, good_format ps /\ flat_map piece_text ps = flat_map atom_text l.
Proof.
  induction n as [|n IH]; intros l L G.
  - destruct l; [|cbn in L; lia]. exists []. split; [split; [constructor|]|reflexivity].
    intros [|? ?] b E; discriminate E.
  - destruct l as [|a l]; [exists []; split; [split; [constructor|]|reflexivity]; intros [|? ?] b E; discriminate E|].
    cbn [length] in L. inversion G as [|? ? G1 G2]; subst.
    destruct (atom_eq_dec a (Char opening)) as [->|N].
    + destruct (in_dec atom_eq_dec (Char closing) l) as [I|I].
      * assert (X : exists x y, l = x ++ Char closing :: y /\ ~ In (Char closing) x).
        { clear - I. induction l as [|d l IH]; [destruct I|]. destruct (atom_eq_dec d (Char closing)) as [->|D].
          - exists [], l. split; [reflexivity|intros []].
          - destruct I as [I|I]; [congruence|]. destruct (IH I) as (x & y & -> & N). exists (d :: x), y.
            split; [reflexivity|]. intros [Y|Y]; [congruence|contradiction]. }
        destruct X as (x & y & -> & N). rewrite Forall_app in G2. destruct G2 as [G2 G3]. inversion G3; subst.
        destruct (IH y) as (ps & (P1 & P2) & E). { rewrite app_length in L. cbn [length] in L. lia. } { assumption. }
        exists (Bracketed x :: ps). split.
        -- split; [constructor; [split; assumption|exact P1]|]. intros [|p q] b Q; [discriminate Q|].
           injection Q as _ Q. apply (P2 q b Q).
        -- cbn [flat_map piece_text app]. rewrite E. rewrite flat_map_app. cbn [flat_map atom_text app].
           rewrite <- !app_assoc. reflexivity.
      * exists (map Atom (Char opening :: l)). split.
        -- split; [apply Forall_map; constructor; assumption|].
           intros [|p q] b Q; cbn [map] in Q.
           ++ injection Q as <-. split; [|intros i W; apply in_map_iff in W; destruct W as (? & W & _); discriminate W].
              intro W. apply in_map_iff in W. destruct W as (x & W & X). injection W as ->. contradiction.
           ++ injection Q as _ Q. assert (B : forall x, In x b -> exists z, x = Atom z /\ In z l).
              { intros x X. assert (Y : In x (map Atom l)) by (rewrite Q; apply in_or_app; right; right; exact X).
                apply in_map_iff in Y. destruct Y as (z & <- & Z). eauto. }
              split; [intro W; destruct (B _ W) as (z & Z1 & Z2); injection Z1 as <-; contradiction|].
              intros i W. destruct (B _ W) as (z & Z1 & _). discriminate Z1.
        -- clear. generalize (Char opening :: l). intro m. induction m as [|x m IH]; [reflexivity|]. cbn [map flat_map piece_text]. rewrite IH. reflexivity.
    + destruct (IH l ltac:(lia) G2) as (ps & (P1 & P2) & E). exists (Atom a :: ps). split.
      * split; [constructor; assumption|]. intros [|p q] b Q.
        -- injection Q as Q _. congruence.
        -- injection Q as _ Q. apply (P2 q b Q).
      * cbn [flat_map piece_text]. rewrite E. reflexivity.
Qed.

Lemma C53_pieces_proof :
  forall fmt, exists l e, good_format l /\ good_ending e /\ fmt = format_text l e.
Proof.
intro fmt. destruct (atoms_of (length fmt) fmt (le_n _)) as (l & e & G & E & ->).
destruct (brackets_of (length l) l (le_n _) G) as (ps & P & Q).
exists ps, e. split; [exact P|]. split; [exact E|]. unfold format_text. rewrite Q. reflexivity.
Qed.

Definition shown (s : str) : str := filter (fun c => negb (has skip_chars c)) s.
Definition atom_plain (a : atom) : str := match a with Char c => [c] | _ => [] end.
Lemma has_In s c : has s c = true <-> In c s.
Proof.
  unfold has. rewrite existsb_exists. split.
  - intros (x & I & E). apply N.eqb_eq in E. subst x. exact I.
  - intro I. exists c. split; [exact I|apply N.eqb_refl].
Qed.
Lemma reduce_quoted t fmt : ~ In quote t -> reduce 1 (t ++ quote :: fmt) = reduce 0 fmt.
Proof.
  induction t as [|c t IH]; intro N; cbn [app reduce]; [reflexivity|].
  replace (c =? 34) with false; [apply IH; intro Q; apply N; right; exact Q|].
  symmetry. apply N.eqb_neq. intros ->. apply N. left. reflexivity.
Qed.
Lemma escape_has e : escape e -> (e =? 34) = false /\ has (lit "\_*") e = true.
Proof. intros [->|[->| ->]]; split; reflexivity. Qed.
Lemma ordinary_has c : ordinary c -> (c =? 34) = false /\ has (lit "\_*") c = false.
Proof.
  intros [Q N]. split; [apply N.eqb_neq; exact Q|]. destruct (has (lit "\_*") c) eqn:H; [|reflexivity].
  exfalso. apply has_In in H. cbn in H. unfold escape in N. destruct H as [<-|[<-|[<-|[]]]]; tauto.
Qed.
Lemma reduce_atom a fmt : good_atom a -> reduce 0 (atom_text a ++ fmt) = shown (atom_plain a) ++ reduce 0 fmt.
Proof.
  destruct a as [t|e c|c]; cbn [good_atom atom_text atom_plain]; intro G.
  - cbn [app reduce]. rewrite <- app_assoc. apply (reduce_quoted t). exact G.
  - destruct (escape_has e G) as [E1 E2]. cbn [app reduce]. rewrite E1, E2. reflexivity.
  - destruct (ordinary_has c G) as [E1 E2]. cbn [app reduce]. rewrite E1, E2. unfold shown. cbn [filter].
    destruct (has skip_chars c); reflexivity.
Qed.
Lemma reduce_atoms l fmt : Forall good_atom l ->
  reduce 0 (flat_map atom_text l ++ fmt) = shown (flat_map atom_plain l) ++ reduce 0 fmt.
Proof.
  induction 1 as [|a l G _ IH]; [reflexivity|]. cbn [flat_map]. rewrite <- app_assoc. rewrite reduce_atom by exact G.
  rewrite IH. unfold shown. rewrite filter_app, <- app_assoc. reflexivity.
Qed.
Definition piece_plain (p : piece) : str :=
  match p with Atom a => atom_plain a | Bracketed l => opening :: flat_map atom_plain l ++ [closing] end.
Lemma reduce_pieces l fmt : Forall good_piece l ->
  reduce 0 (flat_map piece_text l ++ fmt) = shown (flat_map piece_plain l) ++ reduce 0 fmt.
Proof.
  induction 1 as [|p l G _ IH]; [reflexivity|]. cbn [flat_map]. rewrite <- app_assoc.
  unfold shown in *. rewrite filter_app, <- app_assoc, <- IH.
  destruct p as [a|i]; cbn [good_piece piece_text piece_plain] in *.
  - apply (reduce_atom a _ G).
  - destruct G as [G _]. 
    assert (B : forall s, reduce 0 (opening :: s) = opening :: reduce 0 s) by reflexivity.
    assert (C : forall s, reduce 0 (closing :: s) = closing :: reduce 0 s) by reflexivity.
    cbn [app]. rewrite B. rewrite <- app_assoc. rewrite reduce_atoms by exact G. cbn [app]. rewrite C.
    cbn [filter]. replace (negb (has skip_chars opening)) with true by reflexivity.
    rewrite filter_app. cbn [filter app]. replace (negb (has skip_chars closing)) with true by reflexivity.
    rewrite <- app_assoc. reflexivity.
Qed.
Lemma reduce_ending e : good_ending e -> reduce 0 (ending_text e) = [].
Proof.
  destruct e as [|t|e]; cbn [good_ending ending_text]; intro G; [reflexivity| |].
  - cbn [reduce]. replace (quote =? 34) with true by reflexivity. induction t as [|c t IH]; [reflexivity|]. cbn [reduce].
    replace (c =? 34) with false; [apply IH; intro Q; apply G; right; exact Q|].
    symmetry. apply N.eqb_neq. intros ->. apply G. left. reflexivity.
  - destruct (escape_has e G) as [E1 E2]. cbn [reduce]. rewrite E1, E2. reflexivity.
Qed.

Lemma after_bracket_app a s : ~ In closing a -> after_bracket (a ++ closing :: s) = Some s.
Proof.
  induction a as [|c a IH]; intro N; cbn [app after_bracket]; [reflexivity|].
  replace (c =? 93) with false; [apply IH; intro Q; apply N; right; exact Q|].
  symmetry. apply N.eqb_neq. intros ->. apply N. left. reflexivity.
Qed.
Lemma after_bracket_none a : ~ In closing a -> after_bracket a = None.
Proof.
  induction a as [|c a IH]; intro N; cbn [after_bracket]; [reflexivity|].
  replace (c =? 93) with false; [apply IH; intro Q; apply N; right; exact Q|].
  symmetry. apply N.eqb_neq. intros ->. apply N. left. reflexivity.
Qed.
Lemma unbracket_none : forall f a, (length a <= f)%nat -> ~ In closing a -> unbracket f a = a.
Proof.
  induction f as [|f IH]; intros a L N; [destruct a; [reflexivity|cbn in L; lia]|].
  destruct a as [|c a]; [reflexivity|]. cbn [unbracket]. cbn [length] in L.
  assert (M : ~ In closing a) by (intro Q; apply N; right; exact Q).
  rewrite after_bracket_none by exact M. rewrite IH by (try lia; exact M). destruct (c =? 91); reflexivity.
Qed.
Lemma shown_In c s : In c (shown s) -> In c s.
Proof. unfold shown. rewrite filter_In. tauto. Qed.
Lemma atom_plain_closing i : ~ In (Char closing) i -> ~ In closing (shown (flat_map atom_plain i)).
Proof.
  intros N Q. apply shown_In in Q. apply in_flat_map in Q. destruct Q as (a & A & X).
  destruct a as [t|e c|c]; cbn in X; try contradiction. destruct X as [->|[]]. contradiction.
Qed.
Lemma unbracket_pieces : forall l f, good_format l -> (length (shown (flat_map piece_plain l)) <= f)%nat ->
  unbracket f (shown (flat_map piece_plain l)) = shown (plain l).
Proof.
  induction l as [|p l IH]; intros f [G1 G2] L; [destruct f; reflexivity|].
  inversion G1 as [|? ? G3 G4]; subst.
  assert (G5 : good_format l).
  { split; [exact G4|]. intros a b E. apply (G2 (p :: a) b). rewrite E. reflexivity. }
  cbn [flat_map plain] in *. unfold shown in *. rewrite !filter_app in *. rewrite app_length in L.
  destruct p as [[t|e c|c]|i]; cbn [piece_plain atom_plain] in *.
  - apply (IH f G5). cbn [filter length] in L. lia.
  - apply (IH f G5). cbn [filter length] in L. lia.
  - cbn [filter] in *. destruct (negb (has skip_chars c)) eqn:K.
    2: { apply (IH f G5). cbn [length] in L. lia. }
    cbn [app length] in *. destruct f as [|f]; [lia|]. cbn [unbracket].
    destruct (N.eqb_spec c 91) as [->|C].
    + destruct (G2 [] l eq_refl) as [M1 M2].
      assert (NC : ~ In closing (filter (fun c => negb (has skip_chars c)) (flat_map piece_plain l))).
      { intro Q. apply filter_In in Q. destruct Q as [Q _]. apply in_flat_map in Q. destruct Q as (x & X & Y).
        destruct x as [[t|e c|c]|j]; cbn in Y; try contradiction.
        - destruct Y as [->|[]]. contradiction.
        - exact (M2 j X). }
      rewrite after_bracket_none by exact NC. f_equal. apply (IH f G5). lia.
    + f_equal. apply (IH f G5). lia.
  - cbn [good_piece] in G3. destruct G3 as [G3 G6].
    cbn [filter] in *. replace (negb (has skip_chars opening)) with true in * by reflexivity.
    rewrite filter_app in *. cbn [filter] in *. replace (negb (has skip_chars closing)) with true in * by reflexivity.
    cbn [app length] in *. destruct f as [|f]; [lia|]. cbn [unbracket]. replace (opening =? 91) with true by reflexivity.
    rewrite <- app_assoc. cbn [app]. rewrite after_bracket_app by (apply (atom_plain_closing i G6)).
    apply (IH f G5). lia.
Qed.

Lemma count_shown set s : (forall c, In c set -> has skip_chars c = false) -> count set (shown s) = count set s.
Proof.
  intro H. unfold count, shown. f_equal. induction s as [|c s IH]; [reflexivity|]. cbn [filter].
  destruct (has skip_chars c) eqn:K; cbn [negb filter]; rewrite IH; [|reflexivity].
  destruct (has set c) eqn:Q; [|reflexivity]. apply has_In in Q. rewrite (H c Q) in K. discriminate K.
Qed.
Lemma counts_count (P : N -> Prop) set s n : (forall c, P c <-> In c set) -> counts P s n -> count set s = n.
Proof.
  intros H C. unfold count. induction C as [|c s n Q C IH|c s n Q C IH]; [reflexivity| |]; cbn [filter].
  - replace (has set c) with true by (symmetry; apply has_In, H; exact Q). cbn [length]. lia.
  - destruct (has set c) eqn:E; [|exact IH]. apply has_In, H in E. contradiction.
Qed.
(** The table of formats that are no dates never matters. *)
Lemma non_date_counts s : existsb (str_eqb s) non_date_formats = true -> count date_chars s = 0%nat.
Proof.
  intro H. apply existsb_exists in H. destruct H as (x & I & E). apply str_eqb_eq in E. subst x.
  cbn in I. repeat (destruct I as [<-|I]; [vm_compute; reflexivity|]). destruct I.
Qed.

Lemma C53_verdict_proof :
  forall l e d n, good_format l -> good_ending e -> counts date_char (plain l) d -> counts num_char (plain l) n ->
  is_date_format_string (format_text l e) = true <-> (n < d)%nat.
Proof.
intros l e d n G E D M. unfold is_date_format_string, format_text. cbv zeta.
rewrite reduce_pieces by (destruct G; assumption). rewrite reduce_ending by exact E. rewrite app_nil_r.
rewrite unbracket_pieces by (try exact G; lia).
assert (CD : count date_chars (shown (plain l)) = d).
{ rewrite count_shown; [apply (counts_count date_char); [intro c; reflexivity|exact D]|].
  intros c I. cbn in I. repeat (destruct I as [<-|I]; [reflexivity|]). destruct I. }
assert (CN : count num_chars (shown (plain l)) = n).
{ rewrite count_shown; [apply (counts_count num_char); [intro c; reflexivity|exact M]|].
  intros c I. cbn in I. repeat (destruct I as [<-|I]; [reflexivity|]). destruct I. }
destruct (existsb (str_eqb (shown (plain l))) non_date_formats) eqn:X.
- apply non_date_counts in X. split; [discriminate|lia].
- rewrite CD, CN. destruct (Nat.eqb_spec (5 * d) 0) as [Z1|Z1], (Nat.eqb_spec (5 * n) 0) as [Z2|Z2]; cbn [negb andb];
    try (split; [intro; try discriminate; lia|intro; try reflexivity; lia]);
    rewrite Nat.ltb_lt; lia.
Qed.

Lemma counts_some (P : N -> Prop) : (forall c, P c \/ ~ P c) -> forall s, exists n, counts P s n.
Proof.
  intros D s. induction s as [|c s (n & IH)]; [exists 0%nat; constructor|].
  destruct (D c) as [Q|Q]; [exists (S n); apply counts_yes|exists n; apply counts_no]; assumption.
Qed.
Lemma In_either (c : N) l : In c l \/ ~ In c l.
Proof. destruct (in_dec N.eq_dec c l); tauto. Qed.

Lemma C53_independent_proof :
  forall l e l' e', good_format l -> good_ending e -> good_format l' -> good_ending e' -> plain l = plain l' ->
  is_date_format_string (format_text l e) = is_date_format_string (format_text l' e').
Proof.
intros l e l' e' G E G' E' P.
destruct (counts_some date_char (fun c => In_either c _) (plain l)) as (d & D).
destruct (counts_some num_char (fun c => In_either c _) (plain l)) as (n & M).
pose proof (C53_verdict_proof l e d n G E D M) as V. rewrite P in D, M.
pose proof (C53_verdict_proof l' e' d n G' E' D M) as V'.
destruct (is_date_format_string (format_text l e)), (is_date_format_string (format_text l' e')); try reflexivity.
- symmetry. apply V', V. reflexivity.
- apply V, V'. reflexivity.
Qed.

Lemma counts_zero (P : N -> Prop) s : Forall (fun c => ~ P c) s -> counts P s 0.
Proof. induction 1; [constructor|apply counts_no; assumption]. Qed.
Lemma counts_pos (P : N -> Prop) s : Exists P s -> forall n, counts P s n -> (0 < n)%nat.
Proof.
  induction 1 as [c s Q|c s X IH]; intros n C; inversion C; subst; try lia; try contradiction.
  apply IH. assumption.
Qed.

Lemma C53_not_date_proof :
  forall l e, good_format l -> good_ending e ->
  (Forall (fun c => ~ date_char c) (plain l) -> is_date_format_string (format_text l e) = false) /\
  (Forall (fun c => ~ num_char c) (plain l) -> Exists date_char (plain l) -> is_date_format_string (format_text l e) = true).
Proof.
intros l e G E. 
destruct (counts_some date_char (fun c => In_either c _) (plain l)) as (d & D).
destruct (counts_some num_char (fun c => In_either c _) (plain l)) as (n & M).
split.
- intro F. pose proof (C53_verdict_proof l e 0 n G E (counts_zero _ _ F) M) as V.
  destruct (is_date_format_string (format_text l e)); [|reflexivity]. destruct V as [V _]. specialize (V eq_refl). lia.
- intros F X. apply (C53_verdict_proof l e d 0 G E D (counts_zero _ _ F)). exact (counts_pos _ _ X d D).
Qed.

