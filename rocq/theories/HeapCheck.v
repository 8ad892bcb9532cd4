(** * Boolean checks of the conditions of SpecHeap on concrete worlds

    Used by the examples beside the theorems only. *)

From Coq Require Import ZifyBool ZifyNat.
From Verif Require Import PyBase PyBaseFacts PyFloat NumPy DataUtils Pack PackHeap SpecHeap HeapProofs.

Definition validb (w : world) (h : href) : bool :=
  Nat.ltb (h_b h) (length (w_bufs w)) && Nat.leb (h_off h + h_len h) (length (aelems (buf w (h_b h)))).

Fixpoint nodupb (l : list Z) : bool :=
  match l with [] => true | x :: l' => negb (existsb (Z.eqb x) l') && nodupb l' end.

Definition dictb (w : world) (d : dict href) : bool :=
  forallb (fun kv => validb w (snd kv)) d && nodupb (dkeys d).

Definition packb (w : world) (k : hpack) : bool :=
  Nat.ltb (k_data k) (length (w_dd w)) && Nat.ltb (k_names k) (length (w_nd w)) && validb w (k_mask k).

Definition wfb (w : world) : bool := forallb (dictb w) (w_dd w) && forallb (packb w) (w_packs w).

Lemma validb_spec : forall w h, validb w h = true -> valid w h.
Proof. intros w h H. unfold validb in H. unfold valid. lia. Qed.

Lemma nodupb_spec : forall l, nodupb l = true -> NoDup l.
Proof.
  induction l as [|x l IH]; intros H; constructor; simpl in H; apply andb_true_iff in H; destruct H as [H1 H2]; auto.
  intros I. apply negb_true_iff in H1.
  assert (existsb (Z.eqb x) l = true) by (apply existsb_exists; exists x; split; auto; lia). congruence.
Qed.

Lemma dictb_spec : forall w d, dictb w d = true -> (forall k h, In (k, h) d -> valid w h) /\ NoDup (dkeys d).
Proof.
  intros w d H. unfold dictb in H. apply andb_true_iff in H. destruct H as [H1 H2]. split.
  - intros k h I. rewrite forallb_forall in H1. apply validb_spec. apply (H1 (k, h)). auto.
  - apply nodupb_spec. auto.
Qed.

Lemma wfb_spec : forall w, wfb w = true -> wf w.
Proof.
  intros w H. unfold wfb in H. apply andb_true_iff in H. destruct H as [H1 H2].
  rewrite forallb_forall in H1, H2. split; [|split].
  - intros i k h I. destruct (Nat.lt_ge_cases i (length (w_dd w))) as [L|L].
    + destruct (dictb_spec w (dd w i)) as [D _]; eauto. apply H1. apply nth_In. auto.
    + unfold dd in I. rewrite nth_overflow in I by auto. destruct I.
  - intros i. destruct (Nat.lt_ge_cases i (length (w_dd w))) as [L|L].
    + apply (dictb_spec w (dd w i)). apply H1. apply nth_In. auto.
    + unfold dd. rewrite nth_overflow by auto. constructor.
  - intros p Hp. assert (X : packb w (pk w p) = true) by (apply H2; apply nth_In; auto).
    unfold packb in X. apply andb_true_iff in X. destruct X as [X V]. split; [lia|]. split; [lia|]. apply validb_spec; auto.
Qed.

Definition usesb (w : world) (p x : nat) : bool :=
  existsb (fun kv => Nat.eqb (h_b (snd kv)) x) (dd w (k_data (pk w p))) || Nat.eqb (h_b (k_mask (pk w p))) x.

Lemma usesb_spec : forall w p x, usesb w p x = true <-> uses w p x.
Proof.
  intros w p x. unfold usesb, uses, data_buf. rewrite orb_true_iff, existsb_exists. split.
  - intros [[[k h] [I E]]|E]; [left; exists k, h; split; auto; simpl in E; lia|right; lia].
  - intros [[k [h [I E]]]|E]; [left; exists (k, h); split; auto; simpl; lia|right; lia].
Qed.

Definition separateb (w : world) (a b : nat) : bool :=
  negb (Nat.eqb (k_data (pk w a)) (k_data (pk w b))) && negb (Nat.eqb (k_names (pk w a)) (k_names (pk w b))) &&
  negb (usesb w b (h_b (k_mask (pk w a)))).

Lemma separateb_spec : forall w a b, separateb w a b = true -> separate w a b.
Proof.
  intros w a b H. unfold separateb in H. rewrite !andb_true_iff, !negb_true_iff in H. destruct H as [[H1 H2] H3].
  split; [lia|]. split; [lia|]. intros U. apply usesb_spec in U. congruence.
Qed.

Definition othersb (w : world) (b : nat) : bool :=
  forallb (fun c => Nat.eqb c b || separateb w c b) (seq 0 (length (w_packs w))).

Lemma othersb_spec : forall w b, othersb w b = true ->
  forall c, c < length (w_packs w) -> c <> b -> separate w c b.
Proof.
  intros w b H c Hc Ne. unfold othersb in H. rewrite forallb_forall in H.
  assert (I : In c (seq 0 (length (w_packs w)))) by (apply in_seq; lia).
  apply H in I. apply separateb_spec. apply orb_true_iff in I. destruct I as [I|I]; auto. apply Nat.eqb_eq in I. contradiction.
Qed.

Definition argsb (w : world) (o : hop) : bool :=
  match target o with Some p => Nat.ltb p (length (w_packs w)) | None => true end &&
  match o with
  | HWrite h _ _ | HDataItem _ _ h | HMask _ h => validb w h
  | HNew d _ | HData _ d => dictb w d
  | HDataOf _ q | HNamesOf _ q | HAppend _ q => Nat.ltb q (length (w_packs w))
  | HCall p _ _ _ => Nat.ltb p (length (w_packs w))
  | _ => true
  end.

Lemma argsb_spec : forall w o, argsb w o = true -> args_ok w o.
Proof.
  intros w o H. unfold argsb in H. apply andb_true_iff in H. destruct H as [H1 H2]. split.
  - destruct (target o); [lia|auto].
  - destruct o; auto; try (apply validb_spec; auto); try (apply dictb_spec; auto); lia.
Qed.

Definition emptyb {A} (l : list A) : bool := match l with [] => true | _ => false end.

Definition keepsb (w : world) (b : nat) (o : hop) : bool :=
  match o with
  | HWrite h _ _ | HMask _ h => negb (usesb w b (h_b h))
  | HDataOf _ q => negb (Nat.eqb (k_data (pk w q)) (k_data (pk w b)))
  | HNamesOf _ q => negb (Nat.eqb (k_names (pk w q)) (k_names (pk w b)))
  | HAppend p q =>
      (negb (emptyb (dd w (k_data (pk w p)))) || negb (Nat.eqb (k_data (pk w q)) (k_data (pk w b)))) &&
      (negb (emptyb (nd w (k_names (pk w p)))) || negb (Nat.eqb (k_names (pk w q)) (k_names (pk w b))))
  | _ => true
  end.

Lemma not_usesb : forall w b x, negb (usesb w b x) = true -> ~ uses w b x.
Proof. intros w b x H U. apply usesb_spec in U. rewrite U in H. discriminate. Qed.

Lemma keepsb_spec : forall w b o, keepsb w b o = true -> keeps_off w b o.
Proof.
  intros w b o H. destruct o; simpl in *; auto; try (apply not_usesb; auto); try lia.
  apply andb_true_iff in H. destruct H as [H1 H2]. split; intros E; rewrite E in *; simpl in *; lia.
Qed.

Definition leavesb (w : world) (b : nat) (o : hop) : bool :=
  match o with
  | HWrite h _ _ => negb (Nat.eqb (h_b h) (h_b (k_mask (pk w b))))
  | HMask p h => if Nat.eqb p b
                 then forallb (fun c => Nat.eqb c b || negb (Nat.eqb (h_b (k_mask (pk w c))) (h_b h))) (seq 0 (length (w_packs w)))
                 else negb (Nat.eqb (h_b h) (h_b (k_mask (pk w b))))
  | _ => true
  end.

Lemma leavesb_spec : forall w b o, leavesb w b o = true -> leaves_mask w b o.
Proof.
  intros w b o H. destruct o; simpl in *; auto; [lia|]. destruct (Nat.eqb p b); [|lia].
  intros c Hc Ne. rewrite forallb_forall in H.
  assert (I : In c (seq 0 (length (w_packs w)))) by (apply in_seq; lia). apply H in I. lia.
Qed.

Fixpoint historyb (C : world -> hop -> bool) (w : world) (l : list hop) : bool :=
  match l with [] => true | o :: l' => C w o && historyb C (fst (hexec w o)) l' end.

Lemma historyb_spec : forall (C : world -> hop -> Prop) Cb, (forall w o, Cb w o = true -> C w o) ->
  forall l w, historyb Cb w l = true -> history C w l.
Proof.
  intros C Cb HC. induction l as [|o l IH]; intros w H; simpl in *; auto.
  apply andb_true_iff in H. destruct H. auto.
Qed.

(** Two packs, each with one channel of three integers and a name, for the
    examples. Buffers 0 and 1 hold the channels, 2 and 3 the masks. *)
Definition two_packs : world :=
  hrun (mkw [] [] [] [])
    [HAlloc (np_array (map VInt [1; 2; 3]%Z)); HAlloc (np_array (map VInt [4; 5; 6]%Z));
     HNew [(0%Z, mkh 0 0 3)] [(0%Z, VStr (lit "a"))]; HNew [(0%Z, mkh 1 0 3)] [(0%Z, VStr (lit "b"))]].

(** The same with an empty third pack. *)
Definition three_packs : world := hrun two_packs [HNew [] []].
