(** * Lemmas about XlNames.v *)

From Coq Require Import ZifyBool ZifyNat ZifyN.
From Verif Require Import PyBase PyBaseFacts PyFloat PyFloatFacts Dbf SpecDbf DbfProofs XlStruct CompDoc CompDocProofs SpecSst Sst SstProofs SstThms
  SpecBytes BytesProofs XlNames SpecNames.
Open Scope nat_scope.
Open Scope Z_scope.

(** ** Induction on formulas *)

Lemma expr_ind' (P : expr -> Prop) :
  (forall cls link area addr, P (Ref cls link area addr)) -> (forall cls area addr, P (Here cls area addr)) ->
  (forall cls code rest, P (Lost cls code rest)) -> (forall cls rest, P (Constants cls rest)) ->
  (forall n, P (Whole n)) -> (forall f, P (Real f)) -> (forall lo, P (Quote lo)) -> (forall b, P (Logical b)) ->
  (forall code, P (Failure code)) -> P Omitted -> (forall e, P e -> P (Paren e)) ->
  (forall sub w e, P e -> P (Mark sub w e)) -> (forall e sub w, P e -> P (Trail e sub w)) ->
  (forall n table e, P e -> P (Jumps n table e)) -> (forall cls n e, P e -> P (Memo cls n e)) ->
  (forall code e, P e -> P (Sign code e)) -> (forall code a b, P a -> P b -> P (Oper code a b)) ->
  (forall a b, P a -> P b -> P (Union a b)) -> (forall a b, P a -> P b -> P (Common a b)) ->
  (forall a b, P a -> P b -> P (Span a b)) -> (forall e w, P e -> P (Total e w)) ->
  (forall cls f args, Forall P args -> P (Call cls f args)) ->
  (forall cls prompt macro f args, Forall P args -> P (Variadic cls prompt macro f args)) ->
  (forall cls i rest, P (Other cls i rest)) -> (forall cls link i rest, P (OtherIn cls link i rest)) ->
  (forall cls where_ area addr, P (RefIn cls where_ area addr)) -> (forall raw, P (Phrase raw)) ->
  (forall cls ext unused i rest, P (OtherOf cls ext unused i rest)) ->
  forall e, P e.
Proof.
  intros A0 A1 A2 A3 A4 A5 A6 A7 A8 A9 A10 A11 A12 A13 A14 A15 A16 A17 A18 A19 A20 A21 A22 A23 A24 A25 A26 A27. fix F 1. intro e. destruct e;
  [apply A0|
   apply A1|
   apply A2|
   apply A3|
   apply A4|
   apply A5|
   apply A6|
   apply A7|
   apply A8|
   apply A9|
   apply A10; apply F|
   apply A11; apply F|
   apply A12; apply F|
   apply A13; apply F|
   apply A14; apply F|
   apply A15; apply F|
   apply A16; apply F|
   apply A17; apply F|
   apply A18; apply F|
   apply A19; apply F|
   apply A20; apply F|
   apply A21; induction args as [|x l IH]; constructor; [apply F|exact IH]|
   apply A22; induction args as [|x l IH]; constructor; [apply F|exact IH]|
   apply A23|
   apply A24|
   apply A25|
   apply A26|
   apply A27].
Qed.

(** ** Reading *)

Lemma from_byte mem pos b rest : from mem pos (b :: rest) -> Sst.byte_at mem pos = Ok b /\ from mem (pos + 1) rest.
Proof.
  intro F. split.
  - destruct F as (pre & -> & SP). unfold size in SP. unfold Sst.byte_at, py_index. rewrite app_length. cbn [length].
    replace (pos <? 0) with false by lia. replace ((0 <=? pos) && (pos <? Z.of_nat (length pre + S (length rest)))) with true by lia.
    rewrite nth_error_app2 by lia. replace (Z.to_nat pos - length pre)%nat with 0%nat by lia. reflexivity.
  - apply (from_next mem pos [b] rest). exact F.
Qed.
Lemma from_unpack n mem pos z rest : 0 <= z < 256 ^ Z.of_nat n -> from mem pos (le_bytes n z ++ rest) ->
  unpack_u (Z.of_nat n) mem pos = Ok z /\ from mem (pos + Z.of_nat n) rest.
Proof.
  intros R F. split.
  - unfold unpack_u. rewrite (from_slice mem pos (le_bytes n z) rest) by (auto using size_bytes).
    rewrite le_bytes_length, Z.eqb_refl, le_value_bytes by exact R. reflexivity.
  - apply from_next in F. rewrite size_bytes in F. exact F.
Qed.
(** Some number is read. *)
Lemma from_any (n : nat) mem pos b rest : length b = n -> from mem pos (b ++ rest) ->
  exists z, unpack_u (Z.of_nat n) mem pos = Ok z.
Proof.
  intros L F. exists (le_value b). unfold unpack_u. rewrite (from_slice mem pos b rest) by (auto; unfold size; lia).
  rewrite L, Z.eqb_refl. reflexivity.
Qed.

Lemma some_below (P : N -> bool) n : forallb P (map N.of_nat (seq 0 n)) = true -> forall c, (c < N.of_nat n)%N -> P c = true.
Proof.
  intros A c C. rewrite forallb_forall in A. apply A. rewrite in_map_iff. exists (N.to_nat c). split; [lia|]. apply in_seq. lia.
Qed.
Lemma class_decode cls code : good_class cls -> (code < 32)%N ->
  N.land (classed cls code) 31 = code /\ Z.of_N (N.land (classed cls code) 96) / 32 = Z.of_N cls.
Proof.
  intros G C. unfold good_class in G.
  assert (D : cls = 1%N \/ cls = 2%N \/ cls = 3%N) by lia.
  pose proof (some_below (fun c => (N.land (classed 1 c) 31 =? c)%N && (Z.of_N (N.land (classed 1 c) 96) / 32 =? 1) &&
     ((N.land (classed 2 c) 31 =? c)%N && (Z.of_N (N.land (classed 2 c) 96) / 32 =? 2)) &&
     ((N.land (classed 3 c) 31 =? c)%N && (Z.of_N (N.land (classed 3 c) 96) / 32 =? 3))) 32 eq_refl code C) as B.
  cbv beta in B. destruct D as [-> | [-> | ->]]; lia.
Qed.
Lemma plain_decode code : (code < 32)%N -> N.land code 31 = code /\ Z.of_N (N.land code 96) / 32 = 0.
Proof.
  intro C. pose proof (some_below (fun c => (N.land c 31 =? c)%N && (Z.of_N (N.land c 96) / 32 =? 0)) 32 eq_refl code C) as B.
  cbv beta in B. lia.
Qed.

Lemma class_one run bk self data pos cls code rest st nm st' bad nm' sz : good_class cls -> (code < 32)%N ->
  from data pos (classed cls code :: rest) -> nth (N.to_nat code + 32) (sizes_of bk) 0 = sz -> 0 < sz ->
  class_token run bk self data pos (Z.of_N code) (cls =? 1)%N st nm = Ok (st', bad, nm') ->
  one_token run bk self data pos st nm = Ok (sz, st', bad, nm').
Proof.
  intros G C F SZ S T. apply from_byte in F. destruct F as [B _]. unfold one_token. rewrite B. cbn [bind].
  destruct (class_decode cls code G C) as [-> ->]. assert (CL : Z.of_N cls =? 0 = false) by (unfold good_class in G; lia). rewrite CL.
  replace (Z.to_nat (Z.of_N code + 32)) with (N.to_nat code + 32)%nat by lia. rewrite SZ.
  replace (sz =? -2) with false by lia. replace (Z.of_N cls =? 1) with (cls =? 1)%N by lia. rewrite T. cbn [bind].
  replace (sz <=? 0) with false by lia. reflexivity.
Qed.
Lemma plain_one run bk self data pos code rest st nm st' sz sz' : (code < 32)%N ->
  from data pos (code :: rest) -> nth (N.to_nat code) (sizes_of bk) 0 = sz -> sz <> -2 -> 0 < sz' ->
  plain_token bk data pos sz (Z.of_N code) st = Ok (sz', st') ->
  one_token run bk self data pos st nm = Ok (sz', st', false, nm).
Proof.
  intros C F SZ S S' T. apply from_byte in F. destruct F as [B _]. unfold one_token. rewrite B. cbn [bind].
  destruct (plain_decode code C) as [-> ->]. cbn [Z.eqb].
  replace (Z.to_nat (Z.of_N code)) with (N.to_nat code) by lia. rewrite SZ.
  replace (sz =? -2) with false by lia. rewrite T. cbn [bind].
  replace (sz' <=? 0) with false by lia. reflexivity.
Qed.

Ltac sizes := unfold sizes_of; match goal with |- context [l_old ?bk] => destruct (l_old bk) end; reflexivity.

(** ** Steps *)

Inductive steps run bk self data len : Z -> list operand -> bool -> list nobj -> Z -> list operand -> bool -> list nobj -> Prop :=
| steps_none : forall p st e nm, steps run bk self data len p st e nm p st e nm
| steps_one : forall p st e nm sz st1 bad nm1 p' st' e' nm', p < len ->
    one_token run bk self data p st nm = Ok (sz, st1, bad, nm1) ->
    steps run bk self data len (p + sz) st1 (e || bad) nm1 p' st' e' nm' ->
    steps run bk self data len p st e nm p' st' e' nm'.
Lemma steps_app run bk self data len p st e nm p1 st1 e1 nm1 p2 st2 e2 nm2 :
  steps run bk self data len p st e nm p1 st1 e1 nm1 -> steps run bk self data len p1 st1 e1 nm1 p2 st2 e2 nm2 ->
  steps run bk self data len p st e nm p2 st2 e2 nm2.
Proof. induction 1; intro H'; [exact H'|]. eapply steps_one; eauto. Qed.
Lemma one_step run bk self data len p st e nm p' sz st1 bad nm1 : p < len ->
  one_token run bk self data p st nm = Ok (sz, st1, bad, nm1) -> p' = p + sz ->
  steps run bk self data len p st e nm p' st1 (e || bad) nm1.
Proof. intros L T ->. eapply steps_one; [exact L|exact T|constructor]. Qed.
Lemma token_pos run bk self data p st nm sz st1 bad nm1 : one_token run bk self data p st nm = Ok (sz, st1, bad, nm1) -> 0 < sz.
Proof.
  unfold one_token. destruct (Sst.byte_at data p) as [op|]; [|discriminate]. cbn [bind]. set (s := nth _ (sizes_of bk) 0).
  destruct (_ =? -2); [discriminate|]. destruct (_ =? 0).
  - destruct (plain_token _ _ _ _ _ _) as [[a b]|]; [|discriminate]. cbn [bind]. destruct (Z.leb_spec a 0); [discriminate|].
    intro H'. injection H' as <- _ _ _. lia.
  - destruct (class_token _ _ _ _ _ _ _ _ _) as [[[a b] c]|]; [|discriminate]. cbn [bind].
    destruct (Z.leb_spec s 0); [discriminate|]. intro H'. injection H' as <- _ _ _. lia.
Qed.
Lemma steps_loop run bk self data len p st e nm p' st' e' nm' :
  steps run bk self data len p st e nm p' st' e' nm' -> forall fuel, len - p <= Z.of_nat fuel -> exists fuel', len - p' <= Z.of_nat fuel' /\
  token_loop fuel run bk self data len p st e nm = token_loop fuel' run bk self data len p' st' e' nm'.
Proof.
  induction 1 as [|p st e nm sz st1 bad nm1 p' st' e' nm' L T S IH]; intros fuel F; [exists fuel; auto|].
  pose proof (token_pos _ _ _ _ _ _ _ _ _ _ _ T) as P. destruct fuel as [|fuel]; [lia|].
  destruct (IH fuel ltac:(lia)) as (f' & F' & E). exists f'. split; [exact F'|]. rewrite <- E. cbn [token_loop].
  replace (negb (p <? len)) with false by lia. rewrite T. reflexivity.
Qed.
Lemma loop_end fuel run bk self data len p st e nm : len <= p -> token_loop fuel run bk self data len p st e nm = Ok (st, e, nm).
Proof. intro L. destruct fuel; cbn [token_loop]; replace (negb (p <? len)) with true by lia; reflexivity. Qed.

(** ** Operands *)

Definition tiny (z : Z) : Prop := Z.abs z < 2 ^ 16.
Definition fits (x : operand) (s : sort) : Prop :=
  match s with
  | Area => exists k f, is_ref k = true /\ x = Opnd k (RefsVal [f])
  | Areas => exists k f l, is_ref k = true /\ x = Opnd k (RefsVal (f :: l))
  | Link => exists k, is_ref k = true /\ x = Opnd k NoVal
  | Tiny => exists z, tiny z /\ x = Opnd oNUM (NumVal (PInt z))
  | Short => exists z, word16 z /\ x = Opnd oNUM (NumVal (PFloat (float_of_Z z)))
  | Integer => exists z, x = Opnd oNUM (NumVal (PInt z))
  | Number => exists f, x = Opnd oNUM (NumVal (PFloat f))
  | FreeNumber => x = Opnd oNUM NoVal
  | Text => exists t, x = Opnd oSTRG (TextVal t)
  | FreeText => x = Opnd oSTRG NoVal
  | Truth => exists z, word16 z /\ x = Opnd oBOOL (NumVal (PInt z))
  | FreeTruth => x = Opnd oBOOL NoVal
  | Fault => x = Opnd oERR NoVal \/ exists z, word16 z /\ x = Opnd oERR (NumVal (PInt z))
  | Absent => x = Opnd oMSNG NoVal
  | Unknown => x = Opnd oUNK NoVal
  end.
Definition fits_any (x : operand) (l : list sort) : Prop := exists s, In s l /\ fits x s.
Lemma fits_one x s l : In s l -> fits x s -> fits_any x l.
Proof. intros; exists s; auto. Qed.
Lemma fits_opnd x s : fits x s -> exists k v, x = Opnd k v.
Proof.
  destruct s; cbn [fits]; intro F; repeat match goal with H : exists _, _ |- _ => destruct H | H : _ /\ _ |- _ => destruct H | H : _ \/ _ |- _ => destruct H end;
  subst; eauto.
Qed.

Ltac unfits :=
  repeat match goal with
  | H : exists _, _ |- _ => destruct H
  | H : _ /\ _ |- _ => destruct H
  | H : _ \/ _ |- _ => destruct H
  | H : is_ref ?k = true |- _ => destruct k; try discriminate H; clear H
  end; subst.

Lemma word16_bool (b : bool) : word16 (if b then 1 else 0).
Proof. unfold word16. destruct b; lia. Qed.
Ltac fit :=
  cbn [fits];
  first [ reflexivity | eexists; reflexivity | left; reflexivity | right; eexists; reflexivity
        | eexists; split; [|reflexivity]; first [reflexivity | assumption | apply word16_bool | unfold tiny, word16 in *; lia] | right; eexists; split; [|reflexivity]; first [assumption | unfold word16; lia] | eexists _, _; split; [|reflexivity]; reflexivity
        | eexists _, _, _; split; [|reflexivity]; reflexivity ].
Ltac fit_any := first [ eapply fits_one; [left; reflexivity|solve [fit]] | eapply fits_one; [right; left; reflexivity|solve [fit]] ].

Lemma float_of_int_truthy n : word16 n -> n <> 0 -> float_truthy (float_of_Z n) = true.
Proof.
  intros W NZ. unfold word16 in W. unfold float_of_Z, binary_normalize. destruct n as [|n|n]; [lia| |lia].
  destruct (binary_round_at false n) as (m & e & -> & _); [lia|]. reflexivity.
Qed.
Lemma short_float z : tiny z -> pynum_float (PInt z) = Ok (float_of_Z z).
Proof.
  intros W. unfold tiny in W. cbn [pynum_float]. unfold float_of_Z, binary_normalize. destruct z as [|n|n]; [reflexivity| |];
  [destruct (binary_round_at false n) as (m & e & -> & _)|destruct (binary_round_at true n) as (m & e & -> & _)]; try lia; reflexivity.
Qed.
Lemma word16_tiny z : word16 z -> tiny z.
Proof. unfold word16, tiny. lia. Qed.
Lemma sign_step code x st s : (code = 18 \/ code = 19 \/ code = 20)%N -> fits x s -> sign_ok code s = true ->
  exists y, do_unaryop (Z.of_N code) (x :: st) = Ok (y :: st) /\ fits_any y (sign_sorts code s).
Proof.
  intros O F K. destruct O as [-> | [-> | ->]]; cbv [Z.of_N];
    destruct s; cbn [fits sign_ok] in *; try discriminate K; unfits; cbn [do_unaryop the_operand bind sign_sorts];
    cbv [unary Z.eqb Pos.eqb N.eqb]; try rewrite short_float by (assumption || (apply word16_tiny; assumption)); cbn [bind pynum_float];
    (eexists; split; [reflexivity|]); fit_any.
Qed.

Lemma oper_step code x y st sa sb : (3 <= code <= 14)%N -> fits x sa -> fits y sb -> oper_ok code sa sb = true ->
  exists z, do_binop (Z.of_N code) (y :: x :: st) = Ok (z :: st) /\ fits z (oper_sort code sa sb).
Proof.
  intros C FX FY K.
  assert (KF : known sa && known sb = false -> fits (Opnd (binop_kind (Z.of_N code)) NoVal) (oper_sort code sa sb)).
  { intro X. unfold binop_kind, oper_sort. rewrite X. destruct (N.leb_spec code 7); [replace (Z.of_N code <=? 7) with true by lia; reflexivity|].
    replace (Z.of_N code <=? 7) with false by lia. destruct (N.eqb_spec code 8); [subst; reflexivity|].
    replace (Z.of_N code =? 8) with false by lia. reflexivity. }
  destruct sa, sb; cbn [fits] in *; unfits;
    try (eexists; split; [reflexivity|apply KF; reflexivity]); clear KF;
    (assert (D : (code = 3 \/ code = 4 \/ code = 5 \/ code = 6 \/ code = 7 \/ code = 8 \/ code = 9 \/ code = 10 \/ code = 11 \/ code = 12 \/ code = 13 \/ code = 14)%N) by lia);
    repeat match goal with H : _ \/ _ |- _ => destruct H end; subst code; cbn in K; try discriminate K;
    cbv [do_binop the_operand bind takes_arg has_value kind_eqb andb orb binop_value number_arg arith Z.of_N Z.leb Z.eqb Pos.eqb Z.compare Pos.compare Pos.compare_cont];
    try rewrite !short_float by (assumption || (apply word16_tiny; assumption)); cbn [pynum_float];
    eexists; (split; [reflexivity|fit]).
Qed.
(** A number that is written down and not zero. *)
Lemma divide_step x g st sa : fits x sa -> float_truthy g = true -> dividend sa = true ->
  exists z, do_binop 6 (Opnd oNUM (NumVal (PFloat g)) :: x :: st) = Ok (z :: st) /\ fits z (oper_sort 6 sa Number).
Proof.
  intros FX D K. destruct sa; cbn [fits] in *; unfits; cbn in K; try discriminate K;
    try (eexists; split; [reflexivity|fit]).
  - change (do_binop 6 (Opnd oNUM (NumVal (PFloat g)) :: Opnd oNUM (NumVal (PInt x0)) :: st)) with
      (do v <- (do w <- (do a <- pynum_float (PInt x0); do b <- Ok g; py_divide a b); Ok (NumVal w)); Ok (Opnd oNUM v :: st)).
    rewrite short_float by assumption. cbn [bind]. unfold py_divide. rewrite D. cbn [bind]. eexists. split; [reflexivity|fit].
  - change (do_binop 6 (Opnd oNUM (NumVal (PFloat g)) :: Opnd oNUM (NumVal (PFloat (float_of_Z x0))) :: st)) with
      (do v <- (do w <- py_divide (float_of_Z x0) g; Ok (NumVal w)); Ok (Opnd oNUM v :: st)).
    unfold py_divide. rewrite D. cbn [bind]. eexists. split; [reflexivity|fit].
  - change (do_binop 6 (Opnd oNUM (NumVal (PFloat g)) :: Opnd oNUM (NumVal (PFloat x0)) :: st)) with
      (do v <- (do w <- py_divide x0 g; Ok (NumVal w)); Ok (Opnd oNUM v :: st)).
    unfold py_divide. rewrite D. cbn [bind]. eexists. split; [reflexivity|fit].
Qed.
Lemma union_step x y st sa sb : fits x sa -> fits y sb -> union_ok sa sb = true ->
  exists z, do_list (y :: x :: st) = Ok (z :: st) /\ fits z (union_sort sa sb).
Proof.
  intros FX FY K. destruct sa, sb; cbn [fits] in *; unfits; cbn in K; try discriminate K; eexists; (split; [reflexivity|fit]).
Qed.
Lemma common_step x y st sa sb : fits x sa -> fits y sb -> common_ok sa sb = true ->
  exists z, do_ranges false (y :: x :: st) = Ok (z :: st) /\ fits_any z (common_sorts sa sb).
Proof.
  intros FX FY K. destruct sa, sb; cbn [fits] in *; unfits; cbn in K; try discriminate K;
    try (eexists; split; [reflexivity|fit_any]).
  all: cbn; destruct (flags_eqb _ _); eexists; (split; [reflexivity|fit_any]).
Qed.
Lemma span_step x y st sa sb : fits x sa -> fits y sb -> span_ok sa sb = true ->
  exists z, do_ranges true (y :: x :: st) = Ok (z :: st) /\ fits_any z (common_sorts sa sb).
Proof.
  intros FX FY K. destruct sa, sb; cbn [fits] in *; unfits; cbn in K; try discriminate K;
    try (eexists; split; [reflexivity|fit_any]).
  all: cbn; destruct (flags_eqb _ _); eexists; (split; [reflexivity|fit_any]).
Qed.

(** ** Functions *)

Definition operands (l : list operand) : Prop := Forall (fun x => exists k v, x = Opnd k v) l.
Lemma no_bare_ok l : operands l -> no_bare l = Ok tt.
Proof. induction 1 as [|x l (k & v & ->) _ IH]; cbn [no_bare the_operand bind]; auto. Qed.
Lemma last_args_app ys st : ys <> [] -> last_args (Z.of_nat (length ys)) (ys ++ st) = ys.
Proof.
  intro NE. unfold last_args. replace (Z.of_nat (length ys) =? 0) with false by (destruct ys; [congruence|cbn [length]; lia]).
  rewrite Nat2Z.id, firstn_app, firstn_all, Nat.sub_diag. apply app_nil_r.
Qed.
Lemma drop_args_app ys st : ys <> [] -> drop_args (Z.of_nat (length ys)) (ys ++ st) = st.
Proof.
  intro NE. unfold drop_args. replace (Z.of_nat (length ys) =? 0) with false by (destruct ys; [congruence|cbn [length]; lia]).
  rewrite Nat2Z.id, skipn_app, skipn_all, Nat.sub_diag. reflexivity.
Qed.

Lemma functions_args f n m : In (f, (n, m)) functions -> func_args f = Some (n, m) /\ f < 2 ^ 15 /\ 0 <= f /\ m < 128.
Proof.
  assert (A : Forall (fun r => func_args (fst r) = Some (snd r) /\ fst r < 2 ^ 15 /\ 0 <= fst r /\ snd (snd r) < 128) functions).
  { repeat (constructor; [split; [vm_compute; reflexivity|cbn [fst snd]; lia]|]). constructor. }
  rewrite Forall_forall in A. intro I. exact (A _ I).
Qed.

(** The arguments on the stack, the last one first. *)
Inductive pushed (names : Z -> list sort) : list operand -> list expr -> Prop :=
| pushed_none : pushed names [] []
| pushed_more : forall x ys e args, fits_any x (sorts names e) -> pushed names ys args -> pushed names (ys ++ [x]) (e :: args).
Lemma pushed_length names ys args : pushed names ys args -> length ys = length args.
Proof. induction 1 as [|x ys e args F P IH]; [reflexivity|]. rewrite app_length, IH. cbn [length]. lia. Qed.
Lemma pushed_operands names ys args : pushed names ys args -> operands ys.
Proof.
  induction 1 as [|x ys e args (s & _ & F) P IH]; [constructor|]. unfold operands. apply Forall_app. split; [exact IH|].
  constructor; [eapply fits_opnd; exact F|constructor].
Qed.
Lemma pushed_in names ys args x : pushed names ys args -> In x ys -> fits_any x (flat_map (sorts names) args).
Proof.
  induction 1 as [|y ys e args (s & I & F) P IH]; intro X; [destruct X|]. apply in_app_or in X. cbn [flat_map]. destruct X as [X | [<- | []]].
  - destruct (IH X) as (s' & I' & F'). exists s'. split; [apply in_or_app; auto|exact F'].
  - exists s. split; [apply in_or_app; auto|exact F].
Qed.

Lemma fits_chosen k v s : fits (Opnd k v) s -> fits (chosen_of (k, v)) (chosen s).
Proof.
  destruct s; cbn [fits chosen]; intro F; unfits; repeat match goal with H : Opnd _ _ = Opnd _ _ |- _ => injection H as -> -> end; cbn [chosen_of kind_eqb];
    first [exact F | fit].
Qed.
Lemma binary_int n : num_is n 0 || num_is n 1 = true ->
  exists t, py_int n = Ok t /\ 0 <= t <= 1 /\ (num_truthy n = false -> t = 0) /\ (num_truthy n = true -> t = 1).
Proof.
  intro O. destruct n as [z|f]; cbn [num_is py_int num_truthy] in *.
  - exists z. split; [reflexivity|]. lia.
  - assert (D : f = float_of_Z 1 \/ exists b, f = S754_zero b).
    { apply orb_prop in O. destruct f as [b|b| |b m e].
      - right. eauto.
      - destruct b, O as [O|O]; discriminate O.
      - destruct O as [O|O]; discriminate O.
      - destruct O as [O|O]; [destruct b; discriminate O|].
        left. destruct b; [discriminate O|]. unfold feqb, SFeqb in O. change (float_of_Z 1) with (S754_finite false 4503599627370496 (-52)) in *. cbn [SFcompare] in O.
      destruct (e ?= -52) eqn:EC; try discriminate O. apply Z.compare_eq in EC. subst e. f_equal.
      destruct (Pos.compare_cont Eq m 4503599627370496) eqn:PC; try discriminate O. apply Pos.compare_eq. exact PC. }
    destruct D as [-> | (b & ->)]; [exists 1|exists 0]; repeat split; try lia; try reflexivity; intro X; discriminate X.
Qed.
Lemma if_ok names ys e args st : pushed names ys (e :: args) -> (length args = 1 \/ length args = 2)%nat ->
  exists z, if_result (Z.of_nat (length ys)) (ys ++ st) = Ok z /\
    fits_any z (Unknown :: Truth :: map chosen (flat_map (sorts names) args)).
Proof.
  intros P L. pose proof (pushed_length _ _ _ P) as PL. cbn [length] in PL. inversion P as [|x ys' e' args' F P' E1]; subst. rename ys' into ys.
  pose proof (pushed_length _ _ _ P') as PL'. destruct F as (s & _ & F). apply fits_opnd in F. destruct F as (k & v & ->).
  unfold if_result. rewrite PL. unfold from_top at 1.
  replace (Z.to_nat (Z.of_nat (S (length args)) - 1)) with (length ys) by lia.
  rewrite nth_error_app1 by (rewrite app_length; cbn [length]; lia). rewrite nth_error_app2, Nat.sub_diag by lia. cbn [nth_error the_operand bind].
  assert (U : exists z, Ok (Opnd oUNK NoVal) = Ok z /\ fits_any z (Unknown :: Truth :: map chosen (flat_map (sorts names) args))).
  { eexists. split; [reflexivity|]. fit_any. }
  destruct v as [|f|t|r]; try exact U. destruct (_ && (_ || _)) eqn:O; [|exact U].
  destruct ((Z.of_nat (S (length args)) =? 2) && negb (num_truthy f)) eqn:B.
  { eexists. split; [reflexivity|]. fit_any. }
  assert (IT : exists t, py_int f = Ok t /\ 0 <= t <= 1 /\ (num_truthy f = false -> t = 0) /\ (num_truthy f = true -> t = 1)).
  { apply andb_prop in O. destruct O as [_ O]. apply binary_int. exact O. }
  destruct IT as (t & -> & T & T0 & T1). cbn [bind].
  set (i := Z.of_nat (S (length args)) - 2 + t).
  assert (I : 1 <= i <= Z.of_nat (length ys)).
  { unfold i. destruct (num_truthy f); cbn [negb andb] in B; [rewrite T1 by reflexivity|rewrite T0 by reflexivity]; lia. }
  unfold from_top. rewrite nth_error_app1 by (rewrite app_length; lia). rewrite nth_error_app1 by lia.
  destruct (nth_error ys (Z.to_nat (i - 1))) as [y|] eqn:Y; [|apply nth_error_None in Y; lia].
  apply nth_error_In in Y. destruct (pushed_in _ _ _ _ P' Y) as (s' & I' & F').
  destruct (fits_opnd _ _ F') as (k' & v' & ->). cbn [the_operand bind]. eexists. split; [reflexivity|].
  exists (chosen s'). split; [right; right; apply in_map; exact I'|]. apply fits_chosen. exact F'.
Qed.
Lemma short_choice z n : word16 z -> 1 <= n <= 30 ->
  num_from (PFloat (float_of_Z z)) 1 = (1 <=? z) /\ num_below (PFloat (float_of_Z z)) n = (z <? n) /\ py_int (PFloat (float_of_Z z)) = Ok z.
Proof.
  intros W N. unfold word16 in W. cbn [num_from num_below py_int]. unfold fleb, fltb, SFleb, SFltb.
  rewrite !float_of_Z_compare, int_of_float_of_Z by lia.
  split; [destruct (Z.compare_spec 1 z)|split; [destruct (Z.compare_spec z n)|reflexivity]]; lia.
Qed.
Lemma choose_ok names ys e args st : pushed names ys (e :: args) -> (length ys <= 30)%nat -> all_sorts (sorts names e) index_ok ->
  exists z, choose_result (Z.of_nat (length ys)) (ys ++ st) = Ok z /\
    fits_any z (Unknown :: Truth :: map chosen (flat_map (sorts names) args)).
Proof.
  intros P L30 A. pose proof (pushed_length _ _ _ P) as PL. cbn [length] in PL. inversion P as [|x ys' e' args' F P' E1]; subst. rename ys' into ys.
  pose proof (pushed_length _ _ _ P') as PL'. destruct F as (s & I & F). specialize (A s I).
  unfold choose_result. rewrite PL. unfold from_top at 1.
  replace (Z.to_nat (Z.of_nat (S (length args)) - 1)) with (length ys) by lia.
  rewrite nth_error_app1 by (rewrite app_length; cbn [length]; lia). rewrite nth_error_app2, Nat.sub_diag by lia. cbn [nth_error].
  assert (U : True -> exists z, Ok (Opnd oUNK NoVal) = Ok z /\ fits_any z (Unknown :: Truth :: map chosen (flat_map (sorts names) args))).
  { intros _. eexists. split; [reflexivity|]. fit_any. }
  assert (IN : forall v z, num_from v 1 = (1 <=? z) -> num_below v (Z.of_nat (S (length args))) = (z <? Z.of_nat (S (length args))) -> py_int v = Ok z ->
      exists y, (if num_from v 1 && num_below v (Z.of_nat (S (length args)))
      then do i <- py_int v; do y <- from_top (Z.of_nat (S (length args)) - i) ((ys ++ [x]) ++ st); Ok (chosen_of y)
      else Ok (Opnd oUNK NoVal)) = Ok y /\ fits_any y (Unknown :: Truth :: map chosen (flat_map (sorts names) args))).
  { intros v z V1 V2 V3. rewrite V1, V2, V3. destruct (_ && _) eqn:B; [|exact (U Coq.Init.Logic.I)]. cbn [bind].
    unfold from_top. rewrite nth_error_app1 by (rewrite app_length; lia). rewrite nth_error_app1 by lia.
    destruct (nth_error ys _) as [y|] eqn:Y; [|apply nth_error_None in Y; lia].
    apply nth_error_In in Y. destruct (pushed_in _ _ _ _ P' Y) as (s' & I' & F').
    destruct (fits_opnd _ _ F') as (k' & v' & ->). cbn [the_operand bind]. eexists. split; [reflexivity|].
    exists (chosen s'). split; [right; right; apply in_map; exact I'|]. apply fits_chosen. exact F'. }
  destruct s; cbn [fits index_ok] in *; try discriminate A; unfits; cbn [the_operand bind kind_eqb]; try exact (U Coq.Init.Logic.I);
    first [apply (IN (PInt _) _ eq_refl eq_refl eq_refl)
          |match goal with |- context [float_of_Z ?z] => destruct (short_choice z (Z.of_nat (S (length args)))) as (V1 & V2 & V3); [assumption|rewrite app_length in L30; cbn [length] in L30; lia|apply (IN _ _ V1 V2 V3)] end].
Qed.
Lemma func_ok names ys args st f n m : pushed names ys args -> In (f, (n, m)) functions -> Z.of_nat (length args) = n ->
  do_func f (ys ++ st) = Ok (Opnd oUNK NoVal :: st).
Proof.
  intros P I L. destruct (functions_args _ _ _ I) as (FA & _). pose proof (pushed_length _ _ _ P) as PL.
  unfold do_func. rewrite FA. rewrite app_length. replace (Z.of_nat (length ys + length st) <? n) with false by lia.
  destruct ys as [|y ys]; [cbn [length] in PL; replace (n =? 0) with true by lia; reflexivity|].
  replace (n =? 0) with false by (cbn [length] in PL; lia). replace n with (Z.of_nat (length (y :: ys))) by lia.
  rewrite last_args_app, drop_args_app by discriminate. rewrite no_bare_ok by (eapply pushed_operands; exact P). reflexivity.
Qed.
Lemma funcvar_ok names ys e args st (prompt macro : bool) f n m : pushed names ys (e :: args) -> In (f, (n, m)) functions ->
  n <= Z.of_nat (length (e :: args)) <= m -> (f = 100 -> all_sorts (sorts names e) index_ok) ->
  exists z, do_funcvar (Z.of_nat (length (e :: args) + if prompt then 128 else 0)) (f + if macro then 2 ^ 15 else 0) (ys ++ st) = Ok (z :: st) /\
    fits_any z (if (f =? 1) || (f =? 100) then Unknown :: Truth :: map chosen (flat_map (sorts names) args) else [Unknown]).
Proof.
  intros P I L A. destruct (functions_args _ _ _ I) as (FA & F1 & F0 & M). pose proof (pushed_length _ _ _ P) as PL.
  unfold do_funcvar.
  replace (Z.of_nat (length (e :: args) + if prompt then 128 else 0) mod 128) with (Z.of_nat (length ys))
    by (destruct prompt; [rewrite Nat2Z.inj_add; change (Z.of_nat 128) with (1 * 128); rewrite Z.mod_add by lia|rewrite Nat.add_0_r]; rewrite Z.mod_small; lia).
  replace ((f + if macro then 2 ^ 15 else 0) mod 32768) with f
    by (destruct macro; [change (2 ^ 15) with (1 * 32768); rewrite Z.mod_add by lia|rewrite Z.add_0_r]; rewrite Z.mod_small; lia).
  rewrite FA. replace (negb ((n <=? Z.of_nat (length ys)) && (Z.of_nat (length ys) <=? m))) with false by lia.
  rewrite app_length. replace (Z.of_nat (length ys + length st) <? Z.of_nat (length ys)) with false by lia.
  assert (NE : ys <> []) by (intros ->; cbn [length] in PL; lia).
  rewrite last_args_app, drop_args_app by exact NE. rewrite no_bare_ok by (eapply pushed_operands; exact P). cbn [bind].
  destruct (Z.eqb_spec f 1) as [-> | NF].
  - assert (NM : (n, m) = (2, 3)) by (vm_compute in FA; congruence). injection NM as -> ->. cbn [length] in L.
    destruct (if_ok names ys e args st P ltac:(lia)) as (z & -> & Z). cbn [bind]. eauto.
  - destruct (Z.eqb_spec f 100) as [-> | NC].
    + assert (NM : (n, m) = (2, 30)) by (vm_compute in FA; congruence). injection NM as -> ->.
      destruct (choose_ok names ys e args st P ltac:(lia) (A eq_refl)) as (z & -> & Z). cbn [bind]. eauto.
    + cbn [bind]. eexists. split; [reflexivity|fit_any].
Qed.

(** ** Formulas *)

Lemma cell_addr_new bk data p addr rest : l_old bk = None -> from data p (addr ++ rest) -> length addr = 4%nat -> exists r, cell_addr bk data p = Ok r.
Proof.
  intros OD F L. unfold cell_addr. rewrite OD. destruct addr as [|a [|b [|c [|d [|]]]]]; try discriminate L.
  destruct (from_any 2 data p [a; b] ([c; d] ++ rest) eq_refl F) as (z & E).
  apply (from_next data p [a; b] ([c; d] ++ rest)) in F. change (size [a; b]) with 2 in F.
  destruct (from_any 2 data (p + 2) [c; d] rest eq_refl F) as (z' & E').
  change (Z.of_nat 2) with 2 in *. rewrite E. cbn [bind]. rewrite E'. cbn [bind]. eauto.
Qed.
Lemma range_addr_new bk data p addr rest : l_old bk = None -> from data p (addr ++ rest) -> length addr = 8%nat -> exists r, range_addr bk data p = Ok r.
Proof.
  intros OD F L. unfold range_addr. rewrite OD. destruct addr as [|a [|b [|c [|d [|a' [|b' [|c' [|d' [|]]]]]]]]]; try discriminate L.
  destruct (from_any 2 data p [a; b] ([c; d; a'; b'; c'; d'] ++ rest) eq_refl F) as (z & E).
  apply (from_next data p [a; b] ([c; d; a'; b'; c'; d'] ++ rest)) in F. change (size [a; b]) with 2 in F.
  destruct (from_any 2 data (p + 2) [c; d] ([a'; b'; c'; d'] ++ rest) eq_refl F) as (z1 & E1).
  apply (from_next data _ [c; d] ([a'; b'; c'; d'] ++ rest)) in F. change (size [c; d]) with 2 in F.
  replace (p + 2 + 2) with (p + 4) in F by lia.
  destruct (from_any 2 data (p + 4) [a'; b'] ([c'; d'] ++ rest) eq_refl F) as (z2 & E2).
  apply (from_next data _ [a'; b'] ([c'; d'] ++ rest)) in F. change (size [a'; b']) with 2 in F.
  replace (p + 4 + 2) with (p + 6) in F by lia.
  destruct (from_any 2 data (p + 6) [c'; d'] rest eq_refl F) as (z3 & E3).
  change (Z.of_nat 2) with 2 in *. rewrite E. cbn [bind]. rewrite E1. cbn [bind]. rewrite E2. cbn [bind].
  rewrite E3. cbn [bind]. eauto.
Qed.
Lemma cell_addr_old bk o data p addr rest : l_old bk = Some o -> from data p (addr ++ rest) -> length addr = 3%nat -> exists r, cell_addr bk data p = Ok r.
Proof.
  intros OD F L. unfold cell_addr. rewrite OD. destruct addr as [|a [|b [|c [|]]]]; try discriminate L.
  destruct (from_any 2 data p [a; b] ([c] ++ rest) eq_refl F) as (z & E).
  apply (from_next data p [a; b] ([c] ++ rest)) in F. change (size [a; b]) with 2 in F.
  destruct (from_any 1 data (p + 2) [c] rest eq_refl F) as (z' & E').
  change (Z.of_nat 2) with 2 in *. change (Z.of_nat 1) with 1 in *. rewrite E. cbn [bind]. rewrite E'. cbn [bind]. eauto.
Qed.
Lemma range_addr_old bk o data p addr rest : l_old bk = Some o -> from data p (addr ++ rest) -> length addr = 6%nat -> exists r, range_addr bk data p = Ok r.
Proof.
  intros OD F L. unfold range_addr. rewrite OD. destruct addr as [|a [|b [|c [|d [|a' [|b' [|]]]]]]]; try discriminate L.
  destruct (from_any 2 data p [a; b] ([c; d; a'; b'] ++ rest) eq_refl F) as (z & E).
  apply (from_next data p [a; b] ([c; d; a'; b'] ++ rest)) in F. change (size [a; b]) with 2 in F.
  destruct (from_any 2 data (p + 2) [c; d] ([a'; b'] ++ rest) eq_refl F) as (z1 & E1).
  apply (from_next data _ [c; d] ([a'; b'] ++ rest)) in F. change (size [c; d]) with 2 in F.
  replace (p + 2 + 2) with (p + 4) in F by lia.
  destruct (from_any 1 data (p + 4) [a'] ([b'] ++ rest) eq_refl F) as (z2 & E2).
  apply (from_next data _ [a'] ([b'] ++ rest)) in F. change (size [a']) with 1 in F.
  replace (p + 4 + 1) with (p + 5) in F by lia.
  destruct (from_any 1 data (p + 5) [b'] rest eq_refl F) as (z3 & E3).
  change (Z.of_nat 2) with 2 in *. change (Z.of_nat 1) with 1 in *. rewrite E. cbn [bind]. rewrite E1. cbn [bind]. rewrite E2. cbn [bind].
  rewrite E3. cbn [bind]. eauto.
Qed.
(** Links are followed without harm, and the foreign ones lead nowhere. *)
Definition links_fair (bk : links) (foreign : Z -> Prop) : Prop :=
  forall k, word16 k -> exists sh, local_range bk k = Ok sh /\ (foreign k -> sh < -1).
Definition signed16 (e : Z) : Prop := - 2 ^ 15 <= e < 2 ^ 15.
Definition suits (bk : links) (v : option older) (foreign : Z -> Prop) : Prop :=
  match v, l_old bk with
  | None, None => links_fair bk foreign
  | Some w, Some o =>
      (forall b, readable w b -> exists t, ol_dec o b = Ok t) /\
      (forall e, signed16 e -> present w e -> e < 0 ->
         exists ty, nth_error (ol_types o) (Z.to_nat (- e - 1)) = Some ty /\ (foreign e -> ty <> 4))
  | _, _ => False
  end.
Lemma suits_new bk foreign : suits bk None foreign -> l_old bk = None /\ links_fair bk foreign.
Proof. unfold suits. destruct (l_old bk); [intros []|auto]. Qed.
Lemma suits_old bk w foreign : suits bk (Some w) foreign -> exists o, l_old bk = Some o /\
  (forall b, readable w b -> exists t, ol_dec o b = Ok t) /\
  (forall e, signed16 e -> present w e -> e < 0 ->
     exists ty, nth_error (ol_types o) (Z.to_nat (- e - 1)) = Some ty /\ (foreign e -> ty <> 4)).
Proof. unfold suits. destruct (l_old bk) as [o|]; [|intros []]. intro H. exists o. auto. Qed.
Lemma cell_addr_ok bk v foreign data p addr rest : suits bk v foreign -> from data p (addr ++ rest) -> length addr = cell_size v false ->
  exists r, cell_addr bk data p = Ok r.
Proof.
  intros SU. destruct v as [w|]; [apply suits_old in SU; destruct SU as (o & OD & _); eapply cell_addr_old; exact OD|].
  apply suits_new in SU. destruct SU as (OD & _). apply cell_addr_new. exact OD.
Qed.
Lemma range_addr_ok bk v foreign data p addr rest : suits bk v foreign -> from data p (addr ++ rest) -> length addr = cell_size v true ->
  exists r, range_addr bk data p = Ok r.
Proof.
  intros SU. destruct v as [w|]; [apply suits_old in SU; destruct SU as (o & OD & _); eapply range_addr_old; exact OD|].
  apply suits_new in SU. destruct SU as (OD & _). apply range_addr_new. exact OD.
Qed.
Lemma suits_sizes bk v foreign : suits bk v foreign -> sizes_of bk = in_ v sztab4 sztab3.
Proof.
  intros SU. unfold sizes_of. destruct v as [w|]; [apply suits_old in SU|apply suits_new in SU].
  - destruct SU as (o & -> & _). reflexivity.
  - destruct SU as (-> & _). reflexivity.
Qed.
Lemma local_ref_fits value flags : fits_any (local_ref value flags) (if value then [Area] else [Unknown]).
Proof. destruct value; unfold local_ref; fit_any. Qed.
Lemma sheet_ref_fits value flags : fits_any (sheet_ref value flags) (if value then [Area] else [Link]).
Proof. unfold sheet_ref. destruct value, (existsb _ _); fit_any. Qed.
Lemma from_word mem pos z rest : word16 z -> from mem pos (le_bytes 2 z ++ rest) -> unpack_u 2 mem pos = Ok z /\ from mem (pos + 2) rest.
Proof. intros W F. apply (from_unpack 2) in F; [exact F|]. unfold word16 in W. change (256 ^ Z.of_nat 2) with (2 ^ 16). lia. Qed.
Lemma from_word_any mem pos z rest : from mem pos (le_bytes 2 z ++ rest) -> exists v, unpack_u 2 mem pos = Ok v.
Proof. intro F. apply (from_any 2 mem pos (le_bytes 2 z) rest); [apply le_bytes_length|exact F]. Qed.
Lemma from_one mem pos b rest : (b < 256)%N -> from mem pos (b :: rest) -> unpack_u 1 mem pos = Ok (Z.of_N b) /\ from mem (pos + 1) rest.
Proof.
  intros B F. apply (from_unpack 1 mem pos (Z.of_N b) rest); [change (256 ^ Z.of_nat 1) with 256; lia|].
  cbn [le_bytes app]. rewrite Z.mod_small by lia. rewrite N2Z.id. exact F.
Qed.
Lemma from_quote data pos lo rest : good_layout lo -> uncut lo -> total_units lo < 256 -> from data pos (string_bytes 1 lo ++ rest) ->
  unpack_unicode_update_pos data pos 1 = Ok (text lo, pos + size (string_bytes 1 lo)).
Proof.
  intros G U T (pre & -> & <-). change 1 with (Z.of_nat 1). unfold size. apply (C54_unicode_proof 1); auto.
Qed.

Lemma value_mod n : forall z, le_value (le_bytes n z) = z mod 256 ^ Z.of_nat n.
Proof.
  induction n as [|n IH]; intro z.
  - cbn. rewrite Z.mod_1_r. reflexivity.
  - cbn [le_bytes le_value]. rewrite IH. rewrite Z2N.id by (apply Z.mod_pos_bound; lia).
    replace (Z.of_nat (S n)) with (1 + Z.of_nat n) by lia. rewrite Z.pow_add_r by lia.
    rewrite Z.rem_mul_r by lia. change (256 ^ 1) with 256. ring.
Qed.
Lemma signed_word e : signed16 e -> le_signed (le_bytes 2 e) = e.
Proof.
  intros [L U]. unfold le_signed. rewrite value_mod, le_bytes_length.
  change (2 ^ (8 * Z.of_nat 2)) with (2 ^ 16). change (256 ^ Z.of_nat 2) with (2 ^ 16).
  destruct (Z.ltb_spec e 0) as [N|N].
  - rewrite <- (Z.mod_unique_pos e (2 ^ 16) (-1) (e + 2 ^ 16)) by lia.
    destruct (2 * (e + 2 ^ 16) <? 2 ^ 16) eqn:E; lia.
  - rewrite Z.mod_small by lia. destruct (2 * e <? 2 ^ 16) eqn:E; lia.
Qed.
Lemma pairs_in f (l m : list sort) a b s : In a l -> In b m -> In s (f a b) -> In s (pairs f l m).
Proof. intros A B C. unfold pairs. apply in_flat_map. exists a. split; [exact A|]. apply in_flat_map. exists b. auto. Qed.
Lemma fits_sub x l m : incl l m -> fits_any x l -> fits_any x m.
Proof. intros I (s & A & F). exists s. auto. Qed.

Definition delivers run bk self data len (Inv : list nobj -> Prop) (e : expr) (P : operand -> Prop) : Prop :=
  forall pos rest st err nm, from data pos (formula_bytes e ++ rest) -> pos + size (formula_bytes e) <= len -> Inv nm ->
  exists x err' nm', steps run bk self data len pos st err nm (pos + size (formula_bytes e)) (x :: st) err' nm' /\ P x /\ Inv nm'.
Definition pushes run bk self data len (names : Z -> list sort) (Inv : list nobj -> Prop) (e : expr) : Prop :=
  delivers run bk self data len Inv e (fun x => fits_any x (sorts names e)).

Lemma size_cons (b : N) l : size (b :: l) = 1 + size l.
Proof. unfold size. cbn [length]. lia. Qed.
Lemma size_length (l : str) n : length l = n -> size l = Z.of_nat n.
Proof. intros <-. reflexivity. Qed.

(** One token after a formula. *)
Lemma step_plain run bk self data len pos code rest st st' err nm sz : (code < 32)%N ->
  from data pos (code :: rest) -> pos + 1 <= len -> nth (N.to_nat code) (sizes_of bk) 0 = 1 ->
  plain_token bk data pos 1 (Z.of_N code) st = Ok (1, st') -> sz = 1 ->
  steps run bk self data len pos st err nm (pos + sz) st' err nm.
Proof.
  intros C F L N T ->. rewrite <- (orb_false_r err) at 2. eapply one_step; [lia| |reflexivity].
  eapply plain_one; [exact C|exact F|exact N|lia|lia|exact T].
Qed.

Lemma args_ok run bk self data len names Inv args : Forall (pushes run bk self data len names Inv) args ->
  forall pos rest st err nm, from data pos (flat_map formula_bytes args ++ rest) -> pos + size (flat_map formula_bytes args) <= len -> Inv nm ->
  exists ys err' nm', steps run bk self data len pos st err nm (pos + size (flat_map formula_bytes args)) (ys ++ st) err' nm' /\
    pushed names ys args /\ Inv nm'.
Proof.
  induction 1 as [|e args E _ IH]; intros pos rest st err nm F L I.
  - exists [], err, nm. cbn [flat_map]. change (size []) with 0. rewrite Z.add_0_r. split; [constructor|]. split; [constructor|exact I].
  - cbn [flat_map] in *. rewrite size_app in *. rewrite <- app_assoc in F. pose proof (size_pos (flat_map formula_bytes args)) as SP.
    destruct (E pos (flat_map formula_bytes args ++ rest) st err nm F ltac:(lia) I) as (x & err1 & nm1 & S1 & F1 & I1).
    apply from_next in F.
    destruct (IH _ _ (x :: st) err1 nm1 F ltac:(lia) I1) as (ys & err2 & nm2 & S2 & P2 & I2).
    exists (ys ++ [x]), err2, nm2. split; [|split; [constructor; assumption|exact I2]].
    rewrite <- app_assoc. cbn [app]. rewrite Z.add_assoc. eapply steps_app; [exact S1|exact S2].
Qed.

Lemma two_ok run bk self data len Inv a b PA PB : delivers run bk self data len Inv a PA -> delivers run bk self data len Inv b PB ->
  forall pos c rest st err nm, from data pos ((formula_bytes a ++ formula_bytes b ++ [c]) ++ rest) ->
  pos + size (formula_bytes a ++ formula_bytes b ++ [c]) <= len -> Inv nm ->
  exists x y err' nm' p, steps run bk self data len pos st err nm p (y :: x :: st) err' nm' /\
    PA x /\ PB y /\ Inv nm' /\ from data p (c :: rest) /\
    p + 1 = pos + size (formula_bytes a ++ formula_bytes b ++ [c]).
Proof.
  intros A B pos c rest st err nm F L I. rewrite !size_app in *. change (size [c]) with 1 in *. rewrite <- !app_assoc in F.
  pose proof (size_pos (formula_bytes b)) as SP.
  destruct (A _ _ st err nm F ltac:(lia) I) as (x & err1 & nm1 & S1 & F1 & I1). apply from_next in F.
  destruct (B _ _ (x :: st) err1 nm1 F ltac:(lia) I1) as (y & err2 & nm2 & S2 & F2 & I2). apply from_next in F.
  exists x, y, err2, nm2, (pos + size (formula_bytes a) + size (formula_bytes b)).
  split; [eapply steps_app; [exact S1|exact S2]|]. split; [exact F1|]. split; [exact F2|]. split; [exact I2|]. split; [exact F|lia].
Qed.
(** An operator that takes two operands. *)
Lemma binary_ok run bk self data len names Inv a b c e PA PB : delivers run bk self data len Inv a PA -> delivers run bk self data len Inv b PB ->
  formula_bytes e = formula_bytes a ++ formula_bytes b ++ [c] -> (c < 32)%N -> nth (N.to_nat c) (sizes_of bk) 0 = 1 ->
  (forall x y st pos, PA x -> PB y ->
     exists z, plain_token bk data pos 1 (Z.of_N c) (y :: x :: st) = Ok (1, z :: st) /\ fits_any z (sorts names e)) ->
  pushes run bk self data len names Inv e.
Proof.
  intros A B E C N O pos rest st err nm F L I. rewrite E in *.
  destruct (two_ok _ _ _ _ _ _ _ _ _ _ A B _ _ _ st err nm F L I) as (x & y & err' & nm' & p & S & FX & FY & I' & F' & P).
  destruct (O x y st p FX FY) as (z & T & FZ). exists z, err', nm'. split; [|auto]. rewrite <- P.
  eapply steps_app; [exact S|]. eapply step_plain; [exact C|exact F'|lia|exact N|exact T|reflexivity].
Qed.
(** One that takes one. *)
Lemma unary_ok run bk self data len names Inv a c e : pushes run bk self data len names Inv a ->
  formula_bytes e = formula_bytes a ++ [c] -> (c < 32)%N -> nth (N.to_nat c) (sizes_of bk) 0 = 1 ->
  (forall x st pos, fits_any x (sorts names a) ->
     exists z, plain_token bk data pos 1 (Z.of_N c) (x :: st) = Ok (1, z :: st) /\ fits_any z (sorts names e)) ->
  pushes run bk self data len names Inv e.
Proof.
  intros A E C N O pos rest st err nm F L I. rewrite E in *. rewrite !size_app in *. change (size [c]) with 1 in *. rewrite <- !app_assoc in F.
  destruct (A _ _ st err nm F ltac:(lia) I) as (x & err1 & nm1 & S1 & F1 & I1). apply from_next in F.
  destruct (O x st (pos + size (formula_bytes a)) F1) as (z & T & FZ). exists z, err1, nm1. split; [|auto].
  rewrite Z.add_assoc. eapply steps_app; [exact S1|]. eapply step_plain; [exact C|exact F|lia|exact N|exact T|reflexivity].
Qed.
(** A token with a class that stands alone. *)
Lemma class_ok run bk self data len names (Inv : list nobj -> Prop) e cls code body : formula_bytes e = classed cls code :: body ->
  good_class cls -> (code < 32)%N -> nth (N.to_nat code + 32) (sizes_of bk) 0 = 1 + size body ->
  (forall pos rest st nm, from data (pos + 1) (body ++ rest) -> Inv nm -> exists x bad nm',
     class_token run bk self data pos (Z.of_N code) (cls =? 1)%N st nm = Ok (x :: st, bad, nm') /\ fits_any x (sorts names e) /\ Inv nm') ->
  pushes run bk self data len names Inv e.
Proof.
  intros E G C N T pos rest st err nm F L I. rewrite E in *. rewrite size_cons in *. pose proof (size_pos body) as SP. cbn [app] in F.
  pose proof F as F0. apply from_byte in F. destruct F as [_ F]. destruct (T pos rest st nm F I) as (x & bad & nm' & T' & FX & I').
  exists x, (err || bad)%bool, nm'. split; [|auto]. eapply one_step; [lia| |reflexivity].
  eapply class_one; [exact G|exact C|exact F0|exact N|lia|exact T'].
Qed.
(** One without a class. *)
Lemma plain_ok run bk self data len (Inv : list nobj -> Prop) e P code body : formula_bytes e = code :: body ->
  (code < 32)%N -> nth (N.to_nat code) (sizes_of bk) 0 <> -2 ->
  (forall pos rest st, from data (pos + 1) (body ++ rest) -> exists x,
     plain_token bk data pos (nth (N.to_nat code) (sizes_of bk) 0) (Z.of_N code) st = Ok (1 + size body, x :: st) /\ P x) ->
  delivers run bk self data len Inv e P.
Proof.
  intros E C N T pos rest st err nm F L I. rewrite E in *. rewrite size_cons in *. pose proof (size_pos body) as SP. cbn [app] in F.
  pose proof F as F0. apply from_byte in F. destruct F as [_ F]. destruct (T pos rest st F) as (x & T' & FX).
  exists x, err, nm. split; [|auto]. rewrite <- (orb_false_r err) at 2. eapply one_step; [lia| |reflexivity].
  eapply plain_one; [exact C|exact F0|reflexivity|exact N|lia|exact T'].
Qed.

Lemma mark_token bk data pos sub w rest st : (sub < 256)%N -> sub <> 4%N -> sub <> 16%N -> from data pos (25%N :: sub :: le_bytes 2 w ++ rest) ->
  plain_token bk data pos (-1) 25 st = Ok (4, st).
Proof.
  intros S N4 N16 F. apply from_byte in F. destruct F as [_ F]. apply from_one in F; [|exact S]. destruct F as [E F].
  replace (pos + 1 + 1) with (pos + 2) in F by lia. destruct (from_word_any _ _ _ _ F) as (v & E').
  cbn [plain_token Z.leb Z.eqb Z.compare Pos.compare Pos.compare_cont Pos.eqb]. rewrite E. cbn [bind]. rewrite E'. cbn [bind].
  replace (Z.of_N sub =? 4) with false by lia. replace (Z.of_N sub =? 16) with false by lia. reflexivity.
Qed.
Lemma fold_and {A} (P : A -> Prop) l : fold_right and True (map P l) -> Forall P l.
Proof. induction l as [|x l IH]; cbn [map fold_right]; intro H; [constructor|]. destruct H. constructor; auto. Qed.

Lemma namex_token run bk self data pos value st nm : class_token run bk self data pos (Z.of_N 25) value st nm =
  do (tgt, place) <- name_place bk data pos;
  if tgt =? self then Ok (Opnd oUNK NoVal :: st, true, nm)
  else
    match place with
    | None => Ok (Opnd oUNK NoVal :: st, false, nm)
    | Some place =>
        do sh <- place;
        if sh <? -1 then Ok (Opnd oUNK NoVal :: st, false, nm)
        else do (x, bad, nm) <- name_operand run bk tgt nm; Ok (x :: st, bad, nm)
    end.
Proof. reflexivity. Qed.

Lemma expr_ok run bk self data len v names (usable foreign : Z -> Prop) (Inv : list nobj -> Prop) : suits bk v foreign ->
  (forall j nm, word16 j -> usable j -> Inv nm ->
     exists x bad nm', name_operand run bk (j - 1) nm = Ok (x, bad, nm') /\ fits_any x (Unknown :: names j) /\ Inv nm') ->
  forall e, harmless v names usable foreign e -> pushes run bk self data len names Inv e.
Proof.
  intros SU NO. pose proof (suits_sizes _ _ _ SU) as SZ. induction e using expr_ind'; cbn [harmless]; intro H0.
  - (* Ref *) destruct H0 as (-> & G & W & LA). pose proof SU as SU0. apply suits_new in SU0. destruct SU0 as [OD AD].
    eapply class_ok; [reflexivity|exact G|destruct area; lia|rewrite SZ, size_app, size_bytes, (size_length _ _ LA); destruct area; reflexivity|].
    intros pos rest st nm F I. rewrite <- app_assoc in F. apply from_word in F; [|exact W]. destruct F as [E F].
    replace (pos + 1 + 2) with (pos + 3) in F by lia. destruct (AD link W) as (sh & ES & _). cbn [sorts].
    destruct area.
    + destruct (range_addr_ok _ _ _ _ _ _ _ SU F LA) as (r & ER). eexists _, _, nm. split; [|split; [apply sheet_ref_fits|exact I]].
      cbv [class_token Z.of_N Z.eqb Pos.eqb orb addr_pos ref_sheet]. rewrite OD. rewrite ER. cbn [bind]. rewrite E. cbn [bind]. rewrite ES. cbn [bind]. reflexivity.
    + destruct (cell_addr_ok _ _ _ _ _ _ _ SU F LA) as (r & ER). eexists _, _, nm. split; [|split; [apply sheet_ref_fits|exact I]].
      cbv [class_token Z.of_N Z.eqb Pos.eqb orb addr_pos ref_sheet]. rewrite OD. rewrite ER. cbn [bind]. rewrite E. cbn [bind]. rewrite ES. cbn [bind]. reflexivity.
  - (* Here *) destruct H0 as (G & LA).
    eapply class_ok; [reflexivity|exact G|destruct area; lia|rewrite SZ, (size_length _ _ LA); destruct v, area; reflexivity|].
    intros pos rest st nm F I. cbn [sorts].
    destruct area.
    + destruct (range_addr_ok _ _ _ _ _ _ _ SU F LA) as (r & ER). eexists _, _, nm. split; [|split; [apply local_ref_fits|exact I]].
      cbv [class_token Z.of_N Z.eqb Pos.eqb orb]. rewrite ER. cbn [bind]. reflexivity.
    + destruct (cell_addr_ok _ _ _ _ _ _ _ SU F LA) as (r & ER). eexists _, _, nm. split; [|split; [apply local_ref_fits|exact I]].
      cbv [class_token Z.of_N Z.eqb Pos.eqb orb]. rewrite ER. cbn [bind]. reflexivity.
  - (* Lost *) destruct H0 as (G & L). unfold lost_codes in L. cbn [In] in L.
    repeat match type of L with _ \/ _ => destruct L as [L|L] end; try contradiction; injection L as <- LR; symmetry in LR;
    (eapply class_ok; [reflexivity|exact G|lia|rewrite SZ, (size_length _ _ LR); destruct v; reflexivity|]);
    intros pos rest' st nm F I; (eexists _, _, nm; split; [reflexivity|split; [fit_any|exact I]]).
  - (* Constants *) destruct H0 as (G & L).
    eapply class_ok; [reflexivity|exact G|lia|rewrite SZ, (size_length _ _ L); destruct v; reflexivity|].
    intros pos rest' st nm F I; (eexists _, _, nm; split; [reflexivity|split; [fit_any|exact I]]).
  - (* Whole *) eapply plain_ok; [reflexivity|lia|rewrite SZ; destruct v; discriminate|]. intros pos rest st F.
    replace (nth (N.to_nat 30) (sizes_of bk) 0) with 3 by (rewrite SZ; destruct v; reflexivity). apply from_word in F; [|exact H0]. destruct F as [E _].
    exists (Opnd oNUM (NumVal (PFloat (float_of_Z n)))). split; [|cbn [sorts]; fit_any]. cbv [plain_token Z.of_N Z.eqb Pos.eqb Z.leb Z.compare Pos.compare Pos.compare_cont]. rewrite E. cbn [bind].
    rewrite size_bytes. reflexivity.
  - (* Real *) eapply plain_ok; [reflexivity|lia|rewrite SZ; destruct v; discriminate|]. intros pos rest st F.
    replace (nth (N.to_nat 31) (sizes_of bk) 0) with 9 by (rewrite SZ; destruct v; reflexivity).
    eexists. split; [|cbn [sorts]; fit_any]. cbv [plain_token Z.of_N Z.eqb Pos.eqb Z.leb Z.compare Pos.compare Pos.compare_cont].
    replace (pos + 9) with (pos + 1 + 8) by lia.
    rewrite (from_slice _ _ _ _ 8 F) by (apply (size_length _ 8), double_bytes_length).
    rewrite unpack_double by exact H0. cbn [bind]. rewrite (size_length _ _ (double_bytes_length f)). reflexivity.
  - (* Quote *) destruct H0 as (-> & G & U & T). pose proof SU as SU0. apply suits_new in SU0. destruct SU0 as [OD _]. eapply plain_ok; [reflexivity|lia|rewrite SZ; discriminate|]. intros pos rest st F.
    eexists. split; [|cbn [sorts]; fit_any]. cbv [plain_token Z.of_N Z.eqb Pos.eqb Z.leb Z.compare Pos.compare Pos.compare_cont].
    unfold text_token. rewrite OD, (from_quote _ _ _ _ G U T F). cbn [bind]. f_equal. f_equal. lia.
  - (* Logical *) eapply plain_ok; [reflexivity|lia|rewrite SZ; destruct v; discriminate|]. intros pos rest st F.
    replace (nth (N.to_nat 29) (sizes_of bk) 0) with 2 by (rewrite SZ; destruct v; reflexivity).
    apply from_one in F; [|destruct b; lia]. destruct F as [E _].
    exists (Opnd oBOOL (NumVal (PInt (if b then 1 else 0)))). split; [|cbn [sorts]; fit_any]. cbv [plain_token Z.of_N Z.eqb Pos.eqb Z.leb Z.compare Pos.compare Pos.compare_cont]. rewrite E. cbn [bind].
    destruct b; reflexivity.
  - (* Failure *) assert (C : (code < 256)%N /\ existsb (Z.eqb (Z.of_N code)) error_codes = true).
    { unfold failures in H0. cbn [In] in H0. repeat destruct H0 as [<-|H0]; try (split; [lia|reflexivity]). destruct H0. }
    eapply plain_ok; [reflexivity|lia|rewrite SZ; destruct v; discriminate|]. intros pos rest st F.
    apply from_one in F; [|apply C]. destruct F as [E _].
    exists (Opnd oERR (NumVal (PInt (Z.of_N code)))). split; [|exists Fault; split; [left; reflexivity|right; eexists; split; [|reflexivity]; unfold word16; lia]].
    replace (nth (N.to_nat 28) (sizes_of bk) 0) with 2 by (rewrite SZ; destruct v; reflexivity).
    change (plain_token bk data pos 2 (Z.of_N 28) st) with
      (do v <- unpack_u 1 data (pos + 1);
       if existsb (Z.eqb v) error_codes then Ok (2, Opnd oERR (NumVal (PInt v)) :: st) else Err KeyError).
    rewrite E. cbn [bind]. destruct C as [_ ->]. reflexivity.
  - (* Omitted *) eapply plain_ok; [reflexivity|lia|rewrite SZ; destruct v; discriminate|]. intros pos rest st F.
    replace (nth (N.to_nat 22) (sizes_of bk) 0) with 1 by (rewrite SZ; destruct v; reflexivity). eexists. split; [reflexivity|cbn [sorts]; fit_any].
  - (* Paren *) eapply unary_ok; [apply IHe; exact H0|reflexivity|lia|(rewrite SZ; destruct v; reflexivity)|]. intros x st pos F. exists x. split; [reflexivity|exact F].
  - (* Mark *) destruct H0 as (N4 & N16 & S & H0). intros pos rest st err nm F L I. cbn [formula_bytes sorts] in *.
    rewrite !size_cons, size_app, size_bytes in *. cbn [app] in F. rewrite <- app_assoc in F. pose proof (size_pos (formula_bytes e)) as SP.
    pose proof (mark_token bk _ _ _ _ _ st S N4 N16 F) as T. pose proof F as F0.
    apply (from_next data pos [25%N; sub] (le_bytes 2 w ++ formula_bytes e ++ rest)) in F. apply from_next in F. rewrite size_bytes in F.
    destruct (IHe H0 _ _ st err nm F ltac:(change (size [25%N; sub]) with 2; lia) I) as (x & err1 & nm1 & S1 & F1 & I1).
    exists x, err1, nm1. split; [|auto]. eapply steps_one; [lia|eapply (plain_one _ _ _ _ _ 25%N _ _ _ _ (-1)); [..|exact T]; [lia|exact F0|(rewrite SZ; destruct v; reflexivity)|lia|lia]|].
    rewrite orb_false_r. change (size [25%N; sub]) with 2 in S1. change (Z.of_nat 2) with 2 in *.
    replace (pos + 2 + 2) with (pos + 4) in S1 by lia. replace (pos + (1 + (1 + (2 + size (formula_bytes e))))) with (pos + 4 + size (formula_bytes e)) by lia. exact S1.
  - (* Trail *) destruct H0 as (N4 & N16 & S & H0). intros pos rest st err nm F L I. cbn [formula_bytes sorts] in *.
    rewrite !size_app, !size_cons, size_bytes in *. rewrite <- app_assoc in F.
    destruct (IHe H0 _ _ st err nm F ltac:(lia) I) as (x & err1 & nm1 & S1 & F1 & I1). apply from_next in F. cbn [app] in F.
    pose proof (mark_token bk _ _ _ _ _ (x :: st) S N4 N16 F) as T.
    exists x, err1, nm1. split; [|auto]. eapply steps_app; [exact S1|]. rewrite <- (orb_false_r err1) at 2. eapply one_step; [lia| |].
    + eapply (plain_one _ _ _ _ _ 25%N _ _ _ _ (-1)); [..|exact T]; [lia|exact F|(rewrite SZ; destruct v; reflexivity)|lia|lia].
    + lia.
  - (* Jumps *) destruct H0 as (W & TS & H0). intros pos rest st err nm F L I. cbn [formula_bytes sorts] in *.
    rewrite !size_cons, !size_app, size_bytes in *. cbn [app] in F. rewrite <- !app_assoc in F. pose proof (size_pos (formula_bytes e)) as SP.
    pose proof F as F0. apply from_byte in F. destruct F as [_ F]. apply from_one in F; [|lia]. destruct F as [E1 F].
    replace (pos + 1 + 1) with (pos + 2) in F by lia. apply from_word in F; [|exact W]. destruct F as [E2 F].
    apply from_next in F. rewrite TS in F.
    destruct (IHe H0 _ _ st err nm F ltac:(lia) I) as (x & err1 & nm1 & S1 & F1 & I1).
    exists x, err1, nm1. split; [|auto].
    assert (T : plain_token bk data pos (-1) 25 st = Ok (n * 2 + 6, st)).
    { cbv [plain_token Z.of_N Z.eqb Pos.eqb Z.leb Z.compare Pos.compare Pos.compare_cont]. rewrite E1. cbn [bind]. rewrite E2. cbn [bind]. reflexivity. }
    unfold word16 in W. eapply steps_one; [lia|eapply (plain_one _ _ _ _ _ 25%N _ _ _ _ (-1)); [..|exact T]; [lia|exact F0|(rewrite SZ; destruct v; reflexivity)|lia|lia]|].
    rewrite orb_false_r. replace (pos + 2 + 2 + (2 * n + 2)) with (pos + (n * 2 + 6)) in S1 by lia.
    rewrite TS. replace (pos + (1 + (1 + (Z.of_nat 2 + (2 * n + 2 + size (formula_bytes e)))))) with (pos + (n * 2 + 6) + size (formula_bytes e)) by lia. exact S1.
  - (* Memo *) destruct H0 as (G & H0). intros pos rest st err nm F L I. cbn [formula_bytes sorts] in *.
    rewrite !size_cons, !size_app, size_bytes in *. cbn [app] in F. rewrite <- !app_assoc in F. pose proof (size_pos (formula_bytes e)) as SP.
    pose proof F as F0. apply from_byte in F. destruct F as [_ F]. destruct (from_word_any _ _ _ _ F) as (vv & E). apply from_next in F. rewrite size_bytes in F.
    destruct (IHe H0 _ _ st err nm F ltac:(lia) I) as (x & err1 & nm1 & S1 & F1 & I1).
    exists x, err1, nm1. split; [|auto]. eapply steps_one; [lia|eapply (class_one _ _ _ _ _ _ 9%N); [exact G|..]; [lia|exact F0|reflexivity|(rewrite SZ; destruct v; reflexivity)|]|].
    + cbv [class_token Z.of_N Z.eqb Pos.eqb orb]. rewrite E. cbn [bind]. reflexivity.
    + rewrite orb_false_r. change (Z.of_nat 2) with 2 in *. replace (nth (N.to_nat 9 + 32) (sizes_of bk) 0) with 3 by (rewrite SZ; destruct v; reflexivity).
      replace (pos + 1 + 2) with (pos + 3) in S1 by lia. replace (pos + (1 + (2 + size (formula_bytes e)))) with (pos + 3 + size (formula_bytes e)) by lia. exact S1.
  - (* Sign *) destruct H0 as (C & H0 & A).
    assert (D : code = 18%N \/ code = 19%N \/ code = 20%N) by lia.
    eapply unary_ok; [apply IHe; exact H0|reflexivity|lia|rewrite SZ; destruct D as [-> | [-> | ->]], v; reflexivity|].
    intros x st pos (s & I & F). destruct (sign_step code x st s D F (A s I)) as (y & Y & (s' & I' & F')).
    exists y. split; [destruct D as [-> | [-> | ->]]; cbv [plain_token Z.of_N Z.eqb Pos.eqb Z.leb Z.compare Pos.compare Pos.compare_cont]; cbv [Z.of_N] in Y; rewrite Y; reflexivity|].
    exists s'. split; [|exact F']. cbn [sorts]. apply in_flat_map. exists s. auto.
  - (* Oper *) destruct H0 as (C & HA & HB & A).
    assert (PT : forall pos st, plain_token bk data pos 1 (Z.of_N code) st = do s <- do_binop (Z.of_N code) st; Ok (1, s)).
    { intros. unfold plain_token. replace (Z.of_N code <=? 2) with false by lia. replace (Z.of_N code <=? 14) with true by lia. reflexivity. }
    assert (NT : nth (N.to_nat code) (sizes_of bk) 0 = 1).
    { assert (D : (code = 3 \/ code = 4 \/ code = 5 \/ code = 6 \/ code = 7 \/ code = 8 \/ code = 9 \/ code = 10 \/ code = 11 \/ code = 12 \/ code = 13 \/ code = 14)%N) by lia.
      rewrite SZ. repeat destruct D as [-> | D]; try (destruct v; reflexivity). rewrite D. destruct v; reflexivity. }
    destruct A as [A | (-> & DV & A)].
    + eapply binary_ok; [apply IHe1; exact HA|apply IHe2; exact HB|reflexivity|lia|exact NT|].
      intros x y st pos (sa & IA & FA) (sb & IB & FB). rewrite PT. destruct (oper_step code x y st sa sb C FA FB (A sa sb IA IB)) as (z & -> & FZ).
      exists z. split; [reflexivity|]. cbn [sorts]. eexists. split; [|exact FZ]. eapply pairs_in; [exact IA|exact IB|left; reflexivity].
    + assert (B : delivers run bk self data len Inv e2 (fun y => exists g, y = Opnd oNUM (NumVal (PFloat g)) /\ float_truthy g = true)).
      { destruct e2; try (destruct DV; fail); cbn [harmless divisor] in HB, DV.
        - eapply plain_ok; [reflexivity|lia|rewrite SZ; destruct v; discriminate|]. intros pos rest st F. apply from_word in F; [|exact HB]. destruct F as [E _].
          replace (nth (N.to_nat 30) (sizes_of bk) 0) with 3 by (rewrite SZ; destruct v; reflexivity).
          eexists. split; [cbv [plain_token Z.of_N Z.eqb Pos.eqb Z.leb Z.compare Pos.compare Pos.compare_cont]; rewrite E; cbn [bind]; rewrite size_bytes; reflexivity|].
          eexists. split; [reflexivity|]. apply float_of_int_truthy; assumption.
        - eapply plain_ok; [reflexivity|lia|rewrite SZ; destruct v; discriminate|]. intros pos rest st F.
          replace (nth (N.to_nat 31) (sizes_of bk) 0) with 9 by (rewrite SZ; destruct v; reflexivity).
          eexists. split.
          { cbv [plain_token Z.of_N Z.eqb Pos.eqb Z.leb Z.compare Pos.compare Pos.compare_cont]. replace (pos + 9) with (pos + 1 + 8) by lia.
            rewrite (from_slice _ _ _ _ 8 F) by (apply (size_length _ 8), double_bytes_length).
            rewrite unpack_double by exact HB. cbn [bind]. rewrite (size_length _ _ (double_bytes_length f)). reflexivity. }
          eexists. split; [reflexivity|]. destruct f; try reflexivity. destruct DV. }
      eapply binary_ok; [apply IHe1; exact HA|exact B|reflexivity|lia|exact NT|].
      intros x y st pos (sa & IA & FA) (g & -> & T). rewrite PT. change (Z.of_N 6) with 6. destruct (divide_step x g st sa FA T (A sa IA)) as (z & -> & FZ).
      exists z. split; [reflexivity|]. cbn [sorts].
      assert (SB : exists sb, In sb (sorts names e2) /\ oper_sort 6 sa sb = oper_sort 6 sa Number).
      { destruct e2; try (destruct DV; fail); eexists; (split; [left; reflexivity|destruct sa; reflexivity]). }
      destruct SB as (sb & IB & EB). rewrite <- EB in FZ. eexists. split; [|exact FZ].
      eapply pairs_in; [exact IA|exact IB|left; reflexivity].
  - (* Union *) destruct H0 as (HA & HB & A). eapply binary_ok; [apply IHe1; exact HA|apply IHe2; exact HB|reflexivity|lia|(rewrite SZ; destruct v; reflexivity)|].
    intros x y st pos (sa & IA & FA) (sb & IB & FB). destruct (union_step x y st sa sb FA FB (A sa sb IA IB)) as (z & E & FZ).
    exists z. split; [cbv [plain_token Z.of_N Z.eqb Pos.eqb Z.leb Z.compare Pos.compare Pos.compare_cont]; rewrite E; reflexivity|].
    cbn [sorts]. eexists. split; [|exact FZ]. eapply pairs_in; [exact IA|exact IB|left; reflexivity].
  - (* Common *) destruct H0 as (HA & HB & A). eapply binary_ok; [apply IHe1; exact HA|apply IHe2; exact HB|reflexivity|lia|(rewrite SZ; destruct v; reflexivity)|].
    intros x y st pos (sa & IA & FA) (sb & IB & FB). destruct (common_step x y st sa sb FA FB (A sa sb IA IB)) as (z & E & (s & IS & FZ)).
    exists z. split; [cbv [plain_token Z.of_N Z.eqb Pos.eqb Z.leb Z.compare Pos.compare Pos.compare_cont]; rewrite E; reflexivity|].
    cbn [sorts]. exists s. split; [|exact FZ]. eapply pairs_in; [exact IA|exact IB|exact IS].
  - (* Span *) destruct H0 as (HA & HB & A). eapply binary_ok; [apply IHe1; exact HA|apply IHe2; exact HB|reflexivity|lia|(rewrite SZ; destruct v; reflexivity)|].
    intros x y st pos (sa & IA & FA) (sb & IB & FB). destruct (span_step x y st sa sb FA FB (A sa sb IA IB)) as (z & E & (s & IS & FZ)).
    exists z. split; [cbv [plain_token Z.of_N Z.eqb Pos.eqb Z.leb Z.compare Pos.compare Pos.compare_cont]; rewrite E; reflexivity|].
    cbn [sorts]. exists s. split; [|exact FZ]. eapply pairs_in; [exact IA|exact IB|exact IS].
  - (* Total *) intros pos rest st err nm F L I. cbn [formula_bytes sorts] in *.
    rewrite !size_app, !size_cons, size_bytes in *. rewrite <- app_assoc in F.
    destruct (IHe H0 _ _ st err nm F ltac:(lia) I) as (x & err1 & nm1 & S1 & (s & _ & F1) & I1). apply from_next in F. cbn [app] in F.
    destruct (fits_opnd _ _ F1) as (k & vv & ->).
    exists (Opnd oNUM NoVal), err1, nm1. split; [|split; [fit_any|exact I1]]. eapply steps_app; [exact S1|]. rewrite <- (orb_false_r err1) at 2.
    pose proof F as F0. apply from_byte in F. destruct F as [_ F]. apply from_one in F; [|lia]. destruct F as [E1 F].
    set (p := pos + size (formula_bytes e)) in *.
    replace (p + 1 + 1) with (p + 2) in F by lia. destruct (from_word_any _ _ _ _ F) as (v' & E2). eapply one_step; [lia| |].
    + eapply (plain_one _ _ _ _ _ 25%N); [lia|exact F0|reflexivity|rewrite SZ; destruct v; discriminate| |cbv [plain_token Z.of_N Z.eqb Pos.eqb Z.leb Z.compare Pos.compare Pos.compare_cont]; rewrite E1; cbn [bind]; rewrite E2; cbn [bind the_operand]; reflexivity]. lia.
    + unfold p. lia.
  - (* Call *) destruct H0 as (G & (n & m & I0 & L0) & HA). apply fold_and in HA.
    assert (PA : Forall (pushes run bk self data len names Inv) args).
    { clear - H HA. induction H as [|x l X _ IH]; [constructor|]. inversion HA; subst. constructor; auto. }
    destruct (functions_args _ _ _ I0) as (_ & FB & FP & _).
    intros pos rest st err nm F L I. cbn [formula_bytes sorts] in *.
    rewrite !size_app, !size_cons, size_bytes in *. rewrite <- app_assoc in F.
    destruct (args_ok _ _ _ _ _ _ _ _ PA _ _ st err nm F ltac:(lia) I) as (ys & err1 & nm1 & S1 & P1 & I1). apply from_next in F. cbn [app] in F.
    exists (Opnd oUNK NoVal), err1, nm1. split; [|split; [fit_any|exact I1]]. eapply steps_app; [exact S1|]. rewrite <- (orb_false_r err1) at 2.
    pose proof F as F0. apply from_byte in F. destruct F as [_ F]. apply from_word in F; [|unfold word16; lia]. destruct F as [E1 F].
    eapply one_step; [lia| |].
    + eapply (class_one _ _ _ _ _ _ 1%N); [exact G|..]; [lia|exact F0|reflexivity|(rewrite SZ; destruct v; reflexivity)|].
      cbv [class_token Z.of_N Z.eqb Pos.eqb orb]. rewrite E1. cbn [bind]. rewrite (func_ok _ _ _ st _ _ _ P1 I0 L0). cbn [bind]. reflexivity.
    + replace (nth (N.to_nat 1 + 32) (sizes_of bk) 0) with 3 by (rewrite SZ; destruct v; reflexivity). lia.
  - (* Variadic *) destruct H0 as (G & NE & (n & m & I0 & L0) & CH & HA). apply fold_and in HA.
    assert (PA : Forall (pushes run bk self data len names Inv) args).
    { clear - H HA. induction H as [|x l X _ IH]; [constructor|]. inversion HA; subst. constructor; auto. }
    destruct (functions_args _ _ _ I0) as (_ & FB & FP & M).
    intros pos rest st err nm F L I. cbn [formula_bytes sorts] in *.
    rewrite !size_app, !size_cons, size_bytes in *. rewrite <- app_assoc in F.
    destruct (args_ok _ _ _ _ _ _ _ _ PA _ _ st err nm F ltac:(lia) I) as (ys & err1 & nm1 & S1 & P1 & I1). apply from_next in F. cbn [app] in F.
    pose proof F as F0. apply from_byte in F. destruct F as [_ F]. apply from_one in F; [|destruct prompt; lia]. destruct F as [E1 F].
    set (p := pos + size (flat_map formula_bytes args)) in *.
    replace (p + 1 + 1) with (p + 2) in F by lia.
    apply from_word in F; [|unfold word16; destruct macro; lia]. destruct F as [E2 F].
    destruct args as [|e args]; [congruence|].
    destruct (funcvar_ok names ys e args st prompt macro f n m P1 I0 L0 CH) as (z & EZ & FZ).
    exists z, err1, nm1. split; [|split; [exact FZ|exact I1]]. eapply steps_app; [exact S1|]. rewrite <- (orb_false_r err1) at 2.
    eapply one_step; [lia| |].
    + eapply (class_one _ _ _ _ _ _ 2%N); [exact G|..]; [lia|exact F0|reflexivity|(rewrite SZ; destruct v; reflexivity)|].
      cbv [class_token Z.of_N Z.eqb Pos.eqb orb]. rewrite E2. fold (Z.of_N (N.of_nat (length (e :: args) + (if prompt then 128 else 0)))) in *.
      rewrite E1. cbn [bind]. rewrite nat_N_Z, EZ. cbn [bind]. reflexivity.
    + replace (nth (N.to_nat 2 + 32) (sizes_of bk) 0) with 4 by (rewrite SZ; destruct v; reflexivity). unfold p. lia.
  - (* Other *) destruct H0 as (G & W & L & U).
    eapply class_ok; [reflexivity|exact G|lia|rewrite SZ, size_app, size_bytes, (size_length _ _ L); destruct v; reflexivity|].
    intros pos rest' st nm F I. rewrite <- app_assoc in F. apply from_word in F; [|exact W]. destruct F as [E F].
    destruct (NO i nm W U I) as (x & bad & nm' & EN & FX & I'). exists x, bad, nm'. split; [|auto].
    cbv [class_token Z.of_N Z.eqb Pos.eqb orb]. rewrite E. cbn [bind]. rewrite EN. cbn [bind]. reflexivity.
  - (* OtherIn *) destruct H0 as (-> & G & WL & W & L & U). pose proof SU as SU0. apply suits_new in SU0. destruct SU0 as [OD AD].
    eapply class_ok; [reflexivity|exact G|lia|rewrite SZ, !size_app, !size_bytes, (size_length _ _ L); reflexivity|].
    intros pos rest' st nm F I. rewrite <- !app_assoc in F. apply from_word in F; [|exact WL]. destruct F as [E1 F].
    replace (pos + 1 + 2) with (pos + 3) in F by lia. apply from_word in F; [|exact W]. destruct F as [E2 F].
    assert (NP : name_place bk data pos = Ok (i - 1, Some (local_range bk link))).
    { unfold name_place. rewrite OD, E1. cbn [bind]. rewrite E2. reflexivity. }
    rewrite namex_token, NP. cbn [bind]. destruct (i - 1 =? self).
    { eexists _, _, nm. split; [reflexivity|]. split; [cbn [sorts]; fit_any|exact I]. }
    destruct (AD link WL) as (sh & ES & EF). rewrite ES. cbn [bind]. destruct (Z.ltb_spec sh (-1)) as [SL|SL].
    { eexists _, _, nm. split; [reflexivity|]. split; [cbn [sorts]; fit_any|exact I]. }
    destruct U as [U|U]; [|specialize (EF U); lia].
    destruct (NO i nm W U I) as (x & bad & nm' & EN & FX & I'). exists x, bad, nm'. split; [|auto]. rewrite EN. cbn [bind]. reflexivity.
  - (* RefIn *) destruct H0 as (NV & G & LW & LA). destruct v as [w|]; [|congruence]. pose proof SU as SU0. apply suits_old in SU0. destruct SU0 as (o & OD & _).
    eapply class_ok; [reflexivity|exact G|destruct area; lia|rewrite SZ, size_app, (size_length _ _ LW), (size_length _ _ LA); destruct area; reflexivity|].
    intros pos rest st nm F I. rewrite <- app_assoc in F. destruct (from_any 14 data (pos + 1) where_ _ LW F) as (z & E). apply from_next in F.
    rewrite (size_length _ _ LW) in F. change (Z.of_nat 14) with 14 in *.
    replace (pos + 1 + 14) with (pos + 15) in F by lia. cbn [sorts].
    destruct area.
    + destruct (range_addr_ok _ _ _ _ _ _ _ SU F LA) as (r & ER). eexists _, _, nm. split; [|split; [apply sheet_ref_fits|exact I]].
      cbv [class_token Z.of_N Z.eqb Pos.eqb orb addr_pos ref_sheet]. rewrite OD. rewrite ER. cbn [bind]. rewrite E. cbn [bind]. reflexivity.
    + destruct (cell_addr_ok _ _ _ _ _ _ _ SU F LA) as (r & ER). eexists _, _, nm. split; [|split; [apply sheet_ref_fits|exact I]].
      cbv [class_token Z.of_N Z.eqb Pos.eqb orb addr_pos ref_sheet]. rewrite OD. rewrite ER. cbn [bind]. rewrite E. cbn [bind]. reflexivity.
  - (* Phrase *) destruct H0 as (R & T). destruct v as [w|]; [|destruct R]. pose proof SU as SU0. apply suits_old in SU0. destruct SU0 as (o & OD & DE & _).
    destruct (DE _ R) as (t & ET). eapply plain_ok; [reflexivity|lia|rewrite SZ; discriminate|]. intros pos rest st F.
    rewrite <- app_assoc in F. apply (from_unpack 1) in F; [|change (256 ^ Z.of_nat 1) with 256; pose proof (size_pos raw); lia]. destruct F as [E F].
    change (Z.of_nat 1) with 1 in *.
    exists (Opnd oSTRG (TextVal t)). split; [|cbn [sorts]; fit_any].
    cbv [plain_token Z.of_N Z.eqb Pos.eqb Z.leb Z.compare Pos.compare Pos.compare_cont text_token]. rewrite OD, E. cbn [bind].
    rewrite (from_slice _ _ _ _ (size raw) F) by reflexivity. rewrite ET. cbn [bind]. rewrite size_app, size_bytes. f_equal. f_equal. lia.
  - (* OtherOf *) destruct H0 as (R & G & SE & LU & W & L & U). destruct v as [w|]; [|destruct R]. pose proof SU as SU0. apply suits_old in SU0.
    destruct SU0 as (o & OD & _ & PR).
    eapply class_ok; [reflexivity|exact G|lia|rewrite SZ, !size_app, !size_bytes, (size_length _ _ LU), (size_length _ _ L); reflexivity|].
    intros pos rest' st nm F I.
    assert (L12 : length (le_bytes 2 ext ++ unused ++ le_bytes 2 i) = 12%nat) by (rewrite !app_length, !le_bytes_length, LU; reflexivity).
    replace ((le_bytes 2 ext ++ unused ++ le_bytes 2 i ++ rest) ++ rest') with ((le_bytes 2 ext ++ unused ++ le_bytes 2 i) ++ rest ++ rest') in F
      by (rewrite <- !app_assoc; reflexivity).
    destruct (from_any 12 data (pos + 1) _ _ L12 F) as (z & E0). rewrite <- !app_assoc in F.
    assert (SH : short_at data (pos + 1) = ext).
    { unfold short_at. rewrite (from_slice _ _ _ _ 2 F) by apply size_bytes. apply signed_word. exact SE. }
    apply from_next in F. rewrite size_bytes in F. apply from_next in F. rewrite (size_length _ _ LU) in F.
    change (Z.of_nat 2) with 2 in *. change (Z.of_nat 8) with 8 in *. change (Z.of_nat 12) with 12 in *.
    replace (pos + 1 + 2 + 8) with (pos + 11) in F by lia. apply from_word in F; [|exact W]. destruct F as [E2 F].
    set (place := if ext =? 0 then None
          else if 0 <? ext then Some (Ok (-4))
          else Some (match nth_error (ol_types o) (Z.to_nat (- ext - 1)) with
                     | Some ty => Ok (if ty =? 4 then -1 else -666)
                     | None => Err IndexError
                     end)).
    assert (NP : name_place bk data pos = Ok (i - 1, place)).
    { unfold name_place. rewrite OD, E0. cbn [bind]. rewrite E2, SH. reflexivity. }
    rewrite namex_token, NP. cbn [bind]. destruct (i - 1 =? self).
    { eexists _, _, nm. split; [reflexivity|]. split; [cbn [sorts]; fit_any|exact I]. }
    assert (PL : place = None \/ exists sh, place = Some (Ok sh) /\ (sh < -1 \/ ~ foreign ext)).
    { unfold place. destruct (Z.eqb_spec ext 0); [left; reflexivity|]. right. destruct (Z.ltb_spec 0 ext); [exists (-4); split; [reflexivity|left; lia]|].
      destruct (PR ext SE R ltac:(lia)) as (ty & -> & TF). eexists. split; [reflexivity|]. destruct (Z.eqb_spec ty 4); [right; intro FF; exact (TF FF e)|left; lia]. }
    clearbody place. destruct PL as [-> | (sh & -> & EF)].
    { eexists _, _, nm. split; [reflexivity|]. split; [cbn [sorts]; fit_any|exact I]. }
    cbn [bind]. destruct (Z.ltb_spec sh (-1)) as [SL|SL].
    { eexists _, _, nm. split; [reflexivity|]. split; [cbn [sorts]; fit_any|exact I]. }
    destruct U as [U|U]; [|destruct EF as [EF|EF]; [lia|destruct (EF U)]].
    destruct (NO i nm W U I) as (x & bad & nm' & EN & FX & I'). exists x, bad, nm'. split; [|auto]. rewrite EN. cbn [bind]. reflexivity.
Qed.

(** ** Names *)

Definition is_macro (n : name_data) : bool := Z.testbit (nm_flags n) 3 || Z.testbit (nm_flags n) 12.
Lemma is_macro_iff n : is_macro n = true <-> macro n.
Proof. unfold is_macro, macro. apply orb_true_iff. Qed.
Definition name_obj (n : name_data) : nobj :=
  mknobj (is_macro n) (nm_sheet n) (meaning_bytes (nm_meaning n) ++ nm_extra n) (size (meaning_bytes (nm_meaning n))) None.
Definition with_done (o : nobj) (d : option (list operand * bool)) : nobj :=
  mknobj (n_skip o) (n_sheet o) (n_formula o) (n_len o) d.

Definition name_state (s : list sort) (n : name_data) (o : nobj) : Prop :=
  o = with_done (name_obj n) (n_done o) /\
  forall st err, n_done o = Some (st, err) -> exists x, st = [x] /\ fits_any x s.
Definition keeps (names : Z -> list sort) (l : list name_data) (nm : list nobj) : Prop :=
  length nm = length l /\
  forall i n, nth_error l i = Some n -> exists o, nth_error nm i = Some o /\ name_state (names (Z.of_nat i + 1)) n o.
(** The sheets of the workbook. *)
Definition sheets_known (bk : links) (sheets : list bool) : Prop :=
  forall k, nth_error sheets k = Some true -> forall o, n_sheet o = Z.of_nat k + 1 -> 0 <= scope bk o < Z.of_nat (l_sheets bk).
Definition sheets_mapped (bk : links) (sheets : list bool) : Prop :=
  forall k, nth_error sheets k = Some true -> exists z, nth_error (l_map bk) k = Some z /\ 0 <= z < Z.of_nat (l_sheets bk).
Lemma mapped_known bk sheets : l_old bk = None -> sheets_mapped bk sheets -> sheets_known bk sheets.
Proof.
  intros OD K k S2 o S. destruct (K _ S2) as (z & Z1 & Z2). assert (L : (k < length (l_map bk))%nat) by (apply nth_error_Some; congruence).
  unfold scope. rewrite OD, S. replace (Z.of_nat k + 1 =? 0) with false by lia.
  replace ((1 <=? Z.of_nat k + 1) && (Z.of_nat k + 1 <=? Z.of_nat (length (l_map bk)))) with true by lia.
  replace (Z.to_nat (Z.of_nat k + 1 - 1)) with k by lia. rewrite (nth_error_nth _ _ 0 Z1). replace (z =? -1) with false by lia. lia.
Qed.

Lemma set_nth_length {A} (l : list A) x : forall i, length (set_nth l i x) = length l.
Proof. induction l as [|y l IH]; intros [|i]; cbn [set_nth length]; auto. Qed.
Lemma set_nth_nth {A} (l : list A) x : forall i j, (i < length l)%nat ->
  nth_error (set_nth l i x) j = if Nat.eqb j i then Some x else nth_error l j.
Proof.
  induction l as [|y l IH]; intros [|i] j L; cbn [length] in L; try lia; destruct j as [|j]; cbn [set_nth nth_error Nat.eqb]; auto.
  apply IH. lia.
Qed.
Lemma py_index_at {A} (l : list A) i : py_index l (Z.of_nat i) = nth_error l i.
Proof.
  unfold py_index. replace (Z.of_nat i <? 0) with false by lia. destruct (Z.ltb_spec (Z.of_nat i) (Z.of_nat (length l))).
  - replace (0 <=? Z.of_nat i) with true by lia. cbn [andb]. rewrite Nat2Z.id. reflexivity.
  - rewrite andb_false_r. symmetry. apply nth_error_None. lia.
Qed.
Lemma keeps_done names l nm i n o x err : keeps names l nm -> nth_error l i = Some n -> nth_error nm i = Some o ->
  fits_any x (names (Z.of_nat i + 1)) -> keeps names l (set_done nm (Z.of_nat i) ([x], err)) /\
  exists o', nth_error (set_done nm (Z.of_nat i) ([x], err)) i = Some o' /\ n_done o' = Some ([x], err).
Proof.
  intros [KL K] N O F. destruct (K i n N) as (o' & O' & (S1 & S2)). rewrite O in O'. injection O' as <-.
  assert (L : (i < length nm)%nat) by (apply nth_error_Some; congruence).
  unfold set_done. rewrite py_index_at, O. replace (Z.of_nat i <? 0) with false by lia. rewrite Nat2Z.id. split; [split|].
  - rewrite set_nth_length. exact KL.
  - intros j m M. rewrite set_nth_nth by exact L. destruct (Nat.eqb_spec j i) as [-> | NE]; [|apply K; exact M].
    rewrite N in M. injection M as <-. eexists. split; [reflexivity|]. rewrite S1. split; [reflexivity|].
    cbn [n_done with_done]. intros st e E. injection E as <- <-. eauto.
  - rewrite set_nth_nth by exact L. rewrite Nat.eqb_refl. eexists. split; reflexivity.
Qed.

Lemma scope_ok bk sheets n o : sheets_known bk sheets -> o = with_done (name_obj n) (n_done o) ->
  nm_sheet n = 0 \/ 1 <= nm_sheet n /\ nth_error sheets (Z.to_nat (nm_sheet n - 1)) = Some true ->
  (scope bk o =? -1) || ((- Z.of_nat (l_sheets bk) <=? scope bk o) && (scope bk o <? Z.of_nat (l_sheets bk))) = true.
Proof.
  intros K E S. assert (NS : n_sheet o = nm_sheet n) by (rewrite E; reflexivity). destruct S as [S | (S1 & S2)].
  - unfold scope. rewrite NS, S. reflexivity.
  - pose proof (K _ S2 o ltac:(lia)). lia.
Qed.

Lemma eval_ok bk v sheets foreign names depth l : suits bk v foreign -> sheets_known bk sheets ->
  (forall i n, nth_error l i = Some n -> ~ macro n ->
     harmless_meaning v names (usable_name sheets l depth (Z.of_nat i + 1)) foreign (nm_meaning n) (names (Z.of_nat i + 1))) ->
  forall d i n nm, nth_error l i = Some n -> ~ macro n -> (depth (Z.of_nat i + 1)%Z < d)%nat -> keeps names l nm ->
  exists nm', eval_name d bk (Z.of_nat i) nm = Ok nm' /\ keeps names l nm' /\
    exists o' x err, nth_error nm' i = Some o' /\ n_done o' = Some ([x], err).
Proof.
  intros AD SK H. induction d as [|d IH]; intros i n nm N NM D K; [lia|].
  cbn [eval_name]. rewrite py_index_at. destruct K as [KL K]. destruct (K i n N) as (o & O & (S1 & S2)). rewrite O. pose proof (conj KL K) as K0.
  rewrite S1. cbn [n_formula n_len with_done name_obj].
  specialize (H i n N NM) as HM.
  assert (NO : forall j nm, word16 j -> usable_name sheets l depth (Z.of_nat i + 1) j -> keeps names l nm ->
     exists x bad nm', name_operand (eval_name d bk) bk (j - 1) nm = Ok (x, bad, nm') /\ fits_any x (Unknown :: names j) /\ keeps names l nm').
  { intros j nm1 _ (J1 & J2 & m & M & NMM & SC) K1. unfold name_operand.
    set (k := Z.to_nat (j - 1)) in *. replace (j - 1) with (Z.of_nat k) by lia. replace j with (Z.of_nat k + 1) in * by lia.
    assert (X : exists nm2, (match n_done (match nth_error nm1 k with Some t => t | None => name_obj m end) with
                             | Some _ => Ok nm1 | None => eval_name d bk (Z.of_nat k) nm1 end) = Ok nm2 /\ keeps names l nm2 /\
                exists o x err, nth_error nm2 k = Some o /\ n_done o = Some ([x], err)).
    { destruct (proj2 K1 k m M) as (t & T & (T1 & T2)). rewrite T. destruct (n_done t) as [[st err]|] eqn:TD.
      - exists nm1. split; [reflexivity|]. split; [exact K1|]. destruct (T2 _ _ eq_refl) as (x & -> & _). exists t, x, err. auto.
      - apply (IH k m nm1 M NMM); [lia|exact K1]. }
    destruct X as (nm2 & X1 & K2 & t & x & err & T & TD).
    rewrite py_index_at. destruct (nth_error nm1 k) as [t1|] eqn:T1.
    2:{ exfalso. destruct (proj2 K1 k m M) as (t' & T' & _). congruence. }
    rewrite X1. cbn [bind]. rewrite py_index_at, T, TD.
    destruct (proj2 K2 k m M) as (t' & T' & (ST1 & ST2)). rewrite T in T'. injection T' as <-.
    destruct (ST2 _ _ TD) as (x' & EX & FX). injection EX as <-.
    pose proof (scope_ok bk sheets m t SK ST1 SC) as SO.
    destruct (n_skip t || err).
    - cbn [bind the_operand]. rewrite SO. eexists _, _, nm2. split; [reflexivity|]. split; [fit_any|exact K2].
    - cbn [bind]. destruct FX as (s & I & F). destruct (fits_opnd _ _ F) as (kk & vv & ->). cbn [the_operand bind]. rewrite SO.
      eexists _, _, nm2. split; [reflexivity|]. split; [exists s; split; [right; exact I|exact F]|exact K2]. }
  assert (R : exists x err nm', token_loop (Z.to_nat (size (meaning_bytes (nm_meaning n)))) (eval_name d bk) bk (Z.of_nat i)
      (meaning_bytes (nm_meaning n) ++ nm_extra n) (size (meaning_bytes (nm_meaning n))) 0
      (if size (meaning_bytes (nm_meaning n)) =? 0 then [Opnd oUNK NoVal] else []) false nm = Ok ([x], err, nm') /\
      fits_any x (names (Z.of_nat i + 1)) /\ keeps names l nm').
  { destruct (nm_meaning n) as [|e|b]; cbn [harmless_meaning meaning_bytes] in *; [| |destruct HM].
    - exists (Opnd oUNK NoVal), false, nm. split; [reflexivity|]. split; [exists Unknown; split; [exact HM|reflexivity]|exact K0].
    - destruct HM as (HE & HS).
      pose proof (expr_ok (eval_name d bk) bk (Z.of_nat i) (formula_bytes e ++ nm_extra n) (size (formula_bytes e)) v names _ foreign (keeps names l) AD NO e HE) as P.
      assert (NZ : size (formula_bytes e) <> 0).
      { clear. destruct e; cbn [formula_bytes]; rewrite ?size_app, ?size_cons; 
        repeat match goal with |- context [size ?a] => lazymatch goal with H : 0 <= size a |- _ => fail | _ => pose proof (size_pos a) end end; cbn [size length Z.of_nat] in *; try lia. }
      replace (size (formula_bytes e) =? 0) with false by lia.
      destruct (P 0 (nm_extra n) [] false nm ltac:(exists []; split; reflexivity) ltac:(lia) K0) as (x & err & nm' & S & F & K').
      destruct (steps_loop _ _ _ _ _ _ _ _ _ _ _ _ _ S (Z.to_nat (size (formula_bytes e))) ltac:(lia)) as (fu & _ & E).
      exists x, err, nm'. split; [rewrite E; apply loop_end; lia|]. split; [|exact K']. eapply fits_sub; [exact HS|exact F]. }
  destruct R as (x & err & nm' & -> & F & K'). cbn [bind].
  destruct (proj2 K' i n N) as (o' & O' & _).
  destruct (keeps_done names l nm' i n o' x err K' N O' F) as (K2 & o2 & O2 & D2).
  eexists. split; [reflexivity|]. split; [exact K2|]. exists o2, x, err. auto.
Qed.

Lemma eval_names_ok bk v sheets foreign names depth l : suits bk v foreign -> sheets_known bk sheets ->
  (forall i n, nth_error l i = Some n -> ~ macro n -> (depth (Z.of_nat i + 1)%Z <= 10)%nat /\
     harmless_meaning v names (usable_name sheets l depth (Z.of_nat i + 1)) foreign (nm_meaning n) (names (Z.of_nat i + 1))) ->
  forall is nm, Forall (fun i => (i < length l)%nat) is -> keeps names l nm -> exists nm', eval_names (map Z.of_nat is) bk nm = Ok nm'.
Proof.
  intros AD SK H. induction is as [|i is IH]; intros nm B K; [exists nm; reflexivity|]. inversion B as [|? ? B1 B2]; subst.
  cbn [map eval_names]. rewrite py_index_at. destruct (nth_error l i) as [n|] eqn:N; [|apply nth_error_None in N; lia].
  destruct (proj2 K i n N) as (o & O & (S1 & _)). rewrite O.
  destruct (n_skip o) eqn:SKP; [cbn [bind]; apply IH; assumption|].
  destruct (n_done o); [cbn [bind]; apply IH; assumption|].
  assert (NM : ~ macro n).
  { intro M. apply is_macro_iff in M. rewrite S1 in SKP. cbn [with_done n_skip name_obj] in SKP. congruence. }
  destruct (H i n N NM) as (D & _).
  destruct (eval_ok bk v sheets foreign names depth l AD SK (fun i n N M => proj2 (H i n N M)) 11 i n nm N NM ltac:(lia) K) as (nm' & -> & K' & _).
  cbn [bind]. apply IH; assumption.
Qed.
Lemma names_ok bk v sheets foreign l : suits bk v foreign -> sheets_known bk sheets -> check_scopes bk (map name_obj l) = Ok tt ->
  harmless_names v sheets foreign l -> exists nm, names_epilogue bk (map name_obj l) = Ok nm.
Proof.
  intros AD SK CS (names & depth & H). unfold names_epilogue. rewrite CS. cbn [bind]. apply (eval_names_ok bk v sheets foreign names depth l AD SK H).
  - rewrite map_length. apply Forall_forall. intros i I. apply in_seq in I. lia.
  - split; [apply map_length|]. intros i n N. exists (name_obj n). split; [rewrite nth_error_map, N; reflexivity|]. split; [reflexivity|discriminate].
Qed.


(** ** Records *)

Lemma slice_same (a b x : str) i j : length a = length b -> size a <= i -> pyslice (a ++ x) i j = pyslice (b ++ x) i j.
Proof.
  intros L I. unfold size in I. unfold pyslice. rewrite !app_length, L. f_equal. unfold py_bound. replace (i <? 0) with false by lia.
  rewrite !skipn_app, L. f_equal.
  rewrite (skipn_all2 a), (skipn_all2 b) by lia. reflexivity.
Qed.
Lemma byte_same (a b x : str) i : length a = length b -> size a <= i -> Sst.byte_at (a ++ x) i = Sst.byte_at (b ++ x) i.
Proof.
  intros L I. unfold size in I. unfold Sst.byte_at, py_index. rewrite !app_length, L. replace (i <? 0) with false by lia.
  destruct ((0 <=? i) && (i <? Z.of_nat (length b + length x))); [|reflexivity]. rewrite !nth_error_app2, L by lia. reflexivity.
Qed.
Lemma unpack_same (a b x : str) n i : length a = length b -> size a <= i -> unpack_u n (a ++ x) i = unpack_u n (b ++ x) i.
Proof. intros L I. unfold unpack_u. rewrite (slice_same a b x) by assumption. reflexivity. Qed.
Lemma known_same (a b x : str) n p : length a = length b -> p = size a -> unpack_known (a ++ x) p n = unpack_known (b ++ x) p n.
Proof.
  intros L ->. unfold unpack_known. rewrite !(slice_same a b x) by lia. rewrite !app_length, L. destruct (_ && _); [reflexivity|].
  rewrite (byte_same a b x) by lia. destruct (Sst.byte_at (b ++ x) (size a)) as [o|]; [|reflexivity]. cbn [bind].
  rewrite (unpack_same a b x) by lia.
  assert (R : forall rt p, size a <= p ->
   (do (sz, pos) <- (if opt_phonetic o then do sz <- unpack_i (pyslice (a ++ x) p (p + 4)); Ok (sz, p + 4) else Ok (0, p));
    do (strg, pos0) <- (if opt_wide o then do s <- utf16_le (pyslice (a ++ x) pos (pos + 2 * n)); Ok (s, pos + 2 * n)
                        else Ok (pyslice (a ++ x) pos (pos + n), pos + n));
    Ok (strg, pos0 + (if opt_rich o then 4 * rt else 0) + (if opt_phonetic o then sz else 0))) =
   (do (sz, pos) <- (if opt_phonetic o then do sz <- unpack_i (pyslice (b ++ x) p (p + 4)); Ok (sz, p + 4) else Ok (0, p));
    do (strg, pos0) <- (if opt_wide o then do s <- utf16_le (pyslice (b ++ x) pos (pos + 2 * n)); Ok (s, pos + 2 * n)
                        else Ok (pyslice (b ++ x) pos (pos + n), pos + n));
    Ok (strg, pos0 + (if opt_rich o then 4 * rt else 0) + (if opt_phonetic o then sz else 0)))).
  { intros rt p P. rewrite (slice_same a b x p) by lia.
    assert (Q : forall sz p, size a <= p ->
      (do (strg, pos0) <- (if opt_wide o then do s <- utf16_le (pyslice (a ++ x) p (p + 2 * n)); Ok (s, p + 2 * n)
                        else Ok (pyslice (a ++ x) p (p + n), p + n));
       Ok (strg, pos0 + (if opt_rich o then 4 * rt else 0) + (if opt_phonetic o then sz else 0))) =
      (do (strg, pos0) <- (if opt_wide o then do s <- utf16_le (pyslice (b ++ x) p (p + 2 * n)); Ok (s, p + 2 * n)
                        else Ok (pyslice (b ++ x) p (p + n), p + n));
       Ok (strg, pos0 + (if opt_rich o then 4 * rt else 0) + (if opt_phonetic o then sz else 0)))).
    { intros sz q Q. rewrite !(slice_same a b x q) by lia. reflexivity. }
    destruct (opt_phonetic o).
    - destruct (unpack_i _) as [sz|]; [|reflexivity]. cbn [bind]. apply (Q sz (p + 4)). lia.
    - cbn [bind]. apply (Q 0 p P). }
  destruct (opt_rich o).
  - destruct (unpack_u 2 (b ++ x) (size a + 1)) as [rt|]; [|reflexivity]. cbn [bind]. apply (R rt). lia.
  - cbn [bind]. apply (R 0). lia.
Qed.
Lemma update_known data pos n v : unpack_u n data pos = Ok v -> unpack_unicode_update_pos data pos n = unpack_known data (pos + n) v.
Proof. intro E. unfold unpack_unicode_update_pos. rewrite E. reflexivity. Qed.

Lemma known_ok pre lo rest : pre <> [] -> good_layout lo -> uncut lo -> total_units lo < 256 ->
  unpack_known (pre ++ skipn 1 (string_bytes 1 lo) ++ rest) (size pre) (total_units lo)
  = Ok (text lo, size pre + size (skipn 1 (string_bytes 1 lo))).
Proof.
  intros NE G U T. destruct (exists_last NE) as (p & c & ->). pose proof (total_units_pos lo) as TP.
  set (x := skipn 1 (string_bytes 1 lo)).
  assert (SB : string_bytes 1 lo = le_bytes 1 (total_units lo) ++ x) by reflexivity.
  rewrite (known_same (p ++ [c]) (p ++ le_bytes 1 (total_units lo))) by (rewrite ?app_length; reflexivity).
  destruct (C54_unicode_proof 1 p lo rest ltac:(auto) G U T) as [_ E].
  rewrite <- !app_assoc. rewrite SB, <- app_assoc in E.
  assert (F : from (p ++ le_bytes 1 (total_units lo) ++ x ++ rest) (size p) (le_bytes 1 (total_units lo) ++ x ++ rest)) by apply from_app.
  apply (from_unpack 1) in F; [|change (256 ^ Z.of_nat 1) with 256; lia]. destruct F as [F _].
  fold (size p) in E. rewrite (update_known _ _ _ _ F) in E. rewrite size_app. change (size [c]) with (Z.of_nat 1).
  rewrite E. f_equal. f_equal. rewrite app_length. unfold size. cbn [length le_bytes]. lia.
Qed.

Lemma new_name_ok n : good_name n -> new_name (name_bytes n) = Ok (name_obj n).
Proof.
  intros (W1 & W2 & SZ & G & U & T & B). pose proof (total_units_pos (nm_name n)) as TP.
  assert (WM : word16 (size (meaning_bytes (nm_meaning n)))).
  { unfold word16. pose proof (size_pos (meaning_bytes (nm_meaning n))). unfold name_bytes in B. rewrite !size_app in B.
    repeat match type of B with context [size ?a] => lazymatch goal with H : 0 <= size a |- _ => fail | _ => pose proof (size_pos a) end end. lia. }
  set (data := name_bytes n).
  set (x := skipn 1 (string_bytes 1 (nm_name n))).
  assert (D0 : from data 0 (name_bytes n)) by (exists []; split; reflexivity). unfold name_bytes in D0. fold x in D0.
  apply from_word in D0; [|exact W1]. destruct D0 as [E1 D]. change (0 + 2) with 2 in D.
  apply (from_next data 2 [nm_key n]) in D. change (2 + size [nm_key n]) with 3 in D.
  apply (from_unpack 1) in D; [|change (256 ^ Z.of_nat 1) with 256; lia]. destruct D as [E2 D]. change (3 + Z.of_nat 1) with 4 in D.
  apply from_word in D; [|exact WM]. destruct D as [E3 D]. change (4 + 2) with 6 in D.
  apply from_next in D. rewrite size_bytes in D. change (6 + Z.of_nat 2) with 8 in D.
  apply from_word in D; [|exact W2]. destruct D as [E4 D]. change (8 + 2) with 10 in D.
  apply from_next in D. rewrite (size_length _ _ SZ) in D. change (10 + Z.of_nat 4) with 14 in D.
  unfold new_name. assert (LD : (14 <= length data)%nat).
  { pose proof (from_length _ _ _ D) as [_ Q]. pose proof (size_pos (x ++ meaning_bytes (nm_meaning n) ++ nm_extra n)). unfold size in *. lia. }
  replace (length data <? 14)%nat with false by (symmetry; apply Nat.ltb_ge; exact LD).
  rewrite E1. cbn [bind]. change 1 with (Z.of_nat 1) at 1. rewrite E2. cbn [bind]. rewrite E3. cbn [bind]. rewrite E4. cbn [bind].
  destruct D as (pre & DE & DS).
  assert (NE : pre <> []) by (intros ->; discriminate DS).
  pose proof (known_ok pre (nm_name n) (meaning_bytes (nm_meaning n) ++ nm_extra n) NE G U T) as KN. fold x in KN. rewrite <- DE, DS in KN.
  rewrite KN. cbn [bind]. unfold name_obj. f_equal. f_equal.
  set (m := meaning_bytes (nm_meaning n) ++ nm_extra n) in *. clearbody m.
  assert (F : from data (14 + size x) (m ++ [])).
  { rewrite app_nil_r. apply from_next. exists pre. auto. }
  pose proof (from_length _ _ _ F) as [_ FL]. rewrite app_nil_r in FL. fold (size data). rewrite FL. apply (from_slice _ _ _ _ _ F). reflexivity.
Qed.


(** In BIFF 5 and 7. *)
Lemma old_name_ok dec (legible : str -> Prop) n : (forall b, legible b -> exists t, dec b = Ok t) -> good_old_name legible n ->
  old_new_name dec (old_name_bytes n) = Ok (name_obj (as_name n)).
Proof.
  intros DE (W1 & W2 & SZ & LG & T & B). pose proof (size_pos (on_name n)) as TP. destruct (DE _ LG) as (t & ET).
  assert (WM : word16 (size (meaning_bytes (on_meaning n)))).
  { unfold word16. pose proof (size_pos (meaning_bytes (on_meaning n))). unfold old_name_bytes in B. rewrite !size_app in B.
    repeat match type of B with context [size ?a] => lazymatch goal with H : 0 <= size a |- _ => fail | _ => pose proof (size_pos a) end end. lia. }
  set (data := old_name_bytes n).
  assert (D0 : from data 0 (old_name_bytes n)) by (exists []; split; reflexivity). unfold old_name_bytes in D0.
  apply from_word in D0; [|exact W1]. destruct D0 as [E1 D]. change (0 + 2) with 2 in D.
  apply (from_next data 2 [on_key n]) in D. change (2 + size [on_key n]) with 3 in D.
  apply (from_unpack 1) in D; [|change (256 ^ Z.of_nat 1) with 256; lia]. destruct D as [E2 D]. change (3 + Z.of_nat 1) with 4 in D.
  apply from_word in D; [|exact WM]. destruct D as [E3 D]. change (4 + 2) with 6 in D.
  apply from_word in D; [|exact W2]. destruct D as [E4 D]. change (6 + 2) with 8 in D.
  apply from_next in D. rewrite size_bytes in D. change (8 + Z.of_nat 2) with 10 in D.
  apply from_next in D. rewrite (size_length _ _ SZ) in D. change (10 + Z.of_nat 4) with 14 in D.
  unfold old_new_name. assert (LD : (14 <= length data)%nat).
  { pose proof (from_length _ _ _ D) as [_ Q]. pose proof (size_pos (on_name n ++ meaning_bytes (on_meaning n) ++ on_extra n)). unfold size in *. lia. }
  replace (length data <? 14)%nat with false by (symmetry; apply Nat.ltb_ge; exact LD).
  rewrite E1. cbn [bind]. change 1 with (Z.of_nat 1) at 1. rewrite E2. cbn [bind]. rewrite E3. cbn [bind]. rewrite E4. cbn [bind].
  rewrite (from_slice _ _ _ _ (size (on_name n)) D) by reflexivity. rewrite ET. cbn [bind]. unfold name_obj. f_equal.
  cbn [as_name nm_flags nm_sheet nm_meaning nm_extra is_macro]. f_equal.
  apply from_next in D.
  set (m := meaning_bytes (on_meaning n) ++ on_extra n) in *. clearbody m.
  assert (F : from data (14 + size (on_name n)) (m ++ [])) by (rewrite app_nil_r; exact D).
  pose proof (from_length _ _ _ F) as [_ FL]. rewrite app_nil_r in FL. fold (size data). rewrite FL. apply (from_slice _ _ _ _ _ F). reflexivity.
Qed.
