(** * Lemmas about numbers as bytes and bytes at a place *)

From Coq Require Import ZifyBool ZifyNat ZifyN.
From Verif Require Import PyBase PyBaseFacts PyFloat Dbf SpecDbf DbfProofs XlStruct CompDoc CompDocProofs SpecBytes.
Open Scope nat_scope.
Open Scope Z_scope.

Lemma double_bits_range f : is_double f -> 0 <= double_bits f < 2 ^ 64.
Proof.
  assert (A : forall s, 0 <= sign_bit s <= 2 ^ 63) by (intros []; cbn; lia).
  destruct f as [s|s| |s m e]; cbn [is_double double_bits]; intro D; try (specialize (A s)); try lia.
  destruct (Z.ltb_spec (Zpos m) (2 ^ 52)); lia.
Qed.
Lemma double_split s e m : 0 <= e < 2048 -> 0 <= m < 2 ^ 52 ->
  double_of_bits (sign_bit s + e * 2 ^ 52 + m) =
  if e =? 2047 then (if m =? 0 then S754_infinity s else S754_nan)
  else if e =? 0 then match m with Zpos m => S754_finite s m (-1074) | _ => S754_zero s end
  else match 2 ^ 52 + m with Zpos m => S754_finite s m (e - 1075) | _ => S754_zero s end.
Proof.
  intros E M. unfold double_of_bits. cbv zeta.
  assert (H1 : (2 ^ 63 <=? sign_bit s + e * 2 ^ 52 + m) = s) by (destruct s; cbn [sign_bit]; lia).
  assert (H2 : (sign_bit s + e * 2 ^ 52 + m) / 2 ^ 52 mod 2 ^ 11 = e).
  { replace (sign_bit s + e * 2 ^ 52 + m) with (m + (e + (if s then 1 else 0) * 2 ^ 11) * 2 ^ 52) by (destruct s; cbn [sign_bit]; lia).
    rewrite Z.div_add by lia. rewrite Z.div_small by lia. rewrite Z.add_0_l, Z.mod_add by lia. apply Z.mod_small. lia. }
  assert (H3 : (sign_bit s + e * 2 ^ 52 + m) mod 2 ^ 52 = m).
  { replace (sign_bit s + e * 2 ^ 52 + m) with (m + (e + (if s then 1 else 0) * 2 ^ 11) * 2 ^ 52) by (destruct s; cbn [sign_bit]; lia).
    rewrite Z.mod_add by lia. apply Z.mod_small. lia. }
  rewrite H1, H2, H3. reflexivity.
Qed.
Lemma double_of_double f : is_double f -> double_of_bits (double_bits f) = f.
Proof.
  destruct f as [s|s| |s m e]; cbn [is_double double_bits]; intro D.
  - replace (sign_bit s) with (sign_bit s + 0 * 2 ^ 52 + 0) by lia. rewrite double_split by lia. reflexivity.
  - replace (sign_bit s + 2047 * 2 ^ 52) with (sign_bit s + 2047 * 2 ^ 52 + 0) by lia. rewrite double_split by lia. reflexivity.
  - replace (2047 * 2 ^ 52 + 2 ^ 51) with (sign_bit false + 2047 * 2 ^ 52 + 2 ^ 51) by (cbn; lia). rewrite double_split by lia. reflexivity.
  - destruct (Z.ltb_spec (Zpos m) (2 ^ 52)) as [L|L].
    + destruct D as [[_ ->]|[D _]]; [|lia].
      replace (sign_bit s + Z.pos m) with (sign_bit s + 0 * 2 ^ 52 + Z.pos m) by lia. rewrite double_split by lia. reflexivity.
    + destruct D as [[D _]|[D1 D2]]; [lia|].
      replace (sign_bit s + ((e + 1075) * 2 ^ 52 + (Z.pos m - 2 ^ 52))) with (sign_bit s + (e + 1075) * 2 ^ 52 + (Z.pos m - 2 ^ 52)) by lia.
      rewrite double_split by lia.
      replace (e + 1075 =? 2047) with false by lia. replace (e + 1075 =? 0) with false by lia.
      replace (2 ^ 52 + (Z.pos m - 2 ^ 52)) with (Z.pos m) by lia. f_equal. lia.
Qed.
Lemma double_bytes_length f : length (double_bytes f) = 8%nat.
Proof. apply le_bytes_length. Qed.
Lemma unpack_double f : is_double f -> unpack_d (double_bytes f) = Ok f.
Proof.
  intro D. unfold unpack_d. rewrite double_bytes_length. cbn [Nat.eqb]. unfold double_bytes.
  rewrite le_value_bytes by (change (256 ^ Z.of_nat 8) with (2 ^ 64); apply double_bits_range; exact D).
  rewrite double_of_double by exact D. reflexivity.
Qed.

(** [from mem pos b]: from pos to its end mem has the bytes b. *)
Definition from (mem : str) (pos : Z) (b : str) : Prop := exists pre, mem = pre ++ b /\ size pre = pos.
Lemma from_next mem pos a b : from mem pos (a ++ b) -> from mem (pos + size a) b.
Proof. intros (pre & E & S). exists (pre ++ a). split; [rewrite <- app_assoc; exact E|]. unfold size in *. rewrite app_length. lia. Qed.
Lemma from_slice mem pos a b n : from mem pos (a ++ b) -> size a = n -> pyslice mem pos (pos + n) = a.
Proof.
  intros (pre & E & S) <-. unfold size in *. rewrite pyslice_nonneg by lia. subst mem.
  replace (Z.to_nat pos) with (length pre) by lia. rewrite Nat2Z.id.
  rewrite skipn_app, skipn_all, Nat.sub_diag. cbn [app skipn]. rewrite firstn_app, firstn_all, Nat.sub_diag. cbn [firstn]. apply app_nil_r.
Qed.
Lemma size_app a b : size (a ++ b) = size a + size b.
Proof. unfold size. rewrite app_length. lia. Qed.
Lemma size_pos a : 0 <= size a.
Proof. unfold size. lia. Qed.
Lemma size_bytes n z : size (le_bytes n z) = Z.of_nat n.
Proof. unfold size. rewrite le_bytes_length. reflexivity. Qed.
Lemma from_app a b : from (a ++ b) (size a) b.
Proof. exists a. auto. Qed.
Lemma from_length mem pos b : from mem pos b -> 0 <= pos /\ size mem = pos + size b.
Proof. intros (pre & -> & <-). rewrite size_app. pose proof (size_pos pre). lia. Qed.
