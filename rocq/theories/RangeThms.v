(** * Texts of references to cells and ranges: proofs of the property theorems *)

From Coq Require Import ZifyBool ZifyNat ZifyN QArith.
From Verif Require Import PyBase PyText PyFloat NumPy ReadXl RangeName SpecRepr SpecXl SpecRange PyBaseFacts ReprProofs XlProofs RangeProofs.
Open Scope nat_scope.
Open Scope Z_scope.
(** Three sheets. *)
Definition sheets3 : list str := [lit "a"; lit "b c"; lit "d'e!"].

Lemma C80_cell_proof :
forall r c, (0 <= c < 702 -> exists s, cellnameabs r c false = Ok s /\ dollar r c s) /\
  (702 <= c -> cellnameabs r c false = Err IndexError) /\
  (exists s t, cellnameabs r c true = Ok (s ++ t) /\ axis 82 false r s /\ axis 67 false c t).
Proof.
intros r c. split; [apply abs_dollar|]. split.
- intro H. unfold cellnameabs. rewrite (colname_far c H). reflexivity.
- exact (r1c1_is r c false false None None true (or_introl eq_refl)).
Qed.

Lemma C80_range_proof :
forall names slo shi g, 0 <= slo < shi -> shi <= Z.of_nat (length names) -> proper g ->
  exists u v, rangename3d names slo shi g = Ok (u ++ 33%N :: v) /\ sheets_text names slo shi u /\
    rangename2d g = Ok v /\ range_text g v.
Proof.
intros names slo shi g B L P. destruct (sheets_is names slo shi B L) as (u & E & U). destruct (range_is g P) as (v & E' & V).
exists u, v. unfold rangename3d. rewrite E, E'. cbn [bind]. split; [reflexivity|]. split; [exact U|]. split; [reflexivity|exact V].
Qed.

Lemma C80_unique_proof :
forall names slo shi g slo' shi' g' s, NoDup names -> Forall (fun n => ~ In 58%N n) names ->
  0 <= slo < shi -> shi <= Z.of_nat (length names) -> proper g ->
  0 <= slo' < shi' -> shi' <= Z.of_nat (length names) -> proper g' ->
  rangename3d names slo shi g = Ok s -> rangename3d names slo' shi' g' = Ok s ->
  slo = slo' /\ shi = shi' /\ g = g'.
Proof.
intros names slo shi g slo' shi' g' s ND NC B L P B' L' P' E E'.
destruct (C80_range_proof names slo shi g B L P) as (u & v & F & U & _ & V).
destruct (C80_range_proof names slo' shi' g' B' L' P') as (u' & v' & F' & U' & _ & V').
assert (u ++ 33%N :: v = u' ++ 33%N :: v') as X by congruence.
apply split_last in X as (<- & <-); [|exact (range_bang _ _ V)|exact (range_bang _ _ V')].
destruct (sheets_one names slo shi slo' shi' u ND NC B B' U U') as (-> & ->).
split; [reflexivity|]. split; [reflexivity|]. exact (range_one _ _ _ V V').
Qed.

Lemma C80_unique_refuted_proof :
NoDup [lit "a"; lit "b"; lit "a:b"] /\
  rangename3d [lit "a"; lit "b"; lit "a:b"] 0 2 (0, 1, 0, 1) = rangename3d [lit "a"; lit "b"; lit "a:b"] 2 3 (0, 1, 0, 1) /\
  rangename3d [lit "a"; lit "b"; lit "a:b"] 2 3 (0, 1, 0, 1) = Ok (lit "a:b!$A$1").
Proof.
split; [repeat constructor; simpl; intuition discriminate|]. split; reflexivity.
Qed.

Lemma C80_sheet_proof :
forall names i, 0 <= i ->
  (forall n, nth_error names (Z.to_nat i) = Some n -> exists q, quotedsheetname names i = Ok q /\ shown n q) /\
  (Z.of_nat (length names) <= i -> quotedsheetname names i = Err IndexError) /\
  (forall n m q, shown n q -> shown m q -> n = m).
Proof.
intros names i P. split; [intros n H; exact (shown_is names i n P H)|]. split.
- intro H. unfold quotedsheetname. destruct (0 <=? i) eqn:E; [|lia].
  rewrite (proj2 (py_index_None names i)) by lia. reflexivity.
- exact shown_one.
Qed.

Lemma C80_r1c1_proof :
forall r c rr cr br bc r1, r1 = true \/ (rr = true /\ br = None) \/ (cr = true /\ bc = None) ->
  exists s t, cellnamerel r c rr cr br bc r1 = Ok (s ++ t) /\ axis 82 rr r s /\ axis 67 cr c t.
Proof.
exact r1c1_is.
Qed.

Lemma rel_parts rlo rhi clo chi a b c d br bc s : rangename2drel (rlo, rhi, clo, chi) (a, b, c, d) br bc true = Ok s ->
  exists x y z w, s = (x ++ y) ++ 58%N :: (z ++ w) /\ axis 82 a rlo x /\ axis 67 c clo y /\ axis 82 b (rhi - 1) z /\ axis 67 d (chi - 1) w.
Proof.
  unfold rangename2drel.
  replace (if (c || d) && is_none bc then true else if (a || b) && is_none br then true else true) with true
    by (destruct ((c || d) && is_none bc), ((a || b) && is_none br); reflexivity).
  destruct (r1c1_is rlo clo a c br bc true (or_introl eq_refl)) as (x & y & E & X & Y). rewrite E.
  destruct (r1c1_is (rhi - 1) (chi - 1) b d br bc true (or_introl eq_refl)) as (z & w & E' & Z1 & W). rewrite E'.
  cbn [bind]. intro H. exists x, y, z, w. split; [|split; [exact X|split; [exact Y|split; [exact Z1|exact W]]]].
  assert (s = (x ++ y) ++ lit ":" ++ z ++ w) as -> by congruence. reflexivity.
Qed.

Lemma C80_r1c1_unique_proof :
forall g rel br bc g' rel' br' bc' s,
  rangename2drel g rel br bc true = Ok s -> rangename2drel g' rel' br' bc' true = Ok s -> g = g' /\ rel = rel'.
Proof.
intros [[[rlo rhi] clo] chi] [[[a b] c] d] br bc [[[rlo' rhi'] clo'] chi'] [[[a' b'] c'] d'] br' bc' s H H'.
apply rel_parts in H as (x & y & z & w & -> & X & Y & Z1 & W).
apply rel_parts in H' as (x' & y' & z' & w' & E & X' & Y' & Z1' & W').
apply split_first in E as (E1 & E2).
- destruct (r1c1_one _ _ _ _ _ _ _ _ _ _ _ _ X Y X' Y' E1) as (-> & -> & -> & ->).
  destruct (r1c1_one _ _ _ _ _ _ _ _ _ _ _ _ Z1 W Z1' W' E2) as (P & Q & -> & ->).
  assert (rhi = rhi') as -> by lia. assert (chi = chi') as -> by lia. split; reflexivity.
- intro K. apply in_app_or in K as [K|K]; [destruct (axis_chars _ _ _ _ _ X K) as [|[|[|[|]]]]|destruct (axis_chars _ _ _ _ _ Y K) as [|[|[|[|]]]]]; lia.
- intro K. apply in_app_or in K as [K|K]; [destruct (axis_chars _ _ _ _ _ X' K) as [|[|[|[|]]]]|destruct (axis_chars _ _ _ _ _ Y' K) as [|[|[|[|]]]]]; lia.
Qed.

Lemma C80_a1_proof :
forall r c rr cr b b', cr = true \/ 0 <= c < 702 ->
  exists s t, cellnamerel r c rr cr (Some b) (Some b') false = Ok (s ++ t) /\ col_mark cr b' c s /\ row_mark rr b r t.
Proof.
exact a1_is.
Qed.

Lemma C80_one_base_refuted_proof :
cellnamerel 5 7 false true None (Some 0) false = Ok (lit "HR6") /\ cellname 5 225 = Ok (lit "HR6") /\
  cellreference 0 0 (Some (lit "HR6")) = Ok (5, 225).
Proof.
split; [reflexivity|]. split; [reflexivity|]. vm_compute. reflexivity.
Qed.

Lemma C80_relative_sheets_proof :
forall names slo shi a b g rel br bc r1,
  (a = false -> b = false -> 0 <= slo < shi -> shi <= Z.of_nat (length names) ->
   Forall (fun n => n <> []) names ->
   exists u, sheets_text names slo shi u /\
     forall v, (rangename3drel names slo shi a b g rel br bc r1 = Ok (u ++ 33%N :: v) <-> rangename2drel g rel br bc r1 = Ok v)) /\
  (a = true -> b = true -> slo = 0 -> shi = 1 ->
   rangename3drel names slo shi a b g rel br bc r1 = rangename2drel g rel br bc r1) /\
  (a = true \/ b = true -> ~ (a = true /\ b = true /\ slo = 0 /\ shi = 1) ->
   rangename3drel names slo shi a b g rel br bc r1 = Err AssertionError).
Proof.
intros names slo shi a b g rel br bc r1. split; [|split].
- intros -> -> B L NE. destruct (sheets_is names slo shi B L) as (u & E & U). exists u. split; [exact U|].
  intro v. unfold rangename3drel, sheetrangerel. cbn [negb andb]. rewrite E. cbn [bind].
  assert (u <> []) as N0.
  { destruct U as (n & m & s & t & X & _ & S1 & _ & F).
    assert (s <> []) as NS.
    { destruct S1 as [(_ & _ & ->)|(_ & t' & _ & ->)]; [|discriminate].
      exact (proj1 (Forall_forall _ _) NE n (nth_error_In _ _ X)). }
    destruct F as [(_ & ->)|(_ & ->)]; [exact NS|]. destruct s; [congruence|discriminate]. }
  destruct (rangename2drel g rel br bc r1) as [w|e]; cbn [bind]; [|split; discriminate].
  destruct u as [|x u]; [congruence|]. split.
  + intro H. cbn [app] in H. injection H as H. apply app_inv_head in H. injection H as ->. reflexivity.
  + intro H. injection H as ->. reflexivity.
- intros -> -> -> ->. unfold rangename3drel, sheetrangerel. cbn. destruct (rangename2drel g rel br bc r1); reflexivity.
- intros H K. unfold rangename3drel, sheetrangerel.
  destruct (negb a && negb b) eqn:E; [destruct a, b; destruct H; discriminate|].
  destruct ((slo =? 0) && (0 =? shi - 1) && a && b) eqn:F; [|reflexivity].
  destruct K. destruct a, b; lia.
Qed.

