(** * What the bytes of a DBF field stand for

    For any bytes whatever, not only for those a well-formed table has
    (SpecDbf.holds). *)

From Coq Require Import ZArith.
From Verif Require Import PyBase PyFloat NumPy SpecPack SpecDbf SpecNumber SpecNumeral.
Open Scope nat_scope.

(** The ASCII text is an integer. *)
Inductive integer_text : str -> Z -> Prop :=
| it_digits : forall l s sg neg ds r, Forall space_like l -> Forall space_like r ->
    underscored s (sg ++ ds) -> sign_text sg neg -> ds <> [] -> all_digits ds ->
    integer_text (l ++ s ++ r) (if neg then - dec_value ds else dec_value ds)%Z.

(** The bytes which are not NUL. *)
Definition without_nuls (b : str) : str := filter (fun c => negb (N.eqb c 0)) b.

(** [b] stands somewhere in [s]. *)
Definition part_of (b s : str) : Prop := exists l r, s = l ++ b ++ r.

(** The bytes [b] of a field of type [typ] with [deci] decimals have the value [v]. *)
Inductive field_value : N -> N -> str -> val -> Prop :=
| fv_N_blank : forall deci b, Forall pad_like b -> field_value 78 deci b (VFloat fnan)
| fv_N_int : forall b z, integer_text (without_nuls b) z -> field_value 78 0 b (VInt z)
| fv_N_dec : forall deci b f, deci <> 0%N -> numeral (without_nuls b) f -> field_value 78 deci b (VFloat f)
| fv_F_blank : forall deci b, Forall space_like b -> field_value 70 deci b (VFloat fnan)
| fv_F : forall deci b f, numeral b f -> field_value 70 deci b (VFloat f)
| fv_D_blank : forall deci b, Forall space_like b -> field_value 68 deci b VNone
| fv_D : forall deci b y m d, integer_text (firstn 4 b) y -> integer_text (firstn 2 (skipn 4 b)) m ->
    integer_text (firstn 2 (skipn 6 b)) d -> calendar_day y m d -> field_value 68 deci b (VDate y m d)
| fv_L_true : forall deci b, part_of b (lit "YyTt") -> field_value 76 deci b (VStr (lit "T"))
| fv_L_false : forall deci b, ~ part_of b (lit "YyTt") -> part_of b (lit "NnFf") -> field_value 76 deci b (VStr (lit "F"))
| fv_L_other : forall deci b, ~ part_of b (lit "YyTt") -> ~ part_of b (lit "NnFf") -> field_value 76 deci b (VStr (lit "?"))
| fv_text : forall typ deci b, ~ In typ [78; 70; 68; 76]%N -> Forall (fun c => (c < 128)%N) b ->
    field_value typ deci b (VStr b).

(** The bytes of field [j] of record [i], when the records begin at [start] and
    have fields of these types, sizes and decimals. *)
Definition field_at (b : str) (start : nat) (specs : list (N * nat * N)) (i j : nat) : str :=
  let sizes := map (fun x => snd (fst x)) specs in
  firstn (nth j sizes 0) (skipn (start + i * (1 + list_sum sizes) + (1 + list_sum (firstn j sizes))) b).

(** Field [j] of record [i] has no value. *)
Definition meaningless (b : str) (start : nat) (specs : list (N * nat * N)) (i j : nat) : Prop :=
  exists typ size deci, nth_error specs j = Some (typ, size, deci) /\ forall v, ~ field_value typ deci (field_at b start specs i j) v.
