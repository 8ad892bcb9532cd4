(** * The printed form of a pack: proofs of the property theorems *)

From Coq Require Import ZifyBool ZifyNat ZifyN QArith.
From Verif Require Import PyBase PyBaseFacts PyFloat NumPy Pack PackRepr SpecPack SpecRepr ReprProofs.
Open Scope nat_scope.
From Coq Require Import Sorting.Permutation.

Lemma C68_repr_proof :
  forall ra rv p, dict_ok (p_data p) -> dict_ok (p_names p) ->
  exists data names d n,
    ascending data (p_data p) /\ ascending names (p_names p) /\
    listing ra (lit "," ++ [10%N] ++ lit "      ") data d /\
    listing rv (lit "," ++ [10%N] ++ lit "       ") names n /\
    pack_repr ra rv p =
      lit "ChannelPack(" ++ [10%N] ++ lit "data={" ++ d ++ lit "}," ++ [10%N] ++
      lit "names={" ++ n ++ lit "})".
Proof.
  intros ra rv p D N.
  exists (items_sorted (p_data p)), (items_sorted (p_names p)).
  eexists. eexists. split; [apply items_sorted_ascending; auto|].
  split; [apply items_sorted_ascending; auto|]. split; [apply listing_join|].
  split; [apply listing_join|]. unfold pack_repr. rewrite !keyvalstr_items. reflexivity.
Qed.

Lemma C68_order_and_mask_proof :
  forall ra rv p q, dict_ok (p_data p) -> dict_ok (p_names p) ->
  Permutation (p_data p) (p_data q) -> Permutation (p_names p) (p_names q) ->
  pack_repr ra rv p = pack_repr ra rv q.
Proof.
  intros ra rv p q D N PD PN. unfold pack_repr. rewrite !keyvalstr_items.
  assert (D' : dict_ok (p_data q)) by (eapply Permutation_NoDup; [apply Permutation_map; exact PD|exact D]).
  assert (N' : dict_ok (p_names q)) by (eapply Permutation_NoDup; [apply Permutation_map; exact PN|exact N]).
  rewrite (ascending_unique _ _ _ _ (items_sorted_ascending _ D) (items_sorted_ascending _ D') PD).
  rewrite (ascending_unique _ _ _ _ (items_sorted_ascending _ N) (items_sorted_ascending _ N') PN).
  reflexivity.
Qed.

