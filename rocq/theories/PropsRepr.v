(** * The printed form of a pack: the property theorems *)

From Coq Require Import ZifyBool ZifyNat ZifyN QArith.
From Verif Require Import PyBase PyBaseFacts PyFloat NumPy Pack PackRepr SpecPack SpecRepr ReprProofs ReprThms.
Open Scope nat_scope.
From Coq Require Import Sorting.Permutation.

(** C68. repr(pack) is the text of a call which makes the pack: the channels in
ascending order of their keys, each once, key, colon and the repr of the
array, then the names in the same manner. *)
Theorem C68_repr :
  forall ra rv p, dict_ok (p_data p) -> dict_ok (p_names p) ->
  exists data names d n,
    ascending data (p_data p) /\ ascending names (p_names p) /\
    listing ra (lit "," ++ [10%N] ++ lit "      ") data d /\
    listing rv (lit "," ++ [10%N] ++ lit "       ") names n /\
    pack_repr ra rv p =
      lit "ChannelPack(" ++ [10%N] ++ lit "data={" ++ d ++ lit "}," ++ [10%N] ++
      lit "names={" ++ n ++ lit "})".
Proof. exact C68_repr_proof. Qed.
Print Assumptions C68_repr.

Example C68_repr_ex :
  let p := new_pack [(2%Z, barr [true]); (-1, barr [])%Z] [(7%Z, VStr (lit "x")); (3%Z, VNone)] in
  dict_ok (p_data p) /\ dict_ok (p_names p) /\
  pack_repr (fun a => match aelems a with [] => lit "E" | _ => lit "F" end)
            (fun v => match v with VStr s => s | _ => lit "None" end) p =
  lit "ChannelPack(" ++ [10%N] ++ lit "data={-1: E," ++ [10%N] ++ lit "      2: F}," ++ [10%N] ++
  lit "names={3: None," ++ [10%N] ++ lit "       7: x})".
Proof. repeat split; try (repeat constructor; simpl; intuition discriminate). Qed.

(** C68. The text depends on the channels and the names only, not on the order in
which they were put in nor on mask, parts, nof, mindur, prefix or file names. *)
Theorem C68_order_and_mask :
  forall ra rv p q, dict_ok (p_data p) -> dict_ok (p_names p) ->
  Permutation (p_data p) (p_data q) -> Permutation (p_names p) (p_names q) ->
  pack_repr ra rv p = pack_repr ra rv q.
Proof. exact C68_order_and_mask_proof. Qed.
Print Assumptions C68_order_and_mask.

Example C68_order_ex :
  let p := new_pack [(2%Z, barr [true]); (1%Z, barr [])] [(7%Z, VStr (lit "x"))] in
  let q := run [OpMindur (OInt 3); OpFn (OStr (lit "f"))]
               (new_pack [(1%Z, barr []); (2%Z, barr [true])] [(7%Z, VStr (lit "x"))]) in
  dict_ok (p_data p) /\ dict_ok (p_names p) /\
  Permutation (p_data p) (p_data q) /\ Permutation (p_names p) (p_names q) /\ p <> q.
Proof.
  repeat split; try (repeat constructor; simpl; intuition discriminate).
Qed.

