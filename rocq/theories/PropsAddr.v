(** * Stored addresses of cells and the choice of a colour: the property theorems *)

From Coq Require Import ZifyBool ZifyNat ZifyN QArith.
From Verif Require Import PyBase PyText PyFloat NumPy CompDoc ReadXl SpecRepr SpecXl SpecRange PyBaseFacts ReprProofs XlProofs ReadXlThms RangeProofs CellAddr SpecAddr AddrThms.
Open Scope nat_scope.
Open Scope Z_scope.
(** A palette with a system colour, which has no numbers, and one colour twice. *)
Definition palette : list (Z * option (list Z)) :=
  [(0, Some [0; 0; 0]); (64, None); (8, Some [0; 0; 0]); (10, Some [255; 0; 0]); (9, Some [255; 255; 255])].

(** Every stored address is expanded as BIFF8 means it: the flags are the two highest bits of the second word, the column is
its low byte, the six bits between count for nothing; absolute rows and columns are as stored, relative ones
are distances, in 16 and in 8 bits with a sign. *)
Theorem C85_expand :
forall inrow w byte bits relrow relcol, 0 <= inrow < 65536 -> packed byte bits relrow relcol w ->
  exists outrow outcol, expand_cell_address inrow w = (outrow, outcol, relrow, relcol) /\
    meant relrow 65536 inrow outrow /\ meant relcol 256 byte outcol.
Proof. exact C85_expand_proof. Qed.
Print Assumptions C85_expand.

Example C85_expand_ex : packed 254 5 true true 50686 /\ expand_cell_address 65535 50686 = (-1, -2, true, true) /\
  expand_cell_address 65535 (254 + 256 * 5) = (65535, 254, false, false).
Proof. split; [unfold packed, flag; lia|]. split; reflexivity. Qed.

(** Every pair of words is such an address, in one way. *)
Theorem C85_words :
forall w, 0 <= w < 65536 ->
  exists byte bits relrow relcol, packed byte bits relrow relcol w /\
    forall byte' bits' relrow' relcol', packed byte' bits' relrow' relcol' w ->
      byte' = byte /\ bits' = bits /\ relrow' = relrow /\ relcol' = relcol.
Proof. exact C85_words_proof. Qed.
Print Assumptions C85_words.

Example C85_words_ex : exists byte bits relrow relcol, packed byte bits relrow relcol 50686 /\ byte = 254 /\ relcol = true.
Proof. exists 254, 5, true, true. split; [unfold packed, flag; lia|]. auto. Qed.

(** Nothing is lost in expansion but the six bits of no meaning: addresses that expand alike are the same, but for these. *)
Theorem C85_lossless :
forall r1 w1 r2 w2, 0 <= r1 < 65536 -> 0 <= w1 < 65536 -> 0 <= r2 < 65536 -> 0 <= w2 < 65536 ->
  (expand_cell_address r1 w1 = expand_cell_address r2 w2 <->
   r1 = r2 /\ w1 mod 256 = w2 mod 256 /\ w1 / 16384 = w2 / 16384).
Proof. exact C85_lossless_proof. Qed.
Print Assumptions C85_lossless.

Example C85_lossless_ex : expand_cell_address 3 (7 + 256) = expand_cell_address 3 7 /\ (7 + 256) mod 256 = 7 mod 256 /\
  expand_cell_address 3 (7 + 16384) <> expand_cell_address 3 7.
Proof. split; [reflexivity|]. split; [reflexivity|]. discriminate. Qed.

(** The text of an address is that of its column and that of its row: letters after a dollar sign or a distance, and a number
from one on after a dollar sign or a distance. Only an absolute column below zero has none (AssertionError). *)
Theorem C85_display :
forall r c relrow relcol,
  (relcol = true \/ 0 <= c -> exists a b, display_cell_address r c relrow relcol = Ok (a ++ b) /\ col_part relcol c a /\ row_part relrow r b) /\
  (relcol = false -> c < 0 -> display_cell_address r c relrow relcol = Err AssertionError).
Proof. exact C85_display_proof. Qed.
Print Assumptions C85_display.

Example C85_display_ex : display_cell_address 9 27 false false = Ok (lit "$AB$10") /\
  display_cell_address (-3) 27 true false = Ok (lit "$AB" ++ [40; 42; 45; 51; 41]%N) /\
  display_cell_address 9 (-1) false false = Err AssertionError.
Proof. repeat split; reflexivity. Qed.

(** The text tells the address: different addresses have different texts. *)
Theorem C85_texts :
forall r c relrow relcol r' c' relrow' relcol' s,
  display_cell_address r c relrow relcol = Ok s -> display_cell_address r' c' relrow' relcol' = Ok s ->
  r = r' /\ c = c' /\ relrow = relrow' /\ relcol = relcol'.
Proof. exact C85_texts_proof. Qed.
Print Assumptions C85_texts.

Example C85_texts_ex : display_cell_address 9 27 true false <> display_cell_address 9 27 false false /\
  exists s, display_cell_address (-9) (-27) true true = Ok s.
Proof. split; [discriminate|]. eexists. reflexivity. Qed.

(** So every stored address has a text, and stored addresses have the same text exactly when they are the same but for the bits of no
meaning. *)
Theorem C85_stored :
forall r1 w1 r2 w2, 0 <= r1 < 65536 -> 0 <= w1 < 65536 -> 0 <= r2 < 65536 -> 0 <= w2 < 65536 ->
  let text r w := let '(a, b, x, y) := expand_cell_address r w in display_cell_address a b x y in
  (exists s, text r1 w1 = Ok s) /\
  (text r1 w1 = text r2 w2 <-> r1 = r2 /\ w1 mod 256 = w2 mod 256 /\ w1 / 16384 = w2 / 16384).
Proof. exact C85_stored_proof. Qed.
Print Assumptions C85_stored.

Example C85_stored_ex : (let '(a, b, x, y) := expand_cell_address 65535 (254 + 32768) in display_cell_address a b x y) =
  Ok (lit "$IU" ++ [40; 42; 45; 49; 41]%N).
Proof. reflexivity. Qed.

(** The colour chosen is the first of those of the map that are nearest, by the sum of the squares of the differences; entries without a colour
count for nothing. If no colour is nearer than 3 * 256 * 256, the index is 0. *)
Theorem C86_nearest :
forall map rgb,
  nearest map rgb (nearest_colour_index map rgb) \/
  nearest_colour_index map rgb = 0 /\ forall k c d, In (k, Some c) map -> apart rgb c d -> 3 * 256 * 256 <= d.
Proof. exact C86_nearest_proof. Qed.
Print Assumptions C86_nearest.

Example C86_nearest_ex : nearest_colour_index palette [250; 3; 9] = 10 /\ nearest_colour_index palette [1; 0; 0] = 0 /\
  nearest_colour_index [(7, None); (8, Some [0; 0; 0])] [443; 0; 0] = 8 /\
  nearest_colour_index [(7, None); (8, Some [0; 0; 0])] [444; 0; 0] = 0.
Proof. repeat split; reflexivity. Qed.

(** If all are colours of three bytes and there is one in the map, the choice is one of the nearest, the first of them. *)
Theorem C86_colours :
forall map rgb k c, colours map -> colour rgb -> In (k, Some c) map -> nearest map rgb (nearest_colour_index map rgb).
Proof. exact C86_colours_proof. Qed.
Print Assumptions C86_colours.

Example C86_colours_ex : colours palette /\ colour [250; 3; 9] /\ In (10, Some [255; 0; 0]) palette.
Proof.
  split; [|split; [split; [reflexivity|repeat constructor; lia]|simpl; auto]].
  intros k c H. simpl in H. repeat destruct H as [H|H]; try contradiction; try discriminate; injection H as <- <-;
    (split; [reflexivity|repeat constructor; lia]).
Qed.

(** A colour that is in the map is chosen itself: the index is one of that very colour. *)
Theorem C86_exact :
forall map rgb k, (forall k' c, In (k', Some c) map -> length c = length rgb) -> In (k, Some rgb) map ->
  In (nearest_colour_index map rgb, Some rgb) map.
Proof. exact C86_exact_proof. Qed.
Print Assumptions C86_exact.

Example C86_exact_ex : In (9, Some [255; 255; 255]) palette /\ nearest_colour_index palette [255; 255; 255] = 9.
Proof. split; [simpl; auto 6|reflexivity]. Qed.

(** The order of the map matters only among colours equally near: if one colour is nearer than all others, its index is given in every order. *)
Theorem C86_order :
forall map map' rgb k c d, Permutation map map' -> In (k, Some c) map -> apart rgb c d -> d < 3 * 256 * 256 ->
  (forall k' c' d', In (k', Some c') map -> apart rgb c' d' -> k' = k \/ d < d') ->
  nearest_colour_index map rgb = k /\ nearest_colour_index map' rgb = k.
Proof. exact C86_order_proof. Qed.
Print Assumptions C86_order.

Example C86_order_ex : nearest_colour_index (rev palette) [250; 3; 9] = 10 /\ nearest_colour_index (rev palette) [1; 0; 0] = 8 /\
  Permutation palette (rev palette).
Proof. split; [reflexivity|]. split; [reflexivity|]. apply Permutation_rev. Qed.

