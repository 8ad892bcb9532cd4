(** * Stored addresses of cells and the choice of a colour

    channelpack/xlrd/book.py l.1375-1391, 1403-1412 and
    channelpack/xlrd/formatting.py l.129-152. *)

From Coq Require Import ZArith.
From Verif Require Import PyBase PyText PyFloat NumPy CompDoc ReadXl.
Open Scope Z_scope.

(** expand_cell_address, book.py l.1375-1391: outrow, outcol, relrow, relcol; the
    last two, 0 or 1 in the code, are bools here. *)
Definition expand_cell_address (inrow incol : Z) : Z * Z * bool * bool :=
  let relrow := negb (Z.land incol 0x8000 =? 0) in
  let outrow := if relrow && (32768 <=? inrow) then inrow - 65536 else inrow in
  let outcol := Z.land incol 0xFF in
  let relcol := negb (Z.land incol 0x4000 =? 0) in
  let outcol := if relcol && (128 <=? outcol) then outcol - 256 else outcol in
  (outrow, outcol, relrow, relcol).

(** "( *%s%d)" without the space, book.py l.1405, 1409. *)
Definition relative_part (z : Z) : str :=
  lit "(" ++ lit "*" ++ (if z <? 0 then lit "-" else lit "+") ++ str_of_Z (Z.abs z) ++ lit ")".

(** display_cell_address, book.py l.1403-1412; the flags as bools. *)
Definition display_cell_address (rowx colx : Z) (relrow relcol : bool) : res str :=
  let rowpart := if relrow then relative_part rowx else lit "$" ++ str_of_Z (rowx + 1) in
  do colpart <- (if relcol then Ok (relative_part colx) else do c <- book_colname colx; Ok (lit "$" ++ c));
  Ok (colpart ++ rowpart).

(** The inner loop of nearest_colour_index, formatting.py l.142-143. *)
Fixpoint metric_loop (rgb cand : list Z) (metric : Z) : Z :=
  match rgb, cand with
  | v1 :: rgb, v2 :: cand => metric_loop rgb cand (metric + (v1 - v2) * (v1 - v2))
  | _, _ => metric
  end.

(** Its outer loop, formatting.py l.138-148: what is left of the items of the
    dict, and the best so far. *)
Fixpoint nearest_loop (items : list (Z * option (list Z))) (rgb : list Z) (best_metric best_colourx : Z) : Z :=
  match items with
  | [] => best_colourx
  | (colourx, None) :: items => nearest_loop items rgb best_metric best_colourx
  | (colourx, Some cand) :: items =>
      let metric := metric_loop rgb cand 0 in
      if metric <? best_metric then
        if metric =? 0 then colourx else nearest_loop items rgb metric colourx
      else nearest_loop items rgb best_metric best_colourx
  end.

(** nearest_colour_index, formatting.py l.129-152; the dict as its items in order,
    a colour as its numbers. *)
Definition nearest_colour_index (colour_map : list (Z * option (list Z))) (rgb : list Z) : Z :=
  nearest_loop colour_map rgb (3 * 256 * 256) 0.
