(** * Texts of references to cells and ranges

    channelpack/xlrd/formula.py l.2050-2189. *)

From Coq Require Import ZArith.
From Verif Require Import PyBase PyFloat NumPy ReadXl.
Open Scope Z_scope.

(** formula.py l.2050-2062. *)
Definition rownamerel (rowx : Z) (rowxrel : bool) (browx : option Z) (r1c1 : bool) : str :=
  let r1c1 := match browx with None => true | Some _ => r1c1 end in
  if negb rowxrel then
    if r1c1 then lit "R" ++ str_of_Z (rowx + 1) else lit "$" ++ str_of_Z (rowx + 1)
  else if r1c1 then
    if negb (rowx =? 0) then lit "R[" ++ str_of_Z rowx ++ lit "]" else lit "R"
  else match browx with
       | Some b => str_of_Z ((b + rowx) mod 65536 + 1)
       | None => lit "R"                                       (* not reachable: r1c1 *)
       end.

(** formula.py l.2064-2076. *)
Definition colnamerel (colx : Z) (colxrel : bool) (bcolx : option Z) (r1c1 : bool) : res str :=
  let r1c1 := match bcolx with None => true | Some _ => r1c1 end in
  if negb colxrel then
    if r1c1 then Ok (lit "C" ++ str_of_Z (colx + 1))
    else do c <- formula_colname colx; Ok (lit "$" ++ c)
  else if r1c1 then
    if negb (colx =? 0) then Ok (lit "C[" ++ str_of_Z colx ++ lit "]") else Ok (lit "C")
  else match bcolx with
       | Some b => formula_colname ((b + colx) mod 256)
       | None => Ok (lit "C")                                  (* not reachable: r1c1 *)
       end.

(** formula.py l.2082-2086. *)
Definition cellnameabs (rowx colx : Z) (r1c1 : bool) : res str :=
  if r1c1 then Ok (lit "R" ++ str_of_Z (rowx + 1) ++ lit "C" ++ str_of_Z (colx + 1))
  else do c <- formula_colname colx; Ok (lit "$" ++ c ++ lit "$" ++ str_of_Z (rowx + 1)).

(** b is None, formula.py l.2091, 2121-2124. *)
Definition is_none (b : option Z) : bool := match b with None => true | Some _ => false end.

(** formula.py l.2088-2098. *)
Definition cellnamerel (rowx colx : Z) (rowxrel colxrel : bool) (browx bcolx : option Z) (r1c1 : bool) : res str :=
  if negb rowxrel && negb colxrel then cellnameabs rowx colx r1c1
  else
    let r1c1 := if (rowxrel && is_none browx) || (colxrel && is_none bcolx) then true else r1c1 in
    do c <- colnamerel colx colxrel bcolx r1c1;
    let r := rownamerel rowx rowxrel browx r1c1 in
    if r1c1 then Ok (r ++ c) else Ok (c ++ r).

(** Ranges: the first row, the row after the last, and so for the columns. *)
Definition range : Type := Z * Z * Z * Z.

(** rangename2d with r1c1 false, formula.py l.2109-2115; with r1c1 it returns
    None whatever the range (l.2111-2112) and is never called so. *)
Definition rangename2d (g : range) : res str :=
  let '(rlo, rhi, clo, chi) := g in
  if (rhi =? rlo + 1) && (chi =? clo + 1) then cellnameabs rlo clo false
  else
    do a <- cellnameabs rlo clo false;
    do b <- cellnameabs (rhi - 1) (chi - 1) false;
    Ok (a ++ lit ":" ++ b).

(** formula.py l.2117-2127. *)
Definition rangename2drel (g : range) (rel : bool * bool * bool * bool) (browx bcolx : option Z) (r1c1 : bool) : res str :=
  let '(rlo, rhi, clo, chi) := g in
  let '(rlorel, rhirel, clorel, chirel) := rel in
  let r1c1 := if (rlorel || rhirel) && is_none browx then true else r1c1 in
  let r1c1 := if (clorel || chirel) && is_none bcolx then true else r1c1 in
  do a <- cellnamerel rlo clo rlorel clorel browx bcolx r1c1;
  do b <- cellnamerel (rhi - 1) (chi - 1) rhirel chirel browx bcolx r1c1;
  Ok (a ++ lit ":" ++ b).

(** formula.py l.2159-2173. *)
Definition quotedsheetname (shnames : list str) (shx : Z) : res str :=
  do shname <-
    (if 0 <=? shx then match py_index shnames shx with Some s => Ok s | None => Err IndexError end
     else Ok (if shx =? -1 then lit "?internal; any sheet?"
              else if shx =? -2 then lit "internal; deleted sheet"
              else if shx =? -3 then lit "internal; macro sheet"
              else if shx =? -4 then lit "<<external>>"
              else lit "?error " ++ str_of_Z shx ++ lit "?"));
  Ok (if existsb (N.eqb 39) shname then [39%N] ++ replace1 39 [39; 39]%N shname ++ [39%N]
      else if existsb (N.eqb 32) shname then [39%N] ++ shname ++ [39%N]
      else shname).

(** formula.py l.2175-2180; the names of the book are given. *)
Definition sheetrange (shnames : list str) (slo shi : Z) : res str :=
  do a <- quotedsheetname shnames slo;
  if negb (slo =? shi - 1)
  then do b <- quotedsheetname shnames (shi - 1); Ok (a ++ lit ":" ++ b)
  else Ok a.

(** formula.py l.2182-2188. *)
Definition sheetrangerel (shnames : list str) (slo shi : Z) (slorel shirel : bool) : res str :=
  if negb slorel && negb shirel then sheetrange shnames slo shi
  else if (slo =? 0) && (0 =? shi - 1) && slorel && shirel then Ok []
  else Err AssertionError.

(** formula.py l.2130-2140. *)
Definition rangename3d (shnames : list str) (slo shi : Z) (g : range) : res str :=
  do a <- sheetrange shnames slo shi;
  do b <- rangename2d g;
  Ok (a ++ lit "!" ++ b).

(** formula.py l.2142-2157. *)
Definition rangename3drel (shnames : list str) (slo shi : Z) (slorel shirel : bool) (g : range)
  (rel : bool * bool * bool * bool) (browx bcolx : option Z) (r1c1 : bool) : res str :=
  do shdesc <- sheetrangerel shnames slo shi slorel shirel;
  do rngdesc <- rangename2drel g rel browx bcolx r1c1;
  match shdesc with
  | [] => Ok rngdesc
  | _ => Ok (shdesc ++ lit "!" ++ rngdesc)
  end.
