(** * How a worksheet of BIFF 2, 3 or 4 is written

    A file of these versions is one sheet: formats, XFs, code page and date mode
    are among the records of the sheet, and cells refer to what came before them.
    Formats are numbered in the order they are in. In BIFF 3 and 4 cells have the
    number of an XF, as in BIFF 5 (SpecOld.v); in BIFF2 they have three bytes of
    attributes of their own. *)

From Coq Require Import ZArith.
From Verif Require Import PyBase PyFloat NumPy SpecDbf SpecSst SpecFmtDate ReadXl SpecXl XlSheet SpecXlSheet SpecBiff SpecOld.
Open Scope Z_scope.

(** The content of a cell of BIFF2. *)
Inductive content2 :=
| Real (d : float)
| Whole (n : Z)
| Words (raw t extra : str)
| Flag (error : bool) (v : N)
| Result (r : result) (rest : str).

Inductive entry :=
| Info (g : SpecOld.global)                              (* date mode, code page, user *)
| Fmt (code : Z) (head raw fmt extra : str)
| Attr (code : Z) (front : str) (key : N) (rest : str)   (* an XF *)
| Finish (data : str)                                    (* a style *)
| Chosen (x : Z)                                         (* the XF of cells that have none *)
| Cell2 (row col : Z) (attr : str) (c : content2)
| Piece (it : SpecOld.item)
| Unread (code : Z) (data : str).

Definition content2_code (c : content2) : Z :=
  match c with Real _ => 0x3 | Whole _ => 0x2 | Words _ _ _ => 0x4 | Flag _ _ => 0x5 | Result _ _ => 0x6 end.
Definition content2_bytes (c : content2) : str :=
  match c with
  | Real d => double_bytes d
  | Whole n => le_bytes 2 n
  | Words raw _ extra => coded_text 1 raw ++ extra
  | Flag error v => [v; if error then 1%N else 0%N]
  | Result r rest => result_bytes r ++ rest
  end.
Definition content2_records (c : content2) : str := match c with Result r _ => result_records 1 r | _ => [] end.
Definition entry_bytes (e : entry) : str :=
  match e with
  | Info g => global_bytes g
  | Fmt code head raw _ extra => record code (head ++ coded_text 1 raw ++ extra)
  | Attr code front key rest => record code (front ++ key :: rest)
  | Finish data => record 0x293 data
  | Chosen x => record 0x44 (le_bytes 2 x)
  | Cell2 row col attr c => record (content2_code c) (le_bytes 2 row ++ le_bytes 2 col ++ attr ++ content2_bytes c) ++ content2_records c
  | Piece it => item_bytes it
  | Unread code data => record code data
  end.

(** ** What has been said *)

Definition infos (l : list entry) : list SpecOld.global := flat_map (fun e => match e with Info g => [g] | _ => [] end) l.
Definition fmts (l : list entry) : list str := flat_map (fun e => match e with Fmt _ _ _ t _ => [t] | _ => [] end) l.
(** The format of an XF is a number of six bits in BIFF2. *)
Definition attr_key (version : Z) (key : N) : Z := if version =? 2 then Z.of_N key mod 64 else Z.of_N key.
Definition keys (version : Z) (l : list entry) : list Z :=
  flat_map (fun e => match e with Attr _ _ key _ => [attr_key version key] | _ => [] end) l.
Definition chosen (l : list entry) : option Z :=
  fold_left (fun x e => match e with Chosen y => Some y | _ => x end) l None.
Definition pieces (l : list entry) : list item := flat_map (fun e => match e with Piece it => [it] | _ => [] end) l.
Definition is_cell2 (e : entry) : bool := match e with Cell2 _ _ _ _ => true | _ => false end.

(** The attributes of a cell of BIFF2: the XF in the low six bits of the first
    byte, 63 for the one chosen before; without XFs the format itself is in the
    second byte. *)
Definition attr_byte (attr : str) (i : nat) : Z := Z.of_N (nth i attr 0%N) mod 64.
Definition xf_of (l : list entry) (attr : str) : Z :=
  if attr_byte attr 0 =? 63 then match chosen l with Some x => x | None => 0 end else attr_byte attr 0.
Definition format_key (l : list entry) (attr : str) : Z :=
  match keys 2 l with
  | [] => attr_byte attr 1
  | ks => nth (Z.to_nat (xf_of l attr)) ks 0
  end.

(** ** Well-formed sheets *)

Definition good_content2 (dec : str -> res str) (c : content2) : Prop :=
  match c with
  | Real d => is_double d
  | Whole n => word16 n
  | Words raw t _ => dec raw = Ok t /\ size raw < 256
  | Flag _ v => (v < 256)%N
  | Result r rest => good_result 1 dec r /\ rest <> []
  end.
(** The records below that have a meaning in these versions. *)
Definition early_codes : list Z :=
  [0x41e; 0x1e; 0x31; 0x231; 0x92; 0x45; 0x293; 0x56; 0x443; 0x243; 0x43; 0x22; 0x42; 0x2f; 0x5c; 0x44;
   0x3; 0x2; 0x4; 0x5; 0x1; 0x8; 0x24; 0x20; 0x3e].
Definition foreign (it : item) : Prop :=
  match it with Same (SpecBiff.Passed code _) => ~ In code early_codes | _ => True end.
(** An entry of the sheet l after those before. *)
Definition good_entry (dec : option Z -> str -> res str) (country : Z * Z) (version : Z) (l before : list entry) (e : entry) : Prop :=
  let page := page_of (infos before) in
  match e with
  | Info g =>
      match g with SpecOld.Datemode _ _ | SpecOld.Codepage _ _ | SpecOld.User _ _ => True | _ => False end /\
      good_global dec country (infos l) (infos before) g
  | Fmt code head raw fmt extra =>
      (In version [4; 45] /\ code = 0x41e /\ length head = 2%nat \/ code = 0x1e /\ head = []) /\
      dec page raw = Ok fmt /\ size raw < 256 /\ short (head ++ coded_text 1 raw ++ extra)
  | Attr code front key rest =>
      (if version =? 2 then code = 0x43 /\ length front = 2%nat /\ length rest = 1%nat /\
                            (keys 2 before = [] -> Forall (fun e => is_cell2 e = false) before)
       else code = (if version =? 3 then 0x243 else 0x443) /\ length front = 1%nat /\ 10 <= size rest) /\
      short (front ++ key :: rest) /\ (key < 256)%N /\ attr_key version key < Z.of_nat (length (fmts before))
  | Finish data => version <> 2 /\ short data
  | Chosen x => version = 2 /\ word16 x
  | Cell2 row col attr c =>
      version = 2 /\ 0 <= row < 16384 /\ 0 <= col < 256 /\ length attr = 3%nat /\ Forall (fun x => (x < 256)%N) attr /\
      good_content2 (dec page) c /\
      short (le_bytes 2 row ++ le_bytes 2 col ++ attr ++ content2_bytes c) /\ fmts before = fmts l /\
      match keys 2 before with
      | [] => attr_byte attr 0 = 0
      | ks => xf_of before attr < Z.of_nat (length ks) /\ (attr_byte attr 0 = 63 -> chosen before <> None)
      end
  | Piece it =>
      good_item (dec page) country [] (Z.of_nat (length (keys version before))) it /\ foreign it /\
      (version = 2 -> is_cell it = false /\ match it with Same (SpecBiff.Passed code _) => code <> 0x23e | _ => True end)
  | Unread code data =>
      short data /\ (In code [0x31; 0x231; 0x92; 0x45; 0x1; 0x8; 0x24; 0x20] \/ code = 0x56 /\ 2 <= size data \/ code = 0x3e /\ 13 <= size data)
  end.

Definition is_cells (e : entry) : bool := match e with Cell2 _ _ _ _ => true | Piece it => is_cell it | _ => false end.
Definition is_dims (e : entry) : bool := match e with Piece it => is_extent it | _ => false end.

(** The BOF record of each version. *)
Definition bof_code (version : Z) : Z := if version =? 2 then 0x9 else if version =? 3 then 0x209 else 0x409.
Record single := mksingle { e_version : Z; e_head : str; e_more : str; e_entries : list entry }.
Definition file_bytes (S : single) : str :=
  record (bof_code (e_version S)) (e_head S ++ le_bytes 2 0x10 ++ e_more S) ++ flat_map entry_bytes (e_entries S) ++ eof.
Definition good_single (dec : option Z -> str -> res str) (country : Z * Z) (S : single) : Prop :=
  In (e_version S) [2; 3; 4] /\ length (e_head S) = 2%nat /\ size (e_more S) <= 16 /\
  (forall before e after, e_entries S = before ++ e :: after -> good_entry dec country (e_version S) (e_entries S) before e) /\
  (exists a b, e_entries S = a ++ b /\ Forall (fun e => is_cells e = false) a /\ Forall (fun e => is_dims e = false) b) /\
  anchored None (pieces (e_entries S)).

(** ** What is shown *)

(** [date] tells the formats, by number, that are dates. *)
Definition tells (l : list entry) (date : Z -> bool) : Prop :=
  forall key, date key = true <-> 0 <= key /\ exists t, nth_error (fmts l) (Z.to_nat key) = Some t /\ date_text t.
Definition cell2_put (date : bool) (row col : Z) (c : content2) : put :=
  let put t v := mkput row col (Some t) v 0 in
  let number := if date then XL_CELL_DATE else XL_CELL_NUMBER in
  match c with
  | Real d => put number (VFloat d)
  | Whole n => put number (VFloat (float_of_Z n))
  | Words _ t _ => put XL_CELL_TEXT (VStr t)
  | Flag error v => put (if error then XL_CELL_ERROR else XL_CELL_BOOLEAN) (VInt (Z.of_N v))
  | Result r _ => put (result_type (fun _ => date) 0 r) (result_value r)
  end.
Definition entry_cells (version : Z) (date : Z -> bool) (before : list entry) (e : entry) : list put :=
  match e with
  | Cell2 row col attr c => [cell2_put (date (format_key before attr)) row col c]
  | Piece it => item_cells [] (fun xf => date (nth (Z.to_nat xf) (keys version before) 0)) it
  | _ => []
  end.
Fixpoint cells_after (version : Z) (date : Z -> bool) (before l : list entry) : list put :=
  match l with
  | [] => []
  | e :: l' => entry_cells version date before e ++ cells_after version date (before ++ [e]) l'
  end.
Definition cells (S : single) (date : Z -> bool) : list put := cells_after (e_version S) date [] (e_entries S).
Definition date_mode (l : list entry) : Z :=
  fold_left (fun m e => match e with Info (SpecOld.Datemode n _) => n | _ => m end) l 0.
