(** * How links, notes, drawn objects and text boxes are written in a BIFF8 sheet *)

From Coq Require Import ZArith.
From Verif Require Import PyBase SpecDbf SpecSst SpecBytes.
Open Scope Z_scope.

(** ** Links *)

(** Text in two bytes a unit; with a zero at its end, after the number of its
    units. *)
Definition wide (s : str) : str := stretch_bytes (true, s).
Definition unit_count (s : str) : Z := units (true, s).
Definition counted (s : str) : str := le_bytes 4 (unit_count (s ++ [0%N])) ++ wide (s ++ [0%N]).
Definition good_wide (s : str) : Prop := Forall scalar s.

(** Rows and columns: the first and last row, the first and last column. *)
Definition area := (Z * Z * Z * Z)%type.
Definition area_bytes (a : area) : str :=
  let '(r1, r2, c1, c2) := a in le_bytes 2 r1 ++ le_bytes 2 r2 ++ le_bytes 2 c1 ++ le_bytes 2 c2.
Definition good_area (a : area) : Prop :=
  let '(r1, r2, c1, c2) := a in word16 r1 /\ word16 r2 /\ word16 c1 /\ word16 c2.

(** Where a link leads: to a URL, perhaps with 24 bytes after it that are units
    of text; to a file, whose path may be given twice, the second time in full;
    to something else; to a file on another computer; to a place in the workbook. *)
Inductive target :=
| Url (u : str) (tail : str)
| Path (up : Z) (path version : str) (full : option (str * str))
| Other (clsid body : str)
| Share (s : str)
| Inside.
Definition url_id : str := [224; 201; 234; 121; 249; 186; 206; 17; 140; 130; 0; 170; 0; 75; 169; 11]%N.
Definition file_id : str := [3; 3; 0; 0; 0; 0; 0; 0; 192; 0; 0; 0; 0; 0; 0; 70]%N.
Definition target_bytes (t : target) : str :=
  match t with
  | Url u tail => url_id ++ le_bytes 4 (size (wide (u ++ [0%N] ++ tail))) ++ wide (u ++ [0%N] ++ tail)
  | Path up path version full =>
      file_id ++ le_bytes 2 up ++ le_bytes 4 (size path) ++ path ++ version ++
      match full with
      | None => le_bytes 4 0
      | Some (key, s) => le_bytes 4 (size (wide s) + 6) ++ le_bytes 4 (size (wide s)) ++ key ++ wide s
      end
  | Other clsid body => clsid ++ body
  | Share s => counted s
  | Inside => []
  end.
(** The characters of a URL are not beyond 65535, nor zero. *)
Definition good_target (t : target) : Prop :=
  match t with
  | Url u tail =>
      good_wide (u ++ tail) /\ Forall (fun c => (0 < c < 65536)%N) u /\ (tail = [] \/ size (wide tail) = 24)
  | Path up path version full =>
      word16 up /\ size version = 24 /\ match full with None => True | Some (key, s) => size key = 2 /\ good_wide s end
  | Other clsid body => size clsid = 16 /\ clsid <> url_id /\ clsid <> file_id
  | Share s => good_wide s
  | Inside => True
  end.

(** A link: options tell what is there. *)
Record link := mklink {
  lk_area : area;
  lk_options : Z;
  lk_text : option str;
  lk_frame : option str;
  lk_target : target;
  lk_mark : option str;
  lk_extra : str
}.
Definition link_id : str := [208; 201; 234; 121; 249; 186; 206; 17; 140; 130; 0; 170; 0; 75; 169; 11]%N.
Definition opt_bytes (o : option str) : str := match o with Some s => counted s | None => [] end.
Definition link_bytes (k : link) : str :=
  area_bytes (lk_area k) ++ link_id ++ [2; 0; 0; 0]%N ++ le_bytes 4 (lk_options k)
  ++ opt_bytes (lk_text k) ++ opt_bytes (lk_frame k) ++ target_bytes (lk_target k) ++ opt_bytes (lk_mark k) ++ lk_extra k.
Definition good_opt (o : option str) : Prop := match o with Some s => good_wide s | None => True end.
(** Bits of the options: 0 some target, 1 not relative, 2 and 4 a text, 3 a mark, 5
    and 6 of unknown use, 7 a frame, 8 a target that is a text. *)
Definition bit (o k : Z) : bool := Z.testbit o k.
Definition good_options (o : Z) (k : link) : Prop :=
  bit o 2 || bit o 4 = is_some (lk_text k) /\ bit o 3 = is_some (lk_mark k) /\ bit o 7 = is_some (lk_frame k) /\
  match lk_target k with
  | Url _ _ | Path _ _ _ _ => bit o 0 = true /\ bit o 8 = false
  | Other _ _ => bit o 0 = true /\ bit o 8 = false /\ lk_mark k = None
  | Share _ => bit o 0 = true /\ bit o 1 = true /\ bit o 8 = true /\ bit o 5 = false /\ bit o 6 = false
  | Inside => bit o 0 = false /\ bit o 8 = false
  end.
Definition good_link (k : link) : Prop :=
  good_area (lk_area k) /\ 0 <= lk_options k < 2 ^ 32 /\ good_options (lk_options k) k /\
  good_opt (lk_text k) /\ good_opt (lk_frame k) /\ good_target (lk_target k) /\ good_opt (lk_mark k) /\
  size (link_bytes k) < 2 ^ 16.

(** The text shown when the mouse is over a link. *)
Definition tip_bytes (a : area) (s : str) : str := le_bytes 2 0x800 ++ area_bytes a ++ wide s ++ [0; 0]%N.
Definition good_tip (a : area) (s : str) : Prop := good_area a /\ good_wide s /\ size (tip_bytes a s) < 2 ^ 16.

(** ** Notes: place, flags, number and author; perhaps one byte more *)
Definition note_bytes (head : str) (author : layout) (pad : str) : str := head ++ string_bytes 2 author ++ pad.
Definition good_note (head : str) (author : layout) (pad : str) : Prop :=
  size head = 8 /\ good_layout author /\ uncut author /\ size pad <= 1 /\ size (note_bytes head author pad) < 2 ^ 16.

(** ** Drawn objects

    Parts, of which the first gives the kind, number and flags; then zeros or, for
    the arrow of a filter (bit 8), something else. *)
Inductive ending := Zeros (n : nat) | Arrow (rest : str).
Inductive drawing :=
| Antique (code : Z) (rest : str)
| Object (kind id flags : Z) (reserved : str) (parts : list (Z * str)) (e : ending).
Definition part_bytes (p : Z * str) : str := le_bytes 2 (fst p) ++ le_bytes 2 (size (snd p)) ++ snd p.
Definition ending_bytes (e : ending) : str :=
  match e with Zeros n => repeat 0%N n | Arrow rest => le_bytes 2 0x13 ++ rest end.
Definition drawing_bytes (d : drawing) : str :=
  match d with
  | Antique code rest => le_bytes 2 code ++ rest
  | Object kind id flags reserved parts e =>
      part_bytes (0x15, le_bytes 2 kind ++ le_bytes 2 id ++ le_bytes 2 flags ++ reserved)
      ++ flat_map part_bytes parts ++ ending_bytes e
  end.
Definition good_part (p : Z * str) : Prop :=
  word16 (fst p) /\ fst p <> 0 /\ fst p <> 0x15 /\ (fst p = 0x0c -> 14 <= size (snd p)).
Definition good_drawing (d : drawing) : Prop :=
  size (drawing_bytes d) < 2 ^ 16 /\
  match d with
  | Antique code rest => word16 code /\ code <> 0x15 /\ 2 <= size rest
  | Object kind id flags reserved parts e =>
      word16 flags /\ size reserved = 12 /\ Forall good_part parts /\
      match e with Zeros n => n = 0%nat \/ (4 <= n)%nat | Arrow rest => bit flags 8 = true /\ 2 <= size rest end
  end.

(** ** Text boxes

    The number of units of the text and of the bytes of the runs; then, in other
    records, the text in pieces and the runs of eight bytes. *)
Record textbox := mktextbox { tb_head : str; tb_pieces : list stretch; tb_rest : str; tb_runs : list (list str) }.
Definition piece_bytes (s : stretch) : str := (if fst s then 1%N else 0%N) :: stretch_bytes s.
Definition tb_units (t : textbox) : Z := fold_right Z.add 0 (map units (tb_pieces t)).
Definition tb_run_bytes (t : textbox) : Z := 8 * Z.of_nat (length (concat (tb_runs t))).
Definition textbox_bytes (t : textbox) : str :=
  tb_head t ++ le_bytes 2 (tb_units t) ++ le_bytes 2 (tb_run_bytes t) ++ tb_rest t.
Definition textbox_pieces (t : textbox) : list str := map piece_bytes (tb_pieces t) ++ map (@concat N) (tb_runs t).
Definition good_textbox (t : textbox) : Prop :=
  size (tb_head t) = 10 /\ 2 <= size (tb_rest t) /\ size (textbox_bytes t) < 2 ^ 16 /\
  tb_units t < 2 ^ 16 /\ tb_run_bytes t < 2 ^ 16 /\
  Forall (fun s => good_stretch s /\ 0 < units s) (tb_pieces t) /\
  Forall (fun l => l <> [] /\ Forall (fun r => size r = 8) l) (tb_runs t) /\
  Forall (fun d => size d < 2 ^ 16) (textbox_pieces t).
