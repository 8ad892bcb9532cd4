(** * How a workbook of BIFF 4W is written

    A workbook of Excel 4: its globals have the names of the sheets, and then each
    sheet after a header with its length and its name. A sheet has its own formats
    and XFs, as a sheet of BIFF4 (SpecEarly.v), but what is said of the date mode,
    the code page and the user holds from there on, also in later sheets. *)

From Coq Require Import ZArith.
From Verif Require Import PyBase NumPy SpecDbf ReadXl SpecXl XlSheet SpecXlSheet SpecBiff SpecOld SpecEarly.
Open Scope Z_scope.

Record sheet4 := mksheet4 { x_head : str; x_more : str; x_entries : list entry }.
Definition sheet4_bytes (s : sheet4) : str :=
  record 0x409 (x_head s ++ le_bytes 2 0x10 ++ x_more s) ++ flat_map entry_bytes (x_entries s) ++ eof.

Inductive part :=
| Said (g : SpecOld.global)                        (* as in BIFF 5 *)
| Start (z : Z)                                    (* where the first sheet is *)
| Bound (raw name extra : str)                     (* there is a sheet of this name *)
| Sheet (raw extra : str) (s : sheet4) (gap : str) (* the next of the sheets *)
| Other (code : Z) (data : str).
Definition part_bytes (p : part) : str :=
  match p with
  | Said g => global_bytes g
  | Start z => record 0x8e (le_bytes 4 z)
  | Bound raw _ extra => record 0x85 (coded_text 1 raw ++ extra)
  | Sheet raw extra s gap =>
      record 0x8f (le_bytes 4 (size (sheet4_bytes s ++ gap)) ++ coded_text 1 raw ++ extra) ++ sheet4_bytes s ++ gap
  | Other code data => record code data
  end.

Definition names (l : list part) : list str := flat_map (fun p => match p with Bound _ name _ => [name] | _ => [] end) l.
Definition sheets (l : list part) : list sheet4 := flat_map (fun p => match p with Sheet _ _ s _ => [s] | _ => [] end) l.
Definition lasts (g : SpecOld.global) : list SpecOld.global :=
  match g with SpecOld.Datemode _ _ | SpecOld.Codepage _ _ | SpecOld.User _ _ => [g] | _ => [] end.
(** What holds from there on, in the order it is said. *)
Definition said (l : list part) : list SpecOld.global :=
  flat_map (fun p => match p with Said g => lasts g | Sheet _ _ s _ => infos (x_entries s) | _ => [] end) l.

(** Also FILEPASS, SUPBOOK, SST, XF of BIFF5, EOF and CONTINUE mean something.
    Names do not. *)
Definition codes4 : list Z := [0xfc; 0x41e; 0xe0; 0x85; 0x22; 0x42; 0x8c; 0x17; 0x2f; 0x5c; 0x8e; 0x8f; 0x1ae; 0xa; 0x3c].
(** A sheet after what is said before, and before what is said later. *)
Definition good_sheet4 (dec : option Z -> str -> res str) (country : Z * Z) (before after : list SpecOld.global) (s : sheet4) : Prop :=
  length (x_head s) = 2%nat /\ size (x_more s) <= 16 /\
  (forall b e a, x_entries s = b ++ e :: a ->
     good_entry dec country 45 (map Info before ++ x_entries s ++ map Info after) (map Info before ++ b) e) /\
  (exists a b, x_entries s = a ++ b /\ Forall (fun e => is_cells e = false) a /\ Forall (fun e => is_dims e = false) b) /\
  anchored None (pieces (x_entries s)).
Definition good_part (dec : option Z -> str -> res str) (country : Z * Z) (before : list part) (p : part) (after : list part) : Prop :=
  match p with
  | Said g =>
      match g with
      | SpecOld.Format _ _ _ _ | SpecOld.Datemode _ _ | SpecOld.Codepage _ _ | SpecOld.Nation _ _ _ | SpecOld.User _ _
      | SpecOld.Reference _ _ _ => True
      | _ => False
      end /\
      good_global dec country (said (before ++ p :: after)) (said before) g
  | Start z => - 2 ^ 31 <= z < 2 ^ 31
  | Bound raw name extra =>
      dec (page_of (said before)) raw = Ok name /\ size raw < 256 /\ short (repeat 0%N 1 ++ raw ++ extra) /\
      (names before = [] -> exists z, In (Start z) before)
  | Sheet raw extra s gap =>
      (exists name, nth_error (names before) (length (sheets before)) = Some name /\ dec (page_of (said before)) raw = Ok name) /\
      size raw < 256 /\ short (repeat 0%N 5 ++ raw ++ extra) /\ size (sheet4_bytes s ++ gap) < 2 ^ 31 /\
      good_sheet4 dec country (said before) (said after) s
  | Other code data => word16 code /\ short data /\ ~ In code codes4
  end.

Record book4 := mkbook4 { q_head : str; q_more : str; q_parts : list part }.
Definition book4_bytes (W : book4) : str :=
  record 0x409 (q_head W ++ le_bytes 2 0x100 ++ q_more W) ++ flat_map part_bytes (q_parts W) ++ eof.
Definition good_book4 (dec : option Z -> str -> res str) (country : Z * Z) (W : book4) : Prop :=
  length (q_head W) = 2%nat /\ size (q_more W) <= 16 /\
  (forall before p after, q_parts W = before ++ p :: after -> good_part dec country before p after).

(** The date mode is the one said last, for all sheets. *)
Definition mode4 (W : book4) : Z :=
  fold_left (fun m g => match g with SpecOld.Datemode n _ => n | _ => m end) (said (q_parts W)) 0.
(** The cells of a sheet; [date] tells its formats, by number, that are dates. *)
Definition cells4 (s : sheet4) (date : Z -> bool) : list put := cells_after 45 date [] (x_entries s).

(** A sheet by position, or the first by its name. *)
Inductive picks4 (W : book4) : pyobj -> sheet4 -> Prop :=
| pick4_index : forall i s, nth_error (sheets (q_parts W)) i = Some s -> picks4 W (OInt (Z.of_nat i)) s
| pick4_name : forall before name after s,
    names (q_parts W) = before ++ name :: after -> ~ In name before ->
    nth_error (sheets (q_parts W)) (length before) = Some s -> picks4 W (OStr name) s.
