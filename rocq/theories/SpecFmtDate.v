(** * Format strings in pieces

    Quoted text, escaped characters, bracketed sections and plain characters. *)

From Verif Require Import PyBase.
Open Scope N_scope.

Definition quote : N := 34.
Definition opening : N := 91.
Definition closing : N := 93.
(** Backslash, underscore and asterisk escape the next character. *)
Definition escape (e : N) : Prop := e = 92 \/ e = 95 \/ e = 42.
Definition ordinary (c : N) : Prop := c <> quote /\ ~ escape c.

(** Pieces that may also stand in a bracketed section. *)
Inductive atom :=
| Quoted (text : str)
| Escaped (e c : N)
| Char (c : N).
Inductive piece :=
| Atom (a : atom)
| Bracketed (inner : list atom).
(** How a format may end. *)
Inductive ending :=
| Closed
| OpenQuote (text : str)
| LoneEscape (e : N).

Definition good_atom (a : atom) : Prop :=
  match a with
  | Quoted t => ~ In quote t
  | Escaped e _ => escape e
  | Char c => ordinary c
  end.
Definition good_piece (p : piece) : Prop :=
  match p with
  | Atom a => good_atom a
  | Bracketed l => Forall good_atom l /\ ~ In (Char closing) l
  end.
Definition good_ending (e : ending) : Prop :=
  match e with
  | Closed => True
  | OpenQuote t => ~ In quote t
  | LoneEscape e => escape e
  end.
(** An opening bracket on its own has no closing bracket after it. *)
Definition good_format (l : list piece) : Prop :=
  Forall good_piece l /\
  forall a b, l = a ++ Atom (Char opening) :: b ->
    ~ In (Atom (Char closing)) b /\ forall i, ~ In (Bracketed i) b.

Definition atom_text (a : atom) : str :=
  match a with
  | Quoted t => quote :: t ++ [quote]
  | Escaped e c => [e; c]
  | Char c => [c]
  end.
Definition piece_text (p : piece) : str :=
  match p with
  | Atom a => atom_text a
  | Bracketed l => opening :: flat_map atom_text l ++ [closing]
  end.
Definition ending_text (e : ending) : str :=
  match e with
  | Closed => []
  | OpenQuote t => quote :: t
  | LoneEscape e => [e]
  end.
Definition format_text (l : list piece) (e : ending) : str := flat_map piece_text l ++ ending_text e.

(** The plain characters, outside quotes, escapes and brackets. *)
Definition plain (l : list piece) : str :=
  flat_map (fun p => match p with Atom (Char c) => [c] | _ => [] end) l.

Definition date_char (c : N) : Prop :=
  In c [121; 109; 100; 104; 115; 89; 77; 68; 72; 83].   (* y m d h s Y M D H S *)
Definition num_char (c : N) : Prop := In c [48; 35; 63].  (* 0 # ? *)

(** [counts P s n]: n characters of s are P. *)
Inductive counts (P : N -> Prop) : str -> nat -> Prop :=
| counts_nil : counts P [] 0
| counts_yes : forall c s n, P c -> counts P s n -> counts P (c :: s) (S n)
| counts_no : forall c s n, ~ P c -> counts P s n -> counts P (c :: s) n.
