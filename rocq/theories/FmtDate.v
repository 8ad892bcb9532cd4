(** * xlrd/formatting.py: date formats

    is_date_format_string and what it is built from. Warnings and debug output
    are left out. *)

From Verif Require Import PyBase.
Open Scope N_scope.

(** c in text, for one character c (formatting.py l.479, 481). *)
Definition has (s : str) (c : N) : bool := existsb (N.eqb c) s.

(** date_char_dict, skip_char_dict and num_char_dict, formatting.py l.430-444;
    the values of the first and the last are all 5. *)
Definition date_chars : str := lit "ymdhsYMDHS".
(** skip_char_dict, formatting.py l.436-438. *)
Definition skip_chars : str := lit "$-+/(): ".
(** num_char_dict, formatting.py l.440-444. *)
Definition num_chars : str := lit "0#?".

(** non_date_formats, formatting.py l.446-453. *)
Definition non_date_formats : list str :=
  [lit "0.00E+00"; lit "##0.0E+0"; lit "General"; lit "GENERAL"; lit "general"; lit "@"].

(** The first loop, formatting.py l.472-491: state 0 is plain text, 1 quoted
    text, 2 the character after a backslash, underscore or asterisk. *)
Fixpoint reduce (state : nat) (fmt : str) : str :=
  match fmt with
  | [] => []
  | c :: fmt' =>
      match state with
      | O => if c =? 34 then reduce 1 fmt'
             else if has (lit "\_*") c then reduce 2 fmt'
             else if has skip_chars c then reduce 0 fmt'
             else c :: reduce 0 fmt'
      | S O => if c =? 34 then reduce 0 fmt' else reduce 1 fmt'
      | _ => reduce 0 fmt'
      end
  end.

(** What is after the first closing bracket (formatting.py l.455). *)
Fixpoint after_bracket (s : str) : option str :=
  match s with
  | [] => None
  | c :: s' => if c =? 93 then Some s' else after_bracket s'
  end.

(** fmt_bracketed_sub('', s), formatting.py l.455, 494: the matches of
    \[[^]]*\] from left to right are removed. *)
Fixpoint unbracket (fuel : nat) (s : str) : str :=
  match fuel, s with
  | S f, c :: s' =>
      if c =? 91 then match after_bracket s' with
                      | Some s'' => unbracket f s''
                      | None => c :: unbracket f s'
                      end
      else c :: unbracket f s'
  | _, _ => []
  end.

(** How often characters of a set occur (formatting.py l.501-505). *)
Definition count (set s : str) : nat := length (filter (has set) s).

(** is_date_format_string, formatting.py l.462-523. *)
Definition is_date_format_string (fmt : str) : bool :=
  let s := reduce 0 fmt in
  let s := unbracket (length s) s in
  if existsb (str_eqb s) non_date_formats then false
  else
    let date_count := (5 * count date_chars s)%nat in
    let num_count := (5 * count num_chars s)%nat in
    if negb (Nat.eqb date_count 0) && Nat.eqb num_count 0 then true
    else if negb (Nat.eqb num_count 0) && Nat.eqb date_count 0 then false
    else Nat.ltb num_count date_count.
