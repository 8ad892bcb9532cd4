(** * Date formats (C53): the property theorems *)

From Coq Require Import ZifyBool ZifyNat ZifyN QArith.
From Verif Require Import PyBase PyBaseFacts FmtDate SpecFmtDate FmtDateThms.
Open Scope nat_scope.
Open Scope N_scope.

(** Every format string is made of pieces: quoted text, escaped characters,
bracketed sections and plain characters, and one of the endings. *)
Theorem C53_pieces :
  forall fmt, exists l e, good_format l /\ good_ending e /\ fmt = format_text l e.
Proof. exact C53_pieces_proof. Qed.
Print Assumptions C53_pieces.

(** A format is a date format exactly when more date characters than number
characters stand outside quotes, escapes and brackets. *)
Theorem C53_verdict :
  forall l e d n, good_format l -> good_ending e -> counts date_char (plain l) d -> counts num_char (plain l) n ->
  is_date_format_string (format_text l e) = true <-> (n < d)%nat.
Proof. exact C53_verdict_proof. Qed.
Print Assumptions C53_verdict.

(** yyyy\-mm [h] "0 #" is a date: the 0 and the # are quoted, the h in brackets. *)
Example C53_verdict_ex :
  let y := Atom (Char 121) in
  let l := [y; y; Atom (Escaped 92 45); Atom (Char 109); Bracketed [Char 104]; Atom (Quoted [48; 35])] in
  format_text l (LoneEscape 95) = lit "yy\-m[h]""0#""_" /\ good_format l /\
  counts date_char (plain l) 3 /\ counts num_char (plain l) 0 /\
  is_date_format_string (format_text l (LoneEscape 95)) = true.
Proof.
  split; [reflexivity|]. split; [split|split; [|split; [|reflexivity]]].
  - repeat constructor; cbn; unfold ordinary, escape, quote; try lia; try tauto; intros [H|[]]; discriminate H.
  - intros a b E. exfalso. repeat (destruct a as [|? a]; [discriminate E|injection E as _ E]). destruct a; discriminate E.
  - repeat (apply counts_yes; [cbn; tauto|]). constructor.
  - repeat (apply counts_no; [cbn; intuition discriminate|]). constructor.
Qed.
Example C53_general_ex : is_date_format_string (lit "General"".""") = false /\ is_date_format_string (lit "[$-F800]dddd\,\ mmmm") = true /\
  is_date_format_string (lit "0.00E+00") = false /\ is_date_format_string (lit "mm:ss.0") = true.
Proof. repeat split; vm_compute; reflexivity. Qed.

(** Quoted text, escaped characters, bracketed sections and the ending never change
the verdict. *)
Theorem C53_independent :
  forall l e l' e', good_format l -> good_ending e -> good_format l' -> good_ending e' -> plain l = plain l' ->
  is_date_format_string (format_text l e) = is_date_format_string (format_text l' e').
Proof. exact C53_independent_proof. Qed.
Print Assumptions C53_independent.

(** A format without date characters outside quotes, escapes and brackets is not a
date format; one with date and no number characters there is one. *)
Theorem C53_not_date :
  forall l e, good_format l -> good_ending e ->
  (Forall (fun c => ~ date_char c) (plain l) -> is_date_format_string (format_text l e) = false) /\
  (Forall (fun c => ~ num_char c) (plain l) -> Exists date_char (plain l) -> is_date_format_string (format_text l e) = true).
Proof. exact C53_not_date_proof. Qed.
Print Assumptions C53_not_date.

