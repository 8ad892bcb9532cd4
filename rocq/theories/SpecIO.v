(** * Specification: what reading does to a file (C73)

    Said with the io object before and after ([handle], [world] of FileIO.v)
    and with what the content of the file calls for ([wanted]). *)

From Verif Require Import PyBase FileIO.
Open Scope nat_scope.

(** The result [r] of a function that has made [n] calls on files, which may raise
    as [fl] says: if one of the calls raised, it was the last one and its
    exception is what the function raises; if none did, the result is the one
    [wanted]. *)
Definition came_out {A} (fl : faults) (n : nat) (r wanted : res A) : Prop :=
  (exists k e, n = S k /\ fl k = Some e /\ (forall j, j < k -> fl j = None) /\ r = Err e) \/
  ((forall j, j < n -> fl j = None) /\ r = wanted).

Definition as_told {A} (fl : faults) (w : world) (r wanted : res A) : Prop :=
  came_out fl (w_ops w) r wanted.

(** The same io object, apart from its position and whether it is open. *)
Definition same_object (h : handle) (w : world) : Prop :=
  h_bytes (w_file w) = h_bytes h /\ h_text (w_file w) = h_text h /\ h_name (w_file w) = h_name h.

(** Nothing is left to read. *)
Definition read_up (w : world) : Prop := length (h_text (w_file w)) <= h_pos (w_file w).

(** The first three calls, those of contextopen itself, do not raise. *)
Definition first_calls_work (fl : faults) : Prop := fl 0 = None /\ fl 1 = None /\ fl 2 = None.
