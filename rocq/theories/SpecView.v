(** * How a sheet is shown: specification *)

From Coq Require Import ZArith.
From Verif Require Import PyBase PyText PyFloat NumPy ReadXl XlStruct XlSheet Biff CellAddr.
Open Scope Z_scope.

(** The codes and bytes of the records that are read for a sheet, up to its
    end. *)
Inductive reads (su : setup) (mem : str) (strings : list str) : Z -> reading -> list (Z * str) -> Prop :=
| reads_end : forall pos st len data next, get_record mem pos = Ok (10, len, data, next) -> reads su mem strings pos st []
| reads_more : forall pos st rc len data next st' next' l, get_record mem pos = Ok (rc, len, data, next) -> rc <> 10 ->
    sheet_record su mem strings rc len data next st = Ok (st', next') -> reads su mem strings next' st' l ->
    reads su mem strings pos st ((rc, data) :: l).

(** The last record of a kind; SCL is 160, WINDOW2 574, and the latter has the
    cached factors if it is long enough. *)
Definition last_of (p : Z * str -> Prop) (l : list (Z * str)) (data : str) : Prop :=
  exists before rc after, l = before ++ (rc, data) :: after /\ p (rc, data) /\ Forall (fun r => ~ p r) after.
(** An SCL record, a WINDOW2 record, one with cached factors. *)
Definition is_scl (r : Z * str) : Prop := fst r = 160.
Definition is_window (r : Z * str) : Prop := fst r = 574.
Definition is_long (r : Z * str) : Prop := fst r = 574 /\ (14 <= length (snd r))%nat.

(** Byte [k], and the word at byte [k]. *)
Definition byte (data : str) (k : nat) : Z := Z.of_N (nth k data 0%N).
Definition word (data : str) (k : nat) : Z := byte data k + 256 * byte data (k + 1).

(** What the last record of a kind tells, or the default. *)
Definition told {A} (p : Z * str -> Prop) (l : list (Z * str)) (f : str -> A -> Prop) (default x : A) : Prop :=
  (exists data, last_of p l data /\ f data x) \/ Forall (fun r => ~ p r) l /\ x = default.

(** The whole percents of a fraction, if from 10 to 400, or else 100. *)
Definition percent (num den z : Z) : Prop :=
  (10 * den <= 100 * num < 401 * den /\ z * den <= 100 * num < (z + 1) * den) \/
  ~ (10 * den <= 100 * num < 401 * den) /\ z = 100.

(** The factor of the view the sheet is shown in. *)
Definition active (l : list (Z * str)) (z : Z) : Prop := told is_scl l (fun d => percent (word d 0) (word d 2)) 100 z.

(** Option [k], whatever it is called; grid lines, headers, zeros, automatic colour
    and outline symbols are on without a record. *)
Definition option_is (l : list (Z * str)) (k : nat) (b : bool) : Prop :=
  told is_window l (fun d x => x = Z.testbit (word d 0) (Z.of_nat k)) (if in_dec Nat.eq_dec k [1; 2; 4; 5; 7]%nat then true else false) b.

(** The word at byte [k] of the cached factors. *)
Definition cached (l : list (Z * str)) (k : nat) (z : Z) : Prop := told is_long l (fun d x => x = word d k) 0 z.

(** A factor Excel takes. *)
Definition fit (z : Z) : Prop := 10 <= z <= 400.
