(** * Specification of DBF files

    Which byte strings encode a table, written from the format description
    (http://www.clicketyclick.dk/databases/xbase/format/dbf.html) and not from
    the reader. *)

From Verif Require Import PyBase PyFloat NumPy Dbf SpecPack.

(** The value of a table cell. *)
Inductive cell :=
| CBlank
| CInt (z : Z)
| CDec (neg : bool) (ip fp : str)      (* digits before and after the point *)
| CDate (y m d : Z)
| CLogical (b : option bool)
| CText (s : str).

(** Padding characters. *)
Definition space_like (c : N) : Prop := (9 <= c <= 13)%N \/ c = 32%N.
Definition pad_like (c : N) : Prop := c = 0%N \/ space_like c.

(** [w] decimal digits of a number, most significant first. *)
Fixpoint fixed_digits (w : nat) (z : Z) : str :=
  match w with
  | O => []
  | S w' => fixed_digits w' (z / 10) ++ [Z.to_N (48 + z mod 10)]
  end.

(** Decimal text of an integer: an optional minus sign and digits. *)
Definition int_text (z : Z) (t : str) : Prop :=
  exists ds, ds <> [] /\ all_digits ds /\
  ((t = ds /\ z = dec_value ds) \/ (t = 45%N :: ds /\ z = (- dec_value ds)%Z)).

(** Decimal text with a point. *)
Definition dec_text (neg : bool) (ip fp : str) : str :=
  (if neg then [45%N] else []) ++ ip ++ 46%N :: fp.

(** A day of the Gregorian calendar within the years of datetime.date. *)
Inductive month_days (y : Z) : Z -> Z -> Prop :=
| m31 : forall m, In m [1; 3; 5; 7; 8; 10; 12]%Z -> month_days y m 31
| m30 : forall m, In m [4; 6; 9; 11]%Z -> month_days y m 30
| m29 : (exists k, y = 4 * k)%Z -> ((exists k, y = 400 * k) \/ ~ exists k, y = 100 * k)%Z ->
    month_days y 2 29
| m28 : ~ (exists k, y = 4 * k)%Z \/ ((exists k, y = 100 * k) /\ ~ exists k, y = 400 * k)%Z ->
    month_days y 2 28.
Definition calendar_day (y m d : Z) : Prop :=
  (1 <= y <= 9999)%Z /\ exists n, month_days y m n /\ (1 <= d <= n)%Z.

(** The bytes [b] of a field of type [typ] with [deci] decimals hold cell [c]. *)
Inductive holds : N -> N -> cell -> str -> Prop :=
| holds_N_blank : forall deci b, Forall pad_like b -> holds 78 deci CBlank b
| holds_N_int : forall z t l r, Forall pad_like l -> Forall pad_like r -> int_text z t ->
    holds 78 0 (CInt z) (l ++ t ++ r)
| holds_N_dec : forall deci neg ip fp l r, deci <> 0%N -> Forall pad_like l -> Forall pad_like r ->
    all_digits ip -> all_digits fp -> ip ++ fp <> [] ->
    holds 78 deci (CDec neg ip fp) (l ++ dec_text neg ip fp ++ r)
| holds_F_blank : forall deci b, Forall space_like b -> holds 70 deci CBlank b
| holds_F : forall deci neg ip fp l r, Forall space_like l -> Forall space_like r ->
    all_digits ip -> all_digits fp -> ip ++ fp <> [] ->
    holds 70 deci (CDec neg ip fp) (l ++ dec_text neg ip fp ++ r)
| holds_D_blank : forall deci b, Forall space_like b -> holds 68 deci CBlank b
| holds_D : forall deci y m d, calendar_day y m d ->
    holds 68 deci (CDate y m d) (fixed_digits 4 y ++ fixed_digits 2 m ++ fixed_digits 2 d)
| holds_L_true : forall deci c, In c (lit "YyTt") -> holds 76 deci (CLogical (Some true)) [c]
| holds_L_false : forall deci c, In c (lit "NnFf") -> holds 76 deci (CLogical (Some false)) [c]
| holds_L_unknown : forall deci c, ~ In c (lit "YyTtNnFf") -> holds 76 deci (CLogical None) [c]
| holds_text : forall typ deci s, ~ In typ [78; 70; 68; 76]%N -> Forall (fun c => (c < 128)%N) s ->
    holds typ deci (CText s) s.

(** The Python value of a cell. A decimal is float(text): the double nearest
    to the decimal (see dec_round). *)
Definition cell_val (typ : N) (c : cell) : val :=
  match c with
  | CBlank => if N.eqb typ 68 then VNone else VFloat fnan
  | CInt z => VInt z
  | CDec neg ip fp => VFloat (dec_round neg (dec_value (ip ++ fp)) (- Z.of_nat (length fp)))
  | CDate y m d => VDate y m d
  | CLogical (Some true) => VStr (lit "T")
  | CLogical (Some false) => VStr (lit "F")
  | CLogical None => VStr (lit "?")
  | CText s => VStr s
  end.

(** Little-endian bytes. *)
Fixpoint le_bytes (n : nat) (z : Z) : str :=
  match n with
  | O => []
  | S n' => Z.to_N (z mod 256) :: le_bytes n' (z / 256)
  end.

(** A field descriptor of 32 bytes; [fd_size] is the field length byte. *)
Definition good_field (fd : field) : Prop :=
  length (fd_name fd) <= 11 /\ Forall (fun c => (0 < c < 128)%N) (fd_name fd).

Inductive encodes_fields : list field -> str -> Prop :=
| ef_nil : encodes_fields [] []
| ef_cons : forall fd fds fill4 fill14 b,
    good_field fd -> length fill4 = 4 -> length fill14 = 14 ->
    encodes_fields fds b ->
    encodes_fields (fd :: fds)
      (fd_name fd ++ repeat 0%N (11 - length (fd_name fd)) ++ [fd_typ fd] ++ fill4 ++
       [N.of_nat (fd_size fd); fd_deci fd] ++ fill14 ++ b).

(** The bytes of one record without its flag. *)
Inductive encodes_row : list field -> list cell -> str -> Prop :=
| er_nil : encodes_row [] [] []
| er_cons : forall fd fds c cs b bs,
    holds (fd_typ fd) (fd_deci fd) c b -> length b = fd_size fd ->
    encodes_row fds cs bs -> encodes_row (fd :: fds) (c :: cs) (b ++ bs).

(** Length of a record: the flag and the fields. *)
Definition record_length (fds : list field) : nat := 1 + list_sum (map fd_size fds).

(** The record section: [Some cells] is a record, [None] a deleted one (its
    flag is anything but a space, its contents are arbitrary). *)
Inductive encodes_records (fds : list field) : list (option (list cell)) -> str -> Prop :=
| ec_nil : encodes_records fds [] []
| ec_live : forall cs b recs bs, encodes_row fds cs b -> encodes_records fds recs bs ->
    encodes_records fds (Some cs :: recs) (32%N :: b ++ bs)
| ec_deleted : forall c b recs bs, c <> 32%N -> length b = list_sum (map fd_size fds) ->
    encodes_records fds recs bs ->
    encodes_records fds (None :: recs) (c :: b ++ bs).

(** The header up to and including the terminator. *)
Definition encodes_header (fds : list field) (numrec : nat) (h : str) : Prop :=
  exists pre fill fb,
    length pre = 4 /\ length fill = 22 /\ encodes_fields fds fb /\
    (Z.of_nat numrec < 2 ^ 32)%Z /\ (33 + 32 * Z.of_nat (length fds) < 2 ^ 16)%Z /\
    h = pre ++ le_bytes 4 (Z.of_nat numrec) ++
        le_bytes 2 (33 + 32 * Z.of_nat (length fds)) ++ fill ++ fb ++ [13%N].

(** A whole file: header, records, and whatever comes after them. *)
Definition encodes (fds : list field) (recs : list (option (list cell))) (b : str) : Prop :=
  exists h rb tail, encodes_header fds (length recs) h /\ encodes_records fds recs rb /\
  b = h ++ rb ++ tail.

(** The records which are not deleted. *)
Fixpoint live {A} (recs : list (option A)) : list A :=
  match recs with
  | [] => []
  | Some r :: recs' => r :: live recs'
  | None :: recs' => live recs'
  end.

(** The row of Python values of a record. *)
Definition row_vals (fds : list field) (cs : list cell) : list val :=
  map (fun fc => cell_val (fd_typ (fst fc)) (snd fc)) (combine fds cs).

(** Byte [i] of a file is a space: the flag of a record which is not deleted. *)
Definition space_at (b : str) (i : nat) : bool := N.eqb (nth i b 0%N) 32.

(** Little-endian number of the four bytes at [p]. *)
Definition u32_at (b : str) (p : nat) : Z :=
  let x i := Z.of_N (nth (p + i) b 0%N) in
  (x 0%nat + 256 * x 1%nat + 65536 * x 2%nat + 16777216 * x 3%nat)%Z.
