(** * What a dump shows, and how to read it

    The dump of biffh.py l.521-596, said without the code, and a reader of it. *)

From Coq Require Import ZArith.
From Verif Require Import PyBase PyText PyFloat SpecRepr SpecCount.
Open Scope Z_scope.

(** A hexadecimal digit, with small letters. *)
Definition hexa (c : N) (v : Z) : Prop :=
  (48 <= c <= 57)%N /\ v = Z.of_N c - 48 \/ (97 <= c <= 102)%N /\ v = Z.of_N c - 87.
(** A byte: two digits and a blank. *)
Definition hex_byte (b : N) (t : str) : Prop :=
  exists c1 c2 v1 v2, hexa c1 v1 /\ hexa c2 v2 /\ Z.of_N b = 16 * v1 + v2 /\ t = [c1; c2; 32%N].
(** Two bytes: four digits. *)
Definition hex_word (z : Z) (t : str) : Prop :=
  exists c1 c2 c3 c4 v1 v2 v3 v4, hexa c1 v1 /\ hexa c2 v2 /\ hexa c3 v3 /\ hexa c4 v4 /\
    z = 4096 * v1 + 256 * v2 + 16 * v3 + v4 /\ t = [c1; c2; c3; c4].
(** The character for a byte: ~ for zero, ? for others that are not printable ASCII. *)
Definition shown (b c : N) : Prop :=
  b = 0%N /\ c = 126%N \/ b <> 0%N /\ ((32 <= b <= 126)%N /\ c = b \/ ~ (32 <= b <= 126)%N /\ c = 63%N).
(** The number of a place in five places, if it is to be shown. *)
Definition place (numbered : bool) (o : Z) (t : str) : Prop :=
  if numbered then exists d, decimal o d /\ t = repeat 32%N (5 - length d) ++ d ++ [58; 32]%N else t = [].
(** The name of a code. *)
Definition code_name (rc : Z) (name : str) : Prop :=
  In (rc, name) code_names \/ (forall n, ~ In (rc, n) code_names) /\ name = lit "<UNKNOWN>".

(** Bytes from the place [o] on, sixteen to a line. *)
Inductive hex_lines (numbered : bool) : Z -> str -> str -> Prop :=
| hl_none : forall o, hex_lines numbered o [] []
| hl_line : forall o p chunk more hx ch t, chunk <> [] -> (length chunk <= 16)%nat -> (more = [] \/ length chunk = 16%nat) ->
    place numbered o p -> Forall2 hex_byte chunk hx -> Forall2 shown chunk ch -> hex_lines numbered (o + 16) more t ->
    hex_lines numbered o (chunk ++ more)
      (p ++ lit "     " ++ concat hx ++ repeat 32%N (48 - 3 * length chunk) ++ lit " " ++ ch ++ 10%N :: t).

(** The line of a record. *)
Definition record_line (numbered : bool) (o rc len : Z) (t : str) : Prop :=
  exists p h1 name h2 d, place numbered o p /\ hex_word rc h1 /\ code_name rc name /\ hex_word len h2 /\ decimal len d /\
    t = p ++ h1 ++ lit " " ++ name ++ lit " len = " ++ h2 ++ lit " (" ++ d ++ lit ")" ++ [10%N].
(** The line of zeros. *)
Definition skipped_line (numbered : bool) (o n : Z) (t : str) : Prop :=
  exists p d, place numbered o p /\ decimal n d /\ t = p ++ lit "---- " ++ d ++ lit " zero bytes skipped ----" ++ [10%N].

(** The dump of the bytes of a stream from the place [o] on, after which the memory has [rest]. *)
Inductive dump_text (numbered : bool) (rest : str) : Z -> str -> str -> Prop :=
| dt_end : forall o, dump_text numbered rest o [] []
| dt_misc : forall o s p t, s <> [] -> (length s < 4)%nat -> place numbered o p -> hex_lines numbered o s t ->
    dump_text numbered rest o s (p ++ lit "---- Misc bytes at end ----" ++ 10%N :: t)
| dt_zeros_end : forall o s l, (4 <= length s)%nat -> Forall (fun x => x = 0%N) s -> rest = [] ->
    skipped_line numbered o (Z.of_nat (length s)) l -> dump_text numbered rest o s l
| dt_zeros : forall o k s l t, (0 < k)%nat -> firstn 4 s <> [0; 0; 0; 0]%N -> ~ (Forall (fun x => x = 0%N) s /\ rest = []) ->
    skipped_line numbered o (4 * Z.of_nat k) l -> dump_text numbered rest (o + 4 * Z.of_nat k) s t ->
    dump_text numbered rest o (repeat 0%N (4 * k) ++ s) (l ++ t)
| dt_record : forall o a b c d data s l h t, [a; b; c; d] <> [0; 0; 0; 0]%N ->
    Z.of_nat (length data) = Z.of_N c + 256 * Z.of_N d ->
    record_line numbered o (Z.of_N a + 256 * Z.of_N b) (Z.of_N c + 256 * Z.of_N d) l ->
    hex_lines numbered (o + 4) data h -> dump_text numbered rest (o + 4 + Z.of_nat (length data)) s t ->
    dump_text numbered rest o (a :: b :: c :: d :: data ++ s) (l ++ h ++ t)
| dt_cut : forall o a b c d data l h n, [a; b; c; d] <> [0; 0; 0; 0]%N ->
    Z.of_nat (length data) < Z.of_N c + 256 * Z.of_N d ->
    record_line numbered o (Z.of_N a + 256 * Z.of_N b) (Z.of_N c + 256 * Z.of_N d) l ->
    hex_lines numbered (o + 4) (firstn (Z.to_nat (Z.of_N c + 256 * Z.of_N d)) (data ++ rest)) h ->
    decimal (Z.of_N c + 256 * Z.of_N d) n ->
    dump_text numbered rest o (a :: b :: c :: d :: data)
      (l ++ h ++ lit "Last dumped record has length (" ++ n ++ lit ") that is too large" ++ [10%N]).

(** ** A reader: the bytes shown by a dump *)

(** The lines of a text in which every line has its end. *)
Fixpoint lines_of (cur t : str) : list str :=
  match t with
  | [] => []
  | c :: t' => if N.eqb c 10 then rev cur :: lines_of [] t' else lines_of (c :: cur) t'
  end.
(** What follows the first colon and a blank. *)
Fixpoint after_colon (t : str) : str :=
  match t with [] => [] | c :: t' => if N.eqb c 58 then tl t' else after_colon t' end.
(** What follows the first blank. *)
Fixpoint after_blank (t : str) : str :=
  match t with [] => [] | c :: t' => if N.eqb c 32 then t' else after_blank t' end.
(** The value of a digit of either kind. *)
Definition digit (c : N) : N := if (c <? 97)%N then (c - 48)%N else (c - 87)%N.
(** Pairs of digits, up to a blank in place of a pair. *)
Fixpoint pairs_of (n : nat) (t : str) : str :=
  match n, t with
  | S n', c1 :: c2 :: _ :: t' => if N.eqb c1 32 then [] else (16 * digit c1 + digit c2)%N :: pairs_of n' t'
  | _, _ => []
  end.
(** A number in digits, up to something else. *)
Fixpoint number_of (acc : N) (t : str) : N :=
  match t with [] => acc | c :: t' => if (48 <=? c)%N && (c <=? 57)%N then number_of (10 * acc + (c - 48))%N t' else acc end.
(** Two bytes of four digits, the less significant one first. *)
Definition word_of (t : str) : str :=
  match t with
  | c1 :: c2 :: c3 :: c4 :: _ => [16 * digit c3 + digit c4; 16 * digit c1 + digit c2]%N
  | _ => []
  end.
(** The bytes shown in a line: none by the lines of the rest and of the last record, zeros by the
    line that counts them, code and length by that of a record. *)
Definition line_bytes (numbered : bool) (t : str) : str :=
  if N.eqb (hd 0%N t) 76 then []
  else
    let t := if numbered then after_colon t else t in
    if N.eqb (hd 0%N t) 32 then pairs_of 16 (skipn 5 t)
    else if N.eqb (hd 0%N t) 45 then if N.eqb (nth 5 t 0%N) 77 then [] else repeat 0%N (N.to_nat (number_of 0 (skipn 5 t)))
    else word_of t ++ word_of (skipn 6 (after_blank (after_blank t))).
(** All of it. *)
Definition read_dump (numbered : bool) (t : str) : str := flat_map (line_bytes numbered) (lines_of [] t).
