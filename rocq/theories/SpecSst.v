(** * How BIFF8 strings are written

    A string is a number of characters, flags, perhaps the number of formatting
    runs and the size of the phonetic data, the characters, the runs and the
    phonetic data. A table of strings may be cut into records: within the
    characters, where the new record starts with new flags, before a run, within
    the phonetic data and between strings. *)

From Coq Require Import ZArith.
From Verif Require Import PyBase SpecDbf.
Open Scope Z_scope.

(** ** Characters *)

Definition scalar (c : N) : Prop := (c < 55296)%N \/ (57344 <= c < 1114112)%N.

(** UTF-16: one unit, or two for characters beyond 65535. *)
Definition utf16 (c : N) : list Z :=
  if (c <? 65536)%N then [Z.of_N c]
  else [55296 + (Z.of_N c - 65536) / 1024; 56320 + (Z.of_N c - 65536) mod 1024].

(** A stretch of characters stored in one byte or in two bytes a unit. *)
Definition stretch := (bool * str)%type.
Definition good_stretch (s : stretch) : Prop :=
  if fst s then Forall scalar (snd s) else Forall (fun c => (c < 256)%N) (snd s).
Definition units (s : stretch) : Z :=
  if fst s then Z.of_nat (length (flat_map utf16 (snd s))) else Z.of_nat (length (snd s)).
Definition stretch_bytes (s : stretch) : str :=
  if fst s then flat_map (le_bytes 2) (flat_map utf16 (snd s)) else snd s.

(** ** Strings *)

(** A string as it is laid out: the flags of each stretch; runs, each perhaps
    after a cut; phonetic data, perhaps with a cut in it. *)
Record layout := mklayout {
  lo_flags : N;
  lo_first : stretch;
  lo_more : list (N * stretch);
  lo_runs : option (list (bool * (Z * Z)));
  lo_phonetic : option (str * option str)
}.

Definition is_some {A} (o : option A) : bool := match o with Some _ => true | None => false end.
Definition run_list (lo : layout) : list (bool * (Z * Z)) := match lo_runs lo with Some l => l | None => [] end.
Definition total_units (lo : layout) : Z :=
  units (lo_first lo) + fold_right Z.add 0 (map (fun fs => units (snd fs)) (lo_more lo)).
Definition phonetic_size (lo : layout) : Z :=
  match lo_phonetic lo with
  | Some (a, Some b) => Z.of_nat (length a) + Z.of_nat (length b)
  | Some (a, None) => Z.of_nat (length a)
  | None => 0
  end.

(** Flags: bit 0 two bytes a unit, bit 2 phonetic data, bit 3 runs. *)
Definition good_layout (lo : layout) : Prop :=
  N.testbit (lo_flags lo) 0 = fst (lo_first lo) /\
  N.testbit (lo_flags lo) 2 = is_some (lo_phonetic lo) /\
  N.testbit (lo_flags lo) 3 = is_some (lo_runs lo) /\
  good_stretch (lo_first lo) /\
  Forall (fun fs => N.testbit (fst fs) 0 = fst (snd fs) /\ good_stretch (snd fs)) (lo_more lo) /\
  (lo_more lo <> [] -> 0 < units (snd (last (lo_more lo) (0%N, (false, []))))) /\
  total_units lo < 2 ^ 16 /\
  Z.of_nat (length (run_list lo)) < 2 ^ 16 /\
  Forall (fun r => 0 <= fst (snd r) < 2 ^ 16 /\ 0 <= snd (snd r) < 2 ^ 16) (run_list lo) /\
  phonetic_size lo < 2 ^ 31 /\
  (forall a b, lo_phonetic lo = Some (a, Some b) -> b <> []).

(** The text and the runs. *)
Definition text (lo : layout) : str := snd (lo_first lo) ++ flat_map (fun fs => snd (snd fs)) (lo_more lo).
Definition runs_of (lo : layout) : list (Z * Z) := map snd (run_list lo).

(** ** Bytes and cuts *)

Inductive token := Bytes (b : str) | Cut.

Definition run_bytes (r : Z * Z) : str := le_bytes 2 (fst r) ++ le_bytes 2 (snd r).
Definition header (lo : layout) : str :=
  le_bytes 2 (total_units lo) ++ [lo_flags lo]
  ++ (if is_some (lo_runs lo) then le_bytes 2 (Z.of_nat (length (run_list lo))) else [])
  ++ (if is_some (lo_phonetic lo) then le_bytes 4 (phonetic_size lo) else []).
Definition tokens (lo : layout) : list token :=
  [Bytes (header lo); Bytes (stretch_bytes (lo_first lo))]
  ++ flat_map (fun fs : N * stretch => [Cut; Bytes (fst fs :: stretch_bytes (snd fs))]) (lo_more lo)
  ++ flat_map (fun r : bool * (Z * Z) => (if fst r then [Cut] else []) ++ [Bytes (run_bytes (snd r))]) (run_list lo)
  ++ match lo_phonetic lo with
     | Some (a, Some b) => [Bytes a; Cut; Bytes b]
     | Some (a, None) => [Bytes a]
     | None => []
     end.

(** The records: the bytes between the cuts. *)
Fixpoint records (l : list token) : list str :=
  match l with
  | [] => [[]]
  | Bytes b :: l' => match records l' with r :: rs => (b ++ r) :: rs | [] => [b] end
  | Cut :: l' => [] :: records l'
  end.

(** A table: strings, each but the last perhaps with a cut after it, though not
    when its phonetic data are cut already. *)
Definition cut_phonetic (lo : layout) : bool :=
  match lo_phonetic lo with Some (_, Some _) => true | _ => false end.
Fixpoint good_table (l : list (layout * bool)) : Prop :=
  match l with
  | [] => True
  | [(lo, cut)] => good_layout lo /\ cut = false
  | (lo, cut) :: l' => good_layout lo /\ (cut = true -> cut_phonetic lo = false) /\ good_table l'
  end.
Definition table_tokens (l : list (layout * bool)) : list token :=
  flat_map (fun lc : layout * bool => tokens (fst lc) ++ if snd lc then [Cut] else []) l.

(** What a table holds: the texts, and the runs by position. *)
Definition texts (l : list (layout * bool)) : list str := map (fun lc => text (fst lc)) l.
Fixpoint rich (k : Z) (l : list (layout * bool)) : list (Z * list (Z * Z)) :=
  match l with
  | [] => []
  | (lo, _) :: l' => (match runs_of lo with [] => [] | r => [(k, r)] end) ++ rich (k + 1) l'
  end.

(** ** A string in one piece *)

Definition uncut (lo : layout) : Prop :=
  lo_more lo = [] /\ Forall (fun r => fst r = false) (run_list lo) /\ cut_phonetic lo = false.
Definition string_bytes (n : nat) (lo : layout) : str :=
  le_bytes n (total_units lo) ++ [lo_flags lo]
  ++ (if is_some (lo_runs lo) then le_bytes 2 (Z.of_nat (length (run_list lo))) else [])
  ++ (if is_some (lo_phonetic lo) then le_bytes 4 (phonetic_size lo) else [])
  ++ stretch_bytes (lo_first lo) ++ flat_map run_bytes (runs_of lo)
  ++ match lo_phonetic lo with Some (a, _) => a | None => [] end.
