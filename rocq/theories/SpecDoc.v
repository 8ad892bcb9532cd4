(** * How a compound document is written

    A header of 512 bytes and sectors. Some sectors hold the allocation table,
    listed in the master table, which starts in the header and goes on in
    extension sectors; others hold the directory, the container of the short
    streams and their table; the rest are for the streams. *)

From Coq Require Import ZArith.
From Verif Require Import PyBase SpecDbf SpecSst CompDoc SpecCompDoc.
Open Scope Z_scope.

(** A word of four bytes, lowest first, negative numbers in two's
    complement. *)
Definition words (l : list Z) : str := flat_map (le_bytes 4) l.
Definition is_int (z : Z) : Prop := - 2 ^ 31 <= z < 2 ^ 31.

(** ** Directory entries *)

(** [stores_entry e b]: the 128 bytes b store the entry e; a name is followed
    by two zero bytes that count in its size, an unused entry may have no name
    at all. *)
Definition stores_entry (e : dirnode) (b : str) : Prop :=
  exists buf cb colour stuff fill,
    b = buf ++ le_bytes 2 cb ++ [Z.to_N (dn_etype e); colour]
        ++ words [dn_left e; dn_right e; dn_root e] ++ stuff ++ words [dn_first e; dn_size e] ++ fill /\
    length buf = 64%nat /\ length stuff = 36%nat /\ length fill = 4%nat /\
    0 <= dn_etype e < 256 /\
    Forall is_int [dn_left e; dn_right e; dn_root e; dn_first e; dn_size e] /\
    Forall scalar (dn_name e) /\
    (cb = 0 /\ dn_name e = [] \/
     exists rest, buf = flat_map (le_bytes 2) (flat_map utf16 (dn_name e)) ++ [0; 0]%N ++ rest /\
       cb = 2 * Z.of_nat (length (flat_map utf16 (dn_name e))) + 2).

(** ** Documents *)

Record document := mkdocument {
  o_id : str;                       (* class id, revision and version *)
  o_shift : Z;                      (* sectors have 2 ^ o_shift bytes *)
  o_short_shift : Z;
  o_gap : str;
  o_spare : Z * Z;                  (* two words nobody looks at *)
  o_min : Z;                        (* shorter streams are in the container *)
  o_master : list Z;                (* the master table of the header *)
  o_ext : list (Z * list Z);        (* the extension: sectors and what they list *)
  o_table : list (Z * list Z);      (* the allocation table: sectors and contents *)
  o_dir : list Z;                   (* the sectors of the directory *)
  o_entries : list dirnode;
  o_mini : list Z;                  (* the sectors of the container *)
  o_minitable : list (Z * list Z);  (* the table of the container *)
  o_sectors : list str
}.

Definition size_of (D : document) : Z := 2 ^ o_shift D.
Definition short_size (D : document) : Z := 2 ^ o_short_shift D.

(** Where a chain of sectors starts; -2 ends it. *)
Definition start (l : list Z) : Z := hd (-2) l.

Definition doc_header (D : document) : str :=
  [208; 207; 17; 224; 161; 177; 26; 225]%N ++ o_id D ++ [254; 255]%N
  ++ le_bytes 2 (o_shift D) ++ le_bytes 2 (o_short_shift D) ++ o_gap D
  ++ words [fst (o_spare D); start (o_dir D); snd (o_spare D); o_min D;
            start (map fst (o_minitable D)); Z.of_nat (length (o_minitable D));
            start (map fst (o_ext D)); Z.of_nat (length (o_ext D))]
  ++ words (o_master D).
Definition doc_file (D : document) : str := doc_header D ++ concat (o_sectors D).

(** The tables, and what the container holds. *)
Definition table (D : document) : list Z := flat_map snd (o_table D).
Definition minitable (D : document) : list Z := flat_map snd (o_minitable D).
Definition sector_of (D : document) (s : Z) : str := nth (Z.to_nat s) (o_sectors D) [].
Definition root_size (D : document) : Z := match o_entries D with [] => 0 | r :: _ => dn_size r end.
Definition container (D : document) : str :=
  firstn (Z.to_nat (root_size D)) (flat_map (sector_of D) (o_mini D)).

(** The sectors that are not for streams. *)
Definition system (D : document) : list Z :=
  map fst (o_ext D) ++ map fst (o_table D) ++ o_dir D ++ o_mini D ++ map fst (o_minitable D).

(** Sector s exists, and it is whole. *)
Definition present (D : document) (s : Z) : Prop := 0 <= s < Z.of_nat (length (o_sectors D)).
Definition full (D : document) (s : Z) : Prop := Z.of_nat (length (sector_of D s)) = size_of D.

(** Sector s holds these words. *)
Definition holds (D : document) (s : Z) (l : list Z) : Prop :=
  present D s /\ sector_of D s = words l /\ Z.of_nat (length l) = size_of D / 4 /\ Forall is_int l.

(** The sectors of the extension: each lists sectors of the table and names the
    next one. *)
Fixpoint good_ext (D : document) (l : list (Z * list Z)) : Prop :=
  match l with
  | [] => True
  | (s, ids) :: l' => holds D s (ids ++ [start (map fst l')]) /\ good_ext D l'
  end.

(** The tree of the directory. *)
Definition dir_tree (D : document) (t : dtree) : Prop :=
  exists root, hd_error (o_entries D) = Some root /\ dn_etype root = 5 /\ unfolds (o_entries D) (dn_root root) t /\
  NoDup (0 :: entries t).

Record good_document (D : document) : Prop := mkgood {
  g_id : length (o_id D) = 20%nat;
  g_gap : length (o_gap D) = 10%nat;
  g_shift : 3 <= o_shift D <= 20;
  g_short : 0 <= o_short_shift D <= o_shift D;
  g_words : Forall is_int [fst (o_spare D); start (o_dir D); snd (o_spare D); o_min D;
            start (map fst (o_minitable D)); Z.of_nat (length (o_minitable D));
            start (map fst (o_ext D)); Z.of_nat (length (o_ext D))];
  g_min : 0 < o_min D;
  g_master : length (o_master D) = 109%nat /\ Forall is_int (o_master D);
  (* all sectors have the same size but the last, which may be cut *)
  g_sectors : Forall (fun b => Z.of_nat (length b) = size_of D) (removelast (o_sectors D)) /\
              (o_sectors D <> [] -> 0 < Z.of_nat (length (last (o_sectors D) [])) <= size_of D);
  g_ext : good_ext D (o_ext D);
  (* unused places of the master table have -1 *)
  g_listed : filter (fun s => negb (s =? -1)) (o_master D ++ flat_map snd (o_ext D)) = map fst (o_table D);
  g_table : Forall (fun sl => holds D (fst sl) (snd sl)) (o_table D);
  g_dir : o_dir D <> [] /\ chain (table D) (start (o_dir D)) (o_dir D) /\ Forall (present D) (o_dir D);
  g_entries : exists bs, Forall2 stores_entry (o_entries D) bs /\ concat bs = flat_map (sector_of D) (o_dir D);
  g_tree : exists t, dir_tree D t;
  g_mini : 0 <= root_size D /\
           (if root_size D =? 0 then o_mini D = [] /\ o_minitable D = []
            else match o_entries D with
                 | [] => False
                 | root :: _ => o_mini D <> [] /\ chain (table D) (dn_first root) (o_mini D)
                 end) /\
           Forall (present D) (o_mini D) /\ Forall (full D) (removelast (o_mini D));
  g_minitable : (0 < root_size D -> chain (table D) (start (map fst (o_minitable D))) (map fst (o_minitable D))) /\
                Forall (fun sl => holds D (fst sl) (snd sl)) (o_minitable D);
  (* no sector has two uses *)
  g_system : NoDup (system D)
}.

(** ** Streams *)

(** [stream D d l c]: entry d is a stream, its sectors are l, its bytes c; the
    sectors of a short stream are pieces of the container and not among the
    sectors of the document. *)
Definition short_sector (D : document) (s : Z) : str :=
  firstn (Z.to_nat (short_size D)) (skipn (Z.to_nat (s * short_size D)) (container D)).
Definition stream (D : document) (d : Z) (l : list Z) (c : str) : Prop :=
  exists n, 0 <= d /\ nth_error (o_entries D) (Z.to_nat d) = Some n /\ dn_etype n = 2 /\
    0 <= dn_size n /\ Z.of_nat (length c) = dn_size n /\
    if o_min D <=? dn_size n then
      chain (table D) (dn_first n) l /\ Forall (present D) l /\ Forall (full D) (removelast l) /\
      (dn_size n + size_of D - 1) / size_of D = Z.of_nat (length l) /\
      c = firstn (Z.to_nat (dn_size n)) (flat_map (sector_of D) l)
    else
      l = [] /\ exists l', chain (minitable D) (dn_first n) l' /\
        Forall (fun s => (s + 1) * short_size D <= Z.of_nat (length (container D))) (removelast l') /\
        c = firstn (Z.to_nat (dn_size n)) (flat_map (short_sector D) l').

(** ** Names and paths *)

(** The same letters, small or capital. *)
Definition same_letter (x y : N) : Prop :=
  x = y \/ (65 <= x <= 90 /\ y = x + 32)%N \/ (65 <= y <= 90 /\ x = y + 32)%N.
Definition same_name (a b : str) : Prop := Forall2 same_letter a b.
Definition plain (s : str) : Prop := Forall (fun c => (c < 128)%N) s.

(** The Kelvin sign has a small k as its lower case. *)
Definition no_kelvin (s : str) : Prop := ~ In 8490%N s.

(** [named dl t name d n]: entry d, which is n, is in the storage with the
    entries t and has this name. *)
Definition named (dl : list dirnode) (t : dtree) (name : str) (d : Z) (n : dirnode) : Prop :=
  In d (siblings t) /\ nth_error dl (Z.to_nat d) = Some n /\ same_name (dn_name n) name.

(** No two entries of a storage have the same name. *)
Definition distinct_in (dl : list dirnode) (t : dtree) : Prop :=
  forall d1 n1 d2 n2, In d1 (siblings t) -> In d2 (siblings t) ->
    nth_error dl (Z.to_nat d1) = Some n1 -> nth_error dl (Z.to_nat d2) = Some n2 ->
    same_name (dn_name n1) (dn_name n2) -> d1 = d2.
Definition distinct_names (dl : list dirnode) (t : dtree) : Prop :=
  forall d c, In (d, c) ((0, t) :: storages t) -> distinct_in dl c.

(** [leads_to dl t path d]: the path goes through storages to the stream d. *)
Inductive leads_to (dl : list dirnode) (t : dtree) : list str -> Z -> Prop :=
| lt_stream : forall name d n, named dl t name d n -> dn_etype n = 2 -> leads_to dl t [name] d
| lt_storage : forall name d n i path d', named dl t name d n -> dn_etype n = 1 -> In (d, i) (storages t) ->
    leads_to dl i path d' -> leads_to dl t (name :: path) d'.

(** [missing dl t path]: the path goes through storages to one where its next
    name does not occur. *)
Inductive missing (dl : list dirnode) (t : dtree) : list str -> Prop :=
| ms_here : forall name path, (forall d n, ~ named dl t name d n) -> missing dl t (name :: path)
| ms_storage : forall name d n i path, named dl t name d n -> dn_etype n = 1 -> In (d, i) (storages t) ->
    missing dl i path -> missing dl t (name :: path).
