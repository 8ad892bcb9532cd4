(** * What a compound document stores

    Chains of sectors in an allocation table, the bytes they hold, and the tree
    of directory entries. *)

From Verif Require Import PyBase CompDoc.
Open Scope Z_scope.

(** [chain sat s l]: the sectors from s to the end of chain mark are l. *)
Inductive chain (sat : list Z) : Z -> list Z -> Prop :=
| chain_end : chain sat (-2) []
| chain_next : forall s s' l, 0 <= s -> nth_error sat (Z.to_nat s) = Some s' ->
    chain sat s' l -> chain sat s (s :: l).

(** [path sat s l t]: following the table from s over the sectors l comes
    to t. *)
Inductive path (sat : list Z) : Z -> list Z -> Z -> Prop :=
| path_here : forall s, path sat s [] s
| path_next : forall s s' l t, 0 <= s -> nth_error sat (Z.to_nat s) = Some s' ->
    path sat s' l t -> path sat s (s :: l) t.

(** Sector s of sec_size bytes, the first at base. *)
Definition sector (mem : str) (base sec_size s : Z) : str :=
  firstn (Z.to_nat sec_size) (skipn (Z.to_nat (base + s * sec_size)) mem).

(** The bytes of a chain. *)
Definition chain_bytes (mem : str) (base sec_size : Z) (l : list Z) : str :=
  flat_map (sector mem base sec_size) l.

(** Every sector of a chain but the last is whole. *)
Definition whole (mem : str) (base sec_size : Z) (l : list Z) : Prop :=
  Forall (fun s => base + (s + 1) * sec_size <= Z.of_nat (length mem)) (removelast l).

(** Sector s exists and is not in use. *)
Definition unused (seen : list Z) (s : Z) : Prop := nth_error seen (Z.to_nat s) = Some 0.

(** The marks after the sectors of l got the mark id. *)
Definition marked (seen seen' : list Z) (l : list Z) (id : Z) : Prop :=
  length seen' = length seen /\
  (forall s, In s l -> nth_error seen' (Z.to_nat s) = Some id) /\
  (forall i, ~ In (Z.of_nat i) l -> nth_error seen' i = nth_error seen i).

(** ** The directory *)

(** An entry, the entries left and right of it, and, for a storage, those in
    it. *)
Inductive dtree := Nil | Node (did : Z) (left right inside : dtree).

(** [unfolds dl did t]: the links of the directory from did are the tree t. *)
Inductive unfolds (dl : list dirnode) : Z -> dtree -> Prop :=
| unf_nil : forall did, did < 0 -> unfolds dl did Nil
| unf_storage : forall did n l r i, 0 <= did -> nth_error dl (Z.to_nat did) = Some n -> dn_etype n = 1 ->
    unfolds dl (dn_left n) l -> unfolds dl (dn_right n) r -> unfolds dl (dn_root n) i ->
    unfolds dl did (Node did l r i)
| unf_other : forall did n l r, 0 <= did -> nth_error dl (Z.to_nat did) = Some n -> dn_etype n <> 1 ->
    unfolds dl (dn_left n) l -> unfolds dl (dn_right n) r ->
    unfolds dl did (Node did l r Nil).

(** The entries of one storage in order, and all entries below it. *)
Fixpoint siblings (t : dtree) : list Z :=
  match t with Nil => [] | Node d l r _ => siblings l ++ d :: siblings r end.
Fixpoint entries (t : dtree) : list Z :=
  match t with Nil => [] | Node d l r i => entries l ++ d :: entries r ++ entries i end.

(** The storages below an entry, each with the entries in it. *)
Fixpoint storages (t : dtree) : list (Z * dtree) :=
  match t with Nil => [] | Node d l r i => storages l ++ (d, i) :: storages r ++ storages i end.

(** [leads dl x y]: y is left of x, right of x, or, for a storage x, at the top
    of its entries. *)
Definition leads (dl : list dirnode) (x y : Z) : Prop :=
  0 <= x /\ exists n, nth_error dl (Z.to_nat x) = Some n /\
    (y = dn_left n \/ y = dn_right n \/ dn_etype n = 1 /\ y = dn_root n).
Inductive leads_on (dl : list dirnode) : Z -> Z -> Prop :=
| lo_one : forall x y, leads dl x y -> leads_on dl x y
| lo_more : forall x y z, leads dl x y -> leads_on dl y z -> leads_on dl x z.
