(** * Specification of sheets read when they are asked for *)

From Coq Require Import ZArith.
From Verif Require Import PyBase PyFloat NumPy ReadXl SpecAccess XlDemand.
Open Scope Z_scope.

(** The sheet meant by an index or by a name. *)
Definition stands (names : list str) (key : Z + str) (k : nat) : Prop :=
  match key with
  | inl i => means (Z.of_nat (length names)) i k
  | inr name => first_name names name k
  end.
(** What is raised if there is no such sheet. *)
Definition absent (key : Z + str) : exn := match key with inl _ => IndexError | inr _ => XLRDError end.

(** The calls that ask for one sheet. *)
Inductive asks : call -> Z + str -> Prop :=
| asks_item key : asks (CItem key) key
| asks_index i : asks (CByIndex i) (inl i)
| asks_name s : asks (CByName s) (inr s).
(** The calls that ask for sheet [k]. *)
Inductive wants (names : list str) : call -> nat -> Prop :=
| wants_one c key k : asks c key -> stands names key k -> wants names c k
| wants_list k : (k < length names)%nat -> wants names CSheets k
| wants_iter k : (k < length names)%nat -> wants names CIter k.
(** The calls that unload sheet [k]. *)
Inductive drops (names : list str) : call -> nat -> Prop :=
| drops_key key k : stands names key k -> drops names (CUnload key) k.

(** Sheet [k] is there after the calls [past], the last one first: it was asked
    for before the resources were released and has not been unloaded since. *)
Inductive kept (names : list str) : list call -> nat -> Prop :=
| kept_new c past k : wants names c k -> ~ In CRelease past -> kept names (c :: past) k
| kept_old c past k : kept names past k -> ~ drops names c k -> kept names (c :: past) k.
(** Sheet [k] can be had. *)
Definition at_hand (names : list str) (past : list call) (k : nat) : Prop :=
  kept names past k \/ ~ In CRelease past.

(** [x] is sheet [k]; [right] tells which cells that has. *)
Definition is_sheet (names : list str) (right : nat -> sheet -> Prop) (k : nat) (x : loaded) : Prop :=
  nth_error names k = Some (l_name x) /\ right k (l_sheet x) /\
  means (Z.of_nat (length names)) (l_number x) k.

(** [xs] are all the sheets. *)
Definition are_sheets (names : list str) (right : nat -> sheet -> Prop) (xs : list loaded) : Prop :=
  length xs = length names /\ forall k x, nth_error xs k = Some x -> is_sheet names right k x.

(** What a call gives after the calls [past]. *)
Inductive answered (names : list str) (right : nat -> sheet -> Prop) (past : list call) : call -> res answer -> Prop :=
| sheet_given c key k x : asks c key -> stands names key k -> at_hand names past k -> is_sheet names right k x ->
    answered names right past c (Ok (ASheet x))
| sheet_gone c key k : asks c key -> stands names key k -> ~ at_hand names past k ->
    answered names right past c (Err XLRDError)
| sheet_absent c key : asks c key -> (forall k, ~ stands names key k) -> answered names right past c (Err (absent key))
| list_given xs : (forall k, (k < length names)%nat -> at_hand names past k) -> are_sheets names right xs ->
    answered names right past CSheets (Ok (AList (map Some xs)))
| list_gone k : (k < length names)%nat -> ~ at_hand names past k -> answered names right past CSheets (Err XLRDError)
| iter_given xs : (forall k, (k < length names)%nat -> at_hand names past k) -> are_sheets names right xs ->
    answered names right past CIter (Ok (AIter xs))
| iter_gone k : (k < length names)%nat -> ~ at_hand names past k -> answered names right past CIter (Err XLRDError)
| is_loaded key k : stands names key k -> kept names past k -> answered names right past (CLoaded key) (Ok (ABool true))
| not_loaded key k : stands names key k -> ~ kept names past k -> answered names right past (CLoaded key) (Ok (ABool false))
| loaded_absent key : (forall k, ~ stands names key k) -> answered names right past (CLoaded key) (Err (absent key))
| unloaded key k : stands names key k -> answered names right past (CUnload key) (Ok ANone)
| unload_absent key : (forall k, ~ stands names key k) -> answered names right past (CUnload key) (Err (absent key))
| released : answered names right past CRelease (Ok ANone)
| names_given : answered names right past CNames (Ok (ANames names))
| count_given : answered names right past CCount (Ok (ANum (Z.of_nat (length names)))).

(** The answers to the calls [cs], made after the calls [past]. *)
Inductive explained (names : list str) (right : nat -> sheet -> Prop) : list call -> list call -> list (res answer) -> Prop :=
| explained_nil past : explained names right past [] []
| explained_cons past c cs r rs : answered names right past c r -> explained names right (c :: past) cs rs ->
    explained names right past (c :: cs) (r :: rs).
