(** * Specification of text tables

    What a text file with a table in it looks like, and what the fields of a
    column stand for. Nothing here is computed by the model of the reader;
    Python's float() on ASCII text is taken as given (PyFloat.v). *)

From Verif Require Import PyBase PyFloat NumPy SpecArray SpecChars ReadText.
Open Scope nat_scope.

(** ASCII white space. *)
Definition white (c : N) : Prop := c = 32%N \/ (9 <= c <= 13)%N.

(** What separates fields when no delimiter is given: for text also the
    information separators and the white space beyond ASCII. *)
Definition space (m : mode) (c : N) : Prop := white c \/ (m = Text /\ text_space c).

(** Characters a reader may take off the ends of a line. *)
Definition edge (d : option str) (c : N) : Prop :=
  match d with
  | None => white c /\ c <> 9%N
  | Some d => white c /\ d <> [c]
  end.

(** Characters allowed as padding: white space not in the delimiter. *)
Definition pad (d : option str) (c : N) : Prop :=
  match d with
  | None => white c /\ c <> 9%N
  | Some d => white c /\ ~ In c d
  end.

(** Fields with a delimiter between them. *)
Fixpoint join (d : str) (fields : list str) : str :=
  match fields with
  | [] => []
  | [f] => f
  | f :: r => f ++ d ++ join d r
  end.

(** A row that can be written with the delimiter [d]: no field has a character
    of the delimiter, and the text neither is empty nor begins or ends with
    white space that would be taken off. *)
Definition writable (d : str) (row : list str) : Prop :=
  d <> [] /\ row <> [] /\ join d row <> [] /\
  Forall (fun f => forall c, In c f -> ~ In c d) row /\
  (forall c, hd_error (join d row) = Some c -> ~ edge (Some d) c) /\
  (forall c, hd_error (rev (join d row)) = Some c -> ~ edge (Some d) c).

(** Fields separated, preceded and followed by white space. *)
Inductive spaced (sp : N -> Prop) : list str -> str -> Prop :=
| sp_nil : forall w, Forall sp w -> spaced sp [] w
| sp_field : forall w f r s, Forall sp w -> f <> [] -> Forall (fun c => ~ sp c) f ->
    spaced sp r s -> (forall c, hd_error s = Some c -> sp c) ->
    spaced sp (f :: r) (w ++ f ++ s).

(** The line [l] (without its newline) holds the row. *)
Definition row_line (m : mode) (d : option str) (row : list str) (l : str) : Prop :=
  ~ In 10%N l /\
  match d with
  | Some d => exists a b, l = a ++ join d row ++ b /\ writable d row /\
                          Forall (pad (Some d)) a /\ Forall (pad (Some d)) b
  | None => row <> [] /\ spaced (space m) row l
  end.

(** Lines of rows, with blank lines anywhere; the last newline may be missing. *)
Inductive layout (m : mode) (d : option str) : list (list str) -> str -> Prop :=
| lay_nil : layout m d [] []
| lay_blank : forall w rows s, Forall (pad d) w -> ~ In 10%N w ->
    layout m d rows s -> layout m d rows (w ++ 10%N :: s)
| lay_blank_end : forall w, Forall (pad d) w -> ~ In 10%N w -> layout m d [] w
| lay_row : forall row l rows s, row_line m d row l ->
    layout m d rows s -> layout m d (row :: rows) (l ++ 10%N :: s)
| lay_row_end : forall row l, row_line m d row l -> layout m d [row] l.

(** A delimiter that can be used at all: not empty, no newline in it. *)
Definition delim_ok (d : option str) : Prop :=
  match d with None => True | Some d => d <> [] /\ ~ In 10%N d end.

(** A table: the first line is a row, not blank. *)
Definition table (m : mode) (d : option str) (row0 : list str) (rows : list (list str)) (s : str) : Prop :=
  delim_ok d /\
  exists l s', row_line m d row0 l /\
    ((s = l /\ rows = []) \/ (s = l ++ 10%N :: s' /\ layout m d rows s')).

(** ** Meaning of fields *)

(** Decimal commas written as dots. *)
Definition dots (s : str) : str := map (fun c => if N.eq_dec c 44 then 46%N else c) s.

(** The field is a number: in text the digits and the white space beyond ASCII
    count as those of ASCII, in bytes they do not. *)
Definition reads (m : mode) (s : str) (f : float) : Prop :=
  match m with
  | Text => exists t, Forall2 counts_as s t /\ float_of_str t = Ok f
  | _ => float_of_str s = Ok f
  end.

Definition plain_number (m : mode) (s : str) : Prop := exists f, reads m s f.
Definition comma_number (m : mode) (s : str) : Prop :=
  ~ plain_number m s /\ exists f, reads m (dots s) f.
Definition number (m : mode) (s : str) : Prop := plain_number m s \/ comma_number m s.

(** Some field of the first row is a number only with the comma read as a dot. *)
Definition comma_table (m : mode) (row0 : list str) : Prop := exists s, In s row0 /\ comma_number m s.

(** [t] is [s] without the white space around it. *)
Definition trims (sp : N -> Prop) (s t : str) : Prop :=
  exists a b, s = a ++ t ++ b /\ Forall sp a /\ Forall sp b /\
    (forall c, hd_error t = Some c -> ~ sp c) /\ (forall c, hd_error (rev t) = Some c -> ~ sp c).

Definition trims_if (strip : bool) (sp : N -> Prop) (s t : str) : Prop :=
  if strip then trims sp s t else t = s.

(** [cell m strip conv row0 c s v]: in a table with this first row, the field
    [s] of column [c] stands for [v]. *)
Inductive cell (m : mode) (strip : bool) (conv : dict (str -> res val)) (row0 : list str) (c : nat) (s : str)
  : val -> Prop :=
| cell_converter : forall f v, dget (Z.of_nat c) conv = Some f -> f s = Ok v -> cell m strip conv row0 c s v
| cell_nan : dget (Z.of_nat c) conv = None -> number m (nth c row0 []) -> s = [] ->
    cell m strip conv row0 c s (VFloat fnan)
| cell_plain : forall x, dget (Z.of_nat c) conv = None -> number m (nth c row0 []) -> ~ comma_table m row0 ->
    reads m s x -> cell m strip conv row0 c s (VFloat x)
| cell_comma : forall x, dget (Z.of_nat c) conv = None -> number m (nth c row0 []) -> comma_table m row0 ->
    reads m (dots s) x -> cell m strip conv row0 c s (VFloat x)
| cell_text : forall t, dget (Z.of_nat c) conv = None -> ~ number m (nth c row0 []) -> m = Text ->
    trims_if strip (space m) s t -> cell m strip conv row0 c s (VStr t)
| cell_bytes : forall t, dget (Z.of_nat c) conv = None -> ~ number m (nth c row0 []) -> m = Raw ->
    trims_if strip (space m) s t -> cell m strip conv row0 c s (VBytes t)
| cell_decoded : forall co t u, dget (Z.of_nat c) conv = None -> ~ number m (nth c row0 []) -> m = Coded co ->
    trims_if strip (space m) s t -> decode co t = Ok u -> cell m strip conv row0 c s (VStr u).

(** Converters for columns of the table only. *)
Definition converters_ok (conv : dict (str -> res val)) (row0 : list str) : Prop :=
  NoDup (dkeys conv) /\ forall k, In k (dkeys conv) -> (0 <= k < Z.of_nat (length row0))%Z.

(** The smallest number of fields of a row. *)
Definition narrowest (row0 : list str) (rows : list (list str)) (k : nat) : Prop :=
  (exists r, In r (row0 :: rows) /\ length r = k) /\ (forall r, In r (row0 :: rows) -> k <= length r).

(** ** Sources *)

(** Characters come as they are from a text stream; from a stream of bytes they
    stay bytes, unless an encoding is given. *)
Definition reading_mode (bytes : bool) (encoding : option codec) : mode :=
  if bytes then match encoding with Some c => Coded c | None => Raw end else Text.

(** The columns asked for by usecols: one, several or all. *)
Definition asked (u : cols) : option (list Z) :=
  match u with ColsInt c => Some [c] | ColsSeq l => Some l | ColsNone => None end.

(** What a reader of the stream still has before it. *)
Definition ahead (src : source) : str := skipn (src_pos src) (src_text src).

(** A text of n whole lines. *)
Inductive whole_lines : nat -> str -> Prop :=
| wl_none : whole_lines 0 []
| wl_more : forall n l h, ~ In 10%N l -> whole_lines n h -> whole_lines (S n) (l ++ 10%N :: h).

(** After n lines comes a table. *)
Definition table_after (src : source) (n : nat) (m : mode) (d : option str) (row0 : list str)
    (rows : list (list str)) : Prop :=
  exists h s, ahead src = h ++ s /\ whole_lines n h /\ table m d row0 rows s.

(** Columns used: all, or strictly ascending numbers. *)
Definition ascending (u : option (list Z)) : Prop :=
  match u with
  | None => True
  | Some l => Sorted Z.lt l /\ Forall (fun c => 0 <= c)%Z l
  end.

(** [cs] lists, in order, the used columns below [k]. *)
Definition columns_below (u : option (list Z)) (k : nat) (cs : list nat) : Prop :=
  Sorted lt cs /\
  forall c, In c cs <-> c < k /\ match u with None => True | Some l => In (Z.of_nat c) l end.

(** The channels of a table whose field [s] in column [c] stands for [g c s]. *)
Definition channels (g : nat -> str -> val) (cs : list nat) (rows : list (list str)) (d : dict arr) : Prop :=
  holds_columns d (map (fun c => (Z.of_nat c, map (fun r => g c (nth c r [])) rows)) cs).

(** ** Names *)

(** The name a field of the names line gives. *)
Inductive name_cell (m : mode) (s : str) : val -> Prop :=
| name_text : forall t, m = Text -> trims (space m) s t -> name_cell m s (VStr t)
| name_bytes : forall t, m = Raw -> trims (space m) s t -> name_cell m s (VBytes t)
| name_decoded : forall co t u, m = Coded co -> trims (space m) s t -> decode co t = Ok u -> name_cell m s (VStr u).

(** ** The same call with one argument changed *)

Definition with_usecols (u : cols) (a : targs) : targs :=
  mktargs (t_names a) (t_delimiter a) (t_skiprows a) u (t_hasnames a) (t_encoding a) (t_converters a)
          (t_stripstrings a) (t_debug a).
Definition with_names (n : dict val) (a : targs) : targs :=
  mktargs n (t_delimiter a) (t_skiprows a) (t_usecols a) (t_hasnames a) (t_encoding a) (t_converters a)
          (t_stripstrings a) (t_debug a).
Definition with_hasnames (b : bool) (a : targs) : targs :=
  mktargs (t_names a) (t_delimiter a) (t_skiprows a) (t_usecols a) b (t_encoding a) (t_converters a)
          (t_stripstrings a) (t_debug a).
Definition with_skiprows (n : Z) (a : targs) : targs :=
  mktargs (t_names a) (t_delimiter a) n (t_usecols a) (t_hasnames a) (t_encoding a) (t_converters a)
          (t_stripstrings a) (t_debug a).
Definition with_debug (b : bool) (a : targs) : targs :=
  mktargs (t_names a) (t_delimiter a) (t_skiprows a) (t_usecols a) (t_hasnames a) (t_encoding a) (t_converters a)
          (t_stripstrings a) b.
