(** * Specification of numeric text files

    Numerals, rows of numerals, headers and their names; independent of the
    regular expressions of preparse. *)

From Verif Require Import PyBase PyFloat NumPy SpecChars ReadText SpecText Preparse.
Open Scope nat_scope.

Definition digit (c : N) : Prop := exists d, digit_of c d.
Definition sign (s : str) : Prop := s = [] \/ s = [45%N] \/ s = [43%N].

(** Digits, with the decimal sign [x] or without. *)
Definition mantissa_of (x : N) (s : str) : Prop :=
  (s <> [] /\ Forall digit s) \/
  exists a b, s = a ++ x :: b /\ Forall digit a /\ Forall digit b /\ a ++ b <> [].

Definition exponent_of (s : str) : Prop :=
  s = [] \/ exists e sg d, s = e :: sg ++ d /\ (e = 101%N \/ e = 69%N) /\ sign sg /\ Forall digit d /\ d <> [].

(** A number written with the decimal sign [x]. *)
Definition numeral (x : N) (s : str) : Prop :=
  exists sg m e, s = sg ++ m ++ e /\ sign sg /\ mantissa_of x m /\ exponent_of e.

(** A number with digits on both sides of its decimal sign. *)
Definition fractional (x : N) (s : str) : Prop :=
  exists a b, s = a ++ x :: b /\ Exists digit a /\ Exists digit b.

(** No digit, sign, decimal sign or letter of an exponent. *)
Definition quiet (c : N) : Prop :=
  ~ digit c /\ ~ In c [46; 44; 43; 45; 101; 69]%N.

(** Text between two numbers that stands for the delimiter [d]: [d] with white
    space around it, or just white space, the same each time. *)
Definition separator (d s : str) : Prop :=
  s <> [] /\ Forall quiet s /\
  ((d <> [] /\ trims (space Text) s d) \/ (Forall (space Text) s /\ s = d)).

(** Numbers with separators between them. *)
Inductive gapped (d : str) : list str -> str -> Prop :=
| gap_one : forall n, gapped d [n] n
| gap_more : forall n g ns s, separator d g -> gapped d ns s -> gapped d (n :: ns) (n ++ g ++ s).

(** A line of numbers. *)
Definition number_line (x : N) (d : str) (nums : list str) (l : str) : Prop :=
  Forall (numeral x) nums /\
  exists pre mid post, l = pre ++ mid ++ post /\ Forall quiet pre /\ Forall quiet post /\ gapped d nums mid.

(** A line with its newline. *)
Definition endl (l : str) : str := l ++ [10%N].

Definition blank (l : str) : Prop := Forall (space Text) l.

(** A line with one number and nothing else. *)
Definition lone_line (x : N) (n : str) (l : str) : Prop :=
  numeral x n /\ exists pre post, l = pre ++ n ++ post /\ blank pre /\ blank post.

(** The fields of a header line that are not blank, trimmed. *)
Definition line_fields (d : option str) (l : str) (fs : list str) : Prop :=
  match d with
  | Some d => exists raw ts, d <> [] /\ raw <> [] /\ l = join d raw /\
                Forall (fun f => forall c, In c f -> ~ In c d) raw /\
                Forall2 (trims (space Text)) raw ts /\ fs = filter (fun t => match t with [] => false | _ => true end) ts
  | None => spaced (space Text) fs l
  end.

(** A header line that names [n] columns. *)
Definition title (first : str -> bool) (d : option str) (n : nat) (l : str) (fs : list str) : Prop :=
  line_fields d l fs /\ length fs = n /\ first (hd [] fs) = true.

(** The names: those of the last header line that names [n] columns. *)
Definition header_names (first : str -> bool) (d : option str) (n : nat) (header : list str) (names : dict val) : Prop :=
  (exists h1 l h2 fs, header = h1 ++ l :: h2 /\ title first d n l fs /\
     (forall l' fs', In l' h2 -> ~ title first d n l' fs') /\
     names = map (fun c => (Z.of_nat c, VStr (nth c fs []))) (seq 0 n)) \/
  ((forall l fs, In l header -> ~ title first d n l fs) /\ names = []).

(** [first] finds a word character at the beginning: a letter, a digit or an
    underscore; beyond ASCII [word] tells. *)
Definition begins_word (word : N -> bool) (first : str -> bool) : Prop :=
  first [] = false /\
  forall c s, first (c :: s) = true <->
    (c < 128 /\ (48 <= c <= 57 \/ 65 <= c <= 90 \/ 97 <= c <= 122 \/ c = 95))%N \/ ((128 <= c)%N /\ word c = true).

(** The line before the numbers has no digit in it. *)
Definition header_end (header : list str) : Prop :=
  header = [] \/ exists h l, header = h ++ [l] /\ Forall (fun c => ~ digit c) l.

(** ** Calls of lazy_textpack *)

(** The codec for bytes: the one given, or the preferred one. *)
Definition codec_used (preferred : codec) (k : kwargs) : option codec :=
  match k_encoding k with Some c => c | None => Some preferred end.

(** The lines as text. *)
Definition source_texts (preferred : codec) (k : kwargs) (bytes : bool) (lines texts : list str) : Prop :=
  if bytes then exists c, codec_used preferred k = Some c /\ Forall2 (fun l t => decode c l = Ok t) lines texts
  else texts = lines.

(** A delimiter found in the text, as the source has it. *)
Definition source_delim (preferred : codec) (k : kwargs) (bytes : bool) (d e : option str) : Prop :=
  if bytes then exists c, codec_used preferred k = Some c /\
                  match d with Some x => exists b, encode c x = Ok b /\ e = Some b | None => e = None end
  else e = d.

(** The value of an argument: the given one, or another. *)
Definition chosen_arg {A} (given : option A) (other v : A) : Prop :=
  match given with Some x => v = x | None => v = other end.

(** usecols names the column. *)
Definition picked (u : cols) (c : Z) : bool :=
  match u with ColsNone => true | ColsInt z => Z.eqb c z | ColsSeq l => existsb (Z.eqb c) l end.

(** The names: the given ones, or the derived ones of the columns in usecols. *)
Definition chosen_names (names : option (dict val)) (u : option cols) (derived v : dict val) : Prop :=
  match names, u with
  | Some n, _ => v = n
  | None, Some u => v = filter (fun kv => picked u (fst kv)) derived
  | None, None => v = derived
  end.

(** The stream at its beginning. *)
Definition rewound (src : source) : source := mksource (src_bytes src) (src_text src) 0 (src_name src).
