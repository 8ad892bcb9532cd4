(** * Guessing the format of a text file: the property theorems *)

From Coq Require Import ZifyBool ZifyNat ZifyN QArith.
From Verif Require Import PyBase PyBaseFacts PyFloat PyText NumPy SpecArray ArrayFacts Pack PackProofs SpecDbf DbfProofs DbfThms ReadText SpecChars CharFacts SpecText TextProofs ReadTextThms Preparse SpecPreparse PreparseProofs PreparseThms.
Open Scope nat_scope.
Open Scope nat_scope.

(** A header, rows of at least two numbers with one delimiter between them (white
space around it allowed), blank lines: preparse finds where the rows begin, the
delimiter, the columns and the names. With decimal commas ([x] = 44) some number
of the last row must have digits on both sides of its comma. *)
Theorem C34_rows :
forall (x : N) (first : str -> bool) (d : str) (n : nat) (header : list str) (rows : list (list str))
       (data blanks : list str) (names : dict val),
  x = 46%N \/ x = 44%N -> 2 <= n ->
  header_end header -> rows <> [] ->
  Forall2 (number_line x d) rows data -> Forall (fun r : list str => length r = n) rows -> Forall blank blanks ->
  (forall l, In l header -> exists fs, line_fields (Some d) l fs) ->
  header_names first (Some d) n header names ->
  (x = 44%N -> Exists (fractional 44) (last rows [])) ->
  preparse first (header ++ data ++ blanks)
  = Ok (Some (mkderived (length header) (Some d) (if N.eqb x 46 then None else Some (map Z.of_nat (seq 0 n))) names
                (map Z.of_nat (seq 0 n)))).
Proof. exact C34_rows_proof. Qed.
Print Assumptions C34_rows.

(** Semicolons with white space around them, decimal commas, a comment line
    with numbers in it and a line of names. *)
Example C34_rows_ex :
  let rows := [[lit "1,5"; lit "-,5e3"]; [lit "2"; lit "1,25"]] in
  let data := [lit "1,5; -,5e3"; lit " 2 ;1,25"] in
  preparse (word_first (fun _ => true)) ([lit "v 1;2"; lit "t ; x"] ++ data ++ [[]])
  = Ok (Some (mkderived 2 (Some (lit ";")) (Some [0; 1]%Z) [(0%Z, VStr (lit "t")); (1%Z, VStr (lit "x"))] [0; 1]%Z)) /\
  Forall2 (number_line 44 (lit ";")) rows data.
Proof.
  assert (D : forall s, forallb (fun c => (48 <=? c) && (c <=? 57))%N s = true -> Forall digit s).
  { intros s H. apply Forall_forall. intros c C. rewrite forallb_forall in H. apply H in C. apply andb_prop in C.
    destruct C as [A B]. apply N.leb_le in A. apply N.leb_le in B. apply digit_is, digit_decimal, digit_spec. split; assumption. }
  assert (Q : forall s, forallb (fun c => (c =? 32) || (c =? 59))%N s = true -> Forall quiet s).
  { intros s H. apply Forall_forall. intros c C. rewrite forallb_forall in H. apply H in C. apply orb_prop in C.
    destruct C as [C|C]; apply N.eqb_eq in C; subst; (split; [apply no_digit; try (left; reflexivity); right; split; reflexivity|cbv; intuition discriminate]). }
  assert (P : forall s, s = lit ";" \/ s = lit "; " \/ s = lit " ;" -> separator (lit ";") s).
  { intros s S. split; [destruct S as [->|[->| ->]]; discriminate|]. split; [apply Q; destruct S as [->|[->| ->]]; reflexivity|].
    left. split; [discriminate|].
    assert (W : Forall (space Text) (lit " ")) by (constructor; [apply space_ws; reflexivity|constructor]).
    destruct S as [->|[->| ->]]; [exists [], []|exists [], (lit " ")|exists (lit " "), []];
      (split; [reflexivity|]; split; [first [exact W|constructor]|]; split; [first [exact W|constructor]|]; split;
       intros c C H; injection C as <-; apply space_ws in H; discriminate H). }
  cbv zeta. split; [vm_compute; reflexivity|]. constructor; [|constructor; [|constructor]].
  - split.
    + constructor; [|constructor; [|constructor]].
      * exists [], (lit "1,5"), []. split; [reflexivity|]. split; [left; reflexivity|]. split; [|left; reflexivity].
        right. exists (lit "1"), (lit "5"). repeat (split; [first [reflexivity|apply D; reflexivity]|]). discriminate.
      * exists (lit "-"), (lit ",5"), (lit "e3"). split; [reflexivity|]. split; [right; left; reflexivity|]. split.
        -- right. exists [], (lit "5"). repeat (split; [first [reflexivity|apply D; reflexivity]|]). discriminate.
        -- right. exists 101%N, [], (lit "3"). split; [reflexivity|]. split; [left; reflexivity|]. split; [left; reflexivity|].
           split; [apply D; reflexivity|discriminate].
    + exists [], (lit "1,5; -,5e3"), []. split; [reflexivity|]. split; [constructor|]. split; [constructor|].
      apply (gap_more (lit ";") (lit "1,5") (lit "; ")); [apply P; auto|]. apply gap_one.
  - split.
    + constructor; [|constructor; [|constructor]].
      * exists [], (lit "2"), []. split; [reflexivity|]. split; [left; reflexivity|]. split; [|left; reflexivity].
        left. split; [discriminate|apply D; reflexivity].
      * exists [], (lit "1,25"), []. split; [reflexivity|]. split; [left; reflexivity|]. split; [|left; reflexivity].
        right. exists (lit "1"), (lit "25"). repeat (split; [first [reflexivity|apply D; reflexivity]|]). discriminate.
    + exists (lit " "), (lit "2 ;1,25"), []. split; [reflexivity|]. split; [apply Q; reflexivity|]. split; [constructor|].
      apply (gap_more (lit ";") (lit "2") (lit " ;")); [apply P; auto|]. apply gap_one.
Qed.

(** One number per line: no delimiter, and the names line is one word. *)
Theorem C34_single :
forall (x : N) (first : str -> bool) (header nums data blanks : list str) (names : dict val),
  x = 46%N \/ x = 44%N ->
  header_end header -> nums <> [] ->
  Forall2 (lone_line x) nums data -> Forall blank blanks ->
  (forall l, In l header -> exists fs, line_fields None l fs) ->
  header_names first None 1 header names ->
  (x = 44%N -> fractional 44 (last nums [])) ->
  preparse first (header ++ data ++ blanks)
  = Ok (Some (mkderived (length header) None (if N.eqb x 46 then None else Some [0%Z]) names [0%Z])).
Proof. exact C34_single_proof. Qed.
Print Assumptions C34_single.

Example C34_single_ex :
  preparse (word_first (fun _ => true)) ([lit "a b"; lit " speed "; lit "[m]"] ++ [lit "1.5"; lit " -2e1 "] ++ [lit " "])
  = Ok (Some (mkderived 3 None None [(0%Z, VStr (lit "speed"))] [0%Z])).
Proof. vm_compute. reflexivity. Qed.

(** A delimiter of one character splits every header line, so the condition on the
header lines in C34_rows is met. *)
Theorem C34_one_character :
forall (x : N) (l : str), exists fs, line_fields (Some [x]) l fs.
Proof. exact C34_one_character_proof. Qed.
Print Assumptions C34_one_character.

(** Whatever the lines are: a format that is found has at least one column, its
columns are 0, 1, ..., it skips fewer lines than there are, converts either no
column or all of them, and names either no column or all of them, from one
skipped line. *)
Theorem C34_found :
forall first lines d, preparse first lines = Ok (Some d) ->
  exists n, 1 <= n /\
    d_usecols d = map Z.of_nat (seq 0 n) /\
    d_skiprows d < length lines /\
    (d_converters d = None \/ d_converters d = Some (d_usecols d)) /\
    (d_delimiter d = None <-> n = 1) /\
    (d_names d = [] \/ dkeys (d_names d) = d_usecols d).
Proof. exact C34_found_proof. Qed.
Print Assumptions C34_found.

(** preparse fails, with IndexError, exactly when every line is blank (or there is no
line at all). *)
Theorem C34_blank_error :
forall first lines e, preparse first lines = Err e <-> e = IndexError /\ Forall blank lines.
Proof. exact C34_blank_error_proof. Qed.
Print Assumptions C34_blank_error.

(** lazy_textpack on a header and rows of numbers, one delimiter, decimal points or
decimal commas: the channels are the numbers of the columns, the names those of
the header. With usecols (ascending) given: those channels and names only. The
lines looked at reach the first row. *)
Theorem C34_lazy :
forall word (x : N) (d : str) (n : nat) (header : list str) (rows : list (list str)) (data : list str)
       (names : dict val) (u : option (list Z)) (cs : list nat) preferred name parselines,
  x = 46%N \/ x = 44%N -> 2 <= n ->
  separator d d -> ~ In 10%N d ->
  Forall (fun l => ~ In 10%N l) header -> header_end header ->
  rows <> [] -> Forall2 (row_line Text (Some d)) rows data ->
  Forall (fun r => length r = n /\ Forall (numeral x) r) rows ->
  (forall l, In l header -> exists fs, line_fields (Some d) (endl l) fs) ->
  (forall first, begins_word word first -> header_names first (Some d) n (map endl header) names) ->
  length header < Z.to_nat parselines ->
  (x = 44%N -> Exists (fractional 44) (last (firstn (Z.to_nat parselines - length header) rows) [])) ->
  ascending u -> columns_below u n cs ->
  exists (value : str -> float) p,
    (forall r s, In r rows -> In s r -> reads Text (dots s) (value s)) /\
    lazy_textpack word preferred (mksource false (concat (map endl (header ++ data))) 0 name) parselines
      (mkkwargs None None None (match u with None => None | Some l => Some (ColsSeq l) end) None None None None None)
    = Ok p /\
    channels (fun _ s => VFloat (value s)) cs rows (p_data p) /\
    p_names p = filter (fun kv => match u with None => true | Some l => existsb (Z.eqb (fst kv)) l end) names /\
    p_fn p = name.
Proof. exact C34_lazy_proof. Qed.
Print Assumptions C34_lazy.

(** Channels, names, and the same with the columns chosen. *)
Example C34_lazy_ex :
  forall (word : N -> bool) (cp : codec),
  let text := lit "made 2017" ++ [10%N] ++ lit "t; x ;y" ++ [10%N] ++ lit "1;2,5;3" ++ [10%N] ++ lit "2;1,5;-,5" ++ [10%N] in
  let run u := match lazy_textpack word cp (mksource false text 0 (lit "f.txt")) 25
                       (mkkwargs None None None u None None None None None) with
               | Ok p => Some (p_data p, p_names p)
               | Err _ => None
               end in
  let half z := S754_finite false z (-53) in
  run None = Some ([(0%Z, mkarr Kf [VFloat (float_of_Z 1); VFloat (float_of_Z 2)]);
                    (1%Z, mkarr Kf [VFloat (S754_finite false 5629499534213120 (-51)); VFloat (S754_finite false 6755399441055744 (-52))]);
                    (2%Z, mkarr Kf [VFloat (float_of_Z 3); VFloat (S754_finite true 4503599627370496 (-53))])],
                   [(0%Z, VStr (lit "t")); (1%Z, VStr (lit "x")); (2%Z, VStr (lit "y"))]) /\
  run (Some (ColsSeq [2%Z])) = Some ([(2%Z, mkarr Kf [VFloat (float_of_Z 3); VFloat (S754_finite true 4503599627370496 (-53))])],
                                     [(2%Z, VStr (lit "y"))]).
Proof. intros word cp. vm_compute. auto. Qed.

(** lazy_textpack on a header and lines of one number each. *)
Theorem C34_lazy_single :
forall word (x : N) (header nums data : list str) (names : dict val) preferred name parselines,
  x = 46%N \/ x = 44%N ->
  Forall (fun l => ~ In 10%N l) header -> header_end header ->
  nums <> [] -> Forall2 (lone_line x) nums data -> Forall (fun l => ~ In 10%N l) data ->
  (forall l, In l header -> exists fs, line_fields None (endl l) fs) ->
  (forall first, begins_word word first -> header_names first None 1 (map endl header) names) ->
  length header < Z.to_nat parselines ->
  (x = 44%N -> fractional 44 (last (firstn (Z.to_nat parselines - length header) nums) [])) ->
  exists (value : str -> float) p,
    (forall s, In s nums -> reads Text (dots s) (value s)) /\
    lazy_textpack word preferred (mksource false (concat (map endl (header ++ data))) 0 name) parselines no_kwargs = Ok p /\
    holds_columns (p_data p) [(0%Z, map (fun s => VFloat (value s)) nums)] /\ p_names p = names /\ p_fn p = name.
Proof. exact C34_lazy_single_proof. Qed.
Print Assumptions C34_lazy_single.

Example C34_lazy_single_ex :
  forall (word : N -> bool) (cp : codec),
  match lazy_textpack word cp (mksource false (lit "speed" ++ [10%N] ++ lit " 1" ++ [10%N] ++ lit "2 " ++ [10%N]) 0 []) 2 no_kwargs with
  | Ok p => p_data p = [(0%Z, mkarr Kf [VFloat (float_of_Z 1); VFloat (float_of_Z 2)])] /\ p_names p = [(0%Z, VStr (lit "speed"))]
  | Err _ => False
  end.
Proof. intros word cp. vm_compute. auto. Qed.

(** Integers separated by commas are read as one column of decimal commas. *)
Theorem C34_comma_delimiter_refuted :
forall (word : N -> bool) (cp : codec),
match lazy_textpack word cp (mksource false (lit "1,2" ++ [10%N] ++ lit "3,4" ++ [10%N]) 0 []) 25 no_kwargs with
| Ok p => dkeys (p_data p) = [0%Z] /\
          exists f, reads Text (lit "1.2") f /\ exists g, dget 0%Z (p_data p) = Some (mkarr Kf [VFloat f; VFloat g])
| Err _ => False
end.
Proof. exact C34_comma_delimiter_refuted_proof. Qed.
Print Assumptions C34_comma_delimiter_refuted.

(** Decimal commas that the last row looked at does not show: the rows that have
them are skipped without notice. *)
Theorem C34_comma_last_row_refuted :
forall (word : N -> bool) (cp : codec),
match lazy_textpack word cp (mksource false (lit "1,5;2" ++ [10%N] ++ lit "3;4" ++ [10%N]) 0 []) 25 no_kwargs with
| Ok p => p_data p = [(0%Z, mkarr Kf [VFloat (float_of_Z 3)]); (1%Z, mkarr Kf [VFloat (float_of_Z 4)])]
| Err _ => False
end.
Proof. exact C34_comma_last_row_refuted_proof. Qed.
Print Assumptions C34_comma_last_row_refuted.

(** Columns aligned with a varying number of spaces: the delimiter is the gap of the
last row, and the others are split wrongly without notice. *)
Theorem C34_aligned_refuted :
forall (word : N -> bool) (cp : codec),
match lazy_textpack word cp (mksource false (lit "1  2" ++ [10%N] ++ lit "3 4" ++ [10%N]) 0 []) 25 no_kwargs with
| Ok p => p_data p = [(0%Z, mkarr Kf [VFloat (float_of_Z 1); VFloat (float_of_Z 3)]); (1%Z, mkarr KU [VStr []; VStr (lit "4")])]
| Err _ => False
end.
Proof. exact C34_aligned_refuted_proof. Qed.
Print Assumptions C34_aligned_refuted.

(** Text around a lone number makes preparse give up only when the line is the last
one asked for: at the end of the file empty lines follow, and they are what is
checked. *)
Theorem C34_surroundings_refuted :
forall (word : N -> bool) (cp : codec),
let src := mksource false (lit "top 7 km" ++ [10%N]) 0 [] in
lazy_textpack word cp src 1 no_kwargs = Err ValueError /\
match lazy_textpack word cp src 2 no_kwargs with
| Ok p => p_data p = [(0%Z, mkarr KU [VStr (lit "top")])]
| Err _ => False
end.
Proof. exact C34_surroundings_refuted_proof. Qed.
Print Assumptions C34_surroundings_refuted.

(** A format is found: textpack reads the stream from its beginning with the given
arguments unchanged and the derived ones where none is given; with usecols given
and names not, the derived names of those columns. (usecols = None given, names
not: see C35_usecols_none.) *)
Theorem C35_arguments :
forall word preferred src parselines k texts d delim a,
  source_texts preferred k (src_bytes src) (take_lines (Z.to_nat parselines) (ahead src)) texts ->
  preparse (word_first word) texts = Ok (Some d) ->
  source_delim preferred k (src_bytes src) (d_delimiter d) delim ->
  (k_usecols k = Some ColsNone -> k_names k <> None \/ d_names d = []) ->
  chosen_arg (k_delimiter k) delim (t_delimiter a) ->
  chosen_arg (k_skiprows k) (Z.of_nat (d_skiprows d)) (t_skiprows a) ->
  chosen_arg (k_usecols k) (ColsSeq (d_usecols d)) (t_usecols a) ->
  chosen_arg (k_hasnames k) false (t_hasnames a) ->
  chosen_arg (k_encoding k) None (t_encoding a) ->
  chosen_arg (k_converters k) (match d_converters d with Some l => map (fun c => (c, floatit (src_bytes src))) l | None => [] end) (t_converters a) ->
  chosen_arg (k_stripstrings k) false (t_stripstrings a) ->
  chosen_arg (k_debug k) false (t_debug a) ->
  chosen_names (k_names k) (k_usecols k) (d_names d) (t_names a) ->
  lazy_textpack word preferred src parselines k = textpack (rewound src) a.
Proof. exact C35_arguments_proof. Qed.
Print Assumptions C35_arguments.

(** skiprows and usecols given, the delimiter and the names derived. *)
Example C35_arguments_ex :
  forall (word : N -> bool) (cp : codec),
  let text := lit "t;x" ++ [10%N] ++ lit "1;2" ++ [10%N] ++ lit "3;4" ++ [10%N] in
  match lazy_textpack word cp (mksource false text 0 []) 25
          (mkkwargs None None (Some 2%Z) (Some (ColsInt 1)) None None None None None) with
  | Ok p => p_data p = [(1%Z, mkarr Kf [VFloat (float_of_Z 4)])] /\ p_names p = [(1%Z, VStr (lit "x"))]
  | Err _ => False
  end.
Proof. intros word cp. vm_compute. auto. Qed.

(** No format is found: ValueError if nothing was given, else textpack with just the
given arguments. *)
Theorem C35_not_found :
forall word preferred src parselines k texts a,
  source_texts preferred k (src_bytes src) (take_lines (Z.to_nat parselines) (ahead src)) texts ->
  preparse (word_first word) texts = Ok None ->
  (k = no_kwargs -> lazy_textpack word preferred src parselines k = Err ValueError) /\
  (k <> no_kwargs ->
   chosen_arg (k_names k) [] (t_names a) ->
   chosen_arg (k_delimiter k) None (t_delimiter a) -> chosen_arg (k_skiprows k) 0%Z (t_skiprows a) ->
   chosen_arg (k_usecols k) ColsNone (t_usecols a) -> chosen_arg (k_hasnames k) false (t_hasnames a) ->
   chosen_arg (k_encoding k) None (t_encoding a) -> chosen_arg (k_converters k) [] (t_converters a) ->
   chosen_arg (k_stripstrings k) false (t_stripstrings a) -> chosen_arg (k_debug k) false (t_debug a) ->
   lazy_textpack word preferred src parselines k = textpack (rewound src) a).
Proof. exact C35_not_found_proof. Qed.
Print Assumptions C35_not_found.

Example C35_not_found_ex :
  forall (word : N -> bool) (cp : codec),
  let src := mksource false (lit "a;b" ++ [10%N] ++ lit "c;d") 0 [] in
  lazy_textpack word cp src 25 no_kwargs = Err ValueError /\
  match lazy_textpack word cp src 25 (mkkwargs None (Some (Some (lit ";"))) None None None None None None None) with
  | Ok p => dkeys (p_data p) = [0; 1]%Z
  | Err _ => False
  end.
Proof. intros word cp. vm_compute. auto. Qed.

(** When every argument textpack takes is given, what the lines look like does not
matter, as long as one of those looked at is not blank (and, for bytes, they
decode). *)
Theorem C35_all_given :
forall word preferred src parselines k texts (a : targs),
  source_texts preferred k (src_bytes src) (take_lines (Z.to_nat parselines) (ahead src)) texts ->
  ~ Forall blank texts ->
  (forall c d x, codec_used preferred k = Some c -> src_bytes src = true -> preparse (word_first word) texts = Ok (Some d) ->
     d_delimiter d = Some x -> exists b, encode c x = Ok b) ->
  k = mkkwargs (Some (t_names a)) (Some (t_delimiter a)) (Some (t_skiprows a)) (Some (t_usecols a)) (Some (t_hasnames a))
        (Some (t_encoding a)) (Some (t_converters a)) (Some (t_stripstrings a)) (Some (t_debug a)) ->
  lazy_textpack word preferred src parselines k = textpack (rewound src) a.
Proof. exact C35_all_given_proof. Qed.
Print Assumptions C35_all_given.

(** If the lines looked at are all blank, lazy_textpack fails with IndexError
whatever is given. *)
Theorem C35_blank :
forall word preferred src parselines k texts,
  source_texts preferred k (src_bytes src) (take_lines (Z.to_nat parselines) (ahead src)) texts ->
  Forall blank texts -> lazy_textpack word preferred src parselines k = Err IndexError.
Proof. exact C35_blank_proof. Qed.
Print Assumptions C35_blank.

Example C35_blank_ex :
  forall (word : N -> bool) (cp : codec),
  lazy_textpack word cp (mksource false [10; 32; 10]%N 0 []) 2
    (mkkwargs None (Some (Some (lit ";"))) None None None None None None None) = Err IndexError.
Proof. intros word cp. vm_compute. reflexivity. Qed.

(** usecols = None given while names are derived: TypeError, although None is the
default of textpack. *)
Theorem C35_usecols_none :
forall word preferred src parselines k texts d,
  src_bytes src = false ->
  source_texts preferred k (src_bytes src) (take_lines (Z.to_nat parselines) (ahead src)) texts ->
  preparse (word_first word) texts = Ok (Some d) -> d_names d <> [] ->
  k_usecols k = Some ColsNone -> k_names k = None ->
  lazy_textpack word preferred src parselines k = Err TypeError.
Proof. exact C35_usecols_none_proof. Qed.
Print Assumptions C35_usecols_none.

Example C35_usecols_none_ex :
  forall (word : N -> bool) (cp : codec),
  lazy_textpack word cp (mksource false (lit "t;x" ++ [10%N] ++ lit "1;2") 0 []) 25
    (mkkwargs None None None (Some ColsNone) None None None None None) = Err TypeError.
Proof. intros word cp. vm_compute. reflexivity. Qed.

(** A stream not at its beginning: the format is derived from where it stands, but
textpack reads from the beginning, so skiprows counts from the wrong line. *)
Theorem C35_position_refuted :
forall (word : N -> bool) (cp : codec),
let text := lit "head" ++ [10%N] ++ lit "t;x" ++ [10%N] ++ lit "1;2" ++ [10%N] in
let src := mksource false text 5 [] in
match lazy_textpack word cp src 25 no_kwargs with
| Ok p => p_names p = [(0%Z, VStr (lit "t")); (1%Z, VStr (lit "x"))] /\
          dget 0%Z (p_data p) = Some (mkarr KU [VStr (lit "t"); VStr (lit "1")])
| Err _ => False
end.
Proof. exact C35_position_refuted_proof. Qed.
Print Assumptions C35_position_refuted.

