(** * Which texts are numbers: the property theorems *)

From Coq Require Import ZifyBool ZifyNat ZifyN QArith.
From Verif Require Import PyBase PyBaseFacts PyFloat PyText NumPy SpecArray ArrayFacts Pack PackProofs SpecPack SpecDbf DbfProofs DbfThms ReadText SpecChars CharFacts SpecText TextProofs ReadTextThms SpecNumber NumberProofs NumberThms SpecNumeral NumeralProofs NumeralThms.
Open Scope nat_scope.
From Coq Require Import Reals.
Open Scope nat_scope.

(** In a text table, a column whose first field is a number, with a decimal point or a decimal
comma, is a float channel: every field is the double nearest to the number written, or nan
for an empty one. Any other column is not a float channel. *)
Theorem C77_columns :
forall src a m row0 rows p c ch,
  m = reading_mode (src_bytes src) (t_encoding a) ->
  t_names a = [] -> t_hasnames a = false -> t_debug a = false -> t_converters a = [] -> t_usecols a = ColsNone ->
  table_after src (Z.to_nat (t_skiprows a)) m (t_delimiter a) row0 rows ->
  textpack src a = Ok p -> dget (Z.of_nat c) (p_data p) = Some ch ->
  let commas := exists s, In s row0 /\ ~ is_number m s /\ is_number m (dots s) in
  let first := nth c row0 [] in
  (is_number m first \/ is_number m (dots first) ->
     akind ch = Kf /\
     forall r row, nth_error (row0 :: rows) r = Some row ->
       exists f, nth_error (aelems ch) r = Some (VFloat f) /\
         (nth c row [] = [] /\ f = S754_nan \/
          ~ commas /\ number_in m (nth c row []) f \/
          commas /\ number_in m (dots (nth c row [])) f)) /\
  (~ (is_number m first \/ is_number m (dots first)) -> akind ch <> Kf).
Proof. exact C77_columns_proof. Qed.
Print Assumptions C77_columns.

(** Underscores, capitals, white space and Arabic digits; a column that begins
    with a word. *)
Example C77_columns_ex :
  match textpack (mksource false (lit "1_0;-INF;x;5" ++ [10%N] ++ lit " .5e+1;;7;" ++ [160; 1634; 46; 1637; 10]%N) 0 (lit "f"))
          (mktargs [] (Some (lit ";")) 0 ColsNone false None [] false false) with
  | Ok p => p_data p = [(0%Z, mkarr Kf [VFloat (float_of_Z 10); VFloat (float_of_Z 5)]);
                        (1%Z, mkarr Kf [VFloat (S754_infinity true); VFloat S754_nan]);
                        (2%Z, mkarr KU [VStr (lit "x"); VStr (lit "7")]);
                        (3%Z, mkarr Kf [VFloat (float_of_Z 5); VFloat (S754_finite false 5629499534213120 (-51))])]
  | Err _ => False
  end /\ numeral (lit "1_0") (float_of_Z 10) /\ is_number Text [160; 1634; 46; 1637]%N /\ ~ is_number Text (lit "1__0") /\
  ~ is_number Text (lit "x").
Proof.
  split; [vm_compute; reflexivity|]. split; [apply float_numeral; vm_compute; reflexivity|].
  split; [apply is_number_iff, plain_iff; eexists; vm_compute; reflexivity|].
  split; intro Q; apply is_number_iff, plain_iff in Q; destruct Q as (f & Q); vm_compute in Q; discriminate Q.
Qed.

(** A field that is no number in a column that began with one raises ValueError. *)
Theorem C77_refused :
forall src a m row0 rows row c,
  m = reading_mode (src_bytes src) (t_encoding a) -> src_bytes src = false \/ t_encoding a = None ->
  t_names a = [] -> t_hasnames a = false -> t_debug a = false -> t_converters a = [] -> t_usecols a = ColsNone ->
  table_after src (Z.to_nat (t_skiprows a)) m (t_delimiter a) row0 rows ->
  In row rows -> c < length row0 -> c < length row ->
  is_number m (nth c row0 []) \/ is_number m (dots (nth c row0 [])) ->
  nth c row [] <> [] -> ~ is_number m (nth c row []) ->
  ~ ((exists s, In s row0 /\ ~ is_number m s /\ is_number m (dots s)) /\ is_number m (dots (nth c row []))) ->
  textpack src a = Err ValueError.
Proof. exact C77_refused_proof. Qed.
Print Assumptions C77_refused.

(** A word, a number with two points, and a decimal comma in a table with points. *)
Example C77_refused_ex :
  map (fun s => textpack (mksource false (lit "1.5" ++ [10%N] ++ s) 0 (lit "f"))
          (mktargs [] (Some (lit ";")) 0 ColsNone false None [] false false)) [lit "x"; lit "1.2.3"; lit "1,5"; lit "1 5"]
  = [Err ValueError; Err ValueError; Err ValueError; Err ValueError] /\
  ~ is_number Text (lit "1 5") /\ ~ is_number Text (lit "1,5") /\ is_number Text (lit "1.5").
Proof.
  split; [vm_compute; reflexivity|].
  split; [intro Q; apply is_number_iff, plain_iff in Q; destruct Q as (f & Q); vm_compute in Q; discriminate Q|].
  split; [intro Q; apply is_number_iff, plain_iff in Q; destruct Q as (f & Q); vm_compute in Q; discriminate Q|].
  apply is_number_iff, plain_iff. eexists. vm_compute. reflexivity.
Qed.

