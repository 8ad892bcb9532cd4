(** * Numbers in text and dBASE files: the property theorems *)

From Coq Require Import ZifyBool ZifyNat ZifyN QArith.
From Verif Require Import PyBase PyBaseFacts PyFloat PyText NumPy SpecArray ArrayFacts Pack PackProofs Dbf SpecPack SpecDbf DbfProofs DbfExamples DbfThms ReadText SpecChars CharFacts SpecText TextProofs ReadTextThms SpecNumber NumberProofs NumberThms.
Open Scope nat_scope.
From Coq Require Import Reals Lra.
Open Scope nat_scope.

(** Every decimal has exactly one nearest double. *)
Theorem C60_one_nearest :
forall t neg x, decimal t neg x -> exists f, nearest neg x f /\ forall g, nearest neg x g -> g = f.
Proof. exact C60_one_nearest_proof. Qed.
Print Assumptions C60_one_nearest.

(** Signs, powers, and points anywhere. *)
Example C60_one_nearest_ex : exists x y z,
  decimal (lit "-12.50") true x /\ decimal (lit "+.5e-3") false y /\ decimal (lit "7E+10") false z.
Proof.
  do 3 eexists. split; [|split].
  - apply (dec_text (lit "-") true (lit "12.50") (lit "12") (lit "50") [] 0); [constructor| |constructor].
    apply (dg_point (lit "12") (lit "50")); [| |discriminate]; repeat constructor; discriminate.
  - apply (dec_text (lit "+") false (lit ".5") [] (lit "5") (lit "e-3") (-3)); [constructor| |].
    + apply (dg_point [] (lit "5")); [| |discriminate]; repeat constructor; discriminate.
    + apply (pw_some 101 (lit "-") true (lit "3")); [auto|constructor| |discriminate]. repeat constructor; discriminate.
  - apply (dec_text [] false (lit "7") (lit "7") [] (lit "E+10") 10); [constructor| |].
    + apply dg_plain; [|discriminate]. repeat constructor; discriminate.
    + apply (pw_some 69 (lit "+") false (lit "10")); [auto|constructor| |discriminate]. repeat constructor; discriminate.
Qed.

(** A text table of decimals, with decimal points or decimal commas, is read as
float channels; every element is the double nearest to the decimal written. *)
Theorem C60_text_decimals :
forall (x : N) (comma : bool) (row0 : list str) (rows : list (list str)) (name : str),
  let a := mktargs [] (Some [x]) 0 ColsNone false None [] false false in
  let write := map (map (fun c => if comma then if N.eq_dec c 46 then 44%N else c else c)) in
  ~ white x -> ~ In x (lit "0123456789+-eE") -> x <> (if comma then 44%N else 46%N) ->
  Forall (fun r => length r = length row0) rows -> 1 <= length row0 ->
  Forall (Forall (fun t => exists neg v, decimal t neg v)) (row0 :: rows) ->
  (comma = true -> exists t, In t row0 /\ In 46%N t) ->
  exists p,
    textpack (mksource false (concat (map (fun r => join [x] r ++ [10%N]) (map write (row0 :: rows)))) 0 name) a = Ok p /\
    map fst (p_data p) = map Z.of_nat (seq 0 (length row0)) /\
    forall c r row t neg v, nth_error (row0 :: rows) r = Some row -> nth_error row c = Some t -> decimal t neg v ->
      exists ch f, dget (Z.of_nat c) (p_data p) = Some ch /\ akind ch = Kf /\ length (aelems ch) = S (length rows) /\
                   nth_error (aelems ch) r = Some (VFloat f) /\ nearest neg v f.
Proof. exact C60_text_decimals_proof. Qed.
Print Assumptions C60_text_decimals.

(** Decimal commas, semicolons, signs and powers: the double nearest to 1,1 is
    0x1.199999999999ap+0. *)
Example C60_text_decimals_ex :
  match textpack (mksource false (lit "1,1;-2" ++ [10%N] ++ lit "+.5e1;1E400" ++ [10%N]) 0 (lit "f"))
          (mktargs [] (Some (lit ";")) 0 ColsNone false None [] false false) with
  | Err _ => False
  | Ok p => p_data p = [(0%Z, mkarr Kf [VFloat (S754_finite false 4953959590107546 (-52)); VFloat (float_of_Z 5)]);
                        (1%Z, mkarr Kf [VFloat (float_of_Z (-2)); VFloat (S754_infinity false)])]
  end /\ decimal (lit "1.1") false (IZR 11 * powerRZ 10 (0 - 1)).
Proof.
  split; [vm_compute; reflexivity|].
  apply (dec_text [] false (lit "1.1") (lit "1") (lit "1") [] 0); [constructor| |constructor].
  apply (dg_point (lit "1") (lit "1")); [| |discriminate]; repeat constructor; discriminate.
Qed.

(** In a dBASE file a decimal of a number or float field is read as the double
nearest to it. *)
Theorem C60_dbase_decimals :
forall fds recs b fname i r cs neg ip fp, encodes fds recs b -> i < length fds ->
  nth_error (live recs) r = Some cs -> nth_error cs i = Some (CDec neg ip fp) ->
  exists p ch f, dbfpack (mkfile b 0) [] fname = Ok p /\
    dget (Z.of_nat i) (p_data p) = Some ch /\ akind ch = Kf /\ length (aelems ch) = length (live recs) /\
    nth_error (aelems ch) r = Some (VFloat f) /\
    nearest neg (IZR (dec_value (ip ++ fp)) * powerRZ 10 (- Z.of_nat (length fp))) f.
Proof. exact C60_dbase_decimals_proof. Qed.
Print Assumptions C60_dbase_decimals.

(** A float field of width 5: 0.1 in the first record, nothing in the second. *)
Example C60_dbase_decimals_ex :
  let fds := [mkfield (lit "X") 70 5 1] in
  let recs := [Some [CDec false (lit "0") (lit "1")]; Some [CBlank]] in
  let b := sample_header fds 2 ++ lit "   0.1      " in
  encodes fds recs b /\
  match dbfpack (mkfile b 0) [] (lit "f.dbf") with
  | Ok p => p_data p = [(0%Z, mkarr Kf [VFloat (S754_finite false 7205759403792794 (-56)); VFloat fnan])]
  | Err _ => False
  end.
Proof.
  split; [|vm_compute; reflexivity].
  exists (sample_header [mkfield (lit "X") 70 5 1] 2), (lit "   0.1      "), [].
  split; [|split; [|reflexivity]].
  - exists (zeros 4), (zeros 22), (sample_descr (mkfield (lit "X") 70 5 1) ++ []).
    split; [reflexivity|]. split; [reflexivity|]. split; [|repeat split].
    unfold sample_descr. rewrite <- !app_assoc. apply ef_cons; [|reflexivity|reflexivity|constructor].
    split; [simpl; lia|repeat constructor].
  - change (lit "   0.1      ") with (32%N :: ((lit "  " ++ SpecDbf.dec_text false (lit "0") (lit "1") ++ []) ++ []) ++
      32%N :: (lit "     " ++ []) ++ []).
    constructor; [|constructor; [|constructor]].
    + constructor; [|reflexivity|constructor]. apply holds_F; [repeat constructor; right; reflexivity|constructor| | |discriminate];
        repeat constructor; discriminate.
    + constructor; [|reflexivity|constructor]. apply holds_F_blank. repeat constructor; right; reflexivity.
Qed.

