(** * What the bytes of a DBF field stand for: the property theorems *)

From Coq Require Import ZifyBool ZifyNat ZifyN QArith.
From Verif Require Import PyBase PyBaseFacts PyFloat NumPy SpecArray ArrayFacts Pack PackProofs Dbf SpecPack SpecDbf DbfProofs DbfSelect DbfExamples DbfThms SpecNumber NumberProofs TextProofs SpecNumeral NumeralProofs SpecField FieldProofs FieldThms.
Open Scope nat_scope.
From Coq Require Import Reals ZifyBool ZifyNat ZifyN.
Open Scope nat_scope.

(** Every value the full reader delivers is the one the grammar gives to the bytes of its field,
whatever these bytes are. *)
Theorem C78_values :
forall f g f', dbfreader f = Ok g -> g_end g = Ok f' ->
  let start := f_pos f + 33 + 32 * length (g_names g) in
  let len := 1 + list_sum (map (fun x => snd (fst x)) (g_specs g)) in
  let n := Z.to_nat (u32_at (f_bytes f) (f_pos f + 4)) in
  let alive := filter (fun i => space_at (f_bytes f) (start + i * len)) (seq 0 n) in
  length (g_rows g) = length alive /\
  forall r row, nth_error (g_rows g) r = Some row ->
  exists i, nth_error alive r = Some i /\ length row = length (g_specs g) /\
  forall j typ size deci v, nth_error (g_specs g) j = Some (typ, size, deci) -> nth_error row j = Some v ->
  field_value typ deci (field_at (f_bytes f) start (g_specs g) i j) v.
Proof. exact C78_values_proof. Qed.
Print Assumptions C78_values.

(** A number with an underscore, one with a power of ten, a date with blanks. *)
Example C78_values_ex :
  let b := sample_header [mkfield (lit "A") 78 4 0; mkfield (lit "B") 70 4 0; mkfield (lit "DAY") 68 8 0] 1 ++
           lit " +1_02e+12020 1+9" in
  match dbfreader (mkfile b 0) with
  | Ok g => is_ok (g_end g) = true /\
      g_rows g = [[VInt 10; VFloat (S754_finite false 5629499534213120 (-48)); VDate 2020 1 9]]
  | Err _ => False
  end /\
  field_value 78 0 (lit "+1_0") (VInt 10).
Proof.
  split; [vm_compute; split; reflexivity|]. apply conv_value. vm_compute. reflexivity.
Qed.

(** A file with all its records, of which every field of every record that is not deleted has a
value, is read to its end. *)
Theorem C78_read :
forall f g, dbfreader f = Ok g ->
  let start := f_pos f + 33 + 32 * length (g_names g) in
  let len := 1 + list_sum (map (fun x => snd (fst x)) (g_specs g)) in
  let n := Z.to_nat (u32_at (f_bytes f) (f_pos f + 4)) in
  nth_error (f_bytes f) (start - 1) = Some 13%N -> start + n * len <= length (f_bytes f) ->
  (forall i j, i < n -> space_at (f_bytes f) (start + i * len) = true -> ~ meaningless (f_bytes f) start (g_specs g) i j) ->
  exists f', g_end g = Ok f'.
Proof. exact C78_read_proof. Qed.
Print Assumptions C78_read.

(** A field of blanks and NULs, a word in a logical field; the deleted record has
    a number that is none. *)
Example C78_read_ex :
  let b := sample_header [mkfield (lit "A") 78 3 2; mkfield (lit "B") 76 2 0] 2 ++ (32 :: 0 :: 32 :: 0 :: lit "no")%N ++ lit "*--/yT" in
  match dbfreader (mkfile b 0) with
  | Ok g => nth_error b 96 = Some 13%N /\ is_ok (g_end g) = true /\ g_rows g = [[VFloat fnan; VStr (lit "?")]] /\
      meaningless b 97 (g_specs g) 1 0
  | Err _ => False
  end.
Proof.
  vm_compute dbfreader. cbv iota zeta beta. split; [vm_compute; reflexivity|]. split; [vm_compute; reflexivity|]. split; [vm_compute; reflexivity|].
  exists 78%N, 3, 2%N. split; [reflexivity|]. intros v H. apply conv_value in H. vm_compute in H. discriminate H.
Qed.

(** The first field without value, among the records that are not deleted, ends the reading after the
rows before it: with ValueError for a number or a date, with UnicodeDecodeError for text. So does
dbfpack end. *)
Theorem C78_refused :
forall f g i j typ size deci, dbfreader f = Ok g ->
  let start := f_pos f + 33 + 32 * length (g_names g) in
  let len := 1 + list_sum (map (fun x => snd (fst x)) (g_specs g)) in
  let n := Z.to_nat (u32_at (f_bytes f) (f_pos f + 4)) in
  let e := if existsb (N.eqb typ) [78; 70; 68]%N then ValueError else UnicodeError in
  nth_error (f_bytes f) (start - 1) = Some 13%N -> start + n * len <= length (f_bytes f) ->
  i < n -> space_at (f_bytes f) (start + i * len) = true ->
  nth_error (g_specs g) j = Some (typ, size, deci) -> meaningless (f_bytes f) start (g_specs g) i j ->
  (forall h k, h < i -> space_at (f_bytes f) (start + h * len) = true -> ~ meaningless (f_bytes f) start (g_specs g) h k) ->
  (forall k, k < j -> ~ meaningless (f_bytes f) start (g_specs g) i k) ->
  g_end g = Err e /\ length (g_rows g) = length (filter (fun h => space_at (f_bytes f) (start + h * len)) (seq 0 i)) /\
  forall fname, dbfpack f [] fname = Err e.
Proof. exact C78_refused_proof. Qed.
Print Assumptions C78_refused.

(** The second record has a number with a letter O; the third is not reached. *)
Example C78_refused_ex :
  let b := sample_header [mkfield (lit "A") 78 3 0; mkfield (lit "B") 67 1 0] 3 ++ lit "  12x" ++ lit " 1O y" ++ lit " 555z" in
  match dbfreader (mkfile b 0) with
  | Ok g => nth_error b 96 = Some 13%N /\ g_end g = Err ValueError /\ g_rows g = [[VInt 12; VStr (lit "x")]] /\
      meaningless b 97 (g_specs g) 1 0 /\ dbfpack (mkfile b 0) [] [] = Err ValueError
  | Err _ => False
  end.
Proof.
  vm_compute dbfreader. cbv iota zeta beta. split; [vm_compute; reflexivity|]. split; [vm_compute; reflexivity|]. split; [vm_compute; reflexivity|].
  split; [|vm_compute; reflexivity].
  exists 78%N, 3, 0%N. split; [reflexivity|]. intros v H. apply conv_value in H. vm_compute in H. discriminate H.
Qed.

(** With names of fields, only the fields of these names have to have values: the reader gives the
values of these fields, whatever the others hold. As in C37, the last field is among them, or no
record is deleted. *)
Theorem C78_selected :
forall f names g full, dbfrecords f names = Ok g -> dbfreader f = Ok full ->
  let start := f_pos f + 33 + 32 * length (g_names full) in
  let len := 1 + list_sum (map (fun x => snd (fst x)) (g_specs full)) in
  let n := Z.to_nat (u32_at (f_bytes f) (f_pos f + 4)) in
  let alive := filter (fun i => space_at (f_bytes f) (start + i * len)) (seq 0 n) in
  let wanted j := j < length (g_names full) /\ In (nth j (g_names full) []) names in
  nth_error (f_bytes f) (start - 1) = Some 13%N -> start + n * len <= length (f_bytes f) ->
  In (last (g_names full) []) names \/ length alive = n ->
  (forall i j, In i alive -> wanted j -> ~ meaningless (f_bytes f) start (g_specs full) i j) ->
  exists js f', (forall j, In j js <-> wanted j) /\ (forall a b, a < b < length js -> nth a js 0 < nth b js 0) /\
    g_end g = Ok f' /\
    g_names g = map (fun j => nth j (g_names full) []) js /\
    Forall2 (fun i row =>
      Forall2 (fun j v => exists typ size deci, nth_error (g_specs full) j = Some (typ, size, deci) /\
        field_value typ deci (field_at (f_bytes f) start (g_specs full) i j) v) js row) alive (g_rows g).
Proof. exact C78_selected_proof. Qed.
Print Assumptions C78_selected.

(** The field that is not asked for has no value; the full reader raises. *)
Example C78_selected_ex :
  let b := sample_header [mkfield (lit "A") 78 3 0; mkfield (lit "B") 67 1 0] 2 ++ lit " 1O y" ++ lit "  12x" in
  match dbfreader (mkfile b 0), dbfrecords (mkfile b 0) [lit "B"] with
  | Ok full, Ok g => g_end full = Err ValueError /\ meaningless b 97 (g_specs full) 0 0 /\
      is_ok (g_end g) = true /\ g_names g = [lit "B"] /\ g_rows g = [[VStr (lit "y")]; [VStr (lit "x")]]
  | _, _ => False
  end.
Proof.
  vm_compute dbfreader. vm_compute dbfrecords. cbv iota zeta beta. split; [vm_compute; reflexivity|]. split.
  - exists 78%N, 3, 0%N. split; [reflexivity|]. intros v H. apply conv_value in H. vm_compute in H. discriminate H.
  - split; [vm_compute; reflexivity|]. split; vm_compute; reflexivity.
Qed.

