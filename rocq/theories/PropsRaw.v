(** * Bytes without an encoding (C75): the property theorems *)

From Coq Require Import ZifyBool ZifyNat ZifyN QArith.
From Verif Require Import PyBase PyBaseFacts PyFloat PyText NumPy Pack ReadText SpecArray ArrayFacts SpecRaw RawThms.
Open Scope nat_scope.
Open Scope nat_scope.

(** Whenever bytes are read with an encoding, they are read without one: the pack has
the same channels in the same order, and the same mask and file name; channels
that are no text are the same; channels and names that are text consist of bytes
instead, which decode to the text. (In channels numpy drops NULs at the end of
both.) *)
Theorem C75_raw :
forall c src a p, src_bytes src = true -> t_encoding a = Some c -> t_debug a = false ->
textpack src a = Ok p ->
exists p', textpack src (without_encoding a) = Ok p' /\
  Forall2 (fun x y => fst x = fst y /\ undecoded c (snd x) (snd y)) (p_data p) (p_data p') /\
  Forall2 (fun x y => fst x = fst y /\ (snd x = snd y \/ text_of c (snd x) (snd y))) (p_names p) (p_names p') /\
  p' = mkpack (p_data p') (p_names p') (p_mask p) (p_cache p) (p_nof p) (p_mindur p) (p_prefix p) (p_fn p) (p_files p).
Proof. exact C75_raw_proof. Qed.
Print Assumptions C75_raw.

Example C75_raw_ex :
  let src := mksource true (lit "t;caf" ++ [233; 10]%N ++ lit "1;" ++ [252; 10]%N ++ lit "2;b" ++ [0%N]) 0 (lit "f.txt") in
  let a := mktargs [] (Some (lit ";")) 1 ColsNone true (Some (mkcodec (fun s => Ok s) (fun s => Ok s))) [] false false in
  match textpack src a, textpack src (without_encoding a) with
  | Ok p, Ok p' =>
      p_data p = [(0%Z, mkarr Kf [VFloat (float_of_Z 1); VFloat (float_of_Z 2)]); (1%Z, mkarr KU [VStr [252%N]; VStr (lit "b")])] /\
      p_data p' = [(0%Z, mkarr Kf [VFloat (float_of_Z 1); VFloat (float_of_Z 2)]); (1%Z, mkarr KS [VBytes [252]%N; VBytes (lit "b")])] /\
      p_names p' = [(0%Z, VBytes (lit "t")); (1%Z, VBytes (lit "caf" ++ [233]%N))]
  | _, _ => False
  end.
Proof. vm_compute. auto. Qed.

(** When reading with an encoding raises an exception, then some bytes do not decode,
with this exception, or reading without the encoding raises the same exception. *)
Theorem C75_raw_error :
forall c src a e, src_bytes src = true -> t_encoding a = Some c -> t_debug a = false ->
textpack src a = Err e ->
(exists b, decode c b = Err e) \/ textpack src (without_encoding a) = Err e.
Proof. exact C75_raw_error_proof. Qed.
Print Assumptions C75_raw_error.

(** Bytes above 127 do not decode as ASCII. *)
Example C75_raw_error_ex :
  let ascii := mkcodec (fun s => if forallb (fun b => N.ltb b 128) s then Ok s else Err UnicodeError) (fun s => Ok s) in
  let src := mksource true (lit "1;caf" ++ [233; 10]%N) 0 (lit "f.txt") in
  let a := mktargs [] (Some (lit ";")) 0 ColsNone false (Some ascii) [] false false in
  textpack src a = Err UnicodeError /\ exists p, textpack src (without_encoding a) = Ok p.
Proof. split; [vm_compute; reflexivity | eexists; vm_compute; reflexivity]. Qed.

