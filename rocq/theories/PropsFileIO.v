(** * What reading does to the file (C73): the property theorems *)

From Coq Require Import ZifyBool ZifyNat ZifyN QArith.
From Verif Require Import PyBase PyFloat PyText NumPy Pack ReadText Preparse Dbf FileIO SpecIO FileIOProofs FileIOThms.
Open Scope nat_scope.
Open Scope nat_scope.

(** textpack with the name of a file closes the file it opened, whether it returns or
raises and whatever raises, once contextopen has read its first character; and
what it returns or raises is what the text of the file calls for, or the
exception of the call on the file that raised. *)
Theorem C73_text_named :
forall fl t name a, first_calls_work fl ->
exists w r, textpack_named fl (Ok t) name a = (Some w, r) /\ h_open (w_file w) = false /\
  same_object (mkhandle false t 0 name true) w /\
  as_told fl w r (textpack (mksource false t 0 name) a).
Proof. exact C73_text_named_proof. Qed.
Print Assumptions C73_text_named.

Example C73_text_named_ex : exists w e, textpack_named (fun k => if k =? 5 then Some UnicodeError else None)
    (Ok (lit "1 2" ++ [10%N] ++ lit "3 4" ++ [10%N] ++ lit "5 6")) (lit "f.txt") targs0 = (Some w, Err e) /\
  h_open (w_file w) = false /\ h_pos (w_file w) = 8 /\ e = UnicodeError.
Proof.
  eexists. eexists. split; [vm_compute; reflexivity | split; [reflexivity | split; reflexivity]].
Qed.

(** textpack with a stream leaves the stream open, whether it returns or raises; after
it has returned nothing is left to read. *)
Theorem C73_text_stream :
forall fl h a, h_open h = true ->
exists w r, textpack_stream fl h a = (w, r) /\ h_open (w_file w) = true /\ same_object h w /\
  as_told fl w r (textpack (mksource (h_bytes h) (h_text h) (h_pos h) (h_name h)) a) /\
  (forall p, r = Ok p -> read_up w).
Proof. exact C73_text_stream_proof. Qed.
Print Assumptions C73_text_stream.

Example C73_text_stream_ex : exists w p, textpack_stream (fun _ => None) (mkhandle true (lit "x" ++ [10%N] ++ lit "1 2" ++ [10%N] ++ lit "3 4") 2 [] true) targs0 = (w, Ok p) /\
  h_open (w_file w) = true /\ h_pos (w_file w) = 9 /\ w_ops w = 6.
Proof.
  eexists. eexists. split; [vm_compute; reflexivity | split; [reflexivity | split; reflexivity]].
Qed.

(** lazy_textpack with the name of a file: the same. *)
Theorem C73_lazy_named :
forall fl word preferred t name parselines k, first_calls_work fl ->
exists w r, lazy_named fl word preferred (Ok t) name parselines k = (Some w, r) /\ h_open (w_file w) = false /\
  same_object (mkhandle false t 0 name true) w /\
  as_told fl w r (lazy_textpack word preferred (mksource false t 0 name) parselines k).
Proof. exact C73_lazy_named_proof. Qed.
Print Assumptions C73_lazy_named.

Example C73_lazy_named_ex : exists w, lazy_named (fun _ => None) (fun _ => true) (mkcodec (fun b => Ok b) (fun s => Ok s)) (Ok (lit "no numbers" ++ [10%N])) (lit "f.txt") 25 no_kwargs = (Some w, Err ValueError) /\
  h_open (w_file w) = false.
Proof.
  eexists. split; [vm_compute; reflexivity | reflexivity].
Qed.

(** lazy_textpack with a stream: the same, and the data are read from the start of the
stream, wherever it stood. *)
Theorem C73_lazy_stream :
forall fl word preferred h parselines k, h_open h = true ->
exists w r, lazy_stream fl word preferred h parselines k = (w, r) /\ h_open (w_file w) = true /\ same_object h w /\
  as_told fl w r (lazy_textpack word preferred (mksource (h_bytes h) (h_text h) (h_pos h) (h_name h)) parselines k) /\
  (forall p, r = Ok p -> read_up w).
Proof. exact C73_lazy_stream_proof. Qed.
Print Assumptions C73_lazy_stream.

Example C73_lazy_stream_ex : exists w p, lazy_stream (fun _ => None) (fun _ => true) (mkcodec (fun b => Ok b) (fun s => Ok s))
    (mkhandle true (lit "x;y" ++ [10%N] ++ lit "1;2" ++ [10%N] ++ lit "3;4") 0 [] true) 25 no_kwargs = (w, Ok p) /\
  h_open (w_file w) = true /\ h_pos (w_file w) = 11 /\ w_ops w = 36 /\ p_data p <> [].
Proof.
  eexists. eexists. split; [vm_compute; reflexivity | split; [reflexivity | split; [reflexivity | split; [reflexivity | discriminate]]]].
Qed.

(** dbfpack with the name of a file closes the file it opened, whether it returns or
raises and whatever raises, once contextopen has read its first byte. *)
Theorem C73_dbf_named :
forall fl b name names, first_calls_work fl ->
exists w r, dbfpack_named fl (Ok b) name names = (Some w, r) /\ h_open (w_file w) = false /\
  same_object (mkhandle true b 0 name true) w /\
  as_told fl w r (dbfpack (mkfile b 0) names name).
Proof. exact C73_dbf_named_proof. Qed.
Print Assumptions C73_dbf_named.

Example C73_dbf_named_ex : exists w, dbfpack_named (fun _ => None) (Ok (lit "not a dbf file")) (lit "f.dbf") [lit "A"] = (Some w, Err StructError) /\
  h_open (w_file w) = false.
Proof.
  eexists. split; [vm_compute; reflexivity | reflexivity].
Qed.

(** dbfpack with a stream leaves the stream open, whether it returns or raises. *)
Theorem C73_dbf_stream :
forall fl h names, h_open h = true ->
exists w r, dbfpack_stream fl h names = (w, r) /\ h_open (w_file w) = true /\ same_object h w /\
  as_told fl w r (dbfpack (mkfile (h_text h) (h_pos h)) names (h_name h)).
Proof. exact C73_dbf_stream_proof. Qed.
Print Assumptions C73_dbf_stream.

Example C73_dbf_stream_ex : exists w p, dbfpack_stream (fun _ => None) (mkhandle true
   ([3; 1; 1; 1; 1; 0; 0; 0; 65; 0; 2; 0] ++ repeat 0 20 ++
    [65; 0; 0; 0; 0; 0; 0; 0; 0; 0; 0; 67; 0; 0; 0; 0; 1; 0] ++ repeat 0 14 ++ [13; 32; 88])%N 0 (lit "g") true) [] = (w, Ok p) /\
  h_open (w_file w) = true /\ h_pos (w_file w) = 67 /\ p_data p = [(0%Z, mkarr KU [VStr (lit "X")])].
Proof.
  eexists. eexists. split; [vm_compute; reflexivity | split; [reflexivity | split; reflexivity]].
Qed.

(** When a call of contextopen itself raises (the codec of the text meets bad bytes at
the first character, say), the file opened by name is not closed: __exit__ never
runs. This for all three functions, all files and all arguments. *)
Theorem C73_first_call_refuted :
forall fl word preferred t name a parselines k names e, fl 0 = None -> fl 1 = Some e ->
(exists w, textpack_named fl (Ok t) name a = (Some w, Err e) /\ h_open (w_file w) = true) /\
(exists w, lazy_named fl word preferred (Ok t) name parselines k = (Some w, Err e) /\ h_open (w_file w) = true) /\
(exists w, dbfpack_named fl (Ok t) name names = (Some w, Err e) /\ h_open (w_file w) = true).
Proof. exact C73_first_call_refuted_proof. Qed.
Print Assumptions C73_first_call_refuted.

Example C73_first_call_refuted_ex : exists fl : faults, fl 0 = None /\ fl 1 = Some UnicodeError /\ fl 2 = None.
Proof.
  exists (fun k => if k =? 1 then Some UnicodeError else None). split; [reflexivity | split; reflexivity].
Qed.

(** A stream that is closed already is refused with ValueError by all three functions
and left as it is. *)
Theorem C73_closed_stream :
forall fl word preferred h a parselines k names, h_open h = false -> fl 0 = None ->
textpack_stream fl h a = (mkworld h 1, Err ValueError) /\
lazy_stream fl word preferred h parselines k = (mkworld h 1, Err ValueError) /\
dbfpack_stream fl h names = (mkworld h 1, Err ValueError).
Proof. exact C73_closed_stream_proof. Qed.
Print Assumptions C73_closed_stream.

Example C73_closed_stream_ex : exists h : handle, h_open h = false /\ h_text h <> [].
Proof.
  exists (mkhandle false (lit "1 2") 0 [] false). split; [reflexivity | discriminate].
Qed.

