(** * What sheetpack leaves open (C74): the property theorems *)

From Coq Require Import ZifyBool ZifyNat ZifyN QArith.
From Verif Require Import PyBase PyBaseFacts PyText NumPy Pack Dbf ReadXl CompDoc Biff BiffOld FileIO SpecIO FileIOProofs XlFiles XlFilesProofs XlFilesThms.
Open Scope nat_scope.
Open Scope nat_scope.

(** After sheetpack with the name of a file that is no archive neither a file nor a
memory map is open, whether it returned or raised and whichever call raised what;
and what it returns or raises is what the content of the file calls for, or the
exception of the call that raised. *)
Theorem C74_xls :
forall fl dec use_mmap same file zipped fname which header startcell stopcell usecols,
firstn 4 file <> [80; 75; 3; 4]%N ->
exists s r,
  sheetpack_files fl dec use_mmap same file zipped fname which header startcell stopcell usecols os_start = (s, r) /\
  os_files s = 0 /\ os_map s = false /\ os_zip s = false /\
  came_out fl (os_calls s) r (sheetpack_dec dec file fname which header startcell stopcell usecols).
Proof. exact C74_xls_proof. Qed.
Print Assumptions C74_xls.

Example C74_xls_ex :
  (exists s, (let+ _ := load_files (fun _ => None) true true (lit "abc") in just (Ok tt)) os_start = (s, Ok tt) /\ os_map s = true) /\
  (exists s, sheetpack_files (fun _ => None) (fun _ b => Ok b) true true (lit "abc") (Err KeyError) (lit "f.xls")
               (OInt 0) (OBool true) None None ONone os_start = (s, Err XLRDError) /\ os_calls s = 7 /\ os_map s = false).
Proof.
  split; eexists; (split; [vm_compute; reflexivity | try split; reflexivity]).
Qed.

(** After sheetpack with the name of an archive that could be opened, the archive is
still open, whatever came out: no code closes it. The file itself and the memory
map are not open. *)
Theorem C74_archive_refuted :
forall fl dec use_mmap same file zipped fname which header startcell stopcell usecols r1 r2,
firstn 4 file = [80; 75; 3; 4]%N -> fl 0 = None -> fl 1 = None -> fl 2 = None ->
cellreference 0 0 startcell = Ok r1 -> cellreference 0 0 stopcell = Ok r2 ->
exists s, sheetpack_files fl dec use_mmap same file zipped fname which header startcell stopcell usecols os_start =
    (s, do wb <- zipped; sheetpack wb fname which header startcell stopcell usecols) /\
  os_zip s = true /\ os_files s = 0 /\ os_map s = false.
Proof. exact C74_archive_refuted_proof. Qed.
Print Assumptions C74_archive_refuted.

Example C74_archive_refuted_ex : exists fl : faults, exists r1 r2, fl 0 = None /\ fl 1 = None /\ fl 2 = None /\
  cellreference 0 0 (Some (lit "B2")) = Ok r1 /\ cellreference 0 0 None = Ok r2 /\
  firstn 4 ([80; 75; 3; 4]%N ++ lit "...") = [80; 75; 3; 4]%N.
Proof.
  exists (fun _ => None). eexists. eexists.
  split; [reflexivity | split; [reflexivity | split; [reflexivity | split; [vm_compute; reflexivity | split; [vm_compute; reflexivity | reflexivity]]]]].
Qed.

