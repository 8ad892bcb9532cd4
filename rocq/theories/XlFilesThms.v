(** * What sheetpack leaves open (C74): proofs of the property theorems *)

From Coq Require Import ZifyBool ZifyNat ZifyN QArith.
From Verif Require Import PyBase PyBaseFacts PyText NumPy Pack Dbf ReadXl CompDoc Biff BiffOld FileIO SpecIO FileIOProofs XlFiles XlFilesProofs.
Open Scope nat_scope.
Open Scope nat_scope.

Lemma no_archive file : firstn 4 file <> [80; 75; 3; 4]%N -> str_eqb (bytes_at 0 4 file) [80; 75; 3; 4]%N = false.
Proof.
  intros H. unfold bytes_at. rewrite skipn_O.
  destruct (str_eqb (firstn 4 file) [80; 75; 3; 4]%N) eqn:E; [|reflexivity].
  exfalso. apply H. apply str_eqb_eq. exact E.
Qed.

Lemma C74_xls_proof :
forall fl dec use_mmap same file zipped fname which header startcell stopcell usecols,
firstn 4 file <> [80; 75; 3; 4]%N ->
exists s r,
  sheetpack_files fl dec use_mmap same file zipped fname which header startcell stopcell usecols os_start = (s, r) /\
  os_files s = 0 /\ os_map s = false /\ os_zip s = false /\
  came_out fl (os_calls s) r (sheetpack_dec dec file fname which header startcell stopcell usecols).
Proof.
intros fl dec mm same file zipped fname which header startcell stopcell usecols NZ.
destruct (sheetpack_files fl dec mm same file zipped fname which header startcell stopcell usecols os_start) as [s r] eqn:R.
exists s, r. split; [reflexivity|].
assert (U : unmapped os_start) by reflexivity.
destruct (psim_sheetpack fl dec mm same file zipped fname which header startcell stopcell usecols (no_archive file NZ) os_start s r U R)
  as (H & _ & F & Zp & _ & D).
split; [exact F|].
assert (M : os_map s = false).
{ destruct r as [p|e] eqn:Er.
  - destruct (psim_sheetpack fl dec mm same file zipped fname which header startcell stopcell usecols (no_archive file NZ) os_start s r U ltac:(rewrite Er; exact R)) as (_ & J & _). exact (J ltac:(rewrite Er; reflexivity)).
  - exact (raised_unmapped fl dec mm same file zipped fname which header startcell stopcell usecols s e (no_archive file NZ) R). }
split; [exact M | split; [exact Zp|]].
destruct D as [(k & e & K1 & _ & K3 & K4 & K5) | [Q V]].
- left. exists k, e. split; [exact K1 | split; [exact K3 | split; [|exact K5]]]. intros j J. apply K4. cbn. lia.
- right. split; [|exact V]. intros j J. apply Q. cbn. lia.
Qed.

Lemma C74_archive_refuted_proof :
forall fl dec use_mmap same file zipped fname which header startcell stopcell usecols r1 r2,
firstn 4 file = [80; 75; 3; 4]%N -> fl 0 = None -> fl 1 = None -> fl 2 = None ->
cellreference 0 0 startcell = Ok r1 -> cellreference 0 0 stopcell = Ok r2 ->
exists s, sheetpack_files fl dec use_mmap same file zipped fname which header startcell stopcell usecols os_start =
    (s, do wb <- zipped; sheetpack wb fname which header startcell stopcell usecols) /\
  os_zip s = true /\ os_files s = 0 /\ os_map s = false.
Proof.
intros fl dec mm same file zipped fname which header startcell stopcell usecols r1 r2 Zp F0 F1 F2 R1 R2.
assert (E : str_eqb (bytes_at 0 4 file) [80; 75; 3; 4]%N = true).
{ unfold bytes_at. rewrite skipn_O, Zp. reflexivity. }
unfold sheetpack_files, open_files. unfold next at 1, just at 1. rewrite R1. unfold next at 1, just at 1. rewrite R2.
rewrite E. unfold next, just, with_open, oscall, os_start, set_files, set_zip. unfold next.
cbn [os_calls os_files os_map os_zip os_mem os_filestr]. rewrite F0. cbn [os_calls os_files os_map os_zip os_mem os_filestr]. rewrite F1.
cbn [os_calls os_files os_map os_zip os_mem os_filestr]. rewrite F2.
destruct zipped as [wb|e]; (eexists; split; [reflexivity | split; [reflexivity | split; reflexivity]]).
Qed.

