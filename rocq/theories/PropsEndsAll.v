(** * Opening any file of any version ends (C65): the property theorems *)

From Coq Require Import ZifyBool ZifyNat ZifyN QArith.
From Verif Require Import PyBase PyFloat PyBaseFacts Dbf SpecDbf DbfProofs XlStruct CompDoc SpecCompDoc CompDocProofs CompDocThms SpecSst Sst SpecDoc DocProofs DocThms ReadXl SpecBiff Biff BiffProofs EndsThms BiffOld SpecSound EndsOld EndsAllThms.
Open Scope nat_scope.
Open Scope nat_scope.
Open Scope Z_scope.

(** A record. *)
Definition rec (code : Z) (data : str) : str := le_bytes 2 code ++ le_bytes 2 (Z.of_nat (length data)) ++ data.
(** A workbook of BIFF4W with a sheet A, whose SHEETHDR record says that it has
    this many bytes. *)
Definition sheets_4w (len : Z) : str :=
  rec 0x409 [0; 0; 0; 1; 0; 0]%N ++ rec 0x42 (le_bytes 2 1252) ++ rec 0x8e (le_bytes 4 0)
  ++ rec 0x85 (1%N :: lit "A") ++ rec 0x8f (le_bytes 4 len ++ 1%N :: lit "A")
  ++ rec 0x409 [0; 0; 16; 0; 0; 0]%N ++ rec 0x0a [] ++ rec 0x0a [].
Definition same_text : decoder := fun _ raw => Ok raw.

(** Opening ends for files of BIFF 2 to 7 too, whatever the code pages mean, if decoding
ends: when it does not, the file is a compound document as in C65_ends, or its stream
has a SHEETHDR record with a negative length. *)
Theorem C65_all_ends :
forall dec file, (forall page raw, dec page raw <> Err NonTermination) ->
open_workbook_dec dec file = Err NonTermination ->
(exists cd d name, firstn 8 file = [208; 207; 17; 224; 161; 177; 26; 225]%N /\ init file false = Ok cd /\
  In d (cd_dirlist cd) /\ dn_etype d = 2 /\ In name [lit "workbook"; lit "book"] /\ lower_name (dn_name d) = name /\
  dn_size d < cd_min_std cd /\ goes_round (cd_SSAT cd) (dn_first d)) \/
exists mem base, load file = Ok (mem, base) /\ turns_back mem.
Proof. exact C65_all_ends_proof. Qed.
Print Assumptions C65_all_ends.

Example C65_all_ends_ex : (exists bk, open_workbook_dec same_text (sheets_4w 14) = Ok bk /\ bk_names bk = [lit "A"]) /\
  open_workbook_dec same_text (sheets_4w 900) = Err StructError /\ turns_back (sheets_4w (-16)) /\
  open_workbook_dec same_text (sheets_4w (-16)) = Err NonTermination.
Proof.
  split; [eexists; split; [vm_compute; reflexivity|reflexivity]|]. split; [vm_compute; reflexivity|]. split; [|vm_compute; reflexivity].
  exists 30, 240%N, 255%N, 255%N, 255%N, (1%N :: lit "A"), 40. split; [|vm_compute; discriminate].
  exact (record_here (sheets_4w (-16)) 30 143 0 6 0 eq_refl).
Qed.

(** And it need not end then: in such a file of 58 bytes the reader goes back for ever, adding one
name and one sheet each time. *)
Theorem C65_turning_refuted :
exists dec file pos, (forall page raw, dec page raw <> Err NonTermination) /\ length file = 58%nat /\ load file = Ok (file, 0) /\
  getbof file 0 5 = Ok (45, pos) /\ open_workbook_dec dec file = Err NonTermination /\
  forall rounds, old_globals rounds dec file 0 pos (new_obook 45) = Err NonTermination.
Proof. exact C65_turning_refuted_proof. Qed.
Print Assumptions C65_turning_refuted.

