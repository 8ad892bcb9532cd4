(** * Opening any file of any version ends (C65): proofs of the property theorems *)

From Coq Require Import ZifyBool ZifyNat ZifyN QArith.
From Verif Require Import PyBase PyFloat PyBaseFacts Dbf SpecDbf DbfProofs XlStruct CompDoc SpecCompDoc CompDocProofs CompDocThms SpecSst Sst SpecDoc DocProofs DocThms ReadXl SpecBiff Biff BiffProofs EndsThms BiffOld SpecSound EndsOld.
Open Scope nat_scope.
Open Scope nat_scope.
Open Scope Z_scope.

(** A record. *)
Definition rec (code : Z) (data : str) : str := le_bytes 2 code ++ le_bytes 2 (Z.of_nat (length data)) ++ data.
(** A workbook of BIFF4W with a sheet A, whose SHEETHDR record says that it has
    this many bytes. *)
Definition sheets_4w (len : Z) : str :=
  rec 0x409 [0; 0; 0; 1; 0; 0]%N ++ rec 0x42 (le_bytes 2 1252) ++ rec 0x8e (le_bytes 4 0)
  ++ rec 0x85 (1%N :: lit "A") ++ rec 0x8f (le_bytes 4 len ++ 1%N :: lit "A")
  ++ rec 0x409 [0; 0; 16; 0; 0; 0]%N ++ rec 0x0a [] ++ rec 0x0a [].
Definition same_text : decoder := fun _ raw => Ok raw.

Lemma C65_all_ends_proof :
forall dec file, (forall page raw, dec page raw <> Err NonTermination) ->
open_workbook_dec dec file = Err NonTermination ->
(exists cd d name, firstn 8 file = [208; 207; 17; 224; 161; 177; 26; 225]%N /\ init file false = Ok cd /\
  In d (cd_dirlist cd) /\ dn_etype d = 2 /\ In name [lit "workbook"; lit "book"] /\ lower_name (dn_name d) = name /\
  dn_size d < cd_min_std cd /\ goes_round (cd_SSAT cd) (dn_first d)) \/
exists mem base, load file = Ok (mem, base) /\ turns_back mem.
Proof.
intros dec file D. unfold open_workbook_dec. destruct (str_eqb _ _) eqn:PK; [discriminate|].
unfold open_xls_dec. destruct file as [|x c]; [discriminate|].
destruct (load (x :: c)) as [[mem base]|e] eqn:L.
- cbn [bind]. destruct (getbof mem base 5) as [[v pos]|e] eqn:G.
  + cbn [bind]. destruct (v =? 0); [discriminate|]. destruct (v =? 80).
    * intro H. left. apply (C65_ends_proof (x :: c)). unfold open_workbook. rewrite PK. exact H.
    * intro H. right. exists mem, base. split; [reflexivity|]. exact (proj2 (open_old_ends dec v mem base pos D H)).
  + cbn [bind]. intro H. exfalso. apply (getbof_ends mem base 5). congruence.
- cbn [bind]. intro H. left. apply load_ends. congruence.
Qed.

Definition turning : str := sheets_4w (-16).
Definition turning_coding : coding := mkcoding (Some 1252) true None.
Lemma turning_step f looks sheets read : length read = length sheets ->
  exists place sh, old_globals (S (S f)) same_text turning 0 24 (mkobook 45 turning_coding looks (0, 0) 0 [] sheets (Some 0) read new_refs) =
    old_globals f same_text turning 0 24 (mkobook 45 turning_coding new_looks (0, 0) 0 [] (sheets ++ [(lit "A", place)]) (Some 0) (read ++ [sh]) new_refs).
Proof.
  intro L. assert (R1 : get_record turning 24 = Ok (0x85, 2, 1%N :: lit "A", 30)) by (vm_compute; reflexivity).
  assert (R2 : get_record turning 30 = Ok (0x8f, 6, le_bytes 4 (-16) ++ 1%N :: lit "A", 40)) by (vm_compute; reflexivity).
  set (place := match sheets with [] => 0 | _ => -1 end).
  set (b1 := mkobook 45 turning_coding looks (0, 0) 0 [] (sheets ++ [(lit "A", place)]) (Some 0) read new_refs).
  assert (S1 : old_globals_record same_text turning 0 0x85 (1%N :: lit "A") 30 (mkobook 45 turning_coding looks (0, 0) 0 [] sheets (Some 0) read new_refs) = Ok (b1, 30)).
  { unfold b1, place. destruct sheets as [|x sheets]; vm_compute; reflexivity. }
  clearbody place.
  assert (S2 : exists sh, old_globals_record same_text turning 0 0x8f (le_bytes 4 (-16) ++ 1%N :: lit "A") 40 b1 =
     Ok (mkobook 45 turning_coding new_looks (0, 0) 0 [] (sheets ++ [(lit "A", place)]) (Some 0) (read ++ [sh]) new_refs, 24)).
  { change (old_globals_record same_text turning 0 0x8f (le_bytes 4 (-16) ++ 1%N :: lit "A") 40 b1) with
      (old_sheethdr same_text turning (le_bytes 4 (-16) ++ 1%N :: lit "A") 40 b1).
    unfold old_sheethdr. replace (derived same_text b1) with (Ok b1) by (vm_compute; reflexivity). cbn [bind].
    replace (sized 4 (bytes_at 0 4 (le_bytes 4 (-16) ++ 1%N :: lit "A"))) with (Ok tt : res unit) by (vm_compute; reflexivity). cbn [bind].
    replace (old_string same_text (c_page (o_coding b1)) (le_bytes 4 (-16) ++ 1%N :: lit "A") 4 1) with (Ok (lit "A", 6) : res (str * Z)) by (vm_compute; reflexivity).
    cbn [bind]. replace (nth_error (o_sheets b1) (length (o_read b1))) with (Some (lit "A", place)).
    2: { unfold b1. cbn [o_sheets o_read]. rewrite L, nth_error_app2, Nat.sub_diag by lia. reflexivity. }
    replace (negb (str_eqb (lit "A") (lit "A"))) with false by reflexivity. cbv iota.
    eexists. unfold b1. cbn [with_looks o_version o_coding o_countries o_datemode o_strings o_sheets o_offset o_read].
    vm_compute. reflexivity. }
  destruct S2 as (sh & S2). exists place, sh.
  cbn [old_globals]. rewrite R1. cbn [bind]. change (133 =? 10) with false. cbv iota. rewrite S1. cbn [bind].
  rewrite R2. cbn [bind]. change (143 =? 10) with false. cbv iota. rewrite S2. reflexivity.
Qed.
Lemma turning_round : forall n f looks sheets read, (f <= n)%nat -> length read = length sheets ->
  old_globals f same_text turning 0 24 (mkobook 45 turning_coding looks (0, 0) 0 [] sheets (Some 0) read new_refs) = Err NonTermination.
Proof.
  induction n as [|n IH]; intros f looks sheets read LE L; [destruct f; [reflexivity|lia]|].
  destruct f as [|[|f]]; [reflexivity| |].
  - destruct sheets as [|x sheets]; vm_compute; reflexivity.
  - destruct (turning_step f looks sheets read L) as (place & sh & ->). apply IH; [lia|]. rewrite !app_length. cbn [length]. lia.
Qed.

Lemma C65_turning_refuted_proof :
exists dec file pos, (forall page raw, dec page raw <> Err NonTermination) /\ length file = 58%nat /\ load file = Ok (file, 0) /\
  getbof file 0 5 = Ok (45, pos) /\ open_workbook_dec dec file = Err NonTermination /\
  forall rounds, old_globals rounds dec file 0 pos (new_obook 45) = Err NonTermination.
Proof.
exists same_text, turning, 10. split; [discriminate|]. split; [vm_compute; reflexivity|]. split; [vm_compute; reflexivity|].
split; [vm_compute; reflexivity|]. split; [vm_compute; reflexivity|].
intros [|[|f]]; [reflexivity|vm_compute; reflexivity|].
assert (R1 : get_record turning 10 = Ok (0x42, 2, le_bytes 2 1252, 16)) by (vm_compute; reflexivity).
assert (R2 : get_record turning 16 = Ok (0x8e, 4, le_bytes 4 0, 24)) by (vm_compute; reflexivity).
cbn [old_globals]. rewrite R1. cbn [bind]. change (66 =? 10) with false. cbv iota.
replace (old_globals_record same_text turning 0 66 (le_bytes 2 1252) 16 (new_obook 45)) with
  (Ok (mkobook 45 turning_coding new_looks (0, 0) 0 [] [] None [] new_refs, 16) : res (obook * Z)) by (vm_compute; reflexivity).
cbn [bind]. rewrite R2. cbn [bind]. change (142 =? 10) with false. cbv iota.
replace (old_globals_record same_text turning 0 142 (le_bytes 4 0) 24 _) with
  (Ok (mkobook 45 turning_coding new_looks (0, 0) 0 [] [] (Some 0) [] new_refs, 24) : res (obook * Z)) by (vm_compute; reflexivity).
cbn [bind]. apply (turning_round f); [lia|reflexivity].
Qed.

