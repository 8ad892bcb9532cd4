(** * A small DBF file used in the examples *)

From Verif Require Import PyBase PyFloat NumPy Pack Dbf SpecPack SpecDbf.

Definition zeros (n : nat) : str := repeat 0%N n.

Definition sample_fields : list field :=
  [mkfield (lit "A") 78 3 0; mkfield (lit "B") 67 2 0; mkfield (lit "DAY") 68 8 0].

Definition sample_records : list (option (list cell)) :=
  [Some [CInt (-7); CText (lit "xy"); CDate 2020 2 29]; None; Some [CBlank; CText (lit "z "); CBlank]].

Definition sample_descr (fd : field) : str :=
  fd_name fd ++ zeros (11 - length (fd_name fd)) ++ [fd_typ fd] ++ zeros 4 ++
  [N.of_nat (fd_size fd); fd_deci fd] ++ zeros 14.

Definition sample_header (fds : list field) (n : nat) : str :=
  zeros 4 ++ le_bytes 4 (Z.of_nat n) ++ le_bytes 2 (33 + 32 * Z.of_nat (length fds)) ++ zeros 22 ++
  flat_map sample_descr fds ++ [13%N].

Definition sample_body : str := lit "  -7xy20200229" ++ lit "*1  pq20200101" ++ lit "    z         ".

Definition sample_bytes : str := sample_header sample_fields 3 ++ sample_body ++ [26%N].

Lemma sample_header_ok : encodes_header sample_fields 3 (sample_header sample_fields 3).
Proof.
  exists (zeros 4), (zeros 22), (flat_map sample_descr sample_fields).
  split; [reflexivity|]. split; [reflexivity|]. split; [|split; [reflexivity|split; reflexivity]].
  assert (A : forall fds, Forall good_field fds -> encodes_fields fds (flat_map sample_descr fds)).
  { induction 1; [constructor|]. cbn [flat_map]. unfold sample_descr at 1. rewrite <- !app_assoc.
    apply ef_cons; auto. }
  apply A. repeat constructor.
Qed.

Lemma sample_body_ok : encodes_records sample_fields sample_records sample_body.
Proof.
  change sample_body with
    (32%N :: (lit " -7" ++ lit "xy" ++ lit "20200229" ++ []) ++
     42%N :: lit "1  pq20200101" ++
     32%N :: (lit "   " ++ lit "z " ++ lit "        " ++ []) ++ []).
  constructor.
  { constructor; [|reflexivity|].
    - apply (holds_N_int (-7) (lit "-7") (lit " ") []); [repeat constructor; right; right; reflexivity|constructor|].
      exists (lit "7"). split; [discriminate|]. split; [repeat constructor; discriminate|].
      right. split; reflexivity.
    - constructor; [|reflexivity|].
      + apply holds_text; [cbn; intuition discriminate|repeat constructor].
      + constructor; [|reflexivity|constructor].
        change (lit "20200229") with (fixed_digits 4 2020 ++ fixed_digits 2 2 ++ fixed_digits 2 29).
        apply holds_D. split; [split; discriminate|]. exists 29%Z. split; [|split; discriminate].
        apply m29; [exists 505%Z; reflexivity|]. right. intros [k Hk]. lia. }
  apply ec_deleted; [discriminate|reflexivity|].
  constructor; [|constructor].
  constructor; [|reflexivity|].
  - apply holds_N_blank. repeat constructor; right; right; reflexivity.
  - constructor; [|reflexivity|].
    + apply holds_text; [cbn; intuition discriminate|repeat constructor].
    + constructor; [|reflexivity|constructor].
      apply holds_D_blank. repeat constructor; right; reflexivity.
Qed.

Lemma sample_encodes : encodes sample_fields sample_records sample_bytes.
Proof.
  exists (sample_header sample_fields 3), sample_body, [26%N].
  split; [exact sample_header_ok|]. split; [exact sample_body_ok|reflexivity].
Qed.
