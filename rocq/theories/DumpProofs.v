(** * Proofs about the dump of records *)

From Coq Require Import ZArith Lia ZifyBool ZifyNat ZifyN.
From Verif Require Import PyBase PyText PyFloat NumPy Dbf CompDoc Biff XlCount XlDump SpecRepr SpecCount SpecDump PyBaseFacts ReprProofs CountProofs.
Open Scope Z_scope.

(** ** The parts of a line *)

Lemma low_is z : 0 <= z < 16 -> hexa (low_digit z) z.
Proof. intro H. unfold hexa, low_digit. destruct (z <? 10) eqn:E; lia. Qed.
Lemma hex4_is z : 0 <= z < 65536 -> hex_word z (hex4 z).
Proof.
  intro H. exists (low_digit (z / 4096)), (low_digit (z / 256 mod 16)), (low_digit (z / 16 mod 16)), (low_digit (z mod 16)),
    (z / 4096), (z / 256 mod 16), (z / 16 mod 16), (z mod 16).
  split; [apply low_is; lia|]. split; [apply low_is; lia|]. split; [apply low_is; lia|]. split; [apply low_is; lia|]. split; [lia|reflexivity].
Qed.
Lemma hex2_is b : (b < 256)%N -> hex_byte b (hex2 b).
Proof.
  intro H. exists (low_digit (Z.of_N b / 16)), (low_digit (Z.of_N b mod 16)), (Z.of_N b / 16), (Z.of_N b mod 16).
  split; [apply low_is; lia|]. split; [apply low_is; lia|]. split; [lia|reflexivity].
Qed.
Lemma prefix_is numbered n : place numbered n (num_prefix numbered n).
Proof.
  unfold place, num_prefix. destruct numbered; [|reflexivity]. exists (str_of_Z n). split; [apply str_of_Z_decimal|reflexivity].
Qed.
Lemma char_is b : shown b (char_of b).
Proof.
  unfold shown, char_of. destruct (N.eqb b 0) eqn:E; [left; lia|]. right. split; [lia|].
  destruct ((32 <=? b)%N && (b <=? 126)%N) eqn:F; [left|right]; lia.
Qed.
Lemma name_is rc : code_name rc (match get_name rc biff_rec_name_dict with Some name => name | None => lit "<UNKNOWN>" end).
Proof.
  unfold code_name. rewrite same_names. destruct (get_name rc code_names) eqn:G; [left; exact (get_name_in _ _ _ G)|].
  right. split; [exact (get_name_none _ _ G)|reflexivity].
Qed.
Lemma zeros_line_is numbered n z : z <> 0 -> skipped_line numbered n z (zeros_line numbered n z).
Proof.
  intro H. unfold zeros_line. destruct (z =? 0) eqn:E; [lia|]. exists (num_prefix numbered n), (str_of_Z z).
  split; [apply prefix_is|]. split; [apply str_of_Z_decimal|reflexivity].
Qed.

(** ** Lines of bytes *)

Lemma slice_mid (pre s rest : str) : pyslice (pre ++ s ++ rest) (Z.of_nat (length pre)) (Z.of_nat (length pre) + Z.of_nat (length s)) = s.
Proof.
  unfold pyslice, py_bound. rewrite !app_length.
  destruct (Z.of_nat (length pre) <? 0) eqn:E; [lia|]. destruct (Z.of_nat (length pre) + Z.of_nat (length s) <? 0) eqn:F; [lia|].
  rewrite !Z.min_l by lia. rewrite Nat2Z.id, skipn_app, skipn_all, Nat.sub_diag. simpl skipn.
  replace (Z.to_nat _) with (length s) by lia. cbn [app]. rewrite firstn_app, firstn_all, Nat.sub_diag, firstn_O. apply app_nil_r.
Qed.

Lemma flat_hex2 l : length (flat_map hex2 l) = (3 * length l)%nat.
Proof. induction l as [|b l IH]; [reflexivity|]. cbn [flat_map]. rewrite app_length, IH. cbn [length hex2]. lia. Qed.
Lemma hex_bytes l : Forall (fun x => (x < 256)%N) l -> Forall2 hex_byte l (map hex2 l).
Proof. induction 1 as [|b l B F IH]; constructor; [apply hex2_is; exact B|exact IH]. Qed.
Lemma chars l : Forall2 shown l (map char_of l).
Proof. induction l as [|b l IH]; constructor; [apply char_is|exact IH]. Qed.

Lemma hex_loop_is numbered adj rest : forall fuel pre s, (length s <= fuel)%nat -> Forall (fun x => (x < 256)%N) s ->
  hex_lines numbered (adj + Z.of_nat (length pre)) s
    (hex_loop fuel (pre ++ s ++ rest) adj (Z.of_nat (length pre)) (Z.of_nat (length pre) + Z.of_nat (length s)) numbered).
Proof.
  induction fuel as [|fuel IH]; intros pre s L B.
  - destruct s; [constructor|cbn in L; lia].
  - cbn [hex_loop]. destruct (Z.ltb_spec (Z.of_nat (length pre)) (Z.of_nat (length pre) + Z.of_nat (length s))) as [H|H].
    2: { destruct s; [constructor|cbn [length] in H; lia]. }
    cbv zeta.
    set (chunk := firstn 16 s). set (more := skipn 16 s).
    assert (s = chunk ++ more) as Es by (symmetry; apply firstn_skipn).
    assert (length chunk = Nat.min 16 (length s)) as Lc by apply firstn_length.
    assert (length more = (length s - 16)%nat) as Lm by apply skipn_length.
    replace (Z.min (Z.of_nat (length pre) + 16) (Z.of_nat (length pre) + Z.of_nat (length s)))
      with (Z.of_nat (length pre) + Z.of_nat (length chunk)) by lia.
    assert (pyslice (pre ++ s ++ rest) (Z.of_nat (length pre)) (Z.of_nat (length pre) + Z.of_nat (length chunk)) = chunk) as ->.
    { rewrite Es, <- app_assoc. apply slice_mid. }
    match goal with |- context [if ?x then [] else _] => replace x with false by lia end.
    rewrite Es at 1. rewrite flat_hex2.
    replace (flat_map hex2 chunk) with (concat (map hex2 chunk)) by (symmetry; apply flat_map_concat_map).
    assert (Forall (fun x => (x < 256)%N) chunk /\ Forall (fun x => (x < 256)%N) more) as (Bc & Bm).
    { apply Forall_app. rewrite <- Es. exact B. }
    change ([10%N] ++ ?x) with (10%N :: x).
    apply hl_line.
    + intro Q. rewrite Q in Lc. cbn [length] in Lc. lia.
    + lia.
    + destruct (Nat.le_gt_cases 16 (length s)) as [G|G]; [right; lia|left]. apply length_zero_iff_nil. lia.
    + apply prefix_is.
    + apply hex_bytes. exact Bc.
    + apply chars.
    + destruct (Nat.le_gt_cases (length s) 16) as [G|G].
      * (* nothing follows *)
        assert (length chunk = length s) as -> by lia.
        replace more with (@nil N) by (symmetry; apply length_zero_iff_nil; lia).
        replace (hex_loop _ _ _ _ _ _) with (@nil N); [constructor|]. symmetry. destruct fuel; [reflexivity|]. cbn [hex_loop].
        rewrite Z.ltb_irrefl. reflexivity.
      * assert (length chunk = 16%nat) as L16 by lia.
        pose proof (IH (pre ++ chunk) more ltac:(lia) Bm) as K. rewrite app_length in K.
        replace (adj + Z.of_nat (length pre) + 16) with (adj + Z.of_nat (length pre + length chunk)) by lia.
        replace (Z.of_nat (length pre) + Z.of_nat (length chunk)) with (Z.of_nat (length pre + length chunk)) by lia.
        replace (Z.of_nat (length pre) + Z.of_nat (length s)) with (Z.of_nat (length pre + length chunk) + Z.of_nat (length more)).
        2: { rewrite Es, app_length. lia. }
        replace (pre ++ s ++ rest) with ((pre ++ chunk) ++ more ++ rest); [exact K|].
        rewrite Es. rewrite <- !app_assoc. reflexivity.
Qed.

Lemma hex_dump_is numbered base pre s rest : Forall (fun x => (x < 256)%N) s ->
  hex_lines numbered base s
    (hex_char_dump (pre ++ s ++ rest) (Z.of_nat (length pre)) (Z.of_nat (length s)) base numbered).
Proof.
  intro B. unfold hex_char_dump. cbv zeta. rewrite Z.min_l by (rewrite !app_length; lia).
  pose proof (hex_loop_is numbered (base - Z.of_nat (length pre)) rest (length s) pre s (le_n _) B) as H.
  replace (base - Z.of_nat (length pre) + Z.of_nat (length pre)) with base in H by lia.
  replace (Z.to_nat (Z.of_nat (length pre) + Z.of_nat (length s) - Z.of_nat (length pre))) with (length s) by lia. exact H.
Qed.

(** As many bytes as there are. *)
Lemma hex_dump_cut numbered base pre s n : Forall (fun x => (x < 256)%N) s -> 0 <= n ->
  hex_lines numbered base (firstn (Z.to_nat n) s)
    (hex_char_dump (pre ++ s) (Z.of_nat (length pre)) n base numbered).
Proof.
  intros B N0. set (u := firstn (Z.to_nat n) s). set (v := skipn (Z.to_nat n) s).
  assert (s = u ++ v) as Es by (symmetry; apply firstn_skipn).
  assert (Forall (fun x => (x < 256)%N) u) as Bu by (rewrite Es in B; apply Forall_app in B as (B & _); exact B).
  pose proof (hex_dump_is numbered base pre u v Bu) as H. rewrite <- Es in H.
  replace (hex_char_dump (pre ++ s) (Z.of_nat (length pre)) n base numbered)
    with (hex_char_dump (pre ++ s) (Z.of_nat (length pre)) (Z.of_nat (length u)) base numbered); [exact H|].
  unfold hex_char_dump. assert (length u = Nat.min (Z.to_nat n) (length s)) as Lu by apply firstn_length.
  rewrite app_length.
  replace (Z.min (Z.of_nat (length pre) + Z.of_nat (length u)) (Z.of_nat (length pre + length s)))
    with (Z.min (Z.of_nat (length pre) + n) (Z.of_nat (length pre + length s))) by lia. reflexivity.
Qed.

(** ** The loop *)

Lemma with_zeros numbered rest adj pos k sav s t : dump_text numbered rest (adj + pos) s t -> firstn 4 s <> [0; 0; 0; 0]%N ->
  ((0 < k)%nat -> ~ (Forall (fun x => x = 0%N) s /\ rest = []) /\ sav = pos - 4 * Z.of_nat k) ->
  dump_text numbered rest (adj + pos - 4 * Z.of_nat k) (repeat 0%N (4 * k) ++ s)
    (zeros_line numbered (adj + sav) (4 * Z.of_nat k) ++ t).
Proof.
  intros D F H. destruct k as [|k].
  - cbn [Nat.mul Nat.add repeat app]. replace (adj + pos - 4 * Z.of_nat 0) with (adj + pos) by lia. exact D.
  - destruct (H ltac:(lia)) as (NZ & ->). apply dt_zeros; [lia|exact F|exact NZ| |].
    + replace (adj + (pos - 4 * Z.of_nat (S k))) with (adj + pos - 4 * Z.of_nat (S k)) by lia. apply zeros_line_is. lia.
    + replace (adj + pos - 4 * Z.of_nat (S k) + 4 * Z.of_nat (S k)) with (adj + pos) by lia. exact D.
Qed.

Lemma dump_loop_is numbered adj rest : forall fuel pre s k sav last, (length s < fuel)%nat ->
  Forall (fun x => (x < 256)%N) (s ++ rest) ->
  ((0 < k)%nat -> ~ (Forall (fun x => x = 0%N) s /\ rest = []) /\ sav = Z.of_nat (length pre) - 4 * Z.of_nat k) ->
  exists t, dump_loop fuel (pre ++ s ++ rest) (Z.of_nat (length pre) + Z.of_nat (length s)) adj numbered (Z.of_nat (length pre))
      (4 * Z.of_nat k) sav last = Ok t /\
    dump_text numbered rest (adj + Z.of_nat (length pre) - 4 * Z.of_nat k) (repeat 0%N (4 * k) ++ s) t.
Proof.
  induction fuel as [|fuel IH]; intros pre s k sav last L B KZ; [lia|]. cbn [dump_loop].
  destruct (_ <? 4) eqn:E4.
  - (* the end *)
    assert (firstn 4 s <> [0; 0; 0; 0]%N) as F4.
    { intro Q. apply (f_equal (@length N)) in Q. rewrite firstn_length in Q. cbn [length] in Q. lia. }
    unfold dump_end. cbv zeta. destruct s as [|x s].
    + match goal with |- context [if ?x <? ?y then _ else if ?y <? ?x then _ else _] => 
        destruct (Z.ltb_spec x y) as [G|G]; [cbn [length] in G; lia|]; destruct (Z.ltb_spec y x) as [G'|G']; [cbn [length] in G'; lia|] end.
      eexists. split; [reflexivity|]. rewrite <- (app_nil_r (zeros_line _ _ _)).
      apply with_zeros; [constructor|exact F4|exact KZ].
    + match goal with |- context [if ?x <? ?y then _ else if ?y <? ?x then _ else _] => 
        destruct (Z.ltb_spec x y) as [G|G]; [|cbn [length] in G; lia] end.
      eexists. split; [reflexivity|]. apply with_zeros; [|exact F4|exact KZ].
      change ([10%N] ++ ?u) with (10%N :: u). apply dt_misc; [discriminate|lia|apply prefix_is|].
      replace (Z.of_nat (length pre) + Z.of_nat (length (x :: s)) - Z.of_nat (length pre)) with (Z.of_nat (length (x :: s))) by lia.
      apply hex_dump_is. apply Forall_app in B as (B & _). exact B.
  - rewrite slice4 by lia.
    destruct s as [|a [|b [|c [|d s]]]]; try (cbn [length] in E4; lia).
    cbn [firstn]. set (mem := pre ++ (a :: b :: c :: d :: s) ++ rest).
    assert (pyslice mem (Z.of_nat (length pre)) (Z.of_nat (length mem)) = (a :: b :: c :: d :: s) ++ rest) as -> by apply slice_end.
    replace (Z.to_nat (Z.of_nat (length pre) + Z.of_nat (length (a :: b :: c :: d :: s)) - Z.of_nat (length pre)))
      with (length (a :: b :: c :: d :: s)) by lia.
    cbv zeta.
    assert (le_value [a; b] = Z.of_N a + 256 * Z.of_N b) as -> by (cbn [le_value]; lia).
    assert (le_value [c; d] = Z.of_N c + 256 * Z.of_N d) as -> by (cbn [le_value]; lia).
    set (rc := Z.of_N a + 256 * Z.of_N b). set (len := Z.of_N c + 256 * Z.of_N d).
    destruct ((rc =? 0) && (len =? 0)) eqn:ZH.
    + assert (a = 0%N /\ b = 0%N /\ c = 0%N /\ d = 0%N) as (-> & -> & -> & ->) by (unfold rc, len in ZH; lia).
      pose proof (zeros_iff (0%N :: 0%N :: 0%N :: 0%N :: s) rest) as ZI.
      pose proof (str_eqb_eq ((0%N :: 0%N :: 0%N :: 0%N :: s) ++ rest) (repeat 0%N (length (0%N :: 0%N :: 0%N :: 0%N :: s)))) as SE.
      destruct (str_eqb ((0%N :: 0%N :: 0%N :: 0%N :: s) ++ rest) (repeat 0%N (length (0%N :: 0%N :: 0%N :: 0%N :: s)))) eqn:Q.
      * (* zeros to the end *)
        destruct (proj1 ZI (proj1 SE eq_refl)) as (F & R).
        destruct k as [|k]; [|destruct (proj1 (KZ ltac:(lia))); split; assumption].
        unfold dump_end. rewrite !Z.ltb_irrefl. eexists. split; [reflexivity|]. cbn [Nat.mul Nat.add repeat app].
        replace (adj + Z.of_nat (length pre) - 4 * Z.of_nat 0) with (adj + Z.of_nat (length pre)) by lia.
        apply dt_zeros_end; [cbn [length]; lia|exact F|exact R|].
        replace (Z.of_nat (length pre) + Z.of_nat (length (0%N :: 0%N :: 0%N :: 0%N :: s)) - Z.of_nat (length pre))
          with (Z.of_nat (length (0%N :: 0%N :: 0%N :: 0%N :: s))) by lia.
        apply zeros_line_is. cbn [length]. lia.
      * assert (~ (Forall (fun x => x = 0%N) (0%N :: 0%N :: 0%N :: 0%N :: s) /\ rest = [])) as NZ.
        { intro X. apply ZI in X. apply SE in X. discriminate. }
        assert (~ (Forall (fun x => x = 0%N) s /\ rest = [])) as NZ'.
        { intros (X & R). apply NZ. split; [|exact R]. repeat (constructor; [reflexivity|]). exact X. }
        assert (Forall (fun x => (x < 256)%N) (s ++ rest)) as B'.
        { inversion B as [|x l Ba B1]; subst. inversion B1 as [|x l Bb B2]; subst.
          inversion B2 as [|x l Bc B3]; subst. inversion B3 as [|x l Bd B4]; subst. exact B4. }
        assert (mem = (pre ++ [0; 0; 0; 0]%N) ++ s ++ rest) as EM by (unfold mem; rewrite <- app_assoc; reflexivity).
        set (sav' := if 4 * Z.of_nat k =? 0 then Z.of_nat (length pre) else sav).
        destruct (IH (pre ++ [0; 0; 0; 0]%N) s (S k) sav' (Some len)) as (t & E & D).
        { cbn [length] in L. lia. }
        { exact B'. }
        { intros _. split; [exact NZ'|]. unfold sav'. rewrite app_length. cbn [length].
          destruct k as [|k]; [cbn; lia|]. destruct (4 * Z.of_nat (S k) =? 0) eqn:X; [lia|]. destruct (KZ ltac:(lia)) as (_ & ->). lia. }
        exists t. split.
        -- rewrite <- E. rewrite EM. rewrite app_length. cbn [length].
           assert (Z.of_nat (length pre) + 4 = Z.of_nat (length pre + 4)) as -> by lia.
           assert (Z.of_nat (length pre) + Z.of_nat (S (S (S (S (length s))))) = Z.of_nat (length pre + 4) + Z.of_nat (length s)) as -> by lia.
           unfold sav'. destruct k as [|k].
           ++ reflexivity.
           ++ destruct (4 * Z.of_nat (S k) =? 0) eqn:X; [lia|].
              replace (4 * Z.of_nat (S k) + 4) with (4 * Z.of_nat (S (S k))) by lia. reflexivity.
        -- rewrite app_length in D. cbn [length] in D.
           replace (adj + Z.of_nat (length pre) - 4 * Z.of_nat k) with (adj + Z.of_nat (length pre + 4) - 4 * Z.of_nat (S k)) by lia.
           replace (repeat 0%N (4 * k) ++ 0%N :: 0%N :: 0%N :: 0%N :: s) with (repeat 0%N (4 * S k) ++ s); [exact D|].
           replace (4 * S k)%nat with (4 * k + 4)%nat by lia. rewrite repeat_app, <- app_assoc. reflexivity.
    + (* a record *)
      assert ([a; b; c; d] <> [0; 0; 0; 0]%N) as NH.
      { intro Q. injection Q as -> -> -> ->. cbn in ZH. discriminate. }
      assert (firstn 4 (a :: b :: c :: d :: s) <> [0; 0; 0; 0]%N) as F4 by exact NH.
      inversion B as [|x l Ba B1]; subst. inversion B1 as [|x l Bb B2]; subst.
      inversion B2 as [|x l Bc B3]; subst. inversion B3 as [|x l Bd B4]; subst.
      assert (0 <= rc < 65536) as Rrc by (unfold rc; lia). assert (0 <= len < 65536) as Rlen by (unfold len; lia).
      set (pre4 := pre ++ [a; b; c; d]).
      assert (mem = pre4 ++ s ++ rest) as EM by (unfold mem, pre4; rewrite <- app_assoc; reflexivity).
      assert (Z.of_nat (length pre) + 4 = Z.of_nat (length pre4)) as E4' by (unfold pre4; rewrite app_length; cbn [length]; lia).
      assert (Z.of_nat (length pre) + Z.of_nat (length (a :: b :: c :: d :: s)) = Z.of_nat (length pre4) + Z.of_nat (length s)) as EE by (cbn [length]; lia).
      rewrite EE, E4'.
      set (nm := match get_name rc biff_rec_name_dict with Some name => name | None => lit "<UNKNOWN>" end).
      assert (record_line numbered (adj + Z.of_nat (length pre)) rc len
        (num_prefix numbered (adj + Z.of_nat (length pre)) ++ hex4 rc ++ lit " " ++ nm ++ lit " len = " ++ hex4 len ++ lit " (" ++
         str_of_Z len ++ lit ")" ++ [10%N])) as RL.
      { exists (num_prefix numbered (adj + Z.of_nat (length pre))), (hex4 rc), nm, (hex4 len), (str_of_Z len).
        split; [apply prefix_is|]. split; [apply hex4_is; exact Rrc|]. split; [apply name_is|]. split; [apply hex4_is; exact Rlen|].
        split; [apply str_of_Z_decimal|reflexivity]. }
      set (rl := num_prefix numbered (adj + Z.of_nat (length pre)) ++ hex4 rc ++ lit " " ++ nm ++ lit " len = " ++ hex4 len ++ lit " (" ++
         str_of_Z len ++ lit ")" ++ [10%N]) in *.
      assert (forall u v, num_prefix numbered (adj + Z.of_nat (length pre)) ++ hex4 rc ++ lit " " ++ nm ++ lit " len = " ++ hex4 len ++ lit " (" ++
         str_of_Z len ++ lit ")" ++ [10%N] ++ u ++ v = rl ++ u ++ v) as RW.
      { intros u v. unfold rl. rewrite <- !app_assoc. reflexivity. }
      destruct (Z_le_gt_dec len (Z.of_nat (length s))) as [LE|GT].
      * set (data := firstn (Z.to_nat len) s). set (s' := skipn (Z.to_nat len) s).
        assert (s = data ++ s') as Es by (symmetry; apply firstn_skipn).
        assert (Z.of_nat (length data) = len) as Ld by (unfold data; rewrite firstn_length; lia).
        assert (length s = (length data + length s')%nat) as Ls by (rewrite Es at 1; apply app_length).
        assert (Forall (fun x => (x < 256)%N) data /\ Forall (fun x => (x < 256)%N) (s' ++ rest)) as (Bdata & B').
        { apply Forall_app. rewrite app_assoc, <- Es. exact B4. }
        destruct (IH (pre4 ++ data) s' 0%nat sav (Some len)) as (t & E & D).
        { cbn [length] in L. lia. }
        { exact B'. }
        { intro X. lia. }
        assert (mem = (pre4 ++ data) ++ s' ++ rest) as EM'.
        { rewrite EM, Es, <- !app_assoc. reflexivity. }
        replace (Z.of_nat (length pre4) + len) with (Z.of_nat (length (pre4 ++ data))) by (rewrite app_length; lia).
        replace (Z.of_nat (length pre4) + Z.of_nat (length s)) with (Z.of_nat (length (pre4 ++ data)) + Z.of_nat (length s')) by (rewrite app_length; lia).
        change (4 * Z.of_nat 0) with 0 in E. rewrite <- EM' in E. rewrite E. cbn [bind]. eexists. split; [reflexivity|].
        rewrite RW. apply with_zeros; [|exact F4|exact KZ].
        rewrite Es. apply dt_record; [exact NH|exact Ld|exact RL| |].
        -- rewrite EM, Es, <- app_assoc, <- Ld.
           replace (adj + Z.of_nat (length pre) + 4) with (adj + Z.of_nat (length pre4)) by lia. apply hex_dump_is. exact Bdata.
        -- cbn [Nat.mul Nat.add repeat app] in D. rewrite app_length in D.
           replace (adj + Z.of_nat (length pre) + 4 + Z.of_nat (length data)) with (adj + Z.of_nat (length pre4 + length data) - 4 * Z.of_nat 0) by lia.
           exact D.
      * destruct fuel as [|fuel]; [cbn [length] in L; lia|]. cbn [dump_loop].
        match goal with |- context [if ?x <? 4 then _ else _] => destruct (Z.ltb_spec x 4) as [X|X]; [|lia] end.
        unfold dump_end. cbv zeta.
        match goal with |- context [if ?x <? ?y then _ else if ?y <? ?x then _ else _] => 
          destruct (Z.ltb_spec x y) as [G|G]; [lia|]; destruct (Z.ltb_spec y x) as [G'|G']; [|lia] end.
        cbn [bind]. eexists. split; [reflexivity|]. rewrite RW. apply with_zeros; [|exact F4|exact KZ].
        change (zeros_line numbered (adj + sav) 0) with (@nil N). cbn [app]. apply dt_cut; [exact NH|unfold len in GT; lia|exact RL| |apply str_of_Z_decimal].
        replace (adj + Z.of_nat (length pre) + 4) with (adj + Z.of_nat (length pre4)) by lia.
        rewrite EM. apply hex_dump_cut; [exact B4|lia].
Qed.

Lemma dump_is mem off len base numbered : 0 <= off -> 0 <= len -> off + len <= Z.of_nat (length mem) ->
  Forall (fun x => (x < 256)%N) (skipn (Z.to_nat off) mem) ->
  exists text, biff_dump mem off len base numbered = Ok text /\
    dump_text numbered (skipn (Z.to_nat (off + len)) mem) base (firstn (Z.to_nat len) (skipn (Z.to_nat off) mem)) text.
Proof.
  intros O0 L0 LE BS. set (rest := skipn (Z.to_nat (off + len)) mem). set (s := firstn (Z.to_nat len) (skipn (Z.to_nat off) mem)).
  set (pre := firstn (Z.to_nat off) mem).
  assert (skipn (Z.to_nat off) mem = s ++ rest) as ES.
  { unfold s, rest. rewrite <- (firstn_skipn (Z.to_nat len) (skipn (Z.to_nat off) mem)) at 1. f_equal.
    replace (Z.to_nat (off + len)) with (Z.to_nat off + Z.to_nat len)%nat by lia. clear.
    revert mem. induction (Z.to_nat off) as [|k IH]; intro mem; [reflexivity|]. destruct mem; [|exact (IH _)].
    simpl. destruct (Z.to_nat len); reflexivity. }
  assert (mem = pre ++ s ++ rest) as EM.
  { rewrite <- ES. symmetry. apply firstn_skipn. }
  assert (Z.of_nat (length pre) = off) as LP by (unfold pre; rewrite firstn_length; lia).
  assert (Z.of_nat (length s) = len) as LS by (unfold s; rewrite firstn_length, skipn_length; lia).
  rewrite ES in BS.
  destruct (dump_loop_is numbered (base - off) rest (S (Z.to_nat len)) pre s 0%nat 0 None ltac:(lia) BS ltac:(intro X; lia)) as (t & E & D).
  exists t. rewrite <- EM, LP, LS in E. split; [exact E|]. rewrite LP in D. cbn [Nat.mul Nat.add repeat app] in D.
  replace (base - off + off - 4 * Z.of_nat 0) with base in D by lia. exact D.
Qed.

(** ** Reading a dump *)

Definition no_end (l : str) : Prop := Forall (fun c => c <> 10%N) l.
Lemma no_end_app a b : no_end a -> no_end b -> no_end (a ++ b).
Proof. intros A B. apply Forall_app. split; assumption. Qed.
Lemma no_end_check l : forallb (fun c => negb (N.eqb c 10)) l = true -> no_end l.
Proof. intro H. apply Forall_forall. intros x X. rewrite forallb_forall in H. specialize (H x X). lia. Qed.

Lemma lines_cons l : forall cur t, no_end l -> lines_of cur (l ++ 10%N :: t) = (rev cur ++ l) :: lines_of [] t.
Proof.
  induction l as [|c l IH]; intros cur t H; cbn [app lines_of].
  - cbn [N.eqb Pos.eqb]. rewrite app_nil_r. reflexivity.
  - inversion H as [|x y C H']; subst. destruct (N.eqb c 10) eqn:E; [lia|]. rewrite (IH (c :: cur) t H'). cbn [rev].
    rewrite <- app_assoc. reflexivity.
Qed.
Lemma read_cons numbered l t : no_end l -> read_dump numbered (l ++ 10%N :: t) = line_bytes numbered l ++ read_dump numbered t.
Proof. intro H. unfold read_dump. rewrite (lines_cons l [] t H). reflexivity. Qed.

Lemma hexa_digit c v : hexa c v -> Z.of_N (digit c) = v /\ (48 <= c <= 57 \/ 97 <= c <= 102)%N.
Proof. unfold hexa, digit. intro H. destruct (N.ltb_spec c 97); lia. Qed.
Lemma hexa_range c v : hexa c v -> 0 <= v < 16.
Proof. unfold hexa. lia. Qed.

Lemma decimal_chars z d : decimal z d -> Forall (fun c => c = 45 \/ 48 <= c <= 57)%N d /\ d <> [].
Proof.
  intros (ds & F & NE & _ & _ & ->). split.
  - apply Forall_app. split; [destruct (z <? 0); repeat constructor|]. eapply Forall_impl; [|exact F]. cbn. intros c C. right. exact C.
  - destruct ds; [congruence|]. destruct (z <? 0); discriminate.
Qed.
Lemma decimal_no_end z d : decimal z d -> no_end d.
Proof. intro D. eapply Forall_impl; [|exact (proj1 (decimal_chars _ _ D))]. cbn. lia. Qed.

Lemma place_chars numbered o p : place numbered o p ->
  no_end p /\ (forall t, (if numbered then after_colon (p ++ t) else p ++ t) = t) /\
  (forall t, hd 0%N t <> 76%N -> N.eqb (hd 0%N (p ++ t)) 76 = false).
Proof.
  unfold place. destruct numbered.
  - intros (d & D & ->). destruct (decimal_chars _ _ D) as (C & NE).
    assert (Forall (fun c => c = 32 \/ c = 45 \/ 48 <= c <= 57)%N (repeat 32%N (5 - length d) ++ d)) as F.
    { apply Forall_app. split.
      - apply Forall_forall. intros x X. left. exact (repeat_spec _ _ _ X).
      - eapply Forall_impl; [|exact C]. cbn. intros a X. lia. }
    rewrite app_assoc. set (u := repeat 32%N (5 - length d) ++ d) in *.
    assert (u <> []) as UN by (unfold u; intro Q; apply app_eq_nil in Q as (_ & Q); congruence).
    split; [|split].
    + apply no_end_app; [|apply no_end_check; reflexivity]. eapply Forall_impl; [|exact F]. cbn. lia.
    + intro t. clear UN. induction F as [|c u' C' F IH]; [reflexivity|]. cbn [app after_colon].
      destruct (N.eqb c 58) eqn:E; [lia|exact IH].
    + intros t _. destruct u as [|c u']; [congruence|]. inversion F; subst. cbn [app hd]. lia.
  - intros ->. split; [constructor|]. split; [reflexivity|]. intros t H. cbn [app]. lia.
Qed.

(** Bytes. *)
Lemma hex_byte_text b t : hex_byte b t -> exists c1 c2, t = [c1; c2; 32%N] /\ (16 * digit c1 + digit c2)%N = b /\
  c1 <> 32%N /\ c1 <> 10%N /\ c2 <> 10%N.
Proof.
  intros (c1 & c2 & v1 & v2 & A & B & E & ->). exists c1, c2. split; [reflexivity|].
  destruct (hexa_digit _ _ A), (hexa_digit _ _ B). lia.
Qed.
Lemma pairs_read chunk hx : Forall2 hex_byte chunk hx -> forall n x y z tail, (length chunk <= n)%nat ->
  (length chunk = n \/ tail = 32%N :: y :: z :: x) -> pairs_of n (concat hx ++ tail) = chunk.
Proof.
  induction 1 as [|b t chunk hx H F IH]; intros n x y z tail L T.
  - cbn [concat app]. destruct T as [<-|T]; [reflexivity|]. destruct n; [reflexivity|]. rewrite T. reflexivity.
  - destruct (hex_byte_text _ _ H) as (c1 & c2 & -> & E & N1 & _). destruct n as [|n]; [cbn [length] in L; lia|].
    cbn [concat app pairs_of]. destruct (N.eqb c1 32) eqn:Q; [lia|]. rewrite E. f_equal.
    apply (IH n x y z tail); [cbn [length] in L; lia|]. destruct T as [T|T]; [left; cbn [length] in T; lia|right; exact T].
Qed.
Lemma hex_no_end chunk hx : Forall2 hex_byte chunk hx -> no_end (concat hx).
Proof.
  induction 1 as [|b t chunk hx H F IH]; [constructor|]. destruct (hex_byte_text _ _ H) as (c1 & c2 & -> & _ & _ & A & B).
  cbn [concat]. apply no_end_app; [|exact IH]. constructor; [exact A|]. constructor; [exact B|]. constructor; [discriminate|constructor].
Qed.
Lemma shown_no_end chunk ch : Forall2 shown chunk ch -> no_end ch.
Proof. induction 1 as [|b c chunk ch H F IH]; constructor; [unfold shown in H; lia|exact IH]. Qed.

Lemma hex_lines_read numbered o s h : hex_lines numbered o s h -> forall t, read_dump numbered (h ++ t) = s ++ read_dump numbered t.
Proof.
  induction 1 as [o|o p chunk more hx ch t NE L16 MO P HX CH HL IH]; intro t'; [reflexivity|].
  destruct (place_chars _ _ _ P) as (PN & PA & PH).
  set (pad := repeat 32%N (48 - 3 * length chunk)).
  replace ((p ++ lit "     " ++ concat hx ++ pad ++ lit " " ++ ch ++ 10%N :: t) ++ t')
    with ((p ++ lit "     " ++ concat hx ++ pad ++ lit " " ++ ch) ++ 10%N :: t ++ t') by (rewrite <- !app_assoc; reflexivity).
  rewrite read_cons, IH.
  - rewrite app_assoc. f_equal. f_equal. unfold line_bytes. rewrite PH by discriminate. rewrite PA.
    cbn [lit app hd]. change (N.eqb 32 32) with true. cbv iota.
    change (skipn 5 (lit "     " ++ ?x)) with x.
    destruct (Nat.eq_dec (length chunk) 16) as [E|E].
    + apply (pairs_read _ _ HX 16 [] 0%N 0%N); [lia|left; exact E].
    + assert (exists j, (48 - 3 * length chunk)%nat = S (S (S j))) as (j & EJ) by (exists (45 - 3 * length chunk)%nat; lia).
      apply (pairs_read _ _ HX 16 (repeat 32%N j ++ lit " " ++ ch) 32%N 32%N); [lia|right].
      unfold pad. rewrite EJ. reflexivity.
  - apply no_end_app; [exact PN|]. apply no_end_app; [apply no_end_check; reflexivity|].
    apply no_end_app; [exact (hex_no_end _ _ HX)|]. apply no_end_app.
    + apply Forall_forall. intros x X. rewrite (repeat_spec _ _ _ X). discriminate.
    + apply no_end_app; [apply no_end_check; reflexivity|exact (shown_no_end _ _ CH)].
Qed.

(** Names have no blanks. *)
Lemma code_name_chars rc name : code_name rc name -> Forall (fun c => c <> 10 /\ c <> 32)%N name.
Proof.
  intros [H|(_ & ->)].
  - assert (forallb (fun x => forallb (fun c => negb (N.eqb c 10) && negb (N.eqb c 32)) (snd x)) code_names = true) as K by reflexivity.
    rewrite forallb_forall in K. specialize (K _ H). cbn [snd] in K. apply Forall_forall. intros c C.
    rewrite forallb_forall in K. specialize (K _ C). lia.
  - apply Forall_forall. intros c C. cbn in C. repeat (destruct C as [<-|C]; [split; discriminate|]). destruct C.
Qed.
Lemma after_blank_app u t : Forall (fun c => c <> 10 /\ c <> 32)%N u -> after_blank (u ++ 32%N :: t) = t.
Proof.
  induction 1 as [|c u (_ & C) F IH]; [reflexivity|]. cbn [app after_blank]. destruct (N.eqb c 32) eqn:E; [lia|exact IH].
Qed.

Lemma word_read a b h t : (a < 256)%N -> (b < 256)%N -> hex_word (Z.of_N a + 256 * Z.of_N b) h -> 
  word_of (h ++ t) = [a; b] /\ Forall (fun c => 48 <= c <= 57 \/ 97 <= c <= 102)%N h /\ length h = 4%nat.
Proof.
  intros A B (c1 & c2 & c3 & c4 & v1 & v2 & v3 & v4 & H1 & H2 & H3 & H4 & E & ->). 
  pose proof (hexa_range _ _ H1). pose proof (hexa_range _ _ H2). pose proof (hexa_range _ _ H3). pose proof (hexa_range _ _ H4).
  destruct (hexa_digit _ _ H1) as (D1 & R1), (hexa_digit _ _ H2) as (D2 & R2), (hexa_digit _ _ H3) as (D3 & R3), (hexa_digit _ _ H4) as (D4 & R4).
  cbn [app word_of]. split; [|split; [|reflexivity]].
  - clear R1 R2 R3 R4. f_equal; [lia|]. f_equal. lia.
  - repeat (constructor; [assumption|]). constructor.
Qed.

Lemma record_line_read numbered o a b c d l : (a < 256)%N -> (b < 256)%N -> (c < 256)%N -> (d < 256)%N ->
  record_line numbered o (Z.of_N a + 256 * Z.of_N b) (Z.of_N c + 256 * Z.of_N d) l ->
  forall t, read_dump numbered (l ++ t) = [a; b; c; d] ++ read_dump numbered t.
Proof.
  intros A B C D (p & h1 & name & h2 & n & P & H1 & NM & H2 & DN & ->) t.
  destruct (place_chars _ _ _ P) as (PN & PA & PH).
  set (tail := lit " (" ++ n ++ lit ")").
  replace ((p ++ h1 ++ lit " " ++ name ++ lit " len = " ++ h2 ++ lit " (" ++ n ++ lit ")" ++ [10%N]) ++ t)
    with ((p ++ h1 ++ 32%N :: name ++ 32%N :: lit "len = " ++ h2 ++ tail) ++ 10%N :: t).
  2: { unfold tail. change (32%N :: name ++ 32%N :: lit "len = " ++ ?x) with (lit " " ++ name ++ lit " len = " ++ x). rewrite <- !app_assoc. reflexivity. }
  destruct (word_read a b h1 (32%N :: name ++ 32%N :: lit "len = " ++ h2 ++ tail) A B H1) as (W1 & F1 & L1).
  destruct (word_read c d h2 tail C D H2) as (W2 & F2 & L2).
  rewrite read_cons.
  - f_equal. destruct h1 as [|x h1]; [discriminate L1|]. inversion F1 as [|u v X F1']; subst.
    unfold line_bytes. rewrite PH by (cbn [app hd]; lia). rewrite PA. cbn [app hd].
    destruct (N.eqb x 32) eqn:Q1; [lia|]. destruct (N.eqb x 45) eqn:Q2; [lia|].
    change (x :: h1 ++ 32%N :: ?u) with ((x :: h1) ++ 32%N :: u) in *. rewrite W1.
    rewrite after_blank_app by (eapply Forall_impl; [|exact F1]; cbn; intros; lia).
    rewrite after_blank_app by exact (code_name_chars _ _ NM).
    change (skipn 6 (lit "len = " ++ ?u)) with u. rewrite W2. reflexivity.
  - apply no_end_app; [exact PN|]. apply no_end_app; [eapply Forall_impl; [|exact F1]; cbn; intros; lia|].
    constructor; [discriminate|]. apply no_end_app; [eapply Forall_impl; [|exact (code_name_chars _ _ NM)]; cbn; intros ? (X & _); exact X|].
    constructor; [discriminate|]. apply no_end_app; [apply no_end_check; reflexivity|].
    apply no_end_app; [eapply Forall_impl; [|exact F2]; cbn; intros; lia|]. unfold tail.
    apply no_end_app; [apply no_end_check; reflexivity|]. apply no_end_app; [exact (decimal_no_end _ _ DN)|apply no_end_check; reflexivity].
Qed.

Lemma number_read ds : Forall (fun c => 48 <= c <= 57)%N ds -> forall acc x t, ~ (48 <= x <= 57)%N ->
  Z.of_N (number_of acc (ds ++ x :: t)) = fold_left (fun n c => 10 * n + (Z.of_N c - 48)) ds (Z.of_N acc).
Proof.
  induction 1 as [|c ds C F IH]; intros acc x t X; cbn [app number_of fold_left].
  - destruct ((48 <=? x)%N && (x <=? 57)%N) eqn:E; [lia|reflexivity].
  - destruct ((48 <=? c)%N && (c <=? 57)%N) eqn:E; [|lia]. rewrite (IH _ x t X). f_equal. lia.
Qed.

Lemma skipped_read numbered o n l : 0 <= n -> skipped_line numbered o n l ->
  forall t, read_dump numbered (l ++ t) = repeat 0%N (Z.to_nat n) ++ read_dump numbered t.
Proof.
  intros N0 (p & d & P & D & ->) t. destruct (place_chars _ _ _ P) as (PN & PA & PH).
  replace ((p ++ lit "---- " ++ d ++ lit " zero bytes skipped ----" ++ [10%N]) ++ t)
    with ((p ++ lit "---- " ++ d ++ lit " zero bytes skipped ----") ++ 10%N :: t) by (rewrite <- !app_assoc; reflexivity).
  rewrite read_cons.
  - f_equal. unfold line_bytes. rewrite PH by discriminate. rewrite PA.
    assert (forall x, (if N.eqb (hd 0%N (lit "---- " ++ x)) 32 then pairs_of 16 (skipn 5 (lit "---- " ++ x))
      else if N.eqb (hd 0%N (lit "---- " ++ x)) 45
        then if N.eqb (nth 5 (lit "---- " ++ x) 0%N) 77 then [] else repeat 0%N (N.to_nat (number_of 0 (skipn 5 (lit "---- " ++ x))))
        else word_of (lit "---- " ++ x) ++ word_of (skipn 6 (after_blank (after_blank (lit "---- " ++ x))))) =
      (if N.eqb (nth 0 x 0%N) 77 then [] else repeat 0%N (N.to_nat (number_of 0 x)))) as K by reflexivity.
    cbv zeta. rewrite K. clear K.
    destruct D as (ds & F & NE & _ & V & ->). destruct (n <? 0) eqn:Q; [lia|]. cbn [app].
    assert (N.eqb (nth 0 (ds ++ lit " zero bytes skipped ----") 0%N) 77 = false) as ->.
    { destruct ds; [congruence|]. inversion F; subst. cbn [app nth]. lia. }
    f_equal. change (lit " zero bytes skipped ----") with (32%N :: lit "zero bytes skipped ----").
    pose proof (number_read ds F 0%N 32%N (lit "zero bytes skipped ----") ltac:(lia)) as X. unfold digits_number in V.
    change (Z.of_N 0) with 0 in X. lia.
  - apply no_end_app; [exact PN|]. apply no_end_app; [apply no_end_check; reflexivity|].
    apply no_end_app; [exact (decimal_no_end _ _ D)|apply no_end_check; reflexivity].
Qed.

Lemma zeros_all s : Forall (fun x => x = 0%N) s -> s = repeat 0%N (length s).
Proof. induction 1 as [|x l -> F IH]; [reflexivity|]. cbn [length repeat]. f_equal. exact IH. Qed.

Lemma dump_read numbered rest o s t : dump_text numbered rest o s t -> Forall (fun x => (x < 256)%N) s ->
  exists j, read_dump numbered t = s ++ firstn j rest /\
    (firstn j rest <> [] -> exists u n, t = u ++ lit "Last dumped record has length (" ++ n ++ lit ") that is too large" ++ [10%N]).
Proof.
  induction 1 as [o|o s p t NE L4 P HL|o s l L4 F R SK|o k s l t K F4 NZ SK D IH|o a b c d data s l h t NH LD RL HL D IH|o a b c d data l h n NH LD RL HL DN]; intro B.
  - exists 0%nat. split; [reflexivity|]. intro X. destruct X. reflexivity.
  - exists 0%nat. split; [|intro X; destruct X; reflexivity]. destruct (place_chars _ _ _ P) as (PN & PA & PH).
    replace (p ++ lit "---- Misc bytes at end ----" ++ 10%N :: t) with ((p ++ lit "---- Misc bytes at end ----") ++ 10%N :: t) by (rewrite <- !app_assoc; reflexivity).
    rewrite read_cons.
    + assert (line_bytes numbered (p ++ lit "---- Misc bytes at end ----") = []) as ->.
      { unfold line_bytes. rewrite PH by discriminate. rewrite PA. reflexivity. }
      rewrite <- (app_nil_r t). exact (hex_lines_read _ _ _ _ HL []).
    + apply no_end_app; [exact PN|apply no_end_check; reflexivity].
  - exists 0%nat. split; [|intro X; destruct X; reflexivity]. rewrite <- (app_nil_r l). rewrite (skipped_read _ _ _ _ (Zle_0_nat _) SK).
    rewrite Nat2Z.id, <- (zeros_all s F). reflexivity.
  - apply Forall_app in B as (_ & B). destruct (IH B) as (j & E & J). exists j. split.
    + rewrite (skipped_read _ _ (4 * Z.of_nat k) _ ltac:(lia) SK), E. replace (Z.to_nat (4 * Z.of_nat k)) with (4 * k)%nat by lia.
      apply app_assoc.
    + intro X. destruct (J X) as (u & n & ->). exists (l ++ u), n. apply app_assoc.
  - inversion B as [|x y Ba B1]; subst. inversion B1 as [|x y Bb B2]; subst.
    inversion B2 as [|x y Bc B3]; subst. inversion B3 as [|x y Bd B4]; subst.
    apply Forall_app in B4 as (_ & B4). destruct (IH B4) as (j & E & J). exists j. split.
    + rewrite (record_line_read _ _ _ _ _ _ _ Ba Bb Bc Bd RL), (hex_lines_read _ _ _ _ HL), E. cbn [app].
      rewrite app_assoc. reflexivity.
    + intro X. destruct (J X) as (u & n & ->). exists (l ++ h ++ u), n. rewrite <- !app_assoc. reflexivity.
  - inversion B as [|x y Ba B1]; subst. inversion B1 as [|x y Bb B2]; subst.
    inversion B2 as [|x y Bc B3]; subst. inversion B3 as [|x y Bd B4]; subst.
    rewrite firstn_app in HL. rewrite firstn_all2 in HL by lia.
    eexists. split.
    + rewrite (record_line_read _ _ _ _ _ _ _ Ba Bb Bc Bd RL), (hex_lines_read _ _ _ _ HL).
      replace (lit "Last dumped record has length (" ++ n ++ lit ") that is too large" ++ [10%N])
        with ((lit "Last dumped record has length (" ++ n ++ lit ") that is too large") ++ 10%N :: []) by (rewrite <- !app_assoc; reflexivity).
      rewrite read_cons.
      * change (line_bytes numbered (lit "Last dumped record has length (" ++ ?x)) with (@nil N).
        change (read_dump numbered []) with (@nil N). rewrite !app_nil_r. reflexivity.
      * apply no_end_app; [apply no_end_check; reflexivity|]. apply no_end_app; [exact (decimal_no_end _ _ DN)|apply no_end_check; reflexivity].
    + intros _. exists (l ++ h), n. rewrite <- !app_assoc. reflexivity.
Qed.

(** ** Ending *)

Lemma dump_end_ends mem e adj numbered pos z sav last : (last <> None \/ pos <= e) ->
  exists t, dump_end mem e adj numbered pos z sav last = Ok t.
Proof.
  intro H. unfold dump_end. cbv zeta. destruct (pos <? e); [eexists; reflexivity|]. destruct (e <? pos) eqn:E; [|eexists; reflexivity].
  destruct last; [eexists; reflexivity|]. destruct H as [H|H]; [congruence|lia].
Qed.
Lemma dump_ends : forall fuel mem e adj numbered pos z sav last, (Z.to_nat (e - pos) < fuel)%nat -> (last <> None \/ pos <= e) ->
  (exists t, dump_loop fuel mem e adj numbered pos z sav last = Ok t) \/ dump_loop fuel mem e adj numbered pos z sav last = Err StructError.
Proof.
  induction fuel as [|fuel IH]; intros mem e adj numbered pos z sav last L H; [lia|]. cbn [dump_loop].
  destruct (_ <? 4) eqn:E; [left; apply dump_end_ends; exact H|].
  destruct (pyslice mem pos (pos + 4)) as [|a [|b [|c [|d [|x l]]]]]; try (right; reflexivity).
  cbv zeta. destruct (_ && _).
  - destruct (str_eqb _ _); [left; apply dump_end_ends; left; discriminate|]. destruct (z =? 0); (apply IH; [lia|left; discriminate]).
  - assert (0 <= le_value [c; d]) by (cbn [le_value]; lia).
    destruct (IH mem e adj numbered (pos + 4 + le_value [c; d]) 0 sav (Some (le_value [c; d])) ltac:(lia) ltac:(left; discriminate)) as [(t & ->)| ->];
      [left; eexists; reflexivity|right; reflexivity].
Qed.

(** ** What is loaded are bytes of the file *)

Lemma slice_keeps (P : N -> Prop) mem a b : Forall P mem -> Forall P (pyslice mem a b).
Proof.
  intro F. rewrite Forall_forall in F. apply Forall_forall. intros x X. apply F. unfold pyslice in X.
  revert X. generalize (Z.to_nat (py_bound (Z.of_nat (length mem)) b - py_bound (Z.of_nat (length mem)) a)) as n.
  generalize (Z.to_nat (py_bound (Z.of_nat (length mem)) a)) as i. intros i n X.
  rewrite <- (firstn_skipn i mem). apply in_or_app. right. rewrite <- (firstn_skipn n (skipn i mem)). apply in_or_app. left. exact X.
Qed.
Lemma get_loop_keeps (P : N -> Prop) mem base sat sz id : Forall P mem -> forall fuel seen s todo acc seen' b, Forall P acc ->
  get_loop fuel mem base sat sz id seen s todo acc = Some (seen', Ok b) -> Forall P b.
Proof.
  intro F. induction fuel as [|fuel IH]; intros seen s todo acc seen' b A E; cbn [get_loop] in E.
  - destruct (s <? 0); [|discriminate]. injection E as _ E. destruct (s =? EOCSID); [|discriminate]. injection E as <-. exact A.
  - destruct (s <? 0). { injection E as _ E. destruct (s =? EOCSID); [|discriminate]. injection E as <-. exact A. }
    destruct (mark seen id s) as (seen1, [u|e]); [|discriminate]. cbv zeta in E.
    destruct (py_index sat s) as [s'|]; [|discriminate]. revert E. apply IH. apply Forall_app. split; [exact A|apply slice_keeps; exact F].
Qed.
Lemma get_stream_keeps (P : N -> Prop) mem base sat sz s size id seen seen' b : Forall P mem ->
  get_stream mem base sat sz s size id seen = (seen', Ok b) -> Forall P b.
Proof.
  intros F E. unfold get_stream in E. destruct (get_loop _ _ _ _ _ _ _ _ _ _) as [(seen1, r)|] eqn:G; [|discriminate].
  injection E as -> ->. exact (get_loop_keeps P _ _ _ _ _ F _ _ _ _ _ _ _ (Forall_nil _) G).
Qed.
Lemma locate_keeps (P : N -> Prop) ig mem base sat sz s n id seen seen' m pos len : Forall P mem ->
  locate_stream ig mem base sat sz s n id seen = (seen', Ok (m, pos, len)) -> Forall P m.
Proof.
  intros F E. unfold locate_stream in E. destruct (s <? 0); [discriminate|]. cbv zeta in E.
  destruct (locate_loop _ _ _ _ _ _ _ _ _ _ _ _ _ _) as (seen1, [((((sp, ep), sl), s1), tf)|e]); [|discriminate].
  injection E as _ E. destruct (negb (s1 =? EOCSID)); [discriminate|]. destruct (negb (tf =? _)); [discriminate|].
  destruct sl as [|x sl]; injection E as <- _ _; [exact F|].
  apply Forall_app. split; [apply slice_keeps; exact F|]. apply Forall_flat_map. apply Forall_forall. intros ab _. apply slice_keeps. exact F.
Qed.
Lemma init_keeps (P : N -> Prop) mem ig cd : Forall P mem -> init mem ig = Ok cd ->
  cd_mem cd = mem /\ forall b, cd_SSCS cd = Some b -> Forall P b.
Proof.
  intros F E. unfold init in E.
  destruct (negb (str_eqb (bytes_at 0 8 mem) SIGNATURE)); [discriminate|].
  destruct (negb (str_eqb (bytes_at 28 2 mem) [254; 255]%N)); [discriminate|].
  destruct (negb (Nat.eqb (length (bytes_at 30 4 mem)) 4)); [discriminate|]. cbv zeta in E.
  destruct (negb (Nat.eqb (length (bytes_at 44 32 mem)) 32)); [discriminate|].
  destruct (unpack_ints 109 (bytes_at 76 436 mem)) as [msat|e]; [|discriminate]. cbn [bind] in E.
  destruct (_ / 4 <=? 1); [discriminate|].
  match type of E with (bind ?r _) = _ => destruct r as [(msat1, seen1)|e]; [|discriminate] end. cbn [bind] in E.
  match type of E with (bind ?r _) = _ => destruct r as [(sat, seen2)|e]; [|discriminate] end. cbn [bind] in E.
  destruct (get_stream _ _ _ _ _ _ _ _) as (seen3, [db|e]); [|discriminate]. cbn [bind] in E.
  destruct (mapM _ _) as [dl|e]; [|discriminate]. cbn [bind] in E.
  destruct (family_of dl) as [k|e]; [|discriminate]. cbn [bind] in E.
  destruct (py_index dl 0) as [root|]; [|discriminate].
  destruct (negb (dn_etype root =? 5)); [discriminate|].
  destruct ((dn_first root <? 0) || (dn_size root =? 0)).
  - cbn [bind] in E. match type of E with (bind ?r _) = _ => destruct r as [(ssat, seen4)|e]; [|discriminate] end.
    cbn [bind] in E. injection E as <-. cbn [cd_mem cd_SSCS]. split; [reflexivity|discriminate].
  - destruct (get_stream mem 512 sat _ (dn_first root) _ _ _) as (seen4, [b|e]) eqn:G; [|discriminate]. cbn [bind] in E.
    match type of E with (bind ?r _) = _ => destruct r as [(ssat, seen5)|e]; [|discriminate] end.
    cbn [bind] in E. injection E as <-. cbn [cd_mem cd_SSCS]. split; [reflexivity|].
    intros b' Q. injection Q as <-. exact (get_stream_keeps P _ _ _ _ _ _ _ _ _ _ F G).
Qed.
Lemma named_keeps (P : N -> Prop) path cd cd' m pos len : Forall P (cd_mem cd) -> (forall b, cd_SSCS cd = Some b -> Forall P b) ->
  locate_named_stream path cd = (cd', Ok (Some (m, pos, len))) -> Forall P m.
Proof.
  intros F S1 E. unfold locate_named_stream in E. destruct (dir_search _ _ _ _) as [[did|]|e]; try discriminate.
  destruct (py_index _ did) as [d|]; [|discriminate]. destruct (_ <? dn_size d); [discriminate|].
  destruct (cd_min_std cd <=? dn_size d).
  - destruct (locate_stream _ _ _ _ _ _ _ _ _) as (seen, [x|e]) eqn:L; [|discriminate]. cbn [bind] in E. injection E as _ ->.
    exact (locate_keeps P _ _ _ _ _ _ _ _ _ _ _ _ _ F L).
  - destruct (short_stream cd d) as (seen, [b|e]) eqn:L; [|discriminate]. cbn [bind] in E. injection E as _ <- _ _.
    unfold short_stream in L. destruct (cd_SSCS cd) as [c|].
    + exact (get_stream_keeps P _ _ _ _ _ _ _ _ _ _ (S1 c eq_refl) L).
    + destruct (get_stream _ _ _ _ _ _ _ _) as (seen1, [b1|e]) eqn:G; [|discriminate]. cbn [bind] in L.
      destruct (dn_first d <? 0); [|discriminate]. injection L as _ <-.
      exact (get_stream_keeps P _ _ _ _ _ _ _ _ _ _ (Forall_nil _) G).
Qed.
Lemma named_fields path cd : cd_mem (fst (locate_named_stream path cd)) = cd_mem cd /\ cd_SSCS (fst (locate_named_stream path cd)) = cd_SSCS cd.
Proof.
  unfold locate_named_stream. destruct (dir_search _ _ _ _) as [[did|]|e]; try (split; reflexivity).
  destruct (py_index _ did) as [d|]; [|split; reflexivity]. destruct (_ <? dn_size d); [split; reflexivity|].
  destruct (cd_min_std cd <=? dn_size d).
  - destruct (locate_stream _ _ _ _ _ _ _ _ _). split; reflexivity.
  - destruct (short_stream cd d). split; reflexivity.
Qed.
Lemma load_keeps (P : N -> Prop) file m pos len : Forall P file -> load_stream file = Ok (m, pos, len) -> Forall P m.
Proof.
  intros F E. unfold load_stream in E. destruct file as [|x f]; [discriminate|].
  destruct (negb (str_eqb _ _)); [injection E as <- _ _; exact F|].
  destruct (init (x :: f) false) as [cd|e] eqn:I0; [|discriminate]. cbn [bind] in E.
  destruct (init_keeps P _ _ _ F I0) as (EM & ES).
  destruct (locate_named_stream [lit "Workbook"] cd) as (cd1, r1) eqn:L1.
  pose proof (named_fields [lit "Workbook"] cd) as (M1 & M2). rewrite L1 in M1, M2. cbn [fst] in M1, M2.
  assert (Forall P (cd_mem cd1)) as F1 by (rewrite M1, EM; exact F).
  assert (forall b, cd_SSCS cd1 = Some b -> Forall P b) as S1 by (rewrite M2; exact ES).
  assert (Forall P (cd_mem cd)) as F0 by (rewrite EM; exact F).
  destruct r1 as [[((m1, p1), n1)|]|e]; [| |discriminate]; cbn [bind] in E.
  - destruct m1 as [|y m1].
    + destruct (locate_named_stream [lit "Book"] cd1) as (cd2, [[((m2, p2), n2)|]|e]) eqn:L2; try discriminate. cbn [bind] in E.
      destruct m2; [discriminate|]. injection E as <- _ _. exact (named_keeps P _ _ _ _ _ _ F1 S1 L2).
    + injection E as <- _ _. exact (named_keeps P _ _ _ _ _ _ F0 ES L1).
  - destruct (locate_named_stream [lit "Book"] cd1) as (cd2, [[((m2, p2), n2)|]|e]) eqn:L2; try discriminate. cbn [bind] in E.
    destruct m2; [discriminate|]. injection E as <- _ _. exact (named_keeps P _ _ _ _ _ _ F1 S1 L2).
Qed.
