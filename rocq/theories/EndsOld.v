(** * Reading BIFF 2 to 7 ends *)

From Coq Require Import ZArith Lia ZifyBool ZifyNat ZifyN.
From Verif Require Import PyBase PyBaseFacts PyFloat PyText NumPy Dbf Dicts Pack ReadXl XlStruct CompDoc Sst FmtDate XlSheet
  XlNames XlObjects Biff BiffProofs BiffOld SpecBytes SpecSound SoundProofs.
Open Scope Z_scope.

#[local] Hint Resolve sized_ends unpack_u_ends unpack_i_ends unpack_d_ends unpack_RK_ends byte_ends utf16_ends ends_ok get_record_ends
  sst_ends country_ends names_ends rstring_ends addresses_ends formula_string_ends address_list_ends unicode_ends unicode_pos_ends
  hlink_ends quicktip_ends obj_ends note_ends txo_ends getbof_ends : ends.

Definition dec_ends (dec : decoder) : Prop := forall page raw, dec page raw <> Err NonTermination.

(** ** Texts and formats *)

Lemma old_string_ends dec page data pos n : dec_ends dec -> ends (old_string dec page data pos n).
Proof. intro D. unfold old_string. cbv zeta. go. apply D. Qed.
Lemma old_derive_ends dec c : dec_ends dec -> ends (old_derive dec c).
Proof. intro D. unfold old_derive. go. apply old_string_ends, D. Qed.
Lemma coded_ends dec b : dec_ends dec -> ends (coded dec b).
Proof. intro D. unfold coded. go. apply old_derive_ends, D. Qed.
Lemma derived_ends dec b : dec_ends dec -> ends (derived dec b).
Proof. intro D. unfold derived. go. apply old_derive_ends, D. Qed.
#[local] Hint Resolve old_string_ends old_derive_ends coded_ends derived_ends : ends.
Lemma old_codepage_ends dec data b : dec_ends dec -> ends (old_codepage dec data b).
Proof. intro D. unfold old_codepage. cbv zeta. go. Qed.
Lemma old_writeaccess_ends dec data b : dec_ends dec -> ends (old_writeaccess dec data b).
Proof. intro D. unfold old_writeaccess. cbv zeta. go. Qed.
Lemma old_datemode_ends data b : ends (old_datemode data b).
Proof. unfold old_datemode. cbv zeta. go. Qed.
Lemma old_format_ends dec rc data b : dec_ends dec -> ends (old_format dec rc data b).
Proof. intro D. unfold old_format. cbv zeta. go. Qed.
Lemma old_xf_ends data b : ends (old_xf data b).
Proof. unfold old_xf, old_xf_key. cbv zeta. go. Qed.
#[local] Hint Resolve old_codepage_ends old_writeaccess_ends old_datemode_ends old_format_ends old_xf_ends : ends.

(** ** Cells *)

Lemma put_old_ends b p st : ends (put1 (old_setup b) p st).
Proof.
  unfold put1. assert (H : ends (snd (put_cell (old_setup b) (pt_row p) (pt_col p) (pt_type p) (pt_value p) (pt_xf p) (r_grid st)))).
  { unfold put_cell. cbn [su_ragged old_setup]. unfold put_cell_unragged. unfold cell_type_in. cbv zeta.
    destruct (match pt_type p with Some t => Ok t | None => _ end) as [t|e] eqn:E.
    - destruct (store _ (r_grid st) _ _ _ _ _) as [g [[]|e]]; [discriminate|].
      destruct (negb _); [discriminate|]. destruct (negb _); [discriminate|]. apply store_ends.
    - destruct (pt_type p); [discriminate|]. destruct (dget _ _); [discriminate|]. injection E as <-. discriminate. }
  destruct (put_cell _ _ _ _ _ _ _) as [g [u|e]]; [discriminate|]. cbn [snd] in H. intro X. apply H. congruence.
Qed.
#[local] Hint Resolve put_old_ends : ends.
Lemma mulrk_old_ends b data row : forall cols pos st, ends (mulrk_loop (old_setup b) data pos row cols st).
Proof. induction cols as [|c cols IH]; intros pos st; cbn [mulrk_loop]; go. Qed.
#[local] Hint Resolve mulrk_old_ends : ends.
Lemma formula_record_old_ends b mem data pos st : ends (formula_record (old_setup b) mem data pos st).
Proof. unfold formula_record. cbv zeta. go. Qed.
#[local] Hint Resolve formula_record_old_ends : ends.
Lemma sheet_record_old_ends b mem strings rc len data pos st : ends (sheet_record (old_setup b) mem strings rc len data pos st).
Proof.
  unfold sheet_record. cbv zeta.
  repeat match goal with |- ends (if rc =? ?d then _ else _) => destruct (rc =? d) end; go.
  apply skip_ends, enough_first.
Qed.
#[local] Hint Resolve sheet_record_old_ends : ends.
Lemma old_put_ends p st : ends (old_put p st).
Proof. unfold old_put. go. Qed.
Lemma fixed_ends attr st : ends (fixed_xf attr st).
Proof. unfold fixed_xf. cbv zeta. go. Qed.
#[local] Hint Resolve old_put_ends fixed_ends : ends.
Lemma put_b2_ends data ty v st : ends (put_b2 data ty v st).
Proof. unfold put_b2. go. Qed.
#[local] Hint Resolve put_b2_ends : ends.

Lemma old_contents_ends dec page mem : dec_ends dec -> forall fuel raw expected found pos acc, enough mem fuel pos ->
  ends (old_contents (S fuel) dec page mem raw expected found pos acc).
Proof.
  intro D. induction fuel as [|fuel IH]; intros raw expected found pos acc E; [|remember (S fuel) as f]; cbn [old_contents]; cbv zeta; try subst f;
    (apply ends_bind; [apply D|]; intros chunk _);
    (destruct (_ =? _); [discriminate|]); (destruct (_ <? _); [discriminate|]);
    (apply ends_bind; [go|]; intros [[[code len] data'] pos'] R; apply get_record_inv in R; destruct (negb _); [discriminate|]).
  - unfold enough in E. lia.
  - apply IH. apply (enough_step mem fuel pos); tauto.
Qed.
Lemma old_contents_pos dec page mem : forall fuel raw expected found pos acc t p,
  old_contents fuel dec page mem raw expected found pos acc = Ok (t, p) -> pos <= p.
Proof.
  induction fuel as [|fuel IH]; intros raw expected found pos acc t p; cbn [old_contents]; cbv zeta;
    destruct (dec page raw) as [chunk|]; try discriminate; cbn [bind];
    (destruct (_ =? _); [intro H; injection H as _ <-; lia|]); (destruct (_ <? _); [discriminate|]); [discriminate|].
  destruct (get_record mem pos) as [[[[code len] data'] pos']|] eqn:R; [|discriminate]. apply get_record_inv in R. cbn [bind].
  destruct (negb _); [discriminate|]. intro H. apply IH in H. lia.
Qed.
Lemma old_formula_string_ends dec mem pos b : dec_ends dec -> ends (old_formula_string dec mem pos b).
Proof.
  intro D. unfold old_formula_string. apply ends_bind; [go|]. intros [[[rc2 len] data2] pos'] R.
  apply ends_bind; [go|]. intros [d p] _. cbv zeta. apply ends_bind; [go|]. intros ? _. apply ends_bind; [go|]. intros b' _.
  apply ends_bind; [apply old_contents_ends; [exact D|apply enough_first]|]. intros [t q] _. discriminate.
Qed.
Lemma old_formula_string_pos dec mem pos b t p b' : old_formula_string dec mem pos b = Ok (t, p, b') -> pos <= p.
Proof.
  unfold old_formula_string. destruct (get_record mem pos) as [[[[rc2 len] data2] pos']|] eqn:R; [|discriminate]. apply get_record_inv in R. cbn [bind].
  match goal with |- bind ?r _ = _ -> _ => destruct r as [[d p']|] eqn:E; [|discriminate] end. cbn [bind]. cbv zeta.
  match goal with |- bind ?r _ = _ -> _ => destruct r; [|discriminate] end. cbn [bind]. destruct (coded dec b) as [b1|]; [|discriminate]. cbn [bind].
  destruct (old_contents _ _ _ _ _ _ _ _ _) as [[s q]|] eqn:C; [|discriminate]. cbn [bind]. intro H. injection H as _ <- _. apply old_contents_pos in C.
  enough (pos' <= p') by lia. destruct ((rc2 =? 519) || (rc2 =? 7)); [injection E as _ <-; lia|].
  match type of E with bind ?r _ = _ => destruct r; [|discriminate] end. cbn [bind] in E.
  destruct (get_record mem pos') as [[[[rc3 len3] data3] pos3]|] eqn:R3; [|discriminate]. apply get_record_inv in R3. cbn [bind] in E.
  destruct ((rc3 =? 519) || (rc3 =? 7)); [injection E as _ <-; lia|discriminate].
Qed.
#[local] Hint Resolve old_formula_string_ends : ends.
Lemma old_formula_ends dec bv mem data pos st : dec_ends dec -> ends (old_formula dec bv mem data pos st).
Proof. intro D. unfold old_formula. cbv zeta. go. Qed.
Lemma old_runs_ends data : forall n pos, ends (old_runs n data pos).
Proof. induction n as [|n IH]; intro pos; cbn [old_runs]; go. Qed.
Lemma old_note_ends mem : forall fuel expected acc pos, enough mem fuel pos -> ends (old_note (S fuel) mem expected acc pos).
Proof.
  induction fuel as [|fuel IH]; intros expected acc pos E; [|remember (S fuel) as f]; cbn [old_note]; cbv zeta; try subst f;
    (destruct (_ <=? 0); [destruct (_ =? 0); discriminate|]);
    (apply ends_bind; [go|]; intros [[[code len] data'] pos'] R; apply get_record_inv in R; destruct (negb _); [discriminate|]);
    (apply ends_bind; [go|]; intros ? _; destruct (negb _); [discriminate|]; destruct (negb _); [discriminate|]).
  - unfold enough in E. lia.
  - apply IH. apply (enough_step mem fuel pos); tauto.
Qed.
Lemma old_note_pos mem : forall fuel expected acc pos r p, old_note fuel mem expected acc pos = Ok (r, p) -> pos <= p.
Proof.
  induction fuel as [|fuel IH]; intros expected acc pos r p; cbn [old_note]; cbv zeta;
    (destruct (_ <=? 0); [destruct (_ =? 0); [|discriminate]; intro H; injection H as _ <-; lia|]); [discriminate|].
  destruct (get_record mem pos) as [[[[code len] data'] pos']|] eqn:R; [|discriminate]. apply get_record_inv in R. cbn [bind].
  destruct (negb _); [discriminate|]. destruct (sized _ _); [|discriminate]. cbn [bind].
  destruct (negb _); [discriminate|]. destruct (negb _); [discriminate|]. intro H. apply IH in H. lia.
Qed.
Lemma old_handle_note_ends dec mem data pos b : dec_ends dec -> ends (old_handle_note dec mem data pos b).
Proof.
  intro D. unfold old_handle_note. cbv zeta. go; [apply old_note_ends, enough_first|apply D].
Qed.
#[local] Hint Resolve old_formula_ends old_runs_ends old_handle_note_ends : ends.

Lemma early_record_ends dec rc len data st r : dec_ends dec -> early_record dec rc len data st = Some r -> ends r.
Proof.
  intro D. unfold early_record. cbv zeta.
  repeat match goal with |- (if ?c then _ else _) = Some _ -> _ => destruct c; [intro H; injection H as <-|] end; go.
  discriminate.
Qed.
Lemma old_record_ends dec bv mem rc len data pos st : dec_ends dec -> ends (old_record dec bv mem rc len data pos st).
Proof.
  intro D. unfold old_record. cbv zeta.
  do 7 (match goal with |- ends (if ?c then _ else _) => destruct c; [go|] end).
  destruct (if bv <=? 45 then _ else None) as [r|] eqn:E; [|go].
  destruct (bv <=? 45); [|discriminate]. apply early_record_ends in E; [|exact D]. go.
Qed.
Lemma old_formula_pos dec bv mem data pos st st' p : old_formula dec bv mem data pos st = Ok (st', p) -> pos <= p.
Proof.
  unfold old_formula. cbv zeta. destruct (sized _ _); [|discriminate]. cbn [bind].
  match goal with |- bind ?r _ = _ -> _ => destruct r as [[xf st1]|]; [|discriminate] end. cbn [bind]. destruct (str_eqb _ _); [|low].
  destruct (_ =? 0); [|low]. destruct (old_formula_string dec mem pos _) as [[[t q] b']|] eqn:E; [|discriminate]. cbn [bind].
  apply old_formula_string_pos in E. low.
Qed.
Lemma old_record_pos dec bv mem rc len data pos st st' p : old_record dec bv mem rc len data pos st = Ok (st', p) -> pos <= p.
Proof.
  unfold old_record. cbv zeta.
  do 2 (match goal with |- (if ?c then _ else _) = Ok _ -> _ => destruct c; [low|] end).
  match goal with |- (if ?c then _ else _) = Ok _ -> _ => destruct c; [apply old_formula_pos|] end.
  match goal with |- (if ?c then _ else _) = Ok _ -> _ => destruct c; [destruct (len =? 0); low|] end.
  match goal with |- (if ?c then _ else _) = Ok _ -> _ => destruct c; [low|] end.
  match goal with |- (if ?c then _ else _) = Ok _ -> _ => destruct c end.
  { destruct (old_handle_note _ _ _ _ _) as [[b q]|] eqn:E; [|discriminate]. cbn [bind]. intro H. injection H as _ <-.
    unfold old_handle_note in E. cbv zeta in E. destruct (sized _ _); [|discriminate]. cbn [bind] in E. destruct (negb _); [discriminate|].
    destruct (old_note _ _ _ _ _) as [[raw q']|] eqn:N; [|discriminate]. apply old_note_pos in N. cbn [bind] in E.
    destruct (coded _ _); [|discriminate]. cbn [bind] in E. destruct (dec _ _); [|discriminate]. injection E as _ <-. exact N. }
  match goal with |- (if ?c then _ else _) = Ok _ -> _ => destruct c; [low|] end.
  destruct (if bv <=? 45 then _ else None) as [r|]; [low|].
  destruct (sheet_record _ _ _ _ _ _ _ _) as [[r q]|] eqn:E; [|discriminate]. apply record_pos in E. cbn [bind]. low.
Qed.
Lemma old_loop_ends dec bv mem : dec_ends dec -> forall fuel pos st, enough mem fuel pos -> ends (old_loop (S fuel) dec bv mem pos st).
Proof.
  intro D. induction fuel as [|fuel IH]; intros pos st E; [|remember (S fuel) as f]; cbn [old_loop]; try subst f;
    (apply ends_bind; [go|]; intros [[[code len] data'] pos'] R; apply get_record_inv in R; destruct (code =? 10); [go|]);
    (apply ends_bind; [apply old_record_ends, D|]; intros [b' p] G; apply old_record_pos in G).
  - unfold enough in E. lia.
  - apply IH. apply (enough_step mem fuel pos); [exact E|tauto|lia].
Qed.
Lemma old_sheet_ends dec mem pos b : dec_ends dec -> ends (old_sheet dec mem pos b).
Proof.
  intro D. unfold old_sheet. cbv zeta. apply ends_bind; [go|]. intros [v p] _. apply ends_bind; [apply old_loop_ends; [exact D|apply enough_first]|].
  intros st _. unfold tidy. cbn [su_ragged old_setup]. discriminate.
Qed.
#[local] Hint Resolve old_sheet_ends : ends.
Lemma old_sheets_ends dec mem : dec_ends dec -> forall l b, ends (old_sheets dec mem l b).
Proof. intro D. induction l as [|[n p] l IH]; intro b; cbn [old_sheets]; go. Qed.

(** ** Globals *)

Lemma old_sheethdr_ends dec mem data pos b : dec_ends dec -> ends (old_sheethdr dec mem data pos b).
Proof. intro D. unfold old_sheethdr. go. Qed.
#[local] Hint Resolve old_sheethdr_ends : ends.
Lemma old_global_ends dec mem base rc data pos b : dec_ends dec -> ends (old_globals_record dec mem base rc data pos b).
Proof.
  intro D. unfold old_globals_record, handle_sst, old_boundsheet, old_externsheet, old_name, XlNames.old_new_name, handle_supbook. cbv zeta.
  repeat match goal with |- ends (if ?c =? ?d then _ else _) => destruct (c =? d) end; go; try apply D.
  apply continues_ends, enough_first.
Qed.
Lemma old_global_pos dec mem base rc data pos b b' p : old_globals_record dec mem base rc data pos b = Ok (b', p) ->
  pos <= p \/ rc = 0x8f /\ le_signed (bytes_at 0 4 data) < 0 /\ length (bytes_at 0 4 data) = 4%nat.
Proof.
  unfold old_globals_record. cbv zeta. destruct (rc =? 252).
  { unfold handle_sst. destruct (unpack_i _); [|discriminate]. cbn [bind]. destruct (continues _ _ _) as [[l p']|] eqn:E; [|discriminate]. cbn [bind].
    destruct (unpack_SST_table _ _) as [[? ?]|]; [|discriminate]. cbn [bind]. intro H. injection H as _ <-. apply continues_pos in E. left. exact E. }
  do 10 (match goal with |- (if ?c then _ else _) = Ok _ -> _ => destruct c; [intro H; left; revert H; low|] end).
  destruct (Z.eqb_spec rc 0x8f) as [->|]; [|intro H; left; revert H; low].
  unfold old_sheethdr. destruct (derived _ _) as [b1|]; [|discriminate]. cbn [bind]. unfold sized. destruct (Nat.eqb_spec (length (bytes_at 0 4 data)) 4); [|discriminate]. cbn [bind].
  destruct (old_string _ _ _ _ _) as [[nm q]|]; [|discriminate]. cbn [bind]. destruct (nth_error _ _) as [[nm' q']|]; [|discriminate].
  destruct (negb _); [discriminate|]. destruct (old_sheet _ _ _ _) as [[sh b2]|]; [|discriminate]. cbn [bind]. intro H. injection H as _ <-.
  destruct (Z_lt_le_dec (le_signed (bytes_at 0 4 data)) 0); [right; auto|left; lia].
Qed.

Lemma signed_back data : le_signed (bytes_at 0 4 data) < 0 -> length (bytes_at 0 4 data) = 4%nat ->
  exists a b c d rest, data = a :: b :: c :: d :: rest /\ 2 ^ 31 <= two a b + 65536 * two c d.
Proof.
  unfold bytes_at. cbn [skipn]. destruct data as [|a [|b [|c [|d rest]]]]; cbn [firstn length]; try lia. intros H _.
  exists a, b, c, d, rest. split; [reflexivity|]. unfold le_signed in H. unfold two. cbv zeta in H. cbn [le_value length] in H.
  change (2 ^ (8 * Z.of_nat 4)) with 4294967296 in H. change (2 ^ 31) with 2147483648.
  match type of H with (if ?c then _ else _) < 0 => destruct c eqn:C end; lia.
Qed.

Lemma old_globals_ends dec mem base : dec_ends dec -> forall fuel pos b, enough mem fuel pos ->
  old_globals (S fuel) dec mem base pos b = Err NonTermination -> turns_back mem.
Proof.
  intro D. induction fuel as [|fuel IH]; intros pos b E; [|remember (S fuel) as f]; cbn [old_globals]; try subst f;
    (pose proof (get_record_ends mem pos) as GE; destruct (get_record mem pos) as [[[[code len] data] pos']|e] eqn:R;
       [|cbn [bind]; intro H; exfalso; apply GE; congruence]);
    (cbn [bind]; pose proof (get_record_at _ _ _ _ _ _ R) as [RA _]; apply get_record_inv in R);
    (destruct (code =? 10); [intro H; exfalso; cbv zeta in H; revert H; apply ends_bind; [apply names_epilogue_ends; intros o [= <-] raw; apply D|intros ? _; exact (coded_ends dec _ D)]|]);
    (pose proof (old_global_ends dec mem base code data pos' b D) as RE;
     destruct (old_globals_record dec mem base code data pos' b) as [[b' p]|e] eqn:G; [|cbn [bind]; intro H; exfalso; apply RE; congruence]);
    (cbn [bind]; apply old_global_pos in G; destruct G as [G|(-> & N & L)];
      [|intros _; destruct (signed_back data N L) as (x & y & z & w & rest & -> & B); exists pos, x, y, z, w, rest, pos'; split; assumption]).
  - unfold enough in E. lia.
  - intro H. apply (IH p b' (enough_step mem fuel pos p E ltac:(lia) ltac:(lia)) H).
Qed.
Lemma enough_more mem fuel pos : (length mem <= fuel)%nat -> enough mem fuel pos.
Proof. unfold enough, SpecBytes.size. lia. Qed.

Lemma open_old_ends dec version mem base pos : dec_ends dec -> open_old dec version mem base pos = Err NonTermination ->
  40 < version /\ turns_back mem.
Proof.
  intro D. unfold open_old. destruct (version <=? 40) eqn:V.
  - intro H. exfalso. revert H. change (ends (do (sh, b) <- old_sheet dec mem 0 (new_obook version); Ok (mkbook [lit "Sheet 1"] [sh] (o_datemode b)))). go.
  - destruct (old_globals _ dec mem base pos _) as [b|e] eqn:G; cbn [bind].
    + intro H. exfalso. revert H. destruct (version =? 45); [discriminate|].
      match goal with |- ?r = _ -> False => change (ends r) end. go. apply old_sheets_ends, D.
    + intro H. split; [lia|]. apply (old_globals_ends dec mem base D (2 * length mem) pos (new_obook version)); [|congruence].
      apply enough_more. lia.
Qed.
