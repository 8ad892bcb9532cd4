(** * Guessing the format of a text file: proofs of the property theorems *)

From Coq Require Import ZifyBool ZifyNat ZifyN QArith.
From Verif Require Import PyBase PyBaseFacts PyFloat PyText NumPy SpecArray ArrayFacts Pack PackProofs SpecDbf DbfProofs DbfThms ReadText SpecChars CharFacts SpecText TextProofs ReadTextThms Preparse SpecPreparse PreparseProofs.
Open Scope nat_scope.
Open Scope nat_scope.



Lemma C34_rows_proof :
forall (x : N) (first : str -> bool) (d : str) (n : nat) (header : list str) (rows : list (list str))
       (data blanks : list str) (names : dict val),
  x = 46%N \/ x = 44%N -> 2 <= n ->
  header_end header -> rows <> [] ->
  Forall2 (number_line x d) rows data -> Forall (fun r : list str => length r = n) rows -> Forall blank blanks ->
  (forall l, In l header -> exists fs, line_fields (Some d) l fs) ->
  header_names first (Some d) n header names ->
  (x = 44%N -> Exists (fractional 44) (last rows [])) ->
  preparse first (header ++ data ++ blanks)
  = Ok (Some (mkderived (length header) (Some d) (if N.eqb x 46 then None else Some (map Z.of_nat (seq 0 n))) names
                (map Z.of_nat (seq 0 n)))).
Proof.
exact preparse_rows.
Qed.



Lemma C34_single_proof :
forall (x : N) (first : str -> bool) (header nums data blanks : list str) (names : dict val),
  x = 46%N \/ x = 44%N ->
  header_end header -> nums <> [] ->
  Forall2 (lone_line x) nums data -> Forall blank blanks ->
  (forall l, In l header -> exists fs, line_fields None l fs) ->
  header_names first None 1 header names ->
  (x = 44%N -> fractional 44 (last nums [])) ->
  preparse first (header ++ data ++ blanks)
  = Ok (Some (mkderived (length header) None (if N.eqb x 46 then None else Some [0%Z]) names [0%Z])).
Proof.
exact preparse_lone.
Qed.



Lemma C34_one_character_proof :
forall (x : N) (l : str), exists fs, line_fields (Some [x]) l fs.
Proof.
exact line_fields_char.
Qed.

Lemma find_names_keys first delim n back : forall names, find_names first delim n back = Ok names ->
  names = [] \/ dkeys names = map Z.of_nat (seq 0 n).
Proof.
  induction back as [|l back IH]; intros names H; [left; apply ok_inj in H; auto|]. cbn [find_names] in H.
  destruct (header_fields delim l) as [fs|]; cbn [bind] in H; [|discriminate]. destruct fs as [|f fs]; [apply IH; exact H|].
  destruct (Nat.eqb (length (f :: fs)) n && first f) eqn:E; [|apply IH; exact H].
  apply andb_prop in E. destruct E as [E _]. apply Nat.eqb_eq in E. apply ok_inj in H. subst names. right.
  rewrite number_names. rewrite E. unfold dkeys. rewrite map_map. reflexivity.
Qed.

Lemma back_bound e rs : data_lines_back e rs <= length rs.
Proof. induction rs as [|r rs IH]; [reflexivity|]. cbn [data_lines_back length]. destruct (negb _); [lia|]. destruct (_ && _); lia. Qed.

Lemma distinct_zero l : distinct l = 0 -> l = [].
Proof.
  induction l as [|s l IH]; [reflexivity|]. cbn [distinct]. destruct (existsb (str_eqb s) l) eqn:E; [|discriminate].
  intro H. apply IH in H. subst l. discriminate.
Qed.

Lemma lits_groups lits : forall s g, match_lits lits s = Some g -> length lits = length g + 1 \/ lits = [] /\ g = [].
Proof.
  induction lits as [|l ls IH]; intros s g H; [right; injection H as <-; auto|]. left. cbn [match_lits] in H.
  destruct (strip_prefix l s) as [r|]; [|discriminate]. destruct ls as [|l2 ls]; [injection H as <-; reflexivity|].
  assert (G : forall n r g, match_gap (match_lits (l2 :: ls)) n r = Some g -> length (l2 :: ls) = length g).
  { intro n. induction n as [|n IHn]; intros r' g' E; [discriminate|]. cbn [match_gap] in E.
    destruct (match_lits (l2 :: ls) (skipn (S n) r')) as [g2|] eqn:Q; [|apply (IHn _ _ E)].
    injection E as <-. apply IH in Q. destruct Q as [Q|[Q _]]; [cbn [length] in *; lia|discriminate]. }
  apply G in H. cbn [length] in *. lia.
Qed.

Lemma search_groups lits s : search_lits lits s = [] \/ length lits = length (search_lits lits s) + 1.
Proof.
  induction s as [|c s IH]; cbn [search_lits]; destruct (match_lits lits _) as [g|] eqn:M.
  1, 3: apply lits_groups in M; destruct M as [M|[_ ->]]; auto.
  - auto.
  - exact IH.
Qed.

Lemma C34_found_proof :
forall first lines d, preparse first lines = Ok (Some d) ->
  exists n, 1 <= n /\
    d_usecols d = map Z.of_nat (seq 0 n) /\
    d_skiprows d < length lines /\
    (d_converters d = None \/ d_converters d = Some (d_usecols d)) /\
    (d_delimiter d = None <-> n = 1) /\
    (d_names d = [] \/ dkeys (d_names d) = d_usecols d).
Proof.
intros first lines d H. unfold preparse in H. cbv zeta in H.
destruct (rev (firstn _ (map (line_result 46) lines))) as [|dl dr] eqn:ED; [discriminate|].
destruct (rev (firstn _ (map (line_result 44) lines))) as [|cl cr] eqn:EC; [discriminate|].
set (dot := Nat.leb (numcnt dl) (numcnt cl)) in *.
set (results := if dot then firstn (pop_blank lines) (map (line_result 46) lines) else firstn (pop_blank lines) (map (line_result 44) lines)) in *.
assert (RR : exists x rest, rev results = (if dot then dl else cl) :: rest /\ results = firstn (pop_blank lines) (map (line_result x) lines)).
{ unfold results. destruct dot; [exists 46%N, dr|exists 44%N, cr]; auto. }
set (lr := if dot then dl else cl) in *. clearbody lr results. destruct RR as (x & rest & RR & RE).
assert (IN : exists s, lr = line_result x s).
{ assert (I : In lr results) by (apply in_rev; rewrite RR; left; reflexivity). rewrite RE in I.
  assert (S : exists tl, map (line_result x) lines = firstn (pop_blank lines) (map (line_result x) lines) ++ tl) by (exists (skipn (pop_blank lines) (map (line_result x) lines)); symmetry; apply firstn_skipn).
  destruct S as (tl & S). assert (J : In lr (map (line_result x) lines)) by (rewrite S; apply in_or_app; left; exact I).
  apply in_map_iff in J. destruct J as (s & <- & _). eauto. }
assert (LEN : length results <= length lines) by (rewrite RE, firstn_length, map_length; lia).
set (e := if Nat.eqb (numcnt lr) 1 then 0 else 1) in *.
destruct (negb (Nat.eqb (septypcnt lr) e)) eqn:SE; [discriminate|]. apply Bool.negb_false_iff, Nat.eqb_eq in SE.
match type of H with (if ?b then _ else _) = _ => destruct b; [discriminate|] end.
destruct (find_names _ _ _ _) as [names|] eqn:FN; cbn [bind] in H; [|discriminate].
apply ok_inj in H. injection H as <-. cbn [d_usecols d_skiprows d_converters d_delimiter d_names].
exists (numcnt lr).
assert (N1 : 1 <= numcnt lr).
{ destruct (numcnt lr) as [|k] eqn:K; [|lia]. unfold e in SE. cbn [Nat.eqb] in SE. destruct IN as (s & ->).
  unfold numcnt, septypcnt, line_result in *. cbn [fst snd] in *. apply length_zero_iff_nil in K. rewrite K in SE. destruct s; discriminate. }
split; [exact N1|]. split; [reflexivity|]. split.
{ rewrite RR. cbn [data_lines_back]. rewrite SE, Nat.eqb_refl. cbn [negb].
  assert (Nat.eqb (numcnt lr) 0 = false) as -> by (apply Nat.eqb_neq; lia). rewrite Bool.andb_false_r.
  assert (0 < length results) by (rewrite <- rev_length, RR; cbn; lia). lia. }
split; [destruct dot; auto|]. split.
{ unfold e. destruct (Nat.eqb (numcnt lr) 1) eqn:Q; cbn [Nat.eqb].
  - apply Nat.eqb_eq in Q. tauto.
  - apply Nat.eqb_neq in Q. split; [discriminate|congruence]. }
apply find_names_keys in FN. exact FN.
Qed.

Lemma drop_blank_nil back : drop_blank back = [] <-> Forall blank back.
Proof.
  split; [|intro F; pose proof (drop_blank_app back [] F) as E; rewrite app_nil_r in E; exact E].
  induction back as [|l back IH]; intro H; [constructor|]. cbn [drop_blank] in H. destruct (trim l) eqn:T; [|discriminate].
  constructor; [|apply IH; exact H]. unfold trim in T. destruct (strip_split ws_text l) as (a & b & E & A & B & _). rewrite T in E.
  rewrite E. cbn [app]. apply Forall_app. split; (eapply Forall_impl; [|eassumption]); intros c C; apply (proj1 (space_ws Text c)); exact C.
Qed.

Lemma pop_blank_le lines : pop_blank lines <= length lines.
Proof.
  unfold pop_blank. rewrite <- (rev_length lines). generalize (rev lines). clear lines. intro back.
  induction back as [|l back IH]; [reflexivity|]. cbn [drop_blank length]. destruct (trim l); cbn [length]; lia.
Qed.

Lemma sep_nonempty x l d : In d (snd (line_result x l)) -> d <> [].
Proof.
  unfold line_result. cbn [snd]. set (nums := findall x 0 l). clearbody nums. intro H. apply in_map_iff in H.
  destruct H as (s & <- & SI).
  assert (NE : s <> []).
  { assert (G : forall lits s0 g, match_lits lits s0 = Some g -> Forall (fun s : str => s <> []) g).
    { intro lits. induction lits as [|l1 ls IH]; intros s0 g H; [injection H as <-; constructor|]. cbn [match_lits] in H.
      destruct (strip_prefix l1 s0) as [r|]; [|discriminate]. destruct ls as [|l2 ls]; [injection H as <-; constructor|].
      assert (G : forall n r g, n <= length r -> match_gap (match_lits (l2 :: ls)) n r = Some g -> Forall (fun s : str => s <> []) g).
      { intro n. induction n as [|n IHn]; intros r' g' L E; [discriminate|]. cbn [match_gap] in E.
        destruct (match_lits (l2 :: ls) (skipn (S n) r')) as [g2|] eqn:Q; [|apply (IHn r' g' (Nat.le_trans _ _ _ (Nat.le_succ_diag_r n) L) E)].
        injection E as <-. constructor; [|apply (IH _ _ Q)]. destruct r'; [cbn in L; lia|discriminate]. }
      apply G in H; [exact H|]. clear. induction r as [|c r IH]; [reflexivity|]. cbn [span]. destruct (not_digit c); [|cbn; lia].
      destruct (span not_digit r). cbn [fst length] in *. lia. }
    induction l as [|c l IH]; cbn [search_lits] in SI.
    - destruct (match_lits nums []) as [g|] eqn:M; [|destruct SI]. apply G in M. rewrite Forall_forall in M. auto.
    - destruct (match_lits nums (c :: l)) as [g|] eqn:M; [|auto]. apply G in M. rewrite Forall_forall in M. auto. }
  unfold strip_sep. destruct (trim s); [exact NE|discriminate].
Qed.

Lemma find_names_total first delim n back : delim <> Some [] -> exists names, find_names first delim n back = Ok names.
Proof.
  intro D. induction back as [|l back (names & IH)]; [exists []; reflexivity|]. cbn [find_names].
  assert (H : exists fs, header_fields delim l = Ok fs).
  { unfold header_fields, split_line. destruct delim as [[|c d]|]; [congruence| |]; cbn [bind]; eauto. }
  destruct H as (fs & ->). cbn [bind]. destruct fs as [|f fs]; [eauto|]. destruct (_ && _); eauto.
Qed.

Lemma firstn_nonempty {A} (l : list A) n : n <= length l -> rev (firstn n l) = [] <-> n = 0.
Proof.
  intro L. split; intro H.
  - apply (f_equal (@length A)) in H. rewrite rev_length, firstn_length in H. cbn in H. lia.
  - subst n. reflexivity.
Qed.

Lemma C34_blank_error_proof :
forall first lines e, preparse first lines = Err e <-> e = IndexError /\ Forall blank lines.
Proof.
intros first lines e.
assert (PB : pop_blank lines = 0 <-> Forall blank lines).
{ unfold pop_blank. rewrite length_zero_iff_nil, drop_blank_nil. split; intro F; [rewrite <- (rev_involutive lines)|]; apply Forall_rev; exact F. }
pose proof (pop_blank_le lines) as LE.
assert (NE : forall x, rev (firstn (pop_blank lines) (map (line_result x) lines)) = [] <-> pop_blank lines = 0).
{ intro x. apply firstn_nonempty. rewrite map_length. exact LE. }
split.
- intro H. unfold preparse in H. cbv zeta in H.
  destruct (rev (firstn _ (map (line_result 46) lines))) as [|dl dr] eqn:ED.
  { injection H as <-. split; [reflexivity|]. apply PB. apply (NE 46%N). exact ED. }
  destruct (rev (firstn _ (map (line_result 44) lines))) as [|cl cr] eqn:EC.
  { injection H as <-. split; [reflexivity|]. apply PB. apply (NE 44%N). exact EC. }
  exfalso. revert H. set (dot := Nat.leb (numcnt dl) (numcnt cl)).
  assert (LR : exists x s, (if dot then dl else cl) = line_result x s).
  { assert (G : forall x r rest, rev (firstn (pop_blank lines) (map (line_result x) lines)) = r :: rest -> exists s, r = line_result x s).
    { intros x r rest E. assert (I : In r (firstn (pop_blank lines) (map (line_result x) lines))) by (apply in_rev; rewrite E; left; reflexivity).
      assert (J : In r (map (line_result x) lines)).
      { rewrite <- (firstn_skipn (pop_blank lines)). apply in_or_app. left. exact I. }
      apply in_map_iff in J. destruct J as (s & <- & _). eauto. }
    destruct dot; [destruct (G _ _ _ ED) as (s & ->)|destruct (G _ _ _ EC) as (s & ->)]; eauto. }
  set (lr := if dot then dl else cl) in *. clearbody lr.
  set (ex := if Nat.eqb (numcnt lr) 1 then 0 else 1).
  destruct (negb (Nat.eqb (septypcnt lr) ex)) eqn:SE; [discriminate|]. apply Bool.negb_false_iff, Nat.eqb_eq in SE.
  match goal with |- (if ?b then _ else _) = _ -> _ => destruct b; [discriminate|] end.
  match goal with |- context [find_names first ?dd ?nn ?bb] => destruct (find_names_total first dd nn bb) as (names & ->) end; [|discriminate].
  destruct (Nat.eqb ex 1) eqn:E1; [|discriminate]. apply Nat.eqb_eq in E1. rewrite E1 in SE.
  destruct LR as (x & s & ->). intro H.
  assert (NN : snd (line_result x s) <> []) by (intro Q; unfold septypcnt in SE; rewrite Q in SE; discriminate).
  destruct (exists_last NN) as (l' & q & Q). apply (sep_nonempty x s q); [rewrite Q; apply in_or_app; right; left; reflexivity|].
  rewrite Q, last_last in H. congruence.
- intros (-> & F). unfold preparse. cbv zeta. apply PB in F. rewrite (proj2 (NE 46%N) F). reflexivity.
Qed.

Lemma word_first_word word : begins_word word (word_first word).
Proof. split; [reflexivity|]. intros c s. unfold word_first, is_digit, is_upper, is_lower. destruct (N.ltb_spec c 128); [lia|]. destruct (word c); lia. Qed.
Lemma take_lines_all ls : Forall (fun l => ~ In 10%N l) ls -> forall n,
  take_lines n (concat (map endl ls)) = firstn n (map endl ls) ++ repeat [] (n - length ls).
Proof.
  induction 1 as [|l ls L F IH]; intro n.
  - cbn [map concat length firstn app]. rewrite firstn_nil, Nat.sub_0_r. cbn [app].
    induction n as [|n IH]; [reflexivity|]. cbn [take_lines readline repeat]. rewrite IH. reflexivity.
  - destruct n as [|n]; [reflexivity|]. cbn [map concat take_lines]. unfold endl at 1. rewrite <- app_assoc. cbn [app].
    rewrite readline_line by exact L. rewrite IH. reflexivity.
Qed.

Lemma row_number_line x d r l : separator d d -> r <> [] -> Forall (numeral x) r ->
  row_line Text (Some d) r l -> number_line x d r (endl l).
Proof.
  intros S N F (L & a & b & -> & W & A & B). split; [exact F|]. exists a, (join d r), (b ++ [10%N]).
  assert (P : forall q, Forall (pad (Some d)) q -> Forall quiet q).
  { intros q Q. eapply Forall_impl; [|exact Q]. intros c (C & _). apply white_quiet. left. exact C. }
  split; [unfold endl; rewrite <- !app_assoc; reflexivity|]. split; [apply P; exact A|]. split.
  { apply Forall_app. split; [apply P; exact B|]. constructor; [apply white_quiet; left; unfold white; lia|constructor]. }
  clear - S N. induction r as [|f r IH]; [congruence|]. destruct r as [|g r]; [apply gap_one|].
  change (join d (f :: g :: r)) with (f ++ d ++ join d (g :: r)). apply gap_more; [exact S|]. apply IH. discriminate.
Qed.

Lemma header_end_endl header : header_end header -> header_end (map endl header).
Proof.
  intros [->|(h & l & -> & D)]; [left; reflexivity|]. right. exists (map endl h), (endl l). rewrite map_app. split; [reflexivity|].
  apply Forall_app. split; [exact D|]. constructor; [apply no_digit; lia|constructor].
Qed.

Lemma lines_layout m d rows data : Forall2 (row_line m d) rows data -> layout m d rows (concat (map endl data)).
Proof.
  induction 1 as [|r l rows data R F IH]; [constructor|]. cbn [map concat]. unfold endl at 1. rewrite <- app_assoc. cbn [app].
  apply lay_row; assumption.
Qed.

Lemma lines_whole ls : Forall (fun l => ~ In 10%N l) ls -> whole_lines (length ls) (concat (map endl ls)).
Proof.
  induction 1 as [|l ls L F IH]; [constructor|]. cbn [length map concat]. unfold endl at 1. rewrite <- app_assoc. cbn [app].
  constructor; assumption.
Qed.

Lemma table_of_lines (d : option str) header (row0 : list str) rows data bytes name m k :
  Forall (fun l => ~ In 10%N l) header -> delim_ok d -> Forall2 (row_line m d) (row0 :: rows) data -> k = length header ->
  table_after (mksource bytes (concat (map endl (header ++ data))) 0 name) k m d row0 rows.
Proof.
  intros H D F ->. exists (concat (map endl header)), (concat (map endl data)). split; [unfold ahead; cbn; rewrite map_app, concat_app; reflexivity|].
  split; [apply lines_whole; exact H|]. split; [exact D|]. inversion F as [|? l ? data' R F' E1 E2]; subst.
  exists l, (concat (map endl data')). split; [exact R|]. right. split; [|apply lines_layout; exact F'].
  cbn [map concat]. unfold endl at 1. rewrite <- app_assoc. reflexivity.
Qed.

Definition value_of (s : str) : float := match float_of_text (dots s) with Ok f => f | Err _ => fnan end.

Lemma value_of_ok x s : x = 46%N \/ x = 44%N -> numeral x s -> reads Text (dots s) (value_of s).
Proof. intros X N. apply reads_iff. cbn [float_of]. unfold value_of. destruct (numeral_float x s X N) as (f & ->). reflexivity. Qed.

Definition conv_of (x : N) (n : nat) : dict (str -> res val) :=
  match (if N.eqb x 46 then None else Some (map Z.of_nat (seq 0 n))) with Some l => map (fun c => (c, floatit false)) l | None => [] end.

Lemma dget_const {V} (v : V) l c : In c l -> dget c (map (fun c => (c, v)) l) = Some v.
Proof.
  induction l as [|k l IH]; intros I; [destruct I|]. cbn [map dget]. destruct (Z.eqb_spec c k) as [->|N].
  - rewrite ?Z.eqb_refl. reflexivity.
  - destruct I as [->|I]; [congruence|]. destruct (Z.eqb_spec k c); [congruence|]. auto.
Qed.

Lemma plain_46 s : numeral 46 s -> plain_number Text s.
Proof. intro N. destruct (numeral_float 46 s (or_introl eq_refl) N) as (f & F). rewrite dots_46 in F by exact N. apply plain_iff. exists f. exact F. Qed.

Lemma numeral_cell x (row0 : list str) n c s : x = 46%N \/ x = 44%N -> length row0 = n -> Forall (numeral x) row0 -> c < n ->
  numeral x s -> cell Text false (conv_of x n) row0 c s (VFloat (value_of s)).
Proof.
  intros X L F C N. pose proof (value_of_ok x s X N) as V. destruct X as [-> | ->].
  - change (conv_of 46 n) with (@nil (Z * (str -> res val))). rewrite dots_46 in V by exact N.
    assert (P : Forall (plain_number Text) row0) by (eapply Forall_impl; [|exact F]; exact plain_46).
    rewrite Forall_forall in P. apply cell_plain; [reflexivity| | |exact V].
    + left. apply P. apply nth_In. rewrite <- L in C. exact C.
    + intros (t & T & (Q & _)). apply Q. apply P. exact T.
  - change (conv_of 44 n) with (map (fun c => (c, floatit false)) (map Z.of_nat (seq 0 n))).
    apply cell_converter with (f := floatit false).
    + apply dget_const. apply in_map. apply in_seq. lia.
    + unfold floatit. apply floatit_apply. right. eauto.
Qed.

Lemma conv_ok x n (row0 : list str) : x = 46%N \/ x = 44%N -> length row0 = n -> converters_ok (conv_of x n) row0.
Proof.
  intros [-> | ->] L; [apply no_converters|]. unfold conv_of. change (44 =? 46)%N with false. cbv iota.
  split.
  - unfold dkeys. rewrite map_map. cbn [fst]. rewrite map_id. apply FinFun.Injective_map_NoDup; [intros a b; lia|apply seq_NoDup].
  - intros k K. unfold dkeys in K. rewrite map_map in K. cbn [fst] in K. rewrite map_id in K. apply in_map_iff in K. destruct K as (c & <- & C). apply in_seq in C. rewrite L. lia.
Qed.

Lemma names_in_seq l names : names_in (ColsSeq l) names = Ok (filter (fun kv => existsb (Z.eqb (fst kv)) l) names).
Proof.
  induction names as [|kv names IH]; [reflexivity|]. cbn [names_in in_usecols bind]. rewrite IH. cbn [bind filter].
  destruct (existsb _ l); reflexivity.
Qed.

Lemma header_names_keys first d n header names : header_names first d n header names ->
  names = [] \/ dkeys names = map Z.of_nat (seq 0 n).
Proof.
  intros [(h1 & l & h2 & fs & _ & _ & _ & ->)|(_ & ->)]; [right|left; reflexivity]. unfold dkeys. rewrite map_map. reflexivity.
Qed.

Lemma filter_keys {V} (p : Z -> bool) (d : dict V) : dkeys (filter (fun kv => p (fst kv)) d) = filter p (dkeys d).
Proof. induction d as [|kv d IH]; [reflexivity|]. unfold dkeys in *. cbn [filter map]. destruct (p (fst kv)); cbn [map]; rewrite IH; reflexivity. Qed.

Lemma seq_keys_sorted p n : Sorted Z.lt (filter p (map Z.of_nat (seq 0 n))) /\ Forall (fun c => 0 <= c)%Z (filter p (map Z.of_nat (seq 0 n))).
Proof.
  split.
  - generalize 0. induction n as [|n IH]; intro k; [constructor|]. cbn [seq map filter].
    assert (H : forall m j q, (q < Z.of_nat j)%Z -> HdRel Z.lt q (filter p (map Z.of_nat (seq j m)))).
    { intro m. induction m as [|m IHm]; intros j q Q; [constructor|]. cbn [seq map filter]. destruct (p (Z.of_nat j)); [constructor; exact Q|].
      apply IHm. lia. }
    destruct (p (Z.of_nat k)); [|apply IH]. constructor; [apply IH|]. apply H. lia.
  - apply Forall_forall. intros c C. apply filter_In in C. destruct C as [C _]. apply in_map_iff in C. destruct C as (k & <- & _). lia.
Qed.

Lemma sorted_lt_le l : Sorted Z.lt l -> Sorted Z.le l.
Proof. induction 1 as [|a l S IH H]; constructor; [exact IH|]. destruct H; constructor. lia. Qed.

(** textpack on numbers, whichever way the columns are told. *)
Lemma read_numbers x d n header (row0 : list str) rows data names (U : cols) (u : option (list Z)) cs name :
  x = 46%N \/ x = 44%N -> delim_ok d ->
  Forall (fun l => ~ In 10%N l) header -> Forall2 (row_line Text d) (row0 :: rows) data ->
  Forall (fun r => length r = n /\ Forall (numeral x) r) (row0 :: rows) ->
  names = [] \/ dkeys names = map Z.of_nat (seq 0 n) ->
  ascending u -> columns_below u n cs ->
  U = match u with None => ColsSeq (map Z.of_nat (seq 0 n)) | Some l => ColsSeq l end ->
  let names' := filter (fun kv => match u with None => true | Some l => existsb (Z.eqb (fst kv)) l end) names in
  exists p, textpack (mksource false (concat (map endl (header ++ data))) 0 name)
              (mktargs names' d (Z.of_nat (length header)) U false None (conv_of x n) false false) = Ok p /\
    channels (fun _ s => VFloat (value_of s)) cs (row0 :: rows) (p_data p) /\ p_names p = names' /\ p_fn p = name.
Proof.
  intros X D H F W K A CB EU names'. set (src := mksource _ _ _ _).
  assert (L0 : length row0 = n) by (inversion W; tauto).
  assert (R : forall V, ascending (Some V) -> columns_below (Some V) n cs ->
    exists p, textpack src (mktargs [] d (Z.of_nat (length header)) (ColsSeq V) false None (conv_of x n) false false) = Ok p /\
      channels (fun _ s => VFloat (value_of s)) cs (row0 :: rows) (p_data p) /\ p_names p = [] /\ p_fn p = name).
  { intros V AV CV. apply (@read_table src _ Text row0 rows n cs (fun _ s => VFloat (value_of s))); try reflexivity.
    - apply table_of_lines; try assumption. cbn [t_skiprows]. lia.
    - apply conv_ok; assumption.
    - exact AV.
    - rewrite <- L0. apply narrowest_rect. apply Forall_forall. intros r I. rewrite Forall_forall in W.
      destruct (W r (or_intror I)) as [Lr _]. exact (eq_trans Lr (eq_sym L0)).
    - exact CV.
    - intros r c I C1 C2 _. cbn [t_stripstrings t_converters]. rewrite Forall_forall in W.
      assert (C3 : c < n) by exact (eq_ind _ (fun k => c < k) C1 _ L0).
      destruct (W row0 (or_introl eq_refl)) as [_ N0]. destruct (W r I) as [_ Nr]. rewrite Forall_forall in Nr.
      apply numeral_cell; try assumption. apply Nr. apply nth_In. exact C2. }
  destruct names' as [|nv ns] eqn:EN.
  - rewrite EU. destruct u as [l|]; [apply R; assumption|].
    pose proof (seq_keys_sorted (fun _ => true) n) as S.
    assert (FT : forall l : list Z, filter (fun _ => true) l = l) by (clear; induction l as [|a l IH]; [reflexivity|]; cbn [filter]; rewrite IH; reflexivity).
    rewrite FT in S. apply R; [exact S|]. destruct CB as [C1 C2]. split; [exact C1|]. intro c. rewrite C2.
    split; [|tauto]. intros [C _]. split; [exact C|]. apply in_map, in_seq. lia.
  - assert (DK : dkeys names = map Z.of_nat (seq 0 n)).
    { destruct K as [-> |K]; [discriminate|exact K]. }
    set (a := mktargs (nv :: ns) d (Z.of_nat (length header)) U false None (conv_of x n) false false).
    set (p := fun k => match u with None => true | Some l => existsb (Z.eqb k) l end).
    destruct (seq_keys_sorted p n) as [S1 S2].
    assert (KN : zsort (dkeys (nv :: ns)) = filter p (map Z.of_nat (seq 0 n))).
    { rewrite <- EN. pose proof (filter_keys p names) as FK. rewrite DK in FK. eapply eq_trans; [exact (f_equal zsort FK)|]. apply zsort_id. apply sorted_lt_le. exact S1. }
    pose proof (C29_names_select_proof src a
      (mktargs [] d (Z.of_nat (length header)) (ColsSeq (filter p (map Z.of_nat (seq 0 n)))) false None (conv_of x n) false false)
      ltac:(discriminate) ltac:(rewrite <- KN; reflexivity)) as S.
    destruct (R (filter p (map Z.of_nat (seq 0 n)))) as (q & Q & QD & QN & QF).
    + split; assumption.
    + destruct CB as [C1 C2]. split; [exact C1|]. intro c. rewrite C2. rewrite filter_In. unfold p.
      assert (I : c < n <-> In (Z.of_nat c) (map Z.of_nat (seq 0 n))).
      { split; intro C; [apply in_map, in_seq; lia|]. apply in_map_iff in C. destruct C as (c' & E & C). apply in_seq in C. lia. }
      rewrite <- I. destruct u as [l|]; [|tauto]. rewrite existsb_exists. split.
      * intros [C J]. split; [exact C|]. split; [exact C|]. exists (Z.of_nat c). split; [exact J|lia].
      * intros [C [_ (z & J & E)]]. split; [exact C|]. apply Z.eqb_eq in E. subst z. exact J.
    + rewrite Q in S. destruct (textpack src a) as [pk|] eqn:TP; [|contradiction]. destruct S as [S3 S4].
      exists pk. split; [reflexivity|]. split; [congruence|]. split; [exact S4|].
      apply textpack_inv in TP. destruct TP as (u' & s' & data' & names2 & y & -> & _). unfold make.
      match goal with |- context [new_pack ?d ?m] => destruct (pack_parts d m (src_name src)) as (_ & _ & E) end.
      exact E.
Qed.

Lemma firstn_cut {A} n (a b : list A) : length a <= n -> firstn n (a ++ b) = a ++ firstn (n - length a) b.
Proof. intro L. rewrite firstn_app, firstn_all2 by exact L. reflexivity. Qed.

Lemma Forall2_firstn {A B} (R : A -> B -> Prop) l1 l2 : Forall2 R l1 l2 -> forall n, Forall2 R (firstn n l1) (firstn n l2).
Proof. induction 1 as [|a b l1 l2 H F IH]; intros [|n]; cbn [firstn]; constructor; auto. Qed.

Lemma repeat_blank n : Forall blank (repeat [] n).
Proof. induction n; cbn [repeat]; constructor; [constructor|assumption]. Qed.

Lemma Forall2_rows {A B} (R S : A -> B -> Prop) l1 l2 : Forall2 R l1 l2 -> (forall a b, In a l1 -> R a b -> S a b) -> Forall2 S l1 l2.
Proof. induction 1 as [|a b l1 l2 H F IH]; intro G; constructor; [apply G; [left; reflexivity|exact H]|]. apply IH. intros. apply G; [right; assumption|assumption]. Qed.

Lemma In_firstn {A} (x : A) n l : In x (firstn n l) -> In x l.
Proof. intro H. rewrite <- (firstn_skipn n l). apply in_or_app. left. exact H. Qed.

Lemma C34_lazy_proof :
forall word (x : N) (d : str) (n : nat) (header : list str) (rows : list (list str)) (data : list str)
       (names : dict val) (u : option (list Z)) (cs : list nat) preferred name parselines,
  x = 46%N \/ x = 44%N -> 2 <= n ->
  separator d d -> ~ In 10%N d ->
  Forall (fun l => ~ In 10%N l) header -> header_end header ->
  rows <> [] -> Forall2 (row_line Text (Some d)) rows data ->
  Forall (fun r => length r = n /\ Forall (numeral x) r) rows ->
  (forall l, In l header -> exists fs, line_fields (Some d) (endl l) fs) ->
  (forall first, begins_word word first -> header_names first (Some d) n (map endl header) names) ->
  length header < Z.to_nat parselines ->
  (x = 44%N -> Exists (fractional 44) (last (firstn (Z.to_nat parselines - length header) rows) [])) ->
  ascending u -> columns_below u n cs ->
  exists (value : str -> float) p,
    (forall r s, In r rows -> In s r -> reads Text (dots s) (value s)) /\
    lazy_textpack word preferred (mksource false (concat (map endl (header ++ data))) 0 name) parselines
      (mkkwargs None None None (match u with None => None | Some l => Some (ColsSeq l) end) None None None None None)
    = Ok p /\
    channels (fun _ s => VFloat (value s)) cs rows (p_data p) /\
    p_names p = filter (fun kv => match u with None => true | Some l => existsb (Z.eqb (fst kv)) l end) names /\
    p_fn p = name.
Proof.
intros word x d n header rows data names u cs preferred name parselines X N2 SD ND HL HE NE RL W LF HN PL C A CB. specialize (HN _ (word_first_word word)).
exists value_of.
assert (VAL : forall r s, In r rows -> In s r -> reads Text (dots s) (value_of s)).
{ intros r s I J. rewrite Forall_forall in W. destruct (W r I) as [_ F]. rewrite Forall_forall in F. apply (value_of_ok x); auto. }
set (N := Z.to_nat parselines) in *. 
assert (DL : Forall (fun l => ~ In 10%N l) data).
{ clear - RL. induction RL as [|r l rows data R F IH]; constructor; [apply R|exact IH]. }
assert (TL : take_lines N (concat (map endl (header ++ data)))
  = map endl header ++ firstn (N - length header) (map endl data) ++ repeat [] (N - length (header ++ data))).
{ rewrite take_lines_all by (apply Forall_app; auto). rewrite map_app, firstn_cut by (rewrite map_length; lia).
  rewrite map_length, <- app_assoc. reflexivity. }
assert (NL : Forall2 (number_line x d) rows (map endl data)).
{ assert (G : Forall2 (fun r l => number_line x d r (endl l)) rows data).
  { apply (Forall2_rows _ _ _ _ RL). intros r l I R. rewrite Forall_forall in W. destruct (W r I) as [Lr Fr].
    apply row_number_line; try assumption. intros ->. cbn in Lr. lia. }
  clear - G. induction G; cbn [map]; constructor; auto. }
set (j := N - length header) in *. assert (J : 0 < j) by lia.
assert (PRE : preparse (word_first word) (take_lines N (concat (map endl (header ++ data))))
   = Ok (Some (mkderived (length header) (Some d) (if N.eqb x 46 then None else Some (map Z.of_nat (seq 0 n))) names
                (map Z.of_nat (seq 0 n))))).
{ rewrite TL. rewrite <- (map_length endl header).
  apply (preparse_rows x (word_first word) d n (map endl header) (firstn j rows)); try assumption.
  - apply header_end_endl. exact HE.
  - destruct rows; [congruence|]. destruct j; [lia|discriminate].
  - apply Forall2_firstn. exact NL.
  - apply Forall_forall. intros r I. apply In_firstn in I. rewrite Forall_forall in W. apply W. exact I.
  - apply repeat_blank.
  - intros l I. apply in_map_iff in I. destruct I as (l' & <- & I). apply LF. exact I. }
destruct rows as [|row0 rows]; [congruence|].
pose proof (header_names_keys _ _ _ _ _ HN) as K.
assert (DO : delim_ok (Some d)) by (split; [apply SD|exact ND]).
destruct (read_numbers x (Some d) n header row0 rows data names _ u cs name X DO HL RL W K A CB eq_refl) as (p & P & PD & PN & PF).
exists p. split; [exact VAL|]. split; [|auto].
unfold lazy_textpack. cbn [src_pos src_text src_bytes src_name skipn]. fold N. rewrite PRE. cbn [bind negb andb d_names d_usecols d_delimiter d_skiprows d_converters k_names k_usecols k_delimiter k_skiprows k_hasnames k_encoding k_converters k_stripstrings k_debug given].
cbv zeta in P.
assert (FT : forall l : dict val, filter (fun _ => true) l = l) by (clear; induction l as [|a l IH]; [reflexivity|]; cbn [filter]; rewrite IH; reflexivity).
destruct u as [l|].
- rewrite names_in_seq. cbn [bind]. exact P.
- cbn [bind]. rewrite FT in P. exact P.
Qed.

Lemma lone_row_line x n l : x = 46%N \/ x = 44%N -> lone_line x n l -> ~ In 10%N l -> row_line Text None [n] l.
Proof.
  intros X (N & pre & post & -> & P1 & P2) L. split; [exact L|]. split; [discriminate|]. apply sp_field; [exact P1|apply (numeral_nonempty x n N)| | |].
  - eapply Forall_impl; [|apply (numeral_chars x n X N)]. intros c C S. apply (proj1 (nchar_quiet c) C). apply white_quiet. exact S.
  - constructor. exact P2.
  - intros c C. destruct P2; [discriminate|]. injection C as <-. assumption.
Qed.

Lemma lone_endl x n l : lone_line x n l -> lone_line x n (endl l).
Proof.
  intros (N & pre & post & -> & P1 & P2). split; [exact N|]. exists pre, (post ++ [10%N]).
  split; [unfold endl; rewrite <- !app_assoc; reflexivity|]. split; [exact P1|]. apply Forall_app. split; [exact P2|].
  constructor; [left; unfold white; lia|constructor].
Qed.

Lemma C34_lazy_single_proof :
forall word (x : N) (header nums data : list str) (names : dict val) preferred name parselines,
  x = 46%N \/ x = 44%N ->
  Forall (fun l => ~ In 10%N l) header -> header_end header ->
  nums <> [] -> Forall2 (lone_line x) nums data -> Forall (fun l => ~ In 10%N l) data ->
  (forall l, In l header -> exists fs, line_fields None (endl l) fs) ->
  (forall first, begins_word word first -> header_names first None 1 (map endl header) names) ->
  length header < Z.to_nat parselines ->
  (x = 44%N -> fractional 44 (last (firstn (Z.to_nat parselines - length header) nums) [])) ->
  exists (value : str -> float) p,
    (forall s, In s nums -> reads Text (dots s) (value s)) /\
    lazy_textpack word preferred (mksource false (concat (map endl (header ++ data))) 0 name) parselines no_kwargs = Ok p /\
    holds_columns (p_data p) [(0%Z, map (fun s => VFloat (value s)) nums)] /\ p_names p = names /\ p_fn p = name.
Proof.
intros word x header nums data names preferred name parselines X HL HE NE RL DL LF HN PL C. specialize (HN _ (word_first_word word)).
exists value_of.
assert (NM : Forall (numeral x) nums) by (clear - RL; induction RL as [|n l nums data R F IH]; constructor; [apply R|exact IH]).
assert (VAL : forall s, In s nums -> reads Text (dots s) (value_of s)).
{ intros s I. rewrite Forall_forall in NM. apply (value_of_ok x); auto. }
set (N := Z.to_nat parselines) in *.
assert (TL : take_lines N (concat (map endl (header ++ data)))
  = map endl header ++ firstn (N - length header) (map endl data) ++ repeat [] (N - length (header ++ data))).
{ rewrite take_lines_all by (apply Forall_app; auto). rewrite map_app, firstn_cut by (rewrite map_length; lia).
  rewrite map_length, <- app_assoc. reflexivity. }
assert (NL : Forall2 (lone_line x) nums (map endl data)).
{ clear - RL. induction RL as [|n l nums data R F IH]; cbn [map]; constructor; [apply lone_endl; exact R|exact IH]. }
set (j := N - length header) in *. assert (J : 0 < j) by lia.
assert (PRE : preparse (word_first word) (take_lines N (concat (map endl (header ++ data))))
   = Ok (Some (mkderived (length header) None (if N.eqb x 46 then None else Some [0%Z]) names [0%Z]))).
{ rewrite TL. rewrite <- (map_length endl header).
  apply (preparse_lone x (word_first word) (map endl header) (firstn j nums)); try assumption.
  - apply header_end_endl. exact HE.
  - destruct nums; [congruence|]. destruct j; [lia|discriminate].
  - apply Forall2_firstn. exact NL.
  - apply repeat_blank.
  - intros l I. apply in_map_iff in I. destruct I as (l' & <- & I). apply LF. exact I. }
assert (RR : Forall2 (row_line Text None) (map (fun n => [n]) nums) data).
{ clear - RL DL X. induction RL as [|n l nums data R F IH]; cbn [map]; constructor; inversion DL; subst; [apply (lone_row_line x); assumption|auto]. }
assert (W : Forall (fun r => length r = 1 /\ Forall (numeral x) r) (map (fun n => [n]) nums)).
{ clear - NM. induction NM; cbn [map]; constructor; auto. }
pose proof (header_names_keys _ _ _ _ _ HN) as K.
assert (MAP : map (fun r : list str => VFloat (value_of (nth 0 r []))) (map (fun n => [n]) nums) = map (fun s => VFloat (value_of s)) nums) by (rewrite map_map; reflexivity).
destruct nums as [|n0 nums]; [congruence|]. cbn [map] in RR, W.
destruct (read_numbers x None 1 header [n0] (map (fun n => [n]) nums) data names _ None [0] name X I HL RR W K I (columns_below_all 1) eq_refl) as (p & P & PD & PN & PF).
assert (FT : forall l : dict val, filter (fun _ => true) l = l) by (clear; induction l as [|a l IH]; [reflexivity|]; cbn [filter]; rewrite IH; reflexivity).
cbv zeta in P. rewrite FT in P, PN.
exists p. split; [exact VAL|]. split; [|split; [|auto]].
- unfold lazy_textpack. cbn [src_pos src_text src_bytes src_name skipn]. fold N. rewrite PRE.
  cbn [bind negb andb no_kwargs d_names d_usecols d_delimiter d_skiprows d_converters k_names k_usecols k_delimiter k_skiprows k_hasnames k_encoding k_converters k_stripstrings k_debug given].
  exact P.
- apply channels_iff in PD. apply columns_iff. rewrite PD. exact (f_equal (fun l => [(0%Z, np_array l)]) MAP).
Qed.



Lemma C34_comma_delimiter_refuted_proof :
forall (word : N -> bool) (cp : codec),
match lazy_textpack word cp (mksource false (lit "1,2" ++ [10%N] ++ lit "3,4" ++ [10%N]) 0 []) 25 no_kwargs with
| Ok p => dkeys (p_data p) = [0%Z] /\
          exists f, reads Text (lit "1.2") f /\ exists g, dget 0%Z (p_data p) = Some (mkarr Kf [VFloat f; VFloat g])
| Err _ => False
end.
Proof.
intros word cp. vm_compute lazy_textpack. split; [reflexivity|]. eexists. split; [apply reads_iff; vm_compute; reflexivity|]. eexists. vm_compute. reflexivity.
Qed.



Lemma C34_comma_last_row_refuted_proof :
forall (word : N -> bool) (cp : codec),
match lazy_textpack word cp (mksource false (lit "1,5;2" ++ [10%N] ++ lit "3;4" ++ [10%N]) 0 []) 25 no_kwargs with
| Ok p => p_data p = [(0%Z, mkarr Kf [VFloat (float_of_Z 3)]); (1%Z, mkarr Kf [VFloat (float_of_Z 4)])]
| Err _ => False
end.
Proof.
intros word cp. vm_compute. reflexivity.
Qed.



Lemma C34_aligned_refuted_proof :
forall (word : N -> bool) (cp : codec),
match lazy_textpack word cp (mksource false (lit "1  2" ++ [10%N] ++ lit "3 4" ++ [10%N]) 0 []) 25 no_kwargs with
| Ok p => p_data p = [(0%Z, mkarr Kf [VFloat (float_of_Z 1); VFloat (float_of_Z 3)]); (1%Z, mkarr KU [VStr []; VStr (lit "4")])]
| Err _ => False
end.
Proof.
intros word cp. vm_compute. reflexivity.
Qed.



Lemma C34_surroundings_refuted_proof :
forall (word : N -> bool) (cp : codec),
let src := mksource false (lit "top 7 km" ++ [10%N]) 0 [] in
lazy_textpack word cp src 1 no_kwargs = Err ValueError /\
match lazy_textpack word cp src 2 no_kwargs with
| Ok p => p_data p = [(0%Z, mkarr KU [VStr (lit "top")])]
| Err _ => False
end.
Proof.
intros word cp. vm_compute. auto.
Qed.

Lemma chosen_given {A} (o : option A) v w : chosen_arg o v w -> given o v = w.
Proof. destruct o; cbn; auto. Qed.

Lemma names_in_picked u names : u <> ColsNone -> names_in u names = Ok (filter (fun kv => picked u (fst kv)) names).
Proof.
  intro U. induction names as [|kv names IH]; [reflexivity|]. cbn [names_in]. destruct u as [|c|l]; [congruence| |]; cbn [in_usecols bind]; rewrite IH; cbn [bind filter picked].
  - destruct (Z.eqb (fst kv) c); reflexivity.
  - destruct (existsb _ l); reflexivity.
Qed.

Lemma texts_decode c lines texts : Forall2 (fun l t => decode c l = Ok t) lines texts -> mapM (decode c) lines = Ok texts.
Proof. induction 1 as [|l t lines texts H F IH]; [reflexivity|]. cbn [mapM]. rewrite H, IH. reflexivity. Qed.

Lemma chosen_names_ok k d names : chosen_names (k_names k) (k_usecols k) (d_names d) names ->
  (k_usecols k = Some ColsNone -> k_names k <> None \/ d_names d = []) ->
  match k_names k, k_usecols k with
  | Some n, _ => Ok n
  | None, Some u => names_in u (d_names d)
  | None, None => Ok (d_names d)
  end = Ok names.
Proof.
  unfold chosen_names. destruct (k_names k) as [n|]; [intros ->; reflexivity|]. destruct (k_usecols k) as [u|]; [|intros ->; reflexivity].
  intros -> H. destruct u as [|c|l]; [|apply names_in_picked; discriminate|apply names_in_picked; discriminate].
  destruct (H eq_refl) as [Q| ->]; [congruence|reflexivity].
Qed.

Lemma C35_arguments_proof :
forall word preferred src parselines k texts d delim a,
  source_texts preferred k (src_bytes src) (take_lines (Z.to_nat parselines) (ahead src)) texts ->
  preparse (word_first word) texts = Ok (Some d) ->
  source_delim preferred k (src_bytes src) (d_delimiter d) delim ->
  (k_usecols k = Some ColsNone -> k_names k <> None \/ d_names d = []) ->
  chosen_arg (k_delimiter k) delim (t_delimiter a) ->
  chosen_arg (k_skiprows k) (Z.of_nat (d_skiprows d)) (t_skiprows a) ->
  chosen_arg (k_usecols k) (ColsSeq (d_usecols d)) (t_usecols a) ->
  chosen_arg (k_hasnames k) false (t_hasnames a) ->
  chosen_arg (k_encoding k) None (t_encoding a) ->
  chosen_arg (k_converters k) (match d_converters d with Some l => map (fun c => (c, floatit (src_bytes src))) l | None => [] end) (t_converters a) ->
  chosen_arg (k_stripstrings k) false (t_stripstrings a) ->
  chosen_arg (k_debug k) false (t_debug a) ->
  chosen_names (k_names k) (k_usecols k) (d_names d) (t_names a) ->
  lazy_textpack word preferred src parselines k = textpack (rewound src) a.
Proof.
intros word preferred src parselines k texts d delim a ST PRE SD UN A1 A2 A3 A4 A5 A6 A7 A8 A9.
unfold lazy_textpack. fold (ahead src).
assert (ARGS : textpack (mksource (src_bytes src) (src_text src) 0 (src_name src))
   (mktargs (t_names a) (given (k_delimiter k) delim) (given (k_skiprows k) (Z.of_nat (d_skiprows d)))
      (given (k_usecols k) (ColsSeq (d_usecols d))) (given (k_hasnames k) false) (given (k_encoding k) None)
      (given (k_converters k) (match d_converters d with Some l => map (fun c => (c, floatit (src_bytes src))) l | None => [] end))
      (given (k_stripstrings k) false) (given (k_debug k) false)) = textpack (rewound src) a).
{ rewrite (chosen_given _ _ _ A1), (chosen_given _ _ _ A2), (chosen_given _ _ _ A3), (chosen_given _ _ _ A4), (chosen_given _ _ _ A5),
    (chosen_given _ _ _ A6), (chosen_given _ _ _ A7), (chosen_given _ _ _ A8). destruct a. reflexivity. }
pose proof (chosen_names_ok k d (t_names a) A9 UN) as NM.
destruct (src_bytes src) eqn:B.
- destruct ST as (c & CE & F). destruct SD as (c' & CE' & SD).
  assert (c' = c) as -> by (unfold codec_used in CE, CE'; destruct (k_encoding k) as [[?|]|]; congruence).
  assert (GE : given (k_encoding k) (Some preferred) = Some c) by (unfold codec_used in CE; destruct (k_encoding k) as [[?|]|]; cbn; congruence).
  rewrite GE, (texts_decode _ _ _ F). cbn [bind]. rewrite PRE. cbn [bind].
  assert (DE : match d_delimiter d with Some x => do b <- encode c x; Ok (Some b) | None => Ok None end = Ok delim).
  { destruct (d_delimiter d) as [x|]; [destruct SD as (b & Eb & ->); rewrite Eb; reflexivity|rewrite SD; reflexivity]. }
  rewrite DE. cbn [bind d_names d_delimiter d_skiprows d_converters d_usecols negb andb]. rewrite NM. cbn [bind]. exact ARGS.
- cbn in ST, SD. subst texts delim. rewrite PRE. cbn [bind negb andb]. rewrite NM. cbn [bind]. exact ARGS.
Qed.

Lemma nothing_given_iff k : nothing_given k = true <-> k = no_kwargs.
Proof.
  split; [|intros ->; reflexivity]. destruct k as [a b c d e f g h i].
  destruct a, b, c, d, e, f, g, h, i; try discriminate. reflexivity.
Qed.

Lemma C35_not_found_proof :
forall word preferred src parselines k texts a,
  source_texts preferred k (src_bytes src) (take_lines (Z.to_nat parselines) (ahead src)) texts ->
  preparse (word_first word) texts = Ok None ->
  (k = no_kwargs -> lazy_textpack word preferred src parselines k = Err ValueError) /\
  (k <> no_kwargs ->
   chosen_arg (k_names k) [] (t_names a) ->
   chosen_arg (k_delimiter k) None (t_delimiter a) -> chosen_arg (k_skiprows k) 0%Z (t_skiprows a) ->
   chosen_arg (k_usecols k) ColsNone (t_usecols a) -> chosen_arg (k_hasnames k) false (t_hasnames a) ->
   chosen_arg (k_encoding k) None (t_encoding a) -> chosen_arg (k_converters k) [] (t_converters a) ->
   chosen_arg (k_stripstrings k) false (t_stripstrings a) -> chosen_arg (k_debug k) false (t_debug a) ->
   lazy_textpack word preferred src parselines k = textpack (rewound src) a).
Proof.
intros word preferred src parselines k texts a ST PRE.
assert (E : lazy_textpack word preferred src parselines k =
  if nothing_given k then Err ValueError
  else textpack (rewound src) (mktargs (given (k_names k) []) (given (k_delimiter k) None) (given (k_skiprows k) 0%Z)
      (given (k_usecols k) ColsNone) (given (k_hasnames k) false) (given (k_encoding k) None)
      (given (k_converters k) []) (given (k_stripstrings k) false) (given (k_debug k) false))).
{ unfold lazy_textpack. fold (ahead src).
  unfold rewound. destruct (src_bytes src) eqn:B.
  - destruct ST as (c & CE & F).
    assert (GE : given (k_encoding k) (Some preferred) = Some c) by (unfold codec_used in CE; destruct (k_encoding k) as [[?|]|]; cbn; congruence).
    rewrite GE, (texts_decode _ _ _ F). cbn [bind]. rewrite PRE. cbn [bind d_names d_delimiter d_skiprows d_converters d_usecols negb andb].
    destruct (k_names k); [|destruct (k_usecols k)]; cbn [names_in bind given]; destruct (nothing_given k); reflexivity.
  - cbn in ST. subst texts. rewrite PRE. cbn [bind d_names d_delimiter d_skiprows d_converters d_usecols negb andb].
    destruct (k_names k); [|destruct (k_usecols k)]; cbn [names_in bind given]; destruct (nothing_given k); reflexivity. }
rewrite E. split.
- intro K. rewrite (proj2 (nothing_given_iff k) K). reflexivity.
- intros K A0 A1 A2 A3 A4 A5 A6 A7 A8. destruct (nothing_given k) eqn:G; [apply nothing_given_iff in G; contradiction|].
  rewrite (chosen_given _ _ _ A0), (chosen_given _ _ _ A1), (chosen_given _ _ _ A2), (chosen_given _ _ _ A3), (chosen_given _ _ _ A4), (chosen_given _ _ _ A5),
    (chosen_given _ _ _ A6), (chosen_given _ _ _ A7), (chosen_given _ _ _ A8). destruct a. reflexivity.
Qed.



Lemma C35_all_given_proof :
forall word preferred src parselines k texts (a : targs),
  source_texts preferred k (src_bytes src) (take_lines (Z.to_nat parselines) (ahead src)) texts ->
  ~ Forall blank texts ->
  (forall c d x, codec_used preferred k = Some c -> src_bytes src = true -> preparse (word_first word) texts = Ok (Some d) ->
     d_delimiter d = Some x -> exists b, encode c x = Ok b) ->
  k = mkkwargs (Some (t_names a)) (Some (t_delimiter a)) (Some (t_skiprows a)) (Some (t_usecols a)) (Some (t_hasnames a))
        (Some (t_encoding a)) (Some (t_converters a)) (Some (t_stripstrings a)) (Some (t_debug a)) ->
  lazy_textpack word preferred src parselines k = textpack (rewound src) a.
Proof.
intros word preferred src parselines k texts a ST NB EN K.
destruct (preparse (word_first word) texts) as [[d|]|e] eqn:PRE.
- assert (DL : exists delim, source_delim preferred k (src_bytes src) (d_delimiter d) delim).
  { destruct (src_bytes src) eqn:B.
    - destruct ST as (c & CE & _). cbn [source_delim]. destruct (d_delimiter d) as [x|] eqn:DX; [|exists None, c; auto].
      destruct (EN c d x CE eq_refl eq_refl DX) as (b & Eb). exists (Some b), c. split; [exact CE|]. exists b. auto.
    - exists (d_delimiter d). reflexivity. }
  destruct DL as (delim & SD).
  apply (C35_arguments_proof word preferred src parselines k texts d delim a); try assumption; subst k; cbn; try reflexivity.
  intros _. left. discriminate.
- destruct (C35_not_found_proof word preferred src parselines k texts a ST PRE) as [_ H]. apply H; subst k; cbn; try reflexivity. discriminate.
- apply C34_blank_error_proof in PRE. destruct PRE as [_ F]. contradiction.
Qed.



Lemma C35_blank_proof :
forall word preferred src parselines k texts,
  source_texts preferred k (src_bytes src) (take_lines (Z.to_nat parselines) (ahead src)) texts ->
  Forall blank texts -> lazy_textpack word preferred src parselines k = Err IndexError.
Proof.
intros word preferred src parselines k texts ST F.
assert (PRE : preparse (word_first word) texts = Err IndexError) by (apply C34_blank_error_proof; auto).
unfold lazy_textpack. fold (ahead src). destruct (src_bytes src).
- destruct ST as (c & CE & D).
  assert (GE : given (k_encoding k) (Some preferred) = Some c) by (unfold codec_used in CE; destruct (k_encoding k) as [[?|]|]; cbn; congruence).
  rewrite GE, (texts_decode _ _ _ D). cbn [bind]. rewrite PRE. reflexivity.
- cbn in ST. subst texts. rewrite PRE. reflexivity.
Qed.



Lemma C35_usecols_none_proof :
forall word preferred src parselines k texts d,
  src_bytes src = false ->
  source_texts preferred k (src_bytes src) (take_lines (Z.to_nat parselines) (ahead src)) texts ->
  preparse (word_first word) texts = Ok (Some d) -> d_names d <> [] ->
  k_usecols k = Some ColsNone -> k_names k = None ->
  lazy_textpack word preferred src parselines k = Err TypeError.
Proof.
intros word preferred src parselines k texts d B ST PRE NN U NM. unfold lazy_textpack. fold (ahead src).
rewrite B in *. cbn in ST. subst texts. rewrite PRE. cbn [bind]. rewrite NM, U.
destruct (d_names d) as [|kv ns]; [congruence|]. reflexivity.
Qed.



Lemma C35_position_refuted_proof :
forall (word : N -> bool) (cp : codec),
let text := lit "head" ++ [10%N] ++ lit "t;x" ++ [10%N] ++ lit "1;2" ++ [10%N] in
let src := mksource false text 5 [] in
match lazy_textpack word cp src 25 no_kwargs with
| Ok p => p_names p = [(0%Z, VStr (lit "t")); (1%Z, VStr (lit "x"))] /\
          dget 0%Z (p_data p) = Some (mkarr KU [VStr (lit "t"); VStr (lit "1")])
| Err _ => False
end.
Proof.
intros word cp. vm_compute. auto.
Qed.

