(** * Bytes with an encoding give what the text gives (C67): the property theorems *)

From Coq Require Import ZifyBool ZifyNat ZifyN QArith.
From Verif Require Import PyBase PyFloat PyText NumPy Pack ReadText Preparse SpecChars SpecCoded CodedProofs CodedText CodedLazy CodedThms.
Open Scope nat_scope.
Open Scope nat_scope.

(** "Längd;namn", two rows; with CR LF as UTF-8. *)
Definition coded_text : str :=
  [76; 228]%N ++ lit "ngd;namn" ++ [10%N] ++ lit "1,5;" ++ [229; 10]%N ++ lit "2;" ++ [8364; 10]%N.
Definition coded_bytes : str :=
  [76; 195; 164]%N ++ lit "ngd;namn" ++ [13; 10]%N ++ lit "1,5;" ++ [195; 165; 13; 10]%N ++ lit "2;" ++ [226; 130; 172; 13; 10]%N.
Definition coded_args (e : option codec) : targs := mktargs [] (Some (lit ";")) 1 ColsNone true e [] true false.
(** Columns of numbers with a Latin-1 header. *)
Definition lazy_text : str := [65; 176; 32; 98; 10]%N ++ lit "1 2,5" ++ [10%N] ++ lit "2 3,5" ++ [10%N].
Definition lazy_bytes : str := [65; 176; 32; 98; 13; 10]%N ++ lit "1 2,5" ++ [13; 10]%N ++ lit "2 3,5" ++ [10%N].
Definition coded_kwargs (e : option codec) : kwargs := mkkwargs None None None None None (Some e) None None None.
(** One and two, with the information separator FS between; with old Macintosh newlines. *)
Definition fs_text : str := [49; 28; 50; 10]%N.
Definition two_lines : str := [49; 10; 50; 10]%N.
Definition mac_bytes : str := [49; 13; 50; 13]%N.
Definition by_default (e : option codec) : targs := mktargs [] None 0 ColsNone false e [] false false.

(** Two calls give packs with different numbers of channels. *)
Definition differ (x y : res pack) : Prop :=
  match x, y with Ok p, Ok q => length (p_data p) <> length (p_data q) | _, _ => False end.

(** UTF-8 is an encoding as meant below, for all characters. *)
Theorem C67_utf8 :
encoding utf8_codec utf8 scalar.
Proof. exact C67_utf8_proof. Qed.
Print Assumptions C67_utf8.

Example C67_utf8_ex : flat_map utf8 coded_text = [76; 195; 164]%N ++ lit "ngd;namn" ++ [10%N] ++ lit "1,5;" ++ [195; 165; 10]%N ++ lit "2;" ++ [226; 130; 172; 10]%N
  /\ decode utf8_codec (flat_map utf8 coded_text) = Ok coded_text /\ utf8 128512%N = [240; 159; 152; 128]%N.
Proof. split; [vm_compute; reflexivity|]. split; vm_compute; reflexivity. Qed.

(** And so is ISO 8859-1, for its 256 characters. *)
Theorem C67_latin1 :
encoding latin1 (fun x => [x]) (fun x => (x < 256)%N).
Proof. exact C67_latin1_proof. Qed.
Print Assumptions C67_latin1.

Example C67_latin1_ex : decode latin1 [181%N] = Ok [181%N].
Proof. reflexivity. Qed.

(** For any file in such an encoding, with LF or CR LF at the end of lines, all characters
of which str and bytes methods treat alike: textpack on the byte stream, with the
encoding, gives the pack it gives on the text, or raises the same error. The streams may
stand at any place that is the same in both. *)
Theorem C67_textpack :
forall c enc ok t1 t2 b1 b2 name a ab,
encoding c enc ok -> Forall (fun x => ok x /\ alike x) (t1 ++ t2) ->
written enc t1 b1 -> written enc t2 b2 -> same_args c enc ok a ab ->
textpack (mksource true (b1 ++ b2) (length b1) name) ab =
textpack (mksource false (t1 ++ t2) (length t1) name) a.
Proof. exact C67_textpack_proof. Qed.
Print Assumptions C67_textpack.

(** A check for [alike] and [scalar] on a list of characters. *)
Definition ordinary (s : str) : bool :=
  forallb (fun x => ((x <? 28) || (31 <? x)) && negb (x =? 13) && negb (existsb (N.eqb x) wide_spaces) &&
                    negb (existsb (fun z => (z <=? x) && (x <? z + 10)) wide_zeros))%N s.
Lemma ordinary_alike s : ordinary s = true -> Forall alike s.
Proof.
  unfold ordinary. rewrite forallb_forall, Forall_forall. intros H x I. specialize (H x I).
  apply andb_prop in H. destruct H as [H Z]. apply andb_prop in H. destruct H as [H W]. apply andb_prop in H. destruct H as [R C].
  apply negb_true_iff in Z, W, C. split; [|split; [|split]].
  - intros (A & B). apply orb_prop in R. destruct R as [R|R]; apply N.ltb_lt in R;
      [exact (N.lt_irrefl _ (N.lt_le_trans _ _ _ R A))|exact (N.lt_irrefl _ (N.lt_le_trans _ _ _ R B))].
  - apply N.eqb_neq. exact C.
  - intro J. assert (existsb (N.eqb x) wide_spaces = true); [|congruence]. apply existsb_exists. exists x. split; [exact J|apply N.eqb_refl].
  - intros (z & J & A & B). assert (existsb (fun z => (z <=? x) && (x <? z + 10))%N wide_zeros = true); [|congruence].
    apply existsb_exists. exists z. split; [exact J|]. apply andb_true_intro. split; [apply N.leb_le; exact A|apply N.ltb_lt; exact B].
Qed.
Ltac write_it :=
  lazymatch goal with
  | |- written _ [] _ => apply wr_end
  | |- written _ (10%N :: _) (10%N :: _) => apply wr_lf; write_it
  | |- written _ (10%N :: _) (13%N :: _) => apply wr_crlf; write_it
  | |- written ?e (?x :: ?t) ?b =>
      let h := eval vm_compute in (e x) in
      let r := eval vm_compute in (skipn (length h) b) in
      change (written e (x :: t) (e x ++ r)); apply wr_char; [discriminate|write_it]
  end.
Example C67_textpack_ex : written utf8 coded_text coded_bytes /\ Forall (fun x => scalar x /\ alike x) coded_text /\
  textpack (mksource true coded_bytes 0 (lit "f")) (coded_args (Some utf8_codec)) =
  textpack (mksource false coded_text 0 (lit "f")) (coded_args None) /\
  match textpack (mksource true coded_bytes 0 (lit "f")) (coded_args (Some utf8_codec)) with
  | Ok p => p_data p = [(0%Z, mkarr Kf [VFloat (S754_finite false 6755399441055744 (-52)); VFloat (float_of_Z 2)]);
                        (1%Z, mkarr KU [VStr [229%N]; VStr [8364%N]])] /\
            p_names p = [(0%Z, VStr ([76; 228]%N ++ lit "ngd")); (1%Z, VStr (lit "namn"))]
  | Err _ => False
  end.
Proof.
  assert (W : written utf8 coded_text coded_bytes).
  { let t := eval vm_compute in coded_text in let b := eval vm_compute in coded_bytes in change (written utf8 t b). write_it. }
  assert (G : Forall (fun x => scalar x /\ alike x) coded_text).
  { assert (A : Forall alike coded_text) by (apply ordinary_alike; vm_compute; reflexivity).
    assert (S : Forall scalar coded_text).
    { apply Forall_forall. intros x I. vm_compute in I. unfold scalar.
      repeat (destruct I as [<-|I]; [split; [reflexivity|intros (H & _); exact (H eq_refl)]|]). destruct I. }
    rewrite Forall_forall in *. intros x I. split; auto. }
  split; [exact W|]. split; [exact G|]. split; [|vm_compute; auto].
  apply (C67_textpack utf8_codec utf8 scalar [] coded_text [] coded_bytes).
  - apply C67_utf8.
  - exact G.
  - apply wr_end.
  - exact W.
  - repeat split. + apply Forall_forall. intros x [<-|[]]. split; [|split; [|discriminate]].
      * split; [reflexivity|intros (H & _); exact (H eq_refl)].
      * assert (A : Forall alike (lit ";")) by (apply ordinary_alike; vm_compute; reflexivity). inversion A; assumption.
    + constructor.
Qed.

(** The same for lazy_textpack, whatever number of lines it looks at and whichever of the
arguments are given, if the encoding is. *)
Theorem C67_lazy_textpack :
forall word c enc ok preferred preferredb t1 t2 b1 b2 name n k kb,
encoding c enc ok -> Forall (fun x => ok x /\ alike x) (t1 ++ t2) ->
written enc t1 b1 -> written enc t2 b2 -> same_kwargs c enc ok k kb ->
lazy_textpack word preferredb (mksource true (b1 ++ b2) (length b1) name) n kb =
lazy_textpack word preferred (mksource false (t1 ++ t2) (length t1) name) n k.
Proof. exact C67_lazy_textpack_proof. Qed.
Print Assumptions C67_lazy_textpack.

Example C67_lazy_textpack_ex : forall word,
  lazy_textpack word utf8_codec (mksource true lazy_bytes 0 (lit "f")) 20 (coded_kwargs (Some latin1)) =
  lazy_textpack word utf8_codec (mksource false lazy_text 0 (lit "f")) 20 (coded_kwargs None) /\
  match lazy_textpack word utf8_codec (mksource true lazy_bytes 0 (lit "f")) 20 (coded_kwargs (Some latin1)) with
  | Ok p => p_data p = [(0%Z, mkarr Kf [VFloat (float_of_Z 1); VFloat (float_of_Z 2)]);
                        (1%Z, mkarr Kf [VFloat (S754_finite false 5629499534213120 (-51)); VFloat (S754_finite false 7881299347898368 (-51))])]
            /\ p_names p = [(0%Z, VStr [65; 176]%N); (1%Z, VStr (lit "b"))]
  | Err _ => False
  end.
Proof.
  intro word. split; [|vm_compute; auto].
  apply (C67_lazy_textpack word latin1 (fun x => [x]) (fun x => (x < 256)%N) _ _ [] lazy_text [] lazy_bytes).
  - apply C67_latin1.
  - assert (A : Forall alike lazy_text) by (apply ordinary_alike; vm_compute; reflexivity).
    rewrite Forall_forall in *. intros x I. split; [|auto]. vm_compute in I.
    repeat (destruct I as [<-|I]; [reflexivity|]). destruct I.
  - apply wr_end.
  - let t := eval vm_compute in lazy_text in let b := eval vm_compute in lazy_bytes in change (written (fun x => [x]) t b). write_it.
  - repeat split. discriminate.
Qed.

(** Without the condition on the characters it is not so: the information separators are
white space in text, but not in bytes. *)
Theorem C67_separator_refuted :
exists t a ab, Forall (fun x => x < 128)%N t /\ written utf8 t t /\ same_args utf8_codec utf8 scalar a ab /\
differ (textpack (mksource true t 0 []) ab) (textpack (mksource false t 0 []) a).
Proof. exact C67_separator_refuted_proof. Qed.
Print Assumptions C67_separator_refuted.

Example C67_separator_refuted_ex :
  map (fun x => match x with Ok p => map (fun kv => aelems (snd kv)) (p_data p) | Err _ => [] end)
    [textpack (mksource true fs_text 0 []) (by_default (Some utf8_codec)); textpack (mksource false fs_text 0 []) (by_default None)]
  = [[[VStr [49; 28; 50]%N]]; [[VFloat (float_of_Z 1)]; [VFloat (float_of_Z 2)]]].
Proof. vm_compute. reflexivity. Qed.

(** Nor for the third kind of newline: a text stream takes CR for the end of a line, so this
file reads as 1 and 2 in two lines; as bytes it is one line of two columns. *)
Theorem C67_newline_refuted :
exists a ab, same_args utf8_codec utf8 scalar a ab /\
differ (textpack (mksource true mac_bytes 0 []) ab) (textpack (mksource false two_lines 0 []) a).
Proof. exact C67_newline_refuted_proof. Qed.
Print Assumptions C67_newline_refuted.

Example C67_newline_refuted_ex :
  map (fun x => match x with Ok p => map (fun kv => aelems (snd kv)) (p_data p) | Err _ => [] end)
    [textpack (mksource true mac_bytes 0 []) (by_default (Some utf8_codec)); textpack (mksource false two_lines 0 []) (by_default None)]
  = [[[VFloat (float_of_Z 1)]; [VFloat (float_of_Z 2)]]; [[VFloat (float_of_Z 1); VFloat (float_of_Z 2)]]].
Proof. vm_compute. reflexivity. Qed.

(** Nor for digits beyond ASCII: a one in Arabic digits is a number in text, and a text that is
no number in bytes. *)
Theorem C67_digits_refuted :
exists t b a ab, written utf8 t b /\ same_args utf8_codec utf8 scalar a ab /\
exists p q, textpack (mksource true b 0 []) ab = Ok p /\ textpack (mksource false t 0 []) a = Ok q /\
map (fun kv => aelems (snd kv)) (p_data p) = [[VStr [1633]%N]] /\ map (fun kv => aelems (snd kv)) (p_data q) = [[VFloat (float_of_Z 1)]].
Proof. exact C67_digits_refuted_proof. Qed.
Print Assumptions C67_digits_refuted.

Example C67_digits_refuted_ex :
  map (fun x => match x with Ok p => map (fun kv => aelems (snd kv)) (p_data p) | Err _ => [] end)
    [textpack (mksource true [217; 161; 10]%N 0 []) (by_default (Some utf8_codec)); textpack (mksource false [1633; 10]%N 0 []) (by_default None)]
  = [[[VStr [1633]%N]]; [[VFloat (float_of_Z 1)]]].
Proof. vm_compute. reflexivity. Qed.

