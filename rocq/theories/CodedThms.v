(** * Bytes with an encoding give what the text gives (C67): proofs of the property theorems *)

From Coq Require Import ZifyBool ZifyNat ZifyN QArith.
From Verif Require Import PyBase PyFloat PyText NumPy Pack ReadText Preparse SpecChars SpecCoded CodedProofs CodedText CodedLazy.
Open Scope nat_scope.
Open Scope nat_scope.

(** "Längd;namn", two rows; with CR LF as UTF-8. *)
Definition coded_text : str :=
  [76; 228]%N ++ lit "ngd;namn" ++ [10%N] ++ lit "1,5;" ++ [229; 10]%N ++ lit "2;" ++ [8364; 10]%N.
Definition coded_bytes : str :=
  [76; 195; 164]%N ++ lit "ngd;namn" ++ [13; 10]%N ++ lit "1,5;" ++ [195; 165; 13; 10]%N ++ lit "2;" ++ [226; 130; 172; 13; 10]%N.
Definition coded_args (e : option codec) : targs := mktargs [] (Some (lit ";")) 1 ColsNone true e [] true false.
(** Columns of numbers with a Latin-1 header. *)
Definition lazy_text : str := [65; 176; 32; 98; 10]%N ++ lit "1 2,5" ++ [10%N] ++ lit "2 3,5" ++ [10%N].
Definition lazy_bytes : str := [65; 176; 32; 98; 13; 10]%N ++ lit "1 2,5" ++ [13; 10]%N ++ lit "2 3,5" ++ [10%N].
Definition coded_kwargs (e : option codec) : kwargs := mkkwargs None None None None None (Some e) None None None.
(** One and two, with the information separator FS between; with old Macintosh newlines. *)
Definition fs_text : str := [49; 28; 50; 10]%N.
Definition two_lines : str := [49; 10; 50; 10]%N.
Definition mac_bytes : str := [49; 13; 50; 13]%N.
Definition by_default (e : option codec) : targs := mktargs [] None 0 ColsNone false e [] false false.

(** Two calls give packs with different numbers of channels. *)
Definition differ (x y : res pack) : Prop :=
  match x, y with Ok p, Ok q => length (p_data p) <> length (p_data q) | _, _ => False end.

Lemma C67_utf8_proof :
encoding utf8_codec utf8 scalar.
Proof.
exact utf8_encoding.
Qed.

Lemma C67_latin1_proof :
encoding latin1 (fun x => [x]) (fun x => (x < 256)%N).
Proof.
exact latin1_encoding.
Qed.

Lemma C67_textpack_proof :
forall c enc ok t1 t2 b1 b2 name a ab,
encoding c enc ok -> Forall (fun x => ok x /\ alike x) (t1 ++ t2) ->
written enc t1 b1 -> written enc t2 b2 -> same_args c enc ok a ab ->
textpack (mksource true (b1 ++ b2) (length b1) name) ab =
textpack (mksource false (t1 ++ t2) (length t1) name) a.
Proof.
intros c enc ok t1 t2 b1 b2 name a ab EN G W1 W2 A. apply Forall_app in G.
apply (textpack_enc c enc ok); [exact EN|exact (proj2 G)|exact W2|exact A].
Qed.

Lemma C67_lazy_textpack_proof :
forall word c enc ok preferred preferredb t1 t2 b1 b2 name n k kb,
encoding c enc ok -> Forall (fun x => ok x /\ alike x) (t1 ++ t2) ->
written enc t1 b1 -> written enc t2 b2 -> same_kwargs c enc ok k kb ->
lazy_textpack word preferredb (mksource true (b1 ++ b2) (length b1) name) n kb =
lazy_textpack word preferred (mksource false (t1 ++ t2) (length t1) name) n k.
Proof.
exact lazy_enc.
Qed.

Lemma C67_separator_refuted_proof :
exists t a ab, Forall (fun x => x < 128)%N t /\ written utf8 t t /\ same_args utf8_codec utf8 scalar a ab /\
differ (textpack (mksource true t 0 []) ab) (textpack (mksource false t 0 []) a).
Proof.
exists fs_text, (by_default None), (by_default (Some utf8_codec)).
split; [repeat constructor|]. split.
- apply (wr_char utf8 49%N [28; 50; 10]%N [28; 50; 10]%N); [discriminate|].
  apply (wr_char utf8 28%N [50; 10]%N [50; 10]%N); [discriminate|].
  apply (wr_char utf8 50%N [10]%N [10]%N); [discriminate|]. apply wr_lf, wr_end.
- split; [repeat split; constructor|]. vm_compute. discriminate.
Qed.

Lemma C67_newline_refuted_proof :
exists a ab, same_args utf8_codec utf8 scalar a ab /\
differ (textpack (mksource true mac_bytes 0 []) ab) (textpack (mksource false two_lines 0 []) a).
Proof.
exists (by_default None), (by_default (Some utf8_codec)).
split; [repeat split; constructor|]. vm_compute. discriminate.
Qed.

Lemma C67_digits_refuted_proof :
exists t b a ab, written utf8 t b /\ same_args utf8_codec utf8 scalar a ab /\
exists p q, textpack (mksource true b 0 []) ab = Ok p /\ textpack (mksource false t 0 []) a = Ok q /\
map (fun kv => aelems (snd kv)) (p_data p) = [[VStr [1633]%N]] /\ map (fun kv => aelems (snd kv)) (p_data q) = [[VFloat (float_of_Z 1)]].
Proof.
exists [1633; 10]%N, [217; 161; 10]%N, (by_default None), (by_default (Some utf8_codec)).
split.
- apply (wr_char utf8 1633%N [10]%N [10]%N); [discriminate|]. apply wr_lf, wr_end.
- split; [repeat split; constructor|]. eexists. eexists. split; [vm_compute; reflexivity|]. split; [vm_compute; reflexivity|]. split; reflexivity.
Qed.

