(** * Specification of text kept as bytes

    What it means for bytes to be a text in an encoding, for the property that
    a byte stream read with its encoding gives what the text gives. *)

From Verif Require Import PyBase NumPy SpecChars Pack ReadText Preparse.
Open Scope nat_scope.

(** The codec [c] is an encoding that takes each character [x] of a set [ok]
    to the bytes [enc x]: ASCII characters to themselves, others to bytes that
    are no ASCII, such that where a character begins can be told from the byte.
    UTF-8 and the 8 bit extensions of ASCII are of this kind, UTF-16 is not. *)
Record encoding (c : codec) (enc : N -> str) (ok : N -> Prop) : Prop := mkencoding
  { en_ascii : forall x, (x < 128)%N -> ok x /\ enc x = [x];
    en_high : forall x, ok x -> (128 <= x)%N -> enc x <> [] /\ Forall (fun b => (128 <= b)%N) (enc x);
    en_begin : forall x y b r, ok x -> ok y -> enc x = b :: r -> ~ In b (tl (enc y));
    en_prefix : forall x y r, ok x -> ok y -> enc x = enc y ++ r -> x = y;
    en_decode : forall s, Forall ok s -> decode c (flat_map enc s) = Ok s;
    en_encode : forall s, Forall ok s -> encode c s = Ok (flat_map enc s) }.

(** Characters that str and bytes methods treat alike, and no carriage return:
    a text stream has none, newlines being translated. *)
Definition alike (x : N) : Prop :=
  ~ (28 <= x <= 31)%N /\ x <> 13%N /\ ~ In x wide_spaces /\ ~ (exists z, In z wide_zeros /\ (z <= x < z + 10)%N).

(** The bytes [b] of a file that reads as the text [t]: the end of a line is
    LF or CR LF. *)
Inductive written (enc : N -> str) : str -> str -> Prop :=
| wr_end : written enc [] []
| wr_char x t b : x <> 10%N -> written enc t b -> written enc (x :: t) (enc x ++ b)
| wr_lf t b : written enc t b -> written enc (10%N :: t) (10%N :: b)
| wr_crlf t b : written enc t b -> written enc (10%N :: t) (13%N :: 10%N :: b).

(** The delimiter for the byte stream is the one for the text, encoded; it
    has no newline in it. *)
Definition same_delimiter (enc : N -> str) (ok : N -> Prop) (d db : option str) : Prop :=
  match d, db with
  | None, None => True
  | Some s, Some b => b = flat_map enc s /\ Forall (fun x => ok x /\ alike x /\ x <> 10%N) s
  | _, _ => False
  end.

(** Converters of the caller do with bytes what they do with the text. *)
Definition same_converters (enc : N -> str) (ok : N -> Prop) (f fb : dict (str -> res val)) : Prop :=
  Forall2 (fun kf kb => fst kf = fst kb /\ forall s, Forall (fun x => ok x /\ alike x) s -> snd kb (flat_map enc s) = snd kf s) f fb.

(** The arguments [ab] of textpack for the bytes say what [a] say for the text. *)
Definition same_args (c : codec) (enc : N -> str) (ok : N -> Prop) (a ab : targs) : Prop :=
  t_names ab = t_names a /\ t_skiprows ab = t_skiprows a /\ t_usecols ab = t_usecols a /\
  t_hasnames ab = t_hasnames a /\ t_stripstrings ab = t_stripstrings a /\ t_debug ab = t_debug a /\
  t_encoding ab = Some c /\
  same_delimiter enc ok (t_delimiter a) (t_delimiter ab) /\
  same_converters enc ok (t_converters a) (t_converters ab).

(** Likewise for lazy_textpack, where each may be left out; the encoding is
    given in both, a text stream has no use for it. *)
Definition same_opt {A} (R : A -> A -> Prop) (x y : option A) : Prop :=
  match x, y with
  | None, None => True
  | Some a, Some b => R a b
  | _, _ => False
  end.
Definition same_kwargs (c : codec) (enc : N -> str) (ok : N -> Prop) (k kb : kwargs) : Prop :=
  k_names kb = k_names k /\ k_skiprows kb = k_skiprows k /\ k_usecols kb = k_usecols k /\
  k_hasnames kb = k_hasnames k /\ k_stripstrings kb = k_stripstrings k /\ k_debug kb = k_debug k /\
  k_encoding kb = Some (Some c) /\ k_encoding k <> None /\
  same_opt (same_delimiter enc ok) (k_delimiter k) (k_delimiter kb) /\
  same_opt (same_converters enc ok) (k_converters k) (k_converters kb).

(** UTF-8: the bytes of a character. *)
Definition utf8 (x : N) : str :=
  (if x <? 128 then [x]
   else if x <? 2048 then [192 + x / 64; 128 + x mod 64]
   else if x <? 65536 then [224 + x / 4096; 128 + x / 64 mod 64; 128 + x mod 64]
   else [240 + x / 262144; 128 + x / 4096 mod 64; 128 + x / 64 mod 64; 128 + x mod 64])%N.

(** Code points but the surrogates. *)
Definition scalar (x : N) : Prop := (x < 1114112 /\ ~ (55296 <= x <= 57343))%N.

(** A codec for UTF-8. The decoder does not look whether the bytes are proper:
    what it does with others is not used. *)
Fixpoint utf8_decode (b : str) : res str :=
  match b with
  | [] => Ok []
  | a :: r =>
      if (a <? 128)%N then do s <- utf8_decode r; Ok (a :: s)
      else if (a <? 224)%N then
        match r with
        | b1 :: r' => do s <- utf8_decode r'; Ok (((a - 192) * 64 + (b1 - 128))%N :: s)
        | _ => Err ValueError
        end
      else if (a <? 240)%N then
        match r with
        | b1 :: b2 :: r' => do s <- utf8_decode r'; Ok (((a - 224) * 4096 + (b1 - 128) * 64 + (b2 - 128))%N :: s)
        | _ => Err ValueError
        end
      else
        match r with
        | b1 :: b2 :: b3 :: r' =>
            do s <- utf8_decode r'; Ok (((a - 240) * 262144 + (b1 - 128) * 4096 + (b2 - 128) * 64 + (b3 - 128))%N :: s)
        | _ => Err ValueError
        end
  end.
Definition utf8_codec : codec := mkcodec utf8_decode (fun s => Ok (flat_map utf8 s)).

(** ISO 8859-1. *)
Definition latin1 : codec := mkcodec (fun b => Ok b) (fun s => Ok s).
