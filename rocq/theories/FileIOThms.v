(** * What reading does to the file (C73): proofs of the property theorems *)

From Coq Require Import ZifyBool ZifyNat ZifyN QArith.
From Verif Require Import PyBase PyFloat PyText NumPy Pack ReadText Preparse Dbf FileIO SpecIO FileIOProofs.
Open Scope nat_scope.
Open Scope nat_scope.

Lemma closes {A} fl h (m : bool -> io A) w r :
  (forall w, m true w = let '(w', r) := m false w in (match snd (peek fl w) with Ok _ => close w' | Err _ => w' end, r)) ->
  h_open h = true -> first_calls_work fl -> m false (mkworld h 0) = (w, r) ->
  m true (mkworld h 0) = (close w, r).
Proof.
  intros C O (F0 & F1 & F2) R. rewrite C, R, (peek_three fl h O), F0, F1, F2. reflexivity.
Qed.
Lemma text_run fl h a : h_open h = true ->
  exists w r, textpack_io fl false a (mkworld h 0) = (w, r) /\ like h w /\
    told fl w r (textpack (mksource (h_bytes h) (h_text h) (h_pos h) (h_name h)) a) /\
    (forall x, r = Ok x -> rest h (h_pos (w_file w)) = []).
Proof.
  intros O.
  destruct (sim_run fl h (rest h) _ _ (fun _ => []) (textpack (mksource (h_bytes h) (h_text h) (h_pos h) (h_name h)) a)
    (sim_textpack fl h a) O) as (w & r & R & L & T & E).
  { unfold textpack_p, rest. rewrite textpack_rest. reflexivity. }
  exists w, r. split; [exact R | split; [exact L | split; [exact T|]]]. intros x X. exact (proj2 (E x X)).
Qed.

Lemma C73_text_named_proof :
forall fl t name a, first_calls_work fl ->
exists w r, textpack_named fl (Ok t) name a = (Some w, r) /\ h_open (w_file w) = false /\
  same_object (mkhandle false t 0 name true) w /\
  as_told fl w r (textpack (mksource false t 0 name) a).
Proof.
intros fl t name a F.
set (h := mkhandle false t 0 name true).
destruct (text_run fl h a eq_refl) as (w & r & R & (L1 & L2 & L3 & _) & T & _).
exists (close w), r. split.
{ unfold textpack_named, by_name. fold h.
  rewrite (closes fl h (fun b => textpack_io fl b a) w r (textpack_close fl a) eq_refl F R). reflexivity. }
split; [reflexivity | split; [exact (conj L1 (conj L2 L3)) | exact T]].
Qed.

Lemma nothing_left h w : like h w -> rest h (h_pos (w_file w)) = [] -> read_up w.
Proof.
  intros (_ & E & _) R. unfold read_up. rewrite E. unfold rest in R.
  apply (f_equal (@length _)) in R. rewrite skipn_length in R. cbn in R. lia.
Qed.

Lemma C73_text_stream_proof :
forall fl h a, h_open h = true ->
exists w r, textpack_stream fl h a = (w, r) /\ h_open (w_file w) = true /\ same_object h w /\
  as_told fl w r (textpack (mksource (h_bytes h) (h_text h) (h_pos h) (h_name h)) a) /\
  (forall p, r = Ok p -> read_up w).
Proof.
intros fl h a O. destruct (text_run fl h a O) as (w & r & R & L & T & E).
exists w, r. split; [exact R|]. split; [apply L|]. split; [exact (conj (proj1 L) (conj (proj1 (proj2 L)) (proj1 (proj2 (proj2 L)))))|].
split; [exact T|]. intros p X. exact (nothing_left h w L (E p X)).
Qed.

Lemma lazy_run fl h word preferred n k : h_open h = true ->
  exists w r, lazy_io fl word preferred false n k (mkworld h 0) = (w, r) /\ like h w /\
    told fl w r (lazy_textpack word preferred (mksource (h_bytes h) (h_text h) (h_pos h) (h_name h)) n k) /\
    (forall x, r = Ok x -> rest h (h_pos (w_file w)) = []).
Proof.
  intros O. destruct (sim_lazy fl h word preferred n k) as (p & S & E0).
  destruct (sim_run fl h (rest h) _ _ (fun _ => [])
    (lazy_textpack word preferred (mksource (h_bytes h) (h_text h) (h_pos h) (h_name h)) n k) S O (E0 _))
    as (w & r & R & L & T & E).
  exists w, r. split; [exact R | split; [exact L | split; [exact T|]]]. intros x X. exact (proj2 (E x X)).
Qed.

Lemma C73_lazy_named_proof :
forall fl word preferred t name parselines k, first_calls_work fl ->
exists w r, lazy_named fl word preferred (Ok t) name parselines k = (Some w, r) /\ h_open (w_file w) = false /\
  same_object (mkhandle false t 0 name true) w /\
  as_told fl w r (lazy_textpack word preferred (mksource false t 0 name) parselines k).
Proof.
intros fl word preferred t name n k F.
set (h := mkhandle false t 0 name true).
destruct (lazy_run fl h word preferred n k eq_refl) as (w & r & R & (L1 & L2 & L3 & _) & T & _).
exists (close w), r. split.
{ unfold lazy_named, by_name. fold h.
  rewrite (closes fl h (fun b => lazy_io fl word preferred b n k) w r (lazy_close fl word preferred n k) eq_refl F R). reflexivity. }
split; [reflexivity | split; [exact (conj L1 (conj L2 L3)) | exact T]].
Qed.

Lemma C73_lazy_stream_proof :
forall fl word preferred h parselines k, h_open h = true ->
exists w r, lazy_stream fl word preferred h parselines k = (w, r) /\ h_open (w_file w) = true /\ same_object h w /\
  as_told fl w r (lazy_textpack word preferred (mksource (h_bytes h) (h_text h) (h_pos h) (h_name h)) parselines k) /\
  (forall p, r = Ok p -> read_up w).
Proof.
intros fl word preferred h n k O. destruct (lazy_run fl h word preferred n k O) as (w & r & R & L & T & E).
exists w, r. split; [exact R|]. split; [apply L|]. split; [exact (conj (proj1 L) (conj (proj1 (proj2 L)) (proj1 (proj2 (proj2 L)))))|].
split; [exact T|]. intros p X. exact (nothing_left h w L (E p X)).
Qed.

Lemma dbf_run fl h names : h_open h = true ->
  exists w r, dbfpack_io fl false names (mkworld h 0) = (w, r) /\ like h w /\
    told fl w r (dbfpack (mkfile (h_text h) (h_pos h)) names (h_name h)).
Proof.
  intros O. destruct (dbfpack_p_dbfpack h names (h_pos h)) as (g & E0).
  destruct (sim_run fl h (at_pos h) _ _ g (dbfpack (mkfile (h_text h) (h_pos h)) names (h_name h))
    (sim_dbfpack fl h names) O E0) as (w & r & R & L & T & _).
  exists w, r. split; [exact R | split; [exact L | exact T]].
Qed.

Lemma C73_dbf_named_proof :
forall fl b name names, first_calls_work fl ->
exists w r, dbfpack_named fl (Ok b) name names = (Some w, r) /\ h_open (w_file w) = false /\
  same_object (mkhandle true b 0 name true) w /\
  as_told fl w r (dbfpack (mkfile b 0) names name).
Proof.
intros fl t name names F.
set (h := mkhandle true t 0 name true).
destruct (dbf_run fl h names eq_refl) as (w & r & R & (L1 & L2 & L3 & _) & T).
exists (close w), r. split.
{ unfold dbfpack_named, by_name. fold h.
  rewrite (closes fl h (fun b => dbfpack_io fl b names) w r (dbfpack_close fl names) eq_refl F R). reflexivity. }
split; [reflexivity | split; [exact (conj L1 (conj L2 L3)) | exact T]].
Qed.

Lemma C73_dbf_stream_proof :
forall fl h names, h_open h = true ->
exists w r, dbfpack_stream fl h names = (w, r) /\ h_open (w_file w) = true /\ same_object h w /\
  as_told fl w r (dbfpack (mkfile (h_text h) (h_pos h)) names (h_name h)).
Proof.
intros fl h names O. destruct (dbf_run fl h names O) as (w & r & R & L & T).
exists w, r. split; [exact R|]. split; [apply L|]. split; [exact (conj (proj1 L) (conj (proj1 (proj2 L)) (proj1 (proj2 (proj2 L)))))|].
exact T.
Qed.

Lemma stays {A} fl h (m : bool -> io A) e spec :
  (forall w, m true w = let '(w', r) := m false w in (match snd (peek fl w) with Ok _ => close w' | Err _ => w' end, r)) ->
  h_open h = true -> fl 0 = None -> fl 1 = Some e ->
  (exists w r, m false (mkworld h 0) = (w, r) /\ like h w /\ told fl w r spec) ->
  (forall w r, m false (mkworld h 0) = (w, r) -> 2 <= w_ops w) ->
  exists w, m true (mkworld h 0) = (w, Err e) /\ h_open (w_file w) = true.
Proof.
  intros C O F0 F1 (w & r & R & L & T) N. specialize (N w r R). exists w.
  rewrite C, R, (peek_three fl h O), F0, F1. split; [|apply L].
  destruct T as [(k & e1 & K1 & K2 & K3 & ->) | [Q _]].
  - assert (k = 1).
    { destruct (Nat.lt_ge_cases 1 k) as [H|H]; [specialize (K3 1 H); congruence | lia]. }
    subst k. congruence.
  - specialize (Q 1 N). congruence.
Qed.
Lemma two_calls {A} fl h (body : bool -> io A) e w r :
  h_open h = true -> fl 0 = None -> fl 1 = Some e ->
  with_context fl false body (mkworld h 0) = (w, r) -> w_ops w = 2 /\ r = Err e.
Proof.
  intros O F0 F1. unfold with_context, peek, andthen, tell, read, seek, call. cbn [w_ops w_file].
  rewrite F0, O. cbn. rewrite F1. intros R. inversion R. split; reflexivity.
Qed.
Lemma two_more {A B} fl h (body : bool -> io A) (f : A -> io B) e w r :
  h_open h = true -> fl 0 = None -> fl 1 = Some e ->
  andthen (with_context fl false body) f (mkworld h 0) = (w, r) -> 2 <= w_ops w.
Proof.
  intros O F0 F1 R. unfold andthen in R.
  destruct (with_context fl false body (mkworld h 0)) as [w1 r1] eqn:E.
  destruct (two_calls fl h body e w1 r1 O F0 F1 E) as [N ->]. inversion R. subst w. lia.
Qed.

Lemma C73_first_call_refuted_proof :
forall fl word preferred t name a parselines k names e, fl 0 = None -> fl 1 = Some e ->
(exists w, textpack_named fl (Ok t) name a = (Some w, Err e) /\ h_open (w_file w) = true) /\
(exists w, lazy_named fl word preferred (Ok t) name parselines k = (Some w, Err e) /\ h_open (w_file w) = true) /\
(exists w, dbfpack_named fl (Ok t) name names = (Some w, Err e) /\ h_open (w_file w) = true).
Proof.
intros fl word preferred t name a n k names e F0 F1. split; [|split].
- set (h := mkhandle false t 0 name true).
  destruct (stays fl h (fun b => textpack_io fl b a) e (textpack (mksource (h_bytes h) (h_text h) (h_pos h) (h_name h)) a)
    (textpack_close fl a) eq_refl F0 F1) as (w & R & O).
  + destruct (text_run fl h a eq_refl) as (w & r & R & L & T & _). exists w, r. auto.
  + intros w r R. unfold textpack_io in R.
    destruct (match t_names a with
            | [] => if t_hasnames a then (cols_seq (t_usecols a), true, (t_skiprows a - 1)%Z)
                    else (cols_seq (t_usecols a), false, t_skiprows a)
            | _ :: _ => (Some (zsort (dkeys (t_names a))), false, t_skiprows a)
            end) as [[u hn] sk].
    exact (two_more fl h _ _ e w r eq_refl F0 F1 R).
  + exists w. split; [|exact O]. unfold textpack_named, by_name. fold h. rewrite R. reflexivity.
- set (h := mkhandle false t 0 name true).
  destruct (stays fl h (fun b => lazy_io fl word preferred b n k) e (lazy_textpack word preferred (mksource (h_bytes h) (h_text h) (h_pos h) (h_name h)) n k)
    (lazy_close fl word preferred n k) eq_refl F0 F1) as (w & R & O).
  + destruct (lazy_run fl h word preferred n k eq_refl) as (w & r & R & L & T & _). exists w, r. auto.
  + intros w r R. unfold lazy_io in R.
    destruct (two_calls fl h _ e w r eq_refl F0 F1 R) as [N _]. lia.
  + exists w. split; [|exact O]. unfold lazy_named, by_name. fold h. rewrite R. reflexivity.
- set (h := mkhandle true t 0 name true).
  destruct (stays fl h (fun b => dbfpack_io fl b names) e (dbfpack (mkfile (h_text h) (h_pos h)) names (h_name h))
    (dbfpack_close fl names) eq_refl F0 F1) as (w & R & O).
  + exact (dbf_run fl h names eq_refl).
  + intros w r R. unfold dbfpack_io in R. destruct names as [|nm names]; exact (two_more fl h _ _ e w r eq_refl F0 F1 R).
  + exists w. split; [|exact O]. unfold dbfpack_named, by_name. fold h. rewrite R. reflexivity.
Qed.

Lemma refused {A} fl h (body : bool -> io A) : h_open h = false -> fl 0 = None ->
  with_context fl false body (mkworld h 0) = (mkworld h 1, Err ValueError).
Proof.
  intros O F0. unfold with_context, peek, andthen, tell, call. cbn [w_ops w_file].
  rewrite F0, O. reflexivity.
Qed.
Lemma refused_more {A B} fl h (body : bool -> io A) (f : A -> io B) : h_open h = false -> fl 0 = None ->
  andthen (with_context fl false body) f (mkworld h 0) = (mkworld h 1, Err ValueError).
Proof. intros O F0. unfold andthen at 1. rewrite (refused fl h body O F0). reflexivity. Qed.

Lemma C73_closed_stream_proof :
forall fl word preferred h a parselines k names, h_open h = false -> fl 0 = None ->
textpack_stream fl h a = (mkworld h 1, Err ValueError) /\
lazy_stream fl word preferred h parselines k = (mkworld h 1, Err ValueError) /\
dbfpack_stream fl h names = (mkworld h 1, Err ValueError).
Proof.
intros fl word preferred h a n k names O F0. split; [|split].
- unfold textpack_stream, textpack_io.
  destruct (match t_names a with
            | [] => if t_hasnames a then (cols_seq (t_usecols a), true, (t_skiprows a - 1)%Z)
                    else (cols_seq (t_usecols a), false, t_skiprows a)
            | _ :: _ => (Some (zsort (dkeys (t_names a))), false, t_skiprows a)
            end) as [[u hn] sk].
  apply refused_more; assumption.
- apply refused; assumption.
- unfold dbfpack_stream, dbfpack_io. destruct names; apply refused_more; assumption.
Qed.

