(** * The operation by operation functions of FileIO.v do what those of
    ReadText.v, Preparse.v and Dbf.v do, and what they do to the io object *)

From Verif Require Import PyBase PyFloat PyText NumPy Pack ReadText Preparse Dbf FileIO.
From Coq Require Import Lia.
Open Scope nat_scope.

(** The io object is [h], but for its position, and open. *)
Definition like (h : handle) (w : world) : Prop :=
  h_bytes (w_file w) = h_bytes h /\ h_text (w_file w) = h_text h /\
  h_name (w_file w) = h_name h /\ h_open (w_file w) = true.

Definition quiet (fl : faults) (a b : nat) : Prop := forall k, a <= k < b -> fl k = None.

(** [m] does to the position and returns what [p] says, unless a call raises:
    then that exception comes out, and no call follows. *)
Definition sim {T A} (fl : faults) (h : handle) (abs : nat -> T) (m : io A) (p : T -> res (A * T)) : Prop :=
  forall w w' r, like h w -> m w = (w', r) ->
  like h w' /\ w_ops w <= w_ops w' /\
  ((exists k e, w_ops w' = S k /\ w_ops w <= k /\ fl k = Some e /\ quiet fl (w_ops w) k /\ r = Err e) \/
   (quiet fl (w_ops w) (w_ops w') /\
    match p (abs (h_pos (w_file w))) with
    | Ok (a, s) => r = Ok a /\ abs (h_pos (w_file w')) = s
    | Err e => r = Err e
    end)).

Lemma quiet_none fl a : quiet fl a a.
Proof. intros k H. lia. Qed.

Lemma quiet_app fl a b c : quiet fl a b -> quiet fl b c -> quiet fl a c.
Proof.
  intros H1 H2 k Hk. destruct (Nat.lt_ge_cases k b); [apply H1 | apply H2]; lia.
Qed.

Lemma sim_eq {T A} fl h (abs : nat -> T) (m : io A) p q :
  sim fl h abs m p -> (forall x, p (abs x) = q (abs x)) -> sim fl h abs m q.
Proof.
  intros H E w w' r L R. destruct (H w w' r L R) as (L' & O & D).
  split; [exact L' | split; [exact O|]].
  destruct D as [D|D]; [left; exact D | right]. rewrite <- E. exact D.
Qed.

Lemma sim_ext {T A} fl h (abs : nat -> T) (m m' : io A) p :
  sim fl h abs m p -> (forall w, like h w -> m' w = m w) -> sim fl h abs m' p.
Proof.
  intros H E w w' r L R. apply H; [exact L|]. rewrite <- (E w L). exact R.
Qed.

Lemma sim_pure {T A} fl h (abs : nat -> T) (r : res A) :
  sim fl h abs (pure r) (fun s => do a <- r; Ok (a, s)).
Proof.
  intros w w' r' L R. unfold pure in R. inversion R; subst w' r'. clear R.
  split; [exact L | split; [lia | right]]. split; [apply quiet_none|].
  destruct r; cbn; auto.
Qed.

Lemma sim_ret {T A} fl h (abs : nat -> T) (a : A) : sim fl h abs (ret a) (fun s => Ok (a, s)).
Proof. exact (sim_pure fl h abs (Ok a)). Qed.

Lemma sim_look {T A} fl h (abs : nat -> T) (g : handle -> A) (x : A) :
  (forall w, like h w -> g (w_file w) = x) ->
  sim fl h abs (fun w => (w, Ok (g (w_file w)))) (fun s => Ok (x, s)).
Proof.
  intros E. apply (sim_ext fl h abs (ret x)); [apply sim_ret|].
  intros w L. unfold ret. rewrite (E w L). reflexivity.
Qed.

Lemma sim_bind {T A B} fl h (abs : nat -> T) (m : io A) (f : A -> io B) p q :
  sim fl h abs m p -> (forall a, sim fl h abs (f a) (q a)) ->
  sim fl h abs (andthen m f) (fun s => do (a, s') <- p s; q a s').
Proof.
  intros Hm Hf w w' r L R. unfold andthen in R.
  destruct (m w) as [w1 r1] eqn:E1. destruct (Hm w w1 r1 L E1) as (L1 & O1 & D1).
  destruct r1 as [a|e1].
  - destruct (Hf a w1 w' r L1 R) as (L2 & O2 & D2).
    split; [exact L2 | split; [lia|]].
    destruct D1 as [(k & e & _ & _ & _ & _ & X) | [Q1 V1]]; [discriminate X|].
    destruct (p (abs (h_pos (w_file w)))) as [[a' s']|e] eqn:Ep; [|discriminate V1].
    destruct V1 as [X V1]. inversion X; subst a'. clear X.
    destruct D2 as [(k & e & K1 & K2 & K3 & K4 & K5) | [Q2 V2]].
    + left. exists k, e. split; [exact K1 | split; [lia | split; [exact K3 | split; [|exact K5]]]].
      exact (quiet_app fl _ _ _ Q1 K4).
    + right. split; [exact (quiet_app fl _ _ _ Q1 Q2)|].
      cbn. rewrite <- V1. exact V2.
  - inversion R; subst w' r. clear R. split; [exact L1 | split; [exact O1|]].
    destruct D1 as [(k & e & K1 & K2 & K3 & K4 & K5) | [Q1 V1]].
    + left. exists k, e. inversion K5; subst e1. auto 8.
    + right. split; [exact Q1|].
      destruct (p (abs (h_pos (w_file w)))) as [[a' s']|e] eqn:Ep.
      * destruct V1 as [X _]. discriminate X.
      * inversion V1; subst e1. reflexivity.
Qed.

Lemma sim_call {T A} fl h (abs : nat -> T) (f : handle -> A * nat) p :
  (forall w, like h w ->
     p (abs (h_pos (w_file w))) = Ok (fst (f (w_file w)), abs (snd (f (w_file w))))) ->
  sim fl h abs (call fl f) p.
Proof.
  intros E w w' r L R. unfold call in R. specialize (E w L).
  destruct (fl (w_ops w)) as [e|] eqn:Ef.
  - inversion R; subst w' r. clear R. cbn.
    split; [exact L | split; [lia | left]].
    exists (w_ops w), e. split; [reflexivity | split; [lia | split; [exact Ef | split; [apply quiet_none | reflexivity]]]].
  - assert (Op : h_open (w_file w) = true) by apply L. rewrite Op in R.
    destruct (f (w_file w)) as [a q] eqn:Ea. inversion R; subst w' r. clear R. cbn.
    split; [exact L | split; [lia | right]].
    split.
    + intros k Hk. replace k with (w_ops w) by lia. exact Ef.
    + cbn in E. rewrite E. split; reflexivity.
Qed.

Lemma sim_peek {T} fl h (abs : nat -> T) : sim fl h abs (peek fl) (fun s => Ok (h_bytes h, s)).
Proof.
  intros w w' r L R. unfold peek in R.
  assert (Op : h_open (w_file w) = true) by apply L.
  unfold andthen, tell, read, seek, call in R.
  destruct (fl (w_ops w)) as [e|] eqn:E0.
  - inversion R; subst w' r. cbn. split; [exact L | split; [lia | left]].
    exists (w_ops w), e. repeat split; auto. apply quiet_none.
  - rewrite Op in R. cbn in R. destruct (fl (S (w_ops w))) as [e|] eqn:E1.
    + inversion R; subst w' r. cbn. split; [exact L | split; [lia | left]].
      exists (S (w_ops w)), e. split; [reflexivity | split; [lia | split; [exact E1 | split; [|reflexivity]]]].
      intros k Hk. replace k with (w_ops w) by lia. exact E0.
    + rewrite Op in R. cbn in R. destruct (fl (S (S (w_ops w)))) as [e|] eqn:E2.
      * inversion R; subst w' r. cbn. split; [exact L | split; [lia | left]].
        exists (S (S (w_ops w))), e.
        split; [reflexivity | split; [lia | split; [exact E2 | split; [|reflexivity]]]].
        intros k Hk. assert (k = w_ops w \/ k = S (w_ops w)) as [-> | ->] by lia; assumption.
      * rewrite Op in R. cbn in R. inversion R; subst w' r. cbn.
        split; [exact L | split; [lia | right]]. split.
        -- intros k Hk.
           assert (k = w_ops w \/ k = S (w_ops w) \/ k = S (S (w_ops w))) as [-> | [-> | ->]] by lia; assumption.
        -- split; [|reflexivity]. f_equal. apply L.
Qed.

Lemma sim_context {T A} fl h (abs : nat -> T) (body : bool -> io A) p :
  sim fl h abs (body (h_bytes h)) p -> sim fl h abs (with_context fl false body) p.
Proof.
  intros H.
  apply (sim_eq fl h abs _ (fun s => do (b, s') <- Ok (h_bytes h, s); p s')); [|reflexivity].
  unfold with_context.
  apply (sim_ext fl h abs (andthen (peek fl) (fun _ => body (h_bytes h)))).
  - exact (sim_bind fl h abs (peek fl) (fun _ => body (h_bytes h)) (fun s => Ok (h_bytes h, s))
             (fun _ => p) (sim_peek fl h abs) (fun _ => H)).
  - intros w L. unfold andthen. destruct (peek fl w) as [w1 [b|e]] eqn:E; [|reflexivity].
    destruct (sim_peek fl h abs w w1 (Ok b) L E) as (_ & _ & [(k & e & _ & _ & _ & _ & X) | [_ [X _]]]).
    + discriminate X.
    + inversion X; subst b. destruct (body (h_bytes h) w1); reflexivity.
Qed.

(** ** Text *)

(** What is left to read. *)
Definition rest (h : handle) (x : nat) : str := skipn x (h_text h).

Lemma readline_split s : s = fst (readline s) ++ snd (readline s).
Proof.
  induction s as [|c s IH]; [reflexivity|]. cbn. destruct (N.eqb c 10); [reflexivity|].
  destruct (readline s) as [l r]. cbn in *. rewrite IH. reflexivity.
Qed.

Lemma readline_empty s : fst (readline s) = [] -> s = [].
Proof.
  destruct s as [|c s]; [reflexivity|]. cbn. destruct (N.eqb c 10); [discriminate|].
  destruct (readline s). discriminate.
Qed.

Lemma lines_of_readline s : lines_of s =
  match readline s with
  | ([], _) => []
  | (l, r) => l :: lines_of r
  end.
Proof.
  induction s as [|c s IH]; [reflexivity|]. cbn. destruct (N.eqb c 10); [reflexivity|].
  rewrite IH. destruct (readline s) as [l r] eqn:E. destruct l as [|x l]; [|reflexivity].
  assert (s = []) by (apply readline_empty; rewrite E; reflexivity). subst s.
  cbn in E. inversion E; subst r. reflexivity.
Qed.

Lemma skipn_plus {A} (x y : nat) (l : list A) : skipn (x + y) l = skipn y (skipn x l).
Proof.
  revert l. induction x as [|x IH]; intros l; [reflexivity|]. cbn.
  destruct l as [|a l]; [rewrite skipn_nil; reflexivity | apply IH].
Qed.

Lemma skipn_app_len {A} (l r : list A) : skipn (length l) (l ++ r) = r.
Proof. induction l as [|a l IH]; [reflexivity | exact IH]. Qed.

Lemma sim_line fl h : sim fl h (rest h) (read_line fl) (fun s => Ok (readline s)).
Proof.
  apply sim_call. intros w L. unfold rest. destruct L as (_ & Et & _). rewrite Et. cbn.
  rewrite skipn_plus. set (s := skipn (h_pos (w_file w)) (h_text h)).
  rewrite (readline_split s) at 4. rewrite skipn_app_len.
  destruct (readline s); reflexivity.
Qed.

Lemma sim_skip fl h n : sim fl h (rest h) (skip_io fl n) (fun s => Ok (tt, skip_lines n s)).
Proof.
  induction n as [|n IH]; [apply sim_ret|]. cbn [skip_io].
  eapply sim_eq; [exact (sim_bind fl h _ _ _ _ (fun _ s => Ok (tt, skip_lines n s)) (sim_line fl h) (fun _ => IH))|].
  intros x. cbn. destruct (readline (rest h x)); reflexivity.
Qed.

(** linetuples up to the first yield. *)
Definition head_p (m : mode) (hasnames : bool) (a : targs) (s : str)
  : res (list str * list str * list func * str) :=
  let delim := t_delimiter a in
  do (fieldnames, s) <-
    (if hasnames then
       let '(line, s') := readline s in
       do fields <- split_line m delim (strip_line delim line);
       Ok (map (strip (ws_of m)) fields, s')
     else Ok ([], s));
  let '(first, s) := readline s in
  do firstvals <- split_line m delim (strip_line delim first);
  do funcs <- line_funcs m (t_stripstrings a) (t_converters a) firstvals;
  Ok (fieldnames, firstvals, funcs, s).

Lemma sim_head fl h m hasnames a : sim fl h (rest h) (head_io fl m hasnames a) (head_p m hasnames a).
Proof.
  unfold head_io.
  eapply sim_eq.
  - refine (sim_bind fl h _ _ _
      (fun s => if hasnames then
                  do (line, s') <- Ok (readline s);
                  do x <- (do fields <- split_line m (t_delimiter a) (strip_line (t_delimiter a) line);
                           Ok (map (strip (ws_of m)) fields)); Ok (x, s')
                else Ok ([], s))
      (fun fn s => do (first, s') <- Ok (readline s);
        (do (fv, s1) <- (do x <- split_line m (t_delimiter a) (strip_line (t_delimiter a) first); Ok (x, s'));
         do (fs, s2) <- (do x <- line_funcs m (t_stripstrings a) (t_converters a) fv; Ok (x, s1));
         Ok (fn, fv, fs, s2))) _ _).
    + destruct hasnames; [|apply sim_ret].
      exact (sim_bind fl h _ _ _ _ (fun line s' => do x <- (do fields <- split_line m (t_delimiter a) (strip_line (t_delimiter a) line); Ok (map (strip (ws_of m)) fields)); Ok (x, s')) (sim_line fl h) (fun _ => sim_pure fl h _ _)).
    + intros fn.
      refine (sim_bind fl h _ _ _ _ (fun first s' => do (fv, s1) <- (do x <- split_line m (t_delimiter a) (strip_line (t_delimiter a) first); Ok (x, s')); do (fs, s2) <- (do x <- line_funcs m (t_stripstrings a) (t_converters a) fv; Ok (x, s1)); Ok (fn, fv, fs, s2)) (sim_line fl h) _).
      intros first.
      refine (sim_bind fl h _ _ _ (fun s' => do x <- split_line m (t_delimiter a) (strip_line (t_delimiter a) first); Ok (x, s')) (fun fv s1 => do (fs, s2) <- (do x <- line_funcs m (t_stripstrings a) (t_converters a) fv; Ok (x, s1)); Ok (fn, fv, fs, s2)) (sim_pure fl h _ _) _).
      intros fv.
      exact (sim_bind fl h _ _ _ (fun s1 => do x <- line_funcs m (t_stripstrings a) (t_converters a) fv; Ok (x, s1)) (fun fs s2 => Ok (fn, fv, fs, s2)) (sim_pure fl h _ _) (fun _ => sim_ret fl h _ _)).
  - intros x. unfold head_p. generalize (rest h x). intros s.
    assert (K : forall (fn : list str) s, (do (first, s') <- Ok (readline s);
        (do (fv, s1) <- (do x <- split_line m (t_delimiter a) (strip_line (t_delimiter a) first); Ok (x, s'));
         do (fs, s2) <- (do x <- line_funcs m (t_stripstrings a) (t_converters a) fv; Ok (x, s1));
         Ok (fn, fv, fs, s2))) = let '(first, s) := readline s in
  do firstvals <- split_line m (t_delimiter a) (strip_line (t_delimiter a) first);
  do funcs <- line_funcs m (t_stripstrings a) (t_converters a) firstvals;
  Ok (fn, firstvals, funcs, s)).
    { clear. intros fn s. cbn. destruct (readline s) as [first s'].
      destruct (split_line m (t_delimiter a) (strip_line (t_delimiter a) first)); [cbn|reflexivity].
      destruct (line_funcs m (t_stripstrings a) (t_converters a) a0); reflexivity. }
    destruct hasnames.
    + cbn [bind]. destruct (readline s) as [line s'].
      destruct (split_line m (t_delimiter a) (strip_line (t_delimiter a) line)); [|reflexivity].
      cbn [bind]. apply K.
    + cbn [bind]. apply K.
Qed.

(** The rows of the lines, given to the consumer one by one. *)
Definition rows_p {D} (m : mode) (delim : option str) (funcs : list func) (usecols : option (list Z))
    (take : D -> list val -> D) (d : D) (s : str) : res (D * str) :=
  do rows <- all_rows (flat_map (data_line m delim funcs usecols) (lines_of s));
  Ok (fold_left take rows d, []).

Lemma sim_lines {D} fl h m delim funcs usecols (take : D -> list val -> D) d :
  sim fl h (rest h) (all_lines_io fl m delim funcs usecols take d) (rows_p m delim funcs usecols take d).
Proof.
  assert (K : forall n d w w' r, like h w -> length (rest h (h_pos (w_file w))) < n ->
     lines_io fl n m delim funcs usecols take d w = (w', r) ->
     like h w' /\ w_ops w <= w_ops w' /\
     ((exists k e, w_ops w' = S k /\ w_ops w <= k /\ fl k = Some e /\ quiet fl (w_ops w) k /\ r = Err e) \/
      (quiet fl (w_ops w) (w_ops w') /\
       match rows_p m delim funcs usecols take d (rest h (h_pos (w_file w))) with
       | Ok (a, s) => r = Ok a /\ rest h (h_pos (w_file w')) = s
       | Err e => r = Err e
       end))).
  { clear d. induction n as [|n IH]; intros d w w' r L N R; [lia|].
    cbn [lines_io] in R. unfold andthen in R at 1.
    destruct (read_line fl w) as [w1 r1] eqn:E1.
    destruct (sim_line fl h w w1 r1 L E1) as (L1 & O1 & D1).
    destruct D1 as [(k & e & K1 & K2 & K3 & K4 & ->) | [Q1 V1]].
    { inversion R; subst w' r. split; [exact L1 | split; [exact O1 | left]]. exists k, e. auto 8. }
    set (s := rest h (h_pos (w_file w))) in *.
    pose proof (readline_split s) as Es. pose proof (readline_empty s) as Em.
    unfold rows_p. rewrite lines_of_readline.
    destruct (readline s) as [l s'] eqn:El. cbn [fst snd] in *. destruct V1 as [-> V1].
    destruct l as [|c l].
    { unfold ret in R. inversion R; subst w' r. clear R.
      split; [exact L1 | split; [exact O1 | right]]. split; [exact Q1|]. cbn.
      split; [reflexivity|]. rewrite V1.
      rewrite (Em eq_refl) in Es. cbn in Es. congruence. }
    assert (N1 : length (rest h (h_pos (w_file w1))) < n).
    { rewrite V1. rewrite Es in N. rewrite app_length in N. cbn in N. lia. }
    cbn [flat_map]. unfold data_line at 1.
    destruct (strip_line delim (c :: l)) as [|c1 l1] eqn:Est.
    { destruct (IH d w1 w' r L1 N1 R) as (L2 & O2 & D2).
      split; [exact L2 | split; [lia|]].
      destruct D2 as [(k & e & K1 & K2 & K3 & K4 & ->) | [Q2 V2]].
      - left. exists k, e. split; [exact K1 | split; [lia | split; [exact K3 | split; [|reflexivity]]]].
        exact (quiet_app fl _ _ _ Q1 K4).
      - right. split; [exact (quiet_app fl _ _ _ Q1 Q2)|]. rewrite V1 in V2. exact V2. }
    unfold andthen, pure in R.
    destruct (do vals <- split_line m delim (c1 :: l1); line_tuple m funcs usecols vals) as [t|e] eqn:Et.
    - destruct (IH (take d t) w1 w' r L1 N1 R) as (L2 & O2 & D2).
      split; [exact L2 | split; [lia|]].
      destruct D2 as [(k & e & K1 & K2 & K3 & K4 & ->) | [Q2 V2]].
      + left. exists k, e. split; [exact K1 | split; [lia | split; [exact K3 | split; [|reflexivity]]]].
        exact (quiet_app fl _ _ _ Q1 K4).
      + right. split; [exact (quiet_app fl _ _ _ Q1 Q2)|]. rewrite V1 in V2. unfold rows_p in V2.
        unfold all_rows in *. cbn [app mapM bind]. 
        destruct (mapM (fun r0 => r0) (flat_map (data_line m delim funcs usecols) (lines_of s'))); exact V2.
    - inversion R; subst w' r. clear R. split; [exact L1 | split; [exact O1 | right]].
      split; [exact Q1|]. reflexivity. }
  intros w w' r L R. unfold all_lines_io in R. apply (K _ d w w' r L) in R; [exact R|].
  unfold rest. rewrite skipn_length. destruct L as (_ & Et & _). rewrite Et. lia.
Qed.

Lemma all_rows_debug u rows d : debug_rows u true rows d =
  do rows <- all_rows rows;
  Ok (fold_left (fun d t => fold_left (fun d kv => dappend kv d) (label u t) d) rows d).
Proof.
  revert d. induction rows as [|[t|e] rows IH]; intros d; [reflexivity| |reflexivity].
  unfold all_rows in *. cbn. rewrite IH. destruct (mapM (fun r => r) rows); reflexivity.
Qed.

Lemma fold_snoc {A} (l : list A) : forall acc, fold_left (fun l t => l ++ [t]) l acc = acc ++ l.
Proof.
  induction l as [|x l IH]; intros acc; cbn; [symmetry; apply app_nil_r|].
  rewrite IH, <- app_assoc. reflexivity.
Qed.

Lemma sim_datadict fl h m u hasnames a :
  sim fl h (rest h) (datadict_io fl m u hasnames a)
    (fun s => do x <- datadict s m u hasnames a; Ok (x, [])).
Proof.
  unfold datadict_io. eapply sim_eq.
  - refine (sim_bind fl h _ _ _ _
      (fun hd s1 => let '(fieldnames, firstvals, funcs) := hd in
        do (names, s2) <-
          (do x <- (if hasnames then do ns <- names_tuple m u fieldnames (length firstvals);
                                     Ok (dict_of (label u ns)) else Ok []); Ok (x, s1));
        do (data, s3) <-
          (if t_debug a then
             do (t, s3) <- (do x <- match line_tuple m funcs u firstvals with Ok t => Ok t | Err _ => Err KeyError end;
                            Ok (x, s2));
             rows_p m (t_delimiter a) funcs u (fun d t => fold_left (fun d kv => dappend kv d) (label u t) d)
               (fold_left (fun d kv => dappend kv d) (label u t) []) s3
           else
             do (t, s3) <- (do x <- line_tuple m funcs u firstvals; Ok (x, s2));
             do (rows, s4) <- rows_p m (t_delimiter a) funcs u (fun l t => l ++ [t]) [t] s3;
             Ok (dict_of (label u (zipn rows)), s4));
        Ok (data, names, s3)) (sim_head fl h m hasnames a) _).
    intros [[fieldnames firstvals] funcs].
    refine (sim_bind fl h _ _ _ (fun s1 =>
          (do x <- (if hasnames then do ns <- names_tuple m u fieldnames (length firstvals);
                                     Ok (dict_of (label u ns)) else Ok []); Ok (x, s1)))
      (fun names s2 =>
        do (data, s3) <-
          (if t_debug a then
             do (t, s3) <- (do x <- match line_tuple m funcs u firstvals with Ok t => Ok t | Err _ => Err KeyError end;
                            Ok (x, s2));
             rows_p m (t_delimiter a) funcs u (fun d t => fold_left (fun d kv => dappend kv d) (label u t) d)
               (fold_left (fun d kv => dappend kv d) (label u t) []) s3
           else
             do (t, s3) <- (do x <- line_tuple m funcs u firstvals; Ok (x, s2));
             do (rows, s4) <- rows_p m (t_delimiter a) funcs u (fun l t => l ++ [t]) [t] s3;
             Ok (dict_of (label u (zipn rows)), s4));
        Ok (data, names, s3)) _ _).
    { destruct hasnames; [apply sim_pure | apply sim_ret]. }
    intros names.
    refine (sim_bind fl h _ _ _ (fun s2 => 
          (if t_debug a then
             do (t, s3) <- (do x <- match line_tuple m funcs u firstvals with Ok t => Ok t | Err _ => Err KeyError end;
                            Ok (x, s2));
             rows_p m (t_delimiter a) funcs u (fun d t => fold_left (fun d kv => dappend kv d) (label u t) d)
               (fold_left (fun d kv => dappend kv d) (label u t) []) s3
           else
             do (t, s3) <- (do x <- line_tuple m funcs u firstvals; Ok (x, s2));
             do (rows, s4) <- rows_p m (t_delimiter a) funcs u (fun l t => l ++ [t]) [t] s3;
             Ok (dict_of (label u (zipn rows)), s4)))
      (fun data s3 => Ok (data, names, s3)) _ (fun _ => sim_ret fl h _ _)).
    destruct (t_debug a).
    + refine (sim_bind fl h _ _ _ (fun s2 => do x <- match line_tuple m funcs u firstvals with Ok t => Ok t | Err _ => Err KeyError end;
                            Ok (x, s2)) (fun t => rows_p m (t_delimiter a) funcs u (fun d t => fold_left (fun d kv => dappend kv d) (label u t) d)
               (fold_left (fun d kv => dappend kv d) (label u t) [])) (sim_pure fl h _ _) _).
      intros t. apply sim_lines.
    + refine (sim_bind fl h _ _ _ (fun s2 => do x <- line_tuple m funcs u firstvals; Ok (x, s2))
        (fun t s3 => do (rows, s4) <- rows_p m (t_delimiter a) funcs u (fun l t => l ++ [t]) [t] s3;
             Ok (dict_of (label u (zipn rows)), s4)) (sim_pure fl h _ _) _).
      intros t.
      exact (sim_bind fl h _ _ _ _ (fun rows s4 => Ok (dict_of (label u (zipn rows)), s4))
               (sim_lines fl h m _ funcs u _ _) (fun _ => sim_ret fl h _ _)).
  - intros x. generalize (rest h x). intros s. unfold datadict, linetuples, head_p.
    destruct (if hasnames
       then let '(line, s') := readline s in
            do fields <- split_line m (t_delimiter a) (strip_line (t_delimiter a) line);
            Ok (map (strip (ws_of m)) fields, s')
       else Ok ([], s)) as [[fn s1]|e]; [|reflexivity]. cbn [bind].
    destruct (readline s1) as [first s2].
    destruct (split_line m (t_delimiter a) (strip_line (t_delimiter a) first)) as [fv|e]; [|reflexivity].
    cbn [bind].
    destruct (line_funcs m (t_stripstrings a) (t_converters a) fv) as [fs|e]; [|reflexivity].
    cbn [bind y_names y_rows].
    assert (B : forall (r : res (dict val)) (g : dict val * str -> res (dict (list val) * dict val * str))
                       (g' : dict val -> res (dict (list val) * dict val)),
      (forall n, g (n, s2) = do x <- g' n; Ok (x, [])) ->
      (do y <- (do x <- r; Ok (x, s2)); g y) = do x <- (do n <- r; g' n); Ok (x, [])).
    { intros [n|e] g g' H; [apply H | reflexivity]. }
    apply B. intros n. destruct (t_debug a).
    + cbn [debug_rows]. destruct (line_tuple m fs u fv) as [t|e]; [|reflexivity]. cbn [bind].
      rewrite all_rows_debug. unfold rows_p.
      destruct (all_rows (flat_map (data_line m (t_delimiter a) fs u) (lines_of s2))); reflexivity.
    + unfold all_rows. cbn [mapM].
      destruct (line_tuple m fs u fv) as [t|e]; [|reflexivity]. cbn [bind].
      unfold rows_p, all_rows.
      destruct (mapM (fun r => r) (flat_map (data_line m (t_delimiter a) fs u) (lines_of s2))) as [rows|e];
        [|reflexivity].
      cbn [bind]. rewrite fold_snoc. reflexivity.
Qed.

(** textpack on what is left to read: at the end of a successful read nothing is. *)
Definition textpack_p (h : handle) (a : targs) (s : str) : res (pack * str) :=
  do p <- textpack (mksource (h_bytes h) s 0 (h_name h)) a; Ok (p, []).

Lemma sim_textpack fl h a : sim fl h (rest h) (textpack_io fl false a) (textpack_p h a).
Proof.
  unfold textpack_io.
  destruct (match t_names a with
            | [] => if t_hasnames a then (cols_seq (t_usecols a), true, (t_skiprows a - 1)%Z)
                    else (cols_seq (t_usecols a), false, t_skiprows a)
            | _ :: _ => (Some (zsort (dkeys (t_names a))), false, t_skiprows a)
            end) as [[u hn] sk] eqn:Ea.
  eapply sim_eq.
  - refine (sim_bind fl h _ _ _
      (fun s => do (_, s1) <- Ok (tt, skip_lines (Z.to_nat sk) s);
                do x <- datadict s1 (mode_of (h_bytes h) (t_encoding a)) u hn a; Ok (x, []))
      (fun dn s => Ok (fst (set_fn (OStr (h_name h))
          (new_pack (map (fun kv => (fst kv, np_array (snd kv))) (fst dn))
             (match t_names a with [] => snd dn | _ => t_names a end))), s)) _ _).
    + apply sim_context.
      exact (sim_bind fl h _ _ _ _ (fun _ s1 => do x <- datadict s1 (mode_of (h_bytes h) (t_encoding a)) u hn a; Ok (x, []))
               (sim_skip fl h (Z.to_nat sk)) (fun _ => sim_datadict fl h _ u hn a)).
    + intros [data names].
      apply (sim_look fl h (rest h) (fun hd => fst (set_fn (OStr (h_name hd))
          (new_pack (map (fun kv => (fst kv, np_array (snd kv))) data)
             (match t_names a with [] => names | _ => t_names a end))))).
      intros w (_ & _ & En & _). rewrite En. reflexivity.
  - intros x. generalize (rest h x). intros s. unfold textpack_p, textpack.
    rewrite Ea. cbn [src_bytes src_text src_pos src_name skipn bind].
    destruct (datadict (skip_lines (Z.to_nat sk) s) (mode_of (h_bytes h) (t_encoding a)) u hn a) as [[d n]|e];
      reflexivity.
Qed.

Lemma textpack_rest b t x nm a :
  textpack (mksource b (skipn x t) 0 nm) a = textpack (mksource b t x nm) a.
Proof. reflexivity. Qed.

(** ** lazy_textpack *)

(** What is left after n lines. *)
Lemma sim_take fl h f n : sim fl h (rest h) (take_io fl n f)
  (fun s => do l <- mapM f (take_lines n s); Ok (l, skip_lines n s)).
Proof.
  induction n as [|n IH]; [apply sim_ret|]. cbn [take_io].
  eapply sim_eq.
  - refine (sim_bind fl h _ _ _ _ (fun line s' => do (t, s1) <- (do x <- f line; Ok (x, s'));
        do (r, s2) <- (do l <- mapM f (take_lines n s1); Ok (l, skip_lines n s1)); Ok (t :: r, s2)) (sim_line fl h) _).
    intros line.
    refine (sim_bind fl h _ _ _ _ (fun t s1 => do (r, s2) <- (do l <- mapM f (take_lines n s1); Ok (l, skip_lines n s1)); Ok (t :: r, s2)) (sim_pure fl h _ _) _).
    intros t.
    exact (sim_bind fl h _ _ _ _ (fun r s2 => Ok (t :: r, s2)) IH (fun _ => sim_ret fl h _ _)).
  - intros x. generalize (rest h x). intros s. cbn [bind take_lines skip_lines].
    destruct (readline s) as [line s']. cbn [mapM snd].
    destruct (f line) as [t|e]; [|reflexivity]. cbn [bind].
    destruct (mapM f (take_lines n s')); reflexivity.
Qed.

Lemma mapM_ok {A} (l : list A) : mapM (fun x => Ok x) l = Ok l.
Proof. induction l as [|x l IH]; [reflexivity|]. cbn. rewrite IH. reflexivity. Qed.

Lemma sim_seek {T} fl h (abs : nat -> T) p : sim fl h abs (seek fl p) (fun _ => Ok (tt, abs p)).
Proof. apply sim_call. intros w L. reflexivity. Qed.

Definition lazy_p (word : N -> bool) (preferred : codec) (h : handle) (parselines : Z) (k : kwargs) (x : nat)
  : res (pack * str) :=
  do p <- lazy_textpack word preferred (mksource (h_bytes h) (h_text h) x (h_name h)) parselines k; Ok (p, []).

(** What is derived from the first lines. *)
Definition found_p (word : N -> bool) (preferred : codec) (bytes : bool) (n : nat) (k : kwargs) (s : str)
  : res (option derived) :=
  if bytes then
    do texts <- mapM (match given (k_encoding k) (Some preferred) with
                      | None => fun _ => Err TypeError
                      | Some c => decode c
                      end) (take_lines n s);
    do d <- preparse (word_first word) texts;
    match d, given (k_encoding k) (Some preferred) with
    | Some d, Some c =>
        do delim <- match d_delimiter d with
                    | Some x => do b <- encode c x; Ok (Some b)
                    | None => Ok None
                    end;
        Ok (Some (mkderived (d_skiprows d) delim (d_converters d) (d_names d) (d_usecols d)))
    | _, _ => Ok d
    end
  else preparse (word_first word) (take_lines n s).

(** The call of textpack that follows. *)
Definition lazy_args (bytes : bool) (found : option derived) (names : dict val) (k : kwargs) : targs :=
  let d := match found with Some d => d | None => mkderived 0 None None [] [] end in
  let found := match found with Some _ => true | None => false end in
  mktargs names
            (given (k_delimiter k) (d_delimiter d))
            (given (k_skiprows k) (Z.of_nat (d_skiprows d)))
            (given (k_usecols k) (if found then ColsSeq (d_usecols d) else ColsNone))
            (given (k_hasnames k) false)
            (given (k_encoding k) None)
            (given (k_converters k)
               (match d_converters d with Some l => map (fun c => (c, floatit bytes)) l | None => [] end))
            (given (k_stripstrings k) false)
            (given (k_debug k) false).

Definition lazy_names (found : option derived) (k : kwargs) : res (dict val) :=
  let d := match found with Some d => d | None => mkderived 0 None None [] [] end in
  match k_names k, k_usecols k with
  | Some n, _ => Ok n
  | None, Some u => names_in u (d_names d)
  | None, None => Ok (d_names d)
  end.

Definition lazy_found (found : option derived) : bool := match found with Some _ => true | None => false end.

Lemma lazy_textpack_found word preferred h parselines k x :
  lazy_textpack word preferred (mksource (h_bytes h) (h_text h) x (h_name h)) parselines k =
  do found <- found_p word preferred (h_bytes h) (Z.to_nat parselines) k (rest h x);
  do names <- lazy_names found k;
  if negb (lazy_found found) && nothing_given k then Err ValueError
  else textpack (mksource (h_bytes h) (h_text h) 0 (h_name h)) (lazy_args (h_bytes h) found names k).
Proof.
  unfold lazy_textpack, found_p, rest, lazy_names, lazy_found, lazy_args.
  cbn [src_bytes src_text src_pos src_name].
  match goal with |- bind ?a ?f = bind ?b ?g => assert (E : a = b) end.
  { destruct (h_bytes h); [|reflexivity].
    destruct (given (k_encoding k) (Some preferred)) as [c|].
    - destruct (mapM (decode c) (take_lines (Z.to_nat parselines) (skipn x (h_text h)))); [|reflexivity].
      cbn [bind]. destruct (preparse (word_first word) a) as [[d|]|e]; reflexivity.
    - destruct (take_lines (Z.to_nat parselines) (skipn x (h_text h))); [|reflexivity].
      cbn [mapM bind]. destruct (preparse (word_first word) []) as [[d|]|e]; reflexivity. }
  rewrite E. reflexivity.
Qed.

Lemma sim_found fl h word preferred n k :
  sim fl h (rest h)
    (if h_bytes h then
         let* texts := take_io fl n (match given (k_encoding k) (Some preferred) with
                    | None => fun _ => Err TypeError
                    | Some c => decode c
                    end) in
         pure (do d <- preparse (word_first word) texts;
               match d, given (k_encoding k) (Some preferred) with
               | Some d, Some c =>
                   do delim <- match d_delimiter d with
                               | Some x => do b <- encode c x; Ok (Some b)
                               | None => Ok None
                               end;
                   Ok (Some (mkderived (d_skiprows d) delim (d_converters d) (d_names d) (d_usecols d)))
               | _, _ => Ok d
               end)
       else
         let* texts := take_io fl n (fun l => Ok l) in
         pure (preparse (word_first word) texts))
    (fun s => do x <- found_p word preferred (h_bytes h) n k s; Ok (x, skip_lines n s)).
Proof.
  unfold found_p. destruct (h_bytes h).
  - eapply sim_eq.
    + exact (sim_bind fl h _ _ _ _ (fun texts s1 => do x <- (do d <- preparse (word_first word) texts;
               match d, given (k_encoding k) (Some preferred) with
               | Some d, Some c =>
                   do delim <- match d_delimiter d with
                               | Some x => do b <- encode c x; Ok (Some b)
                               | None => Ok None
                               end;
                   Ok (Some (mkderived (d_skiprows d) delim (d_converters d) (d_names d) (d_usecols d)))
               | _, _ => Ok d
               end); Ok (x, s1)) (sim_take fl h _ n) (fun _ => sim_pure fl h _ _)).
    + intros x. cbn beta. generalize (rest h x). intros s.
      destruct (mapM _ (take_lines n s)); reflexivity.
  - eapply sim_eq.
    + exact (sim_bind fl h _ _ _ _ (fun texts s1 => do x <- preparse (word_first word) texts; Ok (x, s1))
               (sim_take fl h _ n) (fun _ => sim_pure fl h _ _)).
    + intros x. cbn beta. generalize (rest h x). intros s. rewrite mapM_ok. reflexivity.
Qed.

Lemma sim_lazy fl h word preferred parselines k : exists p,
  sim fl h (rest h) (lazy_io fl word preferred false parselines k) p /\
  forall x, p (rest h x) = lazy_p word preferred h parselines k x.
Proof.
  exists (fun s =>
    do (found, s1) <- (do x <- found_p word preferred (h_bytes h) (Z.to_nat parselines) k s;
                       Ok (x, skip_lines (Z.to_nat parselines) s));
    do (_, s2) <- Ok (tt, rest h 0);
    do (names, s3) <- (do x <- lazy_names found k; Ok (x, s2));
    (if negb (lazy_found found) && nothing_given k then (do x <- Err ValueError; Ok (x, s3))
     else textpack_p h (lazy_args (h_bytes h) found names k) s3)).
  split.
  - unfold lazy_io. apply sim_context.
    refine (sim_bind fl h _ _ _ _ (fun found s1 =>
      do (_, s2) <- Ok (tt, rest h 0);
      do (names, s3) <- (do x <- lazy_names found k; Ok (x, s2));
      (if negb (lazy_found found) && nothing_given k then (do x <- Err ValueError; Ok (x, s3))
       else textpack_p h (lazy_args (h_bytes h) found names k) s3))
      (sim_found fl h word preferred (Z.to_nat parselines) k) _).
    intros found.
    refine (sim_bind fl h _ _ _ (fun _ => Ok (tt, rest h 0)) (fun _ s2 =>
      do (names, s3) <- (do x <- lazy_names found k; Ok (x, s2));
      (if negb (lazy_found found) && nothing_given k then (do x <- Err ValueError; Ok (x, s3))
       else textpack_p h (lazy_args (h_bytes h) found names k) s3)) (sim_seek fl h (rest h) 0) _).
    intros _.
    refine (sim_bind fl h _ _ _ _ (fun names s3 =>
      (if negb (lazy_found found) && nothing_given k then (do x <- Err ValueError; Ok (x, s3))
       else textpack_p h (lazy_args (h_bytes h) found names k) s3)) (sim_pure fl h _ (lazy_names found k)) _).
    intros names.
    change (match found with Some _ => true | None => false end) with (lazy_found found).
    destruct (negb (lazy_found found) && nothing_given k); [apply (sim_pure fl h _ (Err ValueError)) | apply sim_textpack].
  - intros x. unfold lazy_p. rewrite lazy_textpack_found. cbn [bind].
    destruct (found_p word preferred (h_bytes h) (Z.to_nat parselines) k (rest h x)) as [found|e]; [|reflexivity].
    cbn [bind]. destruct (lazy_names found k) as [names|e]; [|reflexivity]. cbn [bind].
    destruct (negb (lazy_found found) && nothing_given k); reflexivity.
Qed.

(** ** dbfpack *)

(** The file at a position. *)
Definition at_pos (h : handle) (x : nat) : file := mkfile (h_text h) x.

Lemma sim_read fl h n : sim fl h (at_pos h) (read fl n) (fun f => Ok (fread n f)).
Proof.
  apply sim_call. intros w (_ & Et & _). unfold at_pos, fread. cbn. rewrite Et. reflexivity.
Qed.

Lemma sim_tell fl h : sim fl h (at_pos h) (tell fl) (fun f => Ok (f_pos f, f)).
Proof. apply sim_call. intros w L. reflexivity. Qed.

Lemma sim_seek_at fl h p : sim fl h (at_pos h) (seek fl p) (fun f => Ok (tt, mkfile (h_text h) p)).
Proof. apply sim_seek. Qed.

Lemma sim_fields fl h n : sim fl h (at_pos h) (fields_io fl n) (read_fields n).
Proof.
  induction n as [|n IH]; [apply sim_ret|]. cbn [fields_io].
  eapply sim_eq.
  - refine (sim_bind fl h _ _ _ _ (fun b f1 => do (fd, f2) <- (do x <- unpack_field b; Ok (x, f1));
        do (r, f3) <- read_fields n f2; Ok (fd :: r, f3)) (sim_read fl h 32) _).
    intros b.
    refine (sim_bind fl h _ _ _ _ (fun fd f2 => do (r, f3) <- read_fields n f2; Ok (fd :: r, f3)) (sim_pure fl h _ _) _).
    intros fd. exact (sim_bind fl h _ _ _ _ (fun r f3 => Ok (fd :: r, f3)) IH (fun _ => sim_ret fl h _ _)).
  - intros x. cbn [bind read_fields]. destruct (fread 32 (at_pos h x)) as [b f1].
    destruct (unpack_field b); reflexivity.
Qed.

Lemma sim_header fl h : sim fl h (at_pos h) (header_io fl) read_header.
Proof.
  unfold header_io. eapply sim_eq.
  - refine (sim_bind fl h _ _ _ _ (fun b f1 => do (nl, f2) <- (do x <- unpack_header b; Ok (x, f1));
        do (fds, f3) <- read_fields (num_fields (snd nl)) f2; Ok (fst nl, fds, f3)) (sim_read fl h 32) _).
    intros b.
    refine (sim_bind fl h _ _ _ _ (fun nl f2 => do (fds, f3) <- read_fields (num_fields (snd nl)) f2; Ok (fst nl, fds, f3)) (sim_pure fl h _ _) _).
    intros [numrec lenheader].
    exact (sim_bind fl h _ _ _ _ (fun fds f3 => Ok (numrec, fds, f3)) (sim_fields fl h _) (fun _ => sim_ret fl h _ _)).
  - intros x. unfold read_header. cbn [bind]. destruct (fread 32 (at_pos h x)) as [b f1].
    destruct (unpack_header b) as [[numrec lenheader]|e]; reflexivity.
Qed.

Lemma sim_terminator fl h : sim fl h (at_pos h) (terminator_io fl) (fun f => do f1 <- read_terminator f; Ok (tt, f1)).
Proof.
  unfold terminator_io. eapply sim_eq.
  - refine (sim_bind fl h _ _ _ _ (fun b f1 => if str_eqb b [13%N] then Ok (tt, f1) else Err AssertionError) (sim_read fl h 1) _).
    intros b. destruct (str_eqb b [13%N]); [apply sim_ret | apply (sim_pure fl h _ (Err AssertionError))].
  - intros x. unfold read_terminator. cbn [bind]. destruct (fread 1 (at_pos h x)) as [b f1].
    destruct (str_eqb b [13%N]); reflexivity.
Qed.

(** The rows of a generator run to its end. *)
Definition run_rows (x : list (list val) * res file) : res (list (list val) * file) :=
  do f <- snd x; Ok (fst x, f).

Lemma sim_reader fl h fields n : sim fl h (at_pos h) (reader_io fl n fields)
  (fun f => run_rows (reader_loop n fields f)).
Proof.
  induction n as [|n IH]; [eapply sim_eq; [apply sim_ret | reflexivity]|]. cbn [reader_io].
  eapply sim_eq.
  - refine (sim_bind fl h _ _ _ _ (fun b f1 => do (record, f2) <- (do x <- unpack_record fields b; Ok (x, f1));
      if is_deleted record then run_rows (reader_loop n fields f2)
      else do (row, f3) <- (do x <- convert_fields (zip fields record); Ok (x, f2));
           do (rows, f4) <- run_rows (reader_loop n fields f3); Ok (row :: rows, f4)) (sim_read fl h _) _).
    intros b.
    refine (sim_bind fl h _ _ _ _ (fun record f2 => 
      if is_deleted record then run_rows (reader_loop n fields f2)
      else do (row, f3) <- (do x <- convert_fields (zip fields record); Ok (x, f2));
           do (rows, f4) <- run_rows (reader_loop n fields f3); Ok (row :: rows, f4)) (sim_pure fl h _ _) _).
    intros record. destruct (is_deleted record); [exact IH|].
    refine (sim_bind fl h _ _ _ _ (fun row f3 => do (rows, f4) <- run_rows (reader_loop n fields f3); Ok (row :: rows, f4)) (sim_pure fl h _ _) _).
    intros row. exact (sim_bind fl h _ _ _ _ (fun rows f4 => Ok (row :: rows, f4)) IH (fun _ => sim_ret fl h _ _)).
  - intros x. cbn [bind reader_loop]. destruct (fread (total_size fields) (at_pos h x)) as [b f1].
    destruct (unpack_record fields b) as [record|e]; [|reflexivity]. cbn [bind].
    destruct (is_deleted record); [reflexivity|].
    destruct (convert_fields (zip fields record)) as [row|e]; [|reflexivity]. cbn [bind].
    destruct (reader_loop n fields f1) as [rows [f|e]]; reflexivity.
Qed.

Lemma sim_selected fl h ref sel : sim fl h (at_pos h) (selected_io fl ref sel) (read_selected ref sel).
Proof.
  induction sel as [|fi sel IH]; [apply sim_ret|]. cbn [selected_io].
  eapply sim_eq.
  - refine (sim_bind fl h _ _ _ _ (fun _ f1 => do (b, f2) <- Ok (fread (fd_size (fi_field fi)) f1);
      if length b =? fd_size (fi_field fi) then do (bs, f3) <- read_selected ref sel f2; Ok (b :: bs, f3)
      else Err StructError) (sim_seek_at fl h _) _).
    intros _.
    refine (sim_bind fl h _ _ _ _ (fun b f2 =>
      if length b =? fd_size (fi_field fi) then do (bs, f3) <- read_selected ref sel f2; Ok (b :: bs, f3)
      else Err StructError) (sim_read fl h _) _).
    intros b. destruct (length b =? fd_size (fi_field fi)); [|apply (sim_pure fl h _ (Err StructError))].
    exact (sim_bind fl h _ _ _ _ (fun bs f3 => Ok (b :: bs, f3)) IH (fun _ => sim_ret fl h _ _)).
  - intros x. cbn [bind read_selected]. unfold fseek. reflexivity.
Qed.

(** Positions lie in the one file. *)
Lemma sim_records fl h rec_end sel n : sim fl h (at_pos h) (records_io fl n rec_end sel)
  (fun f => run_rows (records_loop n rec_end sel (mkfile (h_text h) (f_pos f)))).
Proof.
  induction n as [|n IH]; [eapply sim_eq; [apply sim_ret | reflexivity]|]. cbn [records_io].
  eapply sim_eq.
  - refine (sim_bind fl h _ _ _ _ (fun ref f1 => do (record, f2) <- read_selected ref sel f1;
      if is_deleted record then run_rows (records_loop n rec_end sel (mkfile (h_text h) (f_pos f2)))
      else do (row, f3) <- (do x <- convert_fields (zip (map fi_field sel) record); Ok (x, f2));
           do (_, f4) <- Ok (tt, mkfile (h_text h) (ref + rec_end));
           do (rows, f5) <- run_rows (records_loop n rec_end sel (mkfile (h_text h) (f_pos f4))); Ok (row :: rows, f5)) (sim_tell fl h) _).
    intros ref.
    refine (sim_bind fl h _ _ _ _ (fun record f2 =>
      if is_deleted record then run_rows (records_loop n rec_end sel (mkfile (h_text h) (f_pos f2)))
      else do (row, f3) <- (do x <- convert_fields (zip (map fi_field sel) record); Ok (x, f2));
           do (_, f4) <- Ok (tt, mkfile (h_text h) (ref + rec_end));
           do (rows, f5) <- run_rows (records_loop n rec_end sel (mkfile (h_text h) (f_pos f4))); Ok (row :: rows, f5)) (sim_selected fl h ref sel) _).
    intros record. destruct (is_deleted record); [exact IH|].
    refine (sim_bind fl h _ _ _ _ (fun row f3 => do (_, f4) <- Ok (tt, mkfile (h_text h) (ref + rec_end));
           do (rows, f5) <- run_rows (records_loop n rec_end sel (mkfile (h_text h) (f_pos f4))); Ok (row :: rows, f5)) (sim_pure fl h _ _) _).
    intros row.
    refine (sim_bind fl h _ _ _ _ (fun _ f4 =>
           do (rows, f5) <- run_rows (records_loop n rec_end sel (mkfile (h_text h) (f_pos f4))); Ok (row :: rows, f5)) (sim_seek_at fl h _) _).
    intros _. exact (sim_bind fl h _ _ _ _ (fun rows f5 => Ok (row :: rows, f5)) IH (fun _ => sim_ret fl h _ _)).
  - intros x. cbn [bind records_loop at_pos f_pos].
    change (mkfile (h_text h) x) with (at_pos h x).
    assert (B : forall sel ref f bs f', f_bytes f = h_text h -> read_selected ref sel f = Ok (bs, f') -> f_bytes f' = h_text h).
    { clear. induction sel as [|fi sel IH]; intros ref f bs f' E R; cbn in R.
      - inversion R; subst. exact E.
      - destruct (length _ =? fd_size (fi_field fi)); [|discriminate R].
        destruct (read_selected ref sel _) as [[bs1 f1]|e] eqn:R1; [|discriminate R]. cbn in R.
        inversion R; subst f'. apply IH in R1; [exact R1 | exact E]. }
    destruct (read_selected x sel (at_pos h x)) as [[record f1]|e] eqn:Er; [|reflexivity]. cbn [bind].
    specialize (B sel x (at_pos h x) record f1 eq_refl Er). destruct f1 as [bs1 p1]. cbn in B. subst bs1. cbn [f_pos].
    destruct (is_deleted record); [reflexivity|].
    destruct (convert_fields (zip (map fi_field sel) record)) as [row|e]; [|reflexivity]. cbn [bind f_pos].
    unfold fseek. cbn [f_bytes].
    destruct (records_loop n rec_end sel (mkfile (h_text h) (x + rec_end))) as [rows [f|e]]; reflexivity.
Qed.

(** The position after dbfpack is not looked at. *)
Definition dbfpack_p (h : handle) (names : list str) (f : file) : res (pack * file) :=
  match names with
  | [] =>
      do (numrec, fds, f1) <- read_header f;
      do f2 <- read_terminator f1;
      do (rows, f3) <- run_rows (reader_loop (Z.to_nat numrec) (flag_field :: fds) f2);
      Ok (fst (set_fn (OStr (h_name h)) (new_pack (enum_dict (map np_array (zipn rows)))
             (enum_dict (map VStr (map fd_name fds))))), f3)
  | _ =>
      do (_, allfields, _) <- read_header f;
      do (numrec, fds, f1) <- read_header (mkfile (h_text h) 0);
      let fields := flag_info :: finfos names flag_info fds in
      let lastf := last fields flag_info in
      do f2 <- read_terminator f1;
      do (rows, f3) <- run_rows (records_loop (Z.to_nat numrec) (fi_seek lastf + fd_size (fi_field lastf))
                         (filter fi_keep fields) (mkfile (h_text h) (f_pos f2)));
      let chnames := filter (fun kv => name_in (snd kv) names) (enum_dict (map fd_name allfields)) in
      Ok (fst (set_fn (OStr (h_name h)) (new_pack (zip (zsort (dkeys chnames)) (map np_array (zipn rows)))
                        (map (fun kv => (fst kv, VStr (snd kv))) chnames))), f3)
  end.

Lemma sim_dbfpack fl h names : sim fl h (at_pos h) (dbfpack_io fl false names) (dbfpack_p h names).
Proof.
  unfold dbfpack_io, dbfpack_p. destruct names as [|nm names].
  - eapply sim_eq.
    + refine (sim_bind fl h _ _ _ (fun f =>
        do (nf, f1) <- read_header f;
        do (_, f2) <- (do x <- read_terminator f1; Ok (tt, x));
        do (rows, f3) <- run_rows (reader_loop (Z.to_nat (fst nf)) (flag_field :: snd nf) f2);
        Ok (map fd_name (snd nf), zipn rows, f3))
        (fun nc f => Ok (fst (set_fn (OStr (h_name h)) (new_pack (enum_dict (map np_array (snd nc)))
             (enum_dict (map VStr (fst nc))))), f)) _ _).
      * apply sim_context.
        refine (sim_bind fl h _ _ _ _ (fun nf f1 =>
          do (_, f2) <- (do x <- read_terminator f1; Ok (tt, x));
          do (rows, f3) <- run_rows (reader_loop (Z.to_nat (fst nf)) (flag_field :: snd nf) f2);
          Ok (map fd_name (snd nf), zipn rows, f3)) (sim_header fl h) _).
        intros [numrec fds].
        refine (sim_bind fl h _ _ _ _ (fun _ f2 =>
          do (rows, f3) <- run_rows (reader_loop (Z.to_nat numrec) (flag_field :: fds) f2);
          Ok (map fd_name fds, zipn rows, f3)) (sim_terminator fl h) _).
        intros _.
        exact (sim_bind fl h _ _ _ _ (fun rows f3 => Ok (map fd_name fds, zipn rows, f3))
          (sim_reader fl h _ _) (fun _ => sim_ret fl h _ _)).
      * intros [fn cols].
        apply (sim_look fl h (at_pos h) (fun hd => fst (set_fn (OStr (h_name hd))
          (new_pack (enum_dict (map np_array cols)) (enum_dict (map VStr fn)))))).
        intros w (_ & _ & En & _). rewrite En. reflexivity.
    + intros x. cbn beta. destruct (read_header (at_pos h x)) as [[[numrec fds] f1]|e]; [|reflexivity].
      cbn [bind fst snd]. destruct (read_terminator f1) as [f2|e]; [|reflexivity]. cbn [bind].
      destruct (run_rows (reader_loop (Z.to_nat numrec) (flag_field :: fds) f2)) as [[rows f3]|e]; reflexivity.
  - set (ns := nm :: names).
    eapply sim_eq.
    + refine (sim_bind fl h _ _ _ (fun f =>
        do (all, f1) <- read_header f;
        do (_, f2) <- Ok (tt, mkfile (h_text h) 0);
        do (nf, f3) <- read_header f2;
        do (_, f4) <- (do x <- read_terminator f3; Ok (tt, x));
        do (rows, f5) <- run_rows (records_loop (Z.to_nat (fst nf))
           (fi_seek (last (flag_info :: finfos ns flag_info (snd nf)) flag_info) +
            fd_size (fi_field (last (flag_info :: finfos ns flag_info (snd nf)) flag_info)))
           (filter fi_keep (flag_info :: finfos ns flag_info (snd nf))) (mkfile (h_text h) (f_pos f4)));
        Ok (map fd_name (snd all), zipn rows, f5))
        (fun nc f => Ok (fst (set_fn (OStr (h_name h)) (new_pack 
              (zip (zsort (dkeys (filter (fun kv => name_in (snd kv) ns) (enum_dict (fst nc))))) (map np_array (snd nc)))
                        (map (fun kv => (fst kv, VStr (snd kv))) (filter (fun kv => name_in (snd kv) ns) (enum_dict (fst nc)))))), f)) _ _).
      * apply sim_context.
        refine (sim_bind fl h _ _ _ _ (fun all f1 =>
        do (_, f2) <- Ok (tt, mkfile (h_text h) 0);
        do (nf, f3) <- read_header f2;
        do (_, f4) <- (do x <- read_terminator f3; Ok (tt, x));
        do (rows, f5) <- run_rows (records_loop (Z.to_nat (fst nf))
           (fi_seek (last (flag_info :: finfos ns flag_info (snd nf)) flag_info) +
            fd_size (fi_field (last (flag_info :: finfos ns flag_info (snd nf)) flag_info)))
           (filter fi_keep (flag_info :: finfos ns flag_info (snd nf))) (mkfile (h_text h) (f_pos f4)));
        Ok (map fd_name (snd all), zipn rows, f5)) (sim_header fl h) _).
        intros [numall fall].
        refine (sim_bind fl h _ _ _ _ (fun _ f2 =>
        do (nf, f3) <- read_header f2;
        do (_, f4) <- (do x <- read_terminator f3; Ok (tt, x));
        do (rows, f5) <- run_rows (records_loop (Z.to_nat (fst nf))
           (fi_seek (last (flag_info :: finfos ns flag_info (snd nf)) flag_info) +
            fd_size (fi_field (last (flag_info :: finfos ns flag_info (snd nf)) flag_info)))
           (filter fi_keep (flag_info :: finfos ns flag_info (snd nf))) (mkfile (h_text h) (f_pos f4)));
        Ok (map fd_name fall, zipn rows, f5)) (sim_seek_at fl h 0) _).
        intros _.
        refine (sim_bind fl h _ _ _ _ (fun nf f3 =>
        do (_, f4) <- (do x <- read_terminator f3; Ok (tt, x));
        do (rows, f5) <- run_rows (records_loop (Z.to_nat (fst nf))
           (fi_seek (last (flag_info :: finfos ns flag_info (snd nf)) flag_info) +
            fd_size (fi_field (last (flag_info :: finfos ns flag_info (snd nf)) flag_info)))
           (filter fi_keep (flag_info :: finfos ns flag_info (snd nf))) (mkfile (h_text h) (f_pos f4)));
        Ok (map fd_name fall, zipn rows, f5)) (sim_header fl h) _).
        intros [numrec fds].
        refine (sim_bind fl h _ _ _ _ (fun _ f4 =>
        do (rows, f5) <- run_rows (records_loop (Z.to_nat numrec)
           (fi_seek (last (flag_info :: finfos ns flag_info fds) flag_info) +
            fd_size (fi_field (last (flag_info :: finfos ns flag_info fds) flag_info)))
           (filter fi_keep (flag_info :: finfos ns flag_info fds)) (mkfile (h_text h) (f_pos f4)));
        Ok (map fd_name fall, zipn rows, f5)) (sim_terminator fl h) _).
        intros _.
        exact (sim_bind fl h _ _ _ _ (fun rows f5 => Ok (map fd_name fall, zipn rows, f5))
          (sim_records fl h _ _ _) (fun _ => sim_ret fl h _ _)).
      * intros [fn cols].
        apply (sim_look fl h (at_pos h) (fun hd => fst (set_fn (OStr (h_name hd))
          (new_pack (zip (zsort (dkeys (filter (fun kv => name_in (snd kv) ns) (enum_dict fn)))) (map np_array cols))
                    (map (fun kv => (fst kv, VStr (snd kv))) (filter (fun kv => name_in (snd kv) ns) (enum_dict fn))))))).
        intros w (_ & _ & En & _). rewrite En. reflexivity.
    + intros x. cbn beta. destruct (read_header (at_pos h x)) as [[[numall fall] f1]|e]; [|reflexivity].
      cbn [bind fst snd]. destruct (read_header (mkfile (h_text h) 0)) as [[[numrec fds] f3]|e]; [|reflexivity].
      cbn [bind fst snd]. destruct (read_terminator f3) as [f4|e]; [|reflexivity]. cbn [bind].
      fold ns. destruct (run_rows (records_loop _ _ _ _)) as [[rows f5]|e]; reflexivity.
Qed.

Lemma read_header_bytes f n fds f' : read_header f = Ok (n, fds, f') -> f_bytes f' = f_bytes f.
Proof.
  assert (K : forall n f fds f', read_fields n f = Ok (fds, f') -> f_bytes f' = f_bytes f).
  { clear. induction n as [|n IH]; intros f fds f' R; cbn in R; [inversion R; reflexivity|].
    destruct (unpack_field _); [|discriminate R]. cbn [bind] in R.
    destruct (read_fields n _) as [[fds1 f1]|] eqn:R1; [|discriminate R]. cbn in R.
    inversion R; subst. apply IH in R1. exact R1. }
  unfold read_header, fread. cbn zeta. intros R.
  destruct (unpack_header _) as [[nr lh]|]; [|discriminate R]. cbn [bind] in R.
  destruct (read_fields (num_fields lh) _) as [[fds1 f1]|] eqn:R1; [|discriminate R].
  cbn [bind] in R. inversion R; subst. apply K in R1. exact R1.
Qed.

Lemma dbfpack_p_dbfpack h names x : exists f,
  dbfpack_p h names (at_pos h x) =
  do p <- dbfpack (mkfile (h_text h) x) names (h_name h); Ok (p, f p).
Proof.
  unfold dbfpack_p, dbfpack. destruct names as [|nm names].
  - unfold dbfreader, columns_of, at_pos.
    destruct (read_header (mkfile (h_text h) x)) as [[[numrec fds] f1]|e]; [|exists (fun _ => mkfile [] 0); reflexivity].
    cbn [bind]. destruct (read_terminator f1) as [f2|e]; [|exists (fun _ => mkfile [] 0); reflexivity].
    cbn [bind]. destruct (reader_loop (Z.to_nat numrec) (flag_field :: fds) f2) as [rows [f3|e]];
      [exists (fun _ => f3) | exists (fun _ => mkfile [] 0)]; reflexivity.
  - set (ns := nm :: names). unfold at_pos.
    destruct (read_header (mkfile (h_text h) x)) as [[[numall fall] f0]|e]; [|exists (fun _ => mkfile [] 0); reflexivity].
    cbn [bind]. unfold dbfrecords, columns_of, fseek. cbn [f_bytes].
    destruct (read_header (mkfile (h_text h) 0)) as [[[numrec fds] f1]|e] eqn:Eh; [|exists (fun _ => mkfile [] 0); reflexivity].
    cbn [bind]. apply read_header_bytes in Eh. cbn in Eh.
    destruct (read_terminator f1) as [f2|e] eqn:Et; [|exists (fun _ => mkfile [] 0); reflexivity].
    cbn [bind].
    assert (E2 : mkfile (h_text h) (f_pos f2) = f2).
    { unfold read_terminator, fread in Et. cbn zeta in Et.
      destruct (str_eqb _ _) in Et; [|discriminate Et].
      inversion Et; subst f2. cbn. congruence. }
    rewrite E2.
    destruct (records_loop (Z.to_nat numrec) _ _ f2) as [rows [f3|e]];
      [exists (fun _ => f3) | exists (fun _ => mkfile [] 0)]; reflexivity.
Qed.

(** ** Closing *)

Lemma context_close {A} fl (body : bool -> io A) w :
  with_context fl true body w =
  let '(w', r) := with_context fl false body w in
  (match snd (peek fl w) with Ok _ => close w' | Err _ => w' end, r).
Proof.
  unfold with_context, andthen. destruct (peek fl w) as [w1 [b|e]]; cbn; [|reflexivity].
  destruct (body b w1); reflexivity.
Qed.

(** What comes out when [r] is what the content of the file calls for. *)
Definition told {A} (fl : faults) (w : world) (r spec : res A) : Prop :=
  (exists k e, w_ops w = S k /\ fl k = Some e /\ (forall j, j < k -> fl j = None) /\ r = Err e) \/
  ((forall j, j < w_ops w -> fl j = None) /\ r = spec).

Lemma sim_run {T A} fl h (abs : nat -> T) (m : io A) p g spec :
  sim fl h abs m p -> h_open h = true ->
  p (abs (h_pos h)) = (do x <- spec; Ok (x, g x)) ->
  exists w r, m (mkworld h 0) = (w, r) /\ like h w /\ told fl w r spec /\
    (forall x, r = Ok x -> spec = Ok x /\ abs (h_pos (w_file w)) = g x).
Proof.
  intros S O E. destruct (m (mkworld h 0)) as [w r] eqn:R. exists w, r. split; [reflexivity|].
  assert (L : like h (mkworld h 0)) by (unfold like; cbn; auto).
  destruct (S _ _ _ L R) as (L' & O' & D). cbn [w_file w_ops] in *.
  split; [exact L'|]. rewrite E in D.
  destruct D as [(k & e & K1 & K2 & K3 & K4 & ->) | [Q V]].
  - split; [|intros x X; discriminate X].
    left. exists k, e. split; [exact K1 | split; [exact K3 | split; [|reflexivity]]].
    intros j J. apply K4. lia.
  - destruct spec as [x|e]; cbn in V.
    + destruct V as [-> V]. split.
      * right. split; [intros j J; apply Q; lia | reflexivity].
      * intros y Y. inversion Y; subst y. split; [reflexivity | exact V].
    + subst r. split; [|intros x X; discriminate X].
      right. split; [intros j J; apply Q; lia | reflexivity].
Qed.

Lemma peek_three fl h : h_open h = true ->
  snd (peek fl (mkworld h 0)) =
  match fl 0, fl 1, fl 2 with
  | None, None, None => Ok (h_bytes h)
  | Some e, _, _ => Err e
  | None, Some e, _ => Err e
  | None, None, Some e => Err e
  end.
Proof.
  intros O. unfold peek, andthen, tell, read, seek, call. cbn [w_ops w_file].
  destruct (fl 0); [reflexivity|]. rewrite O. cbn. destruct (fl 1); [reflexivity|].
  rewrite O. cbn. destruct (fl 2); [reflexivity|]. rewrite O. reflexivity.
Qed.

Lemma textpack_close fl a w :
  textpack_io fl true a w =
  let '(w', r) := textpack_io fl false a w in
  (match snd (peek fl w) with Ok _ => close w' | Err _ => w' end, r).
Proof.
  unfold textpack_io.
  destruct (match t_names a with
            | [] => if t_hasnames a then (cols_seq (t_usecols a), true, (t_skiprows a - 1)%Z)
                    else (cols_seq (t_usecols a), false, t_skiprows a)
            | _ :: _ => (Some (zsort (dkeys (t_names a))), false, t_skiprows a)
            end) as [[u hn] sk].
  unfold andthen at 1 3. rewrite context_close.
  destruct (with_context fl false _ w) as [w1 [[d n]|e]]; [|reflexivity].
  destruct (snd (peek fl w)); reflexivity.
Qed.

Lemma lazy_close fl word preferred n k w :
  lazy_io fl word preferred true n k w =
  let '(w', r) := lazy_io fl word preferred false n k w in
  (match snd (peek fl w) with Ok _ => close w' | Err _ => w' end, r).
Proof. unfold lazy_io. apply context_close. Qed.

Lemma bind_close {A B} fl (body : bool -> io A) (g : A -> str -> B) w :
  andthen (with_context fl true body) (fun a w => (w, Ok (g a (h_name (w_file w))))) w =
  let '(w', r) := andthen (with_context fl false body) (fun a w => (w, Ok (g a (h_name (w_file w))))) w in
  (match snd (peek fl w) with Ok _ => close w' | Err _ => w' end, r).
Proof.
  unfold andthen at 1 2. rewrite context_close.
  destruct (with_context fl false body w) as [w1 [a|e]]; [|reflexivity].
  destruct (snd (peek fl w)); reflexivity.
Qed.

Lemma andthen_ext {A B} (m : io A) (f g : A -> io B) w :
  (forall a w, f a w = g a w) -> andthen m f w = andthen m g w.
Proof. intros E. unfold andthen. destruct (m w) as [w1 [a|e]]; [apply E | reflexivity]. Qed.

Lemma dbfpack_close fl names w :
  dbfpack_io fl true names w =
  let '(w', r) := dbfpack_io fl false names w in
  (match snd (peek fl w) with Ok _ => close w' | Err _ => w' end, r).
Proof.
  unfold dbfpack_io. destruct names as [|nm names].
  - set (g := fun (ac : list str * list (list val)) nm => fst (set_fn (OStr nm)
              (new_pack (enum_dict (map np_array (snd ac))) (enum_dict (map VStr (fst ac)))))).
    rewrite (andthen_ext _ _ (fun a w => (w, Ok (g a (h_name (w_file w)))))) by (intros [c d] w0; reflexivity).
    rewrite bind_close.
    rewrite <- (andthen_ext _ (fun a => let '(fieldnames, columns) := a in
      fun w => (w, Ok (fst (set_fn (OStr (h_name (w_file w)))
                 (new_pack (enum_dict (map np_array columns)) (enum_dict (map VStr fieldnames)))))))
       (fun a w => (w, Ok (g a (h_name (w_file w)))))) by (intros [c d] w0; reflexivity).
    reflexivity.
  - set (ns := nm :: names).
    set (g := fun (ac : list str * list (list val)) nm =>
        let chnames := filter (fun kv => name_in (snd kv) ns) (enum_dict (fst ac)) in
        fst (set_fn (OStr nm)
              (new_pack (zip (zsort (dkeys chnames)) (map np_array (snd ac)))
                        (map (fun kv => (fst kv, VStr (snd kv))) chnames)))).
    rewrite (andthen_ext _ _ (fun a w => (w, Ok (g a (h_name (w_file w)))))) by (intros [c d] w0; reflexivity).
    rewrite bind_close.
    rewrite <- (andthen_ext _ (fun a => let '(allnames, columns) := a in
      fun w =>
        let chnames := filter (fun kv => name_in (snd kv) ns) (enum_dict allnames) in
        (w, Ok (fst (set_fn (OStr (h_name (w_file w)))
              (new_pack (zip (zsort (dkeys chnames)) (map np_array columns))
                        (map (fun kv => (fst kv, VStr (snd kv))) chnames))))))
       (fun a w => (w, Ok (g a (h_name (w_file w)))))) by (intros [c d] w0; reflexivity).
    reflexivity.
Qed.
