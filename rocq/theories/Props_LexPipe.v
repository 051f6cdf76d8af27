(** C34: the lexer goroutine. *)
From Verif Require Import Base Utf8 Utf8Proofs Lexer LexSpec LexerProofs LexPipe.

(** ** The lexer makes progress *)

Lemma next_while_rest p rs : forall cu ps ln cl, length (rest (next_while p rs cu ps ln cl)) <= length rs.
Proof.
  induction rs as [|r rs IH]; intros; cbn [next_while]; [cbn; lia|]. destruct (p r); [|cbn [rest length]; lia].
  specialize (IH (r :: cu) (S ps) (if cl <? 1 then S ln else ln) (S cl)). cbn [length]. lia.
Qed.

Lemma nextWhile_rest p l : length (rest (nextWhile p l)) <= length (rest l).
Proof. apply next_while_rest. Qed.

Lemma emit_rest t l : rest (snd (emit t l)) = rest l.
Proof. reflexivity. Qed.

Lemma next_rest_le l : length (rest (next l)) <= length (rest l).
Proof. unfold next. destruct (rest l) eqn:E; cbn; rewrite ?E; cbn; lia. Qed.

Lemma consumes l t l' : lexToken l = Some (t, l') -> length (rest l') < length (rest l).
Proof.
  unfold lexToken. destruct (isEmpty (peek l)) eqn:E; [discriminate|].
  assert (N : length (rest (next l)) < length (rest l)).
  { unfold peek in E. unfold next. destruct (rest l); [discriminate E|cbn; lia]. }
  pose proof (nextWhile_rest isSpace (next l)) as W1. pose proof (nextWhile_rest (fun c => negb (isWordBreak c)) (next l)) as W2.
  pose proof (next_rest_le (next l)) as N2.
  destruct (isSpace (peek l)); [intros [= _ <-]; cbn [rest]; lia|].
  destruct (peek l =? 10)%N; [intros [= _ <-]; cbn [rest]; lia|].
  destruct (peek l =? 61)%N; [destruct (peek (next l) =? 62)%N; intros [= _ <-]; cbn [rest]; lia|].
  destruct (punct (peek l)); [intros [= _ <-]; cbn [rest]; lia|].
  destruct (isWord (peek l)); intros [= _ <-]; cbn [rest]; lia.
Qed.

Lemma lexRun_fuel n : forall l f g, length (rest l) <= n -> length (rest l) <= f -> length (rest l) <= g -> lexRun f l = lexRun g l.
Proof.
  induction n as [|n IH]; intros l f g Hn Hf Hg.
  - assert (lexToken l = None) as E by (destruct (lexToken l) as [[t l']|] eqn:E; [apply consumes in E; lia|reflexivity]).
    destruct f, g; cbn [lexRun]; rewrite ?E; reflexivity.
  - destruct (lexToken l) as [[t l']|] eqn:E.
    + pose proof (consumes _ _ _ E) as C. destruct f as [|f]; [lia|]. destruct g as [|g]; [lia|]. cbn [lexRun]. rewrite E. f_equal. apply IH; lia.
    + destruct f, g; cbn [lexRun]; rewrite ?E; reflexivity.
Qed.

(** ** The invariant *)

(** the tokens still to be sent *)
Definition future (p : producer) : list token :=
  match p with
  | PRun l => lexRun (length (rest l)) l
  | PSend t l => t :: lexRun (length (rest l)) l
  | PSendEOF t => [t]
  | _ => []
  end.

Definition held (c : consumer) : list token :=
  match c with CWait k => k | CHas k t => k ++ [t] | CDone k => k end.

Definition PInv (src : string) (w : pipe) : Prop :=
  (pp_closed w = true <-> pp_prod w = PDone) /\
  match pp_cons w with
  | CWait k => k ++ future (pp_prod w) = lexAll src /\ future (pp_prod w) <> []
  | CHas k t => k ++ t :: future (pp_prod w) = lexAll src
  | CDone k => exists e, ty e = TEOF /\ k ++ e :: future (pp_prod w) = lexAll src
  end.

Lemma lexRun_ne n l : lexRun n l <> [].
Proof. destruct n; cbn; [discriminate|]. destruct (lexToken l) as [[t l']|]; discriminate. Qed.

Lemma eof_last src k e q : lexAll src = k ++ e :: q -> ty e = TEOF -> q = [].
Proof.
  intros E T. destruct (lexAll_eof src) as (body & eof & L & _ & _ & _ & F). rewrite L in E.
  destruct q as [|x q] using rev_ind; [reflexivity|]. exfalso.
  rewrite app_comm_cons, app_assoc in E. apply app_inj_tail in E. destruct E as [-> _].
  apply Forall_app in F. destruct F as [_ F]. inversion F as [|y ys [NE _] _]; subst. contradiction.
Qed.

Lemma inv_pstart src : PInv src (pstart src).
Proof. split; [split; discriminate|]. cbn. split; [reflexivity|apply lexRun_ne]. Qed.

Lemma inv_pstep src a b : PInv src a -> pstep a b -> PInv src b.
Proof.
  intros [C I] S. destruct S as [l t l' c b E|l c b E|p p' t kept E|c b|p kept t b NE|p kept t b E|p kept]; cbn [pp_prod pp_cons pp_closed] in *.
  - assert (EQ : future (PSend t l') = future (PRun l)).
    { cbn. pose proof (consumes _ _ _ E) as K. destruct (length (rest l)) as [|n] eqn:L; [lia|]. cbn [lexRun]. rewrite E. f_equal.
      apply (lexRun_fuel n); lia. }
    split; [cbn; split; [intros X; apply C in X; discriminate X|discriminate]|]. cbn [pp_prod pp_cons]. rewrite EQ. exact I.
  - assert (EQ : future (PSendEOF (fst (emit TEOF l))) = future (PRun l)).
    { cbn [future]. destruct (length (rest l)); cbn [lexRun]; rewrite ?E; reflexivity. }
    split; [cbn; split; [intros X; apply C in X; discriminate X|discriminate]|]. cbn [pp_prod pp_cons]. rewrite EQ. exact I.
  - destruct I as [I _]. unfold PInv. cbn [pp_prod pp_cons pp_closed]. destruct p; try discriminate E; injection E as <- <-; cbn [future] in *.
    + split; [split; discriminate|]. exact I.
    + split; [split; discriminate|]. exact I.
  - unfold PInv. cbn [pp_prod pp_cons pp_closed future] in *. split; [tauto|]. exact I.
  - unfold PInv. cbn [pp_prod pp_cons pp_closed] in *. split; [exact C|]. split; [rewrite <- app_assoc; exact I|].
    intros Z. rewrite Z in I. destruct (lexAll_eof src) as (body & eof & L & T & _). rewrite L in I.
    apply app_inj_tail in I. destruct I as [_ ->]. contradiction.
  - unfold PInv. cbn [pp_prod pp_cons pp_closed] in *. split; [exact C|]. exists t. auto.
  - exfalso. destruct C as [C _]. specialize (C eq_refl). subst p. destruct I as [_ I]. apply I. reflexivity.
Qed.

Lemma inv_psteps src w : psteps (pstart src) w -> PInv src w.
Proof.
  intros H. remember (pstart src) as s eqn:E. induction H as [w|a b c H IH S]; subst; [apply inv_pstart|eapply inv_pstep; eauto].
Qed.

(** ** Theorems *)

(** In every reachable state the consumer has a beginning of the token sequence of the document. *)
Theorem C34_every_schedule_gives_a_beginning : forall src w,
  psteps (pstart src) w -> exists later, lexAll src = held (pp_cons w) ++ later.
Proof.
  intros src w H. destruct (inv_psteps src w H) as [_ I]. destruct (pp_cons w) as [k|k t|k]; cbn [held].
  - destruct I as [I _]. eauto.
  - exists (future (pp_prod w)). rewrite <- app_assoc. auto.
  - destruct I as (e & _ & I). eauto.
Qed.
Print Assumptions C34_every_schedule_gives_a_beginning.

(** When the loop is over it has the tokens of the document, all but the EOF token that ends it, whatever the schedule. *)
Theorem C34_every_schedule_gives_the_tokens : forall src w kept,
  psteps (pstart src) w -> pp_cons w = CDone kept ->
  exists eof, lexAll src = kept ++ [eof] /\ ty eof = TEOF.
Proof.
  intros src w kept H E. destruct (inv_psteps src w H) as [_ I]. rewrite E in I. destruct I as (e & T & I).
  rewrite (eof_last src kept e _ (eq_sym I) T) in I. eauto.
Qed.
Print Assumptions C34_every_schedule_gives_the_tokens.

Theorem C34_the_result_does_not_depend_on_the_schedule : forall src w w' kept kept',
  psteps (pstart src) w -> psteps (pstart src) w' -> pp_cons w = CDone kept -> pp_cons w' = CDone kept' -> kept = kept'.
Proof.
  intros src w w' k k' H H' E E'. destruct (C34_every_schedule_gives_the_tokens src w k H E) as (e & L & _).
  destruct (C34_every_schedule_gives_the_tokens src w' k' H' E') as (e' & L' & _). rewrite L in L'. apply app_inj_tail in L'. tauto.
Qed.
Print Assumptions C34_the_result_does_not_depend_on_the_schedule.

(** No state is stuck before both are done: no deadlock, no send on a closed channel, no goroutine left behind. *)
Theorem C34_no_deadlock_no_leak : forall src w,
  psteps (pstart src) w -> (forall w', ~ pstep w w') -> pp_prod w = PDone /\ exists kept, pp_cons w = CDone kept.
Proof.
  intros src w H S. destruct (inv_psteps src w H) as [C I]. destruct w as [p c b]. cbn [pp_prod pp_cons pp_closed] in *.
  assert (exists kept, c = CDone kept) as [kept ->].
  { destruct c as [k|k t|k]; [| |eauto].
    - exfalso. destruct I as [_ I]. destruct p as [l|t l|t| |].
      + destruct (lexToken l) as [[t l']|] eqn:E; eapply S; [eapply PLex, E|eapply PEnd, E].
      + assert (b = false) as -> by (destruct b; [assert (X : PSend t l = PDone) by (apply C; reflexivity); discriminate X|reflexivity]).
        eapply S, PComm. reflexivity.
      + assert (b = false) as -> by (destruct b; [assert (X : PSendEOF t = PDone) by (apply C; reflexivity); discriminate X|reflexivity]).
        eapply S, PComm. reflexivity.
      + eapply S, PShut.
      + apply I. reflexivity.
    - exfalso. destruct (ttype_eq_dec (ty t) TEOF) as [E|E]; eapply S; [apply PBreak, E|apply PKeep, E]. }
  split; [|eauto]. destruct I as (e & T & I). pose proof (eof_last src kept e _ (eq_sym I) T) as F.
  destruct p as [l|t l|t| |]; cbn [future] in F; try discriminate F; [exfalso; eapply lexRun_ne, F| |reflexivity].
  exfalso. eapply S, PShut.
Qed.
Print Assumptions C34_no_deadlock_no_leak.

(** Every schedule is finite. *)
Definition prodWork (p : producer) : nat :=
  match p with PRun l => 4 * length (rest l) + 6 | PSend t l => 4 * length (rest l) + 8 | PSendEOF _ => 4 | PClose => 1 | PDone => 0 end.
Definition consWork (c : consumer) : nat := match c with CWait _ => 1 | CHas _ _ => 2 | CDone _ => 0 end.

Theorem C34_every_schedule_ends : well_founded (fun w' w => pstep w w').
Proof.
  apply well_founded_lt_compat with (f := fun w => prodWork (pp_prod w) + consWork (pp_cons w)).
  intros w' w S. destruct S as [l t l' c b E|l c b E|p p' t kept E|c b|p kept t b NE|p kept t b E|p kept]; cbn [pp_prod pp_cons prodWork consWork].
  - apply consumes in E. lia.
  - lia.
  - destruct p; try discriminate E; injection E as <- <-; cbn; lia.
  - lia.
  - lia.
  - lia.
  - lia.
Qed.
Print Assumptions C34_every_schedule_ends.

(** so a run to the end exists for every document *)
Theorem C34_runs_exist : forall src, exists w kept, psteps (pstart src) w /\ pp_prod w = PDone /\ pp_cons w = CDone kept.
Proof.
  intros src.
  assert (K : forall w, psteps (pstart src) w -> exists w', psteps (pstart src) w' /\ forall w'', ~ pstep w' w'').
  { intros w. induction w as [w IH] using (well_founded_ind C34_every_schedule_ends). intros H.
    assert (D : (exists w', pstep w w') \/ forall w', ~ pstep w w').
    { destruct w as [p c b]. destruct p as [l|t l|t| |].
      - destruct (lexToken l) as [[t l']|] eqn:E; left; eexists; [eapply PLex, E|eapply PEnd, E].
      - destruct c as [k|k u|k].
        + destruct b; [left; eexists; apply PClosed|left; eexists; eapply PComm; reflexivity].
        + left. destruct (ttype_eq_dec (ty u) TEOF); eexists; [apply PBreak; assumption|apply PKeep; assumption].
        + right. intros w' S. inversion S.
      - destruct c as [k|k u|k].
        + destruct b; [left; eexists; apply PClosed|left; eexists; eapply PComm; reflexivity].
        + left. destruct (ttype_eq_dec (ty u) TEOF); eexists; [apply PBreak; assumption|apply PKeep; assumption].
        + right. intros w' S. inversion S.
      - left. eexists. apply PShut.
      - destruct c as [k|k u|k].
        + destruct b; [left; eexists; apply PClosed|right; intros w' S; inversion S; discriminate].
        + left. destruct (ttype_eq_dec (ty u) TEOF); eexists; [apply PBreak; assumption|apply PKeep; assumption].
        + right. intros w' S. inversion S. }
    destruct D as [[w' S]|D]; [|eauto]. apply (IH w' S). eapply PTrans; eauto. }
  destruct (K _ (PRefl _)) as (w & H & S). destruct (C34_no_deadlock_no_leak src w H S) as (P & kept & C). eauto.
Qed.
Print Assumptions C34_runs_exist.
