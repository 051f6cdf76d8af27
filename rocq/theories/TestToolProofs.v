(** Proofs for C63 (TestTool.v). *)
From Verif Require Import Base Cli TestTool.
Local Open Scope N_scope.

(** ** client.Wait *)

Lemma call_time T srv t ok e : Call T srv t ok e -> t <= e /\ (t <= T -> e <= T).
Proof. destruct 1; lia. Qed.

Lemma wait_progress T srv w : (forall ok t, w <> Returned ok t) -> exists w', WaitStep T srv w w'.
Proof.
  intros NR. destruct w as [t|e|ok e]; [| |exfalso; eapply NR; reflexivity].
  - destruct (N.le_gt_cases T t) as [H|H]; [exists (Selecting t); apply StepNotReady, CallDone, H|].
    destruct (N.le_gt_cases (t + at_takes (srv t)) T) as [K|K].
    + pose proof (CallAnswered T srv t H K) as C. destruct (at_ok (srv t)).
      * exists (Returned true (t + at_takes (srv t))). apply StepReady, C.
      * exists (Selecting (t + at_takes (srv t))). apply StepNotReady, C.
    + exists (Selecting T). apply StepNotReady, CallGivenUp; [exact H|lia].
  - destruct (N.le_gt_cases T (e + retryDelay)) as [H|H].
    + eexists. apply StepTimedOut, H.
    + eexists. apply StepRetry. lia.
Qed.

Definition left_over (T : N) (w : waiting) : nat :=
  match w with
  | Calling t => N.to_nat (2 * (T - t) + 2)
  | Selecting e => N.to_nat (2 * (T - e) + 1)
  | Returned _ _ => 0
  end.

Lemma wait_decreases T srv w w' : WaitStep T srv w w' -> (left_over T w' < left_over T w)%nat.
Proof.
  destruct 1 as [t e C|t e C|e H|e H]; cbn [left_over]; try apply call_time in C as [C _]; try lia.
  assert (1 <= retryDelay) by (unfold retryDelay, ms; lia). lia.
Qed.

Lemma wait_no_infinite T srv (f : nat -> waiting) : ~ forall i, WaitStep T srv (f i) (f (S i)).
Proof.
  intros H. assert (B : forall i, (left_over T (f i) + i <= left_over T (f O))%nat).
  { induction i as [|i IH]; [lia|]. pose proof (wait_decreases _ _ _ _ (H i)). lia. }
  specialize (B (S (left_over T (f O)))). lia.
Qed.

Definition in_time (T : N) (w : waiting) : Prop :=
  match w with Calling t | Selecting t => t <= T | Returned _ _ => True end.

Lemma in_time_step T srv w w' : WaitStep T srv w w' -> in_time T w -> in_time T w'.
Proof.
  destruct 1 as [t e C|t e C|e H|e H]; cbn [in_time]; intros I; trivial. apply call_time in C. lia.
Qed.

Lemma wait_returns T srv w ok e : WaitRun T srv w (Returned ok e) -> in_time T w -> (forall r t, w <> Returned r t) ->
  if ok then exists t, t < T /\ at_ok (srv t) = true /\ e = t + at_takes (srv t) /\ e <= T else e = T.
Proof.
  intros R. remember (Returned ok e) as last eqn:L. revert L. induction R as [w|w w1 w2 S1 R IH]; intros -> I NR.
  - exfalso. eapply NR. reflexivity.
  - destruct S1 as [t x C|t x C|x H|x H].
    + inversion R; subst; [|inversion H]. inversion C; subst. exists t. auto.
    + apply (IH eq_refl); [|discriminate]. apply (in_time_step T srv (Calling t)); [apply StepNotReady, C|exact I].
    + inversion R; subst; [|inversion H0]. cbn [in_time] in I. lia.
    + apply (IH eq_refl); [|discriminate]. cbn [in_time]. exact H.
Qed.

(** ready from [R] on for long enough, slow at most [D] before *)
Definition close_to (R D : N) (w : waiting) : Prop :=
  match w with
  | Calling t => t <= R + D + retryDelay
  | Selecting e => e <= R + D
  | Returned ok e => ok = true
  end.

Lemma ready_step T srv R D D' w w' :
  (forall t, t < R -> at_takes (srv t) <= D) ->
  (forall t, R <= t -> t <= R + D + retryDelay -> at_ok (srv t) = true /\ at_takes (srv t) <= D') ->
  R + D + retryDelay + D' < T ->
  WaitStep T srv w w' -> close_to R D w ->
  close_to R D w' /\ (forall ok e, w' = Returned ok e -> e <= N.max (R + D) (R + D + retryDelay + D')).
Proof.
  intros A B L S I. destruct S as [t e C|t e C|e H|e H]; cbn [close_to] in *.
  - split; [reflexivity|]. intros ok x [= <- <-]. inversion C; subst.
    destruct (N.lt_ge_cases t R) as [K|K]; [specialize (A t K); lia|]. destruct (B t K I). lia.
  - split; [|discriminate]. destruct (N.lt_ge_cases t R) as [K|K].
    + specialize (A t K). inversion C; subst; lia.
    + destruct (B t K I) as [O Q]. inversion C; subst; [lia|congruence|lia].
  - exfalso. lia.
  - split; [lia|discriminate].
Qed.

Lemma ready_run T srv R D D' w ok e :
  (forall t, t < R -> at_takes (srv t) <= D) ->
  (forall t, R <= t -> t <= R + D + retryDelay -> at_ok (srv t) = true /\ at_takes (srv t) <= D') ->
  R + D + retryDelay + D' < T ->
  WaitRun T srv w (Returned ok e) -> close_to R D w -> (forall r t, w <> Returned r t) ->
  ok = true /\ e <= R + D + retryDelay + D'.
Proof.
  intros A B L Run. remember (Returned ok e) as last eqn:E. revert E.
  induction Run as [w|w w1 w2 S1 Run IH]; intros -> I NR; [exfalso; eapply NR; reflexivity|].
  destruct (ready_step T srv R D D' _ _ A B L S1 I) as [I1 Q].
  destruct w1 as [t|t|ok1 e1].
  - apply (IH eq_refl I1). discriminate.
  - apply (IH eq_refl I1). discriminate.
  - inversion Run; subst; [|inversion H]. cbn [close_to] in I1. specialize (Q _ _ eq_refl). split; [exact I1|lia].
Qed.

(** ** Shutdown *)

Lemma shuts_time busy dl now base ok e : Shuts busy dl now base ok e -> now <= dl ->
  now <= e <= dl /\ (ok = true -> busy e = false) /\ (ok = false -> e = dl).
Proof.
  induction 1 as [now base H|now base j H J L|now base j ok e H J L S IH]; intros I.
  - repeat split; try lia; congruence.
  - repeat split; try lia; congruence.
  - destruct (IH L) as (X & Y & Z). repeat split; try assumption; lia.
Qed.

Lemma shuts_exists busy dl : forall n now base, (N.to_nat (dl - now) < n)%nat -> 0 < base / 10 -> base <= pollMax -> exists ok e, Shuts busy dl now base ok e.
Proof.
  induction n as [|n IH]; intros now base L B M; [lia|].
  destruct (busy now) eqn:E; [|eexists; eexists; apply ShutIdle, E].
  destruct (N.le_gt_cases dl (now + base + 0)) as [H|H].
  - exists false. eexists. apply (ShutLate _ _ now base 0); assumption.
  - assert (1 <= base) by (destruct base; [cbn in B; lia|lia]).
    destruct (IH (now + base + 0) (N.min (2 * base) pollMax)) as (ok & e & S); [lia| |lia|].
    + apply N.div_str_pos. assert (10 <= base) by (apply N.div_str_pos_iff in B; lia). unfold pollMax, ms. lia.
    + exists ok, e. apply (ShutAgain _ _ now base 0 ok e E B); [lia|exact S].
Qed.

(** the moments (after the beginning) at which Shutdown looks, and the next interval *)
Definition polls : list (N * N * N) :=
  [ (0, 0, 1); (1, 1100, 2); (3, 3300, 4); (7, 7700, 8); (15, 16500, 16); (31, 34100, 32); (63, 69300, 64);
    (127, 139700, 128); (255, 280500, 256); (511, 562100, 500) ].

Definition Polled (t now base : N) : Prop :=
  exists lo hi b, In (lo, hi, b) polls /\ base = b * ms /\ t + lo * ms <= now <= t + hi * 1000.

Lemma polled_first t : Polled t t ms.
Proof. exists 0, 0, 1. split; [left; reflexivity|]. lia. Qed.

Lemma polled_next t now base j : Polled t now base -> j < base / 10 -> now + base + j <= t + second ->
  Polled t (now + base + j) (N.min (2 * base) pollMax).
Proof.
  intros (lo & hi & b & I & -> & L & H) J D. unfold pollMax, second, ms in *.
  assert (Q : forall x, x * 1000000 / 10 = x * 100000) by (intros x; replace (x * 1000000) with (x * 100000 * 10) by lia; apply N.div_mul; lia).
  rewrite Q in J. unfold polls in I. cbn [In] in I.
  repeat (destruct I as [[= <- <- <-]|I];
    [first [ exfalso; lia
           | eexists; eexists; eexists; split; [right; left; reflexivity|]; unfold ms; split; lia
           | eexists; eexists; eexists; split; [do 2 right; left; reflexivity|]; unfold ms; split; lia
           | eexists; eexists; eexists; split; [do 3 right; left; reflexivity|]; unfold ms; split; lia
           | eexists; eexists; eexists; split; [do 4 right; left; reflexivity|]; unfold ms; split; lia
           | eexists; eexists; eexists; split; [do 5 right; left; reflexivity|]; unfold ms; split; lia
           | eexists; eexists; eexists; split; [do 6 right; left; reflexivity|]; unfold ms; split; lia
           | eexists; eexists; eexists; split; [do 7 right; left; reflexivity|]; unfold ms; split; lia
           | eexists; eexists; eexists; split; [do 8 right; left; reflexivity|]; unfold ms; split; lia
           | eexists; eexists; eexists; split; [do 9 right; left; reflexivity|]; unfold ms; split; lia ]|]).
  destruct I.
Qed.

Lemma polled_before t now base : Polled t now base -> now <= t + 562100 * 1000.
Proof.
  intros (lo & hi & b & I & _ & _ & H). unfold polls in I. cbn [In] in I.
  repeat (destruct I as [[= <- <- <-]|I]; [lia|]). destruct I.
Qed.

Lemma polled_late t now base j : Polled t now base -> j < base / 10 -> t + second <= now + base + j -> t + 511 * ms <= now.
Proof.
  intros (lo & hi & b & I & -> & L & H) J D. unfold second, ms in *.
  assert (Q : forall x, x * 1000000 / 10 = x * 100000) by (intros x; replace (x * 1000000) with (x * 100000 * 10) by lia; apply N.div_mul; lia).
  rewrite Q in J. unfold polls in I. cbn [In] in I.
  repeat (destruct I as [[= <- <- <-]|I]; [lia|]). destruct I.
Qed.

Lemma shuts_early busy t now base ok e : (forall x, t + 511 * ms <= x -> busy x = false) ->
  Shuts busy (t + second) now base ok e -> Polled t now base -> ok = true /\ e <= t + 562100 * 1000.
Proof.
  intros B. induction 1 as [now base H|now base j H J L|now base j ok e H J L S IH]; intros P.
  - split; [reflexivity|]. eapply polled_before, P.
  - exfalso. pose proof (polled_late _ _ _ _ P J L) as Q. rewrite (B _ Q) in H. discriminate.
  - apply IH, polled_next; assumption.
Qed.

Lemma shuts_late busy t now base ok e : (forall x, t <= x -> x <= t + 562100 * 1000 -> busy x = true) ->
  Shuts busy (t + second) now base ok e -> t <= now -> Polled t now base -> ok = false /\ e = t + second.
Proof.
  intros B. induction 1 as [now base H|now base j H J L|now base j ok e H J L S IH]; intros G P.
  - rewrite (B now G (polled_before _ _ _ P)) in H. discriminate.
  - split; [reflexivity|]. pose proof (polled_before _ _ _ P). unfold second, ms. lia.
  - apply IH; [lia|]. apply polled_next; assumption.
Qed.

(** ** The server *)

Lemma min_le l T x : In x (T :: l) -> fold_right N.min T l <= x.
Proof. induction l as [|y l IH]; cbn; intros [->|H]; try (destruct H; fail); [lia|specialize (IH (or_introl eq_refl)); lia|].
  destruct H as [->|H]; [lia|]. specialize (IH (or_intror H)). lia. Qed.
Lemma min_in l T : In (fold_right N.min T l) (T :: l).
Proof. induction l as [|y l IH]; [left; reflexivity|]. cbn [fold_right].
  destruct (N.min_spec y (fold_right N.min T l)) as [[_ ->]|[_ ->]]; [right; left; reflexivity|].
  destruct IH as [H|H]; [left; exact H|right; right; exact H]. Qed.

Lemma stops_le T a : stops T a <= T.
Proof. apply min_le. left. reflexivity. Qed.

Lemma busy_iff T a t : busyAt T a t = true <->
  exists u, In u (tried a) /\ isAccepted T a u = true /\ u_from u <= t /\ t < u_until u.
Proof.
  unfold busyAt. rewrite existsb_exists. split.
  - intros (u & I & H). apply andb_true_iff in H as [H H3]. apply andb_true_iff in H as [H1 H2].
    apply N.leb_le in H2. apply N.ltb_lt in H3. exists u. auto.
  - intros (u & I & H1 & H2 & H3). exists u. split; [exact I|]. apply N.leb_le in H2. apply N.ltb_lt in H3. rewrite H1, H2, H3. reflexivity.
Qed.

Lemma accepted_iff T a u : isAccepted T a u = true <->
  exists b, bound a = Some b /\ b <= u_from u /\ u_from u < T /\ (forall c, In c (closes a) -> u_from u < c) /\
            (forall f, fails a = Some f -> u_from u < f).
Proof.
  unfold isAccepted, stops. destruct (bound a) as [b|]; [|split; [discriminate|intros (b & [=] & _)]].
  rewrite andb_true_iff, N.leb_le, N.ltb_lt. set (l := match fails a with Some f => [f] | None => [] end ++ closes a).
  split.
  - intros [H1 H2]. exists b. split; [reflexivity|]. split; [exact H1|].
    assert (M : forall x, In x (T :: l) -> u_from u < x) by (intros x I; apply min_le in I; lia).
    split; [apply M; left; reflexivity|]. split.
    + intros c I. apply M. right. apply in_or_app. right. exact I.
    + intros f F. apply M. right. apply in_or_app. left. rewrite F. left. reflexivity.
  - intros (b' & [= <-] & H1 & H2 & H3 & H4). split; [exact H1|].
    destruct (min_in l T) as [E|E]; [lia|]. apply in_app_or in E as [E|E]; [|apply H3, E].
    destruct (fails a) as [f|]; [|destruct E]. destruct E as [E|[]]. rewrite <- E. apply H4. reflexivity.
Qed.
