(** C67: a streaming call in time: silences, timeouts, and what remains after its end. *)
From Coq Require Import List ZArith Bool Lia.
From Verif Require Import StreamLife StreamLifeProofs.
Import ListNotations.
Local Open Scope Z_scope.

(** While the connection is up and the client reads, it is never without data for longer than the interval of the
    keep-alive and the delays: 13 of the server, one of the network. *)
Theorem C67_silences_are_short : forall d j e es w, 0 <= d -> 0 <= j -> 10000 + 13 * d + j <= 11000 ->
  run (Timely d j e) es w -> net w = Up -> c w = CReading -> now w <= last w + 10000 + 13 * d + j.
Proof.
  intros d j e es w D J B R UP CR. pose proof (inv_run _ _ _ _ _ D J B R UP) as [F|L].
  - destruct F as (_ & _ & F & _). congruence.
  - pose proof (silence _ _ _ _ D J (run_here _ _ _ R) L CR). unfold gap in *. lia.
Qed.
Print Assumptions C67_silences_are_short.

(** If they are at most a second together, the client does not give up a stream whose connection is up. *)
Theorem C67_live_streams_are_kept : forall d j e es w, 0 <= d -> 0 <= j -> 10000 + 13 * d + j <= 11000 ->
  run (Timely d j e) es w -> net w = Up -> c w <> CLost.
Proof.
  intros d j e es w D J B R UP CR. pose proof (inv_run _ _ _ _ _ D J B R UP) as [F|(seen & _ & _ & _ & C & _)].
  - destruct F as (_ & _ & F & _). congruence.
  - rewrite CR in C. exact C.
Qed.
Print Assumptions C67_live_streams_are_kept.

(** Such streams go on for as long as one likes, whatever the delays allowed. *)
Theorem C67_streams_go_on : forall d j e T, 0 <= d -> 0 <= j -> 0 <= e ->
  exists es w, run (Timely d j e) es w /\ T <= now w /\ Running w /\ net w = Up /\ c w = CReading.
Proof.
  intros d j e T D J E. destruct (parked_always (Z.to_nat T)) as (es & t & R & _).
  exists es, (parked (10000 * Z.of_nat (Z.to_nat T)) t). split; [eapply run_mono; [|exact R]; intros x; apply timely_any; assumption|].
  unfold parked. split; [cbn [now]; lia|]. repeat split.
Qed.
Print Assumptions C67_streams_go_on.

(** A stream that has become silent is noticed: while the client reads, the last data are at most two timeouts old.
    When it gives up, they are more than one timeout old. *)
Theorem C67_dead_streams_are_noticed : forall d j e es w, run (Timely d j e) es w -> c w = CReading ->
  now w <= last w + 2 * 11000 + e.
Proof.
  intros d j e es w R CR. pose proof (timer_run _ _ _ R) as [_ T]. pose proof (run_here _ _ _ R) as (_ & _ & _ & TT). unfold TimerTimely in TT.
  destruct (timer w); [lia|contradiction].
Qed.
Print Assumptions C67_dead_streams_are_noticed.

Theorem C67_timeouts_are_not_early : forall es w w', run anyState es w -> step w TimedOut w' -> now w > last w + 11000.
Proof. intros es w w' _ ST. inversion ST; subst. cbn. unfold clientTimeout in *. lia. Qed.
Print Assumptions C67_timeouts_are_not_early.

(** The interval of the client does not outlive the stream by more than two timeouts. *)
Theorem C67_the_interval_ends : forall d j e es w, run (Timely d j e) es w -> now w > last w + 2 * 11000 + e -> timer w = None.
Proof.
  intros d j e es w R L. pose proof (timer_run _ _ _ R) as [_ T]. pose proof (run_here _ _ _ R) as (_ & _ & _ & TT). unfold TimerTimely in TT.
  destruct (timer w); [lia|reflexivity].
Qed.
Print Assumptions C67_the_interval_ends.

(** After the handler has returned, keepAlive ends: at most seven delays later, and with at most one ping more. *)
Theorem C67_keep_alive_ends : forall d es w, 0 <= d < 10000 -> run (KeeperTimely d) es w -> h w = HDone -> now w > ht w + 7 * d ->
  k w = KEnd \/ k w = KNone.
Proof.
  intros d es w D R H L. destruct (keep_run _ _ _ _ D (fun _ x => x) R) as (_ & _ & _ & HD & C). specialize (HD H).
  pose proof (run_here _ _ _ R) as T. unfold KeeperTimely in T. destruct (doneAt w) as [x|]; [|contradiction].
  destruct (C _ eq_refl) as (y & Y1 & Y2 & Y3 & Y4). specialize (Y3 H). unfold Closing in Y4. destruct (k w); auto; lia.
Qed.
Print Assumptions C67_keep_alive_ends.

Theorem C67_one_late_ping : forall d es w before after, 0 <= d < 10000 -> run (KeeperTimely d) es w -> es = before ++ Return :: after ->
  (pings after <= 1)%nat.
Proof. intros d es w a b D R Q. destruct (pings_after_return _ _ _ _ D (fun _ x => x) R _ _ Q) as [_ B]. lia. Qed.
Print Assumptions C67_one_late_ping.

(** While the implementation runs on a connection that is not broken, its context is not done and keepAlive goes on.
    Delays do not matter. *)
Theorem C67_running_calls_are_kept_alive : forall P es w, run P es w -> Running w -> net w <> Broken ->
  doneAt w = None /\ k w <> KNone /\ k w <> KEnd.
Proof.
  intros P es w R H N. destruct (sane_run _ _ _ R) as [_ S]. unfold Running, Alive in *.
  destruct (h w) as [[]|[]|[] ?|[] ?| | | | |]; try contradiction; destruct (S N) as [S1 S2]; (split; [exact S1|]); destruct (k w); try contradiction; split; discriminate.
Qed.
Print Assumptions C67_running_calls_are_kept_alive.

(** The two goroutines are never both between Lock and Unlock. *)
Theorem C67_one_writer : forall P es w, run P es w -> ~ (Section_ Handler w /\ Section_ Keeper w).
Proof. intros P es w R [A B]. destruct (sane_run _ _ _ R) as [L _]. apply L in A. apply L in B. congruence. Qed.
Print Assumptions C67_one_writer.

(** False: a call whose connection fails ends.  keepAlive notices that its ping fails and returns, but does not
    cancel the context: if the server is not told otherwise that the client is gone (e.g. writes fail because of
    WriteTimeout), the implementation waits for ever. *)
Theorem C67_failed_pings_end_calls_refuted : forall T, exists es w,
  run (fun w => HandlerTimely 0 w /\ KeeperTimely 0 w) es w /\ T <= now w /\ Running w /\ net w = Broken /\ k w = KEnd /\ doneAt w = None.
Proof.
  intros T. eexists _, (World (10000 + (1 + Z.abs T)) None HImpl 0 KEnd 10000 None Broken [] CReading 0 (Some 11000)).
  split; [|split; [cbn [now]; lia|repeat split]].
  assert (OK : forall x, Timely 0 0 0 x -> HandlerTimely 0 x /\ KeeperTimely 0 x) by (intros x (A & B & _); auto).
  eapply RStep; [|eapply SPass; lia|repeat split].
  eapply RStep; [|eapply (KRelease 10000 (Some Keeper) HImpl 0 10000 None Broken [] CReading 0 (Some 11000) false)|repeat split].
  eapply RStep; [|eapply (KSend 10000 (Some Keeper) HImpl 0 10000 None Broken [] CReading 0 (Some 11000) false)|repeat split; cbn; lia].
  eapply RStep; [|eapply (KPut 10000 (Some Keeper) HImpl 0 10000 None Broken [] CReading 0 (Some 11000) false); split; [discriminate|intros Q; contradiction]|repeat split; cbn; lia].
  eapply RStep; [|eapply (KTake 10000 HImpl 0 10000 None Broken [] CReading 0 (Some 11000))|repeat split; cbn; lia].
  eapply RStep; [|eapply (KWake 10000 None HImpl 0 10000 0 None Broken [] CReading 0 (Some 11000)); lia|repeat split; cbn; lia].
  eapply RStep; [|eapply (SPass 10000 0 None HImpl 0 (KSelect 10000) 0 None Broken [] CReading 0 (Some 11000)); lia|repeat split; cbn; lia].
  eapply RStep; [|eapply (NBreak 0 None HImpl 0 (KSelect 10000) 0 None Up [] CReading 0 (Some 11000))|repeat split; cbn; lia].
  eapply run_mono; [exact OK|exact parked_start].
Qed.
Print Assumptions C67_failed_pings_end_calls_refuted.

(** False: a stream the client has given up ends at the server.  The client stops reading, but does not cancel the
    request: the connection stays up and the call goes on.  The delays here are 1.001 seconds on the way and 1
    millisecond of the interval: the second of C67_live_streams_are_kept is all there is. *)
Theorem C67_timeouts_end_calls_refuted : exists es w,
  run (Timely 0 1001 1) es w /\ c w = CLost /\ net w = Up /\ Running w /\ doneAt w = None /\ k w <> KEnd.
Proof.
  eexists _, (World 11001 None HImpl 0 (KSelect 20000) 10000 None Up [(10000, false)] CLost 0 None).
  split; [|cbn; repeat split; discriminate].
  assert (OK : forall x, Timely 0 0 0 x -> Timely 0 1001 1 x) by (intros x; apply timely_any; lia).
  eapply RStep; [|eapply (CLate 11001 None HImpl 0 (KSelect 20000) 10000 None Up [(10000, false)] CReading 0 11000); [lia|unfold clientTimeout; lia]|timely].
  eapply RStep; [|eapply (SPass 1001 10000 None HImpl 0 (KSelect 20000) 10000 None Up [(10000, false)] CReading 0 (Some 11000)); lia|timely].
  eapply RStep; [|eapply (KSleep 10000 None HImpl 0 10000 None Up [(10000, false)] CReading 0 (Some 11000))|timely].
  eapply RStep; [|eapply (KRelease 10000 (Some Keeper) HImpl 0 10000 None Up [(10000, false)] CReading 0 (Some 11000) true)|timely].
  eapply RStep; [|eapply (KSend 10000 (Some Keeper) HImpl 0 10000 None Up [] CReading 0 (Some 11000) true)|timely].
  eapply RStep; [|eapply (KPut 10000 (Some Keeper) HImpl 0 10000 None Up [] CReading 0 (Some 11000) true); split; [discriminate|reflexivity]|timely].
  eapply RStep; [|eapply (KTake 10000 HImpl 0 10000 None Up [] CReading 0 (Some 11000))|timely].
  eapply RStep; [|eapply (KWake 10000 None HImpl 0 10000 0 None Up [] CReading 0 (Some 11000)); lia|timely].
  eapply RStep; [|eapply (SPass 10000 0 None HImpl 0 (KSelect 10000) 0 None Up [] CReading 0 (Some 11000)); lia|timely].
  eapply run_mono; [exact OK|exact parked_start].
Qed.
Print Assumptions C67_timeouts_end_calls_refuted.
