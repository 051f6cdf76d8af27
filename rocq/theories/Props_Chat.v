(** C53: the chat server of the streaming example, under every interleaving of its callers. *)

From Coq Require Import List String Arith Bool Lia.
From Verif Require Import Chat ChatSpec ChatProofs ChatExec.
Import ListNotations.
Local Open Scope list_scope.

(** Message ids are 0, 1, 2, ... in the order in which the messages were written, however the senders
    interleave. *)
Theorem C53_messages_are_numbered : forall size tr s, run size tr s -> numbered (history s).
Proof. intros size tr s H. apply (inv_ids _ _ (inv_run _ _ _ H)). Qed.

(** The history is explained by the calls: nothing is invented, lost, duplicated or reordered against
    real time, and subscribers are announced. *)
Theorem C53_history_is_explained : forall size tr s, run size tr s ->
  exists author, explained tr (history s) author.
Proof. intros size tr s H. exists (authorOf s). eapply explained_run. exact H. Qed.

Lemma stream_cases : forall size tr s, run size tr s -> forall i,
  delivered i tr = [] \/
  exists tr1 u l tr2 s1 st, tr = tr1 ++ ECall i (SubscribeMessages u l) :: tr2 /\ run size tr1 s1 /\
    okStart size (List.length (written s1)) (SubscribeMessages u l) st (List.length (written s)) /\
    run_of (history s) st (delivered i tr) /\ st + List.length (delivered i tr) <= List.length (history s).
Proof.
  intros size tr s H i. assert (I := inv_run _ _ _ H).
  destruct (thread s i) as [p|] eqn:Hp.
  - destruct (inv_call _ _ I _ _ Hp) as [c [A _]]. apply in_split in A. destruct A as [tr1 [tr2 ->]].
    destruct (call_split _ _ _ _ _ _ H) as [s1 [R1 [Hn [I1 [_ R]]]]].
    destruct (inv_none _ _ I1 _ Hn) as [_ [D0 _]].
    assert (D : delivered i (tr1 ++ ECall i c :: tr2) = delivered i tr2).
    { rewrite delivered_app, D0. reflexivity. }
    rewrite D. destruct (rel_pc _ _ _ _ _ _ R) as [q [_ Q]].
    assert (G : delivered i tr2 = [] \/ exists st, okStart size (List.length (written s1)) c st (List.length (written s)) /\
                run_of (history s) st (delivered i tr2) /\ st + List.length (delivered i tr2) <= List.length (written s)).
    { destruct q; simpl in Q; try (destruct k); try (left; apply Q); try exact Q.
      destruct Q as [st [Q1 [Q2 [Q3 Q4]]]]. right. exists st. repeat split; auto. lia. }
    destruct G as [G|[st [G1 [G2 G3]]]]; [now left|right].
    assert (G1' := G1). destruct G1' as [u [l [_ [_ [-> _]]]]].
    exists tr1, u, l, tr2, s1, st. repeat split; auto. rewrite history_len. exact G3.
  - left. apply (inv_none _ _ I _ Hp).
Qed.

(** What a subscriber receives is a run of consecutive messages of the one history: in order, without
    gaps and without repetitions. *)
Theorem C53_streams_are_runs : forall size tr s, run size tr s -> forall i,
  exists start, run_of (history s) start (delivered i tr).
Proof.
  intros size tr s H i. destruct (stream_cases _ _ _ H i) as [->|[_ [_ [_ [_ [_ [st [_ [_ [_ [A _]]]]]]]]]]].
  - exists 0. apply run_of_nil.
  - exists st. exact A.
Qed.

Lemma run_of_nth : forall ms st part k m, run_of ms st part -> nth_error part k = Some m ->
  nth_error ms (st + k) = Some m.
Proof.
  intros ms st part k m [rest H] Hk.
  assert (Hs : forall (l : list message) n j, nth_error (skipn n l) j = nth_error l (n + j)).
  { induction l as [|x l IH]; intros [|n] j; simpl; auto. destruct j; reflexivity. }
  rewrite <- Hs, H, nth_error_app1; [exact Hk|]. apply nth_error_Some. congruence.
Qed.

Theorem C53_ids_are_consecutive : forall size tr s, run size tr s -> forall i, consecutive (delivered i tr).
Proof.
  intros size tr s H i k m m' Hk Hk'. destruct (C53_streams_are_runs _ _ _ H i) as [st R].
  assert (N := C53_messages_are_numbered _ _ _ H).
  rewrite (N _ _ (run_of_nth _ _ _ _ _ R Hk)), (N _ _ (run_of_nth _ _ _ _ _ R Hk')). lia.
Qed.

(** All subscribers see the same message under the same id. *)
Theorem C53_streams_agree : forall size tr s, run size tr s -> forall i j m m',
  In (EMsg i m) tr -> In (EMsg j m') tr -> msg_id m = msg_id m' -> m = m'.
Proof.
  intros size tr s H i j m m' Hm Hm' Hid. assert (I := inv_run _ _ _ H).
  assert (A := inv_msg _ _ I _ _ Hm). assert (B := inv_msg _ _ I _ _ Hm'). congruence.
Qed.

Lemma one_call : forall size tr1 tr2 s i c c', run size (tr1 ++ ECall i c :: tr2) s ->
  In (ECall i c') (tr1 ++ ECall i c :: tr2) -> c' = c /\ ~ In (ECall i c') tr1.
Proof.
  intros size tr1 tr2 s i c c' H Hc.
  destruct (call_split _ _ _ _ _ _ H) as [s1 [R1 [Hn [I1 [I R]]]]].
  destruct (rel_pc _ _ _ _ _ _ R) as [p [Hp _]]. destruct (inv_call _ _ I _ _ Hp) as [c0 [_ [U _]]].
  split.
  - rewrite (U _ Hc). symmetry. apply U. apply in_or_app. right. now left.
  - apply (inv_none _ _ I1 _ Hn).
Qed.

(** A subscriber that does not say what it has seen gets the history from its beginning, its own
    arrival included, as long as the history is no longer than half the buffer. *)
Theorem C53_new_subscriber_sees_the_history : forall size tr s, run size tr s -> forall i u,
  In (ECall i (SubscribeMessages u None)) tr ->
  List.length (history s) <= size / 2 ->
  run_of (history s) 0 (delivered i tr).
Proof.
  intros size tr s H i u Hc Hl. destruct (stream_cases _ _ _ H i) as [->|X]; [apply run_of_nil|].
  destruct X as [tr1 [u' [l [tr2 [s1 [st [-> [_ [[u0 [l0 [w [w' [E [A [B [C D]]]]]]]] [F _]]]]]]]]]].
  destruct (one_call _ _ _ _ _ _ _ H Hc) as [E' _]. injection E' as <- <-. injection E as <- <-.
  rewrite history_len in Hl. replace st with 0 in F; [exact F|].
  rewrite D. unfold startBehind. lia.
Qed.

Lemma reconnect_start : forall size tr s, run size tr s -> forall j m i u,
  before (EMsg j m) (ECall i (SubscribeMessages u (Some (msg_id m)))) tr ->
  delivered i tr = [] \/
  exists w, w <= List.length (history s) /\
    run_of (history s) (Nat.max (w - size / 2) (S (msg_id m))) (delivered i tr).
Proof.
  intros size tr s H j m i u Hb. destruct (stream_cases _ _ _ H i) as [->|X]; [now left|].
  destruct X as [tr1 [u' [l [tr2 [s1 [st [-> [R1 [[u0 [l0 [w [w' [E [A [B [C D]]]]]]]] [F _]]]]]]]]]].
  destruct Hb as [a [b [c Htr]]].
  assert (Hc : In (ECall i (SubscribeMessages u (Some (msg_id m)))) (tr1 ++ ECall i (SubscribeMessages u' l) :: tr2)).
  { rewrite Htr. apply in_or_app. right. right. apply in_or_app. right. now left. }
  destruct (one_call _ _ _ _ _ _ _ H Hc) as [E' _]. injection E' as <- <-. injection E as <- <-.
  assert (Hin : In (EMsg j m) tr1).
  { (* the call occurs once, so what is before it is in [tr1] *)
    assert (Hs : tr1 = a ++ EMsg j m :: b).
    { assert (H' := H). rewrite Htr in H'.
      assert (X1 : ~ In (ECall i (SubscribeMessages u (Some (msg_id m)))) tr1).
      { apply (one_call _ _ _ _ _ _ _ H Hc). }
      assert (X2 : ~ In (ECall i (SubscribeMessages u (Some (msg_id m)))) (a ++ EMsg j m :: b)).
      { replace (a ++ EMsg j m :: b ++ ECall i (SubscribeMessages u (Some (msg_id m))) :: c)
          with ((a ++ EMsg j m :: b) ++ ECall i (SubscribeMessages u (Some (msg_id m))) :: c) in H'
          by (rewrite <- app_assoc; reflexivity).
        eapply one_call; [exact H'|]. apply in_or_app. right. now left. }
      replace (a ++ EMsg j m :: b ++ ECall i (SubscribeMessages u (Some (msg_id m))) :: c)
        with ((a ++ EMsg j m :: b) ++ ECall i (SubscribeMessages u (Some (msg_id m))) :: c) in Htr
        by (rewrite <- app_assoc; reflexivity).
      revert X1 X2 Htr. generalize (a ++ EMsg j m :: b). clear.
      set (e := ECall i (SubscribeMessages u (Some (msg_id m)))). clearbody e.
      induction tr1 as [|x tr1 IH]; intros [|y l] X1 X2 H; simpl in *; auto.
      - injection H as -> _. exfalso. apply X2. now left.
      - injection H as -> _. exfalso. apply X1. now left.
      - injection H as -> H. f_equal. apply IH; tauto. }
    rewrite Hs. apply in_or_app. right. now left. }
  assert (Hlt : msg_id m < List.length (written s1)).
  { assert (X := inv_msg _ _ (inv_run _ _ _ R1) _ _ Hin). rewrite <- history_len. apply nth_error_Some. congruence. }
  right. exists w. split; [rewrite history_len; lia|].
  rewrite D in F. unfold startBehind in F.
  replace (Nat.min (S (msg_id m)) w') with (S (msg_id m)) in F by lia. exact F.
Qed.

(** A client that reconnects with the id of a message it has received gets only newer messages. *)
Theorem C53_reconnect_repeats_nothing : forall size tr s, run size tr s -> forall j m i u m',
  before (EMsg j m) (ECall i (SubscribeMessages u (Some (msg_id m)))) tr ->
  In m' (delivered i tr) -> msg_id m < msg_id m'.
Proof.
  intros size tr s H j m i u m' Hb Hm'. destruct (reconnect_start _ _ _ H _ _ _ _ Hb) as [E|[w [_ R]]].
  - rewrite E in Hm'. destruct Hm'.
  - apply In_nth_error in Hm'. destruct Hm' as [k Hk].
    rewrite (C53_messages_are_numbered _ _ _ H _ _ (run_of_nth _ _ _ _ _ R Hk)). lia.
Qed.

(** ... and misses none, as long as no more than half a buffer of messages have been written since. *)
Theorem C53_reconnect_misses_nothing : forall size tr s, run size tr s -> forall j m i u,
  before (EMsg j m) (ECall i (SubscribeMessages u (Some (msg_id m)))) tr ->
  List.length (history s) <= S (msg_id m) + size / 2 ->
  run_of (history s) (S (msg_id m)) (delivered i tr).
Proof.
  intros size tr s H j m i u Hb Hl. destruct (reconnect_start _ _ _ H _ _ _ _ Hb) as [E|[w [A R]]].
  - rewrite E. apply run_of_nil.
  - replace (Nat.max (w - size / 2) (S (msg_id m))) with (S (msg_id m)) in R by lia. exact R.
Qed.

(** Results of calls: SendMessage succeeds; SubscribeMessages never ends well: it ends with
    EmptyUsername exactly for an empty user name, and with StreamFinished only after the server was
    closed. *)
Theorem C53_results : forall size tr s, run size tr s ->
  (forall i u t r, In (ECall i (SendMessage u t)) tr -> In (ERet i r) tr -> r = Ok) /\
  (forall i u l r, In (ECall i (SubscribeMessages u l)) tr -> In (ERet i r) tr ->
     r <> Ok /\ (r = EmptyUsername <-> u = ""%string)) /\
  (forall i r tr1 tr2, tr = tr1 ++ ERet i r :: tr2 -> r = StreamFinished ->
     exists k, In (ECall k CloseServer) tr1).
Proof.
  intros size tr s H. assert (I := inv_run _ _ _ H).
  assert (G : forall i c r, In (ECall i c) tr -> In (ERet i r) tr -> okThread c (by_ i (written s)) (PReturn r)).
  { intros i c r Hc Hr. destruct (inv_ret _ _ I _ _ Hr) as [A [_ [c' [B C]]]].
    destruct (inv_call _ _ I _ _ A) as [c0 [_ [U _]]]. rewrite (U _ Hc), <- (U _ B). exact C. }
  split; [|split].
  - intros i u t r Hc Hr. apply (G _ _ _ Hc Hr).
  - intros i u l r Hc Hr. destruct (G _ _ _ Hc Hr) as [[-> [-> _]]|[A [B [C _]]]].
    + split; [discriminate|tauto].
    + split; [exact B|]. split; intros; contradiction.
  - intros i r tr1 tr2 -> ->. destruct (steps_split _ _ _ _ H _ _ _ eq_refl) as [s1 [s2 [A [B _]]]].
    assert (R2 : run size (tr1 ++ [ERet i StreamFinished]) s2).
    { apply (steps_step _ _ _ _ (Some (ERet i StreamFinished)) _ A B). }
    assert (I2 := inv_run _ _ _ R2).
    destruct (inv_ret _ _ I2 i StreamFinished) as [_ [X _]].
    { apply in_or_app. right. now left. }
    destruct (inv_close _ _ I2 (X eq_refl)) as [k Hk]. exists k.
    apply in_app_or in Hk. destruct Hk as [Hk|[Hk|[]]]; [exact Hk|discriminate].
Qed.

(** No call to SendMessage can be blocked for good: from every state it can be brought to its end
    without anybody else making a visible move. *)
Theorem C53_send_can_always_finish : forall size tr s, run size tr s -> forall i u t,
  In (ECall i (SendMessage u t)) tr -> (forall r, ~ In (ERet i r) tr) ->
  exists s', steps size s [ERet i Ok] s'.
Proof.
  intros size tr s H i u t Hc Hr. assert (I := inv_run _ _ _ H).
  destruct (thread s i) as [p|] eqn:Hp; [|exfalso; apply (proj1 (inv_none _ _ I _ Hp) _ Hc)].
  destruct (inv_call _ _ I _ _ Hp) as [c [_ [U O]]]. rewrite <- (U _ Hc) in O.
  assert (Last : forall s, thread s i = Some (PReturn Ok) -> exists s', steps size s [ERet i Ok] s').
  { intros s0 H0. exists (setPc s0 i PDone). apply (steps_one size s0 (Some (ERet i Ok))).
    eapply s_go; [exact H0|constructor]. }
  assert (Thru : forall k, match p with
    | PNow _ _ k' | PLock _ _ _ k' | PBuild _ _ _ k' | PIncr _ k' | PWrite _ k' | PUnlock k' => k' = k
    | _ => False end -> k = KReturn -> exists s', steps size s [ERet i Ok] s').
  { intros k Hk ->. destruct (send_through size tr s i p _ H Hp Hk) as [s1 [A B]].
    destruct (Last s1 B) as [s' C]. exists s'. apply (steps_trans _ _ _ _ A _ _ C). }
  destruct p; simpl in O;
    try (apply (Thru k); [reflexivity|destruct k; try contradiction; reflexivity]).
  - apply (Thru k); [reflexivity|]. destruct O as [ws' [m [_ O]]]. destruct k; try contradiction; reflexivity.
  - destruct O. discriminate.
  - destruct O. discriminate.
  - destruct O. discriminate.
  - destruct O as [[l O] _]. discriminate.
  - destruct O as [[l O] _]. discriminate.
  - destruct O. discriminate.
  - destruct O as [-> _]. apply Last. exact Hp.
  - destruct (done_ret _ _ _ H _ Hp) as [r X]. exfalso. eapply Hr; eassumption.
Qed.

(** ** Examples and limits *)

(** A whole SendMessage call; a subscription until it waits for messages. *)
Definition sends (i : nat) (u t : string) : list choice :=
  Call i (SendMessage u t) :: repeat (Go i) 7.
Definition subscribes (i : nat) (u : string) (l : option nat) : list choice :=
  Call i (SubscribeMessages u l) :: repeat (Go i) 9.

(** Two senders interleaved step by step while a subscriber reads: the hypotheses of the theorems above
    are met by executions in which everything happens. *)
Definition exBusy : list choice :=
  subscribes 0 "ann" None ++
  [Call 1 (SendMessage "bob" "hi"); Call 2 (SendMessage "eve" "ho"); Go 1; Go 2; Go 2; Go 2; Go 0; Go 2; Go 2;
   Go 2; Go 1; Go 1; Go 1; Go 0; Go 1; Go 1; Go 1; Go 2; Go 0;
   Call 3 CloseServer; Go 3; Go 3; Go 3; Go 3; Go 3; Go 3; Go 3; Go 3; Go 0; Stop 0;
   Go 0; Go 0; Go 0; Go 0; Go 0; Go 0; Go 0; Go 0].

Example C53_example : exists tr s, run 8 tr s /\
  map (fun m => (msg_id m, msg_user m, msg_text m)) (history s)
  = [(0, "", "ann joined"); (1, "eve", "ho"); (2, "bob", "hi"); (3, "SYSTEM", "Server shutting down...");
     (4, "", "ann left")]%string /\
  map msg_id (delivered 0 tr) = [0; 1; 2; 3] /\
  In (ERet 0 StreamFinished) tr /\ In (ERet 1 Ok) tr /\ In (ERet 2 Ok) tr.
Proof.
  destruct (outcome 8 exBusy) as [[tr h]|] eqn:E; [|vm_compute in E; discriminate].
  destruct (outcome_run _ _ _ _ E) as [s [R Hh]]. exists tr, s. split; [exact R|].
  rewrite Hh. clear R Hh s. vm_compute in E. injection E as <- <-. vm_compute. tauto.
Qed.

(** A reconnection: the subscriber is cut after message 1, comes back with id 1 and goes on with 2. *)
Definition exReconnect : list choice :=
  subscribes 0 "ann" None ++ sends 1 "bob" "one" ++ sends 2 "bob" "two" ++ [Go 0; Go 0; Cancel 0] ++
  subscribes 3 "ann" (Some 1) ++ [Go 3; Go 3].

Example C53_reconnect_example : exists tr s m, run 16 tr s /\
  before (EMsg 0 m) (ECall 3 (SubscribeMessages "ann" (Some (msg_id m)))) tr /\
  List.length (history s) <= S (msg_id m) + 16 / 2 /\
  map msg_id (delivered 0 tr) = [0; 1] /\ map msg_id (delivered 3 tr) = [2; 3].
Proof.
  destruct (outcome 16 exReconnect) as [[tr h]|] eqn:E; [|vm_compute in E; discriminate].
  destruct (outcome_run _ _ _ _ E) as [s [R Hh]]. exists tr, s, (Message 1 "bob" "one" 0).
  split; [exact R|]. rewrite Hh. clear R Hh s. vm_compute in E. injection E as <- <-.
  split; [|split; [vm_compute; repeat constructor|split; reflexivity]].
  eexists [_; _; _; _; _; _], [], _. reflexivity.
Qed.

(** "Reconnecting misses nothing" is false in general: with more than half a buffer of messages in
    between, some are silently skipped (here after message 0 comes message 4). *)
Theorem C53_reconnect_gap_refuted : exists size tr s m,
  run size tr s /\
  before (EMsg 0 m) (ECall 9 (SubscribeMessages "ann" (Some (msg_id m)))) tr /\ msg_id m = 0 /\
  map msg_id (delivered 9 tr) = [4] /\ (forall r, ~ In (ERet 9 r) tr).
Proof.
  destruct (outcome 4 (subscribes 0 "ann" None ++ [Go 0; Cancel 0] ++ sends 1 "b" "1" ++ sends 2 "b" "2" ++
    sends 3 "b" "3" ++ sends 4 "b" "4" ++ subscribes 9 "ann" (Some 0) ++ [Go 9])) as [[tr h]|] eqn:E;
    [|vm_compute in E; discriminate].
  destruct (outcome_run _ _ _ _ E) as [s [R _]]. exists 4, tr, s, (Message 0 "" "ann joined" 0).
  split; [exact R|]. clear R s. vm_compute in E. injection E as <- <-.
  split; [|split; [reflexivity|split; [reflexivity|]]].
  - eexists [_], [_; _; _; _; _; _; _; _], _. reflexivity.
  - intros r. vm_compute. intuition discriminate.
Qed.

(** Ids start again at 0 when the server is restarted.  A client that reconnects to the new server with
    the id of the last message of the old one misses messages that are in the buffer and that it has
    never received. *)
Theorem C53_restart_loses_messages_refuted : exists size tr s,
  run size tr s /\ In (ECall 1 (SubscribeMessages "ann" (Some 5))) tr /\
  List.length (history s) <= size / 2 /\
  nth_error (map msg_text (history s)) 0 = Some "important"%string /\
  map msg_id (delivered 1 tr) = [2] /\ (forall r, ~ In (ERet 1 r) tr).
Proof.
  destruct (outcome 8 (sends 0 "bob" "important" ++ subscribes 1 "ann" (Some 5) ++ sends 2 "bob" "more" ++ [Go 1]))
    as [[tr h]|] eqn:E; [|vm_compute in E; discriminate].
  destruct (outcome_run _ _ _ _ E) as [s [R Hh]]. exists 8, tr, s. split; [exact R|]. rewrite Hh.
  clear R Hh s. vm_compute in E. injection E as <- <-.
  split; [vm_compute; tauto|]. split; [vm_compute; repeat constructor|]. split; [reflexivity|].
  split; [reflexivity|]. intros r. vm_compute. intuition discriminate.
Qed.

(** CreatedAt is read before the lock is taken: the order of the ids is not the order of the times. *)
Theorem C53_times_follow_ids_refuted : exists size tr s m m',
  run size tr s /\ nth_error (history s) 0 = Some m /\ nth_error (history s) 1 = Some m' /\
  msg_time m' < msg_time m.
Proof.
  destruct (outcome 8 ([Call 0 (SendMessage "a" "early"); Go 0; Wait 5] ++ sends 1 "b" "late" ++ repeat (Go 0) 6))
    as [[tr h]|] eqn:E; [|vm_compute in E; discriminate].
  destruct (outcome_run _ _ _ _ E) as [s [R Hh]]. exists 8, tr, s, (Message 0 "b" "late" 5), (Message 1 "a" "early" 0).
  split; [exact R|]. rewrite Hh. clear R Hh s. vm_compute in E. injection E as <- <-.
  split; [reflexivity|]. split; [reflexivity|]. simpl. lia.
Qed.
