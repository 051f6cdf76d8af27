(** C59: the chat web application.  Theorems only. *)
From Verif Require Import Base BaseProofs WebApp WebAppSpec WebAppProofs.
From Verif Require Chat ChatSpec ChatExec Props_Chat.

(** Whatever happens, the page shows the last thousand messages received, in order, ... *)
Theorem C59_page_shows_the_last_messages : forall b xs a o, history b xs = Some (a, o) ->
  IsEnd 1000 (receivedIn o) (a_messages a).
Proof. intros b xs a o H. exact (proj1 (messages_ok _ _ _ _ H)). Qed.
Print Assumptions C59_page_shows_the_last_messages.

(** ... a subscription asks first for the messages after the last one received, ... *)
Theorem C59_new_subscriptions_resume : forall b xs a o before i l after, history b xs = Some (a, o) ->
  o = before ++ Requested i l :: after -> Fresh i before -> l = lastId before.
Proof. intros b xs a o before i l after H E F. destruct (requests_ok _ _ _ _ H) as (_ & _ & R & _). exact (R _ _ _ _ E F). Qed.
Print Assumptions C59_new_subscriptions_resume.

(** ... so the chat server sends it none of those again (C53), ... *)
Theorem C59_new_subscriptions_repeat_nothing : forall b xs a o before i l after size tr s j m k u m',
  history b xs = Some (a, o) -> o = before ++ Requested i l :: after -> Fresh i before ->
  lastId before = Some (msg_id m) ->
  Chat.run size tr s ->
  ChatSpec.before (Chat.EMsg j m) (Chat.ECall k (Chat.SubscribeMessages u l)) tr ->
  In m' (ChatSpec.delivered k tr) -> msg_id m < msg_id m'.
Proof.
  intros b xs a o before i l after size tr s j m k u m' H E F L R B I.
  rewrite (C59_new_subscriptions_resume _ _ _ _ _ _ _ _ H E F), L in B.
  exact (Props_Chat.C53_reconnect_repeats_nothing size tr s R j m k u m' B I).
Qed.
Print Assumptions C59_new_subscriptions_repeat_nothing.

(** ... and each failure is followed by a wait of 1, 2, 4, ... at most 30 seconds, counted from the last
    time a stream was opened. *)
Theorem C59_delays_double_up_to_thirty_seconds : forall b xs a o before i d after, history b xs = Some (a, o) ->
  o = before ++ Scheduled i d :: after -> d = Nat.min 30 (2 ^ failuresIn 0 before).
Proof. intros b xs a o before i d after H E. exact (proj2 (delays_ok _ _ _ _ H) _ _ _ _ E). Qed.
Print Assumptions C59_delays_double_up_to_thirty_seconds.

(** A reconnect repeats the request of its subscription unchanged, ... *)
Theorem C59_reconnects_repeat_the_request : forall b xs a o i l l', history b xs = Some (a, o) ->
  In (Requested i l) o -> In (Requested i l') o -> l = l'.
Proof.
  intros b xs a o i l l' H I I'. destruct (requests_ok _ _ _ _ H) as (_ & R & _).
  destruct (R _ _ I) as (c & C & <-). destruct (R _ _ I') as (c' & C' & <-). congruence.
Qed.
Print Assumptions C59_reconnects_repeat_the_request.

(** ... so it does not resume: with the chat server, after a lost connection the page shows messages twice. *)
Definition twice : list ChatExec.choice :=
  Props_Chat.subscribes 0 "ann" None ++ Props_Chat.sends 1 "bob" "hello" ++ [ChatExec.Go 0; ChatExec.Go 0; ChatExec.Cancel 0] ++
  Props_Chat.subscribes 2 "ann" None ++ [ChatExec.Go 2; ChatExec.Go 2].
Theorem C59_reconnecting_shows_nothing_twice_refuted : forall b, exists tr s xs a o,
  Chat.run 10 tr s /\
  history b xs = Some (a, o) /\ Patient b (fst loaded) xs /\
  (* the requests of the page are the calls of the server, and what it receives is what they deliver *)
  requestsIn o = [None; None] /\
  In (Chat.ECall 0 (Chat.SubscribeMessages "ann" None)) tr /\ In (Chat.ECall 2 (Chat.SubscribeMessages "ann" None)) tr /\
  receivedIn o = ChatSpec.delivered 0 tr ++ ChatSpec.delivered 2 tr /\
  map msg_id (a_messages a) = [0; 1; 0; 1].
Proof.
  intros b. destruct (ChatExec.outcome 10 twice) as [[tr h]|] eqn:E; [|vm_compute in E; discriminate].
  destruct (ChatExec.outcome_run _ _ _ _ E) as [s [R _]].
  exists tr, s, ([Answered 0] ++ map (Line 0) (ChatSpec.delivered 0 tr) ++ [ReadFailed 0; TimerFired 0; Answered 0] ++
                 map (Line 0) (ChatSpec.delivered 2 tr)).
  eexists _, _. split; [exact R|]. clear R s. vm_compute in E. injection E as <- <-. cbn [ChatSpec.delivered Nat.eqb List.app map].
  split; [destruct b; cbn; reflexivity|]. split; [destruct b; cbn; intuition discriminate|]. split; [reflexivity|].
  split; [cbn; tauto|]. split; [cbn; tauto|]. split; reflexivity.
Qed.
Print Assumptions C59_reconnecting_shows_nothing_twice_refuted.

(** ** One stream at a time *)

(** If the user does not click again while a connection is being made, there is at most one stream,
    fetch or scheduled reconnect at any time, ... *)
Theorem C59_one_stream_at_a_time : forall b xs a o, history b xs = Some (a, o) -> Patient b (fst loaded) xs -> work a <= 1.
Proof.
  intros b xs a o H P. unfold history in H. destruct loaded as [a0 o0] eqn:L. cbn [fst] in P.
  destruct (runFrom b a0 xs) as [[a1 o1]|] eqn:R; [|discriminate]. injection H as <- <-.
  assert (Single a0) as S0 by (injection L as <- _; split; [cbn; lia|discriminate]).
  exact (proj1 (single_run b xs a0 a1 o1 S0 P R)).
Qed.
Print Assumptions C59_one_stream_at_a_time.

(** ... and when the chat is closed nothing happens any more. *)
Theorem C59_closed_is_final : forall b xs a o ys a' o', history b xs = Some (a, o) -> Patient b (fst loaded) xs ->
  a_status a = Finished -> runFrom b a ys = Some (a', o') -> a' = a /\ o' = [].
Proof.
  intros b xs a o ys a' o' H P Fi R. unfold history in H. destruct loaded as [a0 o0] eqn:L. cbn [fst] in P.
  destruct (runFrom b a0 xs) as [[a1 o1]|] eqn:R0; [|discriminate]. injection H as <- <-.
  assert (Single a0) as S0 by (injection L as <- _; split; [cbn; lia|discriminate]).
  destruct (single_run b xs a0 a1 o1 S0 P R0) as [_ W]. exact (finished_run b ys a1 a' o' R (W Fi) Fi).
Qed.
Print Assumptions C59_closed_is_final.

(** A stream that the server finishes, or a request it answers so, closes the chat: the page says so, shows what
    it has received, and nothing happens any more whatever the user and the browser do. *)
Theorem C59_finished_streams_close_the_chat : forall b xs a o x a' o' k ys a2 o2,
  history b xs = Some (a, o) -> Patient b (fst loaded) xs ->
  x = ErrorLine k (-10)%Z \/ x = Refused k (-10)%Z -> step b a x = Some (a', o') ->
  a_status a' = Finished /\ o' = [] /\ a_messages a' = a_messages a /\
  (runFrom b a' ys = Some (a2, o2) -> a2 = a' /\ o2 = []).
Proof.
  intros b xs a o x a' o' k ys a2 o2 H P X E. unfold history in H. destruct loaded as [a0 o0] eqn:L. cbn [fst] in P.
  destruct (runFrom b a0 xs) as [[a1 o1]|] eqn:R0; [|discriminate]. injection H as <- <-.
  assert (Single a0) as S0 by (injection L as <- _; split; [cbn; lia|discriminate]).
  pose proof (single_run b xs a0 a1 o1 S0 P R0) as S1.
  assert (W : a_status a' = Finished /\ o' = [] /\ a_messages a' = a_messages a1).
  { destruct X as [-> | ->]; cbn [step] in E; destruct (live k _ a1); try discriminate E; cbn [onError] in E;
      injection E as <- <-; repeat split. }
  destruct W as (Fi & -> & M). split; [exact Fi|]. split; [reflexivity|]. split; [exact M|].
  assert (P1 : Patient b a1 [x]).
  { cbn [Patient]. split; [destruct X as [-> | ->]; discriminate|]. rewrite E. exact I. }
  assert (R1 : runFrom b a1 [x] = Some (a', [] ++ [])) by (cbn [runFrom]; rewrite E; reflexivity).
  destruct (single_run b [x] a1 a' _ S1 P1 R1) as [_ W0].
  intros R. exact (finished_run b ys a' a2 o2 R (W0 Fi) Fi).
Qed.
Print Assumptions C59_finished_streams_close_the_chat.

(** The page does not stop an impatient user: the button stays enabled while a connection is being made,
    and after two clicks every message of the server is shown twice. *)
Theorem C59_impatient_users_see_double_refuted : forall b m, exists xs a o,
  history b xs = Some (a, o) /\ work a = 2 /\ a_messages a = [m; m] /\
  (* two streams are open at once *)
  a_active a = [(1, Reading); (2, Reading)].
Proof.
  intros b m. exists [Refused 0 (-1)%Z; Click; Click; Answered 0; Answered 1; Line 0 m; Line 1 m].
  destruct (history b [Refused 0 (-1)%Z; Click; Click; Answered 0; Answered 1; Line 0 m; Line 1 m]) as [[a o]|] eqn:E;
    destruct b; vm_compute in E; try discriminate E; injection E as <- <-; eexists _, _; (split; [reflexivity|]); repeat split; reflexivity.
Qed.
Print Assumptions C59_impatient_users_see_double_refuted.

(** ** Disconnecting *)

(** Where reads of an aborted fetch fail with an AbortError, the button disconnects: the stream ends,
    nothing is scheduled, and the next click connects again. *)
Theorem C59_old_browsers_disconnect : forall xs a o i, history true xs = Some (a, o) -> Patient true (fst loaded) xs ->
  a_status a = Connected -> a_active a = [(i, Reading)] -> i = List.length (a_subs a) - 1 -> i < List.length (a_subs a) ->
  exists a', runFrom true a [Click; ReadFailed 0] = Some (a', []) /\
    a_status a' = Disconnected /\ work a' = 0 /\ a_messages a' = a_messages a /\
    exists a2, step true a' Click = Some (a2, [Requested (List.length (a_subs a)) (a_last a)]).
Proof.
  intros xs a o i H P St Ac Ei Li. pose proof (C59_one_stream_at_a_time _ _ _ _ H P) as W. unfold work in W. rewrite Ac in W. cbn in W.
  destruct (a_timers a) eqn:T; [|cbn in W; lia].
  destruct (nth_error (a_subs a) i) as [c|] eqn:N; [|apply nth_error_None in N; lia].
  destruct a as [ms la st re su ac ti]. cbn in *. subst st ac ti.
  rewrite Ei in N. unfold click, abort. cbn [a_status a_subs a_messages a_last a_retry a_active a_timers]. rewrite N.
  unfold running. cbn [a_active a_subs nth_error]. rewrite Ei, replaceAt_self.
  destruct (Nat.ltb_spec (List.length su - 1) (List.length su)); [|lia]. cbn.
  eexists. split; [reflexivity|]. cbn. split; [reflexivity|]. split; [reflexivity|]. split; [reflexivity|].
  eexists. rewrite connect_eq. cbn. rewrite replaceAt_length. reflexivity.
Qed.
Print Assumptions C59_old_browsers_disconnect.

(** Where they fail with the reason given, as the fetch standard says, it does not: from then on,
    whatever happens, the page is never disconnected and never receives anything, and it goes on
    making requests that fail at once; only loading the page again helps. *)
Theorem C59_the_button_disconnects_refuted : forall xs a o i, history false xs = Some (a, o) -> Patient false (fst loaded) xs ->
  a_status a = Connected -> a_active a = [(i, Reading)] -> i = List.length (a_subs a) - 1 -> i < List.length (a_subs a) ->
  forall ys a' o', runFrom false a (Click :: ys) = Some (a', o') ->
    (a_status a' = Connected \/ a_status a' = Connecting) /\ work a' = 1 /\
    a_messages a' = a_messages a /\ receivedIn o' = [] /\ ~ In Opened o'.
Proof.
  intros xs a o i H P St Ac Ei Li ys a' o' R. pose proof (C59_one_stream_at_a_time _ _ _ _ H P) as W. unfold work in W.
  rewrite Ac in W. cbn in W. destruct (a_timers a) eqn:T; [|cbn in W; lia].
  cbn [runFrom step] in R. unfold click in R. rewrite St in R.
  destruct (runFrom false (abort a) ys) as [[a2 o2]|] eqn:R'; [|discriminate]. injection R as <- <-.
  destruct (abort_work a) as (Ew & Ea & Et & Es & Em).
  destruct (nth_error (a_subs a) i) as [c|] eqn:N; [|apply nth_error_None in N; lia].
  assert (A : Aborted (abort a) i).
  { unfold Aborted, abort. rewrite <- Ei, N. cbn [a_subs]. rewrite replaceAt_self.
    destruct (Nat.ltb_spec i (List.length (a_subs a))); [|lia]. eexists. split; reflexivity. }
  assert (S : Stuck (abort a)).
  { split; [left; congruence|]. split; [rewrite Ew; unfold work; rewrite Ac, T; reflexivity|]. rewrite Ea, Et, Ac, T.
    split; [intros j p [[= <- <-]|[]]; exact A|intros j []]. }
  destruct (stuck_run ys (abort a) a2 o2 S R') as (S' & M & Rc & Op). rewrite Em in M.
  destruct S' as (St' & W' & _). auto.
Qed.
Print Assumptions C59_the_button_disconnects_refuted.

(** The hypotheses of the last two theorems are met after the page is loaded and a message has arrived,
    and the pending work can always go on. *)
Example C59_disconnect_example : forall b m, exists a o,
  history b [FetchFailed 0; TimerFired 0; Answered 0; Line 0 m] = Some (a, o) /\
  Patient b (fst loaded) [FetchFailed 0; TimerFired 0; Answered 0; Line 0 m] /\
  a_status a = Connected /\ a_active a = [(0, Reading)] /\ 0 = List.length (a_subs a) - 1 /\ 0 < List.length (a_subs a) /\
  a_messages a = [m] /\ o = [Requested 0 None; Scheduled 0 1; Requested 0 None; Opened; Received m] /\
  exists a' o', runFrom false a [Click; ReadFailed 0; TimerFired 0; FetchFailed 0; TimerFired 0; FetchFailed 0; Click] = Some (a', o') /\
    o' = [Scheduled 0 1; Requested 0 None; Scheduled 0 2; Requested 0 None; Scheduled 0 4].
Proof.
  intros b m. destruct (history b [FetchFailed 0; TimerFired 0; Answered 0; Line 0 m]) as [[a o]|] eqn:E;
    destruct b; vm_compute in E; try discriminate E; injection E as <- <-; eexists _, _; (split; [reflexivity|]);
    (split; [repeat split; intros [=]|]); repeat (split; [first [reflexivity|apply le_n]|]); eexists _, _; split; vm_compute; reflexivity.
Qed.

(** A failure the server reports as "request failed" is taken for a click on the button: the page does not reconnect. *)
Theorem C59_failures_are_retried_refuted : forall b, exists xs a o,
  history b xs = Some (a, o) /\ xs = [Answered 0; ErrorLine 0 (-1)%Z] /\ a_status a = Disconnected /\ work a = 0.
Proof. intros b. exists [Answered 0; ErrorLine 0 (-1)%Z]. destruct b; eexists _, _; (split; [reflexivity|]); repeat split; reflexivity. Qed.
Print Assumptions C59_failures_are_retried_refuted.

(** ... every other failure is: a failed fetch, an answer or a line with any code other than -1, -8 and
    -10, a lost connection or a line that is not JSON is followed by a reconnect. *)
Theorem C59_other_failures_are_retried : forall b a x a' o k,
  step b a x = Some (a', o) ->
  x = FetchFailed k \/ x = BadLine k \/ (x = ReadFailed k /\ live k Reading a <> None) \/
  (exists code, (x = Refused k code \/ x = ErrorLine k code) /\ code <> (-1)%Z /\ code <> (-8)%Z /\ code <> (-10)%Z) ->
  exists i d, o = [Scheduled i d] /\ d = Nat.min 30 (2 ^ a_retry a) /\ In i (a_timers a') /\ a_status a' = Connecting.
Proof.
  intros b a x a' o k E X.
  assert (Re : forall i code z, (code = None \/ exists c, code = Some c /\ c <> (-1)%Z /\ c <> (-8)%Z /\ c <> (-10)%Z) ->
    a_retry z = a_retry a -> Some (onError code i z) = Some (a', o) ->
    exists i d, o = [Scheduled i d] /\ d = Nat.min 30 (2 ^ a_retry a) /\ In i (a_timers a') /\ a_status a' = Connecting).
  { intros i code z C Er Ez.
    assert (onError code i z = (App (a_messages z) (a_last z) Connecting (S (a_retry z)) (a_subs z) (a_active z) (a_timers z ++ [i]),
                      [Scheduled i (backoff (a_retry z))])) as Eo.
    { destruct C as [->|(c & -> & N1 & N8 & N10)]; [reflexivity|]. unfold onError.
      repeat match goal with |- context [match ?x with _ => _ end] => is_var x; destruct x end; try reflexivity; congruence. }
    rewrite Eo in Ez. injection Ez as <- <-. exists i, (backoff (a_retry z)). split; [reflexivity|].
    split; [rewrite Er; reflexivity|]. split; [cbn; apply in_app_iff; right; left; reflexivity|reflexivity]. }
  destruct X as [->|[->|[[-> Lv]|(code & [->| ->] & N)]]]; cbn [step] in E.
  - destruct (running k Fetching a) as [[i ab]|]; [|discriminate]. apply (Re i None (ended k a)); auto.
  - destruct (live k Reading a) as [i|]; [|discriminate]. apply (Re i (Some (-5)%Z) (ended k a)); auto.
    right. eexists. split; [reflexivity|]. repeat split; discriminate.
  - unfold live in Lv. destruct (running k Reading a) as [[i [|]]|]; [congruence| |discriminate].
    apply (Re i (Some (-9)%Z) (ended k a)); auto. right. eexists. split; [reflexivity|]. repeat split; discriminate.
  - destruct (live k Fetching a) as [i|]; [|discriminate]. apply (Re i (Some code) (ended k a)); eauto.
  - destruct (live k Reading a) as [i|]; [|discriminate]. apply (Re i (Some code) (ended k a)); eauto.
Qed.
Print Assumptions C59_other_failures_are_retried.

(** ** Sending and showing *)

(** A message is sent just if the page is connected and the text is not empty. *)
Theorem C59_sends_when_connected : forall b a text,
  exists o, step b a (Submit text) = Some (a, o) /\
    (o = [Sent text] <-> a_status a = Connected /\ text <> EmptyString) /\ (o = [Sent text] \/ o = []).
Proof.
  intros b a text. cbn [step]. unfold submit. destruct (a_status a) eqn:S.
  - destruct (String.eqb_spec text "") as [->|N]; eexists; (split; [reflexivity|]); split; auto;
    [split; [discriminate|intros [_ X]; congruence]|tauto].
  - eexists. split; [reflexivity|]. split; [split; [discriminate|intros [[=] _]]|auto].
  - eexists. split; [reflexivity|]. split; [split; [discriminate|intros [[=] _]]|auto].
  - eexists. split; [reflexivity|]. split; [split; [discriminate|intros [[=] _]]|auto].
Qed.
Print Assumptions C59_sends_when_connected.

(** The page contains the name and the text of each message as they are ... *)
Theorem C59_page_contains_the_texts : forall time ms m, In m ms ->
  Contains (chatbox time ms) (Chat.msg_text m) /\ Contains (chatbox time ms) (Chat.msg_user m).
Proof.
  assert (C : forall a b s t, Contains s t -> Contains (a ++ s ++ b)%string t).
  { intros a b s t (x & y & ->). exists (a ++ x)%string, (y ++ b)%string. rewrite !sapp_assoc. reflexivity. }
  assert (K : forall (l : list string) s t, In s l -> Contains s t -> Contains (String.concat "" l) t).
  { assert (J : forall s l, String.concat "" (s :: l) = (s ++ String.concat "" l)%string).
    { intros s [|y l]; cbn; [symmetry; apply sapp_nil_r|reflexivity]. }
    induction l as [|y l IH]; intros s t I H; [destruct I|]. rewrite J. destruct I as [->|I].
    - exact (C EmptyString (String.concat "" l) s t H).
    - pose proof (C y EmptyString _ _ (IH s t I H)) as X. rewrite sapp_nil_r in X. exact X. }
  intros time ms m I. unfold chatbox.
  split; apply C, (K _ (item time m)); try (apply in_map; exact I); unfold item.
  - match goal with |- Contains (?a ++ ?u ++ ?b ++ ?t ++ ?c)%string _ => exists (a ++ u ++ b)%string, c end.
    rewrite !sapp_assoc. reflexivity.
  - eexists _, _. reflexivity.
Qed.
Print Assumptions C59_page_contains_the_texts.

(** ... markup included, so it does not show who wrote what: the text of one message can look exactly
    like two messages, the second by somebody else, and texts run as scripts. *)
Definition forged (time : nat -> string) : string :=
  ("hi
          </div>
          <div class=""msg-time"">" ++ time 0 ++ "</div>
          </li>
          <li>
          <div class=""name"">
            <span>SYSTEM</span>
					</div>
          <div class=""message"">
            send me your password")%string.
Theorem C59_page_shows_who_wrote_what_refuted : forall time,
  chatbox time [Chat.Message 0 "eve" (forged time) 0] =
  chatbox time [Chat.Message 0 "eve" "hi" 0; Chat.Message 1 "SYSTEM" "send me your password" 0].
Proof.
  intros time. unfold chatbox, item, forged. cbn [map String.concat Chat.msg_user Chat.msg_text Chat.msg_time].
  rewrite !sapp_assoc. reflexivity.
Qed.
Print Assumptions C59_page_shows_who_wrote_what_refuted.

(** ** An example with everything: 1002 messages, a lost stream, a reconnect, the end of the chat *)
Definition msg (n : nat) : message := Chat.Message n "bob" "hi" n.
Definition msgs (from k : nat) : list message := map (fun n => msg (Nat.modulo n 10)) (seq from k).
Example C59_example :
  match history false ([Answered 0] ++ map (Line 0) (msgs 0 1002) ++
                 [ReadFailed 0; TimerFired 0; Refused 0 (-7)%Z; TimerFired 0; Answered 0; Submit "x"; ErrorLine 0 (-10)%Z; Click]) with
  | None => False
  | Some (a, o) =>
      a_status a = Finished /\ work a = 0 /\ List.length (receivedIn o) = 1002 /\
      a_messages a = msgs 2 1000 /\
      skipn 1004 o = [Scheduled 0 1; Requested 0 None; Scheduled 0 2; Requested 0 None; Opened; Sent "x"]
  end.
Proof. vm_compute. repeat (split; [reflexivity|]). reflexivity. Qed.
