(** C63: webrpc-test runs a server for its time, waits for one, and does what its arguments say. Theorems only.
    Model: TestTool.v.  The meaning of the arguments: [Chooses], [Settings], [lastOf] (TestToolFlags.v). *)
From Verif Require Import Base Cli CliProofs TestTool TestToolProofs TestToolFlags.
Local Open Scope N_scope.

(** ** Waiting for a server *)

(** Wait ends: it never stops without having returned, and it does not go on for ever. *)
Theorem C63_wait_ends : forall T srv,
  (forall w, (forall ok t, w <> Returned ok t) -> exists w', WaitStep T srv w w') /\
  (forall f : nat -> waiting, ~ forall i, WaitStep T srv (f i) (f (S i))).
Proof. intros T srv. split; [apply wait_progress|apply wait_no_infinite]. Qed.
Print Assumptions C63_wait_ends.

(** It returns nil when a call that was begun before the deadline was answered, at that moment and not after the deadline;
    it returns the error exactly at the deadline. *)
Theorem C63_wait_tells_the_truth : forall T srv ok e, WaitRun T srv (Calling 0) (Returned ok e) ->
  if ok then exists t, t < T /\ at_ok (srv t) = true /\ e = t + at_takes (srv t) /\ e <= T else e = T.
Proof. intros T srv ok e R. apply (wait_returns T srv _ _ _ R); [cbn; lia|discriminate]. Qed.
Print Assumptions C63_wait_tells_the_truth.

(** If calls take at most D until the server is ready at R, and from then on it answers within D', Wait returns nil, at
    most D + D' and a tenth of a second after R.  The server need not stay up after that. *)
Theorem C63_wait_finds_the_server : forall T srv R D D' ok e,
  (forall t, t < R -> at_takes (srv t) <= D) ->
  (forall t, R <= t -> t <= R + D + 100 * ms -> at_ok (srv t) = true /\ at_takes (srv t) <= D') ->
  R + D + 100 * ms + D' < T ->
  WaitRun T srv (Calling 0) (Returned ok e) -> ok = true /\ e <= R + D + 100 * ms + D'.
Proof. intros T srv R D D' ok e A B L Run. apply (ready_run T srv R D D' _ ok e A B L Run); [cbn [close_to]; lia|discriminate]. Qed.
Print Assumptions C63_wait_finds_the_server.

(** The bound D is needed: one call that hangs uses up the whole timeout, although every later call would be answered at once. *)
Theorem C63_wait_survives_a_hanging_call_refuted :
  ~ (forall T srv R ok e, (forall t, R <= t -> at_ok (srv t) = true /\ at_takes (srv t) = 0) -> R + second <= T ->
       WaitRun T srv (Calling 0) (Returned ok e) -> ok = true).
Proof.
  intros H. specialize (H (60 * second) (fun t => if t <? 1 then Attempt (3600 * second) true else Attempt 0 true) 1 false (60 * second)).
  assert (X : false = true); [|discriminate X]. apply H.
  - intros t L. destruct (N.ltb_spec t 1) as [K|_]; [lia|]. split; reflexivity.
  - unfold second, ms. lia.
  - eapply RunStep; [apply StepNotReady, CallGivenUp; [reflexivity|discriminate]|].
    eapply RunStep; [apply StepTimedOut; discriminate|]. apply RunHere.
Qed.
Print Assumptions C63_wait_survives_a_hanging_call_refuted.

(** ** The server *)

(** A connection is served iff it comes after the port was bound and before the timeout, every Close and a
    failure of the listener. *)
Theorem C63_served_while_it_lives : forall T a u, isAccepted T a u = true <->
  exists b, bound a = Some b /\ b <= u_from u /\ u_from u < T /\ (forall c, In c (closes a) -> u_from u < c) /\
            (forall f, fails a = Some f -> u_from u < f).
Proof. exact accepted_iff. Qed.
Print Assumptions C63_served_while_it_lives.

(** Wait returns between the timeout and a second after it, in every case and whatever Close does: without an error only if
    no connection is in use, with one exactly a second after it. *)
Theorem C63_server_ends_in_time : forall T a,
  (exists ok e, ServerWait T a ok e) /\
  (forall ok e, ServerWait T a ok e ->
     T <= e <= T + second /\
     if ok then forall u, In u (tried a) -> isAccepted T a u = true -> ~ (u_from u <= e < u_until u) else e = T + second).
Proof.
  intros T a. split.
  - apply (shuts_exists _ _ (S (N.to_nat (T + second - T)))); [lia|reflexivity|discriminate].
  - intros ok e S. destruct (shuts_time _ _ _ _ _ _ S ltac:(lia)) as (X & Y & Z). split; [exact X|].
    destruct ok; [|apply Z; reflexivity]. specialize (Y eq_refl). intros u I A [F U].
    assert (B : busyAt T a e = true) by (apply busy_iff; exists u; auto). congruence.
Qed.
Print Assumptions C63_server_ends_in_time.

(** If every connection is done half a second (511 ms) after the timeout, it ends without an error, at most 563 ms after it; at
    once if none is in use then. *)
Theorem C63_server_lets_requests_finish : forall T a ok e, ServerWait T a ok e ->
  ((forall u, In u (tried a) -> isAccepted T a u = true -> u_until u <= T + 511 * ms) -> ok = true /\ e <= T + 563 * ms) /\
  ((forall u, In u (tried a) -> isAccepted T a u = true -> u_until u <= T) -> ok = true /\ e = T).
Proof.
  intros T a ok e S. split; intros H.
  - destruct (shuts_early (busyAt T a) T T ms ok e) as [-> L]; [|exact S|apply polled_first|split; [reflexivity|unfold ms; lia]].
    intros x X. destruct (busyAt T a x) eqn:E; [|reflexivity]. apply busy_iff in E as (u & I & A & _ & U).
    specialize (H u I A). lia.
  - inversion S as [? ? B|? ? j B ? ?|? ? j ? ? B ? ? ?]; subst; [auto| |];
      apply busy_iff in B as (u & I & A & _ & U); specialize (H u I A); lia.
Qed.
Print Assumptions C63_server_lets_requests_finish.

(** The second of grace is half a second: net/http looks at growing intervals, the last time before the second is over at most 563 ms after
    its beginning.  A request that ends later makes the server end with an error. *)
Theorem C63_late_requests_fail_the_server : forall T a u ok e, ServerWait T a ok e ->
  In u (tried a) -> isAccepted T a u = true -> T + 563 * ms <= u_until u -> ok = false /\ e = T + second.
Proof.
  intros T a u ok e S I A U. apply (shuts_late (busyAt T a) T T ms ok e); [|exact S|lia|apply polled_first].
  intros x L H. apply busy_iff. exists u. split; [exact I|]. split; [exact A|]. unfold ms in U.
  apply accepted_iff in A as (b & _ & _ & F & _). lia.
Qed.
Print Assumptions C63_late_requests_fail_the_server.

Theorem C63_a_second_of_grace_refuted :
  ~ (forall T a ok e, ServerWait T a ok e ->
       (forall u, In u (tried a) -> isAccepted T a u = true -> u_until u < T + second) -> ok = true).
Proof.
  intros H. set (a := Around (Some 0) None [] [Use 0 (2 * second + 600 * ms)]).
  destruct (C63_server_ends_in_time (2 * second) a) as [(ok & e & S) _].
  destruct (C63_late_requests_fail_the_server (2 * second) a (Use 0 (2 * second + 600 * ms)) ok e S) as [-> _];
    [left; reflexivity|reflexivity|discriminate|].
  specialize (H (2 * second) a false e S). discriminate H. intros u [<-|[]] _. reflexivity.
Qed.
Print Assumptions C63_a_second_of_grace_refuted.

(** Close, called at a moment [t], ends likewise: within a second, without an error only if no connection is in use, and
    without one if those in use are done within 511 ms; the connections after [t] are refused. *)
Theorem C63_close_lets_requests_finish : forall T a t, In t (closes a) ->
  (exists ok e, ServerClose T a t ok e) /\
  (forall u, In u (tried a) -> t <= u_from u -> isAccepted T a u = false) /\
  (forall ok e, ServerClose T a t ok e ->
     (t <= e <= t + second /\
      if ok then forall u, In u (tried a) -> isAccepted T a u = true -> ~ (u_from u <= e < u_until u) else e = t + second) /\
     ((forall u, In u (tried a) -> isAccepted T a u = true -> u_until u <= t + 511 * ms) -> ok = true /\ e <= t + 563 * ms) /\
     (forall u, In u (tried a) -> isAccepted T a u = true -> t + 563 * ms <= u_until u -> ok = false /\ e = t + second)).
Proof.
  intros T a t C. split; [|split].
  - apply (shuts_exists _ _ (S (N.to_nat (t + second - t)))); [lia|reflexivity|discriminate].
  - intros u _ L. destruct (isAccepted T a u) eqn:A; [|reflexivity]. apply accepted_iff in A as (b & _ & _ & _ & K & _). specialize (K t C). lia.
  - intros ok e S. split; [|split].
    + destruct (shuts_time _ _ _ _ _ _ S ltac:(lia)) as (X & Y & Z). split; [exact X|].
      destruct ok; [|apply Z; reflexivity]. specialize (Y eq_refl). intros u I A [F U].
      assert (B : busyAt T a e = true) by (apply busy_iff; exists u; auto). rewrite B in Y. discriminate Y.
    + intros H. destruct (shuts_early (busyAt T a) t t ms ok e) as [-> L]; [|exact S|apply polled_first|split; [reflexivity|unfold ms; lia]].
      intros x X. destruct (busyAt T a x) eqn:E; [|reflexivity]. apply busy_iff in E as (u & I & A & _ & U).
      specialize (H u I A). lia.
    + intros u I A U. apply (shuts_late (busyAt T a) t t ms ok e); [|exact S|lia|apply polled_first].
      intros x L H. apply busy_iff. exists u. split; [exact I|]. split; [exact A|]. unfold ms in U.
      apply accepted_iff in A as (b & _ & _ & _ & K & _). specialize (K t C). lia.
Qed.
Print Assumptions C63_close_lets_requests_finish.
Example C63_close_example : exists T a t u, In t (closes a) /\ In u (tried a) /\ isAccepted T a u = true /\ t < u_until u /\ u_until u <= t + 511 * ms.
Proof.
  exists (60 * second), (Around (Some 0) None [second] [Use 0 (second + 1)]), second, (Use 0 (second + 1)).
  split; [left; reflexivity|]. split; [left; reflexivity|]. split; [reflexivity|]. split; [reflexivity|]. unfold second, ms. cbn. lia.
Qed.

(** Close stops the server from serving, but Wait goes on until the timeout: the goroutine is not told. *)
Theorem C63_close_ends_the_wait_refuted :
  ~ (forall T a t ok e ok' e', In t (closes a) -> ServerClose T a t ok e -> ServerWait T a ok' e' -> e' <= t + second).
Proof.
  intros H. specialize (H (60 * second) (Around (Some 0) None [second] []) second true second true (60 * second)).
  assert (X : 60 * second <= second + second); [|revert X; unfold second, ms; lia].
  apply H; [left; reflexivity|apply ShutIdle; reflexivity|apply ShutIdle; reflexivity].
Qed.
Print Assumptions C63_close_ends_the_wait_refuted.

(** A listener that fails is not reported: the server has stopped serving, waits for its timeout and ends with status 0. *)
Theorem C63_failures_are_reported_refuted :
  ~ (forall T a f ok e, fails a = Some f -> f < T -> ServerWait T a ok e -> serverExit a ok <> 0%nat).
Proof.
  intros H. apply (H (60 * second) (Around (Some 0) (Some second) [] []) second true (60 * second)); try reflexivity.
  apply ShutIdle. reflexivity.
Qed.
Print Assumptions C63_failures_are_reported_refuted.

(** A port that cannot be bound is reported. *)
Theorem C63_the_port_is_needed : forall a ok, bound a = None -> serverExit a ok = 1%nat.
Proof. intros a ok E. unfold serverExit, runTestServer. rewrite E. reflexivity. Qed.
Print Assumptions C63_the_port_is_needed.

(** ** Both together *)

(** webrpc-test -waitForServer, begun [s] after webrpc-test -server: a call that comes while the server serves is answered, any other is refused; each takes [takes] of its start. *)
Definition seenBy (T : N) (a : around) (s : N) (takes : N -> N) (t : N) : attempt :=
  Attempt (takes t) (isAccepted T a (Use (s + t) (s + t + takes t))).

Theorem C63_waiting_for_the_server : forall T a s takes D Tw b ok e,
  (forall t, takes t <= D) -> bound a = Some b -> s <= b ->
  fails a = None -> closes a = [] ->
  b + D + 100 * ms < T -> b - s + 2 * D + 100 * ms < Tw ->
  WaitRun Tw (seenBy T a s takes) (Calling 0) (Returned ok e) ->
  ok = true /\ b <= s + e <= b + 2 * D + 100 * ms.
Proof.
  intros T a s takes D Tw b ok e TK B SB F C L1 L2 Run.
  destruct (C63_wait_finds_the_server Tw (seenBy T a s takes) (b - s) D D ok e) as [-> E].
  - intros t _. apply TK.
  - intros t G H. cbn [seenBy at_takes at_ok]. split; [|apply TK]. apply accepted_iff. exists b. cbn [u_from].
    split; [exact B|]. split; [lia|]. split; [lia|]. rewrite C. split; [intros c []|congruence].
  - lia.
  - exact Run.
  - split; [reflexivity|]. split; [|lia].
    apply C63_wait_tells_the_truth in Run as (t & _ & O & -> & _). cbn [seenBy at_takes at_ok] in O |- *.
    apply accepted_iff in O as (b' & B' & G & _). cbn [u_from] in G. assert (b' = b) by congruence. lia.
Qed.
Print Assumptions C63_waiting_for_the_server.

(** ** Arguments *)

(** The first argument alone chooses what is done, ... *)
Theorem C63_first_argument_chooses : forall valid args, main valid args <> Usage ->
  exists arg rest m, args = arg :: rest /\ In m modes /\ Chooses arg m.
Proof.
  intros valid args. unfold main. destruct args as [|arg rest]; [intros H; exfalso; apply H; reflexivity|].
  cbn [firstn skipn]. pose proof (parse_first valid arg) as P.
  destruct (parseSet modeFlags valid 1 [arg] []) as [vals r|]; [|congruence].
  destruct P as [->|(m & M & [[C _]| ->])].
  - intros H. exfalso. apply H. reflexivity.
  - intros _. exists arg, rest, m. auto.
  - intros H. exfalso. apply H. cbn [modes In] in M. repeat (destruct M as [<-|M]; [reflexivity|]). destruct M.
Qed.
Print Assumptions C63_first_argument_chooses.

(** ... and this is what: the settings that follow count (the last of each), up to the first argument that is none. *)
Theorem C63_the_tool_does_what_it_is_told : forall valid arg rest,
  (Chooses arg "version" -> main valid (arg :: rest) = PrintVersion) /\
  (Chooses arg "printRIDL" \/ Chooses arg "print-schema" -> main valid (arg :: rest) = PrintRIDL) /\
  (Chooses arg "printJSON" -> main valid (arg :: rest) = PrintJSON) /\
  (forall d settings tail, Settings d settings tail rest ->
     (Chooses arg "client" -> (forall k v, In (k, v) settings -> In k ["url"] /\ valid k v = true) ->
        main valid (arg :: rest) = RunClient (lastOf settings "url" "http://localhost:9988")) /\
     (Chooses arg "server" -> (forall k v, In (k, v) settings -> In k ["port"; "timeout"] /\ valid k v = true) ->
        main valid (arg :: rest) = RunServer (lastOf settings "port" "9988") (lastOf settings "timeout" "1m0s")) /\
     (Chooses arg "waitForServer" -> (forall k v, In (k, v) settings -> In k ["url"; "timeout"] /\ valid k v = true) ->
        main valid (arg :: rest) = RunWait (lastOf settings "url" "http://localhost:9988") (lastOf settings "timeout" "1m0s"))).
Proof.
  intros valid arg rest.
  assert (P : forall m, In m modes -> Chooses arg m -> parseSet modeFlags valid 1 (firstn 1 (arg :: rest)) [] = Flags [(m, "true")] [])
    by (intros m M C; exact (chooses_parse valid arg m M C)).
  unfold main.
  assert (M : forall m, Chooses arg m -> In m modes -> parseSet modeFlags valid 1 (firstn 1 (arg :: rest)) [] = Flags [(m, "true")] []) by auto.
  split; [intros C; rewrite (M _ C); [reflexivity|cbn; auto 10]|].
  split; [intros [C|C]; (rewrite (M _ C); [reflexivity|cbn; auto 10])|].
  split; [intros C; rewrite (M _ C); [reflexivity|cbn; auto 10]|].
  intros d settings tail ST. split; [|split]; intros C V; (rewrite (M _ C); [|cbn; auto 10]); cbn [skipn].
  - destruct (settings_parse clientFlags valid d settings tail rest plain_url ST V) as (r & vals & E & L).
    cbv zeta. rewrite E. cbn [isOn flagValue assoc String.eqb Ascii.eqb Bool.eqb orb]. rewrite L. reflexivity.
  - destruct (settings_parse serverFlags valid d settings tail rest plain_server ST V) as (r & vals & E & L).
    cbv zeta. rewrite E. cbn [isOn flagValue assoc String.eqb Ascii.eqb Bool.eqb orb]. rewrite !L. reflexivity.
  - destruct (settings_parse waitFlags valid d settings tail rest plain_wait ST V) as (r & vals & E & L).
    cbv zeta. rewrite E. cbn [isOn flagValue assoc String.eqb Ascii.eqb Bool.eqb orb]. rewrite !L. reflexivity.
Qed.
Print Assumptions C63_the_tool_does_what_it_is_told.

(** A setting that the mode does not have, or with a value that is not one, ends the program with 2 after the settings before it; help ends it with 0. *)
Definition PlainSetting (k : string) : Prop := contains_byte "=" k = false /\ k <> "" /\ has_prefix "-" k = false.
Inductive BadSetting (names : list string) (valid : string -> string -> bool) (k v : string) : nat -> Prop :=
| Bad_name : ~ In k names -> k <> "help" -> k <> "h" -> BadSetting names valid k v 2
| Bad_value : In k names -> valid k v = false -> BadSetting names valid k v 2
| Bad_help : ~ In k names -> k = "help" \/ k = "h" -> BadSetting names valid k v 0.

Lemma assoc_fst_in {A} k (l : list (string * A)) b : assoc k l = Some b -> In k (map fst l).
Proof.
  induction l as [|[k' x] l IH]; [discriminate|]. cbn. destruct (String.eqb_spec k k') as [->|]; [left; reflexivity|right; auto].
Qed.
Lemma bad_step defs valid n d k v r vals code : plainNames defs ->
  d = "-" \/ d = "--" -> PlainSetting k -> BadSetting (map fst defs) valid k v code ->
  exists e, parseSet defs valid (S n) ((d ++ k ++ "=" ++ v)%string :: r) vals = FlagErr e vals /\ flagsExit e = FlagsExit code.
Proof.
  intros PN D (NE & NN & ND) B. destruct k as [|c k]; [congruence|].
  assert (C : c <> "-"%char) by (intros ->; discriminate ND).
  assert (Q : c <> "="%char) by (intros ->; discriminate NE).
  assert (CUT : cut "=" (String c k ++ "=" ++ v) = (String c k, v, true)) by (apply (cut_found "=" (String c k) v NE)).
  apply Ascii.eqb_neq in C as C', Q as Q'.
  assert (X : forall e, (match assoc (String c k) defs with
      | None => if String.eqb (String c k) "help" || String.eqb (String c k) "h" then FlagErr Help vals else FlagErr (NotDefined (String c k)) vals
      | Some true => match assoc v boolWords with Some b => parseSet defs valid n r (mapSet (String c k) (if b then "true" else "false") vals) | None => FlagErr (BadBool (String c k) v) vals end
      | Some false => if valid (String c k) v then parseSet defs valid n r (mapSet (String c k) v vals) else FlagErr (BadBool (String c k) v) vals
      end = e -> exists e0, e = FlagErr e0 vals /\ flagsExit e0 = FlagsExit code)).
  { intros e <-. destruct B as [N H1 H2|I V|N H].
    - destruct (assoc (String c k) defs) as [b|] eqn:A; [exfalso; apply N, (assoc_fst_in _ _ _ A)|].
      apply String.eqb_neq in H1, H2. rewrite H1, H2. eexists. split; reflexivity.
    - apply assoc_In_fst in I as [b A]. rewrite A. destruct (PN _ b A) as (-> & _). rewrite V. eexists. split; reflexivity.
    - destruct (assoc (String c k) defs) as [b|] eqn:A; [exfalso; apply N, (assoc_fst_in _ _ _ A)|].
      assert (E : String.eqb (String c k) "help" || String.eqb (String c k) "h" = true) by (destruct H as [->| ->]; reflexivity).
      rewrite E. eexists. split; reflexivity. }
  destruct D as [->| ->].
  - change ("-" ++ String c k ++ "=" ++ v)%string with (String "-" (String c (k ++ "=" ++ v))).
    change (String c k ++ "=" ++ v)%string with (String c (k ++ "=" ++ v)) in CUT.
    apply X. cbn [parseSet]. destruct (String.eqb_spec (String "-" (String c (k ++ "=" ++ v))) "--") as [[= -> _]|_]; [congruence|].
    rewrite C'. cbv zeta iota beta. rewrite C', Q'. cbn [orb]. rewrite CUT. reflexivity.
  - change ("--" ++ String c k ++ "=" ++ v)%string with (String "-" (String "-" (String c (k ++ "=" ++ v)))).
    change (String c k ++ "=" ++ v)%string with (String c (k ++ "=" ++ v)) in CUT.
    apply X. cbn [parseSet]. cbn [String.eqb Ascii.eqb Bool.eqb]. rewrite C', Q'. cbn [orb]. rewrite CUT. reflexivity.
Qed.

Lemma bad_parse defs valid d settings k v r code : plainNames defs ->
  d = "-" \/ d = "--" -> (forall k v, In (k, v) settings -> In k (map fst defs) /\ valid k v = true) ->
  PlainSetting k -> BadSetting (map fst defs) valid k v code ->
  forall args, args = map (fun '(k, v) => (d ++ k ++ "=" ++ v)%string) settings ++ (d ++ k ++ "=" ++ v)%string :: r ->
  exists e vals, parseSet defs valid (List.length args) args [] = FlagErr e vals /\ flagsExit e = FlagsExit code.
Proof.
  intros PN D V P B args ->.
  enough (H : forall vals0, exists e vals, parseSet defs valid (List.length (map (fun '(k, v) => (d ++ k ++ "=" ++ v)%string) settings ++ (d ++ k ++ "=" ++ v)%string :: r))
      (map (fun '(k, v) => (d ++ k ++ "=" ++ v)%string) settings ++ (d ++ k ++ "=" ++ v)%string :: r) vals0 = FlagErr e vals /\ flagsExit e = FlagsExit code) by apply H.
  induction settings as [|[k' v'] settings IH]; intros vals0.
  - cbn [map app List.length]. destruct (bad_step defs valid (List.length r) d k v r vals0 code PN D P B) as (e & E & F). exists e, vals0. split; [exact E|exact F].
  - destruct (V k' v' (or_introl eq_refl)) as [K W]. apply assoc_In_fst in K as [b A].
    destruct (PN k' b A) as (-> & NE & NN & ND).
    destruct (IH (fun k v I => V k v (or_intror I)) (mapSet k' v' vals0)) as (e & vals & E & F). exists e, vals. split; [|exact F].
    cbn [map app List.length]. rewrite (setting_step defs valid _ d k' v' _ vals0 D A NE NN ND W). exact E.
Qed.

Theorem C63_bad_settings_end_the_tool : forall valid arg mode names d settings k v r code,
  In (mode, names) [("client", ["url"]); ("server", ["port"; "timeout"]); ("waitForServer", ["url"; "timeout"])] ->
  Chooses arg mode -> d = "-" \/ d = "--" -> (forall k v, In (k, v) settings -> In k names /\ valid k v = true) ->
  PlainSetting k -> BadSetting names valid k v code ->
  main valid (arg :: map (fun '(k, v) => (d ++ k ++ "=" ++ v)%string) settings ++ (d ++ k ++ "=" ++ v)%string :: r) = FlagsExit code.
Proof.
  intros valid arg mode names d settings k v r code I C D V P B. unfold main.
  assert (M : In mode modes -> parseSet modeFlags valid 1 (firstn 1 (arg :: map (fun '(k, v) => (d ++ k ++ "=" ++ v)%string) settings ++ (d ++ k ++ "=" ++ v)%string :: r)) [] = Flags [(mode, "true")] [])
    by (intros X; exact (chooses_parse valid arg mode X C)).
  cbn [In] in I. destruct I as [[= <- <-]|[[= <- <-]|[[= <- <-]|[]]]]; (rewrite M; [|cbn; auto 10]); cbn [skipn]; cbv zeta; cbn [isOn flagValue assoc String.eqb Ascii.eqb Bool.eqb orb].
  - destruct (bad_parse clientFlags valid d settings k v r code plain_url D V P B _ eq_refl) as (e & vals & E & F). rewrite E. exact F.
  - destruct (bad_parse serverFlags valid d settings k v r code plain_server D V P B _ eq_refl) as (e & vals & E & F). rewrite E. exact F.
  - destruct (bad_parse waitFlags valid d settings k v r code plain_wait D V P B _ eq_refl) as (e & vals & E & F). rewrite E. exact F.
Qed.
Print Assumptions C63_bad_settings_end_the_tool.
Example C63_bad_settings_example : forall valid, valid "timeout" "x" = false ->
  BadSetting ["port"; "timeout"] valid "timeout" "x" 2 /\ PlainSetting "timeout" /\ BadSetting ["url"] valid "port" "1" 2 /\ PlainSetting "port".
Proof.
  intros valid V. split; [apply Bad_value; [cbn; auto|exact V]|]. split; [repeat split; discriminate|].
  split; [apply Bad_name; [intros [X|[]]; discriminate X|discriminate|discriminate]|repeat split; discriminate].
Qed.

(** ** make test-interoperability *)

(** The target succeeds whatever the tests say: its last command is wait, without operands. *)
Theorem C63_make_reports_failures_refuted :
  (forall serverStatus clientStatus, testInteroperability serverStatus clientStatus = 0%nat) /\
  ~ (forall serverStatus clientStatus, testInteroperability serverStatus clientStatus = 0%nat -> clientStatus = 0%nat).
Proof. split; [reflexivity|]. intros H. specialize (H 0%nat 1%nat eq_refl). discriminate H. Qed.
Print Assumptions C63_make_reports_failures_refuted.

(** ** The hypotheses can be met *)

(** the call of the Makefile *)
Example makefile_server : forall valid, valid "port" "9988" = true -> valid "timeout" "2s" = true ->
  main valid ["-server"; "-port=9988"; "-timeout=2s"] = RunServer "9988" "2s".
Proof.
  intros valid P T. destruct (C63_the_tool_does_what_it_is_told valid "-server" ["-port=9988"; "-timeout=2s"]) as (_ & _ & _ & H).
  destruct (H "-" [("port", "9988"); ("timeout", "2s")] []) as (_ & S & _).
  - split; [left; reflexivity|]. split; [reflexivity|exact I].
  - apply S; [exists "-"; split; [left; reflexivity|left; reflexivity]|].
    intros k v [[= <- <-]|[[= <- <-]|[]]]; (split; [cbn; auto|assumption]).
Qed.

(** arguments in another order or behind a word are not seen *)
Example other_orders : forall valid,
  main valid ["-port=9988"; "-server"] = Usage /\ main valid ["-server"; "now"; "-port=1"] = RunServer "9988" "1m0s" /\
  main valid ["server"] = Usage /\ main valid [] = Usage /\ main valid ["-server=false"] = Usage /\
  main valid ["-client"; "-port=1"] = FlagsExit 2 /\ main valid ["-client"; "-h"] = FlagsExit 0.
Proof. intros valid. repeat split. Qed.

(** a server that is bound after half a second, waited for from the beginning, with calls of 3 ms *)
Example waited : forall ok e,
  WaitRun (60 * second) (seenBy (2 * second) (Around (Some (500 * ms)) None [] []) 0 (fun _ => 3 * ms)) (Calling 0) (Returned ok e) ->
  ok = true /\ 500 * ms <= 0 + e <= 606 * ms.
Proof.
  intros ok e R. refine (C63_waiting_for_the_server (2 * second) (Around (Some (500 * ms)) None [] []) 0 (fun _ => 3 * ms) (3 * ms) _ (500 * ms) ok e _ eq_refl _ eq_refl eq_refl _ _ R).
  - intros _. lia.
  - lia.
  - reflexivity.
  - reflexivity.
Qed.

(** and such runs exist: they go on until they return *)
Example waited_run : exists e,
  WaitRun (60 * second) (seenBy (2 * second) (Around (Some (150 * ms)) None [] []) 0 (fun _ => 3 * ms)) (Calling 0) (Returned true e).
Proof.
  exists (209 * ms).
  eapply RunStep; [apply StepNotReady; exact (CallAnswered (60 * second) (seenBy (2 * second) (Around (Some (150 * ms)) None [] []) 0 (fun _ => 3 * ms)) 0 eq_refl ltac:(discriminate))|].
  eapply RunStep; [apply StepRetry; discriminate|].
  eapply RunStep; [apply StepNotReady; exact (CallAnswered (60 * second) (seenBy (2 * second) (Around (Some (150 * ms)) None [] []) 0 (fun _ => 3 * ms)) (103 * ms) eq_refl ltac:(discriminate))|].
  eapply RunStep; [apply StepRetry; discriminate|].
  eapply RunStep; [apply StepReady; exact (CallAnswered (60 * second) (seenBy (2 * second) (Around (Some (150 * ms)) None [] []) 0 (fun _ => 3 * ms)) (206 * ms) eq_refl ltac:(discriminate))|].
  apply RunHere.
Qed.

(** a server with a request that ends 100 ms after the timeout, and one that comes too late *)
Example served_to_the_end : forall ok e,
  ServerWait (2 * second) (Around (Some 0) None [] [Use second (2 * second + 100 * ms); Use (3 * second) (4 * second)]) ok e ->
  ok = true /\ e <= 2 * second + 563 * ms.
Proof.
  intros ok e S. apply (C63_server_lets_requests_finish _ _ _ _ S). intros u [<-|[<-|[]]] A; [discriminate|discriminate A].
Qed.
