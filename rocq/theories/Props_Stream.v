(** C32: streaming. *)
From Verif Require Import Base BaseProofs Utf8 Utf8Proofs Json JsonProofs GoVal GoValSpec GoValProofs Rpc RpcSpec RpcProofs RpcRemote
  Stream StreamSpec StreamProofs RpcExamples.

(** ** The chat service of the example *)

(** _examples/webrpc-streaming/proto/chat.gen.go 137-142; time.Time is written as a string *)
Definition chatStructs : goEnv :=
  [ ("Message", [GF "id" false uint64Ty; GF "username" false TString; GF "text" false TString; GF "createdAt" false TString]);
    ("WebRPCError", errorFields) ].
(** 70-78, 201-204 *)
Definition chatPayload : list goField := [GF "message" false (TRef "Message")].

Definition chatMessage (n : Z) (text : string) : list gval :=
  [VPtr (Some (VStruct [VInt n; VStr "bob"; VStr text; VStr "2024-01-01T00:00:00Z"]))].

Lemma chat_sendable n text : (0 <= n < 2 ^ 64)%Z -> ValidUtf8 text -> Sendable chatStructs chatPayload (chatMessage n text).
Proof.
  intros R V. split; [|cbn; intuition discriminate]. split; [|apply N.leb_le; reflexivity].
  apply FFCons; [|txt|cbn; tauto|intros; discriminate|apply FFNil].
  eapply FRef; [reflexivity|]. unfold uint64Ty.
  apply FFCons; [apply FInt; cbn [gf_ty]; lia|txt|names_in|intros; discriminate|].
  apply FFCons; [fits|txt|names_in|intros; discriminate|].
  apply FFCons; [apply FStr; exact V|txt|names_in|intros; discriminate|fits].
Qed.

Lemma handler_locked env fs msgs e : (forall m, e <> SPanics m) -> forall o, In o (handlerOps env fs msgs e) -> op_locked o = true.
Proof.
  intros NP o [<-|H]; [reflexivity|]. apply in_app_iff in H. destruct H as [H|H].
  - apply in_map_iff in H. destruct H as (vs & <- & _). reflexivity.
  - destruct e; cbn in H; [tauto|destruct H as [<-|[]]; reflexivity|exfalso; eapply NP; reflexivity].
Qed.

Lemma programs_locked env fs msgs e n : (forall m, e <> SPanics m) -> locked [handlerOps env fs msgs e; keepAliveOps n].
Proof.
  intros NP p o [<-|[<-|[]]] Ho; [eapply handler_locked; eauto|]. apply repeat_spec in Ho. subst. reflexivity.
Qed.

Lemma san_arrived e : ErrorArrived e (sanError e).
Proof. unfold ErrorArrived, sanError. cbn. repeat split; apply san_valid. Qed.

Lemma end_reported tail : ReportsEnd tail (endError tail).
Proof. destruct tail; split; reflexivity. Qed.

(** what the reader reports at the end *)
Definition EndsWith (e : streamEnding) (tail : bodyEnd) (r : rpcError) : Prop :=
  match e with
  | SDone => ReportsEnd tail r
  | SFails x => ErrorArrived (toRpcError x) r
  | SPanics _ => False
  end.

(** Whatever the schedule of the handler and the keep-alive goroutine, byte by byte, once the handler is done the reader gets
    the messages of the handler, in order, and then the end of the stream or the error of the handler. *)
Theorem C32_every_schedule_delivers : forall env fs msgs ending n w tail,
  HasErrorType env -> (forall vs, In vs msgs -> Sendable env fs vs) -> ~ In "webrpcError" (map gf_name fs) ->
  (forall m, ending <> SPanics m) -> (forall x, ending = SFails x -> IntError (toRpcError x)) ->
  steps (start [handlerOps env fs msgs ending; keepAliveOps n]) w -> finished 0 w ->
  exists r, received env fs tail (wd_out w) = (msgs, Some r) /\ EndsWith ending tail r.
Proof.
  intros env fs msgs ending n w tail HE S N NP IE R F.
  destruct (handler_done _ n w (handler_locked env fs msgs ending NP) R F) as (l & B & ->).
  destruct ending as [|x|m]; [| |exfalso; eapply NP; reflexivity]; cbn in B.
  - exists (endError tail). split; [|apply end_reported]. apply (stream_received env fs tail msgs None l); auto. discriminate.
  - exists (sanError (toRpcError x)). split; [|apply san_arrived].
    apply (stream_received env fs tail msgs (Some (toRpcError x)) l); auto. intros r [= <-]. apply IE. reflexivity.
Qed.
Print Assumptions C32_every_schedule_delivers.

(** The connection may be cut after any byte of any run: what the reader got is a beginning of the messages, whole and in
    order; it reports the handler's error only after all of them. *)
Theorem C32_cut_streams_deliver_a_beginning : forall env fs msgs ending n w p tail,
  HasErrorType env -> (forall vs, In vs msgs -> Sendable env fs vs) -> ~ In "webrpcError" (map gf_name fs) ->
  (forall m, ending <> SPanics m) -> (forall x, ending = SFails x -> IntError (toRpcError x)) ->
  steps (start [handlerOps env fs msgs ending; keepAliveOps n]) w -> PrefixS p (wd_out w) ->
  exists ms r, received env fs tail p = (ms, Some r) /\ Prefix ms msgs /\
    (ReportsEnd tail r \/ (ms = msgs /\ EndsWith ending tail r)).
Proof.
  intros env fs msgs ending n w p tail HE S N NP IE R [x P].
  destruct (handler_cut _ n w (handler_locked env fs msgs ending NP) R) as (l & left & B & [y Q]).
  assert (P' : PrefixS p (allBytes l)) by (exists (x ++ y)%string; rewrite Q, P, sapp_assoc; reflexivity).
  destruct ending as [|e|m]; [| |exfalso; eapply NP; reflexivity]; cbn in B.
  - destruct (cut_received env fs tail msgs None l p) as (ms & r & E & PR & D); eauto; [discriminate|].
    exists ms, r. split; [exact E|]. split; [exact PR|]. left. destruct D as [->|(z & Z & _)]; [apply end_reported|discriminate Z].
  - destruct (cut_received env fs tail msgs (Some (toRpcError e)) l p) as (ms & r & E & PR & D); eauto.
    { intros r [= <-]. apply IE. reflexivity. }
    exists ms, r. split; [exact E|]. split; [exact PR|]. destruct D as [->|(z & [= <-] & -> & ->)]; [left; apply end_reported|].
    right. split; [reflexivity|apply san_arrived].
Qed.
Print Assumptions C32_cut_streams_deliver_a_beginning.

(** A message whose line was delivered is received, whatever follows. *)
Theorem C32_delivered_lines_are_received : forall env fs tail msgs rest,
  (forall vs, In vs msgs -> Sendable env fs vs) ->
  exists ms r, received env fs tail (String.concat EmptyString (map (encode env fs) msgs) ++ rest)%string = (msgs ++ ms, r).
Proof.
  intros env fs tail msgs rest S. eexists _, _.
  assert (String.concat EmptyString (map (encode env fs) msgs) = allBytes (map (writeOp env fs) msgs)) as ->.
  { clear. induction msgs as [|m msgs IH]; [reflexivity|]. cbn [map]. destruct msgs as [|m2 msgs].
    - cbn [map String.concat allBytes]. rewrite sapp_nil_r. reflexivity.
    - cbn [map String.concat allBytes] in *. rewrite IH. reflexivity. }
  apply (received_messages env fs tail msgs S). induction (map (writeOp env fs) msgs); constructor; auto.
Qed.
Print Assumptions C32_delivered_lines_are_received.

(** An implementation may write from several goroutines: with any number of them the reader gets a merge of their messages,
    none lost, none doubled, each goroutine's in order. *)
Theorem C32_concurrent_writers : forall env fs writers n w tail,
  (forall msgs vs, In msgs writers -> In vs msgs -> Sendable env fs vs) ->
  steps (start (keepAliveOps n :: map (map (writeOp env fs)) writers)) w ->
  (forall th, In th (wd_threads w) -> th = Thread [] None) ->
  exists order, Takes writers order (map (fun _ => []) writers) /\
    exists r, received env fs tail (wd_out w) = (order, Some r) /\ ReportsEnd tail r.
Proof.
  intros env fs writers n w tail S R D.
  assert (L : locked (keepAliveOps n :: map (map (writeOp env fs)) writers)).
  { intros p o [<-|H] Ho; [apply repeat_spec in Ho; subst; reflexivity|].
    apply in_map_iff in H. destruct H as (ms & <- & _). apply in_map_iff in Ho. destruct Ho as (vs & <- & _). reflexivity. }
  destruct (allDone_out _ _ L R D) as (l & T & E). unfold keepAliveOps in T.
  destruct (takes_writers _ _ _ _ _ T) as (k & order & ws' & EQ & TW & B).
  assert (ws' = map (fun _ => []) writers) as ->.
  { cbn [map] in EQ. injection EQ as _ EQ. rewrite map_map in EQ. clear - EQ. revert writers EQ.
    induction ws' as [|x ws IH]; intros [|y wr] EQ; cbn in EQ; try discriminate EQ; [reflexivity|]. injection EQ as E1 E2.
    cbn. rewrite <- (IH wr E2). destruct x; [reflexivity|discriminate E1]. }
  exists order. split; [exact TW|]. exists (endError tail). split; [|apply end_reported]. rewrite E, <- (sapp_nil_r (allBytes l)).
  rewrite (received_messages env fs tail order) with (rest := EmptyString); [|clear - TW S|exact B].
  - rewrite received_empty. cbn [fst snd]. rewrite app_nil_r. reflexivity.
  - intros vs. revert S. induction TW as [ps|i o rest ps l' ps' N T IH]; intros S H; [destruct H|].
    destruct H as [<-|H].
    + apply (S (o :: rest)); [eapply nth_error_In, N|left; reflexivity].
    + apply IH; [|exact H]. intros msgs v Hm Hv. apply In_nth_error in Hm. destruct Hm as [j Hj].
      destruct (Nat.eq_dec i j) as [->|NE].
      * rewrite (nth_setNth _ _ _ _ N) in Hj. injection Hj as <-. apply (S (o :: rest)); [eapply nth_error_In, N|right; exact Hv].
      * rewrite nth_setNth_ne in Hj by exact NE. apply (S msgs); [eapply nth_error_In, Hj|exact Hv].
Qed.
Print Assumptions C32_concurrent_writers.

(** No schedule deadlocks and every schedule is finite: from every reachable state every maximal run ends with all calls made. *)
Theorem C32_no_deadlock : forall env fs msgs ending n w,
  (forall m, ending <> SPanics m) -> steps (start [handlerOps env fs msgs ending; keepAliveOps n]) w ->
  (forall th, In th (wd_threads w) -> th = Thread [] None) \/ exists w', step w w'.
Proof. intros env fs msgs ending n w NP R. eapply no_deadlock; [apply programs_locked, NP|exact R]. Qed.
Print Assumptions C32_no_deadlock.

Theorem C32_every_schedule_ends : well_founded (fun w' w => step w w').
Proof.
  apply well_founded_lt_compat with (f := work). intros w' w S. apply step_work, S.
Qed.
Print Assumptions C32_every_schedule_ends.

(** A run with pings exists for every such stream, so the theorems above are not empty. *)
Theorem C32_runs_exist : forall env fs msgs ending n, (forall m, ending <> SPanics m) ->
  exists w, steps (start [handlerOps env fs msgs ending; keepAliveOps n]) w /\ finished 0 w.
Proof.
  intros env fs msgs ending n NP.
  pose proof (programs_locked env fs msgs ending n NP) as L.
  destruct (completes _ _ L (StepsRefl _)) as (w & S & D). exists w. split; [exact S|].
  destruct (inv_steps _ _ L S) as [l out ths E T F|k l o written left rest out ths E1 E2 NK T F]; unfold finished, allDone in *; cbn [wd_threads] in *.
  - destruct (takes_two _ _ _ _ T) as (a & b & Q). destruct ths as [|t ths]; [discriminate Q|]. cbn. rewrite (D t (or_introl eq_refl)). reflexivity.
  - apply nth_error_In, D in NK. discriminate NK.
Qed.
Print Assumptions C32_runs_exist.

Example chat_run : exists w,
  steps (start [handlerOps chatStructs chatPayload [chatMessage 1 "hi"; chatMessage 2 ("line" ++ chr 10 ++ "two")] (SFails (ERpc errRateLimited)); keepAliveOps 3]) w /\
  finished 0 w /\ exists r,
  received chatStructs chatPayload EndEOF (wd_out w) = ([chatMessage 1 "hi"; chatMessage 2 ("line" ++ chr 10 ++ "two")], Some r) /\
  re_code r = 100%Z.
Proof.
  destruct (C32_runs_exist chatStructs chatPayload [chatMessage 1 "hi"; chatMessage 2 ("line" ++ chr 10 ++ "two")] (SFails (ERpc errRateLimited)) 3) as (w & S & F); [discriminate|].
  exists w. split; [exact S|]. split; [exact F|].
  destruct (C32_every_schedule_delivers chatStructs chatPayload [chatMessage 1 "hi"; chatMessage 2 ("line" ++ chr 10 ++ "two")]
    (SFails (ERpc errRateLimited)) 3 w EndEOF) as (r & E & A); [reflexivity| | | | |exact S|exact F|].
  - intros vs [<-|[<-|[]]]; apply chat_sendable; try lia; apply ascii_valid; reflexivity.
  - cbn. intuition discriminate.
  - discriminate.
  - intros x [= <-]. unfold IntError, Int64. cbn. lia.
  - exists r. split; [exact E|]. apply A.
Qed.

(** *** Where the guarantee ends *)

Definition panicStream : list (list op) := [handlerOps chatStructs chatPayload [] (SPanics "boom"); keepAliveOps 1].
Definition panicLine : string := Eval vm_compute in errorLine chatStructs (withCausef ErrWebrpcServerPanic "boom").

(** The answer to a panic of the implementation is written without the mutex: a ping of the keep-alive goroutine, which runs
    until the deferred calls are done, can split it, and then the client does not see the panic. *)
Theorem C32_panic_answer_refuted : exists w,
  steps (start panicStream) w /\ (forall th, In th (wd_threads w) -> th = Thread [] None) /\
  received chatStructs chatPayload EndEOF (wd_out w) = ([], Some (withCausef ErrWebrpcBadResponse "reading stream")) /\
  re_code ErrWebrpcBadResponse <> re_code ErrWebrpcServerPanic.
Proof.
  set (P := panicOp chatStructs "boom").
  exists (World None (lf ++ String "{" lf ++ match panicLine with String _ r => r | _ => EmptyString end) [Thread [] None; Thread [] None]).
  split; [|split; [|split; [vm_compute; reflexivity|discriminate]]].
  - eapply steps_trans; [apply (run_locked 0 pingOp [P]); reflexivity|]. cbn [setNth map].
    eapply steps_trans; [eapply StepsTrans; [apply StepsRefl|apply (StepBegin 0 P []); reflexivity]|]. cbn [setNth].
    assert (EP : op_bytes P = ("{" ++ match panicLine with String _ r => r | _ => EmptyString end)%string) by (vm_compute; reflexivity).
    rewrite EP. eapply steps_trans; [apply (run_writes 0 false []); reflexivity|]. cbn [setNth].
    eapply steps_trans; [apply (run_locked 1 pingOp []); reflexivity|]. cbn [setNth].
    eapply steps_trans; [apply (run_writes 0 false [] EmptyString (match panicLine with String _ r => r | _ => EmptyString end)); vm_compute; reflexivity|].
    cbn [setNth]. eapply StepsTrans; [apply StepsRefl|].
    match goal with |- step (World ?l ?o ?ths) ?w =>
      replace w with (World l o (setNth 0 (Thread [] None) ths)) by (vm_compute; reflexivity) end.
    eapply StepEnd. reflexivity.
  - intros th [<-|[<-|[]]]; reflexivity.
Qed.
Print Assumptions C32_panic_answer_refuted.

(** The keep-alive goroutine is not waited for: after the handler is done a ping can still be written to the response. *)
Theorem C32_no_writes_after_the_handler_refuted : exists w w',
  steps (start [handlerOps chatStructs chatPayload [] SDone; keepAliveOps 1]) w /\ finished 0 w /\
  steps w w' /\ wd_out w' <> wd_out w.
Proof.
  exists (World None lf [Thread [] None; Thread [pingOp] None]), (World None (lf ++ lf) [Thread [] None; Thread [] None]).
  split; [apply (run_locked 0 pingOp []); reflexivity|]. split; [reflexivity|].
  split; [apply (run_locked 1 pingOp []); reflexivity|discriminate].
Qed.
Print Assumptions C32_no_writes_after_the_handler_refuted.

