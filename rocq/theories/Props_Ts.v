(** C33: the TypeScript reader of streams.  C41: answers and errors in the TypeScript client. *)
From Verif Require Import Base BaseProofs Utf8 Utf8Proofs Json JsonProofs Schema ValidateSpec.
From Verif Require Props_Validate.
From Verif Require Import GoVal GoValSpec GoValProofs Rpc RpcSpec RpcProofs RpcRemote
  Stream StreamSpec StreamProofs RpcExamples Props_Stream Ts TsSpec TsProofs TsWire.

Lemma join_concat chunks : joinChunks chunks = String.concat EmptyString chunks.
Proof.
  induction chunks as [|c chunks IH]; [reflexivity|]. change (joinChunks (c :: chunks)) with (c ++ joinChunks chunks)%string. rewrite IH.
  destruct chunks; [apply sapp_nil_r|reflexivity].
Qed.

(** The calls of the callbacks depend on the bytes and on how reading ends, not on how the network cuts the bytes into
    chunks, even within a character or an escape. *)
Theorem C33_chunking_is_invisible : forall table status e chunks chunks',
  String.concat EmptyString chunks = String.concat EmptyString chunks' ->
  sseResponse table status e chunks = sseResponse table status e chunks'.
Proof.
  intros table status e c1 c2 E. rewrite <- !join_concat in E. destruct (lines_exist (streamText (joinChunks c1))) as (ls & r & L).
  rewrite (sse_lines table status e c1 ls r L). rewrite E in L. rewrite (sse_lines table status e c2 ls r L). reflexivity.
Qed.
Print Assumptions C33_chunking_is_invisible.

(** Every byte arriving alone: a run with a two-byte character, a ping and an error, cut everywhere. *)
Fixpoint byteByByte (s : string) : list string :=
  match s with EmptyString => [] | String c r => String c EmptyString :: byteByByte r end.
Definition sampleBody : string :=
  (lf ++ "{""message"":{""text"":""caf" ++ String (byte_of_N 0xC3) (String (byte_of_N 0xA9) """}}") ++ lf ++ lf ++
   "{""webrpcError"":{""code"":100,""msg"":""m"",""status"":429}}" ++ lf ++ "ignored")%string.
Example chunks_example :
  sseResponse builtinClasses 200 ReadDone (byteByByte sampleBody) = sseResponse builtinClasses 200 ReadDone [sampleBody] /\
  length (sseResponse builtinClasses 200 ReadDone [sampleBody]) = 2.
Proof. vm_compute. split; reflexivity. Qed.

(** what the callbacks see at the end of a stream *)
Definition TsEnd (table : list tsClass) (ending : streamEnding) (es : list event) : Prop :=
  match ending with
  | SDone => es = [OnClose]
  | SFails x => exists t, es = [OnError t] /\ TsArrived table (toRpcError x) t
  | SPanics _ => False
  end.

(** Server and browser: whatever the schedule of the server's goroutines and whatever the chunks, onMessage is called for
    the handler's messages, in order, each with an object that decodes to the message, and then onClose or onError with the
    handler's error. *)
Theorem C33_every_schedule_and_chunking_delivers : forall env fs msgs ending n w table status chunks,
  HasErrorType env -> (forall vs, In vs msgs -> JsSendable env fs vs) ->
  (forall m, ending <> SPanics m) -> (forall x, ending = SFails x -> SafeCode (toRpcError x)) ->
  steps (start [handlerOps env fs msgs ending; keepAliveOps n]) w -> finished 0 w ->
  String.concat EmptyString chunks = wd_out w ->
  exists ds es, sseResponse table status ReadDone chunks = map (fun d => OnMessage (Some d)) ds ++ es /\
    Forall2 (DecodesTo env fs) msgs ds /\ TsEnd table ending es.
Proof.
  intros env fs msgs ending n w table status chunks HE S NP SC R F C.
  destruct (handler_done _ n w (handler_locked env fs msgs ending NP) R F) as (l & B & E).
  set (e := match ending with SFails x => Some (toRpcError x) | _ => None end).
  assert (EH : handlerOps env fs msgs ending = [pingOp] ++ map (writeOp env fs) msgs ++ match e with None => [] | Some r => [errorOp env r] end).
  { unfold handlerOps, e. destruct ending; [reflexivity|reflexivity|exfalso; eapply NP; reflexivity]. }
  rewrite EH in B. apply between_app in B. destruct B as (l1 & l2 & -> & B1 & B2). apply between_app in B2. destruct B2 as (l3 & l4 & -> & B3 & B4).
  assert (P1 : exists rss, Forall2 textLine l1 rss /\ onLines table status rss = ([], false)).
  { clear - B1. remember [pingOp] as q eqn:E. induction B1 as [|q out B IH|x q out B IH]; [discriminate| |].
    - destruct (IH E) as (rss & F & O). exists ([] :: rss). split; [constructor; [exact ping_text|exact F]|]. cbn [onLines onLine]. rewrite O. reflexivity.
    - injection E as -> ->. destruct (pings_text out B table status) as (rss & F & O). exists ([] :: rss).
      split; [constructor; [exact ping_text|exact F]|]. cbn [onLines onLine]. rewrite O. reflexivity. }
  destruct P1 as (rs1 & F1 & O1).
  destruct (messages_text env fs table status msgs S l3 B3) as (rs3 & ds & F3 & O3 & D3).
  destruct (ending_text env table status e l4 HE) as (rs4 & es & F4 & O4 & D4); [|exact B4|].
  { intros r Hr. unfold e in Hr. destruct ending; try discriminate Hr. injection Hr as <-. apply SC. reflexivity. }
  assert (FA : Forall2 textLine (l1 ++ l3 ++ l4) (rs1 ++ rs3 ++ rs4)) by (repeat apply Forall2_app; assumption).
  destruct (stream_lines _ _ EmptyString FA eq_refl) as (t & L). rewrite sapp_nil_r, <- E, <- C, <- join_concat in L.
  rewrite (sse_lines table status ReadDone chunks _ _ L), !onLines_app, O1, O3, O4. cbn [fst snd app].
  exists ds. eexists. split; [rewrite <- app_assoc; reflexivity|]. split; [exact D3|].
  unfold TsEnd, e in *. destruct ending as [|x|m]; [| |exfalso; eapply NP; reflexivity]; cbn [finishEvents].
  - rewrite D4. reflexivity.
  - destruct D4 as (tt & -> & A). exists tt. split; [reflexivity|exact A].
Qed.
Print Assumptions C33_every_schedule_and_chunking_delivers.

(** The connection may break after any byte, in whatever way: onMessage was called for a beginning of the handler's messages. *)
Theorem C33_broken_streams_deliver_a_beginning : forall env fs msgs ending n w table status how chunks,
  HasErrorType env -> (forall vs, In vs msgs -> JsSendable env fs vs) ->
  (forall m, ending <> SPanics m) -> (forall x, ending = SFails x -> IntError (toRpcError x) /\ SafeCode (toRpcError x)) ->
  steps (start [handlerOps env fs msgs ending; keepAliveOps n]) w ->
  PrefixS (String.concat EmptyString chunks) (wd_out w) ->
  exists ms ds es, sseResponse table status how chunks = map (fun d => OnMessage (Some d)) ds ++ es /\
    Forall2 (DecodesTo env fs) ms ds /\ Prefix ms msgs /\
    (es = finishEvents table how \/ ms = msgs /\ TsEnd table ending es).
Proof.
  intros env fs msgs ending n w table status how chunks HE S NP SC R [x P].
  destruct (handler_cut _ n w (handler_locked env fs msgs ending NP) R) as (l & left & B & [y Q]).
  rewrite <- join_concat in P. set (p := joinChunks chunks) in *.
  assert (P' : PrefixS p (allBytes l)) by (exists (x ++ y)%string; rewrite Q, P, sapp_assoc; reflexivity). clear P Q.
  assert (LN : Forall isLine (handlerOps env fs msgs ending)).
  { constructor; [exact ping_line|]. apply Forall_app. split.
    - apply Forall_forall. intros o Ho. apply in_map_iff in Ho. destruct Ho as (vs & <- & Hv). apply write_line, S, Hv.
    - destruct ending; [constructor| |exfalso; eapply NP; reflexivity]. constructor; [|constructor].
      destruct (SC e eq_refl) as [[] _]. apply errorOp_line; auto. }
  pose proof (between_forall isLine _ _ _ B ping_line LN) as LL. apply Forall_app in LL. destruct LL as [LL _].
  destruct (cut_lines l LL p P') as (l1 & l2 & q & -> & EP & NQ).
  destruct (between_prefix _ _ _ B l1 (l2 ++ left)) as (H1 & H2 & EH & B1); [rewrite app_assoc; reflexivity|].
  assert (K : exists ms rss ds es stop, Forall2 textLine l1 rss /\ onLines table status rss = (map (fun d => OnMessage (Some d)) ds ++ es, stop) /\
    Forall2 (DecodesTo env fs) ms ds /\ Prefix ms msgs /\ (es = [] /\ stop = false \/ stop = true /\ ms = msgs /\ TsEnd table ending es)).
  { destruct H1 as [|h H1].
    { destruct (pings_text l1 B1 table status) as (rss & F & O). exists [], rss, [], [], false.
      split; [exact F|]. split; [exact O|]. split; [constructor|]. split; [exists msgs; reflexivity|auto]. }
    unfold handlerOps in EH. cbn [app] in EH. injection EH as <- EH.
    change (pingOp :: H1) with ([pingOp] ++ H1) in B1. apply between_app in B1. destruct B1 as (la & lb & -> & BA & BB).
    assert (P1 : exists rss, Forall2 textLine la rss /\ onLines table status rss = ([], false)).
    { clear - BA. remember [pingOp] as qq eqn:E. induction BA as [|qq out B IH|x qq out B IH]; [discriminate| |].
      - destruct (IH E) as (rss & F & O). exists ([] :: rss). split; [constructor; [exact ping_text|exact F]|]. cbn [onLines onLine]. rewrite O. reflexivity.
      - injection E as -> ->. destruct (pings_text out B table status) as (rss & F & O). exists ([] :: rss).
        split; [constructor; [exact ping_text|exact F]|]. cbn [onLines onLine]. rewrite O. reflexivity. }
    destruct P1 as (ra & FA & OA).
    destruct (app_prefix_cases _ _ _ _ (eq_sym EH)) as [[c EC]|(c & -> & NE & EC)].
    - destruct (map_prefix _ _ _ _ EC) as (m1 & m2 & -> & <-).
      destruct (messages_text env fs table status m1) with (l := lb) as (rb & ds & FB & OB & DB); [intros v Hv; apply S, in_app_iff; auto|exact BB|].
      exists m1, (ra ++ rb), ds, [], false. split; [apply Forall2_app; assumption|].
      split; [rewrite onLines_app, OA, OB, app_nil_r; reflexivity|]. split; [exact DB|]. split; [exists m2; reflexivity|auto].
    - destruct ending as [|e|m]; [destruct c; [congruence|discriminate EC]| |exfalso; eapply NP; reflexivity].
      destruct c as [|o c]; [congruence|]. cbn in EC. injection EC as <- EC. destruct c; [|discriminate EC].
      apply between_app in BB. destruct BB as (lc & ld & -> & BC & BD).
      destruct (messages_text env fs table status msgs S lc BC) as (rb & ds & FB & OB & DB).
      destruct (ending_text env table status (Some (toRpcError e)) ld HE) as (rd & es & FD & OD & t & -> & TA); [|exact BD|].
      { intros r [= <-]. apply (SC e eq_refl). }
      exists msgs, (ra ++ rb ++ rd), ds, [OnError t], true. split; [repeat apply Forall2_app; assumption|].
      split; [rewrite !onLines_app, OA, OB, OD; reflexivity|]. split; [exact DB|]. split; [exists []; rewrite app_nil_r; reflexivity|].
      right. split; [reflexivity|]. split; [reflexivity|]. exists t. auto. }
  destruct K as (ms & rss & ds & es & stop & F & O & D & PR & CASES).
  destruct (stream_lines l1 rss q F NQ) as (t & L). rewrite <- EP in L. unfold p in L.
  rewrite (sse_lines table status how chunks _ _ L), O. cbn [fst snd].
  destruct CASES as [[-> ->]|(-> & -> & TE)].
  - exists ms, ds, (finishEvents table how). rewrite app_nil_r. auto.
  - exists msgs, ds, es. rewrite app_nil_r. auto 6.
Qed.
Print Assumptions C33_broken_streams_deliver_a_beginning.

Example chat_in_the_browser : exists w,
  steps (start [handlerOps chatStructs chatPayload [chatMessage 1 "hi"; chatMessage 2 "there"] (SFails (ERpc errRateLimited)); keepAliveOps 3]) w /\
  finished 0 w /\ exists ds t, sseResponse (builtinClasses ++ [TsClass "RateLimited" 100 "too many requests" 429]) 200 ReadDone (byteByByte (wd_out w)) =
    map (fun d => OnMessage (Some d)) ds ++ [OnError t] /\ length ds = 2 /\ tc_name (te_class t) = "RateLimited".
Proof.
  destruct (C32_runs_exist chatStructs chatPayload [chatMessage 1 "hi"; chatMessage 2 "there"] (SFails (ERpc errRateLimited)) 3) as (w & S & F); [discriminate|].
  exists w. split; [exact S|]. split; [exact F|].
  destruct (C33_every_schedule_and_chunking_delivers chatStructs chatPayload [chatMessage 1 "hi"; chatMessage 2 "there"]
    (SFails (ERpc errRateLimited)) 3 w (builtinClasses ++ [TsClass "RateLimited" 100 "too many requests" 429]) 200 (byteByByte (wd_out w)))
    as (ds & es & E & D & t & -> & A); [reflexivity| | | |exact S|exact F| |].
  - intros vs [<-|[<-|[]]]; split; try (apply chat_sendable; [lia|apply ascii_valid; reflexivity]); cbn; intuition discriminate.
  - discriminate.
  - intros x [= <-]. unfold SafeCode. cbn. lia.
  - rewrite <- join_concat. clear. induction (wd_out w) as [|c s IH]; [reflexivity|]. cbn. unfold joinChunks in IH. rewrite IH. reflexivity.
  - exists ds, t. split; [exact E|]. split; [inversion D as [|? ? ? ? _ D2]; inversion D2 as [|? ? ? ? _ D3]; inversion D3; reflexivity|]. rewrite (proj1 A). reflexivity.
Qed.

(** *** What the reader does with other bodies *)

(** A last line without line feed is dropped, and the end is reported as regular. *)
Theorem C33_unfinished_lines_are_reported_refuted : exists chunks,
  sseResponse builtinClasses 200 ReadDone chunks = [OnClose] /\ exists j, parseJ (String.concat EmptyString chunks) = Some j.
Proof. exists ["{""message"":1}"]. vm_compute. split; [reflexivity|eauto]. Qed.
Print Assumptions C33_unfinished_lines_are_reported_refuted.

(** After a line that is not JSON the reader reports an error and then delivers undefined as a message. *)
Theorem C33_only_messages_are_delivered_refuted : exists chunks e,
  sseResponse builtinClasses 200 ReadDone chunks = [OnError e; OnMessage None; OnClose].
Proof. exists [("{" ++ lf)%string], (badResponse 200). vm_compute. reflexivity. Qed.
Print Assumptions C33_only_messages_are_delivered_refuted.

(** ** C41 *)

(** Results of a call arrive: the promise resolves to an object that decodes to the results. *)
Theorem C41_results_arrive : forall table env fs vs,
  Carries env fs vs ->
  exists body d, marshalStruct env fs vs = Some body /\ buildResponse table 200 body = TsData d /\ DecodesTo env fs vs d.
Proof.
  intros table env fs vs C. destruct (carried env fs vs C) as (l & T & W & D & R). exists (printJ (JObj l)), (JObj l).
  unfold marshalStruct. rewrite T. split; [reflexivity|]. split; [|exact R].
  unfold buildResponse. rewrite (text_of_print (JObj l) (wf_nums _ W) D (ex_intro _ l eq_refl)), (wf_san _ W). reflexivity.
Qed.
Print Assumptions C41_results_arrive.

(** Errors of a call arrive: the promise is rejected with an error of the class declared for the code, with the code, the
    status and the cause of the server. *)
Theorem C41_errors_arrive : forall table e,
  ~ (200 <= re_status e <= 299)%Z -> SafeCode e ->
  exists t, buildResponse table (re_status e) (marshalError e) = TsFails t /\ TsArrived table e t.
Proof.
  intros table e NO S. eexists. split; [|apply (new_arrived table e S)].
  unfold buildResponse. rewrite marshalError_eq.
  rewrite (text_of_print _ (errorMembers_nums e) (errorMembers_depth e) (ex_intro _ _ eq_refl)).
  assert (ok (re_status e) = false) as ->.
  { unfold ok. apply andb_false_iff. rewrite !Z.leb_gt. lia. }
  rewrite san_errorMembers. reflexivity.
Qed.
Print Assumptions C41_errors_arrive.

(** the classes generated for a schema *)
Definition classOf (x : Schema.error) : tsClass := TsClass (x_name x) (x_code x) (x_message x) (x_status x).

Lemma builtin_classes : map classOf builtinErrors = builtinClasses.
Proof. reflexivity. Qed.

Lemma find_class l c : find (fun k => (tc_code k =? c)%Z) (map classOf l) = option_map classOf (find (fun x => (x_code x =? c)%Z) l).
Proof. induction l as [|x l IH]; [reflexivity|]. cbn [map find classOf tc_code]. destruct (x_code x =? c)%Z; [reflexivity|exact IH]. Qed.

(** For an accepted schema each declared or built-in error has its own class, so an error the implementation raises is caught
    under the name it was declared with, with the declared message. *)
Theorem C41_declared_errors_have_their_class : forall u s s' x e,
  validate u s = Ok s' -> In x (builtinErrors ++ sc_errors s') -> re_code e = x_code x ->
  ~ (200 <= re_status e <= 299)%Z -> SafeCode e ->
  exists t, buildResponse (map classOf (builtinErrors ++ sc_errors s')) (re_status e) (marshalError e) = TsFails t /\
    tc_name (te_class t) = x_name x /\ te_message t = x_message x /\ te_code t = JNum (zdec (x_code x)).
Proof.
  intros u s s' x e V I C NO S. destruct (C41_errors_arrive (map classOf (builtinErrors ++ sc_errors s')) e NO S) as (t & E & A).
  exists t. split; [exact E|]. destruct A as (A1 & A2 & A3 & A4 & A5).
  destruct (Props_Validate.C11_decoding_by_code_is_unambiguous _ _ _ V) as (_ & _ & D).
  unfold classFor in *. rewrite find_class, C, (D x I) in *. cbn [option_map classOf tc_name tc_message] in *. rewrite A1, A2, A4. auto.
Qed.
Print Assumptions C41_declared_errors_have_their_class.

(** The text the server sends ("msg") is not read: the client shows the text of the class, also when the server's differs. *)
Theorem C41_error_messages_arrive_refuted : exists e t,
  SafeCode e /\ re_message e = "quota of 5 requests used up" /\
  buildResponse builtinClasses (re_status e) (marshalError e) = TsFails t /\ te_message t = "endpoint error".
Proof.
  exists (declaredError "Quota" 7 "quota of 5 requests used up" 429). eexists. split; [unfold SafeCode; cbn; lia|]. split; [reflexivity|].
  split; [vm_compute; reflexivity|reflexivity].
Qed.
Print Assumptions C41_error_messages_arrive_refuted.

(** An error answer whose body is null makes the client throw a TypeError instead of an error of its own. *)
Theorem C41_every_failure_is_a_webrpc_error_refuted : exists body, buildResponse builtinClasses 500 body = TsThrows.
Proof. exists "null". reflexivity. Qed.
Print Assumptions C41_every_failure_is_a_webrpc_error_refuted.

(** Any other body that is no error object still gives an error of the client, and a status of 2xx never gives one with a
    readable body. *)
Theorem C41_every_answer_is_classified : forall table status body,
  match buildResponse table status body with
  | TsData d => ok status = true /\ jsParse (decodeText body) = Some d
  | TsFails t => te_code t = JNum (zdec (-5)) /\ jsParse (decodeText body) = None \/
      ok status = false /\ exists d, jsParse (decodeText body) = Some d /\ te_cause t = getMember "cause" d
  | TsThrows => ok status = false /\ jsParse (decodeText body) = Some JNull
  end.
Proof.
  intros table status body. unfold buildResponse. destruct (jsParse (decodeText body)) as [d|]; [|left; auto].
  destruct (ok status); [auto|]. destruct d; auto; right; (split; [reflexivity|]); eexists; (split; [reflexivity|]); reflexivity.
Qed.
Print Assumptions C41_every_answer_is_classified.
