(** C56, continued: streams between programs of different versions. Theorems only.
    Model: Stream.v (chat.gen.go), GoVal.v.  Specification: VersionSpec.v, StreamSpec.v. *)
From Coq Require Import Lia.
From Verif Require Import Base BaseProofs Utf8 Json JsonProofs GoVal GoValSpec GoValProofs Rpc RpcSpec RpcProofs RpcRemote RpcExamples
  Stream StreamSpec StreamProofs JsOrder VersionSpec VersionProofs VersionRpc StreamVersion.
From Verif Require Import Props_Stream Props_Versions.

(** The server's version has the structs [env] and the messages [fs], the client's [env'] and [fs'].  Whatever the schedule of
    the handler and the keep-alive goroutine, the client gets each message of the handler, in order, as its version sees it, and then the end of
    the stream or the error of the handler. *)
Theorem C56_streams_between_versions : forall same env env' fs fs' msgs ending n w tail,
  HasErrorType env -> HasErrorType env' -> StructsAgree same env env' -> FieldsAgree same fs fs' ->
  NotReserved fs -> NotReserved fs' -> (forall vs, In vs msgs -> Carries env fs vs) ->
  (forall m, ending <> SPanics m) -> (forall x, ending = SFails x -> IntError (toRpcError x)) ->
  steps (start [handlerOps env fs msgs ending; keepAliveOps n]) w -> finished 0 w ->
  exists msgs' r, received env' fs' tail (wd_out w) = (msgs', Some r) /\
    Forall2 (fun vs vs' => SeesFields same env env' fs vs fs' vs') msgs msgs' /\ EndsWith ending tail r.
Proof.
  intros same env env' fs fs' msgs ending n w tail HE HE' SA FA N N' C NP IE R F.
  set (g := readBack env env' fs fs').
  assert (U : Understood env env' fs fs' g msgs) by (intros vs I; apply (version_line same env env' fs fs' vs SA FA N N' (C vs I))).
  assert (S : Forall2 (fun vs vs' => SeesFields same env env' fs vs fs' vs') msgs (map g msgs))
    by (apply forall2_map; intros vs I; apply (version_line same env env' fs fs' vs SA FA N N' (C vs I))).
  destruct (handler_done _ n w (handler_locked env fs msgs ending NP) R F) as (l & B & ->).
  exists (map g msgs). destruct ending as [|x|m]; [| |exfalso; eapply NP; reflexivity]; cbn in B.
  - exists (endError tail). split; [|split; [exact S|apply end_reported]].
    apply (understood_stream env env' fs fs' g tail msgs None l HE HE' U B (reserved_in _ N')). discriminate.
  - exists (sanError (toRpcError x)). split; [|split; [exact S|apply san_arrived]].
    apply (understood_stream env env' fs fs' g tail msgs (Some (toRpcError x)) l HE HE' U B (reserved_in _ N')).
    intros r [= <-]. apply IE. reflexivity.
Qed.
Print Assumptions C56_streams_between_versions.

(** The connection may be cut after any byte: the client gets a beginning of the messages, each as its version sees it. *)
Theorem C56_cut_streams_between_versions : forall same env env' fs fs' msgs ending n w p tail,
  HasErrorType env -> HasErrorType env' -> StructsAgree same env env' -> FieldsAgree same fs fs' ->
  NotReserved fs -> NotReserved fs' -> (forall vs, In vs msgs -> Carries env fs vs) ->
  (forall m, ending <> SPanics m) -> (forall x, ending = SFails x -> IntError (toRpcError x)) ->
  steps (start [handlerOps env fs msgs ending; keepAliveOps n]) w -> PrefixS p (wd_out w) ->
  exists ms ms' r, received env' fs' tail p = (ms', Some r) /\ Prefix ms msgs /\
    Forall2 (fun vs vs' => SeesFields same env env' fs vs fs' vs') ms ms' /\
    (ReportsEnd tail r \/ (ms = msgs /\ EndsWith ending tail r)).
Proof.
  intros same env env' fs fs' msgs ending n w p tail HE HE' SA FA N N' C NP IE R [x P].
  set (g := readBack env env' fs fs').
  assert (U : Understood env env' fs fs' g msgs) by (intros vs I; apply (version_line same env env' fs fs' vs SA FA N N' (C vs I))).
  assert (S : forall ms, Prefix ms msgs -> Forall2 (fun vs vs' => SeesFields same env env' fs vs fs' vs') ms (map g ms)).
  { intros ms [c E]. apply forall2_map. intros vs I. apply (version_line same env env' fs fs' vs SA FA N N'), C. rewrite E. apply in_app_iff. auto. }
  destruct (handler_cut _ n w (handler_locked env fs msgs ending NP) R) as (l & left & B & [y Q]).
  assert (P' : PrefixS p (allBytes l)) by (exists (x ++ y)%string; rewrite Q, P, sapp_assoc; reflexivity).
  destruct ending as [|e|m]; [| |exfalso; eapply NP; reflexivity]; cbn in B.
  - destruct (understood_cut env env' fs fs' g tail msgs None l p HE HE' U (reserved_in _ N')) as (ms & r & E & PR & D); eauto; [discriminate|].
    exists ms, (map g ms), r. split; [exact E|]. split; [exact PR|]. split; [apply S, PR|].
    left. destruct D as [->|(z & Z & _)]; [apply end_reported|discriminate Z].
  - destruct (understood_cut env env' fs fs' g tail msgs (Some (toRpcError e)) l p HE HE' U (reserved_in _ N')) as (ms & r & E & PR & D); eauto.
    { intros r [= <-]. apply IE. reflexivity. }
    exists ms, (map g ms), r. split; [exact E|]. split; [exact PR|]. split; [apply S, PR|].
    destruct D as [->|(z & [= <-] & -> & ->)]; [left; apply end_reported|]. right. split; [reflexivity|apply san_arrived].
Qed.
Print Assumptions C56_cut_streams_between_versions.

(** The chat service of the example in a later version: messages have a room and no time, a message may be missing. *)
Definition laterStructs : goEnv :=
  [ ("Post", [GF "room" false TString; GF "username" true (TOpt TString); GF "id" false uint64Ty; GF "text" false TString]);
    ("WebRPCError", errorFields) ].
Definition laterPayload : list goField := [GF "seq" false (TInt 0 255); GF "message" false (TRef "Post")].
Definition posted (n n' : string) : Prop := n = "Message" /\ n' = "Post".

Example chat_versions : HasErrorType laterStructs /\ StructsAgree posted chatStructs laterStructs /\ FieldsAgree posted chatPayload laterPayload /\
  NotReserved chatPayload /\ NotReserved laterPayload /\
  (forall n text, (0 <= n < 2 ^ 64)%Z -> ValidUtf8 text -> Carries chatStructs chatPayload (chatMessage n text)).
Proof.
  split; [reflexivity|]. split; [|split; [|split; [|split]]].
  - intros n n' fs [-> ->] [= <-]. eexists. split; [reflexivity|]. agree; cbn; first [apply CMadeOptional; [req|req|constructor]|constructor; lia|constructor].
  - agree; cbn. constructor. split; reflexivity.
  - intros f [<-|[]]. discriminate.
  - intros f [<-|[<-|[]]]; discriminate.
  - intros n text R V. apply (chat_sendable n text R V).
Qed.

(** what an old server's stream is for the later client *)
Example chat_example : forall l,
  Between pingOp (handlerOps chatStructs chatPayload [chatMessage 1 "hi"; chatMessage 2 "ho"] SDone) l ->
  received laterStructs laterPayload EndEOF (allBytes l) =
    ([[VInt 0; VPtr (Some (VStruct [VStr ""; VPtr (Some (VStr "bob")); VInt 1; VStr "hi"]))];
      [VInt 0; VPtr (Some (VStruct [VStr ""; VPtr (Some (VStr "bob")); VInt 2; VStr "ho"]))]], Some (endError EndEOF)).
Proof.
  intros l B. destruct chat_versions as (H & SA & FA & N & N' & C).
  assert (U : Understood chatStructs laterStructs chatPayload laterPayload (readBack chatStructs laterStructs chatPayload laterPayload) [chatMessage 1 "hi"; chatMessage 2 "ho"]).
  { intros vs I. refine (proj2 (version_line posted _ _ _ _ vs SA FA N N' _)). destruct I as [<-|[<-|[]]]; apply C; (lia || txt). }
  unfold handlerOps in B. cbn [app] in B.
  rewrite (understood_stream chatStructs laterStructs chatPayload laterPayload _ EndEOF _ None l eq_refl H U B (reserved_in _ N')); [|discriminate].
  vm_compute. reflexivity.
Qed.

(** The reserved name, in any spelling: a later server that adds a field webrpcerror to its messages ends the streams of older clients at the first
    message. *)
Theorem C56_streams_survive_any_field_refuted : exists fs fs' vs,
  fs = fs' ++ [GF "webrpcerror" false TString] /\ NoDup (map gf_name fs) /\ Carries chatStructs fs vs /\
  received chatStructs fs' EndEOF (encode chatStructs fs vs) = ([], Some (withCausef ErrWebrpcBadResponse "reading stream")).
Proof.
  exists [GF "text" false TString; GF "webrpcerror" false TString], [GF "text" false TString], [VStr "hi"; VStr "none"].
  split; [reflexivity|]. split; [cbn; repeat constructor; cbn; intuition discriminate|]. split; [|vm_compute; reflexivity].
  split; [|apply N.leb_le; reflexivity]. apply FFCons; [apply FStr; txt|txt|names_in|intros; discriminate|].
  apply FFCons; [apply FStr; txt|txt|names_in|intros; discriminate|apply FFNil].
Qed.
Print Assumptions C56_streams_survive_any_field_refuted.
