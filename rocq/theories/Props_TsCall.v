(** C60: a TypeScript client calls a Go server.  Theorems only; specification in TsCallSpec.v. *)
From Verif Require Import Base BaseProofs Utf8 Json JsonProofs GoVal GoValSpec GoValProofs Rpc RpcSpec RpcProofs RpcRemote RpcExamples
  Schema BigInt BigIntSpec TsBig TsBigSpec TsBigProofs TsBigMain TsBigWire TsBigExample Ts TsWire TsCall TsCallSpec TsCallProofs.
From Verif Require Props_TsBig.
From Verif Require Import Rpc.

(** The implementation is called once, with the arguments the request object shows, and the promise resolves to
    the value that shows the results; whatever headers the caller adds. *)
Theorem C60_calls_arrive : forall schema compat tbl write classes recovers hv s hook impl m args vs hs wv D req k res,
  TsBigSpec.Setting schema compat -> schemaBigIntFieldsByType compat schema = Some tbl ->
  WritesJson write -> OrdinaryHeaders hs ->
  NoDup (map rm_name (sv_methods s)) -> In m (sv_methods s) -> hookSays hook (rm_name m) = inl None ->
  (* the request object *)
  Carries (sv_env s) (rm_in m) args -> ShowsFields (sc_types schema) (sv_env s) D (rm_in m) args req ->
  (* the results *)
  impl (rm_name m) args = Returns vs -> Carries (sv_env s) (rm_out m) vs -> NoDup (map gf_name (rm_out m)) ->
  Props_TsBig.Defined schema compat k ->
  ShowsFields (sc_types schema) (sv_env s) (Props_TsBig.MembersOf schema compat k) (rm_out m) vs res ->
  tsCall write classes tbl s (connect recovers hv s (Options hook None) impl) hs wv m k (SObj req) = Resolved (SObj res) /\
  exists j, jsonEncode (SObj req) = Some j /\
    callsMade (fst (serveHTTP hv s (Options hook None) impl (tsRequest s m hs wv (write j)))) = [(rm_name m, args)].
Proof.
  intros schema compat tbl write classes rec hv s hook impl m args vs hs wv D req k res HS TB W OH ND I H C S F CO NO DK SO.
  destruct (ts_body write (sc_types schema) (sv_env s) D m args req W C S) as (j & E & A).
  pose proof (serve_client_request hv s hook impl m args (write j) ND I H A) as SR. change (hookOnly hook) with (Options hook None) in SR.
  assert (RUN : serveHTTP hv s (Options hook None) impl (newRequest s m (write j)) =
    ([SetHeader "Webrpc" hv; CallImpl (rm_name m) args; SetHeader "Content-Type" "application/json"; WriteHeader 200;
      Write (match rm_out m with [] => "{}" | fs => match marshalStruct (sv_env s) fs vs with Some b => b | None => "" end end)], Returned)).
  { rewrite SR. unfold callAndAnswer. rewrite F, andThen_cons. unfold sendOK. rewrite writeHeader_ok by (unfold HttpStatus; lia).
    destruct (rm_out m) as [|f fs] eqn:EO; [reflexivity|]. destruct (payload_round_trip _ _ _ (proj1 CO) (proj2 CO)) as (b & M & _).
    rewrite M. reflexivity. }
  split.
  - unfold tsCall. rewrite E, (ts_request s m hs wv (write j) OH). unfold connect. rewrite RUN, response_ok'. cbn [p_status p_body].
    destruct (Props_TsBig.C49_go_answers_arrive_partial schema compat HS) as (tbl' & TB' & GA).
    rewrite TB in TB'. injection TB' as <-.
    destruct (GA k classes (sv_env s) (rm_out m) vs res DK NO CO SO) as (body & d & M & B & J).
    destruct (rm_out m) as [|f fs] eqn:EO.
    + destruct CO as [CF _]. inversion CF; subst. cbv in M. injection M as <-. rewrite B, J. reflexivity.
    + rewrite M, B, J. reflexivity.
  - exists j. split; [exact E|]. rewrite (ts_request s m hs wv (write j) OH), RUN. reflexivity.
Qed.
Print Assumptions C60_calls_arrive.

(** An error of the implementation rejects the promise with its code, its status and its cause, in the class
    declared for the code, ... *)
Theorem C60_errors_arrive : forall ts write classes tbl recovers hv s hook impl m args e hs wv D req k,
  WritesJson write -> OrdinaryHeaders hs ->
  NoDup (map rm_name (sv_methods s)) -> In m (sv_methods s) -> hookSays hook (rm_name m) = inl None ->
  Carries (sv_env s) (rm_in m) args -> ShowsFields ts (sv_env s) D (rm_in m) args req ->
  impl (rm_name m) args = Fails e ->
  exists w, AsWebrpc e w /\ (FailureStatus (re_status w) -> SafeCode w ->
    exists t, tsCall write classes tbl s (connect recovers hv s (Options hook None) impl) hs wv m k (SObj req) = Rejected t /\
      TsArrived classes w t).
Proof.
  intros ts write classes tbl rec hv s hook impl m args e hs wv D req k W OH ND I H C S F.
  exists (toRpcError e). split; [apply asWebrpc|]. intros FS SC.
  destruct (ts_body write ts (sv_env s) D m args req W C S) as (j & E & A).
  apply (ts_sees_error write classes tbl s _ hs wv m k (SObj req) j); [exact E| |exact FS|exact SC].
  rewrite (ts_request s m hs wv (write j) OH). unfold connect.
  change (Options hook None) with (hookOnly hook). rewrite (serve_client_request hv s hook impl m args (write j) ND I H A).
  destruct (failure_http _ FS) as (HT & _ & RS).
  unfold callAndAnswer. rewrite F, andThen_cons, sendError_ok by exact HT.
  cbn [guarded andThen fst snd]. f_equal. apply RS. repeat split.
Qed.
Print Assumptions C60_errors_arrive.

(** ... so does an error of the OnRequest hook, and the implementation is not called, ... *)
Theorem C60_rejections_arrive : forall write classes tbl recovers hv s hook impl m e hs wv req j k,
  OrdinaryHeaders hs -> NoDup (map rm_name (sv_methods s)) -> In m (sv_methods s) ->
  hookSays hook (rm_name m) = inl (Some e) -> jsonEncode req = Some j ->
  exists w, AsWebrpc e w /\ (FailureStatus (re_status w) -> SafeCode w ->
    callsMade (fst (serveHTTP hv s (Options hook None) impl (tsRequest s m hs wv (write j)))) = [] /\
    exists t, tsCall write classes tbl s (connect recovers hv s (Options hook None) impl) hs wv m k req = Rejected t /\
      TsArrived classes w t).
Proof.
  intros write classes tbl rec hv s hook impl m e hs wv req j k OH ND I H E.
  exists (toRpcError e). split; [apply asWebrpc|]. intros FS SC. destruct (failure_http _ FS) as (HT & _ & RS).
  pose proof (serve_rejected hv s hook impl m (write j) e ND I H) as SR. change (hookOnly hook) with (Options hook None) in SR.
  change (Options hook None) with (hookOnly hook) in SR at 2. rewrite sendError_ok in SR by exact HT.
  split; [rewrite (ts_request s m hs wv (write j) OH), SR; reflexivity|].
  apply (ts_sees_error write classes tbl s _ hs wv m k req j); [exact E| |exact FS|exact SC].
  rewrite (ts_request s m hs wv (write j) OH). unfold connect. rewrite SR. cbn [guarded andThen fst snd]. f_equal. apply RS. repeat split.
Qed.
Print Assumptions C60_rejections_arrive.

(** ... and a panic of the implementation arrives as a server panic, if the process recovers from it ... *)
Theorem C60_panics_arrive : forall ts write classes tbl hv s hook impl m args msg hs wv D req k,
  WritesJson write -> OrdinaryHeaders hs ->
  NoDup (map rm_name (sv_methods s)) -> In m (sv_methods s) -> hookSays hook (rm_name m) = inl None ->
  Carries (sv_env s) (rm_in m) args -> ShowsFields ts (sv_env s) D (rm_in m) args req ->
  impl (rm_name m) args = Panics msg ->
  exists t, tsCall write classes tbl s (connect true hv s (Options hook None) impl) hs wv m k (SObj req) = Rejected t /\
    te_code t = JNum "-6" /\ te_status t = JNum "500".
Proof.
  intros ts write classes tbl hv s hook impl m args msg hs wv D req k W OH ND I H C S F.
  destruct (ts_body write ts (sv_env s) D m args req W C S) as (j & E & A).
  destruct (ts_sees_error write classes tbl s (connect true hv s (Options hook None) impl) hs wv m k (SObj req) j
    (withCausef ErrWebrpcServerPanic msg) E) as (t & T & (_ & TC & TS & _)).
  - rewrite (ts_request s m hs wv (write j) OH). unfold connect.
    change (Options hook None) with (hookOnly hook). rewrite (serve_client_request hv s hook impl m args (write j) ND I H A).
    unfold callAndAnswer. rewrite F, andThen_cons. cbn [andThen fst snd]. rewrite app_nil_r. cbn [guarded].
    rewrite sendError_ok by apply transportable_http, panic_transportable.
    f_equal. apply response_error; [|apply panic_transportable]. repeat split.
  - unfold FailureStatus. cbn. lia.
  - unfold SafeCode. cbn. lia.
  - exists t. split; [exact T|]. split; [exact TC|exact TS].
Qed.
Print Assumptions C60_panics_arrive.

(** ... while a server that does not answer is a failed request, whatever the method. *)
Theorem C60_no_answer_is_a_failed_request : forall write classes tbl s net hs wv m k req j e,
  jsonEncode req = Some j -> net (tsRequest s m hs wv (write j)) = NoResponse e ->
  exists t, tsCall write classes tbl s net hs wv m k req = Rejected t /\
    tc_name (te_class t) = "WebrpcRequestFailed" /\ te_code t = JNum "-1".
Proof.
  intros write classes tbl s net hs wv m k req j e E N. eexists. unfold tsCall. rewrite E, N. split; [reflexivity|]. split; reflexivity.
Qed.
Print Assumptions C60_no_answer_is_a_failed_request.

(** A method the server does not have is reported as such, and nothing is called. *)
Theorem C60_missing_methods_are_reported : forall write classes tbl recovers hv sc ss hook impl m hs wv req j k,
  OrdinaryHeaders hs -> ~ In (routeOf sc m) (map (routeOf ss) (sv_methods ss)) -> jsonEncode req = Some j ->
  callsMade (fst (serveHTTP hv ss (Options hook None) impl (tsRequest sc m hs wv (write j)))) = [] /\
  exists t, tsCall write classes tbl sc (connect recovers hv ss (Options hook None) impl) hs wv m k req = Rejected t /\
    te_code t = JNum "-2" /\ te_status t = JNum "404".
Proof.
  intros write classes tbl rec hv sc ss hook impl m hs wv req j k OH NI E.
  set (e := withCausef ErrWebrpcBadRoute ("no webrpc method defined for path " ++ routeOf sc m)).
  assert (T : Transportable e) by (unfold Transportable, Int64; cbn; lia).
  assert (D : dispatch ss (routeOf sc m) = None).
  { unfold dispatch. destruct (find _ _) eqn:F; [|reflexivity]. apply find_some in F. destruct F as [F1 F2]. apply String.eqb_eq in F2.
    exfalso. apply NI. rewrite F2. apply in_map, F1. }
  assert (RUN : serveHTTP hv ss (Options hook None) impl (tsRequest sc m hs wv (write j)) =
    ([SetHeader "Webrpc" hv; SetHeader "Content-Type" "application/json"; WriteHeader (re_status e); Write (marshalError e)], Returned)).
  { rewrite (ts_request sc m hs wv (write j) OH). unfold serveHTTP, serveBody, newRequest. cbn [q_path q_method q_contentType q_body].
    rewrite D. fold e. reflexivity. }
  split; [rewrite RUN; reflexivity|].
  destruct (ts_sees_error write classes tbl sc (connect rec hv ss (Options hook None) impl) hs wv m k req j e E) as (t & TT & (_ & TC & TS & _)).
  - unfold connect. rewrite RUN. cbn [guarded andThen fst snd]. f_equal.
    apply (response_error [SetHeader "Webrpc" hv] e); [repeat split|exact T].
  - unfold FailureStatus. cbn. lia.
  - unfold SafeCode. cbn. lia.
  - exists t. split; [exact TT|]. split; [exact TC|exact TS].
Qed.
Print Assumptions C60_missing_methods_are_reported.

(** ** Where it fails *)

(** A header that spells the content type in lower case is sent besides the client's own, and the server refuses
    the call. *)
Theorem C60_headers_do_not_disturb_calls_refuted : forall write classes tbl recovers hv s impl m wv k req j,
  NoDup (map rm_name (sv_methods s)) -> In m (sv_methods s) -> jsonEncode req = Some j ->
  let hs := [("content-type", "application/json")] in
  callsMade (fst (serveHTTP hv s (Options None None) impl (tsRequest s m hs wv (write j)))) = [] /\
  exists t, tsCall write classes tbl s (connect recovers hv s (Options None None) impl) hs wv m k req = Rejected t /\
    te_code t = JNum "-4" /\ te_status t = JNum "400".
Proof.
  intros write classes tbl rec hv s impl m wv k req j ND I E hs.
  assert (RUN : exists w, re_code w = (-4)%Z /\ re_status w = 400%Z /\
    serveHTTP hv s (Options None None) impl (tsRequest s m hs wv (write j)) =
    ([SetHeader "Webrpc" hv; SetHeader "Content-Type" "application/json"; WriteHeader 400; Write (marshalError w)], Returned)).
  { exists (withCausef ErrWebrpcBadRequest "unsupported Content-Type"). split; [reflexivity|]. split; [reflexivity|].
    unfold serveHTTP, serveBody, tsRequest. cbn [q_path q_method q_contentType q_body].
    rewrite (proj2 (dispatch_iff s (routeOf s m) m ND) (conj I eq_refl)).
    change (mediaType (headerSent "content-type" (createHeaders hs wv))) with "application/json, application/json".
    reflexivity. }
  destruct RUN as (w & RC & RS & RUN). split; [rewrite RUN; reflexivity|].
  destruct (ts_sees_error write classes tbl s (connect rec hv s (Options None None) impl) hs wv m k req j w E) as (t & T & (_ & TC & TS & _)).
  - unfold connect. rewrite RUN. rewrite RS. f_equal. unfold responseOf. cbn. rewrite sapp_nil_r. reflexivity.
  - rewrite RS. unfold FailureStatus. lia.
  - unfold SafeCode. rewrite RC. lia.
  - exists t. split; [exact T|]. rewrite TC, TS, RC, RS. split; reflexivity.
Qed.
Print Assumptions C60_headers_do_not_disturb_calls_refuted.

(** ** The node-ts example: GetUser of its Go server, called from the browser *)

Definition nodeService : service :=
  Service "/v1/Example/" nodeStructs
    [RpcMethod "Ping" [GF "counter" false (TOpt TBig)] [];
     RpcMethod "GetUser" [GF "userId" false (TInt 0 18446744073709551615)] getUserResult].
Definition getUser : rpcMethod := RpcMethod "GetUser" [GF "userId" false (TInt 0 18446744073709551615)] getUserResult.
Definition nodeImpl : implementation := fun name args =>
  match name, args with
  | "GetUser", [VInt 911] => Fails (ERpc (withCausef ErrWebrpcEndpoint "user is forbidden"))
  | "GetUser", _ => Returns someUser
  | _, _ => Returns []
  end.

Lemma print_writes : WritesJson printJ.
Proof. intros j W D. apply parse_print; assumption. Qed.

Lemma userId_shows n : (0 <= n <= 18446744073709551615)%Z ->
  Carries nodeStructs (rm_in getUser) [VInt n] /\
  ShowsFields (sc_types nodeSchema) nodeStructs (MemberOf nodeSchema "Request" "Response" "GetUserRequest") (rm_in getUser) [VInt n] [("userId", SNum (zdec n))].
Proof.
  intros R. split.
  - split; [|apply N.leb_le; reflexivity]. apply FFCons; [apply FInt; exact R|txt|names_in|intros; discriminate|apply FFNil].
  - unfold getUser. cbn [rm_in]. eapply SF_shown with (f := GF "userId" false (TInt 0 18446744073709551615)) (v := VT "uint64" (ShCore CUint64)); [left; reflexivity| | |apply SF_nil].
    + right. exists (Method_ "GetUser" [] [] false false false [Arg_ "userId" (Some (VT "uint64" (ShCore CUint64))) false]
        [Arg_ "code" (Some (VT "uint32" (ShCore CUint32))) false; Arg_ "user" (Some (VT "User" (ShStruct "User" "User"))) false] []),
        (Arg_ "userId" (Some (VT "uint64" (ShCore CUint64))) false).
      repeat split; [vm_compute; tauto|]. left. split; [reflexivity|left; reflexivity].
    + apply (S_atomic _ _ _ _ _ (JNum (zdec n))); [discriminate|reflexivity|constructor].
Qed.

Example C60_example : forall n, (0 <= n <= 18446744073709551615)%Z ->
  tsCall printJ builtinClasses nodeTable nodeService (connect true "h" nodeService (Options None None) nodeImpl)
    [("Authorization", "BEARER x"); ("Content-Type", "text/plain")] "h" getUser "GetUserResponse" (SObj [("userId", SNum (zdec n))]) =
  (if (n =? 911)%Z then Rejected (TsError (TsClass "WebrpcEndpoint" 0 "endpoint error" 400) (JNum "0") "endpoint error" (JNum "400") (Some (JStr "user is forbidden")))
   else Resolved (SObj someUserJs)).
Proof.
  intros n R. destruct (userId_shows n R) as [C S].
  assert (OH : OrdinaryHeaders [("Authorization", "BEARER x"); ("Content-Type", "text/plain")]).
  { split; [cbn; repeat constructor; cbn; intuition discriminate|]. intros k v [[= <- <-]|[[= <- <-]|[]]]; [discriminate|reflexivity]. }
  destruct (Z.eqb_spec n 911) as [->|N]; [vm_compute; reflexivity|].
  refine (proj1 (C60_calls_arrive nodeSchema false nodeTable printJ builtinClasses true "h" nodeService None nodeImpl getUser [VInt n] someUser
    [("Authorization", "BEARER x"); ("Content-Type", "text/plain")] "h"
    (MemberOf nodeSchema "Request" "Response" "GetUserRequest") [("userId", SNum (zdec n))] "GetUserResponse" someUserJs
    node_setting node_table print_writes OH _ _ eq_refl C S _ someUser_carries _ _ someUser_shows)).
  - cbn. repeat constructor; cbn; intuition discriminate.
  - right. left. reflexivity.
  - unfold nodeImpl. destruct n as [|p|p]; [reflexivity| |lia].
    repeat (match goal with |- context [match ?x with _ => _ end] => is_var x; destruct x end; try reflexivity; try congruence).
  - cbn. repeat constructor; cbn; intuition discriminate.
  - vm_compute. tauto.
Qed.
