(** C28-C31: the generated server and client. Theorems only.
    Model: Rpc.v (server.gen.go, client.gen.go), GoVal.v and Json.v (encoding/json).
    Specification: RpcSpec.v, GoValSpec.v.  Committed services: RpcExamples.v. *)
From Verif Require Import Base Schema Uri ValidateSpec ValidateProofs PropsFilterAux PropsValidateAux RpcRoutes
  Utf8 Json JsonProofs GoVal GoValSpec GoValProofs Rpc RpcSpec RpcProofs RpcRemote RpcExamples.
From Verif Require Props_Validate.

(** ** C28 Routes *)

(** The implementation is only ever called for the method the path names, ... *)
Theorem C28_calls_follow_the_path : forall hv s hook impl r n args,
  NoDup (map rm_name (sv_methods s)) ->
  In (n, args) (callsMade (fst (serveHTTP hv s (Options hook None) impl r))) ->
  q_path r = (sv_prefix s ++ n)%string /\ q_method r = "POST" /\ exists m, In m (sv_methods s) /\ rm_name m = n.
Proof.
  intros hv s hook impl r n args ND I. destruct (served hv s hook impl r ND) as (calls & a & X & G).
  destruct G as [C _]. unfold hookOnly in C. rewrite C in I.
  destruct X; try (destruct I; fail); destruct I as [[= <- <-]|[]];
  match goal with H : Addressed _ _ _ |- _ => destruct H as (? & ? & ? & ?) end; eauto.
Qed.
Print Assumptions C28_calls_follow_the_path.

(** ... and every other path is answered 404 without a call. *)
Theorem C28_other_paths_are_not_found : forall hv s hook impl r,
  NoDup (map rm_name (sv_methods s)) ->
  (forall m, In m (sv_methods s) -> q_path r <> (sv_prefix s ++ rm_name m)%string) ->
  Gives (serveHTTP hv s (Options hook None) impl r) [] (ErrorAnswer (-2) 404).
Proof.
  intros hv s hook impl r ND H. destruct (served hv s hook impl r ND) as (calls & a & X & G).
  destruct (expected_unique s hook impl r calls a [] (ErrorAnswer (-2) 404) ND X) as [-> ->]; [|exact G].
  apply UnknownRoute, H.
Qed.
Print Assumptions C28_other_paths_are_not_found.

(** Different methods of an accepted schema have different routes if no service name contains "/" and
    the services are different declarations. *)
Theorem C28_routes_are_distinct : forall u s s',
  validate u s = Ok s' -> NoDup (map v_id (sc_services s')) ->
  (forall v, In v (sc_services s') -> noSlash (v_name v)) -> NoDup (routesOf s').
Proof. exact routes_distinct. Qed.
Print Assumptions C28_routes_are_distinct.

(** Without the condition it is false: names are not checked. *)
Theorem C28_slash_refuted : exists s s', validate goUriOk s = Ok s' /\ NoDup (map v_id (sc_services s')) /\
  routesOf s' = ["/rpc/A/B/C"; "/rpc/A/B/C"].
Proof. exists clashing. destruct clashing_routes as (s' & A & B & C). exists s'. auto. Qed.
Print Assumptions C28_slash_refuted.

Example routes_example : NoDup ["/rpc/Users/Get"; "/rpc/Users/List"; "/rpc/Users/Ping"; "/rpc/Admins/Grant"].
Proof.
  destruct shake_routes as (E & A & B & V). rewrite <- E. exact (C28_routes_are_distinct _ _ _ V A B).
Qed.

(** ** C29 Answers *)

(** Every request is answered as specified (one status line, one body, at most one call, see [Gives] and
    [Expected]), ... *)
Theorem C29_every_request_is_answered : forall hv s hook impl r,
  NoDup (map rm_name (sv_methods s)) ->
  exists calls a, Expected s hook impl r calls a /\ Gives (serveHTTP hv s (Options hook None) impl r) calls a.
Proof. exact served. Qed.
Print Assumptions C29_every_request_is_answered.

(** ... and the specification leaves no choice. *)
Theorem C29_answers_are_determined : forall s hook impl r c a c' a',
  NoDup (map rm_name (sv_methods s)) ->
  Expected s hook impl r c a -> Expected s hook impl r c' a' -> c = c' /\ a = a'.
Proof. exact expected_unique. Qed.
Print Assumptions C29_answers_are_determined.

(** Also with an OnError hook that rewrites errors, as long as it keeps HTTP statuses valid: one status line, at
    most one call. *)
Theorem C29_one_status_line : forall hv s o impl r,
  (forall f, o_onError o = Some f -> forall e, HttpStatus (re_status e) -> HttpStatus (re_status (f e))) ->
  length (statusLines (fst (serveHTTP hv s o impl r))) = 1 /\
  length (callsMade (fst (serveHTTP hv s o impl r))) <= 1.
Proof. exact one_answer. Qed.
Print Assumptions C29_one_status_line.

(** An OnError hook that sets an invalid status leaves no status line at all. *)
Theorem C29_bad_hook_refuted : exists o r,
  statusLines (fst (serveHTTP "v" testApi o testImpl r)) = [].
Proof.
  exists (Options None (Some (fun e => RpcError (re_name e) (re_code e) (re_message e) (re_causeText e) 0 (re_cause e)))),
    (Request "GET" "/" "" None). vm_compute. reflexivity.
Qed.
Print Assumptions C29_bad_hook_refuted.

(** "the declared HTTP status for an error": an error whose status is not an HTTP status is answered 500. *)
Theorem C29_invalid_status_refuted : exists impl r e,
  impl "GetError" [] = Fails (ERpc e) /\
  statusLines (fst (serveHTTP "v" testApi (Options None None) impl r)) = [500%Z] /\ re_status e = 0%Z.
Proof.
  exists (fun _ _ => Fails (ERpc (declaredError "Mine" 1 "no status" 0))),
    (Request "POST" "/rpc/TestApi/GetError" "application/json" (Some "")). eexists.
  split; [reflexivity|]. split; vm_compute; reflexivity.
Qed.
Print Assumptions C29_invalid_status_refuted.

(** some content types *)
Example content_types :
  JsonContentType " Application/JSON ; charset=utf-8" /\ ~ JsonContentType "text/plain" /\ ~ JsonContentType "".
Proof.
  split; [|split].
  - exists " ", "Application/JSON", " ", "; charset=utf-8". repeat split. right. eexists. reflexivity.
  - intros C. apply content_type_iff in C. discriminate C.
  - intros C. apply content_type_iff in C. discriminate C.
Qed.

Example answers_example :
  Expected testApi None testImpl (Request "POST" "/rpc/TestApi/GetSchemaError" "application/json" (Some "{""code"":100}"))
    [("GetSchemaError", [VInt 100])] (ErrorAnswer 100 429) /\
  Expected testApi None testImpl (Request "POST" "/rpc/TestApi/GetSchemaError" "application/json" (Some "{""code"":""x""}"))
    [] (ErrorAnswer (-4) 400).
Proof.
  assert (AD : forall b, Addressed testApi (Request "POST" "/rpc/TestApi/GetSchemaError" "application/json" b) getSchemaError).
  { intros b. repeat split; [cbn; intuition|]. apply content_type_iff. reflexivity. }
  split.
  - eapply (ImplFails _ _ _ _ getSchemaError [VInt 100]); [apply AD|reflexivity| |reflexivity|].
    + eapply BodyArguments; [discriminate|reflexivity|vm_compute; reflexivity].
    + apply (EGError (ERpc (withCause errRateLimited (EPlain 1 "slow down")))). cbn. unfold HttpStatus. lia.
  - eapply (BadBody _ _ _ _ getSchemaError); [apply AD|reflexivity|].
    intros args [E|b args' N Q U]; [discriminate E|]. cbn in Q. injection Q as <-.
    vm_compute in U. discriminate U.
Qed.

(** ** C30 Remote calls *)

(** Results: what the implementation returns for the arguments is what the caller gets, ... *)
Theorem C30_results_arrive : forall recovers hv s hook impl m args vs,
  NoDup (map rm_name (sv_methods s)) -> In m (sv_methods s) -> hookSays hook (rm_name m) = inl None ->
  Carries (sv_env s) (rm_in m) args -> impl (rm_name m) args = Returns vs -> Carries (sv_env s) (rm_out m) vs ->
  clientCall s None (connect recovers hv s (Options hook None) impl) m args = CallResult vs None.
Proof. exact remote_result. Qed.
Print Assumptions C30_results_arrive.

(** ... it is called once, with the caller's arguments, ... *)
Theorem C30_arguments_arrive : forall hv s hook impl m args b,
  NoDup (map rm_name (sv_methods s)) -> In m (sv_methods s) -> hookSays hook (rm_name m) = inl None ->
  Carries (sv_env s) (rm_in m) args -> requestBody s m args = Some b ->
  callsMade (fst (serveHTTP hv s (Options hook None) impl (newRequest s m b))) = [(rm_name m, args)].
Proof. exact remote_arguments. Qed.
Print Assumptions C30_arguments_arrive.

(** ... errors of the implementation arrive with code and status, and all fields if the texts are UTF-8;
    other Go errors arrive as endpoint errors, ... *)
Theorem C30_errors_arrive : forall recovers hv s hook impl m args e,
  NoDup (map rm_name (sv_methods s)) -> In m (sv_methods s) -> hookSays hook (rm_name m) = inl None ->
  Carries (sv_env s) (rm_in m) args -> impl (rm_name m) args = Fails e ->
  exists w, AsWebrpc e w /\
    (Transportable w -> exists vs w',
      clientCall s None (connect recovers hv s (Options hook None) impl) m args = CallResult vs (Some w') /\
      re_code w' = re_code w /\ re_status w' = re_status w /\ (ValidTexts w -> SameFields w w')).
Proof.
  intros rec hv s hook impl m args e ND I H C F. exists (toRpcError e). split; [apply asWebrpc|]. intros T.
  exists (zeros m), (seenError (toRpcError e)).
  split; [exact (remote_error rec hv s hook impl m args e ND I H C F T)|].
  destruct (seen_code (toRpcError e)). split; [assumption|]. split; [assumption|]. apply san_texts.
Qed.
Print Assumptions C30_errors_arrive.

(** ... with the same text, if the cause has one, ... *)
Theorem C30_error_texts_arrive : forall recovers hv s hook impl m args e0 c,
  NoDup (map rm_name (sv_methods s)) -> In m (sv_methods s) -> hookSays hook (rm_name m) = inl None ->
  Carries (sv_env s) (rm_in m) args -> impl (rm_name m) args = Fails (ERpc (withCause e0 c)) ->
  Transportable (withCause e0 c) -> ValidTexts (withCause e0 c) -> errText c <> EmptyString ->
  exists vs w, clientCall s None (connect recovers hv s (Options hook None) impl) m args = CallResult vs (Some w) /\
    errText (ERpc w) = errText (ERpc (withCause e0 c)).
Proof.
  intros rec hv s hook impl m args e0 c ND I H C F T (V1 & V2 & V3) N. exists (zeros m), (seenError (withCause e0 c)).
  split; [exact (remote_error rec hv s hook impl m args _ ND I H C F T)|].
  unfold seenError, sanError, restoreCause. rewrite !san_valid by assumption. cbn [re_causeText withCause].
  destruct (errText c) as [|x t] eqn:E; [congruence|]. cbn. rewrite E. reflexivity.
Qed.
Print Assumptions C30_error_texts_arrive.

(** ... of a key that a JSON object has twice, the last member counts, ... *)
Theorem C30_last_of_repeated_keys_counts : forall n l, ValidUtf8 n -> (forall k x, In (k, x) l -> ValidUtf8 k /\ JWf x) ->
  (N.of_nat (jdepth (JObj [(n, JObj l)])) <= maxNestingDepth)%N ->
  exists m, unmarshalStruct [] [GF n false (TMap KString TAny)] (printJ (JObj [(n, JObj l)])) = Some [VMap (Some m)] /\
    NoDup (map fst m) /\ forall k x, lookup k (rev l) = Some x <-> In (KS k, VAny x) m.
Proof. exact repeated_keys. Qed.
Print Assumptions C30_last_of_repeated_keys_counts.
Example repeated_example : unmarshalStruct [] [GF "m" false (TMap KString TAny)]
    (printJ (JObj [("m", JObj [("a", JNull); ("b", JBool true); ("a", JStr "x")])])) = Some [VMap (Some [(KS "a", VAny (JStr "x")); (KS "b", VAny (JBool true))])].
Proof. vm_compute. reflexivity. Qed.

(** ... so does the error of an OnRequest hook that rejects the call, ... *)
Theorem C30_rejections_arrive : forall recovers hv s hook impl m args e,
  NoDup (map rm_name (sv_methods s)) -> In m (sv_methods s) -> hookSays hook (rm_name m) = inl (Some e) ->
  Carries (sv_env s) (rm_in m) args ->
  exists w, AsWebrpc e w /\
    (Transportable w -> exists vs w',
      clientCall s None (connect recovers hv s (Options hook None) impl) m args = CallResult vs (Some w') /\
      re_code w' = re_code w /\ re_status w' = re_status w /\ (ValidTexts w -> SameFields w w')).
Proof.
  intros rec hv s hook impl m args e ND I H C. exists (toRpcError e). split; [apply asWebrpc|]. intros T.
  exists (zeros m), (seenError (toRpcError e)).
  split; [exact (remote_rejected rec hv s hook impl m args e ND I H C T)|].
  destruct (seen_code (toRpcError e)). split; [assumption|]. split; [assumption|]. apply san_texts.
Qed.
Print Assumptions C30_rejections_arrive.

(** ... and a panic arrives as the server-panic error if some middleware recovers it. *)
Theorem C30_panics_arrive : forall hv s hook impl m args msg,
  NoDup (map rm_name (sv_methods s)) -> In m (sv_methods s) -> hookSays hook (rm_name m) = inl None ->
  Carries (sv_env s) (rm_in m) args -> impl (rm_name m) args = Panics msg ->
  exists vs w', clientCall s None (connect true hv s (Options hook None) impl) m args = CallResult vs (Some w') /\
    re_code w' = (-6)%Z /\ re_status w' = 500%Z.
Proof.
  intros hv s hook impl m args msg ND I H C F. eexists _, _.
  split; [exact (remote_panic hv s hook impl m args msg ND I H C F)|].
  destruct (seen_code (withCausef ErrWebrpcServerPanic msg)) as [-> ->]. split; reflexivity.
Qed.
Print Assumptions C30_panics_arrive.

(** The conditions are needed.  An error with status 200 (such as the built-in ErrWebrpcStreamFinished) returned by
    a method without results is reported to the caller as success. *)
Theorem C30_status_200_refuted : forall recovers hv s hook impl m args e,
  NoDup (map rm_name (sv_methods s)) -> In m (sv_methods s) -> hookSays hook (rm_name m) = inl None ->
  Carries (sv_env s) (rm_in m) args -> impl (rm_name m) args = Fails (ERpc e) -> re_status e = 200%Z ->
  rm_out m = [] ->
  clientCall s None (connect recovers hv s (Options hook None) impl) m args = CallResult [] None.
Proof. exact status_200_error. Qed.
Print Assumptions C30_status_200_refuted.

Theorem C30_stream_finished_is_success_refuted : exists impl,
  impl "GetComplex" [] = Fails (ERpc ErrWebrpcStreamFinished) /\
  clientCall testApi None (connect true "v" testApi (Options None None) impl) getComplex [] = CallResult [VPtr None] None.
Proof. exists (fun _ _ => Fails (ERpc ErrWebrpcStreamFinished)). split; [reflexivity|vm_compute; reflexivity]. Qed.
Print Assumptions C30_stream_finished_is_success_refuted.

(** With status 204 or 304 the error is lost and becomes a bad-response error. *)
Theorem C30_no_body_refuted : forall recovers hv s hook impl m args e,
  NoDup (map rm_name (sv_methods s)) -> In m (sv_methods s) -> hookSays hook (rm_name m) = inl None ->
  Carries (sv_env s) (rm_in m) args -> impl (rm_name m) args = Fails (ERpc e) -> re_status e = 204%Z \/ re_status e = 304%Z ->
  exists vs e', clientCall s None (connect recovers hv s (Options hook None) impl) m args = CallResult vs (Some e') /\
    re_code e' = (-5)%Z.
Proof.
  intros. edestruct no_body_error as (e' & A & B); eauto.
Qed.
Print Assumptions C30_no_body_refuted.

(** A value that is not declared in the enum is silently replaced by the enum's zero value. *)
Theorem C30_undeclared_enum_refuted : exists impl,
  impl "GetEnumList" [] = Returns [VSlice (Some [VEnum 1; VEnum 7])] /\
  clientCall testApi None (connect true "v" testApi (Options None None) impl) getEnumList [] =
    CallResult [VSlice (Some [VEnum 1; VEnum 0])] None.
Proof. exists testImpl. split; [reflexivity|vm_compute; reflexivity]. Qed.
Print Assumptions C30_undeclared_enum_refuted.

(** Text that is not UTF-8 is changed. *)
Theorem C30_invalid_text_refuted : exists impl vs,
  impl "GetOne" [] = Returns vs /\ exists vs',
  clientCall testApi None (connect true "v" testApi (Options None None) impl)
    (RpcMethod "GetOne" [] [GF "one" false simpleRef]) [] = CallResult vs' None /\ vs' <> vs.
Proof.
  exists (fun _ _ => Returns [VPtr (Some (VStruct [VInt 1; VStr (chr 255)]))]). eexists. split; [reflexivity|].
  eexists. split; [vm_compute; reflexivity|]. discriminate.
Qed.
Print Assumptions C30_invalid_text_refuted.

(** The hypotheses hold for the committed test service: nested maps, lists, pointers, enum ... *)
Example remote_example :
  Carries (sv_env testApi) (rm_in sendComplex) [complexValue] /\
  clientCall testApi None (connect false "v" testApi (Options None None) testImpl) sendComplex [complexValue] = CallResult [] None /\
  clientCall testApi None (connect false "v" testApi (Options None None) testImpl) getComplex [] = CallResult [complexValue] None.
Proof.
  split; [exact complex_carries|]. split.
  - apply C30_results_arrive; [exact testApi_names|cbn; intuition|reflexivity|exact complex_carries|reflexivity|].
    split; [apply FFNil|apply N.leb_le; reflexivity].
  - apply C30_results_arrive; [exact testApi_names|cbn; intuition|reflexivity| |reflexivity|exact complex_carries].
    split; [apply FFNil|apply N.leb_le; reflexivity].
Qed.

(** ... and its errors. *)
Example remote_error_example :
  Transportable (withCause errRateLimited (EPlain 1 "slow down")) /\
  clientCall testApi None (connect false "v" testApi (Options None None) testImpl) getSchemaError [VInt 100] =
    CallResult [] (Some (withCause errRateLimited (EPlain 0 "slow down"))).
Proof.
  split; [unfold Transportable, Int64; cbn; lia|]. vm_compute. reflexivity.
Qed.

(** ** C31 Matching *)

Theorem C31_is_equivalence : 
  (forall e, rpcIs e (Some (ERpc e)) = true) /\
  (forall e t, rpcIs e (Some (ERpc t)) = true -> rpcIs t (Some (ERpc e)) = true) /\
  (forall e t w, rpcIs e (Some (ERpc t)) = true -> rpcIs t (Some (ERpc w)) = true -> rpcIs e (Some (ERpc w)) = true) /\
  (forall e t, rpcIs e (Some (ERpc t)) = true <-> re_code e = re_code t).
Proof.
  split; [|split; [|split]]; intros; rewrite ?rpcIs_code in *; congruence || reflexivity.
Qed.
Print Assumptions C31_is_equivalence.

(** Adding causes, any number of times, does not change what an error matches or is matched by. *)
Theorem C31_causes_preserve_matching : forall cs e t,
  rpcIs (fold_left withCause cs e) (Some (ERpc t)) = rpcIs e (Some (ERpc t)) /\
  rpcIs t (Some (ERpc (fold_left withCause cs e))) = rpcIs t (Some (ERpc e)).
Proof. exact causes_preserve. Qed.
Print Assumptions C31_causes_preserve_matching.

(** errors.Is(x, t) for a webrpc error t: some error in the chain of x has its code; for any other t: t itself is
    in the chain. *)
Theorem C31_errors_is_by_code : forall x t,
  errorsIs x (ERpc t) = true <-> exists e, Unwraps x (ERpc e) /\ re_code e = re_code t.
Proof. exact is_rpc_iff. Qed.
Print Assumptions C31_errors_is_by_code.

Theorem C31_causes_are_found : forall x t, (forall e, t <> ERpc e) ->
  (errorsIs x t = true <-> exists y, Unwraps x y /\ sameValue y t = true).
Proof. exact is_other_iff. Qed.
Print Assumptions C31_causes_are_found.

(** The cause that was added is matched as well: errors.Is finds what it found in the cause. *)
Theorem C31_added_causes_are_matched : forall e c,
  (forall t, errorsIs (ERpc (withCause e c)) (ERpc t) = true <-> re_code e = re_code t \/ errorsIs c (ERpc t) = true) /\
  (forall o, (forall x, o <> ERpc x) -> (errorsIs (ERpc (withCause e c)) o = true <-> errorsIs c o = true)).
Proof.
  intros e c. split.
  - intros t. rewrite !is_rpc_iff. split.
    + intros (x & U & E). inversion U; subst; [left; exact E|right; eauto].
    + intros [E|(x & U & E)]; [exists (withCause e c); split; [apply UHere|exact E]|exists x; split; [apply UCause, U|exact E]].
  - intros o N. rewrite !is_other_iff by exact N. split.
    + intros (y & U & S). inversion U; subst; [|eauto]. destruct o; discriminate S.
    + intros (y & U & S). exists y. split; [apply UCause, U|exact S].
Qed.
Print Assumptions C31_added_causes_are_matched.

(** The text of an error: name, code and message, then the text of the cause that was added last. *)
Theorem C31_error_texts : forall e c,
  errText (ERpc (withCause e c)) = (re_name e ++ " " ++ zdec (re_code e) ++ ": " ++ re_message e ++ ": " ++ errText c)%string /\
  re_causeText (withCause e c) = errText c /\
  (re_cause e = None -> errText (ERpc e) = (re_name e ++ " " ++ zdec (re_code e) ++ ": " ++ re_message e)%string).
Proof. intros [n k m t s u] c. cbn. repeat split. intros ->. reflexivity. Qed.
Print Assumptions C31_error_texts.

(** Two errors of an accepted schema, or built-in errors, match iff they are the same declaration, also
    after adding causes. *)
Definition errorOf (x : Schema.error) : rpcError := declaredError (x_name x) (x_code x) (x_message x) (x_status x).

Lemma same_code u s s' x y : validate u s = Ok s' -> In x (builtinErrors ++ sc_errors s') -> In y (builtinErrors ++ sc_errors s') ->
  (x_code x = x_code y <-> x = y).
Proof.
  intros H X Y. destruct (Props_Validate.C11_decoding_by_code_is_unambiguous _ _ _ H) as (_ & _ & D).
  split; [|congruence]. intros E. pose proof (D x X) as DX. pose proof (D y Y) as DY. rewrite E in DX. congruence.
Qed.

Theorem C31_declarations_match_themselves_only : forall u s s' x y cs ds,
  validate u s = Ok s' -> In x (builtinErrors ++ sc_errors s') -> In y (builtinErrors ++ sc_errors s') ->
  (rpcIs (fold_left withCause cs (errorOf x)) (Some (ERpc (fold_left withCause ds (errorOf y)))) = true <-> x = y).
Proof.
  intros u s s' x y cs ds H X Y. rewrite (proj1 (causes_preserve cs (errorOf x) _)).
  rewrite (proj2 (causes_preserve ds (errorOf y) _)). rewrite rpcIs_code. cbn. eapply same_code; eauto.
Qed.
Print Assumptions C31_declarations_match_themselves_only.

(** A declared error raised by the implementation, with any causes, arrives at the caller and matches its
    declaration and no other. *)
Theorem C31_declared_errors_arrive : forall u sch sch' recovers hv s hook impl m args x cs,
  validate u sch = Ok sch' -> In x (sc_errors sch') -> Int64 (x_code x) ->
  NoDup (map rm_name (sv_methods s)) -> In m (sv_methods s) -> hookSays hook (rm_name m) = inl None ->
  Carries (sv_env s) (rm_in m) args -> impl (rm_name m) args = Fails (ERpc (fold_left withCause cs (errorOf x))) ->
  exists vs w, clientCall s None (connect recovers hv s (Options hook None) impl) m args = CallResult vs (Some w) /\
    forall y, In y (builtinErrors ++ sc_errors sch') -> (errorsIs (ERpc w) (ERpc (errorOf y)) = true <-> y = x).
Proof.
  intros u sch sch' rec hv s hook impl m args x cs V X C ND I H CA F.
  destruct (causes_fields cs (errorOf x)) as (FN & FC & FM & FS).
  assert (T : Transportable (fold_left withCause cs (errorOf x))).
  { destruct (proj1 (Props_Validate.C11_errors_are_well_formed _ _ _ V) x X) as (_ & ST & _).
    unfold Transportable. rewrite FC, FS. cbn. split; [lia|]. split; [lia|]. split; [lia|exact C]. }
  eexists _, _. split; [exact (remote_error rec hv s hook impl m args _ ND I H CA F T)|].
  intros y Y. rewrite seen_matches. cbn [toRpcError]. rewrite FC. cbn.
  rewrite (same_code u sch sch' x y V); [split; congruence| |exact Y].
  apply in_or_app. right. exact X.
Qed.
Print Assumptions C31_declared_errors_arrive.

Example matching_example :
  errorsIs (EWrap 1 "ctx: rate limited" (ERpc (withCause errRateLimited (EPlain 5 "x")))) (ERpc errRateLimited) = true /\
  errorsIs (EWrap 1 "ctx" (ERpc (withCause errRateLimited (EPlain 5 "x")))) (EPlain 5 "x") = true /\
  errorsIs (ERpc errRateLimited) (ERpc ErrWebrpcEndpoint) = false.
Proof. repeat split. Qed.
