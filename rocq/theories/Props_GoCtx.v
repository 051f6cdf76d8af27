(** C64: what the code of a Go server sees of a request.  Theorems only. *)
From Verif Require Import Base BaseProofs Utf8 Json JsonProofs GoVal GoValSpec GoValProofs Rpc RpcSpec RpcProofs RpcRemote RpcExamples.
From Verif Require Import Methods MethodsSpec MethodsProofs GoCtx GoCtxSpec GoCtxProofs GoCtxHeaders GoCtxRemote.
From Verif Require Schema Props_Methods.

(** The implementation of a method sees the names of its service and of itself, the request, the writer,
    everything the context had before, and the cancellation of the request, ... *)
Theorem C64_implementations_see_the_request : forall pkg name hv s o impl w r n c args,
  In (TCall n c args) (fst (tServeHTTP pkg name hv s o impl w r)) ->
  Sees pkg name w r c /\ methodNameFromContext pkg c = n /\
  exists m, In m (sv_methods s) /\ rm_name m = n /\ q_path (plainReq r) = (sv_prefix s ++ n)%string.
Proof.
  intros pkg name hv s o impl w r n c args I. apply calls_of in I. destruct I as (m & Im & P & -> & ->).
  split; [apply sees_method, sees_service_ctx|]. split; [apply method_seen|]. exists m. auto.
Qed.
Print Assumptions C64_implementations_see_the_request.

(** ... and so do the hooks, except for the name of the method. *)
Theorem C64_hooks_see_the_request : forall pkg name hv s o impl w r,
  (forall w' r', In (TOnRequest w' r') (fst (tServeHTTP pkg name hv s o impl w r)) ->
     w' = w /\ plainReq r' = plainReq r /\ Sees pkg name w r (reqCtx r')) /\
  (forall r' e, In (TOnError r' e) (fst (tServeHTTP pkg name hv s o impl w r)) ->
     plainReq r' = plainReq r /\ Sees pkg name w r (reqCtx r')).
Proof.
  intros pkg name hv s o impl w r. split.
  - intros w' r' I. apply calls_of in I. destruct I as (-> & -> & _). repeat split; apply sees_service_ctx.
  - intros r' e I. apply calls_of in I. subst r'. repeat split; apply sees_service_ctx.
Qed.
Print Assumptions C64_hooks_see_the_request.

(** MethodCtx gives the implementation the descriptor of its method, with its annotations, and gives the
    hooks the descriptor of the method the request is for. *)
Theorem C64_descriptors_in_contexts : forall sch v s pkg name hv o impl w r,
  Accepted sch -> ServerOf sch v s ->
  (forall n c args, In (TCall n c args) (fst (tServeHTTP pkg name hv s o impl w r)) ->
     exists m i, In m (Schema.v_methods v) /\ Schema.me_name m = n /\
       methodCtxOf pkg (methodsTable sch) c = Some i /\ Describes i v m) /\
  (forall w' r', In (TOnRequest w' r') (fst (tServeHTTP pkg name hv s o impl w r)) ->
     exists m i, In m (Schema.v_methods v) /\ q_path (plainReq r) = (sv_prefix s ++ Schema.me_name m)%string /\
       methodCtxOf pkg (methodsTable sch) (reqCtx r') = Some i /\ Describes i v m) /\
  (forall r' e m, In (TOnError r' e) (fst (tServeHTTP pkg name hv s o impl w r)) ->
     In m (Schema.v_methods v) -> q_path (plainReq r) = (sv_prefix s ++ Schema.me_name m)%string ->
     exists i, methodCtxOf pkg (methodsTable sch) (reqCtx r') = Some i /\ Describes i v m).
Proof.
  intros sch v s pkg name hv o impl w r A S.
  assert (K : forall c m, Sees pkg name w r c -> In m (Schema.v_methods v) ->
    q_path (plainReq r) = (sv_prefix s ++ Schema.me_name m)%string ->
    exists i, methodCtxOf pkg (methodsTable sch) c = Some i /\ Describes i v m).
  { intros c m X I P. exists (infoOf v m). split; [|apply describes]. unfold methodCtxOf. rewrite (sees_request _ _ _ _ _ X).
    cbn [option_map]. destruct S as (Iv & Q & _). rewrite P, Q, prefix_assoc. apply ctx_of; assumption. }
  split; [|split].
  - intros n c args I. apply calls_of in I. destruct I as (m & Im & P & -> & ->).
    destruct (server_method sch v s m S Im) as (m' & I' & E' & R). unfold routeOf in P.
    destruct (K (WithValue (serviceCtx pkg name w r) (Key pkg MethodName) (VText (rm_name m))) m') as (i & X & D);
      [apply sees_method, sees_service_ctx|exact I'|rewrite E'; exact P|].
    exists m', i. auto.
  - intros w' r' I. apply calls_of in I. destruct I as (-> & -> & m & Im & P).
    destruct (server_method sch v s m S Im) as (m' & I' & E' & R). unfold routeOf in P. rewrite <- E' in P.
    destruct (K (serviceCtx pkg name w r) m' (sees_service_ctx _ _ _ _) I' P) as (i & X & D). exists m', i. auto.
  - intros r' e m I Im P. apply calls_of in I. subst r'. apply (K (serviceCtx pkg name w r) m); [apply sees_service_ctx|exact Im|exact P].
Qed.
Print Assumptions C64_descriptors_in_contexts.

(** The name of the method is not in the context of the hooks: MethodNameFromContext gives what the
    context had before, "" for a plain request, ... *)
Theorem C64_hooks_see_the_method_name_refuted : 
  (forall pkg name hv s o impl w r r', 
     (exists w', In (TOnRequest w' r') (fst (tServeHTTP pkg name hv s o impl w r))) \/
     (exists e, In (TOnError r' e) (fst (tServeHTTP pkg name hv s o impl w r))) ->
     methodNameFromContext pkg (reqCtx r') = methodNameFromContext pkg (reqCtx r)) /\
  exists o r r' r'' e, 
     In (TOnRequest 7 r') (fst (tServeHTTP 1 "TestApi" "hv" testApi o (fun _ _ _ => ([], Fails (EPlain 0 "no"))) 7 r)) /\
     In (TOnError r'' e) (fst (tServeHTTP 1 "TestApi" "hv" testApi o (fun _ _ _ => ([], Fails (EPlain 0 "no"))) 7 r)) /\
     q_path (plainReq r) = "/rpc/TestApi/GetEmpty" /\
     methodNameFromContext 1 (reqCtx r') = "" /\ methodNameFromContext 1 (reqCtx r'') = "".
Proof.
  split.
  - intros pkg name hv s o impl w r r' [(w' & I)|(e & I)]; apply calls_of in I.
    + destruct I as (_ & -> & _). apply method_not_seen.
    + subst r'. apply method_not_seen.
  - exists (Hooks (Some (fun _ _ => ([], inl None))) (Some (fun _ e => ([], inl e)))).
    exists (HttpRequest (newRequest testApi (RpcMethod "GetEmpty" [] []) "null") Background). eexists _, _, _.
    split; [right; left; reflexivity|]. split; [cbn; right; right; right; left; reflexivity|].
    split; [reflexivity|]. split; reflexivity.
Qed.
Print Assumptions C64_hooks_see_the_method_name_refuted.

(** ... and the request in the context is the one that came in: its own context has none of the values. *)
Theorem C64_request_in_context_has_the_names_refuted :
  (forall pkg name hv s o impl w r n c args,
     In (TCall n c args) (fst (tServeHTTP pkg name hv s o impl w r)) ->
     exists r', requestFromContext pkg c = Some r' /\ reqCtx r' = reqCtx r) /\
  exists r c r',
     In (TCall "GetEmpty" c []) (fst (tServeHTTP 1 "TestApi" "hv" testApi (Hooks None None) (fun _ _ _ => ([], Returns [])) 7 r)) /\
     requestFromContext 1 c = Some r' /\ serviceNameFromContext 1 (reqCtx r') = "" /\ requestFromContext 1 (reqCtx r') = None.
Proof.
  split.
  - intros pkg name hv s o impl w r n c args I. exists r. split; [|reflexivity].
    apply C64_implementations_see_the_request in I. apply (sees_request _ _ _ _ _ (proj1 I)).
  - exists (HttpRequest (newRequest testApi (RpcMethod "GetEmpty" [] []) "null") Background). eexists _, _.
    split; [right; left; reflexivity|]. repeat split.
Qed.
Print Assumptions C64_request_in_context_has_the_names_refuted.

(** Middlewares: of values given by a stack of middlewares under keys of their own, implementations
    see for each key the innermost, ... *)
Theorem C64_middleware_values_arrive : forall vs pkg name hv s o impl w r n c args k,
  In (TCall n c args) (fst (stack vs (tServeHTTP pkg name hv s o impl) w r)) -> (forall x, k <> Key pkg x) ->
  ctxGet c k = match given k vs with Some v => Some v | None => ctxGet (reqCtx r) k end /\
  (forall cancelled, ctxDone cancelled c = ctxDone cancelled (reqCtx r)).
Proof.
  intros vs pkg name hv s o impl w r n c args k I N. rewrite stack_is in I.
  apply C64_implementations_see_the_request in I. destruct I as ([_ _ _ O D] & _ & _).
  split; [rewrite (O k N); apply stack_get|]. intros cancelled. rewrite (D cancelled). apply stack_done.
Qed.
Print Assumptions C64_middleware_values_arrive.

(** ... the keys of two generated packages do not interfere: when a method of one server passes its
    request and context on to a server of another package, the code there sees both. *)
Theorem C64_packages_do_not_interfere : forall p q name name' hv hv' s s' o o' impl impl' w r n c args n' c' args',
  p <> q ->
  In (TCall n c args) (fst (tServeHTTP p name hv s o impl w r)) ->
  In (TCall n' c' args') (fst (tServeHTTP q name' hv' s' o' impl' w (withContext r c))) ->
  serviceNameFromContext p c' = name /\ methodNameFromContext p c' = n /\ requestFromContext p c' = Some r /\
  serviceNameFromContext q c' = name' /\ methodNameFromContext q c' = n' /\ requestFromContext q c' = Some (withContext r c).
Proof.
  intros p q name name' hv hv' s s' o o' impl impl' w r n c args n' c' args' N I I'.
  apply C64_implementations_see_the_request in I. destruct I as (S & M & _).
  apply C64_implementations_see_the_request in I'. destruct I' as (S' & M' & _).
  assert (K : forall x, ctxGet c' (Key p x) = ctxGet c (Key p x)).
  { intros x. apply (sees_others _ _ _ _ _ S'). intros y [= E _]. contradiction. }
  unfold serviceNameFromContext at 1, methodNameFromContext at 1, requestFromContext at 1. rewrite !K.
  split; [apply (sees_service _ _ _ _ _ S)|]. split; [exact M|]. split; [apply (sees_request _ _ _ _ _ S)|].
  split; [apply (sees_service _ _ _ _ _ S')|]. split; [exact M'|]. apply (sees_request _ _ _ _ _ S').
Qed.
Print Assumptions C64_packages_do_not_interfere.

(** A server whose hooks and implementation read contexts and set headers answers as one whose hooks and
    implementation are what these are for the request: C28, C29 and C30 hold of it. *)
Theorem C64_contexts_change_no_answer : forall recovers pkg name hv s o impl w c q, CalmOnError o ->
  let r := HttpRequest q c in
  connectTo recovers (tServeHTTP pkg name hv s o impl) w c q =
  connect recovers hv s (hookFor o w (withContext r (serviceCtx pkg name w r))) (implFor impl pkg (serviceCtx pkg name w r)) q.
Proof. exact connect_is. Qed.
Print Assumptions C64_contexts_change_no_answer.

(** So a call gets what the implementation returns for its arguments in a context with the names and
    the values of the middlewares, ... *)
Theorem C64_results_arrive : forall recovers vs pkg name hv s o impl w c m args res,
  NoDup (map rm_name (sv_methods s)) -> In m (sv_methods s) -> CalmOnError o ->
  (forall f r, h_onRequest o = Some f -> serviceNameFromContext pkg (reqCtx r) = name ->
     q_path (plainReq r) = (sv_prefix s ++ rm_name m)%string -> snd (f w r) = inl None) ->
  Carries (sv_env s) (rm_in m) args -> Carries (sv_env s) (rm_out m) res ->
  (forall c', serviceNameFromContext pkg c' = name -> methodNameFromContext pkg c' = rm_name m ->
     responseWriterFromContext pkg c' = Some w ->
     (forall i v, given (Foreign i) vs = Some v -> ctxGet c' (Foreign i) = Some v) ->
     snd (impl (rm_name m) c' args) = Returns res) ->
  clientCall s None (connectTo recovers (stack vs (tServeHTTP pkg name hv s o impl)) w c) m args = CallResult res None.
Proof.
  intros rec vs pkg name hv s o impl w c m args res ND I K H C D F.
  destruct (client_request s m args C) as (b & RB & A). unfold clientCall. rewrite RB, connect_stack.
  set (c1 := stackCtx vs c). rewrite (connect_is rec pkg name hv s o impl w c1 _ K).
  set (r := HttpRequest (newRequest s m b) c1). pose proof (sees_service_ctx pkg name w r) as S.
  set (o' := hookFor o w (withContext r (serviceCtx pkg name w r))).
  assert (O : hookSays (o_onRequest o') (rm_name m) = inl None).
  { unfold o', hookFor, hookSays. cbn [o_onRequest]. destruct (h_onRequest o) as [f|] eqn:E; [|reflexivity].
    apply (H f _ eq_refl); [apply (sees_service _ _ _ _ _ S)|reflexivity]. }
  assert (G : implFor impl pkg (serviceCtx pkg name w r) (rm_name m) args = Returns res).
  { unfold implFor. pose proof (sees_method pkg name w r _ (rm_name m) S) as S'. apply F.
    - apply (sees_service _ _ _ _ _ S').
    - apply method_seen.
    - apply (sees_writer _ _ _ _ _ S').
    - intros i v V. rewrite (sees_others _ _ _ _ _ S') by discriminate. unfold r, c1. cbn [reqCtx]. rewrite stack_get, V. reflexivity. }
  destruct (any_result rec hv s o' _ m args res b ND I O A G D) as (body & -> & X). cbn [p_status p_body Z.eqb].
  cbn [negb Pos.eqb]. destruct X as [[-> ->]|[N U]]; [reflexivity|]. destruct (rm_out m); [congruence|]. rewrite U. reflexivity.
Qed.
Print Assumptions C64_results_arrive.

(** ... and the error it fails with, after OnError. *)
Theorem C64_errors_arrive : forall recovers vs pkg name hv s o impl w c m args e e',
  NoDup (map rm_name (sv_methods s)) -> In m (sv_methods s) -> CalmOnError o ->
  (forall f r, h_onRequest o = Some f -> serviceNameFromContext pkg (reqCtx r) = name ->
     q_path (plainReq r) = (sv_prefix s ++ rm_name m)%string -> snd (f w r) = inl None) ->
  Carries (sv_env s) (rm_in m) args ->
  (forall c', serviceNameFromContext pkg c' = name -> methodNameFromContext pkg c' = rm_name m ->
     (forall i v, given (Foreign i) vs = Some v -> ctxGet c' (Foreign i) = Some v) ->
     snd (impl (rm_name m) c' args) = Fails (ERpc e)) ->
  (forall r, match h_onError o with Some f => snd (f r e) = inl e' | None => e' = e end) ->
  Transportable e' ->
  exists z w', clientCall s None (connectTo recovers (stack vs (tServeHTTP pkg name hv s o impl)) w c) m args = CallResult z (Some w') /\
    re_code w' = re_code e' /\ re_status w' = re_status e' /\ (ValidTexts e' -> SameFields e' w').
Proof.
  intros rec vs pkg name hv s o impl w c m args e e' ND I K H C F X T.
  destruct (client_request s m args C) as (b & RB & A). exists (zeros m), (seenError e').
  destruct (seen_code e') as [E1 E2]. split; [|split; [exact E1|split; [exact E2|apply san_texts]]].
  apply (client_sees_error s m args b); [exact RB| |exact T]. rewrite connect_stack.
  set (c1 := stackCtx vs c). rewrite (connect_is rec pkg name hv s o impl w c1 _ K).
  set (r := HttpRequest (newRequest s m b) c1). pose proof (sees_service_ctx pkg name w r) as S.
  set (o' := hookFor o w (withContext r (serviceCtx pkg name w r))).
  assert (O : hookSays (o_onRequest o') (rm_name m) = inl None).
  { unfold o', hookFor, hookSays. cbn [o_onRequest]. destruct (h_onRequest o) as [f|] eqn:E; [|reflexivity].
    apply (H f _ eq_refl); [apply (sees_service _ _ _ _ _ S)|reflexivity]. }
  assert (G : implFor impl pkg (serviceCtx pkg name w r) (rm_name m) args = Fails (ERpc e)).
  { unfold implFor. pose proof (sees_method pkg name w r _ (rm_name m) S) as S'. apply F.
    - apply (sees_service _ _ _ _ _ S').
    - apply method_seen.
    - intros i v V. rewrite (sees_others _ _ _ _ _ S') by discriminate. unfold r, c1. cbn [reqCtx]. rewrite stack_get, V. reflexivity. }
  assert (Y : onErrorOf o' (toRpcError (ERpc e)) = e').
  { unfold onErrorOf, o', hookFor. cbn [o_onError toRpcError]. specialize (X (withContext r (serviceCtx pkg name w r))).
    destruct (h_onError o) as [f|]; [|auto]. rewrite X. reflexivity. }
  rewrite (any_error rec hv s o' _ m args (ERpc e) b ND I O A G); rewrite Y; [reflexivity|exact T].
Qed.
Print Assumptions C64_errors_arrive.

(** Headers: besides Content-Type, Webrpc and Allow, which the server sets, the response carries the
    headers as they are after the header calls that the hooks and the implementation make when they
    are called, in their order. *)
Theorem C64_headers_arrive : forall pkg name hv s o impl w r h k,
  ~ SameHeader k "Content-Type" -> ~ SameHeader k "Webrpc" -> ~ SameHeader k "Allow" ->
  let es := fst (tServeHTTP pkg name hv s o impl w r) in
  headerValues (sentHeaders h es) k = headerValues (fold_left applyCall (flat_map (callsBy o impl) es) h) k.
Proof.
  intros pkg name hv s o impl w r h k A B C es. subst es. rewrite <- (faithful pkg name hv s o impl w r). apply headers_sent. unfold ownKey, ownKeys. apply str_in_not.
  intros [E|[E|[E|[]]]].
  - apply A, canonical_iff. exact (eq_sym E).
  - apply B, canonical_iff. exact (eq_sym E).
  - apply C, canonical_iff. exact (eq_sym E).
Qed.
Print Assumptions C64_headers_arrive.

(** OnError is called once for a request answered with an error, and what is answered is what it made of
    the error; it is not called for a request whose method returned results. *)
Theorem C64_errors_are_reported : forall f impl pkg name hv s o w r, h_onError o = Some f ->
  let x := tServeHTTP pkg name hv s o impl w r in
  snd x = Returned ->
  (exists r' e hs e', reported (fst x) = [(r', e)] /\ Sees pkg name w r (reqCtx r') /\ f r' e = (hs, inl e') /\
     statuses (fst x) = [re_status e'] /\ written (fst x) = marshalError e') \/
  (reported (fst x) = [] /\ statuses (fst x) = [200%Z] /\
     exists n c args vs, In (TCall n c args) (fst x) /\ snd (impl n c args) = Returns vs).
Proof.
  intros f impl pkg name hv s o w r O x R. destruct (errors_reported f impl pkg name hv s o w r O R) as [(e & hs & e' & A & B & C)|L].
  - left. eexists _, e, hs, e'. split; [exact A|]. split; [apply sees_service_ctx|]. split; assumption.
  - right. exact L.
Qed.
Print Assumptions C64_errors_are_reported.

(** A panic is reported to it too, and answered with what it makes of the panic. *)
Theorem C64_panics_are_reported : forall f impl pkg name hv s o w r msg, h_onError o = Some f ->
  let x := tServeHTTP pkg name hv s o impl w r in
  (forall r' e, exists hs e', f r' e = (hs, inl e') /\ (HttpStatus (re_status e) -> HttpStatus (re_status e'))) ->
  snd x = Panicked msg ->
  exists before r' hs e', length before <= 1 /\
    reported (fst x) = before ++ [(r', withCausef ErrWebrpcServerPanic msg)] /\
    f r' (withCausef ErrWebrpcServerPanic msg) = (hs, inl e') /\
    statuses (fst x) = [re_status e'] /\ written (fst x) = marshalError e'.
Proof.
  intros f impl pkg name hv s o w r msg O x K R.
  destruct (panics_reported f impl pkg name hv s o w r O (fun e => K _ e) msg R) as (before & hs & e' & L & A & B & C & D).
  exists before. eexists _, hs, e'. split; [destruct L as [->|(e & ->)]; cbn; lia|]. split; [exact A|]. auto.
Qed.
Print Assumptions C64_panics_are_reported.

(** An OnError hook that panics leaves the client without an answer: no status and no body are written. *)
Theorem C64_panicking_hook_answers_nothing : forall impl pkg name hv s o w r f,
  h_onError o = Some f -> (forall r e, exists hs msg, f r e = (hs, inr msg)) ->
  let x := tServeHTTP pkg name hv s o impl w r in
  (exists msg, snd x = Panicked msg) /\ statuses (fst x) = [] /\ written (fst x) = EmptyString \/
  snd x = Returned /\ reported (fst x) = [] /\ statuses (fst x) = [200%Z].
Proof. exact panicking_hook. Qed.
Print Assumptions C64_panicking_hook_answers_nothing.

(** "Each request is reported once" does not hold: an error whose status is not one makes WriteHeader
    panic, and OnError is called twice. *)
Theorem C64_reported_once_refuted : exists impl r r' e e',
  reported (fst (tServeHTTP 1 "TestApi" "hv" testApi (Hooks None (Some (fun _ e => ([], inl e)))) impl 7 r)) = [(r', e); (r', e')] /\
  re_code e = 1001%Z /\ re_code e' = (-6)%Z.
Proof.
  exists (fun _ _ _ => ([], Fails (ERpc (RpcError "Own" 1001 "" "" 0 None)))).
  exists (HttpRequest (newRequest testApi (RpcMethod "GetEmpty" [] []) "null") Background). eexists _, _, _.
  split; [vm_compute; reflexivity|]. split; reflexivity.
Qed.
Print Assumptions C64_reported_once_refuted.

(** A middleware that rejects with RespondWithError: the caller gets that error and nothing is called;
    requests it lets through are served as without it. *)
Theorem C64_guards : forall check (next : handler) w c,
  (forall r, check r = None -> guardMiddleware check next w r = next w r) /\
  (forall r e, check r = Some e -> methodCalls (fst (guardMiddleware check next w r)) = [] /\ reported (fst (guardMiddleware check next w r)) = []) /\
  (forall recovers s m args e, 
     Carries (sv_env s) (rm_in m) args ->
     (forall r, q_path (plainReq r) = (sv_prefix s ++ rm_name m)%string -> reqCtx r = c -> check r = Some e) ->
     exists x, AsWebrpc e x /\
       (Transportable x -> exists z w', clientCall s None (connectTo recovers (guardMiddleware check next) w c) m args = CallResult z (Some w') /\
          re_code w' = re_code x /\ re_status w' = re_status x /\ (ValidTexts x -> SameFields x w'))).
Proof.
  intros check next w c. split; [|split].
  - intros r E. unfold guardMiddleware. rewrite E. reflexivity.
  - intros r e E. unfold guardMiddleware. rewrite E. unfold respondWithError, tJson, tWriteHead.
    destruct ((100 <=? re_status (toRpcError e))%Z && (re_status (toRpcError e) <=? 999)%Z); split; reflexivity.
  - intros rec s m args e C K. exists (toRpcError e). split; [apply asWebrpc|]. intros T.
    destruct (client_request s m args C) as (b & RB & A). exists (zeros m), (seenError (toRpcError e)).
    destruct (seen_code (toRpcError e)) as [E1 E2]. split; [|split; [exact E1|split; [exact E2|apply san_texts]]].
    apply (client_sees_error s m args b); [exact RB| |exact T].
    unfold connectTo, guardMiddleware. rewrite (K (HttpRequest (newRequest s m b) c) eq_refl eq_refl).
    unfold respondWithError. destruct (proj1 (transportable_http _ T)) as [V1 V2].
    rewrite json_ok by (apply andb_true_iff; split; apply Z.leb_le; assumption).
    f_equal. exact (response_error [] (toRpcError e) ltac:(repeat split) T).
Qed.
Print Assumptions C64_guards.

(** ** Cases that meet the hypotheses *)

(** a server behind two middlewares, whose implementation answers with what it finds in its context *)
Definition whoami : ctxImpl := fun n c args =>
  ([HAdd "Set-Cookie" "a=1"],
   match ctxGet c (Foreign 3) with
   | Some (VText user) => Returns [VPtr (Some (VStruct [VInt 1; VStr (user ++ "@" ++ serviceNameFromContext 1 c ++ "." ++ methodNameFromContext 1 c)]))]
   | _ => Fails (EPlain 1 "nobody")
   end).
Definition getOne : rpcMethod := RpcMethod "GetOne" [] [GF "one" false simpleRef].
Definition logged : hooks := Hooks (Some (fun _ r => ([HSet "X-Seen" (serviceNameFromContext 1 (reqCtx r))], inl None))) (Some (fun _ e => ([], inl e))).
Definition twoValues : list (ctxKey * ctxValue) := [(Foreign 3, VText "old"); (Foreign 4, VOther 2); (Foreign 3, VText "ann")].
Example C64_example :
  CalmOnError logged /\
  clientCall testApi None (connectTo true (stack twoValues (tServeHTTP 1 "TestApi" "hv" testApi logged whoami)) 7 (WithCancel Background 0)) getOne [] =
    CallResult [VPtr (Some (VStruct [VInt 1; VStr "ann@TestApi.GetOne"]))] None /\
  (exists z w', clientCall testApi None (connectTo true (tServeHTTP 1 "TestApi" "hv" testApi logged whoami) 7 Background) getOne [] = CallResult z (Some w') /\
     re_causeText w' = "nobody") /\
  sentHeaders [] (fst (stack twoValues (tServeHTTP 1 "TestApi" "hv" testApi logged whoami) 7 (HttpRequest (newRequest testApi getOne "null") Background))) =
    [("Webrpc", ["hv"]); ("X-Seen", ["TestApi"]); ("Set-Cookie", ["a=1"]); ("Content-Type", ["application/json"])].
Proof.
  split; [intros f [= <-] r e msg; discriminate|]. split; [vm_compute; reflexivity|]. split; [|vm_compute; reflexivity].
  eexists _, _. split; vm_compute; reflexivity.
Qed.
(** two packages: the second server is called with the request and the context of the first *)
Example C64_packages_example : 1 <> 2 /\ exists c c',
  In (TCall "GetOne" c []) (fst (tServeHTTP 1 "TestApi" "hv" testApi logged whoami 7 (HttpRequest (newRequest testApi getOne "null") Background))) /\
  In (TCall "GetOne" c' []) (fst (tServeHTTP 2 "Inner" "hv" testApi (Hooks None None) whoami 7
    (withContext (HttpRequest (newRequest testApi getOne "null") Background) c))).
Proof. split; [discriminate|]. eexists _, _. split; cbn; [right; right; right; left; reflexivity|right; left; reflexivity]. Qed.
(** the descriptors of golang-basics *)
Example C64_descriptor_example : Accepted Props_Methods.basics /\ ServerOf Props_Methods.basics Props_Methods.basicsService Props_Methods.exampleServer /\
  exists c, In (TCall "GetUserV2" c []) (fst (tServeHTTP 1 "Example" "hv" Props_Methods.exampleServer (Hooks None None) (fun _ _ _ => ([], Returns [])) 7
      (HttpRequest (newRequest Props_Methods.exampleServer Props_Methods.getUserV2 "null") Background))) /\
    option_map mi_annotations (methodCtxOf 1 exampleTable c) = Some [("auth", "X-Access-Key,S2S,Cookies"); ("public", "")].
Proof.
  split; [exact Props_Methods.basics_accepted|]. split; [exact Props_Methods.basics_server|].
  eexists. split; [cbn; right; left; reflexivity|vm_compute; reflexivity].
Qed.
(** a hook that panics, and a guard *)
Example C64_panic_example :
  tServeHTTP 1 "TestApi" "hv" testApi (Hooks None (Some (fun _ _ => ([], inr "boom")))) (fun _ _ _ => ([], Fails (EPlain 1 "x"))) 7
    (HttpRequest (newRequest testApi getOne "null") Background) = (fst (tServeHTTP 1 "TestApi" "hv" testApi (Hooks None (Some (fun _ _ => ([], inr "boom")))) (fun _ _ _ => ([], Fails (EPlain 1 "x"))) 7
    (HttpRequest (newRequest testApi getOne "null") Background)), Panicked "boom") /\
  exists z w', clientCall testApi None (connectTo false (guardMiddleware (fun r => match ctxGet (reqCtx r) (Foreign 3) with Some _ => None | None => Some (EPlain 2 "log in") end)
      (tServeHTTP 1 "TestApi" "hv" testApi logged whoami)) 7 Background) getOne [] = CallResult z (Some w') /\ re_causeText w' = "log in" /\ re_status w' = 400%Z.
Proof. split; [vm_compute; reflexivity|]. eexists _, _. split; [vm_compute; reflexivity|]. split; reflexivity. Qed.
