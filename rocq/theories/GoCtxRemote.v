From Verif Require Import Base BaseProofs Utf8 Json JsonProofs GoVal GoValSpec GoValProofs Rpc RpcSpec RpcProofs RpcRemote Methods MethodsSpec MethodsProofs GoCtx GoCtxSpec GoCtxProofs.

(** ** Calls with any options *)

Lemma body_any hv s o impl m args b :
  NoDup (map rm_name (sv_methods s)) -> In m (sv_methods s) -> hookSays (o_onRequest o) (rm_name m) = inl None ->
  (rm_in m = [] /\ args = [] \/ rm_in m <> [] /\ unmarshalStruct (sv_env s) (rm_in m) b = Some args) ->
  serveBody hv s o impl (newRequest s m b) = andThen ([SetHeader "Webrpc" hv], Returned) (callAndAnswer s o impl m args).
Proof.
  intros ND I H A. unfold serveBody, newRequest. cbn [q_path q_method q_contentType q_body]. f_equal.
  rewrite (proj2 (dispatch_iff s (routeOf s m) m ND) (conj I eq_refl)). rewrite json_ct, !String.eqb_refl. cbn [negb].
  assert (J : serveJSON s o impl m (Request "POST" (routeOf s m) "application/json" (Some b)) = callAndAnswer s o impl m args).
  { unfold serveJSON. cbn [q_body]. destruct A as [[-> ->]|[N U]]; [reflexivity|].
    destruct (rm_in m); [congruence|]. rewrite U. reflexivity. }
  unfold hookSays in H. destruct (o_onRequest o) as [f|]; [rewrite H|]; exact J.
Qed.
Lemma ext_call s net net' m args : (forall b, requestBody s m args = Some b -> net (newRequest s m b) = net' (newRequest s m b)) ->
  clientCall s None net m args = clientCall s None net' m args.
Proof. intros E. unfold clientCall. destruct (requestBody s m args) as [b|]; [|reflexivity]. rewrite (E b eq_refl). reflexivity. Qed.

Definition onErrorOf (o : options) (e : rpcError) : rpcError := match o_onError o with Some f => f e | None => e end.
Lemma send_any o e : HttpStatus (re_status (onErrorOf o e)) ->
  sendErrorJSON o e = ([SetHeader "Content-Type" "application/json"; WriteHeader (re_status (onErrorOf o e)); Write (marshalError (onErrorOf o e))], Returned).
Proof. intros H. unfold sendErrorJSON. fold (onErrorOf o e). rewrite (writeHeader_ok _ H). reflexivity. Qed.

Lemma any_result rec hv s o impl m args vs b :
  NoDup (map rm_name (sv_methods s)) -> In m (sv_methods s) -> hookSays (o_onRequest o) (rm_name m) = inl None ->
  (rm_in m = [] /\ args = [] \/ rm_in m <> [] /\ unmarshalStruct (sv_env s) (rm_in m) b = Some args) ->
  impl (rm_name m) args = Returns vs -> Carries (sv_env s) (rm_out m) vs ->
  exists body, connect rec hv s o impl (newRequest s m b) = Received (Response 200 body) /\
    (rm_out m = [] /\ vs = [] \/ rm_out m <> [] /\ unmarshalStruct (sv_env s) (rm_out m) body = Some vs).
Proof.
  intros ND I H A F [FO DO]. unfold connect, serveHTTP. rewrite (body_any hv s o impl m args b ND I H A).
  unfold callAndAnswer. rewrite F, andThen_cons. unfold sendOK. rewrite writeHeader_ok by (unfold HttpStatus; lia).
  destruct (rm_out m) as [|f fs] eqn:E.
  - inversion FO; subst. cbn [andThen fst snd app]. rewrite response_ok'. eauto.
  - destruct (payload_round_trip _ _ _ FO DO) as (body & M & _ & U & _). rewrite M. cbn [andThen fst snd app].
    rewrite response_ok'. exists body. split; [reflexivity|]. right. split; [discriminate|exact U].
Qed.
Lemma any_error rec hv s o impl m args e b :
  NoDup (map rm_name (sv_methods s)) -> In m (sv_methods s) -> hookSays (o_onRequest o) (rm_name m) = inl None ->
  (rm_in m = [] /\ args = [] \/ rm_in m <> [] /\ unmarshalStruct (sv_env s) (rm_in m) b = Some args) ->
  impl (rm_name m) args = Fails e -> Transportable (onErrorOf o (toRpcError e)) ->
  connect rec hv s o impl (newRequest s m b) =
  Received (Response (re_status (onErrorOf o (toRpcError e))) (marshalError (onErrorOf o (toRpcError e)))).
Proof.
  intros ND I H A F T. unfold connect, serveHTTP. rewrite (body_any hv s o impl m args b ND I H A).
  unfold callAndAnswer. rewrite F, andThen_cons, send_any by apply transportable_http, T. cbn [andThen fst snd].
  f_equal. apply response_error; [repeat split|exact T].
Qed.

(** ** Stacks of values *)

Definition stackCtx (vs : list (ctxKey * ctxValue)) (c : goCtx) : goCtx :=
  fold_left (fun c kv => WithValue c (fst kv) (snd kv)) vs c.
Lemma stack_is vs : forall h w r, stack vs h w r = h w (withContext r (stackCtx vs (reqCtx r))).
Proof.
  induction vs as [|[k v] vs IH]; intros h w r.
  - cbn. unfold withContext. destruct r. reflexivity.
  - cbn [stack fold_right]. change (fold_right _ h vs) with (stack vs h). unfold valueMiddleware. rewrite IH. destruct r. reflexivity.
Qed.

(** the value the last (innermost) middleware of the stack gives a key *)
Fixpoint given (k : ctxKey) (vs : list (ctxKey * ctxValue)) : option ctxValue :=
  match vs with
  | [] => None
  | (k', v) :: r => match given k r with Some x => Some x | None => if ctxKey_eqb k k' then Some v else None end
  end.
Lemma stack_get k vs : forall c, ctxGet (stackCtx vs c) k = match given k vs with Some v => Some v | None => ctxGet c k end.
Proof.
  induction vs as [|[k' v] vs IH]; intros c; [reflexivity|]. cbn [stackCtx fold_left given fst snd].
  change (fold_left _ vs ?c0) with (stackCtx vs c0). rewrite IH. destruct (given k vs); [reflexivity|]. cbn [ctxGet].
  destruct (ctxKey_eqb k k'); reflexivity.
Qed.
Lemma stack_done cancelled vs : forall c, ctxDone cancelled (stackCtx vs c) = ctxDone cancelled c.
Proof. induction vs as [|[k v] vs IH]; intros c; [reflexivity|]. cbn [stackCtx fold_left]. rewrite IH. reflexivity. Qed.

(** the client's view is that of Rpc.v *)
Theorem connect_is rec pkg name hv s o impl w c q : CalmOnError o ->
  let r := HttpRequest q c in
  connectTo rec (tServeHTTP pkg name hv s o impl) w c q =
  connect rec hv s (hookFor o w (withContext r (serviceCtx pkg name w r))) (implFor impl pkg (serviceCtx pkg name w r)) q.
Proof.
  intros K r. unfold connectTo, connect. pose proof (erasure pkg name hv s o impl w r K) as E. unfold erase in E. fold r.
  change q with (plainReq r). rewrite <- E.
  destruct (tServeHTTP pkg name hv s o impl w r) as [es []]; reflexivity.
Qed.
Lemma connect_stack rec vs h w c q : connectTo rec (stack vs h) w c q = connectTo rec h w (stackCtx vs c) q.
Proof. unfold connectTo. rewrite stack_is. reflexivity. Qed.
