From Verif Require Import Base BaseProofs Utf8 Utf8Proofs Json JsonProofs GoVal GoValSpec GoValProofs Rpc RpcSpec RpcProofs RpcRemote GoCtxRemote Succinct SuccinctSpec.

(** ** The same answers *)

Definition wireRun (x : run) : run := (wire (fst x), snd x).
Lemma wire_app a b : wire (a ++ b) = wire a ++ wire b.
Proof. induction a as [|[] a IH]; cbn; congruence. Qed.
Lemma wire_then a b : wireRun (andThen a b) = andThen (wireRun a) (wireRun b).
Proof. destruct a as [es []]; [|reflexivity]. unfold wireRun. cbn. rewrite wire_app. reflexivity. Qed.
Lemma wire_statusOf es : statusOf (wire es) = statusOf es.
Proof. induction es as [|[] es IH]; cbn; try rewrite IH; reflexivity. Qed.
Lemma wire_bodyOf es : bodyOf (wire es) = bodyOf es.
Proof. induction es as [|[] es IH]; cbn; try rewrite IH; reflexivity. Qed.
Lemma wire_response es : responseOf (wire es) = responseOf es.
Proof. unfold responseOf. rewrite wire_statusOf, wire_bodyOf. reflexivity. Qed.

Lemma names_same s : map rm_name (sv_methods (longService s)) = map am_name (mx_methods s).
Proof. unfold longService. cbn [sv_methods]. rewrite map_map. apply map_ext. intros []; reflexivity. Qed.

Lemma dispatch_same s path : dispatch (longService s) path = option_map (longForm (mx_env s)) (mixedDispatch s path).
Proof.
  unfold dispatch, mixedDispatch, longService, routeOf. cbn [sv_methods sv_prefix]. induction (mx_methods s) as [|m ms IH]; [reflexivity|].
  cbn [map find]. replace (rm_name (longForm (mx_env s) m)) with (am_name m) by (destruct m; reflexivity).
  destruct (String.eqb path (mx_prefix s ++ am_name m)%string); [reflexivity|exact IH].
Qed.

Lemma succinct_named s m : In (Short m) (mx_methods s) -> existsb (String.eqb (su_name m)) (SuccinctNames s) = true.
Proof.
  intros H. apply existsb_exists. exists (su_name m). split; [|apply String.eqb_refl].
  apply in_flat_map. exists (Short m). split; [exact H|left; reflexivity].
Qed.
Lemma name_inj s a b : NoDup (map am_name (mx_methods s)) -> In a (mx_methods s) -> In b (mx_methods s) -> am_name a = am_name b -> a = b.
Proof.
  induction (mx_methods s) as [|x l IH]; cbn; [tauto|]. intros N A B E. inversion N; subst.
  destruct A as [->|A], B as [->|B]; auto; [rewrite E in H1|rewrite <- E in H1]; destruct H1; apply in_map; assumption.
Qed.
Lemma plain_named s m : NoDup (map am_name (mx_methods s)) -> In (Plain m) (mx_methods s) ->
  existsb (String.eqb (rm_name m)) (SuccinctNames s) = false.
Proof.
  intros N H. destruct (existsb _ _) eqn:E; [|reflexivity]. apply existsb_exists in E. destruct E as (x & I & E).
  apply String.eqb_eq in E. subst x. apply in_flat_map in I. destruct I as ([m'|m'] & I & X); [destruct X|].
  destruct X as [X|[]]. pose proof (name_inj s _ _ N H I (eq_sym X)). discriminate.
Qed.

Lemma find_in {A} (p : A -> bool) l x : find p l = Some x -> In x l.
Proof. intros H. apply find_some in H. apply H. Qed.

(** marshalling a struct alone and as a payload *)
Lemma marshal_ref env n fs vs : lookup n env = Some fs ->
  marshalValue env (TRef n) (VPtr (Some (VStruct vs))) = marshalStruct env fs vs.
Proof. intros L. unfold marshalValue, marshalStruct. rewrite toJ_ref, L. destruct (toFields env fs vs); reflexivity. Qed.
Lemma unmarshal_ref env n fs s vs : lookup n env = Some fs -> unmarshalStruct env fs s = Some vs ->
  (exists l, parseJ s = Some (JObj l)) -> unmarshalValue env (TRef n) s = Some (VPtr (Some (VStruct vs))).
Proof.
  intros L U (l & E). unfold unmarshalValue, unmarshalStruct in *. rewrite E in *. rewrite fromJ_ref, L, U. reflexivity.
Qed.
Lemma fieldsOf_lookup env n fs : lookup n env = Some fs -> fieldsOf env n = fs.
Proof. unfold fieldsOf. intros ->. reflexivity. Qed.

(** the request body of an empty struct is read by succinct methods only *)
Definition emptyRequest (s : mixedService) (r : request) : Prop :=
  exists m, In (Short m) (mx_methods s) /\ q_path r = (mx_prefix s ++ su_name m)%string /\ fieldsOf (mx_env s) (su_in m) = [].

Lemma call_same s o impl m args : In (Short m) (mx_methods s) -> Declared s -> ReturnsStructs s impl ->
  wireRun (succinctCall s o impl m args) =
  wireRun (callAndAnswer (longService s) o (asLong s impl) (longForm (mx_env s) (Short m)) args).
Proof.
  intros I D RS. unfold succinctCall, callAndAnswer. rewrite !wire_then. cbn [longForm rm_name].
  change (wireRun ([CallImpl (su_name m) [VStruct args]], Returned)) with (wireRun ([CallImpl (su_name m) args], Returned)).
  f_equal. unfold asLong. rewrite (succinct_named s m I). destruct (impl (su_name m) [VStruct args]) as [vs|e|msg] eqn:E; try reflexivity.
  destruct (RS _ _ _ I E) as (xs & -> & Lx).
  destruct (D m I) as [_ D2]. destruct (lookup (su_out m) (mx_env s)) as [fs|] eqn:L; [|congruence].
  rewrite (marshal_ref _ _ fs xs L). cbn [rm_out sv_env longService]. rewrite (fieldsOf_lookup _ _ _ L) in *.
  destruct fs as [|f fs]; [destruct xs; [|discriminate Lx]|]; [reflexivity|]. destruct (marshalStruct _ _ _); reflexivity.
Qed.

Lemma plain_same s o impl m r : NoDup (map am_name (mx_methods s)) -> In (Plain m) (mx_methods s) ->
  serveJSON (plainService s) o impl m r = serveJSON (longService s) o (asLong s impl) m r.
Proof.
  intros N I. unfold serveJSON, callAndAnswer, asLong. rewrite (plain_named s m N I). reflexivity.
Qed.

Lemma body_same hv s o impl r : NoDup (map am_name (mx_methods s)) -> Declared s -> ReturnsStructs s impl ->
  ~ emptyRequest s r -> wireRun (mixedBody hv s o impl r) = wireRun (serveBody hv (longService s) o (asLong s impl) r).
Proof.
  intros N D RS NE. unfold mixedBody, serveBody. rewrite !wire_then. f_equal. rewrite dispatch_same.
  destruct (mixedDispatch s (q_path r)) as [m|] eqn:F; [|reflexivity]. cbn [option_map].
  destruct (negb _); [reflexivity|]. destruct (String.eqb (mediaType _) _); [|reflexivity].
  assert (I : In m (mx_methods s)) by (exact (find_in _ _ _ F)).
  assert (P : q_path r = (mx_prefix s ++ am_name m)%string) by (apply find_some in F; apply String.eqb_eq, F).
  replace (rm_name (longForm (mx_env s) m)) with (am_name m) by (destruct m; reflexivity).
  assert (H : wireRun (handlerOf s o impl m r) = wireRun (serveJSON (longService s) o (asLong s impl) (longForm (mx_env s) m) r)).
  { destruct m as [m|m].
    - cbn [handlerOf longForm]. rewrite (plain_same s o impl m r N I). reflexivity.
    - cbn [handlerOf]. unfold succinctHandler, serveJSON. cbn [longForm rm_in].
      destruct (fieldsOf (mx_env s) (su_in m)) as [|f fs] eqn:EF.
      + destruct NE. exists m. split; [exact I|]. split; [exact P|exact EF].
      + destruct (q_body r) as [b|]; [|reflexivity]. cbn [sv_env longService].
        destruct (unmarshalStruct _ _ b) as [args|]; [|reflexivity]. exact (call_same s o impl m args I D RS). }
  destruct (o_onRequest o) as [f|]; [|exact H]. destruct (f (am_name m)) as [[e|]|msg]; try reflexivity. exact H.
Qed.

Definition guardAny (o : options) (x : run) : run :=
  match x with
  | (es, Returned) => (es, Returned)
  | (es, Panicked msg) =>
      match sendErrorJSON o (withCausef ErrWebrpcServerPanic msg) with
      | (es', Returned) => (es ++ es', Panicked msg)
      | (es', Panicked msg') => (es ++ es', Panicked msg')
      end
  end.
Lemma guard_same o x y : wireRun x = wireRun y -> wireRun (guardAny o x) = wireRun (guardAny o y).
Proof.
  destruct x as [es p], y as [es' p']. unfold wireRun. cbn [fst snd]. intros [= E ->]. destruct p'; cbn [guardAny].
  - cbn [fst snd]. congruence.
  - destruct (sendErrorJSON _ _) as [es2 []]; cbn [fst snd]; rewrite !wire_app; congruence.
Qed.

Theorem same_wire hv s o impl r : NoDup (map am_name (mx_methods s)) -> Declared s -> ReturnsStructs s impl ->
  ~ emptyRequest s r -> wireRun (mixedServe hv s o impl r) = wireRun (serveHTTP hv (longService s) o (asLong s impl) r).
Proof. intros N D RS NE. apply (guard_same o), body_same; assumption. Qed.

Lemma connect_same rec hv s o impl r : wireRun (mixedServe hv s o impl r) = wireRun (serveHTTP hv (longService s) o (asLong s impl) r) ->
  mixedConnect rec hv s o impl r = connect rec hv (longService s) o (asLong s impl) r.
Proof.
  unfold mixedConnect, connect, wireRun. destruct (mixedServe hv s o impl r) as [es p], (serveHTTP _ _ _ _ r) as [es' p']. cbn [fst snd].
  intros [= E ->]. assert (R : responseOf es = responseOf es') by (rewrite <- (wire_response es), <- (wire_response es'), E; reflexivity).
  destruct p'; rewrite R; reflexivity.
Qed.

(** ** Calls *)

Lemma dispatch_short s m : NoDup (map am_name (mx_methods s)) -> In (Short m) (mx_methods s) ->
  mixedDispatch s (mx_prefix s ++ su_name m)%string = Some (Short m).
Proof.
  intros N I. unfold mixedDispatch. destruct (find _ _) as [m'|] eqn:F.
  - pose proof (find_in _ _ _ F) as I'. apply find_some in F. destruct F as [_ F]. apply String.eqb_eq, sapp_inv_head in F.
    f_equal. apply (name_inj s); try assumption. symmetry. exact F.
  - apply (find_none _ _ F) in I. cbn [am_name] in I. rewrite String.eqb_refl in I. discriminate I.
Qed.

Lemma short_serve hv s o impl m b args : NoDup (map am_name (mx_methods s)) -> In (Short m) (mx_methods s) ->
  hookSays (o_onRequest o) (su_name m) = inl None ->
  unmarshalStruct (mx_env s) (fieldsOf (mx_env s) (su_in m)) b = Some args ->
  mixedServe hv s o impl (shortRequest s m b) =
  guardAny o (andThen ([SetHeader "Webrpc" hv], Returned) (succinctCall s o impl m args)).
Proof.
  intros N I H U. unfold mixedServe. fold (guardAny o (mixedBody hv s o impl (shortRequest s m b))). f_equal.
  unfold mixedBody, shortRequest. cbn [q_path q_method q_contentType q_body]. f_equal.
  rewrite (dispatch_short s m N I), json_ct, !String.eqb_refl. cbn [negb am_name].
  assert (J : handlerOf s o impl (Short m) (Request "POST" (mx_prefix s ++ su_name m)%string "application/json" (Some b)) = succinctCall s o impl m args).
  { cbn [handlerOf]. unfold succinctHandler. cbn [q_body]. rewrite U. reflexivity. }
  unfold hookSays in H. destruct (o_onRequest o) as [f|]; [rewrite H|]; exact J.
Qed.

Lemma carries_object env fs vs : Carries env fs vs -> exists s l, marshalStruct env fs vs = Some s /\ parseJ s = Some (JObj l) /\
  unmarshalStruct env fs s = Some vs.
Proof.
  intros [F D]. destruct (proj2 (fits_round_trip env) fs vs F) as (l & T & W & DM & X).
  assert (WJ : JWf (JObj l)) by (constructor; exact W).
  assert (DJ : (N.of_nat (jdepth (JObj l)) <= maxNestingDepth)%N) by (rewrite jdepth_obj; lia).
  exists (printJ (JObj l)), l. unfold marshalStruct, unmarshalStruct. rewrite T.
  specialize (X [] [] eq_refl (fun g (h : In g []) => match h with end)). cbn [app] in X.
  split; [reflexivity|]. rewrite parse_print by assumption. split; [reflexivity|exact X].
Qed.

(** what an answer of the implementation becomes on the wire *)
Lemma short_result rec hv s o impl m b args vs : NoDup (map am_name (mx_methods s)) -> In (Short m) (mx_methods s) ->
  hookSays (o_onRequest o) (su_name m) = inl None -> Declared s ->
  unmarshalStruct (mx_env s) (fieldsOf (mx_env s) (su_in m)) b = Some args ->
  impl (su_name m) [VStruct args] = Returns [VPtr (Some (VStruct vs))] -> Carries (mx_env s) (fieldsOf (mx_env s) (su_out m)) vs ->
  exists body l, mixedConnect rec hv s o impl (shortRequest s m b) = Received (Response 200 body) /\ parseJ body = Some (JObj l) /\
    unmarshalStruct (mx_env s) (fieldsOf (mx_env s) (su_out m)) body = Some vs.
Proof.
  intros N I H D U F C. destruct (carries_object _ _ _ C) as (body & l & M & P & UB).
  exists body, l. split; [|split; assumption].
  unfold mixedConnect. rewrite (short_serve hv s o impl m b args N I H U). unfold succinctCall. rewrite F.
  destruct (D m I) as [_ D2]. destruct (lookup (su_out m) (mx_env s)) as [fs|] eqn:L; [|congruence].
  rewrite (marshal_ref _ _ fs vs L). rewrite (fieldsOf_lookup _ _ _ L) in M. rewrite M.
  rewrite andThen_cons. unfold sendOK. rewrite writeHeader_ok by (unfold HttpStatus; lia).
  cbn [guardAny andThen fst snd app]. rewrite response_ok'. reflexivity.
Qed.
Lemma short_nil rec hv s o impl m b args : NoDup (map am_name (mx_methods s)) -> In (Short m) (mx_methods s) ->
  hookSays (o_onRequest o) (su_name m) = inl None ->
  unmarshalStruct (mx_env s) (fieldsOf (mx_env s) (su_in m)) b = Some args ->
  impl (su_name m) [VStruct args] = Returns [VPtr None] ->
  mixedConnect rec hv s o impl (shortRequest s m b) = Received (Response 200 "null").
Proof.
  intros N I H U F.
  unfold mixedConnect. rewrite (short_serve hv s o impl m b args N I H U). unfold succinctCall. rewrite F.
  rewrite andThen_cons. unfold marshalValue. cbn [toJ option_map]. unfold sendOK. rewrite writeHeader_ok by (unfold HttpStatus; lia).
  cbn [guardAny andThen fst snd app]. rewrite response_ok'. reflexivity.
Qed.
Lemma short_error rec hv s o impl m b args e : NoDup (map am_name (mx_methods s)) -> In (Short m) (mx_methods s) ->
  hookSays (o_onRequest o) (su_name m) = inl None ->
  unmarshalStruct (mx_env s) (fieldsOf (mx_env s) (su_in m)) b = Some args ->
  impl (su_name m) [VStruct args] = Fails e -> Transportable (onErrorOf o (toRpcError e)) ->
  mixedConnect rec hv s o impl (shortRequest s m b) =
    Received (Response (re_status (onErrorOf o (toRpcError e))) (marshalError (onErrorOf o (toRpcError e)))).
Proof.
  intros N I H U F T. unfold mixedConnect. rewrite (short_serve hv s o impl m b args N I H U). unfold succinctCall. rewrite F.
  rewrite andThen_cons, send_any by apply transportable_http, T. cbn [guardAny andThen fst snd].
  f_equal. apply response_error; [repeat split|exact T].
Qed.
Lemma short_panic hv s o impl m b args msg : NoDup (map am_name (mx_methods s)) -> In (Short m) (mx_methods s) ->
  hookSays (o_onRequest o) (su_name m) = inl None ->
  unmarshalStruct (mx_env s) (fieldsOf (mx_env s) (su_in m)) b = Some args ->
  impl (su_name m) [VStruct args] = Panics msg -> Transportable (onErrorOf o (withCausef ErrWebrpcServerPanic msg)) ->
  mixedConnect true hv s o impl (shortRequest s m b) =
    Received (Response (re_status (onErrorOf o (withCausef ErrWebrpcServerPanic msg))) (marshalError (onErrorOf o (withCausef ErrWebrpcServerPanic msg)))).
Proof.
  intros N I H U F T. unfold mixedConnect. rewrite (short_serve hv s o impl m b args N I H U). unfold succinctCall. rewrite F.
  rewrite andThen_cons. cbn [guardAny andThen fst snd app]. rewrite send_any by apply transportable_http, T. 
  f_equal. set (e := onErrorOf o (withCausef ErrWebrpcServerPanic msg)) in *.
  apply (response_error [SetHeader "Webrpc" hv; CallImpl (su_name m) [VStruct args]] e); [repeat split|exact T].
Qed.

(** what the client makes of an error response *)
Lemma short_sees_error s net m args b e : marshalStruct (mx_env s) (fieldsOf (mx_env s) (su_in m)) args = Some b ->
  net (shortRequest s m b) = Received (Response (re_status e) (marshalError e)) -> Transportable e ->
  succinctClient s None net m args = (VPtr None, Some (seenError e)).
Proof.
  intros M X T. unfold succinctClient. rewrite M, X. cbn [p_status p_body].
  destruct (transportable_http e T) as (H & S & _ & _). rewrite S. cbn [negb].
  rewrite unmarshal_marshalError by (try apply T; apply http_int64, H). reflexivity.
Qed.

(** the ordinary client's request *)
Lemma long_request s m b : newRequest (longService s) (longForm (mx_env s) (Short m)) b = shortRequest s m b.
Proof. reflexivity. Qed.
Lemma long_body s m args : Carries (mx_env s) (fieldsOf (mx_env s) (su_in m)) args ->
  exists b, requestBody (longService s) (longForm (mx_env s) (Short m)) args = Some b /\
    unmarshalStruct (mx_env s) (fieldsOf (mx_env s) (su_in m)) b = Some args.
Proof.
  intros C. unfold requestBody. cbn [longForm rm_in sv_env longService]. destruct (carries_object _ _ _ C) as (b & l & M & P & U).
  destruct (fieldsOf (mx_env s) (su_in m)) as [|f fs] eqn:E; [|eauto].
  exists "null". split; [reflexivity|]. destruct C as [F _]. inversion F; subst. vm_compute. reflexivity.
Qed.

(** one answer *)
Lemma succinctCall_one s o impl m args : atMostOne (succinctCall s o impl m args).
Proof.
  unfold succinctCall. apply andThen_one; [reflexivity| |].
  - destruct (impl _ _) as [vs|e|msg]; cbn [fst callsMade length]; [|rewrite (proj1 (proj2 (sendError_one o _))); cbn; lia|cbn; lia].
    destruct vs as [|v [|w vs]]; [rewrite (proj1 (proj2 (sendError_one o _))); cbn; lia| |rewrite (proj1 (proj2 (sendError_one o _))); cbn; lia].
    destruct (marshalValue _ _ _); [rewrite (proj2 (sendOK_one _)); cbn; lia|rewrite (proj1 (proj2 (sendError_one o _))); cbn; lia].
  - destruct (impl _ _) as [vs|e|msg]; [|apply sendError_one|repeat split; cbn; congruence || lia].
    destruct vs as [|v [|w vs]]; [apply sendError_one| |apply sendError_one].
    destruct (marshalValue _ _ _); [apply sendOK_one|apply sendError_one].
Qed.

Lemma mixedBody_one hv s o impl r : atMostOne (mixedBody hv s o impl r).
Proof.
  unfold mixedBody.
  assert (E : forall e, atMostOne (andThen ([SetHeader "Webrpc" hv], Returned) (sendErrorJSON o e))).
  { intros e. apply andThen_one; [reflexivity| |apply sendError_one]. rewrite (proj1 (proj2 (sendError_one _ _))). cbn. lia. }
  assert (J : forall m, atMostOne (andThen ([SetHeader "Webrpc" hv], Returned) (handlerOf s o impl m r))).
  { intros [m|m]; cbn [handlerOf].
    - unfold serveJSON. destruct (rm_in m).
      + pose proof (call_one (plainService s) o impl m []) as C. apply andThen_one; [reflexivity|cbn; apply C|exact C].
      + destruct (q_body r); [|apply E]. destruct (unmarshalStruct _ _ _) as [args|]; [|apply E].
        pose proof (call_one (plainService s) o impl m args) as C. apply andThen_one; [reflexivity|cbn; apply C|exact C].
    - unfold succinctHandler. destruct (q_body r); [|apply E]. destruct (unmarshalStruct _ _ _) as [args|]; [|apply E].
      pose proof (succinctCall_one s o impl m args) as C. apply andThen_one; [reflexivity|cbn; apply C|exact C]. }
  destruct (mixedDispatch s (q_path r)) as [m|]; [|apply E].
  destruct (negb _).
  - rewrite andThen_cons. apply andThen_one; [reflexivity| |apply sendError_one]. rewrite (proj1 (proj2 (sendError_one _ _))). cbn. lia.
  - destruct (String.eqb _ _); [|apply E]. destruct (o_onRequest o) as [f|]; [|apply J].
    destruct (f (am_name m)) as [[e|]|msg]; [apply E|apply J|].
    unfold atMostOne. cbn. repeat split; auto; intros; congruence.
Qed.

Theorem mixed_one_answer hv s o impl r : keepsStatus o ->
  length (statusLines (fst (mixedServe hv s o impl r))) = 1 /\
  length (callsMade (fst (mixedServe hv s o impl r))) <= 1.
Proof.
  intros K. unfold mixedServe. pose proof (mixedBody_one hv s o impl r) as (A & B & C).
  destruct (mixedBody hv s o impl r) as [es [|msg]]; cbn [fst snd] in *.
  - split; [apply A; reflexivity|exact C].
  - destruct (sendError_one o (withCausef ErrWebrpcServerPanic msg)) as ((A' & B' & C') & N & R).
    assert (HttpStatus (re_status (match o_onError o with Some f => f (withCausef ErrWebrpcServerPanic msg) | None => withCausef ErrWebrpcServerPanic msg end))) as H.
    { assert (HttpStatus (re_status (withCausef ErrWebrpcServerPanic msg))) by (cbn; unfold HttpStatus; lia).
      destruct (o_onError o) as [f|] eqn:F; [apply (K f F)|]; assumption. }
    specialize (R H). destruct (sendErrorJSON o (withCausef ErrWebrpcServerPanic msg)) as [es' [|m']]; [|discriminate R].
    cbn [fst snd] in *. rewrite statusLines_app, callsMade_app, (B ltac:(discriminate)), N, app_nil_r.
    split; [apply A'; reflexivity|exact C].
Qed.
