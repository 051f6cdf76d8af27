(** C65: succinct methods.  Theorems only. *)
From Verif Require Import Base BaseProofs Utf8 Utf8Proofs Json JsonProofs GoVal GoValSpec GoValProofs Rpc RpcSpec RpcProofs RpcRemote GoCtxRemote.
From Verif Require Import RpcExamples Succinct SuccinctSpec SuccinctProofs.

(** The implementation of a succinct method is called once, with the struct the client passed, ... *)
Theorem C65_implementations_get_the_struct : forall hv s o impl m args,
  NoDup (map am_name (mx_methods s)) -> In (Short m) (mx_methods s) -> hookSays (o_onRequest o) (su_name m) = inl None ->
  Carries (mx_env s) (fieldsOf (mx_env s) (su_in m)) args ->
  exists b, marshalStruct (mx_env s) (fieldsOf (mx_env s) (su_in m)) args = Some b /\
    callsMade (fst (mixedServe hv s o impl (shortRequest s m b))) = [(su_name m, [VStruct args])].
Proof.
  intros hv s o impl m args N I H C. destruct (carries_object _ _ _ C) as (b & l & M & _ & U). exists b. split; [exact M|].
  rewrite (short_serve hv s o impl m b args N I H U). unfold succinctCall.
  assert (E : forall o e, callsMade (fst (sendErrorJSON o e)) = []) by (intros; apply sendError_one).
  assert (G : forall x, callsMade (fst x) = [(su_name m, [VStruct args])] -> callsMade (fst (guardAny o x)) = [(su_name m, [VStruct args])]).
  { intros [es [|msg]] X; cbn [guardAny]; [exact X|]. pose proof (E o (withCausef ErrWebrpcServerPanic msg)) as Z.
    destruct (sendErrorJSON _ _) as [es' []]; cbn [fst] in *; rewrite callsMade_app, X, Z; reflexivity. }
  apply G. cbn [andThen fst]. destruct (impl _ _) as [vs|e|msg]; cbn [fst]; [|cbn [app callsMade]; rewrite E; reflexivity|reflexivity].
  destruct vs as [|v [|w vs]]; try (cbn [app callsMade]; rewrite E; reflexivity).
  destruct (marshalValue _ _ _); [|cbn [app callsMade]; rewrite E; reflexivity].
  cbn [app callsMade]. rewrite (proj2 (sendOK_one _)). reflexivity.
Qed.
Print Assumptions C65_implementations_get_the_struct.

(** ... the struct it returns arrives, and a nil pointer arrives as a nil pointer, ... *)
Theorem C65_results_arrive : forall recovers hv s o impl m args,
  NoDup (map am_name (mx_methods s)) -> In (Short m) (mx_methods s) -> Declared s ->
  hookSays (o_onRequest o) (su_name m) = inl None -> Carries (mx_env s) (fieldsOf (mx_env s) (su_in m)) args ->
  (forall vs, impl (su_name m) [VStruct args] = Returns [VPtr (Some (VStruct vs))] ->
     Carries (mx_env s) (fieldsOf (mx_env s) (su_out m)) vs ->
     succinctClient s None (mixedConnect recovers hv s o impl) m args = (VPtr (Some (VStruct vs)), None)) /\
  (impl (su_name m) [VStruct args] = Returns [VPtr None] ->
     succinctClient s None (mixedConnect recovers hv s o impl) m args = (VPtr None, None)).
Proof.
  intros rec hv s o impl m args N I D H C. destruct (carries_object _ _ _ C) as (b & l & M & _ & U).
  unfold succinctClient. rewrite M. split.
  - intros vs F CO. destruct (short_result rec hv s o impl m b args vs N I H D U F CO) as (body & l' & E & P & UB).
    rewrite E. cbn [p_status p_body Z.eqb Pos.eqb negb]. destruct (D m I) as [_ D2].
    destruct (lookup (su_out m) (mx_env s)) as [fs|] eqn:L; [|congruence]. rewrite (fieldsOf_lookup _ _ _ L) in UB.
    rewrite (unmarshal_ref _ _ fs body vs L UB (ex_intro _ l' P)). reflexivity.
  - intros F. rewrite (short_nil rec hv s o impl m b args N I H U F). reflexivity.
Qed.
Print Assumptions C65_results_arrive.

(** ... errors arrive as those of ordinary methods do (C30), after OnError, ... *)
Theorem C65_errors_arrive : forall recovers hv s o impl m args e,
  NoDup (map am_name (mx_methods s)) -> In (Short m) (mx_methods s) -> hookSays (o_onRequest o) (su_name m) = inl None ->
  Carries (mx_env s) (fieldsOf (mx_env s) (su_in m)) args -> impl (su_name m) [VStruct args] = Fails e ->
  exists w, AsWebrpc e w /\ forall w1, (w1 = match o_onError o with Some f => f w | None => w end) -> Transportable w1 ->
    exists w', succinctClient s None (mixedConnect recovers hv s o impl) m args = (VPtr None, Some w') /\
      re_code w' = re_code w1 /\ re_status w' = re_status w1 /\ (ValidTexts w1 -> SameFields w1 w').
Proof.
  intros rec hv s o impl m args e N I H C F. exists (toRpcError e). split; [apply asWebrpc|]. intros w1 E T.
  fold (onErrorOf o (toRpcError e)) in E. subst w1.
  destruct (carries_object _ _ _ C) as (b & l & M & _ & U). exists (seenError (onErrorOf o (toRpcError e))).
  split; [exact (short_sees_error s _ m args b _ M (short_error rec hv s o impl m b args e N I H U F T) T)|].
  destruct (seen_code (onErrorOf o (toRpcError e))). split; [assumption|]. split; [assumption|]. apply san_texts.
Qed.
Print Assumptions C65_errors_arrive.

(** ... and panics, if a middleware keeps the connection. *)
Theorem C65_panics_arrive : forall hv s hook impl m args msg,
  NoDup (map am_name (mx_methods s)) -> In (Short m) (mx_methods s) -> hookSays hook (su_name m) = inl None ->
  Carries (mx_env s) (fieldsOf (mx_env s) (su_in m)) args -> impl (su_name m) [VStruct args] = Panics msg ->
  exists w', succinctClient s None (mixedConnect true hv s (Options hook None) impl) m args = (VPtr None, Some w') /\
    re_code w' = (-6)%Z /\ re_status w' = 500%Z /\ (ValidUtf8 msg -> re_causeText w' = msg).
Proof.
  intros hv s hook impl m args msg N I H C F. destruct (carries_object _ _ _ C) as (b & l & M & _ & U).
  pose proof (panic_transportable msg) as T. exists (seenError (withCausef ErrWebrpcServerPanic msg)).
  split; [exact (short_sees_error s _ m args b _ M (short_panic hv s (Options hook None) impl m b args msg N I H U F T) T)|].
  destruct (seen_code (withCausef ErrWebrpcServerPanic msg)). split; [assumption|]. split; [assumption|]. intros V.
  destruct (san_texts (withCausef ErrWebrpcServerPanic msg)) as (_ & _ & _ & X & _).
  { split; [apply ascii_valid; reflexivity|]. split; [apply ascii_valid; reflexivity|exact V]. }
  symmetry. exact X.
Qed.
Print Assumptions C65_panics_arrive.

(** Every request gets one answer and makes at most one call. *)
Theorem C65_one_answer : forall hv s o impl r, keepsStatus o ->
  List.length (statusLines (fst (mixedServe hv s o impl r))) = 1 /\ List.length (callsMade (fst (mixedServe hv s o impl r))) <= 1.
Proof. exact mixed_one_answer. Qed.
Print Assumptions C65_one_answer.

(** A body that is not the struct (or null) is refused before the implementation is called. *)
Theorem C65_other_bodies_are_refused : forall hv s hook impl m r,
  NoDup (map am_name (mx_methods s)) -> In (Short m) (mx_methods s) -> hookSays hook (su_name m) = inl None ->
  q_path r = (mx_prefix s ++ su_name m)%string -> q_method r = "POST" -> JsonContentType (q_contentType r) ->
  (forall b, q_body r = Some b -> unmarshalStruct (mx_env s) (fieldsOf (mx_env s) (su_in m)) b = None) ->
  exists e, mixedServe hv s (Options hook None) impl r =
    ([SetHeader "Webrpc" hv; SetHeader "Content-Type" "application/json"; WriteHeader 400; Write (marshalError e)], Returned) /\
    re_code e = (-4)%Z /\ re_status e = 400%Z.
Proof.
  intros hv s hook impl m r N I H P Me CT B. unfold mixedServe, mixedBody. rewrite P, (dispatch_short s m N I), Me.
  apply content_type_iff in CT. rewrite CT, !String.eqb_refl. cbn [negb am_name o_onRequest].
  assert (J : exists msg, handlerOf s (Options hook None) impl (Short m) r =
     sendErrorJSON (Options hook None) (withCausef ErrWebrpcBadRequest msg)).
  { cbn [handlerOf]. unfold succinctHandler. destruct (q_body r) as [b|]; [rewrite (B b eq_refl)|]; eexists; reflexivity. }
  destruct J as [msg J]. exists (withCausef ErrWebrpcBadRequest msg).
  assert (K : match hook with
        | Some f => match f (su_name m) with
                    | inr msg0 => ([], Panicked msg0)
                    | inl (Some e) => sendErrorJSON (Options hook None) (toRpcError e)
                    | inl None => handlerOf s (Options hook None) impl (Short m) r
                    end
        | None => handlerOf s (Options hook None) impl (Short m) r end =
     sendErrorJSON (Options hook None) (withCausef ErrWebrpcBadRequest msg)).
  { rewrite <- J. unfold hookSays in H. destruct hook as [f|]; [rewrite H|]; reflexivity. }
  rewrite K. unfold sendErrorJSON. cbn [o_onError]. rewrite writeHeader_ok by (cbn; unfold HttpStatus; lia).
  split; [reflexivity|]. split; reflexivity.
Qed.
Print Assumptions C65_other_bodies_are_refused.

(** ** Succinct and ordinary *)

(** Making a method succinct changes nothing on the wire: every request, well-formed or not, gets the
    same answer from both servers.  (A request struct without fields is the exception, see below.) *)
Theorem C65_same_answers_as_the_long_form : forall hv s o impl r,
  NoDup (map am_name (mx_methods s)) -> Declared s -> ReturnsStructs s impl ->
  (forall m, In (Short m) (mx_methods s) -> q_path r = (mx_prefix s ++ su_name m)%string -> fieldsOf (mx_env s) (su_in m) <> []) ->
  let short := mixedServe hv s o impl r in
  let long := serveHTTP hv (longService s) o (asLong s impl) r in
  wire (fst short) = wire (fst long) /\ snd short = snd long.
Proof.
  intros hv s o impl r N D RS NE short long. pose proof (same_wire hv s o impl r N D RS) as E.
  assert (X : ~ emptyRequest s r) by (intros (m & I & P & F); exact (NE m I P F)). specialize (E X).
  unfold wireRun in E. fold short long in E. split; congruence.
Qed.
Print Assumptions C65_same_answers_as_the_long_form.

(** So clients of the long form call succinct methods, ... *)
Theorem C65_ordinary_clients_of_succinct_methods : forall recovers hv s o impl m args,
  NoDup (map am_name (mx_methods s)) -> In (Short m) (mx_methods s) -> Declared s ->
  hookSays (o_onRequest o) (su_name m) = inl None -> Carries (mx_env s) (fieldsOf (mx_env s) (su_in m)) args ->
  (forall vs, impl (su_name m) [VStruct args] = Returns [VPtr (Some (VStruct vs))] ->
     Carries (mx_env s) (fieldsOf (mx_env s) (su_out m)) vs ->
     clientCall (longService s) None (mixedConnect recovers hv s o impl) (longForm (mx_env s) (Short m)) args = CallResult vs None) /\
  (forall e w1, impl (su_name m) [VStruct args] = Fails (ERpc e) ->
     (w1 = match o_onError o with Some f => f e | None => e end) -> Transportable w1 ->
     exists z w', clientCall (longService s) None (mixedConnect recovers hv s o impl) (longForm (mx_env s) (Short m)) args = CallResult z (Some w') /\
       re_code w' = re_code w1 /\ re_status w' = re_status w1 /\ (ValidTexts w1 -> SameFields w1 w')).
Proof.
  intros rec hv s o impl m args N I D H C. destruct (long_body s m args C) as (b & RB & U). split.
  - intros vs F CO. destruct (short_result rec hv s o impl m b args vs N I H D U F CO) as (body & l & E & P & UB).
    unfold clientCall. rewrite RB, long_request, E. cbn [p_status p_body Z.eqb Pos.eqb negb longForm rm_out sv_env longService].
    destruct (fieldsOf (mx_env s) (su_out m)) as [|f fs] eqn:EF; [|rewrite UB; reflexivity].
    destruct CO as [FO _]. inversion FO. reflexivity.
  - intros e w1 F E T. fold (onErrorOf o e) in E. subst w1. 
    pose proof (short_error rec hv s o impl m b args (ERpc e) N I H U F T) as X.
    exists (zeros (longForm (mx_env s) (Short m))), (seenError (onErrorOf o e)).
    split; [exact (client_sees_error (longService s) _ args b _ _ RB X T)|].
    destruct (seen_code (onErrorOf o e)). split; [assumption|]. split; [assumption|]. apply san_texts.
Qed.
Print Assumptions C65_ordinary_clients_of_succinct_methods.

(** ... and succinct clients call servers of the long form. *)
Theorem C65_succinct_clients_of_ordinary_methods : forall recovers hv s o impl m args vs,
  NoDup (map am_name (mx_methods s)) -> In (Short m) (mx_methods s) -> Declared s ->
  hookSays (o_onRequest o) (su_name m) = inl None -> Carries (mx_env s) (fieldsOf (mx_env s) (su_in m)) args ->
  impl (su_name m) args = Returns vs -> Carries (mx_env s) (fieldsOf (mx_env s) (su_out m)) vs ->
  succinctClient s None (connect recovers hv (longService s) o impl) m args = (VPtr (Some (VStruct vs)), None).
Proof.
  intros rec hv s o impl m args vs N I D H C F CO. destruct (carries_object _ _ _ C) as (b & l & M & _ & U).
  assert (ND : NoDup (map rm_name (sv_methods (longService s)))) by (rewrite names_same; exact N).
  assert (IN : In (longForm (mx_env s) (Short m)) (sv_methods (longService s))) by (apply in_map, I).
  assert (A : rm_in (longForm (mx_env s) (Short m)) = [] /\ args = [] \/ rm_in (longForm (mx_env s) (Short m)) <> [] /\
     unmarshalStruct (sv_env (longService s)) (rm_in (longForm (mx_env s) (Short m))) b = Some args).
  { cbn [longForm rm_in longService sv_env]. destruct (fieldsOf (mx_env s) (su_in m)) as [|f fs] eqn:EF.
    - left. split; [reflexivity|]. destruct C as [FI _]. inversion FI. reflexivity.
    - right. split; [discriminate|exact U]. }
  unfold succinctClient. rewrite M. rewrite <- (long_request s m b).
  unfold connect, serveHTTP. rewrite (body_any hv (longService s) o impl _ args b ND IN H A).
  unfold callAndAnswer. cbn [longForm rm_name]. rewrite F, andThen_cons. unfold sendOK. rewrite writeHeader_ok by (unfold HttpStatus; lia).
  destruct (carries_object _ _ _ CO) as (body & l' & MO & PO & UO). destruct (D m I) as [_ D2].
  destruct (lookup (su_out m) (mx_env s)) as [fs|] eqn:L; [|congruence].
  cbn [longForm rm_out longService sv_env]. rewrite (fieldsOf_lookup _ _ _ L) in *. destruct fs as [|f fs].
  - destruct CO as [FO _]. inversion FO; subst vs. cbn [andThen fst snd app]. rewrite response_ok'.
    cbn [p_status p_body Z.eqb Pos.eqb negb]. unfold unmarshalValue.
    assert (PE : parseJ "{}" = Some (JObj [])) by (vm_compute; reflexivity). rewrite PE, fromJ_ref, L. reflexivity.
  - rewrite MO. cbn [andThen fst snd app]. rewrite response_ok'. cbn [p_status p_body Z.eqb Pos.eqb negb].
    rewrite (unmarshal_ref _ _ _ body vs L UO (ex_intro _ l' PO)). reflexivity.
Qed.
Print Assumptions C65_succinct_clients_of_ordinary_methods.

(** Ordinary methods are not affected by succinct ones of the same service. *)
Theorem C65_other_methods_are_unaffected : forall hv s o impl r,
  (forall m, In (Short m) (mx_methods s) -> q_path r <> (mx_prefix s ++ su_name m)%string) ->
  mixedServe hv s o impl r = serveHTTP hv (plainService s) o impl r.
Proof.
  intros hv s o impl r NS. unfold mixedServe, serveHTTP.
  assert (E : mixedBody hv s o impl r = serveBody hv (plainService s) o impl r).
  { unfold mixedBody, serveBody. f_equal.
    assert (X : mixedDispatch s (q_path r) = option_map Plain (dispatch (plainService s) (q_path r))).
    { unfold mixedDispatch, dispatch, plainService, routeOf. cbn [sv_methods sv_prefix].
      induction (mx_methods s) as [|[m|m] ms IH]; [reflexivity| |]; cbn [find plainOnes am_name].
      - destruct (String.eqb (q_path r) (mx_prefix s ++ rm_name m)%string); [reflexivity|]. apply IH. intros m' I. apply NS. right. exact I.
      - destruct (String.eqb_spec (q_path r) (mx_prefix s ++ su_name m)%string) as [P|_].
        + destruct (NS m (or_introl eq_refl) P).
        + apply IH. intros m' I. apply NS. right. exact I. }
    rewrite X. destruct (dispatch _ _); reflexivity. }
  rewrite E. reflexivity.
Qed.
Print Assumptions C65_other_methods_are_unaffected.

(** ** Where the two forms differ *)

(** A nil result of a succinct method is a zero result for a client of the long form: it cannot be told from a struct
    of zero values. *)
Theorem C65_ordinary_clients_see_nil_results_refuted : forall recovers hv s o impl m args,
  NoDup (map am_name (mx_methods s)) -> In (Short m) (mx_methods s) ->
  hookSays (o_onRequest o) (su_name m) = inl None -> Carries (mx_env s) (fieldsOf (mx_env s) (su_in m)) args ->
  impl (su_name m) [VStruct args] = Returns [VPtr None] ->
  clientCall (longService s) None (mixedConnect recovers hv s o impl) (longForm (mx_env s) (Short m)) args =
  CallResult (map (fun f => zeroVal (gf_ty f)) (fieldsOf (mx_env s) (su_out m))) None.
Proof.
  intros rec hv s o impl m args N I H C F. destruct (long_body s m args C) as (b & RB & U).
  unfold clientCall. rewrite RB, long_request, (short_nil rec hv s o impl m b args N I H U F).
  cbn [p_status p_body Z.eqb Pos.eqb negb longForm rm_out sv_env longService].
  destruct (fieldsOf (mx_env s) (su_out m)) as [|f fs]; reflexivity.
Qed.
Print Assumptions C65_ordinary_clients_see_nil_results_refuted.

(** A succinct method reads the body of its request even if the request struct has no fields; an ordinary method
    without arguments takes any body. *)
Definition empties : mixedService :=
  MixedService "/rpc/S/" [("Empty", [])] [Short (SuccinctMethod "Get" "Empty" "Empty")].
Theorem C65_empty_requests_get_the_same_answers_refuted : forall hv impl,
  (forall n a, impl n a = Returns [VPtr (Some (VStruct []))]) ->
  let r := Request "POST" "/rpc/S/Get" "application/json" (Some "[]") in
  statusOf (fst (mixedServe hv empties (Options None None) impl r)) = Some 400%Z /\
  statusOf (fst (serveHTTP hv (longService empties) (Options None None) (asLong empties impl) r)) = Some 200%Z.
Proof.
  intros hv impl R r. split; [vm_compute; reflexivity|].
  assert (A : asLong empties impl "Get" [] = Returns []) by (unfold asLong; rewrite R; reflexivity).
  set (m := RpcMethod "Get" [] []).
  assert (B : serveBody hv (longService empties) (Options None None) (asLong empties impl) r =
     andThen ([SetHeader "Webrpc" hv], Returned) (callAndAnswer (longService empties) (Options None None) (asLong empties impl) m [])).
  { apply (body_any hv (longService empties) (Options None None) (asLong empties impl) m [] "[]");
      [repeat constructor; cbn; tauto|left; reflexivity|reflexivity|left; split; reflexivity]. }
  unfold serveHTTP. rewrite B. unfold callAndAnswer. cbn [m rm_name rm_out]. rewrite A. reflexivity.
Qed.
Print Assumptions C65_empty_requests_get_the_same_answers_refuted.

(** ** The service of golang-basics *)
Definition uint32 : goTy := TInt 0 (2 ^ 32 - 1).
Definition uint64 : goTy := TInt 0 (2 ^ 64 - 1).
Definition kinds : enumTable := [("USER", 0%Z); ("ADMIN", 1%Z)].
(** example.gen.go 244-291 *)
Definition basicsEnv : goEnv :=
  [("User", [GF "id" false uint64; GF "USERNAME" false TString; GF "role" false TString; GF "kind" false (TEnum kinds); GF "intent" false TString]);
   ("SearchFilter", [GF "q" false TString]);
   ("Version", [GF "webrpcVersion" false TString; GF "schemaVersion" false TString; GF "schemaHash" false TString]);
   ("GetUserRequest", [GF "userId" false uint64; GF "prefs" false (TMap KString TString)]);
   ("GetUserResponse", [GF "code" false uint32; GF "user" false (TRef "User"); GF "profile" false TString])].
(** example.gen.go 36-50, 466-484 *)
Definition getUser : succinctMethod := SuccinctMethod "GetUser" "GetUserRequest" "GetUserResponse".
Definition basicsMixed : mixedService :=
  MixedService "/v1/Example/" basicsEnv
    [Plain (RpcMethod "Ping" [] []); Plain (RpcMethod "Status" [] [GF "status" false TBool]);
     Plain (RpcMethod "Version" [] [GF "version" false (TRef "Version")]);
     Short getUser; Short (SuccinctMethod "GetUserV2" "GetUserRequest" "GetUserResponse");
     Plain (RpcMethod "FindUser" [GF "s" false (TRef "SearchFilter")] [GF "name" false TString; GF "user" false (TRef "User")]);
     Plain (RpcMethod "GetIntents" [] [GF "intents" false (TSlice TString)]);
     Plain (RpcMethod "CountIntents" [GF "userId" false uint64] [GF "count" false (TMap KString uint32)])].
(** main.go 103-127 *)
Definition user42 : gval := VPtr (Some (VStruct [VInt 42; VStr "hihi"; VStr ""; VEnum 1; VStr "openSession"])).
Definition userNotFound : rpcError := webrpcError "UserNotFound" 1000 "User not found" 400.
Definition basicsImpl : implementation := fun name args =>
  match name, args with
  | "GetUser", [VStruct [VInt 911; _]] => Fails (ERpc userNotFound)
  | "GetUser", [VStruct [VInt 404; _]] => Returns [VPtr None]
  | "GetUser", [VStruct [VInt 500; _]] => Panics "boom"
  | "GetUser", [VStruct [VInt 42; _]] => Returns [VPtr (Some (VStruct [VInt 200; user42; VStr ""]))]
  | "Status", _ => Returns [VBool true]
  | _, _ => Returns []
  end.
Definition ask (id : Z) : list gval := [VInt id; VMap (Some [(KS "lang", VStr "de")])].
Lemma kinds_ok : EnumOk kinds.
Proof.
  unfold EnumOk, kinds. cbn. split; [repeat constructor; cbn; intuition discriminate|].
  split; [repeat constructor; cbn; intuition discriminate|].
  intros n z [[= <- <-]|[[= <- <-]|[]]]; apply ascii_valid; reflexivity.
Qed.
Lemma ask_carries : Carries basicsEnv (fieldsOf basicsEnv "GetUserRequest") (ask 42).
Proof.
  split; [|apply N.leb_le; reflexivity]. unfold ask. cbn [fieldsOf lookup basicsEnv String.eqb Ascii.eqb Bool.eqb]. unfold uint64.
  apply FFCons; [apply FInt; cbn; lia|txt|names_in|intros; discriminate|].
  apply FFCons; [|txt|names_in|intros; discriminate|apply FFNil].
  apply FMap with (names := ["lang"]); [keys|cbn; intuition|]. in_cases. fits.
Qed.
Lemma reply_carries : Carries basicsEnv (fieldsOf basicsEnv "GetUserResponse") [VInt 200; user42; VStr ""].
Proof.
  split; [|apply N.leb_le; reflexivity]. cbn [fieldsOf lookup basicsEnv String.eqb Ascii.eqb Bool.eqb].
  apply FFCons; [apply FInt; cbn; lia|txt|names_in|intros; discriminate|].
  apply FFCons; [|txt|names_in|intros; discriminate|fits].
  unfold user42. eapply FRef; [reflexivity|].
  apply FFCons; [apply FInt; cbn; lia|txt|names_in|intros; discriminate|].
  apply FFCons; [fits|txt|names_in|intros; discriminate|].
  apply FFCons; [fits|txt|names_in|intros; discriminate|].
  apply FFCons; [|txt|names_in|intros; discriminate|fits].
  apply FEnum with (n := "ADMIN"); [exact kinds_ok|cbn; auto].
Qed.
Example C65_example :
  NoDup (map am_name (mx_methods basicsMixed)) /\ In (Short getUser) (mx_methods basicsMixed) /\ Declared basicsMixed /\
  ReturnsStructs basicsMixed (fun _ _ => Returns [VPtr (Some (VStruct [VInt 200; user42; VStr ""]))]) /\
  Carries basicsEnv (fieldsOf basicsEnv "GetUserRequest") (ask 42) /\
  Carries basicsEnv (fieldsOf basicsEnv "GetUserResponse") [VInt 200; user42; VStr ""] /\
  succinctClient basicsMixed None (mixedConnect true "hv" basicsMixed (Options None None) basicsImpl) getUser (ask 42) =
    (VPtr (Some (VStruct [VInt 200; user42; VStr ""])), None) /\
  succinctClient basicsMixed None (mixedConnect true "hv" basicsMixed (Options None None) basicsImpl) getUser (ask 404) = (VPtr None, None) /\
  (exists w, succinctClient basicsMixed None (mixedConnect true "hv" basicsMixed (Options None None) basicsImpl) getUser (ask 911) = (VPtr None, Some w) /\
     re_code w = 1000%Z) /\
  (exists w, succinctClient basicsMixed None (mixedConnect true "hv" basicsMixed (Options None None) basicsImpl) getUser (ask 500) = (VPtr None, Some w) /\
     re_causeText w = "boom") /\
  responseOf (fst (mixedServe "hv" basicsMixed (Options None None) basicsImpl (shortRequest basicsMixed getUser "{""userId"":42,""prefs"":null}"))) =
    Response 200 "{""code"":200,""user"":{""id"":42,""USERNAME"":""hihi"",""role"":"""",""kind"":""ADMIN"",""intent"":""openSession""},""profile"":""""}" /\
  clientCall (longService basicsMixed) None (mixedConnect true "hv" basicsMixed (Options None None) basicsImpl)
    (longForm basicsEnv (Short getUser)) (ask 42) = CallResult [VInt 200; user42; VStr ""] None.
Proof.
  split; [repeat constructor; cbn; intuition discriminate|]. split; [cbn; tauto|]. split.
  { intros m I. cbn in I. intuition; try discriminate; match goal with H : Short _ = Short _ |- _ => injection H as <- end; cbn; discriminate. }
  split.
  { intros m args vs I E. cbn in I. intuition; try discriminate; match goal with H : Short _ = Short _ |- _ => injection H as <- end.
    all: injection E as <-; eexists; split; reflexivity. }
  split; [exact ask_carries|]. split; [exact reply_carries|].
  split; [vm_compute; reflexivity|]. split; [vm_compute; reflexivity|].
  split; [eexists; split; vm_compute; reflexivity|]. split; [eexists; split; vm_compute; reflexivity|].
  split; vm_compute; reflexivity.
Qed.
