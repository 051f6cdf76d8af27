(** Calls between programs of different versions *)
From Coq Require Import Lia.
From Verif Require Import Base BaseProofs Utf8 Json JsonProofs GoVal GoValSpec GoValProofs Rpc RpcSpec RpcProofs RpcRemote JsOrder VersionSpec VersionProofs.

Lemma zeros_seen same env env' fs' : SeesFields same env env' [] [] fs' (map (fun f => zeroVal (gf_ty f)) fs').
Proof. induction fs' as [|g gs IH]; [constructor|]. cbn [map]. apply SeesNew; [intros []|apply zero_zeroVal|exact IH]. Qed.

Lemma payload_seen same env env' fs fs' vs : StructsAgree same env env' -> FieldsAgree same fs fs' -> Carries env fs vs ->
  exists s vs', marshalStruct env fs vs = Some s /\ unmarshalStruct env' fs' s = Some vs' /\ SeesFields same env env' fs vs fs' vs'.
Proof.
  intros SA FA [F D]. destruct (proj2 (fits_round_trip env) fs vs F) as (l & T & W & DM & _).
  destruct (fields_seen same env env' fs vs (proj2 (versions same env env' SA) fs vs F) fs' l FA T) as (vs' & FF & S).
  exists (printJ (JObj l)), vs'. unfold marshalStruct, unmarshalStruct. rewrite T. split; [reflexivity|]. split; [|exact S].
  rewrite parse_print; [exact FF|constructor; exact W|]. rewrite jdepth_obj. lia.
Qed.

(** the request of the client, and the arguments the server reads in it *)
Lemma request_seen same sc ss mc ms args : StructsAgree same (sv_env sc) (sv_env ss) -> FieldsAgree same (rm_in mc) (rm_in ms) ->
  Carries (sv_env sc) (rm_in mc) args ->
  exists b args', requestBody sc mc args = Some b /\ SeesFields same (sv_env sc) (sv_env ss) (rm_in mc) args (rm_in ms) args' /\
    (rm_in ms = [] /\ args' = [] \/ rm_in ms <> [] /\ unmarshalStruct (sv_env ss) (rm_in ms) b = Some args').
Proof.
  intros SA FA C. unfold requestBody. destruct (rm_in ms) as [|g gs] eqn:ES.
  - destruct (payload_seen same (sv_env sc) (sv_env ss) (rm_in mc) [] args SA) as (s & vs' & M & U & S); [split; [constructor|intros ? ? ? []]|exact C|].
    exists (match rm_in mc with [] => "null" | _ => s end), []. split; [destruct (rm_in mc); [reflexivity|exact M]|]. split; [constructor|left; auto].
  - destruct (rm_in mc) as [|f fs] eqn:EC.
    + destruct C as [C _]. inversion C; subst. exists "null", (map (fun f => zeroVal (gf_ty f)) (g :: gs)). split; [reflexivity|].
      split; [apply zeros_seen|]. right. split; [discriminate|reflexivity].
    + destruct (payload_seen same (sv_env sc) (sv_env ss) (f :: fs) (g :: gs) args SA FA C) as (s & vs' & M & U & S). exists s, vs'.
      split; [exact M|]. split; [exact S|]. right. split; [discriminate|exact U].
Qed.

Lemma request_same sc ss mc ms b : routeOf sc mc = routeOf ss ms -> newRequest sc mc b = newRequest ss ms b.
Proof. unfold newRequest. intros ->. reflexivity. Qed.

Theorem call_seen same same' rec hv sc ss hook impl mc ms args :
  NoDup (map rm_name (sv_methods ss)) -> In ms (sv_methods ss) -> routeOf sc mc = routeOf ss ms -> hookSays hook (rm_name ms) = inl None ->
  StructsAgree same (sv_env sc) (sv_env ss) -> FieldsAgree same (rm_in mc) (rm_in ms) ->
  StructsAgree same' (sv_env ss) (sv_env sc) -> FieldsAgree same' (rm_out ms) (rm_out mc) ->
  Carries (sv_env sc) (rm_in mc) args ->
  exists b args', requestBody sc mc args = Some b /\ SeesFields same (sv_env sc) (sv_env ss) (rm_in mc) args (rm_in ms) args' /\
    callsMade (fst (serveHTTP hv ss (hookOnly hook) impl (newRequest sc mc b))) = [(rm_name ms, args')] /\
    match impl (rm_name ms) args' with
    | Returns vs => Carries (sv_env ss) (rm_out ms) vs -> exists vs', SeesFields same' (sv_env ss) (sv_env sc) (rm_out ms) vs (rm_out mc) vs' /\
        clientCall sc None (connect rec hv ss (hookOnly hook) impl) mc args = CallResult vs' None
    | Fails e => Transportable (toRpcError e) ->
        clientCall sc None (connect rec hv ss (hookOnly hook) impl) mc args = CallResult (zeros mc) (Some (seenError (toRpcError e)))
    | Panics _ => True
    end.
Proof.
  intros ND I R H SA FA SA' FA' C. destruct (request_seen same sc ss mc ms args SA FA C) as (b & args' & RB & S & A). exists b, args'.
  split; [exact RB|]. split; [exact S|]. rewrite (request_same sc ss mc ms b R). split.
  { destruct (gives_call hv hook impl ss ms (newRequest ss ms b) args') as (a & _ & G & _).
    - repeat split; cbn; [exact I|]. apply content_type_iff. reflexivity.
    - exact H.
    - destruct A as [[E ->]|[N U]]; [apply NoArguments, E|]. apply (BodyArguments ss ms _ b); [exact N|reflexivity|exact U].
    - rewrite (serve_client_request hv ss hook impl ms args' b ND I H A). exact G. }
  destruct (impl (rm_name ms) args') as [vs|e|msg] eqn:F; [| |exact Logic.I].
  - intros CR. unfold clientCall. rewrite RB, (request_same sc ss mc ms b R). unfold connect.
    rewrite (serve_client_request hv ss hook impl ms args' b ND I H A).
    unfold callAndAnswer. rewrite F, andThen_cons. unfold sendOK. rewrite writeHeader_ok by (unfold HttpStatus; lia).
    destruct (rm_out ms) as [|f fs] eqn:ES.
    + destruct CR as [CR _]. inversion CR; subst. exists (map (fun f => zeroVal (gf_ty f)) (rm_out mc)). split; [apply zeros_seen|].
      cbn [guarded andThen fst snd app]. rewrite response_ok'. cbn [p_status p_body Z.eqb]. cbn.
      destruct (rm_out mc); reflexivity.
    + destruct (payload_seen same' (sv_env ss) (sv_env sc) (f :: fs) (rm_out mc) vs SA' FA' CR) as (body & vs' & M & U & S'). rewrite M.
      exists vs'. split; [exact S'|]. cbn [guarded andThen fst snd app]. rewrite response_ok'. cbn [p_status p_body Z.eqb]. cbn.
      destruct (rm_out mc) as [|g gs]; [inversion S'; reflexivity|]. rewrite U. reflexivity.
  - intros T. apply (client_sees_error sc mc args b); [exact RB| |exact T]. rewrite (request_same sc ss mc ms b R).
    unfold connect. rewrite (serve_client_request hv ss hook impl ms args' b ND I H A).
    unfold callAndAnswer. rewrite F, andThen_cons, sendError_ok by apply transportable_http, T.
    cbn [guarded andThen fst snd]. f_equal. apply response_error; [|exact T]. repeat split.
Qed.

(** a method the server does not have *)
Theorem method_unknown rec hv sc ss hook impl mc args : ~ In (routeOf sc mc) (map (routeOf ss) (sv_methods ss)) ->
  Carries (sv_env sc) (rm_in mc) args ->
  exists b w, requestBody sc mc args = Some b /\ callsMade (fst (serveHTTP hv ss (hookOnly hook) impl (newRequest sc mc b))) = [] /\
    clientCall sc None (connect rec hv ss (hookOnly hook) impl) mc args = CallResult (zeros mc) (Some w) /\ re_code w = (-2)%Z /\ re_status w = 404%Z.
Proof.
  intros NI C. destruct (client_request sc mc args C) as (b & RB & _).
  set (e := withCausef ErrWebrpcBadRoute ("no webrpc method defined for path " ++ routeOf sc mc)).
  assert (T : Transportable e) by (unfold Transportable, Int64; cbn; lia).
  assert (D : dispatch ss (routeOf sc mc) = None).
  { unfold dispatch. destruct (find _ _) eqn:F; [|reflexivity]. apply find_some in F. destruct F as [F1 F2]. apply String.eqb_eq in F2.
    exfalso. apply NI. rewrite F2. apply in_map, F1. }
  assert (SV : serveHTTP hv ss (hookOnly hook) impl (newRequest sc mc b) =
    ([SetHeader "Webrpc" hv; SetHeader "Content-Type" "application/json"; WriteHeader (re_status e); Write (marshalError e)], Returned)).
  { unfold serveHTTP, serveBody, newRequest. cbn [q_path]. rewrite D. fold e. reflexivity. }
  exists b, (seenError e). split; [exact RB|]. split; [rewrite SV; reflexivity|]. split.
  - apply (client_sees_error sc mc args b); [exact RB| |exact T]. unfold connect. rewrite SV. f_equal.
    apply (response_error [SetHeader "Webrpc" hv]); [repeat split|exact T].
  - destruct (seen_code e) as [E1 E2]. rewrite E1, E2. split; reflexivity.
Qed.
