(** C58: method descriptors, hooks on annotations, mounting, request headers.  Theorems only. *)
From Verif Require Import Base BaseProofs Uri Utf8 Json JsonProofs GoVal GoValSpec GoValProofs Rpc RpcSpec RpcProofs RpcRemote RpcRoutes RpcExamples.
From Verif Require Import Methods MethodsSpec MethodsProofs.
From Verif Require Schema Cli Main Conformance.

(** ** Descriptors *)

(** The paths of the methods table are different, ... *)
Theorem C58_paths_are_distinct : forall sch, Accepted sch -> NoDup (map fst (methodsTable sch)).
Proof. exact table_distinct. Qed.
Print Assumptions C58_paths_are_distinct.

(** ... the descriptor of a request is that of the method at its path, if there is one, ... *)
Theorem C58_descriptor_belongs_to_the_path : forall sch path, Accepted sch ->
  (forall i, methodCtx (methodsTable sch) (Some path) = Some i ->
     exists v m s, In v (Schema.sc_services sch) /\ In m (Schema.v_methods v) /\ ServerOf sch v s /\
       path = (sv_prefix s ++ Schema.me_name m)%string /\ Describes i v m) /\
  (forall v m s, ServerOf sch v s -> In m (Schema.v_methods v) -> path = (sv_prefix s ++ Schema.me_name m)%string ->
     exists i, methodCtx (methodsTable sch) (Some path) = Some i /\ Describes i v m).
Proof.
  intros sch path A. split.
  - intros i E. apply assoc_some, table_in in E. destruct E as (v & m & Iv & Im & -> & ->).
    exists v, m, (Service (Schema.sc_basepath sch ++ Schema.v_name v ++ "/")
      [] (map (fun m => RpcMethod (Schema.me_name m) [] []) (Schema.v_methods v))).
    split; [exact Iv|]. split; [exact Im|]. split; [|split; [|apply describes]].
    + split; [exact Iv|]. split; [reflexivity|]. cbn [sv_methods]. rewrite map_map. reflexivity.
    + cbn [sv_prefix]. symmetry. apply prefix_assoc.
  - intros v m s (Iv & P & _) Im ->. exists (infoOf v m). split; [|apply describes].
    rewrite P, prefix_assoc. apply ctx_of; assumption.
Qed.
Print Assumptions C58_descriptor_belongs_to_the_path.

(** ... and it is the descriptor of the method that is called. *)
Theorem C58_descriptor_is_that_of_the_called_method : forall sch v s hv hook impl r n args,
  Accepted sch -> ServerOf sch v s ->
  In (n, args) (callsMade (fst (serveHTTP hv s (Options hook None) impl r))) ->
  exists m i, In m (Schema.v_methods v) /\ Schema.me_name m = n /\
    methodCtx (methodsTable sch) (Some (q_path r)) = Some i /\ Describes i v m.
Proof.
  intros sch v s hv hook impl r n args A S I.
  destruct (served hv s hook impl r (server_names _ _ _ A S)) as (calls & a & X & G).
  destruct G as [C _]. unfold hookOnly in C. rewrite C in I.
  assert (exists m, Addressed s r m /\ rm_name m = n) as (m & (Im & P & _) & E)
    by (destruct X; try (destruct I; fail); destruct I as [[= <- <-]|[]]; eauto).
  destruct (server_method sch v s m S Im) as (m' & I' & E' & R). unfold routeOf in R.
  exists m', (infoOf v m'). split; [exact I'|]. split; [congruence|]. split; [|apply describes].
  rewrite P, R. apply ctx_of; [exact A|exact (proj1 S)|exact I'].
Qed.
Print Assumptions C58_descriptor_is_that_of_the_called_method.

(** Server.Methods lists the methods of the services that are set, each once with its path, its
    descriptor and its handler, ... *)
Theorem C58_methods_list_the_services : forall sch (fields : list (string * option service)) b, Accepted sch ->
  In b (serverMethods (methodsTable sch) fields) <->
  exists v m h, In v (Schema.sc_services sch) /\ In m (Schema.v_methods v) /\ In (Schema.v_name v, Some h) fields /\
    b_handler b = h /\ b_method b = infoOf v m /\
    b_path b = (Schema.sc_basepath sch ++ Schema.v_name v ++ "/" ++ Schema.me_name m)%string.
Proof.
  intros sch fields b A. unfold serverMethods, methodsFor, webrpcMethods. rewrite in_flat_map. split.
  - intros ([n [h|]] & If & Ib); cbn [snd fst] in Ib; [|destruct Ib]. apply in_map_iff in Ib.
    destruct Ib as ([p i] & <- & I). apply filter_In in I. destruct I as [I E]. cbn [existsb snd] in E.
    rewrite orb_false_r in E. apply String.eqb_eq in E. apply table_in in I. destruct I as (v & m & Iv & Im & -> & ->).
    cbn in E. subst n. exists v, m, h. auto 7.
  - intros (v & m & h & Iv & Im & If & E1 & E2 & E3). destruct b as [i p h']. cbn in *. subst.
    exists (Schema.v_name v, Some h). split; [exact If|]. cbn [snd fst]. apply in_map_iff.
    exists ((Schema.sc_basepath sch ++ Schema.v_name v ++ "/" ++ Schema.me_name m)%string, infoOf v m).
    split; [reflexivity|]. apply filter_In. split; [apply table_in; eauto 6|].
    cbn [existsb snd infoOf mi_service]. rewrite String.eqb_refl. reflexivity.
Qed.
Print Assumptions C58_methods_list_the_services.

(** ... and a request to a listed path, given to the listed handler, is a request for the described method. *)
Theorem C58_listed_handlers_serve_their_paths : forall sch fields b r, Accepted sch ->
  (forall v h, In v (Schema.sc_services sch) -> In (Schema.v_name v, Some h) fields -> ServerOf sch v h) ->
  In b (serverMethods (methodsTable sch) fields) ->
  q_path r = b_path b -> q_method r = "POST" -> JsonContentType (q_contentType r) ->
  exists m, Addressed (b_handler b) r m /\ rm_name m = mi_name (b_method b).
Proof.
  intros sch fields b r A H I P M C. apply C58_methods_list_the_services in I; [|exact A].
  destruct I as (v & m & h & Iv & Im & If & -> & E2 & E3). pose proof (H v h Iv If) as S.
  destruct (server_has sch v h m S Im) as (m' & I' & E'). exists m'. rewrite E2. split; [|exact E'].
  split; [exact I'|]. split; [|auto]. destruct S as (_ & Pf & _). rewrite P, E3, Pf, E', prefix_assoc. reflexivity.
Qed.
Print Assumptions C58_listed_handlers_serve_their_paths.

(** WebrpcMethods with services keeps exactly the methods of these. *)
Theorem C58_webrpc_methods_filters : forall table services p i,
  In (p, i) (webrpcMethods table services) <-> In (p, i) table /\ (services = [] \/ In (mi_service i) services).
Proof.
  intros table services p i. unfold webrpcMethods. destruct services as [|x l]; [split; [auto|tauto]|].
  rewrite filter_In, existsb_exists. cbn [snd]. split.
  - intros [I (y & Iy & E)]. apply String.eqb_eq in E. subst y. auto.
  - intros [I [[=]|J]]. split; [exact I|]. exists (mi_service i). split; [exact J|apply String.eqb_refl].
Qed.
Print Assumptions C58_webrpc_methods_filters.

(** ** Hooks on annotations *)

(** With the hook of the example no method annotated "deprecated" is ever called, ... *)
Theorem C58_deprecated_methods_are_never_called : forall sch v s hv impl r n args m,
  Accepted sch -> ServerOf sch v s ->
  In (n, args) (callsMade (fst (serveHTTP hv s (Options (Some (onPath s (deprecatedHook (methodsTable sch)))) None) impl r))) ->
  In m (Schema.v_methods v) -> Schema.me_name m = n -> forall value, ~ Annotated m "deprecated" value.
Proof.
  intros sch v s hv impl r n args m A S I Im E value (ty & D).
  destruct (served hv s (hookOf sch s) impl r (server_names _ _ _ A S)) as (calls & a & X & G).
  destruct G as [C _]. unfold hookOnly, hookOf in C. rewrite C in I.
  assert (exists m', Addressed s r m' /\ rm_name m' = n /\ hookSays (hookOf sch s) (rm_name m') = inl None) as (m' & _ & E' & Hk)
    by (destruct X; try (destruct I; fail); destruct I as [[= <- <-]|[]]; eauto).
  rewrite (hook_says sch v s m' m A S Im) in Hk by congruence. rewrite D in Hk. discriminate Hk.
Qed.
Print Assumptions C58_deprecated_methods_are_never_called.

(** ... every request that is not for one of them is answered as without the hook, ... *)
Theorem C58_other_requests_do_not_notice_the_hook : forall sch v s hv impl r,
  Accepted sch -> ServerOf sch v s ->
  (forall m value, In m (Schema.v_methods v) -> q_path r = (sv_prefix s ++ Schema.me_name m)%string -> ~ Annotated m "deprecated" value) ->
  serveHTTP hv s (Options (Some (onPath s (deprecatedHook (methodsTable sch)))) None) impl r =
  serveHTTP hv s (Options None None) impl r.
Proof.
  intros sch v s hv impl r A S H.
  assert (B : serveBody hv s (Options (Some (onPath s (deprecatedHook (methodsTable sch)))) None) impl r =
              serveBody hv s (Options None None) impl r).
  { unfold serveBody. f_equal. destruct (dispatch s (q_path r)) as [m|] eqn:D; [|reflexivity].
    apply dispatch_iff in D; [|exact (server_names _ _ _ A S)]. destruct D as [Im P].
    destruct (negb _); [reflexivity|]. destruct (String.eqb _ _); [|reflexivity]. cbn [o_onRequest].
    destruct (server_method sch v s m S Im) as (m' & I' & E' & R).
    pose proof (hook_says sch v s m m' A S I' E') as Hk. cbn [hookSays hookOf] in Hk. rewrite Hk.
    destruct (assoc "deprecated" (Schema.me_annotations m')) as [[ty new]|] eqn:D; [|reflexivity].
    exfalso. apply (H m' new I'); [rewrite E'; exact P|]. exists ty. exact D. }
  unfold serveHTTP. rewrite B. reflexivity.
Qed.
Print Assumptions C58_other_requests_do_not_notice_the_hook.

(** ... and a client that calls one of them gets the endpoint error with the text of the hook. *)
Theorem C58_refusals_arrive : forall sch v s recovers hv impl m m' value args,
  Accepted sch -> ServerOf sch v s -> In m' (Schema.v_methods v) -> Annotated m' "deprecated" value ->
  In m (sv_methods s) -> rm_name m = Schema.me_name m' -> Carries (sv_env s) (rm_in m) args ->
  let text := ("endpoint " ++ (sv_prefix s ++ rm_name m) ++ " has been deprecated in favor of endpoint " ++ value)%string in
  exists vs w,
    clientCall s None (connect recovers hv s (Options (Some (onPath s (deprecatedHook (methodsTable sch)))) None) impl) m args =
      CallResult vs (Some w) /\
    re_code w = 0%Z /\ re_status w = 400%Z /\
    (ValidUtf8 text -> re_name w = "WebrpcEndpoint" /\ re_message w = "endpoint error" /\ re_causeText w = text).
Proof.
  intros sch v s rec hv impl m m' value args A S I (ty & D) Im E C text.
  assert (Hk : hookSays (hookOf sch s) (rm_name m) = inl (Some (EPlain 0 text))).
  { rewrite (hook_says sch v s m m' A S I) by congruence. rewrite D. reflexivity. }
  assert (T : Transportable (toRpcError (EPlain 0 text))).
  { split; [cbn; lia|]. split; [discriminate|]. split; [discriminate|]. unfold Int64. cbn. lia. }
  exists (zeros m), (seenError (toRpcError (EPlain 0 text))).
  split; [exact (remote_rejected rec hv s (hookOf sch s) impl m args _ (server_names _ _ _ A S) Im Hk C T)|].
  destruct (seen_code (toRpcError (EPlain 0 text))) as [-> ->]. split; [reflexivity|]. split; [reflexivity|].
  intros VT. assert (VTx : ValidTexts (toRpcError (EPlain 0 text))).
  { split; [txt|]. split; [txt|]. cbn. exact VT. }
  destruct (san_texts _ VTx) as (N & _ & M & X & _). rewrite <- N, <- M, <- X. repeat split; reflexivity.
Qed.
Print Assumptions C58_refusals_arrive.

(** ** The server of golang-basics *)

(** Every method of the Example service is reached through the router ... *)
Theorem C58_example_methods_are_reached : forall hv example admin impl adminImpl raw routed r m,
  sv_prefix example = "/v1/Example/" -> In m (sv_methods example) ->
  q_path r = (sv_prefix example ++ rm_name m)%string -> unescape raw = Some (q_path r) ->
  routed = raw /\ has_prefix "/v" raw = true \/ routed = q_path r ->
  exampleApp hv example admin impl adminImpl routed r =
  serveHTTP hv example (Options (Some (onPath example (deprecatedHook exampleTable))) None) impl r.
Proof.
  intros hv ex ad impl ai raw routed r m Pf Im P U R. unfold exampleApp, route.
  assert (H : has_prefix "/v" routed = true).
  { destruct R as [[-> H]| ->]; [exact H|]. rewrite P, Pf. reflexivity. }
  apply has_prefix_iff in H. destruct H as [t ->]. reflexivity.
Qed.
Print Assumptions C58_example_methods_are_reached.

(** ... but no method of the Admin service: the admin server answers the same whatever its
    implementation is, and a request to the path of one of its methods gets "not found" from the
    other server. *)
Theorem C58_admin_is_unreachable_refuted : forall hv example admin impl adminImpl raw routed r,
  sv_prefix example = "/v1/Example/" -> NoDup (map rm_name (sv_methods example)) ->
  sv_prefix admin = "/v1/Admin/" -> NoDup (map rm_name (sv_methods admin)) ->
  unescape raw = Some (q_path r) -> routed = raw \/ routed = q_path r ->
  (forall other, exampleApp hv example admin impl adminImpl routed r = exampleApp hv example admin impl other routed r) /\
  (forall n, q_path r = ("/v1/Admin/" ++ n)%string -> has_prefix "/" raw = true ->
     Gives (exampleApp hv example admin impl adminImpl routed r) [] (ErrorAnswer (-2) 404)).
Proof.
  assert (Un : forall t p, unescape ("/admin/" ++ t)%string = Some p -> exists t', p = ("/admin/" ++ t')%string).
  { intros t p. cbn. destruct (unescape t) as [t'|]; [|discriminate]. intros [= <-]. exists t'. reflexivity. }
  intros hv ex ad impl ai raw routed r Pe Ne Pa Na U R.
  assert (NA : has_prefix "/admin/" routed = true -> exists t, q_path r = ("/admin/" ++ t)%string).
  { intros H. apply has_prefix_iff in H. destruct H as [t E]. destruct R as [->| ->]; [|eauto].
    rewrite E in U. exact (Un _ _ U). }
  split.
  - intros other. unfold exampleApp, route. destruct (String.eqb routed "/" && _); [reflexivity|].
    destruct (has_prefix "/admin/" routed) eqn:H; [|destruct (has_prefix "/" routed); reflexivity].
    destruct (NA eq_refl) as [t E].
    assert (D : dispatch ad (q_path r) = None).
    { destruct (dispatch ad (q_path r)) as [m|] eqn:D; [|reflexivity]. apply dispatch_iff in D; [|exact Na].
      destruct D as [_ D]. rewrite E, Pa in D. discriminate D. }
    unfold serveHTTP, serveBody. rewrite D. reflexivity.
  - intros n P Hr. unfold exampleApp, route.
    destruct (String.eqb routed "/" && _) eqn:Rt.
    { exfalso. apply andb_true_iff in Rt. destruct Rt as [Rt _]. apply String.eqb_eq in Rt. subst routed.
      destruct R as [<-|R]; [|rewrite P in R; discriminate R]. rewrite P in U. discriminate U. }
    destruct (has_prefix "/admin/" routed) eqn:H.
    { exfalso. destruct (NA eq_refl) as [t E]. rewrite P in E. discriminate E. }
    assert (has_prefix "/" routed = true) as ->.
    { destruct R as [->| ->]; [exact Hr|]. rewrite P. reflexivity. }
    destruct (served hv ex (Some (onPath ex (deprecatedHook exampleTable))) impl r Ne) as (calls & a & X & G).
    destruct (expected_unique ex (Some (onPath ex (deprecatedHook exampleTable))) impl r calls a [] (ErrorAnswer (-2) 404) Ne X)
      as [-> ->]; [|exact G].
    apply UnknownRoute. intros m _ E. rewrite P, Pe in E. discriminate E.
Qed.
Print Assumptions C58_admin_is_unreachable_refuted.

(** ** Request headers *)

(** The headers of a request are those of webrpc followed by those of the context, under keys that
    HTTP treats as the same; ... *)
Theorem C58_request_headers : forall hv hs c ws, Given c hs ws ->
  headerValues (requestHeaders hv (Some hs)) c = headerValues (requestHeaders hv None) c ++ ws.
Proof.
  intros hv hs c ws G. unfold headerValues, requestHeaders.
  match goal with |- context [fold_left _ hs ?o] => destruct (add_all c hs o) as (ws' & G' & E) end.
  rewrite E. f_equal. exact (given_unique _ _ _ _ G' G).
Qed.
Print Assumptions C58_request_headers.

(** ... so webrpc's own headers are sent alone iff the context has no values under such keys. *)
Theorem C58_own_headers : forall hv,
  headerValues (requestHeaders hv None) "Accept" = ["application/json"] /\
  headerValues (requestHeaders hv None) "Content-Type" = ["application/json"] /\
  headerValues (requestHeaders hv None) "Webrpc" = [hv] /\
  (forall c, ~ SameHeader c "Accept" -> ~ SameHeader c "Content-Type" -> ~ SameHeader c "Webrpc" ->
     headerValues (requestHeaders hv None) c = []).
Proof.
  intros hv. split; [reflexivity|]. split; [reflexivity|]. split; [reflexivity|].
  intros c A B C. unfold headerValues, requestHeaders, headerSet. rewrite !values_put.
  destruct (String.eqb_spec (canonical c) (canonical "Webrpc")) as [E|_]; [apply canonical_iff in E; contradiction|].
  destruct (String.eqb_spec (canonical c) (canonical "Content-Type")) as [E|_]; [apply canonical_iff in E; contradiction|].
  destruct (String.eqb_spec (canonical c) (canonical "Accept")) as [E|_]; [apply canonical_iff in E; contradiction|].
  reflexivity.
Qed.
Print Assumptions C58_own_headers.

(** WithHTTPRequestHeaders refuses exactly the keys "Accept" and "Content-Type" ... *)
Theorem C58_reserved_headers_are_refused : forall h,
  (exists msg, withHTTPRequestHeaders h = inl msg) <-> In "Accept" (map fst h) \/ In "Content-Type" (map fst h).
Proof.
  assert (K : forall k (h : headers), (exists x, assoc k h = Some x) <-> In k (map fst h)).
  { intros k h. split.
    - intros [x E]. apply assoc_some in E. exact (in_map fst _ _ E).
    - induction h as [|[k' x] h IH]; cbn; [tauto|]. destruct (String.eqb k k') eqn:E; [eauto|].
      intros [->|I]; [rewrite String.eqb_refl in E; discriminate E|auto]. }
  intros h. rewrite <- !K. unfold withHTTPRequestHeaders.
  destruct (assoc "Accept" h) as [x|] eqn:A; [split; eauto|].
  destruct (assoc "Content-Type" h) as [y|] eqn:C; [split; eauto|].
  split; [intros [m [=]]|intros [[x [=]]|[x [=]]]].
Qed.
Print Assumptions C58_reserved_headers_are_refused.

(** ... and stores the others unchanged, so with keys in canonical form webrpc's Accept and
    Content-Type are sent alone; ... *)
Theorem C58_canonical_keys_cannot_override : forall hv h hs,
  withHTTPRequestHeaders h = inr hs -> (forall k vs, In (k, vs) h -> canonical k = k) ->
  hs = h /\
  headerValues (requestHeaders hv (Some hs)) "Accept" = ["application/json"] /\
  headerValues (requestHeaders hv (Some hs)) "Content-Type" = ["application/json"].
Proof.
  intros hv h hs W K.
  assert (N : forall c, c = "Accept" \/ c = "Content-Type" -> forall k vs, In (k, vs) h -> ~ SameHeader k c).
  { intros c Hc k vs I S. apply canonical_iff in S. rewrite (K k vs I) in S.
    assert (k = c) by (destruct Hc as [->| ->]; exact S). subst k.
    destruct (proj2 (C58_reserved_headers_are_refused h)) as [m E]; [|congruence].
    destruct Hc as [->| ->]; [left|right]; exact (in_map fst _ _ I). }
  assert (hs = h) as ->.
  { unfold withHTTPRequestHeaders in W. destruct (assoc "Accept" h); [discriminate|].
    destruct (assoc "Content-Type" h); [discriminate|]. injection W as <-. reflexivity. }
  split; [reflexivity|].
  assert (V : forall c, c = "Accept" \/ c = "Content-Type" ->
     headerValues (requestHeaders hv (Some h)) c = headerValues (requestHeaders hv None) c).
  { intros c Hc. destruct (add_all c h []) as (ws & G & _). rewrite (C58_request_headers hv h c ws G).
    rewrite (given_none c h (N c Hc) ws G). apply app_nil_r. }
  rewrite !V by auto. split; reflexivity.
Qed.
Print Assumptions C58_canonical_keys_cannot_override.

(** ... but a key in another case gets through, and the request carries two content types. *)
Theorem C58_other_keys_override_refuted : forall hv, exists h hs,
  withHTTPRequestHeaders h = inr hs /\
  headerValues (requestHeaders hv (Some hs)) "Content-Type" = ["application/json"; "text/plain"] /\
  headerValues (requestHeaders hv (Some hs)) "Accept" = ["application/json"; "*/*"].
Proof.
  intros hv. exists [("content-type", ["text/plain"]); ("accept", ["*/*"])]. eexists. split; [reflexivity|]. split; reflexivity.
Qed.
Print Assumptions C58_other_keys_override_refuted.

(** ** Instances *)

(** the tables committed in the three generated files are those of the schema file with the flags of
    the Makefile (annotations compared as maps: the generated code sorts them) *)
Definition sameTable (a b : list (string * methodInfo)) : bool :=
  let sub x y := forallb (fun kv => match assoc (fst kv) y with Some v => String.eqb v (snd kv) | None => false end) x in
  Nat.eqb (List.length a) (List.length b) &&
  forallb (fun ab => String.eqb (fst (fst ab)) (fst (snd ab)) &&
    String.eqb (mi_name (snd (fst ab))) (mi_name (snd (snd ab))) &&
    String.eqb (mi_service (snd (fst ab))) (mi_service (snd (snd ab))) &&
    sub (mi_annotations (snd (fst ab))) (mi_annotations (snd (snd ab))) &&
    sub (mi_annotations (snd (snd ab))) (mi_annotations (snd (fst ab)))) (combine a b).
Definition tableOf (args : list string) : list (string * methodInfo) :=
  match Main.mainSchema 20 Conformance.repo goUriOk "/repo/_examples/golang-basics" "" args with
  | Ok s => methodsTable s
  | _ => []
  end.
Example C58_committed_tables :
  sameTable exampleTable (tableOf ["-schema=example.ridl"; "-target=golang"; "-service=Example"]) = true /\
  sameTable adminTable (tableOf ["-schema=example.ridl"; "-target=golang"; "-service=Admin"; "-ignore=@deprecated"]) = true /\
  sameTable internalTable (tableOf ["-schema=example.ridl"; "-target=golang"; "-service=Example,Admin"; "-ignore=@public,@deprecated"]) = true.
Proof. vm_compute. repeat split; reflexivity. Qed.

(** the whole schema file is accepted, and GetUser of its Example service is deprecated *)
Definition basics : Schema.schema :=
  match Main.parseSchemaFile Conformance.repo goUriOk "/repo/_examples/golang-basics" "example.ridl" with
  | Ok s => s
  | _ => Schema.Schema_ "" "" "" "" [] [] []
  end.
Lemma basics_accepted : Accepted basics.
Proof.
  split; [exists goUriOk, basics; vm_compute; reflexivity|]. split.
  - assert (E : map Schema.v_name (Schema.sc_services basics) = ["Example"; "ExampleV2"; "Admin"]) by (vm_compute; reflexivity).
    assert (G : map snd (map Schema.v_id (Schema.sc_services basics)) = [0; 1; 2]) by (vm_compute; reflexivity).
    apply (NoDup_map_inv snd). rewrite G. repeat constructor; cbn; intuition discriminate.
  - assert (E : forallb (fun v => sforall (fun c => negb (Ascii.eqb c "/")) (Schema.v_name v)) (Schema.sc_services basics) = true)
      by (vm_compute; reflexivity).
    rewrite forallb_forall in E. exact E.
Qed.
Definition basicsService : Schema.service :=
  match Schema.sc_services basics with v :: _ => v | [] => Schema.Service_ ("", 0) "" [] [] end.
Definition exampleServer : service :=
  Service "/v1/Example/" [] (map (fun n => RpcMethod n [] []) exampleNames).
Definition adminServer : service := Service "/v1/Admin/" [] (map (fun n => RpcMethod n [] []) adminNames).
Lemma basics_server : ServerOf basics basicsService exampleServer.
Proof.
  split; [vm_compute; left; reflexivity|]. split; vm_compute; reflexivity.
Qed.
Definition getUser : rpcMethod := RpcMethod "GetUser" [] [].
Definition getUserV2 : rpcMethod := RpcMethod "GetUserV2" [] [].
Example C58_example : exists m', In m' (Schema.v_methods basicsService) /\ Schema.me_name m' = "GetUser" /\
  Annotated m' "deprecated" "Use GetUserV2 instead." /\ Carries (sv_env exampleServer) (rm_in getUser) [] /\
  In getUser (sv_methods exampleServer) /\
  (exists vs w, clientCall exampleServer None (connect true "hv" exampleServer
      (Options (Some (onPath exampleServer (deprecatedHook exampleTable))) None) (fun _ _ => Returns [])) getUser [] = CallResult vs (Some w) /\
    re_causeText w = "endpoint /v1/Example/GetUser has been deprecated in favor of endpoint Use GetUserV2 instead.") /\
  callsMade (fst (exampleApp "hv" exampleServer adminServer (fun _ _ => Returns []) (fun _ _ => Returns []) "/v1/Example/GetUserV2"
    (newRequest exampleServer getUserV2 "null"))) = [("GetUserV2", [])] /\
  callsMade (fst (exampleApp "hv" exampleServer adminServer (fun _ _ => Returns []) (fun _ _ => Returns []) "/v1/Example/GetUser"
    (newRequest exampleServer getUser "null"))) = [].
Proof.
  assert (X : exists m', nth_error (Schema.v_methods basicsService) 3 = Some m' /\ Schema.me_name m' = "GetUser" /\
    Annotated m' "deprecated" "Use GetUserV2 instead.").
  { eexists. split; [vm_compute; reflexivity|]. split; [reflexivity|]. eexists. vm_compute. reflexivity. }
  destruct X as (m' & N & E & D). exists m'. split; [exact (nth_error_In _ _ N)|]. split; [exact E|]. split; [exact D|].
  split; [split; [constructor|apply N.leb_le; reflexivity]|]. split; [cbn; tauto|]. split; [|split; vm_compute; reflexivity].
  eexists _, _. split; vm_compute; reflexivity.
Qed.
Example C58_tables_example :
  map b_path (serverMethods (methodsTable basics) [("Example", None); ("ExampleV2", Some 1); ("Admin", Some 2)]) =
  ["/v1/ExampleV2/Ping"; "/v1/ExampleV2/Status"; "/v1/Admin/AuthOld"; "/v1/Admin/Auth"; "/v1/Admin/Status"; "/v1/Admin/Version"].
Proof. vm_compute. reflexivity. Qed.
