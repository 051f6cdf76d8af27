(** C62: pages of other origins call the example servers.  Theorems only; the browser is in Cors.v, the specification in
    CorsSpec.v. *)
From Verif Require Import Base BaseProofs Json GoVal Ts TsBig JsNum RpcSpec RpcProofs RpcExamples TsCall TsCallProofs Cors CorsSpec CorsProofs CorsMain CorsNode CorsNodeProofs Rpc.
From Verif Require NodeHttp Methods.

(** a call as the browser makes it *)
Lemma page_delivered o rec hv s ro impl origin hs wv m b : PlainOptions o -> Origin origin -> permitted o false hs wv ->
  let srv := corsHandler o (goHandler rec hv s ro impl) in
  let q := pageRequest hs wv (tsRequest s m hs wv b) in
  crossFetch srv origin false q =
  (match goHandler rec hv s ro impl (actual origin q) with
   | Some a => Some (Answer (a_status a) (replaceHeaders (a_headers a) (actualHeaders o (actual origin q))) (a_body a))
   | None => None end, [actual origin q]).
Proof.
  intros PO OR P srv q. unfold srv, q. rewrite (proj1 (go_cross o rec hv s ro impl origin false hs wv m b PO OR) P). apply go_send; [exact PO|exact OR|reflexivity].
Qed.

Lemma page_same o write classes tbl rec hv s ro impl m k req origin hs wv : PlainOptions o -> Origin origin -> permitted o false hs wv ->
  tsCall write classes tbl s (pageNet (corsHandler o (goHandler rec hv s ro impl)) origin false hs wv) hs wv m k req =
  tsCall write classes tbl s (connect rec hv s ro impl) hs wv m k req.
Proof.
  intros PO OR P. unfold tsCall. destruct (jsonEncode req) as [j|]; [|reflexivity]. unfold pageNet.
  rewrite page_delivered by assumption. cbn [fst]. unfold goHandler. rewrite page_request. unfold connect.
  destruct (serveHTTP hv s ro impl (tsRequest s m hs wv (write j))) as [es [|msg]]; [|destruct rec]; cbn [a_status a_body];
    try (destruct (responseOf es); reflexivity); reflexivity.
Qed.

Lemma exposed_webrpc o rec hv s ro impl origin hs wv m b a : PlainOptions o -> Origin origin -> permitted o false hs wv ->
  fst (crossFetch (corsHandler o (goHandler rec hv s ro impl)) origin false (pageRequest hs wv (tsRequest s m hs wv b))) = Some a ->
  headerGet "webrpc" (a_headers a) = Some hv /\
  headerGet "access-control-expose-headers" (a_headers a) = match co_exposed o with [] => None | es => Some (join ", " (map Methods.canonical es)) end.
Proof.
  intros PO OR P. rewrite page_delivered by assumption. cbn [fst]. destruct (goHandler _ _ _ _ _ _) as [a0|] eqn:G; [|discriminate]. intros H. injection H as <-. cbn [a_headers].
  destruct (go_headers _ _ _ _ _ _ _ G) as [K W]. split; [rewrite get_replaced; [exact W|rewrite W; discriminate]|].
  rewrite get_replace by (intros k v I; apply K in I; cbn in I; destruct I as [<-|[<-|[<-|[]]]]; discriminate).
  destruct PO as (AO & MA & _). destruct OR as [ON _]. unfold actualHeaders. cbv zeta. unfold requestHeader at 1 2. cbn [actual g_headers g_method]. rewrite get_origin.
  apply String.eqb_neq in ON. rewrite ON. unfold originAllowed. rewrite AO. cbn [pageRequest g_method q_method tsRequest]. rewrite MA. cbn [orb negb app].
  destruct (co_exposed o) as [|e es]; [destruct (co_credentials o); reflexivity|].
  destruct (co_credentials o); reflexivity.
Qed.

(** C62. A page of another origin that calls the Go server of hello-webrpc or of webrpc-streaming, with headers of these
    names, gets what it would get without a browser in between; the server sees the request once, and the page can
    read the version header. *)
Theorem C62_pages_call_the_go_examples : forall write classes tbl recovers hv s o impl m k req origin hs wv,
  Origin origin -> AllListed ["Accept"; "Authorization"; "Content-Type"; "X-CSRF-Token"; "Webrpc"] hs ->
  let srv := corsHandler helloCors (goHandler recovers hv s o impl) in
  tsCall write classes tbl s (pageNet srv origin false hs wv) hs wv m k req = tsCall write classes tbl s (connect recovers hv s o impl) hs wv m k req /\
  forall body, let q := pageRequest hs wv (tsRequest s m hs wv body) in
    map toRequest (snd (crossFetch srv origin false q)) = [tsRequest s m hs wv body] /\
    forall a, fst (crossFetch srv origin false q) = Some a -> readable false "webrpc" a = Some hv.
Proof.
  intros write classes tbl rec hv s o impl m k req origin hs wv OR L srv.
  assert (P : permitted helloCors false hs wv).
  { apply listed_permitted; [apply hello_plain| | |exact L]; [exists "Content-Type"|exists "Webrpc"]; (split; [cbn; tauto|reflexivity]). }
  split; [apply page_same; [apply hello_plain|exact OR|exact P]|]. intros body q. split.
  - unfold srv, q. rewrite page_delivered by (apply hello_plain || assumption). cbn [snd map]. rewrite page_request. reflexivity.
  - intros a A. destruct (exposed_webrpc helloCors rec hv s o impl origin hs wv m body a hello_plain OR P A) as [W E].
    unfold readable, extract. rewrite E, W. reflexivity.
Qed.
Print Assumptions C62_pages_call_the_go_examples.

(** C62. With a header of any other name (that browsers do not send without asking) the call is blocked before it
    reaches the RPC function. *)
Theorem C62_other_headers_are_blocked : forall write classes tbl recovers hv s o impl m k req j origin include hs wv name v,
  Origin origin -> In (name, v) hs -> jsonEncode req = Some j ->
  ~ Listed ["Accept"; "Authorization"; "Content-Type"; "X-CSRF-Token"; "Webrpc"] name -> ~ Listed simpleNames name -> ~ Reserved name ->
  let srv := corsHandler helloCors (goHandler recovers hv s o impl) in
  tsCall write classes tbl s (pageNet srv origin include hs wv) hs wv m k req = Rejected (ownError (-1)) /\
  snd (crossFetch srv origin include (pageRequest hs wv (tsRequest s m hs wv (write j)))) = [].
Proof.
  intros write classes tbl rec hv s o impl m k req j origin include hs wv name v OR I J NL NS NR srv.
  assert (NP : ~ permitted helloCors include hs wv).
  { intros (_ & _ & P). apply NL. rewrite listed_in, <- to_lower_idem, <- listed_in. apply P.
    assert (K : In name (map fst (createHeaders hs wv))) by (apply created_names; right; right; apply in_map_iff; exists (name, v); auto).
    apply in_map_iff in K. destruct K as ((k' & w) & E & K). cbn [fst] in E. subst k'.
    apply (unsafe_there _ _ (headerSent (to_lower name) (createHeaders hs wv))).
    - apply headerList_in. split; [reflexivity|]. split; [|exists name, w; auto].
      destruct (forbidden (to_lower name)) eqn:F; [|reflexivity]. exfalso. apply NR, forbidden_reserved, F.
    - destruct (harmless _ _) eqn:H; [|reflexivity]. exfalso. apply NS. apply listed_in. apply (harmless_names _ _ H). }
  pose proof (proj2 (go_cross helloCors rec hv s o impl origin include hs wv m (write j) hello_plain OR) NP) as B. cbv zeta in B.
  unfold srv. split; [|rewrite B; reflexivity]. unfold tsCall. rewrite J. unfold pageNet. rewrite B. reflexivity.
Qed.
Print Assumptions C62_other_headers_are_blocked.

(** C62. Which calls get through, for any options of go-chi/cors that allow every origin and POST: those whose header
    names are names and, as far as the browser asks for them, listed; without credentials.  The others reach nothing. *)
Theorem C62_calls_get_through_iff_listed : forall o recovers hv s ro impl m body origin include hs wv,
  In "*" (co_origins o) -> In "POST" (map to_upper (co_methods o)) -> Forall Plain (co_headers o) -> Origin origin ->
  let q := pageRequest hs wv (tsRequest s m hs wv body) in
  let got := snd (crossFetch (corsHandler o (goHandler recovers hv s ro impl)) origin include q) in
  (map toRequest got = [tsRequest s m hs wv body] \/ got = []) /\
  (got <> [] <-> include = false /\ (forall name v, In (name, v) hs -> isTokenName name = true) /\
     forall name, In name (unsafeNames (headerList (createHeaders hs wv))) -> Listed (co_headers o) name).
Proof.
  intros o rec hv s ro impl m body origin include hs wv AO MA PH OR q got.
  assert (PO : PlainOptions o).
  { split; [apply str_in_In, AO|]. split; [|exact PH]. unfold methodAllowed. apply orb_true_iff. right. apply str_in_In, MA. }
  destruct (go_cross o rec hv s ro impl origin include hs wv m body PO OR) as [GY GN]. cbv zeta in GY, GN. fold q in GY, GN.
  assert (D : permitted o include hs wv \/ ~ permitted o include hs wv).
  { unfold permitted. destruct include; [right; intros (_ & X & _); discriminate|].
    assert (D1 : Tokens hs \/ ~ Tokens hs).
    { unfold Tokens. destruct (forallb (fun h : string * string => isTokenName (fst h)) hs) eqn:E.
      - left. intros k v I. rewrite forallb_forall in E. apply (E (k, v) I).
      - right. intros T. enough (forallb (fun h : string * string => isTokenName (fst h)) hs = true) by congruence. apply forallb_forall. intros [k v] I. apply (T k v I). }
    set (U := unsafeNames _). assert (D2 : (forall n, In n U -> Listed (co_headers o) n) \/ ~ (forall n, In n U -> Listed (co_headers o) n)).
    { destruct (forallb (fun n => str_in (to_lower n) (map to_lower (co_headers o))) U) eqn:E.
      - left. intros n I. rewrite forallb_forall in E. apply listed_in, str_in_In, E, I.
      - right. intros T. enough (forallb (fun n => str_in (to_lower n) (map to_lower (co_headers o))) U = true) by congruence. apply forallb_forall. intros n I. apply str_in_In, listed_in, T, I. }
    tauto. }
  unfold got. destruct D as [P|N].
  - rewrite (GY P). rewrite go_send by (assumption || reflexivity). cbn [snd map]. unfold q. rewrite page_request. split; [left; reflexivity|].
    destruct P as (T & I & L). split; [intros _; auto|intros _; discriminate].
  - rewrite (GN N). split; [right; reflexivity|]. cbn [snd]. split; [contradiction|]. intros (I & T & L). exfalso. apply N. split; [exact T|]. auto.
Qed.
Print Assumptions C62_calls_get_through_iff_listed.

(** C62. A page of another origin can call the Node server with headers of any names: it gets the answer of the
    server, which sees the request once. *)
Theorem C62_pages_call_the_node_server : forall rpc e origin hs wv r,
  Origin origin -> (forall name v, In (name, v) hs -> isTokenName name = true) -> q_method r = "POST" ->
  (forall id ctx path j status own v, rpc id ctx path j = NodeHttp.Answers status own v -> NoCorsHeaders own) ->
  let q := pageRequest hs wv r in
  crossFetch (nodeServer rpc e) origin false q = nodeServer rpc e (actual origin q).
Proof. intros rpc e origin hs wv r OR T M P q. apply (node_cross rpc e origin false hs wv r OR T M P). Qed.
Print Assumptions C62_pages_call_the_node_server.

(** C62. The hono server lets calls through, with and without credentials, exactly if the browser asks for no header
    but these. *)
Theorem C62_pages_call_the_hono_server : forall next origin include hs wv r,
  Origin origin -> q_method r = "POST" -> (forall m a, next m = Some a -> NoCorsHeaders (a_headers a)) ->
  let q := pageRequest hs wv r in let f := crossFetch (honoCors next) origin include q in
  let ok := (forall name v, In (name, v) hs -> isTokenName name = true) /\
            forall n, In n (unsafeNames (headerList (createHeaders hs wv))) -> Listed ["Content-Type"; "Authorization"; "Webrpc"] n in
  (ok -> snd f = [actual origin q] /\
         option_map (fun a => (a_status a, a_body a)) (fst f) = option_map (fun a => (a_status a, a_body a)) (next (actual origin q))) /\
  (~ ok -> f = (None, [])).
Proof.
  intros next origin include hs wv r OR M P q f ok. destruct (hono_cross next origin include hs wv r OR M P) as [Y N]. cbv zeta in Y, N. fold q in Y, N.
  split; [|exact N]. intros O. unfold f. rewrite (Y O). split; [reflexivity|]. cbn [fst]. destruct (next (actual origin q)); reflexivity.
Qed.
Print Assumptions C62_pages_call_the_hono_server.

(** C62, finding: the Go server of the node-ts example does not list the header "Webrpc", which the generated client
    always sends: no page of another origin can call it. *)
Theorem C62_server_go_is_unreachable_refuted : forall write classes tbl recovers hv s o impl m k req j origin include hs wv,
  Origin origin -> jsonEncode req = Some j ->
  let srv := corsHandler serverGoCors (goHandler recovers hv s o impl) in
  tsCall write classes tbl s (pageNet srv origin include hs wv) hs wv m k req = Rejected (ownError (-1)) /\
  snd (crossFetch srv origin include (pageRequest hs wv (tsRequest s m hs wv (write j)))) = [].
Proof.
  intros write classes tbl rec hv s o impl m k req j origin include hs wv OR J srv.
  assert (NP : ~ permitted serverGoCors include hs wv).
  { intros (_ & _ & P). specialize (P _ (webrpc_unsafe hs wv)). apply listed_in in P. cbn in P. destruct P as [P|[P|[P|[]]]]; discriminate. }
  pose proof (proj2 (go_cross serverGoCors rec hv s o impl origin include hs wv m (write j) serverGo_plain OR) NP) as B. cbv zeta in B.
  unfold srv. split; [|rewrite B; reflexivity]. unfold tsCall. rewrite J. unfold pageNet. rewrite B. reflexivity.
Qed.
Print Assumptions C62_server_go_is_unreachable_refuted.

(** C62, finding: the Go servers announce that they accept credentials, for any origin at once; browsers block every
    call with credentials, and the Node server's too. *)
Theorem C62_credentials_are_accepted_refuted : forall recovers hv s o impl m body origin hs wv rpc e,
  Origin origin -> (forall name v, In (name, v) hs -> isTokenName name = true) ->
  (forall id ctx path j status own v, rpc id ctx path j = NodeHttp.Answers status own v -> NoCorsHeaders own) ->
  let q := pageRequest hs wv (tsRequest s m hs wv body) in
  co_credentials helloCors = true /\
  crossFetch (corsHandler helloCors (goHandler recovers hv s o impl)) origin true q = (None, []) /\
  crossFetch (nodeServer rpc e) origin true q = (None, []).
Proof.
  intros rec hv s o impl m body origin hs wv rpc e OR T P q. split; [reflexivity|]. split.
  - apply (proj2 (go_cross helloCors rec hv s o impl origin true hs wv m body hello_plain OR)). intros (_ & X & _). discriminate.
  - apply (node_cross rpc e origin true hs wv (tsRequest s m hs wv body) OR T eq_refl P).
Qed.
Print Assumptions C62_credentials_are_accepted_refuted.

(** C62, finding: the page of the node-ts example reads the version header of the answers (webapp/index.ts 8); the Node
    server does not expose it, so the page never finds one. *)
Theorem C62_page_reads_the_version_refuted : forall rpc e origin hs wv r a,
  Origin origin -> (forall name v, In (name, v) hs -> isTokenName name = true) -> q_method r = "POST" ->
  (forall id ctx path j status own v, rpc id ctx path j = NodeHttp.Answers status own v -> NoCorsHeaders own) ->
  fst (crossFetch (nodeServer rpc e) origin false (pageRequest hs wv r)) = Some a -> readable false "webrpc" a = None.
Proof.
  intros rpc e origin hs wv r a OR T M P H. pose proof (node_cross rpc e origin false hs wv r OR T M P) as X. cbv zeta in X. cbn iota in X. rewrite X in H.
  destruct (nodeServer rpc e (actual origin (pageRequest hs wv r))) as [x got] eqn:N. cbn [fst] in H. subst x.
  destruct (node_answer_origin rpc e _ a got N P) as [_ E]. unfold readable, extract. rewrite E. reflexivity.
Qed.
Print Assumptions C62_page_reads_the_version_refuted.

(** ** Examples *)

(** a server with one method, called from a page with a token: the call gets through, with a header that is not
    listed it does not; the Go server of node-ts refuses both *)
Definition pingMethod : rpcMethod := RpcMethod "Ping" [] [].
Definition pingService : service := Service "/rpc/Example/" [] [pingMethod].
Definition pingImpl : implementation := fun _ _ => Returns [].
Definition pageOf (o : corsOptions) (hs : list (string * string)) :=
  let f := crossFetch (corsHandler o (goHandler true "webrpc@v0" pingService (Options None None) pingImpl)) "http://localhost:4444" false
    (pageRequest hs "webrpc@v0" (tsRequest pingService pingMethod hs "webrpc@v0" "{}")) in
  (option_map (fun a => (a_status a, a_body a, readable false "webrpc" a)) (fst f), length (snd f)).
Example ex_listed : pageOf helloCors [("authorization", "BEARER x")] = (Some (200%Z, "{}", Some "webrpc@v0"), 1).
Proof. vm_compute. reflexivity. Qed.
Example ex_not_listed : pageOf helloCors [("X-Trace", "1")] = (None, 0).
Proof. vm_compute. reflexivity. Qed.
Example ex_server_go : pageOf serverGoCors [] = (None, 0).
Proof. vm_compute. reflexivity. Qed.
(** the hypotheses hold *)
Example ex_origin : Origin "http://localhost:4444" /\ AllListed ["Accept"; "Authorization"; "Content-Type"; "X-CSRF-Token"; "Webrpc"] [("authorization", "BEARER x")] /\
  ~ Listed ["Accept"; "Authorization"; "Content-Type"; "X-CSRF-Token"; "Webrpc"] "X-Trace" /\ ~ Listed simpleNames "X-Trace" /\ ~ Reserved "X-Trace".
Proof.
  split; [split; discriminate|]. split; [intros k v [I|[]]; injection I as <- _; exists "Authorization"; split; [cbn; tauto|reflexivity]|].
  split; [rewrite listed_in; cbn; intuition discriminate|]. split; [rewrite listed_in; cbn; intuition discriminate|].
  intros [H|(r & [H|H])]; [apply listed_in in H; cbn in H; intuition discriminate|discriminate|discriminate].
Qed.

(** the Node server and hono, with a header of any name and with a listed one; hono with credentials *)
Definition okRpc : NodeHttp.rpcFn := fun _ _ _ _ => NodeHttp.Answers 200 [("Webrpc", "webrpc@v0")] (SObj []).
Definition nodeEnv : NodeHttp.env := NodeHttp.Env "id" "uuid" "now" printJ.
Example ex_node :
  (forall id ctx path j status own v, okRpc id ctx path j = NodeHttp.Answers status own v -> NoCorsHeaders own) /\
  (let f := crossFetch (nodeServer okRpc nodeEnv) "http://localhost:4444" false
     (pageRequest [("X-Trace", "1")] "webrpc@v0" (tsRequest pingService pingMethod [("X-Trace", "1")] "webrpc@v0" "{}")) in
   (option_map (fun a => (a_status a, a_body a, headerGet "webrpc" (a_headers a), readable false "webrpc" a)) (fst f), length (snd f))) =
  (Some (200%Z, "{}", Some "webrpc@v0", None), 1).
Proof.
  split; [|vm_compute; reflexivity]. intros id ctx path j status own v H. injection H as _ <- _. intros k w [I|[]]. injection I as <- _. reflexivity.
Qed.
Definition okNext : msg -> option answer := fun _ => Some (Answer 200 [("Content-Type", "application/json")] "{}").
Example ex_hono :
  let page include hs := let f := crossFetch (honoCors okNext) "http://localhost:4444" include
     (pageRequest hs "webrpc@v0" (tsRequest pingService pingMethod hs "webrpc@v0" "{}")) in (option_map a_body (fst f), length (snd f)) in
  page true [("Authorization", "BEARER x")] = (Some "{}", 1) /\ page false [("X-Trace", "1")] = (None, 0).
Proof. vm_compute. split; reflexivity. Qed.
