(** C57: the HTTP layer of the Node example server. *)
From Coq Require Import ZifyBool.
From Verif Require Import Base BaseProofs Utf8 Utf8Proofs Json GoVal BigInt TsBig NodeHttp NodeSpec NodeText NodeProofs TsServer Props_TsServer.

(** C57. Every request whose body comes in whole characters is answered, once and as specified, unless its body never
    ends or the RPC function has no result; then nothing is sent. *)
Theorem C57_every_request_is_answered_once : forall rpc e q, WholeChunks q ->
  (exists status own body st, Answer rpc e q status own body /\ server rpc e q = (st, Done) /\ Sent e q (s_res st) status own body) \/
  (Unanswered rpc e q /\ exists st f, server rpc e q = (st, f) /\ r_head (s_res st) = None /\ r_body (s_res st) = EmptyString /\ r_ended (s_res st) = false).
Proof.
  intros rpc e q W. destruct (answered_or_not rpc e q W) as [(status & own & body & A)|U].
  - left. destruct (answered rpc e q status own body A) as (st & S & H). exists status, own, body, st. auto.
  - right. split; [exact U|]. destruct (unanswered rpc e q U) as (st & f & S & R). exists st, f. rewrite R. auto.
Qed.
Print Assumptions C57_every_request_is_answered_once.

(** C57. The answer is the one specified, and there is only one. *)
Theorem C57_answers_are_as_specified : forall rpc e q status own body, Answer rpc e q status own body ->
  exists st, server rpc e q = (st, Done) /\ Sent e q (s_res st) status own body.
Proof. exact answered. Qed.
Print Assumptions C57_answers_are_as_specified.

Lemma server_calls rpc e q : exists st f, server rpc e q = (st, f) /\ s_calls st = s_calls (fst (inner rpc e q)).
Proof. destruct (server_inner rpc e q) as (st & S & C & _). eauto. Qed.

(** C57. The RPC function is called once, with the path and the value of the body, for every RPC request with a JSON
    body; it is never called for preflights, other paths and other bodies, and never twice. *)
Theorem C57_rpc_function_is_called_once : forall rpc e q,
  (forall t j, ~ Preflight q -> RpcPath q -> BodyText q t -> Value t j -> s_calls (fst (server rpc e q)) = [(q_url q, j)]) /\
  (forall t, BodyText q t -> NotJson t -> s_calls (fst (server rpc e q)) = []) /\
  (Preflight q \/ ~ RpcPath q -> s_calls (fst (server rpc e q)) = []) /\
  (length (s_calls (fst (server rpc e q))) <= 1).
Proof.
  intros rpc e q. destruct (server_calls rpc e q) as (st & f & S & C). rewrite S. cbn [fst]. rewrite C. clear st f S C.
  pose proof (fun st f E => proj1 (inner_general rpc e q st f E)) as G. split; [|split; [|split]].
  - intros t j N P B V. rewrite (served_value rpc e q t j P N B V). cbv zeta. destruct (rpc (e_reqId e) (contextOf e) (q_url q) j) as [status hs v| | |]; try reflexivity.
    destruct (payloadOf v); [|reflexivity]. unfold try. destruct (writeHead _ _ _); reflexivity.
  - intros t B J. destruct (inner rpc e q) as [st f] eqn:I. destruct (G _ _ eq_refl) as [C|(N & P & _)]; [exact C|].
    rewrite inner_rpc in I by assumption. rewrite (handler_body rpc e q t P B) in I. unfold serveBody in I. rewrite (notjson_match t J) in I.
    rewrite (write_end e) in I by (reflexivity || lia). injection I as <- <-. reflexivity.
  - intros H. destruct (inner rpc e q) as [st f] eqn:I. destruct (G _ _ eq_refl) as [C|(N & P & _)]; [exact C|]. destruct H; contradiction.
  - destruct (inner rpc e q) as [st f] eqn:I. destruct (G _ _ eq_refl) as [C|(N & P & j & C)]; cbn [fst]; rewrite C; cbn; lia.
Qed.
Print Assumptions C57_rpc_function_is_called_once.

(** C57. Every answer, also of an error, carries the request id and the CORS headers, unless the RPC function gave
    headers of those names. *)
Theorem C57_answers_carry_the_common_headers : forall rpc e q st f status hs k v,
  server rpc e q = (st, f) -> r_head (s_res st) = Some (status, hs) -> In (k, v) (common e q) ->
  (forall j s own b k', rpc (e_reqId e) (contextOf e) (q_url q) j = Answers s own b -> In k' (map fst own) -> to_lower k' <> to_lower k) ->
  header k hs = Some v.
Proof.
  intros rpc e q st f status hs k v S H K N.
  assert (HC : header k (common e q) = Some v /\ forall x, In x ["Content-Type"; "Content-Length"; "Webrpc"] -> to_lower x <> to_lower k).
  { unfold common in *. cbn [In] in K. repeat (destruct K as [[= <- <-]|K]; [split; [reflexivity|intros x X; cbn in X; repeat (destruct X as [<-|X]; [discriminate|]); contradiction]|]). contradiction. }
  destruct HC as [HC HN].
  assert (P : forall own, (forall x, In x (map fst own) -> to_lower x <> to_lower k) -> header k (putHeaders own (common e q)) = Some v).
  { intros own O. rewrite header_puts, header_none; [exact HC|]. intros x X. apply O. rewrite map_rev in X. now apply in_rev in X. }
  destruct (server_inner rpc e q) as (st' & S' & _ & _ & R). rewrite S in S'. injection S' as <- ->. destruct (inner rpc e q) as [sti fi] eqn:I. cbn [fst snd] in R.
  destruct (inner_general rpc e q sti fi I) as [_ G]. destruct fi.
  - destruct R as [R _]. rewrite R in H. destruct G as [G|(_ & st1 & own & body & G & O)]; [rewrite G in H; discriminate|]. rewrite G in H. cbn in H. injection H as <- <-.
    apply P. intros x X. destruct (O x X) as [M|(j & s & hs' & b & R1 & M)]; [exact (HN x M)|exact (N j s hs' b x R1 M)].
  - cbv zeta in R. destruct R as [_ R]. destruct G as [G|[G _]]; [|discriminate]. rewrite G in R. cbn [headersSent startRes r_head r_headers r_body r_ended] in R.
    rewrite R in H. unfold endWith in H. cbn [r_ended r_head] in H. injection H as <- <-. apply (P [("Content-Type", "application/json")]). intros x [<-|[]]. apply HN. cbn. auto.
  - subst sti. destruct G as [G|[G _]]; [|discriminate]. rewrite G in H. discriminate.
Qed.
Print Assumptions C57_answers_carry_the_common_headers.

(** C57. Whatever handler is given to it, the server never fails: an exception of the handler ends the response, with
    status 500 unless the handler had sent the headers already, and any other outcome is left as it is. *)
Theorem C57_exceptions_are_answered : forall (h : handler) e q st,
  snd (entrypoint h e q st) <> Threw /\
  (forall st', h e q st = (st', Threw) -> let r := s_res (fst (entrypoint h e q st)) in
     snd (entrypoint h e q st) = Done /\ r_ended r = true /\
     match r_head (s_res st') with
     | Some sent => r_head r = Some sent
     | None => exists hs, r_head r = Some (500%Z, hs) /\ header "Content-Type" hs = Some "application/json"
     end) /\
  (forall st' f, h e q st = (st', f) -> f <> Threw -> entrypoint h e q st = (st', f)).
Proof.
  intros h e q st. unfold entrypoint. destruct (h e q st) as [s [| |]].
  1,3: split; [discriminate|split; [intros; congruence|intros; congruence]].
  unfold try, writeHead, finish, withRes, endWith, logged. cbn [s_res s_data s_abort s_log s_calls]. unfold headersSent.
  destruct (r_head (s_res s)) as [h0|] eqn:H0; cbn [andThen s_res s_data s_abort s_log s_calls].
  - destruct (r_ended (s_res s)) eqn:N; cbn [fst snd s_res].
    + split; [discriminate|]. split; [intros st' [= <-]|intros; congruence]. cbv zeta. rewrite N, H0. repeat split.
    + split; [discriminate|]. split; [intros st' [= <-]|intros; congruence]. cbv zeta. rewrite H0. repeat split.
  - cbn [orb Z.ltb Z.compare Pos.compare Pos.compare_cont andThen s_res s_data s_abort s_log s_calls r_ended].
    assert (K : forall hs, header "Content-Type" (putHeaders [("Content-Type", "application/json")] hs) = Some "application/json") by (intros hs; rewrite header_puts; reflexivity).
    destruct (r_ended (s_res s)) eqn:N; cbn [fst snd s_res].
    + split; [discriminate|]. split; [intros st' [= <-]|intros; congruence]. cbv zeta. rewrite H0. split; [reflexivity|]. split; [reflexivity|]. eexists. split; [reflexivity|apply K].
    + split; [discriminate|]. split; [intros st' [= <-]|intros; congruence]. cbv zeta. rewrite H0. split; [reflexivity|]. split; [reflexivity|]. eexists. split; [reflexivity|apply K].
Qed.
Print Assumptions C57_exceptions_are_answered.

(** middleware that marks when it is entered and left *)
Definition tag (n : string) (next : handler) : handler := fun e q st =>
  let '(st, f) := next e q (logged (LogReq n "" "") st) in (logged (LogErr n) st, f).

(** C57. Middleware is entered in the order of the list, the handler runs inside all of it, and it is left in the
    opposite order. *)
Theorem C57_middleware_runs_in_order : forall names (h : handler) e q st st' f,
  h e q (State (s_res st) (s_data st) (s_abort st) (s_log st ++ map (fun n => LogReq n "" "") names) (s_calls st)) = (st', f) ->
  composeHttpHandler (map tag names) h e q st =
    (State (s_res st') (s_data st') (s_abort st') (s_log st' ++ map LogErr (rev names)) (s_calls st'), f).
Proof.
  induction names as [|n names IH]; intros h e q st st' f H.
  - cbn. cbn in H. rewrite app_nil_r in H. destruct st; cbn in *. rewrite H. destruct st'; cbn. now rewrite app_nil_r.
  - cbn [map composeHttpHandler fold_right]. fold (composeHttpHandler (map tag names) h). unfold tag at 1.
    rewrite (IH h e q (logged (LogReq n "" "") st) st' f).
    + unfold logged. cbn [s_res s_data s_abort s_log s_calls rev]. rewrite map_app, <- app_assoc. reflexivity.
    + unfold logged. cbn [s_res s_data s_abort s_log s_calls]. cbn [map] in H. rewrite <- app_assoc. exact H.
Qed.
Print Assumptions C57_middleware_runs_in_order.

(** C57. The body of a request is read right just if no chunk ends inside a character. *)
Theorem C57_body_is_read_right_iff_no_character_is_cut : forall cs later, Utf8Text (String.concat EmptyString cs) ->
  (readBody EmptyString (map Chunk cs ++ End :: later) = Some (inl (String.concat EmptyString cs)) <-> Forall Utf8Text cs).
Proof. exact read_iff. Qed.
Print Assumptions C57_body_is_read_right_iff_no_character_is_cut.

(** ** where it fails *)

Definition post (cs : list string) : request := Request "POST" "/rpc/Example/Ping" [] (map Chunk cs ++ [End]) false false.
Definition anEnv : env := Env "id1" "id2" "now" printJ.
Definition quote : string := chr 34.

(** The same bytes, delivered in other chunks, reach the RPC function as other arguments. *)
Theorem C57_chunks_change_the_arguments_refuted : exists cs cs', String.concat EmptyString cs = String.concat EmptyString cs' /\ Utf8Text (String.concat EmptyString cs) /\
  forall rpc, exists j j', s_calls (fst (server rpc anEnv (post cs))) = [("/rpc/Example/Ping", j)] /\
    s_calls (fst (server rpc anEnv (post cs'))) = [("/rpc/Example/Ping", j')] /\ j = JStr (encode [233%N]) /\ j' = JStr (encode [65533%N; 65533%N]).
Proof.
  exists [quote ++ chr 0xC3 ++ chr 0xA9 ++ quote]%string, [quote ++ chr 0xC3; chr 0xA9 ++ quote]%string. split; [reflexivity|].
  split; [exists [34; 233; 34]%N; split; vm_compute; reflexivity|]. intros rpc.
  exists (JStr (encode [233%N])), (JStr (encode [65533%N; 65533%N])).
  assert (K : forall cs j, serveBody rpc anEnv (post cs) (String.concat EmptyString (map chunkText cs)) (startState anEnv (post cs)) =
      inner rpc anEnv (post cs) -> (if isEmptyStr (String.concat EmptyString (map chunkText cs)) then Some (JObj []) else parseJ (String.concat EmptyString (map chunkText cs))) = Some j ->
      s_calls (fst (server rpc anEnv (post cs))) = [("/rpc/Example/Ping", j)]).
  { intros cs j E P. destruct (server_calls rpc anEnv (post cs)) as (st & f & S & C). rewrite S. cbn [fst]. rewrite C, <- E. unfold serveBody. rewrite P. cbv zeta.
    match goal with |- context [rpc ?a ?b ?c ?d] => destruct (rpc a b c d) as [status hs v| | |] end; try reflexivity.
    destruct (payloadOf v); [|reflexivity]. unfold try. destruct (writeHead _ _ _); reflexivity. }
  assert (L : forall cs, serveBody rpc anEnv (post cs) (String.concat EmptyString (map chunkText cs)) (startState anEnv (post cs)) = inner rpc anEnv (post cs)).
  { intros cs. rewrite inner_rpc; [|discriminate|eexists; reflexivity]. unfold rpcHandler. cbn [q_url post has_prefix q_verb]. cbn [Ascii.eqb Bool.eqb negb to_upper smap q_aborted orb startState s_abort].
    replace (String.eqb _ "POST") with true by reflexivity. cbn [q_events post]. rewrite read_text. reflexivity. }
  split; [apply K; [apply L|vm_compute; reflexivity]|]. split; [apply K; [apply L|vm_compute; reflexivity]|]. split; reflexivity.
Qed.
Print Assumptions C57_chunks_change_the_arguments_refuted.

(** The log says that a request was answered with status 200 when it was answered with 500. *)
Theorem C57_log_shows_the_wrong_status_refuted : forall rpc e q t j, ~ Preflight q -> RpcPath q -> BodyText q t -> Value t j ->
  rpc (e_reqId e) (contextOf e) (q_url q) j = Fails ->
  exists st hs, server rpc e q = (st, Done) /\ r_head (s_res st) = Some (500%Z, hs) /\ In (LogRes (e_reqId e) (q_verb q) (q_url q) 200) (s_log st).
Proof.
  intros rpc e q t j N P B V R. destruct (server_inner rpc e q) as (st & S & _ & _ & H). rewrite (served_value rpc e q t j P N B V), R in *. cbv zeta in *. cbn [fst snd] in *.
  destruct H as [L H]. exists st. eexists. split; [exact S|]. split; [rewrite H; reflexivity|]. rewrite L. apply in_or_app. right. left. reflexivity.
Qed.
Print Assumptions C57_log_shows_the_wrong_status_refuted.

(** The trace id that an implementation finds in its context is not the X-Trace-Id of the answer. *)
Theorem C57_trace_ids_differ_refuted : forall rpc e q st f status hs, e_uuid e <> e_reqId e -> server rpc e q = (st, f) -> r_head (s_res st) = Some (status, hs) ->
  (forall j s own b k', rpc (e_reqId e) (contextOf e) (q_url q) j = Answers s own b -> In k' (map fst own) -> to_lower k' <> "x-trace-id") ->
  lookup "traceId" (contextOf e) = Some (e_uuid e) /\ header "X-Trace-Id" hs = Some (e_reqId e) /\ lookup "traceId" (contextOf e) <> header "X-Trace-Id" hs.
Proof.
  intros rpc e q st f status hs N S H K. split; [reflexivity|].
  assert (X : header "X-Trace-Id" hs = Some (e_reqId e)) by (eapply C57_answers_carry_the_common_headers; [exact S|exact H|left; reflexivity|exact K]).
  split; [exact X|]. rewrite X. cbn. congruence.
Qed.
Print Assumptions C57_trace_ids_differ_refuted.

(** The generated function (TsServer.v) as the RPC function *)
Definition generated (impl : tsImpl) : rpcFn := fun _ _ url body =>
  match serveExampleRpc impl url body with
  | None => NoResult
  | Some (status, b) => Answers status webrpcHeaders (match b with Data v => v | ErrorBody t => ofJson (errorJson t) end)
  end.

(** With the generated function no RPC request is answered, except one that is not JSON. *)
Theorem C57_generated_server_leaves_requests_open_refuted : forall impl e q t j, ~ Preflight q -> RpcPath q -> BodyText q t -> Value t j ->
  exists st, server (generated impl) e q = (st, Done) /\ r_head (s_res st) = None /\ r_ended (s_res st) = false.
Proof.
  intros impl e q t j N P B V. destruct (server_inner (generated impl) e q) as (st & S & _ & _ & H). rewrite (served_value _ e q t j P N B V) in *.
  assert (R : generated impl (e_reqId e) (contextOf e) (q_url q) j = NoResult) by (unfold generated; now rewrite C50_no_path_is_served_refuted).
  rewrite R in *. cbv zeta in *. cbn [fst snd] in *. destruct H as [H _]. exists st. split; [exact S|]. rewrite H. split; reflexivity.
Qed.
Print Assumptions C57_generated_server_leaves_requests_open_refuted.

(** Non-vacuity. *)
Definition echo : rpcFn := fun id ctx url body =>
  match body with
  | JObj [("n", JNum n)] => Answers 200 webrpcHeaders (SObj [("n", SNum n); ("id", SStr id)])
  | JObj [] => Answers 200 [] (SBig 7)
  | _ => Fails
  end.
Definition nArg : list string := [("{" ++ quote ++ "n" ++ quote)%string; ":3}"].
Example C57_example :
  Answer echo anEnv (post nArg) 200 (webrpcHeaders ++ [("Content-Length", "18")]) (printJ (JObj [("n", JNum "3"); ("id", JStr "id1")])) /\
  s_res (fst (server echo anEnv (post nArg))) =
    Response 200 (common anEnv (post nArg))
      (Some (200%Z, common anEnv (post nArg) ++ webrpcHeaders ++ [("Content-Length", "18")])) (printJ (JObj [("n", JNum "3"); ("id", JStr "id1")])) true /\
  r_head (s_res (fst (server echo anEnv (post [])))) = Some (500%Z, common anEnv (post []) ++ [("Content-Type", "application/json")]) /\
  option_map fst (r_head (s_res (fst (server echo anEnv (post ["{"]))))) = Some 400%Z /\
  option_map fst (r_head (s_res (fst (server echo anEnv (Request "OPTIONS" "/rpc/x" [] [] false false))))) = Some 204%Z /\
  option_map fst (r_head (s_res (fst (server echo anEnv (Request "GET" "/x" [] [] false false))))) = Some 404%Z /\
  WholeChunks (post nArg) /\ Unanswered echo anEnv (Request "POST" "/rpc/x" [] [Chunk "{}"] false false).
Proof.
  assert (F : Forall Utf8Text nArg).
  { constructor; [exists [123; 34; 110; 34]%N; split; reflexivity|]. constructor; [exists [58; 51; 125]%N; split; reflexivity|]. constructor. }
  split.
  - change [("Content-Length", "18")] with [("Content-Length", lengthOf (e_json anEnv (JObj [("n", JNum "3"); ("id", JStr "id1")])))].
    change (printJ ?x) with (e_json anEnv x). eapply A_result with (j := JObj [("n", JNum "3")]).
    + discriminate.
    + eexists. reflexivity.
    + eapply B_post with (cs := nArg); [reflexivity|reflexivity|reflexivity|exact F].
    + constructor; [discriminate|vm_compute; reflexivity].
    + reflexivity.
    + unfold ValidStatus. lia.
    + apply S_some; try discriminate; [apply no_big; reflexivity|reflexivity].
  - do 5 (split; [vm_compute; reflexivity|]). split.
    + intros b H. cbn in H. inversion F as [|? ? F1 F2]; subst. inversion F2; subst. destruct H as [[= <-]|[[= <-]|[H|[]]]]; [assumption|assumption|discriminate].
    + eapply U_body with (cs := ["{}"]); try reflexivity; [discriminate|eexists; reflexivity].
Qed.
