(** Proofs for C57 *)
From Coq Require Import ZifyBool.
From Verif Require Import Base BaseProofs Utf8 Utf8Proofs Json GoVal BigInt TsBig NodeHttp NodeSpec NodeText.

Lemma header_put k v x hs : header x (putHeader k v hs) = if String.eqb (to_lower x) (to_lower k) then Some v else header x hs.
Proof.
  induction hs as [|[k' v'] t IH]; [cbn; destruct (String.eqb _ _); reflexivity|]. cbn [putHeader header].
  destruct (String.eqb_spec (to_lower k) (to_lower k')) as [E|E]; cbn [header].
  - rewrite <- E. destruct (String.eqb (to_lower x) (to_lower k)); reflexivity.
  - rewrite IH. destruct (String.eqb_spec (to_lower x) (to_lower k')) as [E1|E1]; [|reflexivity].
    destruct (String.eqb_spec (to_lower x) (to_lower k)) as [E2|E2]; [congruence|reflexivity].
Qed.
Lemma header_snoc x hs k v : header x (hs ++ [(k, v)]) = match header x hs with Some w => Some w | None => if String.eqb (to_lower x) (to_lower k) then Some v else None end.
Proof. induction hs as [|[k' v'] t IH]; [cbn; destruct (String.eqb _ _); reflexivity|]. cbn. destruct (String.eqb (to_lower x) (to_lower k')); [reflexivity|exact IH]. Qed.
Lemma header_puts own : forall x hs, header x (putHeaders own hs) = match header x (rev own) with Some v => Some v | None => header x hs end.
Proof.
  induction own as [|[k v] t IH]; [reflexivity|]. intros x hs. unfold putHeaders. cbn [fold_left fst snd]. fold (putHeaders t (putHeader k v hs)). rewrite IH, header_put.
  cbn [rev]. rewrite header_snoc. destruct (header x (rev t)); [reflexivity|]. destruct (String.eqb _ _); reflexivity.
Qed.

(** the state in which the routes start *)
Definition startRes (e : env) (q : request) : response := Response 200 (common e q) None EmptyString false.
Definition startState (e : env) (q : request) : state :=
  State (startRes e q) (contextOf e) false [LogReq (e_reqId e) (q_verb q) (q_url q)] [].

Lemma server_start rpc e q : server rpc e q =
  entrypoint (fun e q st =>
    let '(st, f) := if String.eqb (q_verb q) "OPTIONS" then andThen (try (writeHead 204 []) st) (finish q EmptyString) else routes rpc e q st in
    match f with Hangs => (st, Hangs) | _ => (logged (LogRes (e_reqId e) (q_verb q) (q_url q) (r_status (s_res st))) st, f) end) e q (startState e q).
Proof.
  unfold server, entrypoint, composeHttpHandler. cbn [fold_right]. unfold withLogging, withTrace, withCors.
  assert (E : startState e q = withRes (startRes e q) (withData (contextOf e) (logged (LogReq (e_reqId e) (q_verb q) (q_url q)) freshState))) by reflexivity.
  rewrite E. cbn. unfold startRes, common, corsHeaders, contextOf.
  destruct (lookup "access-control-request-headers" (q_headers q)) as [[|]|]; reflexivity.
Qed.

Definition inner (rpc : rpcFn) (e : env) (q : request) : state * flow :=
  if String.eqb (q_verb q) "OPTIONS" then andThen (try (writeHead 204 []) (startState e q)) (finish q EmptyString) else routes rpc e q (startState e q).

(** what comes of the inner handlers *)
Lemma server_inner rpc e q : exists st, server rpc e q = (st, match snd (inner rpc e q) with Hangs => Hangs | _ => Done end) /\
  s_calls st = s_calls (fst (inner rpc e q)) /\ s_data st = s_data (fst (inner rpc e q)) /\
  match snd (inner rpc e q) with
  | Threw => 
      let st' := fst (inner rpc e q) in
      s_log st = s_log st' ++ [LogRes (e_reqId e) (q_verb q) (q_url q) (r_status (s_res st')); LogErr (e_reqId e)] /\
      s_res st = 
      (let r := if headersSent (s_res st') then s_res st'
                else Response 500 (r_headers (s_res st')) (Some (500%Z, putHeaders [("Content-Type", "application/json")] (r_headers (s_res st')))) (r_body (s_res st')) (r_ended (s_res st')) in
       endWith (q_verb q) (errorBody e (if s_abort st' then "client closed request" else "internal error")) r)
  | Done => s_res st = s_res (fst (inner rpc e q)) /\ s_log st = s_log (fst (inner rpc e q)) ++ [LogRes (e_reqId e) (q_verb q) (q_url q) (r_status (s_res st))]
  | Hangs => st = fst (inner rpc e q)
  end.
Proof.
  rewrite server_start. unfold entrypoint. fold (inner rpc e q).
  destruct (inner rpc e q) as [st f]. destruct f; cbn [fst snd].
  - eexists. split; [reflexivity|]. repeat split.
  - set (st1 := logged (LogErr (e_reqId e)) (logged (LogRes (e_reqId e) (q_verb q) (q_url q) (r_status (s_res st))) st)).
    assert (R1 : s_res st1 = s_res st) by reflexivity. assert (C1 : s_calls st1 = s_calls st) by reflexivity. assert (A1 : s_abort st1 = s_abort st) by reflexivity.
    assert (L1 : s_log st1 = s_log st ++ [LogRes (e_reqId e) (q_verb q) (q_url q) (r_status (s_res st)); LogErr (e_reqId e)]) by (unfold st1; cbn; now rewrite <- app_assoc).
    assert (D1 : s_data st1 = s_data st) by reflexivity.
    destruct (headersSent (s_res st)) eqn:HS.
    + rewrite R1, HS. cbn [andThen]. rewrite R1. destruct (r_ended (s_res st)) eqn:EN.
      * eexists. split; [reflexivity|]. split; [exact C1|]. split; [exact D1|]. split; [exact L1|]. cbv zeta. unfold endWith. rewrite EN. exact R1.
      * eexists. split; [reflexivity|]. split; [exact C1|]. split; [exact D1|]. split; [exact L1|]. cbv zeta. cbn [s_res withRes]. rewrite A1, R1. reflexivity.
    + rewrite R1, HS. unfold try, writeHead. rewrite R1, HS. cbn [andThen orb Z.ltb Z.compare Pos.compare Pos.compare_cont]. cbn [s_res withRes r_ended].
      destruct (r_ended (s_res st)) eqn:EN.
      * eexists. split; [reflexivity|]. split; [exact C1|]. split; [exact D1|]. split; [exact L1|]. cbv zeta. unfold endWith. cbn [r_ended]. reflexivity.
      * eexists. split; [reflexivity|]. split; [exact C1|]. split; [exact D1|]. split; [exact L1|]. cbv zeta. cbn [s_res withRes s_abort]. unfold withRes. cbn [s_res s_abort]. rewrite A1. reflexivity.
  - eexists. split; [reflexivity|]. repeat split.
Qed.

Lemma bodiless_iff q status : bodiless (q_verb q) status = true <-> NoBody q status.
Proof. unfold bodiless, NoBody. rewrite !orb_true_iff, String.eqb_eq, Z.ltb_lt, !Z.eqb_eq. tauto. Qed.

(** the answer of a handler that writes the head and ends *)
Definition written (e : env) (q : request) (status : Z) (own : list (string * string)) (body : string) : response :=
  Response status (common e q) (Some (status, putHeaders own (common e q))) (if bodiless (q_verb q) status then EmptyString else body) true.
Lemma written_sent e q status own body : Sent e q (written e q status own body) status own body.
Proof.
  split; [reflexivity|]. split; [eexists; split; [reflexivity|]; intros k; apply header_puts|]. cbn [written r_body]. destruct (bodiless (q_verb q) status) eqn:B.
  - split; [reflexivity|]. intros N. apply bodiless_iff in B. contradiction.
  - split; [|reflexivity]. intros N. apply bodiless_iff in N. congruence.
Qed.
Lemma write_end e q status own body st : s_res st = startRes e q -> (100 <= status <= 999)%Z ->
  andThen (try (writeHead status own) st) (finish q body) = (withRes (written e q status own body) st, Done).
Proof.
  intros R V. unfold try, writeHead. rewrite R. cbn [headersSent startRes r_head]. replace ((status <? 100) || (999 <? status))%Z with false by lia.
  cbn [andThen]. unfold finish, withRes. cbn [s_res s_data s_abort s_log s_calls]. unfold endWith, written. cbn. reflexivity.
Qed.
Lemma write_bad e q status own body st : s_res st = startRes e q -> ~ (100 <= status <= 999)%Z ->
  andThen (try (writeHead status own) st) (finish q body) = (st, Threw).
Proof.
  intros R V. unfold try, writeHead. rewrite R. cbn [headersSent startRes r_head]. replace ((status <? 100) || (999 <? status))%Z with true by lia. reflexivity.
Qed.

Lemma server_done rpc e q st : inner rpc e q = (st, Done) -> exists st', server rpc e q = (st', Done) /\ s_res st' = s_res st /\ s_calls st' = s_calls st /\ s_data st' = s_data st.
Proof. intros E. destruct (server_inner rpc e q) as (st' & S & C & D & H). rewrite E in *. cbn [fst snd] in *. exists st'. tauto. Qed.
Lemma server_threw rpc e q st : inner rpc e q = (st, Threw) -> s_res st = startRes e q ->
  exists st', server rpc e q = (st', Done) /\ s_calls st' = s_calls st /\
    s_res st' = written e q 500 [("Content-Type", "application/json")] (errorBody e (if s_abort st then "client closed request" else "internal error")).
Proof.
  intros E R. destruct (server_inner rpc e q) as (st' & S & C & _ & H). rewrite E in *. cbn [fst snd] in *. cbv zeta in H. destruct H as [_ H]. exists st'. split; [exact S|]. split; [exact C|]. rewrite H. rewrite R. cbn [headersSent startRes r_head r_headers r_body r_ended]. unfold endWith, written. cbn [r_ended r_head fst r_body]. reflexivity.
Qed.

Lemma not_preflight q : ~ Preflight q -> String.eqb (q_verb q) "OPTIONS" = false.
Proof. intros N. apply String.eqb_neq. exact N. Qed.
Lemma rpc_path q : RpcPath q <-> has_prefix "/rpc/" (q_url q) = true.
Proof. unfold RpcPath. now rewrite has_prefix_iff. Qed.

Lemma inner_rpc rpc e q : ~ Preflight q -> RpcPath q -> inner rpc e q = rpcHandler rpc e q (startState e q).
Proof. intros N P. unfold inner. rewrite (not_preflight q N). unfold routes. apply rpc_path in P. now rewrite P. Qed.
Lemma handler_body rpc e q t : RpcPath q -> BodyText q t -> rpcHandler rpc e q (startState e q) = serveBody rpc e q t (startState e q).
Proof.
  intros P B. unfold rpcHandler. apply rpc_path in P. rewrite P. cbn [negb]. destruct B as [cs later V A E F|V].
  - rewrite V, A. cbn [orb s_abort startState]. rewrite E. rewrite read_whole by exact F. reflexivity.
  - apply String.eqb_neq in V. rewrite V. reflexivity.
Qed.
Lemma has_big v : hasBig v = true <-> HoldsBig v.
Proof.
  revert v. fix IH 1. intros [ | |b|l|s|z|l|l]; cbn [hasBig].
  1-5: split; [discriminate|intros H; inversion H].
  - split; [constructor|reflexivity].
  - assert (K : existsb hasBig l = true <-> exists x, In x l /\ HoldsBig x).
    { induction l as [|x l IHl]; cbn [existsb].
      - split; [discriminate|intros (x & [] & _)].
      - specialize (IH x). split.
        + intros H. apply orb_true_iff in H. destruct H as [H|H]; [exists x; split; [left; reflexivity|apply IH, H]|].
          apply IHl in H. destruct H as (y & I & B). exists y. split; [right; exact I|exact B].
        + intros (y & [<-|I] & B); apply orb_true_iff; [left; apply IH, B|right; apply IHl; exists y; auto]. }
    rewrite K. split; [intros (x & I & B); econstructor; eassumption|intros H; inversion H; subst; eauto].
  - assert (K : existsb (fun kv => hasBig (snd kv)) l = true <-> exists k x, In (k, x) l /\ HoldsBig x).
    { induction l as [|[k x] l IHl]; cbn [existsb snd].
      - split; [discriminate|intros (k & x & [] & _)].
      - specialize (IH x). split.
        + intros H. apply orb_true_iff in H. destruct H as [H|H]; [exists k, x; split; [left; reflexivity|apply IH, H]|].
          apply IHl in H. destruct H as (k' & y & I & B). exists k', y. split; [right; exact I|exact B].
        + intros (k' & y & [E|I] & B); apply orb_true_iff; [injection E as _ <-; left; apply IH, B|right; apply IHl; exists k', y; auto]. }
    rewrite K. split; [intros (k & x & I & B); econstructor; eassumption|intros H; inversion H; subst; eauto].
Qed.
Lemma no_big v : ~ HoldsBig v <-> hasBig v = false.
Proof. rewrite <- has_big. destruct (hasBig v); split; intros H; try reflexivity; try discriminate; try (exfalso; apply H; reflexivity). Qed.
Lemma value_match t j : Value t j -> (if isEmptyStr t then Some (JObj []) else parseJ t) = Some j.
Proof. intros [|t' j' N P]; [reflexivity|]. destruct t'; [congruence|]. exact P. Qed.
Lemma notjson_match t : NotJson t -> (if isEmptyStr t then Some (JObj []) else parseJ t) = None.
Proof. intros [N P]. destruct t; [congruence|]. exact P. Qed.
Lemma serialises_payload v p : Serialises v p -> payloadOf v = Some p.
Proof. intros [v' [->| ->]|v' j N1 N2 B E]; try reflexivity. apply no_big in B. unfold payloadOf. rewrite B, E. destruct v'; congruence. Qed.
Lemma big_payload v : hasBig v = true -> payloadOf v = None.
Proof. intros B. unfold payloadOf. rewrite B. destruct v; try reflexivity; discriminate. Qed.

Lemma served_value rpc e q t j : RpcPath q -> ~ Preflight q -> BodyText q t -> Value t j ->
  inner rpc e q = (let st := called (q_url q, j) (startState e q) in
      match rpc (e_reqId e) (contextOf e) (q_url q) j with
      | Never => (st, Hangs)
      | Fails => (withAbort (q_gone q) st, Threw)
      | NoResult => (withAbort (q_gone q) st, Done)
      | Answers status hs body =>
          let st := withAbort (q_gone q) st in
          match payloadOf body with
          | None => (st, Threw)
          | Some p => let payload := e_json e p in andThen (try (writeHead status (hs ++ [contentLength payload])) st) (finish q payload)
          end
      end).
Proof. intros P N B V. rewrite inner_rpc by assumption. rewrite (handler_body rpc e q t P B). unfold serveBody. rewrite (value_match t j V). reflexivity. Qed.

Lemma read_failed cs : forall data es, readBody data (map Chunk cs ++ Failed :: es) = Some (inr false).
Proof. induction cs as [|c cs IH]; intros; [reflexivity|]. cbn. apply IH. Qed.
Lemma read_aborted cs : forall data es, readBody data (map Chunk cs ++ Aborted :: es) = Some (inr true).
Proof. induction cs as [|c cs IH]; intros; [reflexivity|]. cbn. apply IH. Qed.
Lemma read_open cs : forall data, readBody data (map Chunk cs) = None.
Proof. induction cs as [|c cs IH]; intros; [reflexivity|]. cbn. apply IH. Qed.

Lemma answered rpc e q status own body : Answer rpc e q status own body ->
  exists st, server rpc e q = (st, Done) /\ Sent e q (s_res st) status own body.
Proof.
  assert (K : forall st r, inner rpc e q = (withRes r st, Done) -> r = written e q status own body -> exists st', server rpc e q = (st', Done) /\ Sent e q (s_res st') status own body).
  { intros st r E ->. destruct (server_done _ _ _ _ E) as (st' & S & R & _). exists st'. split; [exact S|]. rewrite R. cbn [s_res withRes]. apply written_sent. }
  assert (T : forall st msg, status = 500%Z -> own = [("Content-Type", "application/json")] -> body = errorBody e msg -> inner rpc e q = (st, Threw) -> s_res st = startRes e q ->
    (if s_abort st then "client closed request" else "internal error") = msg -> exists st', server rpc e q = (st', Done) /\ Sent e q (s_res st') status own body).
  { intros st msg -> -> -> E R M. destruct (server_threw _ _ _ _ E R) as (st' & S & _ & R'). exists st'. split; [exact S|]. rewrite R', M. apply written_sent. }
  intros A. destruct A as [P|N U|body N U ->|N P U1 U2|t N P B J|t j status hs v p N P B V R S W|t j N P B V R|t j status hs v N P B V R S|cs later N P V A E|cs later N P V A E|N P V A].
  - eapply K; [|reflexivity]. unfold inner. unfold Preflight in P. rewrite P. apply write_end; [reflexivity|lia].
  - eapply K; [|reflexivity]. unfold inner, routes. rewrite (not_preflight q N), U. cbn [has_prefix]. apply write_end; [reflexivity|lia].
  - eapply K; [|reflexivity]. unfold inner, routes. rewrite (not_preflight q N), U. apply write_end; [reflexivity|lia].
  - eapply K; [|reflexivity]. unfold inner, routes. rewrite (not_preflight q N). destruct (has_prefix "/rpc/" (q_url q)) eqn:X; [apply rpc_path in X; contradiction|].
    apply String.eqb_neq in U1, U2. rewrite U1, U2. apply write_end; [reflexivity|lia].
  - eapply K; [|reflexivity]. rewrite inner_rpc by assumption. rewrite (handler_body rpc e q t P B). unfold serveBody. rewrite (notjson_match t J). apply write_end; [reflexivity|lia].
  - eapply K; [|reflexivity]. rewrite (served_value rpc e q t j P N B V), R. rewrite (serialises_payload v p W). cbv zeta. apply write_end; [reflexivity|exact S].
  - eapply (T (withAbort (q_gone q) (called (q_url q, j) (startState e q)))); try reflexivity. rewrite (served_value rpc e q t j P N B V), R. reflexivity.
  - eapply (T (withAbort (q_gone q) (called (q_url q, j) (startState e q)))); try reflexivity.
    rewrite (served_value rpc e q t j P N B V), R. cbv zeta. destruct (payloadOf v) as [p|] eqn:PV; [|reflexivity].
    destruct S as [S|S]; [apply (write_bad e); [reflexivity|exact S]|rewrite (big_payload v (proj2 (has_big v) S)) in PV; discriminate].
  - eapply (T (withAbort false (startState e q))); try reflexivity. rewrite inner_rpc by assumption. unfold rpcHandler. apply rpc_path in P. rewrite P. cbn [negb]. rewrite V, A. cbn [orb startState s_abort].
    rewrite E, read_failed. reflexivity.
  - eapply (T (withAbort true (startState e q))); try reflexivity. rewrite inner_rpc by assumption. unfold rpcHandler. apply rpc_path in P. rewrite P. cbn [negb]. rewrite V, A. cbn [orb startState s_abort].
    rewrite E, read_aborted. reflexivity.
  - eapply (T (startState e q)); try reflexivity. rewrite inner_rpc by assumption. unfold rpcHandler. apply rpc_path in P. rewrite P. cbn [negb]. rewrite V, A. reflexivity.
Qed.

Lemma events_cases es : (exists cs, es = map Chunk cs) \/
  exists cs x later, es = map Chunk cs ++ x :: later /\ (x = End \/ x = Failed \/ x = Aborted).
Proof.
  induction es as [|x es IH]; [left; now exists []|]. destruct x as [b| | |]; [|right; exists [], End, es; auto|right; exists [], Failed, es; auto|right; exists [], Aborted, es; auto 10].
  destruct IH as [(cs & ->)|(cs & x & later & -> & X)]; [left; now exists (b :: cs)|right]. exists (b :: cs), x, later. auto.
Qed.

Lemma value_or_not t : (exists j, Value t j) \/ NotJson t.
Proof.
  destruct t as [|c t]; [left; eexists; constructor|]. destruct (parseJ (String c t)) as [j|] eqn:E; [left; exists j; constructor; [discriminate|exact E]|right; split; [discriminate|exact E]].
Qed.
Lemma serialises_or_not v : (exists p, Serialises v p) \/ HoldsBig v.
Proof.
  destruct (hasBig v) eqn:B; [right; apply has_big, B|left]. destruct v; try (eexists; apply S_none; auto; fail); try discriminate;
    (eexists; apply S_some; [discriminate|discriminate|apply no_big, B|reflexivity]).
Qed.

Lemma answered_or_not rpc e q : WholeChunks q -> (exists status own body, Answer rpc e q status own body) \/ Unanswered rpc e q.
Proof.
  intros W. destruct (string_dec (q_verb q) "OPTIONS") as [P|N]; [left; eexists _, _, _; apply A_preflight, P|]. change (~ Preflight q) in N.
  destruct (has_prefix "/rpc/" (q_url q)) eqn:P.
  2: { assert (NP : ~ RpcPath q) by (intros X; apply rpc_path in X; congruence). left.
       destruct (string_dec (q_url q) "/") as [U|U]; [eexists _, _, _; now apply A_hello|].
       destruct (string_dec (q_url q) "/json") as [U'|U']; [eexists _, _, _; now apply A_json|eexists _, _, _; now apply A_notFound]. }
  apply rpc_path in P.
  assert (K : forall t, BodyText q t -> (exists status own body, Answer rpc e q status own body) \/ Unanswered rpc e q).
  { intros t B. destruct (value_or_not t) as [(j & V)|J]; [|left; eexists _, _, _; now apply (A_badBody rpc e q t)].
    destruct (rpc (e_reqId e) (contextOf e) (q_url q) j) as [status hs v| | |] eqn:R.
    - left. destruct (serialises_or_not v) as [(p & S)|S]; [|eexists _, _, _; eapply A_badResult; eauto].
      destruct (Z_le_gt_dec 100 status); [destruct (Z_le_gt_dec status 999)|].
      + eexists _, _, _. eapply A_result; eauto. now split.
      + eexists _, _, _. eapply A_badResult; eauto. left. unfold ValidStatus. lia.
      + eexists _, _, _. eapply A_badResult; eauto. left. unfold ValidStatus. lia.
    - right. eapply U_rpc; eauto.
    - left. eexists _, _, _. eapply A_fails; eauto.
    - right. eapply U_rpc; eauto. }
  destruct (string_dec (to_upper (q_verb q)) "POST") as [V|V]; [|apply (K EmptyString), B_other, V].
  destruct (q_aborted q) eqn:A; [left; eexists _, _, _; now apply A_early|].
  destruct (events_cases (q_events q)) as [(cs & E)|(cs & x & later & E & X)]; [right; eapply U_body; eauto|].
  destruct X as [->|[->| ->]]; [|left; eexists _, _, _; eapply A_lost; eauto|left; eexists _, _, _; eapply A_aborted; eauto].
  apply (K (String.concat EmptyString cs)). eapply B_post; eauto. apply Forall_forall. intros b Hb. apply W. rewrite E. apply in_or_app. left. now apply in_map.
Qed.

Lemma unanswered rpc e q : Unanswered rpc e q -> exists st f, server rpc e q = (st, f) /\ s_res st = startRes e q.
Proof.
  intros [cs N P V A E|t j N P B V R].
  - destruct (server_inner rpc e q) as (st & S & _ & _ & H). rewrite inner_rpc in * by assumption. unfold rpcHandler in *. apply rpc_path in P. rewrite P in *. cbn [negb] in *. rewrite V, A in *.
    cbn [orb startState s_abort String.eqb Ascii.eqb Bool.eqb] in *. rewrite E, read_open in *. cbn [fst snd] in *. eexists _, _. split; [exact S|]. now subst.
  - destruct (server_inner rpc e q) as (st & S & _ & _ & H). rewrite (served_value rpc e q t j P N B V) in *. destruct R as [R|R]; rewrite R in *; cbv zeta in *; cbn [fst snd] in *.
    + eexists _, _. split; [exact S|]. destruct H as [H _]. exact H.
    + eexists _, _. split; [exact S|]. now subst.
Qed.

(** every request, however its body is cut *)
Definition OwnHeader (rpc : rpcFn) (e : env) (q : request) (k : string) : Prop :=
  In k ["Content-Type"; "Content-Length"; "Webrpc"] \/
  exists j status hs v, rpc (e_reqId e) (contextOf e) (q_url q) j = Answers status hs v /\ In k (map fst hs).

Lemma inner_general rpc e q st f : inner rpc e q = (st, f) ->
  (s_calls st = [] \/ ~ Preflight q /\ RpcPath q /\ exists j, s_calls st = [(q_url q, j)]) /\
  (s_res st = startRes e q \/ f = Done /\ exists status own body, s_res st = written e q status own body /\ forall k, In k (map fst own) -> OwnHeader rpc e q k).
Proof.
  assert (W : forall st0 status own body, andThen (try (writeHead status own) st0) (finish q body) = (st, f) -> s_res st0 = startRes e q -> (100 <= status <= 999)%Z ->
     s_calls st = s_calls st0 /\ s_res st = written e q status own body /\ f = Done).
  { intros st0 status own body E R V. rewrite (write_end e q status own body st0 R V) in E. injection E as <- <-. repeat split. }
  intros E. unfold inner in E. destruct (String.eqb (q_verb q) "OPTIONS") eqn:O.
  { destruct (W _ _ _ _ E ltac:(reflexivity) ltac:(lia)) as (C & R & F). split; [left; now rewrite C|]. right. split; [exact F|]. eexists _, _, _. split; [exact R|]. intros k []. }
  apply String.eqb_neq in O. change (~ Preflight q) in O. unfold routes in E. destruct (has_prefix "/rpc/" (q_url q)) eqn:P.
  2: { destruct (String.eqb (q_url q) "/"); [|destruct (String.eqb (q_url q) "/json")]; [| |];
       (destruct (W _ _ _ _ E ltac:(reflexivity) ltac:(lia)) as (C & R & F); split; [left; now rewrite C|]; right; split; [exact F|]; eexists _, _, _; split; [exact R|];
        cbn [map fst contentLength]; intros k H; left; cbn in H; cbn; intuition). }
  pose proof P as P'. apply rpc_path in P'.
  assert (S : forall t, serveBody rpc e q t (startState e q) = (st, f) ->
    (s_calls st = [] \/ ~ Preflight q /\ RpcPath q /\ exists j, s_calls st = [(q_url q, j)]) /\
    (s_res st = startRes e q \/ f = Done /\ exists status own body, s_res st = written e q status own body /\ forall k, In k (map fst own) -> OwnHeader rpc e q k)).
  { clear E. intros t E. unfold serveBody in E. destruct (if isEmptyStr t then Some (JObj []) else parseJ t) as [j|].
    2: { destruct (W _ _ _ _ E ltac:(reflexivity) ltac:(lia)) as (C & R & F). split; [left; now rewrite C|]. right. split; [exact F|]. eexists _, _, _. split; [exact R|].
         cbn [map fst webrpcHeaders]. intros k H. left. cbn in H. cbn. intuition. }
    cbv zeta in E. cbn [s_data called startState] in E. destruct (rpc (e_reqId e) (contextOf e) (q_url q) j) as [status hs v| | |] eqn:R.
    2-4: injection E as <- <-; split; [right; split; [exact O|]; split; [exact P'|]; exists j; reflexivity|left; reflexivity].
    destruct (payloadOf v) as [p|]; [|injection E as <- <-; split; [right; split; [exact O|]; split; [exact P'|]; exists j; reflexivity|left; reflexivity]].
    destruct (Z_le_gt_dec 100 status) as [L1|L1]; [destruct (Z_le_gt_dec status 999) as [L2|L2]|].
    - destruct (W _ _ _ _ E ltac:(reflexivity) (conj L1 L2)) as (C & R' & F). split; [right; split; [exact O|]; split; [exact P'|]; exists j; rewrite C; reflexivity|].
      right. split; [exact F|]. eexists _, _, _. split; [exact R'|]. intros k H. rewrite map_app in H. apply in_app_or in H. destruct H as [H|[<-|[]]]; [right; eauto 10|left; cbn; auto].
    - rewrite (write_bad e) in E by (reflexivity || lia). injection E as <- <-. split; [right; split; [exact O|]; split; [exact P'|]; exists j; reflexivity|left; reflexivity].
    - rewrite (write_bad e) in E by (reflexivity || lia). injection E as <- <-. split; [right; split; [exact O|]; split; [exact P'|]; exists j; reflexivity|left; reflexivity]. }
  unfold rpcHandler in E. rewrite P in E. cbn [negb] in E. destruct (String.eqb (to_upper (q_verb q)) "POST"); [|exact (S _ E)].
  destruct (q_aborted q || s_abort (startState e q)); [injection E as <- <-; auto|].
  destruct (readBody EmptyString (q_events q)) as [[t|g]|]; [exact (S _ E)|injection E as <- <-; auto|injection E as <- <-; auto].
Qed.

Lemma header_none k l : (forall k', In k' (map fst l) -> to_lower k' <> to_lower k) -> header k l = None.
Proof.
  induction l as [|[k' v] t IH]; [reflexivity|]. intros H. cbn. destruct (String.eqb_spec (to_lower k) (to_lower k')) as [E|E]; [exfalso; apply (H k'); [now left|now symmetry]|].
  apply IH. intros x Hx. apply H. now right.
Qed.
