(** C68: the Hono example server. *)
From Coq Require Import ZifyBool.
From Verif Require Import Base BaseProofs Utf8 Json GoVal BigInt TsBig Ts TsProofs TsServer NodeHttp NodeSpec NodeProofs Props_TsServer Props_Node.
From Verif Require Import Cors CorsNode Hono.

(** Specification. The path of a request, without its query. *)
Definition PathOf (m : msg) (p : string) : Prop :=
  contains_byte "?" p = false /\ (g_path m = p \/ exists query, g_path m = (p ++ String "?" query)%string).
Definition UnderRpc (p : string) : Prop := p = "/rpc"%string \/ exists r, p = ("/rpc/" ++ r)%string.
(** The arguments in a request: none without a body or with a body that is not JSON *)
Definition NoBodyVerb (m : msg) : Prop := g_method m = "GET"%string \/ g_method m = "HEAD"%string.
Inductive Args (m : msg) : json -> Prop :=
| Args_none : NoBodyVerb m -> Args m (JObj [])
| Args_json rs j : ~ NoBodyVerb m -> forallb valid_rune rs = true -> hd 0%N rs <> 65279%N -> g_body m = encode rs -> parseJ (g_body m) = Some j -> Args m j
| Args_bad : ~ NoBodyVerb m -> jsParse (decodeText (g_body m)) = None -> Args m (JObj []).

Lemma path_of m p : PathOf m p -> honoPath m = p.
Proof.
  intros [N [E|(q & E)]]; unfold honoPath; rewrite E.
  - rewrite split_byte_none by exact N. reflexivity.
  - rewrite split_byte_app by exact N. reflexivity.
Qed.
Lemma under_rpc p : UnderRpc p <-> (String.eqb p "/rpc" || has_prefix "/rpc/" p = true).
Proof.
  split.
  - intros [->|(r & ->)]; [reflexivity|]. apply orb_true_iff. right. apply has_prefix_app.
  - intros H. apply orb_true_iff in H. destruct H as [H|H]; [left; apply String.eqb_eq; exact H|right].
    apply has_prefix_iff in H. exact H.
Qed.

Lemma options_no m : g_method m <> "OPTIONS"%string -> String.eqb (g_method m) "OPTIONS" = false.
Proof. intros H. apply String.eqb_neq. exact H. Qed.
Lemma rpc_routes rpc e m p : PathOf m p -> UnderRpc p -> honoRoutes rpc e m = honoRpc rpc e m.
Proof.
  intros P U. unfold honoRoutes. rewrite (path_of m p P). pose proof (proj1 (under_rpc p) U) as H. rewrite H.
  assert (A : String.eqb p "/" = false /\ String.eqb p "/health" = false) by (destruct U as [->|(r & ->)]; split; reflexivity).
  rewrite (proj1 A), (proj2 A), !andb_false_r. reflexivity.
Qed.
Lemma other_routes rpc e m p : PathOf m p -> ~ UnderRpc p -> snd (honoRoutes rpc e m) = [].
Proof.
  intros P U. unfold honoRoutes. rewrite (path_of m p P). destruct (String.eqb p "/rpc" || has_prefix "/rpc/" p) eqn:H.
  - apply under_rpc in H. contradiction.
  - destruct (_ && String.eqb p "/"); [reflexivity|]. destruct (_ && String.eqb p "/health"); reflexivity.
Qed.
Lemma verb_no m : ~ NoBodyVerb m -> str_in (g_method m) ["GET"; "HEAD"] = false.
Proof.
  intros N. unfold str_in. cbn. apply orb_false_iff. split; [|rewrite orb_false_r]; apply String.eqb_neq; intros E; apply N; [left|right]; congruence.
Qed.
Lemma decode_plain rs : forallb valid_rune rs = true -> hd 0%N rs <> 65279%N -> decodeText (encode rs) = rs.
Proof.
  intros V B. unfold decodeText. rewrite decode_utf8 by exact V. cbn [ds_need dstart]. rewrite app_nil_r.
  destruct rs as [|r rs]; [reflexivity|]. cbn [dropBOM hd] in *. apply N.eqb_neq in B. rewrite B. reflexivity.
Qed.
Lemma args_body m j : Args m j -> honoBody m = j.
Proof.
  intros [N|rs j' N V B E P|N H]; unfold honoBody.
  - destruct N as [->| ->]; reflexivity.
  - rewrite (verb_no m N), E, decode_plain by assumption. unfold jsParse. rewrite <- E, P. reflexivity.
  - rewrite (verb_no m N), H. reflexivity.
Qed.
Lemma header_app k a b : header k (a ++ b) = match header k a with Some v => Some v | None => header k b end.
Proof. induction a as [|[k' v] a IH]; [reflexivity|]. cbn. destruct (String.eqb _ _); [reflexivity|exact IH]. Qed.
Lemma str_in_iff x l : str_in x l = true <-> In x l.
Proof.
  unfold str_in. rewrite existsb_exists. split.
  - intros (y & I & E). apply String.eqb_eq in E. subst. exact I.
  - intros I. exists x. split; [exact I|apply String.eqb_refl].
Qed.
Lemma header_in k hs v : header k hs = Some v -> In (to_lower k) (map (fun x => to_lower (fst x)) hs).
Proof.
  induction hs as [|[k' v'] hs IH]; [discriminate|]. cbn [header map fst In]. destruct (String.eqb_spec (to_lower k) (to_lower k')) as [E|E]; [left; symmetry; exact E|].
  intros H. right. apply IH. exact H.
Qed.
Lemma header_replaced_new k new hs v : header k new = Some v -> header k (replaceHeaders new hs) = Some v.
Proof.
  intros H. unfold replaceHeaders. rewrite header_app.
  assert (N : header k (filter (fun h => negb (str_in (to_lower (fst h)) (map (fun x => to_lower (fst x)) new))) hs) = None); [|rewrite N; exact H].
  apply header_in in H. apply str_in_iff in H.
  induction hs as [|[k' v'] hs IH]; [reflexivity|]. cbn [filter fst]. destruct (str_in (to_lower k') _) eqn:E; cbn [negb]; [exact IH|].
  cbn [header]. destruct (String.eqb_spec (to_lower k) (to_lower k')) as [X|X]; [rewrite <- X in E; rewrite H in E; discriminate E|exact IH].
Qed.
Lemma header_replaced_old k new hs v : ~ In (to_lower k) (map (fun x => to_lower (fst x)) new) -> header k hs = Some v ->
  header k (replaceHeaders new hs) = Some v.
Proof.
  intros N H. unfold replaceHeaders. rewrite header_app.
  assert (X : header k (filter (fun h => negb (str_in (to_lower (fst h)) (map (fun x => to_lower (fst x)) new))) hs) = Some v); [|rewrite X; reflexivity].
  induction hs as [|[k' v'] hs IH]; [discriminate|]. cbn [header] in H. cbn [filter fst].
  destruct (String.eqb_spec (to_lower k) (to_lower k')) as [E|E].
  - destruct (str_in (to_lower k') _) eqn:S; cbn [negb].
    + apply str_in_iff in S. rewrite <- E in S. contradiction.
    + cbn [header]. rewrite (proj2 (String.eqb_eq _ _) E). exact H.
  - destruct (str_in (to_lower k') _); cbn [negb]; [exact (IH H)|]. cbn [header]. apply String.eqb_neq in E. rewrite E. exact (IH H).
Qed.

(** C68. Every request is answered, with the trace id in the header X-Trace-Id, unless the RPC function never ends. *)
Theorem C68_every_request_is_answered : forall rpc e m, (forall id path j, rpc id path j <> Never) ->
  exists a, fst (honoServer rpc e m) = Some a /\ header "X-Trace-Id" (a_headers a) = Some (h_trace e).
Proof.
  intros rpc e m R.
  assert (A : exists a, fst (honoRoutes rpc e m) = Some a).
  { unfold honoRoutes. destruct (_ && String.eqb (honoPath m) "/"); [eexists; reflexivity|].
    destruct (_ && String.eqb (honoPath m) "/health"); [eexists; reflexivity|].
    destruct (_ || _); [|eexists; reflexivity]. unfold honoRpc. cbn [fst].
    destruct (rpc (h_trace e) (honoPath m) (honoBody m)) as [s hs v| | |] eqn:E; [|eexists; reflexivity|eexists; reflexivity|destruct (R _ _ _ E)].
    destruct (honoPayload e v); [|eexists; reflexivity]. destruct (bodyStatus s); eexists; reflexivity. }
  destruct A as (a & A). unfold honoServer, honoCors. cbn [fst].
  destruct (String.eqb (g_method m) "OPTIONS"); cbn [fst option_map]; [|rewrite A; cbn [option_map]].
  all: eexists; split; [reflexivity|]; cbn [a_headers]; apply header_replaced_new; reflexivity.
Qed.
Print Assumptions C68_every_request_is_answered.

(** C68. The RPC function is called once, with the path and the arguments, for every request of a path of RPC calls that is
    not an OPTIONS request, and for no other. *)
Theorem C68_rpc_function_is_called_once : forall rpc e m p, PathOf m p ->
  (forall j, g_method m <> "OPTIONS"%string -> UnderRpc p -> Args m j -> snd (honoServer rpc e m) = [(p, j)]) /\
  (g_method m = "OPTIONS"%string \/ ~ UnderRpc p -> snd (honoServer rpc e m) = []).
Proof.
  intros rpc e m p P. unfold honoServer. cbn [snd]. split.
  - intros j N U A. rewrite (options_no m N), (rpc_routes rpc e m p P U). unfold honoRpc. cbn [snd].
    rewrite (path_of m p P), (args_body m j A). reflexivity.
  - intros [O|N]; [rewrite O; reflexivity|]. destruct (String.eqb (g_method m) "OPTIONS"); [reflexivity|]. apply (other_routes rpc e m p P N).
Qed.
Print Assumptions C68_rpc_function_is_called_once.

(** what is sent for a value: its JSON text, nothing for undefined *)
Inductive Payload (e : honoEnv) : jsv -> string -> Prop :=
| P_undef : Payload e SUndef EmptyString
| P_json v j : v <> SUndef -> ~ HoldsBig v -> jsonEncode v = Some j -> Payload e v (h_json e j).
Definition BodyStatus (s : Z) : Prop := (200 <= s <= 599)%Z /\ s <> 204%Z /\ s <> 205%Z /\ s <> 304%Z.
Lemma payload_of e v t : Payload e v t -> honoPayload e v = Some t.
Proof. intros [|v' j N B E]; [reflexivity|]. apply no_big in B. unfold honoPayload. rewrite B, E. destruct v'; try reflexivity. contradiction. Qed.
Lemma body_status s : BodyStatus s <-> bodyStatus s = true.
Proof. unfold BodyStatus, bodyStatus. cbn [existsb]. lia. Qed.

(** C68. What the RPC function answers is sent: its status, its headers, its body as JSON (none for HEAD) ... *)
Theorem C68_results_are_sent : forall rpc e m p j status own v t, PathOf m p -> g_method m <> "OPTIONS"%string -> UnderRpc p -> Args m j ->
  rpc (h_trace e) p j = Answers status own v -> BodyStatus status -> Payload e v t ->
  exists a, fst (honoServer rpc e m) = Some a /\ a_status a = status /\ a_body a = (if String.eqb (g_method m) "HEAD" then EmptyString else t) /\
    header "Content-Type" (a_headers a) = Some "application/json"%string /\
    (forall k x, to_lower k <> "content-type"%string -> to_lower k <> "x-trace-id"%string -> header k own = Some x -> header k (a_headers a) = Some x).
Proof.
  intros rpc e m p j status own v t P N U A R S L. unfold honoServer, honoCors. cbn [fst]. rewrite (options_no m N). cbn [fst].
  rewrite (rpc_routes rpc e m p P U). unfold honoRpc. rewrite (path_of m p P), (args_body m j A), R, (payload_of e v t L).
  rewrite (proj1 (body_status status) S). cbn [fst option_map a_status a_headers a_body]. eexists. split; [reflexivity|]. cbn [a_status a_headers a_body].
  split; [reflexivity|]. split; [reflexivity|]. split.
  - apply header_replaced_old; [intros [X|[]]; discriminate X|]. apply header_replaced_new. apply header_replaced_new. reflexivity.
  - intros k x K1 K2 X. apply header_replaced_old; [cbn; intros [Y|[]]; apply K2; symmetry; exact Y|]. apply header_replaced_new.
    apply header_replaced_old; [cbn; intros [Y|[]]; apply K1; symmetry; exact Y|exact X].
Qed.
Print Assumptions C68_results_are_sent.

(** ... and an exception, a bigint in the body, and a status without a body are the error 500; no result is 404. *)
Theorem C68_failures_are_answered : forall rpc e m p j, PathOf m p -> g_method m <> "OPTIONS"%string -> UnderRpc p -> Args m j ->
  (forall status own v, rpc (h_trace e) p j = Fails \/ (rpc (h_trace e) p j = Answers status own v /\ (~ BodyStatus status \/ HoldsBig v)) ->
     option_map a_status (fst (honoServer rpc e m)) = Some 500%Z) /\
  (rpc (h_trace e) p j = NoResult -> option_map a_status (fst (honoServer rpc e m)) = Some 404%Z).
Proof.
  intros rpc e m p j P N U A. unfold honoServer, honoCors. cbn [fst]. rewrite (options_no m N). cbn [fst].
  rewrite (rpc_routes rpc e m p P U). unfold honoRpc. rewrite (path_of m p P), (args_body m j A). cbn [fst]. split.
  - intros status own v [R|[R [S|B]]]; rewrite R; [reflexivity| |].
    + destruct (honoPayload e v); [|reflexivity]. destruct (bodyStatus status) eqn:E; [apply body_status in E; contradiction|reflexivity].
    + apply has_big in B. unfold honoPayload. destruct v; try discriminate B; rewrite B; reflexivity.
  - intros R. rewrite R. reflexivity.
Qed.
Print Assumptions C68_failures_are_answered.

(** C68. For a POST request with a JSON body, and a result other than null and undefined, the Hono server answers with the same
    status and body as the Node server, given the same RPC function. *)
Theorem C68_hono_answers_like_node : forall (f : honoFn) he ne m r rs j status own v t,
  h_trace he = e_reqId ne -> h_json he = e_json ne ->
  g_method m = "POST"%string -> g_path m = ("/rpc/" ++ r)%string -> contains_byte "?" r = false ->
  forallb valid_rune rs = true -> hd 0%N rs <> 65279%N -> g_body m = encode rs -> parseJ (g_body m) = Some j ->
  f (h_trace he) (g_path m) j = Answers status own v -> BodyStatus status -> v <> SNull -> v <> SUndef -> Payload he v t ->
  option_map (fun a => (a_status a, a_body a)) (fst (honoServer f he m)) = Some (status, t) /\
  option_map (fun a => (a_status a, a_body a)) (fst (nodeServer (fun id _ => f id) ne m)) = Some (status, t).
Proof.
  intros f he ne m r rs j status own v t ID JS M P Q V B E J R S N1 N2 L.
  assert (NB : ~ NoBodyVerb m) by (intros [X|X]; rewrite M in X; discriminate X).
  assert (PO : PathOf m (g_path m)) by (split; [rewrite P; unfold contains_byte in *; rewrite sexists_app, Q; reflexivity|left; reflexivity]).
  assert (U : UnderRpc (g_path m)) by (right; exists r; exact P).
  assert (O : g_method m <> "OPTIONS"%string) by (rewrite M; discriminate).
  assert (A : Args m j) by (econstructor; eassumption). split.
  - destruct (C68_results_are_sent f he m (g_path m) j status own v t PO O U A R S L) as (a & H & HS & HB & _).
    rewrite H. cbn [option_map]. rewrite HS, HB, M. reflexivity.
  - destruct L as [|v j' N3 NBig JE]; [contradiction|].
    assert (NE : g_body m <> EmptyString) by (intros X; rewrite X in J; vm_compute in J; discriminate J).
    destruct (answered (fun id _ => f id) ne (nodeRequest m) status (own ++ [("Content-Length", lengthOf (e_json ne j'))]) (e_json ne j')) as (st & SV & E1 & (hs & HD & _) & _ & E2).
    { apply (A_result _ _ _ (g_body m) j status own v j').
      - intros X. apply O. exact X.
      - exists r. exact P.
      - apply (B_post (nodeRequest m) [g_body m] []).
        + cbn [q_verb nodeRequest]. rewrite M. reflexivity.
        + reflexivity.
        + reflexivity.
        + constructor; [|constructor]. exists rs. split; assumption.
      - apply V_json; assumption.
      - cbn [q_url nodeRequest]. rewrite <- ID. exact R.
      - unfold ValidStatus. destruct S. lia.
      - apply S_some; assumption. }
    unfold nodeServer. rewrite SV. cbn [fst]. rewrite HD, E1. cbn [option_map a_status a_body]. rewrite E2; [rewrite JS; reflexivity|].
    intros [X|[X|[X|X]]]; [cbn in X; rewrite M in X; discriminate X|destruct S; lia|destruct S as (_ & ? & _); lia|destruct S as (_ & _ & _ & ?); lia].
Qed.
Print Assumptions C68_hono_answers_like_node.

Lemma bad_args m rs : ~ NoBodyVerb m -> forallb valid_rune rs = true -> hd 0%N rs <> 65279%N -> g_body m = encode rs -> parseJ (g_body m) = None ->
  Args m (JObj []).
Proof. intros N V B E P. apply Args_bad; [exact N|]. rewrite E, decode_plain by assumption. unfold jsParse. rewrite <- E. exact P. Qed.

(** A body that is not JSON is a bad request for the Node server. The Hono server takes it for {}: the method is called. *)
Theorem C68_malformed_bodies_are_refused_refuted : forall (f : honoFn) he ne m r rs,
  g_method m = "POST"%string -> g_path m = ("/rpc/" ++ r)%string -> contains_byte "?" r = false ->
  forallb valid_rune rs = true -> hd 0%N rs <> 65279%N -> g_body m = encode rs -> rs <> [] -> parseJ (g_body m) = None ->
  honoServer f he m = honoServer f he (Msg (g_method m) (g_path m) (g_headers m) "{}") /\
  snd (honoServer f he m) = [(g_path m, JObj [])] /\
  option_map a_status (fst (nodeServer (fun id _ => f id) ne m)) = Some 400%Z /\ snd (nodeServer (fun id _ => f id) ne m) = [].
Proof.
  intros f he ne m r rs M P Q V B E NE J.
  set (m' := Msg (g_method m) (g_path m) (g_headers m) "{}").
  assert (NB : ~ NoBodyVerb m) by (intros [X|X]; rewrite M in X; discriminate X).
  assert (NB' : ~ NoBodyVerb m') by exact NB.
  assert (PO : PathOf m (g_path m)) by (split; [rewrite P; unfold contains_byte in *; rewrite sexists_app, Q; reflexivity|left; reflexivity]).
  assert (U : UnderRpc (g_path m)) by (right; exists r; exact P).
  assert (O : g_method m <> "OPTIONS"%string) by (rewrite M; discriminate).
  pose proof (bad_args m rs NB V B E J) as A.
  assert (A' : Args m' (JObj [])).
  { apply (Args_json m' [123%N; 125%N]); [exact NB'|reflexivity|discriminate|reflexivity|vm_compute; reflexivity]. }
  assert (S : Utf8Text (g_body m)) by (exists rs; split; assumption).
  assert (X : g_body m <> EmptyString).
  { intros X. rewrite E in X. destruct rs as [|x rs]; [contradiction|]. cbn [encode] in X. destruct (NodeText.rune_tail x) as (c & t & H & _). rewrite H in X. discriminate X. }
  assert (BT : BodyText (nodeRequest m) (g_body m)).
  { apply (B_post (nodeRequest m) [g_body m] []); [cbn [q_verb nodeRequest]; rewrite M; reflexivity|reflexivity|reflexivity|constructor; [exact S|constructor]]. }
  split; [|split; [|split]].
  - unfold honoServer, honoCors. cbn [fst snd]. change (g_method m') with (g_method m). rewrite (options_no m O). cbn [fst].
    rewrite (rpc_routes f he m (g_path m) PO U). rewrite (rpc_routes f he m' (g_path m) PO U).
    assert (H : honoRpc f he m = honoRpc f he m').
    { unfold honoRpc. rewrite (args_body m _ A), (args_body m' _ A'). reflexivity. }
    rewrite H. reflexivity.
  - apply (proj1 (C68_rpc_function_is_called_once f he m (g_path m) PO) _ O U A).
  - destruct (answered (fun id _ => f id) ne (nodeRequest m) 400 webrpcHeaders (e_json ne (JObj [("msg", JStr "invalid JSON body"); ("status", JNum "400"); ("code", JStr "")])))
      as (st & SV & E1 & (hs & HD & _) & _).
    { apply (A_badBody _ _ _ (g_body m)); [intros Y; apply O; exact Y|exists r; exact P|exact BT|split; assumption]. }
    unfold nodeServer. rewrite SV. cbn [fst]. rewrite HD, E1. reflexivity.
  - unfold nodeServer. cbn [snd]. rewrite (proj1 (proj2 (C57_rpc_function_is_called_once (fun id _ => f id) ne (nodeRequest m))) (g_body m) BT (conj X J)). reflexivity.
Qed.
Print Assumptions C68_malformed_bodies_are_refused_refuted.

(** A body of a request that is not a POST request is read by the Hono server and ignored by the Node server. *)
Theorem C68_bodies_of_other_verbs_refuted : forall (f : honoFn) he ne m r rs j,
  In (g_method m) ["PUT"; "PATCH"; "DELETE"]%string -> g_path m = ("/rpc/" ++ r)%string -> contains_byte "?" r = false ->
  forallb valid_rune rs = true -> hd 0%N rs <> 65279%N -> g_body m = encode rs -> parseJ (g_body m) = Some j ->
  snd (honoServer f he m) = [(g_path m, j)] /\ s_calls (fst (server (fun id _ => f id) ne (nodeRequest m))) = [(g_path m, JObj [])].
Proof.
  intros f he ne m r rs j M P Q V B E J.
  assert (K : ~ NoBodyVerb m /\ g_method m <> "OPTIONS"%string /\ to_upper (g_method m) <> "POST"%string).
  { repeat destruct M as [M|M]; try contradiction; rewrite <- M; repeat split; try discriminate; intros [X|X]; rewrite <- M in X; discriminate X. }
  destruct K as (NB & O & NP).
  assert (PO : PathOf m (g_path m)) by (split; [rewrite P; unfold contains_byte in *; rewrite sexists_app, Q; reflexivity|left; reflexivity]).
  assert (U : UnderRpc (g_path m)) by (right; exists r; exact P). split.
  - apply (proj1 (C68_rpc_function_is_called_once f he m (g_path m) PO) _ O U). econstructor; eassumption.
  - apply (proj1 (C57_rpc_function_is_called_once (fun id _ => f id) ne (nodeRequest m)) EmptyString (JObj []));
      [intros Y; apply O; exact Y|exists r; exact P|apply B_other; exact NP|constructor].
Qed.
Print Assumptions C68_bodies_of_other_verbs_refuted.

(** With the generated function no RPC call is served: every answer is 404, where the Node server never answers (C57). *)
Theorem C68_generated_server_is_not_found_refuted : forall impl e m p j, PathOf m p -> g_method m <> "OPTIONS"%string -> UnderRpc p -> Args m j ->
  option_map a_status (fst (honoServer (fun id => generated impl id []) e m)) = Some 404%Z.
Proof.
  intros impl e m p j P N U A. apply (proj2 (C68_failures_are_answered (fun id => generated impl id []) e m p j P N U A)).
  unfold generated. rewrite C50_no_path_is_served_refuted. reflexivity.
Qed.
Print Assumptions C68_generated_server_is_not_found_refuted.

(** Non-vacuity: a call, one with a body that is not JSON, one with a bigint in the result; pages of other origins *)
Definition honoEcho : honoFn := fun id path body =>
  match body with
  | JObj [("n", JNum n)] => Answers 200 webrpcHeaders (SObj [("n", SNum n); ("id", SStr id)])
  | JObj [] => Answers 200 webrpcHeaders (SObj [])
  | _ => Answers 200 [] (SBig 7)
  end.
Definition honoPost (path body : string) : msg := Msg "POST" path [] body.
Definition aHonoEnv : honoEnv := HonoEnv "id1" "now" printJ.
Definition nText : string := ("{" ++ quote ++ "n" ++ quote ++ ":3}")%string.
Example C68_example :
  PathOf (honoPost "/rpc/Example/Ping?x" nText) "/rpc/Example/Ping" /\ UnderRpc "/rpc/Example/Ping" /\
  Args (honoPost "/rpc/Example/Ping?x" nText) (JObj [("n", JNum "3")]) /\ Args (honoPost "/rpc/Example/Ping" "{") (JObj []) /\
  honoServer honoEcho aHonoEnv (honoPost "/rpc/Example/Ping?x" nText) =
    (Some (Answer 200 [("Vary", "Origin"); ("Access-Control-Allow-Credentials", "true"); ("Webrpc", "webrpc;gen-typescript;node-ts@v1.0.0");
                       ("Content-Type", "application/json"); ("X-Trace-Id", "id1")]
             (printJ (JObj [("n", JNum "3"); ("id", JStr "id1")]))),
     [("/rpc/Example/Ping"%string, JObj [("n", JNum "3")])]) /\
  option_map a_body (fst (honoServer honoEcho aHonoEnv (honoPost "/rpc/Example/Ping" "{"))) = Some "{}"%string /\
  option_map a_status (fst (honoServer honoEcho aHonoEnv (honoPost "/rpc/Example/Ping" "[]"))) = Some 500%Z /\
  option_map a_status (fst (nodeServer (fun id _ => honoEcho id) anEnv (honoPost "/rpc/Example/Ping" "{"))) = Some 400%Z.
Proof.
  split; [split; [reflexivity|right; exists "x"; reflexivity]|]. split; [right; eexists; reflexivity|].
  split; [apply (Args_json _ [123; 34; 110; 34; 58; 51; 125]%N); [intros [X|X]; discriminate X|reflexivity|discriminate|reflexivity|vm_compute; reflexivity]|].
  split; [apply Args_bad; [intros [X|X]; discriminate X|vm_compute; reflexivity]|].
  split; [vm_compute; reflexivity|]. repeat split; vm_compute; reflexivity.
Qed.
