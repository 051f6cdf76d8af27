(** Specification for C57: the HTTP layer of the Node example server. *)
From Verif Require Import Base Utf8 Json GoVal BigInt TsBig NodeHttp.

(** bytes that are whole characters *)
Definition Utf8Text (s : string) : Prop := exists rs, forallb valid_rune rs = true /\ s = encode rs.

(** the value of a header; names are compared without regard to case *)
Fixpoint header (k : string) (hs : list (string * string)) : option string :=
  match hs with
  | [] => None
  | (k', v) :: t => if String.eqb (to_lower k) (to_lower k') then Some v else header k t
  end.

(** the text of the body of a request that has arrived whole, in chunks of whole characters; only POST requests have one *)
Inductive BodyText (q : request) : string -> Prop :=
| B_post cs later : to_upper (q_verb q) = "POST" -> q_aborted q = false -> q_events q = map Chunk cs ++ End :: later -> Forall Utf8Text cs ->
    BodyText q (String.concat EmptyString cs)
| B_other : to_upper (q_verb q) <> "POST" -> BodyText q EmptyString.
(** the arguments in a body: none if it is empty *)
Inductive Value : string -> json -> Prop :=
| V_empty : Value EmptyString (JObj [])
| V_json t j : t <> EmptyString -> parseJ t = Some j -> Value t j.
Definition NotJson (t : string) : Prop := t <> EmptyString /\ parseJ t = None.

Definition Preflight (q : request) : Prop := q_verb q = "OPTIONS".
Definition RpcPath (q : request) : Prop := exists r, q_url q = ("/rpc/" ++ r)%string.
(** what the RPC function finds in its context *)
Definition contextOf (e : env) : list (string * string) := [("traceId", e_uuid e)].

(** a bigint is somewhere in the value: JSON.stringify throws *)
Inductive HoldsBig : jsv -> Prop :=
| HB_big z : HoldsBig (SBig z)
| HB_list l x : In x l -> HoldsBig x -> HoldsBig (SArr l)
| HB_object l k x : In (k, x) l -> HoldsBig x -> HoldsBig (SObj l).
(** a JSON text for a value without bigints; {} for null and undefined *)
Inductive Serialises : jsv -> json -> Prop :=
| S_none v : v = SNull \/ v = SUndef -> Serialises v (JObj [])
| S_some v j : v <> SNull -> v <> SUndef -> ~ HoldsBig v -> jsonEncode v = Some j -> Serialises v j.
Definition ValidStatus (status : Z) : Prop := (100 <= status <= 999)%Z.

Definition errorBody (e : env) (msg : string) : string := e_json e (JObj [("msg", JStr msg); ("reqId", JStr (e_reqId e))]).
Definition lengthOf (s : string) : string := zdec (Z.of_nat (String.length s)).

(** how a request is answered: status, headers of its own, body *)
Inductive Answer (rpc : rpcFn) (e : env) (q : request) : Z -> list (string * string) -> string -> Prop :=
| A_preflight : Preflight q -> Answer rpc e q 204 [] EmptyString
| A_hello : ~ Preflight q -> q_url q = "/" ->
    Answer rpc e q 200 [("Content-Type", "text/plain")] ("Hello world (req " ++ e_reqId e ++ ")" ++ String (byte_of_N 10) EmptyString)
| A_json body : ~ Preflight q -> q_url q = "/json" ->
    body = e_json e (JObj [("ok", JBool true); ("time", JStr (e_time e)); ("reqId", JStr (e_reqId e))]) ->
    Answer rpc e q 200 [("Content-Type", "application/json"); ("Content-Length", lengthOf body)] body
| A_notFound : ~ Preflight q -> ~ RpcPath q -> q_url q <> "/" -> q_url q <> "/json" ->
    Answer rpc e q 404 [("Content-Type", "text/plain")] ("Not Found" ++ String (byte_of_N 10) EmptyString)
| A_badBody t : ~ Preflight q -> RpcPath q -> BodyText q t -> NotJson t ->
    Answer rpc e q 400 [("Webrpc", "webrpc;gen-typescript;node-ts@v1.0.0"); ("Content-Type", "application/json")]
      (e_json e (JObj [("msg", JStr "invalid JSON body"); ("status", JNum "400"); ("code", JStr "")]))
| A_result t j status hs v p : ~ Preflight q -> RpcPath q -> BodyText q t -> Value t j ->
    rpc (e_reqId e) (contextOf e) (q_url q) j = Answers status hs v -> ValidStatus status -> Serialises v p ->
    Answer rpc e q status (hs ++ [("Content-Length", lengthOf (e_json e p))]) (e_json e p)
| A_fails t j : ~ Preflight q -> RpcPath q -> BodyText q t -> Value t j -> rpc (e_reqId e) (contextOf e) (q_url q) j = Fails ->
    Answer rpc e q 500 [("Content-Type", "application/json")] (errorBody e (if q_gone q then "client closed request" else "internal error"))
| A_badResult t j status hs v : ~ Preflight q -> RpcPath q -> BodyText q t -> Value t j ->
    rpc (e_reqId e) (contextOf e) (q_url q) j = Answers status hs v -> ~ ValidStatus status \/ HoldsBig v ->
    Answer rpc e q 500 [("Content-Type", "application/json")] (errorBody e (if q_gone q then "client closed request" else "internal error"))
| A_lost cs later : ~ Preflight q -> RpcPath q -> to_upper (q_verb q) = "POST" -> q_aborted q = false -> q_events q = map Chunk cs ++ Failed :: later ->
    Answer rpc e q 500 [("Content-Type", "application/json")] (errorBody e "internal error")
| A_aborted cs later : ~ Preflight q -> RpcPath q -> to_upper (q_verb q) = "POST" -> q_aborted q = false -> q_events q = map Chunk cs ++ Aborted :: later ->
    Answer rpc e q 500 [("Content-Type", "application/json")] (errorBody e "client closed request")
| A_early : ~ Preflight q -> RpcPath q -> to_upper (q_verb q) = "POST" -> q_aborted q = true ->
    Answer rpc e q 500 [("Content-Type", "application/json")] (errorBody e "internal error").

(** the headers of every answer *)
Definition common (e : env) (q : request) : list (string * string) :=
  [("X-Trace-Id", e_reqId e); ("Access-Control-Allow-Origin", "*"); ("Access-Control-Allow-Methods", "GET,POST,PUT,PATCH,DELETE,OPTIONS");
   ("Access-Control-Allow-Headers",
    match lookup "access-control-request-headers" (q_headers q) with Some EmptyString | None => "Content-Type, Authorization" | Some v => v end);
   ("Access-Control-Max-Age", "86400")].

(** a complete answer: the headers are the common ones, replaced by those of its own of the same name (the last one
    counts); HEAD requests and some statuses have no body *)
Definition NoBody (q : request) (status : Z) : Prop := q_verb q = "HEAD" \/ (status < 200)%Z \/ status = 204%Z \/ status = 304%Z.
Definition Sent (e : env) (q : request) (r : response) (status : Z) (own : list (string * string)) (body : string) : Prop :=
  r_ended r = true /\
  (exists hs, r_head r = Some (status, hs) /\
     forall k, header k hs = match header k (rev own) with Some v => Some v | None => header k (common e q) end) /\
  (NoBody q status -> r_body r = EmptyString) /\ (~ NoBody q status -> r_body r = body).

(** the request is never answered: its body does not end, or the RPC function has no result *)
Inductive Unanswered (rpc : rpcFn) (e : env) (q : request) : Prop :=
| U_body cs : ~ Preflight q -> RpcPath q -> to_upper (q_verb q) = "POST" -> q_aborted q = false -> q_events q = map Chunk cs -> Unanswered rpc e q
| U_rpc t j : ~ Preflight q -> RpcPath q -> BodyText q t -> Value t j ->
    rpc (e_reqId e) (contextOf e) (q_url q) j = NoResult \/ rpc (e_reqId e) (contextOf e) (q_url q) j = Never -> Unanswered rpc e q.

(** no chunk of the body cuts a character *)
Definition WholeChunks (q : request) : Prop := forall b, In (Chunk b) (q_events q) -> Utf8Text b.
