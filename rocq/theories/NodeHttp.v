(** Model of the HTTP layer of the Node example server: _examples/node-ts/server/helpers.ts, middleware.ts and the
    routes of index.ts.  The generated function that serves RPC requests is a parameter; TsServer.v models the
    generated one.

    Simplifications: method and path of a request are always given (they are, on a server) and its header names are in
    lower case (Node makes them so); a text is its UTF-8 encoding; header values are valid; what happens to a
    connection after the client has left is not modelled, except that the abort signal is set; JSON.parse accepts what
    [parseJ] accepts; the function that serves RPC requests leaves the response alone. *)
From Verif Require Import Base Utf8 Json GoVal BigInt TsBig.

(** ** Node's http.ServerResponse *)
Record response := Response {
  r_status : Z;                                     (* statusCode *)
  r_headers : list (string * string);               (* what setHeader has set *)
  r_head : option (Z * list (string * string));     (* status and headers sent *)
  r_body : string;
  r_ended : bool }.                                 (* writableEnded *)
Definition freshResponse : response := Response 200 [] None EmptyString false.
Definition headersSent (r : response) : bool := match r_head r with Some _ => true | None => false end.

(** one entry per name, without regard to case *)
Fixpoint putHeader (k v : string) (hs : list (string * string)) : list (string * string) :=
  match hs with
  | [] => [(k, v)]
  | (k', v') :: t => if String.eqb (to_lower k) (to_lower k') then (k, v) :: t else (k', v') :: putHeader k v t
  end.
Definition putHeaders (new hs : list (string * string)) : list (string * string) :=
  fold_left (fun acc h => putHeader (fst h) (snd h) acc) new hs.

(** setHeader; None is the exception ERR_HTTP_HEADERS_SENT *)
Definition setHeader (k v : string) (r : response) : option response :=
  if headersSent r then None
  else Some (Response (r_status r) (putHeader k v (r_headers r)) (r_head r) (r_body r) (r_ended r)).
(** writeHead; None is ERR_HTTP_HEADERS_SENT or ERR_HTTP_INVALID_STATUS_CODE *)
Definition writeHead (status : Z) (hs : list (string * string)) (r : response) : option response :=
  if headersSent r then None
  else if ((status <? 100) || (999 <? status))%Z then None
  else Some (Response status (r_headers r) (Some (status, putHeaders hs (r_headers r))) (r_body r) (r_ended r)).
(** no body is sent for HEAD requests and these statuses *)
Definition bodiless (verb : string) (status : Z) : bool :=
  (String.eqb verb "HEAD" || (status <? 200) || (status =? 204) || (status =? 304))%Z.
(** end: the headers are sent if they were not; after the end nothing happens *)
Definition endWith (verb data : string) (r : response) : response :=
  if r_ended r then r
  else
    let head := match r_head r with Some h => h | None => (r_status r, r_headers r) end in
    Response (r_status r) (r_headers r) (Some head) (r_body r ++ (if bodiless verb (fst head) then EmptyString else data)) true.

(** ** requests *)
Inductive bodyEvent := Chunk (bytes : string) | End | Failed | Aborted.
Record request := Request {
  q_verb : string;
  q_url : string;
  q_headers : list (string * string);
  q_events : list bodyEvent;    (* of the request body, in the order in which they happen *)
  q_aborted : bool;             (* aborted before anything is read *)
  q_gone : bool }.              (* the client left before the RPC function was done *)

(** what the server takes from outside: randomUUID (twice), the clock, and the text that JSON.stringify makes *)
Record env := Env { e_reqId : string; e_uuid : string; e_time : string; e_json : json -> string }.

(** console.log and console.error *)
Inductive line := LogReq (id verb url : string) | LogRes (id verb url : string) (status : Z) | LogErr (id : string).

(** what is mutable during a request *)
Record state := State {
  s_res : response;
  s_data : list (string * string);    (* ctx.data *)
  s_abort : bool;                     (* ctx.abort.aborted *)
  s_log : list line;
  s_calls : list (string * json) }.   (* the calls of the RPC function *)
Definition withRes (r : response) (st : state) : state := State r (s_data st) (s_abort st) (s_log st) (s_calls st).
Definition withData (d : list (string * string)) (st : state) : state := State (s_res st) d (s_abort st) (s_log st) (s_calls st).
Definition withAbort (b : bool) (st : state) : state := State (s_res st) (s_data st) (s_abort st || b) (s_log st) (s_calls st).
Definition logged (l : line) (st : state) : state := State (s_res st) (s_data st) (s_abort st) (s_log st ++ [l]) (s_calls st).
Definition called (c : string * json) (st : state) : state := State (s_res st) (s_data st) (s_abort st) (s_log st) (s_calls st ++ [c]).

(** how an asynchronous function ends: it returns, it throws, or its promise is never settled *)
Inductive flow := Done | Threw | Hangs.
Definition handler := env -> request -> state -> state * flow.
Definition andThen (x : state * flow) (f : state -> state * flow) : state * flow :=
  match x with (st, Done) => f st | _ => x end.
(** an operation on the response that may throw *)
Definition try (o : response -> option response) (st : state) : state * flow :=
  match o (s_res st) with Some r => (withRes r st, Done) | None => (st, Threw) end.
Definition finish (q : request) (data : string) (st : state) : state * flow := (withRes (endWith (q_verb q) data (s_res st)) st, Done).

(** ** helpers.ts *)

(** chunk.toString('utf8') (WHATWG Encoding, UTF-8 decoder): the first character and the rest; of an invalid sequence
    the longest beginning of a valid one is replaced by U+FFFD *)
Definition chunkRune (c : ascii) (s : string) : N * string :=
  let b0 := N_of_byte c in
  (if b0 <? 0x80 then (b0, s)
   else if b0 <? 0xC2 then (replacement, s)
   else if b0 <? 0xE0 then
     match s with
     | String c1 s1 => if is_cont (N_of_byte c1) then ((b0 - 0xC0) * 64 + (N_of_byte c1 - 0x80), s1) else (replacement, s)
     | _ => (replacement, s)
     end
   else if b0 <? 0xF0 then
     match s with
     | String c1 s1 =>
         let b1 := N_of_byte c1 in
         let lo := if b0 =? 0xE0 then 0xA0 else 0x80 in
         let hi := if b0 =? 0xED then 0x9F else 0xBF in
         if (lo <=? b1) && (b1 <=? hi) then
           match s1 with
           | String c2 s2 =>
               if is_cont (N_of_byte c2) then ((b0 - 0xE0) * 4096 + (b1 - 0x80) * 64 + (N_of_byte c2 - 0x80), s2) else (replacement, s1)
           | _ => (replacement, s1)
           end
         else (replacement, s)
     | _ => (replacement, s)
     end
   else if b0 <? 0xF5 then
     match s with
     | String c1 s1 =>
         let b1 := N_of_byte c1 in
         let lo := if b0 =? 0xF0 then 0x90 else 0x80 in
         let hi := if b0 =? 0xF4 then 0x8F else 0xBF in
         if (lo <=? b1) && (b1 <=? hi) then
           match s1 with
           | String c2 s2 =>
               if is_cont (N_of_byte c2) then
                 match s2 with
                 | String c3 s3 =>
                     if is_cont (N_of_byte c3)
                     then ((b0 - 0xF0) * 262144 + (b1 - 0x80) * 4096 + (N_of_byte c2 - 0x80) * 64 + (N_of_byte c3 - 0x80), s3)
                     else (replacement, s2)
                 | _ => (replacement, s2)
                 end
               else (replacement, s1)
           | _ => (replacement, s1)
           end
         else (replacement, s)
     | _ => (replacement, s)
     end
   else (replacement, s))%N.
Fixpoint chunkFuel (n : nat) (s : string) : string :=
  match n, s with
  | S k, String c r => let (x, r') := chunkRune c r in (encode_rune x ++ chunkFuel k r')%string
  | _, _ => EmptyString
  end.
Definition chunkText (s : string) : string := chunkFuel (String.length s) s.

(** helpers.ts 98-124: the promise of the body.  None: not settled; inr: rejected, and whether the client had left *)
Fixpoint readBody (data : string) (es : list bodyEvent) : option (string + bool) :=
  match es with
  | [] => None
  | Chunk b :: r => readBody (data ++ chunkText b) r
  | End :: _ => Some (inl data)
  | Failed :: _ => Some (inr false)
  | Aborted :: _ => Some (inr true)
  end.

(** what the function that serves RPC requests (helpers.ts 54, ServeWebrpcFn) does: a result, null, an exception, or
    nothing ever.  It is given the request id, the data of the context, the path and the body. *)
Inductive rpcOutcome := Answers (status : Z) (hs : list (string * string)) (body : jsv) | NoResult | Fails | Never.
Definition rpcFn := string -> list (string * string) -> string -> json -> rpcOutcome.

(** JSON.stringify throws a TypeError for bigints *)
Fixpoint hasBig (v : jsv) : bool :=
  match v with
  | SBig _ => true
  | SArr l => existsb hasBig l
  | SObj l => existsb (fun kv => hasBig (snd kv)) l
  | _ => false
  end.
(** 138: JSON.stringify(result.body ?? {}), as a tree; None: it throws *)
Definition payloadOf (v : jsv) : option json :=
  match v with
  | SNull | SUndef => Some (JObj [])
  | _ => if hasBig v then None else jsonEncode v
  end.

Definition webrpcHeaders : list (string * string) :=
  [("Webrpc", "webrpc;gen-typescript;node-ts@v1.0.0"); ("Content-Type", "application/json")].
Definition contentLength (payload : string) : string * string := ("Content-Length", zdec (Z.of_nat (String.length payload))).

(** 126-145, after the body has been read *)
Definition serveBody (rpc : rpcFn) (e : env) (q : request) (rawBody : string) (st : state) : state * flow :=
  match (if isEmptyStr rawBody then Some (JObj []) else parseJ rawBody) with
  | None =>
      andThen (try (writeHead 400 webrpcHeaders) st)
        (finish q (e_json e (JObj [("msg", JStr "invalid JSON body"); ("status", JNum "400"); ("code", JStr "")])))
  | Some parsed =>
      let st := called (q_url q, parsed) st in
      match rpc (e_reqId e) (s_data st) (q_url q) parsed with
      | Never => (st, Hangs)
      | Fails => (withAbort (q_gone q) st, Threw)
      | NoResult => (withAbort (q_gone q) st, Done)
      | Answers status hs body =>
          let st := withAbort (q_gone q) st in
          match payloadOf body with
          | None => (st, Threw)
          | Some j => let payload := e_json e j in andThen (try (writeHead status (hs ++ [contentLength payload])) st) (finish q payload)
          end
      end
  end.

(** 88-147 createWebrpcServerHandler *)
Definition rpcHandler (rpc : rpcFn) : handler := fun e q st =>
  if negb (has_prefix "/rpc/" (q_url q)) then (st, Done)
  else if String.eqb (to_upper (q_verb q)) "POST" then
    if q_aborted q || s_abort st then (st, Threw)
    else match readBody EmptyString (q_events q) with
         | None => (st, Hangs)
         | Some (inr gone) => (withAbort gone st, Threw)
         | Some (inl rawBody) => serveBody rpc e q rawBody st
         end
  else serveBody rpc e q EmptyString st.

(** 151-156 composeHttpHandler *)
Definition composeHttpHandler (middleware : list (handler -> handler)) (h : handler) : handler :=
  fold_right (fun mw acc => mw acc) h middleware.

(** 159-166 sendJson *)
Definition sendJson (e : env) (q : request) (status : Z) (body : json) (st : state) : state * flow :=
  let payload := e_json e body in
  andThen (try (writeHead status [("Content-Type", "application/json"); contentLength payload]) st) (finish q payload).

(** 61-86 createHttpEntrypoint: the function given to http.createServer.  A promise that it rejects ends the process. *)
Definition entrypoint (h : handler) : handler := fun e q st =>
  match h e q st with
  | (st, Threw) =>
      let st := logged (LogErr (e_reqId e)) st in
      andThen (if headersSent (s_res st) then (st, Done) else try (writeHead 500 [("Content-Type", "application/json")]) st)
        (fun st =>
          if r_ended (s_res st) then (st, Done)
          else finish q (e_json e (JObj [("msg", JStr (if s_abort st then "client closed request" else "internal error")); ("reqId", JStr (e_reqId e))])) st)
  | r => r
  end.

(** ** middleware.ts *)

(** 5-17 *)
Definition withLogging (next : handler) : handler := fun e q st =>
  let '(st, f) := next e q (logged (LogReq (e_reqId e) (q_verb q) (q_url q)) st) in
  match f with
  | Hangs => (st, Hangs)
  | _ => (logged (LogRes (e_reqId e) (q_verb q) (q_url q) (r_status (s_res st))) st, f)
  end.

(** ctx.data.set *)
Fixpoint mapSet (k v : string) (l : list (string * string)) : list (string * string) :=
  match l with
  | [] => [(k, v)]
  | (k', v') :: t => if String.eqb k k' then (k, v) :: t else (k', v') :: mapSet k v t
  end.

(** 20-26 *)
Definition withTrace (next : handler) : handler := fun e q st =>
  andThen (try (setHeader "X-Trace-Id" (e_reqId e)) (withData (mapSet "traceId" (e_uuid e) (s_data st)) st)) (next e q).

(** 35-58 *)
Definition corsHeaders (q : request) : list (string * string) :=
  [("Access-Control-Allow-Origin", "*"); ("Access-Control-Allow-Methods", "GET,POST,PUT,PATCH,DELETE,OPTIONS");
   ("Access-Control-Allow-Headers",
    match lookup "access-control-request-headers" (q_headers q) with
    | Some v => if isEmptyStr v then "Content-Type, Authorization" else v
    | None => "Content-Type, Authorization"
    end);
   ("Access-Control-Max-Age", "86400")].
Fixpoint setAll (hs : list (string * string)) (st : state) : state * flow :=
  match hs with
  | [] => (st, Done)
  | (k, v) :: t => andThen (try (setHeader k v) st) (setAll t)
  end.
Definition withCors (next : handler) : handler := fun e q st =>
  andThen (if headersSent (s_res st) then (st, Done) else setAll (corsHeaders q) st) (fun st =>
  if String.eqb (q_verb q) "OPTIONS" then
    andThen (if headersSent (s_res st) then (st, Done) else try (writeHead 204 []) st) (finish q EmptyString)
  else next e q st).

(** ** index.ts 74-107 *)
Definition newline : string := String (byte_of_N 10) EmptyString.
Definition routes (rpc : rpcFn) : handler := fun e q st =>
  if has_prefix "/rpc/" (q_url q) then rpcHandler rpc e q st
  else if String.eqb (q_url q) "/" then
    andThen (try (writeHead 200 [("Content-Type", "text/plain")]) st) (finish q ("Hello world (req " ++ e_reqId e ++ ")" ++ newline))
  else if String.eqb (q_url q) "/json" then
    sendJson e q 200 (JObj [("ok", JBool true); ("time", JStr (e_time e)); ("reqId", JStr (e_reqId e))]) st
  else andThen (try (writeHead 404 [("Content-Type", "text/plain")]) st) (finish q ("Not Found" ++ newline)).

(** 109-113, helpers.ts 29-51: one request *)
Definition freshState : state := State freshResponse [] false [] [].
Definition server (rpc : rpcFn) (e : env) (q : request) : state * flow :=
  entrypoint (composeHttpHandler [withLogging; withTrace; withCors] (routes rpc)) e q freshState.
