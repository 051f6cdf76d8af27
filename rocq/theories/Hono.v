(** Model of the Hono example server, _examples/node-ts/server-hono/index.ts 53-108, with what it uses of hono 4.12 (the
    version of its pnpm-lock.yaml; the package is not in /repo): the middleware chain (compose.js), the routes (a GET route answers
    HEAD requests too, without a body; "/rpc/*" also matches "/rpc"), Context (set res, json, text, notFound), HonoRequest.json,
    and the default error handler.  hono/cors is that of Cors.v.

    Simplifications: the path of a request has no % and no dot segments; exceptions are Errors; the request body has arrived whole;
    the answer of a status without a body (1xx, 204, 205, 304) or above 599, for which no Response can be made, is the error
    500; the built-in logger (67) is left out; header names and values are valid.

    The RPC function is, as in NodeHttp.v, a parameter: it is given the trace id, the path and the body. *)
From Verif Require Import Base Utf8 Json GoVal BigInt TsBig Ts NodeHttp.
From Verif Require Import Cors.

(** what the server takes from outside: randomUUID, the clock, and the text that JSON.stringify makes *)
Record honoEnv := HonoEnv { h_trace : string; h_time : string; h_json : json -> string }.
Definition honoFn := string -> string -> json -> rpcOutcome.

(** ctx.req.path: the path without the query *)
Definition honoPath (m : msg) : string := hd EmptyString (split_byte "?"%char (g_path m)).

(** 97: ctx.req.json().catch(() => ({})).  GET and HEAD requests have no body; the bytes of a body are decoded, without a byte
    order mark, and parsed *)
Definition honoBody (m : msg) : json :=
  if str_in (g_method m) ["GET"; "HEAD"] then JObj []
  else match jsParse (decodeText (g_body m)) with Some j => j | None => JObj [] end.

(** c.text *)
Definition honoText (status : Z) (s : string) : answer := Answer status [("Content-Type", "text/plain; charset=UTF-8")] s.
(** hono-base.js: the default error handler and notFound *)
Definition honoError : answer := honoText 500 "Internal Server Error".
Definition honoNotFound : answer := honoText 404 "404 Not Found".
(** the statuses with which a Response with a body can be made *)
Definition bodyStatus (s : Z) : bool := (200 <=? s)%Z && (s <=? 599)%Z && negb (existsb (Z.eqb s) [204; 205; 304]%Z).

(** the text of JSON.stringify(result.body); nothing for undefined; None: it throws *)
Definition honoPayload (e : honoEnv) (v : jsv) : option string :=
  match v with
  | SUndef => Some EmptyString
  | _ => if hasBig v then None else option_map (h_json e) (jsonEncode v)
  end.

(** 97-102, with the calls of the RPC function *)
Definition honoRpc (rpc : honoFn) (e : honoEnv) (m : msg) : option answer * list (string * json) :=
  let body := honoBody m in
  (match rpc (h_trace e) (honoPath m) body with
   | Never => None
   | Fails => Some honoError
   | NoResult => Some honoNotFound
   | Answers status hs v =>
       match honoPayload e v with
       | Some payload =>
           if bodyStatus status then Some (Answer status (replaceHeaders [("Content-Type", "application/json")] hs) payload)
           else Some honoError
       | None => Some honoError
       end
   end, [(honoPath m, body)]).

(** 88-103: the routes *)
Definition honoRoutes (rpc : honoFn) (e : honoEnv) (m : msg) : option answer * list (string * json) :=
  let path := honoPath m in
  let get := str_in (g_method m) ["GET"; "HEAD"] in
  if get && String.eqb path "/" then (Some (honoText 200 ("Hello world (req " ++ h_trace e ++ ")")), [])
  else if get && String.eqb path "/health" then
    (Some (Answer 200 [("Content-Type", "application/json")]
       (h_json e (JObj [("ok", JBool true); ("time", JStr (h_time e)); ("traceId", JStr (h_trace e))]))), [])
  else if String.eqb path "/rpc" || has_prefix "/rpc/" path then honoRpc rpc e m
  else (Some honoNotFound, []).

(** 70-74: the trace middleware sets its header on every answer; hono-base.js dispatch: HEAD requests are answered without the body *)
Definition honoServer (rpc : honoFn) (e : honoEnv) (m : msg) : option answer * list (string * json) :=
  let isOptions := String.eqb (g_method m) "OPTIONS" in
  (option_map (fun a => Answer (a_status a) (replaceHeaders [("X-Trace-Id", h_trace e)] (a_headers a))
                          (if String.eqb (g_method m) "HEAD" then EmptyString else a_body a))
     (fst (honoCors (fun m => fst (honoRoutes rpc e m)) m)),
   if isOptions then [] else snd (honoRoutes rpc e m)).
