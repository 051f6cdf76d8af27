(** Model of the generated Go server and client (request/response methods):
    tests/server/server.gen.go and tests/client/client.gen.go.
    The generated functions serveXJSON differ only in the path, the field names
    and the Go types, so they are modelled once, for an arbitrary service
    description; the descriptions of the committed services are in RpcExamples.v. *)
From Verif Require Import Base Utf8 Json GoVal.

(** ** Errors *)

(** A Go error value: an error of some other package (identified by the address
    of its value), one that wraps another (fmt.Errorf with %w), or a
    WebRPCError (server.gen.go 855-862; the unexported cause is [re_cause]). *)
Inductive goError : Type :=
| EPlain (id : nat) (msg : string)
| EWrap (id : nat) (msg : string) (inner : goError)
| ERpc (e : rpcError)
with rpcError : Type :=
| RpcError (re_name : string) (re_code : Z) (re_message : string)
           (re_causeText : string) (re_status : Z) (re_cause : option goError).

Definition re_name (e : rpcError) := let 'RpcError n _ _ _ _ _ := e in n.
Definition re_code (e : rpcError) := let 'RpcError _ c _ _ _ _ := e in c.
Definition re_message (e : rpcError) := let 'RpcError _ _ m _ _ _ := e in m.
Definition re_causeText (e : rpcError) := let 'RpcError _ _ _ t _ _ := e in t.
Definition re_status (e : rpcError) := let 'RpcError _ _ _ _ s _ := e in s.
Definition re_cause (e : rpcError) := let 'RpcError _ _ _ _ _ c := e in c.

(** server.gen.go 866-871 WebRPCError.Error, and Error of the other errors *)
Fixpoint errText (e : goError) : string :=
  match e with
  | EPlain _ m => m
  | EWrap _ m _ => m
  | ERpc (RpcError n c m _ _ None) => (n ++ " " ++ zdec c ++ ": " ++ m)%string
  | ERpc (RpcError n c m _ _ (Some u)) => (n ++ " " ++ zdec c ++ ": " ++ m ++ ": " ++ errText u)%string
  end.

(** two error interfaces hold the same pointer; WebRPCError values are compared
    by their Is method below, which is implied by equality *)
Definition sameValue (a b : goError) : bool :=
  match a, b with
  | EPlain i _, EPlain j _ => Nat.eqb i j
  | EWrap i _ _, EWrap j _ _ => Nat.eqb i j
  | _, _ => false
  end.

(** the standard library's errors.Is(err, target), with the Is and Unwrap methods of
    WebRPCError (server.gen.go 873-885) *)
Fixpoint errorsIs (err target : goError) : bool :=
  sameValue err target ||
  match err with
  | EPlain _ _ => false
  | EWrap _ _ inner => errorsIs inner target
  | ERpc (RpcError _ code _ _ _ cause) =>
      (** Is *)
      (match target with
       | ERpc t => Z.eqb (re_code t) code
       | _ => match cause with Some c => errorsIs c target | None => false end
       end)
      (** Unwrap *)
      || match cause with Some c => errorsIs c target | None => false end
  end.

(** server.gen.go 873-881 WebRPCError.Is *)
Definition rpcIs (e : rpcError) (target : option goError) : bool :=
  match target with
  | None => false
  | Some (ERpc t) => Z.eqb (re_code t) (re_code e)
  | Some t => match re_cause e with Some c => errorsIs c t | None => false end
  end.

(** server.gen.go 887-900 WithCause, WithCausef (a nil cause panics: not modelled) *)
Definition withCause (e : rpcError) (c : goError) : rpcError :=
  RpcError (re_name e) (re_code e) (re_message e) (errText c) (re_status e) (Some c).

(** fmt.Errorf without %w: a new error *)
Definition withCausef (e : rpcError) (msg : string) : rpcError := withCause e (EPlain 0 msg).

(** server.gen.go 903-916 *)
Definition webrpcError name code msg status := RpcError name code msg EmptyString status None.
Definition ErrWebrpcEndpoint       := webrpcError "WebrpcEndpoint" 0 "endpoint error" 400.
Definition ErrWebrpcRequestFailed  := webrpcError "WebrpcRequestFailed" (-1) "request failed" 400.
Definition ErrWebrpcBadRoute       := webrpcError "WebrpcBadRoute" (-2) "bad route" 404.
Definition ErrWebrpcBadMethod      := webrpcError "WebrpcBadMethod" (-3) "bad method" 405.
Definition ErrWebrpcBadRequest     := webrpcError "WebrpcBadRequest" (-4) "bad request" 400.
Definition ErrWebrpcBadResponse    := webrpcError "WebrpcBadResponse" (-5) "bad response" 500.
Definition ErrWebrpcServerPanic    := webrpcError "WebrpcServerPanic" (-6) "server panic" 500.
Definition ErrWebrpcInternalError  := webrpcError "WebrpcInternalError" (-7) "internal error" 500.
Definition ErrWebrpcClientAborted  := webrpcError "WebrpcClientAborted" (-8) "request aborted by client" 400.
Definition ErrWebrpcStreamLost     := webrpcError "WebrpcStreamLost" (-9) "stream lost" 400.
Definition ErrWebrpcStreamFinished := webrpcError "WebrpcStreamFinished" (-10) "stream finished" 200.

(** Go's int on a 64-bit machine *)
Definition intTy : goTy := TInt (- 2 ^ 63) (2 ^ 63 - 1).

(** the JSON fields of WebRPCError, server.gen.go 856-861 *)
Definition errorFields : list goField :=
  [ GF "error" false TString; GF "code" false intTy; GF "msg" false TString;
    GF "cause" true TString; GF "status" false intTy ].

Definition errorVals (e : rpcError) : list gval :=
  [ VStr (re_name e); VInt (re_code e); VStr (re_message e); VStr (re_causeText e); VInt (re_status e) ].

(** json.Marshal(rpcErr); it cannot fail *)
Definition marshalError (e : rpcError) : string :=
  match marshalStruct [] errorFields (errorVals e) with Some s => s | None => EmptyString end.

(** ** Services *)

Record rpcMethod := RpcMethod { rm_name : string; rm_in : list goField; rm_out : list goField }.

(** [sv_prefix] is the constant ServicePathPrefix, client.gen.go 207 *)
Record service := Service { sv_prefix : string; sv_env : goEnv; sv_methods : list rpcMethod }.

Definition routeOf (s : service) (m : rpcMethod) : string := (sv_prefix s ++ rm_name m)%string.

(** What the user's implementation of a method does with its arguments. *)
Inductive outcome : Type :=
| Returns (results : list gval)
| Fails (e : goError)
| Panics (msg : string).

Definition implementation := string -> list gval -> outcome.

(** Options (server.gen.go 210-213).  OnError may change the error it is given.
    Simplifications: the hooks do not write to the response themselves, and OnError does not panic. *)
Record options := Options {
  o_onRequest : option (string -> option goError + string);   (** inl: the returned error; inr: panic *)
  o_onError : option (rpcError -> rpcError) }.

(** ** Server *)

(** a request as the handler sees it; [None] as body: reading it fails *)
Record request := Request { q_method : string; q_path : string; q_contentType : string; q_body : option string }.

(** what the handler does, in order: calls on the http.ResponseWriter and the
    call of the implementation *)
Inductive event : Type :=
| SetHeader (k v : string)
| WriteHeader (code : Z)
| Write (s : string)
| CallImpl (method : string) (args : list gval).

(** a handler's effects, and whether it returned or panicked *)
Inductive ending : Type := Returned | Panicked (msg : string).
Definition run : Type := list event * ending.

Definition andThen (a : run) (b : run) : run :=
  match a with
  | (es, Returned) => (es ++ fst b, snd b)
  | (es, Panicked m) => (es, Panicked m)
  end.

(** net/http: ResponseWriter.WriteHeader panics for codes outside 100..999 *)
Definition writeHeader (code : Z) : run :=
  if (100 <=? code)%Z && (code <=? 999)%Z then ([WriteHeader code], Returned)
  else ([], Panicked ("invalid WriteHeader code " ++ zdec code)).

(** server.gen.go 633-643 *)
Definition sendErrorJSON (o : options) (e : rpcError) : run :=
  let e := match o_onError o with Some f => f e | None => e end in
  andThen ([SetHeader "Content-Type" "application/json"], Returned)
  (andThen (writeHeader (re_status e)) ([Write (marshalError e)], Returned)).

(** err.(WebRPCError), or the endpoint error with this cause (server.gen.go 321-324) *)
Definition toRpcError (e : goError) : rpcError :=
  match e with
  | ERpc r => r
  | _ => withCause ErrWebrpcEndpoint e
  end.

Definition sendOK (body : string) : run :=
  andThen ([SetHeader "Content-Type" "application/json"], Returned)
  (andThen (writeHeader 200) ([Write body], Returned)).

(** after the arguments are known: the call and its answer, e.g. server.gen.go
    355-379 (with results) and 396-409 (without) *)
Definition callAndAnswer (s : service) (o : options) (impl : implementation)
    (m : rpcMethod) (args : list gval) : run :=
  andThen ([CallImpl (rm_name m) args], Returned)
  match impl (rm_name m) args with
  | Panics msg => ([], Panicked msg)
  | Fails e => sendErrorJSON o (toRpcError e)
  | Returns vs =>
      match rm_out m with
      | [] => sendOK "{}"
      | fs => match marshalStruct (sv_env s) fs vs with
              | Some body => sendOK body
              | None => sendErrorJSON o (withCausef ErrWebrpcBadResponse "failed to marshal json response")
              end
      end
  end.

(** serveXJSON: 315-332 and 352-380 without arguments, 382-409 with arguments *)
Definition serveJSON (s : service) (o : options) (impl : implementation) (m : rpcMethod) (r : request) : run :=
  match rm_in m with
  | [] => callAndAnswer s o impl m []
  | fs =>
      match q_body r with
      | None => sendErrorJSON o (withCausef ErrWebrpcBadRequest "failed to read request data")
      | Some b =>
          match unmarshalStruct (sv_env s) fs b with
          | None => sendErrorJSON o (withCausef ErrWebrpcBadRequest "failed to unmarshal request data")
          | Some args => callAndAnswer s o impl m args
          end
      end
  end.

(** strings.TrimSpace restricted to ASCII white space *)
Definition isSpaceByte (c : ascii) : bool :=
  let n := N_of_byte c in in_range 9 13 n || (n =? 32)%N.
Fixpoint trimLeft (s : string) : string :=
  match s with
  | String c r => if isSpaceByte c then trimLeft r else s
  | EmptyString => EmptyString
  end.
Fixpoint revStr (s acc : string) : string :=
  match s with EmptyString => acc | String c r => revStr r (String c acc) end.
Definition trimSpace (s : string) : string :=
  revStr (trimLeft (revStr (trimLeft s) EmptyString)) EmptyString.

(** what precedes the first ";" (server.gen.go 290-292) *)
Fixpoint beforeSemicolon (s : string) : string :=
  match s with
  | EmptyString => EmptyString
  | String c r => if (N_of_byte c =? 59)%N then EmptyString else String c (beforeSemicolon r)
  end.

(** server.gen.go 289-293 *)
Definition mediaType (s : string) : string := trimSpace (to_lower (beforeSemicolon s)).

(** the switch on r.URL.Path, server.gen.go 253-281 *)
Definition dispatch (s : service) (path : string) : option rpcMethod :=
  find (fun m => String.eqb path (routeOf s m)) (sv_methods s).

(** server.gen.go 234-313 without the deferred function *)
Definition serveBody (headerValue : string) (s : service) (o : options) (impl : implementation) (r : request) : run :=
  andThen ([SetHeader "Webrpc" headerValue], Returned)
  match dispatch s (q_path r) with
  | None => sendErrorJSON o (withCausef ErrWebrpcBadRoute ("no webrpc method defined for path " ++ q_path r))
  | Some m =>
      if negb (String.eqb (q_method r) "POST") then
        andThen ([SetHeader "Allow" "POST"], Returned)
          (sendErrorJSON o (withCausef ErrWebrpcBadMethod
             ("unsupported HTTP method " ++ q_method r ++ " (only POST is allowed)")))
      else if String.eqb (mediaType (q_contentType r)) "application/json" then
        match o_onRequest o with
        | Some f =>
            match f (rm_name m) with
            | inr msg => ([], Panicked msg)
            | inl (Some e) => sendErrorJSON o (toRpcError e)
            | inl None => serveJSON s o impl m r
            end
        | None => serveJSON s o impl m r
        end
      else sendErrorJSON o (withCausef ErrWebrpcBadRequest "unsupported Content-Type")
  end.

(** server.gen.go 234-313: a panic is answered and raised again (235-241) *)
Definition serveHTTP (headerValue : string) (s : service) (o : options) (impl : implementation) (r : request) : run :=
  match serveBody headerValue s o impl r with
  | (es, Returned) => (es, Returned)
  | (es, Panicked msg) =>
      match sendErrorJSON o (withCausef ErrWebrpcServerPanic msg) with
      | (es', Returned) => (es ++ es', Panicked msg)
      | (es', Panicked msg') => (es ++ es', Panicked msg')
      end
  end.

(** ** What the client receives *)

(** net/http: the first WriteHeader with a code other than 1xx counts (101 ends the header), a Write
    before it means 200; 204 and 304 carry no body. *)
Definition informational (code : Z) : bool := (100 <=? code)%Z && (code <=? 199)%Z && negb (code =? 101)%Z.
Definition bodyAllowed (code : Z) : bool :=
  negb ((100 <=? code)%Z && (code <=? 199)%Z || (code =? 204)%Z || (code =? 304)%Z).

Fixpoint statusOf (es : list event) : option Z :=
  match es with
  | [] => None
  | WriteHeader c :: r => if informational c then statusOf r else Some c
  | Write _ :: _ => Some 200%Z
  | _ :: r => statusOf r
  end.

Fixpoint bodyOf (es : list event) : string :=
  match es with
  | [] => EmptyString
  | Write s :: r => (s ++ bodyOf r)%string
  | _ :: r => bodyOf r
  end.

Record response := Response { p_status : Z; p_body : string }.

(** the response on the wire when the handler is done (200 if it wrote nothing) *)
Definition responseOf (es : list event) : response :=
  let c := match statusOf es with Some c => c | None => 200%Z end in
  Response c (if bodyAllowed c then bodyOf es else EmptyString).

(** ** Client *)

(** what client.Do and reading the body do with a request: an error, a status
    and a body, a status and an error while reading the body *)
Inductive transport : Type :=
| NoResponse (e : goError)
| Received (r : response)
| Broken (status : Z) (e : goError).

(** result of a client method: the results and an error *)
Record callResult := CallResult { cr_results : list gval; cr_error : option rpcError }.

(** errors.New(rpcErr.Cause), client.gen.go 424-426 *)
Definition restoreCause (e : rpcError) : rpcError :=
  if isEmptyStr (re_causeText e) then e
  else RpcError (re_name e) (re_code e) (re_message e) (re_causeText e) (re_status e)
         (Some (EPlain 0 (re_causeText e))).

(** json.Unmarshal(respBody, &rpcErr), client.gen.go 420-423 *)
Definition unmarshalError (s : string) : option rpcError :=
  match unmarshalStruct [] errorFields s with
  | Some [VStr n; VInt c; VStr m; VStr t; VInt st] => Some (RpcError n c m t st None)
  | _ => None
  end.

(** the body of the request: client.gen.go 395; the arguments struct, or nil *)
Definition requestBody (s : service) (m : rpcMethod) (args : list gval) : option string :=
  match rm_in m with
  | [] => Some "null"
  | fs => marshalStruct (sv_env s) fs args
  end.

(** client.gen.go 375-392 newRequest.  Simplification: the URL is represented
    by its path, and the headers by the content type. *)
Definition newRequest (s : service) (m : rpcMethod) (body : string) : request :=
  Request "POST" (routeOf s m) "application/json" (Some body).

(** client.gen.go 394-442 doHTTPRequestRaw and 471-480; [ctxErr] is ctx.Err().
    Simplifications: closing the body does not fail; the results that accompany
    an error are given as zero values (a body that fails to decode half-way may leave others). *)
Definition clientCall (s : service) (ctxErr : option goError) (net : request -> transport)
    (m : rpcMethod) (args : list gval) : callResult :=
  let zeros := map (fun f => zeroVal (gf_ty f)) (rm_out m) in
  match requestBody s m args with
  | None => CallResult zeros (Some (withCausef ErrWebrpcRequestFailed "failed to marshal JSON body"))
  | Some body =>
      match ctxErr with
      | Some e => CallResult zeros (Some (withCause ErrWebrpcRequestFailed (EWrap 0 ("aborted because context was done: " ++ errText e) e)))
      | None =>
          match net (newRequest s m body) with
          | NoResponse e => CallResult zeros (Some (withCause ErrWebrpcRequestFailed e))
          | Broken st e =>
              if (st =? 200)%Z && match rm_out m with [] => true | _ => false end
              then CallResult [] None
              else CallResult zeros (Some (withCause ErrWebrpcBadResponse (EWrap 0 ("failed to read response body: " ++ errText e) e)))
          | Received p =>
              if negb (p_status p =? 200)%Z then
                match unmarshalError (p_body p) with
                | None => CallResult zeros (Some (withCausef ErrWebrpcBadResponse "failed to unmarshal server error"))
                | Some e => CallResult zeros (Some (restoreCause e))
                end
              else
                match rm_out m with
                | [] => CallResult [] None
                | fs => match unmarshalStruct (sv_env s) fs (p_body p) with
                        | Some vs => CallResult vs None
                        | None => CallResult zeros (Some (withCausef ErrWebrpcBadResponse "failed to unmarshal JSON response body"))
                        end
                end
          end
      end
  end.

(** client and server connected by a network that neither loses nor alters
    anything.  A handler that panics is answered only if some middleware
    recovers; [recovers] says whether one does (net/http itself drops the
    connection). *)
Definition connect (recovers : bool) (headerValue : string) (s : service) (o : options) (impl : implementation)
    (r : request) : transport :=
  match serveHTTP headerValue s o impl r with
  | (es, Returned) => Received (responseOf es)
  | (es, Panicked _) => if recovers then Received (responseOf es) else NoResponse (EPlain 0 "EOF")
  end.
