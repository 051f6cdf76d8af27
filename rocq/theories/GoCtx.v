(** The contexts of a generated Go server: what its hooks and the implementation of a method see of a
    request, and what they may do to the headers of the response.  tests/server/server.gen.go. *)
From Verif Require Import Base Utf8 Json GoVal Rpc Methods.

(** ** Contexts (package context) *)

(** 818-823: the four keys of a generated package are pointers, so those of different packages [pkg]
    are different; [Foreign] stands for the keys of other code *)
Inductive keyName : Type := HTTPResponseWriter | MethodName | HTTPRequest | ServiceName.
Inductive ctxKey : Type := Key (pkg : nat) (k : keyName) | Foreign (id : nat).
Definition keyName_eqb (a b : keyName) : bool :=
  match a, b with
  | HTTPResponseWriter, HTTPResponseWriter | MethodName, MethodName | HTTPRequest, HTTPRequest | ServiceName, ServiceName => true
  | _, _ => false
  end.
Definition ctxKey_eqb (a b : ctxKey) : bool :=
  match a, b with
  | Key p k, Key q l => Nat.eqb p q && keyName_eqb k l
  | Foreign i, Foreign j => Nat.eqb i j
  | _, _ => false
  end.

(** A context is the background, one with a value, or one that can be cancelled (its cause is named by
    [id]); an http.Request carries a context, and a context can carry an http.Request.  A writer is named
    by a number.  Simplification: of a request its method, path, content type and body are kept. *)
Inductive goCtx : Type :=
| Background
| WithValue (parent : goCtx) (k : ctxKey) (v : ctxValue)
| WithCancel (parent : goCtx) (id : nat)
with ctxValue : Type :=
| VText (s : string)
| VRequest (r : httpRequest)
| VWriter (w : nat)
| VOther (n : nat)
with httpRequest : Type :=
| HttpRequest (plain : request) (c : goCtx).

(** http.Request.Context, WithContext *)
Definition reqCtx (r : httpRequest) : goCtx := let 'HttpRequest _ c := r in c.
Definition plainReq (r : httpRequest) : request := let 'HttpRequest p _ := r in p.
Definition withContext (r : httpRequest) (c : goCtx) : httpRequest := HttpRequest (plainReq r) c.

(** ctx.Value: the innermost value *)
Fixpoint ctxGet (c : goCtx) (k : ctxKey) : option ctxValue :=
  match c with
  | Background => None
  | WithValue p k' v => if ctxKey_eqb k k' then Some v else ctxGet p k
  | WithCancel p _ => ctxGet p k
  end.

(** ctx.Done is closed, at a moment when the [cancelled] causes have occurred *)
Fixpoint ctxDone (cancelled : nat -> bool) (c : goCtx) : bool :=
  match c with
  | Background => false
  | WithValue p _ _ => ctxDone cancelled p
  | WithCancel p i => cancelled i || ctxDone cancelled p
  end.

(** 826-839, 846-849: the accessors of a package; a value of another type counts as none *)
Definition serviceNameFromContext (pkg : nat) (c : goCtx) : string :=
  match ctxGet c (Key pkg ServiceName) with Some (VText s) => s | _ => EmptyString end.
Definition methodNameFromContext (pkg : nat) (c : goCtx) : string :=
  match ctxGet c (Key pkg MethodName) with Some (VText s) => s | _ => EmptyString end.
Definition requestFromContext (pkg : nat) (c : goCtx) : option httpRequest :=
  match ctxGet c (Key pkg HTTPRequest) with Some (VRequest r) => Some r | _ => None end.
Definition responseWriterFromContext (pkg : nat) (c : goCtx) : option nat :=
  match ctxGet c (Key pkg HTTPResponseWriter) with Some (VWriter w) => Some w | _ => None end.

(** 745-753 MethodCtx, with the table of Methods.v *)
Definition methodCtxOf (pkg : nat) (table : list (string * methodInfo)) (c : goCtx) : option methodInfo :=
  methodCtx table (option_map (fun r => q_path (plainReq r)) (requestFromContext pkg c)).

(** ** The server, with hooks and an implementation that read contexts *)

(** calls on the header of the response (http.Header Set, Add, Del) *)
Inductive hcall : Type := HSet (k v : string) | HAdd (k v : string) | HDel (k : string).

(** what happens, in order: the server's own calls on the writer, the calls of the hooks and of the
    implementation with what they are given, and their calls on the header *)
Inductive tevent : Type :=
| TSet (k v : string)
| TAdd (k v : string)
| TWriteHead (code : Z)
| TWrite (s : string)
| TOnRequest (w : nat) (r : httpRequest)
| TOnError (r : httpRequest) (e : rpcError)
| TCall (method : string) (c : goCtx) (args : list gval)
| TUser (h : hcall).
Definition trun : Type := list tevent * ending.
Definition tThen (a b : trun) : trun :=
  match a with
  | (es, Returned) => (es ++ fst b, snd b)
  | (es, Panicked m) => (es, Panicked m)
  end.

(** 210-213 Options, and the implementation.  They may change the header of the response (they are given
    the writer, or find it in the context) and may panic.
    Simplification: they do not write the status or the body themselves. *)
Record hooks := Hooks {
  h_onRequest : option (nat -> httpRequest -> list hcall * (option goError + string));
  h_onError : option (httpRequest -> rpcError -> list hcall * (rpcError + string)) }.
Definition ctxImpl : Type := string -> goCtx -> list gval -> list hcall * outcome.

(** net/http WriteHeader, as in Rpc.v *)
Definition tWriteHead (code : Z) : trun :=
  if (100 <=? code)%Z && (code <=? 999)%Z then ([TWriteHead code], Returned)
  else ([], Panicked ("invalid WriteHeader code " ++ zdec code)).

Definition tJson (status : Z) (body : string) : trun :=
  tThen ([TSet "Content-Type" "application/json"], Returned)
  (tThen (tWriteHead status) ([TWrite body], Returned)).

(** 633-643 sendErrorJSON *)
Definition tSendError (o : hooks) (r : httpRequest) (e : rpcError) : trun :=
  match h_onError o with
  | None => tJson (re_status e) (marshalError e)
  | Some f =>
      let '(hs, res) := f r e in
      tThen (TOnError r e :: map TUser hs, Returned)
      match res with
      | inr msg => ([], Panicked msg)
      | inl e' => tJson (re_status e') (marshalError e')
      end
  end.

(** e.g. 315-332, 352-380, 382-409: serveXJSON *)
Definition tCallAndAnswer (s : service) (o : hooks) (impl : ctxImpl) (m : rpcMethod) (c : goCtx) (r : httpRequest)
    (args : list gval) : trun :=
  let '(hs, res) := impl (rm_name m) c args in
  tThen (TCall (rm_name m) c args :: map TUser hs, Returned)
  match res with
  | Panics msg => ([], Panicked msg)
  | Fails e => tSendError o r (toRpcError e)
  | Returns vs =>
      match rm_out m with
      | [] => tJson 200 "{}"
      | fs => match marshalStruct (sv_env s) fs vs with
              | Some body => tJson 200 body
              | None => tSendError o r (withCausef ErrWebrpcBadResponse "failed to marshal json response")
              end
      end
  end.
Definition tServeJSON (pkg : nat) (s : service) (o : hooks) (impl : ctxImpl) (m : rpcMethod) (c0 : goCtx) (r : httpRequest) : trun :=
  let c := WithValue c0 (Key pkg MethodName) (VText (rm_name m)) in
  match rm_in m with
  | [] => tCallAndAnswer s o impl m c r []
  | fs =>
      match q_body (plainReq r) with
      | None => tSendError o r (withCausef ErrWebrpcBadRequest "failed to read request data")
      | Some b =>
          match unmarshalStruct (sv_env s) fs b with
          | None => tSendError o r (withCausef ErrWebrpcBadRequest "failed to unmarshal request data")
          | Some args => tCallAndAnswer s o impl m c r args
          end
      end
  end.

(** 245-248: the context of the service [name] *)
Definition serviceCtx (pkg : nat) (name : string) (w : nat) (r : httpRequest) : goCtx :=
  WithValue (WithValue (WithValue (reqCtx r)
    (Key pkg HTTPResponseWriter) (VWriter w))
    (Key pkg HTTPRequest) (VRequest r))
    (Key pkg ServiceName) (VText name).

(** 243-312, after [r = r.WithContext(ctx)] (250) *)
Definition tServeBody (pkg : nat) (name hv : string) (s : service) (o : hooks) (impl : ctxImpl) (w : nat) (r0 : httpRequest) : trun :=
  let c := serviceCtx pkg name w r0 in
  let r := withContext r0 c in
  let q := plainReq r in
  tThen ([TSet "Webrpc" hv], Returned)
  match dispatch s (q_path q) with
  | None => tSendError o r (withCausef ErrWebrpcBadRoute ("no webrpc method defined for path " ++ q_path q))
  | Some m =>
      if negb (String.eqb (q_method q) "POST") then
        tThen ([TAdd "Allow" "POST"], Returned)
          (tSendError o r (withCausef ErrWebrpcBadMethod
             ("unsupported HTTP method " ++ q_method q ++ " (only POST is allowed)")))
      else if String.eqb (mediaType (q_contentType q)) "application/json" then
        match h_onRequest o with
        | Some f =>
            let '(hs, res) := f w r in
            tThen (TOnRequest w r :: map TUser hs, Returned)
            match res with
            | inr msg => ([], Panicked msg)
            | inl (Some e) => tSendError o r (toRpcError e)
            | inl None => tServeJSON pkg s o impl m c r
            end
        | None => tServeJSON pkg s o impl m c r
        end
      else tSendError o r (withCausef ErrWebrpcBadRequest "unsupported Content-Type")
  end.

(** 234-313: the deferred function (235-241) reads the variable r, which has been assigned by then *)
Definition tServeHTTP (pkg : nat) (name hv : string) (s : service) (o : hooks) (impl : ctxImpl) (w : nat) (r0 : httpRequest) : trun :=
  match tServeBody pkg name hv s o impl w r0 with
  | (es, Returned) => (es, Returned)
  | (es, Panicked msg) =>
      match tSendError o (withContext r0 (serviceCtx pkg name w r0)) (withCausef ErrWebrpcServerPanic msg) with
      | (es', Returned) => (es ++ es', Panicked msg)
      | (es', Panicked msg') => (es ++ es', Panicked msg')
      end
  end.

(** ** Handlers and middleware *)

Definition handler : Type := nat -> httpRequest -> trun.

(** a middleware that gives the context a value, as user code does with context.WithValue *)
Definition valueMiddleware (k : ctxKey) (v : ctxValue) (next : handler) : handler :=
  fun w r => next w (withContext r (WithValue (reqCtx r) k v)).

(** 662-673 RespondWithError *)
Definition respondWithError (e : goError) : trun :=
  let r := toRpcError e in tJson (re_status r) (marshalError r).

(** a middleware that answers the requests [check] finds an error in, e.g. for authentication *)
Definition guardMiddleware (check : httpRequest -> option goError) (next : handler) : handler :=
  fun w r => match check r with Some e => respondWithError e | None => next w r end.

(** ** What is sent *)

(** the header when the status line is written (net/http takes a snapshot), from the header [h] the
    handler starts with *)
Definition headerDel (h : headers) (k : string) : headers := filter (fun kv => negb (String.eqb (fst kv) (canonical k))) h.
Definition applyCall (h : headers) (c : hcall) : headers :=
  match c with HSet k v => headerSet h k v | HAdd k v => headerAdd h k v | HDel k => headerDel h k end.
Fixpoint sentHeaders (h : headers) (es : list tevent) : headers :=
  match es with
  | [] => h
  | TWriteHead c :: r => if informational c then sentHeaders h r else h
  | TWrite _ :: _ => h
  | TSet k v :: r => sentHeaders (headerSet h k v) r
  | TAdd k v :: r => sentHeaders (headerAdd h k v) r
  | TUser c :: r => sentHeaders (applyCall h c) r
  | _ :: r => sentHeaders h r
  end.

(** the calls on the writer other than those of user code, as events of Rpc.v *)
Definition eventOf (e : tevent) : list event :=
  match e with
  | TSet k v | TAdd k v => [SetHeader k v]
  | TWriteHead c => [WriteHeader c]
  | TWrite b => [Write b]
  | TCall n _ args => [CallImpl n args]
  | _ => []
  end.
Definition eventsOf (es : list tevent) : list event := flat_map eventOf es.

(** the client's view of a handler (as [connect] of Rpc.v): the request arrives with the context of the
    connection *)
Definition connectTo (recovers : bool) (h : handler) (w : nat) (c : goCtx) (q : request) : transport :=
  match h w (HttpRequest q c) with
  | (es, Returned) => Received (responseOf (eventsOf es))
  | (es, Panicked _) => if recovers then Received (responseOf (eventsOf es)) else NoResponse (EPlain 0 "EOF")
  end.
