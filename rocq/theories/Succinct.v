(** Model of succinct methods, Method(Request) => (Response), in generated Go code: the request and the
    response body are the JSON of the structs themselves.

    Models /repo/_examples/golang-basics/example.gen.go: the generic succinctHandler (758-795), its use in the
    dispatch (466-484) and the client methods of succinct methods (352-362).  The server around it
    (446-519) and the client call (953-1000) are those of Rpc.v.

    Simplifications: those of Rpc.v and GoVal.v; the method name put into the context is in GoCtx.v. *)
From Verif Require Import Base Utf8 Json GoVal Rpc.

(** a succinct method: the names of its two structs; ridl.go 429-458, 371-375 *)
Record succinctMethod := SuccinctMethod { su_name : string; su_in : string; su_out : string }.

Inductive anyMethod : Type := Plain (m : rpcMethod) | Short (m : succinctMethod).
Definition am_name (m : anyMethod) : string := match m with Plain m => rm_name m | Short m => su_name m end.

(** a service with both kinds of methods, example.gen.go 36-50 *)
Record mixedService := MixedService { mx_prefix : string; mx_env : goEnv; mx_methods : list anyMethod }.

(** the fields of a generated struct; the Go compiler accepts names of such only *)
Definition fieldsOf (env : goEnv) (n : string) : list goField :=
  match lookup n env with Some fs => fs | None => [] end.

(** ** Server *)

(** json.Marshal(respPayload) of a pointer to a struct, example.gen.go 785 *)
Definition marshalValue (env : goEnv) (ty : goTy) (v : gval) : option string :=
  option_map printJ (toJ env ty v).

(** json.Unmarshal(respBody, &out) into a variable of the type, example.gen.go 985-994 *)
Definition unmarshalValue (env : goEnv) (ty : goTy) (s : string) : option gval :=
  match parseJ s with Some j => fromJ env ty j | None => None end.

(** example.gen.go 774-794: the call and its answer.  The implementation gets the struct by value and
    returns a pointer to a struct: one value each. *)
Definition succinctCall (s : mixedService) (o : options) (impl : implementation) (m : succinctMethod) (args : list gval) : run :=
  andThen ([CallImpl (su_name m) [VStruct args]], Returned)
  match impl (su_name m) [VStruct args] with
  | Panics msg => ([], Panicked msg)
  | Fails e => sendErrorJSON o (toRpcError e)
  | Returns vs =>
      match vs with
      | [v] => match marshalValue (mx_env s) (TRef (su_out m)) v with
               | Some body => sendOK body
               | None => sendErrorJSON o (withCausef ErrWebrpcBadResponse "failed to marshal json response")
               end
      | _ => sendErrorJSON o (withCausef ErrWebrpcBadResponse "failed to marshal json response")
      end
  end.

(** example.gen.go 758-773 succinctHandler *)
Definition succinctHandler (s : mixedService) (o : options) (impl : implementation) (m : succinctMethod) (r : request) : run :=
  match q_body r with
  | None => sendErrorJSON o (withCausef ErrWebrpcBadRequest "failed to read request data")
  | Some b =>
      match unmarshalStruct (mx_env s) (fieldsOf (mx_env s) (su_in m)) b with
      | None => sendErrorJSON o (withCausef ErrWebrpcBadRequest "failed to unmarshal request data")
      | Some args => succinctCall s o impl m args
      end
  end.

(** the ordinary methods of a service *)
Fixpoint plainOnes (ms : list anyMethod) : list rpcMethod :=
  match ms with [] => [] | Plain m :: r => m :: plainOnes r | Short _ :: r => plainOnes r end.
Definition plainService (s : mixedService) : service := Service (mx_prefix s) (mx_env s) (plainOnes (mx_methods s)).

(** example.gen.go 466-489: the handler of a method *)
Definition handlerOf (s : mixedService) (o : options) (impl : implementation) (m : anyMethod) (r : request) : run :=
  match m with
  | Plain m => serveJSON (plainService s) o impl m r
  | Short m => succinctHandler s o impl m r
  end.

Definition mixedDispatch (s : mixedService) (path : string) : option anyMethod :=
  find (fun m => String.eqb path (mx_prefix s ++ am_name m)%string) (mx_methods s).

(** example.gen.go 455-519 *)
Definition mixedBody (headerValue : string) (s : mixedService) (o : options) (impl : implementation) (r : request) : run :=
  andThen ([SetHeader "Webrpc" headerValue], Returned)
  match mixedDispatch s (q_path r) with
  | None => sendErrorJSON o (withCausef ErrWebrpcBadRoute ("no webrpc method defined for path " ++ q_path r))
  | Some m =>
      if negb (String.eqb (q_method r) "POST") then
        andThen ([SetHeader "Allow" "POST"], Returned)
          (sendErrorJSON o (withCausef ErrWebrpcBadMethod
             ("unsupported HTTP method " ++ q_method r ++ " (only POST is allowed)")))
      else if String.eqb (mediaType (q_contentType r)) "application/json" then
        match o_onRequest o with
        | Some f =>
            match f (am_name m) with
            | inr msg => ([], Panicked msg)
            | inl (Some e) => sendErrorJSON o (toRpcError e)
            | inl None => handlerOf s o impl m r
            end
        | None => handlerOf s o impl m r
        end
      else sendErrorJSON o (withCausef ErrWebrpcBadRequest "unsupported Content-Type")
  end.

(** example.gen.go 446-453: a panic is answered and raised again *)
Definition mixedServe (headerValue : string) (s : mixedService) (o : options) (impl : implementation) (r : request) : run :=
  match mixedBody headerValue s o impl r with
  | (es, Returned) => (es, Returned)
  | (es, Panicked msg) =>
      match sendErrorJSON o (withCausef ErrWebrpcServerPanic msg) with
      | (es', Returned) => (es ++ es', Panicked msg)
      | (es', Panicked msg') => (es ++ es', Panicked msg')
      end
  end.

(** ** Client *)

(** example.gen.go 934-951 newRequest, as in Rpc.v *)
Definition shortRequest (s : mixedService) (m : succinctMethod) (body : string) : request :=
  Request "POST" (mx_prefix s ++ su_name m)%string "application/json" (Some body).

(** example.gen.go 352-356 GetUser with 953-1000 doHTTPRequestRaw: [args] are the fields of the struct that is
    passed; the result is the pointer [out], nil if there is an error *)
Definition succinctClient (s : mixedService) (ctxErr : option goError) (net : request -> transport)
    (m : succinctMethod) (args : list gval) : gval * option rpcError :=
  match marshalStruct (mx_env s) (fieldsOf (mx_env s) (su_in m)) args with
  | None => (VPtr None, Some (withCausef ErrWebrpcRequestFailed "failed to marshal JSON body"))
  | Some body =>
      match ctxErr with
      | Some e => (VPtr None, Some (withCause ErrWebrpcRequestFailed (EWrap 0 ("aborted because context was done: " ++ errText e) e)))
      | None =>
          match net (shortRequest s m body) with
          | NoResponse e => (VPtr None, Some (withCause ErrWebrpcRequestFailed e))
          | Broken _ e => (VPtr None, Some (withCause ErrWebrpcBadResponse (EWrap 0 ("failed to read response body: " ++ errText e) e)))
          | Received p =>
              if negb (p_status p =? 200)%Z then
                match unmarshalError (p_body p) with
                | None => (VPtr None, Some (withCausef ErrWebrpcBadResponse "failed to unmarshal server error"))
                | Some e => (VPtr None, Some (restoreCause e))
                end
              else match unmarshalValue (mx_env s) (TRef (su_out m)) (p_body p) with
                   | Some v => (v, None)
                   | None => (VPtr None, Some (withCausef ErrWebrpcBadResponse "failed to unmarshal JSON response body"))
                   end
          end
      end
  end.

(** client and server connected, as in Rpc.v *)
Definition mixedConnect (recovers : bool) (headerValue : string) (s : mixedService) (o : options) (impl : implementation)
    (r : request) : transport :=
  match mixedServe headerValue s o impl r with
  | (es, Returned) => Received (responseOf es)
  | (es, Panicked _) => if recovers then Received (responseOf es) else NoResponse (EPlain 0 "EOF")
  end.
