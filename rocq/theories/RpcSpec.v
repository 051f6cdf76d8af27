(** What a generated server must answer, stated without the server's code. *)
From Verif Require Import Base Utf8 Json JsonProofs GoVal GoValSpec Rpc.

(** the status lines written, and the calls of the implementation, in order *)
Fixpoint statusLines (es : list event) : list Z :=
  match es with
  | [] => []
  | WriteHeader c :: r => c :: statusLines r
  | _ :: r => statusLines r
  end.
Fixpoint callsMade (es : list event) : list (string * list gval) :=
  match es with
  | [] => []
  | CallImpl m a :: r => (m, a) :: callsMade r
  | _ :: r => callsMade r
  end.

(** a valid HTTP status code *)
Definition HttpStatus (c : Z) : Prop := (100 <= c <= 999)%Z.
Definition Int64 (z : Z) : Prop := (- 2 ^ 63 <= z <= 2 ^ 63 - 1)%Z.

(** the content type is application/json, in any case, with optional white
    space around and parameters behind *)
Definition Blanks (s : string) : Prop := sforall isSpaceByte s = true.
Definition JsonContentType (ct : string) : Prop :=
  exists a core b rest, ct = (a ++ core ++ b ++ rest)%string /\
    Blanks a /\ Blanks b /\ to_lower core = "application/json" /\
    (rest = EmptyString \/ exists x, rest = String ";" x).

(** code and status of the error a user's error is answered with: its own if it is
    a webrpc error, otherwise the endpoint error's *)
Definition codeStatus (e : goError) : Z * Z :=
  match e with
  | ERpc r => (re_code r, re_status r)
  | _ => (0, 400)%Z
  end.

Inductive answer : Type :=
| ErrorAnswer (code status : Z)
| ResultAnswer (body : string)
| CrashAnswer (msg : string).

(** the arguments in a request: none for a method without arguments (the body
    is not looked at), otherwise the decoded body *)
Inductive Arguments (s : service) (m : rpcMethod) (r : request) : list gval -> Prop :=
| NoArguments : rm_in m = [] -> Arguments s m r []
| BodyArguments b args : rm_in m <> [] -> q_body r = Some b ->
    unmarshalStruct (sv_env s) (rm_in m) b = Some args -> Arguments s m r args.

(** what the OnRequest hook says to a request for a method *)
Definition hookSays (hook : option (string -> option goError + string)) (name : string) : option goError + string :=
  match hook with Some f => f name | None => inl None end.

(** a request that names a method of the service, is a POST and has the right content type *)
Definition Addressed (s : service) (r : request) (m : rpcMethod) : Prop :=
  In m (sv_methods s) /\ q_path r = (sv_prefix s ++ rm_name m)%string /\
  q_method r = "POST" /\ JsonContentType (q_contentType r).

(** the answer a Go error is given: its code and status; net/http panics if the
    status is not one *)
Inductive ErrorGiven (e : goError) : answer -> Prop :=
| EGError : HttpStatus (snd (codeStatus e)) ->
    ErrorGiven e (ErrorAnswer (fst (codeStatus e)) (snd (codeStatus e)))
| EGCrash : ~ HttpStatus (snd (codeStatus e)) ->
    ErrorGiven e (CrashAnswer ("invalid WriteHeader code " ++ zdec (snd (codeStatus e)))).

(** the answer to each request, and the calls of the implementation it takes *)
Inductive Expected (s : service) (hook : option (string -> option goError + string)) (impl : implementation) (r : request)
  : list (string * list gval) -> answer -> Prop :=
| UnknownRoute :
    (forall m, In m (sv_methods s) -> q_path r <> (sv_prefix s ++ rm_name m)%string) ->
    Expected s hook impl r [] (ErrorAnswer (-2) 404)
| NotPost m : In m (sv_methods s) -> q_path r = (sv_prefix s ++ rm_name m)%string ->
    q_method r <> "POST" -> Expected s hook impl r [] (ErrorAnswer (-3) 405)
| NotJson m : In m (sv_methods s) -> q_path r = (sv_prefix s ++ rm_name m)%string ->
    q_method r = "POST" -> ~ JsonContentType (q_contentType r) ->
    Expected s hook impl r [] (ErrorAnswer (-4) 400)
| HookRejects m e a : Addressed s r m -> hookSays hook (rm_name m) = inl (Some e) -> ErrorGiven e a ->
    Expected s hook impl r [] a
| HookPanics m msg : Addressed s r m -> hookSays hook (rm_name m) = inr msg ->
    Expected s hook impl r [] (CrashAnswer msg)
| BadBody m : Addressed s r m -> hookSays hook (rm_name m) = inl None ->
    (forall args, ~ Arguments s m r args) ->
    Expected s hook impl r [] (ErrorAnswer (-4) 400)
| ImplFails m args e a : Addressed s r m -> hookSays hook (rm_name m) = inl None -> Arguments s m r args ->
    impl (rm_name m) args = Fails e -> ErrorGiven e a ->
    Expected s hook impl r [(rm_name m, args)] a
| ImplPanics m args msg : Addressed s r m -> hookSays hook (rm_name m) = inl None -> Arguments s m r args ->
    impl (rm_name m) args = Panics msg ->
    Expected s hook impl r [(rm_name m, args)] (CrashAnswer msg)
| ImplReturns m args vs body : Addressed s r m -> hookSays hook (rm_name m) = inl None -> Arguments s m r args ->
    impl (rm_name m) args = Returns vs -> 
    (rm_out m = [] /\ body = "{}" \/ rm_out m <> [] /\ marshalStruct (sv_env s) (rm_out m) vs = Some body) ->
    Expected s hook impl r [(rm_name m, args)] (ResultAnswer body)
| Unencodable m args vs : Addressed s r m -> hookSays hook (rm_name m) = inl None -> Arguments s m r args ->
    impl (rm_name m) args = Returns vs -> rm_out m <> [] ->
    marshalStruct (sv_env s) (rm_out m) vs = None ->
    Expected s hook impl r [(rm_name m, args)] (ErrorAnswer (-5) 500).

(** a run gives an answer: one status line, the body, and how it ends.  A crash
    is answered with 500 and raised again. *)
Definition Gives (x : run) (calls : list (string * list gval)) (a : answer) : Prop :=
  callsMade (fst x) = calls /\
  match a with
  | ErrorAnswer code status =>
      snd x = Returned /\ statusLines (fst x) = [status] /\
      (Int64 code -> exists e, unmarshalError (bodyOf (fst x)) = Some e /\ re_code e = code /\ re_status e = status)
  | ResultAnswer body =>
      snd x = Returned /\ statusLines (fst x) = [200%Z] /\ bodyOf (fst x) = body
  | CrashAnswer msg =>
      snd x = Panicked msg /\ statusLines (fst x) = [500%Z] /\
      exists e, unmarshalError (bodyOf (fst x)) = Some e /\ re_code e = (-6)%Z /\ re_status e = 500%Z
  end.

Definition noOptions : options := Options None None.

(** ** Remote calls *)

(** an error response the client can tell from a success, and whose body HTTP
    lets through: status 201..999 except 204 and 304; the code is a Go int *)
Definition Transportable (e : rpcError) : Prop :=
  (200 < re_status e <= 999)%Z /\ re_status e <> 204%Z /\ re_status e <> 304%Z /\ Int64 (re_code e).

Definition ValidTexts (e : rpcError) : Prop :=
  ValidUtf8 (re_name e) /\ ValidUtf8 (re_message e) /\ ValidUtf8 (re_causeText e).

(** the handler's error as a webrpc error: itself, or an endpoint error
    (code 0, status 400) whose cause text is the text of the handler's error *)
Inductive AsWebrpc : goError -> rpcError -> Prop :=
| AWRpc e : AsWebrpc (ERpc e) e
| AWOther e r : (forall x, e <> ERpc x) ->
    re_name r = "WebrpcEndpoint" -> re_code r = 0%Z -> re_status r = 400%Z ->
    re_message r = "endpoint error" -> re_causeText r = errText e -> AsWebrpc e r.

(** the fields a user sees *)
Definition SameFields (e e' : rpcError) : Prop :=
  re_name e = re_name e' /\ re_code e = re_code e' /\ re_message e = re_message e' /\
  re_causeText e = re_causeText e' /\ re_status e = re_status e'.

(** arguments and results the wire carries without loss (GoValSpec.v) *)
Definition Carries (env : goEnv) (fs : list goField) (vs : list gval) : Prop :=
  FitsFields env fs vs /\ (N.of_nat (S (vsdepth vs)) <= maxNestingDepth)%N.

(** ** Error chains *)

(** [Unwraps x y]: [y] is [x], or found from [x] by Unwrap *)
Inductive Unwraps : goError -> goError -> Prop :=
| UHere x : Unwraps x x
| UWrap i m x y : Unwraps x y -> Unwraps (EWrap i m x) y
| UCause n c m t s x y : Unwraps x y -> Unwraps (ERpc (RpcError n c m t s (Some x))) y.

(** an error value declared in a schema, tests/server/server.gen.go 919-927 *)
Definition declaredError (name : string) (code : Z) (msg : string) (status : Z) : rpcError :=
  RpcError name code msg EmptyString status None.
