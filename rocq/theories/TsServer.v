(** Model of a generated TypeScript server, _examples/node-ts/server/server.gen.ts (server-hono/server.gen.ts has the
    same code), and of the part of server/helpers.ts that calls it.

    Simplifications: the request body has arrived whole; the implementation is a function of the method and its
    argument; headers are left out; the text of JavaScript's own errors is not modelled. *)
From Verif Require Import Base Utf8 Json GoVal BigInt Rpc Ts TsBig TsBigExample.

(** what JavaScript code can throw: a WebrpcError with its name, code, message, status and cause, or another error *)
Inductive thrown := ThrowRpc (name : string) (code : Z) (message : string) (status : Z) (cause : option string) | ThrowOther.
Inductive js (A : Type) := Val (a : A) | Throw (t : thrown).
Arguments Val {A}. Arguments Throw {A}.
Definition jbind {A B} (x : js A) (f : A -> js B) : js B := match x with Val a => f a | Throw t => Throw t end.

Definition badRoute : thrown := ThrowRpc "WebrpcBadRoute" (-2) "bad route" 404 (Some "method not found").
Definition badRequest (cause : string) : thrown := ThrowRpc "WebrpcBadRequest" (-4) "bad request" 400 (Some cause).
(** thrown by JsonDecode; the cause is not kept *)
Definition badBody : thrown := ThrowRpc "WebrpcBadResponse" (-5) "bad response" 500 (Some "").

(** key in value: a TypeError unless the value is an object.  Only for keys that neither Object.prototype nor arrays
    have. *)
Definition jsIn (k : string) (v : jsv) : js bool :=
  match v with
  | SObj l => Val (match lookup k l with Some _ => true | None => false end)
  | SArr _ => Val false
  | _ => Throw ThrowOther
  end.
(** value[key], after [jsIn] *)
Definition member (k : string) (v : jsv) : jsv := match v with SObj l => objGet k l | _ => SUndef end.

(** typeof *)
Definition typeOf (v : jsv) : string :=
  match v with
  | SUndef => "undefined"
  | SBool _ => "boolean"
  | SNum _ => "number"
  | SStr _ => "string"
  | SBig _ => "bigint"
  | SNull | SArr _ | SObj _ => "object"
  end.

(** server.gen.ts 170-179 JS_TYPES *)
Definition jsTypes : list string := ["bigint"; "boolean"; "function"; "number"; "object"; "string"; "symbol"; "undefined"].

(** 181-257: the conditions of the validators, in order: member, whether it may be missing, type *)
Definition validators : list (string * list (string * bool * string)) :=
  [("Kind", [("USER", false, "number"); ("ADMIN", false, "number")]);
   ("User", [("id", false, "number"); ("USERNAME", false, "string"); ("role", false, "Kind"); ("meta", false, "object"); ("-", false, "number");
             ("balance", false, "bigint"); ("createdAt", true, "string"); ("extra", false, "Extra")]);
   ("Extra", [("info", false, "string"); ("amount", false, "bigint"); ("points", false, "bigint[]")]);
   ("Page", [("num", false, "number")]);
   ("GetArticleRequest", [("articleId", false, "number"); ("byBN", false, "bigint")]);
   ("GetArticleResponse", [("title", false, "string"); ("content", true, "string"); ("largeNum", false, "bigint")])].

(** one condition: [rec] is validateType *)
Definition condition (rec : jsv -> string -> js bool) (value : jsv) (c : string * bool * string) : js bool :=
  let '(k, optional, type) := c in
  jbind (jsIn k value) (fun present =>
    if present then rec (member k value) type else Val optional).
Fixpoint conditions (rec : jsv -> string -> js bool) (value : jsv) (cs : list (string * bool * string)) : js bool :=
  match cs with
  | [] => Val true
  | c :: r => jbind (condition rec value c) (fun ok => if ok then conditions rec value r else Val false)
  end.

(** 259-280 TYPE_VALIDATORS and validateType.  Calls go to members of the value, so its depth bounds them. *)
Fixpoint validateFuel (n : nat) (value : jsv) (type : string) : js bool :=
  match n with
  | O => Throw ThrowOther
  | S n =>
      if existsb (String.eqb type) jsTypes then Val (String.eqb (typeOf value) type)
      else match assoc type validators with
           | None => Val false
           | Some cs => conditions (validateFuel n) value cs
           end
  end.
Definition validateType (value : jsv) (type : string) : js bool := validateFuel (S (sdepth value)) value type.

(** members every object has, Object.prototype *)
Definition prototypeNames : list string :=
  ["__defineGetter__"; "__defineSetter__"; "__lookupGetter__"; "__lookupSetter__"; "__proto__"; "constructor"; "hasOwnProperty"; "isPrototypeOf";
   "propertyIsEnumerable"; "toLocaleString"; "toString"; "valueOf"].

(** 285-291 SERVICE_METHOD_TYPES['Example'] *)
Definition methodTypes : list (string * (string * string)) :=
  [("Ping", ("PingRequest", "PingResponse")); ("GetUser", ("GetUserRequest", "GetUserResponse")); ("GetArticle", ("GetArticleRequest", "GetArticleResponse"))].

(** a number literal of the value 0; simplification: numbers too small for a float are not counted *)
Fixpoint zeroMantissa (s : string) : bool :=
  match s with
  | EmptyString => true
  | String c r => if str_in (String c EmptyString) ["e"; "E"] then true else str_in (String c EmptyString) ["-"; "0"; "."] && zeroMantissa r
  end.
Definition isTrue (v : jsv) : bool := match v with SNum l => negb (zeroMantissa l) | _ => truthy v end.
(** payload || {} *)
Definition orEmpty (v : jsv) : jsv := if isTrue v then v else SObj [].

(** 126-160: the checks of the arguments, up to the call of the implementation *)
Definition checkArgs (method : string) (payload : jsv) : js jsv :=
  if String.eqb method "Ping" then
    jbind (jsIn "counter" payload) (fun present =>
    jbind (if present then validateType (member "counter" payload) "bigint" else Val true) (fun ok =>
    if ok then Val (orEmpty payload) else Throw (badRequest "invalid argument: counter")))
  else if String.eqb method "GetUser" then
    jbind (jsIn "userId" payload) (fun present =>
    if negb present then Throw (badRequest "missing argument `userId`") else
    jbind (validateType (member "userId" payload) "number") (fun ok =>
    if ok then Val (orEmpty payload) else Throw (badRequest "invalid argument: userId")))
  else if String.eqb method "GetArticle" then
    jbind (if isTrue payload then validateType payload "GetArticleRequest" else Val true) (fun ok =>
    if ok then Val (orEmpty payload) else Throw (badRequest "invalid argument: getArticleRequest"))
  else Throw badRoute.

(** 117-125: the lookup of the method and the decoding of the body.  A method named like a member of
    Object.prototype is found, and taking its value apart throws a TypeError. *)
Definition arguments (method : string) (body : json) : js jsv :=
  match assoc method methodTypes with
  | None => if existsb (String.eqb method) prototypeNames then Throw ThrowOther else Throw badRoute
  | Some (reqType, _) =>
      match jsonDecode nodeTable reqType body with
      | Ok payload => checkArgs method payload
      | _ => Throw badBody
      end
  end.

(** the implementation: what each method returns or throws *)
Definition tsImpl := string -> jsv -> js jsv.

(** 117-162 dispatchExampleRequest.  [encode] is the function encodeType(respType, result) of line 161. *)
Definition dispatchWith (encode : string -> jsv -> js jsv) (impl : tsImpl) (method : string) (body : json) : js jsv :=
  jbind (arguments method body) (fun args =>
  jbind (impl method args) (fun result =>
  match assoc method methodTypes with
  | Some (_, respType) => encode respType result
  | None => Val result
  end)).
(** encodeType is not defined anywhere in the file: a ReferenceError *)
Definition dispatch : tsImpl -> string -> json -> js jsv := dispatchWith (fun _ _ => Throw ThrowOther).

(** JSON.stringify of an error object, 376-393: own enumerable members.  The constructor of Error makes a given
    message not enumerable; such a message is empty here. *)
Definition errorJson (t : thrown) : json :=
  match t with
  | ThrowRpc name code message status cause =>
      JObj ([("name", JStr name); ("code", JNum (zdec code)); ("status", JNum (zdec status))] ++
            (if isEmptyStr message then [] else [("message", JStr message)]) ++
            match cause with Some c => [("cause", JStr c)] | None => [] end)
  | ThrowOther => JNull
  end.
Inductive resultBody := Data (v : jsv) | ErrorBody (t : thrown).

(** 84-115 serveExampleRpc, from the dispatch on: the status and the body *)
Definition settle (r : js jsv) : Z * resultBody :=
  match r with
  | Val v => (200%Z, Data (match v with SNull | SUndef => SObj [] | _ => v end))
  | Throw (ThrowRpc n c m s k) => (if (s =? 0)%Z then 400 else s, ErrorBody (ThrowRpc n c m s k))%Z
  | Throw ThrowOther => (400, ErrorBody (ThrowRpc "WebrpcEndpointError" 0 "" 400 None))%Z
  end.

(** urlPath.split('/').filter(Boolean) *)
Definition pathParts (url : string) : list string :=
  filter (fun p => negb (isEmptyStr p)) (split_byte "/"%char url).

(** 84-88: the method a path names, None for null *)
Definition route (url : string) : option string :=
  if negb (has_prefix "/v1/" url) then None
  else match pathParts url with
       | [a; b; m] => if String.eqb a "rpc" && String.eqb b "Example" then Some m else None
       | _ => None
       end.
Definition serveExampleRpc (impl : tsImpl) (url : string) (body : json) : option (Z * resultBody) :=
  option_map (fun m => settle (dispatch impl m body)) (route url).

(** ** helpers.ts 88-142 createWebrpcServerHandler: what is answered, None if nothing is *)
Definition handle (impl : tsImpl) (verb url rawBody : string) : option (Z * resultBody) :=
  if negb (has_prefix "/rpc/" url) then None
  else
    let raw := if String.eqb verb "POST" then rawBody else EmptyString in
    match (if isEmptyStr raw then Some (JObj []) else parseJ raw) with
    | None => Some (400, Data (SObj [("msg", SStr "invalid JSON body"); ("status", SNum "400"); ("code", SStr "")]))%Z
    | Some body => serveExampleRpc impl url body
    end.
