(** What it means to pass the interoperability tests, in terms of HTTP requests and answers. *)
From Verif Require Import Base Utf8 Json GoVal Rpc RpcSpec.
Local Open Scope string_scope.

(** The answer to the request for a method of the test service. *)
Definition post (net : request -> transport) (name body : string) : transport :=
  net (Request "POST" ("/rpc/TestApi/" ++ name) "application/json" (Some body)).

(** answered with status 200 *)
Inductive Accepted : transport -> Prop :=
| AWhole b : Accepted (Received (Response 200 b))
| ACut e : Accepted (Broken 200 e).

(** answered with status 200 and a body that is read as the values [vs] *)
Definition Answers (env : goEnv) (fs : list goField) (t : transport) (vs : list gval) : Prop :=
  exists b, t = Received (Response 200 b) /\ unmarshalStruct env fs b = Some vs.

(** answered with another status and an error with these fields; a cause may be missing *)
Definition Refused (t : transport) (code : Z) (name message : string) (status : Z) (cause : string) : Prop :=
  exists st b e, t = Received (Response st b) /\ st <> 200%Z /\ unmarshalError b = Some e /\
    re_code e = code /\ re_name e = name /\ re_message e = message /\ re_status e = status /\
    (re_causeText e = "" \/ re_causeText e = cause).

(** the errors the tests ask for: code, name, message, status, cause *)
Definition asked : list (Z * string * string * Z * string) :=
  [ (0, "WebrpcEndpoint", "endpoint error", 400, "failed to read file: unexpected EOF");
    (1, "Unauthorized", "unauthorized", 401, "failed to verify JWT token");
    (2, "ExpiredToken", "expired token", 401, "");
    (3, "InvalidToken", "invalid token", 401, "");
    (4, "Deactivated", "account deactivated", 403, "");
    (5, "ConfirmAccount", "confirm your email", 403, "");
    (6, "AccessDenied", "access denied", 403, "");
    (7, "MissingArgument", "missing argument", 400, "");
    (8, "UnexpectedValue", "unexpected value", 400, "");
    (100, "RateLimited", "too many requests", 429, "1000 req/min exceeded");
    (101, "DatabaseDown", "service outage", 503, "");
    (102, "ElasticDown", "search is degraded", 503, "");
    (103, "NotImplemented", "not implemented", 501, "");
    (200, "UserNotFound", "user not found", 400, "");
    (201, "UserBusy", "user busy", 400, "");
    (202, "InvalidUsername", "invalid username", 400, "");
    (300, "FileTooBig", "file is too big (max 1GB)", 400, "");
    (301, "FileInfected", "file is infected", 400, "");
    (302, "FileType", "unsupported file type", 400, ".wav is not supported") ]%Z.

(** the JSON text of the argument of GetSchemaError *)
Definition codeBody (code : Z) : string := "{""code"":" ++ zdec code ++ "}".

(** A server passes the tests. *)
Record Passes (env : goEnv) (simple complex list_ map_ : goTy) (net : request -> transport) : Prop := {
  p_empty : Accepted (post net "GetEmpty" "null");
  p_error : ~ Accepted (post net "GetError" "null");
  (* what it sends it takes back *)
  p_one : exists v b, Answers env [GF "one" false simple] (post net "GetOne" "null") [v] /\
    marshalStruct env [GF "one" false simple] [v] = Some b /\ Accepted (post net "SendOne" b);
  p_multi : exists u v w b,
    let fs := [GF "one" false simple; GF "two" false simple; GF "three" false simple] in
    Answers env fs (post net "GetMulti" "null") [u; v; w] /\
    marshalStruct env fs [u; v; w] = Some b /\ Accepted (post net "SendMulti" b);
  p_complex : exists v b, Answers env [GF "complex" false complex] (post net "GetComplex" "null") [v] /\
    marshalStruct env [GF "complex" false complex] [v] = Some b /\ Accepted (post net "SendComplex" b);
  (* two enum values, two map entries *)
  p_list : exists x y, Answers env [GF "list" false list_] (post net "GetEnumList" "null") [VSlice (Some [x; y])];
  p_map : exists x y, Answers env [GF "map" false map_] (post net "GetEnumMap" "null") [VMap (Some [x; y])];
  (* every declared error arrives as declared *)
  p_errors : forall c n m s cause, In (c, n, m, s, cause) asked ->
    Refused (post net "GetSchemaError" (codeBody c)) c n m s cause }.

(** ** Equal values *)

Inductive JSame : json -> json -> Prop :=
| JSNull : JSame JNull JNull
| JSBool b : JSame (JBool b) (JBool b)
| JSNum n : JSame (JNum n) (JNum n)
| JSStr s : JSame (JStr s) (JStr s)
| JSArr l l' : Forall2 JSame l l' -> JSame (JArr l) (JArr l')
| JSObj l l' : length l = length l' ->
    (forall k x, In (k, x) l -> exists y, lookup k l' = Some y /\ JSame x y) -> JSame (JObj l) (JObj l').

Fixpoint valueAt (k : gkey) (l : list (gkey * gval)) : option gval :=
  match l with
  | [] => None
  | (k', v) :: r => if gkey_eqb k k' then Some v else valueAt k r
  end.

(** Equality of Go values as cmp.Equal has it: maps are equal if they have as many entries and each entry
    of one has an equal entry in the other. *)
Inductive Same : gval -> gval -> Prop :=
| SBool b : Same (VBool b) (VBool b)
| SInt z : Same (VInt z) (VInt z)
| SStr s : Same (VStr s) (VStr s)
| SEnum z : Same (VEnum z) (VEnum z)
| SNilSlice : Same (VSlice None) (VSlice None)
| SSlice l l' : Forall2 Same l l' -> Same (VSlice (Some l)) (VSlice (Some l'))
| SNilMap : Same (VMap None) (VMap None)
| SMap l l' : length l = length l' ->
    (forall k x, In (k, x) l -> exists y, valueAt k l' = Some y /\ Same x y) -> Same (VMap (Some l)) (VMap (Some l'))
| SNil : Same (VPtr None) (VPtr None)
| SPtr v v' : Same v v' -> Same (VPtr (Some v)) (VPtr (Some v'))
| SStruct l l' : Forall2 Same l l' -> Same (VStruct l) (VStruct l')
| SAny j j' : JSame j j' -> Same (VAny j) (VAny j')
| SBig z : Same (VBig z) (VBig z).
