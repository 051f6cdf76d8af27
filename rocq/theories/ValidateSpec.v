(** What it means for a schema to be well-formed; independent of the
    validator's loops. *)
From Verif Require Import Base Schema TypeSpec.

Definition letter (c : ascii) : Prop := (65 <= N_of_byte c <= 90 \/ 97 <= N_of_byte c <= 122)%N.
Definition ident_char (c : ascii) : Prop :=
  letter c \/ (48 <= N_of_byte c <= 57)%N \/ c = "_"%char.

(** [a-zA-Z][a-zA-Z0-9_]* *)
Definition Identifier (s : string) : Prop :=
  exists c r, s = String c r /\ letter c /\ Forall ident_char (list_ascii_of_string r).

(** the JSON key of a field: the last [json] tag that is not "-", or its name *)
Definition json_tags (f : field) : list string :=
  flat_map (fun m => match assoc "json" m with Some (Some s) => [s] | _ => [] end) (f_meta f).
Definition json_key (f : field) : string :=
  last (filter (fun s => negb (String.eqb s "-")) (json_tags f)) (f_name f).

(** every json tag is a string, "-" or an identifier *)
Definition TagsOk (f : field) : Prop :=
  forall m v, In m (f_meta f) -> assoc "json" m = Some v ->
    exists s, v = Some s /\ (s = "-" \/ Identifier s).

Definition FieldsOk (fs : list field) : Prop :=
  Forall (fun f => Identifier (f_name f)) fs /\
  NoDup (map (fun f => to_lower (f_name f)) fs) /\
  NoDup (map (fun f => to_lower (json_key f)) fs) /\
  Forall (fun f => Identifier (json_key f)) fs /\
  Forall TagsOk fs.

Definition integer_core (c : core) : Prop :=
  match c with
  | CUint | CUint8 | CUint16 | CUint32 | CUint64 | CInt | CInt8 | CInt16 | CInt32 | CInt64 => True
  | _ => False
  end.

(** ** references to types

    [Legal]: the expression is that of a legal type (C07).
    [Resolved]: in addition the parsed structure is that type.
    [Incomplete]: the parsed structure lacks a component (see C06/C07). *)
Definition Legal (ts : list type) (v : varType) : Prop :=
  exists y, TypeOk ts y /\ vt_expr v = show y.
Definition Resolved (ts : list type) (v : varType) : Prop :=
  exists y, tree v = Some y /\ TypeOk ts y /\ vt_expr v = show y.
Definition Incomplete (v : varType) : Prop := tree v = None.
Definition ResolvedOrIncomplete (ts : list type) (v : varType) : Prop :=
  Resolved ts v \/ Incomplete v.

(** The rest is parametrised by what is asked of a reference to a type. *)

Definition EnumOk (t : type) : Prop :=
  Forall (fun f => f_value f <> "" /\ f_type f = None) (t_fields t) /\
  exists v c, t_type t = Some v /\ vt_expr v = core_to_string c /\ (integer_core c \/ c = CString).

Definition StructOk (R : varType -> Prop) (t : type) : Prop :=
  Forall (fun f => f_value f = "" /\ exists v, f_type f = Some v /\ R v) (t_fields t).

Definition AliasOk (t : type) : Prop := t_type t <> None.

Definition TypeDeclOk (R : varType -> Prop) (t : type) : Prop :=
  t_name t <> "" /\ startsWithUpper (t_name t) = true /\
  (t_kind t = "enum" /\ FieldsOk (t_fields t) /\ EnumOk t \/
   t_kind t = "struct" /\ FieldsOk (t_fields t) /\ StructOk R t \/
   t_kind t = "alias" /\ AliasOk t).

Definition ErrorOk (e : error) : Prop :=
  x_name e <> "" /\ trim_space (x_name e) = x_name e /\ (x_code e > 0)%Z /\ (400 <= x_status e <= 599)%Z /\ x_message e <> "" /\
  startsWithUpper (x_name e) = true /\ has_prefix "webrpc" (to_lower (x_name e)) = false.

Definition ErrorsOk (es : list error) : Prop :=
  Forall ErrorOk es /\ NoDup (map x_code es) /\ NoDup (map (fun e => to_lower (x_name e)) es).

Definition ArgOk (R : varType -> Prop) (a : arg) : Prop :=
  g_name a <> "" /\ exists v, g_type a = Some v /\ R v.

Definition MethodOk (R : varType -> Prop) (es : list error) (m : method) : Prop :=
  me_name m <> "" /\
  Forall (ArgOk R) (me_inputs m) /\ Forall (ArgOk R) (me_outputs m) /\
  (forall n, In n (me_errors m) -> exists e, In e es /\ x_name e = n) /\
  (me_succinct m = true -> length (me_inputs m) <= 1 /\ length (me_outputs m) <= 1).

Definition ServiceOk (R : varType -> Prop) (es : list error) (s : service) : Prop :=
  v_name s <> "" /\ v_methods s <> [] /\
  Forall (MethodOk R es) (v_methods s) /\
  NoDup (map (fun m => to_lower (me_name m)) (v_methods s)).

(** different declarations have different names, ignoring case *)
Definition DistinctNames {A} (id : A -> ident) (name : A -> string) (l : list A) : Prop :=
  forall a b, In a l -> In b l -> id a <> id b -> to_lower (name a) <> to_lower (name b).

Record SchemaOk (R : list type -> varType -> Prop) (s : schema) : Prop := {
  ok_version : sc_webrpc s = "v1";
  ok_schema_version : sc_services s <> [] -> sc_version s <> "";
  ok_types : Forall (TypeDeclOk (R (sc_types s))) (sc_types s);
  ok_type_names : DistinctNames t_id t_name (sc_types s);
  ok_errors : ErrorsOk (sc_errors s);
  ok_services : Forall (ServiceOk (R (sc_types s)) (sc_errors s)) (sc_services s);
  ok_service_names : DistinctNames v_id v_name (sc_services s)
}.

(** the base path: empty, or a path without white space, query, fragment and
    "://" that [uriOk] (the standard library's URI parser) accepts once it has
    a leading slash *)
Definition slashed (b : string) : string := if has_prefix "/" b then b else ("/" ++ b)%string.
Definition BasePathOk (uriOk : string -> bool) (b : string) : Prop :=
  b = "" \/
  ((forall c, In c (list_ascii_of_string b) -> ~ In (N_of_byte c) [32; 9; 13; 10; 63; 35]%N) /\
   (forall p q, b <> (p ++ "://" ++ q)%string) /\
   uriOk (slashed b) = true).

(** ** what validation may change

    References are replaced by their resolved form, which is written the same
    way (or is incomplete); error names are trimmed; the base path is
    normalised; everything else stays. *)
Definition SameRef (o o' : option varType) : Prop :=
  exists v v', o = Some v /\ o' = Some v' /\ (vt_expr v' = vt_expr v \/ Incomplete v').

Definition SameField (f f' : field) : Prop :=
  f_name f' = f_name f /\ f_optional f' = f_optional f /\ f_value f' = f_value f /\
  f_meta f' = f_meta f /\ f_comments f' = f_comments f /\
  (f' = f \/ SameRef (f_type f) (f_type f')).

Definition SameType (t t' : type) : Prop :=
  t_id t' = t_id t /\ t_kind t' = t_kind t /\ t_name t' = t_name t /\ t_type t' = t_type t /\
  t_meta t' = t_meta t /\ t_comments t' = t_comments t /\
  (t_kind t <> "struct" -> t_fields t' = t_fields t) /\
  Forall2 SameField (t_fields t) (t_fields t').

Definition SameArg (a a' : arg) : Prop :=
  g_name a' = g_name a /\ g_optional a' = g_optional a /\ SameRef (g_type a) (g_type a').

Definition SameMethod (m m' : method) : Prop :=
  me_name m' = me_name m /\ me_annotations m' = me_annotations m /\ me_comments m' = me_comments m /\
  me_succinct m' = me_succinct m /\ me_stream_in m' = me_stream_in m /\
  me_stream_out m' = me_stream_out m /\ me_errors m' = me_errors m /\
  Forall2 SameArg (me_inputs m) (me_inputs m') /\ Forall2 SameArg (me_outputs m) (me_outputs m').

Definition SameService (s s' : service) : Prop :=
  v_id s' = v_id s /\ v_name s' = v_name s /\ v_comments s' = v_comments s /\
  Forall2 SameMethod (v_methods s) (v_methods s').

Definition SameError (e e' : error) : Prop :=
  x_id e' = x_id e /\ x_code e' = x_code e /\ x_message e' = x_message e /\ x_status e' = x_status e /\
  exists a b, Forall (fun c => is_space_byte c = true) (list_ascii_of_string (a ++ b)) /\
              x_name e = (a ++ x_name e' ++ b)%string.

Definition SameSchema (s s' : schema) : Prop :=
  sc_webrpc s' = sc_webrpc s /\ sc_name s' = sc_name s /\ sc_version s' = sc_version s /\
  Forall2 SameType (sc_types s) (sc_types s') /\
  Forall2 SameError (sc_errors s) (sc_errors s') /\
  Forall2 SameService (sc_services s) (sc_services s').

(** ** the errors every webrpc program has: gen/errors.go 5-20, (code, name, message, status) *)
Definition builtinErrors : list error :=
  map (fun x => match x with (c, n, m, h) => Error_ ("gen/errors.go", Z.to_nat (- c)) c n m h end)
  [(0, "WebrpcEndpoint", "endpoint error", 400);
   (-1, "WebrpcRequestFailed", "request failed", 400);
   (-2, "WebrpcBadRoute", "bad route", 404);
   (-3, "WebrpcBadMethod", "bad method", 405);
   (-4, "WebrpcBadRequest", "bad request", 400);
   (-5, "WebrpcBadResponse", "bad response", 500);
   (-6, "WebrpcServerPanic", "server panic", 500);
   (-7, "WebrpcInternalError", "internal error", 500);
   (-8, "WebrpcClientAborted", "request aborted by client", 400);
   (-9, "WebrpcStreamLost", "stream lost", 400);
   (-10, "WebrpcStreamFinished", "stream finished", 200)]%Z.
