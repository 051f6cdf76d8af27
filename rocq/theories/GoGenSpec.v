(** What the values of a schema type are, stated on the schema without the generated code: the Go program's values of
    the declared types. *)
From Verif Require Import Base Utf8 Schema ValidateSpec Json JsonProofs GoVal GoValSpec Rpc Succinct GoGen.

(** the range of an integer type *)
Definition IntRange (c : core) (lo hi : Z) : Prop :=
  match c with
  | CByte | CUint8 => lo = 0 /\ hi = 2 ^ 8 - 1
  | CUint16 => lo = 0 /\ hi = 2 ^ 16 - 1
  | CUint32 => lo = 0 /\ hi = 2 ^ 32 - 1
  | CUint | CUint64 => lo = 0 /\ hi = 2 ^ 64 - 1
  | CInt8 => lo = - 2 ^ 7 /\ hi = 2 ^ 7 - 1
  | CInt16 => lo = - 2 ^ 15 /\ hi = 2 ^ 15 - 1
  | CInt32 => lo = - 2 ^ 31 /\ hi = 2 ^ 31 - 1
  | CInt | CInt64 => lo = - 2 ^ 63 /\ hi = 2 ^ 63 - 1
  | _ => False
  end%Z.

(** a declaration of the schema; the first of that name, if names are not unique *)
Definition Declaration (ts : list type) (kind d : string) (t : type) : Prop :=
  getType ts d = Some t /\ t_kind t = kind.
(** an enum over the type [c] *)
Definition EnumOver (ts : list type) (d : string) (t : type) (c : core) : Prop :=
  Declaration ts "enum" d t /\ exists v, t_type t = Some v /\ vt_expr v = core_to_string c.

(** times are represented by their text, as in RFC 3339 *)
Definition Digits (n : nat) (s : string) : Prop := String.length s = n /\ sforall is_digit_byte s = true.
Definition Rfc3339 (s : string) : Prop :=
  exists y mo d h mi se fr z, Digits 4 y /\ Digits 2 mo /\ Digits 2 d /\ Digits 2 h /\ Digits 2 mi /\ Digits 2 se /\
    (fr = "" \/ exists n ds, fr = ("." ++ ds)%string /\ Digits n ds) /\
    (z = "Z" \/ exists sign zh zm, (sign = "+" \/ sign = "-") /\ Digits 2 zh /\ Digits 2 zm /\ z = (sign ++ zh ++ ":" ++ zm)%string) /\
    s = (y ++ "-" ++ mo ++ "-" ++ d ++ "T" ++ h ++ ":" ++ mi ++ ":" ++ se ++ fr ++ z)%string.

(** [v] is a struct, or an alias of one *)
Inductive DenotesStruct (ts : list type) : varType -> Prop :=
| DS_struct e n d : DenotesStruct ts (VT e (ShStruct n d))
| DS_alias e n d t u : Declaration ts "alias" d t -> t_type t = Some u -> DenotesStruct ts u -> DenotesStruct ts (VT e (ShAlias n d)).
(** [v] is the type of bytes, or an alias of it *)
Inductive DenotesByte (ts : list type) : varType -> Prop :=
| DB_byte e c : c = CByte \/ c = CUint8 -> DenotesByte ts (VT e (ShCore c))
| DB_alias e n d t u : Declaration ts "alias" d t -> t_type t = Some u -> DenotesByte ts u -> DenotesByte ts (VT e (ShAlias n d)).

(** the field is not in the JSON: its last json entry is "-" *)
Definition Hidden (f : field) : Prop :=
  last (json_tags f) EmptyString = "-" /\ forall m, In m (f_meta f) -> assoc "go.tag.json" m = None.
Definition OmitEmpty (f : field) : Prop :=
  exists m s, In m (f_meta f) /\ assoc "go.tag.json" m = Some (Some s) /\ exists n, s = (n ++ ",omitempty")%string.

(** keys of maps and the texts they are written as *)
Inductive KeyValue (ts : list type) : varType -> gkey -> string -> Prop :=
| KV_text e s : ValidUtf8 s -> KeyValue ts (VT e (ShCore CString)) (KS s) s
| KV_int e c lo hi z : IntRange c lo hi -> (lo <= z <= hi)%Z -> KeyValue ts (VT e (ShCore c)) (KZ z) (zdec z)
| KV_member e n d t c f z : EnumOver ts d t c -> integer_core c -> In f (t_fields t) -> f_value f = zdec z ->
    KeyValue ts (VT e (ShEnum n d)) (KZ z) (f_name f)
| KV_memberText e n d t f : EnumOver ts d t CString -> In f (t_fields t) -> ValidUtf8 (f_value f) ->
    KeyValue ts (VT e (ShEnum n d)) (KS (f_value f)) (f_value f).

(** Values: integers in the range of their type, UTF-8 texts, declared members of enums, nil or lists and maps of
    values, nil or pointers to structs with a value for each field that is in the JSON. A map is represented by its
    entries in increasing order of their keys. *)
Inductive Value (ts : list type) : varType -> gval -> Prop :=
| V_bool e b : Value ts (VT e (ShCore CBool)) (VBool b)
| V_int e c lo hi z : IntRange c lo hi -> (lo <= z <= hi)%Z -> Value ts (VT e (ShCore c)) (VInt z)
| V_text e s : ValidUtf8 s -> Value ts (VT e (ShCore CString)) (VStr s)
| V_time e s : Rfc3339 s -> Value ts (VT e (ShCore CTimestamp)) (VStr s)
| V_big e z : Value ts (VT e (ShCore CBigInt)) (VBig z)
| V_any e j : JWf j -> Value ts (VT e (ShCore CAny)) (VAny j)
| V_member e n d t c f z : EnumOver ts d t c -> integer_core c -> In f (t_fields t) -> f_value f = zdec z ->
    Value ts (VT e (ShEnum n d)) (VEnum z)
| V_memberText e n d t f : EnumOver ts d t CString -> In f (t_fields t) -> ValidUtf8 (f_value f) ->
    Value ts (VT e (ShEnum n d)) (VStr (f_value f))
| V_nilList e u : ~ DenotesByte ts u -> Value ts (VT e (ShList u)) (VSlice None)
| V_list e u l : ~ DenotesByte ts u -> (forall x, In x l -> Value ts u x) -> Value ts (VT e (ShList u)) (VSlice (Some l))
| V_nilMap e k u : Value ts (VT e (ShMap k u)) (VMap None)
| V_map e k u m names :
    Forall2 (fun x n => KeyValue ts k (fst x) n) m names -> Increasing names ->
    (forall x y, In (x, y) m -> Value ts u y) ->
    Value ts (VT e (ShMap k u)) (VMap (Some m))
| V_nil e n d : Value ts (VT e (ShStruct n d)) (VPtr None)
| V_struct e n d t vs : Declaration ts "struct" d t -> FieldValues ts (t_fields t) vs ->
    Value ts (VT e (ShStruct n d)) (VPtr (Some (VStruct vs)))
| V_alias e n d t u x : Declaration ts "alias" d t -> t_type t = Some u -> Value ts u x -> Value ts (VT e (ShAlias n d)) x
(** optional fields and arguments are nil or pointers; structs are pointers already *)
with OptValue (ts : list type) : bool -> varType -> gval -> Prop :=
| O_given v x : Value ts v x -> OptValue ts false v x
| O_absent v : OptValue ts true v (VPtr None)
| O_struct v x : DenotesStruct ts v -> Value ts v x -> OptValue ts true v x
| O_present v x : ~ DenotesStruct ts v -> Value ts v x -> isNil x = false -> OptValue ts true v (VPtr (Some x))
(** empty lists and maps that omitempty leaves out would come back nil *)
with FieldValues (ts : list type) : list field -> list gval -> Prop :=
| F_nil : FieldValues ts [] []
| F_hidden f fs vs : Hidden f -> FieldValues ts fs vs -> FieldValues ts (f :: fs) vs
| F_cons f fs v x xs : ~ Hidden f -> f_type f = Some v -> OptValue ts (f_optional f) v x ->
    (OmitEmpty f -> x <> VSlice (Some []) /\ x <> VMap (Some [])) ->
    FieldValues ts fs xs -> FieldValues ts (f :: fs) (x :: xs).

(** the arguments and results of a method *)
Definition ArgValue (ts : list type) (a : arg) (x : gval) : Prop :=
  exists v, g_type a = Some v /\ OptValue ts (g_optional a) v x.
Definition ArgValues (ts : list type) (l : list arg) (xs : list gval) : Prop := Forall2 (ArgValue ts) l xs.

(** ** What the schema validation does not check, and the wire needs *)

(** the members of an enum over an integer type have different values *)
Definition DistinctMembers (ts : list type) : Prop :=
  forall t, In t ts -> t_kind t = "enum" -> NoDup (map f_value (t_fields t)).
(** the arguments have different names, and these are identifiers *)
Definition ArgNames (l : list arg) : Prop :=
  NoDup (map g_name l) /\ Forall (fun a => Identifier (g_name a)) l.
(** go.tag.json, if present, has the JSON name of the field *)
Definition TagsAgree (ts : list type) : Prop :=
  forall t f m s, In t ts -> t_kind t = "struct" -> In f (t_fields t) -> In m (f_meta f) -> assoc "go.tag.json" m = Some s ->
    s = Some (json_key f) \/ s = Some (json_key f ++ ",omitempty")%string.

(** ** The generated program *)

(** the arguments are not nested deeper than encoding/json reads *)
Definition Shallow (xs : list gval) : Prop := (N.of_nat (S (vsdepth xs)) <= maxNestingDepth)%N.

(** [svc] is what is generated for the service [v] of the valid schema [s], and the wire can tell its members and fields *)
Record GeneratedFor (s : schema) (v : Schema.service) (svc : mixedService) : Prop := {
  gf_valid : exists uriOk s0, validate uriOk s0 = Ok s;
  gf_service : In v (sc_services s);
  gf_program : exists n, goService n s v = Some svc;
  gf_members : DistinctMembers (sc_types s);
  gf_tags : TagsAgree (sc_types s)
}.
(** a method of the service that is neither streaming nor succinct / that is succinct *)
Definition OrdinaryMethod (v : Schema.service) (m : method) : Prop :=
  In m (v_methods v) /\ me_stream_in m = false /\ me_stream_out m = false /\ me_succinct m = false /\
  ArgNames (me_inputs m) /\ ArgNames (me_outputs m).
Definition SuccinctOne (v : Schema.service) (m : method) : Prop :=
  In m (v_methods v) /\ me_stream_in m = false /\ me_stream_out m = false /\ me_succinct m = true.

(** ** The schemas that have a generated program *)

(** the members of an enum over integers have values of the type, in plain decimal *)
Definition EnumFits (ts : list type) (d : string) : Prop :=
  exists t c, EnumOver ts d t c /\
    (c = CString \/ exists lo hi, integer_core c /\ IntRange c lo hi /\
       forall f, In f (t_fields t) -> exists z, f_value f = zdec z /\ (lo <= z <= hi)%Z).
(** types made of declared names: keys of maps are texts, integers or enums; aliases lead to types in finitely many steps *)
Inductive Complete (ts : list type) : varType -> Prop :=
| K_core e c : Complete ts (VT e (ShCore c))
| K_list e u : Complete ts u -> Complete ts (VT e (ShList u))
| K_mapCore e e' c u : (integer_core c \/ c = CString) -> Complete ts u -> Complete ts (VT e (ShMap (VT e' (ShCore c)) u))
| K_mapEnum e e' n d u : EnumFits ts d -> Complete ts u -> Complete ts (VT e (ShMap (VT e' (ShEnum n d)) u))
| K_struct e n d t : Declaration ts "struct" d t -> Complete ts (VT e (ShStruct n d))
| K_enum e n d : EnumFits ts d -> Complete ts (VT e (ShEnum n d))
| K_alias e n d t u : Declaration ts "alias" d t -> t_type t = Some u -> Complete ts u -> Complete ts (VT e (ShAlias n d)).

Definition CompleteArgs (ts : list type) (l : list arg) : Prop := forall a v, In a l -> g_type a = Some v -> Complete ts v.
(** a succinct method takes and returns one struct *)
Definition OneStruct (ts : list type) (l : list arg) : Prop :=
  exists a e n d, l = [a] /\ g_type a = Some (VT e (ShStruct n d)).
Record CompleteSchema (s : schema) : Prop := {
  cs_fields : forall t f v, In t (sc_types s) -> t_kind t = "struct" -> In f (t_fields t) -> f_type f = Some v -> Complete (sc_types s) v;
  cs_inputs : forall v m, In v (sc_services s) -> In m (v_methods v) -> CompleteArgs (sc_types s) (me_inputs m);
  cs_outputs : forall v m, In v (sc_services s) -> In m (v_methods v) -> CompleteArgs (sc_types s) (me_outputs m);
  cs_succinct : forall v m, In v (sc_services s) -> In m (v_methods v) -> me_succinct m = true ->
    OneStruct (sc_types s) (me_inputs m) /\ OneStruct (sc_types s) (me_outputs m)
}.
