(** Model of package schema: core_type.go, var_type.go, type.go, error.go,
    service.go, schema.go (Validate and lookups), parser.go (IsValidArgName).

    Pointers.  A Go [*Type], [*Error] or [*Service] in a schema is modelled by a
    value carrying an identity ([t_id] etc.), so that the pointer comparisons
    of the code (type.go 55, service.go 63, ridl.go 186 and 191) can be
    expressed.  A [*Type] inside a VarType is modelled by the declared name of
    its target.  Comments are carried but never inspected.  Entries of the
    JSON arrays "types", "errors", "services", "methods" that are [null] (nil
    pointers in Go, a panic) are not modelled. *)
From Verif Require Import Base.

(** ** core_type.go *)

(** core_type.go 10-45, except T_Unknown, T_Struct, T_Enum, T_Alias, T_List and
    T_Map, which are constructors of [shape] below *)
Inductive core :=
| CNull | CAny | CByte | CBool
| CUint | CUint8 | CUint16 | CUint32 | CUint64
| CInt | CInt8 | CInt16 | CInt32 | CInt64
| CBigInt | CFloat32 | CFloat64 | CString | CTimestamp.

Definition core_eq_dec : forall a b : core, {a = b} + {a <> b}.
Proof. decide equality. Defined.
Definition core_eqb (a b : core) : bool := if core_eq_dec a b then true else false.

(** core_type.go 47-76 CoreTypeToString *)
Definition core_to_string (c : core) : string :=
  match c with
  | CNull => "null" | CAny => "any" | CByte => "byte" | CBool => "bool"
  | CUint => "uint" | CUint8 => "uint8" | CUint16 => "uint16"
  | CUint32 => "uint32" | CUint64 => "uint64"
  | CInt => "int" | CInt8 => "int8" | CInt16 => "int16"
  | CInt32 => "int32" | CInt64 => "int64"
  | CBigInt => "bigint" | CFloat32 => "float32" | CFloat64 => "float64"
  | CString => "string" | CTimestamp => "timestamp"
  end.

(** core_type.go 83-112 CoreTypeFromString.  The entries "map" and "[]" are
    represented by [inr]: [true] for the list marker, [false] for map. *)
Definition core_table : list (string * (core + bool)) :=
  [("null", inl CNull); ("any", inl CAny); ("byte", inl CByte); ("bool", inl CBool);
   ("uint", inl CUint); ("uint8", inl CUint8); ("uint16", inl CUint16);
   ("uint32", inl CUint32); ("uint64", inl CUint64);
   ("int", inl CInt); ("int8", inl CInt8); ("int16", inl CInt16);
   ("int32", inl CInt32); ("int64", inl CInt64);
   ("bigint", inl CBigInt); ("float32", inl CFloat32); ("float64", inl CFloat64);
   ("string", inl CString); ("timestamp", inl CTimestamp);
   ("map", inr false); ("[]", inr true)].
Definition core_from_string (s : string) : option (core + bool) := assoc s core_table.

(** ** var_type.go *)

(** var_type.go 8-18: [Expr] plus the parsed structure.  The struct keeps one
    pointer per kind; exactly the one selected by [Type] is meaningful, which
    is what [shape] records. *)
Inductive varType := VT (expr : string) (sh : shape)
with shape :=
| ShUnknown
| ShCore (c : core)
| ShList (elem : varType)
| ShMap (key value : varType)
| ShStruct (name : string) (decl : string)   (* Name, and declared name of Type *)
| ShEnum (name : string) (decl : string)
| ShAlias (name : string) (decl : string).

Definition vt_expr (v : varType) : string := match v with VT e _ => e end.
Definition vt_shape (v : varType) : shape := match v with VT _ s => s end.
Definition vt_zero : varType := VT "" ShUnknown.

(** type.go 40 TypeFieldMeta: map[string]interface{}; [None] is a value that is
    not a string *)
Definition metaMap := list (string * option string).

(** type.go 24-38 TypeField and TypeExtra *)
Record field := Field { f_name : string; f_type : option varType; f_optional : bool;
                        f_value : string; f_meta : list metaMap; f_comments : list string }.

(** identity of a declaration: file and index *)
Definition ident := (string * nat)%type.
Definition ident_eqb (a b : ident) : bool :=
  String.eqb (fst a) (fst b) && (snd a =? snd b).

(** type.go 15-22 Type *)
Record type := Type_ { t_id : ident; t_kind : string; t_name : string;
                       t_type : option varType; t_fields : list field;
                       t_meta : list metaMap; t_comments : list string }.

(** error.go 8-15 *)
Record error := Error_ { x_id : ident; x_code : Z; x_name : string; x_message : string;
                         x_status : Z }.

(** service.go 33-42 MethodArgument *)
Record arg := Arg_ { g_name : string; g_type : option varType; g_optional : bool }.

(** service.go 44-49: Annotations map[string]*Annotation as an association list
    key -> (AnnotationType, Value) *)
Definition annotations := list (string * (string * string)).

(** service.go 16-31 Method *)
Record method := Method_ { me_name : string; me_annotations : annotations;
                           me_comments : list string; me_succinct : bool;
                           me_stream_in : bool; me_stream_out : bool;
                           me_inputs : list arg; me_outputs : list arg;
                           me_errors : list string }.

(** service.go 8-14 Service *)
Record service := Service_ { v_id : ident; v_name : string; v_methods : list method;
                             v_comments : list string }.

(** schema.go 18-27 WebRPCSchema *)
Record schema := Schema_ { sc_webrpc : string; sc_name : string; sc_version : string;
                           sc_basepath : string; sc_types : list type;
                           sc_errors : list error; sc_services : list service }.

(** schema.go 121-129 GetTypeByName *)
Definition getTypeByName (ts : list type) (name : string) : option type :=
  find (fun t => String.eqb (to_lower (t_name t)) (to_lower name)) ts.

(** schema.go 131-139 GetServiceByName *)
Definition getServiceByName (ss : list service) (name : string) : option service :=
  find (fun t => String.eqb (to_lower (v_name t)) (to_lower name)) ss.

(** var_type.go 258-265 getType *)
Definition getType (ts : list type) (name : string) : option type :=
  find (fun t => String.eqb name (t_name t)) ts.

(** var_type.go 267-273 *)
Definition varIntegerCoreTypes : list core :=
  [CUint; CUint8; CUint16; CUint32; CUint64; CInt; CInt8; CInt16; CInt32; CInt64].
Definition varKeyCoreTypes : list core := CString :: varIntegerCoreTypes.

(** var_type.go 275-290 isValidVarType, isValidVarKeyType *)
Definition isValidVarType (s : string) (allowed : list core) : bool :=
  match core_from_string s with
  | Some (inl c) => existsb (core_eqb c) allowed
  | _ => false
  end.
Definition isValidVarKeyType (s : string) : bool := isValidVarType s varKeyCoreTypes.

(** var_type.go 248-256 *)
Definition isListExpr (e : string) : bool := has_prefix "[]" e.
Definition isMapExpr (e : string) : bool := has_prefix "map<" e.

(** var_type.go 189-214 parseMapExpr *)
Definition parseMapExpr (e : string) : result (string * string) :=
  if isMapExpr e then
    let e1 := drop 3 e in
    if has_suffix ">" e1 then
      let inner := take (String.length e1 - 2) (drop 1 e1) in
      match index_byte ","%char inner with
      | None => Err "schema error: invalid map syntax"
      | Some p => Ok (take p inner, drop (S p) inner)
      end
    else Err "schema error: invalid map syntax"
  else Err "schema error: invalid map expr".

(** [t.Type.Type != T_Enum] of var_type.go 142: nil dereference when the type
    has no VarType (structs; aliases that are not resolved yet) *)
Definition keyIsEnum (t : type) : result bool :=
  if String.eqb (t_kind t) "enum" then Ok true
  else match t_type t with
       | None => Panic
       | Some (VT _ (ShEnum _ _)) => Ok true
       | Some _ => Ok false
       end.

(** var_type.go 91-187 ParseVarTypeExpr.  The Go function fills [vt]; the model
    returns it.  [vt] is left unchanged for an empty expression (92-94), which
    only happens for zero-valued components.  Recursion is on the length of the
    expression (fuel). *)
Fixpoint parseVT (n : nat) (ts : list type) (e : string) : result varType :=
  match n with
  | O => OutOfFuel
  | S n =>
      if String.eqb e "" then Ok vt_zero
      else
        let named :=
          match getType ts e with
          | None => Err "schema error: invalid type"
          | Some t =>
              if String.eqb (t_kind t) "struct" then Ok (VT e (ShStruct e (t_name t)))
              else if String.eqb (t_kind t) "enum" then Ok (VT e (ShEnum e (t_name t)))
              else if String.eqb (t_kind t) "alias" then Ok (VT e (ShAlias e (t_name t)))
              else Err "schema error: unexpected type"
          end in
        let list_ :=
          do el <- parseVT n ts (trim_prefix "[]" e);
          Ok (VT e (ShList el)) in
        let map_ :=
          do kv <- parseMapExpr e;
          let (key, value) := (kv : string * string) in
          let rest (k : varType) :=
            do v <- parseVT n ts value;
            Ok (VT e (ShMap k v)) in
          match core_from_string key with
          | Some c =>
              if isValidVarKeyType key then
                match c with
                | inl kc => rest (VT key (ShCore kc))
                | inr _ => Err "schema error: invalid map key"
                end
              else Err "schema error: invalid map key"
          | None =>
              match getTypeByName ts key with
              | None => Err "schema error: invalid map key"
              | Some t =>
                  do b <- keyIsEnum t;
                  if (b : bool) then rest (VT key (ShEnum key (t_name t)))
                  else Err "schema error: invalid map key"
              end
          end in
        match core_from_string e with
        | Some (inl c) => Ok (VT e (ShCore c))
        | Some (inr true) => list_
        | Some (inr false) => map_
        | None => if isListExpr e then list_ else if isMapExpr e then map_ else named
        end
  end.
Definition parseVarTypeExpr (ts : list type) (e : string) : result varType :=
  parseVT (S (String.length e)) ts e.

(** var_type.go 216-246 buildVarTypeExpr with an empty prefix.  For a list the
    code passes its own (empty) prefix on, so the prefix is always "". *)
Fixpoint buildExpr (v : varType) : string :=
  match v with
  | VT _ ShUnknown => "<unknown>"
  | VT _ (ShCore c) => core_to_string c
  | VT _ (ShList el) => "[]" ++ buildExpr el
  | VT _ (ShMap k w) => "map<" ++ vt_expr k ++ "," ++ buildExpr w ++ ">"
  | VT _ (ShStruct n _) => n
  | VT _ (ShEnum n _) => n
  | VT _ (ShAlias n _) => n
  end%string.

(** var_type.go 55-65 VarType.Parse; a nil receiver panics on t.Expr *)
Definition vtParse (ts : list type) (v : option varType) : result varType :=
  match v with
  | None => Panic
  | Some v =>
      if String.eqb (vt_expr v) "" then Err "schema error: type expr cannot be empty"
      else do v' <- parseVarTypeExpr ts (vt_expr v);
           Ok (VT (buildExpr v') (vt_shape v'))
  end.

(** ** parser.go 27-34 IsValidArgName: ^[a-zA-Z]+[a-zA-Z0-9_]*$ *)
Definition is_arg_char (c : ascii) : bool :=
  is_alpha_byte c || is_digit_byte c || Ascii.eqb c "_"%char.
Definition isValidArgName (s : string) : bool :=
  match s with
  | EmptyString => false
  | String c r => is_alpha_byte c && sforall is_arg_char r
  end.

(** type.go 178-186 startsWithUpper: unicode.IsUpper of the first byte taken
    as a rune: A-Z and the Latin-1 capitals *)
Definition is_upper_latin1 (c : ascii) : bool :=
  is_upper_byte c ||
  (in_range 192 222 (N_of_byte c) && negb (N_of_byte c =? 215)%N).
Definition startsWithUpper (s : string) : bool :=
  match s with EmptyString => false | String c _ => is_upper_latin1 c end.

(** ** type.go *)

(** type.go 98-117: the JSON name of a field *)
Fixpoint jsonName (ms : list metaMap) (name : string) : result string :=
  match ms with
  | [] => Ok name
  | m :: r =>
      match assoc "json" m with
      | None => jsonName r name
      | Some None => Err "schema error: invalid json type"
      | Some (Some s) =>
          if String.eqb s "-" then jsonName r name
          else if isValidArgName s then jsonName r s
          else Err "schema error: invalid json name"
      end
  end.

(** type.go 75-125: the field loop; [seen]/[jseen] are the key sets of
    fieldList and jsonFieldList *)
Fixpoint checkFields (fs : list field) (seen jseen : list string) : result unit :=
  match fs with
  | [] => Ok tt
  | f :: r =>
      if String.eqb (f_name f) "" then Err "schema error: detected empty field name"
      else if negb (isValidArgName (f_name f)) then Err "schema error: invalid field name"
      else if str_in (to_lower (f_name f)) seen then Err "schema error: duplicate field name"
      else
        do j <- jsonName (f_meta f) (f_name f);
        if str_in (to_lower j) jseen then Err "schema error: duplicate json name"
        else checkFields r (to_lower (f_name f) :: seen) (to_lower j :: jseen)
  end.

(** type.go 130-137 *)
Fixpoint checkEnumFields (fs : list field) : result unit :=
  match fs with
  | [] => Ok tt
  | f :: r =>
      if String.eqb (f_value f) "" then Err "schema error: enum field is missing value"
      else match f_type f with
           | Some _ => Err "schema error: enum field must omit type"
           | None => checkEnumFields r
           end
  end.

(** type.go 149-160: parse one struct field *)
Definition parseField (ts : list type) (f : field) : result field :=
  do v <- vtParse ts (f_type f);
  if String.eqb (f_value f) ""
  then Ok (Field (f_name f) (Some v) (f_optional f) (f_value f) (f_meta f) (f_comments f))
  else Err "schema error: struct field cannot contain value".

(** VarType.String on a possibly nil pointer, var_type.go 20-25 *)
Definition vtString (v : option varType) : string :=
  match v with None => "" | Some v => vt_expr v end.

(** type.go 42-165 Type.Parse; returns the updated type *)
Definition typeParse (ts : list type) (t : type) : result type :=
  if String.eqb (t_name t) "" then Err "schema error: type name cannot be empty"
  else if negb (startsWithUpper (t_name t)) then Err "schema error: type name must start with upper case"
  else if existsb (fun u => negb (ident_eqb (t_id u) (t_id t)) &&
                            String.eqb (to_lower (t_name t)) (to_lower (t_name u))) ts
  then Err "schema error: type was already declared"
  else if negb (str_in (t_kind t) ["enum"; "struct"; "alias"]) then Err "schema error: bad kind"
  else if String.eqb (t_kind t) "alias" then
    match t_type t with
    | None => Err "schema error: alias must have an underlying type"
    | Some _ => Ok t
    end
  else
    do _ <- checkFields (t_fields t) [] [];
    if String.eqb (t_kind t) "enum" then
      do _ <- checkEnumFields (t_fields t);
      if isValidVarType (vtString (t_type t)) (varIntegerCoreTypes ++ [CString])
      then Ok t else Err "schema error: enum type must be an integer type"
    else
      do fs <- mapM (parseField ts) (t_fields t);
      Ok (Type_ (t_id t) (t_kind t) (t_name t) (t_type t) fs (t_meta t) (t_comments t)).

(** type.go 167-176 RequiredFields *)
Definition requiredFields (t : type) : list field :=
  filter (fun f => negb (f_optional f)) (t_fields t).

(** ** error.go *)

(** strings.TrimSpace, ASCII white space only (simplification: Go also trims
    the Unicode spaces) *)
Definition is_space_byte (c : ascii) : bool :=
  in_range 9 13 (N_of_byte c) || (N_of_byte c =? 32)%N.
Fixpoint trim_left (p : ascii -> bool) (s : string) : string :=
  match s with
  | EmptyString => EmptyString
  | String c r => if p c then trim_left p r else s
  end.
Fixpoint trim_right (p : ascii -> bool) (s : string) : string :=
  match s with
  | EmptyString => EmptyString
  | String c r => match trim_right p r with
                  | EmptyString => if p c then EmptyString else String c EmptyString
                  | t => String c t
                  end
  end.
Definition trim_space (s : string) : string := trim_right is_space_byte (trim_left is_space_byte s).

(** error.go 38-51: the duplicate check over all errors *)
Fixpoint checkErrorDups (es : list error) (names : list string) (codes : list Z) : result unit :=
  match es with
  | [] => Ok tt
  | e :: r =>
      if str_in (to_lower (x_name e)) names then Err "schema error: duplicate error name"
      else if existsb (Z.eqb (x_code e)) codes then Err "schema error: duplicate error code"
      else checkErrorDups r (to_lower (x_name e) :: names) (x_code e :: codes)
  end.

(** error.go 17-54 Error.Parse for the error that follows [before] (already
    parsed, hence trimmed) and precedes [after] *)
Definition errorParse (before : list error) (e : error) (after : list error) : result error :=
  let e' := Error_ (x_id e) (x_code e) (trim_space (x_name e)) (x_message e) (x_status e) in
  if String.eqb (x_name e') "" then Err "schema error name cannot be empty"
  else if (x_code e' <=? 0)%Z then Err "schema error code must be positive number"
  else if negb (startsWithUpper (x_name e')) then Err "schema error name must start with upper case"
  else if has_prefix "webrpc" (to_lower (x_name e')) then Err "schema error name cannot start with Webrpc"
  else if String.eqb (x_message e') "" then Err "schema error: message cannot be empty"
  else if ((x_status e' <? 400) || (599 <? x_status e'))%Z then Err "schema error: invalid HTTP status code"
  else do _ <- checkErrorDups (before ++ e' :: after) [] [];
       Ok e'.

(** schema.go 76-81 *)
Fixpoint parseErrors (before todo : list error) : result (list error) :=
  match todo with
  | [] => Ok before
  | e :: r => do e' <- errorParse before e r; parseErrors (before ++ [e']) r
  end.

(** ** service.go *)

(** service.go 111-120 and 126-135 *)
Definition parseArg (ts : list type) (a : arg) : result arg :=
  if String.eqb (g_name a) "" then Err "schema error: detected empty argument name"
  else do v <- vtParse ts (g_type a); Ok (Arg_ (g_name a) (Some v) (g_optional a)).

(** service.go 100-154 Method.Parse *)
Definition methodParse (ts : list type) (es : list error) (m : method) : result method :=
  if (1 <? length (me_inputs m)) && me_succinct m then
    Err "schema error: multiple input arguments using succinct form"
  else
    do ins <- mapM (parseArg ts) (me_inputs m);
    if (1 <? length (me_outputs m)) && me_succinct m then
      Err "schema error: multiple output arguments using succinct form"
    else
      do outs <- mapM (parseArg ts) (me_outputs m);
      if forallb (fun n => existsb (fun e => String.eqb (x_name e) n) es) (me_errors m)
      then Ok (Method_ (me_name m) (me_annotations m) (me_comments m) (me_succinct m)
                       (me_stream_in m) (me_stream_out m) ins outs (me_errors m))
      else Err "schema error: method references undefined error".

(** service.go 73-87 *)
Fixpoint checkMethodNames (ms : list method) (seen : list string) : result unit :=
  match ms with
  | [] => Ok tt
  | m :: r =>
      if String.eqb (me_name m) "" then Err "schema error: detected empty method name"
      else if str_in (to_lower (me_name m)) seen then Err "schema error: duplicate method name"
      else checkMethodNames r (to_lower (me_name m) :: seen)
  end.

(** service.go 51-98 Service.Parse *)
Definition serviceParse (ts : list type) (es : list error) (ss : list service) (s : service)
  : result service :=
  if String.eqb (v_name s) "" then Err "schema error: service name cannot be empty"
  else if existsb (fun u => negb (ident_eqb (v_id u) (v_id s)) &&
                            String.eqb (to_lower (v_name s)) (to_lower (v_name u))) ss
  then Err "schema error: duplicate service name"
  else match v_methods s with
       | [] => Err "schema error: methods cannot be empty"
       | _ =>
           do _ <- checkMethodNames (v_methods s) [];
           do ms <- mapM (methodParse ts es) (v_methods s);
           Ok (Service_ (v_id s) (v_name s) ms (v_comments s))
       end.

(** ** schema.go 31-91 Validate *)

(** does [s] contain the substring [p]: strings.Contains *)
Fixpoint contains (p s : string) : bool :=
  has_prefix p s ||
  match s with EmptyString => false | String _ r => contains p r end.

(** strings.ContainsAny *)
Definition containsAny (s chars : string) : bool :=
  sexists (fun c => contains_byte c chars) s.

Definition basepathSpaces : string :=
  String " "%char (String "009"%char (String "013"%char (String "010"%char ""))).

(** schema.go 40-67.  [uriOk] stands for: url.ParseRequestURI succeeds on the
    path and the result has no scheme, host, opaque part or user (54-60). *)
Definition checkBasePath (uriOk : string -> bool) (b : string) : result string :=
  if String.eqb b "" then Ok ""
  else if containsAny b basepathSpaces then Err "schema error: basepath must not contain whitespace"
  else if containsAny b "?#" then Err "schema error: basepath must not include query or fragment"
  else if contains "://" b then Err "schema error: basepath must be a path, not a URL"
  else
    let p := if has_prefix "/" b then b else ("/" ++ b)%string in
    if negb (uriOk p) then Err "schema error: basepath is invalid"
    else Ok (if has_suffix "/" p then p else (p ++ "/")%string).

Definition validate (uriOk : string -> bool) (s : schema) : result schema :=
  if negb (String.eqb (sc_webrpc s) "v1") then Err "webrpc schema version is invalid"
  else if negb (length (sc_services s) =? 0) && String.eqb (sc_version s) ""
  then Err "schema error: version is required when services are defined"
  else
    do b <- checkBasePath uriOk (sc_basepath s);
    do ts <- mapM (typeParse (sc_types s)) (sc_types s);
    do es <- parseErrors [] (sc_errors s);
    do ss <- mapM (serviceParse ts es (sc_services s)) (sc_services s);
    Ok (Schema_ (sc_webrpc s) (sc_name s) (sc_version s) b ts es ss).
