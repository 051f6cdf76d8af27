(** Model of reading and writing a schema as JSON: schema/schema.go ToJSON (106-118),
    schema/parser.go ParseSchemaJSON (12-25), and what encoding/json does with the struct tags of
    schema/schema.go 18-27, type.go 15-40, error.go 8-15, service.go 8-49 and with
    VarType.MarshalJSON / UnmarshalJSON (var_type.go 27-53).

    The type [json] is reused, but in this file the text of a string (and of a member name) is the
    literal between the quotes as it stands in the document, escapes included: VarType.UnmarshalJSON
    works on that text.  [unq] gives the string it denotes.

    Simplifications: nil and empty slices are not distinguished and are written as [] (a schema read
    from RIDL has no nil slice in these places; one that was read from a JSON document with null for
    an array would be written with null again); of repeated members the last counts; member names are
    matched ignoring ASCII case only; a null entry of an array of objects is a nil pointer, which the
    validator dereferences: it is a panic here (in Go an error may be reported before); the members
    "optional" and "value" of a type, "value" and "meta" of an argument, which nothing in the
    repository reads, are dropped; a value of a meta entry that is not a string is kept as "not a
    string" and written as null; a null annotation is read as one with empty fields. *)
From Verif Require Import Base Utf8 Json GoVal Schema.

Definition quoteC : ascii := byte_of_N 34.

(** ** Strings *)

(** the string a literal denotes; None: not a literal *)
Definition unquoteLit (raw : string) : option string :=
  match readStr (S (S (String.length raw))) (raw ++ String quoteC EmptyString) with
  | Some (s, EmptyString) => Some s
  | _ => None
  end.
Definition unq (raw : string) : string :=
  match unquoteLit raw with Some s => s | None => EmptyString end.

(** encoding/json appendString with escapeHTML off (schema.go 110): as [escRune], but < > & stay *)
Definition escRuneN (r : N) : string :=
  if (r =? 60)%N || (r =? 62)%N || (r =? 38)%N then encode_rune r else escRune r.
Definition escFirstN (c : ascii) (s : string) : string * string :=
  let (r, s') := decode_rune c s in
  if (r =? replacement)%N && (String.length s' =? String.length s)%nat
  then (uEscape replacement, s')
  else (escRuneN r, s').
Fixpoint escNFuel (n : nat) (s : string) : string :=
  match n with
  | O => EmptyString
  | S k => match s with
           | EmptyString => EmptyString
           | String c r => let (o, r') := escFirstN c r in (o ++ escNFuel k r')%string
           end
  end.
Definition escN (s : string) : string := escNFuel (String.length s) s.
Definition jstr (s : string) : json := JStr (escN s).

(** fmt's %q, strconv appendEscapedRune with the double quote: what is written for one rune;
    [isPrint] is strconv.IsPrint *)
Definition hex2 (n : N) : string := String (hexDigit (n / 16 mod 16)) (String (hexDigit (n mod 16)) EmptyString).
Definition goEscRune (isPrint : N -> bool) (r : N) : string :=
  if (r =? 34)%N || (r =? 92)%N then chr 92 ++ chr r
  else if isPrint r then encode_rune r
  else if (r =? 7)%N then chr 92 ++ "a"
  else if (r =? 8)%N then chr 92 ++ "b"
  else if (r =? 12)%N then chr 92 ++ "f"
  else if (r =? 10)%N then chr 92 ++ "n"
  else if (r =? 13)%N then chr 92 ++ "r"
  else if (r =? 9)%N then chr 92 ++ "t"
  else if (r =? 11)%N then chr 92 ++ "v"
  else if (r <? 32)%N || (r =? 127)%N then (chr 92 ++ "x" ++ hex2 r)%string
  else if (r <? 65536)%N then uEscape r
  else (chr 92 ++ "U000" ++ String (hexDigit (r / 65536 mod 32)) (drop 2 (uEscape (r mod 65536))))%string.
(** strconv appendQuotedWith without the quotes; a byte that starts no rune is written as \xNN *)
Definition goEscFirst (isPrint : N -> bool) (c : ascii) (s : string) : string * string :=
  let (r, s') := decode_rune c s in
  if (r =? replacement)%N && (String.length s' =? String.length s)%nat
  then ((chr 92 ++ "x" ++ hex2 (N_of_byte c))%string, s')
  else (goEscRune isPrint r, s').
Fixpoint goEscFuel (isPrint : N -> bool) (n : nat) (s : string) : string :=
  match n with
  | O => EmptyString
  | S k => match s with
           | EmptyString => EmptyString
           | String c r => let (o, r') := goEscFirst isPrint c r in (o ++ goEscFuel isPrint k r')%string
           end
  end.
Definition goEsc (isPrint : N -> bool) (s : string) : string := goEscFuel isPrint (String.length s) s.

(** strconv.IsPrint; below U+00A0 exact.  Above, everything but the control characters, the soft
    hyphen, the space and format characters and the private planes is taken as printable
    (approximation of the Unicode tables; no theorem depends on it, they hold for any function). *)
Definition goIsPrint (r : N) : bool :=
  in_range 32 126 r || ((160 <? r)%N && negb (r =? 173)%N && negb (in_range 8192 8207 r) &&
    negb (in_range 8232 8239 r) && negb (in_range 57344 63743 r) && (r <? 0xE0000)%N && negb (r =? 65279)%N).

(** ** Writing *)

(** var_type.go 27-29 VarType.MarshalJSON; the encoder rejects it if it is no JSON string *)
Definition typeJ (isPrint : N -> bool) (v : varType) : option json :=
  let raw := goEsc isPrint (vt_expr v) in
  match unquoteLit raw with Some _ => Some (JStr raw) | None => None end.

(** a member that is left out when empty ("omitempty") *)
Definition omit (b : bool) (k : string) (j : json) : list (string * json) :=
  if b then [] else [(k, j)].
Definition strsJ (l : list string) : json := JArr (map jstr l).
Definition isNil {A} (l : list A) : bool := match l with [] => true | _ => false end.

(** encode.go mapEncoder: sorted by key, then written *)
Definition escKeys (l : list (string * json)) : list (string * json) :=
  map (fun kv => (escN (fst kv), snd kv)) l.

(** type.go 40 TypeFieldMeta, a Go map: sorted by key *)
Definition metaJ (m : metaMap) : json :=
  JObj (escKeys (sortKeys (map (fun kv => (fst kv, match snd kv with Some s => jstr s | None => JNull end)) m))).

Fixpoint optMap {A B} (f : A -> option B) (l : list A) : option (list B) :=
  match l with
  | [] => Some []
  | x :: r => match f x, optMap f r with Some y, Some ys => Some (y :: ys) | _, _ => None end
  end.

(** type.go 24-38 TypeField *)
Definition fieldJ (isPrint : N -> bool) (f : field) : option json :=
  match (match f_type f with
         | None => Some []
         | Some v => option_map (fun j => [("type", j)]) (typeJ isPrint v)
         end) with
  | None => None
  | Some ty => Some (JObj (
      omit (isNil (f_comments f)) "comments" (strsJ (f_comments f)) ++
      [("name", jstr (f_name f))] ++
      ty ++
      omit (negb (f_optional f)) "optional" (JBool true) ++
      omit (String.eqb (f_value f) "") "value" (jstr (f_value f)) ++
      omit (isNil (f_meta f)) "meta" (JArr (map metaJ (f_meta f)))))
  end.

(** type.go 15-22 Type *)
Definition declJ (isPrint : N -> bool) (t : type) : option json :=
  match (match t_type t with
         | None => Some []
         | Some v => option_map (fun j => [("type", j)]) (typeJ isPrint v)
         end), optMap (fieldJ isPrint) (t_fields t) with
  | Some ty, Some fs => Some (JObj (
      [("kind", jstr (t_kind t)); ("name", jstr (t_name t))] ++
      ty ++
      omit (isNil fs) "fields" (JArr fs) ++
      omit (isNil (t_meta t)) "meta" (JArr (map metaJ (t_meta t))) ++
      omit (isNil (t_comments t)) "comments" (strsJ (t_comments t))))
  | _, _ => None
  end.

(** error.go 8-15 Error *)
Definition errorJ (e : error) : json :=
  JObj [("code", JNum (zdec (x_code e))); ("name", jstr (x_name e));
        ("message", jstr (x_message e)); ("httpStatus", JNum (zdec (x_status e)))].

(** service.go 33-42 MethodArgument; "optional" of the argument hides that of the embedded struct *)
Definition argJ (isPrint : N -> bool) (a : arg) : option json :=
  match (match g_type a with None => Some JNull | Some v => typeJ isPrint v end) with
  | None => None
  | Some ty => Some (JObj [("name", jstr (g_name a)); ("type", ty); ("optional", JBool (g_optional a))])
  end.

(** service.go 44-49 Annotations, a Go map: sorted by key *)
Definition annotationJ (kv : string * (string * string)) : string * json :=
  (fst kv, JObj [("annotationType", jstr (fst (snd kv))); ("value", jstr (snd (snd kv)))]).
Definition annotationsJ (m : annotations) : json := JObj (escKeys (sortKeys (map annotationJ m))).

(** service.go 16-31 Method *)
Definition methodJ (isPrint : N -> bool) (m : method) : option json :=
  match optMap (argJ isPrint) (me_inputs m), optMap (argJ isPrint) (me_outputs m) with
  | Some ins, Some outs => Some (JObj (
      [("name", jstr (me_name m)); ("annotations", annotationsJ (me_annotations m));
       ("comments", strsJ (me_comments m))] ++
      omit (negb (me_succinct m)) "succinct" (JBool true) ++
      omit (negb (me_stream_in m)) "streamInput" (JBool true) ++
      omit (negb (me_stream_out m)) "streamOutput" (JBool true) ++
      [("inputs", JArr ins); ("outputs", JArr outs)] ++
      omit (isNil (me_errors m)) "errors" (strsJ (me_errors m))))
  | _, _ => None
  end.

(** service.go 8-14 Service *)
Definition serviceJ (isPrint : N -> bool) (s : service) : option json :=
  match optMap (methodJ isPrint) (v_methods s) with
  | Some ms => Some (JObj [("name", jstr (v_name s)); ("methods", JArr ms); ("comments", strsJ (v_comments s))])
  | None => None
  end.

(** schema.go 18-27 WebRPCSchema *)
Definition schemaJ (isPrint : N -> bool) (s : schema) : option json :=
  match optMap (declJ isPrint) (sc_types s), optMap (serviceJ isPrint) (sc_services s) with
  | Some ts, Some ss => Some (JObj
      [("webrpc", jstr (sc_webrpc s)); ("name", jstr (sc_name s)); ("version", jstr (sc_version s));
       ("basepath", jstr (sc_basepath s)); ("types", JArr ts); ("errors", JArr (map errorJ (sc_errors s)));
       ("services", JArr ss)])
  | _, _ => None
  end.

(** encoding/json Indent with prefix "" and indent " " (schema.go 111); [d] is the depth *)
Fixpoint spaces (n : nat) : string := match n with O => EmptyString | S k => String " " (spaces k) end.
Definition newline (d : nat) : string := String (byte_of_N 10) (spaces d).
Definition quoted (raw : string) : string := (chr 34 ++ raw ++ chr 34)%string.
Fixpoint printI (d : nat) (j : json) : string :=
  match j with
  | JNull => "null"
  | JBool true => "true"
  | JBool false => "false"
  | JNum l => l
  | JStr raw => quoted raw
  | JArr [] => "[]"
  | JArr l =>
      ("[" ++ (fix go (first : bool) (l : list json) : string :=
         match l with
         | [] => EmptyString
         | x :: r => ((if first then EmptyString else ",") ++ newline (S d) ++ printI (S d) x ++ go false r)%string
         end) true l ++ newline d ++ "]")%string
  | JObj [] => "{}"
  | JObj l =>
      ("{" ++ (fix go (first : bool) (l : list (string * json)) : string :=
         match l with
         | [] => EmptyString
         | (k, x) :: r => ((if first then EmptyString else ",") ++ newline (S d) ++ quoted k ++ ": " ++
                           printI (S d) x ++ go false r)%string
         end) true l ++ newline d ++ "}")%string
  end.

(** schema.go 106-118 ToJSON; None: the encoder reports an error *)
Definition toJSON (isPrint : N -> bool) (s : schema) : option string :=
  option_map (fun j => (printI 0 j ++ String (byte_of_N 10) EmptyString)%string) (schemaJ isPrint s).

(** ** Reading *)

(** the literal at the front of [r] (the opening quote is consumed): its text and what follows *)
Definition readLit (r : string) : option (string * string) :=
  match readStr (S (String.length r)) r with
  | Some (_, r') => Some (take (String.length r - String.length r' - 1) r, r')
  | None => None
  end.

(** [readVal] of Json.v with the texts of literals *)
Fixpoint rawVal (n : nat) (d : N) (s : string) : option (json * string) :=
  match n with
  | O => None
  | S k =>
      match skipWs s with
      | EmptyString => None
      | String c r =>
          let x := N_of_byte c in
          if (x =? 110)%N then option_map (pair JNull) (readWord "ull" r)
          else if (x =? 116)%N then option_map (pair (JBool true)) (readWord "rue" r)
          else if (x =? 102)%N then option_map (pair (JBool false)) (readWord "alse" r)
          else if (x =? 34)%N then
            match readLit r with
            | Some (t, r') => Some (JStr t, r')
            | None => None
            end
          else if (x =? 91)%N then
            if (d =? 0)%N then None else
            match skipWs r with
            | String c2 r2 =>
                if (N_of_byte c2 =? 93)%N then Some (JArr [], r2)
                else match rawElems k (d - 1)%N r with
                     | Some (l, r') => Some (JArr l, r')
                     | None => None
                     end
            | EmptyString => None
            end
          else if (x =? 123)%N then
            if (d =? 0)%N then None else
            match skipWs r with
            | String c2 r2 =>
                if (N_of_byte c2 =? 125)%N then Some (JObj [], r2)
                else match rawMembers k (d - 1)%N r with
                     | Some (l, r') => Some (JObj l, r')
                     | None => None
                     end
            | EmptyString => None
            end
          else match readNum (String c r) with
               | Some (l, r') => Some (JNum l, r')
               | None => None
               end
      end
  end
with rawElems (n : nat) (d : N) (s : string) : option (list json * string) :=
  match n with
  | O => None
  | S k =>
      match rawVal k d s with
      | None => None
      | Some (v, r) =>
          match skipWs r with
          | String c r' =>
              if (N_of_byte c =? 93)%N then Some ([v], r')
              else if (N_of_byte c =? 44)%N then
                match rawElems k d r' with
                | Some (l, r2) => Some (v :: l, r2)
                | None => None
                end
              else None
          | EmptyString => None
          end
      end
  end
with rawMembers (n : nat) (d : N) (s : string) : option (list (string * json) * string) :=
  match n with
  | O => None
  | S k =>
      match skipWs s with
      | EmptyString => None
      | String q r0 =>
          if (N_of_byte q =? 34)%N then
            match readLit r0 with
            | None => None
            | Some (key, r1) =>
                match skipWs r1 with
                | EmptyString => None
                | String c1 r2 =>
                    if (N_of_byte c1 =? 58)%N then
                      match rawVal k d r2 with
                      | None => None
                      | Some (v, r) =>
                          match skipWs r with
                          | String c r' =>
                              if (N_of_byte c =? 125)%N then Some ([(key, v)], r')
                              else if (N_of_byte c =? 44)%N then
                                match rawMembers k d r' with
                                | Some (l, r3) => Some ((key, v) :: l, r3)
                                | None => None
                                end
                              else None
                          | EmptyString => None
                          end
                      end
                    else None
                end
            end
          else None
      end
  end.
Definition parseRaw (s : string) : option json :=
  match rawVal (S (2 * String.length s)) maxNestingDepth s with
  | Some (j, r) => if isEmptyStr (skipWs r) then Some j else None
  | None => None
  end.

(** encoding/json: the member for the struct field with JSON name [k]; a missing member has the same
    effect as null: the field keeps its zero value *)
Definition memJ (k : string) (l : list (string * json)) : json :=
  fold_left (fun acc kv => if String.eqb (to_lower (unq (fst kv))) (to_lower k) then snd kv else acc) l JNull.

Definition jerr {A} : result A := Err "json: cannot unmarshal".
Definition asStr (j : json) : result string :=
  match j with JNull => Ok "" | JStr raw => Ok (unq raw) | _ => jerr end.
Definition asBool (j : json) : result bool :=
  match j with JNull => Ok false | JBool b => Ok b | _ => jerr end.
(** int is 64 bits wide *)
Definition asInt (j : json) : result Z :=
  match j with
  | JNull => Ok 0%Z
  | JNum l => match parseInt (- 2 ^ 63) (2 ^ 63 - 1) l with Some z => Ok z | None => jerr end
  | _ => jerr
  end.
Definition asList {A} (f : json -> result A) (j : json) : result (list A) :=
  match j with JNull => Ok [] | JArr l => mapM f l | _ => jerr end.
(** a pointer to a struct inside an array *)
Definition asObj {A} (f : list (string * json) -> result A) (j : json) : result A :=
  match j with JNull => Panic | JObj l => f l | _ => jerr end.

(** var_type.go 31-53 VarType.UnmarshalJSON; the text between the quotes is taken as it is *)
Definition asType (j : json) : result (option varType) :=
  match j with
  | JNull => Ok None
  | JStr raw => if String.eqb raw "" then Err "json error: type cannot be empty"
                else Ok (Some (VT raw ShUnknown))
  | _ => Err "json error: string value is expected"
  end.

(** a Go map filled member by member: of equal keys the last stays *)
Fixpoint lastOnly {A} (l : list (string * A)) : list (string * A) :=
  match l with
  | [] => []
  | x :: r => if existsb (fun y => String.eqb (fst x) (fst y)) r then lastOnly r else x :: lastOnly r
  end.

Definition asMeta (j : json) : result metaMap :=
  match j with
  | JNull => Ok []
  | JObj l => Ok (lastOnly (map (fun kv => (unq (fst kv), match snd kv with JStr raw => Some (unq raw) | _ => None end)) l))
  | _ => jerr
  end.

Definition asField : json -> result field := asObj (fun l =>
  do c <- asList asStr (memJ "comments" l);
  do n <- asStr (memJ "name" l);
  do ty <- asType (memJ "type" l);
  do o <- asBool (memJ "optional" l);
  do v <- asStr (memJ "value" l);
  do m <- asList asMeta (memJ "meta" l);
  Ok (Field n ty o v m c)).

Definition asDecl : json -> result (ident -> type) := asObj (fun l =>
  do k <- asStr (memJ "kind" l);
  do n <- asStr (memJ "name" l);
  do ty <- asType (memJ "type" l);
  do fs <- asList asField (memJ "fields" l);
  do m <- asList asMeta (memJ "meta" l);
  do c <- asList asStr (memJ "comments" l);
  Ok (fun i => Type_ i k n ty fs m c)).

Definition asError : json -> result (ident -> error) := asObj (fun l =>
  do c <- asInt (memJ "code" l);
  do n <- asStr (memJ "name" l);
  do m <- asStr (memJ "message" l);
  do h <- asInt (memJ "httpStatus" l);
  Ok (fun i => Error_ i c n m h)).

Definition asArg : json -> result arg := asObj (fun l =>
  do n <- asStr (memJ "name" l);
  do ty <- asType (memJ "type" l);
  do o <- asBool (memJ "optional" l);
  Ok (Arg_ n ty o)).

Definition asAnnotation (j : json) : result (string * string) :=
  match j with
  | JNull => Ok ("", "")
  | JObj l =>
      do t <- asStr (memJ "annotationType" l);
      do v <- asStr (memJ "value" l);
      Ok (t, v)
  | _ => jerr
  end.
Definition asAnnotations (j : json) : result annotations :=
  match j with
  | JNull => Ok []
  | JObj l => do m <- mapM (fun kv => do a <- asAnnotation (snd kv); Ok (unq (fst kv), a)) l; Ok (lastOnly m)
  | _ => jerr
  end.

Definition asMethod : json -> result method := asObj (fun l =>
  do n <- asStr (memJ "name" l);
  do a <- asAnnotations (memJ "annotations" l);
  do c <- asList asStr (memJ "comments" l);
  do su <- asBool (memJ "succinct" l);
  do si <- asBool (memJ "streamInput" l);
  do so <- asBool (memJ "streamOutput" l);
  do ins <- asList asArg (memJ "inputs" l);
  do outs <- asList asArg (memJ "outputs" l);
  do es <- asList asStr (memJ "errors" l);
  Ok (Method_ n a c su si so ins outs es)).

Definition asService : json -> result (ident -> service) := asObj (fun l =>
  do n <- asStr (memJ "name" l);
  do ms <- asList asMethod (memJ "methods" l);
  do c <- asList asStr (memJ "comments" l);
  Ok (fun i => Service_ i n ms c)).

(** every entry of the document is a new value: its position is its identity *)
Fixpoint numberJ {A} (n : nat) (l : list (ident -> A)) : list A :=
  match l with
  | [] => []
  | f :: r => f ("", n) :: numberJ (S n) r
  end.

(** json.Unmarshal into a *WebRPCSchema; null leaves it nil, and Validate dereferences it *)
Definition asSchema : json -> result schema := asObj (fun l =>
  do w <- asStr (memJ "webrpc" l);
  do n <- asStr (memJ "name" l);
  do v <- asStr (memJ "version" l);
  do b <- asStr (memJ "basepath" l);
  do ts <- asList asDecl (memJ "types" l);
  do es <- asList asError (memJ "errors" l);
  do ss <- asList asService (memJ "services" l);
  Ok (Schema_ w n v b (numberJ 0 ts) (numberJ 0 es) (numberJ 0 ss))).

(** parser.go 12-25 ParseSchemaJSON *)
Definition parseSchemaJSON (uriOk : string -> bool) (text : string) : result schema :=
  match parseRaw text with
  | None => Err "json: syntax error"
  | Some j => do s <- asSchema j; validate uriOk s
  end.
