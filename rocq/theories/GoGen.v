(** From a schema to the description of the Go code that is generated for it: the types of fields, arguments and
    results, the structs, and the methods of a service.

    The templates are not in the repository.  The model is what the committed generated files show:
    tests/schema/test.ridl gives tests/server/server.gen.go 58-201 and 315-631,
    _examples/golang-basics/example.ridl gives example.gen.go 36-300, and likewise golang-imports, node-ts and
    hello-webrpc; GoGenExamples.v computes the descriptions of these files from the schemas.

    Simplifications: types the value model of GoVal.v does not have (null, floats, and lists of bytes, which
    encoding/json writes in base64) become [otherTy], a struct that is not declared, of which only nil is a value; a
    time.Time is its text; of several json entries of one field the last counts; an enum whose values are not written
    in plain decimal or do not fit its type is not described (the Go compiler rejects most of these); a pointer is
    put before every optional type but structs, which are pointers already. *)
From Verif Require Import Base Utf8 Schema Json GoVal Rpc Succinct.

Definition otherTy : goTy := TRef EmptyString.

(** the Go types of the core types, e.g. server.gen.go 170-201; BigInt: node-ts server-go/example.gen.go 124-133;
    *time.Time: hello_api.gen.go 109 *)
Definition coreTy (c : core) : goTy :=
  match c with
  | CAny => TAny
  | CBool => TBool
  | CByte | CUint8 => TInt 0 255
  | CUint16 => TInt 0 65535
  | CUint32 => TInt 0 4294967295
  | CUint | CUint64 => TInt 0 18446744073709551615
  | CInt8 => TInt (-128) 127
  | CInt16 => TInt (-32768) 32767
  | CInt32 => TInt (-2147483648) 2147483647
  | CInt | CInt64 => TInt (-9223372036854775808) 9223372036854775807
  | CBigInt => TBig
  | CString | CTimestamp => TString
  | CNull | CFloat32 | CFloat64 => otherTy
  end.

(** the table of an enum, server.gen.go 65-82: member names and constants *)
Fixpoint enumRows (lo hi : Z) (fs : list field) : option enumTable :=
  match fs with
  | [] => Some []
  | f :: r =>
      match parseInt lo hi (f_value f), enumRows lo hi r with
      | Some z, Some t => if String.eqb (zdec z) (f_value f) then Some ((f_name f, z) :: t) else None
      | _, _ => None
      end
  end.
(** server.gen.go 58-106; a string enum is a text, example.gen.go 123-149: its MarshalText and UnmarshalText
    write and accept any text *)
Definition enumTy (ts : list type) (d : string) : option goTy :=
  match getType ts d with
  | Some t =>
      if String.eqb (t_kind t) "enum" then
        match core_from_string (vtString (t_type t)) with
        | Some (inl c) =>
            match coreTy c with
            | TInt lo hi => option_map TEnum (enumRows lo hi (t_fields t))
            | TString => Some TString
            | _ => None
            end
        | _ => None
        end
      else None
  | None => None
  end.

(** the key type of a map *)
Definition keyOf (ts : list type) (k : varType) : option keyTy :=
  match vt_shape k with
  | ShCore c => match coreTy c with TInt lo hi => Some (KInt lo hi) | TString => Some KString | _ => None end
  | ShEnum _ d =>
      match enumTy ts d with
      | Some (TEnum t) => Some (KEnum t)
      | Some TString => Some KString
      | _ => None
      end
  | _ => None
  end.

(** encoding/json writes a slice of bytes in base64 *)
Definition sliceOf (t : goTy) : goTy :=
  match t with TInt 0 255 => otherTy | _ => TSlice t end.

(** the Go type of a type; [alias] gives that of an alias *)
Fixpoint tyOf (ts : list type) (alias : string -> option goTy) (v : varType) : option goTy :=
  match v with
  | VT _ sh =>
      match sh with
      | ShUnknown => None
      | ShCore c => Some (coreTy c)
      | ShList e => option_map sliceOf (tyOf ts alias e)
      | ShMap k e => match keyOf ts k, tyOf ts alias e with Some k', Some t => Some (TMap k' t) | _, _ => None end
      | ShStruct _ d => Some (TRef d)
      | ShEnum _ d => enumTy ts d
      | ShAlias _ d => alias d
      end
  end.
(** [n] aliases may be followed *)
Fixpoint aliasTy (n : nat) (ts : list type) (d : string) : option goTy :=
  match n with
  | O => None
  | S k =>
      match getType ts d with
      | Some t =>
          if String.eqb (t_kind t) "alias" then
            match t_type t with Some v => tyOf ts (aliasTy k ts) v | None => None end
          else None
      | None => None
      end
  end.
Definition goTyOf (n : nat) (ts : list type) (v : varType) : option goTy := tyOf ts (aliasTy n ts) v.

(** optional: node-ts server-go/example.gen.go 128, 146; chat.gen.go *)
Definition optTy (t : goTy) : goTy := match t with TRef _ => t | _ => TOpt t end.
Definition declaredTy (n : nat) (ts : list type) (optional : bool) (o : option varType) : option goTy :=
  match o with
  | None => None
  | Some v => option_map (fun t => if optional then optTy t else t) (goTyOf n ts v)
  end.

(** ** structs *)

(** the last text of a meta entry *)
Definition metaText (key : string) (f : field) : option string :=
  fold_left (fun acc m => match assoc key m with Some (Some s) => Some s | _ => acc end) (f_meta f) None.
(** the tag: name, and whether it is followed by ",omitempty" (hello_api.gen.go 109: go.tag.json); None: "-" (107) *)
Definition tagText (f : field) : string :=
  match metaText "go.tag.json" f with
  | Some s => s
  | None => match metaText "json" f with Some s => s | None => f_name f end
  end.
Definition goTag (f : field) : option (string * bool) :=
  let s := tagText f in
  if String.eqb s "-" then None
  else if has_suffix ",omitempty" s then Some (take (String.length s - 10) s, true)
  else Some (s, false).
(** a field that is not in the JSON is left out *)
Fixpoint structFields (n : nat) (ts : list type) (fs : list field) : option (list goField) :=
  match fs with
  | [] => Some []
  | f :: r =>
      match goTag f with
      | None => structFields n ts r
      | Some (name, omit) =>
          match declaredTy n ts (f_optional f) (f_type f), structFields n ts r with
          | Some t, Some gs => Some (GF name omit t :: gs)
          | _, _ => None
          end
      end
  end.
Fixpoint structsOf (n : nat) (ts l : list type) : option goEnv :=
  match l with
  | [] => Some []
  | t :: r =>
      if String.eqb (t_kind t) "struct" then
        match structFields n ts (t_fields t), structsOf n ts r with
        | Some fs, Some env => Some ((t_name t, fs) :: env)
        | _, _ => None
        end
      else structsOf n ts r
  end.

(** ** services *)

(** the payload structs, server.gen.go 315-631: the arguments and results under their names *)
Fixpoint argFields (n : nat) (ts : list type) (l : list arg) : option (list goField) :=
  match l with
  | [] => Some []
  | a :: r =>
      match declaredTy n ts (g_optional a) (g_type a), argFields n ts r with
      | Some t, Some gs => Some (GF (g_name a) false t :: gs)
      | _, _ => None
      end
  end.
(** a succinct method is one over declared structs; the Go compiler rejects other uses of the generated code *)
Definition isStruct (ts : list type) (d : string) : bool :=
  match getType ts d with Some t => String.eqb (t_kind t) "struct" | None => false end.
Definition methodOf (n : nat) (ts : list type) (m : method) : option anyMethod :=
  match argFields n ts (me_inputs m), argFields n ts (me_outputs m) with
  | Some i, Some o =>
      if me_succinct m then
        match i, o with
        | [GF _ _ (TRef a)], [GF _ _ (TRef b)] =>
            if isStruct ts a && isStruct ts b then Some (Short (SuccinctMethod (me_name m) a b)) else None
        | _, _ => None
        end
      else Some (Plain (RpcMethod (me_name m) i o))
  | _, _ => None
  end.
(** streaming methods have routes of their own and are described in Stream.v: here they are left out *)
Definition streams (m : method) : bool := me_stream_in m || me_stream_out m.
Fixpoint methodsOf (n : nat) (ts : list type) (l : list method) : option (list anyMethod) :=
  match l with
  | [] => Some []
  | m :: r => match methodOf n ts m, methodsOf n ts r with Some x, Some xs => Some (x :: xs) | _, _ => None end
  end.
(** server.gen.go 207, 253-281: the service; [n] bounds the length of chains of aliases *)
Definition goService (n : nat) (s : schema) (v : Schema.service) : option mixedService :=
  match structsOf n (sc_types s) (sc_types s), methodsOf n (sc_types s) (filter (fun m => negb (streams m)) (v_methods v)) with
  | Some env, Some ms => Some (MixedService (sc_basepath s ++ v_name v ++ "/") env ms)
  | _, _ => None
  end.

(** server.gen.go 919-927: the errors *)
Definition goError (e : error) : rpcError := webrpcError (x_name e) (x_code e) (x_message e) (x_status e).
Definition goErrors (s : schema) : list rpcError := map goError (sc_errors s).
