(** Model of the JSON form of a kind of type, core_type.go 8-132: CoreType with all its values, String, MarshalJSON and
    UnmarshalJSON.  The names are those of Schema.v.

    Simplification: json.Unmarshal is the reader of Json.v; of its errors only that there is one is kept. *)
From Verif Require Import Base Json Schema.

(** core_type.go 8-45 *)
Inductive kind := KUnknown | KCore (c : core) | KList | KMap | KStruct | KEnum | KAlias.

(** 47-76, 114-116: a kind that is not in CoreTypeToString has the zero value, the empty name *)
Definition kindString (k : kind) : string :=
  match k with
  | KCore c => core_to_string c
  | KMap => "map"
  | KList => "[]"
  | KUnknown | KStruct | KEnum | KAlias => EmptyString
  end.

(** 83-112: a name that is not in CoreTypeFromString gives the zero value, T_Unknown *)
Definition kindFromString (s : string) : kind :=
  match core_from_string s with
  | Some (inl c) => KCore c
  | Some (inr true) => KList
  | Some (inr false) => KMap
  | None => KUnknown
  end.

(** 118-123 MarshalJSON *)
Definition marshalKind (k : kind) : string := (chr 34 ++ kindString k ++ chr 34)%string.

(** 125-132 UnmarshalJSON.  Null leaves the Go string empty *)
Definition unmarshalKind (b : string) : result kind :=
  match parseJ b with
  | Some (JStr s) => Ok (kindFromString s)
  | Some JNull => Ok (kindFromString EmptyString)
  | _ => Err "json: cannot unmarshal"
  end.
