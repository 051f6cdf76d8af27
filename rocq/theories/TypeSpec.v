(** Specification of webrpc types, independent of the parser of type
    expressions: an abstract syntax, how it is written, and which types are
    legal in a schema. *)
From Verif Require Import Base Schema.

(** a map key: a core type or the name of an enum (or alias of an enum) *)
Inductive mkey := KCore (c : core) | KNamed (n : string).

(** a type *)
Inductive ty_ :=
| YCore (c : core)
| YList (elem : ty_)
| YMap (key : mkey) (value : ty_)
| YStruct (n : string)
| YEnum (n : string)
| YAlias (n : string).

Definition show_key (k : mkey) : string :=
  match k with KCore c => core_to_string c | KNamed n => n end.

(** how a type is written in RIDL and in the JSON schema *)
Fixpoint show (t : ty_) : string :=
  match t with
  | YCore c => core_to_string c
  | YList e => "[]" ++ show e
  | YMap k v => "map<" ++ show_key k ++ "," ++ show v ++ ">"
  | YStruct n | YEnum n | YAlias n => n
  end%string.

(** the type a parsed VarType stands for; None if a component is missing *)
Fixpoint tree (v : varType) : option ty_ :=
  match v with
  | VT _ sh =>
      match sh with
      | ShUnknown => None
      | ShCore c => Some (YCore c)
      | ShList e => option_map YList (tree e)
      | ShMap (VT _ ks) w =>
          match ks, tree w with
          | ShCore c, Some y => Some (YMap (KCore c) y)
          | ShEnum n _, Some y => Some (YMap (KNamed n) y)
          | _, _ => None
          end
      | ShStruct n _ => Some (YStruct n)
      | ShEnum n _ => Some (YEnum n)
      | ShAlias n _ => Some (YAlias n)
      end
  end.

(** [n] is declared with kind [k] *)
Definition Declared (ts : list type) (n k : string) : Prop :=
  exists t, In t ts /\ t_name t = n /\ t_kind t = k.

(** [n] may be used as map key: ignoring case it is the name of an enum, or of
    a type whose underlying type is an enum *)
Definition KeyDeclared (ts : list type) (n : string) : Prop :=
  exists t, In t ts /\ to_lower (t_name t) = to_lower n /\
    (t_kind t = "enum" \/ exists e m d, t_type t = Some (VT e (ShEnum m d))).

(** string and the integer types *)
Definition key_core (c : core) : Prop :=
  match c with
  | CString | CUint | CUint8 | CUint16 | CUint32 | CUint64
  | CInt | CInt8 | CInt16 | CInt32 | CInt64 => True
  | _ => False
  end.

(** the types that may be used in a schema declaring [ts] *)
Inductive TypeOk (ts : list type) : ty_ -> Prop :=
| OkCore c : TypeOk ts (YCore c)
| OkList e : TypeOk ts e -> TypeOk ts (YList e)
| OkMapCore c v : key_core c -> TypeOk ts v -> TypeOk ts (YMap (KCore c) v)
| OkMapNamed n v :
    KeyDeclared ts n -> contains_byte "," n = false -> core_from_string n = None ->
    TypeOk ts v -> TypeOk ts (YMap (KNamed n) v)
| OkStruct n : Declared ts n "struct" -> TypeOk ts (YStruct n)
| OkEnum n : Declared ts n "enum" -> TypeOk ts (YEnum n)
| OkAlias n : Declared ts n "alias" -> TypeOk ts (YAlias n).

(** what Validate guarantees about the declared names (C09) *)
Definition NamesOk (ts : list type) : Prop :=
  NoDup (map (fun t => to_lower (t_name t)) ts) /\
  Forall (fun t => startsWithUpper (t_name t) = true) ts.

(** an expression with an empty list element or an empty map value *)
Inductive Hole : string -> Prop :=
| HoleHere : Hole ""
| HoleList e : Hole e -> Hole ("[]" ++ e)
| HoleMap k e : Hole e -> Hole ("map<" ++ k ++ "," ++ e ++ ">").
