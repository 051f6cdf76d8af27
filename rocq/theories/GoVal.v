(** Go values as the generated code passes them to encoding/json, and the
    type-directed part of json.Marshal and json.Unmarshal.

    The types that occur in generated code (tests/server/server.gen.go 58-198,
    tests/client/client.gen.go 58-200, _examples/webrpc-streaming/proto/
    chat.gen.go 137-143): bool, the integer types, string, generated enums
    (MarshalText/UnmarshalText, server.gen.go 86-93), slices, maps with string,
    integer or enum keys, pointers to generated structs, pointers to other
    types (optional values), any, and BigInt (_examples/node-ts/server-go/
    example.gen.go 685-743; its own functions are modelled in GoBig.v).

    Simplifications: floats are not modelled; a value of type any is represented by the
    JSON value it is written as; time.Time is represented by its text, i.e. as a
    string; when a JSON object repeats a member name the later
    member replaces the earlier one (Go decodes it on top of the earlier one);
    names are matched without regard to ASCII case only. *)
From Coq Require Import DecimalString.
From Verif Require Import Base Utf8 Json.

(** a generated enum: the entries of X_name / X_value, server.gen.go 73-81 *)
Definition enumTable := list (string * Z).

Inductive keyTy : Type :=
| KString
| KInt (lo hi : Z)
| KEnum (t : enumTable).

Inductive goTy : Type :=
| TBool
| TInt (lo hi : Z)
| TString
| TEnum (t : enumTable)
| TSlice (t : goTy)
| TMap (k : keyTy) (t : goTy)
| TOpt (t : goTy)
| TRef (struct : string)
| TAny
| TBig.

(** a field of a generated struct: JSON name, omitempty, type *)
Record goField := GF { gf_name : string; gf_omit : bool; gf_ty : goTy }.

(** the generated structs by name *)
Definition goEnv := list (string * list goField).

Fixpoint lookup {A} (k : string) (l : list (string * A)) : option A :=
  match l with
  | [] => None
  | (k', v) :: r => if String.eqb k k' then Some v else lookup k r
  end.

Inductive gkey : Type := KS (s : string) | KZ (z : Z).

(** [None] in VSlice, VMap, VPtr is nil.  A map is the list of its entries.
    [VBad] is a value encoding/json refuses (a channel, a function, NaN). *)
Inductive gval : Type :=
| VBool (b : bool)
| VInt (z : Z)
| VStr (s : string)
| VEnum (z : Z)
| VSlice (l : option (list gval))
| VMap (l : option (list (gkey * gval)))
| VPtr (v : option gval)
| VStruct (l : list gval)
| VAny (j : json)
| VBig (z : Z)
| VBad.

(** ** Writing *)

(** strconv.FormatInt base 10 *)
Definition zdec (z : Z) : string :=
  match z with
  | Zneg p => String (byte_of_N 45) (NilEmpty.string_of_uint (N.to_uint (Npos p)))
  | _ => NilEmpty.string_of_uint (N.to_uint (Z.to_N z))
  end.

(** X_name[x], server.gen.go 83-85; a missing entry is the empty string *)
Fixpoint enumName (t : enumTable) (z : Z) : string :=
  match t with
  | [] => EmptyString
  | (n, v) :: r => if Z.eqb v z then n else enumName r z
  end.

(** X_value[text], server.gen.go 91; a missing entry is zero *)
Fixpoint enumValue (t : enumTable) (s : string) : Z :=
  match t with
  | [] => 0%Z
  | (n, v) :: r => if String.eqb n s then v else enumValue r s
  end.

(** encode.go resolveKeyName *)
Definition keyText (k : keyTy) (x : gkey) : option string :=
  match k, x with
  | KString, KS s => Some s
  | KInt _ _, KZ z => Some (zdec z)
  | KEnum t, KZ z => Some (enumName t z)
  | _, _ => None
  end.

(** encode.go: map entries are written sorted by key *)
Fixpoint insertKey (e : string * json) (l : list (string * json)) : list (string * json) :=
  match l with
  | [] => [e]
  | x :: r => if String.leb (fst e) (fst x) then e :: l else x :: insertKey e r
  end.
Fixpoint sortKeys (l : list (string * json)) : list (string * json) :=
  match l with
  | [] => []
  | x :: r => insertKey x (sortKeys r)
  end.

(** encode.go isEmptyValue *)
Definition isEmptyValue (v : gval) : bool :=
  match v with
  | VBool b => negb b
  | VInt z => Z.eqb z 0
  | VStr s => isEmptyStr s
  | VEnum z => Z.eqb z 0
  | VSlice None | VSlice (Some []) => true
  | VMap None | VMap (Some []) => true
  | VPtr None => true
  | VAny JNull => true
  | _ => false
  end.

(** json.Marshal: the JSON a value of a type is written as *)
Fixpoint toJ (env : goEnv) (ty : goTy) (v : gval) {struct v} : option json :=
  match v with
  | VBool b => match ty with TBool => Some (JBool b) | _ => None end
  | VInt z => match ty with TInt _ _ => Some (JNum (zdec z)) | _ => None end
  | VStr s => match ty with TString => Some (JStr s) | _ => None end
  | VEnum z => match ty with TEnum t => Some (JStr (enumName t z)) | _ => None end
  | VAny j => match ty with TAny => Some j | _ => None end
  | VBig z => match ty with TBig => Some (JStr (zdec z)) | _ => None end
  | VBad => None
  | VSlice None => match ty with TSlice _ => Some JNull | _ => None end
  | VSlice (Some l) =>
      match ty with
      | TSlice t =>
          option_map JArr
            ((fix go (l : list gval) : option (list json) :=
                match l with
                | [] => Some []
                | x :: r => match toJ env t x, go r with
                            | Some j, Some js => Some (j :: js)
                            | _, _ => None
                            end
                end) l)
      | _ => None
      end
  | VMap None => match ty with TMap _ _ => Some JNull | _ => None end
  | VMap (Some l) =>
      match ty with
      | TMap k t =>
          option_map (fun es => JObj (sortKeys es))
            ((fix go (l : list (gkey * gval)) : option (list (string * json)) :=
                match l with
                | [] => Some []
                | (x, y) :: r => match keyText k x, toJ env t y, go r with
                                 | Some s, Some j, Some js => Some ((s, j) :: js)
                                 | _, _, _ => None
                                 end
                end) l)
      | _ => None
      end
  | VPtr None => match ty with TOpt _ | TRef _ => Some JNull | _ => None end
  | VPtr (Some x) =>
      match ty with
      | TOpt t => toJ env t x
      | TRef n =>
          match x, lookup n env with
          | VStruct vs, Some fs =>
              option_map JObj
                ((fix go (fs : list goField) (vs : list gval) {struct vs} : option (list (string * json)) :=
                    match vs, fs with
                    | [], [] => Some []
                    | y :: vs', f :: fs' =>
                        match go fs' vs' with
                        | None => None
                        | Some js =>
                            if gf_omit f && isEmptyValue y then Some js
                            else match toJ env (gf_ty f) y with
                                 | Some j => Some ((gf_name f, j) :: js)
                                 | None => None
                                 end
                        end
                    | _, _ => None
                    end) fs vs)
          | _, _ => None
          end
      | _ => None
      end
  | VStruct _ => None
  end.

(** an anonymous payload struct, e.g. server.gen.go 365-367: its fields and values *)
Fixpoint toFields (env : goEnv) (fs : list goField) (vs : list gval) : option (list (string * json)) :=
  match vs, fs with
  | [], [] => Some []
  | y :: vs', f :: fs' =>
      match toFields env fs' vs' with
      | None => None
      | Some js =>
          if gf_omit f && isEmptyValue y then Some js
          else match toJ env (gf_ty f) y with
               | Some j => Some ((gf_name f, j) :: js)
               | None => None
               end
      end
  | _, _ => None
  end.

(** ** Reading *)

(** the zero value of a type *)
Definition zeroVal (ty : goTy) : gval :=
  match ty with
  | TBool => VBool false
  | TInt _ _ => VInt 0
  | TString => VStr EmptyString
  | TEnum _ => VEnum 0
  | TSlice _ => VSlice None
  | TMap _ _ => VMap None
  | TOpt _ | TRef _ => VPtr None
  | TAny => VAny JNull
  | TBig => VBig 0
  end.

(** strconv.ParseInt / ParseUint base 10 and the range of the type; an
    unsigned type rejects any sign *)
Definition parseInt (lo hi : Z) (s : string) : option Z :=
  let (neg, ds) := match s with
                   | String c r => if (N_of_byte c =? 45)%N then (true, r) else (false, s)
                   | EmptyString => (false, s)
                   end in
  if neg && (0 <=? lo)%Z then None else
  match ds with
  | EmptyString => None
  | _ =>
      match NilEmpty.uint_of_string ds with
      | Some u =>
          let z := Z.of_N (N.of_uint u) in
          let z := if neg then (- z)%Z else z in
          if (lo <=? z)%Z && (z <=? hi)%Z then Some z else None
      | None => None
      end
  end.

(** big.Int.SetString(s, 10): an optional sign and digits *)
Definition setString10 (s : string) : option Z :=
  let (neg, ds) := match s with
                   | String c r => if (N_of_byte c =? 45)%N then (true, r)
                                   else if (N_of_byte c =? 43)%N then (false, r) else (false, s)
                   | EmptyString => (false, s)
                   end in
  match ds with
  | EmptyString => None
  | _ =>
      match NilEmpty.uint_of_string ds with
      | Some u => let z := Z.of_N (N.of_uint u) in Some (if neg then (- z)%Z else z)
      | None => None
      end
  end.

Definition parseKey (k : keyTy) (s : string) : option gkey :=
  match k with
  | KString => Some (KS s)
  | KInt lo hi => option_map KZ (parseInt lo hi s)
  | KEnum t => Some (KZ (enumValue t s))
  end.

Definition gkey_eqb (a b : gkey) : bool :=
  match a, b with
  | KS x, KS y => String.eqb x y
  | KZ x, KZ y => Z.eqb x y
  | _, _ => false
  end.

(** m[k] = v *)
Fixpoint mapPut (k : gkey) (v : gval) (m : list (gkey * gval)) : list (gkey * gval) :=
  match m with
  | [] => [(k, v)]
  | (k', v') :: r => if gkey_eqb k k' then (k, v) :: r else (k', v') :: mapPut k v r
  end.

(** decode.go: the field a member name denotes: exact name first, then any
    name equal up to case *)
Fixpoint fieldIndex (p : string -> bool) (fs : list goField) : option nat :=
  match fs with
  | [] => None
  | f :: r => if p (gf_name f) then Some 0 else option_map S (fieldIndex p r)
  end.
Definition findField (k : string) (fs : list goField) : option nat :=
  match fieldIndex (String.eqb k) fs with
  | Some i => Some i
  | None => fieldIndex (fun n => String.eqb (to_lower k) (to_lower n)) fs
  end.

Fixpoint setNth {A} (i : nat) (v : A) (l : list A) : list A :=
  match l, i with
  | [], _ => []
  | _ :: r, O => v :: r
  | x :: r, S k => x :: setNth k v r
  end.

(** the number of pointers around a type, and the type pointed to *)
Fixpoint strip (t : goTy) : nat * goTy :=
  match t with
  | TOpt t' => let (n, b) := strip t' in (S n, b)
  | _ => (0, t)
  end.
Fixpoint wrap (n : nat) (v : gval) : gval :=
  match n with O => v | S k => VPtr (Some (wrap k v)) end.

(** json.Unmarshal of one value into a fresh variable of the type *)
Fixpoint fromJ (env : goEnv) (ty : goTy) (j : json) {struct j} : option gval :=
  let (n, b) := strip ty in
  match j with
  | JNull => match n with O => Some (zeroVal b) | S _ => Some (VPtr None) end
  | JBool x =>
      match b with
      | TBool => Some (wrap n (VBool x))
      | TAny => Some (wrap n (VAny j))
      | _ => None
      end
  | JNum l =>
      match b with
      | TInt lo hi => option_map (fun z => wrap n (VInt z)) (parseInt lo hi l)
      | TBig => option_map (fun z => wrap n (VBig z)) (setString10 l)
      | TAny => Some (wrap n (VAny j))
      | _ => None
      end
  | JStr s =>
      match b with
      | TString => Some (wrap n (VStr s))
      | TEnum t => Some (wrap n (VEnum (enumValue t s)))
      | TBig => option_map (fun z => wrap n (VBig z)) (setString10 s)
      | TAny => Some (wrap n (VAny j))
      | _ => None
      end
  | JArr l =>
      match b with
      | TSlice t =>
          option_map (fun vs => wrap n (VSlice (Some vs)))
            ((fix go (l : list json) : option (list gval) :=
                match l with
                | [] => Some []
                | x :: r => match fromJ env t x, go r with
                            | Some v, Some vs => Some (v :: vs)
                            | _, _ => None
                            end
                end) l)
      | TAny => Some (wrap n (VAny j))
      | _ => None
      end
  | JObj l =>
      match b with
      | TMap k t =>
          option_map (fun m => wrap n (VMap (Some m)))
            ((fix go (acc : list (gkey * gval)) (l : list (string * json)) {struct l} : option (list (gkey * gval)) :=
                match l with
                | [] => Some acc
                | (s, x) :: r => match parseKey k s, fromJ env t x with
                                 | Some key, Some v => go (mapPut key v acc) r
                                 | _, _ => None
                                 end
                end) [] l)
      | TRef name =>
          match lookup name env with
          | None => None
          | Some fs =>
              option_map (fun vs => wrap n (VPtr (Some (VStruct vs))))
                ((fix go (acc : list gval) (l : list (string * json)) {struct l} : option (list gval) :=
                    match l with
                    | [] => Some acc
                    | (s, x) :: r =>
                        match findField s fs with
                        | None => go acc r
                        | Some i =>
                            match nth_error fs i with
                            | None => None
                            | Some f => match fromJ env (gf_ty f) x with
                                        | Some v => go (setNth i v acc) r
                                        | None => None
                                        end
                            end
                        end
                    end) (map (fun f => zeroVal (gf_ty f)) fs) l)
          end
      | TAny => Some (wrap n (VAny j))
      | _ => None
      end
  end.

(** an anonymous payload struct, e.g. server.gen.go 388-394 *)
Fixpoint fromFields (env : goEnv) (fs : list goField) (acc : list gval) (l : list (string * json))
  : option (list gval) :=
  match l with
  | [] => Some acc
  | (s, x) :: r =>
      match findField s fs with
      | None => fromFields env fs acc r
      | Some i =>
          match nth_error fs i with
          | None => None
          | Some f => match fromJ env (gf_ty f) x with
                      | Some v => fromFields env fs (setNth i v acc) r
                      | None => None
                      end
          end
      end
  end.

(** json.Marshal of an anonymous payload struct *)
Definition marshalStruct (env : goEnv) (fs : list goField) (vs : list gval) : option string :=
  option_map (fun l => printJ (JObj l)) (toFields env fs vs).

(** json.Unmarshal into an anonymous payload struct; null leaves it zero, any
    other non-object is an error *)
Definition unmarshalStruct (env : goEnv) (fs : list goField) (s : string) : option (list gval) :=
  match parseJ s with
  | Some (JObj l) => fromFields env fs (map (fun f => zeroVal (gf_ty f)) fs) l
  | Some JNull => Some (map (fun f => zeroVal (gf_ty f)) fs)
  | _ => None
  end.
