(** Which Go values the wire carries without loss, stated without reference to
    the encoder: integers in the range of their type, UTF-8 strings, declared
    enum values, ... *)
From Verif Require Import Base Utf8 Json JsonProofs GoVal.

(** enum declarations have different names and different values (C36) *)
Definition EnumOk (t : enumTable) : Prop :=
  NoDup (map fst t) /\ NoDup (map snd t) /\ forall n z, In (n, z) t -> ValidUtf8 n.

(** the text a key is written as *)
Inductive KeyWritten : keyTy -> gkey -> string -> Prop :=
| KWString s : ValidUtf8 s -> KeyWritten KString (KS s) s
| KWInt lo hi z : (lo <= z <= hi)%Z -> KeyWritten (KInt lo hi) (KZ z) (zdec z)
| KWEnum t n z : EnumOk t -> In (n, z) t -> KeyWritten (KEnum t) (KZ z) n.

(** strictly increasing in byte order *)
Fixpoint Increasing (l : list string) : Prop :=
  match l with
  | [] => True
  | a :: r => (forall b, In b r -> String.ltb a b = true) /\ Increasing r
  end.

(** nil slices, nil maps, nil pointers and the nil interface are written null *)
Definition isNil (v : gval) : bool :=
  match v with
  | VSlice None | VMap None | VPtr None | VAny JNull => true
  | _ => false
  end.

(** what omitempty leaves out: false, 0, the empty text, nil, and slices and maps without elements *)
Definition Empty (v : gval) : Prop :=
  In v [VBool false; VInt 0; VStr EmptyString; VEnum 0; VSlice None; VSlice (Some []); VMap None; VMap (Some []); VPtr None; VAny JNull].

(** A map is represented by its entries in increasing order of their written
    keys. *)
Inductive Fits (env : goEnv) : goTy -> gval -> Prop :=
| FBool b : Fits env TBool (VBool b)
| FInt lo hi z : (lo <= z <= hi)%Z -> Fits env (TInt lo hi) (VInt z)
| FStr s : ValidUtf8 s -> Fits env TString (VStr s)
| FEnum t n z : EnumOk t -> In (n, z) t -> Fits env (TEnum t) (VEnum z)
| FNilSlice t : Fits env (TSlice t) (VSlice None)
| FSlice t l : (forall x, In x l -> Fits env t x) -> Fits env (TSlice t) (VSlice (Some l))
| FNilMap k t : Fits env (TMap k t) (VMap None)
| FMap k t m names :
    Forall2 (fun e n => KeyWritten k (fst e) n) m names -> Increasing names ->
    (forall x y, In (x, y) m -> Fits env t y) ->
    Fits env (TMap k t) (VMap (Some m))
| FNilOpt t : Fits env (TOpt t) (VPtr None)
| FOpt t v : Fits env t v -> isNil v = false -> Fits env (TOpt t) (VPtr (Some v))
| FNilRef n : Fits env (TRef n) (VPtr None)
| FRef n fs vs : lookup n env = Some fs -> FitsFields env fs vs ->
    Fits env (TRef n) (VPtr (Some (VStruct vs)))
| FAny j : JWf j -> Fits env TAny (VAny j)
| FBig z : Fits env TBig (VBig z)
(** the fields of a struct: distinct JSON names (C10); slices and maps without
    elements in an omitempty field would come back nil *)
with FitsFields (env : goEnv) : list goField -> list gval -> Prop :=
| FFNil : FitsFields env [] []
| FFCons f fs v vs :
    Fits env (gf_ty f) v ->
    ValidUtf8 (gf_name f) -> ~ In (gf_name f) (map gf_name fs) ->
    (gf_omit f = true -> v <> VSlice (Some []) /\ v <> VMap (Some [])) ->
    FitsFields env fs vs -> FitsFields env (f :: fs) (v :: vs).

(** nesting of a value *)
Fixpoint vdepth (v : gval) : nat :=
  match v with
  | VSlice (Some l) => S ((fix go l := match l with [] => 0 | x :: r => Nat.max (vdepth x) (go r) end) l)
  | VMap (Some l) => S ((fix go l := match l with [] => 0 | (_, x) :: r => Nat.max (vdepth x) (go r) end) l)
  | VStruct l => S ((fix go l := match l with [] => 0 | x :: r => Nat.max (vdepth x) (go r) end) l)
  | VPtr (Some x) => vdepth x
  | VAny j => jdepth j
  | _ => 0
  end.

Fixpoint vsdepth (l : list gval) : nat :=
  match l with [] => 0 | x :: r => Nat.max (vdepth x) (vsdepth r) end.
