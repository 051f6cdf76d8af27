(** Programs generated from different versions of a schema: which changes are compatible, and what the reader of one
    version sees of a value written by the other.  Nothing here refers to the encoder or the decoder. *)
From Verif Require Import Base GoVal GoValSpec Json.

(** the zero value of a Go type *)
Inductive Zero : goTy -> gval -> Prop :=
| ZBool : Zero TBool (VBool false)
| ZInt lo hi : Zero (TInt lo hi) (VInt 0)
| ZStr : Zero TString (VStr EmptyString)
| ZEnum t : Zero (TEnum t) (VEnum 0)
| ZSlice t : Zero (TSlice t) (VSlice None)
| ZMap k t : Zero (TMap k t) (VMap None)
| ZOpt t : Zero (TOpt t) (VPtr None)
| ZRef n : Zero (TRef n) (VPtr None)
| ZAny : Zero TAny (VAny JNull)
| ZBig : Zero TBig (VBig 0).

Definition Required (t : goTy) : Prop := forall t', t <> TOpt t'.

(** [Compat same t t']: what is written as a [t] can be read as a [t'].  Integers may get wider, enums may get other
    members, an optional value may become required and a required one optional; [same n n'] says that the struct [n]
    of the writer corresponds to the struct [n'] of the reader. *)
Inductive Compat (same : string -> string -> Prop) : goTy -> goTy -> Prop :=
| CBool : Compat same TBool TBool
| CInt lo hi lo' hi' : (lo' <= lo)%Z -> (hi <= hi')%Z -> Compat same (TInt lo hi) (TInt lo' hi')
| CStr : Compat same TString TString
| CEnum t t' : Compat same (TEnum t) (TEnum t')
| CSlice t t' : Compat same t t' -> Compat same (TSlice t) (TSlice t')
| CMap k t t' : Compat same t t' -> Compat same (TMap k t) (TMap k t')
| COpt t t' : Required t -> Required t' -> Compat same t t' -> Compat same (TOpt t) (TOpt t')
| CMadeOptional t t' : Required t -> Required t' -> Compat same t t' -> Compat same t (TOpt t')
| CMadeRequired t t' : Required t -> Required t' -> Compat same t t' -> Compat same (TOpt t) t'
| CRef n n' : same n n' -> Compat same (TRef n) (TRef n')
| CAny : Compat same TAny TAny
| CBig : Compat same TBig TBig.

(** Fields may be added, removed and moved.  A field that both versions have has the same name and compatible types;
    no name of the writer differs from a name of the reader only in case. *)
Definition FieldsAgree (same : string -> string -> Prop) (fs fs' : list goField) : Prop :=
  NoDup (map gf_name fs') /\
  forall f f', In f fs -> In f' fs' -> to_lower (gf_name f) = to_lower (gf_name f') ->
    gf_name f = gf_name f' /\ Compat same (gf_ty f) (gf_ty f').
Definition StructsAgree (same : string -> string -> Prop) (env env' : goEnv) : Prop :=
  forall n n' fs, same n n' -> lookup n env = Some fs -> exists fs', lookup n' env' = Some fs' /\ FieldsAgree same fs fs'.

(** [Sees t t' v v']: the writer's value [v] of type [t] is [v'] for a reader that has type [t'] *)
Inductive Sees (same : string -> string -> Prop) (env env' : goEnv) : goTy -> goTy -> gval -> gval -> Prop :=
| SeeBool b : Sees same env env' TBool TBool (VBool b) (VBool b)
| SeeInt lo hi lo' hi' z : Sees same env env' (TInt lo hi) (TInt lo' hi') (VInt z) (VInt z)
| SeeStr s : Sees same env env' TString TString (VStr s) (VStr s)
| SeeAny j : Sees same env env' TAny TAny (VAny j) (VAny j)
| SeeBig z : Sees same env env' TBig TBig (VBig z) (VBig z)
(** a member of an enum is the member of the same name, or 0 if the reader has none *)
| SeeEnum t t' n z z' : In (n, z) t -> In (n, z') t' -> Sees same env env' (TEnum t) (TEnum t') (VEnum z) (VEnum z')
| SeeUnknown t t' n z : In (n, z) t -> ~ In n (map fst t') -> Sees same env env' (TEnum t) (TEnum t') (VEnum z) (VEnum 0)
| SeeNilSlice t t' : Sees same env env' (TSlice t) (TSlice t') (VSlice None) (VSlice None)
| SeeSlice t t' l l' : Forall2 (Sees same env env' t t') l l' ->
    Sees same env env' (TSlice t) (TSlice t') (VSlice (Some l)) (VSlice (Some l'))
| SeeNilMap k t t' : Sees same env env' (TMap k t) (TMap k t') (VMap None) (VMap None)
| SeeMap k t t' m m' : Forall2 (fun e e' => fst e = fst e' /\ Sees same env env' t t' (snd e) (snd e')) m m' ->
    Sees same env env' (TMap k t) (TMap k t') (VMap (Some m)) (VMap (Some m'))
| SeeNone t t' : Sees same env env' (TOpt t) (TOpt t') (VPtr None) (VPtr None)
| SeeSome t t' v v' : Sees same env env' t t' v v' -> Sees same env env' (TOpt t) (TOpt t') (VPtr (Some v)) (VPtr (Some v'))
(** nil becomes nil, anything else a pointer to it *)
| SeeAbsent t t' v : Required t -> isNil v = true -> Sees same env env' t (TOpt t') v (VPtr None)
| SeePresent t t' v v' : Required t -> isNil v = false -> Sees same env env' t t' v v' -> Sees same env env' t (TOpt t') v (VPtr (Some v'))
(** what is missing is the zero value *)
| SeeDefault t t' v' : Required t' -> Zero t' v' -> Sees same env env' (TOpt t) t' (VPtr None) v'
| SeeGiven t t' v v' : Required t' -> Sees same env env' t t' v v' -> Sees same env env' (TOpt t) t' (VPtr (Some v)) v'
| SeeNilRef n n' : Sees same env env' (TRef n) (TRef n') (VPtr None) (VPtr None)
| SeeRef n n' fs fs' vs vs' : lookup n env = Some fs -> lookup n' env' = Some fs' -> SeesFields same env env' fs vs fs' vs' ->
    Sees same env env' (TRef n) (TRef n') (VPtr (Some (VStruct vs))) (VPtr (Some (VStruct vs')))
(** the reader's fields, one after the other: *)
with SeesFields (same : string -> string -> Prop) (env env' : goEnv) : list goField -> list gval -> list goField -> list gval -> Prop :=
| SeesNil fs vs : SeesFields same env env' fs vs [] []
(** one the writer does not have is zero, *)
| SeesNew fs vs g gs v' vs' : ~ In (gf_name g) (map gf_name fs) -> Zero (gf_ty g) v' ->
    SeesFields same env env' fs vs gs vs' -> SeesFields same env env' fs vs (g :: gs) (v' :: vs')
(** one the writer left out is zero, *)
| SeesOmitted fs vs i f v g gs v' vs' : nth_error fs i = Some f -> nth_error vs i = Some v -> gf_name f = gf_name g ->
    gf_omit f = true -> Empty v -> Zero (gf_ty g) v' ->
    SeesFields same env env' fs vs gs vs' -> SeesFields same env env' fs vs (g :: gs) (v' :: vs')
(** any other is what the writer gave it *)
| SeesSent fs vs i f v g gs v' vs' : nth_error fs i = Some f -> nth_error vs i = Some v -> gf_name f = gf_name g ->
    gf_omit f = false \/ ~ Empty v -> Sees same env env' (gf_ty f) (gf_ty g) v v' ->
    SeesFields same env env' fs vs gs vs' -> SeesFields same env env' fs vs (g :: gs) (v' :: vs').
