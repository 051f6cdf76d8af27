(** What the JSON of a value of a schema type is to become in a TypeScript program: bigints are bigints, wherever
    they are. Stated without the decoder and without the table. *)
From Verif Require Import Base Json Schema TypeSpec ValidateSpec FilterSpec BigIntSpec BigSpec TsBig.

(** the JSON member [k] of the struct [d] has the type [v] *)
Definition Declares (ts : list type) (d k : string) (v : varType) : Prop :=
  exists t f, In t ts /\ t_kind t = "struct" /\ t_name t = d /\ In f (t_fields t) /\ json_key f = k /\ f_type f = Some v.

(** [v] is the type the expression of the alias [d] stands for *)
Definition AliasOf (ts : list type) (d : string) (v : varType) : Prop :=
  exists t u, In t ts /\ t_kind t = "alias" /\ t_name t = d /\ t_type t = Some u /\ vt_expr v = vt_expr u /\ Resolved ts v.

(** no constituent of the type has to be looked at *)
Definition Atomic (v : varType) : Prop :=
  match vt_shape v with
  | ShCore c => c <> CBigInt
  | ShEnum _ _ => True
  | _ => False
  end.

Inductive Means (ts : list type) : varType -> json -> jsv -> Prop :=
| M_bigint v d z : IsBigint v -> Decimal d z -> Means ts v (JStr d) (SBig z)
| M_null v : Means ts v JNull SNull
| M_atomic v j : Atomic v -> Means ts v j (ofJson j)
| M_alias v n d w j x : vt_shape v = ShAlias n d -> AliasOf ts d w -> Means ts w j x -> Means ts v j x
| M_list v e l l' : ListOf v e -> MeansList ts e l l' -> Means ts v (JArr l) (SArr l')
| M_map v k e l l' : vt_shape v = ShMap k e -> NoDup (map fst l) ->
    MeansMembers ts (fun _ w => w = e) l l' -> Means ts v (JObj l) (SObj l')
| M_struct v n d l l' : vt_shape v = ShStruct n d -> NoDup (map fst l) ->
    MeansMembers ts (Declares ts d) l l' -> Means ts v (JObj l) (SObj l')
with MeansList (ts : list type) : varType -> list json -> list jsv -> Prop :=
| ML_nil v : MeansList ts v [] []
| ML_cons v j x r r' : Means ts v j x -> MeansList ts v r r' -> MeansList ts v (j :: r) (x :: r')
(** members the schema does not declare stay as they are *)
with MeansMembers (ts : list type) : (string -> varType -> Prop) -> list (string * json) -> list (string * jsv) -> Prop :=
| MM_nil D : MeansMembers ts D [] []
| MM_declared (D : string -> varType -> Prop) k v j x r r' : D k v -> Means ts v j x -> MeansMembers ts D r r' ->
    MeansMembers ts D ((k, j) :: r) ((k, x) :: r')
| MM_other (D : string -> varType -> Prop) k j r r' : (forall v, ~ D k v) -> MeansMembers ts D r r' ->
    MeansMembers ts D ((k, j) :: r) ((k, ofJson j) :: r').

(** a value of the type can contain a bigint *)
Inductive Contains (ts : list type) : varType -> Prop :=
| C_bigint v : IsBigint v -> Contains ts v
| C_list v e : ListOf v e -> Contains ts e -> Contains ts v
| C_map v k e : vt_shape v = ShMap k e -> Contains ts e -> Contains ts v
| C_alias v n d w : vt_shape v = ShAlias n d -> AliasOf ts d w -> Contains ts w -> Contains ts v
| C_struct v n d w : vt_shape v = ShStruct n d -> FieldType ts d w -> Contains ts w -> Contains ts v.

(** the members of the JSON of a definition: a struct, or the arguments or results of a method *)
Definition MemberOf (s : schema) (request response : string) (k name : string) (v : varType) : Prop :=
  Declares (sc_types s) k name v \/
  exists m a, In m (flat_map v_methods (sc_services s)) /\ me_succinct m = false /\ g_name a = name /\ g_type a = Some v /\
    (k = (me_name m ++ request)%string /\ In a (me_inputs m) \/ k = (me_name m ++ response)%string /\ In a (me_outputs m)).

(** bigints occur only as a field, in a list, in a struct, or in a list of structs *)
Definition Covered (ts : list type) (v : varType) : Prop := Contains ts v -> Direct v \/ exists d, Nests v d.
Definition AllCovered (s : schema) : Prop := forall request response k name v, MemberOf s request response k name v -> Covered (sc_types s) v.

(** fields that contain bigints keep their name in JSON *)
Definition NotRenamed (ts : list type) : Prop := forall t f v, In t ts -> t_kind t = "struct" -> In f (t_fields t) ->
  f_type f = Some v -> Contains ts v -> json_key f = f_name f.

(** names do not end like the marks of lists in the table *)
Definition PlainName (n : string) : Prop := forall b, n <> (b ++ "[]")%string.
Definition PlainNames (s : schema) : Prop :=
  (forall t, In t (sc_types s) -> PlainName (t_name t)) /\
  (forall m a, In m (flat_map v_methods (sc_services s)) -> In a (me_inputs m ++ me_outputs m) -> PlainName (g_name a)).
(** arguments, and results, of a method have different names *)
Definition DistinctArgs (s : schema) : Prop := forall m, In m (flat_map v_methods (sc_services s)) ->
  NoDup (map g_name (me_inputs m)) /\ NoDup (map g_name (me_outputs m)).

(** the schemas for which bigints are found: an accepted one, with different names for its structs and implicit
    request and response types, without structs nested in themselves, and with bigints only where they are
    covered *)
Record Setting (s : schema) (compat : bool) : Prop := {
  se_acc : Accepted s;
  se_named : NoTypeNamedBigint s;
  se_acyclic : forall d, ~ NestedIn (sc_types s) d d;
  se_distinct : NoDup (map fst (Definitions (requestSuffix compat) (responseSuffix compat) s));
  se_covered : AllCovered s;
  se_renamed : NotRenamed (sc_types s);
  se_plain : PlainNames s;
  se_args : DistinctArgs s
}.

(** ** values of TypeScript programs *)

(** no bigint and no undefined inside *)
Inductive Plain : jsv -> Prop :=
| P_null : Plain SNull
| P_bool b : Plain (SBool b)
| P_num l : Plain (SNum l)
| P_str s : Plain (SStr s)
| P_arr l : (forall x, In x l -> Plain x) -> Plain (SArr l)
| P_obj l : NoDup (map fst l) -> (forall k x, In (k, x) l -> Plain x) -> Plain (SObj l).

(** a value of the TypeScript type of [v]; members may be undefined *)
Inductive Typed (ts : list type) : varType -> jsv -> Prop :=
| T_bigint v z : IsBigint v -> Typed ts v (SBig z)
| T_null v : Typed ts v SNull
| T_atomic v x : Atomic v -> Plain x -> Typed ts v x
| T_alias v n d w x : vt_shape v = ShAlias n d -> AliasOf ts d w -> Typed ts w x -> Typed ts v x
| T_list v e l : ListOf v e -> (forall x, In x l -> Typed ts e x) -> Typed ts v (SArr l)
| T_map v k e l : vt_shape v = ShMap k e -> NoDup (map fst l) -> TypedMembers ts (fun _ w => w = e) l -> Typed ts v (SObj l)
| T_struct v n d l : vt_shape v = ShStruct n d -> NoDup (map fst l) -> TypedMembers ts (Declares ts d) l -> Typed ts v (SObj l)
with TypedMembers (ts : list type) : (string -> varType -> Prop) -> list (string * jsv) -> Prop :=
| TM_nil D : TypedMembers ts D []
| TM_undefined D k r : TypedMembers ts D r -> TypedMembers ts D ((k, SUndef) :: r)
| TM_declared (D : string -> varType -> Prop) k v x r : D k v -> Typed ts v x -> TypedMembers ts D r -> TypedMembers ts D ((k, x) :: r)
| TM_other (D : string -> varType -> Prop) k x r : (forall v, ~ D k v) -> Plain x -> TypedMembers ts D r -> TypedMembers ts D ((k, x) :: r).

(** the same value without its undefined members *)
Fixpoint settled (v : jsv) : jsv :=
  match v with
  | SArr l => SArr (map settled l)
  | SObj l => SObj ((fix go (l : list (string * jsv)) :=
                       match l with
                       | [] => []
                       | (k, SUndef) :: r => go r
                       | (k, x) :: r => (k, settled x) :: go r
                       end) l)
  | _ => v
  end.

(** ** values of Go programs *)
From Verif Require Import Utf8 GoVal GoValSpec.

(** no object has two members of one name *)
Inductive NoRepeats : json -> Prop :=
| NR_null : NoRepeats JNull
| NR_bool b : NoRepeats (JBool b)
| NR_num l : NoRepeats (JNum l)
| NR_str s : NoRepeats (JStr s)
| NR_arr l : (forall x, In x l -> NoRepeats x) -> NoRepeats (JArr l)
| NR_obj l : NoDup (map fst l) -> (forall k x, In (k, x) l -> NoRepeats x) -> NoRepeats (JObj l).

(** the TypeScript value [x] shows the Go value [g] of the type [ty], which is generated for [v].  Nil slices,
    maps and pointers are null; an omitted field is absent. *)
Inductive Shows (ts : list type) (env : goEnv) : varType -> goTy -> gval -> jsv -> Prop :=
| S_bigint v z : IsBigint v -> Shows ts env v TBig (VBig z) (SBig z)
| S_atomic v ty g j : Atomic v -> toJ env ty g = Some j -> NoRepeats j -> Shows ts env v ty g (ofJson j)
| S_nilSlice v t : Shows ts env v (TSlice t) (VSlice None) SNull
| S_nilMap v k t : Shows ts env v (TMap k t) (VMap None) SNull
| S_nilOpt v t : Shows ts env v (TOpt t) (VPtr None) SNull
| S_nilRef v n : Shows ts env v (TRef n) (VPtr None) SNull
| S_opt v t g x : Shows ts env v t g x -> Shows ts env v (TOpt t) (VPtr (Some g)) x
| S_alias v n d w ty g x : vt_shape v = ShAlias n d -> AliasOf ts d w -> Shows ts env w ty g x -> Shows ts env v ty g x
| S_list v e t l l' : ListOf v e -> ShowsList ts env e t l l' -> Shows ts env v (TSlice t) (VSlice (Some l)) (SArr l')
| S_map v k0 e k t m ms : vt_shape v = ShMap k0 e -> Increasing (map fst ms) -> ShowsEntries ts env e k t m ms ->
    Shows ts env v (TMap k t) (VMap (Some m)) (SObj ms)
| S_struct v n d gn fs vs ms : vt_shape v = ShStruct n d -> lookup gn env = Some fs -> NoDup (map gf_name fs) ->
    ShowsFields ts env (Declares ts d) fs vs ms -> Shows ts env v (TRef gn) (VPtr (Some (VStruct vs))) (SObj ms)
with ShowsList (ts : list type) (env : goEnv) : varType -> goTy -> list gval -> list jsv -> Prop :=
| SL_nil v t : ShowsList ts env v t [] []
| SL_cons v t g x r r' : Shows ts env v t g x -> ShowsList ts env v t r r' -> ShowsList ts env v t (g :: r) (x :: r')
with ShowsEntries (ts : list type) (env : goEnv) : varType -> keyTy -> goTy -> list (gkey * gval) -> list (string * jsv) -> Prop :=
| SE_nil v k t : ShowsEntries ts env v k t [] []
| SE_cons v k t key n g x r r' : keyText k key = Some n -> Shows ts env v t g x -> ShowsEntries ts env v k t r r' ->
    ShowsEntries ts env v k t ((key, g) :: r) ((n, x) :: r')
with ShowsFields (ts : list type) (env : goEnv) : (string -> varType -> Prop) -> list goField -> list gval -> list (string * jsv) -> Prop :=
| SF_nil D : ShowsFields ts env D [] [] []
| SF_omitted (D : string -> varType -> Prop) f g fs vs ms : gf_omit f = true -> Empty g ->
    ShowsFields ts env D fs vs ms -> ShowsFields ts env D (f :: fs) (g :: vs) ms
| SF_shown (D : string -> varType -> Prop) f g v x fs vs ms : gf_omit f = false \/ ~ Empty g ->
    D (gf_name f) v -> Shows ts env v (gf_ty f) g x ->
    ShowsFields ts env D fs vs ms -> ShowsFields ts env D (f :: fs) (g :: vs) ((gf_name f, x) :: ms).

(** ** what decoding may do to any value: some strings become the bigint JavaScript reads in them *)
Inductive Like : jsv -> jsv -> Prop :=
| L_same x : Like x x
| L_big s z : jsBigInt s = Some z -> Like (SStr s) (SBig z)
| L_arr l l' : LikeList l l' -> Like (SArr l) (SArr l')
| L_obj l l' : LikeMembers l l' -> Like (SObj l) (SObj l')
with LikeList : list jsv -> list jsv -> Prop :=
| LL_nil : LikeList [] []
| LL_cons x y r r' : Like x y -> LikeList r r' -> LikeList (x :: r) (y :: r')
with LikeMembers : list (string * jsv) -> list (string * jsv) -> Prop :=
| LM_nil : LikeMembers [] []
| LM_cons k x y r r' : Like x y -> LikeMembers r r' -> LikeMembers ((k, x) :: r) ((k, y) :: r').
