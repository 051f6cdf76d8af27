(** Specification of the detection of bigint in a schema. *)
From Verif Require Import Base Schema TypeSpec ValidateSpec FilterSpec.

(** the type is bigint, or a list of bigint *)
Definition IsBigint (v : varType) : Prop := vt_shape v = ShCore CBigInt.
Definition ListOf (v x : varType) : Prop := vt_shape v = ShList x.
Definition Direct (v : varType) : Prop := IsBigint v \/ exists x, ListOf v x /\ IsBigint x.

(** the type is the struct [d], or a list of it *)
Definition IsStruct (v : varType) (d : string) : Prop := exists n, vt_shape v = ShStruct n d.
Definition Nests (v : varType) (d : string) : Prop := IsStruct v d \/ exists x, ListOf v x /\ IsStruct x d.

(** [v] is the type of a field of the struct [d] *)
Definition FieldType (ts : list type) (d : string) (v : varType) : Prop :=
  exists t f, In t ts /\ t_kind t = "struct" /\ t_name t = d /\ In f (t_fields t) /\ f_type f = Some v.

(** the struct [d] contains a bigint, directly or in a nested struct *)
Inductive HasBigint (ts : list type) (d : string) : Prop :=
| HB_direct v : FieldType ts d v -> Direct v -> HasBigint ts d
| HB_nested v d' : FieldType ts d v -> Nests v d' -> HasBigint ts d' -> HasBigint ts d.

(** struct [d'] is (transitively) nested in struct [d] *)
Inductive NestedIn (ts : list type) : string -> string -> Prop :=
| NI_one d v d' : FieldType ts d v -> Nests v d' -> NestedIn ts d d'
| NI_cons d v d' d'' : FieldType ts d v -> Nests v d' -> NestedIn ts d' d'' -> NestedIn ts d d''.

(** no type is named like bigint, whatever the case *)
Definition NoTypeNamedBigint (s : schema) : Prop :=
  forall t, In t (sc_types s) -> to_lower (t_name t) <> "bigint".

(** ** the table of fields *)
From Verif Require Import BigInt.

(** how the table describes the field (or argument) [name] of type [v] *)
Inductive EntryOf (ts : list type) (name : string) (v : varType) : entry -> Prop :=
| EO_scalar : IsBigint v -> EntryOf ts name v (EName name)
| EO_list x : ListOf v x -> IsBigint x -> EntryOf ts name v (EName (name ++ "[]"))
| EO_struct n d : vt_shape v = ShStruct n d -> HasBigint ts d -> EntryOf ts name v (EPair name n)
| EO_listStruct x n d : ListOf v x -> vt_shape x = ShStruct n d -> HasBigint ts d ->
    EntryOf ts name v (EPair name (n ++ "[]")).

(** the entries of a list of fields: one for each field that has one, in order *)
Inductive Entries (ts : list type) : list (string * option varType) -> list entry -> Prop :=
| En_nil : Entries ts [] []
| En_add name v e r es : EntryOf ts name v e -> Entries ts r es -> Entries ts ((name, Some v) :: r) (e :: es)
| En_skip name v r es : (forall e, ~ EntryOf ts name v e) -> Entries ts r es -> Entries ts ((name, Some v) :: r) es
| En_none name r es : Entries ts r es -> Entries ts ((name, None) :: r) es.

(** the structs of the schema and the implicit request and response types of
    its methods (succinct methods have none), with their fields *)
Definition isStruct (t : type) : bool := String.eqb (t_kind t) "struct".
Definition Definitions (request response : string) (s : schema) : list (string * list (string * option varType)) :=
  map (fun t => (t_name t, map (fun f => (f_name f, f_type f)) (t_fields t))) (filter isStruct (sc_types s)) ++
  flat_map (fun m => [((me_name m ++ request)%string, map (fun a => (g_name a, g_type a)) (me_inputs m));
                      ((me_name m ++ response)%string, map (fun a => (g_name a, g_type a)) (me_outputs m))])
    (filter (fun m => negb (me_succinct m)) (flat_map v_methods (sc_services s))).
Definition requestSuffix (compat : bool) : string := if compat then "Args" else "Request".
Definition responseSuffix (compat : bool) : string := if compat then "Return" else "Response".
