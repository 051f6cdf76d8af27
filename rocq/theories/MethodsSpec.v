(** Specification for descriptors, hooks on annotations and request headers. *)
From Verif Require Import Base Uri Rpc RpcRoutes Methods.
From Verif Require Schema ValidateSpec.

(** a schema that was accepted, whose services are different declarations without "/" in their names *)
Definition Accepted (sch : Schema.schema) : Prop :=
  (exists u s0, Schema.validate u s0 = Ok sch) /\
  NoDup (map Schema.v_id (Schema.sc_services sch)) /\
  (forall v, In v (Schema.sc_services sch) -> noSlash (Schema.v_name v)).

(** the generated server [s] of a service [v] of the schema *)
Definition ServerOf (sch : Schema.schema) (v : Schema.service) (s : service) : Prop :=
  In v (Schema.sc_services sch) /\
  sv_prefix s = (Schema.sc_basepath sch ++ Schema.v_name v ++ "/")%string /\
  map rm_name (sv_methods s) = map Schema.me_name (Schema.v_methods v).

(** the method carries "@key" (value "") or "@key:value" *)
Definition Annotated (m : Schema.method) (key value : string) : Prop :=
  exists ty, assoc key (Schema.me_annotations m) = Some (ty, value).

(** the descriptor of a method of a service *)
Definition Describes (i : methodInfo) (v : Schema.service) (m : Schema.method) : Prop :=
  mi_name i = Schema.me_name m /\ mi_service i = Schema.v_name v /\
  (forall key value, Annotated m key value <-> hasAnnotation i key = true /\ annotation i key = value) /\
  (forall key, (forall value, ~ Annotated m key value) -> hasAnnotation i key = false /\ annotation i key = EmptyString).

(** two header keys HTTP treats as the same: equal, or tokens that differ in the case of letters only *)
Definition Token (k : string) : Prop := sforall tokenByte k = true.
Definition SameHeader (a b : string) : Prop := a = b \/ Token a /\ Token b /\ to_lower a = to_lower b.

(** the values given for a header, in order *)
Inductive Given (c : string) : headers -> list string -> Prop :=
| GNone : Given c [] []
| GSame k vs h ws : SameHeader k c -> Given c h ws -> Given c ((k, vs) :: h) (vs ++ ws)
| GOther k vs h ws : ~ SameHeader k c -> Given c h ws -> Given c ((k, vs) :: h) ws.
