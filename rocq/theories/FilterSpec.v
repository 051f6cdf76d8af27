(** Specification of the schema filters: which services, methods and types a
    user expects to be kept. Independent of the filters' loops. *)
From Verif Require Import Base Schema TypeSpec Uri ValidateSpec.

(** a schema as the validator leaves it: accepted, with all references resolved
    and all declarations distinct objects; structs have no underlying type
    (neither the RIDL loader nor the JSON decoder produces a parsed one) *)
Definition Accepted (s : schema) : Prop :=
  validate goUriOk s = Ok s /\ SchemaOk Resolved s /\ NoDup (map t_id (sc_types s)) /\
  forall t v, In t (sc_types s) -> t_kind t = "struct" -> t_type t = Some v -> vt_shape v = ShUnknown.

(** ** types needed by methods *)

(** the declared struct or enum [d] occurs in the type [v], possibly under
    lists and maps *)
Inductive Mentions : varType -> string -> Prop :=
| MStruct e n d : Mentions (VT e (ShStruct n d)) d
| MEnum e n d : Mentions (VT e (ShEnum n d)) d
| MList e x d : Mentions x d -> Mentions (VT e (ShList x)) d
| MKey e k w d : Mentions k d -> Mentions (VT e (ShMap k w)) d
| MValue e k w d : Mentions w d -> Mentions (VT e (ShMap k w)) d.

(** [d] is a struct with a field whose type mentions [d'] *)
Definition FieldOf (ts : list type) (d d' : string) : Prop :=
  exists t f v, In t ts /\ t_name t = d /\ t_kind t = "struct" /\
    In f (t_fields t) /\ f_type f = Some v /\ Mentions v d'.

(** one or more such steps *)
Inductive FieldPath (ts : list type) : string -> string -> Prop :=
| FP_one d d' : FieldOf ts d d' -> FieldPath ts d d'
| FP_cons d d' d'' : FieldOf ts d d' -> FieldPath ts d' d'' -> FieldPath ts d d''.

(** [d] is needed for a value of type [v] *)
Definition NeededFor (ts : list type) (v : varType) (d : string) : Prop :=
  Mentions v d \/ exists d0, Mentions v d0 /\ FieldPath ts d0 d.

(** [v] is the type of an input or output of a method of a service that
    satisfies [sel] *)
Definition ArgumentType (s : schema) (sel : service -> Prop) (v : varType) : Prop :=
  exists w m a, In w (sc_services s) /\ sel w /\ In m (v_methods w) /\
    In a (me_inputs m ++ me_outputs m) /\ g_type a = Some v.

(** [d] is needed by a method of a service satisfying [sel] *)
Definition Needed (s : schema) (sel : service -> Prop) (d : string) : Prop :=
  exists v, ArgumentType s sel v /\ NeededFor (sc_types s) v d.

(** the services named by the user *)
Definition Named (names : list string) (w : service) : Prop := In (v_name w) names.

(** some method, of any service, needs a struct that contains itself *)
Definition RecursiveArguments (s : schema) : Prop :=
  exists d, Needed s (fun _ => True) d /\ FieldPath (sc_types s) d d.

(** ** annotations *)

Definition Blank (v : string) : Prop := Forall (fun c => c = " "%char) (list_ascii_of_string v).

(** the request [name], or [name:value], selects the method; without a value
    (or with blanks only) any value will do *)
Definition Selected (m : method) (request : string * string) : Prop :=
  exists v, assoc (fst request) (me_annotations m) = Some (fst request, v) /\
            (Blank (snd request) \/ v = snd request).
Definition SelectedBy (m : method) (requests : list (string * string)) : Prop :=
  exists r, In r requests /\ Selected m r.
