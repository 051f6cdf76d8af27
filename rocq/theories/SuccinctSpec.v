(** Succinct methods and the ordinary methods that look the same on the wire. *)
From Verif Require Import Base Json GoVal GoValSpec Rpc RpcSpec Succinct.

(** the ordinary method whose arguments and results are the fields of the structs, e.g. of
    GetUser(GetUserRequest) => (GetUserResponse):
    GetUser(userId: uint64, prefs: map<string,string>) => (code: uint32, user: User, profile: string) *)
Definition longForm (env : goEnv) (m : anyMethod) : rpcMethod :=
  match m with
  | Plain m => m
  | Short m => RpcMethod (su_name m) (fieldsOf env (su_in m)) (fieldsOf env (su_out m))
  end.
(** the service with every method in long form *)
Definition longService (s : mixedService) : service :=
  Service (mx_prefix s) (mx_env s) (map (longForm (mx_env s)) (mx_methods s)).

Definition SuccinctNames (s : mixedService) : list string :=
  flat_map (fun m => match m with Short m => [su_name m] | Plain _ => [] end) (mx_methods s).

(** one implementation for both services: the succinct methods get their arguments as one struct and return
    one, never nil; a nil pointer would be the zero struct *)
Definition asLong (s : mixedService) (impl : implementation) : implementation :=
  fun name args =>
    if existsb (String.eqb name) (SuccinctNames s) then
      match impl name [VStruct args] with
      | Returns [VPtr (Some (VStruct vs))] => Returns vs
      | Returns _ => Returns [VBad]
      | x => x
      end
    else impl name args.

(** the succinct methods of an implementation return structs with the right fields, and not nil *)
Definition ReturnsStructs (s : mixedService) (impl : implementation) : Prop :=
  forall m args vs, In (Short m) (mx_methods s) -> impl (su_name m) [VStruct args] = Returns vs ->
    exists xs, vs = [VPtr (Some (VStruct xs))] /\ List.length xs = List.length (fieldsOf (mx_env s) (su_out m)).

(** what the network sees of a handler's run: everything but the calls of the implementation *)
Fixpoint wire (es : list event) : list event :=
  match es with [] => [] | CallImpl _ _ :: r => wire r | e :: r => e :: wire r end.
(** the structs are declared *)
Definition Declared (s : mixedService) : Prop :=
  forall m, In (Short m) (mx_methods s) -> lookup (su_in m) (mx_env s) <> None /\ lookup (su_out m) (mx_env s) <> None.
