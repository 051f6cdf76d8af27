(** Model of the schema filters, schema/schema.go 141-336, and of the part of
    cmd/webrpc-gen/main.go that applies them.

    The Go functions update the schema in place and return it; the model
    returns the updated schema.  A nil schema (returned unchanged) and nil
    entries of the lists are not modelled. *)
From Verif Require Import Base Schema.

(** replace the services / the types of a schema *)
Definition withServices (s : schema) (ss : list service) : schema :=
  Schema_ (sc_webrpc s) (sc_name s) (sc_version s) (sc_basepath s) (sc_types s) (sc_errors s) ss.
Definition withTypes (s : schema) (ts : list type) : schema :=
  Schema_ (sc_webrpc s) (sc_name s) (sc_version s) (sc_basepath s) ts (sc_errors s) (sc_services s).
Definition withMethods (v : service) (ms : list method) : service :=
  Service_ (v_id v) (v_name v) ms (v_comments v).

(** schema.go 155-160: the loop collecting the services whose name is in the
    set (a list of names here) *)
Fixpoint keepServices (names : list string) (ss : list service) : list service :=
  match ss with
  | [] => []
  | v :: r => if str_in (v_name v) names then v :: keepServices names r else keepServices names r
  end.

(** schema.go 141-165 MatchServices *)
Definition matchServices (s : schema) (names : list string) : schema :=
  match names with
  | [] => s
  | _ => withServices s (keepServices names (sc_services s))
  end.

(** ** MethodTreeShake, schema.go 167-252 *)

(** left fold of a function that may not return *)
Fixpoint foldO {A B} (f : A -> B -> option B) (l : list A) (b : B) : option B :=
  match l with
  | [] => Some b
  | x :: r => match f x b with Some b' => foldO f r b' | None => None end
  end.

(** schema.go 188-225 walkVarType.  [mark] is the key set of the map.  The Go
    function has no recursion bound: [None] for a bound [n] means that more than
    [n] nested calls are needed; [None] for every [n] means that the Go call
    never returns (it exhausts the stack).  A [*Type] in a VarType is the
    declared name of its target (Schema.v); an alias has neither List, Map,
    Struct nor Enum set, so nothing is done for it. *)
Fixpoint walk (n : nat) (ts : list type) (v : varType) (mark : list string) : option (list string) :=
  match n with
  | O => None
  | S n =>
      match vt_shape v with
      | ShList x => walk n ts x mark
      | ShMap k w =>
          match walk n ts k mark with
          | Some mark' => walk n ts w mark'
          | None => None
          end
      | ShStruct _ d =>
          match getType ts d with
          | None => Some mark
          | Some t =>
              let mark' := if String.eqb (t_name t) "" then mark else t_name t :: mark in
              foldO (fun f m => match f_type f with None => Some m | Some x => walk n ts x m end)
                    (t_fields t) mark'
          end
      | ShEnum _ d =>
          match getType ts d with
          | None => Some mark
          | Some t => Some (if String.eqb (t_name t) "" then mark else t_name t :: mark)
          end
      | ShUnknown | ShCore _ | ShAlias _ _ => Some mark
      end
  end.

(** schema.go 235, 238: the type of an argument, possibly nil *)
Definition walkArg (n : nat) (ts : list type) (a : arg) (mark : list string) : option (list string) :=
  match g_type a with None => Some mark | Some x => walk n ts x mark end.

(** schema.go 233-240: the methods of a service *)
Definition walkMethod (n : nat) (ts : list type) (m : method) (mark : list string) : option (list string) :=
  match foldO (walkArg n ts) (me_inputs m) mark with
  | Some mark' => foldO (walkArg n ts) (me_outputs m) mark'
  | None => None
  end.

(** schema.go 227-241: [marks] is (usedIncluded, usedExcluded) *)
Definition walkService (n : nat) (ts : list type) (names : list string) (v : service)
    (marks : list string * list string) : option (list string * list string) :=
  let (inc, exc) := marks in
  if str_in (v_name v) names then
    match foldO (walkMethod n ts) (v_methods v) inc with
    | Some inc' => Some (inc', exc)
    | None => None
    end
  else
    match foldO (walkMethod n ts) (v_methods v) exc with
    | Some exc' => Some (inc, exc')
    | None => None
    end.

(** schema.go 167-252 MethodTreeShake *)
Definition methodTreeShake (n : nat) (s : schema) (names : list string) : option schema :=
  match foldO (walkService n (sc_types s) names) (sc_services s) ([], []) with
  | Some (inc, _) => Some (withTypes s (filter (fun t => str_in (t_name t) inc) (sc_types s)))
  | None => None
  end.

(** ** Annotations, schema.go 254-336 *)

(** strings.Trim(s, " ") *)
Definition is_blank (c : ascii) : bool := Ascii.eqb c " "%char.
Definition trim_blanks (s : string) : string := trim_right is_blank (trim_left is_blank s).

(** schema.go 262-283 and 304-325: the loop over the requested annotations, in
    the order in which the map is iterated; [true] as soon as one matches *)
Fixpoint annotationLoop (anns : list (string * string)) (m : method) : bool :=
  match anns with
  | [] => false
  | (name, value) :: r =>
      match assoc name (me_annotations m) with
      | None => annotationLoop r m
      | Some (aname, avalue) =>
          if String.eqb (trim_blanks value) "" then
            if String.eqb name aname then true else annotationLoop r m
          else
            if String.eqb name aname && String.eqb value avalue then true else annotationLoop r m
      end
  end.

(** schema.go 254-294 MatchMethodsWithAnnotations *)
Definition matchMethods (s : schema) (anns : list (string * string)) : schema :=
  withServices s (map (fun v => withMethods v (filter (annotationLoop anns) (v_methods v))) (sc_services s)).

(** schema.go 296-336 IgnoreMethodsWithAnnotations *)
Definition ignoreMethods (s : schema) (anns : list (string * string)) : schema :=
  withServices s (map (fun v => withMethods v (filter (fun m => negb (annotationLoop anns m)) (v_methods v)))
                      (sc_services s)).
