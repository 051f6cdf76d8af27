(** Specification of the command line of webrpc-gen. *)
From Verif Require Import Base Schema Filter FilterSpec.

(** [arg] is the option [name] with [value]: one or more dashes, the name, and
    "=value" if a value is given *)
Inductive Option : string -> string -> string -> Prop :=
| OptPlain d name :
    d <> "" -> Forall (fun c => c = "-"%char) (list_ascii_of_string d) ->
    name <> "" -> has_prefix "-" name = false -> contains_byte "=" name = false ->
    Option (d ++ name) name ""
| OptValue d name value :
    d <> "" -> Forall (fun c => c = "-"%char) (list_ascii_of_string d) ->
    name <> "" -> has_prefix "-" name = false -> contains_byte "=" name = false ->
    Option (d ++ name ++ "=" ++ value) name value.

(** webrpc-gen's own flags *)
Definition stringFlags : list string :=
  ["schema"; "target"; "out"; "schemaVersion"; "service"; "ignore"; "match"].
Definition booleanFlags : list string := ["version"; "fmt"; "refreshCache"; "silent"; "methodTreeShake"].
Definition Own (name : string) : Prop := In name stringFlags \/ In name booleanFlags.
Definition HelpName (name : string) : Prop := name = "h" \/ name = "help".

(** [arg] is handed to the flag parser *)
Definition ForFlags (arg : string) : Prop := exists n v, Option arg n v /\ (Own n \/ HelpName n).
(** [arg] sets the template option [k] to [v] *)
Definition ForTemplate (arg k v : string) : Prop :=
  (Option arg k v /\ ~ Own k /\ ~ HelpName k) \/
  (k = "help" /\ v = "" /\ exists n w, Option arg n w /\ HelpName n).

(** the last element of [l] that gives a value to [k] gives [v] *)
Definition LastGiven (gives : string -> string -> string -> Prop) (l : list string) (k v : string) : Prop :=
  exists pre arg post, l = pre ++ arg :: post /\ gives arg k v /\
    forall a w, In a post -> ~ gives a k w.

(** ** annotation lists: "@name" or "@name:value", separated by commas *)
Definition showAnnotation (p : string * string) : string :=
  ("@" ++ fst p ++ (if String.eqb (snd p) "" then "" else ":" ++ snd p))%string.
Definition AnnotationOk (p : string * string) : Prop :=
  contains_byte "," (fst p) = false /\ contains_byte ":" (fst p) = false /\ contains_byte "," (snd p) = false.

(** ** flags given as -name=value (or -name for a boolean) *)
Definition BoolWord (w : string) (b : bool) : Prop :=
  (b = true /\ In w ["1"; "t"; "T"; "true"; "TRUE"; "True"]) \/
  (b = false /\ In w ["0"; "f"; "F"; "false"; "FALSE"; "False"]).
Inductive FlagArg : string -> string -> string -> Prop :=
| FlagString d n v : d = "-" \/ d = "--" -> In n stringFlags -> FlagArg (d ++ n ++ "=" ++ v) n v
| FlagBool d n : d = "-" \/ d = "--" -> In n booleanFlags -> FlagArg (d ++ n) n "true"
| FlagBoolValue d n w b : d = "-" \/ d = "--" -> In n booleanFlags -> BoolWord w b ->
    FlagArg (d ++ n ++ "=" ++ w) n (if b then "true" else "false").
