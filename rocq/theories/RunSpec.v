(** Specification of a run of webrpc-gen. *)
From Verif Require Import Base Schema Uri Gen Cache Cli Main MainRun.

(** the arguments ask for the flags [vals] and give the templates the options [opts] *)
Definition Asks (args : list string) (vals opts : list (string * string)) : Prop :=
  exists cli rest, collectCliArgs args = Ok (cli, opts) /\ flagsParse cli = Flags vals rest.

(** the schema to generate code for *)
Definition SchemaFor (n : nat) (w : world) (vals : list (string * string)) (s : schema) : Prop :=
  flagValue vals "version" "false" <> "true" /\ flagValue vals "schema" "" <> "" /\
  exists s0, parseSchemaFile (w_files w) goUriOk (w_cwd w) (flagValue vals "schema" "") = Ok s0 /\
             prepare n vals (w_env w) s0 = Ok s.

(** the generator makes [g] of the schema *)
Definition Generates (n : nat) (w : world) (args : list string) (vals opts : list (string * string)) (g : genOutput) : Prop :=
  exists s d, SchemaFor n w vals s /\
    generate w args s (flagValue vals "target" "")
      (String.eqb (flagValue vals "refreshCache" "false") "true") (String.eqb (flagValue vals "fmt" "true") "true") opts = (GenOk g, d).

(** the code is printed / written to the file [f] *)
Definition ToStdout (vals : list (string * string)) : Prop := flagValue vals "out" "" = "" \/ flagValue vals "out" "" = "stdout".
Definition ToFile (w : world) (vals : list (string * string)) (f : string) : Prop :=
  ~ ToStdout vals /\ pathAbs (w_cwd w) (flagValue vals "out" "") = ("/" ++ f)%string.

(** only the file [f] may differ *)
Definition SameBut (f : string) (a b : files) : Prop := forall x, x <> f -> assoc x a = assoc x b.

Definition Newline : string := String "010" "".
