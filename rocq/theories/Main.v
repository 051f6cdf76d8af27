(** Model of the path of webrpc-gen from its arguments to the schema it generates code for:
    webrpc.go 12-48 ParseSchemaFile, schema.go 93-104 SchemaHash, cmd/webrpc-gen/main.go 34-111 and the
    hash of gen/gen.go 48-57 and the "json" target (gen.go 75-84).

    The file system maps absolute paths without the leading slash to contents; [cwd] is the working
    directory.  Exits with a message are [Err]; the printed usage, warnings and -version are not
    modelled; Windows volumes are not modelled. *)
From Verif Require Import Base Schema Ridl SchemaJson Sha1 Cli.

(** filepath.Ext: from the last dot of the last path element *)
Definition pathExt (p : string) : string :=
  let base := last (split_byte "/"%char p) "" in
  match rev (split_byte "."%char base) with
  | [] | [_] => ""
  | e :: _ => ("." ++ e)%string
  end.

(** filepath.Abs *)
Definition pathAbs (cwd p : string) : string :=
  if has_prefix "/" p then pathClean p else pathJoin cwd p.

(** webrpc.go 12-48 *)
Definition parseSchemaFile (fs : list (string * string)) (uriOk : string -> bool) (cwd p : string) : result schema :=
  let a := pathAbs cwd p in
  let key := drop 1 a in
  let ext := pathExt a in
  if String.eqb ext ".json" then
    match assoc key fs with
    | None => Err "failed to read"
    | Some text => parseSchemaJSON uriOk text
    end
  else if String.eqb ext ".ridl" then
    match loadFile fs uriOk key with
    | LOk s => Ok s
    | LPanic => Panic
    | LFuel => OutOfFuel
    | LErr _ _ => Err "failed to parse"
    end
  else Err "invalid schema file extension".

(** schema.go 93-104 *)
Definition schemaHash (isPrint : N -> bool) (s : schema) : option string := option_map sha1Hex (toJSON isPrint s).

(** main.go 34-111: the schema that is passed to gen.Generate *)
Definition mainSchema (n : nat) (fs : list (string * string)) (uriOk : string -> bool) (cwd env : string)
  (args : list string) : result schema :=
  do c <- collectCliArgs args;
  match flagsParse (fst c) with
  | FlagErr _ _ => Err "flag error"
  | Flags vals _ =>
      if String.eqb (flagValue vals "schema" "") "" then Err "-schema flag is required"
      else do s <- parseSchemaFile fs uriOk cwd (flagValue vals "schema" ""); prepare n vals env s
  end.

(** gen.go 45-57: the hash in the header of the generated file *)
Definition mainHash (n : nat) (fs : list (string * string)) (uriOk : string -> bool) (isPrint : N -> bool)
  (cwd env : string) (args : list string) : result string :=
  do s <- mainSchema n fs uriOk cwd env args;
  match schemaHash isPrint (defaultBasePath s) with Some h => Ok h | None => Err "json error" end.

(** gen.go 75-84: what -target=json writes *)
Definition mainJSON (n : nat) (fs : list (string * string)) (uriOk : string -> bool) (isPrint : N -> bool)
  (cwd env : string) (args : list string) : result string :=
  do s <- mainSchema n fs uriOk cwd env args;
  match toJSON isPrint (defaultBasePath s) with Some t => Ok t | None => Err "json error" end.
