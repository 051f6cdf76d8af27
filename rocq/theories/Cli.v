(** Model of cmd/webrpc-gen/main.go: command line arguments, annotation lists
    and the filters applied before generation. *)
From Verif Require Import Base Schema Filter.

(** a Go map[string]T: the key's entry is replaced, a new key is added *)
Fixpoint mapSet {A} (k : string) (v : A) (m : list (string * A)) : list (string * A) :=
  match m with
  | [] => [(k, v)]
  | (k', w) :: r => if String.eqb k k' then (k, v) :: r else (k', w) :: mapSet k v r
  end.

(** strings.Cut(s, c) for a one-byte separator: before, after, found *)
Definition cut (c : ascii) (s : string) : string * string * bool :=
  match index_byte c s with
  | Some i => (take i s, drop (S i) s, true)
  | None => (s, "", false)
  end.

(** main.go 17-31: the flags of webrpc-gen; [true] for a boolean flag *)
Definition ownFlags : list (string * bool) :=
  [("version", true); ("schema", false); ("schemaVersion", false); ("target", false); ("out", false);
   ("fmt", true); ("refreshCache", true); ("silent", true); ("service", false); ("methodTreeShake", true);
   ("ignore", false); ("match", false)].

(** strings.TrimLeft(s, "-") *)
Definition is_dash (c : ascii) : bool := Ascii.eqb c "-"%char.
Definition trim_dashes (s : string) : string := trim_left is_dash s.

(** main.go 184-214 collectCliArgs; the error carries the offending argument *)
Fixpoint collectLoop (args : list string) (cli : list string) (opts : list (string * string))
  : result (list string * list (string * string)) :=
  match args with
  | [] => Ok (cli, opts)
  | arg :: r =>
      let (name0, value) := match index_byte "="%char arg with
                            | Some i => (take i arg, drop (S i) arg)
                            | None => (arg, "")
                            end in
      if negb (has_prefix "-" name0) then Err arg
      else
        let name := trim_dashes name0 in
        if String.eqb name "" then Err arg
        else match assoc name ownFlags with
             | Some _ => collectLoop r (cli ++ [arg]) opts
             | None =>
                 if String.eqb name "h" || String.eqb name "help"
                 then collectLoop r (cli ++ [arg]) (mapSet "help" "" opts)
                 else collectLoop r cli (mapSet name value opts)
             end
  end.
Definition collectCliArgs (args : list string) : result (list string * list (string * string)) :=
  collectLoop args [] [].

(** main.go 167-182 makeAnnotationsMap; the error carries the offending part *)
Fixpoint annotationsLoop (parts : list string) (m : list (string * string)) : result (list (string * string)) :=
  match parts with
  | [] => Ok m
  | a :: r =>
      match cut "@"%char a with
      | (_, full, true) =>
          match cut ":"%char full with
          | (name, value, _) => annotationsLoop r (mapSet name value m)
          end
      | (_, _, false) => Err a
      end
  end.
Definition makeAnnotationsMap (s : string) : result (list (string * string)) :=
  annotationsLoop (split_byte ","%char s) [].

(** ** the standard library's flag package (flag.FlagSet.Parse with string and
    boolean flags), as used at main.go 41 *)

Inductive flagError :=
| BadSyntax (arg : string)      (* "bad flag syntax" *)
| NotDefined (name : string)    (* "flag provided but not defined" *)
| NeedsArgument (name : string) (* "flag needs an argument" *)
| BadBool (name value : string) (* "invalid boolean value" *)
| Help.                         (* -h or -help: print the usage *)

(** [FlagErr]: the error, and the flags set before it *)
Inductive flagResult :=
| Flags (values : list (string * string)) (rest : list string)
| FlagErr (e : flagError) (values : list (string * string)).

(** strconv.ParseBool *)
Definition boolWords : list (string * bool) :=
  [("1", true); ("t", true); ("T", true); ("TRUE", true); ("true", true); ("True", true);
   ("0", false); ("f", false); ("F", false); ("FALSE", false); ("false", false); ("False", false)].

(** flag.go parseOne, iterated.  [vals] maps a flag to the string it was last
    set to (booleans: "true"/"false").  [n] bounds the number of arguments. *)
Fixpoint flagParse (n : nat) (args : list string) (vals : list (string * string)) : flagResult :=
  match n, args with
  | O, _ => Flags vals args
  | S _, [] => Flags vals []
  | S n, s :: r =>
      match s with
      | String "-"%char (String c s') =>
          if String.eqb s "--" then Flags vals r
          else
            let name0 := if Ascii.eqb c "-"%char then s' else String c s' in
            match name0 with
            | EmptyString => FlagErr (BadSyntax s) vals
            | String d _ =>
                if Ascii.eqb d "-"%char || Ascii.eqb d "="%char then FlagErr (BadSyntax s) vals
                else
                  let '(name, value, hasValue) := cut "="%char name0 in
                  match assoc name ownFlags with
                  | None => if String.eqb name "help" || String.eqb name "h" then FlagErr Help vals
                            else FlagErr (NotDefined name) vals
                  | Some true =>
                      if hasValue then
                        match assoc value boolWords with
                        | Some b => flagParse n r (mapSet name (if b then "true" else "false") vals)
                        | None => FlagErr (BadBool name value) vals
                        end
                      else flagParse n r (mapSet name "true" vals)
                  | Some false =>
                      if hasValue then flagParse n r (mapSet name value vals)
                      else match r with
                           | v :: r' => flagParse n r' (mapSet name v vals)
                           | [] => FlagErr (NeedsArgument name) vals
                           end
                  end
            end
      | _ => Flags vals args
      end
  end.
Definition flagsParse (args : list string) : flagResult := flagParse (length args) args [].

(** ** main.go 60-111: from the parsed schema to the schema that is generated *)

(** the value of a string flag, or its default *)
Definition flagValue (vals : list (string * string)) (name default : string) : string :=
  match assoc name vals with Some v => v | None => default end.

Definition withBasePath (s : schema) (b : string) : schema :=
  Schema_ (sc_webrpc s) (sc_name s) (sc_version s) b (sc_types s) (sc_errors s) (sc_services s).
Definition withVersion (s : schema) (v : string) : schema :=
  Schema_ (sc_webrpc s) (sc_name s) v (sc_basepath s) (sc_types s) (sc_errors s) (sc_services s).

(** main.go 60-63: default base path *)
Definition defaultBasePath (s : schema) : schema :=
  if String.eqb (sc_basepath s) "" && (0 <? length (sc_services s)) then withBasePath s "/rpc/" else s.

(** main.go 64-71: [env] is $WEBRPC_SCHEMA_VERSION ("" if unset) *)
Definition overrideVersion (flag env : string) (s : schema) : schema :=
  if String.eqb flag "$WEBRPC_SCHEMA_VERSION" then
    (if String.eqb env "" then s else withVersion s env)
  else withVersion s flag.

(** main.go 60-111.  [Err] is an exit with a message; [OutOfFuel] stands for a
    call to MethodTreeShake that needs more than [n] nested calls. *)
Definition prepare (n : nat) (vals : list (string * string)) (env : string) (s0 : schema) : result schema :=
  let s := overrideVersion (flagValue vals "schemaVersion" "$WEBRPC_SCHEMA_VERSION") env (defaultBasePath s0) in
  if String.eqb (flagValue vals "target" "") "" then Err "-target flag is required"
  else
    let service := flagValue vals "service" "" in
    let names := split_byte ","%char service in
    do s <- (if String.eqb (flagValue vals "methodTreeShake" "false") "true" && negb (String.eqb service "")
             then match methodTreeShake n s names with Some s' => Ok s' | None => OutOfFuel end
             else Ok s);
    let s := if String.eqb service "" then s else matchServices s names in
    let ign := flagValue vals "ignore" "" in
    let mat := flagValue vals "match" "" in
    if negb (String.eqb ign "") && negb (String.eqb mat "") then Err "-ignore and -match flags are mutually exclusive"
    else
      do s <- (if String.eqb ign "" then Ok s
               else do a <- makeAnnotationsMap ign; Ok (ignoreMethods s a));
      if String.eqb mat "" then Ok s
      else do a <- makeAnnotationsMap mat; Ok (matchMethods s a).
