(** Model of a whole run of webrpc-gen: cmd/webrpc-gen/main.go 34-165 and 216-275, gen/gen.go 40-141.

    The world around the program is a record: the files, the environment, the network, the temp directory,
    the template engine (text/template together with the loaded templates), the Go formatter and the Go
    debug printer are functions of it.  A template may end the program (funcmap_flow.go 31-34 exit).
    Exact texts on standard error are not modelled, only which message it is; a wait without end (the parser's,
    see C04) is [Hang], a Go panic or stack overflow is [Crash].  Writing the output file is a sequence of
    steps, one per byte, as in Cache.v; os.MkdirAll and the permission bits are not modelled. *)
From Verif Require Import Base Schema Ridl SchemaJson Sha1 Uri Gen Cache Cli Main.

(** gen.go 27-39: the variables of the templates *)
Record templateVars := TemplateVars {
  tv_schema : schema; tv_hash : string; tv_genVersion : string; tv_command : string; tv_header : string; tv_target : string;
  tv_opts : list (string * string); tv_codeGen : string; tv_codeGenVersion : string; tv_codeGenName : string }.

(** how executing the templates ends *)
Inductive executed := Rendered (text : string) | TemplateError | TemplateExit (code : nat).

Record world := World {
  w_files : files;                             (* absolute paths without the leading slash -> contents *)
  w_cwd : string;
  w_env : string;                              (* $WEBRPC_SCHEMA_VERSION *)
  w_program : string;                          (* base name of os.Args[0] *)
  w_version : string;                          (* webrpc.VERSION *)
  w_goMod : list string;                       (* the embedded go.mod *)
  w_embedded : string -> files;                (* the embedded generators *)
  w_local : string -> files;                   (* the files of a local template directory *)
  w_disk : disk; w_now : N;                    (* the temp directory and the clock *)
  w_fetch : string -> option files;            (* the remote repositories *)
  w_cacheStop : option nat;                    (* an error while writing the cache *)
  w_exec : files -> templateVars -> executed;
  w_format : string -> option string;          (* golang.org/x/tools/imports; None: an error *)
  w_debug : templateVars -> string;            (* spew *)
  w_isPrint : N -> bool;
  w_age : Z -> string;                         (* how a duration is printed *)
  w_writeStop : option nat }.                  (* an error while writing the output file *)

(** gen.go 20-24 and template_source.go 42-52 *)
Record genOutput := GenOutput { go_code : string; go_local : bool; go_dir : string; go_version : string;
                                go_age : Z; go_refreshErr : option string; go_formatErr : bool }.

(** what gen.Generate comes to, with the temp directory after it *)
Inductive generated := GenOk (g : genOutput) | GenErr (msg : string) | GenExit (code : nat).

(** gen.go 131-137 getWebrpcGenCommand *)
Definition genCommand (w : world) (args : list string) : string :=
  match args with [] => w_program w | _ => (w_program w ++ " " ++ join " " args)%string end.

(** template_source.go 63-95 loadTemplates *)
Definition loadTemplates (w : world) (target : string) (refresh : bool) : result (files * genOutput) * disk :=
  match assoc target (embeddedTargets (w_goMod w)) with
  | Some (name, tag) =>
      (match templatesOf (w_embedded w name) with
       | [] => Err "failed to load embedded templates"
       | l => Ok (l, GenOutput "" true "" tag 0 None false)
       end, w_disk w)
  | None =>
      if isLocalDir target then
        (match templatesOf (w_local w target) with
         | [] => Err "failed to load templates"
         | l => Ok (l, GenOutput "" true target target 0 None false)
         end, w_disk w)
      else
        let url := inferRemoteTarget target in
        match loadRemote url refresh (w_now w) (w_fetch w url) (w_cacheStop w) (w_disk w) with
        | (Ok l, d) => (Ok (l_files l, GenOutput "" false (cacheDir url) (l_version l) (l_age l) (l_refreshErr l) false), d)
        | (_, d) => (Err "failed to load templates", d)
        end
  end.

(** gen.go 40-129 Generate *)
Definition generate (w : world) (args : list string) (s0 : schema) (target0 : string) (refresh fmt : bool)
  (opts : list (string * string)) : generated * disk :=
  let s := defaultBasePath s0 in
  match toJSON (w_isPrint w) s with
  | None => (GenErr "hash", w_disk w)
  | Some json =>
      let hash := sha1Hex json in
      let vars header codeGen version name :=
        TemplateVars s hash (w_version w) (genCommand w args) header target0 opts codeGen version name in
      if String.eqb target0 "json" then (GenOk (GenOutput json true "" target0 0 None false), w_disk w)
      else if String.eqb target0 "debug" then
        (GenOk (GenOutput (w_debug w (vars "" "" "" "")) true "" target0 0 None false), w_disk w)
      else
        let target := getOldTarget target0 in
        match loadTemplates w target refresh with
        | (Ok (tmpl, g), d) =>
            let (name, version) := codeGenOf (go_version g) in
            let header := webRPCGenHeader (HeaderVars (w_version w) name version (sc_name s) (sc_version s) hash) in
            (match w_exec w tmpl (vars header (last (split_byte "/" (go_version g)) "") version name) with
             | TemplateError => GenErr "template"
             | TemplateExit c => GenExit c
             | Rendered text =>
                 let '(code, bad) := if fmt && isGolangTarget target
                                     then match w_format w text with Some c => (c, false) | None => (text, true) end
                                     else (text, false) in
                 GenOk (GenOutput code (go_local g) (go_dir g) (go_version g) (go_age g) (go_refreshErr g) bad)
             end, d)
        | (_, d) => (GenErr "load", d)
        end
  end.

Inductive ending := Exit (code : nat) | Crash | Hang.

(** what a run leaves behind *)
Record outcome := Outcome { o_end : ending; o_stdout : string; o_stderr : list string; o_files : files; o_disk : disk }.

Definition nl : string := String "010" "".
Definition stop (w : world) (d : disk) (c : nat) (msgs : list string) : outcome := Outcome (Exit c) "" msgs (w_files w) d.

(** main.go 257-275: the usage; [vals] are the flags set so far.  The generator's own help is asked for if a
    target is set; Generate's error is tested the wrong way round (line 268), so that what is printed is
    "failed to render -help: <nil>" if it succeeds and the code, which is empty, if it fails.  An exit from the
    template ends the program: inl. *)
Definition usage (w : world) (args : list string) (vals opts : list (string * string)) : (nat + list string) * disk :=
  let target := flagValue vals "target" "" in
  if String.eqb target "" then (inr ["usage"], w_disk w)
  else match generate w args emptySchema target false false opts with
       | (GenExit c, d) => (inl c, d)
       | (GenErr _, d) => (inr ["usage"; ""], d)
       | (GenOk _, d) => (inr ["usage"; "failed to render -help: <nil>"], d)
       end.
Definition usageThenExit (w : world) (args : list string) (vals opts : list (string * string)) (msg : string) (c : nat) : outcome :=
  match usage w args vals opts with
  | (inl c', d) => stop w d c' [msg; "usage"]
  | (inr msgs, d) => stop w d c (msg :: msgs)
  end.

(** main.go 216-238 writeOutfile: the file, and the steps on it *)
Definition outFile (w : world) (out : string) : string := drop 1 (pathAbs (w_cwd w) out).
Definition writeOut (w : world) (out code : string) : files * bool :=
  let ops := writeFile (outFile w out) code in
  match w_writeStop w with
  | Some k => if Nat.ltb k (length ops) then (applyOps (firstn k ops) (w_files w), false) else (applyOps ops (w_files w), true)
  | None => (applyOps ops (w_files w), true)
  end.

(** main.go 142-164: the report *)
Definition report (w : world) (schemaFile out : string) (g : genOutput) : string :=
  ("=======================================" ++ nl ++
   "|      webrpc generated summary       |" ++ nl ++
   "=======================================" ++ nl ++
   " webrpc-gen version : " ++ w_version w ++ nl ++
   " target             : " ++ go_version g ++ nl ++
   (if go_local g then ""
    else " target cache       : " ++ go_dir g ++ nl ++
         " target cache age   : " ++
         (if (0 <? go_age g)%Z then w_age w (go_age g) ++ match go_refreshErr g with
                                                         | Some e => " (failed to refresh: " ++ e ++ ")"
                                                         | None => ""
                                                         end
          else "now (refreshed)") ++ nl) ++
   " schema file        : " ++ schemaFile ++ nl ++
   " output file        : " ++ out ++ nl ++
   (if go_formatErr g then " format error       : failed to format generated Go source" ++ nl else ""))%string.

(** main.go 124-164: what becomes of the generated code *)
Definition deliver (w : world) (d : disk) (vals : list (string * string)) (g : genOutput) : outcome :=
  let out := flagValue vals "out" "" in
  if String.eqb out "" || String.eqb out "stdout" then Outcome (Exit 0) (go_code g ++ nl) [] (w_files w) d
  else
    let (fs, ok) := writeOut w out (go_code g) in
    if negb ok then Outcome (Exit 1) "" ["write error"] fs d
    else if String.eqb (flagValue vals "silent" "false") "true" then Outcome (Exit 0) "" [] fs d
    else Outcome (Exit (if go_formatErr g then 1 else 0)) (report w (flagValue vals "schema" "") out g) [] fs d.

(** main.go 34-165.  [n]: how many nested calls of MethodTreeShake the stack has room for. *)
Definition run (n : nat) (w : world) (args : list string) : outcome :=
  match collectCliArgs args with
  | Ok (cli, opts) =>
      match flagsParse cli with
      | FlagErr Help vals => usageThenExit w args vals opts "help" 0
      | FlagErr _ vals => usageThenExit w args vals opts "flag error" 2
      | Flags vals _ =>
          if String.eqb (flagValue vals "version" "false") "true"
          then Outcome (Exit 0) ("webrpc-gen " ++ w_version w ++ nl)%string [] (w_files w) (w_disk w)
          else if String.eqb (flagValue vals "schema" "") ""
          then usageThenExit w args vals opts "-schema flag is required" 1
          else
            match parseSchemaFile (w_files w) goUriOk (w_cwd w) (flagValue vals "schema" "") with
            | Err _ => stop w (w_disk w) 1 ["failed to parse"]
            | Panic => Outcome Crash "" [] (w_files w) (w_disk w)
            | OutOfFuel => Outcome Hang "" [] (w_files w) (w_disk w)
            | Ok s0 =>
                if String.eqb (flagValue vals "target" "") ""
                then usageThenExit w args vals opts "-target flag is required" 1
                else
                  match prepare n vals (w_env w) s0 with
                  | Err _ => stop w (w_disk w) 1 ["bad filter"]
                  | Ok s =>
                      match generate w args s (flagValue vals "target" "")
                              (String.eqb (flagValue vals "refreshCache" "false") "true")
                              (String.eqb (flagValue vals "fmt" "true") "true") opts with
                      | (GenErr m, d) => stop w d 1 [m]
                      | (GenExit c, d) => stop w d c []
                      | (GenOk g, d) => deliver w d vals g
                      end
                  | _ => Outcome Crash "" [] (w_files w) (w_disk w)
                  end
            end
      end
  | _ => stop w (w_disk w) 1 ["failed to parse CLI flags"]
  end.
