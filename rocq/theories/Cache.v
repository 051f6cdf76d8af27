(** Model of gen/template_source.go (where templates come from, and the cache of
    remote ones), of the embedded targets (gen/embed.go 47-88) and of the target
    names (gen/helpers.go 11-36).

    Files.  The temp directory holds cache directories, each with files; both
    are association lists here and a missing directory has no files.  Writing
    a file (os.WriteFile: create or truncate, then write) is a sequence of
    primitive steps, one per byte, so that a crash (or a write error) can
    happen between any two.  Steps of a process take effect in program order
    (no loss of power).  os.TempDir is never empty on Unix, so lines 195-199
    are not modelled; neither is the Go template parser: the result of loading
    is the set of files handed to it. *)
From Coq Require Import DecimalString Decimal.
From Verif Require Import Base Schema Cli.

Definition files := list (string * string).      (* file name -> content *)
Definition disk := list (string * files).        (* cache directory -> files *)
Definition dirOf (d : disk) (dir : string) : files := match assoc dir d with Some f => f | None => [] end.

Inductive fsop := Create (f : string) | Append (f : string) (c : ascii).
Definition applyOp (fs : files) (op : fsop) : files :=
  match op with
  | Create f => mapSet f "" fs
  | Append f c => mapSet f (match assoc f fs with Some s => (s ++ String c "")%string | None => String c "" end) fs
  end.
Definition applyOps (ops : list fsop) (fs : files) : files := fold_left applyOp ops fs.

(** os.WriteFile *)
Definition writeFile (f data : string) : list fsop :=
  Create f :: map (Append f) (list_ascii_of_string data).

(** template_source.go 36-40 *)
Definition ttl : Z := 3600.
Definition timestampFile := ".webrpc-gen-timestamp".
Definition infoFile := ".webrpc-gen-info".

(** vfspath.Glob(fs, "/*.go.tmpl") on a directory: the files with that suffix *)
Definition isTemplate (f : string) : bool := has_suffix ".go.tmpl" f.
Definition templatesOf (fs : files) : files := filter (fun p => isTemplate (fst p)) fs.

(** fmt.Sprintf("%d", n) *)
Definition decimal (n : N) : string := NilZero.string_of_uint (N.to_uint n).

(** strconv.ParseInt(s, 10, 64), with the error ignored: 0 for a syntax error,
    saturated if out of range *)
Definition parseDigits (s : string) : option Z :=
  match NilZero.uint_of_string s with Some d => Some (Z.of_N (N.of_uint d)) | None => None end.
Definition parseInt64 (s : string) : Z :=
  match s with
  | String "-" r => match parseDigits r with Some z => Z.max (- z) (-9223372036854775808) | None => 0 end
  | String "+" r => match parseDigits r with Some z => Z.min z 9223372036854775807 | None => 0 end
  | _ => match parseDigits s with Some z => Z.min z 9223372036854775807 | None => 0 end
  end%Z.

(** template_source.go 144-191 cacheTemplates: the steps it takes.  The cache
    directory is never emptied: os.IsExist of the error of a successful Stat is
    false (line 146), and so is it for the error of a failed one.
    [remote] is the content of the fetched repository. *)
Definition cacheOps (target : string) (remote : files) (now : N) : list fsop :=
  flat_map (fun p => writeFile (fst p) (snd p)) (templatesOf remote) ++
  writeFile infoFile (trim_space target) ++
  writeFile timestampFile (decimal now).

(** the call: it fails without doing anything if there are no templates
    (159-161), or after [k] steps if the [k+1]st fails ([stop = Some k]) *)
Definition cacheTemplates (target : string) (remote : files) (now : N) (stop : option nat) (fs : files)
  : files * option string :=
  match templatesOf remote with
  | [] => (fs, Some "no template files were found")
  | _ => let ops := cacheOps target remote now in
         match stop with
         | Some k => if k <? length ops then (applyOps (firstn k ops) fs, Some "write error") else (applyOps ops fs, None)
         | None => (applyOps ops fs, None)
         end
  end.

(** template_source.go 193-216 openCacheDir: availability and the timestamp
    (the age is now minus the timestamp; the wrap-around of time.Unix on
    timestamps beyond year 292277022656 is not modelled) *)
Definition openCache (fs : files) : bool * Z :=
  match assoc timestampFile fs with
  | None => (false, 0%Z)
  | Some b => if String.eqb b "" then (false, 0%Z)
              else let ts := parseInt64 (trim_space b) in ((0 <? ts)%Z, ts)
  end.

(** hash/fnv New32a *)
Definition fnvStep (h : N) (c : ascii) : N := (N.lxor h (N_of_ascii c) * 16777619 mod 4294967296)%N.
Definition fnv32a (s : string) : N := fold_left fnvStep (list_ascii_of_string s) 2166136261%N.

(** template_source.go 218-232 getTmpCacheDir (below the temp directory) *)
Definition cacheDir (target : string) : string :=
  (decimal (fnv32a target) ++ "-" ++ last (split_byte "/" target) "")%string.

(** template_source.go 251-253 isLocalDir *)
Definition isLocalDir (target : string) : bool := has_prefix "/" target || has_prefix "." target.

(** template_source.go 234-249 inferRemoteTarget *)
Definition inferRemoteTarget (target : string) : string :=
  if isLocalDir target then target
  else match split_byte "/" target with
       | [_] => ("github.com/webrpc/gen-" ++ to_lower target)%string
       | _ => target
       end.

(** what loading reports *)
Record loaded := Loaded { l_files : files;        (* templates handed to the parser *)
                          l_version : string;     (* TmplVersion *)
                          l_age : Z;              (* CacheAge, in seconds *)
                          l_refreshErr : option string;
                          l_fetched : bool }.     (* the network was used *)

(** template_source.go 97-142 loadRemote.  [fetch] is what the repository gives
    ([None]: an error); [stop]: see [cacheTemplates].  Answers the result and
    the new disk. *)
Definition loadRemote (target : string) (refresh : bool) (now : N) (fetch : option files) (stop : option nat) (d : disk)
  : result loaded * disk :=
  let dir := cacheDir target in
  let fs := dirOf d dir in
  let (available, ts) := openCache fs in
  let age := (Z.of_N now - ts)%Z in
  let finish (src : files) (version : string) (age : Z) (e : option string) (fetched : bool) (d' : disk) :=
    let version := if available && String.eqb version ""
                   then trim_space (match assoc infoFile (dirOf d' dir) with Some s => s | None => "" end)
                   else version in
    (match templatesOf src with
     | [] => Err "pattern matches no files"
     | l => Ok (Loaded l version age e fetched)
     end, d') in
  if negb available || refresh || (ttl <? age)%Z
  then match fetch with
       | None => if available then finish fs target age (Some "fetch error") true d
                 else (Err "failed to fetch from remote git", d)
       | Some remote =>
           let (fs', e) := cacheTemplates target remote now stop fs in
           finish remote target 0%Z e true (mapSet dir fs' d)
       end
  else finish fs "" age None false d.

(** the directory after a crash during [loadRemote]: after [k] steps of cacheTemplates *)
Definition crashed (target : string) (remote : files) (now : N) (k : nat) (fs : files) : files :=
  match templatesOf remote with
  | [] => fs
  | _ => applyOps (firstn k (cacheOps target remote now)) fs
  end.

(** ** embedded targets *)

(** embed.go 47-88 init: the names under which the generators listed in go.mod
    are embedded, in order; each with (name, ImportTag).  [embedded] are the
    keys of embeddedTargetFS (lines 24-31). *)
Definition embedded : list string := ["golang"; "typescript"; "javascript"; "openapi"; "kotlin"; "dart"].
Definition modPrefix : string := String "009" "github.com/webrpc/gen-".
Definition lineTargets (line : string) : list (string * (string * string)) :=
  if has_prefix modPrefix line
  then match split_byte " " (drop (String.length modPrefix) line) with
       | name :: version :: _ =>
           if str_in name embedded
           then let tag := ("github.com/webrpc/gen-" ++ name ++ "@" ++ version)%string in
                [(name, (name, tag)); ((name ++ "@" ++ version)%string, (name, tag));
                 (("github.com/webrpc/gen-" ++ name)%string, (name, tag)); (tag, (name, tag))]
           else []
       | _ => []
       end
  else [].
Definition embeddedTargets (goMod : list string) : list (string * (string * string)) :=
  fold_left (fun m p => mapSet (fst p) (snd p) m) (flat_map lineTargets goMod) [].

(** helpers.go 11-21 *)
Definition getOldTarget (target : string) : string :=
  if String.eqb target "go" then "github.com/webrpc/gen-golang@v0.6.0"
  else if String.eqb target "ts" then "github.com/webrpc/gen-typescript@v0.6.0"
  else if String.eqb target "js" then "github.com/webrpc/gen-javascript@v0.6.0"
  else target.

(** helpers.go 23-35 *)
Definition isGolangTarget (target : string) : bool :=
  let t := fst (fst (cut "@" target)) in
  String.eqb t "golang" || String.eqb t "go" || has_suffix "gen-golang" t.

(** template_source.go 63-95 loadTemplates and gen.go 72-96: where the code
    generator for a target comes from *)
Inductive source := BuiltIn (name : string) | Embedded (name tag : string) | LocalDir (dir : string) | Remote (url : string).
Definition sourceOf (goMod : list string) (target0 : string) : source :=
  if String.eqb target0 "json" || String.eqb target0 "debug" then BuiltIn target0
  else let target := getOldTarget target0 in
       match assoc target (embeddedTargets goMod) with
       | Some (name, tag) => Embedded name tag
       | None => if isLocalDir target then LocalDir target else Remote (inferRemoteTarget target)
       end.
