(** Corollaries and examples used by Props_Run.v *)
From Verif Require Import Base BaseProofs Schema Uri Sha1 SchemaJson Gen GenProofs Cache CacheSpec CacheProofs Cli CliSpec CliProofs
  Ridl Main PathSpec PathProofs MainRun RunSpec RunProofs PropsLoadAux Props_Cache.

Lemma exit_zero n w args vals opts : Asks args vals opts -> o_end (run n w args) = Exit 0 ->
  flagValue vals "version" "false" = "true" \/
  (exists s target refresh fmt, fst (generate w args s target refresh fmt opts) = GenExit 0) \/
  exists g d, Generates n w args vals opts g /\ run n w args = deliver w d vals g.
Proof.
  intros (cli & rest & EC & EF) H. unfold run in *. rewrite EC, EF in *.
  destruct (String.eqb (flagValue vals "version" "false") "true") eqn:EV; [left; now apply String.eqb_eq|].
  assert (HU : forall msg, o_end (usageThenExit w args vals opts msg 1) = Exit 0 ->
             exists s target refresh fmt, fst (generate w args s target refresh fmt opts) = GenExit 0).
  { intros msg. unfold usageThenExit, usage. destruct (String.eqb (flagValue vals "target" "") ""); [discriminate|].
    destruct (generate w args emptySchema (flagValue vals "target" "") false false opts) as [[g|m|c] d] eqn:EG; try discriminate.
    cbn. intros [= ->]. exists emptySchema, (flagValue vals "target" ""), false, false. now rewrite EG. }
  right. destruct (String.eqb (flagValue vals "schema" "") "") eqn:ES; [left; now apply (HU _ H)|].
  destruct (parseSchemaFile _ _ _ _) as [s0| | |] eqn:EP; try discriminate.
  destruct (String.eqb (flagValue vals "target" "") "") eqn:ET; [left; now apply (HU _ H)|].
  destruct (prepare n vals (w_env w) s0) as [s| | |] eqn:EPr; try discriminate.
  match type of H with context [generate w args s ?t ?r ?f opts] => destruct (generate w args s t r f opts) as [[g|m|c] d] eqn:EG end; try discriminate.
  - right. exists g, d. split; [|reflexivity]. exists s, d. split; [|exact EG].
    apply String.eqb_neq in EV, ES. split; [exact EV|]. split; [exact ES|]. eauto.
  - left. cbn in H. injection H as ->. eexists s, _, _, _. rewrite EG. reflexivity.
Qed.

Lemma defaultBasePath_eq s : defaultBasePath s = Schema_ (sc_webrpc s) (sc_name s) (sc_version s)
  (if string_dec (sc_basepath s) "" then match sc_services s with [] => "" | _ => "/rpc/" end else sc_basepath s)
  (sc_types s) (sc_errors s) (sc_services s).
Proof.
  unfold defaultBasePath, withBasePath. destruct (String.eqb_spec (sc_basepath s) "") as [E|E]; destruct (string_dec (sc_basepath s) ""); try contradiction.
  - destruct s as [a b c p t er [|v l]]; cbn in *; now subst.
  - destruct s; reflexivity.
Qed.
Lemma defaultBasePath_same s : sc_name (defaultBasePath s) = sc_name s /\ sc_version (defaultBasePath s) = sc_version s.
Proof. rewrite defaultBasePath_eq. split; reflexivity. Qed.

Lemma run_source w args s target refresh fmt opts g d :
  generate w args s target refresh fmt opts = (GenOk g, d) ->
  match sourceOf (w_goMod w) target with
  | BuiltIn n => n = target /\ go_local g = true /\ go_version g = target
  | Embedded name tag => go_local g = true /\ go_version g = tag /\ d = w_disk w /\
      exists v text, w_exec w (templatesOf (w_embedded w name)) v = Rendered text
  | LocalDir dir => go_local g = true /\ go_version g = dir /\ d = w_disk w /\
      exists v text, w_exec w (templatesOf (w_local w dir)) v = Rendered text
  | Remote url => go_local g = false /\
      exists l, loadRemote url refresh (w_now w) (w_fetch w url) (w_cacheStop w) (w_disk w) = (Ok l, d) /\
        go_version g = l_version l /\ exists v text, w_exec w (l_files l) v = Rendered text
  end.
Proof.
  intros H. unfold generate in H. destruct (toJSON (w_isPrint w) (defaultBasePath s)) as [json|]; [|discriminate]. cbv zeta in H. unfold sourceOf.
  destruct (String.eqb target "json") eqn:E1.
  { cbn [orb]. injection H as <- _. apply String.eqb_eq in E1. now subst. }
  destruct (String.eqb target "debug") eqn:E2.
  { cbn [orb]. injection H as <- _. apply String.eqb_eq in E2. now subst. }
  cbn [orb]. unfold loadTemplates in H.
  destruct (assoc (getOldTarget target) (embeddedTargets (w_goMod w))) as [[name tag]|].
  - destruct (templatesOf (w_embedded w name)) as [|f l] eqn:ET; [discriminate|]. cbn [go_version] in H.
    destruct (codeGenOf tag) as [cn cv]. match type of H with context [w_exec w ?t ?x] => destruct (w_exec w t x) as [text| |c] eqn:EX end; try discriminate.
    destruct (fmt && _); [destruct (w_format w text)|]; injection H as <- <-; cbn; eauto 9.
  - destruct (isLocalDir (getOldTarget target)).
    + destruct (templatesOf (w_local w (getOldTarget target))) as [|f l] eqn:ET; [discriminate|]. cbn [go_version] in H.
      destruct (codeGenOf (getOldTarget target)) as [cn cv].
      match type of H with context [w_exec w ?t ?x] => destruct (w_exec w t x) as [text| |c] eqn:EX end; try discriminate.
      destruct (fmt && _); [destruct (w_format w text)|]; injection H as <- <-; cbn; eauto 9.
    + destruct (loadRemote _ refresh (w_now w) _ (w_cacheStop w) (w_disk w)) as [[l| | |] d0] eqn:EL; try discriminate. cbn [go_version] in H.
      destruct (codeGenOf (l_version l)) as [cn cv].
      match type of H with context [w_exec w ?t ?x] => destruct (w_exec w t x) as [text| |c] eqn:EX end; try discriminate.
      destruct (fmt && _); [destruct (w_format w text)|]; injection H as <- <-; cbn; eauto 9.
Qed.

Lemma embedded_plain name : In name embedded ->
  contains_byte ";" ("gen-" ++ name) = false /\ contains_byte "@" ("gen-" ++ name) = false /\ contains_byte "/" name = false.
Proof. intros H. cbn in H. repeat (destruct H as [<-|H]; [now repeat split|]). destruct H. Qed.

Lemma codeGenOf_tag name version : contains_byte "/" version = false -> In name embedded ->
  codeGenOf ("github.com/webrpc/gen-" ++ name ++ "@" ++ version) = (("gen-" ++ name)%string, version).
Proof.
  intros HV HN. destruct (embedded_plain name HN) as (A & B & C). unfold codeGenOf.
  change ("github.com/webrpc/gen-" ++ name ++ "@" ++ version)%string with ("github.com" ++ String "/" ("webrpc" ++ String "/" ("gen-" ++ name ++ "@" ++ version)))%string.
  rewrite split_byte_app by reflexivity. rewrite split_byte_app by reflexivity.
  rewrite split_byte_none.
  - cbn [rev app]. change ("gen-" ++ name ++ "@" ++ version)%string with (("gen-" ++ name) ++ String "@" version)%string.
    rewrite cut_app; [reflexivity|exact B].
  - rewrite !contains_byte_app, HV, C. reflexivity.
Qed.

(** ** a small world *)
Definition exRidl : string := lines ["webrpc = v1"; "name = demo"; "version = v1"; "basepath = /rpc"; "struct User"; " - id: uint64"].
Definition exWorld (exec : files -> templateVars -> executed) (fmtr : string -> option string) (wstop : option nat) : world :=
  World [("p/a.ridl", exRidl); ("p/out.go", "old code")] "/p" "" "webrpc-gen" "v0.37.0"
    [(modPrefix ++ "golang v0.36.0")%string]
    (fun _ => [("main.go.tmpl", "template")]) (fun _ => []) [] 0 (fun _ => None) None exec fmtr (fun _ => "") (fun _ => true) (fun _ => "1h") wstop.
Definition goExec : files -> templateVars -> executed := fun _ v =>
  match assoc "help" (tv_opts v) with Some _ => Rendered "the generator's help" | None => Rendered "package main" end.
Definition okWorld : world := exWorld goExec (fun c => Some c) None.
Definition writeArgs : list string := ["-schema=a.ridl"; "-target=golang"; "-out=gen/out.go"; "-pkg=x"].

Definition asked (args : list string) : option (list (string * string) * list (string * string)) :=
  match collectCliArgs args with
  | Ok (cli, opts) => match flagsParse cli with Flags vals _ => Some (vals, opts) | _ => None end
  | _ => None
  end.
Lemma asked_ok args vals opts : asked args = Some (vals, opts) -> Asks args vals opts.
Proof.
  unfold asked, Asks. destruct (collectCliArgs args) as [[cli o]| | |]; try discriminate.
  destruct (flagsParse cli) as [v r|] eqn:E; [|discriminate]. intros [= <- <-]. exists cli, r. auto.
Qed.
Definition gens (w : world) (args : list string) : option genOutput :=
  match asked args with
  | None => None
  | Some (vals, opts) =>
      if String.eqb (flagValue vals "version" "false") "true" || String.eqb (flagValue vals "schema" "") "" then None
      else match parseSchemaFile (w_files w) goUriOk (w_cwd w) (flagValue vals "schema" "") with
           | Ok s0 => match prepare 0 vals (w_env w) s0 with
                      | Ok s => match fst (generate w args s (flagValue vals "target" "")
                                            (String.eqb (flagValue vals "refreshCache" "false") "true")
                                            (String.eqb (flagValue vals "fmt" "true") "true") opts) with GenOk g => Some g | _ => None end
                      | _ => None
                      end
           | _ => None
           end
  end.
Lemma gens_ok w args vals opts g : asked args = Some (vals, opts) -> gens w args = Some g -> Generates 0 w args vals opts g.
Proof.
  intros A. unfold gens. rewrite A.
  destruct (String.eqb (flagValue vals "version" "false") "true") eqn:EV; [discriminate|].
  destruct (String.eqb (flagValue vals "schema" "") "") eqn:ES; [discriminate|]. cbn [orb].
  destruct (parseSchemaFile _ _ _ _) as [s0| | |] eqn:EP; try discriminate.
  destruct (prepare 0 vals (w_env w) s0) as [s| | |] eqn:EPr; try discriminate.
  match goal with |- context [generate w args s ?t ?r ?f opts] => destruct (generate w args s t r f opts) as [[g'|m|c] d] eqn:EG end; try discriminate.
  cbn [fst]. intros [= <-]. exists s, d. split; [|exact EG]. apply String.eqb_neq in EV, ES. split; [exact EV|]. split; [exact ES|]. eauto.
Qed.

Lemma format_error_hidden : exists w args args' vals vals' opts g,
  Asks args vals opts /\ Generates 0 w args vals opts g /\ go_formatErr g = true /\ o_end (run 0 w args) = Exit 0 /\ o_stderr (run 0 w args) = [] /\
  Asks args' vals' opts /\ Generates 0 w args' vals' opts g /\ o_end (run 0 w args') = Exit 0 /\ o_stderr (run 0 w args') = [] /\
  flagValue vals' "silent" "false" = "true".
Proof.
  exists (exWorld goExec (fun _ => None) None), ["-schema=a.ridl"; "-target=golang"], ["-schema=a.ridl"; "-target=golang"; "-out=out.go"; "-silent"],
    [("schema", "a.ridl"); ("target", "golang")], [("schema", "a.ridl"); ("target", "golang"); ("out", "out.go"); ("silent", "true")], [],
    (GenOutput "package main" true "" "github.com/webrpc/gen-golang@v0.36.0" 0 None true).
  split; [apply asked_ok; vm_compute; reflexivity|]. split; [apply gens_ok; vm_compute; reflexivity|].
  split; [reflexivity|]. split; [vm_compute; reflexivity|]. split; [vm_compute; reflexivity|].
  split; [apply asked_ok; vm_compute; reflexivity|]. split; [apply gens_ok; vm_compute; reflexivity|].
  split; [vm_compute; reflexivity|]. split; [vm_compute; reflexivity|]. reflexivity.
Qed.

Lemma output_torn : exists w args old new,
  w_writeStop w <> None /\
  assoc "p/out.go" (w_files w) = Some old /\
  (exists k, assoc "p/out.go" (applyOps (firstn k (writeFile "p/out.go" new)) (w_files w)) = Some "") /\
  old <> "" /\ new <> "" /\
  o_end (run 0 w args) = Exit 1 /\ assoc "p/out.go" (o_files (run 0 w args)) = Some "pack" /\ new = "package main".
Proof.
  exists (exWorld goExec (fun c => Some c) (Some 5%nat)), ["-schema=a.ridl"; "-target=golang"; "-out=out.go"], "old code", "package main".
  split; [discriminate|]. split; [reflexivity|]. split; [exists 1%nat; vm_compute; reflexivity|]. split; [discriminate|]. split; [discriminate|].
  split; [vm_compute; reflexivity|]. split; [vm_compute; reflexivity|reflexivity].
Qed.

Lemma help_thrown_away : exists w args args' text,
  (forall tmpl v, assoc "help" (tv_opts v) = Some "" -> w_exec w tmpl v = Rendered text) /\
  args = ["-schema=a.ridl"; "-target=golang"; "-help"] /\ args' = ["-schema=a.ridl"; "-help"; "-target=golang"] /\
  o_stderr (run 0 w args) = ["help"; "usage"; "failed to render -help: <nil>"] /\ o_stdout (run 0 w args) = "" /\
  o_stderr (run 0 w args') = ["help"; "usage"] /\ o_stdout (run 0 w args') = "".
Proof.
  exists okWorld, ["-schema=a.ridl"; "-target=golang"; "-help"], ["-schema=a.ridl"; "-help"; "-target=golang"], "the generator's help".
  split; [intros tmpl v H; cbn; unfold goExec; now rewrite H|]. split; [reflexivity|]. split; [reflexivity|].
  split; [vm_compute; reflexivity|]. split; [vm_compute; reflexivity|]. split; vm_compute; reflexivity.
Qed.

Lemma run_example : exists vals opts g,
  Asks writeArgs vals opts /\ Generates 0 okWorld writeArgs vals opts g /\ ToFile okWorld vals "p/gen/out.go" /\
  o_end (run 0 okWorld writeArgs) = Exit 0 /\
  assoc "p/gen/out.go" (o_files (run 0 okWorld writeArgs)) = Some "package main" /\
  o_end (run 0 okWorld ["-schema=missing.ridl"; "-target=golang"]) = Exit 1.
Proof.
  exists [("schema", "a.ridl"); ("target", "golang"); ("out", "gen/out.go")], [("pkg", "x")],
    (GenOutput "package main" true "" "github.com/webrpc/gen-golang@v0.36.0" 0 None false).
  split; [apply asked_ok; vm_compute; reflexivity|]. split; [apply gens_ok; vm_compute; reflexivity|].
  split; [split; [intros [H|H]; discriminate H|vm_compute; reflexivity]|].
  split; [vm_compute; reflexivity|]. split; vm_compute; reflexivity.
Qed.
