(** C52, C24: a whole run of webrpc-gen. Theorems only. Specification: RunSpec.v. *)
From Verif Require Import Base BaseProofs Schema Uri Sha1 SchemaJson Gen GenProofs Cache CacheSpec CacheProofs Cli CliSpec CliProofs
  Ridl Main PathSpec PathProofs MainRun RunSpec RunProofs PropsLoadAux Props_Cache PropsRunAux.

(** C52. Whatever the arguments and the world: a run that does not generate code prints nothing but its version
    and changes no file. *)
Theorem C52_only_generated_code_is_written : forall n w args,
  (forall vals opts g, Asks args vals opts -> ~ Generates n w args vals opts g) ->
  o_files (run n w args) = w_files w /\
  (o_stdout (run n w args) = "" \/ o_stdout (run n w args) = ("webrpc-gen " ++ w_version w ++ Newline)%string).
Proof.
  intros n w args H. destruct (run_cases n w args) as [(e & m & d & ->)|[(vals & opts & _ & _ & ->)|(vals & opts & g & d & HA & HG & _)]].
  - split; [reflexivity|now left].
  - split; [reflexivity|now right].
  - exfalso. eapply H; eassumption.
Qed.
Print Assumptions C52_only_generated_code_is_written.

(** C52. Generated code is delivered whole: printed and followed by a newline, or written to the -out file, no
    other file being touched. *)
Theorem C52_generated_code_is_delivered : forall n w args vals opts g,
  Asks args vals opts -> Generates n w args vals opts g ->
  let o := run n w args in
  (ToStdout vals -> o_end o = Exit 0 /\ o_stdout o = (go_code g ++ Newline)%string /\ o_files o = w_files w) /\
  (forall f, ToFile w vals f -> w_writeStop w = None ->
     assoc f (o_files o) = Some (go_code g) /\ SameBut f (o_files o) (w_files w) /\
     o_end o = Exit (if go_formatErr g then (if String.eqb (flagValue vals "silent" "false") "true" then 0 else 1) else 0)).
Proof.
  intros n w args vals opts g HA HG o. destruct (run_generates _ _ _ _ _ _ HA HG) as (d & E). unfold o. rewrite E. unfold deliver. split.
  - intros [->| ->]; cbn; auto.
  - intros f (HF & EP) EW. assert (EO : String.eqb (flagValue vals "out" "") "" || String.eqb (flagValue vals "out" "") "stdout" = false).
    { apply orb_false_iff. split; apply String.eqb_neq; intro X; apply HF; [now left|now right]. }
    rewrite EO. unfold writeOut. rewrite EW, (outFile_eq _ _ _ EP). cbn [negb].
    destruct (String.eqb (flagValue vals "silent" "false") "true"); cbn [o_files o_end].
    + split; [apply writeFile_written|]. split; [apply write_other_all|]. now destruct (go_formatErr g).
    + split; [apply writeFile_written|]. split; [apply write_other_all|]. reflexivity.
Qed.
Print Assumptions C52_generated_code_is_delivered.

(** C52. Conversely, success means: the version was asked for, a template ended the program, or the code was
    generated (and, by the theorem above, delivered). *)
Theorem C52_success_means_generated : forall n w args vals opts,
  Asks args vals opts -> o_end (run n w args) = Exit 0 ->
  flagValue vals "version" "false" = "true" \/
  (exists s target refresh fmt, fst (generate w args s target refresh fmt opts) = GenExit 0) \/
  exists g, Generates n w args vals opts g /\
    (ToStdout vals -> o_stdout (run n w args) = (go_code g ++ Newline)%string) /\
    (forall f, ToFile w vals f -> assoc f (o_files (run n w args)) = Some (go_code g)).
Proof.
  intros n w args vals opts HA H. destruct (exit_zero n w args vals opts HA H) as [V|[X|(g & d & HG & E)]]; [now left|right; now left|].
  right; right. exists g. split; [exact HG|]. rewrite E in *. unfold deliver in *. split.
  - intros [X|X]; rewrite X; reflexivity.
  - intros f (HF & EP). assert (EO : String.eqb (flagValue vals "out" "") "" || String.eqb (flagValue vals "out" "") "stdout" = false).
    { apply orb_false_iff. split; apply String.eqb_neq; intro X; apply HF; [now left|now right]. }
    rewrite EO in *. unfold writeOut in *. rewrite (outFile_eq _ _ _ EP) in *.
    assert (W : forall fs ok, (match w_writeStop w with
        | Some k => if (k <? length (writeFile f (go_code g)))%nat then (applyOps (firstn k (writeFile f (go_code g))) (w_files w), false)
                    else (applyOps (writeFile f (go_code g)) (w_files w), true)
        | None => (applyOps (writeFile f (go_code g)) (w_files w), true) end) = (fs, ok) ->
        ok = true -> assoc f fs = Some (go_code g)).
    { intros fs ok EW ->. destruct (w_writeStop w) as [k|].
      - destruct (k <? length (writeFile f (go_code g)))%nat; [discriminate|]. injection EW as <-. apply writeFile_written.
      - injection EW as <-. apply writeFile_written. }
    destruct (match w_writeStop w with
        | Some k => if (k <? length (writeFile f (go_code g)))%nat then (applyOps (firstn k (writeFile f (go_code g))) (w_files w), false)
                    else (applyOps (writeFile f (go_code g)) (w_files w), true)
        | None => (applyOps (writeFile f (go_code g)) (w_files w), true) end) as [fs ok].
    specialize (W fs ok eq_refl). destruct ok; [|cbn in H; discriminate]. cbn [negb].
    destruct (String.eqb (flagValue vals "silent" "false") "true"); cbn [o_files]; auto.
Qed.
Print Assumptions C52_success_means_generated.

(** C52. A run that fails leaves every file as it was, unless writing the output file itself failed or the
    generated Go code could not be formatted; then only the output file differs, holding a part of the code
    in the first case and the unformatted code in the second. *)
Theorem C52_failure_changes_nothing : forall n w args, has_prefix "/" (w_cwd w) = true ->
  o_end (run n w args) <> Exit 0 ->
  o_files (run n w args) = w_files w \/
  exists vals opts g f, Asks args vals opts /\ Generates n w args vals opts g /\ ToFile w vals f /\
    SameBut f (o_files (run n w args)) (w_files w) /\
    ((w_writeStop w <> None /\
      (assoc f (o_files (run n w args)) = assoc f (w_files w) \/
       exists part rest, assoc f (o_files (run n w args)) = Some part /\ go_code g = (part ++ rest)%string)) \/
     (go_formatErr g = true /\ flagValue vals "silent" "false" <> "true" /\ assoc f (o_files (run n w args)) = Some (go_code g))).
Proof.
  intros n w args HC H. destruct (run_cases n w args) as [(e & m & d & E)|[(vals & opts & _ & _ & E)|(vals & opts & g & d & HA & HG & E)]];
    rewrite E in *; [now left|now left|]. unfold deliver in *.
  destruct (String.eqb (flagValue vals "out" "") "" || String.eqb (flagValue vals "out" "") "stdout") eqn:EO; [now left|].
  right. destruct (pathAbs_slash (w_cwd w) (flagValue vals "out" "") HC) as (f & EP). exists vals, opts, g, f.
  split; [exact HA|]. split; [exact HG|]. split.
  { split; [|exact EP]. apply orb_false_iff in EO as [O1 O2]. apply String.eqb_neq in O1, O2. intros [X|X]; congruence. }
  unfold writeOut in *. rewrite (outFile_eq _ _ _ EP) in *.
  destruct (w_writeStop w) as [k|] eqn:EW.
  - destruct (k <? length (writeFile f (go_code g)))%nat; cbn [negb] in *.
    + cbn [o_files]. split; [apply write_other|]. left. split; [discriminate|].
      destruct (write_prefix f (go_code g) k (w_files w)) as [X|(rest & p & X & Y)]; [now left|]. right. exists p, rest. auto.
    + destruct (String.eqb (flagValue vals "silent" "false") "true") eqn:ESi; [cbn in H; congruence|]. cbn [o_files o_end] in *.
      split; [apply write_other_all|]. right. apply String.eqb_neq in ESi. destruct (go_formatErr g); [|congruence].
      split; [reflexivity|]. split; [exact ESi|]. apply writeFile_written.
  - cbn [negb] in *.
    destruct (String.eqb (flagValue vals "silent" "false") "true") eqn:ESi; [cbn in H; congruence|]. cbn [o_files o_end] in *.
    split; [apply write_other_all|]. right. apply String.eqb_neq in ESi. destruct (go_formatErr g); [|congruence].
    split; [reflexivity|]. split; [exact ESi|]. apply writeFile_written.
Qed.
Print Assumptions C52_failure_changes_nothing.

(** C52. -version prints the version and nothing else happens, whatever else is asked for. *)
Theorem C52_version : forall n w args vals opts, Asks args vals opts -> flagValue vals "version" "false" = "true" ->
  run n w args = Outcome (Exit 0) ("webrpc-gen " ++ w_version w ++ Newline)%string [] (w_files w) (w_disk w).
Proof.
  intros n w args vals opts (cli & rest & EC & EF) V. unfold run. rewrite EC, EF, V. reflexivity.
Qed.
Print Assumptions C52_version.

(** C52. The templates are given the schema (base path filled in), its hash, the options and the header; the
    code is what they render, formatted if it is Go code and -fmt is not off. *)
Theorem C52_templates_get_the_schema : forall w args s target refresh fmt opts g d,
  generate w args s target refresh fmt opts = (GenOk g, d) -> target <> "json" -> target <> "debug" ->
  exists tmpl v text json,
    w_exec w tmpl v = Rendered text /\
    tv_schema v = Schema_ (sc_webrpc s) (sc_name s) (sc_version s)
                    (if string_dec (sc_basepath s) "" then match sc_services s with [] => "" | _ => "/rpc/" end else sc_basepath s)
                    (sc_types s) (sc_errors s) (sc_services s) /\
    toJSON (w_isPrint w) (tv_schema v) = Some json /\ tv_hash v = sha1Hex json /\
    tv_opts v = opts /\ tv_target v = target /\ tv_genVersion v = w_version w /\
    tv_header v = webRPCGenHeader (HeaderVars (w_version w) (tv_codeGenName v) (tv_codeGenVersion v) (sc_name s) (sc_version s) (tv_hash v)) /\
    (fmt = true /\ isGolangTarget (getOldTarget target) = true ->
       (w_format w text = Some (go_code g) /\ go_formatErr g = false) \/
       (w_format w text = None /\ go_code g = text /\ go_formatErr g = true)) /\
    (fmt = false \/ isGolangTarget (getOldTarget target) = false -> go_code g = text /\ go_formatErr g = false).
Proof.
  intros w args s target refresh fmt opts g d H N1 N2. unfold generate in H.
  destruct (toJSON (w_isPrint w) (defaultBasePath s)) as [json|] eqn:EJ; [|discriminate].
  apply String.eqb_neq in N1, N2. rewrite N1, N2 in H. cbv zeta in H.
  destruct (loadTemplates w (getOldTarget target) refresh) as [[[tmpl g0]| | |] d0]; try discriminate.
  destruct (codeGenOf (go_version g0)) as [name version].
  match type of H with context [w_exec w tmpl ?x] => set (v := x) in * end.
  destruct (w_exec w tmpl v) as [text| |c] eqn:EX; try discriminate.
  exists tmpl, v, text, json. split; [exact EX|].
  split; [apply defaultBasePath_eq|]. split; [exact EJ|]. do 4 (split; [reflexivity|]).
  split; [unfold v; cbn [tv_header tv_codeGenName tv_codeGenVersion tv_hash]; now rewrite (proj1 (defaultBasePath_same s)), (proj2 (defaultBasePath_same s))|].
  destruct (fmt && isGolangTarget (getOldTarget target)) eqn:EF.
  - split.
    + intros _. destruct (w_format w text) as [c|]; injection H as <- _; cbn; auto.
    + apply andb_true_iff in EF as [-> ->]. intros [|]; discriminate.
  - injection H as <- _. cbn [go_code go_formatErr]. split; [|auto]. intros [A B]. rewrite A, B in EF. discriminate.
Qed.
Print Assumptions C52_templates_get_the_schema.

(** C52. -target=json delivers the schema's JSON document, which ends in a newline. *)
Theorem C52_json_target : forall w args s refresh fmt opts g d,
  generate w args s "json" refresh fmt opts = (GenOk g, d) ->
  toJSON (w_isPrint w) (defaultBasePath s) = Some (go_code g) /\ go_formatErr g = false /\ d = w_disk w /\
  exists body, go_code g = (body ++ Newline)%string.
Proof.
  intros w args s refresh fmt opts g d H. unfold generate in H.
  destruct (toJSON (w_isPrint w) (defaultBasePath s)) as [json|] eqn:EJ; [|discriminate]. cbn in H. injection H as <- <-. cbn [go_code go_formatErr].
  repeat split. unfold toJSON in EJ. destruct (schemaJ (w_isPrint w) (defaultBasePath s)); [|discriminate]. injection EJ as <-. eexists. reflexivity.
Qed.
Print Assumptions C52_json_target.

(** C52. The hash in the header of a run is that of the schema the flags ask for. *)
Theorem C52_hash_of_a_run : forall n w args vals opts s d g target refresh fmt,
  Asks args vals opts -> SchemaFor n w vals s -> target <> "json" -> target <> "debug" ->
  generate w args s target refresh fmt opts = (GenOk g, d) ->
  exists tmpl v text, w_exec w tmpl v = Rendered text /\
    mainHash n (w_files w) goUriOk (w_isPrint w) (w_cwd w) (w_env w) args = Ok (tv_hash v).
Proof.
  intros n w args vals opts s d g target refresh fmt (cli & rest & EC & EF) (_ & HS & s0 & EP & EPr) N1 N2 HG.
  destruct (C52_templates_get_the_schema _ _ _ _ _ _ _ _ _ HG N1 N2) as (tmpl & v & text & json & EX & ESc & EJ & EH & _).
  exists tmpl, v, text. split; [exact EX|]. unfold mainHash, mainSchema. rewrite EC. cbn [bind fst]. rewrite EF.
  apply String.eqb_neq in HS. rewrite HS, EP. cbn [bind]. rewrite EPr. cbn [bind]. unfold schemaHash.
  rewrite defaultBasePath_eq, <- ESc, EJ. cbn. now rewrite EH.
Qed.
Print Assumptions C52_hash_of_a_run.

(** C40. The run uses the generator its target denotes. *)
Theorem C40_run_uses_the_denoted_generator : forall w args s target refresh fmt opts g d,
  generate w args s target refresh fmt opts = (GenOk g, d) ->
  match sourceOf (w_goMod w) target with
  | BuiltIn n => n = target /\ go_local g = true /\ go_version g = target
  | Embedded name tag => go_local g = true /\ go_version g = tag /\ d = w_disk w /\
      exists v text, w_exec w (templatesOf (w_embedded w name)) v = Rendered text
  | LocalDir dir => go_local g = true /\ go_version g = dir /\ d = w_disk w /\
      exists v text, w_exec w (templatesOf (w_local w dir)) v = Rendered text
  | Remote url => go_local g = false /\
      exists l, loadRemote url refresh (w_now w) (w_fetch w url) (w_cacheStop w) (w_disk w) = (Ok l, d) /\
        go_version g = l_version l /\ exists v text, w_exec w (l_files l) v = Rendered text
  end.
Proof. exact run_source. Qed.
Print Assumptions C40_run_uses_the_denoted_generator.

(** C24. The header written by an embedded generator names webrpc's version, the generator, its version, and the
    schema with its version (its hash if it has none). *)
Theorem C24_header_names_the_generator : forall w name version v hash,
  (contains_byte "/" version = false /\ contains_byte ";" version = false) ->
  In name embedded -> version <> "" ->
  contains_byte ";" (w_version w) = false ->
  contains_byte ";" (sc_name v) = false -> contains_byte "@" (sc_name v) = false -> contains_byte ";" (sc_version v) = false ->
  contains_byte ";" hash = false ->
  let cg := codeGenOf ("github.com/webrpc/gen-" ++ name ++ "@" ++ version) in
  parseGenVersions (webRPCGenHeader (HeaderVars (w_version w) (fst cg) (snd cg) (sc_name v) (sc_version v) hash)) =
  Some (GenVersions (w_version w) ("gen-" ++ name) version (sc_name v)
          (if String.eqb (sc_version v) "" then ("v0.0.0-" ++ hash)%string else sc_version v)).
Proof.
  intros w name version v hash [H1 H2] HN HV H3 H4 H5 H6 H7 cg. unfold cg. rewrite codeGenOf_tag by (auto; now apply embedded_plain).
  cbn [fst snd]. rewrite header_round_trip; cbn [hv_gen hv_codegen hv_codegenVersion hv_schema hv_schemaVersion hv_hash]; auto;
    try (destruct (embedded_plain name HN) as (A & B & C); assumption).
  apply String.eqb_neq in HV. now rewrite HV.
Qed.
Print Assumptions C24_header_names_the_generator.

(** ... but a generator from a branch with a slash in its name is recorded under the branch's last element and
    with an unknown version, ... *)
Theorem C24_branch_with_slash_refuted :
  codeGenOf "github.com/acme/gen-rust@feature/streams" = ("streams", "").
Proof. reflexivity. Qed.
Print Assumptions C24_branch_with_slash_refuted.

(** ... and one from a directory written with a slash at its end under no name at all. *)
Theorem C24_directory_with_slash_refuted :
  codeGenOf "./templates/" = ("", "") /\ codeGenOf "./templates" = ("templates", "").
Proof. split; reflexivity. Qed.
Print Assumptions C24_directory_with_slash_refuted.

(** C52, refuted. "A run that reports success has formatted its code": with -silent, or when printing, a
    formatting error goes unnoticed. *)
Theorem C52_format_errors_are_reported_refuted : exists w args args' vals vals' opts g,
  Asks args vals opts /\ Generates 0 w args vals opts g /\ go_formatErr g = true /\ o_end (run 0 w args) = Exit 0 /\ o_stderr (run 0 w args) = [] /\
  Asks args' vals' opts /\ Generates 0 w args' vals' opts g /\ o_end (run 0 w args') = Exit 0 /\ o_stderr (run 0 w args') = [] /\
  flagValue vals' "silent" "false" = "true".
Proof. exact format_error_hidden. Qed.
Print Assumptions C52_format_errors_are_reported_refuted.

(** C52, refuted. "The output file holds the old or the new code": if writing is interrupted it holds neither. *)
Theorem C52_output_is_replaced_at_once_refuted : exists w args old new,
  w_writeStop w <> None /\
  assoc "p/out.go" (w_files w) = Some old /\
  (exists k, assoc "p/out.go" (applyOps (firstn k (writeFile "p/out.go" new)) (w_files w)) = Some "") /\
  old <> "" /\ new <> "" /\
  o_end (run 0 w args) = Exit 1 /\ assoc "p/out.go" (o_files (run 0 w args)) = Some "pack" /\ new = "package main".
Proof. exact output_torn. Qed.
Print Assumptions C52_output_is_replaced_at_once_refuted.

(** C52, refuted. "-help shows the generator's help": if the generator renders it as its output it is thrown away,
    and a message about a failure without a cause takes its place; and a target after -help is not looked at. *)
Theorem C52_help_is_shown_refuted : exists w args args' text,
  (forall tmpl v, assoc "help" (tv_opts v) = Some "" -> w_exec w tmpl v = Rendered text) /\
  args = ["-schema=a.ridl"; "-target=golang"; "-help"] /\ args' = ["-schema=a.ridl"; "-help"; "-target=golang"] /\
  o_stderr (run 0 w args) = ["help"; "usage"; "failed to render -help: <nil>"] /\ o_stdout (run 0 w args) = "" /\
  o_stderr (run 0 w args') = ["help"; "usage"] /\ o_stdout (run 0 w args') = "".
Proof. exact help_thrown_away. Qed.
Print Assumptions C52_help_is_shown_refuted.

(** Non-vacuity: a run that writes a file, with the report; one that prints; one that fails. *)
Example C52_example : exists vals opts g,
  Asks writeArgs vals opts /\ Generates 0 okWorld writeArgs vals opts g /\ ToFile okWorld vals "p/gen/out.go" /\
  o_end (run 0 okWorld writeArgs) = Exit 0 /\
  assoc "p/gen/out.go" (o_files (run 0 okWorld writeArgs)) = Some "package main" /\
  o_end (run 0 okWorld ["-schema=missing.ridl"; "-target=golang"]) = Exit 1.
Proof. exact run_example. Qed.
