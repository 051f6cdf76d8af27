(** C25, C39: the command line of webrpc-gen. Theorems only. Specification: CliSpec.v, FilterSpec.v. *)
From Verif Require Import Base BaseProofs Schema TypeSpec Uri ValidateSpec Filter FilterSpec FilterProofs PropsFilterAux
  Cli CliSpec CliProofs.

(** C25. An argument vector is accepted iff every argument is an option; then the flag parser gets exactly
    webrpc-gen's own flags (and -h/-help), in order, and the template gets exactly the other options, each with
    the value of its last occurrence (and "help" if help was asked for). *)
Theorem C25_arguments_are_collected : forall args cli opts,
  collectCliArgs args = Ok (cli, opts) ->
  (forall a, In a args -> exists n v, Option a n v) /\
  (exists own : string -> bool, (forall a, own a = true <-> ForFlags a) /\ cli = filter own args) /\
  (forall k v, assoc k opts = Some v <-> LastGiven ForTemplate args k v).
Proof.
  intros args cli opts H. apply collect_ok in H as (H1 & -> & ->). split; [assumption|]. split.
  - exists forFlags. split; [exact forFlags_iff|reflexivity].
  - intros k v. apply LastGiven_fold; [exact gives_iff|reflexivity].
Qed.
Print Assumptions C25_arguments_are_collected.

(** C25. It is rejected iff some argument is not an option, and the first such argument is reported. *)
Theorem C25_malformed_arguments_are_reported : forall args,
  ((exists r, collectCliArgs args = Ok r) <-> forall a, In a args -> exists n v, Option a n v) /\
  (forall a, collectCliArgs args = Err a <->
     exists pre post, args = pre ++ a :: post /\ (forall b, In b pre -> exists n v, Option b n v) /\
                      forall n v, ~ Option a n v).
Proof.
  intro args. split; [|intro a; apply collect_err]. split.
  - intros ([cli opts] & H). now apply collect_ok in H.
  - intro H. eexists (_, _). apply collect_ok. split; [assumption|]. split; reflexivity.
Qed.
Print Assumptions C25_malformed_arguments_are_reported.

(** C25. No argument is dropped, and none but help is given to both. *)
Theorem C25_every_argument_has_one_destination : forall a n v, Option a n v ->
  (ForFlags a \/ exists k w, ForTemplate a k w) /\
  (ForFlags a -> (exists k w, ForTemplate a k w) -> HelpName n).
Proof.
  intros a n v H. split.
  - destruct (in_dec string_dec n (map fst ownFlags)) as [K0|K0]; [left; exists n, v; split; [assumption|left; now apply own_iff, assoc_In_fst]|].
    assert (K : ~ Own n) by (intro Q; apply K0, assoc_In_fst, own_iff, Q). clear K0.
    destruct (String.eqb n "h" || String.eqb n "help") eqn:E.
    + apply help_iff in E. left. exists n, v. auto.
    + right. exists n, v. left. split; [assumption|]. split; [assumption|]. intro Q. apply help_iff in Q. congruence.
  - intros (n1 & v1 & H1 & K1) (k & w & [(H2 & K2 & K3)|(_ & _ & n2 & w2 & H2 & K2)]).
    + destruct (Option_fun _ _ _ _ _ H1 H2) as [-> ->]. tauto.
    + destruct (Option_fun _ _ _ _ _ H H2) as [-> _]. assumption.
Qed.
Print Assumptions C25_every_argument_has_one_destination.

(** An argument denotes one option only. *)
Theorem C25_options_are_unambiguous : forall a n v n' v', Option a n v -> Option a n' v' -> n = n' /\ v = v'.
Proof. exact Option_fun. Qed.
Print Assumptions C25_options_are_unambiguous.

(** "a repeated option is reported" is false: the earlier one is silently lost. *)
Theorem C25_repeated_option_refuted : exists args cli opts,
  collectCliArgs args = Ok (cli, opts) /\ In "-pkg=a" args /\ assoc "pkg" opts = Some "b".
Proof. exists ["-pkg=a"; "-pkg=b"], [], [("pkg", "b")]. repeat split. now left. Qed.
Print Assumptions C25_repeated_option_refuted.

(** C25. Own flags written -name=value (booleans also -name) are all consumed by the flag parser, each flag
    ends up with the value of its last occurrence. *)
Theorem C25_own_flags_are_set : forall args, (forall a, In a args -> exists n v, FlagArg a n v) ->
  exists vals, flagsParse args = Flags vals [] /\ forall k v, assoc k vals = Some v <-> LastGiven FlagArg args k v.
Proof. exact flags_last. Qed.
Print Assumptions C25_own_flags_are_set.

(** Without "=" a string flag swallows the next flag (the value written after it was already rejected or given
    to the template). *)
Theorem C25_flag_swallows_flag_refuted :
  collectCliArgs ["-out"; "-silent"] = Ok (["-out"; "-silent"], []) /\
  flagsParse ["-out"; "-silent"] = Flags [("out", "-silent")] [].
Proof. split; reflexivity. Qed.
Print Assumptions C25_flag_swallows_flag_refuted.

(** C25. A comma-separated list of annotations is read as the annotations it shows, the last value of a name
    counting; a part without "@" is reported. *)
Theorem C25_annotation_list_is_read_back : forall anns, anns <> [] -> Forall AnnotationOk anns ->
  exists m, makeAnnotationsMap (join "," (map showAnnotation anns)) = Ok m /\
    forall k v, assoc k m = Some v <-> exists pre post, anns = pre ++ (k, v) :: post /\ ~ In k (map fst post).
Proof.
  intros anns Hne Hok. rewrite Forall_forall in Hok. unfold makeAnnotationsMap. rewrite split_join.
  2:{ destruct anns; [contradiction|discriminate]. }
  2:{ intros x Hx. apply in_map_iff in Hx as (p & <- & Hp). now apply show_no_comma, Hok. }
  rewrite annotationsLoop_eq.
  assert (Hf : find (fun a => negb (contains_byte "@" a)) (map showAnnotation anns) = None).
  { clear. induction anns as [|p r IH]; [reflexivity|]. cbn [map find]. unfold showAnnotation at 1.
    rewrite contains_byte_app. change (contains_byte "@" "@") with true. exact IH. }
  rewrite Hf. eexists. split; [reflexivity|]. intros k v.
  assert (E : forall l m, (forall p, In p l -> AnnotationOk p) ->
     fold_left (fun m a => setOpt (annGives a) m) (map showAnnotation l) m =
     fold_left (fun m (g : string * string) => mapSet (fst g) (snd g) m) l m).
  { clear. induction l as [|p l IH]; intros m H; [reflexivity|]. cbn [map fold_left].
    rewrite (annGives_show p) by (apply H; now left). destruct p as [n w]. cbn [setOpt fst snd]. apply IH.
    intros q Hq. apply H. now right. }
  rewrite E by exact Hok. rewrite fold_gs_last. split.
  - intros [H|(_ & H)]; [assumption|discriminate].
  - intro H. now left.
Qed.
Print Assumptions C25_annotation_list_is_read_back.

Theorem C25_malformed_annotations_are_reported : forall s,
  (exists a, makeAnnotationsMap s = Err a) <-> exists a, In a (split_byte "," s) /\ contains_byte "@" a = false.
Proof.
  intro s. unfold makeAnnotationsMap. rewrite annotationsLoop_eq.
  destruct (find (fun a => negb (contains_byte "@" a)) (split_byte "," s)) as [a|] eqn:E.
  - apply TypeProofs.find_some in E as [E1 E2]. apply negb_true_iff in E2. split; eauto.
  - split; [intros (a & H); discriminate|]. intros (a & Ha & K). pose proof (find_none _ _ E a Ha) as Q. cbn in Q.
    rewrite K in Q. discriminate.
Qed.
Print Assumptions C25_malformed_annotations_are_reported.

(** C39. Without tree shaking, what is generated is the parsed schema with: the services of -service (all if
    absent), of these the methods selected by -match, or not selected by -ignore; the version of
    -schemaVersion, else of the environment, else its own; the base path /rpc/ if it has services and none is
    given; everything else unchanged. *)
Theorem C39_flags_restrict_the_schema : forall n vals env s s',
  flagValue vals "methodTreeShake" "false" <> "true" ->
  prepare n vals env s = Ok s' ->
  flagValue vals "target" "" <> "" /\
  sc_webrpc s' = sc_webrpc s /\ sc_name s' = sc_name s /\ sc_types s' = sc_types s /\ sc_errors s' = sc_errors s /\
  sc_version s' = (if string_dec (flagValue vals "schemaVersion" "$WEBRPC_SCHEMA_VERSION") "$WEBRPC_SCHEMA_VERSION"
                   then if string_dec env "" then sc_version s else env
                   else flagValue vals "schemaVersion" "$WEBRPC_SCHEMA_VERSION") /\
  sc_basepath s' = (if string_dec (sc_basepath s) "" then match sc_services s with [] => "" | _ => "/rpc/" end
                    else sc_basepath s) /\
  exists (keep : service -> bool) (sel : method -> bool),
    sc_services s' = map (fun v => Service_ (v_id v) (v_name v) (filter sel (v_methods v)) (v_comments v))
                         (filter keep (sc_services s)) /\
    (forall v, keep v = true <->
       flagValue vals "service" "" = "" \/ In (v_name v) (split_byte "," (flagValue vals "service" ""))) /\
    ((flagValue vals "ignore" "" = "" /\ flagValue vals "match" "" = "" /\ forall m, sel m = true) \/
     (flagValue vals "match" "" = "" /\ exists a, makeAnnotationsMap (flagValue vals "ignore" "") = Ok a /\
        forall m, sel m = true <-> ~ SelectedBy m a) \/
     (flagValue vals "ignore" "" = "" /\ exists a, makeAnnotationsMap (flagValue vals "match" "") = Ok a /\
        forall m, sel m = true <-> SelectedBy m a)).
Proof.
  intros n vals env s s' Hsh H. unfold prepare in H. cbv zeta in H.
  destruct (String.eqb_spec (flagValue vals "target" "") "") as [|Ht]; [discriminate|]. split; [assumption|].
  destruct (String.eqb_spec (flagValue vals "methodTreeShake" "false") "true") as [|_]; [contradiction|]. cbn [andb bind] in H.
  set (s1 := overrideVersion (flagValue vals "schemaVersion" "$WEBRPC_SCHEMA_VERSION") env (defaultBasePath s)) in *.
  set (ver := if string_dec (flagValue vals "schemaVersion" "$WEBRPC_SCHEMA_VERSION") "$WEBRPC_SCHEMA_VERSION"
                   then if string_dec env "" then sc_version s else env
                   else flagValue vals "schemaVersion" "$WEBRPC_SCHEMA_VERSION").
  set (bp := if string_dec (sc_basepath s) "" then match sc_services s with [] => "" | _ => "/rpc/" end else sc_basepath s).
  assert (E1 : s1 = Schema_ (sc_webrpc s) (sc_name s) ver bp (sc_types s) (sc_errors s) (sc_services s)).
  { assert (E0 : defaultBasePath s = withBasePath s bp).
    { unfold defaultBasePath, withBasePath, bp. destruct (String.eqb_spec (sc_basepath s) "") as [E|E];
        destruct (string_dec (sc_basepath s) ""); try contradiction.
      - cbn [andb]. destruct (sc_services s) eqn:Es; cbn [length Nat.ltb Nat.leb]; [|reflexivity]. destruct s; cbn in *; now subst.
      - cbn [andb]. now destruct s. }
    unfold s1, overrideVersion. rewrite E0. unfold ver.
    destruct (String.eqb_spec (flagValue vals "schemaVersion" "$WEBRPC_SCHEMA_VERSION") "$WEBRPC_SCHEMA_VERSION") as [Ev|Ev];
      destruct (string_dec (flagValue vals "schemaVersion" "$WEBRPC_SCHEMA_VERSION") "$WEBRPC_SCHEMA_VERSION"); try contradiction; [|reflexivity].
    destruct (String.eqb_spec env ""); destruct (string_dec env ""); try contradiction; reflexivity. }
  set (service := flagValue vals "service" "") in *. set (ign := flagValue vals "ignore" "") in *. set (mat := flagValue vals "match" "") in *.
  set (keep := fun v => String.eqb service "" || str_in (v_name v) (split_byte "," service)).
  assert (E2 : (if String.eqb service "" then s1 else matchServices s1 (split_byte "," service)) =
    Schema_ (sc_webrpc s) (sc_name s) ver bp (sc_types s) (sc_errors s) (filter keep (sc_services s))).
  { rewrite E1. unfold keep. destruct (String.eqb service "").
    - f_equal. cbn [orb]. clear. induction (sc_services s) as [|v r IH]; [reflexivity|]. cbn. now rewrite <- IH.
    - cbn [orb]. unfold matchServices. destruct (split_byte "," service) as [|x l] eqn:El; [now apply split_byte_nonempty in El|].
      rewrite keepServices_filter. reflexivity. }
  rewrite E2 in H. clear E2 E1. clearbody ver bp. clear s1.
  assert (Hk : forall v, keep v = true <-> service = "" \/ In (v_name v) (split_byte "," service)).
  { intro v. unfold keep. rewrite orb_true_iff, String.eqb_eq, str_in_In. reflexivity. }
  clearbody keep.
  destruct (negb (String.eqb ign "") && negb (String.eqb mat "")) eqn:Eb; [discriminate|].
  assert (idmap : forall l, l = map (fun v => Service_ (v_id v) (v_name v) (filter (fun _ : method => true) (v_methods v)) (v_comments v)) l).
  { assert (ft : forall l : list method, filter (fun _ => true) l = l) by (induction l; cbn; congruence).
    induction l as [|v r IH]; [reflexivity|]. cbn [map]. rewrite <- IH. f_equal. rewrite ft. now destruct v. }
  destruct (String.eqb_spec ign "") as [Ei|Ei].
  - cbn [bind] in H. destruct (String.eqb_spec mat "") as [Em|Em].
    + injection H as <-. cbn [sc_webrpc sc_name sc_types sc_errors sc_version sc_basepath sc_services]. do 6 (split; [reflexivity|]).
      exists keep, (fun _ => true). split; [apply idmap|]. split; [assumption|]. left. auto.
    + destruct (makeAnnotationsMap mat) as [a| | |] eqn:Ea; try discriminate. cbn [bind] in H. injection H as <-.
      cbn [matchMethods withServices sc_webrpc sc_name sc_types sc_errors sc_version sc_basepath sc_services]. do 6 (split; [reflexivity|]).
      exists keep, (annotationLoop a). split; [reflexivity|]. split; [assumption|]. right; right. split; [assumption|].
      exists a. split; [reflexivity|]. intro m. apply annotationLoop_iff.
  - destruct (String.eqb_spec mat "") as [Em|Em]; [|discriminate].
    destruct (makeAnnotationsMap ign) as [a| | |] eqn:Ea; try discriminate. cbn [bind] in H. injection H as <-.
    cbn [ignoreMethods withServices sc_webrpc sc_name sc_types sc_errors sc_version sc_basepath sc_services]. do 6 (split; [reflexivity|]).
    exists keep, (fun m => negb (annotationLoop a m)). split; [reflexivity|]. split; [assumption|]. right; left. split; [assumption|].
    exists a. split; [reflexivity|]. intro m. rewrite negb_true_iff, <- not_true_iff_false, annotationLoop_iff. reflexivity.
Qed.
Print Assumptions C39_flags_restrict_the_schema.

(** C39. -ignore and -match together are refused, and so is a missing -target; both before anything is generated. *)
Theorem C39_ignore_and_match_are_exclusive : forall n vals env s s',
  flagValue vals "ignore" "" <> "" -> flagValue vals "match" "" <> "" -> prepare n vals env s <> Ok s'.
Proof.
  intros n vals env s s' Hi Hm H. unfold prepare in H. cbv zeta in H.
  destruct (String.eqb (flagValue vals "target" "") ""); [discriminate|].
  apply bind_ok in H as (s1 & _ & H).
  destruct (String.eqb_spec (flagValue vals "ignore" "") ""); [contradiction|].
  destruct (String.eqb_spec (flagValue vals "match" "") ""); [contradiction|]. discriminate.
Qed.
Print Assumptions C39_ignore_and_match_are_exclusive.

(** Non-vacuity. *)
Example C25_example :
  collectCliArgs ["-schema=a.ridl"; "--pkg=x=y"; "-target=golang"; "-client"; "-help"] =
    Ok (["-schema=a.ridl"; "-target=golang"; "-help"], [("pkg", "x=y"); ("client", ""); ("help", "")]) /\
  collectCliArgs ["-schema=a.ridl"; "b.ridl"; "--"] = Err "b.ridl" /\
  flagsParse ["-schema=a.ridl"; "--silent"; "-fmt=0"; "-schema=b.ridl"] =
    Flags [("schema", "b.ridl"); ("silent", "true"); ("fmt", "false")] [] /\
  makeAnnotationsMap "@auth:token,x@internal" = Ok [("auth", "token"); ("internal", "")].
Proof. vm_compute. repeat split. Qed.

Example C39_example :
  match prepare 9 [("target", "golang"); ("service", "Users"); ("match", "@auth,@internal"); ("schemaVersion", "v9")] "v8"
          (accept shakeExample) with
  | Ok s => sc_version s = "v9" /\ map (fun v => (v_name v, map me_name (v_methods v))) (sc_services s) = [("Users", ["Get"; "List"])]
  | _ => False
  end.
Proof. vm_compute. repeat split. Qed.
