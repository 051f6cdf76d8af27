(** C66: what a schema declares is what travels between the Go client and server generated for it.  Theorems only. *)
From Verif Require Import PropsSchemaJsonAux Uri Ridl SchemaJson Cli Main Conformance.
From Verif Require Import Base BaseProofs Utf8 Schema ValidateSpec ValidateProofs Json JsonProofs Utf8Proofs GoVal GoValSpec GoValProofs Rpc RpcSpec RpcProofs RpcRemote.
From Verif Require Import Succinct SuccinctSpec GoGen GoGenSpec GoGenProofs.
From Verif Require Props_Rpc Props_Succinct.

(** Each method of the service, streaming ones aside, has the route basepath/Service/Method; no other path has one. *)
Theorem C66_routes_are_the_declared_methods : forall s v svc path, GeneratedFor s v svc ->
  (forall m, In m (v_methods v) -> streams m = false -> path = (sc_basepath s ++ v_name v ++ "/" ++ me_name m)%string ->
     exists x, mixedDispatch svc path = Some x /\ am_name x = me_name m) /\
  (forall x, mixedDispatch svc path = Some x ->
     exists m, In m (v_methods v) /\ streams m = false /\ am_name x = me_name m /\ path = (sc_basepath s ++ v_name v ++ "/" ++ me_name m)%string).
Proof.
  intros s v svc path [(u & s0 & V) I (n & G) _ _]. pose proof (go_names _ _ _ _ G) as N.
  assert (P : forall x, (mx_prefix svc ++ x = sc_basepath s ++ v_name v ++ "/" ++ x)%string).
  { intros x. destruct (go_parts _ _ _ _ G) as (? & ? & _ & _ & ->). cbn [mx_prefix]. rewrite <- !sapp_assoc. reflexivity. }
  split.
  - intros m IM ST ->. unfold mixedDispatch. destruct (find _ _) as [x|] eqn:F.
    + exists x. split; [reflexivity|]. apply find_some in F as [_ F]. apply String.eqb_eq in F. rewrite P in F.
      do 3 apply sapp_inv_head in F. congruence.
    + exfalso. assert (X : In (me_name m) (map am_name (mx_methods svc))).
      { rewrite N. apply in_map, filter_In. rewrite ST. auto. }
      apply in_map_iff in X as (x & E & IX). pose proof (find_none _ _ F x IX) as Z. cbn beta in Z. rewrite P, E, String.eqb_refl in Z. discriminate.
  - intros x F. unfold mixedDispatch in F. apply find_some in F as [IX F]. apply String.eqb_eq in F. rewrite P in F.
    apply (in_map am_name) in IX. rewrite N in IX. apply in_map_iff in IX as (m & E & IM). apply filter_In in IM as [IM ST].
    exists m. split; [exact IM|]. split; [destruct (streams m); [discriminate|reflexivity]|]. split; [congruence|]. congruence.
Qed.
Print Assumptions C66_routes_are_the_declared_methods.

Lemma ordinary s v svc m : GeneratedFor s v svc -> OrdinaryMethod v m ->
  NoDup (map am_name (mx_methods svc)) /\ exists gm, In (Plain gm) (mx_methods svc) /\ rm_name gm = me_name m /\
    map gf_name (rm_in gm) = map g_name (me_inputs m) /\ map gf_name (rm_out gm) = map g_name (me_outputs m) /\
    Forall (fun g => gf_omit g = false) (rm_in gm) /\ Forall (fun g => gf_omit g = false) (rm_out gm) /\
    (forall xs, ArgValues (sc_types s) (me_inputs m) xs -> FitsFields (mx_env svc) (rm_in gm) xs) /\
    (forall xs, ArgValues (sc_types s) (me_outputs m) xs -> FitsFields (mx_env svc) (rm_out gm) xs).
Proof.
  intros [(u & s0 & V) I (n & G) DM TA] (IM & S1 & S2 & SU & AI & AO). pose proof (Generated u s0 s v n svc V I G) as GN.
  split; [exact (go_distinct _ _ _ _ _ _ GN)|]. apply (plain_method u s0 s v n svc m GN DM TA IM); auto.
  unfold streams. rewrite S1, S2. reflexivity.
Qed.

(** A call of an ordinary method with values of the declared types reaches the implementation once, with these
    values, ... *)
Theorem C66_arguments_arrive : forall s v svc m args hv hook impl, GeneratedFor s v svc -> OrdinaryMethod v m ->
  ArgValues (sc_types s) (me_inputs m) args -> Shallow args -> hookSays hook (me_name m) = inl None ->
  exists gm b, In (Plain gm) (mx_methods svc) /\ rm_name gm = me_name m /\
    requestBody (plainService svc) gm args = Some b /\
    callsMade (fst (mixedServe hv svc (Options hook None) impl (newRequest (plainService svc) gm b))) = [(me_name m, args)].
Proof.
  intros s v svc m args hv hook impl GF OM AV SH H. destruct (ordinary _ _ _ _ GF OM) as (ND & gm & IG & NG & _ & _ & _ & _ & FI & _).
  assert (C : Carries (sv_env (plainService svc)) (rm_in gm) args) by (split; [exact (FI _ AV)|exact SH]).
  rewrite <- NG in H |- *. pose proof (plain_distinct _ ND) as ND'. apply in_plain in IG as IG'.
  destruct (client_request (plainService svc) gm args C) as (b & RB & _). exists gm, b. split; [exact IG|]. split; [reflexivity|]. split; [exact RB|].
  rewrite (plain_serve hv svc (Options hook None) impl gm b ND IG).
  exact (Props_Rpc.C30_arguments_arrive hv (plainService svc) hook impl gm args b ND' IG' H C RB).
Qed.
Print Assumptions C66_arguments_arrive.

(** ... and the values of the declared types it returns arrive at the caller. *)
Theorem C66_results_arrive : forall s v svc m args rs recovers hv hook impl, GeneratedFor s v svc -> OrdinaryMethod v m ->
  ArgValues (sc_types s) (me_inputs m) args -> Shallow args -> hookSays hook (me_name m) = inl None ->
  impl (me_name m) args = Returns rs -> ArgValues (sc_types s) (me_outputs m) rs -> Shallow rs ->
  exists gm, In (Plain gm) (mx_methods svc) /\ rm_name gm = me_name m /\
    clientCall (plainService svc) None (mixedConnect recovers hv svc (Options hook None) impl) gm args = CallResult rs None.
Proof.
  intros s v svc m args rs rec hv hook impl GF OM AV SH H R RV SR. destruct (ordinary _ _ _ _ GF OM) as (ND & gm & IG & NG & _ & _ & _ & _ & FI & FO).
  exists gm. split; [exact IG|]. split; [exact NG|]. rewrite (plain_client rec hv svc _ impl gm args ND IG). rewrite <- NG in H, R.
  apply in_plain in IG. apply Props_Rpc.C30_results_arrive; try assumption; [exact (plain_distinct _ ND)| |]; split; auto.
Qed.
Print Assumptions C66_results_arrive.

(** The declared errors it returns, with any causes, arrive and match their declaration and no other. *)
Theorem C66_declared_errors_arrive : forall s v svc m args x cs recovers hv hook impl, GeneratedFor s v svc -> OrdinaryMethod v m ->
  ArgValues (sc_types s) (me_inputs m) args -> Shallow args -> hookSays hook (me_name m) = inl None ->
  In x (sc_errors s) -> Int64 (x_code x) -> impl (me_name m) args = Fails (ERpc (fold_left withCause cs (goError x))) ->
  exists gm vs w, In (Plain gm) (mx_methods svc) /\ rm_name gm = me_name m /\
    clientCall (plainService svc) None (mixedConnect recovers hv svc (Options hook None) impl) gm args = CallResult vs (Some w) /\
    re_code w = x_code x /\ re_status w = x_status x /\
    forall y, In y (builtinErrors ++ sc_errors s) -> (errorsIs (ERpc w) (ERpc (goError y)) = true <-> y = x).
Proof.
  intros s v svc m args x cs rec hv hook impl GF OM AV SH H IX C64 F. destruct (ordinary _ _ _ _ GF OM) as (ND & gm & IG & NG & _ & _ & _ & _ & FI & _).
  destruct (gf_valid _ _ _ GF) as (u & s0 & V). rewrite <- NG in H, F. apply in_plain in IG as IG'. pose proof (plain_distinct _ ND) as ND'.
  assert (C : Carries (sv_env (plainService svc)) (rm_in gm) args) by (split; [exact (FI _ AV)|exact SH]).
  destruct (Props_Rpc.C31_declared_errors_arrive u s0 s rec hv (plainService svc) hook impl gm args x cs V IX C64 ND' IG' H C F) as (vs & w & E & M).
  exists gm, vs, w. split; [exact IG|]. split; [exact NG|]. rewrite (plain_client rec hv svc _ impl gm args ND IG). split; [exact E|].
  destruct (Props_Rpc.C30_errors_arrive rec hv (plainService svc) hook impl gm args _ ND' IG' H C F) as (w0 & AW & T).
  inversion AW as [e Ee|e r NE]; [|exfalso; eapply NE; reflexivity]. subst w0.
  destruct (causes_fields cs (goError x)) as (_ & FC & _ & FS).
  destruct T as (vs' & w' & E' & C' & S' & _).
  { destruct (proj1 (Props_Validate.C11_errors_are_well_formed _ _ _ V) x IX) as (_ & ST & _).
    unfold Transportable. rewrite FC, FS. cbn. split; [lia|]. split; [lia|]. split; [lia|exact C64]. }
  rewrite E in E'. injection E' as -> <-. split; [rewrite C', FC; reflexivity|]. split; [rewrite S', FS; reflexivity|]. exact M.
Qed.
Print Assumptions C66_declared_errors_arrive.

(** Succinct methods: the struct passed reaches the implementation, and the struct it returns, or nil, arrives. *)
Theorem C66_succinct_methods : forall s v svc m args recovers hv hook impl, GeneratedFor s v svc -> SuccinctOne v m ->
  ArgValues (sc_types s) (me_inputs m) [VPtr (Some (VStruct args))] -> Shallow args -> hookSays hook (me_name m) = inl None ->
  exists gm, In (Short gm) (mx_methods svc) /\ su_name gm = me_name m /\
    (exists b, marshalStruct (mx_env svc) (fieldsOf (mx_env svc) (su_in gm)) args = Some b /\
       callsMade (fst (mixedServe hv svc (Options hook None) impl (shortRequest svc gm b))) = [(me_name m, [VStruct args])]) /\
    (forall rs, impl (me_name m) [VStruct args] = Returns [VPtr (Some (VStruct rs))] ->
       ArgValues (sc_types s) (me_outputs m) [VPtr (Some (VStruct rs))] -> Shallow rs ->
       succinctClient svc None (mixedConnect recovers hv svc (Options hook None) impl) gm args = (VPtr (Some (VStruct rs)), None)) /\
    (impl (me_name m) [VStruct args] = Returns [VPtr None] ->
       succinctClient svc None (mixedConnect recovers hv svc (Options hook None) impl) gm args = (VPtr None, None)).
Proof.
  intros s v svc m args rec hv hook impl [(u & s0 & V) I (n & G) DM TA] (IM & S1 & S2 & SU) AV SH H.
  pose proof (Generated u s0 s v n svc V I G) as GN. pose proof (go_distinct _ _ _ _ _ _ GN) as ND. pose proof (go_declared _ _ _ _ G) as D.
  assert (ST : streams m = false) by (unfold streams; rewrite S1, S2; reflexivity).
  destruct (short_method u s0 s v n svc m GN DM TA IM ST SU) as (gm & IG & NG & FI & FO). rewrite <- NG in *.
  assert (C : Carries (mx_env svc) (fieldsOf (mx_env svc) (su_in gm)) args) by (split; auto).
  exists gm. split; [exact IG|]. split; [reflexivity|].
  destruct (Props_Succinct.C65_results_arrive rec hv svc (Options hook None) impl gm args ND IG D H C) as [R1 R2].
  split; [exact (Props_Succinct.C65_implementations_get_the_struct hv svc (Options hook None) impl gm args ND IG H C)|].
  split; [|exact R2]. intros rs E RV SR. apply R1; [exact E|]. split; auto.
Qed.
Print Assumptions C66_succinct_methods.

(** On the wire the arguments and results stand under their declared names. *)
Theorem C66_payloads_have_the_declared_names : forall s v svc m, GeneratedFor s v svc -> OrdinaryMethod v m ->
  exists gm, In (Plain gm) (mx_methods svc) /\ rm_name gm = me_name m /\
    (forall args, ArgValues (sc_types s) (me_inputs m) args -> Shallow args -> exists b l,
       marshalStruct (mx_env svc) (rm_in gm) args = Some b /\ parseJ b = Some (JObj l) /\ map fst l = map g_name (me_inputs m)) /\
    (forall rs, ArgValues (sc_types s) (me_outputs m) rs -> Shallow rs -> exists b l,
       marshalStruct (mx_env svc) (rm_out gm) rs = Some b /\ parseJ b = Some (JObj l) /\ map fst l = map g_name (me_outputs m)).
Proof.
  intros s v svc m GF OM. destruct (ordinary _ _ _ _ GF OM) as (ND & gm & IG & NG & NI & NO & OI & OO & FI & FO).
  exists gm. split; [exact IG|]. split; [exact NG|]. rewrite <- NI, <- NO.
  split; intros xs AV SH; apply payload_names; try assumption; split; auto.
Qed.
Print Assumptions C66_payloads_have_the_declared_names.

(** Every service of a valid schema over declared names, with aliases that are not circular and enum values of the declared
    type, has a generated program, so the theorems above are about all of these. *)
Theorem C66_every_complete_schema_has_a_program : forall uriOk s0 s v, validate uriOk s0 = Ok s -> CompleteSchema s ->
  DistinctMembers (sc_types s) -> TagsAgree (sc_types s) -> In v (sc_services s) -> exists svc, GeneratedFor s v svc.
Proof.
  intros u s0 s v V C DM TA I. destruct (complete_service u s0 s v V C I) as (n & svc & G). exists svc. split; eauto.
Qed.
Print Assumptions C66_every_complete_schema_has_a_program.

(** ** What validation does not ask *)

(** A schema may give two fields of a struct the same name with go.tag.json: the generated struct has both under one JSON
    name (encoding/json writes neither of them), though their JSON names in the schema differ. *)
Definition uint64Type : option varType := Some (VT "uint64" (ShCore CUint64)).
Definition clash : schema :=
  Schema_ "v1" "clash" "v1" ""
    [Type_ ("", 0) "struct" "Pair" None
       [Field "a" uint64Type false "" [[("go.tag.json", Some "n")]] []; Field "b" uint64Type false "" [[("go.tag.json", Some "n")]] []] [] []]
    [] [].
Theorem C66_go_tags_are_not_compared_refuted : exists s0 s, validate (fun _ => true) s0 = Ok s /\
  exists t f f', In t (sc_types s) /\ t_kind t = "struct" /\ t_fields t = [f; f'] /\ json_key f <> json_key f' /\
    forall n, exists env g g', structsOf n (sc_types s) (sc_types s) = Some env /\ lookup (t_name t) env = Some [g; g'] /\
      gf_name g = gf_name g'.
Proof.
  exists clash, clash. split; [reflexivity|]. eexists _, _, _. split; [left; reflexivity|]. split; [reflexivity|].
  split; [reflexivity|]. split; [discriminate|]. intros n. eexists _, _, _. split; [reflexivity|]. split; reflexivity.
Qed.
Print Assumptions C66_go_tags_are_not_compared_refuted.

(** A method may have two arguments of the same name: the generated code has two parameters of that name. *)
Definition twins : schema :=
  Schema_ "v1" "twins" "v1" "" [] []
    [Service_ ("", 0) "S" [Method_ "M" [] [] false false false [Arg_ "a" uint64Type false; Arg_ "a" uint64Type false] [] []] []].
Theorem C66_argument_names_may_repeat_refuted : exists s0 s v m, validate (fun _ => true) s0 = Ok s /\
  In v (sc_services s) /\ In m (v_methods v) /\ ~ NoDup (map g_name (me_inputs m)) /\
  forall n, exists svc gm, goService n s v = Some svc /\ In (Plain gm) (mx_methods svc) /\ ~ NoDup (map gf_name (rm_in gm)).
Proof.
  exists twins, twins. eexists _, _. split; [reflexivity|]. split; [left; reflexivity|]. split; [left; reflexivity|].
  assert (X : forall x : string, ~ NoDup [x; x]) by (intros x H; inversion H as [|? ? H1 _]; apply H1; left; reflexivity).
  split; [apply X|]. intros n. eexists _, _. split; [reflexivity|]. split; [left; reflexivity|]. apply X.
Qed.
Print Assumptions C66_argument_names_may_repeat_refuted.

(** ** The schema of hello-webrpc *)
Definition helloSchema : schema := Eval vm_compute in
  match parseSchemaFile repo goUriOk "/repo" "_examples/hello-webrpc/hello-api.ridl" with Ok s => s | _ => clash end.
Definition helloService : Schema.service := Eval vm_compute in hd (Service_ ("", 0) "" [] []) (sc_services helloSchema).
Definition helloProgram : mixedService := Eval vm_compute in
  match goService 10 helloSchema helloService with Some s => s | None => MixedService "" [] [] end.
Definition getUser : method := Eval vm_compute in nth 1 (v_methods helloService) (Method_ "" [] [] false false false [] [] []).

Lemma hello_generated : GeneratedFor helloSchema helloService helloProgram.
Proof.
  split.
  - destruct (parseSchemaFile_inv repo goUriOk "/repo" "_examples/hello-webrpc/hello-api.ridl" helloSchema) as [s0 V]; [vm_compute; reflexivity|].
    exists goUriOk, s0. exact V.
  - left. reflexivity.
  - exists 10. vm_compute. reflexivity.
  - intros t H K. repeat (destruct H as [<-|H]; [try discriminate K|]); [|destruct H].
    repeat constructor; cbn; intuition discriminate.
  - intros t f m s H K IF IM A. repeat (destruct H as [<-|H]; [try discriminate K|]); [| |destruct H].
    + repeat (destruct IF as [<-|IF]; [repeat (destruct IM as [<-|IM]; [vm_compute in A |- *; first [discriminate A|injection A as <-; auto]|]); destruct IM|]). destruct IF.
    + repeat (destruct IF as [<-|IF]; [repeat (destruct IM as [<-|IM]; [vm_compute in A |- *; first [discriminate A|injection A as <-; auto]|]); destruct IM|]). destruct IF.
Qed.

Example hello_complete : CompleteSchema helloSchema.
Proof.
  assert (E : EnumFits (sc_types helloSchema) "Kind").
  { eexists _, CUint32. split; [split; [split; reflexivity|eexists; split; reflexivity]|]. right. exists 0%Z, 4294967295%Z.
    split; [exact Logic.I|]. split; [split; reflexivity|]. intros f [<-|[<-|[]]]; [exists 1%Z|exists 2%Z]; (split; [reflexivity|lia]). }
  assert (U : forall e n, Complete (sc_types helloSchema) (VT e (ShStruct n "User"))) by (intros e n; eapply K_struct; split; reflexivity).
  assert (P : forall e n, Complete (sc_types helloSchema) (VT e (ShStruct n "Page"))) by (intros e n; eapply K_struct; split; reflexivity).
  split.
  - intros t f v H Kd IF T. repeat (destruct H as [<-|H]; [try discriminate Kd; cbn [t_fields] in IF;
      repeat (destruct IF as [<-|IF]; [injection T as <-; first [apply K_core|apply K_enum, E|apply K_mapCore; [right; reflexivity|apply K_core]]|]); destruct IF|]). destruct H.
  - intros v m [<-|[]] IM a w IA T. repeat (destruct IM as [<-|IM]; [repeat (destruct IA as [<-|IA]; [injection T as <-; first [apply K_core|apply U|apply P]|]); destruct IA|]). destruct IM.
  - intros v m [<-|[]] IM a w IA T. repeat (destruct IM as [<-|IM]; [repeat (destruct IA as [<-|IA]; [injection T as <-; first [apply K_core|apply U|apply P|apply K_list, U]|]); destruct IA|]). destruct IM.
  - intros v m [<-|[]] IM SU. repeat (destruct IM as [<-|IM]; [discriminate SU|]). destruct IM.
Qed.

(** a user; internalID is not in the JSON, created_at is nil or a time *)
Definition someone (created : gval) : gval :=
  VPtr (Some (VStruct [VInt 18446744073709551615; VStr "ann"; VEnum 2; VMap (Some [(KS "k", VAny (JArr [JNull; JBool true]))]); created])).
Lemma time_value : Rfc3339 "2024-05-01T10:20:30.5Z".
Proof.
  exists "2024", "05", "01", "10", "20", "30", ".5", "Z". repeat (split; [split; reflexivity|]).
  split; [right; exists 1, "5"; repeat split; reflexivity|]. split; [left; reflexivity|reflexivity].
Qed.
Lemma not_hidden f : last (json_tags f) EmptyString <> "-" -> ~ Hidden f.
Proof. intros H [A _]. contradiction. Qed.
Lemma someone_value created : created = VPtr None \/ created = VPtr (Some (VStr "2024-05-01T10:20:30.5Z")) ->
  ArgValues (sc_types helloSchema) (me_outputs getUser) [someone created].
Proof.
  intros C. constructor; [|constructor]. eexists. split; [reflexivity|]. apply O_given.
  eapply V_struct; [split; reflexivity|].
  eapply F_cons; [apply not_hidden; discriminate|reflexivity|apply O_given; apply V_int with (lo := 0%Z) (hi := 18446744073709551615%Z); cbn; [split; reflexivity|lia]|intros _; split; discriminate|].
  eapply F_cons; [apply not_hidden; discriminate|reflexivity|apply O_given, V_text, ascii_valid; reflexivity|intros _; split; discriminate|].
  eapply F_cons; [apply not_hidden; discriminate|reflexivity|apply O_given|intros _; split; discriminate|].
  { eapply V_member with (c := CUint32); [split; [split; reflexivity|eexists; split; reflexivity]|exact Logic.I|right; left; reflexivity|reflexivity]. }
  eapply F_cons; [apply not_hidden; discriminate|reflexivity|apply O_given|intros _; split; discriminate|].
  { apply V_map with (names := ["k"]); [constructor; [constructor; apply ascii_valid; reflexivity|constructor]|cbn; auto|].
    intros x y [[= <- <-]|[]]. apply V_any. constructor. intros z [<-|[<-|[]]]; constructor. }
  apply F_hidden; [split; [reflexivity|]; intros m H; repeat (destruct H as [<-|H]; [reflexivity|]); destruct H|].
  eapply F_cons; [apply not_hidden; discriminate|reflexivity| |intros _; destruct C as [->| ->]; split; discriminate|apply F_nil].
  destruct C as [->| ->]; [apply O_absent|]. apply O_present; [intros D; inversion D|apply V_time, time_value|reflexivity].
Qed.

Example C66_example : forall created, created = VPtr None \/ created = VPtr (Some (VStr "2024-05-01T10:20:30.5Z")) ->
  OrdinaryMethod helloService getUser /\ ArgValues (sc_types helloSchema) (me_inputs getUser) [VInt 7] /\
  exists gm, In (Plain gm) (mx_methods helloProgram) /\ rm_name gm = "GetUser" /\
    clientCall (plainService helloProgram) None (mixedConnect true "h" helloProgram (Options None None) (fun _ _ => Returns [someone created])) gm [VInt 7] =
    CallResult [someone created] None.
Proof.
  intros created C.
  assert (OM : OrdinaryMethod helloService getUser).
  { split; [right; left; reflexivity|]. repeat (split; [reflexivity|]).
    assert (ID : forall x, isValidArgName x = true -> Identifier x) by (intros x; apply validArg_iff).
    split; (split; [repeat constructor; cbn; intuition discriminate|]); repeat constructor; apply ID; reflexivity. }
  assert (AV : ArgValues (sc_types helloSchema) (me_inputs getUser) [VInt 7]).
  { constructor; [|constructor]. eexists. split; [reflexivity|]. apply O_given.
    apply V_int with (lo := 0%Z) (hi := 18446744073709551615%Z); cbn; [split; reflexivity|lia]. }
  split; [exact OM|]. split; [exact AV|].
  refine (C66_results_arrive helloSchema helloService helloProgram getUser [VInt 7] [someone created] true "h" None (fun _ _ => Returns [someone created])
    hello_generated OM AV _ eq_refl eq_refl (someone_value created C) _); unfold Shallow; apply N.leb_le.
  - reflexivity.
  - destruct C as [->| ->]; reflexivity.
Qed.
