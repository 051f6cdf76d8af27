(** C54: the interoperability test suite of webrpc-test. *)
From Verif Require Import Base Utf8 Json GoVal GoValSpec Rpc RpcSpec RpcExamples RpcProofs RpcRemote TestSuite TestSpec TestProofs.
From Verif Require Uri Schema Main Conformance.
Local Open Scope string_scope.

Definition passes := Passes (sv_env testApi) simpleRef (TRef "Complex") (TSlice (TEnum statusTable))
  (TMap (KEnum accessTable) uint64Ty).

(** The generated client and the generated server with the reference implementation pass the tests, whatever
    cmp.Diff prints, whatever the version header and whether or not a middleware recovers. *)
Theorem C54_reference_server_passes : forall diff recovers hv,
  runTests (connect recovers hv testApi noOptions (testServer diff)) = [].
Proof. intros. vm_compute. reflexivity. Qed.

(** The tests report nothing exactly if the server's answers are as specified, for every server (and network). *)
Theorem C54_suite_is_exact : forall net, runTests net = [] <-> passes net.
Proof. apply suite_exact. Qed.

Example reference_meets : passes (connect true "v" testApi noOptions (testServer (fun _ _ => ""))).
Proof. apply C54_suite_is_exact, C54_reference_server_passes. Qed.

(** The errors the tests ask for are the endpoint error and the errors that the schema of the tests declares, all of
    them, with the same codes, names, messages and statuses; and the methods they call are those of the schema. *)
Theorem C54_tests_cover_the_schema : exists s,
  Main.parseSchemaFile Conformance.repo Uri.goUriOk "/repo" "tests/schema/test.ridl" = Ok s /\
  map (fun e => (Schema.x_code e, Schema.x_name e, Schema.x_message e, Schema.x_status e)) (Schema.sc_errors s) =
    map (fun r : Z * string * string * Z * string => let '(c, n, m, st, _) := r in (c, n, m, st)) (tl asked) /\
  map (fun v => (Schema.v_name v, map Schema.me_name (Schema.v_methods v))) (Schema.sc_services s) =
    [("TestApi", map rm_name (sv_methods testApi))].
Proof.
  destruct (Main.parseSchemaFile Conformance.repo Uri.goUriOk "/repo" "tests/schema/test.ridl") as [s| | |] eqn:E;
    [|exfalso; revert E; vm_compute; discriminate ..].
  exists s. split; [reflexivity|].
  assert (H : match Main.parseSchemaFile Conformance.repo Uri.goUriOk "/repo" "tests/schema/test.ridl" with
    | Ok s => 
      map (fun e => (Schema.x_code e, Schema.x_name e, Schema.x_message e, Schema.x_status e)) (Schema.sc_errors s) =
        map (fun r : Z * string * string * Z * string => let '(c, n, m, st, _) := r in (c, n, m, st)) (tl asked) /\
      map (fun v => (Schema.v_name v, map Schema.me_name (Schema.v_methods v))) (Schema.sc_services s) =
        [("TestApi", map rm_name (sv_methods testApi))]
    | _ => False end) by (vm_compute; split; reflexivity).
  rewrite E in H. exact H.
Qed.

(** A server that passes returns the declared errors: whatever error its implementation returns for one of the codes
    has the code, name, message and status asked for, and the cause asked for or none. *)
Theorem C54_wrong_errors_are_noticed : forall recovers hv impl c n m st cause o,
  In (c, n, m, st, cause) asked -> runTests (connect recovers hv testApi noOptions impl) = [] ->
  impl "GetSchemaError" [VInt c] = o ->
  match o with
  | Returns _ => False
  | Fails e => Transportable (toRpcError e) -> ValidTexts (toRpcError e) ->
      let e' := toRpcError e in
      re_code e' = c /\ re_name e' = n /\ re_message e' = m /\ re_status e' = st /\
      (re_causeText e' = "" \/ re_causeText e' = cause)
  | Panics _ => False
  end.
Proof.
  intros rc hv impl c n m st cause o Hin Hrun Ho.
  assert (P := proj1 (C54_suite_is_exact _) Hrun). pose proof (p_errors _ _ _ _ _ _ P _ _ _ _ _ Hin) as R.
  assert (Hc : (0 <= c <= 302)%Z).
  { clear -Hin. cbn [In asked] in Hin. repeat (destruct Hin as [[= <- <- <- <- <-]|Hin]; [lia|]). destruct Hin. }
  assert (C : Carries (sv_env testApi) (rm_in getSchemaError) [VInt c]).
  { split; [|apply N.leb_le; reflexivity].
    apply FFCons; [apply FInt; unfold intTy; lia|txt|cbn; tauto|intros; discriminate|apply FFNil]. }
  assert (I : In getSchemaError (sv_methods testApi)) by (cbn; tauto).
  assert (Hn : NoDup (map rm_name (sv_methods testApi)))
    by (cbn; repeat (constructor; [cbn; intuition discriminate|]); constructor).
  (* the row of the table *)
  assert (W : exists w, In w table /\ w_code w = c /\ w_name w = n /\ w_msg w = m /\ w_status w = st /\ w_cause w = cause).
  { rewrite <- table_asked in Hin. apply in_map_iff in Hin as (w & [= <- <- <- <- <-] & Hin). exists w. auto 6. }
  destruct W as (w & Hw & <- & <- & <- & <- & <-).
  destruct (table_ok w Hw) as (P1 & P2 & P3). apply (row_ok _ w _ P1 P2 P3) in R.
  destruct o as [vs|e|msg].
  - (* returned: status 200 *)
    assert (E : isErr (clientCall testApi None (connect rc hv testApi noOptions impl) getSchemaError [VInt (w_code w)]) = false).
    { apply (call_accepted _ getSchemaError _ _ eq_refl P3). unfold post.
      change (Request "POST" ("/rpc/TestApi/" ++ rm_name getSchemaError) "application/json" (Some (codeBody (w_code w))))
        with (newRequest testApi getSchemaError (codeBody (w_code w))).
      unfold connect. destruct (client_request testApi getSchemaError _ C) as (b & RB & A).
      rewrite P3 in RB. injection RB as <-.
      change noOptions with (hookOnly None). rewrite (serve_client_request hv testApi None impl getSchemaError _ _ Hn I eq_refl A).
      unfold callAndAnswer. cbn [rm_name getSchemaError] in *. rewrite Ho, andThen_cons. unfold sendOK.
      rewrite writeHeader_ok by (unfold HttpStatus; lia). cbn [rm_out getSchemaError].
      cbn [guarded andThen fst snd app]. rewrite response_ok'. constructor. }
    unfold isErr in E. destruct (cr_error _); [discriminate|]. cbn in R. discriminate.
  - intros T V. cbv zeta.
    change noOptions with (hookOnly None) in R. rewrite (remote_error rc hv testApi None impl getSchemaError [VInt (w_code w)] e Hn I eq_refl C Ho T) in R.
    cbn [cr_error] in R. destruct (san_texts _ V) as (F1 & F2 & F3 & F4 & F5).
    unfold checkRow in R. rewrite !app_nil_iff, !when_nil, !Bool.negb_false_iff in R.
    destruct R as (_ & R2 & R3 & R4 & R5 & R6).
    apply Z.eqb_eq in R2, R5. apply String.eqb_eq in R3, R4.
    rewrite F1, F2, F3, F5. repeat (split; [assumption|]). rewrite F4.
    revert R6. unfold seenError, restoreCause. cbn [re_causeText]. 
    match goal with |- context [isEmptyStr ?t] => destruct t as [|a t0] eqn:Et end; cbn [isEmptyStr re_causeText re_cause].
    + intros _. left. exact Et.
    + cbn [re_cause re_causeText]. rewrite when_nil, Bool.negb_false_iff, String.eqb_eq. intros <-. right. reflexivity.
  - (* panics *) 
    assert (X := remote_panic hv testApi None impl getSchemaError [VInt (w_code w)] msg Hn I eq_refl C Ho).
    destruct rc.
    + change (hookOnly None) with noOptions in X. rewrite X in R. cbn [cr_error] in R. unfold checkRow in R.
      rewrite !app_nil_iff, !when_nil in R. destruct R as (_ & R2 & _). apply Bool.negb_false_iff, Z.eqb_eq in R2.
      rewrite (proj1 (seen_code _)) in R2. unfold withCausef, withCause, ErrWebrpcServerPanic, webrpcError in R2. cbn [re_code] in R2. lia.
    + unfold clientCall in R. rewrite P3 in R.
      assert (E : connect false hv testApi noOptions impl (newRequest testApi getSchemaError (codeBody (w_code w))) =
                  NoResponse (EPlain 0 "EOF")).
      { unfold connect. destruct (client_request testApi getSchemaError _ C) as (b & RB & A).
        rewrite P3 in RB. injection RB as <-.
        change noOptions with (hookOnly None). rewrite (serve_client_request hv testApi None impl getSchemaError _ _ Hn I eq_refl A).
        unfold callAndAnswer. cbn [rm_name getSchemaError] in *. rewrite Ho, andThen_cons.
        cbn [andThen fst snd app guarded]. rewrite sendError_ok by apply transportable_http, panic_transportable. reflexivity. }
      rewrite E in R. unfold checkRow in R. rewrite !app_nil_iff, !when_nil in R. cbn [cr_error] in R.
      destruct R as (_ & R2 & _). apply Bool.negb_false_iff, Z.eqb_eq in R2.
      unfold withCause, ErrWebrpcRequestFailed, webrpcError in R2. cbn [re_code] in R2. lia.
Qed.

(** The reference server takes exactly the fixtures: a value sent to it is accepted if it equals the fixture, and is
    otherwise refused with UnexpectedValue (code 8, status 400). *)
Definition unexpected (r : callResult) : Prop :=
  exists e, cr_error r = Some e /\ re_code e = 8%Z /\ re_status e = 400%Z.

Lemma expect_cases diff n f v o : (Same f v /\ expect diff n f v o = o) \/
  (~ Same f v /\ exists t, expect diff n f v o = Fails (ERpc (withCausef eUnexpectedValue t))).
Proof.
  unfold expect. destruct (cmpEqual f v) eqn:E.
  - left. split; [apply cmpEqual_same; exact E|reflexivity].
  - right. split; [intros S; apply cmpEqual_same in S; congruence|eauto].
Qed.

Lemma methods_nodup : NoDup (map rm_name (sv_methods testApi)).
Proof. cbn. repeat (constructor; [cbn; intuition discriminate|]). constructor. Qed.

Lemma no_results : Carries (sv_env testApi) [] [].
Proof. split; [constructor|apply N.leb_le; reflexivity]. Qed.

Lemma refused rc hv diff m args t : In m (sv_methods testApi) -> Carries (sv_env testApi) (rm_in m) args ->
  testServer diff (rm_name m) args = Fails (ERpc (withCausef eUnexpectedValue t)) ->
  unexpected (clientCall testApi None (connect rc hv testApi noOptions (testServer diff)) m args).
Proof.
  intros I C H. change noOptions with (hookOnly None).
  rewrite (remote_error rc hv testApi None _ m args _ methods_nodup I eq_refl C H)
    by (unfold Transportable, Int64; cbn; lia).
  eexists. split; [reflexivity|]. rewrite !(proj1 (seen_code _)), !(proj2 (seen_code _)). split; reflexivity.
Qed.

Lemma taken rc hv diff m args : In m (sv_methods testApi) -> rm_out m = [] -> Carries (sv_env testApi) (rm_in m) args ->
  testServer diff (rm_name m) args = Returns [] ->
  cr_error (clientCall testApi None (connect rc hv testApi noOptions (testServer diff)) m args) = None.
Proof.
  intros I O C H. change noOptions with (hookOnly None).
  rewrite (remote_result rc hv testApi None _ m args [] methods_nodup I eq_refl C H); [reflexivity|].
  rewrite O. apply no_results.
Qed.

Theorem C54_server_takes_exactly_the_fixtures : forall recovers hv diff,
  let call := clientCall testApi None (connect recovers hv testApi noOptions (testServer diff)) in
  (forall one, Carries (sv_env testApi) (rm_in mSendOne) [one] ->
     (Same fixtureOne one -> cr_error (call mSendOne [one]) = None) /\
     (~ Same fixtureOne one -> unexpected (call mSendOne [one]))) /\
  (forall one two three, Carries (sv_env testApi) (rm_in mSendMulti) [one; two; three] ->
     (Same fixtureOne one /\ Same fixtureTwo two /\ Same fixtureThree three ->
        cr_error (call mSendMulti [one; two; three]) = None) /\
     (~ (Same fixtureOne one /\ Same fixtureTwo two /\ Same fixtureThree three) ->
        unexpected (call mSendMulti [one; two; three]))) /\
  (forall c, Carries (sv_env testApi) (rm_in sendComplex) [c] ->
     (Same fixtureComplex c -> cr_error (call sendComplex [c]) = None) /\
     (~ Same fixtureComplex c -> unexpected (call sendComplex [c]))).
Proof.
  intros rc hv diff call. subst call. split; [|split].
  - intros one C. assert (I : In mSendOne (sv_methods testApi)) by (cbn; tauto).
    destruct (expect_cases diff "one" fixtureOne one (Returns [])) as [[S E]|[S [t E]]].
    + split; [|tauto]. intros _. apply taken; [exact I|reflexivity|exact C|exact E].
    + split; [tauto|]. intros _. eapply refused; [exact I|exact C|exact E].
  - intros one two three C. assert (I : In mSendMulti (sv_methods testApi)) by (cbn; tauto).
    set (o3 := expect diff "three" fixtureThree three (Returns [])).
    set (o2 := expect diff "two" fixtureTwo two o3).
    assert (H : testServer diff (rm_name mSendMulti) [one; two; three] = expect diff "one" fixtureOne one o2) by reflexivity.
    destruct (expect_cases diff "one" fixtureOne one o2) as [[S1 E1]|[S1 [t E1]]]; rewrite E1 in H.
    2: { split; [tauto|]. intros _. eapply refused; [exact I|exact C|exact H]. }
    destruct (expect_cases diff "two" fixtureTwo two o3) as [[S2 E2]|[S2 [t E2]]]; subst o2; rewrite E2 in H.
    2: { split; [tauto|]. intros _. eapply refused; [exact I|exact C|exact H]. }
    destruct (expect_cases diff "three" fixtureThree three (Returns [])) as [[S3 E3]|[S3 [t E3]]]; subst o3; rewrite E3 in H.
    2: { split; [tauto|]. intros _. eapply refused; [exact I|exact C|exact H]. }
    split; [|tauto]. intros _. apply taken; [exact I|reflexivity|exact C|exact H].
  - intros c C. assert (I : In sendComplex (sv_methods testApi)) by (cbn; tauto).
    destruct (expect_cases diff "complex" fixtureComplex c (Returns [])) as [[S E]|[S [t E]]].
    + split; [|tauto]. intros _. apply taken; [exact I|reflexivity|exact C|exact E].
    + split; [tauto|]. intros _. eapply refused; [exact I|exact C|exact E].
Qed.

(** the hypotheses are met: a value that differs from the fixture, and the fixture *)
Example other_complex : Carries (sv_env testApi) (rm_in sendComplex) [complexValue] /\ ~ Same fixtureComplex complexValue.
Proof. split; [exact complex_carries|]. intros H. apply cmpEqual_same in H. revert H. vm_compute. discriminate. Qed.
Example the_fixture : Same fixtureComplex fixtureComplex.
Proof. apply cmpEqual_same. vm_compute. reflexivity. Qed.

(** ** What the tests do not notice *)

(** a server that returns nil for every struct, enum values outside the enum, and accepts everything *)
Definition careless (diff : gval -> gval -> string) : implementation := fun name args =>
  if String.eqb name "GetOne" then Returns [VPtr None]
  else if String.eqb name "GetMulti" then Returns [VPtr None; VPtr None; VPtr None]
  else if String.eqb name "GetComplex" then Returns [VPtr None]
  else if String.eqb name "GetEnumList" then Returns [VSlice (Some [VEnum 0; VEnum 0])]
  else if String.eqb name "GetEnumMap" then Returns [VMap (Some [(KZ 1, VInt 77); (KZ 2, VInt 78)])]
  else if String.eqb name "SendOne" then Returns []
  else if String.eqb name "SendMulti" then Returns []
  else if String.eqb name "SendComplex" then Returns []
  else testServer diff name args.

(** Passing the tests does not mean that the values of the reference server are returned. *)
Theorem C54_values_are_not_checked_refuted :
  ~ (forall impl recovers hv, runTests (connect recovers hv testApi noOptions impl) = [] ->
     forall name, In name ["GetOne"; "GetMulti"; "GetComplex"; "GetEnumList"; "GetEnumMap"] ->
       impl name [] = testServer (fun _ _ => "") name []).
Proof.
  intros H. specialize (H (careless (fun _ _ => "")) true "v" ltac:(vm_compute; reflexivity) "GetOne" ltac:(cbn; tauto)).
  vm_compute in H. discriminate.
Qed.

(** a network (or server) that answers every error with status 418 *)
Definition teapot (net : request -> transport) (r : request) : transport :=
  match net r with
  | Received (Response st b) => Received (Response (if (st =? 200)%Z then 200 else 418) b)
  | t => t
  end.

(** Passing the tests does not mean that the HTTP status of an error is the one declared. *)
Theorem C54_status_line_is_not_checked_refuted :
  ~ (forall net, runTests net = [] -> forall c n m st cause, In (c, n, m, st, cause) asked ->
     exists b, post net "GetSchemaError" (codeBody c) = Received (Response st b)).
Proof.
  intros H. specialize (H (teapot (connect true "v" testApi noOptions (testServer (fun _ _ => "")))) ltac:(vm_compute; reflexivity)
    0%Z "WebrpcEndpoint" "endpoint error" 400%Z "failed to read file: unexpected EOF" ltac:(left; reflexivity)).
  destruct H as (b & H). vm_compute in H. discriminate.
Qed.

(** a server that never says why *)
Definition secretive (diff : gval -> gval -> string) : implementation := fun name args =>
  match testServer diff name args with
  | Fails e => let r := toRpcError e in Fails (ERpc (RpcError (re_name r) (re_code r) (re_message r) "" (re_status r) None))
  | o => o
  end.

(** Passing the tests does not mean that the causes arrive. *)
Theorem C54_missing_cause_is_not_noticed_refuted :
  ~ (forall impl recovers hv, runTests (connect recovers hv testApi noOptions impl) = [] ->
     forall c n m st cause e, In (c, n, m, st, cause) asked -> impl "GetSchemaError" [VInt c] = Fails e ->
       re_causeText (toRpcError e) = cause).
Proof.
  intros H. specialize (H (secretive (fun _ _ => "")) true "v" ltac:(vm_compute; reflexivity)
    1%Z "Unauthorized" "unauthorized" 401%Z "failed to verify JWT token" _ ltac:(cbn; tauto) eq_refl).
  vm_compute in H. discriminate.
Qed.
