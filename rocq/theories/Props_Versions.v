(** Theorems about programs generated from different versions of a schema; see /verif/properties.jsonl. *)
From Coq Require Import Lia.
From Verif Require Import Base BaseProofs Utf8 Json JsonProofs GoVal GoValSpec GoValProofs Rpc RpcSpec RpcProofs RpcRemote RpcExamples JsOrder VersionSpec VersionProofs VersionRpc.

(** C56. A client and a server of different versions.  If the structs and arguments of both agree (fields may be added,
    removed, reordered, made optional or required; integers may get wider, enums may change), a call of a method both
    have reaches the implementation once, with the arguments as the server's version sees them, and its results
    arrive as the client's version sees them. *)
Theorem C56_calls_between_versions : forall same same' recovers hv client server hook impl mc ms args,
  NoDup (map rm_name (sv_methods server)) -> In ms (sv_methods server) -> routeOf client mc = routeOf server ms ->
  hookSays hook (rm_name ms) = inl None ->
  StructsAgree same (sv_env client) (sv_env server) -> FieldsAgree same (rm_in mc) (rm_in ms) ->
  StructsAgree same' (sv_env server) (sv_env client) -> FieldsAgree same' (rm_out ms) (rm_out mc) ->
  Carries (sv_env client) (rm_in mc) args ->
  exists b args', requestBody client mc args = Some b /\
    callsMade (fst (serveHTTP hv server (Options hook None) impl (newRequest client mc b))) = [(rm_name ms, args')] /\
    SeesFields same (sv_env client) (sv_env server) (rm_in mc) args (rm_in ms) args' /\
    forall vs, impl (rm_name ms) args' = Returns vs -> Carries (sv_env server) (rm_out ms) vs ->
      exists vs', clientCall client None (connect recovers hv server (Options hook None) impl) mc args = CallResult vs' None /\
        SeesFields same' (sv_env server) (sv_env client) (rm_out ms) vs (rm_out mc) vs'.
Proof.
  intros same same' rec hv sc ss hook impl mc ms args ND I R H SA FA SA' FA' C.
  destruct (call_seen same same' rec hv sc ss hook impl mc ms args ND I R H SA FA SA' FA' C) as (b & args' & RB & S & CM & K).
  exists b, args'. split; [exact RB|]. split; [exact CM|]. split; [exact S|]. intros vs F CV. rewrite F in K. destruct (K CV) as (vs' & S' & E).
  exists vs'. split; [exact E|exact S'].
Qed.
Print Assumptions C56_calls_between_versions.

(** Errors of the implementation arrive with their code and status, whether or not the client's version declares them. *)
Theorem C56_errors_between_versions : forall same recovers hv client server hook impl mc ms args b args' e w,
  NoDup (map rm_name (sv_methods server)) -> In ms (sv_methods server) -> routeOf client mc = routeOf server ms ->
  hookSays hook (rm_name ms) = inl None ->
  StructsAgree same (sv_env client) (sv_env server) -> FieldsAgree same (rm_in mc) (rm_in ms) ->
  Carries (sv_env client) (rm_in mc) args -> requestBody client mc args = Some b ->
  callsMade (fst (serveHTTP hv server (Options hook None) impl (newRequest client mc b))) = [(rm_name ms, args')] ->
  impl (rm_name ms) args' = Fails e -> AsWebrpc e w -> Transportable w ->
  exists vs w', clientCall client None (connect recovers hv server (Options hook None) impl) mc args = CallResult vs (Some w') /\
    re_code w' = re_code w /\ re_status w' = re_status w.
Proof.
  intros same rec hv sc ss hook impl mc ms args b args' e w ND I R H SA FA C RB CM F AW T.
  assert (SA' : StructsAgree (fun _ _ => False) (sv_env ss) (sv_env sc)) by (intros n n' fs []).
  destruct (request_seen same sc ss mc ms args SA FA C) as (b' & a & RB' & S & A). assert (b' = b) by congruence. subst b'.
  assert (a = args').
  { destruct (gives_call hv hook impl ss ms (newRequest ss ms b) a) as (x & _ & G & _).
    - repeat split; cbn; [exact I|]. apply content_type_iff. reflexivity.
    - exact H.
    - destruct A as [[E ->]|[N U]]; [apply NoArguments, E|]. apply (BodyArguments ss ms _ b); [exact N|reflexivity|exact U].
    - rewrite (request_same sc ss mc ms b R) in CM. change (Options hook None) with (hookOnly hook) in CM. rewrite (serve_client_request hv ss hook impl ms a b ND I H A), G in CM. congruence. }
  subst a. assert (E : toRpcError e = w \/ (re_code (toRpcError e) = re_code w /\ re_status (toRpcError e) = re_status w)).
  { inversion AW as [x|x r NR N1 N2 N3 N4 N5]; subst; [left; reflexivity|]. right. destruct e; [| |exfalso; eapply NR; reflexivity]; cbn; rewrite N2, N3; auto. }
  assert (E' : re_code (toRpcError e) = re_code w /\ re_status (toRpcError e) = re_status w) by (destruct E as [->|E]; auto). clear E.
  assert (T' : Transportable (toRpcError e)) by (unfold Transportable in *; rewrite (proj1 E'), (proj2 E'); exact T).
  exists (zeros mc), (seenError (toRpcError e)). split.
  - apply (client_sees_error sc mc args b); [exact RB| |exact T']. rewrite (request_same sc ss mc ms b R).
    unfold connect. change (Options hook None) with (hookOnly hook). rewrite (serve_client_request hv ss hook impl ms args' b ND I H A).
    unfold callAndAnswer. rewrite F, andThen_cons, sendError_ok by apply transportable_http, T'.
    cbn [guarded andThen fst snd]. f_equal. apply response_error; [|exact T']. repeat split.
  - destruct (seen_code (toRpcError e)) as [E1 E2]. rewrite E1, E2. exact E'.
Qed.
Print Assumptions C56_errors_between_versions.

(** A method the server's version does not have is answered with the bad route error; nothing is called. *)
Theorem C56_missing_methods_are_reported : forall recovers hv client server hook impl mc args,
  ~ In (routeOf client mc) (map (routeOf server) (sv_methods server)) -> Carries (sv_env client) (rm_in mc) args ->
  exists b vs w, requestBody client mc args = Some b /\
    callsMade (fst (serveHTTP hv server (Options hook None) impl (newRequest client mc b))) = [] /\
    clientCall client None (connect recovers hv server (Options hook None) impl) mc args = CallResult vs (Some w) /\
    re_code w = (-2)%Z /\ re_status w = 404%Z.
Proof.
  intros rec hv sc ss hook impl mc args NI C. destruct (method_unknown rec hv sc ss hook impl mc args NI C) as (b & w & H1 & H2 & H3 & H4).
  exists b, (zeros mc), w. auto.
Qed.
Print Assumptions C56_missing_methods_are_reported.

(** Names of members are matched up to case, if no two fields of the reader differ only in case. *)
Theorem C56_case_of_names_does_not_matter : forall env fs l l',
  NoDup (map (fun f => to_lower (gf_name f)) fs) -> Forall2 (fun a b => to_lower (fst a) = to_lower (fst b) /\ snd a = snd b) l l' ->
  JWf (JObj l) -> JWf (JObj l') -> (N.of_nat (jdepth (JObj l)) <= maxNestingDepth)%N ->
  unmarshalStruct env fs (printJ (JObj l)) = unmarshalStruct env fs (printJ (JObj l')).
Proof.
  intros env fs l l' ND F W W' D.
  assert (DE : jdepth (JObj l) = jdepth (JObj l')).
  { rewrite !jdepth_obj. f_equal. clear - F. induction F as [|[k x] [k' x'] l l' [_ E] F IH]; [reflexivity|]. cbn in E. subst x'. cbn [depthMembers]. congruence. }
  unfold unmarshalStruct. rewrite !parse_print by (assumption || rewrite <- DE; assumption). clear W W' D DE. generalize (map (fun f => zeroVal (gf_ty f)) fs).
  assert (U : forall k, findField k fs = fieldIndex (fun n => String.eqb (to_lower k) (to_lower n)) fs).
  { intros k. unfold findField. destruct (fieldIndex (String.eqb k) fs) as [i|] eqn:E; [|reflexivity]. symmetry. revert i E ND.
    induction fs as [|f fs IH]; intros i E ND; [discriminate|]. cbn [fieldIndex] in *. cbn [map] in ND. inversion ND as [|? ? N1 N2]; subst.
    destruct (String.eqb_spec k (gf_name f)) as [->|N]; [rewrite String.eqb_refl; exact E|].
    destruct (fieldIndex (String.eqb k) fs) as [j|] eqn:EJ; [|discriminate]. rewrite (IH j eq_refl N2). destruct (String.eqb_spec (to_lower k) (to_lower (gf_name f))) as [EL|]; [|exact E].
    exfalso. apply N1. change (In (to_lower (gf_name f)) (map (fun g => to_lower (gf_name g)) fs)). rewrite <- EL. clear - EJ. revert j EJ. induction fs as [|g fs IH]; intros j EJ; [discriminate|]. cbn [fieldIndex] in EJ.
    destruct (String.eqb_spec k (gf_name g)) as [->|]; [left; reflexivity|]. destruct (fieldIndex _ fs); [|discriminate]. right. eapply IH. reflexivity. }
  induction F as [|[k x] [k' x'] l l' [E1 E2] F IH]; intros acc; [reflexivity|]. cbn [fst snd] in E1, E2. subst x'. cbn [fromFields]. rewrite !U, E1.
  destruct (fieldIndex _ fs) as [i|]; [|apply IH]. destruct (nth_error fs i); [|reflexivity]. destruct (fromJ env _ x); [apply IH|reflexivity].
Qed.
Print Assumptions C56_case_of_names_does_not_matter.

(** Integers the reader has no room for are an error, never another number. *)
Theorem C56_integers_are_never_cut : forall lo hi n z, ValidUtf8 n -> ~ (lo <= z <= hi)%Z ->
  unmarshalStruct [] [GF n false (TInt lo hi)] (printJ (JObj [(n, JNum (zdec z))])) = None.
Proof.
  intros lo hi n z V O. unfold unmarshalStruct. rewrite parse_print; [| |apply N.leb_le; reflexivity].
  - cbn [fromFields map]. unfold findField. cbn [fieldIndex gf_name]. rewrite String.eqb_refl. cbn [nth_error gf_ty fromJ strip].
    destruct (parseInt lo hi (zdec z)) as [y|] eqn:P; [|reflexivity]. exfalso. apply O. destruct (parseInt_exact _ _ _ _ P). lia.
  - constructor. intros k x [[= <- <-]|[]]. split; [exact V|constructor; apply NumLit_zdec].
Qed.
Print Assumptions C56_integers_are_never_cut.

(** ** an example *)
Definition roles1 : enumTable := [("USER", 0%Z); ("ADMIN", 1%Z)].
Definition roles2 : enumTable := [("USER", 0%Z); ("ADMIN", 5%Z); ("GUEST", 6%Z)].
(** version 1 *)
Definition env1 : goEnv := [("User", [GF "id" false (TInt 0 4294967295); GF "name" false TString; GF "role" false (TEnum roles1); GF "nick" true (TOpt TString)])].
Definition get1 : rpcMethod := RpcMethod "Get" [GF "user" false (TRef "User"); GF "limit" false (TInt 0 255)] [GF "users" false (TSlice (TRef "User"))].
Definition old1 : rpcMethod := RpcMethod "Old" [] [].
Definition api1 : service := Service "/rpc/Api/" env1 [get1; old1].
(** version 2: renamed struct, a new field, other order, name became optional, nick required, role changed, limit is wider, verbose is new *)
Definition env2 : goEnv := [("Person", [GF "email" false TString; GF "id" false (TInt 0 4294967295); GF "role" false (TEnum roles2);
  GF "name" true (TOpt TString); GF "nick" false TString])].
Definition get2 : rpcMethod := RpcMethod "Get" [GF "verbose" false TBool; GF "user" false (TRef "Person"); GF "limit" false (TInt 0 65535)] [GF "users" false (TSlice (TRef "Person")); GF "total" false (TInt 0 255)].
Definition api2 : service := Service "/rpc/Api/" env2 [get2].
Definition renamed (n n' : string) : Prop := n = "User" /\ n' = "Person".
Definition ann : gval := VPtr (Some (VStruct [VInt 7; VStr "ann"; VEnum 1; VPtr None])).

Ltac agree := split; [cbn; repeat constructor; cbn; intuition discriminate|]; intros f f' F F' E; cbn in F, F';
  repeat match goal with H : _ \/ _ |- _ => destruct H as [H|H] end; subst; try contradiction; try (vm_compute in E; discriminate E); (split; [reflexivity|]).
Ltac req := let X := fresh in intros ? X; discriminate X.

Example requests_agree : StructsAgree renamed env1 env2 /\ FieldsAgree renamed (rm_in get1) (rm_in get2) /\ Carries env1 (rm_in get1) [ann; VInt 3].
Proof.
  split; [|split].
  - intros n n' fs [-> ->] [= <-]. eexists. split; [reflexivity|]. agree; cbn.
    + constructor; lia.
    + constructor.
    + apply CMadeOptional; [req|req|constructor].
    + apply CMadeRequired; [req|req|constructor].
  - agree; cbn; constructor; [split; reflexivity|lia|lia].
  - split; [|apply N.leb_le; reflexivity].
    apply FFCons; [|txt|names_in|intros; discriminate|apply FFCons; [apply FInt; lia|txt|names_in|intros; discriminate|apply FFNil]].
    eapply FRef; [reflexivity|]. apply FFCons; [apply FInt; lia|txt|names_in|intros; discriminate|].
    apply FFCons; [apply FStr; txt|txt|names_in|intros; discriminate|].
    apply FFCons; [|txt|names_in|intros; discriminate|].
    + apply (FEnum _ roles1 "ADMIN"); [|right; left; reflexivity]. unfold EnumOk. cbn. repeat split; repeat constructor; cbn; try (intuition discriminate).
      intros n z H. decompose [or] H; try contradiction; match goal with X : (_, _) = _ |- _ => injection X as <- <- end; txt.
    + apply FFCons; [apply FNilOpt|txt|names_in|intros _; split; discriminate|apply FFNil].
Qed.
(** what the server of version 2 gets: no e-mail, the role by name, the name as a pointer, an empty nick; and what the
    client of version 1 gets back: an unknown role, no name, a nick and nothing of the rest *)
Definition bea : gval := VPtr (Some (VStruct [VStr "b@x"; VInt 8; VEnum 6; VPtr None; VStr "bea"])).
Definition impl2 : implementation := fun _ _ => Returns [VSlice (Some [bea; VPtr None]); VInt 2].
Example answers_agree : StructsAgree (fun n n' => renamed n' n) env2 env1 /\ FieldsAgree (fun n n' => renamed n' n) (rm_out get2) (rm_out get1) /\
  Carries env2 (rm_out get2) [VSlice (Some [bea; VPtr None]); VInt 2].
Proof.
  split; [|split].
  - intros n n' fs [-> ->] [= <-]. eexists. split; [reflexivity|]. agree; cbn.
    + constructor; lia.
    + apply CMadeRequired; [req|req|constructor].
    + constructor.
    + apply CMadeOptional; [req|req|constructor].
  - agree; cbn. constructor. constructor. split; reflexivity.
  - split; [|apply N.leb_le; reflexivity].
    apply FFCons; [|txt|names_in|intros; discriminate|apply FFCons; [apply FInt; lia|txt|names_in|intros; discriminate|apply FFNil]].
    apply FSlice. in_cases; [|apply FNilRef]. eapply FRef; [reflexivity|]. apply FFCons; [apply FStr; txt|txt|names_in|intros; discriminate|].
    apply FFCons; [apply FInt; lia|txt|names_in|intros; discriminate|]. apply FFCons; [|txt|names_in|intros; discriminate|].
    + apply (FEnum _ roles2 "GUEST"); [|right; right; left; reflexivity]. unfold EnumOk. cbn. repeat split; repeat constructor; cbn; try (intuition discriminate).
      intros n z H. decompose [or] H; try contradiction; match goal with X : (_, _) = _ |- _ => injection X as <- <- end; txt.
    + apply FFCons; [apply FNilOpt|txt|names_in|intros _; split; discriminate|]. apply FFCons; [apply FStr; txt|txt|names_in|intros; discriminate|apply FFNil].
Qed.
Example request_example : exists b, requestBody api1 get1 [ann; VInt 3] = Some b /\
  callsMade (fst (serveHTTP "v" api2 (Options None None) impl2 (newRequest api1 get1 b))) =
    [("Get", [VBool false; VPtr (Some (VStruct [VStr ""; VInt 7; VEnum 5; VPtr (Some (VStr "ann")); VStr ""])); VInt 3])] /\
  clientCall api1 None (connect false "v" api2 (Options None None) impl2) get1 [ann; VInt 3] =
    CallResult [VSlice (Some [VPtr (Some (VStruct [VInt 8; VStr ""; VEnum 0; VPtr (Some (VStr "bea"))])); VPtr None])] None.
Proof. eexists. split; [vm_compute; reflexivity|]. split; vm_compute; reflexivity. Qed.
Example missing_example : ~ In (routeOf api1 old1) (map (routeOf api2) (sv_methods api2)).
Proof. cbn. intuition discriminate. Qed.

(** ** what does not hold *)

(** An added field is not ignored if its name differs only in case from a field of the reader: it overwrites it. *)
Theorem C56_added_fields_are_ignored_refuted : exists fs fs' vs b,
  NoDup (map gf_name fs) /\ fs = fs' ++ [GF "ID" false TString] /\ Carries [] fs vs /\ marshalStruct [] fs vs = Some b /\
  vs = [VStr "a"; VStr "b"] /\ unmarshalStruct [] fs' b = Some [VStr "b"].
Proof.
  exists [GF "id" false TString; GF "ID" false TString], [GF "id" false TString], [VStr "a"; VStr "b"]. eexists.
  split; [cbn; repeat constructor; cbn; intuition discriminate|]. split; [reflexivity|]. split.
  { split; [|apply N.leb_le; reflexivity]. apply FFCons; [apply FStr; txt|txt|names_in|intros; discriminate|].
    apply FFCons; [apply FStr; txt|txt|names_in|intros; discriminate|apply FFNil]. }
  split; [vm_compute; reflexivity|]. split; [reflexivity|vm_compute; reflexivity].
Qed.
Print Assumptions C56_added_fields_are_ignored_refuted.

(** A member added to an enum is read as another member by older programs, without an error. *)
Theorem C56_new_enum_members_are_recognised_refuted :
  exists b, marshalStruct [] [GF "role" false (TEnum roles2)] [VEnum 6] = Some b /\ In ("GUEST", 6%Z) roles2 /\
    unmarshalStruct [] [GF "role" false (TEnum roles1)] b = Some [VEnum 0] /\ In ("USER", 0%Z) roles1.
Proof. eexists. split; [vm_compute; reflexivity|]. split; [cbn; auto|]. split; [vm_compute; reflexivity|cbn; auto]. Qed.
Print Assumptions C56_new_enum_members_are_recognised_refuted.
