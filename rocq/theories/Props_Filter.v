(** C19-C21: selecting services, methods and types. Theorems only.
    Specification: FilterSpec.v. *)
From Coq Require Import Permutation.
From Verif Require Import Base BaseProofs Schema TypeSpec Uri ValidateSpec Filter FilterSpec FilterProofs PropsFilterAux.

(** C19. Filtering by a non-empty list of names keeps exactly the services with a listed name, in order and
    unmodified, and changes nothing else. *)
Theorem C19_service_filter_is_exact : forall s names, names <> [] ->
  sc_services (matchServices s names) =
    filter (fun v => if in_dec string_dec (v_name v) names then true else false) (sc_services s) /\
  sc_webrpc (matchServices s names) = sc_webrpc s /\ sc_name (matchServices s names) = sc_name s /\
  sc_version (matchServices s names) = sc_version s /\ sc_basepath (matchServices s names) = sc_basepath s /\
  sc_types (matchServices s names) = sc_types s /\ sc_errors (matchServices s names) = sc_errors s.
Proof.
  intros s names Hn. destruct names as [|n0 l]; [contradiction|]. unfold matchServices.
  split; [|repeat split]. cbn [withServices sc_services]. rewrite keepServices_filter. apply filter_ext. intro v.
  destruct (in_dec string_dec (v_name v) (n0 :: l)) as [H|H].
  - now apply str_in_In.
  - now apply str_in_not.
Qed.
Print Assumptions C19_service_filter_is_exact.

(** Asking for nothing is the identity. *)
Theorem C19_no_names_is_identity : forall s, matchServices s [] = s.
Proof. reflexivity. Qed.
Print Assumptions C19_no_names_is_identity.

(** The order and repetition of the names do not matter, and filtering twice is filtering once. *)
Theorem C19_names_are_a_set : forall s names names', (forall n, In n names <-> In n names') ->
  matchServices s names = matchServices s names'.
Proof.
  intros s names names' H.
  assert (E : keepServices names (sc_services s) = keepServices names' (sc_services s)).
  { rewrite !keepServices_filter. apply filter_ext. intro v. destruct (str_in (v_name v) names') eqn:E.
    - apply str_in_In. apply str_in_In in E. now apply H.
    - apply str_in_not. apply str_in_not in E. now rewrite H. }
  destruct names as [|a l], names' as [|b l']; try reflexivity.
  - exfalso. apply (H b). now left.
  - exfalso. apply (H a). now left.
  - unfold matchServices. now rewrite E.
Qed.
Print Assumptions C19_names_are_a_set.

Theorem C19_idempotent : forall s names, matchServices (matchServices s names) names = matchServices s names.
Proof.
  intros s [|n l]; [reflexivity|]. unfold matchServices, withServices. cbn [sc_services sc_webrpc sc_name sc_version sc_basepath sc_types sc_errors].
  f_equal. rewrite !keepServices_filter. induction (sc_services s) as [|v r IH]; [reflexivity|]. cbn [filter].
  destruct (str_in (v_name v) (n :: l)) eqn:E; [|exact IH]. cbn [filter]. rewrite E. now rewrite IH.
Qed.
Print Assumptions C19_idempotent.

(** C20. Matching keeps, per service and in order, exactly the methods the requests select; ignoring keeps
    exactly the others; services and everything else stay. *)
Theorem C20_annotation_filters_are_exact : forall s anns, exists sel : method -> bool,
  (forall m, sel m = true <-> SelectedBy m anns) /\
  matchMethods s anns =
    Schema_ (sc_webrpc s) (sc_name s) (sc_version s) (sc_basepath s) (sc_types s) (sc_errors s)
      (map (fun v => Service_ (v_id v) (v_name v) (filter sel (v_methods v)) (v_comments v)) (sc_services s)) /\
  ignoreMethods s anns =
    Schema_ (sc_webrpc s) (sc_name s) (sc_version s) (sc_basepath s) (sc_types s) (sc_errors s)
      (map (fun v => Service_ (v_id v) (v_name v) (filter (fun m => negb (sel m)) (v_methods v)) (v_comments v)) (sc_services s)).
Proof.
  intros s anns. exists (annotationLoop anns). split; [|split; reflexivity]. intro m. apply annotationLoop_iff.
Qed.
Print Assumptions C20_annotation_filters_are_exact.

(** C20. Every method is kept by exactly one of the two. *)
Theorem C20_filters_partition_the_methods : forall s anns,
  Forall2 (fun v ab => v_name (fst ab) = v_name v /\ v_name (snd ab) = v_name v /\
      Permutation (v_methods (fst ab) ++ v_methods (snd ab)) (v_methods v) /\
      (forall m, In m (v_methods v) ->
         (In m (v_methods (fst ab)) /\ ~ In m (v_methods (snd ab))) \/
         (~ In m (v_methods (fst ab)) /\ In m (v_methods (snd ab)))))
    (sc_services s)
    (combine (sc_services (matchMethods s anns)) (sc_services (ignoreMethods s anns))).
Proof.
  intros s anns. unfold matchMethods, ignoreMethods, withServices, withMethods. cbn [sc_services].
  induction (sc_services s) as [|v r IH]; cbn; constructor; [|exact IH]. cbn [fst snd v_name v_methods].
  split; [reflexivity|]. split; [reflexivity|]. split; [apply filter_partition|].
  intros m Hm. rewrite !filter_In. destruct (annotationLoop anns m); cbn; intuition congruence.
Qed.
Print Assumptions C20_filters_partition_the_methods.

(** C20. The result does not depend on the order in which Go iterates over the requested annotations. *)
Theorem C20_iteration_order_is_irrelevant : forall s anns anns', Permutation anns anns' ->
  matchMethods s anns = matchMethods s anns' /\ ignoreMethods s anns = ignoreMethods s anns'.
Proof.
  intros s anns anns' H.
  assert (E : forall m, annotationLoop anns m = annotationLoop anns' m).
  { intro m. assert (HS : SelectedBy m anns <-> SelectedBy m anns').
    { unfold SelectedBy. split; intros (r & Hr & K); exists r; (split; [|assumption]).
      - eapply Permutation_in; eassumption.
      - eapply Permutation_in; [apply Permutation_sym; eassumption|assumption]. }
    rewrite <- !annotationLoop_iff in HS. destruct (annotationLoop anns m), (annotationLoop anns' m); intuition congruence. }
  unfold matchMethods, ignoreMethods. split; f_equal; apply map_ext; intro v; f_equal; apply filter_ext; intro m; now rewrite E.
Qed.
Print Assumptions C20_iteration_order_is_irrelevant.

(** C20. What is left after ignoring methods need not be a schema the tool accepts: a service may lose all
    its methods. *)
Theorem C20_filtered_schema_stays_valid_refuted : exists s anns, Accepted s /\
  forall s', validate goUriOk (ignoreMethods s anns) <> Ok s'.
Proof.
  exists (accept shakeExample), [("auth", "token"); ("internal", " ")]. split; [exact shakeExample_accepted|].
  intro s'. vm_compute. discriminate.
Qed.
Print Assumptions C20_filtered_schema_stays_valid_refuted.

(** C21. If tree shaking returns, it keeps exactly the types that a method of a named service needs: directly,
    under lists and maps, or through fields of structs; all else stays. *)
Theorem C21_shaking_keeps_exactly_the_needed_types_partial : forall n s names s',
  Accepted s -> methodTreeShake n s names = Some s' ->
  (forall t, In t (sc_types s') <-> In t (sc_types s) /\ Needed s (Named names) (t_name t)) /\
  (exists keep, sc_types s' = filter keep (sc_types s)) /\
  sc_webrpc s' = sc_webrpc s /\ sc_name s' = sc_name s /\ sc_version s' = sc_version s /\
  sc_basepath s' = sc_basepath s /\ sc_errors s' = sc_errors s /\ sc_services s' = sc_services s.
Proof.
  intros n s names s' HA H. destruct (shake_exact n s names s' HA H) as (keep & -> & Hk).
  split; [|split; [exists keep; reflexivity|repeat split]]. intro t. cbn [withTypes sc_types]. rewrite filter_In.
  split; intros [A B]; (split; [assumption|]); now apply (Hk t A).
Qed.
Print Assumptions C21_shaking_keeps_exactly_the_needed_types_partial.

(** C21. Without aliases the schema left after shaking and selecting the services has no dangling reference:
    it is well-formed and the validator accepts it. *)
Theorem C21_shaken_schema_is_closed_partial : forall n s names s1,
  Accepted s -> (forall t, In t (sc_types s) -> t_kind t <> "alias") -> names <> [] ->
  methodTreeShake n s names = Some s1 ->
  SchemaOk Resolved (matchServices s1 names) /\ exists s', validate goUriOk (matchServices s1 names) = Ok s'.
Proof. intros n s names s1 HA Na Hn H. exact (shake_closed n s names s1 HA Na H Hn). Qed.
Print Assumptions C21_shaken_schema_is_closed_partial.

(** C21. Tree shaking returns if and only if no method, of a named service or not, needs a struct that
    contains itself. *)
Theorem C21_shaking_terminates_iff_not_recursive : forall s names, Accepted s ->
  ((exists n s', methodTreeShake n s names = Some s') <-> ~ RecursiveArguments s).
Proof. exact shake_returns. Qed.
Print Assumptions C21_shaking_terminates_iff_not_recursive.

(** so it is false that shaking always works: a list of itself in a struct makes it recurse for ever, even when
    the struct is used by other services only ... *)
Theorem C21_recursive_struct_refuted : exists s names, Accepted s /\ forall n, methodTreeShake n s names = None.
Proof.
  exists (accept recursiveExample), ["Other"]. split; [exact recursiveExample_accepted|]. intro n.
  destruct (methodTreeShake n (accept recursiveExample) ["Other"]) as [s'|] eqn:E; [|reflexivity]. exfalso.
  apply (proj1 (shake_returns (accept recursiveExample) ["Other"] recursiveExample_accepted)); [eauto|].
  exact recursiveExample_recursive.
Qed.
Print Assumptions C21_recursive_struct_refuted.

(** ... and with an alias the result has a dangling reference: the validator rejects it. *)
Theorem C21_alias_refuted : exists n s names s1, Accepted s /\ names <> [] /\ methodTreeShake n s names = Some s1 /\
  forall s', validate goUriOk (matchServices s1 names) <> Ok s'.
Proof.
  exists 5, (accept aliasExample), ["Users"]. eexists. split; [exact aliasExample_accepted|]. split; [discriminate|].
  split; [vm_compute; reflexivity|]. intro s'. vm_compute. discriminate.
Qed.
Print Assumptions C21_alias_refuted.

(** Non-vacuity: services, methods and types that are kept and dropped. *)
Example C19_C20_C21_example :
  let s := accept shakeExample in
  Accepted s /\
  map v_name (sc_services (matchServices s ["Admins"; "Users"; "Nobody"])) = ["Users"; "Admins"] /\
  map v_name (sc_services (matchServices s ["users"])) = [] /\
  map (fun v => map me_name (v_methods v)) (sc_services (matchMethods s [("auth", "token"); ("internal", " ")])) = [["Get"]; ["Grant"]] /\
  map (fun v => map me_name (v_methods v)) (sc_services (ignoreMethods s [("auth", "token"); ("internal", " ")])) = [["List"; "Ping"]; []] /\
  option_map (fun s' => map t_name (sc_types s')) (methodTreeShake 10 s ["Users"]) = Some ["Kind"; "User"; "Role"] /\
  option_map (fun s' => map t_name (sc_types s')) (methodTreeShake 10 s ["Admins"]) = Some ["Kind"; "User"; "Role"; "Admin"; "Log"].
Proof. cbv zeta. split; [exact shakeExample_accepted|]. vm_compute. repeat split. Qed.
