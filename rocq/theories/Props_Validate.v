(** C09-C14: what an accepted schema guarantees. Theorems only.
    Specification: ValidateSpec.v. [validate u s = Ok s'] is WebRPCSchema.Validate accepting [s] and
    leaving it as [s']; [u] is the URI check of the standard library ([goUriOk] in Uri.v). *)
From Verif Require Import Base Schema TypeSpec Uri ValidateSpec ValidateProofs ValidateComplete
  ValidateIdem PropsValidateAux.

(** C09. In an accepted schema (whose type declarations are distinct objects) names are unique
    ignoring case, not empty and start with an upper-case letter, and each name resolves to its
    declaration, by exact name and ignoring case. *)
Theorem C09_type_names_are_unique : forall u s s',
  validate u s = Ok s' -> NoDup (map t_id (sc_types s)) ->
  NoDup (map (fun t => to_lower (t_name t)) (sc_types s')) /\
  forall t, In t (sc_types s') ->
    t_name t <> "" /\ startsWithUpper (t_name t) = true /\
    getType (sc_types s') (t_name t) = Some t /\
    forall n, to_lower n = to_lower (t_name t) -> getTypeByName (sc_types s') n = Some t.
Proof.
  intros u s s' H Hid. destruct (validate_types _ _ _ H Hid) as [Hn _]. split; [apply Hn|].
  intros t Ht. destruct (validate_ok _ _ _ H) as [_ _ V3 _ _ _ _]. rewrite Forall_forall in V3.
  destruct (V3 t Ht) as (H1 & H2 & _). split; [assumption|]. split; [assumption|]. now apply names_resolve.
Qed.
Print Assumptions C09_type_names_are_unique.

(** for a name whose first byte is ASCII, "upper case" is A-Z *)
Theorem C09_upper_case_is_A_to_Z : forall c r,
  (N_of_byte c < 128)%N -> (startsWithUpper (String c r) = true <-> (65 <= N_of_byte c <= 90)%N).
Proof.
  intros c r H. unfold startsWithUpper, is_upper_latin1, is_upper_byte, in_range.
  destruct (N.leb_spec 192 (N_of_byte c)); [lia|]. cbn [andb].
  rewrite orb_false_r, andb_true_iff, !N.leb_le. reflexivity.
Qed.
Print Assumptions C09_upper_case_is_A_to_Z.

(** beyond ASCII the check looks at one byte: the lower-case letter U+00E9 is accepted *)
Theorem C09_upper_case_refuted : exists s s' t,
  validate goUriOk s = Ok s' /\ In t (sc_types s') /\ t_name t = e_acute.
Proof. exact lower_case_name_accepted. Qed.
Print Assumptions C09_upper_case_refuted.

(** C10. Struct fields and enum members: valid identifiers, names and JSON keys unique ignoring case,
    JSON keys valid identifiers. *)
Theorem C10_fields_are_valid_and_unique : forall u s s' t,
  validate u s = Ok s' -> In t (sc_types s') -> t_kind t = "struct" \/ t_kind t = "enum" ->
  (forall f, In f (t_fields t) -> Identifier (f_name f) /\ Identifier (json_key f)) /\
  NoDup (map (fun f => to_lower (f_name f)) (t_fields t)) /\
  NoDup (map (fun f => to_lower (json_key f)) (t_fields t)).
Proof.
  intros u s s' t H Ht Hk. destruct (validate_ok _ _ _ H) as [_ _ V3 _ _ _ _]. rewrite Forall_forall in V3.
  destruct (V3 t Ht) as (_ & _ & Hd).
  assert (HF : FieldsOk (t_fields t)) by (destruct Hd as [(_ & G & _)|[(_ & G & _)|(E & _)]]; [assumption|assumption|]; destruct Hk; congruence).
  destruct HF as (F1 & F2 & F3 & F4 & _). rewrite Forall_forall in F1, F4. repeat split; auto.
Qed.
Print Assumptions C10_fields_are_valid_and_unique.

(** C10. Fields have a resolved type and no value; enum members have a value and no type, and the enum
    is of a string or integer type. *)
Theorem C10_fields_have_types_members_have_values : forall u s s' t f,
  validate u s = Ok s' -> In t (sc_types s') -> In f (t_fields t) ->
  (t_kind t = "struct" -> f_value f = "" /\ exists v, f_type f = Some v /\ ResolvedOrIncomplete (sc_types s') v) /\
  (t_kind t = "enum" -> f_value f <> "" /\ f_type f = None /\
     exists v c, t_type t = Some v /\ vt_expr v = core_to_string c /\ (integer_core c \/ c = CString)).
Proof.
  intros u s s' t f H Ht Hf. destruct (validate_ok _ _ _ H) as [_ _ V3 _ _ _ _]. rewrite Forall_forall in V3.
  destruct (V3 t Ht) as (_ & _ & Hd). split; intro Hk.
  - destruct Hd as [(E & _)|[(_ & _ & G)|(E & _)]]; [congruence| |congruence].
    unfold StructOk in G. rewrite Forall_forall in G. exact (G f Hf).
  - destruct Hd as [(_ & _ & G1 & G2)|[(E & _)|(E & _)]]; [|congruence|congruence].
    rewrite Forall_forall in G1. destruct (G1 f Hf). auto.
Qed.
Print Assumptions C10_fields_have_types_members_have_values.

(** C11. Errors: positive codes, status 400..599, a message, codes unique, names unique ignoring case ... *)
Theorem C11_errors_are_well_formed : forall u s s',
  validate u s = Ok s' ->
  (forall e, In e (sc_errors s') ->
     (x_code e > 0)%Z /\ (400 <= x_status e <= 599)%Z /\ x_message e <> "" /\ x_name e <> "" /\
     startsWithUpper (x_name e) = true) /\
  NoDup (map x_code (sc_errors s')) /\
  NoDup (map (fun e => to_lower (x_name e)) (sc_errors s')).
Proof.
  intros u s s' H. destruct (validate_ok _ _ _ H) as [_ _ _ _ (E1 & E2 & E3) _ _]. split; [|now split].
  intros e He. rewrite Forall_forall in E1. destruct (E1 e He) as (K1 & _ & K2 & K3 & K4 & K5 & _). auto.
Qed.
Print Assumptions C11_errors_are_well_formed.

(** ... also together with the built-in errors, so decoding by code finds the one that was raised. *)
Theorem C11_decoding_by_code_is_unambiguous : forall u s s',
  validate u s = Ok s' ->
  NoDup (map x_code (builtinErrors ++ sc_errors s')) /\
  NoDup (map (fun e => to_lower (x_name e)) (builtinErrors ++ sc_errors s')) /\
  forall e, In e (builtinErrors ++ sc_errors s') ->
    find (fun e' => Z.eqb (x_code e') (x_code e)) (builtinErrors ++ sc_errors s') = Some e.
Proof.
  intros u s s' H. destruct (validate_ok _ _ _ H) as [_ _ _ _ HE _ _]. now apply errors_unambiguous.
Qed.
Print Assumptions C11_decoding_by_code_is_unambiguous.

(** C12. Services and methods. *)
Theorem C12_services_are_well_formed : forall u s s',
  validate u s = Ok s' ->
  (forall v w, In v (sc_services s') -> In w (sc_services s') -> v_id v <> v_id w ->
     to_lower (v_name v) <> to_lower (v_name w)) /\
  (forall v, In v (sc_services s') ->
     v_name v <> "" /\ v_methods v <> [] /\ NoDup (map (fun m => to_lower (me_name m)) (v_methods v))) /\
  (forall v m, In v (sc_services s') -> In m (v_methods v) ->
     me_name m <> "" /\
     (forall n, In n (me_errors m) -> exists e, In e (sc_errors s') /\ x_name e = n) /\
     (me_succinct m = true -> length (me_inputs m) <= 1 /\ length (me_outputs m) <= 1) /\
     (forall a, In a (me_inputs m ++ me_outputs m) ->
        g_name a <> "" /\ exists x, g_type a = Some x /\ ResolvedOrIncomplete (sc_types s') x)).
Proof.
  intros u s s' H. destruct (validate_ok _ _ _ H) as [_ _ _ _ _ V6 V7]. rewrite Forall_forall in V6.
  split; [exact V7|]. split.
  - intros v Hv. destruct (V6 v Hv) as (A & B & _ & D). auto.
  - intros v m Hv Hm. destruct (V6 v Hv) as (_ & _ & C & _). rewrite Forall_forall in C.
    destruct (C m Hm) as (M1 & M2 & M3 & M4 & M5). rewrite Forall_forall in M2, M3.
    split; [assumption|]. split; [assumption|]. split; [assumption|].
    intros a Ha. apply in_app_or in Ha as [Ha|Ha]; [exact (M2 a Ha)|exact (M3 a Ha)].
Qed.
Print Assumptions C12_services_are_well_formed.

(** "argument names are valid identifiers" is false: argument and method names are not checked
    beyond being non-empty, and two arguments may have the same name. *)
Theorem C12_argument_names_refuted : exists s s' v m a b,
  validate goUriOk s = Ok s' /\ In v (sc_services s') /\ In m (v_methods v) /\
  me_inputs m = [a; b] /\ g_name a = g_name b /\ ~ Identifier (g_name a) /\ ~ Identifier (me_name m).
Proof. exact argument_names_unchecked. Qed.
Print Assumptions C12_argument_names_refuted.

(** C13. An accepted base path is empty or starts and ends with "/": it is the given one with the missing
    slashes added, and normalising it again changes nothing. Acceptance is characterised exactly. *)
Theorem C13_base_path_is_normalised : forall u b p,
  checkBasePath u b = Ok p <->
  BasePathOk u b /\
  p = (if String.eqb b "" then ""
       else let q := if has_prefix "/" b then b else "/" ++ b in
            if has_suffix "/" q then q else q ++ "/")%string.
Proof. exact checkBasePath_iff. Qed.
Print Assumptions C13_base_path_is_normalised.

Theorem C13_base_path_of_accepted_schema : forall s s',
  validate goUriOk s = Ok s' ->
  (sc_basepath s' = "" \/ exists p, sc_basepath s' = "/" \/ sc_basepath s' = ("/" ++ p ++ "/")%string) /\
  checkBasePath goUriOk (sc_basepath s') = Ok (sc_basepath s') /\
  (sc_services s' <> [] -> sc_version s' <> "").
Proof.
  intros s s' H. split; [|split].
  - apply validate_inv in H as (b & ts & es & ss & _ & _ & Hb & _ & _ & _ & ->). cbn [sc_basepath].
    apply checkBasePath_iff in Hb as [_ ->]. destruct (String.eqb (sc_basepath s) ""); [now left|]. right.
    assert (HH : forall q, has_prefix "/" q = true -> has_suffix "/" q = true ->
              exists p, q = "/" \/ q = ("/" ++ p ++ "/")%string).
    { intros q H1 H2. apply BaseProofs.has_prefix_iff in H1 as (r & ->).
      apply BaseProofs.has_suffix_iff in H2 as (x & E). destruct x as [|c x].
      - exists "". left. exact E.
      - exists x. right. cbn in E. injection E as _ E. cbn. now rewrite E. }
    apply HH.
    + destruct (has_suffix "/" (slashed (sc_basepath s))); [apply slashed_prefix|].
      apply has_prefix_app_l, slashed_prefix.
    + destruct (has_suffix "/" (slashed (sc_basepath s))) eqn:E; [assumption|]. apply BaseProofs.has_suffix_app.
  - apply validate_inv in H as (b & ts & es & ss & _ & _ & Hb & _ & _ & _ & ->). cbn [sc_basepath].
    eapply basepath_fix; [exact goUriOk_slash|exact Hb].
  - apply (ok_schema_version _ _ (validate_ok _ _ _ H)).
Qed.
Print Assumptions C13_base_path_of_accepted_schema.

(** C14. Validation is idempotent when no type has a missing component. *)
Theorem C14_validation_is_idempotent : forall s s',
  validate goUriOk s = Ok s' -> SchemaOk Resolved s' -> validate goUriOk s' = Ok s'.
Proof. intros s s'. apply validate_fix. exact goUriOk_slash. Qed.
Print Assumptions C14_validation_is_idempotent.

(** C14. Validation changes nothing but resolving references, trimming error names and the base path. *)
Theorem C14_validation_only_resolves : forall u s s', validate u s = Ok s' -> SameSchema s s'.
Proof. exact validate_same. Qed.
Print Assumptions C14_validation_only_resolves.

(** C14. Soundness: an accepted schema is well-formed ... *)
Theorem C14_accepted_schemas_are_well_formed : forall u s s',
  validate u s = Ok s' -> SchemaOk ResolvedOrIncomplete s' /\ BasePathOk u (sc_basepath s).
Proof.
  intros u s s' H. split; [eapply validate_ok; exact H|].
  apply validate_inv in H as (b & ts & es & ss & _ & _ & Hb & _). now apply checkBasePath_iff in Hb.
Qed.
Print Assumptions C14_accepted_schemas_are_well_formed.

(** ... and completeness: a well-formed schema is accepted (in particular it does not crash the validator). *)
Theorem C14_well_formed_schemas_are_accepted : forall u s,
  SchemaOk Legal s -> BasePathOk u (sc_basepath s) -> NoDup (map t_id (sc_types s)) ->
  exists s', validate u s = Ok s'.
Proof. exact validate_complete. Qed.
Print Assumptions C14_well_formed_schemas_are_accepted.

(** With a missing component validation is not idempotent, ... *)
Theorem C14_missing_component_refuted : exists s s',
  validate goUriOk s = Ok s' /\ forall s'', validate goUriOk s' <> Ok s''.
Proof. exact not_idempotent. Qed.
Print Assumptions C14_missing_component_refuted.

(** ... a JSON struct field without a type crashes the validator, ... *)
Theorem C14_missing_type_panics_refuted : exists s, validate goUriOk s = Panic.
Proof. exact missing_type_panics. Qed.
Print Assumptions C14_missing_type_panics_refuted.

(** ... and the underlying type of an alias is not checked. *)
Theorem C14_alias_unchecked_refuted : exists s s' t v, validate goUriOk s = Ok s' /\ In t (sc_types s') /\
  t_kind t = "alias" /\ t_type t = Some v /\ forall w, parseVarTypeExpr (sc_types s') (vt_expr v) <> Ok w.
Proof. exact alias_unchecked. Qed.
Print Assumptions C14_alias_unchecked_refuted.

(** Non-vacuity: a schema with an enum, recursive structs, an alias, errors and a service is accepted. *)
Example validate_example : exists s', validate goUriOk exSchema = Ok s' /\ sc_basepath s' = "/api/rpc/" /\
  map x_name (sc_errors s') = ["NotFound"; "Conflict"] /\ SchemaOk Resolved s' /\
  NoDup (map t_id (sc_types exSchema)).
Proof. exact exSchema_ok. Qed.
