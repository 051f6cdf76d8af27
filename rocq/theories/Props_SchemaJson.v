(** Theorems about schemas as JSON documents and about schema hashes; see /verif/properties.jsonl. *)
From Coq Require Import Permutation.
From Verif Require Import Base BaseProofs Utf8 JsonProofs Schema TypeSpec Uri ValidateSpec ValidateProofs PropsValidateAux Ridl Cli SchemaJson Sha1 Main
  JsonSchemaSpec SchemaJsonProofs SchemaJsonBack Corpus Conformance TextSchema PropsSchemaJsonAux.

(** C43. A schema that was read from a file (RIDL or JSON) and can be written is written to a document
    which, stored in a .json file, is read back to a schema with the same content, all references
    denoting the same types; and that schema is written to the same document. *)
Theorem C43_schema_json_round_trip : forall isPrint fs cwd p s,
  parseSchemaFile fs goUriOk cwd p = Ok s ->
  WSchema isPrint s -> SchemaOk Portable s ->
  NoDup (map t_id (sc_types s)) -> NoDup (map v_id (sc_services s)) ->
  exists t, toJSON isPrint s = Some t /\
    forall fs' cwd' p', pathExt (pathAbs cwd' p') = ".json" -> assoc (drop 1 (pathAbs cwd' p')) fs' = Some t ->
      exists s', parseSchemaFile fs' goUriOk cwd' p' = Ok s' /\ SameContent SameTree s s' /\ toJSON isPrint s' = Some t.
Proof.
  intros isPrint fs cwd p s H W O Dt Dv. apply parseSchemaFile_inv in H as (s0 & H).
  destruct (json_round_trip isPrint goUriOk s (validate_basepath _ _ _ slash_closed H) W O Dt Dv) as (t & s' & T & P & C & T').
  exists t. split; [exact T|]. intros fs' cwd' p' X A. exists s'. split; [|auto].
  unfold parseSchemaFile. rewrite X, A. exact P.
Qed.
Print Assumptions C43_schema_json_round_trip.

(** Files read from RIDL never list a type twice, so for them that hypothesis is not needed. *)
Theorem C43_ridl_types_are_listed_once : forall fs cwd p s,
  parseSchemaFile fs goUriOk cwd p = Ok s -> pathExt (pathAbs cwd p) = ".ridl" -> NoDup (map t_id (sc_types s)).
Proof.
  intros fs cwd p s H X. unfold parseSchemaFile in H. rewrite X in H. cbn [String.eqb Ascii.eqb Bool.eqb] in H.
  destruct (loadFile fs goUriOk _) eqn:L; try discriminate. injection H as <-. now apply loaded_facts in L.
Qed.
Print Assumptions C43_ridl_types_are_listed_once.

(** A schema without alias of an enum whose references are all resolved is portable. *)
Theorem C43_portable : forall s, SchemaOk Resolved s ->
  (forall t v e n d, In t (sc_types s) -> t_type t = Some v -> v = VT e (ShEnum n d) -> t_kind t = "enum") ->
  SchemaOk Portable s.
Proof.
  intros s H N. eapply SchemaOk_impl; [|exact H]. intros v. apply Resolved_Portable. intros t e m d Ht E. eapply N; eauto.
Qed.
Print Assumptions C43_portable.

(** What the generator writes for -target=json, with the default base path filled in, is a schema file
    that gives the generator the same schema hash. *)
Theorem C43_json_target_keeps_the_hash : forall isPrint fs cwd p s,
  parseSchemaFile fs goUriOk cwd p = Ok s ->
  WSchema isPrint s -> SchemaOk Portable s ->
  NoDup (map t_id (sc_types s)) -> NoDup (map v_id (sc_services s)) ->
  exists t, toJSON isPrint (defaultBasePath s) = Some t /\
    forall fs' cwd' p', pathExt (pathAbs cwd' p') = ".json" -> assoc (drop 1 (pathAbs cwd' p')) fs' = Some t ->
      exists s', parseSchemaFile fs' goUriOk cwd' p' = Ok s' /\
        SameContent SameTree (defaultBasePath s) (defaultBasePath s') /\
        toJSON isPrint (defaultBasePath s') = Some t /\
        schemaHash isPrint (defaultBasePath s') = schemaHash isPrint (defaultBasePath s).
Proof.
  intros isPrint fs cwd p s H W O Dt Dv. apply parseSchemaFile_inv in H as (s0 & H).
  destruct (default_facts isPrint s (validate_basepath _ _ _ slash_closed H) W O) as (B & W' & O').
  destruct (default_types s) as [E1 E2]. rewrite <- E1 in Dt. rewrite <- E2 in Dv.
  destruct (json_round_trip isPrint goUriOk (defaultBasePath s) B W' O' Dt Dv) as (t & s' & T & P & C & T').
  exists t. split; [exact T|]. intros fs' cwd' p' X A. exists s'.
  assert (D : defaultBasePath s' = s').
  { apply default_fix. destruct C as (_ & _ & _ & C4 & _ & _ & C7). rewrite E2 in C7. rewrite <- C4. destruct (default_idem s) as [N|N]; [now left|].
    right. rewrite N in C7. now inversion C7. }
  rewrite D. split; [unfold parseSchemaFile; rewrite X, A; exact P|]. split; [exact C|]. split; [exact T'|].
  unfold schemaHash. now rewrite T, T'.
Qed.
Print Assumptions C43_json_target_keeps_the_hash.

(** A schema read from RIDL files can be written iff its references can: all other texts of it are valid UTF-8,
    whatever the bytes of the files, and no two annotations or meta entries collide. *)
Theorem C43_ridl_schemas_can_be_written : forall isPrint fs u cwd p s,
  parseSchemaFile fs u cwd p = Ok s -> pathExt (pathAbs cwd p) = ".ridl" ->
  (WSchema isPrint s <-> forall v, RefIn s v -> WType isPrint v).
Proof. intros isPrint fs u cwd p s H X. eapply loaded_writable, ridl_loads; eassumption. Qed.
Print Assumptions C43_ridl_schemas_can_be_written.

(** So for RIDL files the round trip needs only that references are complete and printable, that no alias stands for
    an enum, and that no service was imported twice. *)
Theorem C43_ridl_round_trip : forall isPrint fs cwd p s,
  parseSchemaFile fs goUriOk cwd p = Ok s -> pathExt (pathAbs cwd p) = ".ridl" ->
  (forall v, RefIn s v -> WType isPrint v /\ tree v <> None) ->
  (forall t v e n d, In t (sc_types s) -> t_type t = Some v -> v = VT e (ShEnum n d) -> t_kind t = "enum") ->
  NoDup (map v_id (sc_services s)) ->
  exists t, toJSON isPrint s = Some t /\
    forall fs' cwd' p', pathExt (pathAbs cwd' p') = ".json" -> assoc (drop 1 (pathAbs cwd' p')) fs' = Some t ->
      exists s', parseSchemaFile fs' goUriOk cwd' p' = Ok s' /\ SameContent SameTree s s' /\ toJSON isPrint s' = Some t.
Proof.
  intros isPrint fs cwd p s H X HR HE HV. eapply C43_schema_json_round_trip; [exact H| | |eapply C43_ridl_types_are_listed_once; eassumption|exact HV].
  - eapply C43_ridl_schemas_can_be_written; [exact H|exact X|]. intros v Hv. now apply HR.
  - apply C43_portable; [|exact HE]. apply no_holes_Resolved; [|apply complete_no_holes; intros v Hv; now apply HR].
    apply parseSchemaFile_inv in H as (s0 & H). eapply validate_ok, H.
Qed.
Print Assumptions C43_ridl_round_trip.

Example C43_ridl_example : exists s, parseSchemaFile repo goUriOk "/repo" "_examples/golang-basics/example.ridl" = Ok s /\
  (forall v, RefIn s v -> WType goIsPrint v /\ tree v <> None) /\ NoDup (map v_id (sc_services s)) /\
  (forall t v e n d, In t (sc_types s) -> t_type t = Some v -> v = VT e (ShEnum n d) -> t_kind t = "enum").
Proof. exact example_refs. Qed.

(** the hypotheses are met by a schema of the repository *)
Example C43_example : exists s, parseSchemaFile repo goUriOk "/repo" "_examples/golang-basics/example.ridl" = Ok s /\
  WSchema goIsPrint s /\ SchemaOk Portable s /\ NoDup (map t_id (sc_types s)) /\ NoDup (map v_id (sc_services s)) /\
  (length (sc_services s) = 3 /\ 2 < length (sc_errors s) /\ 5 < length (sc_types s))%nat.
Proof. exact example_meets. Qed.

(** Without them it is false.  A map keyed by an alias of an enum is accepted in RIDL and rejected in
    the JSON document of the same schema, ... *)
Theorem C43_enum_alias_key_refuted : exists fs s t, parseSchemaFile fs goUriOk "/" "/a.ridl" = Ok s /\
  toJSON goIsPrint s = Some t /\ parseSchemaJSON goUriOk t = Err "schema error: invalid map key".
Proof.
  exists enumAliasDisk.
  assert (H : outcome enumAliasDisk = Some (Some (Err "schema error: invalid map key"))) by (vm_compute; reflexivity).
  apply outcome_inv in H as (s & P & E). exists s. destruct (toJSON goIsPrint s) as [t|]; [|discriminate].
  exists t. split; [exact P|]. split; [reflexivity|]. cbn [option_map] in E. now injection E as <-.
Qed.
Print Assumptions C43_enum_alias_key_refuted.

(** ... so is a service that is imported on two paths, ... *)
Theorem C43_service_imported_twice_refuted : exists fs s t, parseSchemaFile fs goUriOk "/" "/a.ridl" = Ok s /\
  toJSON goIsPrint s = Some t /\ parseSchemaJSON goUriOk t = Err "schema error: duplicate service name".
Proof.
  exists twiceDisk.
  assert (H : outcome twiceDisk = Some (Some (Err "schema error: duplicate service name"))) by (vm_compute; reflexivity).
  apply outcome_inv in H as (s & P & E). exists s. destruct (toJSON goIsPrint s) as [t|]; [|discriminate].
  exists t. split; [exact P|]. split; [reflexivity|]. cbn [option_map] in E. now injection E as <-.
Qed.
Print Assumptions C43_service_imported_twice_refuted.

(** ... and an accepted schema with a control character in a type name that is used cannot be written
    (and has no hash). *)
Theorem C43_unprintable_name_refuted : exists fs s, parseSchemaFile fs goUriOk "/" "/a.ridl" = Ok s /\
  toJSON goIsPrint s = None /\ schemaHash goIsPrint s = None.
Proof.
  exists unprintableDisk. assert (H : outcome unprintableDisk = Some None) by (vm_compute; reflexivity).
  apply outcome_inv in H as (s & P & E). exists s. split; [exact P|]. unfold schemaHash.
  destruct (toJSON goIsPrint s); [discriminate|auto].
Qed.
Print Assumptions C43_unprintable_name_refuted.

(** Reading a JSON document may crash: the document null is a nil schema, and so is a null entry. *)
Theorem C43_null_document_refuted : forall u,
  parseSchemaJSON u "null" = Panic /\ parseSchemaJSON u "{""webrpc"": ""v1"", ""types"": [null]}" = Panic.
Proof. intros u. split; vm_compute; reflexivity. Qed.
Print Assumptions C43_null_document_refuted.

(** C44. Two schemas have the same JSON document iff they have the same content, ... *)
Theorem C44_same_document_iff_same_content : forall isPrint s s', WSchema isPrint s -> WSchema isPrint s' ->
  (toJSON isPrint s = toJSON isPrint s' <-> SameContent SameExpr s s').
Proof.
  intros isPrint s s' W W'. split; [apply toJSON_injective; assumption|apply toJSON_same; assumption].
Qed.
Print Assumptions C44_same_document_iff_same_content.

(** ... so the same content gives the same schema hash, ... *)
Theorem C44_same_content_same_hash : forall isPrint s s', WSchema isPrint s -> SameContent SameExpr s s' ->
  schemaHash isPrint s = schemaHash isPrint s' /\ schemaHash isPrint s <> None.
Proof.
  intros isPrint s s' W C. unfold schemaHash. rewrite (toJSON_same _ _ _ W C).
  destruct (toJSON_back _ _ W) as (t & j & T & _). rewrite (toJSON_same _ _ _ W C) in T. rewrite T. split; [reflexivity|discriminate].
Qed.
Print Assumptions C44_same_content_same_hash.

(** ... and equal hashes mean equal content, unless two different documents have the same SHA-1. *)
Theorem C44_same_hash_same_content : forall isPrint s s', WSchema isPrint s -> WSchema isPrint s' ->
  schemaHash isPrint s = schemaHash isPrint s' ->
  SameContent SameExpr s s' \/
  exists t t', toJSON isPrint s = Some t /\ toJSON isPrint s' = Some t' /\ t <> t' /\ sha1Hex t = sha1Hex t'.
Proof.
  intros isPrint s s'. apply (hash_separates sha1Hex).
Qed.
Print Assumptions C44_same_hash_same_content.

(** A hash is 40 lower-case hexadecimal digits. *)
Theorem C44_hash_is_40_hex_digits : forall isPrint s h, schemaHash isPrint s = Some h ->
  String.length h = 40%nat /\ Forall (fun c => In c (list_ascii_of_string "0123456789abcdef")) (list_ascii_of_string h).
Proof.
  intros isPrint s h H. unfold schemaHash in H. destruct (toJSON isPrint s) as [t|]; [|discriminate H].
  apply (hash_of_some sha1Hex) in H. subst h. apply sha1Hex_shape.
Qed.
Print Assumptions C44_hash_is_40_hex_digits.

(** the hypotheses are met by the repository's own example, and its hash is the one in the committed file *)
Example C44_example : exists s h, parseSchemaFile repo goUriOk "/repo" "_examples/golang-basics/example.ridl" = Ok s /\
  WSchema goIsPrint s /\ schemaHash goIsPrint s = Some h.
Proof.
  destruct example_meets as (s & P & W & _). exists s.
  destruct (C44_same_content_same_hash goIsPrint s s W) as [_ N].
  { apply (SameContent_trans s (rawSchema s) s); [|apply SameContent_sym]; apply rawSchema_content. }
  destruct (schemaHash goIsPrint s) as [h|]; [|contradiction]. exists h. auto.
Qed.

(** "The hash changes only if the API changes" is false: a comment changes it. *)
Theorem C44_comments_change_the_hash_refuted : exists fs fs' s s',
  parseSchemaFile fs goUriOk "/" "/a.ridl" = Ok s /\ parseSchemaFile fs' goUriOk "/" "/a.ridl" = Ok s' /\
  map t_name (sc_types s) = map t_name (sc_types s') /\ map t_fields (sc_types s) = map t_fields (sc_types s') /\
  map t_comments (sc_types s) <> map t_comments (sc_types s') /\
  schemaHash goIsPrint s <> schemaHash goIsPrint s'.
Proof.
  exists plainDisk, commentDisk. do 2 eexists. split; [vm_compute; reflexivity|]. split; [vm_compute; reflexivity|].
  split; [reflexivity|]. split; [reflexivity|]. split; [discriminate|]. vm_compute. discriminate.
Qed.
Print Assumptions C44_comments_change_the_hash_refuted.
