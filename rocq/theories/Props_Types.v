(** C06-C08: type expressions. Theorems only.
    Specification: TypeSpec.v ([show], [tree], [TypeOk], [NamesOk]). *)
From Verif Require Import Base BaseProofs Schema TypeSpec TypeProofs Gen GenProofs PropsTypesAux.

(** C06. Printing any legal type and parsing the expression yields that type back,
    and the canonical expression the parser rebuilds is the printed one. *)
Theorem C06_print_then_parse : forall ts t,
  NamesOk ts -> TypeOk ts t ->
  exists v, parseVarTypeExpr ts (show t) = Ok v /\ tree v = Some t /\
            vt_expr v = show t /\ buildExpr v = show t.
Proof. exact print_then_parse. Qed.
Print Assumptions C06_print_then_parse.

(** Parsing any accepted expression (without missing components) and re-printing it is the identity. *)
Theorem C06_parse_then_print : forall ts e v t,
  parseVarTypeExpr ts e = Ok v -> tree v = Some t ->
  show t = e /\ buildExpr v = e /\ vt_expr v = e.
Proof. exact parse_then_print. Qed.
Print Assumptions C06_parse_then_print.

(** The core types are the documented ones, each with its one name. *)
Theorem C06_core_types : forall ts e c,
  (exists v, parseVarTypeExpr ts e = Ok v /\ tree v = Some (YCore c)) <->
  In (e, c) [("null", CNull); ("any", CAny); ("byte", CByte); ("bool", CBool);
             ("uint", CUint); ("uint8", CUint8); ("uint16", CUint16); ("uint32", CUint32); ("uint64", CUint64);
             ("int", CInt); ("int8", CInt8); ("int16", CInt16); ("int32", CInt32); ("int64", CInt64);
             ("bigint", CBigInt); ("float32", CFloat32); ("float64", CFloat64);
             ("string", CString); ("timestamp", CTimestamp)]%string.
Proof.
  intros ts e c. split.
  - intros (v & H1 & H2). destruct (parse_then_print _ _ _ _ H1 H2) as (<- & _). destruct c; cbn; tauto.
  - cbn [In]. intros H. repeat (destruct H as [[= <- <-]|H]; [eexists; split; reflexivity|]). destruct H.
Qed.
Print Assumptions C06_core_types.

(** Two different legal types are never printed alike. *)
Theorem C06_printing_is_injective : forall ts t t',
  NamesOk ts -> TypeOk ts t -> TypeOk ts t' -> show t = show t' -> t = t'.
Proof. exact show_injective. Qed.
Print Assumptions C06_printing_is_injective.

(** The recursion bound of the model is never hit: parsing a type expression terminates. *)
Theorem C06_parsing_terminates : forall ts e, parseVarTypeExpr ts e <> OutOfFuel.
Proof. exact parse_never_out_of_fuel. Qed.
Print Assumptions C06_parsing_terminates.

(** Without the restriction the law is false: an accepted expression whose canonical form differs
    from it and is not accepted any more. *)
Theorem C06_missing_component_refuted : exists ts e v,
  NamesOk ts /\ parseVarTypeExpr ts e = Ok v /\ buildExpr v <> e /\
  forall v', parseVarTypeExpr ts (buildExpr v) <> Ok v'.
Proof. exact missing_component_refuted. Qed.
Print Assumptions C06_missing_component_refuted.

(** C07. An accepted expression denotes a legal type, or has an empty component. *)
Theorem C07_accepted_types_are_legal : forall ts e v,
  parseVarTypeExpr ts e = Ok v -> (exists t, tree v = Some t /\ TypeOk ts t) \/ Hole e.
Proof. exact accepted_types_are_legal. Qed.
Print Assumptions C07_accepted_types_are_legal.

(** Legality characterises acceptance: the expression of a type is accepted with that meaning iff the
    type is legal. *)
Theorem C07_accepted_iff_legal : forall ts t,
  NamesOk ts ->
  (TypeOk ts t <-> exists v, parseVarTypeExpr ts (show t) = Ok v /\ tree v = Some t).
Proof. exact accepted_iff_legal. Qed.
Print Assumptions C07_accepted_iff_legal.

(** "every leaf is the exact name of a declared type" is false for map keys (case is ignored), ... *)
Theorem C07_map_key_case_refuted : exists ts n v,
  NamesOk ts /\ parseVarTypeExpr ts ("map<" ++ n ++ ",string>") = Ok v /\
  core_from_string n = None /\ ~ In n (map t_name ts).
Proof. exact map_key_case_refuted. Qed.
Print Assumptions C07_map_key_case_refuted.

(** ... and a struct as map key is not rejected: it crashes. *)
Theorem C07_struct_key_panics_refuted : exists ts n,
  NamesOk ts /\ Declared ts n "struct" /\ parseVarTypeExpr ts ("map<" ++ n ++ ",string>") = Panic.
Proof. exact struct_key_panics. Qed.
Print Assumptions C07_struct_key_panics_refuted.

(** C08. On the printed form of every legal type the helpers answer by its outer constructor, ... *)
Theorem C08_predicates_are_exact : forall ts t, NamesOk ts -> TypeOk ts t ->
  (isMapType (show t) = true <-> exists k v, t = YMap k v) /\
  (isListType (show t) = true <-> exists e, t = YList e) /\
  (isCoreType (show t) = true <-> exists c, t = YCore c).
Proof. exact predicates_are_exact. Qed.
Print Assumptions C08_predicates_are_exact.

(** ... the selectors return the printed components, ... *)
Theorem C08_selectors_return_components : forall ts, NamesOk ts ->
  (forall k v, TypeOk ts (YMap k v) ->
     mapKeyType (show (YMap k v)) = Ok (show_key k) /\
     mapValueType (show (YMap k v)) = Ok (show v)) /\
  (forall e, listElemType (show (YList e)) = Ok (show e)).
Proof. exact selectors_return_components. Qed.
Print Assumptions C08_selectors_return_components.

(** ... so a template that takes a type string apart sees the type tree; ... *)
Theorem C08_template_sees_the_type_tree : forall ts t, NamesOk ts -> TypeOk ts t ->
  templateWalk (S (String.length (show t))) (show t) = viewOf t.
Proof. exact template_sees_tree. Qed.
Print Assumptions C08_template_sees_the_type_tree.

(** On any text: a map type is one of the form map<K,V>, K without a comma; the selectors return K and V, and what
    follows [] of a list, and panic on every other text. *)
Theorem C08_helpers_on_any_text : forall s,
  (isMapType s = true <-> exists k v, s = ("map<" ++ k ++ "," ++ v ++ ">")%string /\ contains_byte "," k = false) /\
  (forall k v, s = ("map<" ++ k ++ "," ++ v ++ ">")%string -> contains_byte "," k = false -> mapKeyType s = Ok k /\ mapValueType s = Ok v) /\
  (isMapType s = false -> mapKeyType s = Panic /\ mapValueType s = Panic) /\
  (isListType s = true <-> exists e, s = ("[]" ++ e)%string) /\
  (forall e, s = ("[]" ++ e)%string -> listElemType s = Ok e) /\ (isListType s = false -> listElemType s = Panic).
Proof.
  assert (CI : forall s a b, cut "," s = Some (a, b) -> s = (a ++ String "," b)%string /\ contains_byte "," a = false).
  { intros s a b E. unfold cut in E. destruct (index_byte "," s) as [p|] eqn:I; [|discriminate]. injection E as <- <-.
    revert p I. induction s as [|c s IH]; [discriminate|]. intros p. cbn [index_byte]. destruct (Ascii.eqb_spec c ","%char) as [->|N].
    - intros [= <-]. split; [destruct s; reflexivity|reflexivity].
    - destruct (index_byte "," s) as [q|]; [|discriminate]. intros [= <-]. destruct (IH q eq_refl) as [E H]. cbn [take]. split.
      + cbn [append]. f_equal. exact E.
      + unfold contains_byte in *. cbn [sexists]. apply Ascii.eqb_neq in N. rewrite N. exact H. }
  assert (F : forall k v, contains_byte "," k = false -> cut "," ("map<" ++ k ++ "," ++ v ++ ">") = Some (("map<" ++ k)%string, (v ++ ">")%string)).
  { intros k v H. change ("map<" ++ k ++ "," ++ v ++ ">")%string with (("map<" ++ k) ++ String "," (v ++ ">"))%string. apply cut_app. exact H. }
  intros s. split; [|split; [|split; [|split; [|split]]]].
  - unfold isMapType. split.
    + destruct (cut "," s) as [[a b]|] eqn:E; [|discriminate]. intros H. apply andb_true_iff in H. destruct H as [H1 H2]. destruct (CI _ _ _ E) as [-> N].
      apply has_prefix_iff in H1. destruct H1 as (k & ->). apply has_suffix_iff in H2. destruct H2 as (v & ->). exists k, v. split; [reflexivity|exact N].
    + intros (k & v & -> & N). rewrite F by exact N. rewrite (proj2 (has_prefix_iff "map<" _)) by eauto. apply has_suffix_app.
  - intros k v -> N. unfold mapKeyType, mapValueType. rewrite F by exact N. rewrite (proj2 (has_prefix_iff "map<" _)) by eauto. rewrite has_suffix_app. cbn [andb].
    split; [reflexivity|]. now rewrite trim_suffix_app.
  - unfold isMapType, mapKeyType, mapValueType. destruct (cut "," s) as [[a b]|]; [|auto]. intros ->. auto.
  - unfold isListType. rewrite has_prefix_iff. reflexivity.
  - intros e ->. reflexivity.
  - unfold isListType, listElemType. intros ->. reflexivity.
Qed.
Print Assumptions C08_helpers_on_any_text.

(** ... and applied to a parsed VarType instead of a string they agree. *)
Theorem C08_vartype_helpers_agree : forall ts e v t,
  NamesOk ts -> parseVarTypeExpr ts e = Ok v -> tree v = Some t ->
  vt_expr v = show t /\
  (isStructType v = true <-> exists n, t = YStruct n) /\
  (isEnumType ts v = true <-> exists n, t = YEnum n) /\
  (isAliasType v = true <-> exists n, t = YAlias n) /\
  (forall k w, t = YMap k w -> mapKeyTypeVT v = Ok (show_key k)) /\
  (forall el, t = YList el ->
     exists ev, listElemTypeVT v = Ok ev /\ vt_expr ev = show el /\ tree ev = Some el).
Proof. exact parsed_helpers. Qed.
Print Assumptions C08_vartype_helpers_agree.

(** Non-vacuity: a schema with a struct, an enum and an alias, and a nested type over it *)
Example types_example :
  NamesOk exTypes /\
  TypeOk exTypes (YMap (KNamed "Kind") (YList (YMap (KCore CUint32) (YStruct "User")))) /\
  show (YMap (KNamed "Kind") (YList (YMap (KCore CUint32) (YStruct "User")))) =
    "map<Kind,[]map<uint32,User>>".
Proof. exact types_example_lemma. Qed.
