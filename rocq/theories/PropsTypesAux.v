(** Lemmas in the form stated in Props_Types.v *)
From Verif Require Import Base BaseProofs Schema TypeSpec TypeProofs Gen GenProofs.

Lemma print_then_parse ts t :
  NamesOk ts -> TypeOk ts t ->
  exists v, parseVarTypeExpr ts (show t) = Ok v /\ tree v = Some t /\
            vt_expr v = show t /\ buildExpr v = show t.
Proof.
  intros Hn H. destruct (TypeOk_Parsed ts t Hn H) as (v & Hp & Ht). exists v.
  split; [now apply parse_iff|]. split; [assumption|]. split.
  - exact (Parsed_expr _ _ _ Hp).
  - exact (Parsed_build _ _ _ _ Hp Ht).
Qed.

Lemma parse_then_print ts e v t :
  parseVarTypeExpr ts e = Ok v -> tree v = Some t ->
  show t = e /\ buildExpr v = e /\ vt_expr v = e.
Proof.
  intros Hp Ht. apply parse_iff in Hp. split; [eapply Parsed_show; eassumption|].
  split; [eapply Parsed_build; eassumption|eapply Parsed_expr; eassumption].
Qed.

Lemma show_injective ts t t' :
  NamesOk ts -> TypeOk ts t -> TypeOk ts t' -> show t = show t' -> t = t'.
Proof.
  intros Hn H H' E. destruct (TypeOk_Parsed ts t Hn H) as (v & Hp & Ht).
  destruct (TypeOk_Parsed ts t' Hn H') as (v' & Hp' & Ht'). rewrite E in Hp.
  rewrite (Parsed_fun _ _ _ _ Hp Hp') in Ht. congruence.
Qed.

Lemma missing_component_refuted : exists ts e v,
  NamesOk ts /\ parseVarTypeExpr ts e = Ok v /\ buildExpr v <> e /\
  forall v', parseVarTypeExpr ts (buildExpr v) <> Ok v'.
Proof.
  exists [], "map<string,>". eexists. split; [split; constructor|].
  split; [vm_compute; reflexivity|]. split; [vm_compute; discriminate|].
  intros v'. vm_compute. discriminate.
Qed.

Lemma accepted_types_are_legal ts e v :
  parseVarTypeExpr ts e = Ok v -> (exists t, tree v = Some t /\ TypeOk ts t) \/ Hole e.
Proof.
  intro Hp. apply parse_iff in Hp. destruct (tree v) as [t|] eqn:Ht.
  - left. exists t. split; [reflexivity|]. eapply Parsed_TypeOk; eassumption.
  - right. eapply Parsed_hole; eassumption.
Qed.

Lemma accepted_iff_legal ts t :
  NamesOk ts ->
  (TypeOk ts t <-> exists v, parseVarTypeExpr ts (show t) = Ok v /\ tree v = Some t).
Proof.
  intro Hn. split.
  - intro H. destruct (print_then_parse ts t Hn H) as (v & Hv & Ht & _). eauto.
  - intros (v & Hv & Ht). apply parse_iff in Hv. eapply Parsed_TypeOk; eassumption.
Qed.

Definition exTypes : list type :=
  [Type_ ("f", 0) "struct" "User" None
     [Field "id" (Some (VT "uint64" (ShCore CUint64))) false "" [] []] [] [];
   Type_ ("f", 1) "enum" "Kind" (Some (VT "uint32" (ShCore CUint32)))
     [Field "A" None false "0" [] []] [] [];
   Type_ ("f", 2) "alias" "UserID" (Some (VT "string" (ShCore CString))) [] [] []].

Lemma exTypes_names : NamesOk exTypes.
Proof.
  split.
  - cbn. repeat constructor; cbn; intuition discriminate.
  - repeat constructor.
Qed.

Lemma map_key_case_refuted : exists ts n v,
  NamesOk ts /\ parseVarTypeExpr ts ("map<" ++ n ++ ",string>") = Ok v /\
  core_from_string n = None /\ ~ In n (map t_name ts).
Proof.
  exists exTypes, "kIND". eexists. split; [exact exTypes_names|].
  split; [vm_compute; reflexivity|]. split; [reflexivity|].
  cbn. intuition discriminate.
Qed.

Lemma struct_key_panics : exists ts n,
  NamesOk ts /\ Declared ts n "struct" /\ parseVarTypeExpr ts ("map<" ++ n ++ ",string>") = Panic.
Proof.
  exists exTypes, "User". split; [exact exTypes_names|]. split.
  - eexists. split; [left; reflexivity|]. split; reflexivity.
  - vm_compute. reflexivity.
Qed.

Lemma predicates_are_exact ts t : NamesOk ts -> TypeOk ts t ->
  (isMapType (show t) = true <-> exists k v, t = YMap k v) /\
  (isListType (show t) = true <-> exists e, t = YList e) /\
  (isCoreType (show t) = true <-> exists c, t = YCore c).
Proof.
  intros Hn H. split; [now apply (isMapType_iff ts)|]. split; [now apply (isListType_iff ts)|].
  now apply (isCoreType_iff ts).
Qed.

Lemma selectors_return_components ts : NamesOk ts ->
  (forall k v, TypeOk ts (YMap k v) ->
     mapKeyType (show (YMap k v)) = Ok (show_key k) /\
     mapValueType (show (YMap k v)) = Ok (show v)) /\
  (forall e, listElemType (show (YList e)) = Ok (show e)).
Proof.
  intros Hn. split; [|exact listElemType_spec]. intros k v H.
  destruct (show_map_type ts k v H) as (_ & E). exact E.
Qed.

Lemma template_sees_tree ts t : NamesOk ts -> TypeOk ts t ->
  templateWalk (S (String.length (show t))) (show t) = viewOf t.
Proof. intros Hn H. apply (templateWalk_show ts); auto. Qed.

Lemma types_example_lemma :
  NamesOk exTypes /\
  TypeOk exTypes (YMap (KNamed "Kind") (YList (YMap (KCore CUint32) (YStruct "User")))) /\
  show (YMap (KNamed "Kind") (YList (YMap (KCore CUint32) (YStruct "User")))) =
    "map<Kind,[]map<uint32,User>>".
Proof.
  split; [exact exTypes_names|]. split; [|reflexivity].
  apply OkMapNamed; [|reflexivity|reflexivity|].
  - eexists. split; [right; left; reflexivity|]. split; [reflexivity|]. now left.
  - constructor. constructor; [exact I|]. constructor.
    eexists. split; [left; reflexivity|]. split; reflexivity.
Qed.
