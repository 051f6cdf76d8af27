(** The content of a schema and its JSON document: equal documents have equal content and conversely,
    and reading the document back validates. *)
From Coq Require Import Permutation.
From Verif Require Import Base BaseProofs Utf8 Utf8Proofs Json JsonProofs GoVal GoValProofs Schema TypeSpec TypeProofs
  Uri ValidateSpec ValidateProofs ValidateComplete ValidateIdem PropsValidateAux
  SchemaJson RawJsonProofs JsonSchemaSpec SchemaJsonProofs.

(** ** sorting *)
Lemma ascii_compare_N a b : Ascii.compare a b = N.compare (N_of_ascii a) (N_of_ascii b).
Proof. reflexivity. Qed.

Lemma leb_cons a s b t : String.leb (String a s) (String b t) =
  match N.compare (N_of_ascii a) (N_of_ascii b) with Lt => true | Gt => false | Eq => String.leb s t end.
Proof. unfold String.leb. cbn [String.compare]. rewrite ascii_compare_N. now destruct (N.compare _ _). Qed.

Lemma leb_trans a : forall b c, String.leb a b = true -> String.leb b c = true -> String.leb a c = true.
Proof.
  induction a as [|x a IH]; intros [|y b] [|z c]; try reflexivity; try discriminate. rewrite !leb_cons.
  destruct (N.compare_spec (N_of_ascii x) (N_of_ascii y)), (N.compare_spec (N_of_ascii y) (N_of_ascii z)),
    (N.compare_spec (N_of_ascii x) (N_of_ascii z)); try discriminate; try lia; eauto.
Qed.

Lemma leb_false a b : String.leb a b = false -> String.leb b a = true.
Proof. intros H. destruct (String.leb_total a b) as [E|E]; [congruence|assumption]. Qed.

Lemma insertA_comm {A} (a b : string * A) l : fst a <> fst b -> insertA a (insertA b l) = insertA b (insertA a l).
Proof.
  intros N. induction l as [|x l IH].
  - cbn [insertA]. destruct (String.leb (fst a) (fst b)) eqn:E1, (String.leb (fst b) (fst a)) eqn:E2; try reflexivity.
    + exfalso. apply N, String.leb_antisym; assumption.
    + apply leb_false in E1. congruence.
  - cbn [insertA]. destruct (String.leb (fst b) (fst x)) eqn:Ebx, (String.leb (fst a) (fst x)) eqn:Eax; cbn [insertA];
      rewrite ?Ebx, ?Eax.
    + destruct (String.leb (fst a) (fst b)) eqn:E1, (String.leb (fst b) (fst a)) eqn:E2; try reflexivity.
      * exfalso. apply N, String.leb_antisym; assumption.
      * apply leb_false in E1. congruence.
    + destruct (String.leb (fst a) (fst b)) eqn:E1; [|reflexivity].
      rewrite (leb_trans _ _ _ E1 Ebx) in Eax. discriminate.
    + destruct (String.leb (fst b) (fst a)) eqn:E2; [|reflexivity].
      rewrite (leb_trans _ _ _ E2 Eax) in Ebx. discriminate.
    + now rewrite IH.
Qed.

Lemma sortA_of_perm {A} (l l' : list (string * A)) : Permutation l l' -> NoDup (map fst l) -> sortA l = sortA l'.
Proof.
  induction 1 as [|x l l' _ IH|x y l|l l' l'' P1 IH1 P2 IH2]; intros D; try reflexivity.
  - cbn [map] in D. inversion_clear D. cbn [sortA]. now rewrite IH.
  - cbn [map] in D. inversion_clear D as [|? ? D1 D2]. cbn [sortA]. apply insertA_comm. intros E. apply D1. left. congruence.
  - rewrite IH1 by assumption. apply IH2. eapply Permutation_NoDup; [|exact D]. now apply Permutation_map.
Qed.

(** ** the content is an equivalence *)
Lemma Forall2_sym' {A B} (R : A -> B -> Prop) (Q : B -> A -> Prop) l l' :
  (forall a b, R a b -> Q b a) -> Forall2 R l l' -> Forall2 Q l' l.
Proof. intros H. induction 1; constructor; auto. Qed.
Lemma Forall2_trans' {A B C} (R : A -> B -> Prop) (Q : B -> C -> Prop) (S : A -> C -> Prop) :
  (forall a b c, R a b -> Q b c -> S a c) -> forall l1 l2 l3, Forall2 R l1 l2 -> Forall2 Q l2 l3 -> Forall2 S l1 l3.
Proof.
  intros H l1 l2 l3 H1. revert l3. induction H1; intros l3 H2; inversion_clear H2; constructor; eauto.
Qed.

Lemma OptRel_sym {A} (R : A -> A -> Prop) o o' : (forall a b, R a b -> R b a) -> OptRel R o o' -> OptRel R o' o.
Proof. intros H. destruct o, o'; cbn; auto. Qed.
Lemma OptRel_trans {A} (R : A -> A -> Prop) o1 o2 o3 : (forall a b c, R a b -> R b c -> R a c) ->
  OptRel R o1 o2 -> OptRel R o2 o3 -> OptRel R o1 o3.
Proof. intros H. destruct o1, o2, o3; cbn; eauto; contradiction. Qed.

Lemma SameExpr_sym v v' : SameExpr v v' -> SameExpr v' v.
Proof. unfold SameExpr. congruence. Qed.
Lemma SameExpr_trans a b c : SameExpr a b -> SameExpr b c -> SameExpr a c.
Proof. unfold SameExpr. congruence. Qed.

Lemma metas_sym (l l' : list metaMap) : Forall2 (@Permutation _) l l' -> Forall2 (@Permutation _) l' l.
Proof. apply Forall2_sym'. intros. now symmetry. Qed.
Lemma metas_trans (l1 l2 l3 : list metaMap) : Forall2 (@Permutation _) l1 l2 -> Forall2 (@Permutation _) l2 l3 -> Forall2 (@Permutation _) l1 l3.
Proof. apply Forall2_trans'. intros. etransitivity; eassumption. Qed.

Lemma SameFieldC_sym f f' : SameFieldC SameExpr f f' -> SameFieldC SameExpr f' f.
Proof.
  intros (E1 & E2 & E3 & E4 & E5 & E6). repeat split; try congruence.
  - apply OptRel_sym; [exact SameExpr_sym|assumption].
  - now apply metas_sym.
Qed.
Lemma SameFieldC_trans f1 f2 f3 : SameFieldC SameExpr f1 f2 -> SameFieldC SameExpr f2 f3 -> SameFieldC SameExpr f1 f3.
Proof.
  intros (E1 & E2 & E3 & E4 & E5 & E6) (F1 & F2 & F3 & F4 & F5 & F6). repeat split; try congruence.
  - eapply OptRel_trans; [exact SameExpr_trans| |]; eassumption.
  - eapply metas_trans; eassumption.
Qed.
Lemma SameDeclC_sym t t' : SameDeclC SameExpr t t' -> SameDeclC SameExpr t' t.
Proof.
  intros (E1 & E2 & E3 & E4 & E5 & E6 & E7). repeat split; try congruence.
  - apply OptRel_sym; [exact SameExpr_sym|assumption].
  - eapply Forall2_sym'; [exact SameFieldC_sym|exact E4].
  - intros _. eapply Forall2_sym'; [exact SameFieldC_sym|exact E4].
  - now apply metas_sym.
Qed.
Lemma SameDeclC_trans t1 t2 t3 : SameDeclC SameExpr t1 t2 -> SameDeclC SameExpr t2 t3 -> SameDeclC SameExpr t1 t3.
Proof.
  intros (E1 & E2 & E3 & E4 & E5 & E6 & E7) (F1 & F2 & F3 & F4 & F5 & F6 & F7).
  assert (Forall2 (SameFieldC SameExpr) (t_fields t1) (t_fields t3))
    by (eapply Forall2_trans'; [exact SameFieldC_trans| |]; eassumption).
  repeat split; try congruence; auto.
  - eapply OptRel_trans; [exact SameExpr_trans| |]; eassumption.
  - eapply metas_trans; eassumption.
Qed.
Lemma SameErrorC_sym e e' : SameErrorC e e' -> SameErrorC e' e.
Proof. unfold SameErrorC. intuition congruence. Qed.
Lemma SameErrorC_trans a b c : SameErrorC a b -> SameErrorC b c -> SameErrorC a c.
Proof. unfold SameErrorC. intuition congruence. Qed.
Lemma SameArgC_sym a b : SameArgC SameExpr a b -> SameArgC SameExpr b a.
Proof. intros (E1 & E2 & E3). repeat split; try congruence. apply OptRel_sym; [exact SameExpr_sym|assumption]. Qed.
Lemma SameArgC_trans a b c : SameArgC SameExpr a b -> SameArgC SameExpr b c -> SameArgC SameExpr a c.
Proof.
  intros (E1 & E2 & E3) (F1 & F2 & F3). repeat split; try congruence.
  eapply OptRel_trans; [exact SameExpr_trans| |]; eassumption.
Qed.
Lemma SameMethodC_sym a b : SameMethodC SameExpr a b -> SameMethodC SameExpr b a.
Proof.
  intros (E1 & E2 & E3 & E4 & E5 & E6 & E7 & E8 & E9). repeat split; try congruence; try now symmetry.
  - eapply Forall2_sym'; [exact SameArgC_sym|assumption].
  - eapply Forall2_sym'; [exact SameArgC_sym|assumption].
Qed.
Lemma SameMethodC_trans a b c : SameMethodC SameExpr a b -> SameMethodC SameExpr b c -> SameMethodC SameExpr a c.
Proof.
  intros (E1 & E2 & E3 & E4 & E5 & E6 & E7 & E8 & E9) (F1 & F2 & F3 & F4 & F5 & F6 & F7 & F8 & F9).
  repeat split; try congruence.
  - etransitivity; eassumption.
  - eapply Forall2_trans'; [exact SameArgC_trans| |]; eassumption.
  - eapply Forall2_trans'; [exact SameArgC_trans| |]; eassumption.
Qed.
Lemma SameServiceC_sym a b : SameServiceC SameExpr a b -> SameServiceC SameExpr b a.
Proof. intros (E1 & E2 & E3). repeat split; try congruence. eapply Forall2_sym'; [exact SameMethodC_sym|assumption]. Qed.
Lemma SameServiceC_trans a b c : SameServiceC SameExpr a b -> SameServiceC SameExpr b c -> SameServiceC SameExpr a c.
Proof.
  intros (E1 & E2 & E3) (F1 & F2 & F3). repeat split; try congruence.
  eapply Forall2_trans'; [exact SameMethodC_trans| |]; eassumption.
Qed.
Lemma SameContent_sym a b : SameContent SameExpr a b -> SameContent SameExpr b a.
Proof.
  intros (E1 & E2 & E3 & E4 & E5 & E6 & E7). repeat split; try congruence.
  - eapply Forall2_sym'; [exact SameDeclC_sym|assumption].
  - eapply Forall2_sym'; [exact SameErrorC_sym|assumption].
  - eapply Forall2_sym'; [exact SameServiceC_sym|assumption].
Qed.
Lemma SameContent_trans a b c : SameContent SameExpr a b -> SameContent SameExpr b c -> SameContent SameExpr a c.
Proof.
  intros (E1 & E2 & E3 & E4 & E5 & E6 & E7) (F1 & F2 & F3 & F4 & F5 & F6 & F7). repeat split; try congruence.
  - eapply Forall2_trans'; [exact SameDeclC_trans| |]; eassumption.
  - eapply Forall2_trans'; [exact SameErrorC_trans| |]; eassumption.
  - eapply Forall2_trans'; [exact SameServiceC_trans| |]; eassumption.
Qed.

(** ** what is read has the content of what was written *)
Lemma Forall2_map_r {A B} (R : A -> B -> Prop) (f : A -> B) l : (forall a, R a (f a)) -> Forall2 R l (map f l).
Proof. intros H. induction l; constructor; auto. Qed.
Lemma numberJ_map {A B} (R : A -> B -> Prop) (f : A -> ident -> B) l : (forall a i, R a (f a i)) ->
  forall n, Forall2 R l (numberJ n (map f l)).
Proof. intros H. induction l; intros n; constructor; auto. Qed.

Lemma raw_expr o : OptRel SameExpr o (option_map rawVT o).
Proof. destruct o; reflexivity. Qed.
Lemma raw_metas (l : list metaMap) : Forall2 (@Permutation _) l (map sortA l).
Proof. apply Forall2_map_r. intros. apply sortA_perm. Qed.
Lemma rawField_content f : SameFieldC SameExpr f (rawField f).
Proof. repeat split; [apply raw_expr|apply raw_metas]. Qed.
Lemma rawType_content t i : SameDeclC SameExpr t (rawType t i).
Proof.
  assert (Forall2 (SameFieldC SameExpr) (t_fields t) (map rawField (t_fields t)))
    by (apply Forall2_map_r; apply rawField_content).
  repeat split; auto; [apply raw_expr|apply raw_metas].
Qed.
Lemma rawArg_content a : SameArgC SameExpr a (rawArg a).
Proof. repeat split. apply raw_expr. Qed.
Lemma rawMethod_content m : SameMethodC SameExpr m (rawMethod m).
Proof. repeat split; [apply sortA_perm| |]; apply Forall2_map_r; apply rawArg_content. Qed.
Lemma rawSchema_content s : SameContent SameExpr s (rawSchema s).
Proof.
  repeat split; apply numberJ_map.
  - apply rawType_content.
  - intros e i. repeat split.
  - intros v i. repeat split. apply Forall2_map_r, rawMethod_content.
Qed.

(** ** same document <-> same content *)
Lemma optMap_same {A} (f : A -> option json) (R : A -> A -> Prop) (P : A -> Prop) l l' :
  (forall a b, P a -> R a b -> f a = f b) -> Forall P l -> Forall2 R l l' -> optMap f l = optMap f l'.
Proof.
  intros H HP H2. revert HP. induction H2; intros HP; [reflexivity|]. inversion_clear HP.
  cbn [optMap]. rewrite (H x y) by assumption. now rewrite IHForall2.
Qed.

Lemma metaJ_same m m' : WMeta m -> Permutation m m' -> metaJ m = metaJ m'.
Proof. intros [D _] P. unfold metaJ. rewrite !metaMembers. now rewrite (sortA_of_perm m m' P D). Qed.
Lemma metasJ_same (l l' : list metaMap) : Forall WMeta l -> Forall2 (@Permutation _) l l' -> map metaJ l = map metaJ l' /\ isNil l = isNil l'.
Proof.
  intros W H. revert W. induction H; intros W; [auto|]. inversion_clear W. cbn [map].
  rewrite (metaJ_same x y), (proj1 (IHForall2 H2)) by assumption. auto.
Qed.
Lemma typeJ_same isPrint v v' : SameExpr v v' -> typeJ isPrint v = typeJ isPrint v'.
Proof. unfold SameExpr, typeJ. now intros ->. Qed.

Lemma fieldJ_same isPrint f f' : WField isPrint f -> SameFieldC SameExpr f f' -> fieldJ isPrint f = fieldJ isPrint f'.
Proof.
  intros (_ & _ & _ & Wm & _) (E1 & E2 & E3 & E4 & E5 & E6). unfold fieldJ.
  destruct (metasJ_same _ _ Wm E5) as [M1 M2]. rewrite <- E1, <- E3, <- E4, <- E6, <- M1, <- M2.
  destruct (f_type f), (f_type f'); cbn [OptRel] in E2; try contradiction; [|reflexivity].
  now rewrite (typeJ_same isPrint _ _ E2).
Qed.
Lemma declJ_same isPrint t t' : WDecl isPrint t -> SameDeclC SameExpr t t' -> declJ isPrint t = declJ isPrint t'.
Proof.
  intros (_ & _ & _ & Wf & Wm & _) (E1 & E2 & E3 & E4 & _ & E6 & E7). unfold declJ.
  destruct (metasJ_same _ _ Wm E6) as [M1 M2]. rewrite <- E1, <- E2, <- E7, <- M1, <- M2.
  rewrite (optMap_same (fieldJ isPrint) _ _ _ _ (fieldJ_same isPrint) Wf E4).
  destruct (t_type t), (t_type t'); cbn [OptRel] in E3; try contradiction; [|reflexivity].
  now rewrite (typeJ_same isPrint _ _ E3).
Qed.
Lemma argJ_same isPrint a a' : True -> SameArgC SameExpr a a' -> argJ isPrint a = argJ isPrint a'.
Proof.
  intros _ (E1 & E2 & E3). unfold argJ. rewrite <- E1, <- E3.
  destruct (g_type a), (g_type a'); cbn [OptRel] in E2; try contradiction; [|reflexivity].
  now rewrite (typeJ_same isPrint _ _ E2).
Qed.
Lemma Forall_True {A} (l : list A) : Forall (fun _ => True) l.
Proof. induction l; auto. Qed.
Lemma annotationsJ_same m m' : NoDup (map fst m) -> Permutation m m' -> annotationsJ m = annotationsJ m'.
Proof.
  intros D P. unfold annotationsJ.
  pose (g := fun a : string * string => JObj [("annotationType", jstr (fst a)); ("value", jstr (snd a))]).
  change (map annotationJ m) with (map (onSnd g) m). change (map annotationJ m') with (map (onSnd g) m').
  rewrite !sortKeys_map. now rewrite (sortA_of_perm m m' P D).
Qed.
Lemma methodJ_same isPrint m m' : WMethod isPrint m -> SameMethodC SameExpr m m' -> methodJ isPrint m = methodJ isPrint m'.
Proof.
  intros (_ & D & _) (E1 & E2 & E3 & E4 & E5 & E6 & E7 & E8 & E9). unfold methodJ.
  rewrite <- E1, <- E3, <- E4, <- E5, <- E6, <- E9, (annotationsJ_same _ _ D E2).
  rewrite (optMap_same (argJ isPrint) _ _ _ _ (argJ_same isPrint) (Forall_True _) E7).
  now rewrite (optMap_same (argJ isPrint) _ _ _ _ (argJ_same isPrint) (Forall_True _) E8).
Qed.
Lemma serviceJ_same isPrint s s' : WService isPrint s -> SameServiceC SameExpr s s' -> serviceJ isPrint s = serviceJ isPrint s'.
Proof.
  intros (_ & W & _) (E1 & E2 & E3). unfold serviceJ. rewrite <- E1, <- E3.
  now rewrite (optMap_same (methodJ isPrint) _ _ _ _ (methodJ_same isPrint) W E2).
Qed.
Lemma toJSON_same isPrint s s' : WSchema isPrint s -> SameContent SameExpr s s' -> toJSON isPrint s = toJSON isPrint s'.
Proof.
  intros (_ & _ & _ & _ & Wt & _ & Ws) (E1 & E2 & E3 & E4 & E5 & E6 & E7). unfold toJSON, schemaJ.
  rewrite <- E1, <- E2, <- E3, <- E4.
  rewrite (optMap_same (declJ isPrint) _ _ _ _ (declJ_same isPrint) Wt E5).
  rewrite (optMap_same (serviceJ isPrint) _ _ _ _ (serviceJ_same isPrint) Ws E7).
  replace (map errorJ (sc_errors s')) with (map errorJ (sc_errors s)); [reflexivity|].
  clear -E6. induction E6 as [|e e' l l' (A & B & C & D) _ IH]; [reflexivity|]. cbn [map]. rewrite IH. f_equal.
  unfold errorJ. now rewrite A, B, C, D.
Qed.

Theorem toJSON_injective isPrint s s' : WSchema isPrint s -> WSchema isPrint s' ->
  toJSON isPrint s = toJSON isPrint s' -> SameContent SameExpr s s'.
Proof.
  intros W W' E. destruct (toJSON_back _ _ W) as (t & j & T & P & A). destruct (toJSON_back _ _ W') as (t' & j' & T' & P' & A').
  rewrite E, T' in T. injection T as ->. rewrite P in P'. injection P' as ->. rewrite A in A'. injection A' as R.
  apply (SameContent_trans s (rawSchema s) s'); [apply rawSchema_content|]. 
  replace (rawSchema s) with (rawSchema s') by (unfold rawSchema; congruence). apply SameContent_sym, rawSchema_content.
Qed.

(** ** what is read is accepted *)
Definition rawTypes (s : schema) : list type := numberJ 0 (map rawType (sc_types s)).

Lemma numberJ_In {A B} (f : A -> ident -> B) l x : forall n, In x (numberJ n (map f l)) -> exists a i, In a l /\ x = f a i.
Proof.
  induction l as [|a l IH]; cbn [map numberJ In]; intros n H; [contradiction|]. destruct H as [<-|H]; [eauto|].
  apply IH in H as (b & i & Hb & E). eauto.
Qed.
Lemma In_numberJ {A B} (f : A -> ident -> B) l a : In a l -> forall n, exists i, In (f a i) (numberJ n (map f l)).
Proof.
  induction l as [|b l IH]; cbn [map numberJ In]; [contradiction|]. intros [<-|H] n; [eauto|].
  destruct (IH H (S n)) as (i & Hi). eauto.
Qed.
Lemma Forall_numberJ {A B} (f : A -> ident -> B) (P : B -> Prop) l : Forall (fun a => forall i, P (f a i)) l ->
  forall n, Forall P (numberJ n (map f l)).
Proof. induction 1; intros n; constructor; auto. Qed.
Lemma numberJ_ids {A B} (f : A -> ident -> B) (g : B -> ident) l : (forall a i, g (f a i) = i) ->
  forall n, map g (numberJ n (map f l)) = map (fun k => ("", k)) (seq n (length l)).
Proof. intros H. induction l as [|a l IH]; intros n; [reflexivity|]. cbn [map numberJ length seq]. now rewrite H, IH. Qed.
Lemma numberJ_names {A B C} (f : A -> ident -> B) (g : B -> C) (h : A -> C) l : (forall a i, g (f a i) = h a) ->
  forall n, map g (numberJ n (map f l)) = map h l.
Proof. intros H. induction l as [|a l IH]; intros n; [reflexivity|]. cbn [map numberJ]. now rewrite H, IH. Qed.
Lemma seq_ids_nodup n k : NoDup (map (fun i => ("", i) : ident) (seq n k)).
Proof. apply FinFun.Injective_map_NoDup; [intros a b [= ->]; reflexivity|apply seq_NoDup]. Qed.

(** distinct names of distinct declarations do not depend on the identities *)
Lemma distinct_of_nodup {A} (id : A -> ident) (name : A -> string) l :
  NoDup (map (fun x => to_lower (name x)) l) -> DistinctNames id name l.
Proof.
  intros D a b Ha Hb Hne E. apply Hne. f_equal. revert Ha Hb. induction l as [|c l IH]; [contradiction|].
  cbn [map] in D. inversion_clear D as [|? ? D1 D2]. intros [->|Ha] [->|Hb]; auto.
  - exfalso. apply D1. rewrite E. apply (in_map (fun x => to_lower (name x))), Hb.
  - exfalso. apply D1. rewrite <- E. apply (in_map (fun x => to_lower (name x))), Ha.
Qed.

Lemma Declared_raw s n k : Declared (sc_types s) n k -> Declared (rawTypes s) n k.
Proof. intros (t & Ht & <- & <-). destruct (In_numberJ rawType _ _ Ht 0) as (i & Hi). now exists (rawType t i). Qed.

Lemma TypeOk_raw s y : TypeOk (sc_types s) y -> EnumKeys (sc_types s) y -> TypeOk (rawTypes s) y.
Proof.
  induction 1; cbn [EnumKeys]; intros K.
  - constructor.
  - constructor. auto.
  - destruct K. constructor; auto.
  - destruct K as [K1 (t & Ht & E & Kt)]. constructor; auto.
    destruct (In_numberJ rawType _ _ Ht 0) as (i & Hi). exists (rawType t i). split; [exact Hi|]. split; [exact E|]. now left.
  - apply OkStruct. now apply Declared_raw.
  - apply OkEnum. now apply Declared_raw.
  - apply OkAlias. now apply Declared_raw.
Qed.

Lemma Legal_raw s v : Portable (sc_types s) v -> Legal (rawTypes s) (rawVT v).
Proof. intros (y & _ & T & K & E). exists y. split; [now apply TypeOk_raw|exact E]. Qed.

(** lookups do not depend on the order of a map *)
Lemma assoc_In {A} k (v : A) l : NoDup (map fst l) -> (assoc k l = Some v <-> In (k, v) l).
Proof.
  induction l as [|[k' v'] l IH]; cbn [map fst assoc In]; intros D; [split; [discriminate|contradiction]|].
  inversion_clear D as [|? ? D1 D2]. destruct (String.eqb_spec k k') as [->|N].
  - split; [intros [= ->]; now left|]. intros [[= ->]|H]; [reflexivity|]. exfalso. apply D1. now apply (in_map fst) in H.
  - rewrite IH by assumption. split; [now right|]. intros [[= -> ->]|H]; [contradiction|assumption].
Qed.
Lemma assoc_perm {A} k (l l' : list (string * A)) : NoDup (map fst l) -> Permutation l l' -> assoc k l = assoc k l'.
Proof.
  intros D P. assert (D' : NoDup (map fst l')) by (eapply Permutation_NoDup; [apply Permutation_map, P|exact D]).
  destruct (assoc k l) as [v|] eqn:E.
  - symmetry. apply assoc_In; [assumption|]. apply (Permutation_in _ P). now apply assoc_In.
  - destruct (assoc k l') as [v|] eqn:E'; [|reflexivity]. apply assoc_In in E'; [|assumption].
    apply (Permutation_in _ (Permutation_sym P)) in E'. apply assoc_In in E'; [|assumption]. congruence.
Qed.

Lemma json_tags_raw f : Forall WMeta (f_meta f) -> json_tags (rawField f) = json_tags f.
Proof.
  unfold json_tags. cbn [rawField f_meta]. induction 1 as [|m l [D _] _ IH]; [reflexivity|]. cbn [map flat_map].
  rewrite IH, <- (assoc_perm "json" m (sortA m) D (sortA_perm m)). reflexivity.
Qed.
Lemma json_key_raw f : Forall WMeta (f_meta f) -> json_key (rawField f) = json_key f.
Proof. intros W. unfold json_key. now rewrite json_tags_raw. Qed.
Lemma TagsOk_raw f : Forall WMeta (f_meta f) -> TagsOk f -> TagsOk (rawField f).
Proof.
  intros W H m v Hm. cbn [rawField f_meta] in Hm. apply in_map_iff in Hm as (m0 & <- & Hm). rewrite Forall_forall in W.
  rewrite <- (assoc_perm "json" m0 (sortA m0) (proj1 (W _ Hm)) (sortA_perm m0)). apply (H m0 v Hm).
Qed.

Lemma map_raw_eq {A B C} (f : A -> B) (g : B -> C) (h : A -> C) (P : A -> Prop) l :
  (forall a, P a -> g (f a) = h a) -> Forall P l -> map g (map f l) = map h l.
Proof. intros H. induction 1; [reflexivity|]. cbn [map]. now rewrite H, IHForall. Qed.

Lemma FieldsOk_raw isPrint fs : Forall (WField isPrint) fs -> FieldsOk fs -> FieldsOk (map rawField fs).
Proof.
  intros W (F1 & F2 & F3 & F4 & F5).
  assert (M : Forall (fun f => Forall WMeta (f_meta f)) fs).
  { eapply Forall_impl; [|exact W]. intros f (_ & _ & _ & H & _). exact H. }
  repeat split.
  - apply Forall_map. exact F1.
  - rewrite map_map. exact F2.
  - rewrite (map_raw_eq rawField _ (fun f => to_lower (json_key f)) _ fs (fun f H => f_equal to_lower (json_key_raw f H)) M). exact F3.
  - apply Forall_map. rewrite Forall_forall in *. intros f Hf. rewrite json_key_raw by auto. auto.
  - apply Forall_map. rewrite Forall_forall in *. intros f Hf. apply TagsOk_raw; auto.
Qed.

Lemma TypeDeclOk_raw isPrint s t i : WDecl isPrint t -> TypeDeclOk (Portable (sc_types s)) t ->
  TypeDeclOk (Legal (rawTypes s)) (rawType t i).
Proof.
  intros (_ & _ & _ & Wf & _) (N & U & K). split; [exact N|]. split; [exact U|].
  destruct K as [(K & F & E)|[(K & F & S)|(K & A)]].
  - left. split; [exact K|]. split; [eapply FieldsOk_raw; eassumption|]. destruct E as [E (v & c & E1 & E2 & E3)]. split.
    + cbn [rawType t_fields]. apply Forall_map. eapply Forall_impl; [|exact E]. intros f [H1 H2]. split; [exact H1|].
      cbn [rawField f_type]. now rewrite H2.
    + cbn [rawType t_type]. rewrite E1. exists (rawVT v), c. repeat split; assumption.
  - right; left. split; [exact K|]. split; [eapply FieldsOk_raw; eassumption|]. unfold StructOk in *.
    cbn [rawType t_fields]. apply Forall_map. eapply Forall_impl; [|exact S]. intros f (H1 & v & H2 & H3). split; [exact H1|].
    cbn [rawField f_type]. rewrite H2. exists (rawVT v). split; [reflexivity|]. now apply Legal_raw.
  - right; right. split; [exact K|]. unfold AliasOk in *. cbn [rawType t_type]. destruct (t_type t); [discriminate|contradiction].
Qed.

Lemma ErrorsOk_raw es : ErrorsOk es -> ErrorsOk (numberJ 0 (map rawError es)).
Proof.
  intros (E1 & E2 & E3). split; [|split].
  - apply Forall_numberJ. eapply Forall_impl; [|exact E1]. intros e H i. exact H.
  - rewrite (numberJ_names rawError x_code x_code); auto.
  - rewrite (numberJ_names rawError (fun e => to_lower (x_name e)) (fun e => to_lower (x_name e))); auto.
Qed.

Lemma ArgOk_raw s a : ArgOk (Portable (sc_types s)) a -> ArgOk (Legal (rawTypes s)) (rawArg a).
Proof.
  intros (N & v & E & P). split; [exact N|]. cbn [rawArg g_type]. rewrite E. exists (rawVT v). split; [reflexivity|]. now apply Legal_raw.
Qed.
Lemma MethodOk_raw s m : MethodOk (Portable (sc_types s)) (sc_errors s) m ->
  MethodOk (Legal (rawTypes s)) (numberJ 0 (map rawError (sc_errors s))) (rawMethod m).
Proof.
  intros (N & I & O & E & S). split; [exact N|]. cbn [rawMethod me_inputs me_outputs me_errors me_succinct]. repeat split.
  - apply Forall_map. eapply Forall_impl; [|exact I]. apply ArgOk_raw.
  - apply Forall_map. eapply Forall_impl; [|exact O]. apply ArgOk_raw.
  - intros n Hn. destruct (E n Hn) as (e & He & En). destruct (In_numberJ rawError _ _ He 0) as (i & Hi).
    exists (rawError e i). split; [exact Hi|exact En].
  - rewrite map_length. now apply S.
  - rewrite map_length. now apply S.
Qed.
Lemma ServiceOk_raw s v i : ServiceOk (Portable (sc_types s)) (sc_errors s) v ->
  ServiceOk (Legal (rawTypes s)) (numberJ 0 (map rawError (sc_errors s))) (rawService v i).
Proof.
  intros (N & M & F & D). split; [exact N|]. cbn [rawService v_methods]. repeat split.
  - destruct (v_methods v); [contradiction|discriminate].
  - apply Forall_map. eapply Forall_impl; [|exact F]. apply MethodOk_raw.
  - rewrite map_map. exact D.
Qed.

Lemma rawSchema_ok isPrint s : WSchema isPrint s -> SchemaOk Portable s ->
  NoDup (map t_id (sc_types s)) -> NoDup (map v_id (sc_services s)) -> SchemaOk Legal (rawSchema s).
Proof.
  intros (_ & _ & _ & _ & Wt & _ & _) [V1 V2 V3 V4 V5 V6 V7] Dt Dv.
  constructor; cbn [rawSchema sc_webrpc sc_version sc_types sc_errors sc_services]; fold (rawTypes s).
  - exact V1.
  - intros H. apply V2. intros E. rewrite E in H. now apply H.
  - apply Forall_numberJ. rewrite Forall_forall in *. intros t Ht i. eapply TypeDeclOk_raw; eauto.
  - apply distinct_of_nodup. unfold rawTypes. rewrite (numberJ_names rawType (fun t => to_lower (t_name t)) (fun t => to_lower (t_name t))) by reflexivity.
    now apply (distinct_nodup t_id t_name).
  - now apply ErrorsOk_raw.
  - apply Forall_numberJ. rewrite Forall_forall in *. intros v Hv i. apply ServiceOk_raw. auto.
  - apply distinct_of_nodup. rewrite (numberJ_names rawService (fun t => to_lower (v_name t)) (fun t => to_lower (v_name t))) by reflexivity.
    now apply (distinct_nodup v_id v_name).
Qed.

(** ** what is accepted has the content of what was written *)
Lemma vtParse_tree ts v w y : NamesOk ts -> vtParse ts (Some v) = Ok w -> TypeOk ts y -> vt_expr v = show y ->
  tree w = Some y /\ vt_expr w = show y.
Proof.
  intros Hn H Hy He. pose proof H as H0.
  assert (T : tree w = Some y).
  { unfold vtParse in H. destruct (String.eqb_spec (vt_expr v) ""); [discriminate|].
    apply bind_ok in H as (v' & Hp & H). injection H as <-.
    destruct (TypeOk_Parsed ts y Hn Hy) as (w' & Hw & Ht). rewrite <- He in Hw. apply parse_iff in Hw.
    rewrite Hp in Hw. injection Hw as ->. destruct w' as [e sh]. exact Ht. }
  split; [exact T|]. apply vtParse_ok in H0 as (v0 & E0 & _ & [(z & Z1 & _ & Z2 & _)|Z]); [|congruence].
  congruence.
Qed.

Definition Knows (ts : list type) (s : schema) : Prop :=
  NamesOk ts /\ forall y, TypeOk (sc_types s) y -> EnumKeys (sc_types s) y -> TypeOk ts y.

Lemma ref_back ts s o w : Knows ts s -> (exists v, o = Some v /\ Portable (sc_types s) v) ->
  vtParse ts (option_map rawVT o) = Ok w -> OptRel SameTree o (Some w).
Proof.
  intros [Hn Ht] (v & -> & y & T & O & K & E) H. cbn [option_map] in H.
  destruct (vtParse_tree _ _ _ y Hn H (Ht _ O K) E) as [T' E']. split; congruence.
Qed.

Lemma sameTree_expr (T : varType -> varType -> Prop) (f f' : field) : (forall v v', T v v' -> SameExpr v v') -> SameFieldC T f f' -> SameFieldC SameExpr f f'.
Proof.
  intros H (E1 & E2 & E3 & E4 & E5 & E6). repeat split; auto. destruct (f_type f), (f_type f'); cbn in *; auto.
Qed.

Lemma typeParse_back isPrint s t i t' : Knows (rawTypes s) s -> WDecl isPrint t -> TypeDeclOk (Portable (sc_types s)) t ->
  typeParse (rawTypes s) (rawType t i) = Ok t' -> SameDeclC SameTree t t'.
Proof.
  intros Hn W K H. destruct (string_dec (t_kind t) "struct") as [Ek|Nk].
  - unfold typeParse in H.
    destruct (String.eqb (t_name (rawType t i)) ""); [discriminate|].
    destruct (negb (startsWithUpper (t_name (rawType t i)))); [discriminate|].
    match type of H with (if ?b then _ else _) = _ => destruct b; [discriminate|] end.
    cbn [rawType t_kind t_fields t_type t_name t_id t_meta t_comments] in H. rewrite Ek in H.
    cbn [str_in existsb String.eqb Ascii.eqb Bool.eqb orb negb] in H.
    apply bind_ok in H as ([] & _ & H). apply bind_ok in H as (fs & Hfs & H). injection H as <-.
    assert (SF : Forall2 (SameFieldC SameTree) (t_fields t) fs).
    { destruct K as (_ & _ & [(Q & _)|[(_ & _ & S)|(Q & _)]]); try congruence. unfold StructOk in S.
      apply mapM_Forall2 in Hfs. clear -Hfs S Hn. revert fs Hfs.
      induction S as [|f l (V & v & E & P) _ IH]; intros fs Hfs; inversion_clear Hfs; constructor; [|auto].
      apply parseField_inv in H as (v' & w & Hv & Hw & Hval & ->). cbn [rawField f_type f_name f_optional f_meta f_comments] in *.
      repeat split; cbn [f_type f_value f_meta]; auto; [|apply raw_metas]. eapply (ref_back _ s); [exact Hn|eauto|].
      rewrite Hv. exact Hw. }
    repeat split; cbn [t_kind t_name t_type t_fields t_meta t_comments]; auto; try apply raw_expr; try apply raw_metas.
    eapply Forall2_impl; [|exact SF]. intros f f'. apply sameTree_expr. intros v v' [? ?]. assumption.
  - assert (t' = rawType t i) as ->.
    { unfold typeParse in H.
      destruct (String.eqb (t_name (rawType t i)) ""); [discriminate|].
      destruct (negb (startsWithUpper (t_name (rawType t i)))); [discriminate|].
      match type of H with (if ?b then _ else _) = _ => destruct b; [discriminate|] end.
      destruct K as (_ & _ & [(Q & _)|[(Q & _)|(Q & _)]]); [|congruence|];
      cbn [rawType t_kind t_fields t_type t_name t_id t_meta t_comments] in H; rewrite Q in H;
      cbn [str_in existsb String.eqb Ascii.eqb Bool.eqb orb negb] in H.
      - apply bind_ok in H as ([] & _ & H). apply bind_ok in H as ([] & _ & H). destruct (isValidVarType _ _); [|discriminate].
        injection H as <-. unfold rawType. now rewrite Q.
      - destruct (option_map _ _) eqn:O in H; [|discriminate]. injection H as <-. unfold rawType. now rewrite O, Q. }
    pose proof (rawType_content t i) as (E1 & E2 & E3 & E4 & _ & E6 & E7). repeat split; auto. intros. contradiction.
Qed.

Lemma args_back ts s l l' : Knows ts s -> Forall (ArgOk (Portable (sc_types s))) l ->
  mapM (parseArg ts) (map rawArg l) = Ok l' -> Forall2 (SameArgC SameTree) l l'.
Proof.
  intros Hn A H. apply mapM_Forall2 in H. revert l' H. induction A as [|a l (_ & v & E & P) _ IH]; intros l' H; inversion_clear H; constructor; [|auto].
  apply parseArg_inv in H0 as (v' & w & Hv & Hw & _ & ->). cbn [rawArg g_type g_name g_optional] in *. repeat split. cbn [g_type].
  eapply (ref_back _ s); [exact Hn|eauto|]. rewrite Hv. exact Hw.
Qed.

Lemma method_read ts es s m m' : Knows ts s -> MethodOk (Portable (sc_types s)) (sc_errors s) m ->
  methodParse ts es (rawMethod m) = Ok m' -> SameMethodC SameTree m m'.
Proof.
  intros Kn (_ & I & O & _ & _) H. apply methodParse_inv in H as (ins & outs & Hi & Ho & _ & _ & _ & ->).
  cbn [rawMethod me_name me_annotations me_comments me_succinct me_stream_in me_stream_out me_inputs me_outputs me_errors] in *.
  repeat split; cbn [me_annotations me_inputs me_outputs]; [apply sortA_perm| |]; eapply args_back; eassumption.
Qed.

Lemma service_read ts es ss s v i v' : Knows ts s -> ServiceOk (Portable (sc_types s)) (sc_errors s) v ->
  serviceParse ts es ss (rawService v i) = Ok v' -> SameServiceC SameTree v v'.
Proof.
  intros Kn (_ & _ & M & _) H. pose proof (serviceParse_same _ _ _ _ _ H) as (_ & N & C & _).
  apply serviceParse_inv in H as (_ & _ & _ & _ & ms & Hms & E). split; [now rewrite N|]. split; [|now rewrite C].
  rewrite E. clear -Kn M Hms. cbn [rawService v_methods] in Hms. apply mapM_Forall2 in Hms. revert ms Hms.
  induction M as [|m l Hm _ IH]; intros ms H; inversion_clear H; constructor; [|auto]. eapply method_read; eassumption.
Qed.

Lemma SameContent_expr s s' : SameContent SameTree s s' -> SameContent SameExpr s s'.
Proof.
  assert (TE : forall v v', SameTree v v' -> SameExpr v v') by (intros v v' [H _]; exact H).
  assert (AE : forall a a', SameArgC SameTree a a' -> SameArgC SameExpr a a').
  { intros a a' (E1 & E2 & E3). repeat split; auto. destruct (g_type a), (g_type a'); cbn in *; auto. }
  intros (E1 & E2 & E3 & E4 & E5 & E6 & E7). repeat split; auto.
  - eapply Forall2_impl; [|exact E5]. intros t t' (D1 & D2 & D3 & D4 & D5 & D6 & D7). repeat split; auto.
  - eapply Forall2_impl; [|exact E7]. intros v v' (D1 & D2 & D3). repeat split; auto.
    eapply Forall2_impl; [|exact D2]. intros m m' (F1 & F2 & F3 & F4 & F5 & F6 & F7 & F8 & F9). repeat split; auto;
    (eapply Forall2_impl; [|eassumption]); auto.
Qed.

Lemma Forall2_numberJ {A B C} (f : A -> ident -> B) (R : B -> C -> Prop) (Q : A -> C -> Prop) (P : A -> Prop) l :
  (forall a i c, P a -> R (f a i) c -> Q a c) -> Forall P l -> forall n l', Forall2 R (numberJ n (map f l)) l' -> Forall2 Q l l'.
Proof.
  intros H. induction 1 as [|a l Pa _ IH]; intros n l' F; inversion_clear F; constructor; eauto.
Qed.

Theorem json_round_trip isPrint u s : checkBasePath u (sc_basepath s) = Ok (sc_basepath s) ->
  WSchema isPrint s -> SchemaOk Portable s -> NoDup (map t_id (sc_types s)) -> NoDup (map v_id (sc_services s)) ->
  exists t s', toJSON isPrint s = Some t /\ parseSchemaJSON u t = Ok s' /\ SameContent SameTree s s' /\
    toJSON isPrint s' = Some t.
Proof.
  intros B W Ok_ Dt Dv. destruct (toJSON_back _ _ W) as (t & j & T & P & A).
  pose proof (rawSchema_ok _ _ W Ok_ Dt Dv) as L.
  assert (Di : NoDup (map t_id (rawTypes s))).
  { unfold rawTypes. rewrite (numberJ_ids rawType t_id) by reflexivity. apply seq_ids_nodup. }
  destruct (validate_complete u (rawSchema s) L) as (s' & V).
  { apply checkBasePath_iff in B. apply B. }
  { exact Di. }
  assert (Hn : Knows (rawTypes s) s).
  { split; [|intros y Y1 Y2; now apply TypeOk_raw]. destruct L as [_ _ L3 L4 _ _ _]. split; [now apply (distinct_nodup t_id t_name)|]. eapply Forall_impl; [|exact L3]. intros x Hx. apply Hx. }
  exists t, s'. split; [exact T|]. split.
  { unfold parseSchemaJSON. rewrite P, A. exact V. }
  assert (C : SameContent SameTree s s').
  { apply validate_inv in V as (b & ts & es & ss & _ & _ & Hb & Hts & Hes & Hss & ->).
    cbn [rawSchema sc_webrpc sc_name sc_version sc_basepath sc_types sc_errors sc_services] in *.
    fold (rawTypes s) in *. destruct Ok_ as [_ _ K3 _ K5 K6 _]. destruct W as (_ & _ & _ & _ & Wt & _ & Ws).
    rewrite B in Hb. injection Hb as <-.
    repeat split; cbn [sc_types sc_errors sc_services].
    - apply mapM_Forall2 in Hts. unfold rawTypes in Hts at 2.
      eapply (Forall2_numberJ rawType _ _ (fun t => WDecl isPrint t /\ TypeDeclOk (Portable (sc_types s)) t)); [| |exact Hts].
      + intros a i c [Q1 Q2] Q3. cbv beta in Q3. eapply typeParse_back; eassumption.
      + rewrite Forall_forall in *. intros; split; auto.
    - apply parseErrors_trimmed in Hes. cbn [app] in Hes. subst es.
      destruct K5 as (K5 & _). clear -K5. generalize 0. induction K5 as [|e l (_ & Tr & _) _ IH]; intros n; [constructor|].
      cbn [map numberJ]. constructor; [|apply IH]. repeat split. cbn [trimmed rawError x_name]. now rewrite Tr.
    - apply mapM_Forall2 in Hss.
      assert (Kt : Knows ts s).
      { destruct (types_ok _ _ Hts) as (_ & Tsig & _ & _). split; [eapply NamesOk_sig; [|exact (proj1 Hn)]; congruence|].
        intros y Y1 Y2. eapply TypeOk_sig; [|apply (proj2 Hn y Y1 Y2)]. congruence. }
      eapply (Forall2_numberJ rawService _ _ (ServiceOk (Portable (sc_types s)) (sc_errors s))); [|exact K6|exact Hss].
      intros a i c Q1 Q2. cbv beta in Q2. eapply service_read; eassumption. }
  split; [exact C|]. rewrite <- T. symmetry. apply toJSON_same; [exact W|]. now apply SameContent_expr.
Qed.

Lemma validate_basepath u s0 s : closed_slash u -> validate u s0 = Ok s ->
  checkBasePath u (sc_basepath s) = Ok (sc_basepath s).
Proof.
  intros Hu Hv. apply validate_inv in Hv as (b & ts & es & ss & _ & _ & Hb & _ & _ & _ & ->). cbn [sc_basepath].
  eapply basepath_fix; eassumption.
Qed.

(** ** checkers *)
Definition okText (s : string) : bool := is_ascii s.
Definition okExpr (s : string) : bool :=
  negb (String.eqb s "") && sforall (fun c => in_range 32 126 (N_of_byte c) && negb (N_of_byte c =? 34)%N && negb (N_of_byte c =? 92)%N) s.
Definition okOpt {A} (f : A -> bool) (o : option A) : bool := match o with None => true | Some a => f a end.
Fixpoint noDupB (l : list string) : bool :=
  match l with [] => true | x :: r => negb (existsb (String.eqb x) r) && noDupB r end.
Definition okMeta (m : metaMap) : bool := noDupB (map fst m) && forallb (fun kv => okText (fst kv) && okOpt okText (snd kv)) m.
Definition okVT (v : varType) : bool := okExpr (vt_expr v).
Definition okField (f : field) : bool :=
  okText (f_name f) && okOpt okVT (f_type f) && okText (f_value f) && forallb okMeta (f_meta f) && forallb okText (f_comments f).
Definition okDecl (t : type) : bool :=
  okText (t_kind t) && okText (t_name t) && okOpt okVT (t_type t) && forallb okField (t_fields t) && forallb okMeta (t_meta t) &&
  forallb okText (t_comments t).
Definition okInt (z : Z) : bool := (- 2 ^ 63 <=? z)%Z && (z <=? 2 ^ 63 - 1)%Z.
Definition okError (e : error) : bool := okInt (x_code e) && okText (x_name e) && okText (x_message e) && okInt (x_status e).
Definition okArg (a : arg) : bool := okText (g_name a) && okOpt okVT (g_type a).
Definition okAnn (kv : string * (string * string)) : bool := okText (fst kv) && okText (fst (snd kv)) && okText (snd (snd kv)).
Definition okMethod (m : method) : bool :=
  okText (me_name m) && noDupB (map fst (me_annotations m)) && forallb okAnn (me_annotations m) && forallb okText (me_comments m) &&
  forallb okArg (me_inputs m) && forallb okArg (me_outputs m) && forallb okText (me_errors m).
Definition okService (s : service) : bool := okText (v_name s) && forallb okMethod (v_methods s) && forallb okText (v_comments s).
Definition okSchema (s : schema) : bool :=
  okText (sc_webrpc s) && okText (sc_name s) && okText (sc_version s) && okText (sc_basepath s) &&
  forallb okDecl (sc_types s) && forallb okError (sc_errors s) && forallb okService (sc_services s).

Lemma okText_ok s : okText s = true -> ValidUtf8 s.
Proof. apply ascii_valid. Qed.
Lemma okExpr_ok s : okExpr s = true -> Plain goIsPrint s /\ s <> "".
Proof.
  unfold okExpr. rewrite andb_true_iff, negb_true_iff, String.eqb_neq. intros [N H]. split; [|exact N]. clear N.
  induction s as [|c s IH]; [exists []; repeat constructor|]. cbn [sforall] in H. apply andb_true_iff in H as [H1 H2].
  destruct (IH H2) as (rs & F & ->). exists (N_of_byte c :: rs). rewrite !andb_true_iff, !negb_true_iff, !N.eqb_neq in H1.
  destruct H1 as [[R N34] N92]. unfold in_range in R. rewrite andb_true_iff, !N.leb_le in R. split.
  - constructor; [|exact F]. repeat split; try assumption; try lia.
    + unfold valid_rune. apply orb_true_iff. left. apply N.ltb_lt. lia.
    + unfold goIsPrint. apply orb_true_iff. left. unfold in_range. apply andb_true_iff. rewrite !N.leb_le. lia.
  - rewrite encode_cons, encode_rune_ascii by (apply N.ltb_lt; lia). reflexivity.
Qed.
Lemma forallb_F {A} (f : A -> bool) (P : A -> Prop) l : (forall a, f a = true -> P a) -> forallb f l = true -> Forall P l.
Proof. intros H. rewrite forallb_forall, Forall_forall. auto. Qed.
Lemma okOpt_ok {A} (f : A -> bool) (P : A -> Prop) o : (forall a, f a = true -> P a) -> okOpt f o = true -> WOpt P o.
Proof. intros H. destruct o; cbn; auto. Qed.
Lemma noDupB_ok l : noDupB l = true -> NoDup l.
Proof.
  induction l as [|x l IH]; cbn; [constructor|]. rewrite andb_true_iff, negb_true_iff. intros [H1 H2]. constructor; [|auto].
  intros Hx. assert (existsb (String.eqb x) l = true) by (apply existsb_exists; exists x; split; [exact Hx|apply String.eqb_refl]). congruence.
Qed.
Lemma okMeta_ok m : okMeta m = true -> WMeta m.
Proof.
  unfold okMeta. rewrite andb_true_iff. intros [H1 H2]. split; [now apply noDupB_ok|]. eapply forallb_F; [|exact H2].
  intros kv. rewrite andb_true_iff. intros [H3 H4]. split; [now apply okText_ok|]. eapply okOpt_ok; [exact okText_ok|exact H4].
Qed.
Lemma okField_ok f : okField f = true -> WField goIsPrint f.
Proof.
  unfold okField. rewrite !andb_true_iff. intros [[[[H1 H2] H3] H4] H5]. repeat split.
  - now apply okText_ok.
  - eapply okOpt_ok; [|exact H2]. intros v. apply okExpr_ok.
  - now apply okText_ok.
  - eapply forallb_F; [exact okMeta_ok|exact H4].
  - eapply forallb_F; [exact okText_ok|exact H5].
Qed.
Lemma okDecl_ok t : okDecl t = true -> WDecl goIsPrint t.
Proof.
  unfold okDecl. rewrite !andb_true_iff. intros [[[[[H1 H2] H3] H4] H5] H6]. repeat split.
  - now apply okText_ok.
  - now apply okText_ok.
  - eapply okOpt_ok; [|exact H3]. intros v. apply okExpr_ok.
  - eapply forallb_F; [exact okField_ok|exact H4].
  - eapply forallb_F; [exact okMeta_ok|exact H5].
  - eapply forallb_F; [exact okText_ok|exact H6].
Qed.
Lemma okInt_ok z : okInt z = true -> int64 z.
Proof. unfold okInt, int64. rewrite andb_true_iff, !Z.leb_le. auto. Qed.
Lemma okArg_ok a : okArg a = true -> WArg goIsPrint a.
Proof.
  unfold okArg. rewrite andb_true_iff. intros [H1 H2]. split; [now apply okText_ok|].
  eapply okOpt_ok; [|exact H2]. intros v. apply okExpr_ok.
Qed.
Lemma okMethod_ok m : okMethod m = true -> WMethod goIsPrint m.
Proof.
  unfold okMethod. rewrite !andb_true_iff. intros [[[[[[H1 H2] H3] H4] H5] H6] H7]. repeat split.
  - now apply okText_ok.
  - now apply noDupB_ok.
  - eapply forallb_F; [|exact H3]. intros kv. unfold okAnn. rewrite !andb_true_iff. intros [[A B] C].
    repeat split; now apply okText_ok.
  - eapply forallb_F; [exact okText_ok|exact H4].
  - eapply forallb_F; [exact okArg_ok|exact H5].
  - eapply forallb_F; [exact okArg_ok|exact H6].
  - eapply forallb_F; [exact okText_ok|exact H7].
Qed.
Lemma okSchema_ok s : okSchema s = true -> WSchema goIsPrint s.
Proof.
  unfold okSchema. rewrite !andb_true_iff. intros [[[[[[H1 H2] H3] H4] H5] H6] H7].
  repeat split; try (now apply okText_ok).
  - eapply forallb_F; [exact okDecl_ok|exact H5].
  - eapply forallb_F; [|exact H6]. intros e. unfold okError. rewrite !andb_true_iff. intros [[[A B] C] D].
    split; [now apply okInt_ok|]. split; [now apply okText_ok|]. split; [now apply okText_ok|now apply okInt_ok].
  - eapply forallb_F; [|exact H7]. intros v. unfold okService. rewrite !andb_true_iff. intros [[A B] C].
    split; [now apply okText_ok|]. split; [eapply forallb_F; [exact okMethod_ok|exact B]|eapply forallb_F; [exact okText_ok|exact C]].
Qed.

(** no declared type stands for an enum without being one *)
Definition noEnumAlias (s : schema) : bool :=
  forallb (fun t => String.eqb (t_kind t) "enum" ||
                    match t_type t with Some (VT _ (ShEnum _ _)) => false | _ => true end) (sc_types s).

Lemma enumKeys ts y : TypeOk ts y ->
  (forall t e m d, In t ts -> t_type t = Some (VT e (ShEnum m d)) -> t_kind t = "enum") -> EnumKeys ts y.
Proof.
  intros H N. induction H; cbn [EnumKeys]; auto. split; [assumption|].
  destruct H as (t & Ht & E & [K|(e & m & d & K)]); exists t; repeat split; auto. eapply N; eassumption.
Qed.
Lemma Resolved_Portable ts v :
  (forall t e m d, In t ts -> t_type t = Some (VT e (ShEnum m d)) -> t_kind t = "enum") -> Resolved ts v -> Portable ts v.
Proof. intros N (y & T & O & E). exists y. repeat split; auto. now apply enumKeys. Qed.

Lemma SchemaOk_impl (R Q : list type -> varType -> Prop) s : (forall v, R (sc_types s) v -> Q (sc_types s) v) ->
  SchemaOk R s -> SchemaOk Q s.
Proof.
  intros H [V1 V2 V3 V4 V5 V6 V7]. constructor; auto.
  - eapply Forall_impl; [|exact V3]. intros t (A & B & C). split; [exact A|]. split; [exact B|].
    destruct C as [C|[(C1 & C2 & C3)|C]]; auto. right; left. split; [exact C1|]. split; [exact C2|].
    eapply Forall_impl; [|exact C3]. intros f (D1 & v & D2 & D3). split; [exact D1|]. exists v. auto.
  - eapply Forall_impl; [|exact V6]. intros v (A & B & C & D). split; [exact A|]. split; [exact B|]. split; [|exact D].
    assert (AA : forall a, ArgOk (R (sc_types s)) a -> ArgOk (Q (sc_types s)) a).
    { intros a (D1 & w & D2 & D3). split; [exact D1|]. exists w. auto. }
    eapply Forall_impl; [|exact C]. intros m (E1 & E2 & E3 & E4 & E5). split; [exact E1|].
    split; [eapply Forall_impl; [exact AA|exact E2]|]. split; [eapply Forall_impl; [exact AA|exact E3]|]. auto.
Qed.

Lemma portable_ok s : SchemaOk Resolved s -> noEnumAlias s = true -> SchemaOk Portable s.
Proof.
  intros H N. eapply SchemaOk_impl; [|exact H]. intros v. apply Resolved_Portable. intros t e m d Ht E.
  unfold noEnumAlias in N. rewrite forallb_forall in N. specialize (N t Ht). rewrite E, orb_false_r in N. now apply String.eqb_eq.
Qed.
