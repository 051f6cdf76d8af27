(** Proofs and witnesses for Props_Validate.v *)
From Coq Require Import ZifyBool ZifyNat ZifyN.
From Verif Require Import Base BaseProofs Schema TypeSpec TypeProofs Uri ValidateSpec ValidateProofs
  ValidateComplete ValidateIdem.

(** ** C14: what changes *)

Lemma vtParse_same ts o w : vtParse ts o = Ok w -> SameRef o (Some w).
Proof.
  intro H. apply vtParse_ok in H as (v & -> & _ & Ho). exists v, w. split; [reflexivity|]. split; [reflexivity|].
  destruct Ho as [(y & _ & _ & E1 & E2)|E]; [left; congruence|now right].
Qed.

Lemma SameField_refl f : SameField f f.
Proof. repeat split. now left. Qed.

Lemma Forall2_refl {A} (R : A -> A -> Prop) l : (forall a, R a a) -> Forall2 R l l.
Proof. intro H. induction l; constructor; auto. Qed.

Lemma typeParse_same ts t t' : typeParse ts t = Ok t' -> SameType t t'.
Proof.
  intro H. unfold typeParse in H.
  destruct (String.eqb (t_name t) ""); [discriminate|].
  destruct (negb (startsWithUpper (t_name t))); [discriminate|].
  match type of H with (if ?b then _ else _) = _ => destruct b; [discriminate|] end.
  destruct (str_in (t_kind t) ["enum"; "struct"; "alias"]) eqn:H4; [|discriminate]. cbn [negb] in H.
  assert (Hr : SameType t t).
  { repeat split. apply Forall2_refl, SameField_refl. }
  destruct (String.eqb_spec (t_kind t) "alias").
  { destruct (t_type t); [|discriminate]. now injection H as <-. }
  apply bind_ok in H as ([] & Hf & H).
  destruct (String.eqb_spec (t_kind t) "enum").
  { apply bind_ok in H as ([] & He & H). destruct (isValidVarType _ _); [|discriminate]. now injection H as <-. }
  apply bind_ok in H as (fs & Hfs & H). injection H as <-.
  split; [reflexivity|]. repeat (split; [reflexivity|]). split.
  - intro Hk. apply str_in_In in H4. cbn in H4. intuition congruence.
  - cbn [t_fields]. apply mapM_Forall2 in Hfs. eapply Forall2_impl; [|exact Hfs]. cbv beta. intros f g Hfg.
    apply parseField_inv in Hfg as (v & w & Hv & Hw & Hval & ->). repeat (split; [reflexivity || (cbn; congruence)|]).
    right. rewrite Hv. cbn [f_type]. eapply vtParse_same. exact Hw.
Qed.

Lemma parseArg_same ts a a' : parseArg ts a = Ok a' -> SameArg a a'.
Proof.
  intro H. apply parseArg_inv in H as (v & w & Hv & Hw & _ & ->). repeat (split; [reflexivity|]).
  rewrite Hv. cbn. eapply vtParse_same; exact Hw.
Qed.

Lemma methodParse_same ts es m m' : methodParse ts es m = Ok m' -> SameMethod m m'.
Proof.
  intro H. apply methodParse_inv in H as (ins & outs & Hi & Ho & _ & _ & _ & ->). repeat (split; [reflexivity|]).
  cbn. apply mapM_Forall2 in Hi, Ho.
  split; (eapply Forall2_impl; [|eassumption]); cbv beta; intros; eapply parseArg_same; eassumption.
Qed.

Lemma serviceParse_same ts es ss s s' : serviceParse ts es ss s = Ok s' -> SameService s s'.
Proof.
  intro H. pose proof H as H0. unfold serviceParse in H.
  destruct (String.eqb (v_name s) ""); [discriminate|].
  match type of H with (if ?b then _ else _) = _ => destruct b; [discriminate|] end.
  assert (H' : (do _ <- checkMethodNames (v_methods s) [];
                do ms <- mapM (methodParse ts es) (v_methods s);
                Ok (Service_ (v_id s) (v_name s) ms (v_comments s))) = Ok s').
  { destruct (v_methods s); [discriminate|]. assumption. }
  apply bind_ok in H' as ([] & _ & H'). apply bind_ok in H' as (ms & Hms & H'). injection H' as <-.
  repeat (split; [reflexivity|]). cbn. apply mapM_Forall2 in Hms.
  eapply Forall2_impl; [|exact Hms]. cbv beta. intros; eapply methodParse_same; eassumption.
Qed.

Lemma trim_left_split p s : exists a, Forall (fun c => p c = true) (list_ascii_of_string a) /\ s = (a ++ trim_left p s)%string.
Proof.
  induction s as [|c s IH]; [exists ""; split; [constructor|reflexivity]|]. cbn.
  destruct (p c) eqn:E; [|exists ""; split; [constructor|reflexivity]].
  destruct IH as (a & Ha & Es). exists (String c a). split; [constructor; assumption|]. cbn. now rewrite <- Es.
Qed.

Lemma trim_right_split p s : exists b, Forall (fun c => p c = true) (list_ascii_of_string b) /\ s = (trim_right p s ++ b)%string.
Proof.
  induction s as [|c s IH]; [exists ""; split; [constructor|reflexivity]|]. cbn [trim_right].
  destruct IH as (b & Hb & Es). destruct (trim_right p s) as [|d r] eqn:Et.
  - cbn in Es. subst b. destruct (p c) eqn:E.
    + exists (String c s). split; [constructor; assumption|reflexivity].
    + exists s. split; [assumption|reflexivity].
  - exists b. split; [assumption|]. cbn. now rewrite Es at 1.
Qed.

Lemma trimmed_same e : SameError e (trimmed e).
Proof.
  repeat (split; [reflexivity|]). cbn [trimmed x_name]. unfold trim_space.
  destruct (trim_left_split is_space_byte (x_name e)) as (a & Ha & Ea).
  destruct (trim_right_split is_space_byte (trim_left is_space_byte (x_name e))) as (b & Hb & Eb).
  exists a, b. split.
  - rewrite laos_app. apply Forall_app. now split.
  - rewrite <- Eb. exact Ea.
Qed.

Lemma validate_same u s s' : validate u s = Ok s' -> SameSchema s s'.
Proof.
  intro H. apply validate_inv in H as (b & ts & es & ss & _ & _ & _ & Hts & Hes & Hss & ->).
  repeat (split; [reflexivity|]). cbn. split; [|split].
  - apply mapM_Forall2 in Hts. eapply Forall2_impl; [|exact Hts]. cbv beta. apply typeParse_same.
  - apply (parseErrors_trimmed (sc_errors s) []) in Hes. rewrite Hes. cbn. clear.
    induction (sc_errors s); constructor; [apply trimmed_same|assumption].
  - apply mapM_Forall2 in Hss. eapply Forall2_impl; [|exact Hss]. cbv beta. apply serviceParse_same.
Qed.

(** ** C09 *)

Lemma validate_types u s s' : validate u s = Ok s' -> NoDup (map t_id (sc_types s)) ->
  NamesOk (sc_types s') /\ map t_id (sc_types s') = map t_id (sc_types s).
Proof.
  intros H Hid. pose proof (validate_ok _ _ _ H) as [V1 V2 V3 V4 V5 V6 V7].
  pose proof (validate_same _ _ _ H) as (_ & _ & _ & HT & _).
  assert (E : map t_id (sc_types s') = map t_id (sc_types s)).
  { clear -HT. induction HT as [|t t' l l' Ht _ IH]; [reflexivity|]. cbn. rewrite IH. f_equal. apply Ht. }
  split; [|assumption]. split.
  - apply (distinct_nodup t_id t_name); [|assumption]. now rewrite E.
  - eapply Forall_impl; [|exact V3]. intros t Ht. apply Ht.
Qed.

Lemma names_resolve ts t : NamesOk ts -> In t ts ->
  getType ts (t_name t) = Some t /\
  forall n, to_lower n = to_lower (t_name t) -> getTypeByName ts n = Some t.
Proof.
  intros Hn Hin. split; [now apply getType_complete; [destruct Hn|]|].
  intros n E. apply getTypeByName_complete; [destruct Hn|..]; auto.
Qed.

(** ** C11 *)

Lemma lower_webrpc e : In e builtinErrors -> has_prefix "webrpc" (to_lower (x_name e)) = true /\ (x_code e <= 0)%Z.
Proof. cbn. intros H. repeat (destruct H as [<-|H]; [split; [reflexivity|cbn; lia]|]). contradiction. Qed.

Lemma builtins_nodup : NoDup (map x_code builtinErrors) /\ NoDup (map (fun e => to_lower (x_name e)) builtinErrors).
Proof.
  split.
  - cbn. repeat (constructor; [cbn; intuition discriminate|]). constructor.
  - vm_compute. repeat (constructor; [cbn; intuition discriminate|]). constructor.
Qed.

Lemma NoDup_app' {A} (a b : list A) : NoDup a -> NoDup b -> (forall x, In x a -> ~ In x b) -> NoDup (a ++ b).
Proof.
  intros Ha Hb H. induction Ha as [|x a Hx Ha IH]; [assumption|]. cbn. constructor.
  - intro Hi. apply in_app_or in Hi as [Hi|Hi]; [contradiction|]. apply (H x); [now left|assumption].
  - apply IH. intros y Hy. apply H. now right.
Qed.

Lemma errors_unambiguous es : ErrorsOk es ->
  NoDup (map x_code (builtinErrors ++ es)) /\
  NoDup (map (fun e => to_lower (x_name e)) (builtinErrors ++ es)) /\
  forall e, In e (builtinErrors ++ es) ->
    find (fun e' => Z.eqb (x_code e') (x_code e)) (builtinErrors ++ es) = Some e.
Proof.
  intros (H1 & H2 & H3). rewrite Forall_forall in H1. destruct builtins_nodup as [B1 B2].
  assert (N1 : NoDup (map x_code (builtinErrors ++ es))).
  { rewrite map_app. apply NoDup_app'; [assumption|assumption|]. intros c Ha Hb.
    apply in_map_iff in Ha as (a & <- & Ha). apply in_map_iff in Hb as (b & E & Hb).
    apply lower_webrpc in Ha as [_ Ha]. destruct (H1 b Hb) as (_ & _ & Hc & _). lia. }
  assert (N2 : NoDup (map (fun e => to_lower (x_name e)) (builtinErrors ++ es))).
  { rewrite map_app. apply NoDup_app'; [assumption|assumption|]. intros c Ha Hb.
    apply in_map_iff in Ha as (a & <- & Ha). apply in_map_iff in Hb as (b & E & Hb).
    apply lower_webrpc in Ha as [Ha _]. destruct (H1 b Hb) as (_ & _ & _ & _ & _ & _ & Hp). congruence. }
  split; [assumption|]. split; [assumption|]. clear -N1. remember (builtinErrors ++ es) as l eqn:El. clear El.
  intros e He. induction l as [|a l IH]; [contradiction|]. cbn in N1. inversion N1 as [|? ? Na Nl]; subst. cbn.
  destruct (Z.eqb_spec (x_code a) (x_code e)) as [E|E].
  - destruct He as [<-|He]; [reflexivity|]. exfalso. apply Na. rewrite E. now apply in_map.
  - destruct He as [<-|He]; [congruence|]. auto.
Qed.

(** ** examples *)

Definition ref (e : string) : option varType := Some (VT e ShUnknown).
Definition fld n e := Field n (ref e) false "" [] [].

Definition exSchema : schema :=
  Schema_ "v1" "example" "v1.2.3" "api/rpc"
    [Type_ ("f", 0) "enum" "Kind" (ref "uint32") [Field "USER" None false "0" [] []; Field "ADMIN" None false "1" [] []] [] [];
     Type_ ("f", 1) "struct" "User" None
       [fld "id" "uint64"; Field "name" (ref "string") false "" [[("json", Some "user_name")]] [];
        fld "roles" "map<Kind,[]Role>"] [] [];
     Type_ ("f", 2) "struct" "Role" None [fld "parent" "Role"; Field "hidden" (ref "any") true "" [[("json", Some "-")]] []] [] [];
     Type_ ("f", 3) "alias" "Id" (ref "string") [] [] []]
    [Error_ ("f", 4) 100 "NotFound " "not found" 404; Error_ ("f", 5) 101 "Conflict" "conflict" 409]
    [Service_ ("f", 6) "Users"
       [Method_ "Get" [] [] false false false [Arg_ "id" (ref "Id") false] [Arg_ "user" (ref "User") false] ["NotFound"];
        Method_ "Watch" [] [] false false true [] [Arg_ "users" (ref "[]User") false] []] []].

Definition has_tree (o : option varType) : bool :=
  match o with Some v => match tree v with Some _ => true | None => false end | None => true end.
Definition no_holes (s : schema) : bool :=
  forallb (fun t => negb (String.eqb (t_kind t) "struct") || forallb (fun f => has_tree (f_type f)) (t_fields t)) (sc_types s) &&
  forallb (fun v => forallb (fun m => forallb (fun a => has_tree (g_type a)) (me_inputs m ++ me_outputs m)) (v_methods v)) (sc_services s).

Lemma has_tree_Resolved ts v : ResolvedOrIncomplete ts v -> has_tree (Some v) = true -> Resolved ts v.
Proof. intros [H|H] E; [assumption|]. unfold Incomplete in H. cbn in E. rewrite H in E. discriminate. Qed.

Lemma no_holes_Resolved s : SchemaOk ResolvedOrIncomplete s -> no_holes s = true -> SchemaOk Resolved s.
Proof.
  intros [V1 V2 V3 V4 V5 V6 V7] H. apply andb_true_iff in H as [H1 H2]. rewrite forallb_forall in H1, H2.
  rewrite Forall_forall in V3, V6. constructor; try assumption.
  - apply Forall_forall. intros t Ht. destruct (V3 t Ht) as (A & B & C). split; [assumption|]. split; [assumption|].
    destruct C as [C|[(Ck & Cf & Cs)|C]]; [tauto| |tauto]. right; left. split; [assumption|]. split; [assumption|].
    specialize (H1 t Ht). rewrite Ck in H1. cbn in H1. rewrite forallb_forall in H1.
    unfold StructOk in *. rewrite Forall_forall in *. intros f Hf. destruct (Cs f Hf) as (D1 & v & D2 & D3).
    split; [assumption|]. exists v. split; [assumption|]. apply has_tree_Resolved; [assumption|]. rewrite <- D2. auto.
  - apply Forall_forall. intros x Hx. destruct (V6 x Hx) as (A & B & C & D). split; [assumption|]. split; [assumption|].
    split; [|assumption]. specialize (H2 x Hx). rewrite forallb_forall in H2. rewrite Forall_forall in *.
    intros m Hm. destruct (C m Hm) as (M1 & M2 & M3 & M4). specialize (H2 m Hm). rewrite forallb_forall in H2.
    split; [assumption|]. split; [|split; [|assumption]].
    + rewrite Forall_forall in *. intros a Ha. destruct (M2 a Ha) as (A1 & v & A2 & A3). split; [assumption|].
      exists v. split; [assumption|]. apply has_tree_Resolved; [assumption|]. rewrite <- A2. apply H2, in_or_app. now left.
    + rewrite Forall_forall in *. intros a Ha. destruct (M3 a Ha) as (A1 & v & A2 & A3). split; [assumption|].
      exists v. split; [assumption|]. apply has_tree_Resolved; [assumption|]. rewrite <- A2. apply H2, in_or_app. now right.
Qed.

Lemma exSchema_ok : exists s', validate goUriOk exSchema = Ok s' /\ sc_basepath s' = "/api/rpc/" /\
  map x_name (sc_errors s') = ["NotFound"; "Conflict"] /\ SchemaOk Resolved s' /\
  NoDup (map t_id (sc_types exSchema)).
Proof.
  assert (G : match validate goUriOk exSchema with
              | Ok s' => String.eqb (sc_basepath s') "/api/rpc/" && no_holes s' &&
                         (if list_eq_dec string_dec (map x_name (sc_errors s')) ["NotFound"; "Conflict"] then true else false)
              | _ => false end = true) by (vm_compute; reflexivity).
  destruct (validate goUriOk exSchema) as [s'| | |] eqn:E; try discriminate G.
  exists s'. split; [reflexivity|]. apply andb_true_iff in G as [G G3]. apply andb_true_iff in G as [G1 G2].
  split; [now apply String.eqb_eq|]. split; [destruct (list_eq_dec _ _ _); [assumption|discriminate]|].
  split; [exact (no_holes_Resolved _ (validate_ok _ _ _ E) G2)|].
  cbn. repeat (constructor; [cbn; intuition discriminate|]). constructor.
Qed.

(** ** refutations *)

(** a lower-case, non-ASCII first letter passes the upper-case check: the
    name is the two bytes C3 A9 ("e" with acute accent) *)
Definition e_acute : string := String (ascii_of_nat 195) (String (ascii_of_nat 169) "").
Lemma lower_case_name_accepted : exists s s' t,
  validate goUriOk s = Ok s' /\ In t (sc_types s') /\ t_name t = e_acute.
Proof.
  set (s := Schema_ "v1" "n" "v" "" [Type_ ("f", 0) "alias" e_acute (ref "string") [] [] []] [] []).
  exists s. vm_compute. do 2 eexists. split; [reflexivity|]. split; [left; reflexivity|reflexivity].
Qed.

Definition svc name ms := Service_ ("f", 9) name ms [].
Definition mth name ins outs := Method_ name [] [] false false false ins outs [].

(** argument and method names are not checked: duplicates and non-identifiers pass *)
Lemma argument_names_unchecked : exists s s' v m a b,
  validate goUriOk s = Ok s' /\ In v (sc_services s') /\ In m (v_methods v) /\
  me_inputs m = [a; b] /\ g_name a = g_name b /\ ~ Identifier (g_name a) /\ ~ Identifier (me_name m).
Proof.
  set (s := Schema_ "v1" "n" "v" "" [] [] [svc "S" [mth "a/b" [Arg_ "x y" (ref "string") false; Arg_ "x y" (ref "int") false] []]]).
  exists s. destruct (validate goUriOk s) as [s'| | |] eqn:E; [|vm_compute in E; discriminate E..].
  vm_compute in E. injection E as <-. do 5 eexists. split; [reflexivity|].
  split; [left; reflexivity|]. split; [left; reflexivity|]. split; [reflexivity|]. split; [reflexivity|].
  split; cbn; intro H; apply validArg_iff in H; vm_compute in H; discriminate.
Qed.

(** validation is not idempotent when a component is missing *)
Lemma not_idempotent : exists s s', validate goUriOk s = Ok s' /\ forall s'', validate goUriOk s' <> Ok s''.
Proof.
  set (s := Schema_ "v1" "n" "v" "" [Type_ ("f", 0) "struct" "T" None [fld "x" "map<string,>"] [] []] [] []).
  exists s. destruct (validate goUriOk s) as [s'| | |] eqn:E; [|vm_compute in E; discriminate E..].
  exists s'. split; [reflexivity|]. vm_compute in E. injection E as <-. intros s''. vm_compute. discriminate.
Qed.

(** a schema that satisfies the specification but crashes the validator: none
    ([validate_complete]); but ill-formed input may crash it: a JSON struct
    field without type *)
Lemma missing_type_panics : exists s, validate goUriOk s = Panic.
Proof.
  exists (Schema_ "v1" "n" "v" "" [Type_ ("f", 0) "struct" "T" None [Field "x" None false "" [] []] [] []] [] []).
  reflexivity.
Qed.

(** the underlying type of an alias is not checked *)
Lemma alias_unchecked : exists s s' t v, validate goUriOk s = Ok s' /\ In t (sc_types s') /\
  t_kind t = "alias" /\ t_type t = Some v /\ forall w, parseVarTypeExpr (sc_types s') (vt_expr v) <> Ok w.
Proof.
  set (s := Schema_ "v1" "n" "v" "" [Type_ ("f", 0) "alias" "T" (ref "Nowhere") [] [] []] [] []).
  exists s, s, (Type_ ("f", 0) "alias" "T" (ref "Nowhere") [] [] []), (VT "Nowhere" ShUnknown).
  split; [vm_compute; reflexivity|]. split; [left; reflexivity|].
  split; [reflexivity|]. split; [reflexivity|]. intro w.
  assert (E : parseVarTypeExpr (sc_types s) "Nowhere" = Err "schema error: invalid type") by (vm_compute; reflexivity).
  cbn [vt_expr]. rewrite E. discriminate.
Qed.
