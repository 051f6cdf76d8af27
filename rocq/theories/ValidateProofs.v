(** Proofs about Validate *)
From Coq Require Import ZifyBool ZifyNat ZifyN.
From Verif Require Import Base BaseProofs Schema TypeSpec TypeProofs Uri ValidateSpec.

(** ** identifiers *)

Lemma alpha_letter c : is_alpha_byte c = true <-> letter c.
Proof. unfold is_alpha_byte, is_lower_byte, is_upper_byte, in_range, letter. lia. Qed.

Lemma arg_char c : is_arg_char c = true <-> ident_char c.
Proof.
  unfold is_arg_char, ident_char. rewrite !orb_true_iff, alpha_letter.
  unfold is_digit_byte, in_range. rewrite Ascii.eqb_eq. intuition lia.
Qed.

Lemma sforall_Forall p s : sforall p s = true <-> Forall (fun c => p c = true) (list_ascii_of_string s).
Proof.
  induction s as [|c s IH]; cbn; [split; [constructor|reflexivity]|].
  rewrite andb_true_iff, IH. split; [intros [? ?]; constructor; auto|inversion 1; auto].
Qed.

Lemma validArg_iff s : isValidArgName s = true <-> Identifier s.
Proof.
  unfold isValidArgName, Identifier. destruct s as [|c r].
  - split; [discriminate|]. intros (c & r & E & _). discriminate.
  - rewrite andb_true_iff, alpha_letter, sforall_Forall. split.
    + intros [Hc Hr]. exists c, r. split; [reflexivity|]. split; [assumption|].
      eapply Forall_impl; [|exact Hr]. intros a Ha. now apply arg_char.
    + intros (c' & r' & E & Hc & Hr). injection E as <- <-. split; [assumption|].
      eapply Forall_impl; [|exact Hr]. intros a Ha. now apply arg_char.
Qed.

(** ** fields *)

Lemma last_cons {A} (x : A) l d : last (x :: l) d = last l x.
Proof.
  revert x d. induction l as [|y l IH]; intros x d; [reflexivity|].
  change (last (x :: y :: l) d) with (last (y :: l) d). now rewrite !IH.
Qed.

Lemma jsonName_key ms name j : jsonName ms name = Ok j ->
  j = last (filter (fun s => negb (String.eqb s "-"))
        (flat_map (fun m => match assoc "json" m with Some (Some s) => [s] | _ => [] end) ms)) name.
Proof.
  revert name. induction ms as [|m ms IH]; cbn [jsonName flat_map]; intros name H.
  - now injection H as <-.
  - destruct (assoc "json" m) as [[s|]|]; [|discriminate|exact (IH _ H)].
    cbn [app filter]. destruct (String.eqb s "-") eqn:Hs; cbn [negb]; [exact (IH _ H)|].
    destruct (isValidArgName s); [|discriminate].
    rewrite (IH _ H).
    symmetry. apply last_cons.
Qed.

Lemma jsonName_valid ms name j : jsonName ms name = Ok j -> Identifier name -> Identifier j.
Proof.
  revert name. induction ms as [|m ms IH]; cbn [jsonName]; intros name H Hn.
  - now injection H as <-.
  - destruct (assoc "json" m) as [[s|]|]; [|discriminate|exact (IH _ H Hn)].
    destruct (String.eqb s "-"); [exact (IH _ H Hn)|].
    destruct (isValidArgName s) eqn:Hs; [|discriminate]. apply (IH _ H). now apply validArg_iff.
Qed.

Lemma jsonName_tags ms name j : jsonName ms name = Ok j ->
  forall m v, In m ms -> assoc "json" m = Some v -> exists s, v = Some s /\ (s = "-" \/ Identifier s).
Proof.
  revert name. induction ms as [|m ms IH]; intros name H m' v Hm Hv; [contradiction|]. cbn in H.
  destruct Hm as [->|Hm].
  - rewrite Hv in H. destruct v as [s|]; [|discriminate]. exists s. split; [reflexivity|].
    destruct (String.eqb_spec s "-"); [now left|]. destruct (isValidArgName s) eqn:E; [|discriminate].
    right. now apply validArg_iff.
  - destruct (assoc "json" m) as [[s|]|]; [|discriminate|eauto].
    destruct (String.eqb s "-"); [eauto|]. destruct (isValidArgName s); [eauto|discriminate].
Qed.

Lemma checkFields_tags fs : forall seen jseen, checkFields fs seen jseen = Ok tt -> Forall TagsOk fs.
Proof.
  induction fs as [|f fs IH]; intros seen jseen H; [constructor|]. cbn [checkFields] in H.
  destruct (String.eqb (f_name f) ""); [discriminate|].
  destruct (negb (isValidArgName (f_name f))); [discriminate|].
  destruct (str_in _ seen); [discriminate|]. apply bind_ok in H as (j & Hj & H).
  destruct (str_in _ jseen); [discriminate|]. constructor; [|eapply IH; exact H].
  unfold TagsOk. intros m v. eapply jsonName_tags; exact Hj.
Qed.

Lemma checkFields_ok fs seen jseen : checkFields fs seen jseen = Ok tt ->
  FieldsOk fs /\
  (forall f, In f fs -> ~ In (to_lower (f_name f)) seen /\ ~ In (to_lower (json_key f)) jseen).
Proof.
  intro H0. pose proof (checkFields_tags _ _ _ H0) as Htags. revert seen jseen H0.
  induction fs as [|f fs IH]; intros seen jseen H.
  - split; [|intros f []]. repeat split; constructor.
  - cbn [checkFields] in H.
    destruct (String.eqb (f_name f) ""); [discriminate|].
    destruct (isValidArgName (f_name f)) eqn:Hv; [|discriminate]. cbn [negb] in H.
    destruct (str_in (to_lower (f_name f)) seen) eqn:Hs; [discriminate|].
    apply bind_ok in H as (j & Hj & H).
    destruct (str_in (to_lower j) jseen) eqn:Hjs; [discriminate|].
    apply str_in_not in Hs, Hjs. apply validArg_iff in Hv.
    pose proof (jsonName_key _ _ _ Hj) as Hk. fold (json_tags f) in Hk. fold (json_key f) in Hk.
    pose proof (jsonName_valid _ _ _ Hj Hv) as Hjv. subst j.
    inversion Htags as [|? ? Ht1 Ht2]; subst. destruct (IH Ht2 _ _ H) as [(F1 & F2 & F3 & F4 & F5) Hin]. split.
    + split; [|split; [|split; [|split]]]; cbn [map]; constructor; try assumption.
      * intro Hi. apply in_map_iff in Hi as (g & Eg & Hg). destruct (Hin g Hg) as [Hn _].
        apply Hn. left. now symmetry.
      * intro Hi. apply in_map_iff in Hi as (g & Eg & Hg). destruct (Hin g Hg) as [_ Hn].
        apply Hn. left. now symmetry.
    + intros g [<-|Hg]; [now split|]. destruct (Hin g Hg) as [H1 H2].
      split; intro Hi; [apply H1|apply H2]; now right.
Qed.

Lemma checkEnumFields_ok fs : checkEnumFields fs = Ok tt ->
  Forall (fun f => f_value f <> "" /\ f_type f = None) fs.
Proof.
  induction fs as [|f fs IH]; cbn; intro H; [constructor|].
  destruct (String.eqb_spec (f_value f) ""); [discriminate|].
  destruct (f_type f) eqn:Ht; [discriminate|]. constructor; auto.
Qed.

(** ** types *)

(** parsing depends only on names, kinds and underlying types of the declarations *)
Definition sig (t : type) := (t_name t, t_kind t, t_type t).

Lemma find_sig (p q : type -> bool) ts ts' :
  map sig ts = map sig ts' ->
  (forall t t', sig t = sig t' -> p t = q t') ->
  option_map sig (find p ts) = option_map sig (find q ts').
Proof.
  revert ts'. induction ts as [|t ts IH]; intros [|t' ts'] E H; try discriminate; [reflexivity|].
  cbn in E. injection E as E1 E2 E3 E. cbn. rewrite (H t t') by (unfold sig; congruence).
  destruct (q t'); [cbn; unfold sig; congruence|]. now apply IH.
Qed.

Lemma getType_sig ts ts' e : map sig ts = map sig ts' ->
  option_map sig (getType ts e) = option_map sig (getType ts' e).
Proof. intro E. apply find_sig; [assumption|]. intros t t' H. unfold sig in H. congruence. Qed.

Lemma getTypeByName_sig ts ts' e : map sig ts = map sig ts' ->
  option_map sig (getTypeByName ts e) = option_map sig (getTypeByName ts' e).
Proof. intro E. apply find_sig; [assumption|]. intros t t' H. unfold sig in H. congruence. Qed.

Lemma keyIsEnum_sig t t' : sig t = sig t' -> keyIsEnum t = keyIsEnum t'.
Proof. unfold sig, keyIsEnum. intro H. injection H as H1 H2 H3. now rewrite H2, H3. Qed.

Lemma parseVT_sig n ts ts' e : map sig ts = map sig ts' -> parseVT n ts e = parseVT n ts' e.
Proof.
  intro E. revert e. induction n as [|n IH]; intro e; [reflexivity|]. cbn [parseVT].
  rewrite (IH (trim_prefix "[]" e)).
  assert (Hg : forall k, match getTypeByName ts k with Some t => Some (sig t) | None => None end
                       = match getTypeByName ts' k with Some t => Some (sig t) | None => None end)
    by (intro k; apply (getTypeByName_sig ts ts' k E)).
  assert (Hn : match getType ts e with
          | None => Err "schema error: invalid type"
          | Some t =>
              if String.eqb (t_kind t) "struct" then Ok (VT e (ShStruct e (t_name t)))
              else if String.eqb (t_kind t) "enum" then Ok (VT e (ShEnum e (t_name t)))
              else if String.eqb (t_kind t) "alias" then Ok (VT e (ShAlias e (t_name t)))
              else Err "schema error: unexpected type"
          end = match getType ts' e with
          | None => Err "schema error: invalid type"
          | Some t =>
              if String.eqb (t_kind t) "struct" then Ok (VT e (ShStruct e (t_name t)))
              else if String.eqb (t_kind t) "enum" then Ok (VT e (ShEnum e (t_name t)))
              else if String.eqb (t_kind t) "alias" then Ok (VT e (ShAlias e (t_name t)))
              else Err "schema error: unexpected type"
          end).
  { pose proof (getType_sig ts ts' e E) as Hs.
    destruct (getType ts e) as [t|], (getType ts' e) as [t'|]; cbn in Hs; try discriminate; [|reflexivity].
    injection Hs as H1 H2 H3. now rewrite H1, H2. }
  rewrite Hn. clear Hn.
  assert (Hm : forall (F G : string * string -> result varType), (forall kv, F kv = G kv) ->
     bind (parseMapExpr e) F = bind (parseMapExpr e) G).
  { intros F G HFG. destruct (parseMapExpr e); cbn; auto. }
  match goal with |- context [bind (parseMapExpr e) ?F] =>
    match goal with |- context [bind (parseMapExpr e) ?G] =>
      lazymatch G with F => fail | _ => rewrite (Hm F G) end end end; [reflexivity|].
  intros [k v]. rewrite (IH v).
  destruct (core_from_string k) as [c|]; [reflexivity|]. specialize (Hg k).
  destruct (getTypeByName ts k) as [t|], (getTypeByName ts' k) as [t'|]; cbn in Hg; try discriminate; [|reflexivity].
  injection Hg as H1 H2 H3. rewrite (keyIsEnum_sig t t') by (unfold sig; congruence). now rewrite H1.
Qed.

Lemma parse_sig ts ts' e : map sig ts = map sig ts' -> parseVarTypeExpr ts e = parseVarTypeExpr ts' e.
Proof. apply parseVT_sig. Qed.

Lemma vtParse_sig ts ts' v : map sig ts = map sig ts' -> vtParse ts v = vtParse ts' v.
Proof.
  intro E. unfold vtParse. destruct v as [v|]; [|reflexivity].
  now rewrite (parse_sig ts ts' (vt_expr v) E).
Qed.

Lemma Declared_sig ts ts' n k : map sig ts = map sig ts' -> Declared ts n k -> Declared ts' n k.
Proof.
  intros E (t & Hin & Hn & Hk).
  apply (in_map sig) in Hin. rewrite E in Hin. apply in_map_iff in Hin as (t' & Es & Hin).
  unfold sig in Es. injection Es as E1 E2 E3. exists t'. repeat split; congruence.
Qed.

Lemma KeyDeclared_sig ts ts' n : map sig ts = map sig ts' -> KeyDeclared ts n -> KeyDeclared ts' n.
Proof.
  intros E (t & Hin & Hn & Hk).
  apply (in_map sig) in Hin. rewrite E in Hin. apply in_map_iff in Hin as (t' & Es & Hin).
  unfold sig in Es. injection Es as E1 E2 E3. exists t'. split; [assumption|]. split; [congruence|].
  rewrite E2, E3. assumption.
Qed.

Lemma TypeOk_sig ts ts' y : map sig ts = map sig ts' -> TypeOk ts y -> TypeOk ts' y.
Proof.
  intros E H. induction H; try (constructor; assumption).
  - apply OkMapNamed; try assumption. eapply KeyDeclared_sig; eassumption.
  - apply OkStruct. eapply Declared_sig; eassumption.
  - apply OkEnum. eapply Declared_sig; eassumption.
  - apply OkAlias. eapply Declared_sig; eassumption.
Qed.

Lemma vtParse_ok ts v w : vtParse ts v = Ok w ->
  exists v0, v = Some v0 /\ vt_expr v0 <> "" /\
  ((exists y, tree w = Some y /\ TypeOk ts y /\ vt_expr w = show y /\ vt_expr v0 = show y) \/ tree w = None).
Proof.
  unfold vtParse. destruct v as [v0|]; [|discriminate].
  destruct (String.eqb_spec (vt_expr v0) "") as [|Hne]; [discriminate|]. intro H.
  apply bind_ok in H as (v' & Hp & H). injection H as <-. apply parse_iff in Hp.
  exists v0. split; [reflexivity|]. split; [assumption|].
  destruct v' as [e sh]. cbn [vt_shape].
  change (tree (VT (buildExpr (VT e sh)) sh)) with (tree (VT e sh)).
  destruct (tree (VT e sh)) as [y|] eqn:Hy; [|now right]. left. exists y.
  split; [reflexivity|]. split; [eapply Parsed_TypeOk; eassumption|]. cbn [vt_expr].
  rewrite (Parsed_build _ _ _ _ Hp Hy). split; symmetry; eapply Parsed_show; eassumption.
Qed.

Lemma mapM_In {A B} (f : A -> result B) l l' b :
  mapM f l = Ok l' -> In b l' -> exists a, In a l /\ f a = Ok b.
Proof.
  intros H Hb. apply mapM_Forall2 in H. induction H as [|p q l l' Hpq Hl IH]; [contradiction|].
  destruct Hb as [<-|Hb]; [exists p; split; [now left|assumption]|].
  destruct (IH Hb) as (x & Hi & Hp). exists x. split; [now right|assumption].
Qed.

Lemma mapM_Forall {A B} (f : A -> result B) (P : B -> Prop) l l' :
  mapM f l = Ok l' -> (forall a b, In a l -> f a = Ok b -> P b) -> Forall P l'.
Proof.
  intros H HP. apply mapM_Forall2 in H. induction H as [|a b l l' Hab _ IH]; constructor.
  - eapply HP; [left; reflexivity|exact Hab].
  - apply IH. intros x y Hx. apply HP. now right.
Qed.

Lemma mapM_map_eq {A B C} (f : A -> result B) (g : A -> C) (h : B -> C) l l' :
  mapM f l = Ok l' -> (forall a b, In a l -> f a = Ok b -> g a = h b) -> map g l = map h l'.
Proof.
  intros H Hg. apply mapM_Forall2 in H. induction H as [|a b l l' Hab _ IH]; [reflexivity|].
  cbn. f_equal; [apply Hg; [now left|assumption]|]. apply IH. intros x y Hx. apply Hg. now right.
Qed.

Lemma parseField_inv ts f f' : parseField ts f = Ok f' ->
  exists v w, f_type f = Some v /\ vtParse ts (Some v) = Ok w /\ f_value f = "" /\
    f' = Field (f_name f) (Some w) (f_optional f) "" (f_meta f) (f_comments f).
Proof.
  unfold parseField. intro H. apply bind_ok in H as (w & Hw & H).
  destruct (String.eqb_spec (f_value f) "") as [E|]; [|discriminate]. injection H as <-.
  destruct (f_type f) as [v|] eqn:Ht; [|discriminate]. rewrite E. eauto 6.
Qed.

Lemma TagsOk_ext f g : f_meta f = f_meta g -> TagsOk f -> TagsOk g.
Proof. unfold TagsOk. now intros ->. Qed.

Lemma json_key_ext f g : f_meta f = f_meta g -> f_name f = f_name g -> json_key f = json_key g.
Proof. unfold json_key, json_tags. intros -> ->. reflexivity. Qed.

Lemma FieldsOk_ext fs gs :
  Forall2 (fun f g => f_meta f = f_meta g /\ f_name f = f_name g) fs gs -> FieldsOk fs -> FieldsOk gs.
Proof.
  intros H (F1 & F2 & F3 & F4 & F5).
  assert (E1 : map (fun f => to_lower (f_name f)) fs = map (fun f => to_lower (f_name f)) gs).
  { clear -H. induction H as [|f g fs gs [E1 E2] _ IH]; cbn; congruence. }
  assert (E2 : map (fun f => to_lower (json_key f)) fs = map (fun f => to_lower (json_key f)) gs).
  { clear -H. induction H as [|f g fs gs [E1 E2] _ IH]; cbn; [reflexivity|].
    rewrite (json_key_ext f g) by assumption. congruence. }
  split; [|split; [congruence|split; [congruence|split]]].
  - clear -H F1. induction H as [|f g fs gs [E1 E2] _ IH]; [constructor|].
    inversion F1; subst. constructor; [congruence|auto].
  - clear -H F4. induction H as [|f g fs gs [E1 E2] _ IH]; [constructor|].
    inversion F4; subst. constructor; [|auto]. now rewrite <- (json_key_ext f g).
  - clear -H F5. induction H as [|f g fs gs [E1 E2] _ IH]; [constructor|].
    inversion F5; subst. constructor; [|auto]. now apply (TagsOk_ext f g).
Qed.

Lemma Forall2_impl {A B} (P Q : A -> B -> Prop) l l' :
  (forall a b, P a b -> Q a b) -> Forall2 P l l' -> Forall2 Q l l'.
Proof. intros H; induction 1; constructor; auto. Qed.

Lemma typeParse_inv ts t t' : typeParse ts t = Ok t' ->
  t_id t' = t_id t /\ sig t' = sig t /\ TypeDeclOk (ResolvedOrIncomplete ts) t' /\
  (forall u, In u ts -> t_id u <> t_id t -> to_lower (t_name u) <> to_lower (t_name t)).
Proof.
  unfold typeParse. intro H.
  destruct (String.eqb_spec (t_name t) "") as [|Hne]; [discriminate|].
  destruct (startsWithUpper (t_name t)) eqn:Hup; [|discriminate]. cbn [negb] in H.
  match type of H with (if ?b then _ else _) = _ => destruct b eqn:Hdup; [discriminate|] end.
  assert (Hd : forall u, In u ts -> t_id u <> t_id t -> to_lower (t_name u) <> to_lower (t_name t)).
  { intros u Hu Hid E. assert (Ht : existsb (fun u => negb (ident_eqb (t_id u) (t_id t)) &&
        String.eqb (to_lower (t_name t)) (to_lower (t_name u))) ts = true); [|congruence].
    apply existsb_exists. exists u. split; [assumption|]. apply andb_true_iff. split.
    - apply negb_true_iff. unfold ident_eqb. destruct (t_id u) as [a i], (t_id t) as [b j]. cbn.
      destruct (String.eqb_spec a b); [|reflexivity]. destruct (Nat.eqb_spec i j); [|reflexivity]. congruence.
    - apply String.eqb_eq. now symmetry. }
  destruct (str_in (t_kind t) ["enum"; "struct"; "alias"]) eqn:Hk; [|discriminate]. cbn [negb] in H.
  destruct (String.eqb_spec (t_kind t) "alias") as [Hal|Hnal].
  { destruct (t_type t) as [v|] eqn:Ht; [|discriminate]. injection H as <-.
    split; [reflexivity|]. split; [reflexivity|]. split; [|assumption].
    split; [assumption|]. split; [assumption|]. right; right. split; [assumption|].
    unfold AliasOk. congruence. }
  apply bind_ok in H as ([] & Hf & H). apply checkFields_ok in Hf as [Hf _].
  destruct (String.eqb_spec (t_kind t) "enum") as [Hen|Hnen].
  { apply bind_ok in H as ([] & He & H). apply checkEnumFields_ok in He.
    destruct (isValidVarType _ _) eqn:Hv; [|discriminate]. injection H as <-.
    split; [reflexivity|]. split; [reflexivity|]. split; [|assumption].
    split; [assumption|]. split; [assumption|]. left. split; [assumption|]. split; [assumption|].
    split; [assumption|]. unfold isValidVarType in Hv.
    destruct (core_from_string (vtString (t_type t))) as [[c|]|] eqn:Hc; try discriminate.
    apply core_from_string_inl in Hc. destruct (t_type t) as [v|]; cbn [vtString] in Hc; [|destruct c; discriminate].
    exists v, c. split; [reflexivity|]. split; [assumption|].
    destruct c; cbn in Hv; try discriminate; cbn; auto. }
  { apply bind_ok in H as (fs & Hfs & H). injection H as <-.
    assert (Hst : t_kind t = "struct").
    { apply str_in_In in Hk. cbn in Hk. intuition congruence. }
    split; [reflexivity|]. split; [reflexivity|]. split; [|assumption].
    split; [assumption|]. split; [assumption|]. right; left. cbn.
    split; [assumption|]. split.
    - eapply FieldsOk_ext; [|exact Hf]. apply mapM_Forall2 in Hfs.
      eapply Forall2_impl; [|exact Hfs]. cbv beta. intros f g Hfg.
      apply parseField_inv in Hfg as (v & w & _ & _ & _ & ->). now split.
    - unfold StructOk. cbn. eapply mapM_Forall; [exact Hfs|]. intros f g _ Hfg.
      apply parseField_inv in Hfg as (v & w & Hv & Hw & Hval & ->). cbn. split; [reflexivity|].
      exists w. split; [reflexivity|]. apply vtParse_ok in Hw as (v0 & _ & _ & [(y & H1 & H2 & H3 & _)|Hn]).
      + left. now exists y.
      + now right. }
Qed.

Lemma TypeDeclOk_sig ts ts' t : map sig ts = map sig ts' -> TypeDeclOk (ResolvedOrIncomplete ts) t -> TypeDeclOk (ResolvedOrIncomplete ts') t.
Proof.
  intros E (H1 & H2 & H3). split; [assumption|]. split; [assumption|].
  destruct H3 as [H3|[(H3 & H4 & H5)|H3]]; [tauto| |tauto]. right; left.
  split; [assumption|]. split; [assumption|]. unfold StructOk in *.
  eapply Forall_impl; [|exact H5]. intros f (Hv & v & Hf & Hr). split; [assumption|].
  exists v. split; [assumption|]. destruct Hr as [(y & R1 & R2 & R3)|Hr]; [left|now right].
  exists y. split; [assumption|]. split; [|assumption]. eapply TypeOk_sig; eassumption.
Qed.

Lemma types_ok ts ts' : mapM (typeParse ts) ts = Ok ts' ->
  map t_id ts' = map t_id ts /\ map sig ts' = map sig ts /\
  Forall (TypeDeclOk (ResolvedOrIncomplete ts')) ts' /\ DistinctNames t_id t_name ts'.
Proof.
  intro H.
  assert (Hid : map t_id ts' = map t_id ts).
  { symmetry. eapply mapM_map_eq; [exact H|]. intros a b _ Hab. apply typeParse_inv in Hab. symmetry. tauto. }
  assert (Hsig : map sig ts' = map sig ts).
  { symmetry. eapply mapM_map_eq; [exact H|]. intros a b _ Hab. apply typeParse_inv in Hab. symmetry. tauto. }
  split; [assumption|]. split; [assumption|]. split.
  - eapply mapM_Forall; [exact H|]. intros a b _ Hab. apply typeParse_inv in Hab as (_ & _ & Hok & _).
    eapply TypeDeclOk_sig; [|exact Hok]. now symmetry.
  - intros a b Ha Hb Hne.
    assert (Hget : forall x', In x' ts' -> exists x, In x ts /\ typeParse ts x = Ok x')
      by (intros x' Hx; exact (mapM_In _ _ _ _ H Hx)).
    destruct (Hget a Ha) as (a0 & Ha0 & Pa). destruct (Hget b Hb) as (b0 & Hb0 & Pb).
    apply typeParse_inv in Pa as (Ia & Sa & _ & _). apply typeParse_inv in Pb as (Ib & Sb & _ & Db).
    unfold sig in Sa, Sb. injection Sa as Na _ _. injection Sb as Nb _ _.
    rewrite Na, Nb. apply Db; [assumption|]. congruence.
Qed.

(** ** errors *)

Lemma checkErrorDups_ok es names codes : checkErrorDups es names codes = Ok tt ->
  NoDup (map x_code es) /\ NoDup (map (fun e => to_lower (x_name e)) es) /\
  (forall e, In e es -> ~ In (to_lower (x_name e)) names /\ ~ In (x_code e) codes).
Proof.
  revert names codes. induction es as [|e es IH]; intros names codes H.
  - repeat split; try constructor; contradiction.
  - cbn in H. destruct (str_in _ names) eqn:Hn; [discriminate|].
    destruct (existsb (Z.eqb (x_code e)) codes) eqn:Hc; [discriminate|].
    apply str_in_not in Hn. destruct (IH _ _ H) as (D1 & D2 & D3).
    assert (Hc' : ~ In (x_code e) codes).
    { intro Hi. assert (existsb (Z.eqb (x_code e)) codes = true); [|congruence].
      apply existsb_exists. exists (x_code e). split; [assumption|apply Z.eqb_refl]. }
    split; [|split].
    + cbn. constructor; [|assumption]. intro Hi. apply in_map_iff in Hi as (g & Eg & Hg).
      destruct (D3 g Hg) as [_ D]. apply D. left. now symmetry.
    + cbn. constructor; [|assumption]. intro Hi. apply in_map_iff in Hi as (g & Eg & Hg).
      destruct (D3 g Hg) as [D _]. apply D. left. now symmetry.
    + intros g [<-|Hg]; [now split|]. destruct (D3 g Hg) as [A B].
      split; intro Hi; [apply A|apply B]; now right.
Qed.

Lemma trim_right_idem p s : trim_right p (trim_right p s) = trim_right p s.
Proof.
  induction s as [|c s IH]; [reflexivity|]. cbn.
  destruct (trim_right p s) as [|d r] eqn:E.
  - destruct (p c) eqn:Hc; [reflexivity|]. cbn. now rewrite Hc.
  - cbn [trim_right] in *. rewrite IH. reflexivity.
Qed.

Lemma trim_left_head p s : match trim_left p s with "" => True | String c _ => p c = false end.
Proof. induction s as [|c s IH]; cbn; [trivial|]. destruct (p c) eqn:E; [exact IH|exact E]. Qed.

Lemma trim_space_idem s : trim_space (trim_space s) = trim_space s.
Proof.
  unfold trim_space.
  assert (Hl : trim_left is_space_byte (trim_right is_space_byte (trim_left is_space_byte s))
             = trim_right is_space_byte (trim_left is_space_byte s)).
  { pose proof (trim_left_head is_space_byte s) as H.
    destruct (trim_left is_space_byte s) as [|c r]; [reflexivity|]. cbn [trim_right].
    destruct (trim_right is_space_byte r); rewrite ?H; cbn; rewrite ?H; reflexivity. }
  rewrite Hl. apply trim_right_idem.
Qed.

Lemma errorParse_inv before e after e' : errorParse before e after = Ok e' ->
  ErrorOk e' /\ checkErrorDups (before ++ e' :: after) [] [] = Ok tt /\
  e' = Error_ (x_id e) (x_code e) (trim_space (x_name e)) (x_message e) (x_status e).
Proof.
  unfold errorParse. intro H. cbn [x_name x_code x_message x_status] in H.
  destruct (String.eqb_spec (trim_space (x_name e)) ""); [discriminate|].
  destruct (Z.leb_spec (x_code e) 0); [discriminate|].
  destruct (startsWithUpper (trim_space (x_name e))) eqn:Hu; [|discriminate]. cbn [negb] in H.
  destruct (has_prefix "webrpc" (to_lower (trim_space (x_name e)))) eqn:Hw; [discriminate|].
  destruct (String.eqb_spec (x_message e) ""); [discriminate|].
  destruct ((x_status e <? 400)%Z || (599 <? x_status e)%Z) eqn:Hs; [discriminate|].
  apply bind_ok in H as ([] & Hd & H). injection H as <-.
  split; [|split; [assumption|reflexivity]].
  unfold ErrorOk. cbn [x_name x_code x_message x_status]. rewrite trim_space_idem. repeat split; try assumption; lia.
Qed.

Lemma parseErrors_ok before todo es : parseErrors before todo = Ok es ->
  Forall ErrorOk before -> (todo = [] -> checkErrorDups before [] [] = Ok tt) -> ErrorsOk es.
Proof.
  revert before. induction todo as [|e todo IH]; intros before H Hb Hd; cbn in H.
  - injection H as <-. split; [assumption|].
    destruct (checkErrorDups_ok _ _ _ (Hd eq_refl)) as (D1 & D2 & _). now split.
  - apply bind_ok in H as (e' & He & H). apply errorParse_inv in He as (Hok & Hdup & _).
    apply (IH _ H).
    + apply Forall_app. split; [assumption|]. constructor; [assumption|constructor].
    + intros ->. exact Hdup.
Qed.

(** ** services *)

Lemma checkMethodNames_ok ms seen : checkMethodNames ms seen = Ok tt ->
  Forall (fun m => me_name m <> "") ms /\
  NoDup (map (fun m => to_lower (me_name m)) ms) /\
  (forall m, In m ms -> ~ In (to_lower (me_name m)) seen).
Proof.
  revert seen. induction ms as [|m ms IH]; intros seen H.
  - repeat split; try constructor. contradiction.
  - cbn in H. destruct (String.eqb_spec (me_name m) ""); [discriminate|].
    destruct (str_in _ seen) eqn:Hs; [discriminate|]. apply str_in_not in Hs.
    destruct (IH _ H) as (D1 & D2 & D3). split; [|split].
    + constructor; assumption.
    + cbn. constructor; [|assumption]. intro Hi. apply in_map_iff in Hi as (g & Eg & Hg).
      apply (D3 g Hg). left. now symmetry.
    + intros g [<-|Hg]; [assumption|]. intro Hi. apply (D3 g Hg). now right.
Qed.

Lemma parseArg_inv ts a a' : parseArg ts a = Ok a' ->
  exists v w, g_type a = Some v /\ vtParse ts (Some v) = Ok w /\ g_name a <> "" /\
    a' = Arg_ (g_name a) (Some w) (g_optional a).
Proof.
  unfold parseArg. destruct (String.eqb_spec (g_name a) ""); [discriminate|]. intro H.
  apply bind_ok in H as (w & Hw & H). injection H as <-.
  destruct (g_type a) as [v|]; [|discriminate]. eauto 6.
Qed.

Lemma parseArg_ok ts a a' : parseArg ts a = Ok a' -> ArgOk (ResolvedOrIncomplete ts) a'.
Proof.
  intro H. apply parseArg_inv in H as (v & w & Hv & Hw & Hn & ->).
  split; [assumption|]. exists w. split; [reflexivity|].
  apply vtParse_ok in Hw as (v0 & _ & _ & [(y & H1 & H2 & H3 & _)|Hnn]).
  - left. now exists y.
  - now right.
Qed.

Lemma methodParse_inv ts es m m' : methodParse ts es m = Ok m' ->
  exists ins outs,
    mapM (parseArg ts) (me_inputs m) = Ok ins /\ mapM (parseArg ts) (me_outputs m) = Ok outs /\
    forallb (fun n => existsb (fun e => String.eqb (x_name e) n) es) (me_errors m) = true /\
    (1 <? length (me_inputs m)) && me_succinct m = false /\
    (1 <? length (me_outputs m)) && me_succinct m = false /\
    m' = Method_ (me_name m) (me_annotations m) (me_comments m) (me_succinct m)
           (me_stream_in m) (me_stream_out m) ins outs (me_errors m).
Proof.
  unfold methodParse. intro H.
  destruct ((1 <? length (me_inputs m)) && me_succinct m) eqn:H1; [discriminate|].
  apply bind_ok in H as (ins & Hi & H).
  destruct ((1 <? length (me_outputs m)) && me_succinct m) eqn:H2; [discriminate|].
  apply bind_ok in H as (outs & Ho & H).
  destruct (forallb _ (me_errors m)) eqn:He; [|discriminate]. injection H as <-. eauto 10.
Qed.

Lemma methodParse_ok ts es m m' : me_name m <> "" -> methodParse ts es m = Ok m' ->
  MethodOk (ResolvedOrIncomplete ts) es m' /\ me_name m' = me_name m.
Proof.
  intros Hne H. apply methodParse_inv in H as (ins & outs & Hi & Ho & He & S1 & S2 & ->).
  split; [|reflexivity]. split; [assumption|]. cbn.
  split; [eapply mapM_Forall; [exact Hi|]; intros a b _; apply parseArg_ok|].
  split; [eapply mapM_Forall; [exact Ho|]; intros a b _; apply parseArg_ok|]. split.
  - intros n Hn. rewrite forallb_forall in He. specialize (He n Hn).
    apply existsb_exists in He as (e & Hin & E). exists e. split; [assumption|]. now apply String.eqb_eq.
  - intro Hs. rewrite Hs in S1, S2. rewrite andb_true_r in S1, S2.
    rewrite (mapM_length _ _ _ Hi), (mapM_length _ _ _ Ho).
    apply Nat.ltb_ge in S1, S2. lia.
Qed.

Lemma serviceParse_inv ts es ss s s' : serviceParse ts es ss s = Ok s' ->
  ServiceOk (ResolvedOrIncomplete ts) es s' /\ v_id s' = v_id s /\ v_name s' = v_name s /\
  (forall u, In u ss -> v_id u <> v_id s -> to_lower (v_name u) <> to_lower (v_name s)) /\
  (exists ms, mapM (methodParse ts es) (v_methods s) = Ok ms /\ v_methods s' = ms).
Proof.
  unfold serviceParse. intro H.
  destruct (String.eqb_spec (v_name s) "") as [|Hne]; [discriminate|].
  match type of H with (if ?b then _ else _) = _ => destruct b eqn:Hdup; [discriminate|] end.
  assert (Hd : forall u, In u ss -> v_id u <> v_id s -> to_lower (v_name u) <> to_lower (v_name s)).
  { intros u Hu Hid E. assert (Ht : existsb (fun u => negb (ident_eqb (v_id u) (v_id s)) &&
        String.eqb (to_lower (v_name s)) (to_lower (v_name u))) ss = true); [|congruence].
    apply existsb_exists. exists u. split; [assumption|]. apply andb_true_iff. split.
    - apply negb_true_iff. unfold ident_eqb. destruct (v_id u) as [a i], (v_id s) as [b j]. cbn.
      destruct (String.eqb_spec a b); [|reflexivity]. destruct (Nat.eqb_spec i j); [|reflexivity]. congruence.
    - apply String.eqb_eq. now symmetry. }
  assert (H' : (do _ <- checkMethodNames (v_methods s) [];
                do ms <- mapM (methodParse ts es) (v_methods s);
                Ok (Service_ (v_id s) (v_name s) ms (v_comments s))) = Ok s' /\ v_methods s <> []).
  { destruct (v_methods s); [discriminate|]. split; [assumption|discriminate]. }
  clear H. destruct H' as [H Hnn].
  apply bind_ok in H as ([] & Hc & H). apply bind_ok in H as (ms & Hms & H). injection H as <-.
  apply checkMethodNames_ok in Hc as (C1 & C2 & _). cbn.
  assert (Hnames : map (fun m => me_name m) (v_methods s) = map (fun m => me_name m) ms).
  { eapply mapM_map_eq; [exact Hms|]. intros a b Ha Hab. rewrite Forall_forall in C1.
    symmetry. eapply methodParse_ok; [apply C1, Ha|exact Hab]. }
  split; [|split; [reflexivity|split; [reflexivity|split; [assumption|eauto]]]].
  split; [assumption|]. cbn. split.
  { intro E. apply Hnn. apply mapM_length in Hms. rewrite E in Hms. destruct (v_methods s); [reflexivity|discriminate]. }
  split.
  - eapply mapM_Forall; [exact Hms|]. intros a b Ha Hab. rewrite Forall_forall in C1.
    eapply methodParse_ok; [apply C1, Ha|exact Hab].
  - rewrite <- (map_map (fun m => me_name m) to_lower). rewrite <- Hnames. rewrite map_map. exact C2.
Qed.

(** ** Validate *)

Lemma validate_inv u s s' : validate u s = Ok s' ->
  exists b ts es ss,
    sc_webrpc s = "v1" /\ (sc_services s <> [] -> sc_version s <> "") /\
    checkBasePath u (sc_basepath s) = Ok b /\
    mapM (typeParse (sc_types s)) (sc_types s) = Ok ts /\
    parseErrors [] (sc_errors s) = Ok es /\
    mapM (serviceParse ts es (sc_services s)) (sc_services s) = Ok ss /\
    s' = Schema_ (sc_webrpc s) (sc_name s) (sc_version s) b ts es ss.
Proof.
  unfold validate. intro H.
  destruct (String.eqb_spec (sc_webrpc s) "v1") as [E|]; [|discriminate]. cbn [negb] in H.
  destruct (negb (length (sc_services s) =? 0) && String.eqb (sc_version s) "") eqn:Hv; [discriminate|].
  apply bind_ok in H as (b & Hb & H). apply bind_ok in H as (ts & Hts & H).
  apply bind_ok in H as (es & Hes & H). apply bind_ok in H as (ss & Hss & H). injection H as <-.
  exists b, ts, es, ss. repeat split; try assumption.
  intros Hne Hver. rewrite Hver in Hv. cbn in Hv. rewrite andb_true_r in Hv.
  destruct (sc_services s); [congruence|discriminate].
Qed.

Lemma validate_ok u s s' : validate u s = Ok s' -> SchemaOk ResolvedOrIncomplete s'.
Proof.
  intro H. apply validate_inv in H as (b & ts & es & ss & Hw & Hv & _ & Hts & Hes & Hss & ->).
  destruct (types_ok _ _ Hts) as (Tid & Tsig & Tok & Tn).
  assert (Hss2 : forall s', In s' ss -> exists s0, In s0 (sc_services s) /\ serviceParse ts es (sc_services s) s0 = Ok s').
  { intros x Hx. exact (mapM_In _ _ _ _ Hss Hx). }
  constructor; cbn.
  - assumption.
  - intro Hne. apply Hv. intro E. rewrite E in Hss. cbn in Hss. injection Hss as <-. congruence.
  - assumption.
  - assumption.
  - eapply parseErrors_ok; [exact Hes|constructor|reflexivity].
  - apply Forall_forall. intros x Hx. destruct (Hss2 x Hx) as (x0 & _ & Hp).
    apply serviceParse_inv in Hp. tauto.
  - intros a c Ha Hc Hne. destruct (Hss2 a Ha) as (a0 & Ha0 & Pa). destruct (Hss2 c Hc) as (c0 & Hc0 & Pc).
    apply serviceParse_inv in Pa as (_ & Ia & Na & _). apply serviceParse_inv in Pc as (_ & Ic & Nc & Dc & _).
    rewrite Na, Nc. apply Dc; [assumption|congruence].
Qed.

Lemma distinct_nodup {A} (id : A -> ident) (name : A -> string) l :
  NoDup (map id l) -> DistinctNames id name l -> NoDup (map (fun x => to_lower (name x)) l).
Proof.
  induction l as [|a l IH]; cbn; intros Hn Hd; [constructor|].
  inversion Hn as [|? ? Hni Hn']; subst. constructor.
  - intro Hi. apply in_map_iff in Hi as (b & Eb & Hb). 
    apply (Hd a b); [now left|now right| |now symmetry].
    intro E. apply Hni. rewrite E. now apply in_map.
  - apply IH; [assumption|]. intros x y Hx Hy. apply Hd; now right.
Qed.
