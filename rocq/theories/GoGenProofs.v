(** Values of a schema type are values of the Go type generated for it. *)
From Verif Require Import Base BaseProofs Utf8 Utf8Proofs Schema TypeSpec TypeProofs ValidateSpec ValidateProofs Json JsonProofs GoVal GoValSpec GoValProofs
  Rpc RpcSpec RpcProofs Succinct SuccinctSpec GoGen GoGenSpec.

From Verif Require Props_Succinct.

(** ** core types *)
Lemma int_core c lo hi : IntRange c lo hi -> coreTy c = TInt lo hi.
Proof. destruct c; cbn; try tauto; intros [-> ->]; reflexivity. Qed.
Lemma integer_range c : integer_core c -> exists lo hi, coreTy c = TInt lo hi.
Proof. destruct c; cbn; try tauto; intros _; eexists _, _; reflexivity. Qed.

Lemma slice_other g : g <> TInt 0 255 -> sliceOf g = TSlice g.
Proof.
  intros H. destruct g as [|lo hi| | | | | | | |]; try reflexivity. destruct lo as [|p|p]; try reflexivity. destruct hi as [|p|p]; try reflexivity.
  do 8 (destruct p as [p|p|]; try reflexivity). contradiction.
Qed.

(** ** enums *)
Lemma rows_spec lo hi : forall fs t, enumRows lo hi fs = Some t ->
  map fst t = map f_name fs /\ map f_value fs = map zdec (map snd t) /\
  (forall f z, In f fs -> f_value f = zdec z -> In (f_name f, z) t).
Proof.
  induction fs as [|f r IH]; intros t H; cbn [enumRows] in H.
  - injection H as <-. repeat split. intros f z [].
  - destruct (parseInt lo hi (f_value f)) as [z|] eqn:P; [|discriminate]. destruct (enumRows lo hi r) as [t'|]; [|discriminate].
    destruct (String.eqb_spec (zdec z) (f_value f)) as [E|]; [|discriminate]. injection H as <-.
    destruct (IH t' eq_refl) as (A & B & C). cbn [map fst snd]. split; [congruence|]. split; [congruence|].
    intros f' z' [<-|I] F; [|right; exact (C _ _ I F)]. left. f_equal. rewrite <- E in F.
    assert (Q1 : parseInt (Z.min z z') (Z.max z z') (zdec z) = Some z) by (apply parseInt_zdec; lia).
    assert (Q2 : parseInt (Z.min z z') (Z.max z z') (zdec z') = Some z') by (apply parseInt_zdec; lia). congruence.
Qed.

Definition FieldsFine (ts : list type) : Prop :=
  forall t, In t ts -> t_kind t = "struct" \/ t_kind t = "enum" -> FieldsOk (t_fields t).

Lemma alpha_ascii c : is_arg_char c = true -> (N_of_byte c <? 128)%N = true.
Proof.
  unfold is_arg_char, is_alpha_byte, is_digit_byte, is_lower_byte, is_upper_byte, in_range. intros H.
  apply orb_true_iff in H as [B|B]; [|apply Ascii.eqb_eq in B; subst; reflexivity]. apply N.ltb_lt.
  rewrite !orb_true_iff, !andb_true_iff, !N.leb_le in B. lia.
Qed.
Lemma identifier_valid s : Identifier s -> ValidUtf8 s.
Proof.
  intros I. apply ascii_valid. apply validArg_iff in I. destruct s as [|c r]; [discriminate|]. cbn [isValidArgName] in I.
  apply andb_true_iff in I as [A B]. unfold is_ascii. cbn [sforall]. apply andb_true_iff. split.
  - apply alpha_ascii. unfold is_arg_char. rewrite A. reflexivity.
  - clear A. induction r as [|d r IH]; [reflexivity|]. cbn [sforall] in *. apply andb_true_iff in B as [B1 B2].
    rewrite (alpha_ascii _ B1). exact (IH B2).
Qed.

Lemma map_In_inv {A B} (f : A -> B) l b : In b (map f l) -> exists a, In a l /\ f a = b.
Proof. rewrite in_map_iff. firstorder. Qed.

Lemma nodup_lower {A} (f : A -> string) l : NoDup (map (fun x => to_lower (f x)) l) -> NoDup (map f l).
Proof. rewrite <- (map_map f to_lower). apply NoDup_map_inv. Qed.

Lemma table_ok ts t lo hi tbl : FieldsFine ts -> DistinctMembers ts -> In t ts -> t_kind t = "enum" ->
  enumRows lo hi (t_fields t) = Some tbl -> GoValSpec.EnumOk tbl.
Proof.
  intros FF DM I K R. destruct (rows_spec _ _ _ _ R) as (A & B & _). destruct (FF t I (or_intror K)) as (F1 & F2 & _).
  split; [rewrite A; apply nodup_lower, F2|]. split.
  - specialize (DM t I K). rewrite B in DM. apply NoDup_map_inv in DM. exact DM.
  - intros n z X. apply (in_map fst) in X. cbn [fst] in X. rewrite A in X. apply map_In_inv in X as (f & X & <-).
    apply identifier_valid. rewrite Forall_forall in F1. exact (F1 f X).
Qed.

Lemma getType_in ts d t : getType ts d = Some t -> In t ts /\ t_name t = d.
Proof. unfold getType. intros H. apply find_some in H as [H E]. apply String.eqb_eq in E. auto. Qed.

Lemma enumTy_over ts d t c : EnumOver ts d t c -> enumTy ts d =
  match coreTy c with TInt lo hi => option_map TEnum (enumRows lo hi (t_fields t)) | TString => Some TString | _ => None end.
Proof.
  intros ((G & K) & v & E1 & E2). unfold enumTy. rewrite G, K, String.eqb_refl, E1. cbn [vtString]. rewrite E2, core_from_to. reflexivity.
Qed.

Lemma enum_member ts d t c f z g : FieldsFine ts -> DistinctMembers ts -> EnumOver ts d t c -> integer_core c -> In f (t_fields t) ->
  f_value f = zdec z -> enumTy ts d = Some g -> exists tbl, g = TEnum tbl /\ GoValSpec.EnumOk tbl /\ In (f_name f, z) tbl.
Proof.
  intros FF DM EO IC I V H. rewrite (enumTy_over _ _ _ _ EO) in H. destruct (integer_range c IC) as (lo & hi & E). rewrite E in H.
  destruct (enumRows lo hi (t_fields t)) as [tbl|] eqn:R; [|discriminate]. injection H as <-. exists tbl. split; [reflexivity|].
  destruct EO as ((G & K) & _). split; [exact (table_ok ts t lo hi tbl FF DM (proj1 (getType_in _ _ _ G)) K R)|].
  destruct (rows_spec _ _ _ _ R) as (_ & _ & X). exact (X f z I V).
Qed.
Lemma enum_text ts d t g : EnumOver ts d t CString -> enumTy ts d = Some g -> g = TString.
Proof. intros EO H. rewrite (enumTy_over _ _ _ _ EO) in H. cbn in H. congruence. Qed.

(** ** keys *)
Lemma key_written ts k x n k' : FieldsFine ts -> DistinctMembers ts -> keyOf ts k = Some k' -> KeyValue ts k x n -> KeyWritten k' x n.
Proof.
  intros FF DM K H. destruct H as [e s V|e c lo hi z R B|e m d t c f z EO IC I V|e m d t f EO I V]; cbn [keyOf vt_shape] in K.
  - injection K as <-. constructor. exact V.
  - rewrite (int_core _ _ _ R) in K. injection K as <-. constructor. exact B.
  - destruct (enumTy ts d) as [g|] eqn:E; [|discriminate]. destruct (enum_member _ _ _ _ _ _ _ FF DM EO IC I V E) as (tbl & -> & O & IT).
    injection K as <-. constructor; assumption.
  - destruct (enumTy ts d) as [g|] eqn:E; [|discriminate]. rewrite (enum_text _ _ _ _ EO E) in K. injection K as <-. constructor. exact V.
Qed.

(** ** what a Go type says of the type it stands for *)
Lemma enumTy_cases ts d g : enumTy ts d = Some g -> g = TString \/ exists tbl, g = TEnum tbl.
Proof.
  unfold enumTy. destruct (getType ts d) as [t|]; [|discriminate]. destruct (String.eqb _ _); [|discriminate].
  destruct (core_from_string _) as [[c|]|]; try discriminate. destruct (coreTy c); try discriminate.
  - destruct (enumRows _ _ _); cbn; intros [= <-]. eauto.
  - intros [= <-]. auto.
Qed.
Lemma slice_cases g : sliceOf g = otherTy \/ sliceOf g = TSlice g.
Proof.
  destruct g as [|lo hi| | | | | | | |]; auto. destruct lo as [|p|p]; auto. destruct hi as [|p|p]; auto.
  do 8 (destruct p as [p|p|]; auto).
Qed.

Lemma byte_type ts : forall k v, tyOf ts (aliasTy k ts) v = Some (TInt 0 255) -> DenotesByte ts v.
Proof.
  induction k as [|k IH]; intros [e []] H; cbn [tyOf aliasTy] in H; try discriminate.
  all: try (injection H as H; apply DB_byte; destruct c; try discriminate; auto; fail).
  all: try (destruct (tyOf ts _ elem) as [g|]; [|discriminate]; cbn [option_map] in H; destruct (slice_cases g) as [E|E]; rewrite E in H; discriminate).
  all: try (destruct (keyOf _ _); [|discriminate]; destruct (tyOf _ _ _); discriminate).
  all: try (apply enumTy_cases in H as [|[? ?]]; discriminate).
  destruct (getType ts decl) as [t|] eqn:G; [|discriminate]. destruct (String.eqb_spec (t_kind t) "alias") as [K|]; [|discriminate].
  destruct (t_type t) as [u|] eqn:U; [|discriminate]. eapply DB_alias; [split; eassumption|exact U|]. apply IH. exact H.
Qed.

Lemma struct_type ts v : DenotesStruct ts v -> forall k g, tyOf ts (aliasTy k ts) v = Some g -> exists d, g = TRef d.
Proof.
  induction 1 as [e n d|e n d t u [G K] U _ IH]; intros k g H; cbn [tyOf] in H.
  - injection H as <-. eauto.
  - destruct k as [|k]; cbn [aliasTy] in H; [discriminate|]. rewrite G, K, String.eqb_refl, U in H. exact (IH k g H).
Qed.
Lemma struct_value ts v x : Value ts v x -> (exists y, x = VPtr (Some (VStruct y))) -> DenotesStruct ts v.
Proof.
  induction 1; intros [y E]; try discriminate; [constructor|]. eapply DS_alias; [eassumption|eassumption|]. eauto.
Qed.

(** ** tags *)
Lemma meta_last key ms acc : (forall m, In m ms -> forall v, assoc key m = Some v -> exists s, v = Some s) ->
  fold_left (fun acc m => match assoc key m with Some (Some s) => Some s | _ => acc end) ms acc =
  match flat_map (fun m => match assoc key m with Some (Some s) => [s] | _ => [] end) ms with
  | [] => acc
  | s :: r => Some (last (s :: r) EmptyString)
  end.
Proof.
  revert acc. induction ms as [|m r IH]; intros acc A; [reflexivity|]. cbn [fold_left flat_map].
  rewrite IH by (intros m' I; apply A; right; exact I).
  destruct (assoc key m) as [[s|]|] eqn:E; cbn [app].
  - destruct (flat_map _ r) as [|s' r']; [reflexivity|]. cbn [last]. reflexivity.
  - destruct (A m (or_introl eq_refl) _ E) as [s X]. discriminate.
  - reflexivity.
Qed.

Lemma last_in {A} (l : list A) d : l <> [] -> In (last l d) l.
Proof. intros H. rewrite (app_removelast_last d H) at 2. apply in_or_app. right. left. reflexivity. Qed.

Lemma last_filter (p : string -> bool) l d d' : l <> [] -> p (last l d') = true -> last (filter p l) d = last l d'.
Proof.
  intros N P. destruct (exists_last N) as (l0 & x & ->). rewrite last_last in P. rewrite last_last, filter_app.
  cbn [filter]. rewrite P. apply last_last.
Qed.

Lemma meta_none key ms : (forall m, In m ms -> assoc key m = None) -> forall acc : option string,
  fold_left (fun acc m => match assoc key m with Some (Some s) => Some s | _ => acc end) ms acc = acc.
Proof.
  induction ms as [|m r IH]; intros A acc; [reflexivity|]. cbn [fold_left]. rewrite (A m (or_introl eq_refl)).
  apply IH. intros m' I. apply A. right. exact I.
Qed.
Lemma flat_nil {A B} (f : A -> list B) l : flat_map f l = [] -> forall x, In x l -> f x = [].
Proof. induction l as [|a r IH]; intros H x []; cbn in H; apply app_eq_nil in H as [H1 H2]; subst; auto. Qed.

(** the go.tag.json entries are those of the field's JSON name *)
Definition AgreeField (f : field) : Prop := forall m s, In m (f_meta f) -> assoc "go.tag.json" m = Some s ->
  s = Some (json_key f) \/ s = Some (json_key f ++ ",omitempty")%string.

Lemma meta_go f : AgreeField f ->
  (metaText "go.tag.json" f = None /\ forall m, In m (f_meta f) -> assoc "go.tag.json" m = None) \/
  exists s m, metaText "go.tag.json" f = Some s /\ In m (f_meta f) /\ assoc "go.tag.json" m = Some (Some s).
Proof.
  intros AG. unfold metaText. rewrite meta_last.
  2:{ intros m I v E. destruct (AG m v I E) as [->| ->]; eauto. }
  match goal with |- context [flat_map ?g (f_meta f)] => destruct (flat_map g (f_meta f)) as [|s r] eqn:F end.
  - left. split; [reflexivity|]. intros m I. destruct (assoc "go.tag.json" m) as [v|] eqn:E; [|reflexivity].
    pose proof (flat_nil _ _ F m I) as X. cbn beta in X. rewrite E in X. destruct (AG m v I E) as [->| ->]; discriminate.
  - right. exists (last (s :: r) EmptyString). assert (X : In (last (s :: r) EmptyString) (s :: r)) by (apply last_in; discriminate).
    rewrite <- F in X at 2. apply in_flat_map in X as (m & I & X). exists m. split; [reflexivity|]. split; [exact I|].
    destruct (assoc "go.tag.json" m) as [[s'|]|]; try destruct X as [<-|[]]; try destruct X. reflexivity.
Qed.

Lemma tag_hidden f : Hidden f -> TagsOk f -> goTag f = None.
Proof.
  intros [L N] T. unfold goTag, tagText. unfold metaText at 1. rewrite (meta_none _ _ N).
  unfold metaText. rewrite meta_last.
  2:{ intros m I v E. destruct (T m v I E) as (s & E' & _). eauto. }
  fold (json_tags f). destruct (json_tags f) as [|s r]; [cbn in L; discriminate|]. rewrite L. reflexivity.
Qed.

Lemma identifier_tag s : Identifier s -> String.eqb s "-" = false /\ has_suffix ",omitempty" s = false.
Proof.
  intros I. apply validArg_iff in I. split.
  - destruct (String.eqb_spec s "-"); [subst; discriminate|reflexivity].
  - destruct (has_suffix ",omitempty" s) eqn:E; [|reflexivity]. apply has_suffix_iff in E as [r ->].
    destruct r as [|c r]; [discriminate|]. cbn [append isValidArgName] in I. apply andb_true_iff in I as [_ I].
    rewrite sforall_app in I. apply andb_true_iff in I as [_ I]. discriminate.
Qed.
Lemma take_app n p : forall s, String.length s = n -> take n (s ++ p)%string = s.
Proof. induction n as [|n IH]; intros [|c s] H; try discriminate; [reflexivity|]. cbn. f_equal. apply IH. cbn in H. lia. Qed.

Lemma tag_of s name : Identifier name -> s = name \/ s = (name ++ ",omitempty")%string ->
  exists omit, (if String.eqb s "-" then None else if has_suffix ",omitempty" s then Some (take (String.length s - 10) s, true) else Some (s, false)) =
    Some (name, omit) /\ (omit = true -> s = (name ++ ",omitempty")%string).
Proof.
  intros I [->| ->].
  - destruct (identifier_tag _ I) as [-> ->]. exists false. split; [reflexivity|discriminate].
  - assert (D : String.eqb (name ++ ",omitempty") "-" = false).
    { apply String.eqb_neq. intros E. apply (f_equal String.length) in E. rewrite slength_app in E. cbn in E. lia. }
    rewrite D. rewrite has_suffix_app, slength_app. cbn [String.length]. rewrite (take_app (String.length name + 10 - 10)) by lia.
    exists true. auto.
Qed.

Lemma tag_shown f : ~ Hidden f -> TagsOk f -> AgreeField f -> Identifier (json_key f) ->
  exists omit, goTag f = Some (json_key f, omit) /\ (omit = true -> OmitEmpty f).
Proof.
  intros NH T AG I. destruct (meta_go f AG) as [[N A]|(s & m & E & IM & AS)].
  - assert (X : tagText f = json_key f).
    { unfold tagText. rewrite N. unfold metaText. rewrite meta_last.
      2:{ intros m I' v E. destruct (T m v I' E) as (s & E' & _). eauto. }
      fold (json_tags f). unfold json_key. destruct (json_tags f) as [|s r] eqn:J; [reflexivity|].
      symmetry. apply last_filter; [discriminate|]. destruct (String.eqb_spec (last (s :: r) EmptyString) "-") as [E|]; [|reflexivity].
      destruct NH. split; [rewrite J; exact E|exact A]. }
    destruct (tag_of (tagText f) (json_key f) I (or_introl X)) as (omit & E & O). exists omit. split; [exact E|].
    intros ->. rewrite X in O. specialize (O eq_refl). apply (f_equal String.length) in O. rewrite slength_app in O. cbn in O. lia.
  - assert (X : s = json_key f \/ s = (json_key f ++ ",omitempty")%string) by (destruct (AG m (Some s) IM AS) as [[= ->]|[= ->]]; auto).
    assert (Y : tagText f = s) by (unfold tagText; rewrite E; reflexivity).
    destruct (tag_of s (json_key f) I X) as (omit & E' & O). exists omit. split; [unfold goTag; rewrite Y; exact E'|].
    intros ->. exists m, s. split; [exact IM|]. split; [exact AS|]. eauto.
Qed.

(** ** structs *)
Lemma structs_lookup n ts : forall l env d t, structsOf n ts l = Some env -> getType l d = Some t -> t_kind t = "struct" ->
  exists fs, structFields n ts (t_fields t) = Some fs /\ lookup d env = Some fs.
Proof.
  induction l as [|u r IH]; intros env d t H G K; [discriminate|]. unfold getType in G. cbn [find structsOf] in *.
  destruct (String.eqb_spec d (t_name u)) as [E|NE].
  - injection G as ->. rewrite K, String.eqb_refl in H. destruct (structFields n ts (t_fields t)) as [fs|]; [|discriminate].
    destruct (structsOf n ts r); [|discriminate]. injection H as <-. exists fs. cbn [lookup]. rewrite <- E, String.eqb_refl. auto.
  - destruct (String.eqb (t_kind u) "struct").
    + destruct (structFields n ts (t_fields u)) as [fs|]; [|discriminate]. destruct (structsOf n ts r) as [env'|]; [|discriminate].
      injection H as <-. destruct (IH env' d t eq_refl G K) as (fs' & A & B). exists fs'. split; [exact A|]. cbn [lookup].
      destruct (String.eqb_spec d (t_name u)); [contradiction|]. exact B.
    + exact (IH env d t H G K).
Qed.

Lemma field_names n ts : forall fs gs, Forall TagsOk fs -> Forall AgreeField fs -> Forall (fun f => Identifier (json_key f)) fs ->
  structFields n ts fs = Some gs -> incl (map gf_name gs) (map json_key fs).
Proof.
  induction fs as [|f r IH]; intros gs T A I H; cbn [structFields] in H.
  - injection H as <-. intros x [].
  - inversion T as [|? ? T1 T2]; inversion A as [|? ? A1 A2]; inversion I as [|? ? I1 I2]; subst. destruct (goTag f) as [[name omit]|] eqn:G.
    + destruct (declaredTy _ _ _ _); [|discriminate]. destruct (structFields n ts r) as [gs'|]; [|discriminate]. injection H as <-.
      assert (NH : ~ Hidden f) by (intros X; rewrite (tag_hidden f X T1) in G; discriminate).
      destruct (tag_shown f NH T1 A1 I1) as (o & G' & _). rewrite G in G'. injection G' as -> _.
      cbn [map gf_name]. intros x [<-|X]; [left; reflexivity|]. right. exact (IH gs' T2 A2 I2 eq_refl x X).
    + intros x X. right. exact (IH gs T2 A2 I2 H x X).
Qed.

(** ** values *)
Scheme Value_min := Minimality for Value Sort Prop
  with OptValue_min := Minimality for OptValue Sort Prop
  with FieldValues_min := Minimality for FieldValues Sort Prop.
Combined Scheme values_min from Value_min, OptValue_min, FieldValues_min.

Lemma rfc3339_valid s : Rfc3339 s -> ValidUtf8 s.
Proof.
  intros (y & mo & d & h & mi & se & fr & z & Y & MO & D & H & MI & SE & F & Z & ->). apply ascii_valid. unfold is_ascii.
  assert (DG : forall n x, Digits n x -> sforall (fun c => (N_of_byte c <? 128)%N) x = true).
  { intros n x [_ X]. clear - X. induction x as [|c x IH]; [reflexivity|]. cbn [sforall] in *. apply andb_true_iff in X as [A B].
    rewrite (IH B), andb_true_r. unfold is_digit_byte, in_range in A. apply andb_true_iff in A as [_ A]. apply N.leb_le in A. apply N.ltb_lt. lia. }
  rewrite !sforall_app. rewrite (DG _ _ Y), (DG _ _ MO), (DG _ _ D), (DG _ _ H), (DG _ _ MI), (DG _ _ SE). cbn [andb].
  assert (FR : sforall (fun c => (N_of_byte c <? 128)%N) fr = true).
  { destruct F as [->|(n & ds & -> & X)]; [reflexivity|]. rewrite sforall_app, (DG _ _ X). reflexivity. }
  assert (ZR : sforall (fun c => (N_of_byte c <? 128)%N) z = true).
  { destruct Z as [->|(sg & zh & zm & S1 & X1 & X2 & ->)]; [reflexivity|]. rewrite !sforall_app, (DG _ _ X1), (DG _ _ X2).
    destruct S1 as [->| ->]; reflexivity. }
  rewrite FR, ZR. reflexivity.
Qed.

Lemma values_fit N ts env : FieldsFine ts -> DistinctMembers ts -> TagsAgree ts -> structsOf N ts ts = Some env ->
  (forall v x, Value ts v x -> forall k g, tyOf ts (aliasTy k ts) v = Some g -> Fits env g x) /\
  (forall o v x, OptValue ts o v x -> forall k g, declaredTy k ts o (Some v) = Some g -> Fits env g x) /\
  (forall fs xs, FieldValues ts fs xs -> forall gs, Forall TagsOk fs -> Forall AgreeField fs -> Forall (fun f => Identifier (json_key f)) fs ->
     NoDup (map json_key fs) -> structFields N ts fs = Some gs -> FitsFields env gs xs).
Proof.
  intros FF DM TA ENV. apply values_min.
  - intros e b k g H. injection H as <-. constructor.
  - intros e c lo hi z R B k g H. cbn [tyOf] in H. rewrite (int_core _ _ _ R) in H. injection H as <-. constructor. exact B.
  - intros e s V k g H. injection H as <-. constructor. exact V.
  - intros e s V k g H. injection H as <-. constructor. apply rfc3339_valid, V.
  - intros e z k g H. injection H as <-. constructor.
  - intros e j W k g H. injection H as <-. constructor. exact W.
  - intros e n d t c f z EO IC I V k g H. cbn [tyOf] in H.
    destruct (enum_member _ _ _ _ _ _ _ FF DM EO IC I V H) as (tbl & -> & O & IT). econstructor; eassumption.
  - intros e n d t f EO I V k g H. cbn [tyOf] in H. rewrite (enum_text _ _ _ _ EO H). constructor. exact V.
  - intros e u NB k g H. cbn [tyOf] in H. destruct (tyOf ts _ u) as [gu|] eqn:T; [|discriminate]. injection H as <-.
    rewrite slice_other by (intros ->; apply NB, (byte_type ts k), T). constructor.
  - intros e u l NB _ IH k g H. cbn [tyOf] in H. destruct (tyOf ts _ u) as [gu|] eqn:T; [|discriminate]. injection H as <-.
    rewrite slice_other by (intros ->; apply NB, (byte_type ts k), T). constructor. intros x I. exact (IH x I k gu T).
  - intros e ky u k g H. cbn [tyOf] in H. destruct (keyOf ts ky); [|discriminate]. destruct (tyOf ts _ u); [|discriminate].
    injection H as <-. constructor.
  - intros e ky u m names KV INC _ IH k g H. cbn [tyOf] in H. destruct (keyOf ts ky) as [k'|] eqn:KO; [|discriminate].
    destruct (tyOf ts _ u) as [gu|] eqn:T; [|discriminate]. injection H as <-. apply FMap with (names := names).
    + eapply Forall2_impl; [|exact KV]. intros a b X. exact (key_written _ _ _ _ _ FF DM KO X).
    + exact INC.
    + intros x y I. exact (IH x y I k gu T).
  - intros e n d k g H. injection H as <-. constructor.
  - intros e n d t vs [G K] _ IH k g H. injection H as <-. destruct (structs_lookup N ts ts env d t ENV G K) as (fs & SF & L).
    econstructor; [exact L|]. apply getType_in in G as [I _]. destruct (FF t I (or_introl K)) as (_ & _ & F3 & F4 & F5).
    apply (IH fs); [exact F5| |exact F4|apply nodup_lower, F3|exact SF].
    rewrite Forall_forall. intros f IF m s IM AS. exact (TA t f m s I K IF IM AS).
  - intros e n d t u x [G K] U _ IH k g H. cbn [tyOf] in H. destruct k as [|k]; cbn [aliasTy] in H; [discriminate|].
    rewrite G, K, String.eqb_refl, U in H. exact (IH k g H).
  - intros v x _ IH k g H. cbn [declaredTy] in H. unfold goTyOf in H. destruct (tyOf ts _ v) as [gv|] eqn:T; [|discriminate].
    injection H as <-. exact (IH k gv T).
  - intros v k g H. cbn [declaredTy] in H. destruct (goTyOf k ts v) as [gv|]; [|discriminate]. injection H as <-. destruct gv; constructor.
  - intros v x DS _ IH k g H. cbn [declaredTy] in H. unfold goTyOf in H. destruct (tyOf ts _ v) as [gv|] eqn:T; [|discriminate].
    injection H as <-. destruct (struct_type ts v DS k gv T) as [d ->]. exact (IH k _ T).
  - intros v x ND HV IH NN k g H. cbn [declaredTy] in H. unfold goTyOf in H. destruct (tyOf ts _ v) as [gv|] eqn:T; [|discriminate].
    injection H as <-. specialize (IH k gv T). destruct gv; try (constructor; assumption).
    exfalso. inversion IH; subst; [discriminate NN|]. apply ND. apply (struct_value ts v _ HV). eauto.
  - intros gs _ _ _ _ H. injection H as <-. constructor.
  - intros f fs vs HD _ IH gs T A I ND H. inversion T as [|? ? T1 T2]; inversion A as [|? ? A1 A2]; inversion I as [|? ? I1 I2]; subst.
    cbn [structFields] in H. rewrite (tag_hidden f HD T1) in H. inversion ND; subst. exact (IH gs T2 A2 I2 H3 H).
  - intros f fs v x xs NH FT _ IHO OE _ IH gs T A I ND H.
    inversion T as [|? ? T1 T2]; inversion A as [|? ? A1 A2]; inversion I as [|? ? I1 I2]; inversion ND as [|? ? N1 N2]; subst.
    cbn [structFields] in H. destruct (tag_shown f NH T1 A1 I1) as (omit & G & O). rewrite G, FT in H.
    destruct (declaredTy N ts (f_optional f) (Some v)) as [g|] eqn:D; [|discriminate]. destruct (structFields N ts fs) as [gs'|] eqn:SF; [|discriminate].
    injection H as <-. constructor; cbn [gf_ty gf_name gf_omit].
    + exact (IHO N g D).
    + apply identifier_valid, I1.
    + intros X. apply N1. exact (field_names N ts fs gs' T2 A2 I2 SF _ X).
    + intros E. exact (OE (O E)).
    + exact (IH gs' T2 A2 I2 N2 eq_refl).
Qed.

(** ** arguments *)
Lemma args_fit n ts env : FieldsFine ts -> DistinctMembers ts -> TagsAgree ts -> structsOf n ts ts = Some env ->
  forall l gs xs, NoDup (map g_name l) -> Forall (fun a => Identifier (g_name a)) l -> argFields n ts l = Some gs -> ArgValues ts l xs ->
  FitsFields env gs xs /\ map gf_name gs = map g_name l.
Proof.
  intros FF DM TA ENV. induction l as [|a r IH]; intros gs xs ND ID H AV; inversion AV as [|? x ? xs' AX AR]; subst; cbn [argFields] in H.
  - injection H as <-. split; [constructor|reflexivity].
  - destruct (declaredTy n ts (g_optional a) (g_type a)) as [g|] eqn:D; [|discriminate]. destruct (argFields n ts r) as [gs'|] eqn:A; [|discriminate].
    injection H as <-. inversion ND as [|? ? N1 N2]; inversion ID as [|? ? I1 I2]; subst. destruct (IH gs' xs' N2 I2 eq_refl AR) as [F NA].
    split; [|cbn [map gf_name]; f_equal; exact NA]. destruct AX as (v & E & OV). rewrite E in D.
    constructor; cbn [gf_ty gf_name gf_omit].
    + exact (proj1 (proj2 (values_fit n ts env FF DM TA ENV)) _ _ _ OV n g D).
    + apply identifier_valid, I1.
    + rewrite NA. exact N1.
    + discriminate.
    + exact F.
Qed.

(** ** the methods of a service *)
Lemma fine_of_valid u s0 s : validate u s0 = Ok s -> FieldsFine (sc_types s).
Proof.
  intros V t I K. destruct (validate_ok _ _ _ V) as [_ _ V3 _ _ _ _]. rewrite Forall_forall in V3. destruct (V3 t I) as (_ & _ & D).
  destruct D as [(_ & F & _)|[(_ & F & _)|(E & _)]]; [exact F|exact F|]. rewrite E in K. destruct K; discriminate.
Qed.

Lemma method_name n ts m x : methodOf n ts m = Some x -> am_name x = me_name m.
Proof.
  unfold methodOf. destruct (argFields _ _ _) as [i|]; [|discriminate]. destruct (argFields _ _ _) as [o|]; [|discriminate].
  destruct (me_succinct m); [|intros [= <-]; reflexivity].
  destruct i as [|[? ? []] []]; try discriminate. destruct o as [|[? ? []] []]; try discriminate.
  destruct (isStruct _ _ && isStruct _ _); [|discriminate]. intros [= <-]. reflexivity.
Qed.

Lemma methods_spec n ts : forall l ms, methodsOf n ts l = Some ms -> Forall2 (fun m x => methodOf n ts m = Some x) l ms.
Proof.
  induction l as [|m r IH]; intros ms H; cbn [methodsOf] in H; [injection H as <-; constructor|].
  destruct (methodOf n ts m) as [x|] eqn:E; [|discriminate]. destruct (methodsOf n ts r) as [xs|]; [|discriminate]. injection H as <-.
  constructor; [exact E|exact (IH xs eq_refl)].
Qed.

Lemma methods_names n ts l ms : methodsOf n ts l = Some ms -> map am_name ms = map me_name l.
Proof.
  intros H. apply methods_spec in H. induction H as [|m x l ms E _ IH]; [reflexivity|]. cbn [map]. rewrite (method_name _ _ _ _ E), IH. reflexivity.
Qed.

Lemma methods_in n ts l ms m : methodsOf n ts l = Some ms -> In m l -> exists x, methodOf n ts m = Some x /\ In x ms.
Proof.
  intros H. apply methods_spec in H. induction H as [|m' x l ms E _ IH]; [intros []|]. intros [->|I].
  - exists x. split; [exact E|left; reflexivity].
  - destruct (IH I) as (y & A & B). exists y. split; [exact A|right; exact B].
Qed.
Lemma methods_from n ts l ms x : methodsOf n ts l = Some ms -> In x ms -> exists m, methodOf n ts m = Some x /\ In m l.
Proof.
  intros H. apply methods_spec in H. induction H as [|m' y l ms E _ IH]; [intros []|]. intros [->|I].
  - exists m'. split; [exact E|left; reflexivity].
  - destruct (IH I) as (m & A & B). exists m. split; [exact A|right; exact B].
Qed.

Lemma nodup_filter {A B} (f : A -> B) p l : NoDup (map f l) -> NoDup (map f (filter p l)).
Proof.
  induction l as [|a r IH]; intros H; [exact H|]. inversion H as [|? ? H1 H2]; subst. cbn [filter]. destruct (p a); [|exact (IH H2)].
  cbn [map]. constructor; [|exact (IH H2)]. intros X. apply H1. apply in_map_iff in X as (b & E & I). apply filter_In in I as [I _].
  apply in_map_iff. eauto.
Qed.

Record generated (u : string -> bool) (s0 s : schema) (v : Schema.service) (n : nat) (svc : mixedService) : Prop := Generated {
  g_valid : validate u s0 = Ok s;
  g_in : In v (sc_services s);
  g_go : goService n s v = Some svc
}.

Lemma go_parts n s v svc : goService n s v = Some svc -> exists env ms,
  structsOf n (sc_types s) (sc_types s) = Some env /\ methodsOf n (sc_types s) (filter (fun m => negb (streams m)) (v_methods v)) = Some ms /\
  svc = MixedService (sc_basepath s ++ v_name v ++ "/") env ms.
Proof.
  unfold goService. destruct (structsOf _ _ _) as [env|]; [|discriminate]. destruct (methodsOf _ _ _) as [ms|]; [|discriminate].
  intros [= <-]. eauto.
Qed.

Lemma go_names n s v svc : goService n s v = Some svc ->
  map am_name (mx_methods svc) = map me_name (filter (fun m => negb (streams m)) (v_methods v)).
Proof. intros H. destruct (go_parts _ _ _ _ H) as (env & ms & _ & M & ->). exact (methods_names _ _ _ _ M). Qed.

Lemma go_distinct u s0 s v n svc : generated u s0 s v n svc -> NoDup (map am_name (mx_methods svc)).
Proof.
  intros [V I G]. rewrite (go_names _ _ _ _ G). apply nodup_filter. destruct (validate_ok _ _ _ V) as [_ _ _ _ _ V6 _].
  rewrite Forall_forall in V6. destruct (V6 v I) as (_ & _ & _ & ND). exact (nodup_lower _ _ ND).
Qed.

Lemma struct_declared n ts env d : structsOf n ts ts = Some env -> isStruct ts d = true ->
  exists t fs, Declaration ts "struct" d t /\ structFields n ts (t_fields t) = Some fs /\ lookup d env = Some fs.
Proof.
  intros H I. unfold isStruct in I. destruct (getType ts d) as [t|] eqn:G; [|discriminate]. apply String.eqb_eq in I.
  destruct (structs_lookup n ts ts env d t H G I) as (fs & A & B). exists t, fs. repeat split; assumption.
Qed.

Lemma go_declared n s v svc : goService n s v = Some svc -> SuccinctSpec.Declared svc.
Proof.
  intros H m I. destruct (go_parts _ _ _ _ H) as (env & ms & S1 & M & ->). cbn [mx_methods mx_env] in *.
  destruct (methods_from _ _ _ _ _ M I) as (m0 & E & _). unfold methodOf in E.
  destruct (argFields _ _ _) as [i|]; [|discriminate]. destruct (argFields _ _ _) as [o|]; [|discriminate].
  destruct (me_succinct m0); [|discriminate]. destruct i as [|[? ? ti] ri]; [discriminate|]. destruct ti as [| | | | | | |a| |]; try discriminate. destruct ri; [|discriminate].
  destruct o as [|[? ? to] ro]; [discriminate|]. destruct to as [| | | | | | |b| |]; try discriminate. destruct ro; [|discriminate].
  destruct (isStruct _ a && isStruct _ b) eqn:B; [|discriminate]. injection E as <-. cbn [su_in su_out]. apply andb_true_iff in B as [B1 B2].
  destruct (struct_declared _ _ _ _ S1 B1) as (? & ? & _ & _ & L1). destruct (struct_declared _ _ _ _ S1 B2) as (? & ? & _ & _ & L2). split; congruence.
Qed.

Lemma in_plain s m : In (Plain m) (mx_methods s) <-> In m (sv_methods (plainService s)).
Proof.
  unfold plainService. cbn [sv_methods]. induction (mx_methods s) as [|[x|x] r IH]; cbn [plainOnes In]; [tauto| |].
  - rewrite IH. split; [intros [[= ->]|H]; auto|intros [->|H]; auto].
  - rewrite IH. split; [intros [H|H]; [discriminate|exact H]|auto].
Qed.
Lemma plain_distinct s : NoDup (map am_name (mx_methods s)) -> NoDup (map rm_name (sv_methods (plainService s))).
Proof.
  unfold plainService. cbn [sv_methods]. induction (mx_methods s) as [|[x|x] r IH]; cbn [plainOnes map]; intros H; [constructor| |];
    inversion H as [|? ? H1 H2]; subst; [|exact (IH H2)]. constructor; [|exact (IH H2)]. intros I. apply H1.
  apply in_map_iff in I as (y & E & I). apply in_map_iff. exists (Plain y). split; [exact E|]. apply (in_plain (MixedService "" [] r)). exact I.
Qed.

(** an ordinary method's request is not one of a succinct method *)
Lemma plain_path s m b : NoDup (map am_name (mx_methods s)) -> In (Plain m) (mx_methods s) ->
  forall m', In (Short m') (mx_methods s) -> q_path (newRequest (plainService s) m b) <> (mx_prefix s ++ su_name m')%string.
Proof.
  intros ND I m' I' E. unfold newRequest, routeOf in E. cbn [q_path plainService sv_prefix] in E.
  apply sapp_inv_head in E. assert (X : Plain m = Short m').
  { clear - ND I I' E. induction (mx_methods s) as [|a r IH]; [destruct I|]. cbn [map] in ND. inversion ND as [|? ? N1 N2]; subst.
    destruct I as [->|I], I' as [E'|I'].
    - congruence.
    - destruct N1. apply in_map_iff. exists (Short m'). split; [symmetry; exact E|exact I'].
    - subst. destruct N1. apply in_map_iff. exists (Plain m). split; [exact E|exact I].
    - exact (IH N2 I I'). }
  discriminate X.
Qed.
Lemma plain_connect rec hv s o impl m b : NoDup (map am_name (mx_methods s)) -> In (Plain m) (mx_methods s) ->
  mixedConnect rec hv s o impl (newRequest (plainService s) m b) = connect rec hv (plainService s) o impl (newRequest (plainService s) m b).
Proof.
  intros ND I. unfold mixedConnect, connect.
  rewrite Props_Succinct.C65_other_methods_are_unaffected; [reflexivity|]. exact (plain_path s m b ND I).
Qed.
Lemma plain_serve hv s o impl m b : NoDup (map am_name (mx_methods s)) -> In (Plain m) (mx_methods s) ->
  mixedServe hv s o impl (newRequest (plainService s) m b) = serveHTTP hv (plainService s) o impl (newRequest (plainService s) m b).
Proof.
  intros ND I. apply Props_Succinct.C65_other_methods_are_unaffected. exact (plain_path s m b ND I).
Qed.

Lemma plain_client rec hv s o impl m args : NoDup (map am_name (mx_methods s)) -> In (Plain m) (mx_methods s) ->
  clientCall (plainService s) None (mixedConnect rec hv s o impl) m args = clientCall (plainService s) None (connect rec hv (plainService s) o impl) m args.
Proof.
  intros ND I. unfold clientCall. destruct (requestBody _ _ _) as [b|]; [|reflexivity]. rewrite (plain_connect rec hv s o impl m b ND I). reflexivity.
Qed.

Lemma arg_names n ts : forall l gs, argFields n ts l = Some gs -> map gf_name gs = map g_name l.
Proof.
  induction l as [|a r IH]; intros gs H; cbn [argFields] in H; [injection H as <-; reflexivity|].
  destruct (declaredTy _ _ _ _); [|discriminate]. destruct (argFields n ts r) as [gs'|]; [|discriminate]. injection H as <-.
  cbn [map gf_name]. rewrite (IH gs' eq_refl). reflexivity.
Qed.

Lemma arg_omits n ts : forall l gs, argFields n ts l = Some gs -> Forall (fun g => gf_omit g = false) gs.
Proof.
  induction l as [|a r IH]; intros gs H; cbn [argFields] in H; [injection H as <-; constructor|].
  destruct (declaredTy _ _ _ _); [|discriminate]. destruct (argFields n ts r) as [gs'|]; [|discriminate]. injection H as <-.
  constructor; [reflexivity|exact (IH gs' eq_refl)].
Qed.
Lemma toFields_names env : forall gs vs l, Forall (fun g => gf_omit g = false) gs -> toFields env gs vs = Some l -> map fst l = map gf_name gs.
Proof.
  induction gs as [|g r IH]; intros [|v vs] l O H; cbn [toFields] in H; try discriminate; [injection H as <-; reflexivity|].
  inversion O as [|? ? O1 O2]; subst. destruct (toFields env r vs) as [js|] eqn:E; [|discriminate]. rewrite O1 in H. cbn [andb] in H.
  destruct (toJ env (gf_ty g) v); [|discriminate]. injection H as <-. cbn [map fst]. rewrite (IH vs js O2 E). reflexivity.
Qed.
Lemma payload_names env gs vs : Forall (fun g => gf_omit g = false) gs -> Carries env gs vs ->
  exists b l, marshalStruct env gs vs = Some b /\ parseJ b = Some (JObj l) /\ map fst l = map gf_name gs.
Proof.
  intros O [F D]. destruct (proj2 (fits_round_trip env) gs vs F) as (l & T & W & DM & _).
  exists (printJ (JObj l)), l. unfold marshalStruct. rewrite T. split; [reflexivity|].
  split; [apply parse_print; [constructor; exact W|rewrite jdepth_obj; lia]|]. exact (toFields_names env gs vs l O T).
Qed.

(** the payload structs of an ordinary method *)
Lemma plain_method u s0 s v n svc m : generated u s0 s v n svc -> DistinctMembers (sc_types s) -> TagsAgree (sc_types s) ->
  In m (v_methods v) -> streams m = false -> me_succinct m = false -> ArgNames (me_inputs m) -> ArgNames (me_outputs m) ->
  exists gm, In (Plain gm) (mx_methods svc) /\ rm_name gm = me_name m /\
    map gf_name (rm_in gm) = map g_name (me_inputs m) /\ map gf_name (rm_out gm) = map g_name (me_outputs m) /\
    Forall (fun g => gf_omit g = false) (rm_in gm) /\ Forall (fun g => gf_omit g = false) (rm_out gm) /\
    (forall xs, ArgValues (sc_types s) (me_inputs m) xs -> FitsFields (mx_env svc) (rm_in gm) xs) /\
    (forall xs, ArgValues (sc_types s) (me_outputs m) xs -> FitsFields (mx_env svc) (rm_out gm) xs).
Proof.
  intros [V I G] DM TA IM ST SU AI AO. destruct (go_parts _ _ _ _ G) as (env & ms & S1 & M & ->). cbn [mx_methods mx_env].
  destruct (methods_in _ _ _ _ m M) as (x & E & IX). { apply filter_In. rewrite ST. auto. }
  unfold methodOf in E. rewrite SU in E. destruct (argFields n (sc_types s) (me_inputs m)) as [i|] eqn:Ei; [|discriminate].
  destruct (argFields n (sc_types s) (me_outputs m)) as [o|] eqn:Eo; [|discriminate]. injection E as <-.
  exists (RpcMethod (me_name m) i o). cbn [rm_name rm_in rm_out]. pose proof (fine_of_valid _ _ _ V) as FF.
  split; [exact IX|]. split; [reflexivity|]. 
  split; [exact (arg_names _ _ _ _ Ei)|]. split; [exact (arg_names _ _ _ _ Eo)|].
  split; [exact (arg_omits _ _ _ _ Ei)|]. split; [exact (arg_omits _ _ _ _ Eo)|]. split; intros xs AV.
  - exact (proj1 (args_fit n _ env FF DM TA S1 _ _ _ (proj1 AI) (proj2 AI) Ei AV)).
  - exact (proj1 (args_fit n _ env FF DM TA S1 _ _ _ (proj1 AO) (proj2 AO) Eo AV)).
Qed.

(** the structs of a succinct method *)
Lemma short_method u s0 s v n svc m : generated u s0 s v n svc -> DistinctMembers (sc_types s) -> TagsAgree (sc_types s) ->
  In m (v_methods v) -> streams m = false -> me_succinct m = true ->
  exists gm, In (Short gm) (mx_methods svc) /\ su_name gm = me_name m /\
    (forall xs, ArgValues (sc_types s) (me_inputs m) [VPtr (Some (VStruct xs))] -> FitsFields (mx_env svc) (fieldsOf (mx_env svc) (su_in gm)) xs) /\
    (forall xs, ArgValues (sc_types s) (me_outputs m) [VPtr (Some (VStruct xs))] -> FitsFields (mx_env svc) (fieldsOf (mx_env svc) (su_out gm)) xs).
Proof.
  intros [V I G] DM TA IM ST SU. destruct (go_parts _ _ _ _ G) as (env & ms & S1 & M & ->). cbn [mx_methods mx_env].
  destruct (methods_in _ _ _ _ m M) as (x & E & IX). { apply filter_In. rewrite ST. auto. }
  unfold methodOf in E. rewrite SU in E. destruct (argFields n (sc_types s) (me_inputs m)) as [i|] eqn:Ei; [|discriminate].
  destruct (argFields n (sc_types s) (me_outputs m)) as [o|] eqn:Eo; [|discriminate].
  destruct i as [|[ni oi ti] ri]; [discriminate|]. destruct ti as [| | | | | | |a| |]; try discriminate. destruct ri; [|discriminate].
  destruct o as [|[no oo to] ro]; [discriminate|]. destruct to as [| | | | | | |b| |]; try discriminate. destruct ro; [|discriminate].
  destruct (isStruct _ a && isStruct _ b) eqn:B; [|discriminate]. injection E as <-. apply andb_true_iff in B as [B1 B2].
  exists (SuccinctMethod (me_name m) a b). cbn [su_name su_in su_out]. pose proof (fine_of_valid _ _ _ V) as FF.
  assert (K : forall l d ng og xs, argFields n (sc_types s) l = Some [GF ng og (TRef d)] -> isStruct (sc_types s) d = true ->
    ArgValues (sc_types s) l [VPtr (Some (VStruct xs))] -> FitsFields env (fieldsOf env d) xs).
  { intros l d ng og xs H BD AV. inversion AV as [|a0 ? r ? (v0 & T & OV) AR]; subst. inversion AR; subst. cbn [argFields] in H.
    destruct (declaredTy n (sc_types s) (g_optional a0) (g_type a0)) as [g|] eqn:D; [|discriminate]. injection H as _ _ ->. rewrite T in D.
    pose proof (proj1 (proj2 (values_fit n _ env FF DM TA S1)) _ _ _ OV n _ D) as F. inversion F; subst.
    unfold fieldsOf. match goal with L : lookup d env = Some _ |- _ => rewrite L end. assumption. }
  split; [exact IX|]. split; [reflexivity|]. split; intros xs AV; eapply K; eassumption.
Qed.

(** ** Complete schemas have a generated program *)
Lemma enum_fits ts d : EnumFits ts d -> exists g, enumTy ts d = Some g /\ (g = TString \/ exists t, g = TEnum t).
Proof.
  intros (t & c & EO & H). rewrite (enumTy_over _ _ _ _ EO). destruct H as [->|(lo & hi & IC & R & H)]; [cbn; eauto|].
  rewrite (int_core _ _ _ R). assert (E : exists tbl, enumRows lo hi (t_fields t) = Some tbl).
  { induction (t_fields t) as [|f r IH]; [cbn; eauto|]. cbn [enumRows]. destruct (H f (or_introl eq_refl)) as (z & E & B).
    destruct IH as [tbl T]; [intros f' I; apply H; right; exact I|]. rewrite E, (parseInt_zdec lo hi z B), T, String.eqb_refl. eauto. }
  destruct E as [tbl ->]. cbn [option_map]. eauto.
Qed.

Lemma tyOf_mono ts a b : (forall d g, a d = Some g -> b d = Some g) -> forall v g, tyOf ts a v = Some g -> tyOf ts b v = Some g.
Proof.
  intros M. fix IH 1. intros [e []] g H; cbn [tyOf] in *; try exact H.
  - destruct (tyOf ts a elem) as [x|] eqn:E; [|discriminate]. rewrite (IH elem x E). exact H.
  - destruct (keyOf ts key); [|discriminate]. destruct (tyOf ts a value) as [x|] eqn:E; [|discriminate]. rewrite (IH value x E). exact H.
  - exact (M _ _ H).
Qed.
Lemma alias_mono ts : forall n k d g, n <= k -> aliasTy n ts d = Some g -> aliasTy k ts d = Some g.
Proof.
  induction n as [|n IH]; intros k d g L H; [discriminate|]. destruct k as [|k]; [lia|]. cbn [aliasTy] in *.
  destruct (getType ts d) as [t|]; [|discriminate]. destruct (String.eqb _ _); [|discriminate]. destruct (t_type t) as [v|]; [|discriminate].
  apply (tyOf_mono ts (aliasTy n ts)); [|exact H]. intros d' g'. apply IH. lia.
Qed.
Lemma go_mono ts n k v g : n <= k -> goTyOf n ts v = Some g -> goTyOf k ts v = Some g.
Proof. intros L. apply tyOf_mono. intros d g'. apply alias_mono, L. Qed.

Lemma complete_type ts v : Complete ts v -> exists n g, goTyOf n ts v = Some g.
Proof.
  unfold goTyOf. induction 1 as [e c|e u _ (n & g & IH)|e e' c u KC _ (n & g & IH)|e e' m d u EF _ (n & g & IH)|e m d t D|e m d EF|e m d t u [G K] U _ (n & g & IH)].
  - exists 0. cbn. eauto.
  - exists n. cbn [tyOf]. rewrite IH. cbn. eauto.
  - exists n. cbn [tyOf]. rewrite IH. unfold keyOf. cbn [vt_shape].
    destruct KC as [KC| ->]; [|cbn; eauto]. destruct (integer_range c KC) as (lo & hi & ->). eauto.
  - exists n. cbn [tyOf]. rewrite IH. unfold keyOf. cbn [vt_shape]. destruct (enum_fits ts d EF) as (x & -> & [->|[t ->]]); eauto.
  - exists 0. cbn. eauto.
  - exists 0. cbn [tyOf]. destruct (enum_fits ts d EF) as (x & -> & _). eauto.
  - exists (S n). cbn [tyOf aliasTy]. rewrite G, K, String.eqb_refl, U, IH. eauto.
Qed.

Lemma declared_mono n k ts b o g : n <= k -> declaredTy n ts b o = Some g -> declaredTy k ts b o = Some g.
Proof.
  intros L. unfold declaredTy. destruct o as [v|]; [|discriminate]. destruct (goTyOf n ts v) as [x|] eqn:E; [|discriminate].
  rewrite (go_mono ts n k v x L E). auto.
Qed.
Lemma fields_mono n k ts : n <= k -> forall fs gs, structFields n ts fs = Some gs -> structFields k ts fs = Some gs.
Proof.
  intros L. induction fs as [|f r IH]; intros gs H; cbn [structFields] in *; [exact H|].
  destruct (goTag f) as [[name o]|]; [|exact (IH gs H)]. destruct (declaredTy n _ _ _) as [x|] eqn:E; [|discriminate].
  rewrite (declared_mono n k ts _ _ x L E). destruct (structFields n ts r) as [gs'|]; [|discriminate]. rewrite (IH gs' eq_refl). exact H.
Qed.
Lemma structs_mono n k ts : n <= k -> forall l env, structsOf n ts l = Some env -> structsOf k ts l = Some env.
Proof.
  intros L. induction l as [|t r IH]; intros env H; cbn [structsOf] in *; [exact H|]. destruct (String.eqb _ _); [|exact (IH env H)].
  destruct (structFields n ts (t_fields t)) as [fs|] eqn:E; [|discriminate]. rewrite (fields_mono n k ts L _ _ E).
  destruct (structsOf n ts r) as [env'|]; [|discriminate]. rewrite (IH env' eq_refl). exact H.
Qed.
Lemma args_mono n k ts : n <= k -> forall l gs, argFields n ts l = Some gs -> argFields k ts l = Some gs.
Proof.
  intros L. induction l as [|a r IH]; intros gs H; cbn [argFields] in *; [exact H|]. destruct (declaredTy n _ _ _) as [x|] eqn:E; [|discriminate].
  rewrite (declared_mono n k ts _ _ x L E). destruct (argFields n ts r) as [gs'|]; [|discriminate]. rewrite (IH gs' eq_refl). exact H.
Qed.
Lemma method_mono n k ts m x : n <= k -> methodOf n ts m = Some x -> methodOf k ts m = Some x.
Proof.
  intros L. unfold methodOf. destruct (argFields n ts (me_inputs m)) as [i|] eqn:Ei; [|discriminate].
  destruct (argFields n ts (me_outputs m)) as [o|] eqn:Eo; [|discriminate]. rewrite (args_mono n k ts L _ _ Ei), (args_mono n k ts L _ _ Eo). auto.
Qed.
Lemma methods_mono n k ts : n <= k -> forall l xs, methodsOf n ts l = Some xs -> methodsOf k ts l = Some xs.
Proof.
  intros L. induction l as [|m r IH]; intros xs H; cbn [methodsOf] in *; [exact H|]. destruct (methodOf n ts m) as [x|] eqn:E; [|discriminate].
  rewrite (method_mono n k ts m x L E). destruct (methodsOf n ts r) as [ys|]; [|discriminate]. rewrite (IH ys eq_refl). exact H.
Qed.

Lemma complete_declared ts b v : Complete ts v -> exists n g, declaredTy n ts b (Some v) = Some g.
Proof. intros C. destruct (complete_type ts v C) as (n & g & E). exists n. unfold declaredTy. rewrite E. cbn. eauto. Qed.

Lemma complete_fields ts : forall fs, (forall f, In f fs -> exists v, f_type f = Some v /\ Complete ts v) ->
  exists n gs, structFields n ts fs = Some gs.
Proof.
  induction fs as [|f r IH]; intros H; [exists 0; cbn; eauto|]. destruct IH as (n & gs & E); [intros f' I; apply H; right; exact I|].
  destruct (H f (or_introl eq_refl)) as (v & T & C). destruct (complete_declared ts (f_optional f) v C) as (k & g & D).
  exists (Nat.max n k). cbn [structFields]. rewrite (fields_mono n (Nat.max n k) ts (Nat.le_max_l _ _) _ _ E), T.
  rewrite (declared_mono k (Nat.max n k) ts _ _ _ (Nat.le_max_r _ _) D). destruct (goTag f) as [[name o]|]; eauto.
Qed.
Lemma complete_structs ts : forall l, (forall t f, In t l -> t_kind t = "struct" -> In f (t_fields t) -> exists v, f_type f = Some v /\ Complete ts v) ->
  exists n env, structsOf n ts l = Some env.
Proof.
  induction l as [|t r IH]; intros H; [exists 0; cbn; eauto|]. destruct IH as (n & env & E); [intros t' f I; apply H; right; exact I|].
  cbn [structsOf]. destruct (String.eqb_spec (t_kind t) "struct") as [K|NK]; [|eauto].
  destruct (complete_fields ts (t_fields t) (fun f I => H t f (or_introl eq_refl) K I)) as (k & gs & D).
  exists (Nat.max n k). rewrite (fields_mono k (Nat.max n k) ts (Nat.le_max_r _ _) _ _ D).
  rewrite (structs_mono n (Nat.max n k) ts (Nat.le_max_l _ _) _ _ E). eauto.
Qed.
Lemma complete_args ts : forall l, (forall a, In a l -> exists v, g_type a = Some v /\ Complete ts v) -> exists n gs, argFields n ts l = Some gs.
Proof.
  induction l as [|a r IH]; intros H; [exists 0; cbn; eauto|]. destruct IH as (n & gs & E); [intros f' I; apply H; right; exact I|].
  destruct (H a (or_introl eq_refl)) as (v & T & C). destruct (complete_declared ts (g_optional a) v C) as (k & g & D).
  exists (Nat.max n k). cbn [argFields]. rewrite (args_mono n (Nat.max n k) ts (Nat.le_max_l _ _) _ _ E), T.
  rewrite (declared_mono k (Nat.max n k) ts _ _ _ (Nat.le_max_r _ _) D). eauto.
Qed.
Lemma one_struct ts l n gs : OneStruct ts l -> CompleteArgs ts l -> argFields n ts l = Some gs ->
  exists name d, gs = [GF name false (TRef d)] /\ isStruct ts d = true.
Proof.
  intros (a & e & m & d & -> & T) C H. cbn [argFields] in H. rewrite T in H. cbn [declaredTy goTyOf tyOf option_map] in H.
  exists (g_name a), d. split; [destruct (g_optional a); cbn in H; congruence|].
  specialize (C a _ (or_introl eq_refl) T). inversion C as [| | | |? ? ? t [G K] E1| |]; subst. unfold isStruct. rewrite G, K. reflexivity.
Qed.
Lemma complete_method ts m : (forall a, In a (me_inputs m) -> exists v, g_type a = Some v /\ Complete ts v) ->
  (forall a, In a (me_outputs m) -> exists v, g_type a = Some v /\ Complete ts v) ->
  (me_succinct m = true -> OneStruct ts (me_inputs m) /\ OneStruct ts (me_outputs m)) -> exists n x, methodOf n ts m = Some x.
Proof.
  intros I O SU. destruct (complete_args ts _ I) as (n & i & Ei). destruct (complete_args ts _ O) as (k & o & Eo).
  exists (Nat.max n k). unfold methodOf. rewrite (args_mono n _ ts (Nat.le_max_l n k) _ _ Ei), (args_mono k _ ts (Nat.le_max_r n k) _ _ Eo).
  destruct (me_succinct m); [|eauto]. destruct (SU eq_refl) as [S1 S2].
  assert (CI : CompleteArgs ts (me_inputs m)) by (intros a v J T; destruct (I a J) as (w & T' & C); congruence).
  assert (CO : CompleteArgs ts (me_outputs m)) by (intros a v J T; destruct (O a J) as (w & T' & C); congruence).
  destruct (one_struct ts _ _ _ S1 CI Ei) as (? & a & -> & A). destruct (one_struct ts _ _ _ S2 CO Eo) as (? & b & -> & B).
  rewrite A, B. cbn. eauto.
Qed.
Lemma complete_methods ts : forall l, (forall m, In m l -> exists n x, methodOf n ts m = Some x) -> exists n xs, methodsOf n ts l = Some xs.
Proof.
  induction l as [|m r IH]; intros H; [exists 0; cbn; eauto|]. destruct IH as (n & gs & E); [intros f' I; apply H; right; exact I|].
  destruct (H m (or_introl eq_refl)) as (k & x & D). exists (Nat.max n k). cbn [methodsOf].
  rewrite (method_mono k (Nat.max n k) ts m x (Nat.le_max_r _ _) D), (methods_mono n (Nat.max n k) ts (Nat.le_max_l _ _) _ _ E). eauto.
Qed.

Lemma complete_service u s0 s v : validate u s0 = Ok s -> CompleteSchema s -> In v (sc_services s) -> exists n svc, goService n s v = Some svc.
Proof.
  intros V [CF CI CO CS] I. destruct (validate_ok _ _ _ V) as [_ _ V3 _ _ V6 _]. rewrite Forall_forall in V3, V6.
  destruct (complete_structs (sc_types s) (sc_types s)) as (n & env & E).
  { intros t f IT K IF. destruct (V3 t IT) as (_ & _ & [(K' & _)|[(_ & _ & D)|(K' & _)]]); try congruence.
    unfold StructOk in D. rewrite Forall_forall in D. destruct (D f IF) as (_ & w & T & _). exists w. split; [exact T|]. exact (CF t f w IT K IF T). }
  destruct (V6 v I) as (_ & _ & MO & _). rewrite Forall_forall in MO.
  destruct (complete_methods (sc_types s) (filter (fun m => negb (streams m)) (v_methods v))) as (k & ms & M).
  { intros m IM. apply filter_In in IM as [IM _]. destruct (MO m IM) as (_ & A1 & A2 & _). rewrite Forall_forall in A1, A2.
    apply complete_method; [| |exact (CS v m I IM)]; intros a IA.
    - destruct (A1 a IA) as (_ & w & T & _). exists w. split; [exact T|]. exact (CI v m I IM a w IA T).
    - destruct (A2 a IA) as (_ & w & T & _). exists w. split; [exact T|]. exact (CO v m I IM a w IA T). }
  exists (Nat.max n k). unfold goService. rewrite (structs_mono n _ _ (Nat.le_max_l n k) _ _ E), (methods_mono k _ _ (Nat.le_max_r n k) _ _ M). eauto.
Qed.
