(** Proofs about the template helpers *)
From Coq Require Import ZifyBool ZifyNat ZifyN.
From Verif Require Import Base BaseProofs Utf8 Utf8Proofs Schema TypeSpec TypeProofs Gen.

(** ** C08 *)

Lemma cut_app c a b : contains_byte c a = false -> cut c (a ++ String c b) = Some (a, b).
Proof.
  intro H. unfold cut. rewrite index_byte_app_not by assumption.
  cbn [index_byte]. rewrite Ascii.eqb_refl. cbn.
  rewrite Nat.add_0_r, take_app. do 2 f_equal.
  replace (S (String.length a)) with (String.length (a ++ String c ""))
    by (rewrite slength_app; cbn; lia).
  change (String c b) with (String c "" ++ b)%string. rewrite <- sapp_assoc.
  change (match (a ++ String c "") ++ b with "" => "" | String _ r => drop (String.length a) r end)%string
    with (drop (S (String.length a)) ((a ++ String c "") ++ b)).
  replace (S (String.length a)) with (String.length (a ++ String c ""))
    by (rewrite slength_app; cbn; lia).
  apply drop_app.
Qed.

Lemma trim_suffix_app p s : trim_suffix p (s ++ p) = s.
Proof.
  unfold trim_suffix. rewrite has_suffix_app, slength_app.
  replace (String.length s + String.length p - String.length p) with (String.length s) by lia.
  apply take_app.
Qed.

Lemma show_key_no_comma ts k v : TypeOk ts (YMap k v) -> contains_byte "," (show_key k) = false.
Proof. intro H. inversion H; subst; [destruct c; reflexivity|assumption]. Qed.

Lemma cut_map ts k v : TypeOk ts (YMap k v) ->
  cut "," (show (YMap k v)) = Some ("map<" ++ show_key k, show v ++ ">")%string.
Proof.
  intro H. cbn [show].
  replace ("map<" ++ show_key k ++ "," ++ show v ++ ">")%string
    with (("map<" ++ show_key k) ++ String "," (show v ++ ">"))%string
    by (rewrite sapp_assoc; reflexivity).
  apply cut_app. unfold contains_byte. rewrite sexists_app.
  apply show_key_no_comma in H. unfold contains_byte in H. now rewrite H.
Qed.

Lemma show_map_type ts k v : TypeOk ts (YMap k v) ->
  isMapType (show (YMap k v)) = true /\
  mapKeyType (show (YMap k v)) = Ok (show_key k) /\
  mapValueType (show (YMap k v)) = Ok (show v).
Proof.
  intro H. unfold isMapType, mapKeyType, mapValueType. rewrite (cut_map ts) by assumption.
  rewrite has_prefix_app, has_suffix_app. cbn [andb].
  rewrite trim_prefix_app, trim_suffix_app. auto.
Qed.

(** the first byte of a printed type determines its constructor *)
Definition name_of (t : ty_) : option string :=
  match t with YStruct n | YEnum n | YAlias n => Some n | _ => None end.

Lemma named_upper ts t n : NamesOk ts -> TypeOk ts t -> name_of t = Some n -> startsWithUpper n = true.
Proof.
  intros [_ Hup] H Hn. rewrite Forall_forall in Hup.
  inversion H as [| | | |m (d & Hd & He & _)|m (d & Hd & He & _)|m (d & Hd & He & _)]; subst; cbn in Hn; try discriminate;
    injection Hn as <-; auto.
Qed.

Lemma cut_prefix c s a b : cut c s = Some (a, b) -> exists r, s = (a ++ r)%string.
Proof.
  unfold cut. destruct (index_byte c s) as [p|]; [|discriminate]. intro H. injection H as <- <-.
  exists (drop p s). symmetry. apply take_drop.
Qed.

Lemma not_map_prefix s : has_prefix "map<" s = false -> isMapType s = false /\
  mapKeyType s = Panic /\ mapValueType s = Panic.
Proof.
  intro H. unfold isMapType, mapKeyType, mapValueType.
  destruct (cut "," s) as [[a b]|] eqn:Hc; [|auto].
  assert (Ha : has_prefix "map<" a = false).
  { destruct (has_prefix "map<" a) eqn:Ha; [|reflexivity].
    apply has_prefix_iff in Ha as [x ->]. apply cut_prefix in Hc as [r ->].
    rewrite sapp_assoc, has_prefix_app in H. discriminate. }
  rewrite Ha. auto.
Qed.

Lemma show_prefix_map ts t : NamesOk ts -> TypeOk ts t ->
  has_prefix "map<" (show t) = true -> exists k v, t = YMap k v.
Proof.
  intros Hn H Hp. destruct t as [c|e|k v|n|n|n]; eauto.
  - destruct c; discriminate.
  - discriminate.
  - pose proof (named_upper ts _ n Hn H eq_refl) as Hu. apply upper_facts in Hu as (_&_&_&Hu).
    unfold isMapExpr in Hu. cbn [show] in Hp. congruence.
  - pose proof (named_upper ts _ n Hn H eq_refl) as Hu. apply upper_facts in Hu as (_&_&_&Hu).
    unfold isMapExpr in Hu. cbn [show] in Hp. congruence.
  - pose proof (named_upper ts _ n Hn H eq_refl) as Hu. apply upper_facts in Hu as (_&_&_&Hu).
    unfold isMapExpr in Hu. cbn [show] in Hp. congruence.
Qed.

Lemma show_prefix_list ts t : NamesOk ts -> TypeOk ts t ->
  isListType (show t) = true -> exists e, t = YList e.
Proof.
  intros Hn H Hp. destruct t as [c|e|k v|n|n|n]; eauto.
  - destruct c; discriminate.
  - discriminate.
  - pose proof (named_upper ts _ n Hn H eq_refl) as Hu. apply upper_facts in Hu as (_&_&Hu&_).
    unfold isListExpr in Hu. unfold isListType in Hp. cbn [show] in Hp. congruence.
  - pose proof (named_upper ts _ n Hn H eq_refl) as Hu. apply upper_facts in Hu as (_&_&Hu&_).
    unfold isListExpr in Hu. unfold isListType in Hp. cbn [show] in Hp. congruence.
  - pose proof (named_upper ts _ n Hn H eq_refl) as Hu. apply upper_facts in Hu as (_&_&Hu&_).
    unfold isListExpr in Hu. unfold isListType in Hp. cbn [show] in Hp. congruence.
Qed.

Lemma show_list_nonempty ts t : NamesOk ts -> TypeOk ts t -> show t <> "".
Proof.
  intros Hn H. destruct t as [c|e|k v|n|n|n]; cbn [show]; try discriminate.
  - destruct c; discriminate.
  - pose proof (named_upper ts _ n Hn H eq_refl) as Hu. now apply upper_facts in Hu as (Hu&_).
  - pose proof (named_upper ts _ n Hn H eq_refl) as Hu. now apply upper_facts in Hu as (Hu&_).
  - pose proof (named_upper ts _ n Hn H eq_refl) as Hu. now apply upper_facts in Hu as (Hu&_).
Qed.

Lemma show_core ts t : NamesOk ts -> TypeOk ts t ->
  isCoreType (show t) = true -> exists c, t = YCore c.
Proof.
  intros Hn H Hp. unfold isCoreType in Hp.
  destruct (core_from_string (show t)) as [[c|b]|] eqn:Hc; [| |discriminate].
  - apply core_from_string_inl in Hc.
    destruct t as [c'|e|k v|n|n|n]; eauto; cbn [show] in Hc.
    + destruct c; discriminate.
    + destruct c; discriminate.
    + pose proof (named_upper ts _ n Hn H eq_refl) as Hu. subst n. destruct c; discriminate.
    + pose proof (named_upper ts _ n Hn H eq_refl) as Hu. subst n. destruct c; discriminate.
    + pose proof (named_upper ts _ n Hn H eq_refl) as Hu. subst n. destruct c; discriminate.
  - apply core_from_string_inr in Hc.
    destruct t as [c'|e|k v|n|n|n]; eauto; cbn [show] in Hc.
    + inversion H; subst. destruct b; [|discriminate]. injection Hc as Hc.
      exfalso. eapply show_list_nonempty; eassumption.
    + destruct b; discriminate.
    + pose proof (named_upper ts _ n Hn H eq_refl) as Hu. subst n. destruct b; discriminate.
    + pose proof (named_upper ts _ n Hn H eq_refl) as Hu. subst n. destruct b; discriminate.
    + pose proof (named_upper ts _ n Hn H eq_refl) as Hu. subst n. destruct b; discriminate.
Qed.

Lemma isMapType_iff ts t : NamesOk ts -> TypeOk ts t ->
  (isMapType (show t) = true <-> exists k v, t = YMap k v).
Proof.
  intros Hn H. split.
  - intro Hm. destruct (has_prefix "map<" (show t)) eqn:Hp.
    + now apply (show_prefix_map ts).
    + apply not_map_prefix in Hp as [Hp _]. congruence.
  - intros (k & v & ->). now apply (show_map_type ts).
Qed.

Lemma isListType_iff ts t : NamesOk ts -> TypeOk ts t ->
  (isListType (show t) = true <-> exists e, t = YList e).
Proof.
  intros Hn H. split; [now apply (show_prefix_list ts)|]. intros (e & ->). reflexivity.
Qed.

Lemma isCoreType_iff ts t : NamesOk ts -> TypeOk ts t ->
  (isCoreType (show t) = true <-> exists c, t = YCore c).
Proof.
  intros Hn H. split; [now apply (show_core ts)|]. intros (c & ->).
  unfold isCoreType. cbn [show]. now rewrite core_from_to.
Qed.

Lemma listElemType_spec e : listElemType (show (YList e)) = Ok (show e).
Proof. unfold listElemType. cbn [show]. now rewrite has_prefix_app, trim_prefix_app. Qed.

(** what a template sees that takes a type string apart with the helpers *)
Inductive view := VLeaf (s : string) | VList (e : view) | VMap (k : string) (v : view) | VStuck.

Fixpoint templateWalk (fuel : nat) (s : string) : view :=
  match fuel with
  | O => VStuck
  | S n =>
      if isMapType s then
        match mapKeyType s, mapValueType s with
        | Ok k, Ok v => VMap k (templateWalk n v)
        | _, _ => VStuck
        end
      else if isListType s then
        match listElemType s with Ok e => VList (templateWalk n e) | _ => VStuck end
      else VLeaf s
  end.

Fixpoint viewOf (t : ty_) : view :=
  match t with
  | YList e => VList (viewOf e)
  | YMap k v => VMap (show_key k) (viewOf v)
  | _ => VLeaf (show t)
  end.

Lemma templateWalk_show ts t : NamesOk ts -> TypeOk ts t ->
  forall n, String.length (show t) < n -> templateWalk n (show t) = viewOf t.
Proof.
  intros Hn H. induction H as [c|e He IH|c v Hc Hv IH|k v Hk H1 H2 Hv IH|m Hd|m Hd|m Hd]; intros n Hlt;
    (destruct n as [|n]; [lia|]); cbn [templateWalk].
  - destruct (isMapType (show (YCore c))) eqn:E; [|destruct (isListType (show (YCore c))) eqn:E']; [| |reflexivity].
    + apply (isMapType_iff ts) in E as (?&?&?); [discriminate|assumption|constructor].
    + apply (isListType_iff ts) in E' as (?&?); [discriminate|assumption|constructor].
  - assert (Hl : TypeOk ts (YList e)) by now constructor.
    destruct (isMapType (show (YList e))) eqn:E.
    + apply (isMapType_iff ts) in E as (?&?&?); [discriminate|assumption|assumption].
    + change (isListType (show (YList e))) with true. rewrite listElemType_spec.
      cbn [viewOf]. rewrite IH; [reflexivity|]. cbn in Hlt. lia.
  - assert (Hl : TypeOk ts (YMap (KCore c) v)) by now constructor.
    destruct (show_map_type ts _ _ Hl) as (E1 & E2 & E3). rewrite E1, E2, E3.
    cbn [viewOf]. rewrite IH; [reflexivity|].
    cbn [show] in Hlt. rewrite !slength_app in Hlt. cbn in Hlt. lia.
  - assert (Hl : TypeOk ts (YMap (KNamed k) v)) by now constructor.
    destruct (show_map_type ts _ _ Hl) as (E1 & E2 & E3). rewrite E1, E2, E3.
    cbn [viewOf]. rewrite IH; [reflexivity|].
    cbn [show] in Hlt. rewrite !slength_app in Hlt. cbn in Hlt. lia.
  - destruct (isMapType (show (YStruct m))) eqn:E; [|destruct (isListType (show (YStruct m))) eqn:E']; [| |reflexivity].
    + apply (isMapType_iff ts) in E as (?&?&?); [discriminate|assumption|now constructor].
    + apply (isListType_iff ts) in E' as (?&?); [discriminate|assumption|now constructor].
  - destruct (isMapType (show (YEnum m))) eqn:E; [|destruct (isListType (show (YEnum m))) eqn:E']; [| |reflexivity].
    + apply (isMapType_iff ts) in E as (?&?&?); [discriminate|assumption|now constructor].
    + apply (isListType_iff ts) in E' as (?&?); [discriminate|assumption|now constructor].
  - destruct (isMapType (show (YAlias m))) eqn:E; [|destruct (isListType (show (YAlias m))) eqn:E']; [| |reflexivity].
    + apply (isMapType_iff ts) in E as (?&?&?); [discriminate|assumption|now constructor].
    + apply (isListType_iff ts) in E' as (?&?); [discriminate|assumption|now constructor].
Qed.

(** the VarType cases agree with the string cases on parsed types *)
Lemma parsed_helpers ts e v t : NamesOk ts -> parseVarTypeExpr ts e = Ok v -> tree v = Some t ->
  vt_expr v = show t /\
  (isStructType v = true <-> exists n, t = YStruct n) /\
  (isEnumType ts v = true <-> exists n, t = YEnum n) /\
  (isAliasType v = true <-> exists n, t = YAlias n) /\
  (forall k w, t = YMap k w -> mapKeyTypeVT v = Ok (show_key k)) /\
  (forall el, t = YList el -> exists ev, listElemTypeVT v = Ok ev /\ vt_expr ev = show el /\ tree ev = Some el).
Proof.
  intros Hn Hp Ht. apply parse_iff in Hp.
  assert (Hs : vt_expr v = show t).
  { rewrite (Parsed_expr _ _ _ Hp). symmetry. eapply Parsed_show; eassumption. }
  split; [exact Hs|].
  destruct Hp as [|c|e v Hp|c e v Hk Hp|k d e v Hc Hk Hd Hen Hp
                 |e d Hne Hc Hl Hm Hd Hk|e d Hne Hc Hl Hm Hd Hk|e d Hne Hc Hl Hm Hd Hk]; cbn in Ht.
  - discriminate.
  - injection Ht as <-. cbn. repeat split; intros; try discriminate; firstorder discriminate.
  - destruct (tree v) as [y|] eqn:Hy; [|discriminate]. injection Ht as <-. cbn.
    split; [split; [discriminate|intros (?&?); discriminate]|].
    split; [split; [discriminate|intros (?&?); discriminate]|].
    split; [split; [discriminate|intros (?&?); discriminate]|].
    split; [discriminate|]. intros el E. injection E as <-. exists v. split; [reflexivity|].
    split; [|assumption]. rewrite (Parsed_expr _ _ _ Hp). symmetry. eapply Parsed_show; eassumption.
  - destruct (tree v) as [y|] eqn:Hy; [|discriminate]. injection Ht as <-. cbn.
    split; [split; [discriminate|intros (?&?); discriminate]|].
    split; [split; [discriminate|intros (?&?); discriminate]|].
    split; [split; [discriminate|intros (?&?); discriminate]|].
    split; [|discriminate]. intros k w E. injection E as <- <-. reflexivity.
  - destruct (tree v) as [y|] eqn:Hy; [|discriminate]. injection Ht as <-. cbn.
    split; [split; [discriminate|intros (?&?); discriminate]|].
    split; [split; [discriminate|intros (?&?); discriminate]|].
    split; [split; [discriminate|intros (?&?); discriminate]|].
    split; [|discriminate]. intros k' w E. injection E as <- <-. reflexivity.
  - injection Ht as <-. cbn.
    split; [split; [eauto|reflexivity]|].
    split; [split; [discriminate|intros (?&?); discriminate]|].
    split; [split; [discriminate|intros (?&?); discriminate]|].
    split; discriminate.
  - injection Ht as <-. unfold isEnumType. cbn.
    split; [split; [discriminate|intros (?&?); discriminate]|].
    split; [split; [eauto|]|].
    + intros _. destruct (getType_Declared _ _ _ Hd) as [_ ->]. rewrite Hd, Hk. reflexivity.
    + split; [split; [discriminate|intros (?&?); discriminate]|].
      split; discriminate.
  - injection Ht as <-. cbn.
    split; [split; [discriminate|intros (?&?); discriminate]|].
    split; [split; [discriminate|intros (?&?); discriminate]|].
    split; [split; [eauto|reflexivity]|].
    split; discriminate.
Qed.

(** ** C23 versions *)
From Coq Require Import DecimalString DecimalNat.

Lemma string_of_uint_digits u : sforall is_digit_byte (NilEmpty.string_of_uint u) = true.
Proof. induction u; cbn; auto. Qed.

Lemma digits_val_uint u acc :
  digits_val (NilEmpty.string_of_uint u) (Z.of_nat acc) = Z.of_nat (Nat.of_uint_acc u acc).
Proof.
  revert acc. induction u as [|u IH|u IH|u IH|u IH|u IH|u IH|u IH|u IH|u IH|u IH]; intro acc;
    [reflexivity|..]; cbn [NilEmpty.string_of_uint digits_val Nat.of_uint_acc];
    rewrite <- IH; f_equal; rewrite Nat.tail_mul_spec;
    match goal with |- context [N_of_byte ?c] => change (N_of_byte c) with (N_of_ascii c); cbv [N_of_ascii] end;
    cbn [N_of_digits]; lia.
Qed.

Lemma digits_val_itoa n : digits_val (itoa n) 0 = Z.of_nat n.
Proof.
  unfold itoa. change 0%Z with (Z.of_nat 0). rewrite digits_val_uint. f_equal.
  change (Nat.of_uint (Nat.to_uint n) = n). apply Unsigned.of_to.
Qed.

Lemma itoa_nonempty n : itoa n <> "".
Proof.
  intro E. assert (H : digits_val (itoa n) 0 = Z.of_nat n) by apply digits_val_itoa.
  rewrite E in H. cbn in H. assert (n = 0) by lia. subst n. discriminate.
Qed.

Lemma itoa_digits n : sforall is_digit_byte (itoa n) = true.
Proof. apply string_of_uint_digits. Qed.

Lemma itoa_inj m n : itoa m = itoa n -> m = n.
Proof. intro E. apply Nat2Z.inj. rewrite <- !digits_val_itoa. now rewrite E. Qed.

Definition int64_max : Z := 9223372036854775807.

Lemma atoi_itoa n : (Z.of_nat n <= int64_max)%Z -> atoi (itoa n) = Some (Z.of_nat n).
Proof.
  intro Hn. unfold atoi. pose proof (itoa_nonempty n) as Hne. pose proof (itoa_digits n) as Hd.
  pose proof (digits_val_itoa n) as Hv.
  destruct (itoa n) as [|c r] eqn:E; [congruence|].
  assert (Hc : Ascii.eqb c "+" = false /\ Ascii.eqb c "-" = false).
  { cbn in Hd. apply andb_true_iff in Hd as [Hd _].
    split; apply Ascii.eqb_neq; intros ->; discriminate Hd. }
  destruct Hc as [H1 H2]. rewrite H1, H2. cbn [orb].
  cbn [String.eqb]. rewrite Hd. cbn [negb].
  cbn [has_prefix]. rewrite Ascii.eqb_sym, H2. cbn [andb]. rewrite Hv.
  unfold int64_max in Hn.
  replace ((-9223372036854775808 <=? Z.of_nat n)%Z && (Z.of_nat n <=? 9223372036854775807)%Z) with true by lia.
  reflexivity.
Qed.

Lemma digits_no c s : is_digit_byte c = false -> sforall is_digit_byte s = true -> contains_byte c s = false.
Proof.
  intros Hc. unfold contains_byte. induction s as [|d s IH]; cbn; intro H; [reflexivity|].
  apply andb_true_iff in H as [Hd H]. rewrite IH by assumption.
  destruct (Ascii.eqb_spec d c); [congruence|reflexivity].
Qed.

(** "vMAJOR.MINOR" followed by nothing or by ".anything" *)
Definition version_string (major minor : nat) (rest : list string) : string :=
  ("v" ++ join "." (itoa major :: itoa minor :: rest))%string.

Lemma parse_version a b rest :
  (Z.of_nat a <= int64_max)%Z -> (Z.of_nat b <= int64_max)%Z ->
  parseMajorMinor (version_string a b rest) = Some (Z.of_nat a, Z.of_nat b).
Proof.
  intros Ha Hb. unfold parseMajorMinor, version_string. rewrite trim_prefix_app.
  assert (Hna : contains_byte "." (itoa a) = false) by (apply digits_no; [reflexivity|apply itoa_digits]).
  assert (Hnb : contains_byte "." (itoa b) = false) by (apply digits_no; [reflexivity|apply itoa_digits]).
  assert (Hj : exists r, join "." (itoa a :: itoa b :: rest) = (itoa a ++ String "." r)%string /\
                         exists r', split_byte "." r = itoa b :: r').
  { destruct rest as [|x rest].
    - exists (itoa b). split; [reflexivity|]. exists []. now apply split_byte_none.
    - exists (itoa b ++ String "." (join "." (x :: rest)))%string. split; [reflexivity|].
      eexists. now apply split_byte_app. }
  destruct Hj as (r & -> & r' & Hr). rewrite split_byte_app, Hr by assumption.
  now rewrite !atoi_itoa.
Qed.

Lemma minVersion_exact a b r c d r' :
  (Z.of_nat a <= int64_max)%Z -> (Z.of_nat b <= int64_max)%Z ->
  (Z.of_nat c <= int64_max)%Z -> (Z.of_nat d <= int64_max)%Z ->
  minVersion (version_string a b r) (version_string c d r') = Ok ((c <=? a) && (d <=? b)).
Proof.
  intros Ha Hb Hc Hd. unfold minVersion. rewrite !parse_version by assumption.
  destruct (Z.ltb_spec (Z.of_nat a) (Z.of_nat c)); destruct (Z.ltb_spec (Z.of_nat b) (Z.of_nat d));
    f_equal; lia.
Qed.

(** ** C24 header *)

Lemma header_round_trip h :
  contains_byte ";" (hv_gen h) = false ->
  contains_byte ";" (hv_codegen h) = false -> contains_byte "@" (hv_codegen h) = false ->
  contains_byte ";" (hv_codegenVersion h) = false ->
  contains_byte ";" (hv_schema h) = false -> contains_byte "@" (hv_schema h) = false ->
  contains_byte ";" (hv_schemaVersion h) = false -> contains_byte ";" (hv_hash h) = false ->
  parseGenVersions (webRPCGenHeader h) =
  Some (GenVersions (hv_gen h) (hv_codegen h)
         (if String.eqb (hv_codegenVersion h) "" then "unknown" else hv_codegenVersion h)
         (hv_schema h)
         (if String.eqb (hv_schemaVersion h) "" then ("v0.0.0-" ++ hv_hash h)%string else hv_schemaVersion h)).
Proof.
  intros H1 H2 H3 H4 H5 H6 H7 H8. unfold webRPCGenHeader.
  set (cgv := if String.eqb (hv_codegenVersion h) "" then "unknown" else hv_codegenVersion h).
  set (sv := if String.eqb (hv_schemaVersion h) "" then ("v0.0.0-" ++ hv_hash h)%string else hv_schemaVersion h).
  assert (Hsv : (if String.eqb (hv_schemaVersion h) ""
            then (hv_schema h ++ "@v0.0.0-" ++ hv_hash h)%string
            else (hv_schema h ++ "@" ++ hv_schemaVersion h)%string) = (hv_schema h ++ String "@" sv)%string).
  { subst sv. destruct (String.eqb (hv_schemaVersion h) ""); reflexivity. }
  rewrite Hsv.
  assert (Hcgv : contains_byte ";" cgv = false).
  { subst cgv. destruct (String.eqb (hv_codegenVersion h) ""); [reflexivity|assumption]. }
  assert (Hsv' : contains_byte ";" sv = false).
  { subst sv. destruct (String.eqb (hv_schemaVersion h) ""); [|assumption].
    unfold contains_byte in *. rewrite sexists_app, H8. reflexivity. }
  clearbody cgv sv.
  unfold parseGenVersions.
  change (("webrpc@" ++ hv_gen h) ++ ";" ++ (hv_codegen h ++ "@" ++ cgv) ++ ";" ++ hv_schema h ++ String "@" sv)%string
    with (("webrpc@" ++ hv_gen h) ++ String ";" ((hv_codegen h ++ String "@" cgv) ++ String ";" (hv_schema h ++ String "@" sv)))%string.
  assert (Happ : forall x y, contains_byte ";" x = false -> contains_byte ";" y = false ->
            contains_byte ";" (x ++ String "@" y) = false).
  { intros x y Hx Hy. unfold contains_byte in *. rewrite sexists_app, Hx. cbn. exact Hy. }
  rewrite split_byte_app by (unfold contains_byte in *; rewrite sexists_app, H1; reflexivity).
  rewrite split_byte_app by auto.
  rewrite split_byte_none by auto.
  change ("webrpc@" ++ hv_gen h)%string with ("webrpc" ++ String "@" (hv_gen h))%string.
  rewrite !cut_app by (reflexivity || assumption). reflexivity.
Qed.

(** ** C35 casing *)

Definition ascii_byte (c : ascii) : bool := (N_of_byte c <? 128)%N.

Lemma lower_upper_byte c : lower_byte (upper_byte c) = lower_byte c.
Proof. destruct c as [[] [] [] [] [] [] [] []]; reflexivity. Qed.
Lemma upper_idem_byte c : upper_byte (upper_byte c) = upper_byte c.
Proof. destruct c as [[] [] [] [] [] [] [] []]; reflexivity. Qed.
Lemma lower_ascii_byte c : ascii_byte c = true -> ascii_byte (lower_byte c) = true.
Proof. destruct c as [[] [] [] [] [] [] [] []]; (reflexivity || discriminate). Qed.
Lemma upper_ascii_byte c : ascii_byte c = true -> ascii_byte (upper_byte c) = true.
Proof. destruct c as [[] [] [] [] [] [] [] []]; (reflexivity || discriminate). Qed.

Lemma fl_lower c s : ascii_byte c = true ->
  firstLetterToLower (String c s) = String (lower_byte c) s.
Proof. intro H. cbn. unfold fold1. unfold ascii_byte in H. now rewrite H. Qed.
Lemma fl_upper c s : ascii_byte c = true ->
  firstLetterToUpper (String c s) = String (upper_byte c) s.
Proof. intro H. cbn. unfold fold1. unfold ascii_byte in H. now rewrite H. Qed.

Lemma fl_lower_idem c s : ascii_byte c = true ->
  firstLetterToLower (firstLetterToLower (String c s)) = firstLetterToLower (String c s).
Proof.
  intro H. rewrite fl_lower by assumption. rewrite fl_lower by now apply lower_ascii_byte.
  now rewrite to_lower_idem_byte.
Qed.
Lemma fl_upper_idem c s : ascii_byte c = true ->
  firstLetterToUpper (firstLetterToUpper (String c s)) = firstLetterToUpper (String c s).
Proof.
  intro H. rewrite fl_upper by assumption. rewrite fl_upper by now apply upper_ascii_byte.
  now rewrite upper_idem_byte.
Qed.

Lemma fl_lower_corrupts : exists s, firstLetterToLower s <> s /\ to_lower (firstLetterToLower s) <> to_lower s /\
  s = encode [233; 97]%N.
Proof. exists (encode [233; 97]%N). repeat split; vm_compute; discriminate. Qed.

(** lower-casing a rune sequence is lower-casing its bytes *)
Lemma high_byte n : (128 <= n < 256)%N -> lower_byte (byte_of_N n) = byte_of_N n.
Proof.
  intro H. unfold lower_byte. unfold is_upper_byte, in_range.
  rewrite N_of_byte_of_N by lia.
  replace ((65 <=? n)%N && (n <=? 90)%N) with false by lia. reflexivity.
Qed.

Ltac Zify.zify_post_hook ::= Z.div_mod_to_equations.

Lemma lower_encode_rune r : to_lower (encode_rune r) = encode_rune (lower_rune r).
Proof.
  unfold lower_rune. destruct (r_upper r) eqn:Hu.
  - unfold r_upper, in_range in Hu. unfold encode_rune.
    replace (valid_rune r) with true by (unfold valid_rune; lia).
    replace (valid_rune (r + 32)) with true by (unfold valid_rune; lia).
    unfold encode_valid. replace (r <? 128)%N with true by lia. replace (r + 32 <? 128)%N with true by lia.
    cbn. f_equal. unfold lower_byte, is_upper_byte, in_range. rewrite N_of_byte_of_N by lia.
    replace ((65 <=? r)%N && (r <=? 90)%N) with true by lia. reflexivity.
  - unfold encode_rune. set (x := if valid_rune r then r else replacement).
    assert (Hx : r_upper x = false /\ (x <= 0x10FFFF)%N).
    { subst x. unfold valid_rune, r_upper, in_range, replacement in *. destruct (_ || _) eqn:E; lia. }
    clearbody x. clear Hu. destruct Hx as [Hu Hx]. unfold r_upper, in_range in Hu.
    unfold encode_valid. destruct (x <? 0x80)%N eqn:H1.
    { unfold to_lower. cbn [smap]. f_equal. unfold lower_byte, is_upper_byte, in_range.
      rewrite N_of_byte_of_N by lia. now rewrite Hu. }
    destruct (x <? 0x800)%N eqn:H2.
    { unfold to_lower. cbn [smap]. rewrite !high_byte by lia. reflexivity. }
    destruct (x <? 0x10000)%N eqn:H3.
    { unfold to_lower. cbn [smap]. rewrite !high_byte by lia. reflexivity. }
    unfold to_lower. cbn [smap]. rewrite !high_byte by lia. reflexivity.
Qed.

Lemma lower_encode l : to_lower (encode l) = encode (map lower_rune l).
Proof.
  induction l as [|r l IH]; [reflexivity|]. cbn [encode map].
  rewrite to_lower_app, lower_encode_rune, IH. reflexivity.
Qed.

Lemma lower_rune_idem r : lower_rune (lower_rune r) = lower_rune r.
Proof. unfold lower_rune, r_upper, in_range. destruct ((65 <=? r)%N && (r <=? 90)%N) eqn:E; [|now rewrite E].
  replace ((65 <=? r + 32)%N && (r + 32 <=? 90)%N) with false by lia. reflexivity. Qed.

Lemma firstWord_case_only cs : forallb valid_rune cs = true ->
  to_lower (firstWordToLower (encode cs)) = to_lower (encode cs).
Proof.
  intro Hv. unfold firstWordToLower. destruct (encode cs) as [|c s] eqn:E; [reflexivity|].
  destruct (is_lower_byte c); [reflexivity|]. rewrite <- E, decode_encode by assumption.
  rewrite !lower_encode, map_app, map_map.
  rewrite (map_ext (fun x => lower_rune (lower_rune x)) lower_rune) by apply lower_rune_idem.
  rewrite <- map_app, firstn_skipn. reflexivity.
Qed.

Lemma lower_rune_valid r : valid_rune r = true -> valid_rune (lower_rune r) = true.
Proof. unfold lower_rune, valid_rune, r_upper, in_range. destruct ((65 <=? r)%N && (r <=? 90)%N) eqn:E; lia. Qed.

Lemma count_while_le p l : count_while p l <= length l.
Proof. induction l as [|x l IH]; cbn; [lia|]. destruct (p x); lia. Qed.

Lemma count_while_forall p l : Forall (fun x => p x = true) (firstn (count_while p l) l).
Proof. induction l as [|x l IH]; cbn; [constructor|]. destruct (p x) eqn:E; constructor; auto. Qed.

Definition alnum (r : N) : bool := r_upper r || r_lower r || r_digit r.

Lemma Forall_firstn_impl {A} (P : A -> Prop) n l m :
  m <= n -> Forall P (firstn n l) -> Forall P (firstn m l).
Proof.
  revert n l. induction m as [|m IH]; intros n l Hm H; [constructor|].
  destruct n as [|n]; [lia|]. destruct l as [|x l]; [constructor|].
  cbn in *. inversion H; subst. constructor; [assumption|]. apply (IH n); [lia|assumption].
Qed.

Lemma firstn_add {A} i j (l : list A) : firstn (i + j) l = firstn i l ++ firstn j (skipn i l).
Proof. revert l. induction i as [|i IH]; intros [|x l]; cbn; try reflexivity.
  - now rewrite firstn_nil.
  - now rewrite IH.
Qed.

(** the first word consists of ASCII letters and digits *)
Lemma firstWordLen_alnum l : Forall (fun r => alnum r = true) (firstn (firstWordLen l) l).
Proof.
  destruct l as [|x l']; [constructor|]. unfold firstWordLen. set (l := x :: l').
  assert (HW : forall m : list N, Forall (fun r => alnum r = true)
            (firstn (count_while (fun r => r_lower r || r_digit r) m) m)).
  { intro m. eapply Forall_impl; [|apply count_while_forall]. cbv beta. intros r Hr. unfold alnum.
    destruct (r_upper r); cbn; auto. }
  destruct (r_upper x) eqn:Hx; [|apply HW].
  set (j0 := count_while r_upper l).
  assert (Hj0 : Forall (fun r => alnum r = true) (firstn j0 l)).
  { eapply Forall_impl; [|apply count_while_forall]. cbv beta. intros r Hr. unfold alnum. now rewrite Hr. }
  assert (Hpre : forall j, j <= j0 ->
     Forall (fun r => alnum r = true)
       (firstn (j + count_while (fun r => r_lower r || r_digit r) (skipn j l)) l)).
  { intros j Hj. rewrite firstn_add. apply Forall_app. split; [|apply HW].
    eapply Forall_firstn_impl; [exact Hj|exact Hj0]. }
  destruct (nth_error l j0) as [a|]; [|apply Hpre; lia].
  destruct (nth_error l (S j0)) as [b|]; [|apply Hpre; lia].
  destruct ((1 <? j0) && r_lower a && r_lower b); apply Hpre; lia.
Qed.

Lemma firstn_alnum_bound w c rest j :
  alnum c = false -> Forall (fun r => alnum r = true) (firstn j (w ++ c :: rest)) -> j <= length w.
Proof.
  revert j. induction w as [|x w IH]; intros j Hc H; cbn in *.
  - destruct j as [|j]; [lia|]. cbn in H. inversion H; subst. congruence.
  - destruct j as [|j]; [lia|]. cbn in H. inversion H; subst. specialize (IH j Hc ltac:(assumption)). lia.
Qed.

(** everything from the first character that is not an ASCII letter or digit on is unchanged *)
Lemma firstWord_rest w c rest :
  forallb valid_rune (w ++ c :: rest) = true -> alnum c = false ->
  exists w', firstWordToLower (encode (w ++ c :: rest)) = encode (w' ++ c :: rest) /\
             map lower_rune w' = map lower_rune w /\ length w' = length w.
Proof.
  intros Hv Hc. unfold firstWordToLower.
  destruct (encode (w ++ c :: rest)) as [|b s] eqn:E.
  { exfalso. pose proof (encode_length (w ++ c :: rest)) as Hl. rewrite E, app_length in Hl. cbn in Hl. lia. }
  destruct (is_lower_byte b); [exists w; now rewrite E|].
  rewrite <- E, decode_encode by assumption. clear E b s.
  set (j := firstWordLen (w ++ c :: rest)).
  assert (Hj : j <= length w).
  { eapply firstn_alnum_bound; [exact Hc|]. apply firstWordLen_alnum. }
  exists (map lower_rune (firstn j w) ++ skipn j w).
  rewrite firstn_app, skipn_app. replace (j - length w) with 0 by lia. cbn [firstn skipn].
  rewrite app_nil_r, <- app_assoc. split; [reflexivity|]. split.
  - rewrite map_app, map_map.
    rewrite (map_ext (fun x => lower_rune (lower_rune x)) lower_rune) by apply lower_rune_idem.
    rewrite <- map_app, firstn_skipn. reflexivity.
  - rewrite app_length, map_length, <- app_length, firstn_skipn. reflexivity.
Qed.

Lemma decode_hd c s r l :
  decode (String c s) = r :: l -> (r < 128)%N -> c = byte_of_N r.
Proof.
  unfold decode. cbn [String.length decode_fuel]. unfold decode_rune.
  destruct (N_of_byte c <? 0x80)%N eqn:H0.
  - intros H _. injection H as <- _. now rewrite byte_of_N_of_byte.
  - intros H Hr. exfalso. revert H Hr.
    assert (Hrep : (replacement < 128)%N -> False) by (unfold replacement; lia).
    destruct (N_of_byte c <? 0xC2)%N eqn:H1; [intro H; injection H as <- _; exact Hrep|].
    destruct (N_of_byte c <? 0xE0)%N eqn:H2.
    { destruct s as [|c1 s1]; [intro H; injection H as <- _; exact Hrep|].
      destruct (is_cont (N_of_byte c1)) eqn:Hc; intro H; injection H as <- _; [|exact Hrep]. unfold is_cont in Hc. lia. }
    destruct (N_of_byte c <? 0xF0)%N eqn:H3.
    { destruct s as [|c1 [|c2 s2]]; try (intro H; injection H as <- _; exact Hrep).
      match goal with |- context [if ?b then _ else _] => destruct b eqn:Hc end;
        [|intro H; injection H as <- _; exact Hrep].
      intro H; injection H as <- _. unfold is_cont in Hc.
      destruct (N_of_byte c =? 0xE0)%N eqn:?, (N_of_byte c =? 0xED)%N eqn:?; lia. }
    destruct (N_of_byte c <? 0xF5)%N eqn:H4; [|intro H; injection H as <- _; exact Hrep].
    destruct s as [|c1 [|c2 [|c3 s3]]]; try (intro H; injection H as <- _; exact Hrep).
    match goal with |- context [if ?b then _ else _] => destruct b eqn:Hc end;
      [|intro H; injection H as <- _; exact Hrep].
    intro H; injection H as <- _. unfold is_cont in Hc.
    destruct (N_of_byte c =? 0xF0)%N eqn:?, (N_of_byte c =? 0xF4)%N eqn:?; lia.
Qed.

Lemma encode_hd_lower r l : r_lower r = true ->
  exists s, encode (r :: l) = String (byte_of_N r) s /\ is_lower_byte (byte_of_N r) = true.
Proof.
  intro H. unfold r_lower, in_range in H. cbn [encode]. unfold encode_rune.
  replace (valid_rune r) with true by (unfold valid_rune; lia).
  unfold encode_valid. replace (r <? 0x80)%N with true by lia. cbn.
  eexists. split; [reflexivity|]. unfold is_lower_byte, in_range. rewrite N_of_byte_of_N by lia. exact H.
Qed.

Lemma firstWord_idem cs : forallb valid_rune cs = true ->
  firstWordToLower (firstWordToLower (encode cs)) = firstWordToLower (encode cs).
Proof.
  intro Hv. unfold firstWordToLower at 2 3.
  destruct (encode cs) as [|c s] eqn:E; [reflexivity|].
  destruct (is_lower_byte c) eqn:Hl.
  { cbn. now rewrite Hl. }
  rewrite <- E, decode_encode by assumption.
  destruct cs as [|x cs]; [discriminate|].
  destruct (r_upper x) eqn:Hx.
  - assert (Hpos : 0 < firstWordLen (x :: cs)).
    { cbn [firstWordLen]. rewrite Hx.
      set (j0 := count_while r_upper (x :: cs)).
      assert (0 < j0) by (subst j0; cbn; rewrite Hx; lia).
      destruct (nth_error (x :: cs) j0); [|lia]. destruct (nth_error (x :: cs) (S j0)); [|lia].
      destruct ((1 <? j0) && r_lower n && r_lower n0) eqn:Hb; [|lia].
      apply andb_true_iff in Hb as [Hb _]. apply andb_true_iff in Hb as [Hb _].
      apply Nat.ltb_lt in Hb. lia. }
    destruct (firstWordLen (x :: cs)) as [|j]; [lia|]. cbn [firstn skipn map app].
    assert (Hlow : r_lower (lower_rune x) = true).
    { unfold lower_rune. rewrite Hx. unfold r_upper, r_lower, in_range in *. lia. }
    destruct (encode_hd_lower (lower_rune x) (map lower_rune (firstn j cs) ++ skipn j cs) Hlow) as (s' & Hs' & Hb).
    rewrite Hs'. cbn [firstWordToLower]. now rewrite Hb.
  - assert (Hid : forall n, n <= firstWordLen (x :: cs) ->
       map lower_rune (firstn n (x :: cs)) = firstn n (x :: cs)).
    { intros n Hn. cbn [firstWordLen] in Hn. rewrite Hx in Hn.
      assert (HF : Forall (fun r => lower_rune r = r) (firstn n (x :: cs))).
      { eapply Forall_impl; [|eapply Forall_firstn_impl; [exact Hn|apply count_while_forall]].
        cbv beta. intros r Hr. unfold lower_rune. unfold r_upper, r_lower, r_digit, in_range in *.
        destruct ((65 <=? r)%N && (r <=? 90)%N) eqn:Er; [lia|reflexivity]. }
      clear -HF. induction HF; cbn; [reflexivity|]. congruence. }
    rewrite Hid by lia. rewrite firstn_skipn.
    unfold firstWordToLower. rewrite E, Hl. rewrite <- E, decode_encode by assumption.
    rewrite Hid by lia. now rewrite firstn_skipn.
Qed.
