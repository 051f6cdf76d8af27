(** Completeness and idempotence of Validate *)
From Coq Require Import ZifyBool ZifyNat ZifyN.
From Verif Require Import Base BaseProofs Schema TypeSpec TypeProofs Uri ValidateSpec ValidateProofs.

Lemma NamesOk_sig ts ts' : map sig ts = map sig ts' -> NamesOk ts -> NamesOk ts'.
Proof.
  intros E [H1 H2].
  assert (En : map t_name ts = map t_name ts').
  { apply (f_equal (map (fun x => fst (fst x)))) in E. rewrite !map_map in E. exact E. }
  split.
  - rewrite <- (map_map t_name to_lower), <- En, map_map. exact H1.
  - apply Forall_map with (P := fun n => startsWithUpper n = true) in H2.
    rewrite En in H2. now apply Forall_map in H2.
Qed.

Lemma show_nonempty ts y : NamesOk ts -> TypeOk ts y -> show y <> "".
Proof.
  intros [_ Hu] H. rewrite Forall_forall in Hu.
  assert (HD : forall n k, Declared ts n k -> n <> "").
  { intros n k (t & Hin & Hn & _) E. specialize (Hu t Hin). rewrite Hn, E in Hu. discriminate. }
  destruct H; cbn; try discriminate; try (eapply HD; eassumption).
  destruct c; discriminate.
Qed.

Lemma vtParse_complete ts v : NamesOk ts -> Legal ts v ->
  exists w, vtParse ts (Some v) = Ok w.
Proof.
  intros Hn (y & Hy & He). unfold vtParse.
  destruct (String.eqb_spec (vt_expr v) "") as [E|].
  { exfalso. eapply show_nonempty; [exact Hn|exact Hy|congruence]. }
  destruct (TypeOk_Parsed ts y Hn Hy) as (w & Hw & _). rewrite <- He in Hw.
  apply parse_iff in Hw. rewrite Hw. cbn. eauto.
Qed.

(** a validated reference is a fixed point *)
Lemma vtParse_fix ts v w : vtParse ts v = Ok w -> tree w <> None -> vtParse ts (Some w) = Ok w.
Proof.
  intros H Hne. pose proof H as H0. unfold vtParse in H. destruct v as [v|]; [|discriminate].
  destruct (String.eqb_spec (vt_expr v) "") as [|Hn]; [discriminate|].
  apply bind_ok in H as (v' & Hp & H). injection H as Hw.
  pose proof Hp as Hq. apply parse_iff in Hq.
  assert (Ht : tree w = tree v').
  { rewrite <- Hw. destruct v' as [e sh]. reflexivity. }
  destruct (tree v') as [y|] eqn:Hy; [|congruence].
  pose proof (Parsed_build _ _ _ _ Hq Hy) as Hb. pose proof (Parsed_expr _ _ _ Hq) as Hx.
  assert (w = v').
  { rewrite <- Hw, Hb. destruct v' as [e sh]. cbn in *. now rewrite Hx. }
  unfold vtParse. rewrite H, Hx. destruct (String.eqb_spec (vt_expr v) ""); [congruence|].
  rewrite Hp. cbn [bind]. f_equal. now rewrite Hw.
Qed.

Lemma mapM_complete {A B} (f : A -> result B) l :
  (forall a, In a l -> exists b, f a = Ok b) -> exists l', mapM f l = Ok l'.
Proof.
  induction l as [|a l IH]; intro H; [eexists; reflexivity|].
  destruct (H a (or_introl eq_refl)) as (b & Hb).
  destruct IH as (l' & Hl'); [intros x Hx; apply H; now right|].
  cbn. rewrite Hb. cbn. rewrite Hl'. cbn. eauto.
Qed.

Lemma mapM_fix {A} (f : A -> result A) l : (forall a, In a l -> f a = Ok a) -> mapM f l = Ok l.
Proof.
  induction l as [|a l IH]; intro H; [reflexivity|]. cbn. rewrite H by now left. cbn.
  rewrite IH; [reflexivity|]. intros; apply H; now right.
Qed.

Lemma mapM_ext {A B} (f g : A -> result B) l : (forall a, In a l -> f a = g a) -> mapM f l = mapM g l.
Proof.
  induction l as [|a l IH]; intro H; [reflexivity|]. cbn. rewrite H by now left.
  rewrite IH; [reflexivity|]. intros; apply H; now right.
Qed.

(** ** fields *)

Lemma jsonName_complete ms name :
  (forall m v, In m ms -> assoc "json" m = Some v -> exists s, v = Some s /\ (s = "-" \/ Identifier s)) ->
  exists j, jsonName ms name = Ok j.
Proof.
  revert name. induction ms as [|m ms IH]; intros name H; [eexists; reflexivity|]. cbn.
  assert (IH' : forall n, exists j, jsonName ms n = Ok j) by (intro n; apply IH; intros m' v Hm; apply H; now right).
  destruct (assoc "json" m) as [v|] eqn:E; [|apply IH'].
  destruct (H m v (or_introl eq_refl) E) as (s & -> & Hs).
  destruct (String.eqb_spec s "-"); [apply IH'|].
  destruct Hs as [Hs|Hs]; [contradiction|]. apply validArg_iff in Hs. rewrite Hs. apply IH'.
Qed.

Lemma checkFields_complete fs : forall seen jseen,
  FieldsOk fs ->
  (forall f, In f fs -> ~ In (to_lower (f_name f)) seen /\ ~ In (to_lower (json_key f)) jseen) ->
  checkFields fs seen jseen = Ok tt.
Proof.
  induction fs as [|f fs IH]; intros seen jseen (F1 & F2 & F3 & F4 & Ht) Hs; [reflexivity|]. cbn [checkFields].
  inversion F1 as [|? ? I1 I2]; subst. inversion F2 as [|? ? N1 N2]; subst. inversion F3 as [|? ? J1 J2]; subst.
  inversion F4 as [|? ? K1 K2]; subst. inversion Ht as [|? ? T1 T2]; subst.
  destruct (String.eqb_spec (f_name f) "") as [E|].
  { rewrite E in I1. destruct I1 as (c & r & E' & _). discriminate. }
  apply validArg_iff in I1. rewrite I1. cbn [negb].
  destruct (Hs f (or_introl eq_refl)) as [S1 S2].
  rewrite (proj2 (str_in_not _ _) S1).
  destruct (jsonName_complete (f_meta f) (f_name f) T1) as (j & Hj). rewrite Hj. cbn [bind].
  pose proof (jsonName_key _ _ _ Hj) as Hk. fold (json_tags f) in Hk. fold (json_key f) in Hk. subst j.
  rewrite (proj2 (str_in_not _ _) S2).
  apply IH; [now repeat split|].
  intros g Hg. destruct (Hs g (or_intror Hg)) as [G1 G2]. split; intros [E|E].
  - apply N1. rewrite E. now apply (in_map (fun f => to_lower (f_name f))).
  - now apply G1.
  - apply J1. rewrite E. now apply (in_map (fun f => to_lower (json_key f))).
  - now apply G2.
Qed.

Lemma checkEnumFields_complete fs :
  Forall (fun f => f_value f <> "" /\ f_type f = None) fs -> checkEnumFields fs = Ok tt.
Proof.
  induction 1 as [|f fs [H1 H2] _ IH]; [reflexivity|]. cbn.
  destruct (String.eqb_spec (f_value f) ""); [contradiction|]. now rewrite H2.
Qed.

Lemma ident_eqb_eq a b : ident_eqb a b = true <-> a = b.
Proof.
  unfold ident_eqb. destruct a as [s i], b as [r j]. cbn.
  rewrite andb_true_iff, String.eqb_eq, Nat.eqb_eq. split; [intros [-> ->]; reflexivity|].
  intro E. injection E. auto.
Qed.

Lemma isValidVarType_enum v c : vt_expr v = core_to_string c -> integer_core c \/ c = CString ->
  isValidVarType (vtString (Some v)) (varIntegerCoreTypes ++ [CString]) = true.
Proof.
  intros E H. cbn [vtString]. rewrite E. unfold isValidVarType. rewrite core_from_to.
  destruct H as [H| ->]; [|reflexivity]. destruct c; cbn in H; try contradiction; reflexivity.
Qed.

Lemma typeParse_complete ts t : NamesOk ts -> In t ts -> DistinctNames t_id t_name ts ->
  TypeDeclOk (Legal ts) t ->
  exists t', typeParse ts t = Ok t'.
Proof.
  intros Hn Hin Hd (H1 & H2 & H3). unfold typeParse.
  destruct (String.eqb_spec (t_name t) ""); [contradiction|]. rewrite H2. cbn [negb].
  match goal with |- context [if ?b then Err _ else _] => replace b with false end.
  2:{ symmetry. apply not_true_iff_false. intro E. apply existsb_exists in E as (u & Hu & E).
      apply andb_true_iff in E as [E1 E2]. apply String.eqb_eq in E2. apply negb_true_iff in E1.
      apply (Hd t u Hin Hu); [|assumption]. intro E. rewrite (proj2 (ident_eqb_eq _ _)) in E1; [discriminate|congruence]. }
  destruct H3 as [(Hk & HF & HE1 & v & c & Hv & Hvc & HE2)|[(Hk & HF & HS)|(Hk & HA)]]; rewrite Hk; cbn [str_in existsb String.eqb Ascii.eqb Bool.eqb orb negb].
  - change (str_in "enum" ["enum"; "struct"; "alias"]) with true. cbn [negb].
    rewrite (checkFields_complete _ [] [] HF) by (intros; split; intros []). cbn [bind].
    rewrite (checkEnumFields_complete _ HE1). cbn [bind]. rewrite Hv.
    rewrite (isValidVarType_enum v c Hvc HE2). eauto.
  - change (str_in "struct" ["enum"; "struct"; "alias"]) with true. cbn [negb].
    rewrite (checkFields_complete _ [] [] HF) by (intros; split; intros []). cbn [bind].
    destruct (mapM_complete (parseField ts) (t_fields t)) as (fs & Hfs).
    { intros f Hf. unfold StructOk in HS. rewrite Forall_forall in HS. destruct (HS f Hf) as (Hval & v & Hv & Hl).
      unfold parseField. rewrite Hv. destruct (vtParse_complete ts v Hn Hl) as (w & ->). cbn [bind].
      rewrite Hval. cbn. eauto. }
    rewrite Hfs. cbn. eauto.
  - change (str_in "alias" ["enum"; "struct"; "alias"]) with true. cbn [negb].
    unfold AliasOk in HA. destruct (t_type t); [eauto|contradiction].
Qed.

(** ** errors *)

Lemma is_space_lower c : is_space_byte (lower_byte c) = is_space_byte c.
Proof. destruct c as [[] [] [] [] [] [] [] []]; reflexivity. Qed.

Lemma trim_left_lower s : trim_left is_space_byte (to_lower s) = to_lower (trim_left is_space_byte s).
Proof.
  unfold to_lower. induction s as [|c s IH]; [reflexivity|]. cbn. rewrite is_space_lower.
  destruct (is_space_byte c); [exact IH|reflexivity].
Qed.

Lemma trim_right_lower s : trim_right is_space_byte (to_lower s) = to_lower (trim_right is_space_byte s).
Proof.
  unfold to_lower. induction s as [|c s IH]; [reflexivity|]. cbn. rewrite IH.
  destruct (trim_right is_space_byte s) eqn:E; cbn; [|reflexivity].
  rewrite is_space_lower. destruct (is_space_byte c); reflexivity.
Qed.

Lemma trim_space_lower s : trim_space (to_lower s) = to_lower (trim_space s).
Proof. unfold trim_space. now rewrite trim_left_lower, trim_right_lower. Qed.

Lemma checkErrorDups_complete es : forall names codes,
  NoDup (map x_code es) -> NoDup (map (fun e => to_lower (x_name e)) es) ->
  (forall e, In e es -> ~ In (to_lower (x_name e)) names /\ ~ In (x_code e) codes) ->
  checkErrorDups es names codes = Ok tt.
Proof.
  induction es as [|e es IH]; intros names codes H1 H2 H3; [reflexivity|]. cbn.
  inversion H1 as [|? ? C1 C2]; subst. inversion H2 as [|? ? D1 D2]; subst.
  destruct (H3 e (or_introl eq_refl)) as [A B]. rewrite (proj2 (str_in_not _ _) A).
  assert (Hc : existsb (Z.eqb (x_code e)) codes = false).
  { apply not_true_iff_false. intro E. apply existsb_exists in E as (z & Hz & E). apply Z.eqb_eq in E. congruence. }
  rewrite Hc. apply IH; [assumption|assumption|]. intros g Hg. destruct (H3 g (or_intror Hg)) as [G1 G2].
  split; intros [E|E]; [|now apply G1| |now apply G2].
  - apply D1. rewrite E. now apply (in_map (fun e => to_lower (x_name e))).
  - apply C1. rewrite E. now apply (in_map x_code).
Qed.

Definition trimmed (e : error) : error :=
  Error_ (x_id e) (x_code e) (trim_space (x_name e)) (x_message e) (x_status e).

Lemma trimmed_idem e : trimmed (trimmed e) = trimmed e.
Proof. unfold trimmed. cbn [x_id x_name x_code x_message x_status]. now rewrite trim_space_idem. Qed.

Lemma parseErrors_trimmed : forall todo before es, parseErrors before todo = Ok es -> es = before ++ map trimmed todo.
Proof.
  induction todo as [|e todo IH]; intros before es H; cbn in H.
  - injection H as <-. now rewrite app_nil_r.
  - apply bind_ok in H as (e' & He & H). apply errorParse_inv in He as (_ & _ & ->).
    apply IH in H. rewrite H, <- app_assoc. reflexivity.
Qed.

Lemma NoDup_trim l : NoDup (map (fun e => to_lower (x_name (trimmed e))) l) ->
  forall a b, l = a ++ b -> NoDup (map (fun e => to_lower (x_name e)) (map trimmed a ++ b)).
Proof.
  intros H a b ->.
  assert (G : NoDup (map trim_space (map (fun e => to_lower (x_name e)) (map trimmed a ++ b)))).
  { rewrite map_map. rewrite map_app. rewrite map_map. 
    erewrite (map_ext _ (fun e => to_lower (x_name (trimmed e)))).
    2:{ intro e. cbn [trimmed x_name]. rewrite trim_space_lower, trim_space_idem. reflexivity. }
    rewrite (map_ext (fun x => trim_space (to_lower (x_name x))) (fun e => to_lower (x_name (trimmed e)))).
    2:{ intro e. cbn [trimmed x_name]. now rewrite trim_space_lower. }
    now rewrite <- map_app. }
  exact (NoDup_map_inv _ _ G).
Qed.

Lemma parseErrors_complete : forall todo before,
  ErrorsOk (map trimmed before ++ map trimmed todo) ->
  parseErrors (map trimmed before) todo = Ok (map trimmed before ++ map trimmed todo).
Proof.
  induction todo as [|e todo IH]; intros before (H1 & H2 & H3).
  - cbn. now rewrite app_nil_r.
  - cbn [parseErrors].
    assert (He : errorParse (map trimmed before) e todo = Ok (trimmed e)).
    { unfold errorParse. fold (trimmed e).
      assert (Hok : ErrorOk (trimmed e)).
      { rewrite Forall_forall in H1. apply H1. apply in_or_app. right. now left. }
      destruct Hok as (K1 & _ & K2 & K3 & K4 & K5 & K6).
      destruct (String.eqb_spec (x_name (trimmed e)) ""); [contradiction|].
      destruct (Z.leb_spec (x_code (trimmed e)) 0); [lia|]. rewrite K5. cbn [negb]. rewrite K6.
      destruct (String.eqb_spec (x_message (trimmed e)) ""); [contradiction|].
      replace ((x_status (trimmed e) <? 400)%Z || (599 <? x_status (trimmed e))%Z) with false by lia.
      rewrite checkErrorDups_complete; [reflexivity| | |intros; split; intros []].
      - rewrite <- map_app, map_map in H2. 
        replace (map x_code (map trimmed before ++ trimmed e :: todo))
          with (map (fun x => x_code (trimmed x)) (before ++ e :: todo)); [exact H2|].
        rewrite !map_app, map_map. reflexivity.
      - rewrite <- map_app, map_map in H3.
        assert (G := NoDup_trim (before ++ e :: todo) H3 (before ++ [e]) todo).
        rewrite <- app_assoc in G. specialize (G eq_refl). rewrite (map_app trimmed), <- app_assoc in G. exact G. }
    rewrite He. cbn [bind].
    replace (map trimmed before ++ [trimmed e])%list with (map trimmed (before ++ [e])) by (now rewrite map_app).
    rewrite IH.
    + rewrite map_app, <- app_assoc. reflexivity.
    + rewrite map_app, <- app_assoc. now split.
Qed.

(** ** services *)

Lemma checkMethodNames_complete ms : forall seen,
  Forall (fun m => me_name m <> "") ms -> NoDup (map (fun m => to_lower (me_name m)) ms) ->
  (forall m, In m ms -> ~ In (to_lower (me_name m)) seen) -> checkMethodNames ms seen = Ok tt.
Proof.
  induction ms as [|m ms IH]; intros seen H1 H2 H3; [reflexivity|]. cbn.
  inversion H1; subst. inversion H2 as [|? ? N1 N2]; subst.
  destruct (String.eqb_spec (me_name m) ""); [contradiction|].
  rewrite (proj2 (str_in_not _ _) (H3 m (or_introl eq_refl))).
  apply IH; [assumption|assumption|]. intros g Hg [E|E].
  - apply N1. rewrite E. now apply (in_map (fun m => to_lower (me_name m))).
  - now apply (H3 g (or_intror Hg)).
Qed.

Lemma parseArg_complete ts a : NamesOk ts -> ArgOk (Legal ts) a -> exists a', parseArg ts a = Ok a'.
Proof.
  intros Hn (H & v & Hv & Hl). unfold parseArg. destruct (String.eqb_spec (g_name a) ""); [contradiction|].
  rewrite Hv. destruct (vtParse_complete ts v Hn Hl) as (w & ->). cbn. eauto.
Qed.

Lemma methodParse_complete ts es m : NamesOk ts -> MethodOk (Legal ts) es m -> exists m', methodParse ts es m = Ok m'.
Proof.
  intros Hn (H1 & H2 & H3 & H4 & H5). unfold methodParse.
  replace ((1 <? length (me_inputs m)) && me_succinct m) with false.
  2:{ destruct (me_succinct m); [|now rewrite andb_false_r]. destruct (H5 eq_refl). symmetry. rewrite andb_true_r. apply Nat.ltb_ge. lia. }
  replace ((1 <? length (me_outputs m)) && me_succinct m) with false.
  2:{ destruct (me_succinct m); [|now rewrite andb_false_r]. destruct (H5 eq_refl). symmetry. rewrite andb_true_r. apply Nat.ltb_ge. lia. }
  rewrite Forall_forall in H2, H3.
  destruct (mapM_complete (parseArg ts) (me_inputs m)) as (i & ->).
  { intros a Ha. apply parseArg_complete; auto. }
  destruct (mapM_complete (parseArg ts) (me_outputs m)) as (o & ->).
  { intros a Ha. apply parseArg_complete; auto. }
  cbn [bind]. replace (forallb _ (me_errors m)) with true; [eauto|]. symmetry.
  apply forallb_forall. intros n Hnn. destruct (H4 n Hnn) as (e & He & E). apply existsb_exists.
  exists e. split; [assumption|]. now apply String.eqb_eq.
Qed.

Lemma serviceParse_complete ts es ss s : NamesOk ts -> In s ss -> DistinctNames v_id v_name ss ->
  ServiceOk (Legal ts) es s -> exists s', serviceParse ts es ss s = Ok s'.
Proof.
  intros Hn Hin Hd (H1 & H2 & H3 & H4). unfold serviceParse.
  destruct (String.eqb_spec (v_name s) ""); [contradiction|].
  match goal with |- context [if ?b then Err _ else _] => replace b with false end.
  2:{ symmetry. apply not_true_iff_false. intro E. apply existsb_exists in E as (u & Hu & E).
      apply andb_true_iff in E as [E1 E2]. apply String.eqb_eq in E2. apply negb_true_iff in E1.
      apply (Hd s u Hin Hu); [|assumption]. intro E. rewrite (proj2 (ident_eqb_eq _ _)) in E1; [discriminate|congruence]. }
  assert (Hc : checkMethodNames (v_methods s) [] = Ok tt).
  { apply checkMethodNames_complete; [|assumption|intros ? ? []].
    eapply Forall_impl; [|exact H3]. intros m Hm. apply Hm. }
  destruct (mapM_complete (methodParse ts es) (v_methods s)) as (ms & Hms).
  { intros m Hm. rewrite Forall_forall in H3. apply methodParse_complete; auto. }
  rewrite Hc, Hms. destruct (v_methods s); [contradiction|]. cbn [bind]. eauto.
Qed.

(** ** base path *)

Lemma containsAny_spec b : containsAny b basepathSpaces = false -> containsAny b "?#" = false ->
  forall c, In c (list_ascii_of_string b) -> ~ In (N_of_byte c) [32; 9; 13; 10; 63; 35]%N.
Proof.
  unfold containsAny. intros H1 H2 c Hc. induction b as [|d b IH]; [contradiction|].
  cbn [sexists] in H1, H2. apply orb_false_iff in H1 as [A1 B1]. apply orb_false_iff in H2 as [A2 B2].
  destruct Hc as [->|Hc]; [|exact (IH B1 B2 Hc)]. clear -A1 A2. revert A1 A2.
  destruct c as [[] [] [] [] [] [] [] []]; vm_compute; intros; intuition congruence.
Qed.

Lemma containsAny_spec_conv b :
  (forall c, In c (list_ascii_of_string b) -> ~ In (N_of_byte c) [32; 9; 13; 10; 63; 35]%N) ->
  containsAny b basepathSpaces = false /\ containsAny b "?#" = false.
Proof.
  unfold containsAny. induction b as [|d b IH]; intro H; [now split|]. cbn [sexists].
  destruct IH as [I1 I2]; [intros c Hc; apply H; now right|]. rewrite I1, I2.
  specialize (H d (or_introl eq_refl)). clear -H. revert H.
  destruct d as [[] [] [] [] [] [] [] []]; vm_compute; intro H; (split; reflexivity) || (exfalso; apply H; tauto).
Qed.

Lemma contains_iff p s : contains p s = true <-> exists a b, s = (a ++ p ++ b)%string.
Proof.
  induction s as [|c s IH]; cbn [contains].
  - rewrite orb_false_r, has_prefix_iff. split.
    + intros (r & E). exists "", r. exact E.
    + intros (a & b & E). destruct a; [|discriminate]. now exists b.
  - rewrite orb_true_iff, has_prefix_iff, IH. split.
    + intros [(r & E)|(a & b & E)]; [exists "", r; exact E|].
      exists (String c a), b. cbn. now rewrite E.
    + intros (a & b & E). destruct a as [|d a]; [left; now exists b|]. right. exists a, b.
      cbn in E. now injection E.
Qed.

Lemma checkBasePath_iff u b p : checkBasePath u b = Ok p <->
  BasePathOk u b /\ p = (if String.eqb b "" then ""
                         else if has_suffix "/" (slashed b) then slashed b else (slashed b ++ "/")%string).
Proof.
  unfold checkBasePath, BasePathOk. fold (slashed b).
  destruct (String.eqb_spec b "") as [->|Hb].
  { split; [intro H; injection H as <-; now split; [left|]|intros [_ ->]; reflexivity]. }
  split.
  - destruct (containsAny b basepathSpaces) eqn:H1; [discriminate|].
    destruct (containsAny b "?#") eqn:H2; [discriminate|].
    destruct (contains "://" b) eqn:H3; [discriminate|].
    cbv zeta. destruct (u (slashed b)) eqn:H4; [|discriminate]. cbn [negb]. intro H.
    split; [right|now injection H as <-].
    split; [now apply containsAny_spec|]. split; [|reflexivity].
    intros x y E. assert (contains "://" b = true); [apply contains_iff; eauto|congruence].
  - intros [[H|(H1 & H2 & H3)] ->]; [contradiction|].
    destruct (containsAny_spec_conv b H1) as [-> ->].
    replace (contains "://" b) with false.
    2:{ symmetry. apply not_true_iff_false. intro E. apply contains_iff in E as (x & y & E). now apply (H2 x y). }
    cbv zeta. rewrite H3. reflexivity.
Qed.

(** ** acceptance *)

Lemma validate_complete u s :
  SchemaOk Legal s -> BasePathOk u (sc_basepath s) -> NoDup (map t_id (sc_types s)) ->
  exists s', validate u s = Ok s'.
Proof.
  intros [V1 V2 V3 V4 V5 V6 V7] Hb Hid.
  assert (Htrim : map trimmed (sc_errors s) = sc_errors s).
  { destruct V5 as [V5 _]. clear -V5. induction V5 as [|e l H _ IH]; [reflexivity|]. cbn. rewrite IH. f_equal.
    unfold trimmed. destruct H as (_ & H & _). rewrite H. now destruct e. }
  assert (Hn : NamesOk (sc_types s)).
  { split; [now apply (distinct_nodup t_id t_name)|]. eapply Forall_impl; [|exact V3]. intros t Ht. apply Ht. }
  unfold validate. rewrite V1. cbn [String.eqb Ascii.eqb Bool.eqb negb].
  replace (negb (length (sc_services s) =? 0) && String.eqb (sc_version s) "") with false.
  2:{ destruct (sc_services s); [reflexivity|]. cbn. symmetry. apply String.eqb_neq. now apply V2. }
  rewrite (proj2 (checkBasePath_iff u (sc_basepath s) _) (conj Hb eq_refl)). cbn [bind].
  destruct (mapM_complete (typeParse (sc_types s)) (sc_types s)) as (ts & Hts).
  { intros t Ht. rewrite Forall_forall in V3. apply typeParse_complete; auto. }
  rewrite Hts. cbn [bind].
  pose proof (parseErrors_complete (sc_errors s) []) as HE. cbn [map app] in HE. rewrite Htrim in HE.
  rewrite (HE V5). cbn [bind].
  destruct (types_ok _ _ Hts) as (_ & Tsig & _ & _).
  assert (Hn' : NamesOk ts) by (eapply NamesOk_sig; [|exact Hn]; now symmetry).
  destruct (mapM_complete (serviceParse ts (sc_errors s) (sc_services s)) (sc_services s)) as (ss & ->).
  { intros x Hx. apply serviceParse_complete; auto. rewrite Forall_forall in V6. specialize (V6 x Hx).
    destruct V6 as (W1 & W2 & W3 & W4). split; [assumption|]. split; [assumption|]. split; [|assumption].
    assert (HL : forall v, Legal (sc_types s) v -> Legal ts v).
    { intros v (y & Hy & E). exists y. split; [|assumption]. eapply TypeOk_sig; [|exact Hy]. now symmetry. }
    assert (HAr : forall a, ArgOk (Legal (sc_types s)) a -> ArgOk (Legal ts) a).
    { intros a (A1 & v & A2 & A3). split; [assumption|]. exists v. auto. }
    eapply Forall_impl; [|exact W3]. intros m (M1 & M2 & M3 & M4). split; [assumption|].
    split; [eapply Forall_impl; [|exact M2]; exact HAr|].
    split; [eapply Forall_impl; [|exact M3]; exact HAr|]. exact M4. }
  cbn. eauto.
Qed.
