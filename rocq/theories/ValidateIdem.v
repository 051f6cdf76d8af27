(** Idempotence of Validate, what it may change, examples *)
From Coq Require Import ZifyBool ZifyNat ZifyN.
From Verif Require Import Base BaseProofs Schema TypeSpec TypeProofs Uri ValidateSpec ValidateProofs ValidateComplete.

(** ** base path *)

Lemma pctOk_app s t : pctOk s = true -> pctOk t = true -> pctOk (s ++ t) = true.
Proof.
  remember (String.length s) as n eqn:Hn. revert s Hn.
  induction n as [n IH] using lt_wf_ind. intros s Hn Hs Ht. destruct s as [|c r]; [exact Ht|].
  cbn [append pctOk] in *. cbn in Hn. destruct (Ascii.eqb c "%").
  - destruct r as [|a [|b r']]; try discriminate. cbn [append].
    apply andb_true_iff in Hs as [Hs H3]. rewrite Hs. cbn [andb]. cbn in Hn.
    apply (IH (String.length r')); [lia|reflexivity|assumption|assumption].
  - apply (IH (String.length r)); [lia|reflexivity|assumption|assumption].
Qed.

Lemma goUriOk_slash p : goUriOk p = true -> goUriOk (p ++ "/") = true.
Proof.
  unfold goUriOk. rewrite !andb_true_iff, !negb_true_iff, sexists_app. intros [H1 H2].
  rewrite H1. split; [reflexivity|]. now apply pctOk_app.
Qed.

Definition closed_slash (u : string -> bool) : Prop := forall p, u p = true -> u (p ++ "/")%string = true.

Lemma slashed_prefix b : has_prefix "/" (slashed b) = true.
Proof. unfold slashed. destruct (has_prefix "/" b) eqn:E; [assumption|reflexivity]. Qed.

Lemma has_prefix_app_l p a b : has_prefix p a = true -> has_prefix p (a ++ b) = true.
Proof. rewrite !has_prefix_iff. intros (r & ->). exists (r ++ b)%string. apply sapp_assoc. Qed.

Lemma slashed_chars b c : In c (list_ascii_of_string (slashed b)) -> c = "/"%char \/ In c (list_ascii_of_string b).
Proof. unfold slashed. destruct (has_prefix "/" b); [auto|]. cbn. intuition. Qed.

Lemma laos_app a b : list_ascii_of_string (a ++ b) = (list_ascii_of_string a ++ list_ascii_of_string b)%list.
Proof. induction a; cbn; congruence. Qed.

(** appending or prepending "/" cannot create "://" *)
Lemma contains_cons p c s : contains p (String c s) = has_prefix p (String c s) || contains p s.
Proof. reflexivity. Qed.

Lemma no_scheme_cons s : contains "://" s = false -> contains "://" ("/" ++ s) = false.
Proof. intro H. cbn [append]. rewrite contains_cons, H. reflexivity. Qed.

(** note: [p ++ "/"] has "://" only if [p] ends in ":/" *)
Lemma no_scheme_snoc s : contains "://" s = false -> has_suffix "/" s = false -> contains "://" (s ++ "/") = false.
Proof.
  intros H Hs. apply not_true_iff_false. intro E. apply contains_iff in E as (a & b & E).
  destruct (string_dec b "") as [->|Hb].
  - rewrite sapp_nil_r in E. assert (Hl : s = (a ++ ":/")%string).
    { replace (a ++ "://")%string with ((a ++ ":/") ++ "/")%string in E by (rewrite sapp_assoc; reflexivity).
      clear -E. revert E. generalize (a ++ ":/")%string. intro t. revert t.
      induction s as [|c s IH]; intros t E; destruct t as [|d t]; cbn in E; try reflexivity.
      - injection E as _ E. destruct t; discriminate.
      - injection E as _ E. destruct s; discriminate.
      - injection E as -> E. f_equal. now apply IH. }
    rewrite Hl in Hs. replace (a ++ ":/")%string with ((a ++ ":") ++ "/")%string in Hs by (rewrite sapp_assoc; reflexivity).
    rewrite has_suffix_app in Hs. discriminate.
  - assert (Hb' : exists b' x, b = (b' ++ String x "")%string).
    { clear -Hb. induction b as [|c b IH]; [contradiction|]. destruct (string_dec b "") as [->|Hn].
      - now exists "", c. - destruct (IH Hn) as (b' & x & ->). now exists (String c b'), x. }
    destruct Hb' as (b' & x & ->).
    assert (Hl : s = (a ++ "://" ++ b')%string).
    { rewrite <- !sapp_assoc in E. rewrite sapp_assoc in E.
      remember (a ++ "://" ++ b')%string as t eqn:Ht.
      assert (E' : (s ++ "/")%string = (t ++ String x "")%string).
      { rewrite E, Ht. rewrite <- !sapp_assoc. reflexivity. }
      clear -E'. revert t E'. induction s as [|c s IH]; intros t E; destruct t as [|d t]; cbn in E; try reflexivity.
      - injection E as _ E. destruct t; discriminate.
      - injection E as _ E. destruct s; discriminate.
      - injection E as -> E. f_equal. now apply IH. }
    assert (contains "://" s = true) by (apply contains_iff; eauto). congruence.
Qed.

Lemma basepath_fix u b p : closed_slash u -> checkBasePath u b = Ok p -> checkBasePath u p = Ok p.
Proof.
  intros Hu H. apply checkBasePath_iff in H as [Hb Hp].
  destruct (String.eqb_spec b "") as [->|Hne]; [now subst p|].
  destruct Hb as [|(H1 & H2 & H3)]; [contradiction|].
  assert (Hpre : has_prefix "/" p = true).
  { subst p. destruct (has_suffix "/" (slashed b)); [apply slashed_prefix|]. apply has_prefix_app_l, slashed_prefix. }
  assert (Hsuf : has_suffix "/" p = true).
  { subst p. destruct (has_suffix "/" (slashed b)) eqn:E; [assumption|]. apply has_suffix_app. }
  assert (Hsl : slashed p = p) by (unfold slashed; now rewrite Hpre).
  assert (Hn : p <> "") by (intros ->; discriminate).
  apply checkBasePath_iff. rewrite Hsl, Hsuf. destruct (String.eqb_spec p ""); [contradiction|].
  split; [|reflexivity]. right. rewrite Hsl.
  assert (Hcs : contains "://" (slashed b) = false).
  { assert (Hc : contains "://" b = false).
    { apply not_true_iff_false. intro E. apply contains_iff in E as (x & y & E). now apply (H2 x y). }
    unfold slashed. destruct (has_prefix "/" b); [assumption|now apply no_scheme_cons]. }
  assert (Hsc : forall c, In c (list_ascii_of_string (slashed b)) -> ~ In (N_of_byte c) [32; 9; 13; 10; 63; 35]%N).
  { intros c Hc. apply slashed_chars in Hc as [->|Hc]; [cbn; intuition discriminate|auto]. }
  subst p. destruct (has_suffix "/" (slashed b)) eqn:E.
  - split; [exact Hsc|]. split; [|exact H3]. intros x y Exy.
    assert (contains "://" (slashed b) = true) by (apply contains_iff; eauto). congruence.
  - split; [|split].
    + intros c Hc. rewrite laos_app in Hc. apply in_app_or in Hc as [Hc|[<-|[]]]; [auto|cbn; intuition discriminate].
    + intros x y Exy. assert (contains "://" (slashed b ++ "/") = true) by (apply contains_iff; eauto).
      rewrite no_scheme_snoc in H by assumption. discriminate.
    + now apply Hu.
Qed.

(** ** idempotence *)

Definition complete_field (f : field) : Prop := forall v, f_type f = Some v -> tree v <> None.

Lemma parseField_fix ts f f' : parseField ts f = Ok f' -> complete_field f' -> parseField ts f' = Ok f'.
Proof.
  intros H Hc. apply parseField_inv in H as (v & w & Hv & Hw & Hval & ->).
  unfold parseField. cbn [f_type]. rewrite (vtParse_fix _ _ _ Hw) by (now apply Hc). reflexivity.
Qed.

Lemma TypeDeclOk_fields R t : TypeDeclOk R t -> t_kind t = "struct" ->
  forall f v, In f (t_fields t) -> f_type f = Some v -> R v.
Proof.
  intros (_ & _ & H) Hk f v Hf Hv.
  destruct H as [(E & _)|[(_ & _ & H)|(E & _)]]; try congruence.
  unfold StructOk in H. rewrite Forall_forall in H. destruct (H f Hf) as (_ & w & Hw & HR). congruence.
Qed.

Lemma checkFields_ext fs gs : Forall2 (fun f g => f_meta f = f_meta g /\ f_name f = f_name g) fs gs ->
  forall a b, checkFields fs a b = checkFields gs a b.
Proof.
  induction 1 as [|f g fs gs [E1 E2] _ IH]; intros a b; [reflexivity|]. cbn. rewrite E1, E2.
  destruct (String.eqb (f_name g) ""); [reflexivity|]. destruct (negb (isValidArgName (f_name g))); [reflexivity|].
  destruct (str_in _ a); [reflexivity|]. destruct (jsonName (f_meta g) (f_name g)); cbn; try reflexivity.
  destruct (str_in _ b); [reflexivity|]. apply IH.
Qed.

Definition idn (t : type) := (t_id t, t_name t).

Lemma existsb_dup_ext ts ts' t : map idn ts = map idn ts' ->
  existsb (fun u => negb (ident_eqb (t_id u) (t_id t)) && String.eqb (to_lower (t_name t)) (to_lower (t_name u))) ts =
  existsb (fun u => negb (ident_eqb (t_id u) (t_id t)) && String.eqb (to_lower (t_name t)) (to_lower (t_name u))) ts'.
Proof.
  revert ts'. induction ts as [|u ts IH]; intros [|u' ts'] E; try discriminate; [reflexivity|].
  cbn [map] in E. unfold idn at 1 3 in E. injection E as E1 E2 E. cbn. rewrite E1, E2. f_equal. now apply IH.
Qed.

Lemma typeParse_fix ts ts' t t' : map sig ts = map sig ts' -> map idn ts = map idn ts' ->
  typeParse ts t = Ok t' ->
  (t_kind t' = "struct" -> Forall complete_field (t_fields t')) ->
  typeParse ts' t' = Ok t'.
Proof.
  intros Es Ei H Hc. unfold typeParse in H |- *.
  destruct (String.eqb (t_name t) "") eqn:H1; [discriminate|].
  destruct (negb (startsWithUpper (t_name t))) eqn:H2; [discriminate|].
  match type of H with (if ?b then _ else _) = _ => destruct b eqn:H3; [discriminate|] end.
  rewrite (existsb_dup_ext _ _ t Ei) in H3.
  destruct (negb (str_in (t_kind t) ["enum"; "struct"; "alias"])) eqn:H4; [discriminate|].
  destruct (String.eqb (t_kind t) "alias") eqn:H5.
  { destruct (t_type t) eqn:H6; [|discriminate]. injection H as <-. rewrite H1, H2, H3, H4, H5, H6. reflexivity. }
  apply bind_ok in H as ([] & Hf & H).
  destruct (String.eqb (t_kind t) "enum") eqn:H6.
  { apply bind_ok in H as ([] & He & H). destruct (isValidVarType _ _) eqn:Hv; [|discriminate]. injection H as <-.
    rewrite H1, H2, H3, H4, H5, H6, Hf. cbn [bind]. rewrite He. cbn [bind]. rewrite Hv. reflexivity. }
  apply bind_ok in H as (fs & Hfs & H). injection H as <-.
  cbn [t_name t_kind t_id t_type t_fields t_meta t_comments] in *. rewrite H1, H2, H3, H4, H5, H6.
  assert (Hst : t_kind t = "struct").
  { apply negb_false_iff, str_in_In in H4. cbn in H4. apply String.eqb_neq in H5, H6. intuition congruence. }
  specialize (Hc Hst).
  rewrite <- (checkFields_ext (t_fields t) fs).
  2:{ apply mapM_Forall2 in Hfs. eapply Forall2_impl; [|exact Hfs]. cbv beta. intros f g Hfg.
      apply parseField_inv in Hfg as (v & w & _ & _ & _ & ->). now split. }
  rewrite Hf. cbn [bind].
  rewrite (mapM_fix (parseField ts') fs); [reflexivity|].
  intros g Hg. destruct (mapM_In _ _ _ _ Hfs Hg) as (f & _ & Hfg).
  rewrite Forall_forall in Hc. unfold parseField. rewrite <- (vtParse_sig ts ts' _ Es). fold (parseField ts g).
  eapply parseField_fix; [exact Hfg|auto].
Qed.

Lemma parseArg_fix ts a a' : parseArg ts a = Ok a' -> (forall v, g_type a' = Some v -> tree v <> None) ->
  parseArg ts a' = Ok a'.
Proof.
  intros H Hc. apply parseArg_inv in H as (v & w & Hv & Hw & Hn & ->). unfold parseArg. cbn [g_name g_type g_optional] in *.
  destruct (String.eqb_spec (g_name a) ""); [contradiction|]. rewrite (vtParse_fix _ _ _ Hw) by auto. reflexivity.
Qed.

Lemma mapM_parseArg_fix ts l l' : mapM (parseArg ts) l = Ok l' ->
  (forall a v, In a l' -> g_type a = Some v -> tree v <> None) -> mapM (parseArg ts) l' = Ok l'.
Proof.
  intros H Hc. apply mapM_fix. intros a Ha. destruct (mapM_In _ _ _ _ H Ha) as (a0 & _ & E).
  eapply parseArg_fix; [exact E|]. eauto.
Qed.

Lemma methodParse_fix ts es m m' : methodParse ts es m = Ok m' ->
  (forall a v, In a (me_inputs m') \/ In a (me_outputs m') -> g_type a = Some v -> tree v <> None) ->
  methodParse ts es m' = Ok m'.
Proof.
  intros H Hc. apply methodParse_inv in H as (ins & outs & Hi & Ho & He & S1 & S2 & ->).
  unfold methodParse. cbn [me_name me_annotations me_comments me_succinct me_stream_in me_stream_out me_inputs me_outputs me_errors] in *.
  rewrite (mapM_length _ _ _ Hi), (mapM_length _ _ _ Ho), S1, S2.
  rewrite (mapM_parseArg_fix _ _ _ Hi) by (intros a v Ha; apply (Hc a v); now left). cbn [bind].
  rewrite (mapM_parseArg_fix _ _ _ Ho) by (intros a v Ha; apply (Hc a v); now right). cbn [bind].
  rewrite He. reflexivity.
Qed.

Lemma checkMethodNames_ext ms ms' : map me_name ms = map me_name ms' ->
  forall seen, checkMethodNames ms seen = checkMethodNames ms' seen.
Proof.
  revert ms'. induction ms as [|m ms IH]; intros [|m' ms'] E seen; try discriminate; [reflexivity|].
  cbn in E. injection E as E1 E2. cbn. rewrite E1. destruct (String.eqb _ _); [reflexivity|].
  destruct (str_in _ _); [reflexivity|]. now apply IH.
Qed.

Lemma existsb_svc_ext ss ss' s : map (fun s => (v_id s, v_name s)) ss = map (fun s => (v_id s, v_name s)) ss' ->
  existsb (fun u => negb (ident_eqb (v_id u) (v_id s)) && String.eqb (to_lower (v_name s)) (to_lower (v_name u))) ss =
  existsb (fun u => negb (ident_eqb (v_id u) (v_id s)) && String.eqb (to_lower (v_name s)) (to_lower (v_name u))) ss'.
Proof.
  revert ss'. induction ss as [|u ss IH]; intros [|u' ss'] E; try discriminate; [reflexivity|].
  cbn [map] in E. injection E as E1 E2 E. cbn. rewrite E1, E2. f_equal. now apply IH.
Qed.

Lemma serviceParse_fix ts es ss ss' s s' :
  map (fun s => (v_id s, v_name s)) ss = map (fun s => (v_id s, v_name s)) ss' ->
  serviceParse ts es ss s = Ok s' ->
  (forall m a v, In m (v_methods s') -> In a (me_inputs m) \/ In a (me_outputs m) -> g_type a = Some v -> tree v <> None) ->
  serviceParse ts es ss' s' = Ok s'.
Proof.
  intros Ei H Hc. unfold serviceParse in H |- *.
  destruct (String.eqb (v_name s) "") eqn:H1; [discriminate|].
  match type of H with (if ?b then _ else _) = _ => destruct b eqn:H3; [discriminate|] end.
  rewrite (existsb_svc_ext _ _ s Ei) in H3.
  assert (H' : (do _ <- checkMethodNames (v_methods s) [];
                do ms <- mapM (methodParse ts es) (v_methods s);
                Ok (Service_ (v_id s) (v_name s) ms (v_comments s))) = Ok s' /\ v_methods s <> []).
  { destruct (v_methods s); [discriminate|]. split; [assumption|discriminate]. }
  clear H. destruct H' as [H Hnn].
  apply bind_ok in H as ([] & Hcn & H). apply bind_ok in H as (ms & Hms & H). injection H as <-.
  cbn [v_id v_name v_methods v_comments] in *. rewrite H1, H3.
  rewrite (checkMethodNames_ext (v_methods s) ms) in Hcn.
  2:{ eapply mapM_map_eq; [exact Hms|]. intros a b _ Hab. apply methodParse_inv in Hab as (? & ? & _ & _ & _ & _ & _ & ->). reflexivity. }
  rewrite Hcn. cbn [bind].
  rewrite (mapM_fix (methodParse ts es) ms).
  - destruct ms; [|reflexivity]. apply mapM_length in Hms. destruct (v_methods s); [contradiction|discriminate].
  - intros m Hm. destruct (mapM_In _ _ _ _ Hms Hm) as (m0 & _ & E). eapply methodParse_fix; [exact E|].
    intros a v. now apply Hc.
Qed.

Lemma validate_fix u s s' : closed_slash u -> validate u s = Ok s' -> SchemaOk Resolved s' ->
  validate u s' = Ok s'.
Proof.
  intros Hu H Hok. pose proof H as H0. apply validate_inv in H as (b & ts & es & ss & Hw & Hv & Hb & Hts & Hes & Hss & ->).
  destruct Hok as [K1 K2 K3 K4 K5 K6 K7]. cbn [sc_webrpc sc_name sc_version sc_basepath sc_types sc_errors sc_services] in *.
  destruct (types_ok _ _ Hts) as (Tid & Tsig & _ & _).
  assert (HR : forall v, Resolved ts v -> tree v <> None) by (intros v (y & E & _); congruence).
  unfold validate. cbn [sc_webrpc sc_name sc_version sc_basepath sc_types sc_errors sc_services]. rewrite Hw.
  cbn [String.eqb Ascii.eqb Bool.eqb negb].
  replace (negb (length ss =? 0) && String.eqb (sc_version s) "") with false.
  2:{ destruct ss; [reflexivity|]. cbn. symmetry. apply String.eqb_neq. apply K2. discriminate. }
  rewrite (basepath_fix _ _ _ Hu Hb). cbn [bind].
  assert (Hid : map idn (sc_types s) = map idn ts).
  { eapply mapM_map_eq; [exact Hts|]. intros x y _ Hxy. apply typeParse_inv in Hxy as (E1 & E2 & _).
    unfold sig in E2. injection E2 as E2 _ _. unfold idn. congruence. }
  rewrite (mapM_fix (typeParse ts) ts).
  2:{ intros t Ht. destruct (mapM_In _ _ _ _ Hts Ht) as (t0 & _ & E).
      eapply typeParse_fix; [symmetry; exact Tsig|exact Hid|exact E|].
      intro Hk. apply Forall_forall. intros f Hf v Hfv. apply HR.
      rewrite Forall_forall in K3. eapply TypeDeclOk_fields; [apply K3, Ht|exact Hk|exact Hf|exact Hfv]. }
  cbn [bind].
  assert (Htr : es = map trimmed (sc_errors s)) by (apply (parseErrors_trimmed (sc_errors s) [] es Hes)).
  assert (Htr2 : map trimmed es = es).
  { rewrite Htr, map_map. apply map_ext. intro. apply trimmed_idem. }
  pose proof (parseErrors_complete es []) as HE. cbn [map app] in HE. rewrite Htr2 in HE. rewrite (HE K5). cbn [bind].
  assert (Hsid : map (fun s => (v_id s, v_name s)) (sc_services s) = map (fun s => (v_id s, v_name s)) ss).
  { eapply mapM_map_eq; [exact Hss|]. intros x y _ Hxy. apply serviceParse_inv in Hxy as (_ & E1 & E2 & _). congruence. }
  rewrite (mapM_fix (serviceParse ts es ss) ss); [reflexivity|].
  intros x Hx. destruct (mapM_In _ _ _ _ Hss Hx) as (x0 & _ & E).
  eapply serviceParse_fix; [exact Hsid|exact E|].
  intros m a v Hm Ha Hgv. apply HR. rewrite Forall_forall in K6. destruct (K6 x Hx) as (_ & _ & W & _).
  rewrite Forall_forall in W. destruct (W m Hm) as (_ & W1 & W2 & _). rewrite Forall_forall in W1, W2.
  destruct Ha as [Ha|Ha].
  - destruct (W1 a Ha) as (_ & v' & E1 & E2). congruence.
  - destruct (W2 a Ha) as (_ & v' & E1 & E2). congruence.
Qed.
