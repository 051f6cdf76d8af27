(** Proofs about programs of different versions *)
From Coq Require Import Lia DecimalString.
From Verif Require Import Base BaseProofs Utf8 Json JsonProofs GoVal GoValSpec GoValProofs JsOrder VersionSpec.

Lemma zero_zeroVal t : Zero t (zeroVal t).
Proof. destruct t; constructor. Qed.

Lemma enumValue_in t n : In n (map fst t) -> In (n, enumValue t n) t.
Proof.
  induction t as [|[m z] t IH]; [intros []|]. cbn [map fst In enumValue]. destruct (String.eqb_spec m n) as [->|N]; [intros _; left; reflexivity|].
  intros [C|C]; [congruence|]. right. apply IH, C.
Qed.
Lemma enumValue_out t n : ~ In n (map fst t) -> enumValue t n = 0%Z.
Proof.
  induction t as [|[m z] t IH]; [reflexivity|]. cbn [map fst In enumValue]. intros H. destruct (String.eqb_spec m n) as [->|N]; [exfalso; apply H; left; reflexivity|].
  apply IH. intros C. apply H. right. exact C.
Qed.

Lemma parseInt_wider lo hi lo' hi' s y : parseInt lo hi s = Some y -> (lo' <= lo)%Z -> (hi <= hi')%Z -> (lo <= y <= hi)%Z /\ parseInt lo' hi' s = Some y.
Proof.
  unfold parseInt. destruct (match s with String c r => if (N_of_byte c =? 45)%N then (true, r) else (false, s) | EmptyString => (false, s) end) as [neg ds].
  intros H L U. destruct (neg && (0 <=? lo)%Z) eqn:E; [discriminate|].
  assert (neg && (0 <=? lo')%Z = false) as ->. { apply andb_false_iff in E. apply andb_false_iff. destruct E as [E|E]; [left; exact E|right]. apply Z.leb_gt in E. apply Z.leb_gt. lia. }
  destruct ds; [discriminate|]. destruct (NilEmpty.uint_of_string _); [|discriminate]. cbv zeta in *.
  match type of H with context [(lo <=? ?x)%Z] => set (z := x) in * end. destruct ((lo <=? z)%Z && (z <=? hi)%Z) eqn:B; [|discriminate]. injection H as <-.
  apply andb_true_iff in B. rewrite !Z.leb_le in B. split; [lia|].
  replace (lo' <=? z)%Z with true by (symmetry; apply Z.leb_le; lia). replace (z <=? hi')%Z with true by (symmetry; apply Z.leb_le; lia). reflexivity.
Qed.
Lemma parseInt_exact lo hi z y : parseInt lo hi (zdec z) = Some y -> y = z /\ (lo <= y <= hi)%Z.
Proof.
  intros H. destruct (parseInt_wider lo hi (Z.min lo z) (Z.max hi z) _ _ H ltac:(lia) ltac:(lia)) as [B P]. split; [|exact B].
  rewrite parseInt_zdec in P by lia. congruence.
Qed.

Lemma required_strip t : Required t -> strip t = (0, t).
Proof. intros H. destruct t; try reflexivity. exfalso. eapply H. reflexivity. Qed.
Lemma fromJ_null env t : Required t -> fromJ env t JNull = Some (zeroVal t).
Proof. intros H. cbn [fromJ]. rewrite (required_strip t H). reflexivity. Qed.
Lemma fromJ_null_opt env t : fromJ env (TOpt t) JNull = Some (VPtr None).
Proof. cbn [fromJ strip]. destruct (strip t). reflexivity. Qed.

Lemma nil_null env ty v : Fits env ty v -> isNil v = true -> forall j, toJ env ty v = Some j -> j = JNull.
Proof.
  intros F N j T. destruct F; cbn in N; try discriminate; cbn in T; try congruence.
  destruct j0; try discriminate. congruence.
Qed.
Lemma other_not_null env ty v : Fits env ty v -> isNil v = false -> forall j, toJ env ty v = Some j -> j <> JNull.
Proof.
  intros F N j T. destruct (proj1 (fits_round_trip env) ty v F) as (j0 & T0 & _ & _ & NN & _). rewrite T in T0. injection T0 as <-. apply NN, N.
Qed.

Lemma findField_none k fs : (forall f, In f fs -> to_lower k <> to_lower (gf_name f)) -> findField k fs = None.
Proof.
  intros H. unfold findField.
  assert (A : forall p : string -> bool, (forall f, In f fs -> p (gf_name f) = false) -> fieldIndex p fs = None).
  { intros p. clear H. induction fs as [|f fs IH]; intros H; [reflexivity|]. cbn [fieldIndex]. rewrite (H f (or_introl eq_refl)), IH; [reflexivity|].
    intros g G. apply H. right. exact G. }
  rewrite !A; [reflexivity| |].
  - intros f F. apply String.eqb_neq, H, F.
  - intros f F. apply String.eqb_neq. intros ->. apply (H f F). reflexivity.
Qed.
Lemma findField_none_inv k fs : findField k fs = None -> ~ In k (map gf_name fs).
Proof.
  unfold findField. intros H C. destruct (fieldIndex (String.eqb k) fs) eqn:E; [discriminate|]. clear H. revert C E.
  induction fs as [|f fs IH]; [intros []|]. cbn [map In fieldIndex]. intros C. destruct (String.eqb_spec k (gf_name f)) as [->|N]; [discriminate|].
  intros E. destruct C as [C|C]; [congruence|]. apply (IH C). destruct (fieldIndex _ fs); [discriminate|reflexivity].
Qed.

Lemma fromFields_any env fs : NoDup (map gf_name fs) -> forall l, NoDup (map fst l) ->
  (forall k x, In (k, x) l -> findField k fs = None \/ exists f v, In f fs /\ gf_name f = k /\ fromJ env (gf_ty f) x = Some v) ->
  forall acc, length acc = length fs -> exists acc', fromFields env fs acc l = Some acc' /\ length acc' = length fs /\
    forall i f, nth_error fs i = Some f -> nth_error acc' i = match lookup (gf_name f) l with Some x => fromJ env (gf_ty f) x | None => nth_error acc i end.
Proof.
  intros NF l. induction l as [|[k x] l IH]; intros ND H acc L.
  - exists acc. split; [reflexivity|]. split; [exact L|]. intros. reflexivity.
  - cbn [map fst] in ND. inversion ND as [|? ? H2 H3]; subst. destruct (H k x (or_introl eq_refl)) as [NO|(f & v & FI & <- & FV)].
    + destruct (IH H3 (fun k x I => H k x (or_intror I)) acc L) as (acc' & FF & LA & N).
      exists acc'. cbn [fromFields]. rewrite NO. split; [exact FF|]. split; [exact LA|]. intros i f E. rewrite (N i f E). cbn [lookup].
      destruct (String.eqb_spec (gf_name f) k) as [EK|]; [|reflexivity]. exfalso. apply (findField_none_inv _ _ NO). rewrite <- EK. apply in_map.
      eapply nth_error_In, E.
    + destruct (fieldIndex_at fs NF f FI) as (i & NI & FX).
      destruct (IH H3 (fun k x I => H k x (or_intror I)) (setNth i v acc)) as (acc' & FF & LA & N); [rewrite length_setNth; exact L|].
      exists acc'. cbn [fromFields]. unfold findField. rewrite FX, NI, FV. split; [exact FF|]. split; [exact LA|].
      intros j g G. rewrite (N j g G). cbn [lookup]. destruct (String.eqb_spec (gf_name g) (gf_name f)) as [E|NE].
      * assert (i = j) by (eapply names_nth; eauto). subst j. assert (g = f) by congruence. subst g.
        rewrite (proj2 (lookup_none _ _) H2). rewrite nth_setNth, Nat.eqb_refl, FV.
        destruct (nth_error acc i) eqn:EA; [reflexivity|]. apply nth_error_None in EA. assert (i < length fs)%nat by (apply nth_error_Some; congruence). lia.
      * destruct (lookup (gf_name g) l); [reflexivity|]. rewrite nth_setNth. destruct (Nat.eqb_spec i j) as [->|]; [congruence|reflexivity].
Qed.

Lemma toFields_nodup env fs : NoDup (map gf_name fs) -> forall vs l, toFields env fs vs = Some l -> NoDup (map fst l).
Proof.
  induction fs as [|f fs IH]; intros ND [|v vs] l T; cbn [toFields] in T; try discriminate.
  - injection T as <-. constructor.
  - cbn [map] in ND. inversion ND as [|? ? N1 N2]; subst. destruct (toFields env fs vs) as [js|] eqn:E; [|discriminate].
    destruct (gf_omit f && isEmptyValue v); [injection T as <-; exact (IH N2 vs js E)|]. destruct (toJ env (gf_ty f) v); [|discriminate].
    injection T as <-. cbn. constructor; [|exact (IH N2 vs js E)]. intros C. apply N1. destruct (toFields_at env fs N2 vs js E) as (_ & IN & _). apply IN, C.
Qed.
Lemma toFields_each env fs vs l : toFields env fs vs = Some l -> forall i f v, nth_error fs i = Some f -> nth_error vs i = Some v ->
  gf_omit f && isEmptyValue v = false -> toJ env (gf_ty f) v <> None.
Proof.
  revert vs l. induction fs as [|g fs IH]; intros [|w vs] l T i f v F V O; try (destruct i; discriminate).
  cbn [toFields] in T. destruct (toFields env fs vs) as [js|] eqn:E; [|discriminate]. destruct i as [|i]; cbn in F, V.
  - injection F as ->. injection V as ->. rewrite O in T. destruct (toJ _ _ _); [discriminate|congruence].
  - exact (IH vs js E i f v F V O).
Qed.

Definition Good same env env' ty v := forall ty', Compat same ty ty' -> forall j, toJ env ty v = Some j ->
  exists v', fromJ env' ty' j = Some v' /\ Sees same env env' ty ty' v v'.
Definition GoodF same env env' fs vs := NoDup (map gf_name fs) /\ length vs = length fs /\
  forall i f v, nth_error fs i = Some f -> nth_error vs i = Some v -> Good same env env' (gf_ty f) v.

Lemma fields_seen same env env' fs vs : GoodF same env env' fs vs -> forall fs' l, FieldsAgree same fs fs' -> toFields env fs vs = Some l ->
  exists vs', fromFields env' fs' (map (fun f => zeroVal (gf_ty f)) fs') l = Some vs' /\ SeesFields same env env' fs vs fs' vs'.
Proof.
  intros (ND & LV & H) fs' l [ND' A] T. destruct (toFields_at env fs ND vs l T) as (_ & IN & AT). pose proof (toFields_nodup env fs ND vs l T) as NL.
  assert (FIELD : forall k y, In (k, y) l -> exists i f v, nth_error fs i = Some f /\ nth_error vs i = Some v /\ gf_name f = k /\
     toJ env (gf_ty f) v = Some y /\ gf_omit f && isEmptyValue v = false).
  { intros k y I. assert (K : In k (map gf_name fs)) by (apply IN, in_map_iff; exists (k, y); auto). apply in_map_iff in K. destruct K as (f & E & FI).
    apply In_nth_error in FI. destruct FI as [i FI]. assert (exists v, nth_error vs i = Some v) as [v V].
    { destruct (nth_error vs i) eqn:EV; [eauto|]. apply nth_error_None in EV. assert (i < length fs) by (apply nth_error_Some; congruence). lia. }
    exists i, f, v. repeat split; auto; specialize (AT i f v FI V); rewrite E, (lookup_in k l y NL I) in AT;
    destruct (_ && _); congruence. }
  destruct (fromFields_any env' fs' ND' l NL) with (acc := map (fun f => zeroVal (gf_ty f)) fs') as (vs' & FF & L' & N).
  { intros k x I. destruct (FIELD k x I) as (i & f & v & FI & V & E & TJ & _).
    destruct (find (fun g => String.eqb (to_lower k) (to_lower (gf_name g))) fs') as [g|] eqn:FD.
    - right. apply find_some in FD. destruct FD as [G EQ]. apply String.eqb_eq in EQ. subst k.
      destruct (A f g (nth_error_In _ _ FI) G EQ) as [EN C]. destruct (H i f v FI V (gf_ty g) C x TJ) as (v' & FV & _). exists g, v'. auto.
    - left. apply findField_none. intros g G EQ. pose proof (find_none _ _ FD g G) as X. cbn in X. rewrite EQ, String.eqb_refl in X. discriminate. }
  { apply map_length. }
  exists vs'. split; [exact FF|].
  assert (X : forall i g v', nth_error fs' i = Some g -> nth_error vs' i = Some v' ->
    (~ In (gf_name g) (map gf_name fs) /\ Zero (gf_ty g) v') \/ exists k f v, nth_error fs k = Some f /\ nth_error vs k = Some v /\ gf_name f = gf_name g /\
      (gf_omit f = true /\ Empty v /\ Zero (gf_ty g) v' \/ (gf_omit f = false \/ ~ Empty v) /\ Sees same env env' (gf_ty f) (gf_ty g) v v')).
  { intros i g v' G V'. rewrite (N i g G) in V'. destruct (lookup (gf_name g) l) as [x|] eqn:LX.
    - right. apply lookup_some in LX. destruct (FIELD _ _ LX) as (k & f & v & FI & V & E & TJ & O). exists k, f, v. split; [exact FI|]. split; [exact V|].
      split; [exact E|]. right. split.
      + apply andb_false_iff in O. destruct O as [O|O]; [now left|]. right. rewrite <- isEmptyValue_iff, O. discriminate.
      + destruct (A f g (nth_error_In _ _ FI) (nth_error_In _ _ G)) as [_ C]; [rewrite E; reflexivity|].
        destruct (H k f v FI V (gf_ty g) C x TJ) as (w & FW & S). congruence.
    - rewrite nth_error_map, G in V'. cbn in V'. injection V' as <-. destruct (in_dec string_dec (gf_name g) (map gf_name fs)) as [I|I]; [right|left; split; [exact I|apply zero_zeroVal]].
      apply in_map_iff in I. destruct I as (f & E & FI). apply In_nth_error in FI. destruct FI as [k FI].
      assert (exists v, nth_error vs k = Some v) as [v V].
      { destruct (nth_error vs k) eqn:EV; [eauto|]. apply nth_error_None in EV. assert (k < length fs) by (apply nth_error_Some; congruence). lia. }
      exists k, f, v. split; [exact FI|]. split; [exact V|]. split; [exact E|]. left. pose proof (AT k f v FI V) as Q. rewrite E, LX in Q.
      destruct (gf_omit f && isEmptyValue v) eqn:O; [|exfalso; exact (toFields_each env fs vs l T k f v FI V O (eq_sym Q))].
      apply andb_true_iff in O. destruct O as [O1 O2]. split; [exact O1|]. split; [apply isEmptyValue_iff, O2|apply zero_zeroVal]. }
  clear - X L'. revert vs' L' X. induction fs' as [|g gs IH]; intros [|v' vs'] L X; try discriminate; [constructor|].
  assert (R : SeesFields same env env' fs vs gs vs'). { apply IH; [cbn in L; lia|]. intros i. exact (X (S i)). }
  destruct (X 0%nat g v' eq_refl eq_refl) as [[NI Z]|(k & f & v & FI & V & E & [(O & EM & Z)|[O S]])].
  - apply SeesNew; assumption.
  - eapply SeesOmitted; eauto.
  - eapply SeesSent; eauto.
Qed.

Lemma extend same env env' ty v : Required ty -> Fits env ty v ->
  (forall ty', Required ty' -> Compat same ty ty' -> forall j, toJ env ty v = Some j -> exists v', fromJ env' ty' j = Some v' /\ Sees same env env' ty ty' v v') ->
  Good same env env' ty v.
Proof.
  intros RQ F B ty' C j T. inversion C; subst; try (exfalso; eapply RQ; reflexivity);
    try (eapply B; [let X := fresh in intros ? X; discriminate X|exact C|exact T]).
  destruct (isNil v) eqn:N.
  - rewrite (nil_null env _ v F N j T), fromJ_null_opt. eexists. split; [reflexivity|]. now apply SeeAbsent.
  - destruct (B t' H0 H1 j T) as (v' & FV & S). exists (VPtr (Some v')). rewrite fromJ_opt by (eapply other_not_null; eassumption). rewrite FV.
    split; [reflexivity|]. now apply SeePresent.
Qed.

Lemma arr_seen same env env' t t' : Compat same t t' -> forall l, (forall x, In x l -> Good same env env' t x) -> forall js, toArr env t l = Some js ->
  exists l', fromArr env' t' js = Some l' /\ Forall2 (Sees same env env' t t') l l'.
Proof.
  intros C. induction l as [|x l IH]; intros H js; cbn [toArr].
  - intros [= <-]. exists []. split; [reflexivity|constructor].
  - destruct (toJ env t x) as [j|] eqn:T; [|discriminate]. destruct (toArr env t l) as [r|] eqn:TT; [|discriminate]. intros [= <-].
    destruct (H x (or_introl eq_refl) t' C j T) as (v' & FV & S). destruct (IH (fun y I => H y (or_intror I)) r eq_refl) as (l' & FL & SL).
    exists (v' :: l'). cbn [fromArr]. rewrite FV, FL. split; [reflexivity|constructor; assumption].
Qed.
Lemma map_seen same env env' k t t' l m :
  Forall2 (fun e e' => KeyWritten k (fst e) (fst e') /\ exists v, fromJ env' t' (snd e') = Some v /\ Sees same env env' t t' (snd e) v) m l ->
  NoDup (map fst m) -> forall acc, (forall x, In x (map fst acc) -> ~ In x (map fst m)) ->
  exists m', fromMap env' k t' acc l = Some (acc ++ m') /\ Forall2 (fun e e' => fst e = fst e' /\ Sees same env env' t t' (snd e) (snd e')) m m'.
Proof.
  induction 1 as [|[x y] [n j] m l (K & v & F & S) H IH]; intros ND acc D.
  - exists []. cbn [fromMap]. rewrite app_nil_r. split; [reflexivity|constructor].
  - cbn [fst snd] in K, F, S. cbn [map fst] in ND. inversion ND as [|? ? N1 N2]; subst. destruct (keyText_written k x n K) as (_ & PK & _).
    cbn [fromMap]. rewrite PK, F, mapPut_new by (intros C; apply (D x C); left; reflexivity).
    destruct (IH N2 (acc ++ [(x, v)])) as (m' & FM & SM).
    { intros z Z. rewrite map_app, in_app_iff in Z. destruct Z as [Z|[<-|[]]]; [intros C; apply (D z Z); right; exact C|exact N1]. }
    exists ((x, v) :: m'). rewrite FM, <- app_assoc. split; [reflexivity|]. constructor; [split; [reflexivity|exact S]|exact SM].
Qed.

Lemma Forall2_impl_in {A B} (R S : A -> B -> Prop) l l' : (forall a b, In a l -> In b l' -> R a b -> S a b) -> Forall2 R l l' -> Forall2 S l l'.
Proof. intros H F. induction F as [|a b l l' HR F IH]; constructor; [apply H; [left; reflexivity|left; reflexivity|exact HR]|]. apply IH. intros x y X Y. apply H; right; assumption. Qed.

Ltac base := apply extend; [intros ? X; discriminate X|econstructor; eassumption|]; intros ty' RQ C j; inversion C; subst;
  try (exfalso; match goal with R : Required (TOpt _) |- _ => eapply R; reflexivity end).

Theorem versions same env env' : StructsAgree same env env' ->
  (forall ty v, Fits env ty v -> Good same env env' ty v) /\ (forall fs vs, FitsFields env fs vs -> GoodF same env env' fs vs).
Proof.
  intros SA. apply fits_mutind.
  - intros b. base. intros [= <-]. exists (VBool b). split; [reflexivity|constructor].
  - intros lo hi z B. base. intros [= <-]. exists (VInt z). cbn [fromJ strip]. rewrite parseInt_zdec by lia. split; [reflexivity|constructor].
  - intros s V. base. intros [= <-]. exists (VStr s). split; [reflexivity|constructor].
  - intros t n z E I. base. intros [= <-]. destruct E as (N1 & N2 & _). rewrite (enumName_In t n z) by assumption.
    eexists. split; [reflexivity|]. cbn [strip wrap fst snd]. destruct (in_dec string_dec n (map fst t')) as [J|J].
    + eapply SeeEnum; [exact I|]. apply enumValue_in, J.
    + rewrite enumValue_out by exact J. eapply SeeUnknown; eassumption.
  - intros t. base. intros [= <-]. exists (VSlice None). split; [reflexivity|constructor].
  - intros t l F H. apply extend; [intros ? X; discriminate X|constructor; exact F|]. intros ty' RQ C j. inversion C as [| | | |? t' CT| | |? ? R1 R2| | | | ]; subst; [|exfalso; eapply RQ; reflexivity].
    rewrite toJ_slice. destruct (toArr env t l) as [js|] eqn:T; [|discriminate]. intros [= <-].
    destruct (arr_seen _ _ _ _ _ CT l H js T) as (vs & FV & S). exists (VSlice (Some vs)). rewrite fromJ_slice, FV. split; [reflexivity|constructor; exact S].
  - intros k t. base. intros [= <-]. exists (VMap None). split; [reflexivity|constructor].
  - intros k t m names HK I F H. apply extend; [intros ? X; discriminate X|econstructor; eassumption|]. intros ty' RQ C j. inversion C as [| | | | |? ? t' CT| |? ? R1 R2| | | | ]; subst; [|exfalso; eapply RQ; reflexivity].
    rewrite toJ_map. destruct (toMap env k t m) as [js|] eqn:T; [|discriminate]. cbn [option_map].
    destruct (toMap_at env k t m names js HK T) as [NM F2]. rewrite sortKeys_sorted by congruence. intros [= <-].
    destruct (map_seen same env env' k t t' js m) with (acc := @nil (gkey * gval)) as (m' & FM & SM).
    { eapply Forall2_impl_in; [|exact F2]. intros [x y] [n j'] I1 _ (K & TJ). cbn [fst snd] in *. split; [exact K|]. exact (H x y I1 t' CT j' TJ). }
    { eapply keys_nodup; [exact HK|apply increasing_nodup, I]. }
    { intros x []. }
    exists (VMap (Some m')). rewrite fromJ_map, FM. split; [reflexivity|constructor; exact SM].
  - intros t ty' C j [= <-]. inversion C; subst.
    + rewrite fromJ_null_opt. eexists. split; [reflexivity|constructor].
    + exfalso. eapply H. reflexivity.
    + rewrite fromJ_null by assumption. eexists. split; [reflexivity|]. apply SeeDefault; [assumption|apply zero_zeroVal].
  - intros t v FT H NI ty' C j T. cbn [toJ] in T. pose proof (other_not_null env t v FT NI j T) as NN. inversion C as [| | | | | |? t' R1 R2 CT|? ? R1|? ? R1 R2 CT| | | ]; subst.
    + destruct (H t' CT j T) as (v' & FV & S). exists (VPtr (Some v')). rewrite fromJ_opt, FV by exact NN. split; [reflexivity|constructor; exact S].
    + exfalso. eapply R1. reflexivity.
    + destruct (H ty' CT j T) as (v' & FV & S). exists v'. split; [exact FV|apply SeeGiven; assumption].
  - intros n. base. intros [= <-]. exists (VPtr None). split; [reflexivity|constructor].
  - intros n fs vs L FF H. apply extend; [intros ? X; discriminate X|econstructor; eassumption|]. intros ty' RQ C j.
    inversion C as [| | | | | | |? ? R1 R2| |? n' S| | ]; subst; [exfalso; eapply RQ; reflexivity|].
    rewrite toJ_ref, L. destruct (toFields env fs vs) as [l|] eqn:T; [|discriminate]. intros [= <-].
    destruct (SA n n' fs S L) as (fs' & L' & A). destruct (fields_seen same env env' fs vs H fs' l A T) as (vs' & FV & SF).
    exists (VPtr (Some (VStruct vs'))). rewrite fromJ_ref, L', FV. split; [reflexivity|]. eapply SeeRef; eassumption.
  - intros a W. apply extend; [intros ? X; discriminate X|exact (FAny env a W)|]; intros ty' RQ C j; inversion C; subst; [exfalso; eapply RQ; reflexivity|].
    intros [= <-]. exists (VAny a). split; [|constructor]. destruct a; reflexivity.
  - intros z. base. intros [= <-]. exists (VBig z). cbn [fromJ strip]. rewrite setString10_zdec. split; [reflexivity|constructor].
  - split; [constructor|]. split; [reflexivity|]. intros [|i] f v; discriminate.
  - intros f fs v vs FV H VN NI OM _ (ND & L & N). split; [constructor; assumption|]. split; [cbn; lia|].
    intros [|i] g w G W; cbn in G, W; [injection G as <-; injection W as <-; exact H|apply (N i g w G W)].
Qed.
