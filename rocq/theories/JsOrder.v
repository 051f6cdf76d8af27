(** The order of the members of objects makes no difference to Go. *)
From Coq Require Import Permutation Lia.
From Verif Require Import Base BaseProofs Utf8 Json JsonProofs GoVal GoValSpec GoValProofs TsBigSpec TestSpec JsNum JsNumSpec.

(** ** Reordered *)

Definition MemberReordered (e e' : string * json) : Prop := fst e = fst e' /\ Reordered (snd e) (snd e').

Lemma member_names l l' : Forall2 MemberReordered l l' -> map fst l = map fst l'.
Proof. induction 1 as [|x y l l' [E _] _ IH]; [reflexivity|]. cbn. congruence. Qed.

Lemma lookup_in {A} k (l : list (string * A)) x : NoDup (map fst l) -> In (k, x) l -> lookup k l = Some x.
Proof.
  induction l as [|[k' y] l IH]; intros ND H; [destruct H|]. cbn [lookup]. inversion ND; subst. destruct (String.eqb_spec k k') as [->|NE].
  - destruct H as [[= ->]|H]; [reflexivity|]. exfalso. apply H2. apply in_map_iff. exists (k', x). auto.
  - destruct H as [[= -> ->]|H]; [congruence|]. apply IH; auto.
Qed.
Lemma lookup_some {A} k (l : list (string * A)) x : lookup k l = Some x -> In (k, x) l.
Proof.
  induction l as [|[k' y] l IH]; [discriminate|]. cbn [lookup]. destruct (String.eqb_spec k k') as [->|]; [intros [= ->]; left; reflexivity|].
  intros H. right. apply IH, H.
Qed.
Lemma lookup_none {A} k (l : list (string * A)) : lookup k l = None <-> ~ In k (map fst l).
Proof.
  induction l as [|[k' y] l IH]; [cbn; tauto|]. cbn [lookup map fst In]. destruct (String.eqb_spec k k') as [->|NE].
  - split; [discriminate|]. intros H. exfalso. apply H. left. reflexivity.
  - rewrite IH. split; intros H; [intros [C|C]; [congruence|apply H, C]|intros C; apply H; right; exact C].
Qed.

Lemma forall2_length {A B} (R : A -> B -> Prop) l l' : Forall2 R l l' -> length l = length l'.
Proof. induction 1; cbn; congruence. Qed.
Lemma forall2_flip {A B} (R : A -> B -> Prop) l l' : Forall2 R l l' -> Forall2 (fun b a => R a b) l' l.
Proof. induction 1; constructor; assumption. Qed.
Lemma forall2_impl {A B} (R S : A -> B -> Prop) l l' : (forall a b, R a b -> S a b) -> Forall2 R l l' -> Forall2 S l l'.
Proof. intros H. induction 1; constructor; auto. Qed.
Lemma forall2_in_l {A B} (R : A -> B -> Prop) l l' x : Forall2 R l l' -> In x l -> exists y, In y l' /\ R x y.
Proof.
  induction 1 as [|a b l l' HR H IH]; [intros []|]. intros [<-|I]; [exists b; split; [left; reflexivity|exact HR]|].
  destruct (IH I) as (y & Y & R'). exists y. split; [right; exact Y|exact R'].
Qed.
Lemma forall2_in_r {A B} (R : A -> B -> Prop) l l' y : Forall2 R l l' -> In y l' -> exists x, In x l /\ R x y.
Proof.
  induction 1 as [|a b l l' HR H IH]; [intros []|]. intros [<-|I]; [exists a; split; [left; reflexivity|exact HR]|].
  destruct (IH I) as (x & X & R'). exists x. split; [right; exact X|exact R'].
Qed.

Lemma reordered_same j : NoRepeats j -> forall j', Reordered j j' -> JSame j j'.
Proof.
  induction j as [|b|l|s|l IH|l IH] using json_ind'; intros NR j' H; inversion H; subst; try constructor.
  - assert (NX : forall x, In x l -> NoRepeats x) by (inversion NR; assumption).
    match goal with X : Forall2 Reordered _ _ |- _ => clear - IH NX X; induction X as [|a b l l' R F IHF] end; constructor.
    + apply IH; [left; reflexivity|apply NX; left; reflexivity|exact R].
    + apply IHF; [intros; apply IH; [right; assumption|assumption..]|intros; apply NX; right; assumption].
  - rewrite (Permutation_length H1). eapply forall2_length; eauto.
  - intros k x I. inversion NR; subst. pose proof (Permutation_in _ H1 I) as I1.
    destruct (forall2_in_l _ _ _ _ H2 I1) as ([k' y] & Y & E & R). cbn in E, R. subst k'. exists y. split.
    + apply lookup_in; [|exact Y]. rewrite <- (member_names _ _ H2). eapply Permutation_NoDup; [apply Permutation_map, H1|assumption].
    + eapply IH; eauto.
Qed.

(** ** Structs *)

Lemma nth_setNth {A} i (v : A) : forall l j, nth_error (setNth i v l) j = if Nat.eqb i j then match nth_error l i with Some _ => Some v | None => None end else nth_error l j.
Proof.
  induction i as [|i IH]; intros [|x l] [|j]; cbn; try reflexivity.
  - destruct (Nat.eqb i j); destruct i; reflexivity.
  - rewrite IH. destruct (Nat.eqb i j); reflexivity.
Qed.
Lemma length_setNth {A} i (v : A) : forall l, length (setNth i v l) = length l.
Proof. induction i as [|i IH]; intros [|x l]; cbn; try reflexivity. rewrite IH. reflexivity. Qed.

Lemma fieldIndex_at fs : NoDup (map gf_name fs) -> forall f, In f fs -> exists i, nth_error fs i = Some f /\ fieldIndex (String.eqb (gf_name f)) fs = Some i.
Proof.
  intros ND f H. apply in_split in H. destruct H as (a & b & ->). exists (length a). split; [apply nth_error_mid|].
  apply fieldIndex_exact. rewrite map_app in ND. cbn in ND. apply NoDup_remove_2 in ND. intros C. apply ND, in_app_iff. left. exact C.
Qed.

Lemma names_nth fs i j f g : NoDup (map gf_name fs) -> nth_error fs i = Some f -> nth_error fs j = Some g -> gf_name f = gf_name g -> i = j.
Proof.
  intros ND F G E. apply (proj1 (NoDup_nth_error (map gf_name fs)) ND).
  - rewrite map_length. apply nth_error_Some. congruence.
  - rewrite !nth_error_map, F, G. cbn. congruence.
Qed.

Lemma fromFields_at env fs : NoDup (map gf_name fs) -> forall l, NoDup (map fst l) ->
  (forall k x, In (k, x) l -> exists f v, In f fs /\ gf_name f = k /\ fromJ env (gf_ty f) x = Some v) ->
  forall acc, length acc = length fs -> exists acc', fromFields env fs acc l = Some acc' /\ length acc' = length fs /\
    forall i f, nth_error fs i = Some f -> nth_error acc' i = match lookup (gf_name f) l with Some x => fromJ env (gf_ty f) x | None => nth_error acc i end.
Proof.
  intros NF l. induction l as [|[k x] l IH]; intros ND H acc L.
  - exists acc. split; [reflexivity|]. split; [exact L|]. intros. reflexivity.
  - destruct (H k x (or_introl eq_refl)) as (f & v & FI & <- & FV). destruct (fieldIndex_at fs NF f FI) as (i & NI & FX).
    cbn [map fst] in ND. inversion ND; subst.
    destruct (IH H3 (fun k x I => H k x (or_intror I)) (setNth i v acc)) as (acc' & FF & LA & N); [rewrite length_setNth; exact L|].
    exists acc'. cbn [fromFields]. unfold findField. rewrite FX, NI, FV. split; [exact FF|]. split; [exact LA|].
    intros j g G. rewrite (N j g G). cbn [lookup]. destruct (String.eqb_spec (gf_name g) (gf_name f)) as [E|NE].
    + assert (i = j) by (eapply names_nth; eauto). subst j. assert (g = f) by congruence. subst g.
      rewrite (proj2 (lookup_none _ _) H2). rewrite nth_setNth, Nat.eqb_refl, FV.
      destruct (nth_error acc i) eqn:EA; [reflexivity|]. apply nth_error_None in EA. assert (i < length fs)%nat by (apply nth_error_Some; congruence). lia.
    + destruct (lookup (gf_name g) l); [reflexivity|]. rewrite nth_setNth. destruct (Nat.eqb_spec i j) as [->|]; [congruence|reflexivity].
Qed.

Lemma toFields_at env fs : NoDup (map gf_name fs) -> forall vs l, toFields env fs vs = Some l -> length vs = length fs /\ incl (map fst l) (map gf_name fs) /\
  forall i f v, nth_error fs i = Some f -> nth_error vs i = Some v ->
    lookup (gf_name f) l = if gf_omit f && isEmptyValue v then None else toJ env (gf_ty f) v.
Proof.
  induction fs as [|f fs IH]; intros ND [|v vs] l; cbn [toFields]; try discriminate.
  - intros [= <-]. split; [reflexivity|]. split; [intros x []|]. intros [|i] f v; discriminate.
  - cbn [map] in ND. inversion ND; subst. destruct (toFields env fs vs) as [js|] eqn:T; [|discriminate].
    destruct (IH H2 vs js T) as (L & IN & N). destruct (gf_omit f && isEmptyValue v) eqn:O.
    + intros [= <-]. split; [cbn; lia|]. split; [intros x Hx; right; apply IN, Hx|].
      intros [|i] g w G W; cbn in G, W; [injection G as <-; injection W as <-; rewrite O; apply lookup_none; intros C; apply H1, IN, C|apply (N i g w G W)].
    + destruct (toJ env (gf_ty f) v) as [j|] eqn:TJ; [|discriminate]. intros [= <-]. split; [cbn; lia|].
      split; [intros x [<-|Hx]; [left; reflexivity|right; apply IN, Hx]|].
      intros [|i] g w G W; cbn in G, W; cbn [lookup].
      * injection G as <-. injection W as <-. rewrite O, String.eqb_refl. symmetry. exact TJ.
      * destruct (String.eqb_spec (gf_name g) (gf_name f)) as [E|NE]; [|apply (N i g w G W)].
        exfalso. apply H1. rewrite <- E. apply in_map. eapply nth_error_In; eauto.
Qed.

(** ** Maps *)

Lemma fromMap_at env k t l m : Forall2 (fun e e' => KeyWritten k (fst e) (fst e') /\ exists v, fromJ env t (snd e') = Some v /\ Same (snd e) v) m l ->
  NoDup (map fst m) -> forall acc, (forall x, In x (map fst acc) -> ~ In x (map fst m)) ->
  exists m', fromMap env k t acc l = Some (acc ++ m') /\ Forall2 (fun e e' => fst e = fst e' /\ Same (snd e) (snd e')) m m'.
Proof.
  induction 1 as [|[x y] [n j] m l (K & v & F & S) H IH]; intros ND acc D.
  - exists []. cbn [fromMap]. rewrite app_nil_r. split; [reflexivity|constructor].
  - cbn [fst snd] in K, F, S. cbn [map fst] in ND. inversion ND; subst. destruct (keyText_written k x n K) as (_ & PK & _).
    cbn [fromMap]. rewrite PK, F, mapPut_new by (intros C; apply (D x C); left; reflexivity).
    destruct (IH H3 (acc ++ [(x, v)])) as (m' & FM & SM).
    { intros z Z. rewrite map_app, in_app_iff in Z. destruct Z as [Z|[<-|[]]]; [intros C; apply (D z Z); right; exact C|exact H2]. }
    exists ((x, v) :: m'). rewrite FM, <- app_assoc. split; [reflexivity|]. constructor; [split; [reflexivity|exact S]|exact SM].
Qed.

Lemma valueAt_in k l x : NoDup (map fst l) -> In (k, x) l -> valueAt k l = Some x.
Proof.
  induction l as [|[k' y] l IH]; intros ND H; [destruct H|]. cbn [valueAt]. inversion ND; subst. destruct (gkey_eqb k k') eqn:E.
  - apply gkey_eqb_eq in E. subst. destruct H as [[= ->]|H]; [reflexivity|]. exfalso. apply H2. apply in_map_iff. exists (k', x). auto.
  - destruct H as [[= -> ->]|H]; [|apply IH; auto]. assert (gkey_eqb k k = true) by (apply gkey_eqb_eq; reflexivity). congruence.
Qed.

Lemma increasing_nodup l : Increasing l -> NoDup l.
Proof.
  induction l as [|a l IH]; intros H; [constructor|]. destruct H as [H1 H2]. constructor; [|apply IH, H2].
  intros C. apply (ltb_neq a a); [apply H1, C|reflexivity].
Qed.

Lemma keys_nodup k m names : Forall2 (fun (e : gkey * gval) n => KeyWritten k (fst e) n) m names -> NoDup names -> NoDup (map fst m).
Proof.
  induction 1 as [|[x y] n m names K H IH]; intros ND; [constructor|]. inversion ND; subst. cbn. constructor; [|apply IH; assumption].
  intros C. apply in_map_iff in C. destruct C as ([x' y'] & E & C). cbn in E. subst x'.
  destruct (forall2_in_l _ _ _ _ H C) as (n' & N' & K'). cbn in K, K'. pose proof (key_injective k x x n n' K K' eq_refl). subst. contradiction.
Qed.

Lemma toMap_at env k t m names js : Forall2 (fun (e : gkey * gval) n => KeyWritten k (fst e) n) m names -> toMap env k t m = Some js ->
  map fst js = names /\ Forall2 (fun e e' => KeyWritten k (fst e) (fst e') /\ toJ env t (snd e) = Some (snd e')) m js.
Proof.
  intros H. revert js. induction H as [|[x y] n m names K H IH]; intros js; cbn [toMap].
  - intros [= <-]. split; [reflexivity|constructor].
  - cbn in K. destruct (keyText_written k x n K) as (-> & _ & _). destruct (toJ env t y) as [j|] eqn:T; [|discriminate].
    destruct (toMap env k t m) as [r|] eqn:M; [|discriminate]. intros [= <-]. destruct (IH r eq_refl) as [E F]. split; [cbn; congruence|].
    constructor; [split; [exact K|exact T]|exact F].
Qed.

(** ** All values *)

Definition RO env ty v := forall j, toJ env ty v = Some j -> NoRepeats j -> forall j', Reordered j j' ->
  exists v', fromJ env ty j' = Some v' /\ Same v v'.
Definition ROF env fs vs := NoDup (map gf_name fs) /\ length vs = length fs /\
  forall i f v, nth_error fs i = Some f -> nth_error vs i = Some v ->
    RO env (gf_ty f) v /\ (gf_omit f = true -> isEmptyValue v = true -> v = zeroVal (gf_ty f)).

Lemma same_zero t : Same (zeroVal t) (zeroVal t).
Proof. destruct t; cbn; constructor. constructor. Qed.

Lemma forall2_nth {A B} (R : A -> B -> Prop) l l' : length l = length l' ->
  (forall i x y, nth_error l i = Some x -> nth_error l' i = Some y -> R x y) -> Forall2 R l l'.
Proof.
  revert l'. induction l as [|a l IH]; intros [|b l'] L H; try discriminate; constructor; [apply (H 0); reflexivity|].
  apply IH; [cbn in L; lia|]. intros i. apply (H (S i)).
Qed.

Lemma fields_reordered env fs vs : ROF env fs vs -> forall l, toFields env fs vs = Some l -> NoRepeats (JObj l) ->
  forall l', Reordered (JObj l) (JObj l') ->
  exists vs', fromFields env fs (map (fun f => zeroVal (gf_ty f)) fs) l' = Some vs' /\ Forall2 Same vs vs'.
Proof.
  intros (ND & LV & H) l T NR l' RR. inversion NR as [| | | | |? NL NX]; subst. inversion RR as [| | | | |? l1 ? P F]; subst.
  change (Forall2 MemberReordered l1 l') in F.
  destruct (toFields_at env fs ND vs l T) as (_ & IN & AT).
  assert (NL' : NoDup (map fst l')). { rewrite <- (member_names _ _ F). eapply Permutation_NoDup; [apply Permutation_map, P|exact NL]. }
  assert (BACK : forall k x, In (k, x) l' -> exists y, In (k, y) l /\ Reordered y x).
  { intros k x I. destruct (forall2_in_r _ _ _ _ F I) as ([k' y] & Y & E & R). cbn in E, R. subst k'. exists y.
    split; [eapply Permutation_in; [apply Permutation_sym, P|exact Y]|exact R]. }
  assert (FORTH : forall k y, In (k, y) l -> exists x, In (k, x) l' /\ Reordered y x).
  { intros k y I. destruct (forall2_in_l _ _ _ _ F (Permutation_in _ P I)) as ([k' x] & X & E & R). cbn in E, R. subst k'. exists x. auto. }
  assert (FIELD : forall k y, In (k, y) l -> exists i f v, nth_error fs i = Some f /\ nth_error vs i = Some v /\ gf_name f = k /\ toJ env (gf_ty f) v = Some y).
  { intros k y I. assert (K : In k (map gf_name fs)) by (apply IN, in_map_iff; exists (k, y); auto). apply in_map_iff in K. destruct K as (f & E & FI).
    apply In_nth_error in FI. destruct FI as [i FI]. assert (exists v, nth_error vs i = Some v) as [v V].
    { destruct (nth_error vs i) eqn:EV; [eauto|]. apply nth_error_None in EV. assert (i < length fs) by (apply nth_error_Some; congruence). lia. }
    exists i, f, v. repeat split; auto. specialize (AT i f v FI V). rewrite E in AT. rewrite (lookup_in k l y NL I) in AT.
    destruct (_ && _); [discriminate|]. congruence. }
  destruct (fromFields_at env fs ND l' NL') with (acc := map (fun f => zeroVal (gf_ty f)) fs) as (vs' & FF & L' & N).
  { intros k x I. destruct (BACK k x I) as (y & Y & R). destruct (FIELD k y Y) as (i & f & v & FI & V & E & TJ).
    destruct (proj1 (H i f v FI V) y TJ (NX k y Y) x R) as (v' & FV & _). exists f, v'. split; [eapply nth_error_In; eauto|auto]. }
  { apply map_length. }
  exists vs'. split; [exact FF|]. apply forall2_nth; [congruence|]. intros i v v' V V'.
  assert (exists f, nth_error fs i = Some f) as [f FI].
  { destruct (nth_error fs i) eqn:EV; [eauto|]. apply nth_error_None in EV. assert (i < length vs) by (apply nth_error_Some; congruence). lia. }
  destruct (H i f v FI V) as [RV OM]. rewrite (N i f FI) in V'. specialize (AT i f v FI V).
  destruct (lookup (gf_name f) l') as [x|] eqn:LX.
  - apply lookup_some in LX. destruct (BACK _ _ LX) as (y & Y & R). rewrite (lookup_in _ l y NL Y) in AT.
    destruct (_ && _); [discriminate|]. destruct (RV y (eq_sym AT) (NX _ y Y) x R) as (w & FW & S). congruence.
  - apply lookup_none in LX. destruct (gf_omit f && isEmptyValue v) eqn:O.
    + apply andb_true_iff in O. rewrite (OM (proj1 O) (proj2 O)). rewrite nth_error_map, FI in V'. cbn in V'. injection V' as <-. apply same_zero.
    + exfalso. destruct (lookup (gf_name f) l) as [y|] eqn:LY.
      * apply lookup_some in LY. destruct (FORTH _ _ LY) as (x & X & _). apply LX, in_map_iff. exists (gf_name f, x). auto.
      * clear - AT T FI V ND O. exfalso. revert l T FI V AT. revert i vs. induction fs as [|g fs IH]; intros i [|w vs] l T FI V AT; try (destruct i; discriminate).
        cbn [toFields] in T. destruct (toFields env fs vs) as [js|] eqn:TT; [|discriminate]. destruct i as [|i].
        -- cbn in FI, V. injection FI as ->. injection V as ->. rewrite O, <- AT in T. discriminate.
        -- cbn in FI, V. cbn [map] in ND. inversion ND; subst. apply (IH H2 i vs js TT FI V AT).
Qed.

Lemma arr_reordered env t l : (forall x, In x l -> RO env t x) -> forall js, toArr env t l = Some js -> (forall x, In x js -> NoRepeats x) ->
  forall js', Forall2 Reordered js js' -> exists l', fromArr env t js' = Some l' /\ Forall2 Same l l'.
Proof.
  induction l as [|x l IH]; intros H js; cbn [toArr].
  - intros [= <-] _ js' F. inversion F; subst. exists []. split; [reflexivity|constructor].
  - destruct (toJ env t x) as [j|] eqn:T; [|discriminate]. destruct (toArr env t l) as [r|] eqn:TT; [|discriminate]. intros [= <-] NR js' F.
    inversion F as [|? j' ? r' R F']; subst. destruct (H x (or_introl eq_refl) j T (NR j (or_introl eq_refl)) j' R) as (v' & FV & S).
    destruct (IH (fun y I => H y (or_intror I)) r eq_refl (fun y I => NR y (or_intror I)) r' F') as (l' & FL & SL).
    exists (v' :: l'). cbn [fromArr]. rewrite FV, FL. split; [reflexivity|constructor; assumption].
Qed.

Lemma forall2_compose {A B C} (P : A -> B -> Prop) (Q : B -> C -> Prop) l1 l2 l3 : Forall2 P l1 l2 -> Forall2 Q l2 l3 ->
  Forall2 (fun a c => exists b, In a l1 /\ In b l2 /\ P a b /\ Q b c) l1 l3.
Proof.
  intros H. revert l3. induction H as [|a b l1 l2 HP H IH]; intros l3 F; inversion F; subst; constructor.
  - exists b. repeat split; auto; left; reflexivity.
  - eapply forall2_impl; [|apply IH; eassumption]. intros u w (b' & I1 & I2 & R1 & R2). exists b'. repeat split; auto; right; assumption.
Qed.

Theorem fits_reordered env :
  (forall ty v, Fits env ty v -> RO env ty v) /\ (forall fs vs, FitsFields env fs vs -> ROF env fs vs).
Proof.
  apply fits_mutind; unfold RO.
  - intros b j [= <-] _ j' R. inversion R; subst. exists (VBool b). split; [reflexivity|constructor].
  - intros lo hi z B j [= <-] _ j' R. inversion R; subst. exists (VInt z). cbn [fromJ strip]. rewrite parseInt_zdec by exact B. split; [reflexivity|constructor].
  - intros s V j [= <-] _ j' R. inversion R; subst. exists (VStr s). split; [reflexivity|constructor].
  - intros t n z (N1 & N2 & VN) I j [= <-] _ j' R. inversion R; subst. exists (VEnum z). cbn [fromJ strip wrap].
    rewrite (enumName_In t n z), (enumValue_In t n z) by assumption. split; [reflexivity|constructor].
  - intros t j [= <-] _ j' R. inversion R; subst. exists (VSlice None). split; [reflexivity|constructor].
  - intros t l _ H j. rewrite toJ_slice. destruct (toArr env t l) as [js|] eqn:T; [|discriminate]. intros [= <-] NR j' R. inversion R; subst. inversion NR; subst.
    destruct (arr_reordered env t l H js T H2 l' H1) as (vs & F & S). exists (VSlice (Some vs)). rewrite fromJ_slice, F. split; [reflexivity|constructor; exact S].
  - intros k t j [= <-] _ j' R. inversion R; subst. exists (VMap None). split; [reflexivity|constructor].
  - intros k t m names HK I _ H j. rewrite toJ_map. destruct (toMap env k t m) as [js|] eqn:T; [|discriminate]. cbn [option_map].
    destruct (toMap_at env k t m names js HK T) as [NM F2]. rewrite sortKeys_sorted by congruence. intros [= <-] NR j' R.
    inversion R as [| | | | |? l1 l' P F]; subst. inversion NR as [| | | | |? NL NX]; subst.
    assert (NDK : NoDup (map fst m)) by (eapply keys_nodup; [exact HK|apply increasing_nodup, I]).
    destruct (Permutation_Forall2 P (forall2_flip _ _ _ F2)) as (m1 & PM & F1). apply forall2_flip in F1.
    pose proof (forall2_compose _ _ _ _ _ F1 F) as FC.
    destruct (fromMap_at env k t l' m1) with (acc := @nil (gkey * gval)) as (m' & FM & SM).
    { eapply forall2_impl; [|exact FC]. intros [x y] [n j'] ([n1 j1] & I1 & I2 & (K & TJ) & E & RR). cbn [fst snd] in *. subst n1. split; [exact K|].
      apply (H x y (Permutation_in _ (Permutation_sym PM) I1) j1 TJ); [|exact RR]. apply (NX n j1). eapply Permutation_in; [apply Permutation_sym, P|exact I2]. }
    { eapply Permutation_NoDup; [apply Permutation_map, PM|exact NDK]. }
    { intros x []. }
    exists (VMap (Some m')). rewrite fromJ_map, FM. split; [reflexivity|]. constructor.
    + rewrite (Permutation_length PM). eapply forall2_length; eauto.
    + intros key x Ix. destruct (forall2_in_l _ _ _ _ SM (Permutation_in _ PM Ix)) as ([key' y] & Y & E & S). cbn in E, S. subst key'. exists y.
      split; [|exact S]. apply valueAt_in; [|exact Y].
      assert (map fst m' = map fst m1) as ->. { clear - SM. induction SM as [|? ? ? ? [E _] _ IH]; [reflexivity|]. cbn. congruence. }
      eapply Permutation_NoDup; [apply Permutation_map, PM|exact NDK].
  - intros t j [= <-] _ j' R. inversion R; subst. exists (VPtr None). cbn [fromJ strip]. destruct (strip t). split; [reflexivity|constructor].
  - intros t v FT H NI j T NR j' R. cbn [toJ] in T. destruct (H j T NR j' R) as (v' & F & S). exists (VPtr (Some v')). split; [|constructor; exact S].
    destruct (proj1 (fits_round_trip env) t v FT) as (j0 & T0 & _ & _ & NN & _). rewrite T in T0. injection T0 as <-. specialize (NN NI).
    rewrite fromJ_opt, F; [reflexivity|]. intros ->. inversion R; subst. congruence.
  - intros n j [= <-] _ j' R. inversion R; subst. exists (VPtr None). split; [reflexivity|constructor].
  - intros n fs vs L _ H j. rewrite toJ_ref, L. destruct (toFields env fs vs) as [l|] eqn:T; [|discriminate]. intros [= <-] NR j' R.
    assert (exists l', j' = JObj l') as [l' ->] by (inversion R; eauto). destruct (fields_reordered env fs vs H l T NR l' R) as (vs' & F & S).
    exists (VPtr (Some (VStruct vs'))). rewrite fromJ_ref, L, F. split; [reflexivity|]. constructor. constructor. exact S.
  - intros j0 W j [= <-] NR j' R. exists (VAny j'). split; [cbn [fromJ strip]; destruct j'; reflexivity|]. constructor. apply reordered_same; assumption.
  - intros z j [= <-] _ j' R. inversion R; subst. exists (VBig z). cbn [fromJ strip wrap]. rewrite setString10_zdec. split; [reflexivity|constructor].
  - split; [constructor|]. split; [reflexivity|]. intros [|i]; discriminate.
  - intros f fs v vs FV H VN NI OM0 _ (ND & L & N). pose proof (omit_zero _ _ _ _ FV OM0) as OM. split; [constructor; assumption|]. split; [cbn; lia|].
    intros [|i] g w G W; cbn in G, W; [injection G as <-; injection W as <-; split; [exact H|exact OM]|apply (N i g w G W)].
Qed.
