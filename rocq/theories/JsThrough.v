(** Values through a JavaScript program. *)
From Coq Require Import Permutation Lia DecimalString.
From Verif Require Import Base BaseProofs Utf8 Json JsonProofs GoVal GoValSpec GoValProofs TsBigSpec TestSpec JsNum JsNumSpec JsNumProofs JsOrder.

Lemma putIndex_perm {A} z (e : string * A) l : Permutation (map snd (putIndex z e l)) (e :: map snd l).
Proof.
  induction l as [|[z' e'] l IH]; [apply Permutation_refl|]. cbn [putIndex]. destruct (z <=? z')%Z; [apply Permutation_refl|].
  cbn [map snd]. eapply Permutation_trans; [apply perm_skip, IH|apply perm_swap].
Qed.

Lemma ownKeys_perm {A} (l : list (string * A)) : Permutation (ownKeys l) l.
Proof.
  unfold ownKeys, named. induction l as [|e l IH]; [apply Permutation_refl|]. cbn [indexed filter]. destruct (arrayIndex (fst e)) as [z|].
  - eapply Permutation_trans; [apply Permutation_app_tail, putIndex_perm|]. cbn [app]. apply perm_skip, IH.
  - apply Permutation_sym, Permutation_cons_app, Permutation_sym, IH.
Qed.

Fixpoint putAll (l acc : list (string * json)) : list (string * json) :=
  match l with [] => acc | (k, x) :: r => putAll r (jsPut k (throughJs x) acc) end.
Lemma throughJs_obj l : throughJs (JObj l) = JObj (ownKeys (putAll l [])).
Proof.
  cbn [throughJs]. match goal with |- JObj (ownKeys ?a) = JObj (ownKeys ?b) => assert (a = b) as ->; [|reflexivity] end.
  generalize (@nil (string * json)). induction l as [|[k x] l IH]; intros acc; [reflexivity|]. cbn [putAll]. apply IH.
Qed.

Lemma jsPut_new {A} k (v : A) l : ~ In k (map fst l) -> jsPut k v l = l ++ [(k, v)].
Proof.
  induction l as [|[k' v'] l IH]; intros H; [reflexivity|]. cbn [jsPut]. destruct (String.eqb_spec k k') as [->|]; [exfalso; apply H; left; reflexivity|].
  cbn [app]. f_equal. apply IH. intros C. apply H. right. exact C.
Qed.
Lemma putAll_new l : forall acc, NoDup (map fst (acc ++ l)) -> putAll l acc = acc ++ map (fun e => (fst e, throughJs (snd e))) l.
Proof.
  induction l as [|[k x] l IH]; intros acc H; cbn [putAll map]; [rewrite app_nil_r; reflexivity|].
  rewrite map_app in H. cbn [map fst] in H. rewrite jsPut_new.
  2:{ apply NoDup_remove_2 in H. intros C. apply H, in_app_iff. left. exact C. }
  rewrite IH; [rewrite <- app_assoc; reflexivity|]. rewrite !map_app. cbn [map fst]. rewrite <- app_assoc. exact H.
Qed.

Lemma parse_safe z : Safe z -> parseInt (- 2 ^ 64) (2 ^ 64) (zdec z) = Some z.
Proof. unfold Safe. intros S. apply parseInt_zdec. change (2 ^ 53)%Z with 9007199254740992%Z in S. change (2 ^ 64)%Z with 18446744073709551616%Z. lia. Qed.

Lemma literal_safe z : Safe z -> jsLiteral (zdec z) = zdec z.
Proof. intros S. unfold jsLiteral. rewrite parse_safe, safe_shown by exact S. reflexivity. Qed.

(** what has safe numbers and no repeated names only changes its order *)
Theorem through_safe j : SafeNumbers j -> NoRepeats j -> Reordered j (throughJs j).
Proof.
  induction j as [|b|l|s|l IH|l IH] using json_ind'; intros S NR; try constructor.
  - inversion S; subst. cbn [throughJs]. rewrite literal_safe by assumption. constructor.
  - inversion S; subst. inversion NR; subst. clear S NR. induction l as [|x l IHl]; cbn [map]; constructor.
    + apply IH; [left; reflexivity|apply H0; left; reflexivity|apply H1; left; reflexivity].
    + apply IHl; intros; [apply IH; [right; assumption|assumption..]|apply H0; right; assumption|apply H1; right; assumption].
  - inversion S; subst. inversion NR; subst. rewrite throughJs_obj, putAll_new by assumption. cbn [app].
    set (f := fun e : string * json => (fst e, throughJs (snd e))).
    destruct (Permutation_map_inv f _ (ownKeys_perm (map f l))) as (l1 & E & P). rewrite E.
    apply R_obj with (l1 := l1); [exact P|].
    assert (IN : forall e, In e l1 -> In e l) by (intros e I; eapply Permutation_in; [apply Permutation_sym, P|exact I]).
    clear - IH H0 H2 IN. induction l1 as [|[k x] l1 IHl]; cbn [map]; constructor.
    + split; [reflexivity|]. cbn [snd f]. apply (IH k x); [apply IN; left; reflexivity|apply (H0 k); apply IN; left; reflexivity|apply (H2 k); apply IN; left; reflexivity].
    + apply IHl. intros e I. apply IN. right. exact I.
Qed.

(** ** The JSON of safe values *)

Definition SJ env ty v := SafeValue v -> forall j, toJ env ty v = Some j -> SafeNumbers j /\ NoRepeats j.
Definition SF env fs vs := (forall v, In v vs -> SafeValue v) -> forall l, toFields env fs vs = Some l ->
  NoDup (map fst l) /\ incl (map fst l) (map gf_name fs) /\ forall k x, In (k, x) l -> SafeNumbers x /\ NoRepeats x.

Theorem fits_safe env : (forall ty v, Fits env ty v -> SJ env ty v) /\ (forall fs vs, FitsFields env fs vs -> SF env fs vs).
Proof.
  apply fits_mutind; unfold SJ.
  - intros b _ j [= <-]. split; constructor.
  - intros lo hi z _ S j [= <-]. inversion S; subst. split; constructor; assumption.
  - intros s _ _ j [= <-]. split; constructor.
  - intros t n z _ _ _ j [= <-]. split; constructor.
  - intros t _ j [= <-]. split; constructor.
  - intros t l _ H S j. rewrite toJ_slice. destruct (toArr env t l) as [js|] eqn:T; [|discriminate]. intros [= <-]. inversion S; subst.
    assert (G : forall x, In x js -> SafeNumbers x /\ NoRepeats x).
    { clear S. revert js T. induction l as [|y l IH]; intros js; cbn [toArr]; [intros [= <-] x []|].
      destruct (toJ env t y) as [j|] eqn:TY; [|discriminate]. destruct (toArr env t l) as [r|] eqn:TT; [|discriminate]. intros [= <-] x [<-|I].
      - apply (H y (or_introl eq_refl) (H1 y (or_introl eq_refl)) j TY).
      - apply (IH (fun z I => H z (or_intror I)) (fun z I => H1 z (or_intror I)) r eq_refl x I). }
    split; constructor; intros x I; apply (G x I).
  - intros k t _ j [= <-]. split; constructor.
  - intros k t m names HK I _ H S j. rewrite toJ_map. destruct (toMap env k t m) as [js|] eqn:T; [|discriminate]. cbn [option_map].
    destruct (toMap_at env k t m names js HK T) as [NM F2]. rewrite sortKeys_sorted by congruence. intros [= <-]. inversion S; subst.
    assert (G : forall n x, In (n, x) js -> SafeNumbers x /\ NoRepeats x).
    { intros n x Ix. destruct (forall2_in_r _ _ _ _ F2 Ix) as ([key y] & Y & _ & TJ). cbn in TJ. apply (H key y Y (H1 key y Y) x TJ). }
    split; [constructor; intros n x Ix; apply (G n x Ix)|]. constructor; [apply increasing_nodup, I|intros n x Ix; apply (G n x Ix)].
  - intros t _ j [= <-]. split; constructor.
  - intros t v _ H _ S j T. inversion S; subst. apply (H H1 j T).
  - intros n _ j [= <-]. split; constructor.
  - intros n fs vs L _ H S j. rewrite toJ_ref, L. destruct (toFields env fs vs) as [l|] eqn:T; [|discriminate]. intros [= <-].
    inversion S as [| | | | | | | | |? S'| | |]; subst. inversion S' as [| | | | | | | | | |? SX| |]; subst.
    destruct (H SX l T) as (ND & _ & G). split; [constructor; intros k x I; apply (G k x I)|]. constructor; [exact ND|intros k x I; apply (G k x I)].
  - intros j0 _ S j [= <-]. inversion S; subst. auto.
  - intros z _ j [= <-]. split; constructor.
  - intros _ l [= <-]. split; [constructor|]. split; [intros x []|intros k x []].
  - intros f fs v vs _ H _ NI _ _ HF S l. cbn [toFields]. destruct (toFields env fs vs) as [js|] eqn:T; [|discriminate].
    destruct (HF (fun w I => S w (or_intror I)) js T) as (ND & IN & G). destruct (_ && _).
    + intros [= <-]. split; [exact ND|]. split; [intros x X; right; apply IN, X|exact G].
    + destruct (toJ env (gf_ty f) v) as [j|] eqn:TJ; [|discriminate]. intros [= <-]. split; [cbn; constructor; [intros C; apply NI, IN, C|exact ND]|].
      split; [intros x [<-|X]; [left; reflexivity|right; apply IN, X]|]. intros k x [[= <- <-]|I]; [apply (H (S v (or_introl eq_refl)) j eq_refl)|apply (G k x I)].
Qed.

(** ** Narrow types *)

Theorem fits_narrow env : NarrowStructs env ->
  (forall ty v, Fits env ty v -> NarrowType ty -> SafeValue v) /\ (forall fs vs, FitsFields env fs vs -> NarrowFields fs -> forall v, In v vs -> SafeValue v).
Proof.
  intros NS. apply fits_mutind; try (intros; constructor; fail).
  - intros lo hi z B N. inversion N; subst. constructor. unfold Safe. lia.
  - intros t l _ H N. inversion N; subst. constructor. intros x I. apply (H x I). assumption.
  - intros k t m names _ _ _ H N. inversion N; subst. constructor. intros x y I. apply (H x y I). assumption.
  - intros t v _ H _ N. inversion N; subst. constructor. apply H. assumption.
  - intros n fs vs L _ H N. constructor. constructor. apply H. apply (NS n fs L).
  - intros j _ N. inversion N.
  - intros _ v [].
  - intros f fs v vs _ H _ _ _ _ HF N w [<-|I]; [apply H, N; left; reflexivity|apply HF; [intros g G; apply N; right; exact G|exact I]].
Qed.

(** ** Twice is once *)

Lemma literal_idem l : jsLiteral (jsLiteral l) = jsLiteral l.
Proof.
  unfold jsLiteral at 2 3. destruct (parseInt (- 2 ^ 64) (2 ^ 64) l) as [z|] eqn:P; [|unfold jsLiteral; rewrite P; reflexivity].
  unfold jsLiteral. destruct (parseInt (- 2 ^ 64) (2 ^ 64) (zdec (shortest (roundInt z)))) as [y|] eqn:Q; [|reflexivity].
  assert (y = shortest (roundInt z)).
  { assert (exists lo hi, (lo <= shortest (roundInt z) <= hi)%Z /\ (lo <= - 2 ^ 64)%Z /\ (2 ^ 64 <= hi)%Z) as (lo & hi & B & L & H).
    { exists (Z.min (- 2 ^ 64) (shortest (roundInt z))), (Z.max (2 ^ 64) (shortest (roundInt z))). lia. }
    pose proof (parseInt_zdec lo hi _ B) as P2. clear - P2 Q L H. unfold parseInt in *.
    destruct (match zdec (shortest (roundInt z)) with EmptyString => (false, zdec (shortest (roundInt z))) | String c r => if (N_of_byte c =? 45)%N then (true, r) else (false, zdec (shortest (roundInt z))) end) as [neg ds].
    replace (0 <=? - 2 ^ 64)%Z with false in Q by reflexivity. replace (0 <=? lo)%Z with false in P2 by (symmetry; apply Z.leb_gt; lia).
    rewrite andb_false_r in P2, Q. destruct ds; [discriminate|]. destruct (NilEmpty.uint_of_string _); [|discriminate].
    destruct (_ && _) in P2; [|discriminate]. destruct (_ && _) in Q; [|discriminate]. congruence. }
  subst y. rewrite shortest_reads by apply round_idem. reflexivity.
Qed.

(** ** Reordered values are written and read as well *)

Lemma depth_members_le l d : (forall k x, In (k, x) l -> (jdepth x <= d)%nat) <-> (depthMembers l <= d)%nat.
Proof.
  induction l as [|[k x] l IH]; cbn [depthMembers]; [split; [lia|intros _ k x []]|]. split.
  - intros H. apply Nat.max_lub; [apply (H k x); left; reflexivity|]. apply IH. intros k' y I. apply (H k' y). right. exact I.
  - intros H k' y [[= <- <-]|I]; [lia|]. apply (proj2 IH) with (k := k'); [lia|exact I].
Qed.
Lemma depth_elems_le l d : (forall x, In x l -> (jdepth x <= d)%nat) <-> (depthElems l <= d)%nat.
Proof.
  induction l as [|x l IH]; cbn [depthElems]; [split; [lia|intros _ x []]|]. split.
  - intros H. apply Nat.max_lub; [apply H; left; reflexivity|]. apply IH. intros y I. apply H. right. exact I.
  - intros H y [<-|I]; [lia|]. apply (proj2 IH); [lia|exact I].
Qed.

Lemma reordered_wf j : JWf j -> forall j', Reordered j j' -> JWf j' /\ (jdepth j' <= jdepth j)%nat.
Proof.
  induction j as [|b|l|s|l IH|l IH] using json_ind'; intros W j' R; inversion R; subst; try (split; [assumption|lia]).
  - inversion W; subst.
    assert (G : forall y, In y l' -> JWf y /\ (jdepth y <= depthElems l)%nat).
    { intros y Y. destruct (forall2_in_r _ _ _ _ H0 Y) as (x & X & RX). destruct (IH x X (H1 x X) y RX) as [A B].
      split; [exact A|]. pose proof (proj2 (depth_elems_le l (depthElems l)) (le_n _) x X). lia. }
    split; [constructor; intros y Y; apply (G y Y)|]. rewrite !jdepth_arr. apply le_n_S, depth_elems_le. intros y Y. apply (G y Y).
  - inversion W; subst.
    assert (G : forall k y, In (k, y) l' -> (ValidUtf8 k /\ JWf y) /\ (jdepth y <= depthMembers l)%nat).
    { intros k y Y. destruct (forall2_in_r _ _ _ _ H1 Y) as ([k' x] & X & E & RX). cbn in E, RX. subst k'.
      pose proof (Permutation_in _ (Permutation_sym H0) X) as XL. destruct (H2 k x XL) as [V WX]. destruct (IH k x XL WX y RX) as [A B].
      split; [split; assumption|]. pose proof (proj2 (depth_members_le l (depthMembers l)) (le_n _) k x XL). lia. }
    split; [constructor; intros k y Y; apply (G k y Y)|]. rewrite !jdepth_obj. apply le_n_S, depth_members_le. intros k y Y. apply (G k y Y).
Qed.
