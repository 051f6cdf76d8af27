From Verif Require Import Base BaseProofs Schema TypeSpec TypeProofs Uri ValidateSpec ValidateProofs
  ValidateComplete PropsValidateAux Filter FilterSpec.

(** ** MatchServices *)

Lemma keepServices_filter names ss : keepServices names ss = filter (fun v => str_in (v_name v) names) ss.
Proof. induction ss as [|v r IH]; [reflexivity|]. cbn. rewrite IH. reflexivity. Qed.

(** ** accepted schemas *)

Lemma mapM_fixed {A} (f : A -> result A) l x : mapM f l = Ok l -> In x l -> f x = Ok x.
Proof.
  intros H Hx. apply mapM_Forall2 in H.
  assert (G : forall l l', Forall2 (fun a b => f a = Ok b) l l' -> l = l' -> In x l -> f x = Ok x).
  { clear. intros l l' H. induction H as [|a b l l' Hab _ IH]; [contradiction|]. intros E [<-|Hx].
    - injection E as -> _. assumption.
    - injection E as _ E. auto. }
  exact (G l l H eq_refl Hx).
Qed.

Lemma vtParse_fixed ts v y : vtParse ts (Some v) = Ok v -> tree v = Some y -> Parsed ts (vt_expr v) v.
Proof.
  unfold vtParse. destruct (String.eqb (vt_expr v) ""); [discriminate|]. intros H Hy.
  apply bind_ok in H as (w & Hw & H). injection H as H. apply parse_iff in Hw.
  assert (Hyw : tree w = Some y).
  { rewrite <- Hy, <- H. destruct w as [e sh]. reflexivity. }
  pose proof (Parsed_build _ _ _ _ Hw Hyw) as Hb. rewrite Hb in H.
  assert (w = v); [|now subst]. pose proof (Parsed_expr _ _ _ Hw) as He. destruct w as [e sh]. cbn in He, H. congruence.
Qed.

Lemma accepted_field s t f : Accepted s -> In t (sc_types s) -> t_kind t = "struct" -> In f (t_fields t) ->
  exists v y, f_type f = Some v /\ tree v = Some y /\ Parsed (sc_types s) (vt_expr v) v.
Proof.
  intros (H & R & _ & _) Ht Hk Hf. destruct R as [_ _ V3 _ _ _ _]. rewrite Forall_forall in V3.
  destruct (V3 t Ht) as (_ & _ & [(E & _)|[(_ & _ & Hs)|(E & _)]]); [congruence| |congruence].
  unfold StructOk in Hs. rewrite Forall_forall in Hs. destruct (Hs f Hf) as (_ & v & Hv & (y & Hy & _)).
  exists v, y. split; [assumption|]. split; [assumption|].
  apply validate_inv in H as (b & ts & es & ss & _ & _ & _ & Hts & _ & _ & E). 
  assert (ts = sc_types s) by now rewrite E. subst ts.
  pose proof (mapM_fixed _ _ _ Hts Ht) as Hp. unfold typeParse in Hp.
  destruct (String.eqb (t_name t) ""); [discriminate|].
  destruct (startsWithUpper (t_name t)); [|discriminate]. cbn [negb] in Hp.
  match type of Hp with (if ?b then _ else _) = _ => destruct b; [discriminate|] end.
  rewrite Hk in Hp. cbn [str_in existsb String.eqb Ascii.eqb Bool.eqb orb negb] in Hp.
  apply bind_ok in Hp as (_ & _ & Hp). apply bind_ok in Hp as (fs & Hfs & Hp).
  assert (Ef : fs = t_fields t) by (injection Hp as Hp; rewrite <- Hp; reflexivity). subst fs.
  pose proof (mapM_fixed _ _ _ Hfs Hf) as Hq. apply parseField_inv in Hq as (v1 & w & E1 & Hw & _ & E2).
  assert (v1 = v) by congruence. subst v1. assert (w = v); [|subst w; eapply vtParse_fixed; eassumption].
  assert (f_type f = Some w) by (rewrite E2; reflexivity). congruence.
Qed.

Lemma accepted_arg s v m a : Accepted s -> In v (sc_services s) -> In m (v_methods v) ->
  In a (me_inputs m ++ me_outputs m) ->
  exists x y, g_type a = Some x /\ tree x = Some y /\ Parsed (sc_types s) (vt_expr x) x.
Proof.
  intros (H & R & _ & _) Hv Hm Ha. destruct R as [_ _ _ _ _ V6 _]. rewrite Forall_forall in V6.
  destruct (V6 v Hv) as (_ & _ & Hms & _). rewrite Forall_forall in Hms.
  destruct (Hms m Hm) as (_ & M2 & M3 & _). rewrite Forall_forall in M2, M3.
  assert (HA : ArgOk (Resolved (sc_types s)) a) by (apply in_app_or in Ha as [Ha|Ha]; auto).
  destruct HA as (_ & x & Hx & (y & Hy & _)). exists x, y. split; [assumption|]. split; [assumption|].
  apply validate_inv in H as (b & ts & es & ss & _ & _ & _ & _ & _ & Hss & E).
  assert (ts = sc_types s) by now rewrite E. assert (ss = sc_services s) by now rewrite E.
  assert (es = sc_errors s) by now rewrite E. subst ts ss es.
  pose proof (mapM_fixed _ _ _ Hss Hv) as Hp. apply serviceParse_inv in Hp as (_ & _ & _ & _ & (ms & Hmm & E1)).
  subst ms. pose proof (mapM_fixed _ _ _ Hmm Hm) as Hq.
  apply methodParse_inv in Hq as (ins & outs & Hi & Ho & _ & _ & _ & E2).
  assert (ins = me_inputs m) by (rewrite E2; reflexivity). assert (outs = me_outputs m) by (rewrite E2; reflexivity).
  subst ins outs.
  assert (Hpa : parseArg (sc_types s) a = Ok a).
  { apply in_app_or in Ha as [Ha|Ha]; [exact (mapM_fixed _ _ _ Hi Ha)|exact (mapM_fixed _ _ _ Ho Ha)]. }
  apply parseArg_inv in Hpa as (v1 & w & F1 & Hw & _ & F2).
  assert (v1 = x) by congruence. subst v1. assert (w = x); [|subst w; eapply vtParse_fixed; eassumption].
  assert (g_type a = Some w) by (rewrite F2; reflexivity). congruence.
Qed.

Lemma accepted_names s : Accepted s -> NamesOk (sc_types s).
Proof. intros (H & _ & Hid & _). now destruct (validate_types _ _ _ H Hid). Qed.


(** ** references of a parsed type *)

(** the references of [v] point into [ts] *)
Fixpoint Good (ts : list type) (v : varType) : Prop :=
  match v with
  | VT _ (ShList x) => Good ts x
  | VT _ (ShMap k w) => Good ts k /\ Good ts w
  | VT _ (ShStruct _ d) => exists t, In t ts /\ t_name t = d /\ t_kind t = "struct"
  | VT _ (ShEnum _ d) => exists t, In t ts /\ t_name t = d /\ t_kind t <> "struct"
  | _ => True
  end.

Record WellTyped (ts : list type) : Prop := {
  wt_names : NamesOk ts;
  wt_fields : forall t f v, In t ts -> t_kind t = "struct" -> In f (t_fields t) -> f_type f = Some v -> Good ts v
}.

Lemma upper_nonempty s : startsWithUpper s = true -> s <> "".
Proof. intros H ->. discriminate. Qed.

Lemma getType_In ts d t : getType ts d = Some t -> In t ts /\ t_name t = d.
Proof.
  intro H. unfold getType in H. apply find_some in H as [H1 H2]. apply String.eqb_eq in H2. auto.
Qed.

Lemma Parsed_Good ts e v :
  (forall t v, In t ts -> t_kind t = "struct" -> t_type t = Some v -> vt_shape v = ShUnknown) ->
  Parsed ts e v -> Good ts v.
Proof.
  intros HS H.
  assert (HK : forall t, In t ts -> keyIsEnum t = Ok true -> t_kind t <> "struct").
  { intros t Ht Hk E. apply keyIsEnum_true in Hk as [Hk|(e' & m & d & Hk)]; [congruence|].
    specialize (HS t _ Ht E Hk). discriminate. }
  induction H as [|c|e v H IH|c e v Hc H IH|k t e v K1 K2 K3 K4 H IH|e t E0 E1 E2 E3 G K|e t E0 E1 E2 E3 G K|e t E0 E1 E2 E3 G K];
    cbn; auto.
  - split; [|assumption]. assert (Ht : In t ts) by (unfold getTypeByName in K3; now apply find_some in K3).
    exists t. auto.
  - apply getType_In in G as [G1 G2]. eauto.
  - apply getType_In in G as [G1 G2]. exists t. repeat split; auto. congruence.
Qed.

Lemma accepted_WellTyped s : Accepted s -> WellTyped (sc_types s).
Proof.
  intro H. constructor; [now apply accepted_names|]. intros t f v Ht Hk Hf Hv.
  destruct (accepted_field s t f H Ht Hk Hf) as (v' & y & E & _ & P). assert (v' = v) by congruence. subst v'.
  eapply Parsed_Good; [|exact P]. apply H.
Qed.

Lemma accepted_Good_arg s x sel : Accepted s -> ArgumentType s sel x -> Good (sc_types s) x.
Proof.
  intros H (v & m & a & Hv & _ & Hm & Ha & Hx).
  destruct (accepted_arg s v m a H Hv Hm Ha) as (x' & y & E & _ & P). assert (x' = x) by congruence. subst x'.
  eapply Parsed_Good; [|exact P]. apply H.
Qed.

(** ** exactness of the walk *)

Lemma foldO_spec {A} (f : A -> list string -> option (list string)) (P : A -> string -> Prop) l :
  forall b b',
  (forall a m m', In a l -> f a m = Some m' -> forall x, In x m' <-> In x m \/ P a x) ->
  foldO f l b = Some b' -> forall x, In x b' <-> In x b \/ exists a, In a l /\ P a x.
Proof.
  induction l as [|a l IH]; cbn; intros b b' H E x.
  - injection E as <-. split; [now left|]. intros [K|(a & [] & _)]; assumption.
  - destruct (f a b) as [b1|] eqn:Ea; [|discriminate].
    rewrite (IH b1 b' (fun a' m m' Ha' => H a' m m' (or_intror Ha')) E x).
    rewrite (H a b b1 (or_introl eq_refl) Ea x). split.
    + intros [[K|K]|(a' & Ha' & K)]; [now left|right; exists a; auto|right; exists a'; auto].
    + intros [K|(a' & [<-|Ha'] & K)]; [auto|auto|]. right. exists a'. auto.
Qed.

Lemma NeededFor_struct ts e n d t : NamesOk ts -> In t ts -> t_name t = d -> t_kind t = "struct" -> forall x,
  NeededFor ts (VT e (ShStruct n d)) x <->
  x = d \/ exists f, In f (t_fields t) /\ exists v, f_type f = Some v /\ NeededFor ts v x.
Proof.
  intros HN Ht Hn Hk x.
  assert (HU : forall t', In t' ts -> t_name t' = d -> t' = t).
  { intros t' Ht' E. destruct (names_resolve ts t HN Ht) as [U _]. destruct (names_resolve ts t' HN Ht') as [U' _].
    rewrite E, <- Hn in U'. congruence. }
  split.
  - intros [M|(d0 & M & P)].
    + inversion M; subst. now left.
    + inversion M; subst. right.
      inversion P as [? ? F|? d1 ? F P']; subst; destruct F as (t' & f & v & F1 & F2 & F3 & F4 & F5 & F6);
        (assert (t' = t) by auto; subst t'); exists f; (split; [assumption|]); exists v; (split; [assumption|]);
        [now left|right; exists d1; now split].
  - intros [->|(f & Hf & v & Hv & [M|(d0 & M & P)])].
    + left. constructor.
    + right. exists d. split; [constructor|]. apply FP_one. exists t, f, v. auto 8.
    + right. exists d. split; [constructor|]. apply FP_cons with d0; [|assumption]. exists t, f, v. auto 8.
Qed.

Lemma NeededFor_list ts e v x : NeededFor ts (VT e (ShList v)) x <-> NeededFor ts v x.
Proof.
  split; (intros [M|(d & M & P)]; [left|right; exists d; split; [|assumption]]); try (now inversion M); now constructor.
Qed.

Lemma NeededFor_map ts e k w x : NeededFor ts (VT e (ShMap k w)) x <-> NeededFor ts k x \/ NeededFor ts w x.
Proof.
  split.
  - intros [M|(d & M & P)]; inversion M; subst; unfold NeededFor; eauto 6.
  - intros [[M|(d & M & P)]|[M|(d & M & P)]]; [left|right; exists d; split; [|assumption]|left|right; exists d; split; [|assumption]];
      (now apply MKey) || (now apply MValue).
Qed.

Lemma NeededFor_enum ts e n d t : NamesOk ts -> In t ts -> t_name t = d -> t_kind t <> "struct" -> forall x,
  NeededFor ts (VT e (ShEnum n d)) x <-> x = d.
Proof.
  intros HN Ht Hn Hk x. split.
  - intros [M|(d0 & M & P)]; inversion M; subst; [reflexivity|]. exfalso.
    assert (F : exists d1, FieldOf ts (t_name t) d1) by (inversion P; subst; eauto).
    destruct F as (d1 & t' & f & v & F1 & F2 & F3 & _).
    destruct (names_resolve ts t HN Ht) as [U _]. destruct (names_resolve ts t' HN F1) as [U' _]. rewrite F2 in U'. congruence.
  - intros ->. left. constructor.
Qed.


Lemma unique_type ts t t' : NamesOk ts -> In t ts -> In t' ts -> t_name t = t_name t' -> t = t'.
Proof.
  intros HN Ht Ht' E. destruct (names_resolve ts t HN Ht) as [U _]. destruct (names_resolve ts t' HN Ht') as [U' _].
  rewrite E in U. congruence.
Qed.

Lemma name_nonempty ts t : NamesOk ts -> In t ts -> String.eqb (t_name t) "" = false.
Proof.
  intros [_ HN] Ht. rewrite Forall_forall in HN. apply String.eqb_neq. now apply upper_nonempty, HN.
Qed.

Lemma walk_exact ts : WellTyped ts -> forall n v m m',
  Good ts v -> walk n ts v m = Some m' ->
  forall x, In x m' <-> In x m \/ NeededFor ts v x.
Proof.
  intros WT. assert (HN := wt_names ts WT).
  induction n as [|n IH]; [discriminate|]. intros [e sh] m m' G H x. cbn [walk vt_shape] in H.
  assert (Hno : (forall d, ~ Mentions (VT e sh) d) -> m' = m -> In x m' <-> In x m \/ NeededFor ts (VT e sh) x).
  { intros Hm ->. split; [now left|]. intros [?|[M|(d & M & _)]]; [assumption|now apply Hm in M|now apply Hm in M]. }
  destruct sh as [|c|v|k w|nm d|nm d|nm d].
  - apply Hno; [intros d M; inversion M|congruence].
  - apply Hno; [intros d M; inversion M|congruence].
  - rewrite NeededFor_list. apply (IH v m m'); [exact G|exact H].
  - destruct G as [G1 G2]. destruct (walk n ts k m) as [m1|] eqn:Ek; [|discriminate]. rewrite NeededFor_map.
    rewrite (IH w m1 m' G2 H x), (IH k m m1 G1 Ek x). tauto.
  - destruct G as (t & Ht & Hn & Hk). rewrite (NeededFor_struct ts e nm d t HN Ht Hn Hk).
    destruct (names_resolve ts t HN Ht) as [U _]. rewrite <- Hn in H. rewrite U in H.
    rewrite (name_nonempty ts t HN Ht) in H.
    assert (HS : forall f m0 m1, In f (t_fields t) ->
       (match f_type f with None => Some m0 | Some x => walk n ts x m0 end) = Some m1 ->
       forall x, In x m1 <-> In x m0 \/ exists v, f_type f = Some v /\ NeededFor ts v x).
    { clear x Hno H. intros f m0 m1 Hf Hf0 x. destruct (f_type f) as [v|] eqn:Ev.
      - rewrite (IH v m0 m1 (wt_fields ts WT t f v Ht Hk Hf Ev) Hf0 x). split.
        + intros [K|K]; [now left|right; eauto].
        + intros [K|(v' & E & K)]; [now left|right]. congruence.
      - injection Hf0 as <-. split; [now left|]. intros [K|(v & E & _)]; [assumption|discriminate]. }
    rewrite (foldO_spec _ (fun f x => exists v, f_type f = Some v /\ NeededFor ts v x) _ _ _ HS H x).
    cbn [In]. rewrite Hn. intuition congruence.
  - destruct G as (t & Ht & Hn & Hk). rewrite (NeededFor_enum ts e nm d t HN Ht Hn Hk).
    destruct (names_resolve ts t HN Ht) as [U _]. rewrite <- Hn in H. rewrite U in H.
    rewrite (name_nonempty ts t HN Ht) in H. injection H as <-. cbn [In]. rewrite Hn. intuition congruence.
  - apply Hno; [intros d0 M; inversion M|congruence].
Qed.

Lemma walkArg_exact ts n a m m' : WellTyped ts -> (forall v, g_type a = Some v -> Good ts v) ->
  walkArg n ts a m = Some m' ->
  forall x, In x m' <-> In x m \/ exists v, g_type a = Some v /\ NeededFor ts v x.
Proof.
  intros WT G H x. unfold walkArg in H. destruct (g_type a) as [v|] eqn:E.
  - rewrite (walk_exact ts WT n v m m' (G v eq_refl) H x). split.
    + intros [K|K]; [now left|right; eauto].
    + intros [K|(v' & E' & K)]; [now left|right]. congruence.
  - injection H as <-. split; [now left|]. intros [K|(v & E' & _)]; [assumption|discriminate].
Qed.

Lemma walkMethod_exact ts n me m m' : WellTyped ts ->
  (forall a v, In a (me_inputs me ++ me_outputs me) -> g_type a = Some v -> Good ts v) ->
  walkMethod n ts me m = Some m' ->
  forall x, In x m' <-> In x m \/
    exists a, In a (me_inputs me ++ me_outputs me) /\ exists v, g_type a = Some v /\ NeededFor ts v x.
Proof.
  intros WT G H x. unfold walkMethod in H.
  destruct (foldO (walkArg n ts) (me_inputs me) m) as [m1|] eqn:E; [|discriminate].
  set (P := fun a x => exists v, g_type a = Some v /\ NeededFor ts v x).
  rewrite (foldO_spec (walkArg n ts) P _ _ _ (fun a m0 m1 Ha => walkArg_exact ts n a m0 m1 WT (fun v Hv => G a v (in_or_app _ _ _ (or_intror Ha)) Hv)) H x).
  rewrite (foldO_spec (walkArg n ts) P _ _ _ (fun a m0 m1 Ha => walkArg_exact ts n a m0 m1 WT (fun v Hv => G a v (in_or_app _ _ _ (or_introl Ha)) Hv)) E x).
  split.
  - intros [[K|(a & Ha & K)]|(a & Ha & K)]; [now left|right; exists a; split; [apply in_or_app; now left|assumption]|right; exists a; split; [apply in_or_app; now right|assumption]].
  - intros [K|(a & Ha & K)]; [auto|]. apply in_app_or in Ha as [Ha|Ha]; [left; right|right]; exists a; auto.
Qed.

Lemma walkServices_exact s n names l : Accepted s -> incl l (sc_services s) -> forall inc exc inc' exc',
  foldO (walkService n (sc_types s) names) l (inc, exc) = Some (inc', exc') ->
  forall x, In x inc' <-> In x inc \/ exists w, In w l /\ In (v_name w) names /\
     exists m a v, In m (v_methods w) /\ In a (me_inputs m ++ me_outputs m) /\ g_type a = Some v /\
                   NeededFor (sc_types s) v x.
Proof.
  intros HA. pose proof (accepted_WellTyped s HA) as WT.
  induction l as [|w l IH]; intros Hl inc exc inc' exc' H x.
  - cbn in H. injection H as <- <-. split; [now left|]. intros [K|(w & [] & _)]; assumption.
  - cbn in H. 
    assert (Hm : forall me a v, In me (v_methods w) -> In a (me_inputs me ++ me_outputs me) -> g_type a = Some v -> Good (sc_types s) v).
    { intros me a v H1 H2 H3. apply (accepted_Good_arg s v (fun _ => True) HA). exists w, me, a.
      repeat split; auto. apply Hl. now left. }
    assert (HP : forall m m', foldO (walkMethod n (sc_types s)) (v_methods w) m = Some m' -> forall x,
       In x m' <-> In x m \/ exists me, In me (v_methods w) /\ exists a, In a (me_inputs me ++ me_outputs me) /\
                       exists v, g_type a = Some v /\ NeededFor (sc_types s) v x).
    { intros m m' Hf. apply (foldO_spec _ _ _ _ _ (fun me m0 m1 Hme => walkMethod_exact _ n me m0 m1 WT (fun a v => Hm me a v Hme)) Hf). }
    assert (Hl' : incl l (sc_services s)) by (intros y Hy; apply Hl; now right).
    destruct (str_in (v_name w) names) eqn:Ew.
    + destruct (foldO (walkMethod n (sc_types s)) (v_methods w) inc) as [inc1|] eqn:E1; [|discriminate].
      rewrite (IH Hl' _ _ _ _ H x), (HP _ _ E1 x). apply str_in_In in Ew. split.
      * intros [[K|(me & A & a & B & v & C & D)]|(w' & A & B)]; [now left|right; exists w|right; exists w'; split; [now right|assumption]].
        split; [now left|]. split; [assumption|]. exists me, a, v. auto.
      * intros [K|(w' & [<-|A] & B & C)]; [auto| |right; eauto].
        left. right. destruct C as (me & a & v & C1 & C2 & C3 & C4). exists me. split; [assumption|]. exists a. split; [assumption|]. eauto.
    + destruct (foldO (walkMethod n (sc_types s)) (v_methods w) exc) as [exc1|] eqn:E1; [|discriminate].
      rewrite (IH Hl' _ _ _ _ H x). apply str_in_not in Ew. split.
      * intros [K|(w' & A & B)]; [now left|right; exists w'; split; [now right|assumption]].
      * intros [K|(w' & [<-|A] & B & C)]; [auto|contradiction|right; eauto].
Qed.

(** kept types: exactly those a named service needs; nothing else changes *)
Lemma shake_exact n s names s' : Accepted s -> methodTreeShake n s names = Some s' ->
  exists keep, s' = withTypes s (filter keep (sc_types s)) /\
    forall t, In t (sc_types s) -> (keep t = true <-> Needed s (Named names) (t_name t)).
Proof.
  intros HA H. unfold methodTreeShake in H.
  destruct (foldO (walkService n (sc_types s) names) (sc_services s) ([], [])) as [[inc exc]|] eqn:E; [|discriminate].
  injection H as <-. exists (fun t => str_in (t_name t) inc). split; [reflexivity|]. intros t Ht.
  rewrite str_in_In, (walkServices_exact s n names _ HA (incl_refl _) _ _ _ _ E). split.
  - intros [[]|(w & W1 & W2 & m & a & v & A & B & C & D)]. exists v. split; [|assumption]. exists w, m, a. auto.
  - intros (v & (w & m & a & W1 & W2 & A & B & C) & D). right. exists w. split; [assumption|]. split; [assumption|].
    exists m, a, v. auto.
Qed.

(** ** termination *)

Lemma foldO_mono {A B} (f g : A -> B -> option B) l : (forall a b b', In a l -> f a b = Some b' -> g a b = Some b') ->
  forall b b', foldO f l b = Some b' -> foldO g l b = Some b'.
Proof.
  induction l as [|a l IH]; intros H b b'; [auto|]. cbn. destruct (f a b) as [b1|] eqn:E; [|discriminate].
  rewrite (H a b b1 (or_introl eq_refl) E). apply IH. intros x y y' Hx. apply H. now right.
Qed.

Lemma walk_S ts n : forall v m m', walk n ts v m = Some m' -> walk (S n) ts v m = Some m'.
Proof.
  induction n as [|n IH]; [discriminate|]. intros [e sh] m m' H. 
  change (walk (S (S n)) ts (VT e sh) m) with
   (match sh with
      | ShList x => walk (S n) ts x m
      | ShMap k w =>
          match walk (S n) ts k m with
          | Some mark' => walk (S n) ts w mark'
          | None => None
          end
      | ShStruct _ d =>
          match getType ts d with
          | None => Some m
          | Some t =>
              let mark' := if String.eqb (t_name t) "" then m else t_name t :: m in
              foldO (fun f m => match f_type f with None => Some m | Some x => walk (S n) ts x m end)
                    (t_fields t) mark'
          end
      | ShEnum _ d =>
          match getType ts d with
          | None => Some m
          | Some t => Some (if String.eqb (t_name t) "" then m else t_name t :: m)
          end
      | ShUnknown | ShCore _ | ShAlias _ _ => Some m
      end).
  cbn [walk vt_shape] in H. destruct sh as [|c|v|k w|nm d|nm d|nm d]; auto.
  - destruct (walk n ts k m) as [m1|] eqn:E; [|discriminate]. rewrite (IH _ _ _ E). auto.
  - destruct (getType ts d) as [t|]; [|assumption]. cbv zeta in *. revert H. apply foldO_mono.
    intros f b b' _ Hf. destruct (f_type f); auto.
Qed.

Lemma walk_le ts n n' v m m' : n <= n' -> walk n ts v m = Some m' -> walk n' ts v m = Some m'.
Proof. intro H. revert m m' v. induction H; auto using walk_S. Qed.

(** the marks do not influence whether the walk returns *)
Definition Returns (ts : list type) (n : nat) (v : varType) : Prop := forall m, walk n ts v m <> None.

Lemma Returns_le ts n n' v : n <= n' -> Returns ts n v -> Returns ts n' v.
Proof.
  intros H R m. specialize (R m). destruct (walk n ts v m) as [m'|] eqn:E; [|congruence].
  now rewrite (walk_le _ _ _ _ _ _ H E).
Qed.

Lemma foldO_returns {A B} (f : A -> B -> option B) l : (forall a b, In a l -> f a b <> None) -> forall b, foldO f l b <> None.
Proof.
  induction l as [|a l IH]; intros H b; [discriminate|]. cbn. destruct (f a b) as [b1|] eqn:E.
  - apply IH. intros x y Hx. apply H. now right.
  - exfalso. exact (H a b (or_introl eq_refl) E).
Qed.

Lemma bound_all {A} (P : nat -> A -> Prop) l : (forall n n' a, n <= n' -> P n a -> P n' a) ->
  (forall a, In a l -> exists n, P n a) -> exists n, forall a, In a l -> P n a.
Proof.
  intros M. induction l as [|a l IH]; intro H; [exists 0; intros a []|].
  destruct (H a (or_introl eq_refl)) as (n1 & H1). destruct (IH (fun b Hb => H b (or_intror Hb))) as (n2 & H2).
  exists (n1 + n2). intros b [<-|Hb]; [apply (M n1); [lia|assumption]|apply (M n2); [lia|auto]].
Qed.

(** [d] leads to every name mentioned by [v] *)
Definition AllPathsInto (ts : list type) (path : list string) (v : varType) : Prop :=
  forall d d', In d path -> Mentions v d' -> FieldPath ts d d'.

Lemma FieldPath_snoc ts a b c : FieldPath ts a b -> FieldOf ts b c -> FieldPath ts a c.
Proof. induction 1; intro; [eapply FP_cons; [eassumption|now apply FP_one]|eapply FP_cons; eauto]. Qed.

Scheme varType_mut := Induction for varType Sort Prop with shape_mut := Induction for shape Sort Prop.

Lemma varType_ind' (P : varType -> Prop) :
  (forall e, P (VT e ShUnknown)) -> (forall e c, P (VT e (ShCore c))) ->
  (forall e x, P x -> P (VT e (ShList x))) -> (forall e k w, P k -> P w -> P (VT e (ShMap k w))) ->
  (forall e n d, P (VT e (ShStruct n d))) -> (forall e n d, P (VT e (ShEnum n d))) ->
  (forall e n d, P (VT e (ShAlias n d))) -> forall v, P v.
Proof.
  intros H1 H2 H3 H4 H5 H6 H7.
  apply (varType_mut P (fun sh => forall e, P (VT e sh))); auto.
Qed.

Lemma walk_returns_from_fields ts v : NamesOk ts -> Good ts v ->
  (forall t f v', Mentions v (t_name t) -> In t ts -> t_kind t = "struct" -> In f (t_fields t) -> f_type f = Some v' ->
     exists n, Returns ts n v') ->
  exists n, Returns ts n v.
Proof.
  intros HN. induction v as [e|e c|e x IH|e k w IHk IHw|e nm d|e nm d|e nm d] using varType_ind'; intros G H.
  - exists 1. intro m. discriminate.
  - exists 1. intro m. discriminate.
  - destruct IH as (n & R); [exact G| |exists (S n); exact R].
    intros t f v' M. apply H. now constructor.
  - destruct G as [G1 G2].
    destruct (IHk G1) as (n1 & R1); [intros t f v' M; apply H; now apply MKey|].
    destruct (IHw G2) as (n2 & R2); [intros t f v' M; apply H; now apply MValue|].
    exists (S (n1 + n2)). intro m. cbn [walk vt_shape].
    pose proof (Returns_le ts n1 (n1 + n2) k ltac:(lia) R1 m) as Q1. destruct (walk (n1 + n2) ts k m) as [m1|]; [|congruence].
    exact (Returns_le ts n2 (n1 + n2) w ltac:(lia) R2 m1).
  - destruct G as (t & Ht & Hn & Hk).
    destruct (bound_all (fun n f => forall v', f_type f = Some v' -> Returns ts n v') (t_fields t)) as (n & Hb).
    { intros n n' f Hle Q v' E. eapply Returns_le; [exact Hle|]. now apply Q. }
    { intros f Hf. destruct (f_type f) as [v'|] eqn:E; [|exists 0; discriminate].
      destruct (H t f v') as (n & R); auto; [rewrite Hn; constructor|]. exists n. intros v'' E'. congruence. }
    exists (S n). intro m. cbn [walk vt_shape]. destruct (names_resolve ts t HN Ht) as [U _]. rewrite <- Hn, U. cbv zeta.
    apply foldO_returns. intros f b Hf. destruct (f_type f) as [v'|] eqn:E; [|discriminate]. now apply (Hb f Hf v').
  - exists 1. intro m. cbn. destruct (getType ts d); discriminate.
  - exists 1. intro m. discriminate.
Qed.

Lemma walk_returns ts : WellTyped ts ->
  forall k path v, length ts <= k + length path -> NoDup path -> incl path (map t_name ts) ->
  AllPathsInto ts path v -> Good ts v ->
  (forall d, NeededFor ts v d -> ~ FieldPath ts d d) ->
  exists n, Returns ts n v.
Proof.
  intro WT. assert (HN := wt_names ts WT).
  induction k as [|k IH]; intros path v Hk Hnd Hin HP HG HC; apply walk_returns_from_fields; auto;
    intros t f v' M Ht Hkind Hf Hv; (assert (Hfresh : ~ In (t_name t) path); [intro Hp; apply (HC (t_name t)); [now left|apply HP; auto]|]).
  - exfalso. apply Hfresh.
    assert (Hfull : incl (map t_name ts) path).
    { apply NoDup_length_incl; [assumption| |assumption]. rewrite map_length. cbn in Hk. lia. }
    apply Hfull. now apply in_map.
  - apply (IH (t_name t :: path) v').
    + cbn [length]. lia.
    + now constructor.
    + intros x [<-|Hx]; [now apply in_map|auto].
    + assert (HF : forall d', Mentions v' d' -> FieldOf ts (t_name t) d') by (intros d' M'; exists t, f, v'; auto 8).
      intros d d' [<-|Hd] M'; [now apply FP_one, HF|]. eapply FieldPath_snoc; [apply (HP d (t_name t)); auto|now apply HF].
    + exact (wt_fields ts WT t f v' Ht Hkind Hf Hv).
    + intros d Hd. apply HC. right. exists (t_name t). split; [assumption|].
      assert (HF : forall d', Mentions v' d' -> FieldOf ts (t_name t) d') by (intros d' M'; exists t, f, v'; auto 8).
      destruct Hd as [Hd|(d0 & M0 & P0)]; [now apply FP_one, HF|]. apply FP_cons with d0; [now apply HF|assumption].
Qed.

(** converse: a walk that returns meets no recursive struct *)
Lemma foldO_some {A B} (f : A -> B -> option B) l : forall b b' a, foldO f l b = Some b' -> In a l -> exists c c', f a c = Some c'.
Proof.
  induction l as [|x l IH]; intros b b' a H []; cbn in H; destruct (f x b) as [b1|] eqn:E; try discriminate.
  - subst x. eauto.
  - eauto.
Qed.

Lemma walk_struct_fields ts : WellTyped ts -> forall v n m m' t, Good ts v -> walk n ts v m = Some m' ->
  Mentions v (t_name t) -> In t ts -> t_kind t = "struct" -> forall f v', In f (t_fields t) -> f_type f = Some v' ->
  exists n' m1 m2, n' < n /\ walk n' ts v' m1 = Some m2.
Proof.
  intro WT. assert (HN := wt_names ts WT).
  induction v as [e|e c|e x IH|e k w IHk IHw|e nm d|e nm d|e nm d] using varType_ind';
    intros n m m' t G H M Ht Hk f v' Hf Hv; inversion M as [? ? ?|? ? ?|? ? ? X|? ? ? ? X|? ? ? ? X]; subst; (destruct n as [|n]; [discriminate|]); cbn [walk vt_shape] in H.
  - destruct (IH n m m' t G H X Ht Hk f v' Hf Hv) as (n' & m1 & m2 & Hn & Hw). exists n', m1, m2. split; [lia|assumption].
  - destruct (walk n ts k m) as [mk|] eqn:E; [|discriminate].
    destruct (IHk n m mk t (proj1 G) E X Ht Hk f v' Hf Hv) as (n' & m1 & m2 & Hn & Hw). exists n', m1, m2. split; [lia|assumption].
  - destruct (walk n ts k m) as [mk|] eqn:E; [|discriminate].
    destruct (IHw n mk m' t (proj2 G) H X Ht Hk f v' Hf Hv) as (n' & m1 & m2 & Hn & Hw). exists n', m1, m2. split; [lia|assumption].
  - destruct (names_resolve ts t HN Ht) as [U _]. rewrite U in H. cbv zeta in H.
    destruct (foldO_some _ _ _ _ f H Hf) as (c & c' & E). rewrite Hv in E. exists n, c, c'. split; [lia|assumption].
  - exfalso. destruct G as (t' & T1 & T2 & T3). apply T3. rewrite (unique_type ts t' t); auto.
Qed.

Lemma walk_along ts : WellTyped ts -> forall d d', FieldPath ts d d' -> forall v n m m', Good ts v ->
  walk n ts v m = Some m' -> Mentions v d ->
  exists v' n' m1 m2, n' < n /\ Good ts v' /\ walk n' ts v' m1 = Some m2 /\ Mentions v' d'.
Proof.
  intro WT. induction 1 as [d d' F|d d1 d' F P IH]; intros v n m m' G H M;
    destruct F as (t & f & v1 & Ht & Hn & Hk & Hf & Hv & M1); subst d;
    destruct (walk_struct_fields ts WT v n m m' t G H M Ht Hk f v1 Hf Hv) as (n' & m1 & m2 & Hlt & Hw);
    pose proof (wt_fields ts WT t f v1 Ht Hk Hf Hv) as G1.
  - exists v1, n', m1, m2. auto.
  - destruct (IH v1 n' m1 m2 G1 Hw M1) as (v2 & n2 & a & b & L & G2 & W2 & M2). exists v2, n2, a, b. split; [lia|auto].
Qed.

Lemma walk_no_cycle ts : WellTyped ts -> forall n v m m' d, Good ts v -> walk n ts v m = Some m' ->
  Mentions v d -> ~ FieldPath ts d d.
Proof.
  intro WT. induction n as [n IH] using lt_wf_ind. intros v m m' d G H M P.
  destruct (walk_along ts WT d d P v n m m' G H M) as (v' & n' & m1 & m2 & Hlt & G' & W' & M').
  exact (IH n' Hlt v' m1 m2 d G' W' M' P).
Qed.

Lemma walk_no_cycle_needed ts : WellTyped ts -> forall n v m m' d, Good ts v -> walk n ts v m = Some m' ->
  NeededFor ts v d -> ~ FieldPath ts d d.
Proof.
  intros WT n v m m' d G H [M|(d0 & M & P)].
  - eapply walk_no_cycle; eassumption.
  - destruct (walk_along ts WT d0 d P v n m m' G H M) as (v' & n' & m1 & m2 & _ & G' & W' & M').
    eapply walk_no_cycle; eassumption.
Qed.

Lemma shake_returns s names : Accepted s -> ((exists n s', methodTreeShake n s names = Some s') <-> ~ RecursiveArguments s).
Proof.
  intro HA. pose proof (accepted_WellTyped s HA) as WT. split.
  - intros (n & s' & H) (d & (v & (w & m & a & W1 & _ & W3 & W4 & W5) & Hd) & P). unfold methodTreeShake in H.
    destruct (foldO (walkService n (sc_types s) names) (sc_services s) ([], [])) as [[inc exc]|] eqn:E; [|discriminate].
    destruct (foldO_some _ _ _ _ w E W1) as ([i x] & [i' x'] & Ew). cbn in Ew.
    assert (Em : exists b b', foldO (walkMethod n (sc_types s)) (v_methods w) b = Some b').
    { destruct (str_in (v_name w) names).
      - destruct (foldO (walkMethod n (sc_types s)) (v_methods w) i) eqn:Q; [eauto|discriminate].
      - destruct (foldO (walkMethod n (sc_types s)) (v_methods w) x) eqn:Q; [eauto|discriminate]. }
    destruct Em as (b & b' & Em). destruct (foldO_some _ _ _ _ m Em W3) as (c & c' & Ec). unfold walkMethod in Ec.
    assert (Ea : exists e e', walkArg n (sc_types s) a e = Some e').
    { destruct (foldO (walkArg n (sc_types s)) (me_inputs m) c) as [c1|] eqn:Q; [|discriminate].
      apply in_app_or in W4 as [W4|W4]; [exact (foldO_some _ _ _ _ a Q W4)|exact (foldO_some _ _ _ _ a Ec W4)]. }
    destruct Ea as (e & e' & Ea). unfold walkArg in Ea. rewrite W5 in Ea.
    assert (G : Good (sc_types s) v) by (apply (accepted_Good_arg s v (fun _ => True) HA); exists w, m, a; auto 8).
    exact (walk_no_cycle_needed _ WT n v e e' d G Ea Hd P).
  - intro HC.
    assert (Harg : forall w m a, In w (sc_services s) -> In m (v_methods w) -> In a (me_inputs m ++ me_outputs m) ->
              exists n, forall b, walkArg n (sc_types s) a b <> None).
    { intros w m a Hw Hm Ha. unfold walkArg. destruct (g_type a) as [v|] eqn:E; [|exists 0; discriminate].
      assert (HAT : ArgumentType s (fun _ => True) v) by (exists w, m, a; auto 8).
      destruct (walk_returns _ WT (length (sc_types s)) [] v) as (n & R).
      - cbn. lia.
      - constructor.
      - intros x [].
      - intros d d' [].
      - exact (accepted_Good_arg s v _ HA HAT).
      - intros d Hd P. apply HC. exists d. split; [|assumption]. exists v. auto.
      - exists n. exact R. }
    assert (Mono : forall n n' a, n <= n' -> (forall b, walkArg n (sc_types s) a b <> None) -> forall b, walkArg n' (sc_types s) a b <> None).
    { intros n n' a Hle Q b. unfold walkArg in *. destruct (g_type a) as [v|]; [|discriminate]. exact (Returns_le _ n n' v Hle Q b). }
    destruct (bound_all (fun n w => forall m a, In m (v_methods w) -> In a (me_inputs m ++ me_outputs m) -> forall b, walkArg n (sc_types s) a b <> None) (sc_services s)) as (n & Hb).
    { intros n n' w Hle Q m a Hm Ha. apply (Mono n n' a Hle). now apply (Q m). }
    { intros w Hw.
      destruct (bound_all (fun n m => forall a, In a (me_inputs m ++ me_outputs m) -> forall b, walkArg n (sc_types s) a b <> None) (v_methods w)) as (n & Hb).
      - intros n n' m Hle Q a Ha. apply (Mono n n' a Hle). now apply Q.
      - intros m Hm.
        destruct (bound_all (fun n a => forall b, walkArg n (sc_types s) a b <> None) (me_inputs m ++ me_outputs m)) as (n & Hb).
        + intros n n' a Hle Q. now apply (Mono n n' a Hle).
        + intros a Ha. eauto.
        + eauto.
      - eauto. }
    exists n. unfold methodTreeShake.
    assert (Q : foldO (walkService n (sc_types s) names) (sc_services s) ([], []) <> None).
    { apply foldO_returns. intros w [i x] Hw. unfold walkService.
      assert (QM : forall b, foldO (walkMethod n (sc_types s)) (v_methods w) b <> None).
      { apply foldO_returns. intros m b Hm. unfold walkMethod.
        pose proof (foldO_returns (walkArg n (sc_types s)) (me_inputs m) (fun a b Ha => Hb w Hw m a Hm (in_or_app _ _ _ (or_introl Ha)) b) b) as Q1.
        destruct (foldO (walkArg n (sc_types s)) (me_inputs m) b) as [b1|]; [|congruence].
        exact (foldO_returns (walkArg n (sc_types s)) (me_outputs m) (fun a b Ha => Hb w Hw m a Hm (in_or_app _ _ _ (or_intror Ha)) b) b1). }
      destruct (str_in (v_name w) names).
      - specialize (QM i). destruct (foldO (walkMethod n (sc_types s)) (v_methods w) i); [discriminate|congruence].
      - specialize (QM x). destruct (foldO (walkMethod n (sc_types s)) (v_methods w) x); [discriminate|congruence]. }
    destruct (foldO (walkService n (sc_types s) names) (sc_services s) ([], [])) as [[inc exc]|]; [eauto|congruence].
Qed.

(** ** the result is closed *)

Lemma filter_NoDup_map {A B} (f : A -> B) p l : NoDup (map f l) -> NoDup (map f (filter p l)).
Proof.
  induction l as [|a l IH]; [auto|]. cbn. intro H. inversion H as [|? ? Ha Hl]; subst. destruct (p a); [|auto].
  cbn. constructor; [|auto]. intro K. apply Ha. apply in_map_iff in K as (x & E & Hx). apply filter_In in Hx as [Hx _].
  rewrite <- E. now apply in_map.
Qed.

Lemma Parsed_kept ts ts' e v y : Parsed ts e v -> tree v = Some y ->
  (forall t, In t ts -> t_kind t <> "alias") ->
  (forall t, In t ts -> Mentions v (t_name t) -> In t ts') -> TypeOk ts' y.
Proof.
  intros H Hy Na. revert y Hy.
  induction H as [|c|e v H IH|c e v Hc H IH|k t e v K1 K2 K3 K4 H IH|e t E0 E1 E2 E3 G K|e t E0 E1 E2 E3 G K|e t E0 E1 E2 E3 G K];
    intros y Hy HM; cbn in Hy.
  - discriminate.
  - injection Hy as <-. constructor.
  - destruct (tree v) as [y'|]; [|discriminate]. injection Hy as <-. constructor. apply IH; [reflexivity|].
    intros t Ht M. apply HM; [assumption|]. now constructor.
  - destruct (tree v) as [y'|]; [|discriminate]. injection Hy as <-. constructor; [assumption|]. apply IH; [reflexivity|].
    intros t Ht M. apply HM; [assumption|]. now apply MValue.
  - destruct (tree v) as [y'|]; [|discriminate]. injection Hy as <-. apply OkMapNamed; [|assumption|assumption|].
    + unfold getTypeByName in K3. apply find_some in K3 as [Ht E]. apply String.eqb_eq in E.
      exists t. split; [apply HM; [assumption|]; apply MKey; constructor|]. split; [assumption|]. now apply keyIsEnum_true.
    + apply IH; [reflexivity|]. intros t' Ht M. apply HM; [assumption|]. now apply MValue.
  - injection Hy as <-. apply getType_In in G as [G1 G2]. constructor. exists t.
    split; [apply HM; [assumption|constructor]|]. now split.
  - injection Hy as <-. apply getType_In in G as [G1 G2]. constructor. exists t.
    split; [apply HM; [assumption|constructor]|]. now split.
  - exfalso. apply getType_In in G as [G1 G2]. now apply (Na t).
Qed.

Lemma shake_closed n s names s1 : Accepted s -> (forall t, In t (sc_types s) -> t_kind t <> "alias") ->
  methodTreeShake n s names = Some s1 -> names <> [] ->
  SchemaOk Resolved (matchServices s1 names) /\ exists s', validate goUriOk (matchServices s1 names) = Ok s'.
Proof.
  intros HA Na H Hne. destruct (shake_exact n s names s1 HA H) as (keep & -> & Hkeep).
  pose proof HA as (Hval & R & Hid & _). pose proof R as [V1 V2 V3 V4 V5 V6 V7].
  set (ts' := filter keep (sc_types s)).
  assert (E2 : matchServices (withTypes s ts') names =
    withServices (withTypes s ts') (filter (fun v => str_in (v_name v) names) (sc_services s))).
  { unfold matchServices. destruct names; [contradiction|]. rewrite keepServices_filter. reflexivity. }
  rewrite E2. clear E2.
  assert (RF : forall d t f v, Needed s (Named names) d -> t_name t = d -> In t (sc_types s) -> t_kind t = "struct" ->
     In f (t_fields t) -> f_type f = Some v -> Resolved ts' v).
  { intros d t f v Hd Hn Ht Hk Hf Hv. destruct (accepted_field s t f HA Ht Hk Hf) as (v' & y & Ev & Hy & P).
    assert (v' = v) by congruence. subst v'. exists y. split; [assumption|]. split.
    - eapply Parsed_kept; [exact P|exact Hy|exact Na|]. intros u Hu M. apply filter_In. split; [assumption|].
      apply Hkeep; [assumption|]. destruct Hd as (x & Hx & HN). exists x. split; [assumption|].
      assert (F : FieldOf (sc_types s) d (t_name u)) by (exists t, f, v; auto 8).
      destruct HN as [M0|(d0 & M0 & P0)]; right; [exists d|exists d0]; (split; [assumption|]); [now apply FP_one|].
      eapply FieldPath_snoc; eassumption.
    - symmetry. eapply Parsed_show; eassumption. }
  assert (RA : forall w m a, In w (sc_services s) -> Named names w -> In m (v_methods w) ->
     In a (me_inputs m ++ me_outputs m) -> ArgOk (Resolved (sc_types s)) a -> ArgOk (Resolved ts') a).
  { intros w m a Hw Hnw Hm Ha (A1 & v & A2 & A3). split; [assumption|]. exists v. split; [assumption|].
    destruct (accepted_arg s w m a HA Hw Hm Ha) as (v' & y & Ev & Hy & P).
    assert (v' = v) by congruence. subst v'. exists y. split; [assumption|]. split.
    - eapply Parsed_kept; [exact P|exact Hy|exact Na|]. intros u Hu M. apply filter_In. split; [assumption|].
      apply Hkeep; [assumption|]. exists v. split; [exists w, m, a; auto 8|now left].
    - symmetry. eapply Parsed_show; eassumption. }
  assert (OK : SchemaOk Resolved (withServices (withTypes s ts') (filter (fun v => str_in (v_name v) names) (sc_services s)))).
  { constructor; cbn [withServices withTypes sc_webrpc sc_version sc_types sc_errors sc_services]; try assumption.
    - intro K. apply V2. intro E. apply K. now rewrite E.
    - apply Forall_forall. intros t Ht. apply filter_In in Ht as [Ht Hk]. apply (Hkeep t Ht) in Hk.
      rewrite Forall_forall in V3. destruct (V3 t Ht) as (T1 & T2 & T3). split; [assumption|]. split; [assumption|].
      destruct T3 as [T3|[(K1 & K2 & K3)|T3]]; [tauto| |tauto]. right; left. split; [assumption|]. split; [assumption|].
      unfold StructOk in *. rewrite Forall_forall in *. intros f Hf. destruct (K3 f Hf) as (F1 & v & F2 & F3).
      split; [assumption|]. exists v. split; [assumption|]. eapply RF; eauto.
    - intros a b Ha Hb. apply filter_In in Ha as [Ha _]. apply filter_In in Hb as [Hb _]. now apply V4.
    - apply Forall_forall. intros w Hw. apply filter_In in Hw as [Hw Hn]. apply str_in_In in Hn.
      rewrite Forall_forall in V6. destruct (V6 w Hw) as (W1 & W2 & W3 & W4). split; [assumption|]. split; [assumption|].
      split; [|assumption]. rewrite Forall_forall in *. intros m Hm. destruct (W3 m Hm) as (M1 & M2 & M3 & M4).
      split; [assumption|]. rewrite Forall_forall in M2, M3.
      split; [|split; [|assumption]]; apply Forall_forall; intros a Ha.
      + apply (RA w m); auto. apply in_or_app. now left.
      + apply (RA w m); auto. apply in_or_app. now right.
    - intros a b Ha Hb. apply filter_In in Ha as [Ha _]. apply filter_In in Hb as [Hb _]. now apply V7. }
  split; [exact OK|]. apply validate_complete.
  - destruct OK as [O1 O2 O3 O4 O5 O6 O7].
    assert (RL : forall ts v, Resolved ts v -> Legal ts v) by (intros ts v (y & _ & A & B); exists y; auto).
    constructor; try assumption.
    + eapply Forall_impl; [|exact O3]. intros t (T1 & T2 & T3). split; [assumption|]. split; [assumption|].
      destruct T3 as [T3|[(K1 & K2 & K3)|T3]]; [tauto| |tauto]. right; left. split; [assumption|]. split; [assumption|].
      unfold StructOk in *. eapply Forall_impl; [|exact K3]. intros f (F1 & v & F2 & F3). eauto.
    + eapply Forall_impl; [|exact O6]. intros w (W1 & W2 & W3 & W4). split; [assumption|]. split; [assumption|].
      split; [|assumption]. eapply Forall_impl; [|exact W3]. intros m (M1 & M2 & M3 & M4). split; [assumption|].
      assert (AO : forall a, ArgOk (Resolved ts') a -> ArgOk (Legal ts') a) by (intros a (A1 & v & A2 & A3); split; eauto).
      split; [eapply Forall_impl; [|exact M2]; exact AO|]. split; [eapply Forall_impl; [|exact M3]; exact AO|assumption].
  - cbn [withServices withTypes sc_basepath]. apply validate_inv in Hval as (b & ts & es & ss & _ & _ & Hb & _).
    apply checkBasePath_iff in Hb. tauto.
  - cbn [withServices withTypes sc_types]. now apply filter_NoDup_map.
Qed.

(** ** annotations *)

Lemma trim_blanks_empty v : trim_blanks v = "" <-> Blank v.
Proof.
  unfold trim_blanks, Blank.
  assert (L : forall s, trim_left is_blank s = "" <-> Forall (fun c => c = " "%char) (list_ascii_of_string s)).
  { induction s as [|c r IH]; cbn; [split; [constructor|reflexivity]|].
    unfold is_blank at 1. destruct (Ascii.eqb_spec c " "%char) as [->|N].
    - rewrite IH. split; [now constructor|]. intro H. now inversion H.
    - split; [discriminate|]. intro H. inversion H. contradiction. }
  rewrite <- L. split; [|intros ->; reflexivity]. intro H.
  destruct (trim_left is_blank v) as [|c r] eqn:E; [reflexivity|]. exfalso.
  pose proof (trim_left_head is_blank v) as Hh. rewrite E in Hh.
  cbn [trim_right] in H. destruct (trim_right is_blank r); [rewrite Hh in H|]; discriminate.
Qed.

Lemma annotationLoop_iff anns m : annotationLoop anns m = true <-> SelectedBy m anns.
Proof.
  induction anns as [|[name value] r IH].
  - split; [discriminate|]. intros (x & [] & _).
  - assert (HS : Selected m (name, value) \/ SelectedBy m r <-> SelectedBy m ((name, value) :: r)).
    { unfold SelectedBy. split.
      - intros [K|(x & Hx & K)]; [exists (name, value)|exists x]; (split; [|assumption]); [now left|now right].
      - intros (x & [<-|Hx] & K); [now left|right; eauto]. }
    rewrite <- HS. cbn [annotationLoop]. unfold Selected. cbn [fst snd].
    destruct (assoc name (me_annotations m)) as [[aname avalue]|].
    2:{ rewrite IH. split; [now right|]. intros [(v & K & _)|K]; [discriminate|assumption]. }
    destruct (String.eqb_spec (trim_blanks value) "") as [E|E].
    + apply trim_blanks_empty in E. destruct (String.eqb_spec name aname) as [->|N].
      * split; [|reflexivity]. intros _. left. exists avalue. auto.
      * rewrite IH. split; [now right|]. intros [(v & K & _)|K]; [congruence|assumption].
    + destruct (String.eqb_spec name aname) as [->|N]; cbn [andb].
      * destruct (String.eqb_spec value avalue) as [->|N].
        -- split; [|reflexivity]. intros _. left. exists avalue. auto.
        -- rewrite IH. split; [now right|]. intros [(v & K & [L|L])|K]; [|congruence|assumption].
           apply trim_blanks_empty in L. contradiction.
      * rewrite IH. split; [now right|]. intros [(v & K & _)|K]; [congruence|assumption].
Qed.
