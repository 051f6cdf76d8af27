From Verif Require Import Base BaseProofs Schema TypeSpec TypeProofs Uri ValidateSpec ValidateProofs
  ValidateComplete PropsValidateAux Filter FilterSpec FilterProofs Cli CliProofs BigInt BigIntSpec BigIntProofs.

Inductive EntriesQ (ts : list type) (Q : string -> Prop) : list (string * option varType) -> list entry -> Prop :=
| EQ_nil : EntriesQ ts Q [] []
| EQ_add name v e r es : EntryOf ts name v e -> EntriesQ ts Q r es -> EntriesQ ts Q ((name, Some v) :: r) (e :: es)
| EQ_skip name v r es : ClearV Q v -> EntriesQ ts Q r es -> EntriesQ ts Q ((name, Some v) :: r) es
| EQ_none name r es : EntriesQ ts Q r es -> EntriesQ ts Q ((name, None) :: r) es.

Lemma bigEntry_spec ts Q name v memo e memo' : WellB ts -> Mode ts Q -> OkV ts v -> Inv ts Q memo ->
  bigEntry (structByName2 ts) name v memo = Some (e, memo') ->
  Inv ts Q memo' /\ (forall x, e = Some x -> EntryOf ts name v x) /\ (e = None -> ClearV Q v).
Proof.
  intros WB M O HI H.
  assert (HT : varTypeHasBigInt (structByName2 ts) v memo = Some (match e with Some _ => true | None => false end, memo')).
  { rewrite (bigEntry_has _ name), H. now destruct e. }
  assert (HT' : varTypeHasBigInt (structByName ts) v memo = Some (match e with Some _ => true | None => false end, memo')).
  { rewrite <- HT. unfold varTypeHasBigInt. destruct (vt_shape v) as [|c|x|k w|n d|n d|n d]; try reflexivity.
    - destruct (vt_shape x); try reflexivity. now rewrite structByName2_eq.
    - now rewrite structByName2_eq. }
  apply (varType_top ts Q) in HT'; try assumption. destruct HT' as (R1 & _ & R3). split; [assumption|].
  split; [|intros ->; now apply R3]. intros x ->. clear HT R3.
  pose proof O as (O1 & O2 & _). unfold bigEntry in H.
  destruct (foldBigint (vt_expr v)) eqn:E1; [injection H as <- _; apply EO_scalar; now apply O1|].
  destruct (vt_shape v) as [|c|y|k w|n d|n d|n d] eqn:E; try discriminate.
  - destruct (foldBigint (vt_expr y)) eqn:E2; [injection H as <- _; apply EO_list with y; [exact E|now apply (O2 y E)]|].
    destruct (vt_shape y) as [|c|z|k w|n d|n d|n d] eqn:Ey; try discriminate.
    rewrite structByName2_eq in H. destruct (structByName ts d memo) as [[[|] m]|] eqn:Er; try discriminate.
    injection H as <- _. apply EO_listStruct with y d; [exact E|exact Ey|].
    apply (byName_spec ts Q) in Er; try assumption; [now apply Er|]. eapply Nests_type; [exact O|]. right. exists y. split; [exact E|]. exists n. exact Ey.
  - rewrite structByName2_eq in H. destruct (structByName ts d memo) as [[[|] m]|] eqn:Er; try discriminate.
    injection H as <- _. apply EO_struct with d; [exact E|].
    apply (byName_spec ts Q) in Er; try assumption; [now apply Er|]. eapply Nests_type; [exact O|]. left. exists n. exact E.
Qed.

Lemma collect_spec ts Q l : WellB ts -> Mode ts Q -> (forall n v, In (n, Some v) l -> OkV ts v) ->
  forall memo es memo', Inv ts Q memo -> collect ts l memo = Some (es, memo') -> Inv ts Q memo' /\ EntriesQ ts Q l es.
Proof.
  intros WB M. induction l as [|[n [v|]] r IH]; intros O memo es memo' HI H; cbn [collect] in H.
  - injection H as <- <-. split; [assumption|constructor].
  - destruct (bigEntry (structByName2 ts) n v memo) as [[e m]|] eqn:Eb; [|discriminate].
    apply (bigEntry_spec ts Q) in Eb; try assumption; [|apply (O n); now left]. destruct Eb as (R1 & R2 & R3).
    destruct (collect ts r m) as [[es' m']|] eqn:Ec; [|discriminate]. injection H as <- <-.
    apply IH in Ec; [|intros; apply (O n0); now right|assumption]. destruct Ec as (S1 & S2). split; [assumption|].
    destruct e as [x|]; constructor; auto.
  - apply IH in H; [|intros; apply (O n0); now right|assumption]. destruct H. split; [assumption|now constructor].
Qed.

(** ** the sequence of definitions *)

Definition storeDef ts (d : string * list (string * option varType)) (st : bigTable * memoT) := store ts (fst d) (snd d) st.

Lemma foldM_app {A B} (f : A -> B -> option B) l1 l2 b :
  foldM f (l1 ++ l2) b = match foldM f l1 b with Some b' => foldM f l2 b' | None => None end.
Proof. revert b. induction l1 as [|x r IH]; intro b; [reflexivity|]. cbn. destruct (f x b); [apply IH|reflexivity]. Qed.

Lemma foldM_flat {A B C} (f : A -> B -> option B) (g : C -> list A) l b :
  foldM f (flat_map g l) b = foldM (fun c => foldM f (g c)) l b.
Proof.
  revert b. induction l as [|c r IH]; intro b; [reflexivity|]. cbn [flat_map foldM]. rewrite foldM_app.
  destruct (foldM f (g c) b); [apply IH|reflexivity].
Qed.

Lemma foldM_ext {A B} (f g : A -> B -> option B) l : (forall x b, f x b = g x b) -> forall b, foldM f l b = foldM g l b.
Proof. intros H. induction l as [|x r IH]; intro b; [reflexivity|]. cbn. rewrite H. destruct (g x b); [apply IH|reflexivity]. Qed.

Lemma foldM_filter {A B} (p : A -> bool) (f : A -> B -> option B) l b :
  foldM f (filter p l) b = foldM (fun x b => if p x then f x b else Some b) l b.
Proof.
  revert b. induction l as [|x r IH]; intro b; [reflexivity|]. cbn. destruct (p x); cbn; [|apply IH].
  destruct (f x b); [apply IH|reflexivity].
Qed.

Lemma foldM_map {A B C} (f : A -> B -> option B) (g : C -> A) l b : foldM f (map g l) b = foldM (fun c => f (g c)) l b.
Proof. revert b. induction l as [|x r IH]; intro b; [reflexivity|]. cbn. destruct (f (g x) b); [apply IH|reflexivity]. Qed.

Lemma table_is_fold compat s :
  schemaBigIntFieldsByType compat s =
  option_map fst (foldM (storeDef (sc_types s)) (Definitions (requestSuffix compat) (responseSuffix compat) s) ([], [])).
Proof.
  unfold schemaBigIntFieldsByType, Definitions. rewrite foldM_app, foldM_map, foldM_filter.
  rewrite (foldM_ext _ (fun x b => if isStruct x then
     storeDef (sc_types s) (t_name x, map (fun f => (f_name f, f_type f)) (t_fields x)) b else Some b)).
  2:{ intros t b. unfold isStruct. destruct (String.eqb (t_kind t) "struct"); reflexivity. }
  match goal with |- match ?x with _ => _ end = _ => destruct x as [st|] end; [|reflexivity]. f_equal.
  rewrite foldM_flat, foldM_filter, foldM_flat. apply foldM_ext. intros v st'. apply foldM_ext. intros m st2.
  unfold storeMethod. destruct (me_succinct m); [reflexivity|]. cbn [negb foldM]. unfold storeDef. cbn [fst snd].
  unfold requestSuffix, responseSuffix, argTypes. destruct (store _ _ _ st2) as [st3|]; [|reflexivity].
  destruct (store _ _ _ st3); reflexivity.
Qed.

Lemma Definitions_ok s compat : Accepted s -> NoTypeNamedBigint s -> forall k fs n v,
  In (k, fs) (Definitions (requestSuffix compat) (responseSuffix compat) s) -> In (n, Some v) fs -> OkV (sc_types s) v.
Proof.
  intros HA HB k fs n v Hk Hn. apply in_app_or in Hk as [Hk|Hk].
  - apply in_map_iff in Hk as (t & E & Ht). apply filter_In in Ht as [Ht Hs]. apply String.eqb_eq in Hs.
    injection E as <- <-. apply in_map_iff in Hn as (f & E & Hf). injection E as _ E.
    eapply wb_fields; [now apply accepted_WellB|]. exists t, f. eauto 6.
  - apply in_flat_map in Hk as (m & Hm & Hk). apply filter_In in Hm as [Hm _]. apply in_flat_map in Hm as (w & Hw & Hm).
    assert (K : exists args, fs = map (fun a => (g_name a, g_type a)) args /\ incl args (me_inputs m ++ me_outputs m)).
    { destruct Hk as [Hk|[Hk|[]]]; injection Hk as _ <-; eexists; (split; [reflexivity|]); [apply incl_appl|apply incl_appr]; apply incl_refl. }
    destruct K as (args & -> & Hin). apply in_map_iff in Hn as (a & E & Ha). injection E as _ E.
    apply (accepted_OkV_arg s (fun _ => True)); try assumption. exists w, m, a. specialize (Hin a Ha). auto 8.
Qed.

Lemma store_spec ts Q k fs tbl memo tbl' memo' : WellB ts -> Mode ts Q -> (forall n v, In (n, Some v) fs -> OkV ts v) ->
  Inv ts Q memo -> storeDef ts (k, fs) (tbl, memo) = Some (tbl', memo') ->
  Inv ts Q memo' /\ exists es, EntriesQ ts Q fs es /\ tbl' = match es with [] => tbl | _ => mapSet k es tbl end.
Proof.
  intros WB M O HI H. unfold storeDef, store in H. cbn [fst snd] in H.
  destruct (collect ts fs memo) as [[es m]|] eqn:Ec; [|discriminate].
  apply (collect_spec ts Q) in Ec; try assumption. destruct Ec as [C1 C2].
  destruct es; injection H as <- <-; split; try assumption; eexists; (split; [exact C2|reflexivity]).
Qed.

Lemma table_exact ts defs : WellB ts -> (forall d, ~ NestedIn ts d d) ->
  forall (R : list (string * option varType) -> list entry -> Prop),
  (forall fs es, EntriesQ ts (fun d => ~ HasBigint ts d) fs es -> forall l, R fs l <-> l = es) ->
  (forall k fs n v, In (k, fs) defs -> In (n, Some v) fs -> OkV ts v) ->
  forall tbl memo tbl' memo', Inv ts (fun d => ~ HasBigint ts d) memo ->
  foldM (storeDef ts) defs (tbl, memo) = Some (tbl', memo') ->
  forall k l, assoc k tbl' = Some l <->
    (l <> [] /\ exists pre fs post, defs = pre ++ (k, fs) :: post /\ R fs l /\ forall fs', In (k, fs') post -> R fs' []) \/
    (assoc k tbl = Some l /\ forall fs, In (k, fs) defs -> R fs []).
Proof.
  intros WB Ha R HR. pose proof (Mode_acyclic ts Ha) as M.
  induction defs as [|[k0 fs0] defs IH]; intros O tbl memo tbl' memo' HI H k l.
  - injection H as <- <-. split; [right; split; [assumption|now intros]|]. intros [(_ & pre & fs & post & E & _)|[K _]]; [|assumption].
    destruct pre; discriminate.
  - cbn [foldM] in H. destruct (storeDef ts (k0, fs0) (tbl, memo)) as [[tbl1 memo1]|] eqn:Es; [|discriminate].
    apply (store_spec ts (fun d => ~ HasBigint ts d)) in Es; [|assumption|assumption|intros n v; apply (O k0 fs0 n v); now left|assumption].
    destruct Es as (HI1 & es & He & ->). specialize (HR fs0 es He) as HR0.
    rewrite (IH (fun k fs n v Hk => O k fs n v (or_intror Hk)) _ _ _ _ HI1 H k l). clear IH H.
    split.
    + intros [(Hl & pre & fs & post & -> & K1 & K2)|[K1 K2]].
      * left. split; [assumption|]. exists ((k0, fs0) :: pre), fs, post. auto.
      * destruct es as [|e es].
        -- right. split; [assumption|]. intros fs [E|Hf]; [injection E as <- <-; now apply HR0|auto].
        -- rewrite assoc_mapSet in K1. destruct (String.eqb_spec k k0) as [->|N].
           ++ injection K1 as <-. left. split; [discriminate|]. exists [], fs0, defs. split; [reflexivity|]. split; [now apply HR0|assumption].
           ++ right. split; [assumption|]. intros fs [E|Hf]; [congruence|auto].
    + intros [(Hl & pre & fs & post & E & K1 & K2)|[K1 K2]].
      * destruct pre as [|p pre]; injection E as E1 E2.
        -- subst. right. split; [|assumption]. apply HR0 in K1. subst es. destruct l; [contradiction|].
           rewrite assoc_mapSet, String.eqb_refl. reflexivity.
        -- subst. left. split; [assumption|]. exists pre, fs, post. auto.
      * right. split; [|intros; apply K2; now right]. destruct es as [|e es]; [assumption|].
        rewrite assoc_mapSet. destruct (String.eqb_spec k k0) as [->|N]; [|assumption].
        assert (Q : R fs0 []) by (apply K2; now left). apply HR0 in Q. discriminate.
Qed.

Lemma EntryOf_fun ts n v e e' : EntryOf ts n v e -> EntryOf ts n v e' -> e = e'.
Proof.
  unfold IsBigint, ListOf. intros [H|x H1 H2|m d H1 H2|x m d H1 H2 H3] [K|y K1 K2|m' d' K1 K2|y m' d' K1 K2 K3]; unfold IsBigint, ListOf in *; try congruence.
Qed.

Lemma clear_no_entry ts name v : ClearV (fun d => ~ HasBigint ts d) v -> forall e, ~ EntryOf ts name v e.
Proof.
  intros [C1 C2] e [H|x H1 H2|m d H1 H2|x m d H1 H2 H3].
  - apply C1. now left.
  - apply C1. right. eauto.
  - apply (C2 d); [left; exists m; exact H1|assumption].
  - apply (C2 d); [right; exists x; split; [exact H1|exists m; exact H2]|assumption].
Qed.

Lemma Entries_exact ts fs es : EntriesQ ts (fun d => ~ HasBigint ts d) fs es -> forall l, Entries ts fs l <-> l = es.
Proof.
  intros H l. split.
  - intro K. revert es H. induction K as [|name v e r es0 E K IH|name v r es0 E K IH|name r es0 K IH]; intros es H; inversion H as [|? ? ? ? ? E' H'|? ? ? ? C H'|? ? ? H']; subst.
    + reflexivity.
    + f_equal; [eapply EntryOf_fun; eassumption|auto].
    + exfalso. exact (clear_no_entry _ _ _ C _ E).
    + exfalso. exact (E _ E').
    + auto.
    + auto.
  - intros ->. induction H as [|name v e r es E H IH|name v r es C H IH|name r es H IH].
    + constructor. + now constructor. + apply En_skip; [now apply clear_no_entry|assumption]. + now constructor.
Qed.

Lemma table_sound ts defs : WellB ts ->
  (forall k fs n v, In (k, fs) defs -> In (n, Some v) fs -> OkV ts v) ->
  forall tbl memo tbl' memo', Inv ts (fun _ => True) memo ->
  foldM (storeDef ts) defs (tbl, memo) = Some (tbl', memo') ->
  forall k l, assoc k tbl' = Some l ->
    assoc k tbl = Some l \/ exists fs, In (k, fs) defs /\ EntriesQ ts (fun _ => True) fs l.
Proof.
  intros WB. pose proof (Mode_weak ts) as M.
  induction defs as [|[k0 fs0] defs IH]; intros O tbl memo tbl' memo' HI H k l Hk.
  - injection H as <- <-. now left.
  - cbn [foldM] in H. destruct (storeDef ts (k0, fs0) (tbl, memo)) as [[tbl1 memo1]|] eqn:Es; [|discriminate].
    apply (store_spec ts (fun _ => True)) in Es; [|assumption|assumption|intros n v; apply (O k0 fs0 n v); now left|assumption].
    destruct Es as (HI1 & es & He & ->).
    destruct (IH (fun k fs n v Hk => O k fs n v (or_intror Hk)) _ _ _ _ HI1 H k l Hk) as [K|(fs & F1 & F2)].
    + destruct es as [|e es]; [now left|]. rewrite assoc_mapSet in K. destruct (String.eqb_spec k k0) as [->|N]; [|now left].
      injection K as <-. right. exists fs0. split; [now left|assumption].
    + right. exists fs. split; [now right|assumption].
Qed.

(** a written key stays written *)
Lemma table_keeps ts defs : WellB ts ->
  (forall k fs n v, In (k, fs) defs -> In (n, Some v) fs -> OkV ts v) ->
  forall tbl memo tbl' memo', Inv ts (fun _ => True) memo ->
  foldM (storeDef ts) defs (tbl, memo) = Some (tbl', memo') ->
  forall k, (assoc k tbl <> None \/ exists fs n v, In (k, fs) defs /\ In (n, Some v) fs /\ Direct v) -> assoc k tbl' <> None.
Proof.
  intros WB. pose proof (Mode_weak ts) as M.
  induction defs as [|[k0 fs0] defs IH]; intros O tbl memo tbl' memo' HI H k Hk.
  - injection H as <- <-. destruct Hk as [Hk|(fs & n & v & [] & _)]. assumption.
  - cbn [foldM] in H. destruct (storeDef ts (k0, fs0) (tbl, memo)) as [[tbl1 memo1]|] eqn:Es; [|discriminate].
    apply (store_spec ts (fun _ => True)) in Es; [|assumption|assumption|intros n v; apply (O k0 fs0 n v); now left|assumption].
    destruct Es as (HI1 & es & He & ->).
    apply (IH (fun k fs n v Hk => O k fs n v (or_intror Hk)) _ _ _ _ HI1 H k).
    destruct Hk as [Hk|(fs & n & v & [E|Hf] & Hv & D)].
    + left. destruct es; [assumption|]. rewrite assoc_mapSet. destruct (String.eqb k k0); [discriminate|assumption].
    + injection E as <- <-. left. destruct es as [|e es].
      * exfalso. revert Hv. clear -He D. remember (@nil entry) as es. induction He as [|name w e r es E H IH|name w r es C H IH|name r es H IH]; intro Hv.
        -- contradiction.
        -- discriminate.
        -- destruct Hv as [Hv|Hv]; [|auto]. injection Hv as <- <-. destruct C as [C _]. contradiction.
        -- destruct Hv as [Hv|Hv]; [discriminate|auto].
      * rewrite assoc_mapSet, String.eqb_refl. discriminate.
    + right. eauto 6.
Qed.
