From Verif Require Import Base BaseProofs Schema TypeSpec TypeProofs Uri ValidateSpec ValidateProofs
  ValidateComplete PropsValidateAux Filter FilterSpec FilterProofs Cli CliProofs BigInt BigIntSpec.

(** what the two scans need of a type *)
Definition OkV (ts : list type) (v : varType) : Prop :=
  (foldBigint (vt_expr v) = true <-> IsBigint v) /\
  (forall x, ListOf v x -> foldBigint (vt_expr x) = true <-> IsBigint x) /\ Good ts v.

Lemma Parsed_big ts e v : (forall t, In t ts -> to_lower (t_name t) <> "bigint") -> Parsed ts e v ->
  foldBigint (vt_expr v) = true <-> IsBigint v.
Proof.
  intros HN H. unfold foldBigint, IsBigint. rewrite String.eqb_eq.
  assert (HL : forall (P : Prop) x, x <> "bigint" -> ~ P -> x = "bigint" <-> P) by tauto.
  destruct H as [|c|e v H|c e v Hc H|k t e v K1 K2 K3 K4 H|e t E0 E1 E2 E3 G K|e t E0 E1 E2 E3 G K|e t E0 E1 E2 E3 G K];
    cbn [vt_expr vt_shape].
  - split; discriminate.
  - destruct c; (split; [intro; try discriminate; reflexivity|intro E; try discriminate; reflexivity]).
  - split; discriminate.
  - split; discriminate.
  - split; discriminate.
  - apply getType_In in G as [G1 G2]. apply HL; [|discriminate]. rewrite <- G2. now apply HN.
  - apply getType_In in G as [G1 G2]. apply HL; [|discriminate]. rewrite <- G2. now apply HN.
  - apply getType_In in G as [G1 G2]. apply HL; [|discriminate]. rewrite <- G2. now apply HN.
Qed.

Lemma Parsed_OkV ts e v :
  (forall t, In t ts -> to_lower (t_name t) <> "bigint") ->
  (forall t v, In t ts -> t_kind t = "struct" -> t_type t = Some v -> vt_shape v = ShUnknown) ->
  Parsed ts e v -> OkV ts v.
Proof.
  intros HN HS H. split; [eapply Parsed_big; eassumption|]. split; [|eapply Parsed_Good; eassumption].
  intros x Hx. unfold ListOf in Hx. inversion H; subst; cbn in Hx; try discriminate. injection Hx as <-.
  eapply Parsed_big; eassumption.
Qed.

Record WellB (ts : list type) : Prop := {
  wb_names : NamesOk ts;
  wb_fields : forall d v, FieldType ts d v -> OkV ts v
}.

Lemma accepted_WellB s : Accepted s -> NoTypeNamedBigint s -> WellB (sc_types s).
Proof.
  intros H HN. constructor; [now apply accepted_names|]. intros d v (t & f & Ht & Hk & _ & Hf & Hv).
  destruct (accepted_field s t f H Ht Hk Hf) as (v' & y & E & _ & P). assert (v' = v) by congruence. subst v'.
  eapply Parsed_OkV; [exact HN| |exact P]. apply H.
Qed.

Lemma accepted_OkV_arg s sel x : Accepted s -> NoTypeNamedBigint s -> ArgumentType s sel x -> OkV (sc_types s) x.
Proof.
  intros H HN (v & m & a & Hv & _ & Hm & Ha & Hx).
  destruct (accepted_arg s v m a H Hv Hm Ha) as (x' & y & E & _ & P). assert (x' = x) by congruence. subst x'.
  eapply Parsed_OkV; [exact HN| |exact P]. apply H.
Qed.

(** ** the two functions scan alike *)

Lemma bigEntry_has rec nm v memo :
  varTypeHasBigInt rec v memo =
  match bigEntry rec nm v memo with
  | Some (Some _, m) => Some (true, m) | Some (None, m) => Some (false, m) | None => None
  end.
Proof.
  unfold varTypeHasBigInt, bigEntry. destruct (foldBigint (vt_expr v)); [reflexivity|].
  destruct v as [e [|c|x|k w|n d|n d|n d]]; cbn [vt_shape]; try reflexivity.
  - destruct (foldBigint (vt_expr x)); [reflexivity|]. destruct x as [e' [|c|x|k w|n d|n d|n d]]; cbn [vt_shape]; try reflexivity.
    destruct (rec d memo) as [[[|] m]|]; reflexivity.
  - destruct (rec d memo) as [[[|] m]|]; reflexivity.
Qed.

Lemma scanFields2_eq rec rec' name fs : (forall d m, rec d m = rec' d m) -> forall memo,
  scanFields2 rec name fs memo = scanFields rec' name fs memo.
Proof.
  intro H. induction fs as [|f r IH]; intro memo; [reflexivity|]. cbn [scanFields scanFields2].
  destruct (f_type f) as [v|]; [|apply IH].
  rewrite (bigEntry_has rec' (f_name f)).
  assert (E : bigEntry rec (f_name f) v memo = bigEntry rec' (f_name f) v memo).
  { unfold bigEntry. destruct (vt_shape v) as [| |x| |n d| |]; try reflexivity.
    - destruct (vt_shape x); try reflexivity. now rewrite H.
    - now rewrite H. }
  rewrite E. destruct (bigEntry rec' (f_name f) v memo) as [[[x|] m]|]; [reflexivity|apply IH|reflexivity].
Qed.

Lemma structHas2_eq ts n : forall vis t memo, structHas2 n ts vis t memo = structHas n ts vis t memo.
Proof.
  induction n as [|n IH]; intros vis t memo; [reflexivity|]. cbn [structHas structHas2].
  destruct (negb _); [reflexivity|]. destruct (assoc _ memo); [reflexivity|]. destruct (str_in _ vis); [reflexivity|].
  apply scanFields2_eq. intros d m. destruct (getType ts d); [apply IH|reflexivity].
Qed.

Lemma structByName2_eq ts d memo : structByName2 ts d memo = structByName ts d memo.
Proof. unfold structByName2, structByName. destruct (getType ts d); [apply structHas2_eq|reflexivity]. Qed.

(** ** termination *)

Lemma varTypeHas_term rec v memo : (forall d m, (Nests v d) -> rec d m <> None) -> varTypeHasBigInt rec v memo <> None.
Proof.
  intro H. unfold varTypeHasBigInt. destruct (foldBigint (vt_expr v)); [discriminate|].
  destruct (vt_shape v) as [|c|x|k w|n d|n d|n d] eqn:E; try discriminate.
  - destruct (foldBigint (vt_expr x)); [discriminate|]. destruct (vt_shape x) as [|c|y|k w|n d|n d|n d] eqn:E2; try discriminate.
    apply H. right. exists x. split; [exact E|]. exists n. exact E2.
  - apply H. left. exists n. exact E.
Qed.

Lemma scanFields_term rec name fs : (forall d m, rec d m <> None) -> forall memo, scanFields rec name fs memo <> None.
Proof.
  intro H. induction fs as [|f r IH]; intro memo; cbn [scanFields]; [discriminate|].
  destruct (f_type f) as [v|]; [|apply IH].
  pose proof (varTypeHas_term rec v memo (fun d m _ => H d m)) as K.
  destruct (varTypeHasBigInt rec v memo) as [[[|] m]|]; [discriminate|apply IH|contradiction].
Qed.

Lemma structHas_term ts n : forall vis t memo, In t ts -> NoDup vis -> incl vis (map t_name ts) ->
  length ts < n + length vis -> structHas n ts vis t memo <> None.
Proof.
  induction n as [|n IH]; intros vis t memo Ht Hnd Hin Hl.
  - pose proof (NoDup_incl_length Hnd Hin) as K. rewrite map_length in K. lia.
  - cbn [structHas]. destruct (negb _); [discriminate|]. destruct (assoc _ memo); [discriminate|].
    destruct (str_in (t_name t) vis) eqn:Ev; [discriminate|].
    apply scanFields_term. intros d m. destruct (getType ts d) as [t'|] eqn:Et; [|discriminate].
    apply getType_In in Et as [Et _]. apply IH.
    + assumption.
    + constructor; [|assumption]. intro K. apply str_in_In in K. congruence.
    + intros x [<-|Hx]; [now apply in_map|now apply Hin].
    + cbn [length]. lia.
Qed.

Lemma structHas_top ts t memo : In t ts -> structHas (S (length ts)) ts [] t memo <> None.
Proof.
  intro H. apply structHas_term; [assumption|constructor|now intros x []|cbn; lia].
Qed.

Lemma structByName_term ts d memo : structByName ts d memo <> None.
Proof.
  unfold structByName. destruct (getType ts d) eqn:E; [|discriminate]. apply getType_In in E as [E _]. now apply structHas_top.
Qed.

Lemma anyM_term {A} (f : A -> memoT -> option (bool * memoT)) l : (forall x m, In x l -> f x m <> None) ->
  forall memo, anyM f l memo <> None.
Proof.
  induction l as [|x r IH]; intros H memo; cbn [anyM]; [discriminate|].
  pose proof (H x memo (or_introl eq_refl)) as K.
  destruct (f x memo) as [[[|] m]|]; [discriminate| |contradiction]. apply IH. intros; apply H; now right.
Qed.

Lemma argHas_term ts a memo : argHas ts a memo <> None.
Proof. unfold argHas. destruct (g_type a); [|discriminate]. apply varTypeHas_term. intros; apply structByName_term. Qed.

Lemma methodHas_term ts m memo : methodHas ts m memo <> None.
Proof.
  unfold methodHas. pose proof (anyM_term (argHas ts) (me_inputs m) (fun x m' _ => argHas_term ts x m') memo) as K.
  destruct (anyM (argHas ts) (me_inputs m) memo) as [[[|] m1]|]; [discriminate| |contradiction].
  apply anyM_term. intros; apply argHas_term.
Qed.

Lemma uses_term s : schemaUsesBigInts s <> None.
Proof.
  unfold schemaUsesBigInts.
  match goal with |- match ?f with _ => _ end <> _ => assert (K : f <> None); [|destruct f as [[[|] m]|]] end.
  - apply anyM_term. intros t m Ht. destruct (String.eqb _ _); [now apply structHas_top|discriminate].
  - discriminate.
  - match goal with |- option_map _ ?f <> _ => assert (K' : f <> None); [|destruct f; [discriminate|contradiction]] end.
    apply anyM_term. intros v m' _. apply anyM_term. intros; apply methodHas_term.
  - contradiction.
Qed.

Lemma foldM_term {A B} (f : A -> B -> option B) l : (forall x b, In x l -> f x b <> None) -> forall b, foldM f l b <> None.
Proof.
  induction l as [|x r IH]; intros H b; cbn [foldM]; [discriminate|].
  pose proof (H x b (or_introl eq_refl)). destruct (f x b); [|contradiction]. apply IH. intros; apply H; now right.
Qed.

Lemma collect_term ts l : forall memo, collect ts l memo <> None.
Proof.
  induction l as [|[n [v|]] r IH]; intro memo; cbn [collect]; [discriminate| |apply IH].
  pose proof (varTypeHas_term (structByName2 ts) v memo) as K. rewrite (bigEntry_has _ n) in K.
  destruct (bigEntry (structByName2 ts) n v memo) as [[e m]|].
  - pose proof (IH m). destruct (collect ts r m) as [[es m']|]; [discriminate|contradiction].
  - exfalso. apply K; [|reflexivity]. intros. rewrite structByName2_eq. apply structByName_term.
Qed.

Lemma store_term ts n l st : store ts n l st <> None.
Proof.
  unfold store. pose proof (collect_term ts l (snd st)). destruct (collect ts l (snd st)) as [[[|] m]|]; congruence.
Qed.

(** ** correctness of the scan *)

Lemma assoc_mapSet {A} k (v : A) m x : assoc x (mapSet k v m) = if String.eqb x k then Some v else assoc x m.
Proof.
  induction m as [|[k' w] r IH]; cbn [mapSet assoc].
  - reflexivity.
  - destruct (String.eqb_spec k k') as [->|N]; cbn [assoc].
    + destruct (String.eqb_spec x k'); reflexivity.
    + rewrite IH. destruct (String.eqb_spec x k') as [->|]; [|reflexivity].
      destruct (String.eqb_spec k' k); congruence.
Qed.

Definition Clear ts (Q : string -> Prop) d := forall v, FieldType ts d v -> ~ Direct v /\ forall d', Nests v d' -> Q d'.
Definition Inv ts Q (memo : memoT) :=
  forall d b, assoc d memo = Some b -> if b then HasBigint ts d else Clear ts Q d.
Definition HasV ts v := Direct v \/ exists d, Nests v d /\ HasBigint ts d.
Definition ClearV (Q : string -> Prop) v := ~ Direct v /\ forall d, Nests v d -> Q d.

Lemma FieldType_of ts t v : NamesOk ts -> In t ts -> t_kind t = "struct" ->
  FieldType ts (t_name t) v <-> exists f, In f (t_fields t) /\ f_type f = Some v.
Proof.
  intros HN Ht Hk. split.
  - intros (t' & f & H1 & H2 & H3 & H4 & H5). assert (t' = t) by (eapply unique_type; eassumption). subst. eauto.
  - intros (f & H1 & H2). exists t, f. auto.
Qed.

Lemma varTypeHas_spec ts (Q : string -> Prop) (I : memoT -> Prop) rec v memo b memo' :
  OkV ts v -> I memo ->
  (forall d m b m', Nests v d -> I m -> rec d m = Some (b, m') ->
     I m' /\ (b = true -> HasBigint ts d) /\ (b = false -> Q d)) ->
  varTypeHasBigInt rec v memo = Some (b, memo') ->
  I memo' /\ (b = true -> HasV ts v) /\ (b = false -> ClearV Q v).
Proof.
  intros (O1 & O2 & _) HI Hr H. unfold varTypeHasBigInt in H.
  destruct (foldBigint (vt_expr v)) eqn:Ef.
  { injection H as <- <-. split; [assumption|]. split; [|discriminate]. intros _. left. left. now apply O1. }
  assert (NB : ~ IsBigint v) by (intro K; apply O1 in K; congruence). clear O1 Ef.
  assert (Hother : (forall x, vt_shape v <> ShList x) -> (forall n d, vt_shape v <> ShStruct n d) ->
     Some (false, memo) = Some (b, memo') -> I memo' /\ (b = true -> HasV ts v) /\ (b = false -> ClearV Q v)).
  { intros N1 N2 E. injection E as <- <-. split; [assumption|]. split; [discriminate|]. intros _. split.
    - intros [K|(x & K & _)]; [contradiction|]. exact (N1 x K).
    - intros d [(n & K)|(x & K & _)]; [destruct (N2 _ _ K)|destruct (N1 _ K)]. }
  destruct (vt_shape v) as [|c|x|k w|n d|n d|n d] eqn:E; try (apply Hother; [intros; discriminate|intros; discriminate|assumption]).
  - assert (EL : forall y, ListOf v y -> y = x) by (unfold ListOf; intros; congruence).
    assert (ES : forall d, ~ IsStruct v d) by (intros d (n & K); congruence).
    destruct (foldBigint (vt_expr x)) eqn:Ef.
    { injection H as <- <-. split; [assumption|]. split; [|discriminate]. intros _. left. right. exists x.
      split; [exact E|]. now apply (O2 x E). }
    assert (NB' : ~ IsBigint x) by (intro K; apply (O2 x E) in K; congruence).
    assert (ND : ~ Direct v) by (intros [K|(y & K1 & K2)]; [contradiction|rewrite (EL y K1) in K2; contradiction]).
    destruct (vt_shape x) as [|c|y|k w|n d|n d|n d] eqn:Ex;
      try (injection H as <- <-; split; [assumption|]; split; [discriminate|]; intros _; split; [exact ND|];
           intros d0 [K|(y0 & K1 & K2)]; [destruct (ES _ K)|rewrite (EL y0 K1) in K2; destruct K2 as [n0 K2]; congruence]).
    assert (HNst : Nests v d) by (right; exists x; split; [exact E|]; exists n; exact Ex).
    destruct (Hr d memo b memo' HNst HI H) as (R1 & R2 & R3). split; [assumption|]. split.
    + intro Eb. right. exists d. auto.
    + intro Eb. split; [exact ND|]. intros d0 [K|(y0 & K1 & K2)]; [destruct (ES _ K)|].
      rewrite (EL y0 K1) in K2. destruct K2 as [n0 K2]. assert (d0 = d) by congruence. subst. auto.
  - assert (EL : forall y, ~ ListOf v y) by (unfold ListOf; intros; congruence).
    assert (HNst : Nests v d) by (left; exists n; exact E).
    destruct (Hr d memo b memo' HNst HI H) as (R1 & R2 & R3). split; [assumption|]. split.
    + intro Eb. right. exists d. auto.
    + intro Eb. split; [intros [K|(y & K & _)]; [contradiction|destruct (EL y K)]|].
      intros d0 [(n0 & K)|(y & K & _)]; [|destruct (EL y K)]. assert (d0 = d) by congruence. subst. auto.
Qed.

Lemma scanFields_spec ts (Q : string -> Prop) (I : memoT -> Prop) rec name fs :
  (forall f v, In f fs -> f_type f = Some v -> OkV ts v) ->
  (forall f v d m b m', In f fs -> f_type f = Some v -> Nests v d -> I m -> rec d m = Some (b, m') ->
     I m' /\ (b = true -> HasBigint ts d) /\ (b = false -> Q d)) ->
  forall memo b memo', I memo -> scanFields rec name fs memo = Some (b, memo') ->
  (b = true -> exists f v, In f fs /\ f_type f = Some v /\ HasV ts v) /\
  (b = false -> forall f v, In f fs -> f_type f = Some v -> ClearV Q v) /\
  exists m1, I m1 /\ memo' = mapSet name b m1.
Proof.
  induction fs as [|f r IH]; intros Ho Hr memo b memo' HI H; cbn [scanFields] in H.
  - injection H as <- <-. split; [discriminate|]. split; [now intros|]. eauto.
  - assert (IH' : forall memo b memo', I memo -> scanFields rec name r memo = Some (b, memo') ->
      (b = true -> exists f v, In f r /\ f_type f = Some v /\ HasV ts v) /\
      (b = false -> forall f v, In f r -> f_type f = Some v -> ClearV Q v) /\
      exists m1, I m1 /\ memo' = mapSet name b m1).
    { apply IH; [intros; eapply Ho; [right|]; eassumption|intros; eapply Hr; [right| | | |]; eassumption]. }
    destruct (f_type f) as [v|] eqn:Ev.
    + destruct (varTypeHasBigInt rec v memo) as [[[|] m]|] eqn:Eh; [| |discriminate];
      destruct (varTypeHas_spec ts Q I rec v memo _ m (Ho f v (or_introl eq_refl) Ev) HI
        (fun d m b m' => Hr f v d m b m' (or_introl eq_refl) Ev) Eh) as (R1 & R2 & R3).
      * injection H as <- <-. split; [|split; [discriminate|eauto]]. intros _. exists f, v. split; [now left|]. auto.
      * destruct (IH' m b memo' R1 H) as (S1 & S2 & S3). split; [|split; [|exact S3]].
        -- intro Eb. destruct (S1 Eb) as (f' & v' & F1 & F2 & F3). exists f', v'. split; [now right|]. auto.
        -- intros Eb f' v' [<-|Hf'] Hv'; [|eauto]. assert (v' = v) by congruence. subst. auto.
    + destruct (IH' memo b memo' HI H) as (S1 & S2 & S3). split; [|split; [|exact S3]].
      * intro Eb. destruct (S1 Eb) as (f' & v' & F1 & F2 & F3). exists f', v'. split; [now right|]. auto.
      * intros Eb f' v' [<-|Hf'] Hv'; [congruence|eauto].
Qed.

Lemma NestedIn_snoc ts d a v b : NestedIn ts d a -> FieldType ts a v -> Nests v b -> NestedIn ts d b.
Proof.
  intro H. induction H as [d v0 d' H1 H2|d v0 d' d'' H1 H2 H3 IH]; intros F N.
  - apply NI_cons with v0 d'; [assumption|assumption|]. now apply NI_one with v.
  - apply NI_cons with v0 d'; auto.
Qed.

Lemma HasV_field ts d v : FieldType ts d v -> HasV ts v -> HasBigint ts d.
Proof. intros F [D|(d' & N & H)]; [now apply HB_direct with v|now apply HB_nested with v d']. Qed.

Lemma Nests_type ts v d : OkV ts v -> Nests v d -> exists t, In t ts /\ t_name t = d /\ t_kind t = "struct".
Proof.
  intros (_ & _ & G) N. destruct v as [e sh]. destruct N as [(n & E)|(x & E & n & E2)]; cbn in E.
  - subst sh. exact G.
  - unfold ListOf in E. cbn in E. subst sh. destruct x as [e' sh']. cbn in E2. subst sh'. exact G.
Qed.

Lemma structHas_spec ts Q : WellB ts -> (forall d, Clear ts Q d -> Q d) ->
  forall n vis t memo b memo',
  In t ts -> t_kind t = "struct" -> Inv ts Q memo ->
  (forall d, Q d) \/ ((forall d, ~ NestedIn ts d d) /\ forall d, In d vis -> NestedIn ts d (t_name t)) ->
  structHas n ts vis t memo = Some (b, memo') ->
  Inv ts Q memo' /\ (b = true -> HasBigint ts (t_name t)) /\ (b = false -> Q (t_name t)) /\
  (b = false -> ~ In (t_name t) vis -> Clear ts Q (t_name t)).
Proof.
  intros WB Hcl. assert (HN := wb_names ts WB).
  induction n as [|n IH]; [discriminate|]. intros vis t memo b memo' Ht Hk HI Hv H. cbn [structHas] in H.
  rewrite Hk in H. cbn [negb String.eqb Ascii.eqb Bool.eqb] in H.
  destruct (assoc (t_name t) memo) as [b0|] eqn:Em.
  { injection H as <- <-. split; [assumption|]. specialize (HI _ _ Em). destruct b0; cbn iota in HI.
    - split; [now intros _|]. split; intro; discriminate.
    - split; [intro; discriminate|]. split; [intros _; now apply Hcl|now intros _ _]. }
  destruct (str_in (t_name t) vis) eqn:Ev.
  { injection H as <- <-. apply str_in_In in Ev. split; [assumption|]. split; [discriminate|]. split; [|contradiction].
    intros _. destruct Hv as [Hv|[Ha Hv]]; [auto|]. destruct (Ha _ (Hv _ Ev)). }
  assert (HF : forall f v, In f (t_fields t) -> f_type f = Some v -> FieldType ts (t_name t) v).
  { intros f v Hf Hfv. apply FieldType_of; eauto. }
  apply (scanFields_spec ts Q (Inv ts Q)) in H; [|intros; eapply wb_fields; eauto| |assumption].
  - destruct H as (S1 & S2 & m1 & S3 & ->).
    assert (HT : b = true -> HasBigint ts (t_name t)).
    { intro Eb. destruct (S1 Eb) as (f & v & F1 & F2 & F3). eapply HasV_field; eauto. }
    assert (HC : b = false -> Clear ts Q (t_name t)).
    { intros Eb v F. apply FieldType_of in F as (f & F1 & F2); [|assumption..]. exact (S2 Eb f v F1 F2). }
    split; [|auto]. intros d b' Ed. rewrite assoc_mapSet in Ed. destruct (String.eqb_spec d (t_name t)) as [->|].
    + injection Ed as <-. destruct b; auto.
    + exact (S3 _ _ Ed).
  - intros f v d m b' m' Hf Hfv HNst HI' Hr.
    destruct (Nests_type ts v d (wb_fields ts WB _ _ (HF f v Hf Hfv)) HNst) as (t' & Ht' & Hn' & Hk').
    destruct (names_resolve ts t' HN Ht') as [U _]. rewrite Hn' in U. rewrite U in Hr.
    apply IH in Hr; [|assumption|assumption|assumption|].
    + rewrite Hn' in Hr. destruct Hr as (R1 & R2 & R3 & _). auto.
    + destruct Hv as [Hv|[Ha Hv]]; [now left|right]. split; [assumption|]. rewrite Hn'. intros d0 [<-|Hd0].
      * apply NI_one with v; eauto.
      * eapply NestedIn_snoc; eauto.
Qed.

Definition Mode ts (Q : string -> Prop) := (forall d, Clear ts Q d -> Q d) /\ ((forall d, Q d) \/ forall d, ~ NestedIn ts d d).

Lemma top_spec ts Q t memo b memo' : WellB ts -> Mode ts Q -> In t ts -> t_kind t = "struct" -> Inv ts Q memo ->
  structHas (S (length ts)) ts [] t memo = Some (b, memo') ->
  Inv ts Q memo' /\ (b = true -> HasBigint ts (t_name t)) /\ (b = false -> Q (t_name t)) /\ (b = false -> Clear ts Q (t_name t)).
Proof.
  intros WB [M1 M2] Ht Hk HI H. apply (structHas_spec ts Q) in H; try assumption.
  - destruct H as (R1 & R2 & R3 & R4). repeat split; auto; now apply R4.
  - destruct M2 as [M2|M2]; [now left|right]. split; [assumption|]. now intros d [].
Qed.

Lemma byName_spec ts Q d memo b memo' : WellB ts -> Mode ts Q ->
  (exists t, In t ts /\ t_name t = d /\ t_kind t = "struct") -> Inv ts Q memo ->
  structByName ts d memo = Some (b, memo') ->
  Inv ts Q memo' /\ (b = true -> HasBigint ts d) /\ (b = false -> Q d).
Proof.
  intros WB M (t & Ht & <- & Hk) HI H. unfold structByName in H.
  destruct (names_resolve ts t (wb_names ts WB) Ht) as [U _]. rewrite U in H.
  apply (top_spec ts Q) in H; tauto.
Qed.

Lemma varType_top ts Q v memo b memo' : WellB ts -> Mode ts Q -> OkV ts v -> Inv ts Q memo ->
  varTypeHasBigInt (structByName ts) v memo = Some (b, memo') ->
  Inv ts Q memo' /\ (b = true -> HasV ts v) /\ (b = false -> ClearV Q v).
Proof.
  intros WB M O HI H. eapply varTypeHas_spec; [exact O|exact HI| |exact H].
  intros d m b0 m0 N HI0 Hr. eapply byName_spec; eauto. eapply Nests_type; eauto.
Qed.

Lemma anyM_spec {A} (I : memoT -> Prop) (f : A -> memoT -> option (bool * memoT)) (P N : A -> Prop) l :
  (forall x m b m', In x l -> I m -> f x m = Some (b, m') -> I m' /\ (b = true -> P x) /\ (b = false -> N x)) ->
  forall memo b memo', I memo -> anyM f l memo = Some (b, memo') ->
  I memo' /\ (b = true -> exists x, In x l /\ P x) /\ (b = false -> forall x, In x l -> N x).
Proof.
  induction l as [|x r IH]; intros H memo b memo' HI E; cbn [anyM] in E.
  - injection E as <- <-. split; [assumption|]. split; [discriminate|now intros].
  - destruct (f x memo) as [[[|] m]|] eqn:Ef; [| |discriminate];
      destruct (H x memo _ m (or_introl eq_refl) HI Ef) as (R1 & R2 & R3).
    + injection E as <- <-. split; [assumption|]. split; [|discriminate]. intros _. exists x. split; [now left|auto].
    + destruct (IH (fun x m b m' Hx => H x m b m' (or_intror Hx)) m b memo' R1 E) as (S1 & S2 & S3).
      split; [assumption|]. split.
      * intro Eb. destruct (S2 Eb) as (y & Y1 & Y2). exists y. split; [now right|assumption].
      * intros Eb y [<-|Hy]; auto.
Qed.

Lemma HasBigint_direct ts d : HasBigint ts d -> exists d' v, FieldType ts d' v /\ Direct v.
Proof. induction 1 as [v F D|v d' F N _ IH]; [eauto|assumption]. Qed.

Lemma Inv_nil ts Q : Inv ts Q [].
Proof. intros d b H. discriminate. Qed.

Lemma Mode_weak ts : Mode ts (fun _ => True).
Proof. split; [auto|now left]. Qed.

Lemma Mode_acyclic ts : (forall d, ~ NestedIn ts d d) -> Mode ts (fun d => ~ HasBigint ts d).
Proof.
  intro H. split; [|now right]. intros d C [v F D|v d' F N K].
  - destruct (C v F) as [C1 _]. contradiction.
  - destruct (C v F) as [_ C2]. exact (C2 d' N K).
Qed.

Lemma uses_spec s : Accepted s -> NoTypeNamedBigint s -> forall b, schemaUsesBigInts s = Some b ->
  b = true <-> ((exists d v, FieldType (sc_types s) d v /\ Direct v) \/
                (exists v, ArgumentType s (fun _ => True) v /\ Direct v)).
Proof.
  intros HA HB b H. pose proof (accepted_WellB s HA HB) as WB. pose proof (Mode_weak (sc_types s)) as M.
  set (ts := sc_types s) in *. unfold schemaUsesBigInts in H. fold ts in H.
  match type of H with match ?f with _ => _ end = _ => destruct f as [[b1 m1]|] eqn:E1 end; [|discriminate].
  apply (anyM_spec (Inv ts (fun _ => True)) _
    (fun t => t_kind t = "struct" /\ HasBigint ts (t_name t)) (fun t => t_kind t = "struct" -> Clear ts (fun _ => True) (t_name t))) in E1.
  - destruct E1 as (I1 & T1 & F1). destruct b1.
    + injection H as <-. split; [|reflexivity]. intros _. left. destruct (T1 eq_refl) as (t & _ & _ & K).
      eapply HasBigint_direct; eassumption.
    + match type of H with option_map _ ?f = _ => destruct f as [[b2 m2]|] eqn:E2 end; [|discriminate].
      injection H as H. cbn [fst] in H. subst b2.
      apply (anyM_spec (Inv ts (fun _ => True)) _
        (fun w => exists v, HasV ts v /\ exists m a, In m (v_methods w) /\ In a (me_inputs m ++ me_outputs m) /\ g_type a = Some v)
        (fun w => forall m a v, In m (v_methods w) -> In a (me_inputs m ++ me_outputs m) -> g_type a = Some v -> ClearV (fun _ => True) v)) in E2.
      * destruct E2 as (_ & T2 & F2). split.
        -- intro Eb. destruct (T2 Eb) as (w & Hw & v & [D|(d & _ & K)] & m & a & Hm & Ha & Hv).
           ++ right. exists v. split; [|assumption]. exists w, m, a. auto.
           ++ left. eapply HasBigint_direct; eassumption.
        -- intro K. destruct b; [reflexivity|exfalso]. destruct K as [(d & v & F & D)|(v & (w & m & a & Hw & _ & Hm & Ha & Hv) & D)].
           ++ destruct F as (t & f & Ht & Hk & <- & Hf & Hv). destruct (F1 eq_refl t Ht Hk v) as [C _]; [|contradiction].
              exists t, f. auto.
           ++ destruct (F2 eq_refl w Hw m a v Hm Ha Hv) as [C _]. contradiction.
      * intros w m b0 m' Hw HI Hm'.
        apply (anyM_spec (Inv ts (fun _ => True)) _
          (fun mm => exists v, HasV ts v /\ exists a, In a (me_inputs mm ++ me_outputs mm) /\ g_type a = Some v)
          (fun mm => forall a v, In a (me_inputs mm ++ me_outputs mm) -> g_type a = Some v -> ClearV (fun _ => True) v)) in Hm'.
        -- destruct Hm' as (R1 & R2 & R3). split; [assumption|]. split.
           ++ intro Eb. destruct (R2 Eb) as (mm & Hmm & v & Hv & a & Ha & Hav). exists v. split; [assumption|]. eauto.
           ++ intros Eb mm a v Hmm. exact (R3 Eb mm Hmm a v).
        -- intros mm m0 b1 m1' Hmm HI0 Hmh. unfold methodHas in Hmh.
           assert (HAr : forall args, incl args (me_inputs mm ++ me_outputs mm) -> forall m0 b1 m1, Inv ts (fun _ => True) m0 ->
              anyM (argHas ts) args m0 = Some (b1, m1) -> Inv ts (fun _ => True) m1 /\
              (b1 = true -> exists a, In a args /\ exists v, g_type a = Some v /\ HasV ts v) /\
              (b1 = false -> forall a, In a args -> forall v, g_type a = Some v -> ClearV (fun _ => True) v)).
           { clear -WB M HA HB Hw Hmm. intros args Hin. apply anyM_spec. intros a m b m' Ha HI E. unfold argHas in E.
             destruct (g_type a) as [v|] eqn:Ev.
             - eapply varType_top in E; [|exact WB|exact M| |exact HI].
               + destruct E as (R1 & R2 & R3). split; [assumption|]. split; [eauto|]. intros Eb v' Ev'. assert (v' = v) by congruence. subst. auto.
               + apply (accepted_OkV_arg s (fun _ => True)); [exact HA|exact HB|]. exists w, mm, a. specialize (Hin a Ha). repeat split; auto.
             - injection E as <- <-. split; [assumption|]. split; [discriminate|]. intros _ v Hv; discriminate. }
           destruct (anyM (argHas ts) (me_inputs mm) m0) as [[b2 m2']|] eqn:Ei; [|discriminate].
           apply HAr in Ei; [|apply incl_appl, incl_refl|assumption]. destruct Ei as (R1 & R2 & R3). destruct b2.
           ++ injection Hmh as <- <-. split; [assumption|]. split; [|discriminate]. intros _.
              destruct (R2 eq_refl) as (a & Ha & v & Hv & Hh). exists v. split; [assumption|]. exists a. split; [|assumption]. apply in_or_app; now left.
           ++ apply HAr in Hmh; [|apply incl_appr, incl_refl|assumption]. destruct Hmh as (S1 & S2 & S3). split; [assumption|]. split.
              ** intro Eb. destruct (S2 Eb) as (a & Ha & v & Hv & Hh). exists v. split; [assumption|]. exists a. split; [|assumption]. apply in_or_app; now right.
              ** intros Eb a v Ha Hv. apply in_app_or in Ha as [Ha|Ha]; [exact (R3 eq_refl a Ha v Hv)|exact (S3 Eb a Ha v Hv)].
        -- assumption.
      * assumption.
  - intros t m b0 m' Ht HI E. destruct (String.eqb_spec (t_kind t) "struct") as [Hk|Hk].
    + apply (top_spec ts (fun _ => True)) in E; try assumption. destruct E as (R1 & R2 & _ & R4). auto.
    + injection E as <- <-. split; [assumption|]. split; [discriminate|]. intros; contradiction.
  - apply Inv_nil.
Qed.
