(** decodeType with the table of the schema. *)
From Verif Require Import Base BaseProofs Json GoVal BigSpec
  Schema TypeSpec TypeProofs ValidateSpec ValidateProofs FilterSpec FilterProofs BigInt BigIntSpec BigIntProofs BigIntTable Props_BigInt TsBig TsBigSpec TsBigProofs.

Lemma Parsed_names ts e v : Parsed ts e v -> forall n d, vt_shape v = ShStruct n d -> n = d /\ In d (map t_name ts).
Proof.
  intros P n d S. inversion P; subst; cbn in S; try discriminate. injection S as <- <-.
  match goal with H : getType _ _ = Some _ |- _ => apply getType_In in H; destruct H as [I E] end. split; [symmetry; exact E|apply in_map, I].
Qed.
Lemma Parsed_list_names ts e v : Parsed ts e v -> forall y n d, ListOf v y -> vt_shape y = ShStruct n d -> n = d /\ In d (map t_name ts).
Proof.
  intros P y n d L S. unfold ListOf in L. inversion P; subst; cbn in L; try discriminate. injection L as <-. eapply Parsed_names; eassumption.
Qed.
Lemma Parsed_struct_names ts e v : Parsed ts e v -> forall n d, vt_shape v = ShStruct n d \/ (exists y, ListOf v y /\ vt_shape y = ShStruct n d) ->
  n = d /\ In d (map t_name ts).
Proof. intros P n d [S|(y & L & S)]; [eapply Parsed_names|eapply Parsed_list_names]; eassumption. Qed.

(** ** a definition whose nested structs are decoded *)

Lemma decode_fields ts tbl n k fs es (D : string -> varType -> Prop) l l' :
  assoc k tbl = Some es -> Entries ts fs es ->
  NoDup (map fst fs) -> (forall name v, In (name, Some v) fs -> PlainName name) ->
  (forall name v, D name v -> Contains ts v -> In (name, Some v) fs /\ exists e, EntryOf ts name v e) ->
  (forall name v v', In (name, Some v) fs -> Contains ts v -> D name v /\ (D name v' -> v' = v)) ->
  (forall name v m d, In (name, Some v) fs -> vt_shape v = ShStruct m d \/ (exists y, ListOf v y /\ vt_shape y = ShStruct m d) ->
     PlainName m /\ m = d) ->
  (forall w d j x, vt_shape w = ShStruct d d -> HasBigint ts d -> Means ts w j x -> sdepth (ofJson j) < n ->
     decodeFuel n tbl d (ofJson j) = Ok x) ->
  NoDup (map fst l) -> MeansMembers ts D l l' -> sdepth (ofJson (JObj l)) < S n ->
  decodeFuel (S n) tbl k (ofJson (JObj l)) = Ok (SObj l').
Proof.
  intros HT HE Nf PN HD1 HD2 PT HR Nl HM HS. rewrite ofJson_obj in * by exact Nl. cbn [decodeFuel]. rewrite HT.
  assert (NE : NoDup (map fieldOf es)) by exact (Entries_fields ts fs es HE PN Nf).
  apply decode_members; [exact NE| |].
  { rewrite map_map. cbn. exact Nl. }
  apply members_pointwise in HM.
  assert (HI : forall a, In a l -> sdepth (ofJson (snd a)) < n).
  { intros a Ha. pose proof (sdepth_member (fst a) (ofJson (snd a)) (map ofMember l) (in_map ofMember l a Ha)). lia. }
  assert (G : forall l0 l0', (forall a, In a l0 -> In a l) ->
    Forall2 (fun a b => fst a = fst b /\ ((exists v, D (fst a) v /\ Means ts v (snd a) (snd b)) \/ (forall v, ~ D (fst a) v) /\ snd b = ofJson (snd a))) l0 l0' ->
    Forall2 (Became (decodeFuel n tbl) es) (map ofMember l0) l0').
  { clear HM l'. intros l0 l0' Hsub F. induction F as [|[a j] [b x] r r' (E & H) F IH]; cbn [map]; constructor.
    2:{ apply IH. intros c Hc. apply Hsub. right. exact Hc. }
    cbn in E, H. subst b. unfold ofMember. cbn [fst snd]. split; [reflexivity|]. cbn [fst snd].
    assert (Hj : sdepth (ofJson j) < n) by exact (HI (a, j) (Hsub _ (or_introl eq_refl))).
    split.
    - intros e Ie Fe. apply (Entries_In ts fs es HE) in Ie. destruct Ie as (name & v & If & Ev).
      rewrite (EntryOf_field ts name v e) in Fe by (try exact Ev; exact (PN _ _ If)). subst name.
      pose proof (EntryOf_contains _ _ _ _ Ev) as C. destruct H as [(w & Dw & M)|(NDc & _)].
      + destruct (HD2 a v w If C) as [_ K]. rewrite (K Dw) in M. apply (effect_right ts (decodeFuel n tbl) a v e j x (PN _ _ If) Ev); [intros m d Hm; exact (PT a v m d If Hm)| |exact M].
        intros w' d j' x' S B M' L. apply (HR w' d j' x' S B M'). lia.
      + exfalso. destruct (HD2 a v v If C) as [K _]. exact (NDc v K).
    - intros NoE. destruct H as [(w & Dw & M)|(_ & ->)]; [|reflexivity]. symmetry. apply (Means_plain ts w); [exact M|]. intros C.
      destruct (HD1 a w Dw C) as (If & e & Ev). apply (NoE e); [apply (Entries_In ts fs es HE); eauto|].
      exact (EntryOf_field ts a w e (PN _ _ If) Ev). }
  apply G; auto.
Qed.

Lemma members_ext ts (D D' : string -> varType -> Prop) l l' : (forall k v, D k v <-> D' k v) -> MeansMembers ts D l l' -> MeansMembers ts D' l l'.
Proof.
  intros H M. revert D' H. induction M as [D|D k v j x r r' HD HM M IH|D k j r r' HN M IH]; intros D' H.
  - constructor.
  - apply (MM_declared ts D' k v); [apply H; exact HD|exact HM|exact (IH D' H)].
  - apply MM_other; [|exact (IH D' H)]. intros v K. apply (HN v), H, K.
Qed.

Lemma members_plain ts D l l' : MeansMembers ts D l l' -> (forall k v, D k v -> ~ Contains ts v) -> l' = map ofMember l.
Proof.
  induction 1 as [D|D k v j x r r' HD HM M IH|D k j r r' HN M IH]; intros H; [reflexivity| |]; cbn [map]; rewrite IH by exact H; [|reflexivity].
  unfold ofMember at 2. cbn. rewrite (Means_plain ts v j x HM (H k v HD)). reflexivity.
Qed.

Lemma identifier_plain s : Identifier s -> PlainName s.
Proof.
  intros (c & r & -> & L & F) b E. assert (K : exists p, r = (p ++ "]")%string).
  { destruct b as [|c' b]; cbn in E; injection E as -> E; [exists EmptyString; exact E|]. exists (b ++ "[")%string. rewrite sapp_assoc. exact E. }
  destruct K as (p & ->). rewrite Forall_forall in F. assert (I : ident_char "]").
  { apply F. clear. induction p as [|a p IH]; [left; reflexivity|]. right. exact IH. }
  destruct I as [[[I J]|[I J]]|[[I J]|I]]; [| | |discriminate I]; vm_compute in I, J; first [apply I; reflexivity|apply J; reflexivity].
Qed.

Lemma NoDup_fun {A B} (l : list (A * B)) k a b : NoDup (map fst l) -> In (k, a) l -> In (k, b) l -> a = b.
Proof.
  induction l as [|[k' c] r IH]; [intros _ []|]. cbn. intros N [E|I] [F|J].
  - congruence.
  - injection E as -> ->. apply NoDup_cons_iff in N. exfalso. apply (proj1 N). exact (in_map fst _ _ J).
  - injection F as -> ->. apply NoDup_cons_iff in N. exfalso. apply (proj1 N). exact (in_map fst _ _ I).
  - apply NoDup_cons_iff in N. exact (IH (proj2 N) I J).
Qed.
Lemma NoDup_map_inj {A B} (f : A -> B) l a b : NoDup (map f l) -> In a l -> In b l -> f a = f b -> a = b.
Proof.
  induction l as [|c r IH]; [intros _ []|]. cbn. intros N [->|I] [->|J] E; [reflexivity| | |].
  - apply NoDup_cons_iff in N. exfalso. apply (proj1 N). rewrite E. apply in_map, J.
  - apply NoDup_cons_iff in N. exfalso. apply (proj1 N). rewrite <- E. apply in_map, I.
  - apply NoDup_cons_iff in N. exact (IH (proj2 N) I J E).
Qed.
Lemma NoDup_of_image {A B C} (f : A -> B) (g : B -> C) l : NoDup (map (fun x => g (f x)) l) -> NoDup (map f l).
Proof. intros H. apply (NoDup_map_inv g). rewrite map_map. exact H. Qed.

Definition structDef (t : type) : string * list (string * option varType) := (t_name t, map (fun f => (f_name f, f_type f)) (t_fields t)).
Definition argDef (l : list arg) : list (string * option varType) := map (fun a => (g_name a, g_type a)) l.

Lemma defs_cases s req resp k fs : In (k, fs) (Definitions req resp s) <->
  (exists t, In t (sc_types s) /\ t_kind t = "struct" /\ (k, fs) = structDef t) \/
  (exists m args, In m (flat_map v_methods (sc_services s)) /\ me_succinct m = false /\ fs = argDef args /\
     (k = (me_name m ++ req)%string /\ args = me_inputs m \/ k = (me_name m ++ resp)%string /\ args = me_outputs m)).
Proof.
  unfold Definitions. rewrite in_app_iff, in_map_iff, in_flat_map. split.
  - intros [(t & E & H)|(m & H & K)]; [left|right].
    + apply filter_In in H. destruct H as [H1 H2]. exists t. apply String.eqb_eq in H2. auto.
    + apply filter_In in H. destruct H as [H1 H2]. apply negb_true_iff in H2. destruct K as [K|[K|[]]]; injection K as <- <-; exists m; eexists; eauto 10.
  - intros [(t & H1 & H2 & E)|(m & args & H1 & H2 & -> & K)]; [left|right].
    + exists t. split; [symmetry; exact E|]. apply filter_In. split; [exact H1|]. apply String.eqb_eq, H2.
    + exists m. split; [apply filter_In; split; [exact H1|]; apply negb_true_iff, H2|]. destruct K as [[-> ->]|[-> ->]]; cbn; auto.
Qed.

Lemma member_def s req resp k name v : MemberOf s req resp k name v <->
  Declares (sc_types s) k name v \/
  exists m args, In m (flat_map v_methods (sc_services s)) /\ me_succinct m = false /\ In (name, Some v) (argDef args) /\
     (k = (me_name m ++ req)%string /\ args = me_inputs m \/ k = (me_name m ++ resp)%string /\ args = me_outputs m).
Proof.
  unfold MemberOf. split; (intros [H|H]; [left; exact H|right]).
  - destruct H as (m & a & H1 & H2 & H3 & H4 & [[H5 H6]|[H5 H6]]); exists m; eexists; (split; [exact H1|split; [exact H2|split; [|eauto]]]);
    apply in_map_iff; exists a; rewrite H3, H4; auto.
  - destruct H as (m & args & H1 & H2 & H3 & H4). apply in_map_iff in H3. destruct H3 as (a & E & I). injection E as E1 E2. exists m, a.
    repeat (split; [assumption|]). destruct H4 as [[-> ->]|[-> ->]]; auto.
Qed.

Lemma cross s compat (HS : Setting s compat) k t m args : In t (sc_types s) -> t_kind t = "struct" -> t_name t = k ->
  In m (flat_map v_methods (sc_services s)) -> me_succinct m = false ->
  (k = (me_name m ++ (requestSuffix compat))%string /\ args = me_inputs m \/ k = (me_name m ++ (responseSuffix compat))%string /\ args = me_outputs m) -> False.
Proof.
  intros H1 H2 H3 H4 H5 H6. pose proof (se_distinct _ _ HS) as N. unfold Definitions in N. rewrite map_app in N.
  assert (IA : In k (map fst (map (fun t => (t_name t, map (fun f => (f_name f, f_type f)) (t_fields t))) (filter isStruct (sc_types s))))).
  { rewrite map_map. cbn. rewrite <- H3. apply (in_map t_name). apply filter_In. split; [exact H1|apply String.eqb_eq, H2]. }
  match type of N with NoDup (?a ++ ?b) => assert (IB : In k b) end.
  { apply in_map_iff. exists (k, argDef args). split; [reflexivity|]. apply in_flat_map. exists m. split.
    - apply filter_In. split; [exact H4|]. apply negb_true_iff, H5.
    - destruct H6 as [[-> ->]|[-> ->]]; cbn; auto. }
  apply in_split in IA. destruct IA as (a1 & a2 & EA). rewrite EA in N. rewrite <- app_assoc in N. cbn in N. apply NoDup_remove_2 in N.
  apply N, in_or_app. right. apply in_or_app. right. exact IB.
Qed.

Lemma declares_member s compat (HS : Setting s compat) d name v : (exists t, In t (sc_types s) /\ t_kind t = "struct" /\ t_name t = d) -> (Declares (sc_types s) d name v <-> MemberOf s (requestSuffix compat) (responseSuffix compat) d name v).
Proof.
  intros (t & H1 & H2 & H3). rewrite member_def. split; [intro H; left; exact H|]. intros [H|(m & args & H4 & H5 & _ & H6)]; [exact H|].
  exfalso. exact (cross s compat HS d t m args H1 H2 H3 H4 H5 H6).
Qed.

Lemma struct_fields s compat (HS : Setting s compat) t : In t (sc_types s) -> t_kind t = "struct" -> FieldsOk (t_fields t).
Proof.
  intros Ht Hk. destruct (se_acc _ _ HS) as (_ & R & _ & _). destruct R as [_ _ V3 _ _ _ _]. rewrite Forall_forall in V3.
  destruct (V3 t Ht) as (_ & _ & [(E & _)|[(_ & H & _)|(E & _)]]); [congruence|exact H|congruence].
Qed.

Lemma def_names s compat (HS : Setting s compat) k fs : In (k, fs) (Definitions (requestSuffix compat) (responseSuffix compat) s) -> NoDup (map fst fs) /\ forall name v, In (name, Some v) fs -> PlainName name.
Proof.
  rewrite defs_cases. intros [(t & Ht & Hk & E)|(m & args & Hm & Hsu & -> & K)].
  - injection E as -> ->. destruct (struct_fields s compat HS t Ht Hk) as (F1 & F2 & _). split.
    + rewrite map_map. cbn. exact (NoDup_of_image f_name to_lower _ F2).
    + intros name v I. apply in_map_iff in I. destruct I as (f & E & If). injection E as <- _. apply identifier_plain. rewrite Forall_forall in F1. auto.
  - destruct (se_args _ _ HS m Hm) as [A1 A2]. unfold argDef. rewrite map_map. cbn. split.
    + destruct K as [[_ ->]|[_ ->]]; assumption.
    + intros name v I. apply in_map_iff in I. destruct I as (a & E & Ia). injection E as <- _. apply (proj2 (se_plain _ _ HS) m a Hm).
      apply in_or_app. destruct K as [[_ ->]|[_ ->]]; auto.
Qed.

Lemma member_in s compat (HS : Setting s compat) k fs name v : In (k, fs) (Definitions (requestSuffix compat) (responseSuffix compat) s) -> MemberOf s (requestSuffix compat) (responseSuffix compat) k name v -> Contains (sc_types s) v -> In (name, Some v) fs.
Proof.
  intros Hk HM HC. apply member_def in HM. destruct HM as [(t & f & H1 & H2 & H3 & H4 & H5 & H6)|(m & args & H1 & H2 & H3 & H4)].
  - rewrite (NoDup_fun (Definitions (requestSuffix compat) (responseSuffix compat) s) k fs (map (fun f => (f_name f, f_type f)) (t_fields t)) (se_distinct _ _ HS) Hk).
    + apply in_map_iff. exists f. split; [|exact H4]. rewrite H6, <- (se_renamed _ _ HS t f v H1 H2 H4 H6 HC), H5. reflexivity.
    + apply defs_cases. left. exists t. unfold structDef. rewrite H3. auto.
  - rewrite (NoDup_fun (Definitions (requestSuffix compat) (responseSuffix compat) s) k fs (argDef args) (se_distinct _ _ HS) Hk); [exact H3|]. apply defs_cases. right. exists m, args. auto.
Qed.

Lemma field_covered s compat (HS : Setting s compat) d v : FieldType (sc_types s) d v -> Covered (sc_types s) v.
Proof.
  intros (t & f & H1 & H2 & H3 & H4 & H5). apply (se_covered _ _ HS (requestSuffix compat) (responseSuffix compat) d (json_key f) v). left. exists t, f. auto 8.
Qed.

Lemma covered_entry s compat (HS : Setting s compat) name v : Covered (sc_types s) v -> Contains (sc_types s) v -> exists e, EntryOf (sc_types s) name v e.
Proof.
  intros HC C. pose proof (contains_nested (sc_types s) (field_covered s compat HS) v C) as K.
  destruct (HC C) as [[B|(x & L & B)]|(d & N)].
  - eexists. now apply EO_scalar.
  - eexists. exact (EO_list (sc_types s) name v x L B).
  - pose proof (K d N) as H. destruct N as [(n & S)|(x & L & (n & S))]; eexists; [exact (EO_struct (sc_types s) name v n d S H)|exact (EO_listStruct (sc_types s) name v x n d L S H)].
Qed.

Lemma member_unique s compat (HS : Setting s compat) k fs name v v' : In (k, fs) (Definitions (requestSuffix compat) (responseSuffix compat) s) -> In (name, Some v) fs -> Contains (sc_types s) v ->
  MemberOf s (requestSuffix compat) (responseSuffix compat) k name v /\ (MemberOf s (requestSuffix compat) (responseSuffix compat) k name v' -> v' = v).
Proof.
  intros Hk Hn HC. pose proof (proj1 (def_names s compat HS k fs Hk)) as ND. pose proof Hk as Hk0. apply defs_cases in Hk.
  destruct Hk as [(t & Ht & Hs & E)|(m & args & Hm & Hsu & -> & K)].
  - injection E as -> ->. apply in_map_iff in Hn. destruct Hn as (f & E & If). injection E as <- E.
    pose proof (se_renamed _ _ HS t f v Ht Hs If E HC) as R. split.
    + left. exists t, f. auto 8.
    + intros HM. apply (declares_member s compat HS) in HM; [|exists t; auto]. destruct HM as (t' & f' & H1 & H2 & H3 & H4 & H5 & H6).
      assert (t' = t) by (apply (unique_type (sc_types s)); try assumption; now apply accepted_names, (se_acc _ _ HS)). subst t'.
      destruct (struct_fields s compat HS t Ht Hs) as (_ & _ & F3 & _). apply NoDup_of_image in F3.
      assert (f' = f) by (apply (NoDup_map_inj json_key (t_fields t)); auto; congruence). subst f'. congruence.
  - split.
    + apply member_def. right. exists m, args. auto.
    + intros HM. apply member_def in HM. destruct HM as [(t & f & H1 & H2 & H3 & _)|(m' & args' & H1 & H2 & H3 & H4)].
      * exfalso. exact (cross s compat HS k t m args H1 H2 H3 Hm Hsu K).
      * assert (EA : argDef args = argDef args').
        { apply (NoDup_fun (Definitions (requestSuffix compat) (responseSuffix compat) s) k); [exact (se_distinct _ _ HS)|exact Hk0|]. apply defs_cases. right. exists m', args'. auto. }
        rewrite <- EA in H3. pose proof (NoDup_fun (argDef args) name (Some v) (Some v') ND Hn H3). congruence.
Qed.

Lemma def_parsed s compat (HS : Setting s compat) k fs name v : In (k, fs) (Definitions (requestSuffix compat) (responseSuffix compat) s) -> In (name, Some v) fs -> exists e, Parsed (sc_types s) e v.
Proof.
  intros Hk Hn. apply defs_cases in Hk. destruct Hk as [(t & Ht & Hs & E)|(m & args & Hm & Hsu & -> & K)].
  - injection E as -> ->. apply in_map_iff in Hn. destruct Hn as (f & E & If). injection E as <- E.
    destruct (accepted_field s t f (se_acc _ _ HS) Ht Hs If) as (v' & y & E1 & _ & P). exists (vt_expr v'). congruence.
  - apply in_map_iff in Hn. destruct Hn as (a & E & Ia). injection E as <- E. apply in_flat_map in Hm. destruct Hm as (w & Hw & Hm).
    destruct (accepted_arg s w m a (se_acc _ _ HS) Hw Hm) as (v' & y & E1 & _ & P).
    { apply in_or_app. destruct K as [[_ ->]|[_ ->]]; auto. }
    exists (vt_expr v'). congruence.
Qed.

Lemma entries_exist s compat (HS : Setting s compat) k fs : In (k, fs) (Definitions (requestSuffix compat) (responseSuffix compat) s) -> exists es, Entries (sc_types s) fs es.
Proof.
  intros Hk. pose proof (collect_term (sc_types s) fs []) as T. destruct (collect (sc_types s) fs []) as [[es m]|] eqn:C; [|contradiction].
  apply (collect_spec (sc_types s) (fun d => ~ HasBigint (sc_types s) d)) in C.
  - exists es. destruct C as [_ C]. apply (Entries_exact (sc_types s) fs es C). reflexivity.
  - apply accepted_WellB; [exact (se_acc _ _ HS)|exact (se_named _ _ HS)].
  - apply Mode_acyclic, (se_acyclic _ _ HS).
  - intros n v. apply (Definitions_ok s compat (se_acc _ _ HS) (se_named _ _ HS) k fs n v Hk).
  - apply Inv_nil.
Qed.

Lemma decode_def s compat (HS : Setting s compat) tbl (HT : forall k l, assoc k tbl = Some l <-> l <> [] /\ exists fs, In (k, fs) (Definitions (requestSuffix compat) (responseSuffix compat) s) /\ Entries (sc_types s) fs l) :
  forall n k fs l l', In (k, fs) (Definitions (requestSuffix compat) (responseSuffix compat) s) -> NoDup (map fst l) -> MeansMembers (sc_types s) (MemberOf s (requestSuffix compat) (responseSuffix compat) k) l l' ->
  sdepth (ofJson (JObj l)) < n -> decodeFuel n tbl k (ofJson (JObj l)) = Ok (SObj l').
Proof.
  induction n as [|n IH]; intros k fs l l' Hk Nl HM HD; [lia|].
  destruct (entries_exist s compat HS k fs Hk) as (es & HE). destruct es as [|e es].
  - assert (P : l' = map ofMember l).
    { apply (members_plain (sc_types s) (MemberOf s (requestSuffix compat) (responseSuffix compat) k)); [exact HM|]. intros name v HM' C.
      pose proof (member_in s compat HS k fs name v Hk HM' C) as I. destruct (covered_entry s compat HS name v (se_covered _ _ HS _ _ _ _ _ HM') C) as (e & Ev).
      apply (proj2 (Entries_In (sc_types s) fs [] HE e)). eauto. }
    rewrite P, (ofJson_obj l Nl). cbn [decodeFuel]. destruct (assoc k tbl) as [l0|] eqn:A; [|reflexivity]. apply HT in A.
    destruct A as (NE & fs' & Hk' & HE'). rewrite (NoDup_fun (Definitions (requestSuffix compat) (responseSuffix compat) s) k fs' fs (se_distinct _ _ HS) Hk' Hk) in HE'.
    exfalso. destruct l0 as [|e0 l0]; [congruence|]. pose proof (proj1 (Entries_In (sc_types s) fs _ HE' e0) (or_introl eq_refl)) as X.
    exact (proj2 (Entries_In (sc_types s) fs [] HE e0) X).
  - destruct (def_names s compat HS k fs Hk) as [ND PN].
    apply (decode_fields (sc_types s) tbl n k fs (e :: es) (MemberOf s (requestSuffix compat) (responseSuffix compat) k)); try assumption.
    + apply HT. split; [discriminate|]. exists fs. auto.
    + intros name v HM' C. split; [exact (member_in s compat HS k fs name v Hk HM' C)|]. exact (covered_entry s compat HS name v (se_covered _ _ HS _ _ _ _ _ HM') C).
    + intros name v v' I C. exact (member_unique s compat HS k fs name v v' Hk I C).
    + intros name v m d I Hs. destruct (def_parsed s compat HS k fs name v Hk I) as (x & P). destruct (Parsed_struct_names (sc_types s) x v P m d Hs) as [-> K].
      split; [|reflexivity]. apply in_map_iff in K. destruct K as (t & <- & It). exact (proj1 (se_plain _ _ HS) t It).
    + intros w d j x S B M L. inversion M; subst; unfold IsBigint, ListOf, Atomic in *; try congruence.
      * cbn. destruct n; [lia|reflexivity].
      * rewrite S in *. contradiction.
      * match goal with H : vt_shape w = ShStruct ?a ?b |- _ => rewrite S in H; injection H as <- <- end.
        assert (X : exists t, In t (sc_types s) /\ t_kind t = "struct" /\ t_name t = d).
        { clear - B. destruct B as [v F _|v d1 F _ _]; destruct F as (t & f & Y1 & Y2 & Y3 & _); exists t; auto. }
        destruct X as (t & X1 & X2 & X3). apply (IH d (map (fun f => (f_name f, f_type f)) (t_fields t))); [|assumption| |assumption].
        -- apply defs_cases. left. exists t. unfold structDef. rewrite X3. auto.
        -- eapply members_ext; [|eassumption]. intros name v. apply declares_member; [exact HS|]. exists t. auto.
Qed.
