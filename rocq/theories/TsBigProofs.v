(** The BigInt helpers of generated TypeScript code: what they make of an answer. *)
From Verif Require Import Base BaseProofs Utf8 Utf8Proofs Json JsonProofs GoVal GoValSpec GoValProofs BigSpec GoBig GoBigProofs
  Schema TypeSpec TypeProofs ValidateSpec ValidateProofs FilterSpec FilterProofs BigInt BigIntSpec BigIntProofs BigIntTable Props_BigInt TsBig TsBigSpec.

(** ** BigInt(s) *)

Definition plainByte (c : ascii) : bool := is_digit_byte c || (N_of_byte c =? 43)%N || (N_of_byte c =? 45)%N.

Lemma decimal_plain s z : Decimal s z -> sforall plainByte s = true.
Proof.
  assert (K : forall t, allDigits t = true -> sforall plainByte t = true).
  { unfold allDigits. intro t. induction t as [|c t IH]; [reflexivity|]. cbn [sforall]. rewrite !andb_true_iff. intros [A B]. unfold plainByte. rewrite A. auto. }
  intros [d n D|d n D|d n D]; apply DigitsOf_sval in D; destruct D as (A & _); cbn [append sforall]; rewrite (K _ A); reflexivity.
Qed.

Lemma plainByte_range c : plainByte c = true -> (43 <= N_of_byte c <= 57)%N.
Proof. unfold plainByte, is_digit_byte, in_range. rewrite !orb_true_iff, andb_true_iff, !N.leb_le, !N.eqb_eq. lia. Qed.

Lemma plain_trim s : sforall plainByte s = true -> jsTrim s = s.
Proof.
  intros H. unfold jsTrim.
  assert (A : is_ascii s = true).
  { unfold is_ascii. induction s as [|c s IH]; [reflexivity|]. cbn [sforall] in *. apply andb_true_iff in H. destruct H as [H1 H2].
    apply plainByte_range in H1. rewrite (IH H2), andb_true_r. apply N.ltb_lt. lia. }
  rewrite (decode_ascii s A).
  assert (P : forall c, In c (runes_of s) -> jsSpace c = false).
  { clear A. induction s as [|c s IH]; [intros c []|]. cbn [sforall] in H. apply andb_true_iff in H. destruct H as [H1 H2].
    intros r [<-|Hr]; [|exact (IH H2 r Hr)]. apply plainByte_range in H1. unfold jsSpace, in_range.
    repeat match goal with |- context [(?a <=? ?b)%N] => destruct (N.leb_spec a b); try lia end;
    repeat match goal with |- context [(?a =? ?b)%N] => destruct (N.eqb_spec a b); try lia end; reflexivity. }
  assert (D : forall l, (forall c, In c l -> jsSpace c = false) -> dropSpace l = l).
  { intros [|c l] Hl; [reflexivity|]. cbn. rewrite (Hl c (or_introl eq_refl)). reflexivity. }
  rewrite (D _ P), D, rev_involutive; [apply encode_runes_of; exact A|].
  intros c Hc. apply P, in_rev, Hc.
Qed.

Lemma jsBigInt_decimal s z : Decimal s z -> jsBigInt s = Some z.
Proof.
  intros D. unfold jsBigInt. rewrite plain_trim by exact (decimal_plain _ _ D).
  pose proof (decimal_plain _ _ D) as P. apply setString10_iff in D. destruct s as [|c0 [|c1 r]]; [discriminate D|exact D|].
  cbn [sforall] in P. rewrite !andb_true_iff in P. destruct P as (_ & P & _). apply plainByte_range in P.
  replace ((N_of_byte c1 =? 120)%N || (N_of_byte c1 =? 88)%N) with false by (symmetry; rewrite orb_false_iff, !N.eqb_neq; lia).
  replace ((N_of_byte c1 =? 111)%N || (N_of_byte c1 =? 79)%N) with false by (symmetry; rewrite orb_false_iff, !N.eqb_neq; lia).
  replace ((N_of_byte c1 =? 98)%N || (N_of_byte c1 =? 66)%N) with false by (symmetry; rewrite orb_false_iff, !N.eqb_neq; lia).
  cbv zeta. rewrite !andb_false_r. exact D.
Qed.

(** ** objects *)

Lemma objSet_same k x l : lookup k l = Some x -> objSet k x l = l.
Proof.
  induction l as [|[k' v'] r IH]; [discriminate|]. cbn. destruct (String.eqb_spec k k') as [->|]; [intros [= ->]; reflexivity|].
  intros H. rewrite IH by exact H. reflexivity.
Qed.
Lemma objSet_new k v l : ~ In k (map fst l) -> objSet k v l = l ++ [(k, v)].
Proof.
  induction l as [|[k' v'] r IH]; [reflexivity|]. cbn. intros H. destruct (String.eqb_spec k k') as [->|]; [exfalso; auto|].
  rewrite IH by auto. reflexivity.
Qed.

Definition ofMember (e : string * json) : string * jsv := (fst e, ofJson (snd e)).

Lemma ofJson_obj l : NoDup (map fst l) -> ofJson (JObj l) = SObj (map ofMember l).
Proof.
  intros N. cbn [ofJson]. f_equal.
  assert (K : forall l acc, NoDup (map fst acc ++ map fst l) ->
    (fix go (l : list (string * json)) (acc : list (string * jsv)) := match l with [] => acc | (k, x) :: r => go r (objSet k (ofJson x) acc) end) l acc =
    acc ++ map ofMember l).
  { clear. induction l as [|[k x] r IH]; intros acc N; [symmetry; apply app_nil_r|]. cbn [map fst] in N. rewrite objSet_new.
    - rewrite IH; [rewrite <- app_assoc; reflexivity|]. rewrite map_app, <- app_assoc. exact N.
    - apply NoDup_remove_2 in N. intros H. apply N, in_or_app. left. exact H. }
  apply (K l []). exact N.
Qed.

(** ** one entry acts on one member *)

Definition fieldOf (e : entry) : string :=
  let n := match e with EName n => n | EPair n _ => n end in if has_suffix "[]" n then slice2 n else n.

Definition onItems (f : jsv -> result jsv) (x : jsv) : result jsv :=
  match x with SArr l => do l' <- mapM f l; Ok (SArr l') | _ => Ok x end.

Definition effect (rec : string -> jsv -> result jsv) (e : entry) (x : jsv) : result jsv :=
  match e with
  | EPair f t => if has_suffix "[]" f then onItems (rec t) x
                 else if truthy x then if has_suffix "[]" t then onItems (rec (slice2 t)) x else rec t x
                 else Ok x
  | EName n => if has_suffix "[]" n then onItems toBig x else match x with SStr _ => toBig x | _ => Ok x end
  end.

Lemma decodeEntry_effect rec e ms x : lookup (fieldOf e) ms = Some x ->
  decodeEntry rec (SObj ms) e = do y <- effect rec e x; Ok (SObj (objSet (fieldOf e) y ms)).
Proof.
  intros L. unfold decodeEntry, effect, fieldOf, onItems, objGet in *. destruct e as [n|f t].
  - destruct (has_suffix "[]" n); rewrite L.
    + destruct x; cbn [bind]; try (rewrite (objSet_same _ _ _ L); reflexivity). destruct (mapM toBig l); reflexivity.
    + destruct x; cbn [bind]; try (rewrite (objSet_same _ _ _ L); reflexivity). reflexivity.
  - destruct (has_suffix "[]" f); rewrite L.
    + destruct x; cbn [bind]; try (rewrite (objSet_same _ _ _ L); reflexivity). destruct (mapM (rec t) l); reflexivity.
    + destruct (truthy x); [|cbn [bind]; rewrite (objSet_same _ _ _ L); reflexivity].
      destruct (has_suffix "[]" t).
      * destruct x; cbn [bind]; try (rewrite (objSet_same _ _ _ L); reflexivity). destruct (mapM _ l); reflexivity.
      * reflexivity.
Qed.

Lemma decodeEntry_absent rec e ms : lookup (fieldOf e) ms = None -> decodeEntry rec (SObj ms) e = Ok (SObj ms).
Proof.
  intros L. unfold decodeEntry, fieldOf, objGet in *. destruct e as [n|f t].
  - destruct (has_suffix "[]" n); rewrite L; reflexivity.
  - destruct (has_suffix "[]" f); rewrite L; reflexivity.
Qed.

Definition Became (rec : string -> jsv -> result jsv) (es : list entry) (a b : string * jsv) : Prop :=
  fst a = fst b /\ (forall e, In e es -> fieldOf e = fst a -> effect rec e (snd a) = Ok (snd b)) /\
  ((forall e, In e es -> fieldOf e <> fst a) -> snd a = snd b).

Lemma lookup_split {A} k (l : list (string * A)) x : lookup k l = Some x -> exists a b, l = a ++ (k, x) :: b /\ ~ In k (map fst a).
Proof.
  induction l as [|[k' v'] r IH]; [discriminate|]. cbn. destruct (String.eqb_spec k k') as [->|N].
  - intros [= ->]. exists [], r. auto.
  - intros H. destruct (IH H) as (a & b & -> & Na). exists ((k', v') :: a), b. split; [reflexivity|]. cbn. intros [E|E]; [congruence|auto].
Qed.
Lemma lookup_notin {A} k (l : list (string * A)) : lookup k l = None -> ~ In k (map fst l).
Proof.
  induction l as [|[k' v'] r IH]; [auto|]. cbn. destruct (String.eqb_spec k k') as [->|N]; [discriminate|]. intros H [E|E]; [congruence|exact (IH H E)].
Qed.
Lemma objSet_at k x y a b : ~ In k (map fst a) -> objSet k y (a ++ (k, x) :: b) = a ++ (k, y) :: b.
Proof.
  induction a as [|[k' v'] a IH]; cbn; intros N; [rewrite String.eqb_refl; reflexivity|].
  destruct (String.eqb_spec k k') as [->|]; [exfalso; auto|]. rewrite IH by auto. reflexivity.
Qed.

Lemma Became_weaken rec e es : forall a b, fieldOf e <> fst a -> Became rec (e :: es) a b -> Became rec es a b.
Proof.
  intros a b N (H1 & H2 & H3). split; [exact H1|]. split; [intros e' I; apply H2; right; exact I|].
  intros H. apply H3. intros e' [<-|I]; [exact N|exact (H e' I)].
Qed.

Lemma decode_members rec es : NoDup (map fieldOf es) -> forall ms ms', NoDup (map fst ms) -> Forall2 (Became rec es) ms ms' ->
  Base.foldM (decodeEntry rec) es (SObj ms) = Ok (SObj ms').
Proof.
  induction es as [|e es IH]; intros Ne ms ms' Nm F.
  - cbn. do 2 f_equal. clear Ne Nm. induction F as [|[k x] [k' x'] r r' (A & _ & B) F IHF]; [reflexivity|]. cbn in A, B.
    rewrite IHF, A, B; [reflexivity|intros e []].
  - cbn [Base.foldM]. cbn [map] in Ne. apply NoDup_cons_iff in Ne. destruct Ne as [Ni Ne]. destruct (lookup (fieldOf e) ms) as [x|] eqn:L.
    + rewrite (decodeEntry_effect rec e ms x L). apply lookup_split in L. destruct L as (a & b & -> & Na).
      apply Forall2_app_inv_l in F. destruct F as (a' & b' & Fa & Fb & ->). inversion Fb as [|? [k y] ? b'' (A & B & C) Fb' E1 E2]; subst.
      cbn in A, B, C. subst k. rewrite (B e (or_introl eq_refl) eq_refl). cbn [bind]. rewrite objSet_at by exact Na.
      rewrite map_app in Nm. cbn [map fst] in Nm. pose proof (NoDup_remove_2 _ _ _ Nm) as Nk. apply IH; [exact Ne| |].
      * rewrite map_app. exact Nm.
      * assert (W : forall l l', (forall z, In z (map fst l) -> z <> fieldOf e) -> Forall2 (Became rec (e :: es)) l l' -> Forall2 (Became rec es) l l').
        { intros l l' Hl. induction 1 as [|p q r r' Hpq Hr IHr]; constructor.
          - apply (Became_weaken rec e); [|exact Hpq]. intros E. apply (Hl (fst p)); [left; reflexivity|auto].
          - apply IHr. intros z Hz. apply Hl. right. exact Hz. }
        apply Forall2_app; [|constructor].
        -- apply W; [|exact Fa]. intros z Hz ->. contradiction.
        -- split; [reflexivity|]. split; [|reflexivity]. intros e' I E. cbn in E. exfalso. apply Ni. rewrite <- E. apply in_map, I.
        -- apply W; [|exact Fb']. intros z Hz ->. apply Nk, in_or_app. right. exact Hz.
    + rewrite decodeEntry_absent by exact L. cbn [bind]. apply lookup_notin in L. apply IH; [exact Ne|exact Nm|].
      clear -F L. induction F as [|p q r r' H F IHF]; constructor.
      * apply (Became_weaken rec e); [|exact H]. intros E. apply L. left. symmetry. exact E.
      * apply IHF. intros K. apply L. right. exact K.
Qed.

(** ** depth *)

Lemma sdepth_member k x ms : In (k, x) ms -> sdepth x < sdepth (SObj ms).
Proof.
  cbn [sdepth]. induction ms as [|[k' x'] r IH]; [intros []|]. intros [[= -> ->]|H]; [lia|]. specialize (IH H). cbn in *. lia.
Qed.
Lemma sdepth_item x l : In x l -> sdepth x < sdepth (SArr l).
Proof. cbn [sdepth]. induction l as [|x' r IH]; [intros []|]. intros [->|H]; [lia|]. specialize (IH H). cbn in *. lia. Qed.

(** ** the meaning of types *)

Scheme Means_mut := Minimality for Means Sort Prop
  with MeansList_mut := Minimality for MeansList Sort Prop
  with MeansMembers_mut := Minimality for MeansMembers Sort Prop.

Lemma members_names ts D l l' : MeansMembers ts D l l' -> map fst l' = map fst l.
Proof. induction 1; cbn; congruence. Qed.

Lemma Means_plain ts v j x : Means ts v j x -> ~ Contains ts v -> x = ofJson j.
Proof.
  intros H.
  refine (Means_mut ts (fun v j x => ~ Contains ts v -> x = ofJson j)
    (fun v l l' => ~ Contains ts v -> l' = map ofJson l)
    (fun D l l' => (forall k v, D k v -> ~ Contains ts v) -> l' = map ofMember l) _ _ _ _ _ _ _ _ _ _ _ _ v j x H); clear.
  - intros v d z Hb _ N. exfalso. apply N. now constructor.
  - reflexivity.
  - reflexivity.
  - intros v n d w j x S A _ IH N. apply IH. intros C. apply N. exact (C_alias ts v n d w S A C).
  - intros v e l l' L _ IH N. cbn [ofJson]. rewrite IH; [reflexivity|]. intros C. apply N. exact (C_list ts v e L C).
  - intros v k e l l' S ND _ IH N. rewrite ofJson_obj by exact ND. rewrite IH; [reflexivity|]. intros _ w -> C. apply N. exact (C_map ts v k e S C).
  - intros v n d l l' S ND _ IH N. rewrite ofJson_obj by exact ND. rewrite IH; [reflexivity|].
    intros k w (t & f & I1 & I2 & I3 & I4 & _ & I5) C. apply N. apply (C_struct ts v n d w S); [|exact C]. exists t, f. auto.
  - reflexivity.
  - intros v j x r r' _ IH1 _ IH2 N. cbn. rewrite IH1, IH2 by exact N. reflexivity.
  - reflexivity.
  - intros D k v j x r r' HD _ IH1 _ IH2 N. cbn. unfold ofMember at 1. cbn. rewrite IH1 by exact (N k v HD). rewrite IH2 by exact N. reflexivity.
  - intros D k j r r' _ _ IH N. cbn. rewrite IH by exact N. reflexivity.
Qed.

Lemma members_pointwise ts D l l' : MeansMembers ts D l l' ->
  Forall2 (fun a b => fst a = fst b /\ ((exists v, D (fst a) v /\ Means ts v (snd a) (snd b)) \/ (forall v, ~ D (fst a) v) /\ snd b = ofJson (snd a))) l l'.
Proof. induction 1; constructor; cbn; eauto 6. Qed.

Lemma list_pointwise ts v l l' : MeansList ts v l l' -> Forall2 (Means ts v) l l'.
Proof. induction 1; constructor; auto. Qed.

(** ** bigints inside structs *)

Lemma contains_nested ts : (forall d v, FieldType ts d v -> Covered ts v) -> forall v, Contains ts v -> forall d, Nests v d -> HasBigint ts d.
Proof.
  intros HC v H. induction H as [v B|v e L C IH|v k e S C IH|v n d w S A C IH|v n d w S F C IH]; intros d' N.
  - unfold IsBigint in B. destruct N as [(m & E)|(x & E & _)]; [|unfold ListOf in E]; congruence.
  - destruct N as [(m & E)|(x & E & N)]; unfold ListOf in *; [congruence|]. rewrite L in E. injection E as <-. apply IH. now left.
  - destruct N as [(m & E)|(x & E & _)]; [|unfold ListOf in E]; congruence.
  - destruct N as [(m & E)|(x & E & _)]; [|unfold ListOf in E]; congruence.
  - destruct N as [(m & E)|(x & E & _)]; [|unfold ListOf in E; congruence]. rewrite S in E. injection E as <- <-.
    destruct (HC d w F C) as [K|(d2 & K)]; [exact (HB_direct ts d w F K)|exact (HB_nested ts d w d2 F K (IH d2 K))].
Qed.

Lemma HasBigint_contains ts d : HasBigint ts d -> forall v n, vt_shape v = ShStruct n d -> Contains ts v.
Proof.
  induction 1 as [d w F [B|(x & L & B)]|d w d' F N _ IH]; intros v n S.
  - apply (C_struct ts v n d w S F). now constructor.
  - apply (C_struct ts v n d w S F). apply (C_list ts w x L). now constructor.
  - apply (C_struct ts v n d w S F). destruct N as [(m & E)|(x & L & (m & E))]; [exact (IH w m E)|exact (C_list ts w x L (IH x m E))].
Qed.

Lemma EntryOf_contains ts name v e : EntryOf ts name v e -> Contains ts v.
Proof.
  intros [B|x L B|n d S H|x n d L S H].
  - now constructor.
  - apply (C_list ts v x L). now constructor.
  - exact (HasBigint_contains ts d H v n S).
  - exact (C_list ts v x L (HasBigint_contains ts d H x n S)).
Qed.

Lemma EntryOf_fun ts name v e e' : EntryOf ts name v e -> EntryOf ts name v e' -> e = e'.
Proof.
  unfold IsBigint, ListOf in *. intros [B|x L B|n d S H|x n d L S H] [B'|x' L' B'|n' d' S' H'|x' n' d' L' S' H'];
  unfold IsBigint, ListOf in *; congruence.
Qed.

Lemma Entries_In ts fs es : Entries ts fs es -> forall e, In e es <-> exists name v, In (name, Some v) fs /\ EntryOf ts name v e.
Proof.
  induction 1 as [|name v e r es E H IH|name v r es N H IH|name r es H IH]; intro e'.
  - split; [intros []|intros (n & v & [] & _)].
  - cbn. rewrite IH. split.
    + intros [<-|(n & w & I & K)]; eauto 6.
    + intros (n & w & [[= <- <-]|I] & K); [left; eapply EntryOf_fun; eassumption|eauto 6].
  - rewrite IH. split.
    + intros (n & w & I & K). eauto 6 using in_cons.
    + intros (n & w & [[= <- <-]|I] & K); [exfalso; exact (N _ K)|eauto].
  - rewrite IH. split.
    + intros (n & w & I & K). eauto 6 using in_cons.
    + intros (n & w & [[=]|I] & K). eauto.
Qed.

Lemma slice2_app b : slice2 (b ++ "[]") = b.
Proof. unfold slice2. rewrite slength_app. cbn [String.length]. rewrite Nat.add_sub. apply BaseProofs.take_app. Qed.
Lemma plain_suffix n : PlainName n -> has_suffix "[]" n = false.
Proof. intros P. destruct (has_suffix "[]" n) eqn:E; [|reflexivity]. apply has_suffix_iff in E. destruct E as [r ->]. exfalso. exact (P r eq_refl). Qed.

Lemma EntryOf_field ts name v e : PlainName name -> EntryOf ts name v e -> fieldOf e = name.
Proof.
  intros P [B|x L B|n d S H|x n d L S H]; unfold fieldOf; try (rewrite (plain_suffix _ P); reflexivity).
  rewrite has_suffix_app, slice2_app. reflexivity.
Qed.

Lemma Entries_fields ts fs es : Entries ts fs es -> (forall name v, In (name, Some v) fs -> PlainName name) -> NoDup (map fst fs) -> NoDup (map fieldOf es).
Proof.
  induction 1 as [|name v e r es E H IH|name v r es N H IH|name r es H IH]; intros P ND; cbn [map fst] in *.
  - constructor.
  - apply NoDup_cons_iff in ND. destruct ND as [N1 N2]. constructor; [|apply IH; [|exact N2]; intros n w I; apply (P n w); right; exact I].
    rewrite (EntryOf_field ts name v e) by (try apply (P name v); auto; left; reflexivity).
    intros K. apply in_map_iff in K. destruct K as (e' & Ef & K). apply (Entries_In ts r es H) in K. destruct K as (n & w & I & K).
    rewrite (EntryOf_field ts n w e') in Ef by (try apply (P n w); auto; right; exact I). subst n. apply N1. exact (in_map fst _ _ I).
  - apply NoDup_cons_iff in ND. apply IH; [|apply ND]. intros n w I. apply (P n w). right. exact I.
  - apply NoDup_cons_iff in ND. apply IH; [|apply ND]. intros n w I. apply (P n w). right. exact I.
Qed.

(** ** one entry does what the type asks *)

Lemma mapM_items (rec : jsv -> result jsv) l l' : Forall2 (fun j x => rec (ofJson j) = Ok x) l l' -> mapM rec (map ofJson l) = Ok l'.
Proof. induction 1 as [|j x r r' H F IH]; [reflexivity|]. cbn. rewrite H, IH. reflexivity. Qed.

Lemma effect_right ts (rec : string -> jsv -> result jsv) name v e j x : PlainName name -> EntryOf ts name v e ->
  (forall n d, vt_shape v = ShStruct n d \/ (exists y, ListOf v y /\ vt_shape y = ShStruct n d) -> PlainName n /\ n = d) ->
  (forall w d j' x', vt_shape w = ShStruct d d -> HasBigint ts d -> Means ts w j' x' ->
     sdepth (ofJson j') <= sdepth (ofJson j) -> rec d (ofJson j') = Ok x') ->
  Means ts v j x -> effect rec e (ofJson j) = Ok x.
Proof.
  intros PN E PT HR M. destruct E as [B|y L B|n d S H|y n d L S H]; unfold effect.
  - rewrite (plain_suffix _ PN). unfold IsBigint in B. inversion M; subst; unfold ListOf, Atomic in *; try congruence; try reflexivity.
    + cbn [ofJson toBig]. erewrite jsBigInt_decimal by eassumption. reflexivity.
    + rewrite B in *. congruence.
  - rewrite has_suffix_app. unfold ListOf in L. unfold IsBigint in B. inversion M; subst; unfold ListOf, IsBigint, Atomic in *; try congruence; try reflexivity.
    + rewrite L in *. contradiction.
    + match goal with HL : vt_shape v = ShList e |- _ => rewrite L in HL; injection HL as <- end. cbn [ofJson onItems].
      match goal with HL : MeansList _ _ _ _ |- _ => apply list_pointwise in HL; rename HL into F end.
      rewrite (mapM_items toBig l l'); [reflexivity|]. clear -F B. induction F as [|a b r r' Hab F IH]; constructor; [|exact IH].
      inversion Hab; subst; unfold ListOf, IsBigint, Atomic in *; try congruence; try reflexivity.
      * cbn [ofJson toBig]. erewrite jsBigInt_decimal by eassumption. reflexivity.
      * rewrite B in *. congruence.
  - destruct (PT n d (or_introl S)) as [Pn ->]. rewrite (plain_suffix _ PN), (plain_suffix d) by exact Pn.
    destruct (truthy (ofJson j)) eqn:T; [apply (HR v d j x S H M); reflexivity|].
    inversion M; subst; unfold ListOf, IsBigint, Atomic in *; try congruence; try reflexivity; try discriminate T.
  - destruct (PT n d (or_intror (ex_intro _ y (conj L S)))) as [_ ->]. rewrite (plain_suffix _ PN), has_suffix_app, slice2_app. unfold ListOf in L.
    destruct (truthy (ofJson j)) eqn:T; [|inversion M; subst; unfold ListOf, IsBigint, Atomic in *; try congruence; try reflexivity; try discriminate T].
    inversion M; subst; unfold ListOf, IsBigint, Atomic in *; try congruence; try reflexivity.
    + rewrite L in *. contradiction.
    + match goal with HL : vt_shape v = ShList e |- _ => rewrite L in HL; injection HL as <- end. cbn [ofJson onItems].
      match goal with HL : MeansList _ _ _ _ |- _ => apply list_pointwise in HL; rename HL into F end.
      rewrite (mapM_items (rec d) l l'); [reflexivity|].
      assert (K : forall a, In a l -> sdepth (ofJson a) <= sdepth (SArr (map ofJson l))).
      { intros a Ha. apply Nat.lt_le_incl, sdepth_item, in_map, Ha. }
      cbn [ofJson] in HR. clear -F S H HR K. remember (SArr (map ofJson l)) as big. clear Heqbig.
      induction F as [|a b r r' Hab F IH]; constructor; [|apply IH; intros a' Ha'; apply K; right; exact Ha'].
      apply (HR y d a b S H Hab). apply K. left. reflexivity.
Qed.
