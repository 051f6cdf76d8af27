(** What TypeScript programs and Go programs write means what they hold. *)
From Verif Require Import Base BaseProofs Json JsonProofs GoVal GoValSpec GoValProofs BigSpec GoBigProofs
  Schema TypeSpec ValidateSpec BigInt BigIntSpec TsBig TsBigSpec TsBigProofs.

Lemma jsv_ind' (P : jsv -> Prop) : P SUndef -> P SNull -> (forall b, P (SBool b)) -> (forall l, P (SNum l)) -> (forall s, P (SStr s)) -> (forall z, P (SBig z)) ->
  (forall l, (forall x, In x l -> P x) -> P (SArr l)) -> (forall l, (forall k x, In (k, x) l -> P x) -> P (SObj l)) -> forall v, P v.
Proof.
  intros H1 H2 H3 H4 H5 H6 H7 H8. fix IH 1. intros [ | |b|l|s|z|l|l]; [exact H1|exact H2|apply H3|apply H4|apply H5|apply H6| |].
  - apply H7. induction l as [|x r IHl]; intros y Hy; [destruct Hy|]. destruct Hy as [<-|Hy]; [apply IH|exact (IHl y Hy)].
  - apply H8. induction l as [|[k x] r IHl]; intros k' y Hy; [destruct Hy|]. destruct Hy as [E|Hy]; [injection E as _ <-; apply IH|exact (IHl k' y Hy)].
Qed.

Fixpoint encodeMembers (l : list (string * jsv)) : list (string * json) :=
  match l with
  | [] => []
  | (k, x) :: r => match jsonEncode x with Some j => (k, j) :: encodeMembers r | None => encodeMembers r end
  end.
Lemma encode_obj l : jsonEncode (SObj l) = Some (JObj (encodeMembers l)).
Proof. reflexivity. Qed.
Fixpoint settledMembers (l : list (string * jsv)) : list (string * jsv) :=
  match l with [] => [] | (k, SUndef) :: r => settledMembers r | (k, x) :: r => (k, settled x) :: settledMembers r end.
Lemma settled_obj l : settled (SObj l) = SObj (settledMembers l).
Proof. cbn [settled]. f_equal. Qed.

Lemma encodeMembers_names l k : In k (map fst (encodeMembers l)) -> In k (map fst l).
Proof. induction l as [|[k' x] r IH]; [auto|]. cbn. destruct (jsonEncode x); cbn; intuition. Qed.
Lemma encodeMembers_NoDup l : NoDup (map fst l) -> NoDup (map fst (encodeMembers l)).
Proof.
  induction l as [|[k x] r IH]; [auto|]. cbn. intros N. apply NoDup_cons_iff in N. destruct N as [N1 N2]. destruct (jsonEncode x); [|exact (IH N2)].
  cbn. constructor; [|exact (IH N2)]. intros H. apply N1, encodeMembers_names, H.
Qed.

Lemma plain_encode x : Plain x -> exists j, jsonEncode x = Some j /\ ofJson j = x /\ settled x = x.
Proof.
  induction x as [ | |b|l|s|z|l IH|l IH] using jsv_ind'; intros P; inversion P as [ | | | |? H|? N H]; subst; try (eexists; split; [reflexivity|]; split; reflexivity).
  - cbn [jsonEncode]. eexists. split; [reflexivity|]. cbn [ofJson settled]. rewrite map_map. split; f_equal; rewrite <- (map_id l) at 2; apply map_ext_in; intros x Hx;
    destruct (IH x Hx (H x Hx)) as (j & E & O & S); [rewrite E; exact O|exact S].
  - rewrite encode_obj, settled_obj. eexists. split; [reflexivity|].
    rewrite ofJson_obj by (apply encodeMembers_NoDup; exact N).
    assert (K : map ofMember (encodeMembers l) = l /\ settledMembers l = l).
    { clear P N. induction l as [|[k x] r IHl]; [split; reflexivity|]. destruct (IHl (fun k0 x0 I => IH k0 x0 (or_intror I)) (fun k0 x0 I => H k0 x0 (or_intror I))) as [K1 K2].
      destruct (IH k x (or_introl eq_refl) (H k x (or_introl eq_refl))) as (j & E & O & S). cbn [encodeMembers settledMembers]. rewrite E. cbn [map]. unfold ofMember at 1. cbn [fst snd].
      rewrite K1, O. split; [reflexivity|]. destruct x; try discriminate E; rewrite S, K2; reflexivity. }
    destruct K as [-> ->]. split; reflexivity.
Qed.

Scheme Typed_mut := Minimality for Typed Sort Prop
  with TypedMembers_mut := Minimality for TypedMembers Sort Prop.

Lemma typed_not_undef ts v x : Typed ts v x -> x <> SUndef.
Proof. induction 1; try discriminate; [|assumption]. intros ->. match goal with H : Plain _ |- _ => inversion H end. Qed.

Lemma settled_cons k x r : x <> SUndef -> settledMembers ((k, x) :: r) = (k, settled x) :: settledMembers r.
Proof. intros N. destruct x; try reflexivity. congruence. Qed.

(** what JsonEncode writes means the value *)
Lemma typed_members_means ts D l : TypedMembers ts D l -> MeansMembers ts D (encodeMembers l) (settledMembers l).
Proof.
  intros H. refine (TypedMembers_mut ts (fun v x => exists j, jsonEncode x = Some j /\ Means ts v j (settled x))
     (fun D l => MeansMembers ts D (encodeMembers l) (settledMembers l)) _ _ _ _ _ _ _ _ _ _ _ D l H); clear.
  - intros v z B. exists (JStr (zdec z)). split; [reflexivity|]. constructor; [exact B|apply zdec_decimal].
  - intros v. exists JNull. split; [reflexivity|constructor].
  - intros v x A P. destruct (plain_encode x P) as (j & E & O & S). exists j. split; [exact E|]. rewrite S, <- O. now constructor.
  - intros v n d w x S A _ (j & E & M). exists j. split; [exact E|]. exact (M_alias ts v n d w j _ S A M).
  - intros v e l L _ IH. exists (JArr (map (fun x => match jsonEncode x with Some j => j | None => JNull end) l)). split; [reflexivity|]. cbn [settled]. apply (M_list ts v e _ _ L). clear L.
    induction l as [|x r IHl]; [constructor|]. cbn [map]. destruct (IH x (or_introl eq_refl)) as (j & E & M). rewrite E. constructor; [exact M|].
    apply IHl. intros y Hy. apply IH. right. exact Hy.
  - intros v k e l S N _ M. rewrite encode_obj, settled_obj. eexists. split; [reflexivity|]. apply (M_map ts v k e); [exact S|apply encodeMembers_NoDup, N|exact M].
  - intros v n d l S N _ M. rewrite encode_obj, settled_obj. eexists. split; [reflexivity|]. apply (M_struct ts v n d); [exact S|apply encodeMembers_NoDup, N|exact M].
  - constructor.
  - intros D k r _ M. exact M.
  - intros D k v x r HD HT (j & E & M) _ MM. rewrite settled_cons by exact (typed_not_undef _ _ _ HT). cbn [encodeMembers]. rewrite E. exact (MM_declared ts D k v j _ _ _ HD M MM).
  - intros D k x r HN P _ MM. destruct (plain_encode x P) as (j & E & O & S). rewrite settled_cons by (intros ->; inversion P).
    cbn [encodeMembers]. rewrite E, S, <- O. apply MM_other; assumption.
Qed.
Lemma typed_means ts v x : Typed ts v x -> exists j, jsonEncode x = Some j /\ Means ts v j (settled x).
Proof.
  intros H. assert (M : TypedMembers ts (fun _ w => w = v) [("", x)]) by (apply (TM_declared ts _ "" v x []); [reflexivity|exact H|constructor]).
  apply typed_members_means in M. cbn [encodeMembers] in M. rewrite settled_cons in M by exact (typed_not_undef _ _ _ H).
  destruct (jsonEncode x) as [j|]; [|inversion M]. exists j. split; [reflexivity|].
  inversion M as [|D k w j' x' r r' HD HM _|D k j' r r' HN _]; subst; [exact HM|exfalso; exact (HN v eq_refl)].
Qed.

(** ** Go *)

Scheme Shows_mut := Minimality for Shows Sort Prop
  with ShowsList_mut := Minimality for ShowsList Sort Prop
  with ShowsEntries_mut := Minimality for ShowsEntries Sort Prop
  with ShowsFields_mut := Minimality for ShowsFields Sort Prop.

Lemma Increasing_NoDup l : Increasing l -> NoDup l.
Proof.
  induction l as [|a r IH]; [constructor|]. intros [H I]. constructor; [|exact (IH I)]. intros K. specialize (H a K). unfold String.ltb in H.
  assert (R : forall s, String.compare s s = Eq).
  { induction s as [|c s IHs]; [reflexivity|]. cbn. unfold Ascii.compare. rewrite N.compare_refl. exact IHs. }
  rewrite R in H. discriminate.
Qed.

Lemma toJ_struct env n vs fs : lookup n env = Some fs -> toJ env (TRef n) (VPtr (Some (VStruct vs))) = option_map JObj (toFields env fs vs).
Proof.
  intros L. cbn [toJ]. rewrite L. f_equal. clear L. revert fs. induction vs as [|y vs IH]; intros [|f fs]; try reflexivity. cbn [toFields]. rewrite <- IH. reflexivity.
Qed.

Lemma fields_mean ts env D fs vs ms : ShowsFields ts env D fs vs ms ->
  NoDup (map gf_name fs) -> exists l, toFields env fs vs = Some l /\ NoDup (map fst l) /\ incl (map fst l) (map gf_name fs) /\ MeansMembers ts D l ms.
Proof.
  intros H. refine (ShowsFields_mut ts env (fun v ty g x => exists j, toJ env ty g = Some j /\ Means ts v j x)
    (fun v t l l' => exists js, toArr env t l = Some js /\ MeansList ts v js l')
    (fun v k t m ms => exists js, toMap env k t m = Some js /\ map fst js = map fst ms /\ MeansMembers ts (fun _ w => w = v) js ms)
    (fun D fs vs ms => NoDup (map gf_name fs) -> exists l, toFields env fs vs = Some l /\ NoDup (map fst l) /\ incl (map fst l) (map gf_name fs) /\ MeansMembers ts D l ms)
    _ _ _ _ _ _ _ _ _ _ _ _ _ _ _ _ _ _ D fs vs ms H); clear.
  - intros v z B. exists (JStr (zdec z)). split; [reflexivity|]. constructor; [exact B|apply zdec_decimal].
  - intros v ty g j A E _. exists j. split; [exact E|]. now constructor.
  - intros v t. exists JNull. split; [reflexivity|constructor].
  - intros v k t. exists JNull. split; [reflexivity|constructor].
  - intros v t. exists JNull. split; [reflexivity|constructor].
  - intros v n. exists JNull. split; [reflexivity|constructor].
  - intros v t g x _ (j & E & M). exists j. split; [exact E|exact M].
  - intros v n d w ty g x S A _ (j & E & M). exists j. split; [exact E|]. exact (M_alias ts v n d w j x S A M).
  - intros v e t l l' L _ (js & E & M). exists (JArr js). rewrite toJ_slice, E. split; [reflexivity|]. exact (M_list ts v e js l' L M).
  - intros v k0 e k t m ms S I _ (js & E & EN & M). exists (JObj js). rewrite toJ_map, E. cbn [option_map]. rewrite sortKeys_sorted by (rewrite EN; exact I).
    split; [reflexivity|]. apply (M_map ts v k0 e); [exact S|rewrite EN; apply Increasing_NoDup, I|exact M].
  - intros v n d gn fs vs ms S L ND _ IH. destruct (IH ND) as (l & E & N & _ & M). exists (JObj l). rewrite (toJ_struct env gn vs fs L), E. split; [reflexivity|].
    exact (M_struct ts v n d l ms S N M).
  - intros v t. exists []. split; [reflexivity|constructor].
  - intros v t g x r r' _ (j & E & M) _ (js & E' & M'). exists (j :: js). cbn [toArr]. rewrite E, E'. split; [reflexivity|constructor; assumption].
  - intros v k t. exists []. split; [reflexivity|]. split; [reflexivity|constructor].
  - intros v k t key n g x r r' K _ (j & E & M) _ (js & E' & EN & M'). exists ((n, j) :: js). cbn [toMap]. rewrite K, E, E'. split; [reflexivity|].
    split; [cbn; congruence|]. apply (MM_declared ts _ n v); auto.
  - intros D _. exists []. split; [reflexivity|]. split; [constructor|]. split; [intros x []|constructor].
  - intros D f g fs vs ms O Z _ IH N. cbn [map] in N. apply NoDup_cons_iff in N. destruct N as [_ N]. destruct (IH N) as (l & E & NL & I & M).
    exists l. cbn [toFields]. apply isEmptyValue_iff in Z. rewrite E, O, Z. split; [reflexivity|]. split; [exact NL|]. split; [|exact M]. intros x Hx. right. apply I, Hx.
  - intros D f g v x fs vs ms O HD _ (j & EJ & MJ) _ IH N. cbn [map] in N. apply NoDup_cons_iff in N. destruct N as [N1 N]. destruct (IH N) as (l & E & NL & I & M).
    exists ((gf_name f, j) :: l). cbn [toFields]. rewrite E, EJ. replace (gf_omit f && isEmptyValue g) with false by (rewrite <- isEmptyValue_iff, not_true_iff_false in O; destruct O as [-> | ->]; [|rewrite andb_false_r]; reflexivity).
    split; [reflexivity|]. split; [cbn; constructor; [|exact NL]; intros K; apply N1, I, K|]. split; [|exact (MM_declared ts D _ v j x l ms HD MJ M)].
    cbn. intros y [<-|Hy]; [left; reflexivity|right; apply I, Hy].
Qed.

(** ** both sides write the same JSON *)

Lemma encode_ofJson j : NoRepeats j -> jsonEncode (ofJson j) = Some j.
Proof.
  induction j as [ |b|l|s|l IH|l IH] using json_ind'; intros N; try reflexivity; inversion N as [| | | |? H|? ND H]; subst.
  - cbn [ofJson jsonEncode]. do 2 f_equal. rewrite map_map. rewrite <- (map_id l) at 2. apply map_ext_in. intros x Hx. rewrite (IH x Hx (H x Hx)). reflexivity.
  - rewrite ofJson_obj by exact ND. rewrite encode_obj. do 2 f_equal. clear ND N. induction l as [|[k x] r IHl]; [reflexivity|].
    cbn [map encodeMembers ofMember fst snd]. rewrite (IH k x (or_introl eq_refl) (H k x (or_introl eq_refl))). f_equal.
    apply IHl; [intros k' y Hy; exact (IH k' y (or_intror Hy))|intros k' y Hy; exact (H k' y (or_intror Hy))].
Qed.

Lemma fields_encode ts env D fs vs ms : ShowsFields ts env D fs vs ms -> toFields env fs vs = Some (encodeMembers ms).
Proof.
  intros H. refine (ShowsFields_mut ts env (fun v ty g x => toJ env ty g <> None /\ jsonEncode x = toJ env ty g)
    (fun v t l l' => toArr env t l = Some (map (fun x => match jsonEncode x with Some j => j | None => JNull end) l'))
    (fun v k t m ms => toMap env k t m = Some (encodeMembers ms) /\ map fst (encodeMembers ms) = map fst ms)
    (fun D fs vs ms => toFields env fs vs = Some (encodeMembers ms))
    _ _ _ _ _ _ _ _ _ _ _ _ _ _ _ _ _ _ D fs vs ms H); clear.
  - split; [discriminate|reflexivity].
  - intros v ty g j A E R. rewrite E. split; [discriminate|apply encode_ofJson, R].
  - split; [discriminate|reflexivity].
  - split; [discriminate|reflexivity].
  - split; [discriminate|reflexivity].
  - split; [discriminate|reflexivity].
  - intros v t g x _ H. exact H.
  - intros v n d w ty g x _ _ _ H. exact H.
  - intros v e t l l' _ _ H. rewrite toJ_slice, H. split; [discriminate|reflexivity].
  - intros v k0 e k t m ms _ I _ [H EN]. rewrite toJ_map, H, encode_obj. cbn [option_map]. rewrite sortKeys_sorted by (rewrite EN; exact I). split; [discriminate|reflexivity].
  - intros v n d gn fs vs ms _ L _ _ H. rewrite (toJ_struct env gn vs fs L), H, encode_obj. split; [discriminate|reflexivity].
  - reflexivity.
  - intros v t g x r r' _ [N H] _ H'. cbn [toArr map]. rewrite H', H. destruct (toJ env t g); [reflexivity|congruence].
  - split; reflexivity.
  - intros v k t key n g x r r' K _ [N H] _ [H' EN]. cbn [toMap encodeMembers]. rewrite K, H', H. destruct (toJ env t g); [|congruence]. cbn. split; congruence.
  - reflexivity.
  - intros D f g fs vs ms O Z _ H. cbn [toFields]. apply isEmptyValue_iff in Z. rewrite H, O, Z. reflexivity.
  - intros D f g v x fs vs ms O _ _ [N H] _ H'. cbn [toFields encodeMembers]. rewrite H', H.
    replace (gf_omit f && isEmptyValue g) with false by (rewrite <- isEmptyValue_iff, not_true_iff_false in O; destruct O as [-> | ->]; [|rewrite andb_false_r]; reflexivity).
    destruct (toJ env (gf_ty f) g); [reflexivity|congruence].
Qed.

(** ** decoding any value *)

Scheme Like_mut := Minimality for Like Sort Prop
  with LikeList_mut := Minimality for LikeList Sort Prop
  with LikeMembers_mut := Minimality for LikeMembers Sort Prop.

Lemma LikeList_refl l : LikeList l l.
Proof. induction l; constructor; [constructor|assumption]. Qed.
Lemma LikeMembers_refl l : LikeMembers l l.
Proof. induction l as [|[k x] r IH]; constructor; [constructor|assumption]. Qed.

Lemma Like_trans x y z : Like x y -> Like y z -> Like x z.
Proof.
  intros H. revert z. refine (Like_mut (fun x y => forall z, Like y z -> Like x z) (fun l l' => forall l2, LikeList l' l2 -> LikeList l l2)
    (fun l l' => forall l2, LikeMembers l' l2 -> LikeMembers l l2) _ _ _ _ _ _ _ _ x y H); clear.
  - auto.
  - intros s z J y H. inversion H; subst. now constructor.
  - intros l l' H IH z K. inversion K; subst; constructor; [exact H|apply IH; assumption].
  - intros l l' H IH z K. inversion K; subst; constructor; [exact H|apply IH; assumption].
  - auto.
  - intros x y r r' H IH H' IH' l2 K. inversion K; subst. constructor; auto.
  - auto.
  - intros k x y r r' H IH H' IH' l2 K. inversion K; subst. constructor; auto.
Qed.

Lemma sdepth_arr_eq l : sdepth (SArr l) = S (fold_right (fun x n => Nat.max (sdepth x) n) 0 l).
Proof. cbn [sdepth]. f_equal. Qed.
Lemma sdepth_obj_eq l : sdepth (SObj l) = S (fold_right (fun e n => Nat.max (sdepth (snd e)) n) 0 l).
Proof. cbn [sdepth]. f_equal. induction l as [|[k x] r IH]; [reflexivity|]. cbn [fold_right snd]. rewrite <- IH. reflexivity. Qed.

Lemma Like_depth x y : Like x y -> sdepth y = sdepth x.
Proof.
  intros H. refine (Like_mut (fun x y => sdepth y = sdepth x) (fun l l' => fold_right (fun x n => Nat.max (sdepth x) n) 0 l' = fold_right (fun x n => Nat.max (sdepth x) n) 0 l)
    (fun l l' => fold_right (fun e n => Nat.max (sdepth (snd e)) n) 0 l' = fold_right (fun e n => Nat.max (sdepth (snd e)) n) 0 l) _ _ _ _ _ _ _ _ x y H); clear.
  - reflexivity.
  - reflexivity.
  - intros l l' _ IH. rewrite !sdepth_arr_eq, IH. reflexivity.
  - intros l l' _ IH. rewrite !sdepth_obj_eq, IH. reflexivity.
  - reflexivity.
  - intros x y r r' _ IH _ IH'. cbn [fold_right]. rewrite IH, IH'. reflexivity.
  - reflexivity.
  - intros k x y r r' _ IH _ IH'. cbn [fold_right snd]. rewrite IH, IH'. reflexivity.
Qed.

Definition Fine (x : jsv) (r : result jsv) : Prop := (exists y, r = Ok y /\ Like x y) \/ r = Err "Invalid bigint value".

Lemma toBig_fine x : Fine x (toBig x).
Proof.
  destruct x; try (left; eexists; split; [reflexivity|constructor]). cbn [toBig]. destruct (jsBigInt s) eqn:J; [left|right; reflexivity].
  eexists. split; [reflexivity|now constructor].
Qed.
Lemma mapM_fine f l : (forall x, In x l -> Fine x (f x)) -> (exists l', mapM f l = Ok l' /\ LikeList l l') \/ mapM f l = Err "Invalid bigint value".
Proof.
  induction l as [|x r IH]; intros H; [left; exists []; split; [reflexivity|constructor]|]. cbn [mapM].
  destruct (H x (or_introl eq_refl)) as [(y & -> & L)| ->]; [|right; reflexivity]. cbn [bind].
  destruct IH as [(l' & -> & LL)| ->]; [intros z Hz; apply H; right; exact Hz| |right; reflexivity]. left. exists (y :: l'). split; [reflexivity|now constructor].
Qed.
Lemma onItems_fine f x : (forall l y, x = SArr l -> In y l -> Fine y (f y)) -> Fine x (onItems f x).
Proof.
  intros H. destruct x; try (left; eexists; split; [reflexivity|constructor]). cbn [onItems].
  destruct (mapM_fine f l (fun y => H l y eq_refl)) as [(l' & -> & L)| ->]; [left|right; reflexivity]. eexists. split; [reflexivity|now constructor].
Qed.
Lemma effect_fine rec e x : (forall t, Fine x (rec t x)) -> (forall t l y, x = SArr l -> In y l -> Fine y (rec t y)) -> Fine x (effect rec e x).
Proof.
  intros H1 H2. unfold effect. destruct e as [n|f t].
  - destruct (has_suffix "[]" n); [apply onItems_fine; intros; apply toBig_fine|]. destruct x; try (left; eexists; split; [reflexivity|constructor]). apply toBig_fine.
  - destruct (has_suffix "[]" f); [apply onItems_fine; eauto|]. destruct (truthy x); [|left; eexists; split; [reflexivity|constructor]].
    destruct (has_suffix "[]" t); [apply onItems_fine; eauto|apply H1].
Qed.
Lemma LikeMembers_set k x y ms : lookup k ms = Some x -> Like x y -> LikeMembers ms (objSet k y ms).
Proof.
  induction ms as [|[k' x'] r IH]; [discriminate|]. cbn. destruct (String.eqb k k'); intros H L.
  - injection H as ->. constructor; [exact L|apply LikeMembers_refl].
  - constructor; [constructor|exact (IH H L)].
Qed.
Lemma lookup_In {A} k (l : list (string * A)) x : lookup k l = Some x -> In (k, x) l.
Proof. induction l as [|[k' x'] r IH]; [discriminate|]. cbn. destruct (String.eqb_spec k k') as [->|]; [intros [= ->]; now left|right; auto]. Qed.

Lemma decode_fine tbl : forall n typ obj, sdepth obj < n -> Fine obj (decodeFuel n tbl typ obj).
Proof.
  induction n as [|n IH]; intros typ obj HD; [lia|]. cbn [decodeFuel].
  destruct obj as [ | |b|l|s|z|l|l]; try (left; eexists; split; [reflexivity|constructor]).
  - destruct (assoc typ tbl) as [ds|]; [|left; eexists; split; [reflexivity|constructor]]. left. exists (SArr l). split; [|constructor].
    induction ds as [|d ds IHd]; [reflexivity|exact IHd].
  - destruct (assoc typ tbl) as [ds|]; [|left; eexists; split; [reflexivity|constructor]]. revert l HD.
    induction ds as [|d ds IHd]; intros l HD; [left; eexists; split; [reflexivity|constructor]|]. cbn [Base.foldM].
    destruct (lookup (fieldOf d) l) as [x|] eqn:L; [|rewrite decodeEntry_absent by exact L; exact (IHd l HD)].
    rewrite (decodeEntry_effect _ _ _ _ L).
    assert (HX : sdepth x < n) by (pose proof (sdepth_member _ _ _ (lookup_In _ _ _ L)); lia).
    destruct (effect_fine (decodeFuel n tbl) d x) as [(y & -> & LY)| ->]; [intros t; apply IH, HX| | |right; reflexivity].
    + intros t l0 y -> Hy. apply IH. pose proof (sdepth_item y l0 Hy). lia.
    + cbn [bind]. pose proof (LikeMembers_set _ _ _ _ L LY) as LM. assert (D : sdepth (SObj (objSet (fieldOf d) y l)) = sdepth (SObj l)) by (apply Like_depth; now constructor).
      destruct (IHd (objSet (fieldOf d) y l)) as [(o & E & LO)|E]; [lia| |right; exact E]. left. exists o. split; [exact E|]. eapply Like_trans; [|exact LO]. now constructor.
Qed.
