(** Writing a value that fits its type and reading it back gives the value. *)
From Coq Require Import DecimalString DecimalFacts DecimalN.
From Verif Require Import Base BaseProofs Utf8 Utf8Proofs Json JsonProofs GoVal GoValSpec.

(** ** Decimal integers *)

Lemma to_uint_norm n : Decimal.unorm (N.to_uint n) = N.to_uint n.
Proof. rewrite <- DecimalN.Unsigned.to_of, DecimalN.Unsigned.of_to. reflexivity. Qed.

Lemma digits_uint u : forall t, numDelim t -> digits (NilEmpty.string_of_uint u ++ t) = (NilEmpty.string_of_uint u, t).
Proof.
  induction u; intros t H; cbn [NilEmpty.string_of_uint append];
  try (cbn [digits]; unfold is_digit_byte, in_range; cbn [N_of_byte N_of_ascii]; simpl;
       rewrite IHu by assumption; reflexivity).
  destruct t as [|c t]; [reflexivity|]. destruct H as [H _]. cbn. rewrite H. reflexivity.
Qed.

Lemma digits_uint' u : digits (NilEmpty.string_of_uint u) = (NilEmpty.string_of_uint u, EmptyString).
Proof. rewrite <- (sapp_nil_r (NilEmpty.string_of_uint u)) at 1. apply digits_uint. exact I. Qed.

(** the digits of a number: 0, or digits not starting with 0 *)
Lemma to_uint_shape n :
  NilEmpty.string_of_uint (N.to_uint n) = "0" \/
  exists c r, NilEmpty.string_of_uint (N.to_uint n) = String c r /\ is_digit_byte c = true /\ (N_of_byte c <> 48)%N.
Proof.
  rewrite <- to_uint_norm. unfold Decimal.unorm.
  remember (N.to_uint n) as u eqn:E. clear E.
  induction u; cbn [Decimal.nzhead]; try exact IHu;
  try (right; do 2 eexists; cbn [NilEmpty.string_of_uint]; split; [reflexivity|split; [reflexivity|discriminate]]).
  left. reflexivity.
Qed.

Lemma readNum_ndec n : readNum (NilEmpty.string_of_uint (N.to_uint n)) = Some (NilEmpty.string_of_uint (N.to_uint n), EmptyString)
 /\ readInt (NilEmpty.string_of_uint (N.to_uint n)) = Some (NilEmpty.string_of_uint (N.to_uint n), EmptyString).
Proof.
  pose proof (digits_uint' (N.to_uint n)) as D.
  destruct (to_uint_shape n) as [E|(c & r & E & Dg & Z)]; rewrite E in *.
  - split; reflexivity.
  - assert (I : readInt (String c r) = Some (String c r, EmptyString)).
    { unfold readInt. apply N.eqb_neq in Z. rewrite Z, Dg, D. reflexivity. }
    split; [|exact I].
    unfold readNum.
    assert ((N_of_byte c =? 45)%N = false) as ->.
    { unfold is_digit_byte, in_range in Dg. rewrite andb_true_iff, !N.leb_le in Dg. apply N.eqb_neq. lia. }
    rewrite I. cbn. rewrite sapp_nil_r. reflexivity.
Qed.

Lemma NumLit_zdec z : NumLit (zdec z).
Proof.
  destruct z as [|p|p]; [reflexivity| |].
  - apply readNum_ndec.
  - unfold NumLit, zdec, readNum. change (N_of_byte (byte_of_N 45) =? 45)%N with true. cbv iota.
    destruct (readNum_ndec (Npos p)) as [_ ->]. cbn [readFrac readExp append].
    unfold chr. cbn [append]. rewrite !sapp_nil_r. reflexivity.
Qed.

Lemma uint_of_ndec n : NilEmpty.uint_of_string (NilEmpty.string_of_uint (N.to_uint n)) = Some (N.to_uint n).
Proof. apply NilEmpty.usu. Qed.

Lemma parseInt_zdec lo hi z : (lo <= z <= hi)%Z -> parseInt lo hi (zdec z) = Some z.
Proof.
  intros R. unfold parseInt.
  assert (Pos : forall n, (match NilEmpty.string_of_uint (N.to_uint n) with
     | String c r => if (N_of_byte c =? 45)%N then (true, r) else (false, NilEmpty.string_of_uint (N.to_uint n))
     | EmptyString => (false, NilEmpty.string_of_uint (N.to_uint n)) end) = (false, NilEmpty.string_of_uint (N.to_uint n))
     /\ NilEmpty.string_of_uint (N.to_uint n) <> EmptyString).
  { intros n. destruct (to_uint_shape n) as [E|(c & r & E & Dg & Z)]; rewrite E.
    - split; [reflexivity|discriminate].
    - split; [|discriminate].
      assert ((N_of_byte c =? 45)%N = false) as ->; [|reflexivity].
      unfold is_digit_byte, in_range in Dg. rewrite andb_true_iff, !N.leb_le in Dg. apply N.eqb_neq. lia. }
  assert (Core : forall n, (lo <= Z.of_N n <= hi)%Z -> 
     (let (neg, ds) := match NilEmpty.string_of_uint (N.to_uint n) with
     | String c r => if (N_of_byte c =? 45)%N then (true, r) else (false, NilEmpty.string_of_uint (N.to_uint n))
     | EmptyString => (false, NilEmpty.string_of_uint (N.to_uint n)) end in
      if neg && (0 <=? lo)%Z then None else
      match ds with
      | EmptyString => None
      | _ => match NilEmpty.uint_of_string ds with
        | Some u => let z := Z.of_N (N.of_uint u) in let z := if neg then (- z)%Z else z in
          if (lo <=? z)%Z && (z <=? hi)%Z then Some z else None
        | None => None end end) = Some (Z.of_N n)).
  { intros n Rn. destruct (Pos n) as [E NE]. rewrite E. cbn [andb].
    pose proof (uint_of_ndec n) as U.
    destruct (NilEmpty.string_of_uint (N.to_uint n)) as [|c r]; [congruence|].
    rewrite U. cbv zeta. rewrite DecimalN.Unsigned.of_to.
    replace (lo <=? Z.of_N n)%Z with true by (symmetry; apply Z.leb_le; lia).
    replace (Z.of_N n <=? hi)%Z with true by (symmetry; apply Z.leb_le; lia). reflexivity. }
  destruct z as [|p|p].
  - exact (Core 0%N R).
  - exact (Core (Npos p) R).
  - unfold zdec. change (N_of_byte (byte_of_N 45) =? 45)%N with true. cbv iota.
    replace (0 <=? lo)%Z with false by (symmetry; apply Z.leb_gt; lia). cbn [andb].
    destruct (Pos (Npos p)) as [_ NE]. pose proof (uint_of_ndec (Npos p)) as U.
    destruct (NilEmpty.string_of_uint (N.to_uint (N.pos p))) as [|c r]; [congruence|].
    rewrite U. cbv zeta. rewrite DecimalN.Unsigned.of_to.
    change (- Z.of_N (N.pos p))%Z with (Z.neg p).
    replace (lo <=? Z.neg p)%Z with true by (symmetry; apply Z.leb_le; lia).
    replace (Z.neg p <=? hi)%Z with true by (symmetry; apply Z.leb_le; lia). reflexivity.
Qed.

Lemma setString10_zdec z : setString10 (zdec z) = Some z.
Proof.
  unfold setString10.
  assert (Pos : forall n, exists c r, NilEmpty.string_of_uint (N.to_uint n) = String c r /\ (N_of_byte c =? 45)%N = false /\ (N_of_byte c =? 43)%N = false).
  { intros n. destruct (to_uint_shape n) as [E|(c & r & E & Dg & Z)]; rewrite E; [do 2 eexists; repeat split; reflexivity|].
    exists c, r. split; [reflexivity|]. unfold is_digit_byte, in_range in Dg. rewrite andb_true_iff, !N.leb_le in Dg.
    split; apply N.eqb_neq; lia. }
  assert (Core : forall n, setString10 (NilEmpty.string_of_uint (N.to_uint n)) = Some (Z.of_N n)).
  { intros n. unfold setString10. destruct (Pos n) as (c & r & E & M & P). pose proof (uint_of_ndec n) as U. rewrite E in *. rewrite M, P, U.
    cbv zeta. rewrite DecimalN.Unsigned.of_to. reflexivity. }
  destruct z as [|p|p]; [exact (Core 0%N)|exact (Core (Npos p))|].
  unfold zdec. change (N_of_byte (byte_of_N 45) =? 45)%N with true. cbv iota.
  destruct (Pos (Npos p)) as (c & r & E & _). pose proof (uint_of_ndec (Npos p)) as U. rewrite E in *. rewrite U. cbv zeta.
  rewrite DecimalN.Unsigned.of_to. reflexivity.
Qed.

Lemma ascii_valid s : is_ascii s = true -> ValidUtf8 s.
Proof.
  intros H. exists (decode s). split; [apply decode_valid|].
  rewrite decode_ascii by assumption. rewrite encode_runes_of by assumption. reflexivity.
Qed.

Lemma zdec_valid z : ValidUtf8 (zdec z).
Proof.
  apply ascii_valid.
  assert (H : forall u, is_ascii (NilEmpty.string_of_uint u) = true).
  { induction u; cbn [NilEmpty.string_of_uint is_ascii]; try exact IHu; try reflexivity.
    all: unfold is_ascii in *; cbn [sforall]; rewrite IHu; reflexivity. }
  destruct z as [|p|p]; [reflexivity|apply H|].
  unfold zdec, is_ascii in *. cbn [sforall]. rewrite H. reflexivity.
Qed.

(** ** Enums *)

Lemma enumName_In t n z : NoDup (map snd t) -> In (n, z) t -> enumName t z = n.
Proof.
  induction t as [|[m y] t IH]; simpl; [tauto|]. intros ND [E|H].
  - injection E as -> ->. rewrite Z.eqb_refl. reflexivity.
  - inversion ND as [|? ? NI ND']; subst. destruct (Z.eqb_spec y z) as [->|NE]; [|auto].
    exfalso. apply NI. apply in_map_iff. exists (n, z). auto.
Qed.

Lemma enumValue_In t n z : NoDup (map fst t) -> In (n, z) t -> enumValue t n = z.
Proof.
  induction t as [|[m y] t IH]; simpl; [tauto|]. intros ND [E|H].
  - injection E as -> ->. rewrite String.eqb_refl. reflexivity.
  - inversion ND as [|? ? NI ND']; subst. destruct (String.eqb_spec m n) as [->|NE]; [|auto].
    exfalso. apply NI. apply in_map_iff. exists (n, z). auto.
Qed.

(** ** Keys *)

Lemma keyText_written k x n : KeyWritten k x n -> keyText k x = Some n /\ parseKey k n = Some x /\ ValidUtf8 n.
Proof.
  intros H. destruct H as [s V|lo hi z R|t n z (N1 & N2 & VN) I]; cbn.
  - auto.
  - rewrite parseInt_zdec by assumption. repeat split. apply zdec_valid.
  - rewrite (enumName_In t n z) by assumption. rewrite (enumValue_In t n z) by assumption.
    repeat split. eauto.
Qed.

Lemma key_injective k x x' n n' : KeyWritten k x n -> KeyWritten k x' n' -> x = x' -> n = n'.
Proof.
  intros H H' ->. apply keyText_written in H, H'. destruct H as [H _], H' as [H' _]. congruence.
Qed.

Lemma gkey_eqb_eq a b : gkey_eqb a b = true <-> a = b.
Proof.
  destruct a, b; simpl; split; try discriminate; try (intros [= ->]).
  - intros H. apply String.eqb_eq in H. congruence.
  - apply String.eqb_refl.
  - intros H. apply Z.eqb_eq in H. congruence.
  - apply Z.eqb_refl.
Qed.

Lemma mapPut_new k v m : ~ In k (map fst m) -> mapPut k v m = m ++ [(k, v)].
Proof.
  induction m as [|[k' v'] m IH]; simpl; [reflexivity|]. intros H.
  destruct (gkey_eqb k k') eqn:E; [apply gkey_eqb_eq in E; subst; tauto|].
  rewrite IH by tauto. reflexivity.
Qed.

(** ** Sorted maps are written as they are *)

Lemma ltb_leb a b : String.ltb a b = true -> String.leb a b = true.
Proof.
  unfold String.ltb, String.leb. destruct (String.compare a b); congruence.
Qed.

Lemma compare_refl_s a : String.compare a a = Eq.
Proof. induction a as [|c a IH]; [reflexivity|]. simpl. unfold Ascii.compare. rewrite N.compare_refl. exact IH. Qed.

Lemma ltb_neq a b : String.ltb a b = true -> a <> b.
Proof. unfold String.ltb. intros H ->. rewrite compare_refl_s in H. discriminate. Qed.

Lemma sortKeys_sorted l : Increasing (map fst l) -> sortKeys l = l.
Proof.
  induction l as [|[k x] l IH]; [reflexivity|]. cbn [map Increasing sortKeys fst]. intros [H I].
  rewrite IH by assumption. destruct l as [|[k' x'] l]; [reflexivity|].
  cbn [insertKey fst]. rewrite ltb_leb; [reflexivity|]. apply H. left. reflexivity.
Qed.

(** ** Struct fields *)

Lemma fieldIndex_exact fs1 f fs2 : ~ In (gf_name f) (map gf_name fs1) ->
  fieldIndex (String.eqb (gf_name f)) (fs1 ++ f :: fs2) = Some (length fs1).
Proof.
  induction fs1 as [|g fs1 IH]; intros H; cbn [app fieldIndex length].
  - rewrite String.eqb_refl. reflexivity.
  - destruct (String.eqb_spec (gf_name f) (gf_name g)) as [E|NE].
    + exfalso. apply H. left. congruence.
    + rewrite IH; [reflexivity|]. intros C. apply H. right. exact C.
Qed.

Lemma setNth_mid {A} (l1 : list A) x l2 y : setNth (length l1) y (l1 ++ x :: l2) = l1 ++ y :: l2.
Proof. induction l1 as [|a l1 IH]; simpl; [reflexivity|]. rewrite IH. reflexivity. Qed.

Lemma nth_error_mid {A} (l1 : list A) x l2 : nth_error (l1 ++ x :: l2) (length l1) = Some x.
Proof. induction l1 as [|a l1 IH]; simpl; auto. Qed.

(** ** The typed round trip *)

Definition RT env ty v := exists j, toJ env ty v = Some j /\ JWf j /\ fromJ env ty j = Some v /\
  (isNil v = false -> j <> JNull) /\ jdepth j <= vdepth v.
Definition RTF env fs vs := exists l, toFields env fs vs = Some l /\
  (forall k x, In (k, x) l -> ValidUtf8 k /\ JWf x) /\ depthMembers l <= vsdepth vs /\
  forall fs1 vs1, length fs1 = length vs1 -> (forall g, In g fs1 -> ~ In (gf_name g) (map gf_name fs)) ->
   fromFields env (fs1 ++ fs) (vs1 ++ map (fun f => zeroVal (gf_ty f)) fs) l = Some (vs1 ++ vs).

Lemma toJ_ref env n vs : toJ env (TRef n) (VPtr (Some (VStruct vs))) =
  match lookup n env with Some fs => option_map JObj (toFields env fs vs) | None => None end.
Proof.
  cbn [toJ]. destruct (lookup n env) as [fs|]; [|reflexivity]. f_equal.
  revert fs. induction vs as [|v vs IH]; intros [|f fs]; reflexivity || (cbn [toFields]; rewrite <- IH; reflexivity).
Qed.

Lemma fromJ_ref env n l : fromJ env (TRef n) (JObj l) =
  match lookup n env with
  | Some fs => option_map (fun vs => VPtr (Some (VStruct vs))) (fromFields env fs (map (fun f => zeroVal (gf_ty f)) fs) l)
  | None => None end.
Proof.
  cbn [fromJ strip]. destruct (lookup n env) as [fs|]; [|reflexivity]. cbn [wrap]. f_equal.
  generalize (map (fun f => zeroVal (gf_ty f)) fs). induction l as [|[s x] l IH]; intros acc; [reflexivity|].
  cbn [fromFields]. destruct (findField s fs); [|apply IH].
  destruct (nth_error fs n0); [|reflexivity]. destruct (fromJ env (gf_ty g) x); [apply IH|reflexivity].
Qed.

(** the members of arrays and maps as separate functions *)
Fixpoint toArr (env : goEnv) (t : goTy) (l : list gval) : option (list json) :=
  match l with
  | [] => Some []
  | x :: r => match toJ env t x, toArr env t r with Some j, Some js => Some (j :: js) | _, _ => None end
  end.
Fixpoint fromArr (env : goEnv) (t : goTy) (l : list json) : option (list gval) :=
  match l with
  | [] => Some []
  | x :: r => match fromJ env t x, fromArr env t r with Some j, Some js => Some (j :: js) | _, _ => None end
  end.
Fixpoint toMap (env : goEnv) (k : keyTy) (t : goTy) (l : list (gkey * gval)) : option (list (string * json)) :=
  match l with
  | [] => Some []
  | (x, y) :: r => match keyText k x, toJ env t y, toMap env k t r with
                   | Some s, Some j, Some js => Some ((s, j) :: js) | _, _, _ => None end
  end.
Fixpoint fromMap (env : goEnv) (k : keyTy) (t : goTy) (acc : list (gkey * gval)) (l : list (string * json))
  : option (list (gkey * gval)) :=
  match l with
  | [] => Some acc
  | (s, x) :: r => match parseKey k s, fromJ env t x with
                   | Some key, Some v => fromMap env k t (mapPut key v acc) r | _, _ => None end
  end.

Lemma toJ_slice env t l : toJ env (TSlice t) (VSlice (Some l)) = option_map JArr (toArr env t l).
Proof. cbn [toJ]. f_equal. induction l as [|x l IH]; [reflexivity|]. cbn [toArr]. rewrite <- IH. reflexivity. Qed.
Lemma fromJ_slice env t l : fromJ env (TSlice t) (JArr l) = option_map (fun vs => VSlice (Some vs)) (fromArr env t l).
Proof. cbn [fromJ strip wrap]. f_equal. induction l as [|x l IH]; [reflexivity|]. cbn [fromArr]. rewrite <- IH. reflexivity. Qed.
Lemma toJ_map env k t l : toJ env (TMap k t) (VMap (Some l)) = option_map (fun es => JObj (sortKeys es)) (toMap env k t l).
Proof. cbn [toJ]. f_equal. induction l as [|[x y] l IH]; [reflexivity|]. cbn [toMap]. rewrite <- IH. reflexivity. Qed.
Lemma fromJ_map env k t l : fromJ env (TMap k t) (JObj l) = option_map (fun m => VMap (Some m)) (fromMap env k t [] l).
Proof.
  cbn [fromJ strip wrap]. f_equal. generalize (@nil (gkey * gval)).
  induction l as [|[x y] l IH]; intros acc; [reflexivity|]. cbn [fromMap].
  destruct (parseKey k x); [|reflexivity]. destruct (fromJ env t y); [apply IH|reflexivity].
Qed.

(** pointers *)
Lemma fromJ_opt env t j : j <> JNull -> fromJ env (TOpt t) j = option_map (fun v => VPtr (Some v)) (fromJ env t j).
Proof.
  intros NN. destruct j as [ |b|l|s|l|l]; [congruence| | | | |]; cbn [fromJ strip]; destruct (strip t) as [n b'];
  destruct b'; cbn [wrap]; try reflexivity.
  all: repeat match goal with
  | |- context[option_map _ (?f _ _ _)] => idtac
  end.
  all: try (match goal with |- option_map _ ?x = option_map _ (option_map _ ?x) => destruct x; reflexivity end).
  destruct (lookup struct env); [|reflexivity].
  match goal with |- option_map _ ?x = option_map _ (option_map _ ?x) => destruct x; reflexivity end.
Qed.

Scheme Fits_mind := Minimality for Fits Sort Prop
  with FitsFields_mind := Minimality for FitsFields Sort Prop.

Lemma vdepth_slice l : vdepth (VSlice (Some l)) = S (vsdepth l).
Proof. cbn [vdepth]. f_equal. Qed.
Lemma vdepth_struct l : vdepth (VStruct l) = S (vsdepth l).
Proof. cbn [vdepth]. f_equal. Qed.
Fixpoint msdepth (l : list (gkey * gval)) : nat :=
  match l with [] => 0 | (_, x) :: r => Nat.max (vdepth x) (msdepth r) end.
Lemma vdepth_map l : vdepth (VMap (Some l)) = S (msdepth l).
Proof. cbn [vdepth]. f_equal. Qed.

Lemma rt_arr env t l : (forall x, In x l -> RT env t x) ->
  exists js, toArr env t l = Some js /\ (forall x, In x js -> JWf x) /\ fromArr env t js = Some l /\ depthElems js <= vsdepth l.
Proof.
  induction l as [|x l IH]; intros H.
  - exists []. split; [reflexivity|]. split; [intros x []|]. split; [reflexivity|simpl; lia].
  - destruct (H x (or_introl eq_refl)) as (j & T & W & F & _ & D).
    destruct IH as (js & T' & W' & F' & D'); [intros y Hy; apply H; right; exact Hy|].
    exists (j :: js). cbn [toArr fromArr depthElems vsdepth]. rewrite T, T', F, F'. repeat split.
    + intros y [<-|Hy]; auto.
    + lia.
Qed.

Lemma rt_map env k t m names :
  Forall2 (fun e n => KeyWritten k (fst e) n) m names -> Increasing names ->
  (forall x y, In (x, y) m -> RT env t y) ->
  exists js, toMap env k t m = Some js /\ map fst js = names /\
    (forall s x, In (s, x) js -> ValidUtf8 s /\ JWf x) /\ depthMembers js <= msdepth m /\
    forall acc, (forall x, In x (map fst acc) -> ~ In x (map fst m)) ->
      fromMap env k t acc js = Some (acc ++ m).
Proof.
  intros H. induction H as [|[x y] n m names HK H IH]; intros I R.
  - exists []. split; [reflexivity|]. split; [reflexivity|]. split; [intros s x []|]. split; [simpl; lia|].
    intros acc _. cbn [fromMap]. rewrite app_nil_r. reflexivity.
  - cbn [Increasing] in I. destruct I as [I1 I2]. cbn [fst] in HK.
    destruct (R x y (or_introl eq_refl)) as (j & T & W & F & _ & D).
    destruct IH as (js & T' & N' & W' & D' & F'); [assumption|intros ? ? Hy; eapply R; right; exact Hy|].
    destruct (keyText_written k x n HK) as (KT & PK & VN).
    exists ((n, j) :: js). cbn [toMap fromMap depthMembers msdepth map fst]. rewrite KT, T, T', PK, F.
    repeat split.
    + cbn. congruence.
    + destruct H0 as [E|H0]; [injection E as <- <-; assumption|]. eapply W'; eauto.
    + destruct H0 as [E|H0]; [injection E as <- <-; assumption|]. eapply W'; eauto.
    + lia.
    + intros acc Dis. rewrite mapPut_new.
      2:{ intros C. apply (Dis x C). left. reflexivity. }
      rewrite F'; [rewrite <- app_assoc; reflexivity|].
      intros z Hz. rewrite map_app, in_app_iff in Hz. destruct Hz as [Hz|[<-|[]]].
      * intros C. apply (Dis z Hz). right. exact C.
      * intros C. cbn [fst] in C. apply in_map_iff in C. destruct C as ([x' y'] & E & C). cbn in E. subst x'.
        assert (exists n', In n' names /\ KeyWritten k x n') as (n' & In' & K').
        { clear - H C. induction H as [|e n0 m names HK H IH]; [destruct C|].
          destruct C as [->|C]; [exists n0; split; [left; reflexivity|exact HK]|].
          destruct (IH C) as (n' & In' & K'). exists n'. split; [right; exact In'|exact K']. }
        pose proof (key_injective k x x n n' HK K' eq_refl). subst n'.
        apply (ltb_neq n n); [apply I1; exact In'|reflexivity].
Qed.

Combined Scheme fits_mutind from Fits_mind, FitsFields_mind.

Lemma isEmptyValue_iff v : isEmptyValue v = true <-> Empty v.
Proof.
  unfold Empty. split.
  - destruct v as [[]|z|[]|z|[[]|]|[[]|]|[]|l|[]|z| ]; cbn; try discriminate; intros H; try (apply Z.eqb_eq in H; subst); tauto.
  - cbn. intuition (subst; reflexivity).
Qed.
Lemma omit_zero env f v (o : Prop) : Fits env (gf_ty f) v -> (o -> v <> VSlice (Some []) /\ v <> VMap (Some [])) ->
  o -> isEmptyValue v = true -> v = zeroVal (gf_ty f).
Proof.
  intros F H O E. specialize (H O) as [H1 H2]. apply isEmptyValue_iff in E. unfold Empty in E. cbn in E.
  decompose [or] E; clear E; subst; try tauto; inversion F; subst; reflexivity.
Qed.

Theorem fits_round_trip env :
  (forall ty v, Fits env ty v -> RT env ty v) /\
  (forall fs vs, FitsFields env fs vs -> RTF env fs vs).
Proof.
  apply fits_mutind.
  - intros b. exists (JBool b). repeat split; [constructor|discriminate|simpl; lia].
  - intros lo hi z Rg. exists (JNum (zdec z)). repeat split;
    [constructor; apply NumLit_zdec|cbn; rewrite parseInt_zdec by assumption; reflexivity|discriminate|simpl; lia].
  - intros s V. exists (JStr s). repeat split; [constructor; assumption|discriminate|simpl; lia].
  - intros t n z (N1 & N2 & VN) I. exists (JStr n). repeat split;
    [cbn; rewrite (enumName_In t n z) by assumption; reflexivity|constructor; eauto
    |cbn; rewrite (enumValue_In t n z) by assumption; reflexivity|discriminate|simpl; lia].
  - intros t. exists JNull. repeat split; [constructor|discriminate|simpl; lia].
  - intros t l _ R. destruct (rt_arr env t l R) as (js & T & W & F & D).
    exists (JArr js). rewrite toJ_slice, fromJ_slice, T, F. repeat split;
    [constructor; assumption|discriminate|rewrite jdepth_arr, vdepth_slice; lia].
  - intros k t. exists JNull. repeat split; [constructor|discriminate|simpl; lia].
  - intros k t m names HK I _ R. destruct (rt_map env k t m names HK I R) as (js & T & N & W & D & F).
    exists (JObj js). rewrite toJ_map, fromJ_map, T. cbn [option_map].
    rewrite sortKeys_sorted by congruence. rewrite F by (intros x []). repeat split;
    [constructor; assumption|discriminate|rewrite jdepth_obj, vdepth_map; lia].
  - intros t. exists JNull. repeat split; [constructor| |discriminate|simpl; lia].
    cbn [fromJ strip]. destruct (strip t). reflexivity.
  - intros t v _ (j & T & W & F & NN & D) NI. exists j. repeat split;
    [exact T|exact W|rewrite fromJ_opt by auto; rewrite F; reflexivity|intros _; auto|exact D].
  - intros n. exists JNull. repeat split; [constructor|discriminate|simpl; lia].
  - intros n fs vs L _ (l & T & W & D & F).
    exists (JObj l). rewrite toJ_ref, fromJ_ref, L, T.
    split; [reflexivity|]. split; [constructor; exact W|].
    split; [specialize (F [] [] eq_refl (fun g (h : In g []) => match h with end)); cbn [app] in F; rewrite F; reflexivity|].
    split; [discriminate|].
    change (vdepth (VPtr (Some (VStruct vs)))) with (vdepth (VStruct vs)). rewrite jdepth_obj, vdepth_struct. lia.
  - intros j W. exists j. repeat split; [exact W|cbn [fromJ strip]; destruct j; reflexivity
    |intros NI ->; discriminate|simpl; lia].
  - intros z. exists (JStr (zdec z)). repeat split; [constructor; apply zdec_valid|cbn [fromJ strip wrap]; rewrite setString10_zdec; reflexivity
    |discriminate|simpl; lia].
  - exists []. split; [reflexivity|]. split; [intros k x []|]. split; [simpl; lia|].
    intros fs1 vs1 _ _. cbn [fromFields map]. reflexivity.
  - intros f fs v vs FV (j & T & W & F & NN & D) VN NI OM0 _ (l & T' & W' & D' & F').
    assert (OM := omit_zero _ _ _ _ FV OM0).
    unfold RTF. cbn [toFields]. rewrite T'.
    assert (Dis' : forall fs1 : list goField, (forall g, In g fs1 -> ~ In (gf_name g) (map gf_name (f :: fs))) ->
      forall g, In g (fs1 ++ [f]) -> ~ In (gf_name g) (map gf_name fs)).
    { intros fs1 Dis g Hg C. apply in_app_iff in Hg. destruct Hg as [Hg|[<-|[]]];
      [apply (Dis g Hg); right; exact C|apply NI; exact C]. }
    destruct (gf_omit f && isEmptyValue v) eqn:OE.
    + apply andb_true_iff in OE. destruct OE as [O1 O2]. exists l. split; [reflexivity|]. split; [exact W'|].
      split; [cbn [vsdepth]; lia|].
      intros fs1 vs1 L Dis. specialize (F' (fs1 ++ [f]) (vs1 ++ [v])).
      rewrite <- !app_assoc in F'. cbn [app] in F'. cbn [map]. rewrite <- (OM O1 O2). apply F';
      [rewrite !app_length; simpl; lia|apply Dis'; exact Dis].
    + rewrite T. exists ((gf_name f, j) :: l). split; [reflexivity|].
      split; [intros k x [E|Hin]; [injection E as <- <-; auto|eapply W'; eauto]|].
      split; [cbn [depthMembers vsdepth]; lia|].
      intros fs1 vs1 L Dis. cbn [fromFields map].
      assert (findField (gf_name f) (fs1 ++ f :: fs) = Some (length fs1)) as ->.
      { unfold findField. rewrite fieldIndex_exact; [reflexivity|].
        intros C. apply in_map_iff in C. destruct C as (g & E & Hg). apply (Dis g Hg). left. congruence. }
      rewrite nth_error_mid, F, L, setNth_mid.
      specialize (F' (fs1 ++ [f]) (vs1 ++ [v])). rewrite <- !app_assoc in F'. cbn [app] in F'. apply F';
      [rewrite !app_length; simpl; lia|apply Dis'; exact Dis].
Qed.

(** a payload struct sent as bytes arrives unchanged *)
Theorem payload_round_trip env fs vs : FitsFields env fs vs ->
  (N.of_nat (S (vsdepth vs)) <= maxNestingDepth)%N ->
  exists s, marshalStruct env fs vs = Some s /\ noLF s = true /\ unmarshalStruct env fs s = Some vs /\
    unmarshalStruct env fs (s ++ chr 10) = Some vs.
Proof.
  intros H D. destruct (proj2 (fits_round_trip env) fs vs H) as (l & T & W & DM & F).
  assert (WJ : JWf (JObj l)) by (constructor; exact W).
  assert (DJ : (N.of_nat (jdepth (JObj l)) <= maxNestingDepth)%N) by (rewrite jdepth_obj; lia).
  exists (printJ (JObj l)). unfold marshalStruct, unmarshalStruct. rewrite T.
  specialize (F [] [] eq_refl (fun g (h : In g []) => match h with end)). cbn [app] in F.
  split; [reflexivity|]. split; [apply print_noLF, wf_nums; exact WJ|]. split.
  - rewrite parse_print by assumption. exact F.
  - unfold chr. rewrite parse_print_line by assumption. exact F.
Qed.
