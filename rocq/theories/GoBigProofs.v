(** Decimal numerals and the BigInt functions of generated Go code. *)
From Coq Require Import DecimalString DecimalFacts DecimalN.
From Verif Require Import Base BaseProofs Utf8 Utf8Proofs Json GoVal GoValSpec GoValProofs GoBig BigSpec.
Ltac Zify.zify_post_hook ::= Z.div_mod_to_equations.

(** ** the value of a string of digits *)

Fixpoint sval (s : string) (acc : N) : N :=
  match s with EmptyString => acc | String c r => sval r (10 * acc + (N_of_byte c - 48))%N end.
Fixpoint uval (u : Decimal.uint) (acc : N) : N :=
  match u with
  | Decimal.Nil => acc
  | Decimal.D0 l => uval l (10 * acc) | Decimal.D1 l => uval l (10 * acc + 1)
  | Decimal.D2 l => uval l (10 * acc + 2) | Decimal.D3 l => uval l (10 * acc + 3)
  | Decimal.D4 l => uval l (10 * acc + 4) | Decimal.D5 l => uval l (10 * acc + 5)
  | Decimal.D6 l => uval l (10 * acc + 6) | Decimal.D7 l => uval l (10 * acc + 7)
  | Decimal.D8 l => uval l (10 * acc + 8) | Decimal.D9 l => uval l (10 * acc + 9)
  end%N.

Lemma of_uint_acc_val u : forall p, N.pos (Pos.of_uint_acc u p) = uval u (N.pos p).
Proof.
  induction u; intro p; cbn [Pos.of_uint_acc uval]; try reflexivity; rewrite IHu; f_equal; lia.
Qed.
Lemma of_uint_val u : N.of_uint u = uval u 0%N.
Proof.
  induction u; cbn [N.of_uint Pos.of_uint uval]; try reflexivity; try (rewrite of_uint_acc_val; reflexivity).
  exact IHu.
Qed.

Definition allDigits (s : string) : bool := sforall is_digit_byte s.

Lemma digit_cases c : is_digit_byte c = true -> exists d, Digit c d.
Proof.
  unfold is_digit_byte, in_range. rewrite andb_true_iff, !N.leb_le. intros [A B]. exists (N_of_byte c - 48)%N. split; lia.
Qed.
Lemma digit_is c d : Digit c d -> is_digit_byte c = true /\ (N_of_byte c - 48 = d)%N.
Proof. intros [A B]. split; [|lia]. unfold is_digit_byte, in_range. rewrite andb_true_iff, !N.leb_le. lia. Qed.

Lemma uint_of_string_digits s : (exists u, NilEmpty.uint_of_string s = Some u) <-> allDigits s = true.
Proof.
  induction s as [|c s IH]; cbn [NilEmpty.uint_of_string allDigits sforall].
  - split; eauto.
  - unfold allDigits in IH. rewrite andb_true_iff, <- IH. split.
    + intros [u H]. destruct (NilEmpty.uint_of_string s) as [v|].
      * split; [|eauto]. destruct c as [[] [] [] [] [] [] [] []]; try reflexivity; discriminate H.
      * destruct c as [[] [] [] [] [] [] [] []]; discriminate H.
    + intros [D [v ->]]. destruct c as [[] [] [] [] [] [] [] []]; try discriminate D; cbn; eauto.
Qed.

Lemma uint_of_string_val s : forall u, NilEmpty.uint_of_string s = Some u -> forall acc, uval u acc = sval s acc.
Proof.
  induction s as [|c s IH]; intros u; cbn [NilEmpty.uint_of_string].
  - intros [= <-] acc. reflexivity.
  - destruct (NilEmpty.uint_of_string s) as [v|]; [|destruct c as [[] [] [] [] [] [] [] []]; discriminate].
    intros H acc. specialize (IH v eq_refl).
    destruct c as [[] [] [] [] [] [] [] []]; cbn in H; try discriminate H; injection H as <-; cbn [uval sval]; rewrite IH; f_equal; cbn; lia.
Qed.

Lemma sval_app a b acc : sval (a ++ b) acc = sval b (sval a acc).
Proof. revert acc. induction a as [|c a IH]; intro acc; [reflexivity|]. cbn [append sval]. apply IH. Qed.

Lemma DigitsOf_sval s n : DigitsOf s n -> allDigits s = true /\ s <> EmptyString /\ sval s 0%N = n.
Proof.
  induction 1 as [c d D|s n c d H (A & N & V) D].
  - apply digit_is in D. destruct D as [D E]. unfold allDigits. cbn [sforall sval]. rewrite D, E. repeat split; discriminate.
  - apply digit_is in D. destruct D as [D E]. unfold allDigits in *. rewrite sforall_app, A. cbn [sforall]. rewrite D. split; [reflexivity|].
    split; [destruct s; discriminate|]. rewrite sval_app, V. cbn [sval]. rewrite E. reflexivity.
Qed.

Lemma snoc_ind (P : string -> Prop) : P EmptyString -> (forall s c, P s -> P (s ++ String c EmptyString)%string) -> forall s, P s.
Proof.
  intros H0 HS s. assert (K : forall t, P t -> P (t ++ s)%string).
  { induction s as [|c s IH]; intros t Ht; [rewrite sapp_nil_r; exact Ht|].
    replace (t ++ String c s)%string with ((t ++ String c EmptyString) ++ s)%string by (rewrite sapp_assoc; reflexivity).
    apply IH, HS, Ht. }
  exact (K EmptyString H0).
Qed.

Lemma sval_DigitsOf s : allDigits s = true -> s <> EmptyString -> DigitsOf s (sval s 0%N).
Proof.
  induction s as [|s c IH] using snoc_ind; intros A N; [congruence|].
  unfold allDigits in *. rewrite sforall_app in A. apply andb_true_iff in A. destruct A as [A B]. cbn in B. rewrite andb_true_r in B.
  apply digit_cases in B. destruct B as [d D]. rewrite sval_app. cbn [sval]. destruct (digit_is _ _ D) as [_ ->].
  destruct s as [|c0 s]; [constructor; exact D|]. constructor; [apply IH; [exact A|discriminate]|exact D].
Qed.

Lemma digits_not_sign c s n : DigitsOf (String c s) n -> (N_of_byte c =? 45)%N = false /\ (N_of_byte c =? 43)%N = false.
Proof.
  intros H. apply DigitsOf_sval in H. destruct H as (A & _). unfold allDigits in A. cbn [sforall] in A. apply andb_true_iff in A. destruct A as [A _].
  unfold is_digit_byte, in_range in A. rewrite andb_true_iff, !N.leb_le in A. split; apply N.eqb_neq; lia.
Qed.

Lemma str_chr c n : (N_of_byte c =? n)%N = true -> c = byte_of_N n.
Proof. intros H. apply N.eqb_eq in H. subst n. symmetry. apply Ascii.ascii_N_embedding. Qed.

Lemma decimal_cases s z : Decimal s z -> (exists n, DigitsOf s n /\ z = Z.of_N n) \/
  (exists d n, s = ("-" ++ d)%string /\ DigitsOf d n /\ z = (- Z.of_N n)%Z) \/ (exists d n, s = ("+" ++ d)%string /\ DigitsOf d n /\ z = Z.of_N n).
Proof. intros [d n D|d n D|d n D]; eauto 8. Qed.

(** SetString accepts exactly the decimal numerals. *)
Theorem setString10_iff s z : setString10 s = Some z <-> Decimal s z.
Proof.
  assert (K : forall ds y (neg : bool), ds <> EmptyString ->
    (match NilEmpty.uint_of_string ds with Some u => let z := Z.of_N (N.of_uint u) in Some (if neg then (- z)%Z else z) | None => None end = Some y <->
     exists n, DigitsOf ds n /\ y = (if neg then - Z.of_N n else Z.of_N n)%Z)).
  { intros ds y neg NE. destruct (NilEmpty.uint_of_string ds) as [u|] eqn:U.
    - assert (A : allDigits ds = true) by (apply uint_of_string_digits; eauto).
      rewrite of_uint_val, (uint_of_string_val ds u U). split.
      + intros [= <-]. exists (sval ds 0). split; [apply sval_DigitsOf; assumption|reflexivity].
      + intros (n & D & ->). apply DigitsOf_sval in D. destruct D as (_ & _ & <-). reflexivity.
    - split; [discriminate|]. intros (n & D & _). apply DigitsOf_sval in D. destruct D as (A & _). apply uint_of_string_digits in A.
      destruct A as [u A]. congruence. }
  unfold setString10. destruct s as [|c r].
  - split; [discriminate|]. intros H. apply decimal_cases in H. destruct H as [(n & D & _)|[(d & n & E & _)|(d & n & E & _)]]; try discriminate.
    apply DigitsOf_sval in D. destruct D as (_ & D & _). congruence.
  - destruct (N_of_byte c =? 45)%N eqn:M.
    { apply str_chr in M. subst c. destruct r as [|c' r'].
      - split; [discriminate|]. intros H. apply decimal_cases in H. destruct H as [(n & D & _)|[(d & n & E & D & _)|(d & n & E & _)]]; [| |discriminate].
        + apply digits_not_sign in D. destruct D; discriminate.
        + destruct d; [|discriminate]. apply DigitsOf_sval in D. destruct D as (_ & D & _). congruence.
      - rewrite (K (String c' r') z true) by discriminate. split.
        + intros (n & D & ->). exact (DecMinus _ _ D).
        + intros H. apply decimal_cases in H. destruct H as [(n & D & _)|[(d & n & E & D & Z)|(d & n & E & _)]]; [| |discriminate].
          * apply digits_not_sign in D. destruct D; discriminate.
          * exists n. cbn in E. injection E as ->. auto. }
    destruct (N_of_byte c =? 43)%N eqn:P.
    { apply str_chr in P. subst c. destruct r as [|c' r'].
      - split; [discriminate|]. intros H. apply decimal_cases in H. destruct H as [(n & D & _)|[(d & n & E & _)|(d & n & E & D & _)]]; [|discriminate|].
        + apply digits_not_sign in D. destruct D; discriminate.
        + destruct d; [|discriminate]. apply DigitsOf_sval in D. destruct D as (_ & D & _). congruence.
      - rewrite (K (String c' r') z false) by discriminate. split.
        + intros (n & D & ->). exact (DecPlus _ _ D).
        + intros H. apply decimal_cases in H. destruct H as [(n & D & _)|[(d & n & E & _)|(d & n & E & D & Z)]]; [|discriminate|].
          * apply digits_not_sign in D. destruct D; discriminate.
          * exists n. cbn in E. injection E as ->. auto. }
    rewrite (K (String c r) z false) by discriminate. split.
    + intros (n & D & ->). exact (DecPlain _ _ D).
    + intros H. apply decimal_cases in H. destruct H as [(n & D & E)|[(d & n & E & _)|(d & n & E & _)]]; [exists n; auto| |];
      injection E as -> _; discriminate.
Qed.

Lemma zdec_decimal z : Decimal (zdec z) z.
Proof. apply setString10_iff, setString10_zdec. Qed.

(** ** JSON *)

Lemma sexists_app p a b : sexists p (a ++ b) = sexists p a || sexists p b.
Proof. induction a as [|c a IH]; [reflexivity|]. cbn. rewrite IH, orb_assoc. reflexivity. Qed.

Lemma digits_no_blank s : allDigits s = true -> sexists isBlankByte s = false.
Proof.
  induction s as [|c s IH]; [reflexivity|]. unfold allDigits in *. cbn. rewrite andb_true_iff. intros [A B]. rewrite (IH B), orb_false_r.
  unfold is_digit_byte, in_range in A. rewrite andb_true_iff, !N.leb_le in A. unfold isBlankByte.
  rewrite !orb_false_iff, !N.eqb_neq. lia.
Qed.
Lemma decimal_no_blank s z : Decimal s z -> sexists isBlankByte s = false.
Proof.
  intros H. destruct H as [s n D|s n D|s n D]; apply DigitsOf_sval in D; destruct D as (A & _);
  try rewrite sexists_app; rewrite (digits_no_blank _ A); reflexivity.
Qed.
Lemma decimal_start s z : Decimal s z -> exists c r, s = String c r /\ (N_of_byte c <> 34)%N /\ (N_of_byte c <> 110)%N /\
  ((N_of_byte c =? 45)%N || is_digit_byte c = true \/ c = byte_of_N 43).
Proof.
  intros H. destruct H as [s n D|s n D|s n D].
  - destruct (DigitsOf_sval _ _ D) as (A & NE & _). destruct s as [|c r]; [congruence|]. exists c, r. split; [reflexivity|].
    unfold allDigits in A. cbn in A. apply andb_true_iff in A. destruct A as [A _]. rewrite A, orb_true_r.
    unfold is_digit_byte, in_range in A. rewrite andb_true_iff, !N.leb_le in A. repeat split; try lia; auto.
  - do 2 eexists. split; [reflexivity|]. repeat split; try discriminate; auto.
  - do 2 eexists. split; [reflexivity|]. repeat split; try discriminate; auto.
Qed.

Lemma get_last s c : String.get (String.length (s ++ String c EmptyString) - 1) (s ++ String c EmptyString) = Some c.
Proof.
  rewrite slength_app. cbn [String.length]. replace (String.length s + 1 - 1) with (String.length s) by lia.
  induction s as [|d s IH]; [reflexivity|]. exact IH.
Qed.

Lemma quoted_parts d : take (String.length (chr 34 ++ d ++ chr 34) - 2) (drop 1 (chr 34 ++ d ++ chr 34)) = d.
Proof.
  rewrite !slength_app. cbn [chr String.length]. replace (1 + (String.length d + 1) - 2) with (String.length d) by lia.
  change (drop 1 (chr 34 ++ d ++ chr 34)) with (d ++ chr 34)%string. rewrite take_app. reflexivity.
Qed.

Lemma quoted_ends t : t <> EmptyString -> (2 <= String.length t) -> String.get 0 t = Some (byte_of_N 34) -> lastByte t = Some (byte_of_N 34) ->
  exists d, t = (chr 34 ++ d ++ chr 34)%string.
Proof.
  intros _ L G H. destruct t as [|c t]; [discriminate G|]. cbn in G. injection G as ->.
  destruct t as [|t e] using snoc_ind; [cbn in L; lia|].
  exists t. unfold lastByte in H.
  assert (G : String.get _ _ = Some e) by exact (get_last (String (byte_of_N 34) t) e).
  assert (E : Some e = Some (byte_of_N 34)) by (rewrite <- G; exact H). injection E as ->. reflexivity.
Qed.

Theorem bigUnmarshalText_iff old t z : bigUnmarshalText old t = Some z <->
  (t = EmptyString \/ t = "null") /\ z = old \/
  (exists c r, t = String c r /\ c <> byte_of_N 43) /\ Decimal t z \/
  exists d, t = (chr 34 ++ d ++ chr 34)%string /\ Decimal d z.
Proof.
  unfold bigUnmarshalText. destruct t as [|c r].
  { split; [intros [= ->]; auto|]. intros [[_ ->]|[[(c & r & E & _) _]|(d & E & _)]]; [reflexivity|discriminate|discriminate]. }
  destruct (String.eqb_spec (String c r) "null") as [E|NN].
  { split; [intros [= ->]; auto|]. intros [[_ ->]|[[_ D]|(d & E' & _)]]; [reflexivity| |rewrite E in E'; discriminate].
    destruct (decimal_start _ _ D) as (c' & r' & E' & _ & N & _). rewrite E in E'. injection E' as <- _. cbn in N. congruence. }
  destruct (sexists isBlankByte (String c r)) eqn:B.
  { split; [discriminate|]. intros [[[?|?] _]|[[_ D]|(d & E & D)]]; [discriminate|contradiction| |]; apply decimal_no_blank in D; [congruence|].
    rewrite E in B. rewrite !sexists_app, D in B. discriminate. }
  destruct ((N_of_byte c =? 45)%N || is_digit_byte c) eqn:S.
  { rewrite setString10_iff. split.
    - intros D. right. left. split; [|exact D]. exists c, r. split; [reflexivity|]. intros ->. discriminate S.
    - intros [[[?|?] _]|[[_ D]|(d & E & D)]]; [discriminate|contradiction|exact D|]. injection E as -> _. discriminate S. }
  assert (NP : forall z, (exists c0 r0, String c r = String c0 r0 /\ c0 <> byte_of_N 43) -> ~ Decimal (String c r) z).
  { intros y (c0 & r0 & E & N) D. injection E as <- <-. destruct (decimal_start _ _ D) as (c' & r' & E' & _ & _ & [K|K]); injection E' as <- <-; congruence. }
  destruct ((String.length (String c r) <? 2)%nat || _ || _) eqn:Q.
  { split; [discriminate|]. intros [[[?|?] _]|[[X D]|(d & E & D)]]; [discriminate|contradiction|exfalso; exact (NP z X D)|].
    exfalso. rewrite E in Q. rewrite !slength_app in Q. cbn [chr String.length] in Q.
    replace (1 + (String.length d + 1) <? 2)%nat with false in Q by (symmetry; apply Nat.ltb_ge; lia).
    assert (LB : lastByte (chr 34 ++ d ++ chr 34) = Some (byte_of_N 34)) by exact (get_last (chr 34 ++ d) (byte_of_N 34)).
    rewrite LB in Q. injection E as -> _. discriminate Q. }
  apply orb_false_iff in Q. destruct Q as [Q Q3]. apply orb_false_iff in Q. destruct Q as [Q1 Q2].
  apply Nat.ltb_ge in Q1. apply negb_false_iff in Q2, Q3. apply str_chr in Q2. subst c.
  destruct (lastByte _) as [e|] eqn:EL in Q3; [|discriminate]. apply str_chr in Q3. subst e.
  destruct (quoted_ends (String (byte_of_N 34) r)) as (d & E); try assumption; [discriminate|reflexivity|]. rewrite E, quoted_parts, setString10_iff. split.
  - intros D. right. right. eauto.
  - intros [[[X|X] _]|[[X D]|(d' & E' & D)]]; [discriminate X|rewrite <- E in X; contradiction|exfalso; rewrite <- E in X, D; exact (NP z X D)|].
    cbn in E'. injection E' as E'. apply (f_equal (fun s => take (String.length s - 1) s)) in E'.
    rewrite !slength_app in E'. cbn [chr String.length] in E'. rewrite !Nat.add_sub, !take_app in E'. congruence.
Qed.

Theorem bigUnmarshalJSON_eq old t : bigUnmarshalJSON old t = bigUnmarshalText old t.
Proof. unfold bigUnmarshalJSON. destruct (String.eqb_spec t "null") as [->|]; reflexivity. Qed.

(** ** Binary *)

Lemma setBytes_snoc s c : bigSetBytes (s ++ String c EmptyString) = (bigSetBytes s * 256 + N_of_byte c)%N.
Proof.
  unfold bigSetBytes. assert (E : list_ascii_of_string (s ++ String c EmptyString) = list_ascii_of_string s ++ [c]).
  { induction s as [|d s IH]; [reflexivity|]. cbn. rewrite IH. reflexivity. }
  rewrite E, fold_left_app. reflexivity.
Qed.

Lemma soa_app a b : string_of_list_ascii (a ++ b) = (string_of_list_ascii a ++ string_of_list_ascii b)%string.
Proof. induction a as [|c a IH]; [reflexivity|]. cbn. rewrite IH. reflexivity. Qed.

Lemma littleEndian_back k : forall n, (n < 2 ^ N.of_nat k)%N -> bigSetBytes (string_of_list_ascii (rev (littleEndian k n))) = n.
Proof.
  induction k as [|k IH]; intros n H.
  - cbn in H. cbn. lia.
  - cbn [littleEndian]. destruct (N.eqb_spec n 0) as [->|NZ]; [reflexivity|].
    cbn [rev]. rewrite soa_app. cbn [string_of_list_ascii]. rewrite setBytes_snoc, IH.
    + rewrite N_of_byte_of_N by (apply N.mod_lt; lia). lia.
    + rewrite Nat2N.inj_succ, N.pow_succ_r' in H.
      apply N.div_lt_upper_bound; [lia|]. nia.
Qed.

Lemma bigBytes_back z : bigSetBytes (bigBytes z) = Z.abs_N z.
Proof.
  unfold bigBytes. apply littleEndian_back. rewrite N2Nat.id. apply N.size_gt.
Qed.

Theorem binary_back z : bigUnmarshalBinary (bigMarshalBinary z) = z.
Proof.
  unfold bigMarshalBinary, bigUnmarshalBinary. pose proof (bigBytes_back z) as B.
  assert (E : Z.of_N (match bigBytes z with EmptyString => 0%N | _ => bigSetBytes (bigBytes z) end) = Z.abs z).
  { destruct (bigBytes z) eqn:E; [|rewrite B; apply N2Z.inj_abs_N].
    cbn in B. rewrite <- N2Z.inj_abs_N, <- B. reflexivity. }
  cbv zeta. rewrite E. destruct (Z.ltb_spec z 0).
  - rewrite N_of_byte_of_N by lia. cbn [N.eqb Pos.eqb]. lia.
  - rewrite N_of_byte_of_N by lia. cbn [N.eqb]. lia.
Qed.

(** ** Databases *)

Lemma cutE_none s : (forall c, In c (list_ascii_of_string s) -> N_of_byte c <> 101%N) -> cutE s = (s, None).
Proof.
  induction s as [|c s IH]; intros H; [reflexivity|]. cbn [cutE].
  replace (N_of_byte c =? 101)%N with false by (symmetry; apply N.eqb_neq, H; left; reflexivity).
  rewrite IH; [reflexivity|]. intros d Hd. apply H. right. exact Hd.
Qed.
Lemma cutE_some s x : (forall c, In c (list_ascii_of_string s) -> N_of_byte c <> 101%N) -> cutE (s ++ "e" ++ x) = (s, Some x).
Proof.
  induction s as [|c s IH]; intros H; [reflexivity|]. cbn [append cutE].
  replace (N_of_byte c =? 101)%N with false by (symmetry; apply N.eqb_neq, H; left; reflexivity).
  cbn [append] in IH. rewrite IH; [reflexivity|]. intros d Hd. apply H. right. exact Hd.
Qed.
Lemma digits_no_e s : allDigits s = true -> forall c, In c (list_ascii_of_string s) -> N_of_byte c <> 101%N.
Proof.
  unfold allDigits. induction s as [|d s IH]; intros A c; [intros []|]. cbn [sforall] in A. apply andb_true_iff in A. destruct A as [A B].
  intros [<-|H]; [|auto]. unfold is_digit_byte, in_range in A. rewrite andb_true_iff, !N.leb_le in A. lia.
Qed.
Lemma decimal_no_e s z : Decimal s z -> forall c, In c (list_ascii_of_string s) -> N_of_byte c <> 101%N.
Proof.
  intros H. destruct H as [s n D|s n D|s n D]; destruct (DigitsOf_sval _ _ D) as (A & _); intros c; [exact (digits_no_e s A c)| |];
  (intros [<-|H]; [discriminate|exact (digits_no_e s A c H)]).
Qed.
Lemma cutE_inv s : forall a b, cutE s = (a, b) -> s = (match b with None => a | Some x => a ++ "e" ++ x end)%string.
Proof.
  induction s as [|c s IH]; intros a b; cbn [cutE]; [intros [= <- <-]; reflexivity|].
  destruct (N_of_byte c =? 101)%N eqn:E; [intros [= <- <-]; apply str_chr in E; subst c; reflexivity|].
  destruct (cutE s) as [a' b'] eqn:K. intros [= <- <-]. rewrite (IH a' b' eq_refl). destruct b'; reflexivity.
Qed.
