(** Facts about the JSON reader and writer of Json.v: reading what was written
    gives the value back; what is written contains no line feed. *)
From Verif Require Import Base BaseProofs Utf8 Utf8Proofs Json.

(** ** Specification vocabulary *)

(** the strings Go can represent on the wire without loss *)
Definition ValidUtf8 (s : string) : Prop :=
  exists rs, forallb valid_rune rs = true /\ s = encode rs.

(** the literal is a JSON number: a minus, an integer part, a fraction, an exponent *)
Definition NumLit (l : string) : Prop := readNum l = Some (l, EmptyString).

Fixpoint jdepth (j : json) : nat :=
  match j with
  | JArr l => S ((fix go l := match l with [] => 0 | x :: r => Nat.max (jdepth x) (go r) end) l)
  | JObj l => S ((fix go l := match l with [] => 0 | (_, x) :: r => Nat.max (jdepth x) (go r) end) l)
  | _ => 0
  end.

Fixpoint jsize (j : json) : nat :=
  match j with
  | JArr l => S ((fix go l := match l with [] => 0 | x :: r => S (jsize x + go r) end) l)
  | JObj l => S ((fix go l := match l with [] => 0 | (_, x) :: r => S (jsize x + go r) end) l)
  | _ => 1
  end.

Inductive JWf : json -> Prop :=
| WfNull : JWf JNull
| WfBool b : JWf (JBool b)
| WfNum l : NumLit l -> JWf (JNum l)
| WfStr s : ValidUtf8 s -> JWf (JStr s)
| WfArr l : (forall x, In x l -> JWf x) -> JWf (JArr l)
| WfObj l : (forall k x, In (k, x) l -> ValidUtf8 k /\ JWf x) -> JWf (JObj l).

(** only the numbers are literals; strings are arbitrary bytes *)
Inductive JNums : json -> Prop :=
| NmNull : JNums JNull
| NmBool b : JNums (JBool b)
| NmNum l : NumLit l -> JNums (JNum l)
| NmStr s : JNums (JStr s)
| NmArr l : (forall x, In x l -> JNums x) -> JNums (JArr l)
| NmObj l : (forall k x, In (k, x) l -> JNums x) -> JNums (JObj l).

(** every byte that is part of no UTF-8 sequence becomes U+FFFD *)
Definition san (s : string) : string := encode (decode s).
Fixpoint sanJ (j : json) : json :=
  match j with
  | JStr s => JStr (san s)
  | JArr l => JArr (map sanJ l)
  | JObj l => JObj (map (fun e => (san (fst e), sanJ (snd e))) l)
  | _ => j
  end.

Lemma json_ind' (P : json -> Prop) :
  P JNull -> (forall b, P (JBool b)) -> (forall l, P (JNum l)) -> (forall s, P (JStr s)) ->
  (forall l, (forall x, In x l -> P x) -> P (JArr l)) ->
  (forall l, (forall k x, In (k, x) l -> P x) -> P (JObj l)) ->
  forall j, P j.
Proof.
  intros H1 H2 H3 H4 H5 H6. fix IH 1. intros [ | b | l | s | l | l];
    [exact H1|apply H2|apply H3|apply H4| |].
  - apply H5. induction l as [|a l IHl]; intros x; simpl; [tauto|].
    intros [<-|H]; [apply IH|apply IHl; exact H].
  - apply H6. induction l as [|[k a] l IHl]; intros k' x; simpl; [tauto|].
    intros [E|H]; [injection E as <- <-; apply IH | exact (IHl k' x H)].
Qed.

(** ** Strings *)
Local Open Scope N_scope.

Lemma app_assoc_s (a b c : string) : ((a ++ b) ++ c)%string = (a ++ (b ++ c))%string.
Proof. induction a; simpl; congruence. Qed.
Lemma app_nil_r_s (a : string) : (a ++ EmptyString)%string = a.
Proof. induction a; simpl; congruence. Qed.
Lemma length_app_s a b : String.length (a ++ b)%string = (String.length a + String.length b)%nat.
Proof. induction a; simpl; congruence. Qed.

Lemma encode_rune_cons r : valid_rune r = true ->
  exists c t, encode_rune r = String c t /\
    ((r < 128 /\ c = byte_of_N r /\ t = EmptyString) \/
     (128 <= r /\ 128 <= N_of_byte c)).
Proof.
  intros V. unfold encode_rune. rewrite V. unfold encode_valid.
  unfold valid_rune in V.
  destruct (r <? 0x80) eqn:E1.
  { exists (byte_of_N r), EmptyString. split; [reflexivity|]. left.
    apply N.ltb_lt in E1. auto. }
  apply N.ltb_ge in E1.
  assert (B : r <= 0x10FFFF) by
    (apply orb_true_iff in V; rewrite andb_true_iff, N.ltb_lt, !N.leb_le in V; lia).
  destruct (r <? 0x800) eqn:E2; [|destruct (r <? 0x10000) eqn:E3];
  eexists; eexists; (split; [reflexivity|right; split; [lia|]]);
  rewrite ?N.ltb_lt, ?N.ltb_ge in *;
  rewrite N_of_byte_of_N.
  - lia.
  - assert (r / 64 < 0x20) by (apply N.div_lt_upper_bound; lia). lia.
  - lia.
  - assert (r / 4096 < 0x10) by (apply N.div_lt_upper_bound; lia). lia.
  - lia.
  - assert (r / 262144 < 5) by (apply N.div_lt_upper_bound; lia). lia.
Qed.

Lemma decode_rune_encode r c t rest : valid_rune r = true -> encode_rune r = String c t ->
  decode_rune c (t ++ rest) = (r, rest).
Proof.
  intros V E. destruct (decode_encode_rune r rest V) as (c' & t' & E' & D).
  rewrite E in E'. simpl in E'. injection E' as <- <-. exact D.
Qed.

Lemma hexVal_hexDigit n : n < 16 -> hexVal (hexDigit n) = Some n.
Proof.
  intros H.
  assert (In n (map N.of_nat (seq 0 16))) as I.
  { apply in_map_iff. exists (N.to_nat n). rewrite in_seq. lia. }
  revert I. generalize n. apply Forall_forall. repeat constructor.
Qed.

Lemma getu4_uEscape n s : n < 65536 ->
  getu4 (String (hexDigit (n / 4096 mod 16)) (String (hexDigit (n / 256 mod 16))
    (String (hexDigit (n / 16 mod 16)) (String (hexDigit (n mod 16)) s)))) = Some (n, s).
Proof.
  intros H. unfold getu4. rewrite !hexVal_hexDigit by (apply N.mod_lt; lia).
  do 2 f_equal.
  assert (E0 : n = 16 * (n / 16) + n mod 16) by (apply N.div_mod; lia).
  assert (E1 : n / 16 = 16 * (n / 16 / 16) + n / 16 mod 16) by (apply N.div_mod; lia).
  assert (E2 : n / 16 / 16 = 16 * (n / 16 / 16 / 16) + n / 16 / 16 mod 16) by (apply N.div_mod; lia).
  rewrite !N.div_div in * by lia. simpl (16 * 16) in *. simpl (256 * 16) in *.
  change (16*(16*16)) with 4096 in *. change (16*16) with 256 in *.
  assert (n / 4096 < 16) by (apply N.div_lt_upper_bound; lia).
  rewrite (N.mod_small (n / 4096)) by lia. lia.
Qed.

Lemma readChar_u n s : n < 65536 -> isSurrogate n = false ->
  readChar (byte_of_N 92) (String "u" (String (hexDigit (n / 4096 mod 16)) (String (hexDigit (n / 256 mod 16))
    (String (hexDigit (n / 16 mod 16)) (String (hexDigit (n mod 16)) s))))) =
  Some (encode_rune n, s).
Proof.
  intros H S. unfold readChar. simpl (N_of_byte (byte_of_N 92) =? 92).
  cbv iota. simpl (N_of_byte "u").
  cbn [N.eqb Pos.eqb orb]. rewrite getu4_uEscape by assumption.
  unfold unescapeU. rewrite S. reflexivity.
Qed.

(** the writer's form of one rune is read back as that rune *)
Lemma read_escRune r rest : valid_rune r = true ->
  exists c t, (escRune r ++ rest)%string = String c t /\ (N_of_byte c =? 34) = false /\
    readChar c t = Some (encode_rune r, rest).
Proof.
  intros V. unfold escRune.
  destruct (r =? 34) eqn:E34; [apply N.eqb_eq in E34; subst; do 2 eexists; split; [reflexivity|split; reflexivity]|].
  destruct (r =? 92) eqn:E92; [apply N.eqb_eq in E92; subst; do 2 eexists; split; [reflexivity|split; reflexivity]|].
  destruct (r =? 8) eqn:E8; [apply N.eqb_eq in E8; subst; do 2 eexists; split; [reflexivity|split; reflexivity]|].
  destruct (r =? 12) eqn:E12; [apply N.eqb_eq in E12; subst; do 2 eexists; split; [reflexivity|split; reflexivity]|].
  destruct (r =? 10) eqn:E10; [apply N.eqb_eq in E10; subst; do 2 eexists; split; [reflexivity|split; reflexivity]|].
  destruct (r =? 13) eqn:E13; [apply N.eqb_eq in E13; subst; do 2 eexists; split; [reflexivity|split; reflexivity]|].
  destruct (r =? 9) eqn:E9; [apply N.eqb_eq in E9; subst; do 2 eexists; split; [reflexivity|split; reflexivity]|].
  assert (U : r < 65536 -> isSurrogate r = false ->
    exists c t, (uEscape r ++ rest)%string = String c t /\ (N_of_byte c =? 34) = false /\
    readChar c t = Some (encode_rune r, rest)).
  { intros L S. do 2 eexists. split; [reflexivity|]. split; [reflexivity|].
    apply (readChar_u r rest L S). }
  destruct (r <? 32) eqn:E32.
  { apply N.ltb_lt in E32. apply U; [lia|]. unfold isSurrogate, in_range.
    apply andb_false_iff. left. apply N.leb_gt. lia. }
  destruct ((r =? 60) || (r =? 62) || (r =? 38)) eqn:EH.
  { rewrite !orb_true_iff, !N.eqb_eq in EH. destruct EH as [[->| ->]| ->]; apply U; reflexivity || lia. }
  destruct ((r =? 0x2028) || (r =? 0x2029)) eqn:EL.
  { rewrite !orb_true_iff, !N.eqb_eq in EL. destruct EL as [->| ->]; apply U; reflexivity || lia. }
  apply N.ltb_ge in E32.
  destruct (encode_rune_cons r V) as (c & t & E & C).
  pose proof (decode_rune_encode r c t rest V E) as D. rewrite E.
  exists c, (t ++ rest)%string. split; [reflexivity|].
  destruct C as [(L & -> & ->)|(L & B)].
  - assert (N_of_byte (byte_of_N r) = r) as EB by (apply N_of_byte_of_N; lia).
    rewrite EB. split; [assumption|]. unfold readChar. rewrite EB, E92.
    replace (r <? 32) with false by (symmetry; apply N.ltb_ge; lia).
    replace (r <? 128) with true by (symmetry; apply N.ltb_lt; lia).
    rewrite <- E. reflexivity.
  - split; [apply N.eqb_neq; lia|]. unfold readChar.
    replace (N_of_byte c =? 92) with false by (symmetry; apply N.eqb_neq; lia).
    replace (N_of_byte c <? 32) with false by (symmetry; apply N.ltb_ge; lia).
    replace (N_of_byte c <? 128) with false by (symmetry; apply N.ltb_ge; lia).
    rewrite D, E. reflexivity.
Qed.

Lemma escFirst_encode r c t rest : valid_rune r = true -> encode_rune r = String c t ->
  escFirst c (t ++ rest) = (escRune r, rest).
Proof.
  intros V E. unfold escFirst.
  pose proof (decode_rune_encode r c t rest V E) as D. rewrite D.
  destruct (r =? replacement) eqn:R; [|reflexivity].
  apply N.eqb_eq in R. subst r.
  vm_compute in E. injection E as <- <-. simpl.
  replace (String.length rest =? S (S (String.length rest)))%nat with false
    by (symmetry; apply Nat.eqb_neq; lia). reflexivity.
Qed.

Lemma read_escFirst c s o s' rest : escFirst c s = (o, s') ->
  exists c' t, (o ++ rest)%string = String c' t /\ (N_of_byte c' =? 34) = false /\
    readChar c' t = Some (encode_rune (fst (decode_rune c s)), rest) /\ s' = snd (decode_rune c s).
Proof.
  unfold escFirst. pose proof (decode_rune_valid c s) as V.
  destruct (decode_rune c s) as [r s2]. cbn [fst snd] in *.
  destruct ((r =? replacement) && (String.length s2 =? String.length s)%nat) eqn:E; intros [= <- <-].
  - apply andb_true_iff in E. destruct E as [E _]. apply N.eqb_eq in E. subst r.
    do 2 eexists. split; [reflexivity|]. split; [reflexivity|]. split; [|reflexivity].
    apply (readChar_u replacement rest); reflexivity.
  - destruct (read_escRune r rest V) as (c' & t & E1 & E2 & E3). exists c', t. auto.
Qed.

Lemma readStr_escFuel k : forall s n rest, (String.length s <= k)%nat ->
  (String.length (escFuel k s) < n)%nat ->
  readStr n (escFuel k s ++ String (byte_of_N 34) rest) = Some (encode (decode_fuel k s), rest).
Proof.
  induction k as [|k IH]; intros s n rest L Ln.
  - destruct s; [|simpl in L; lia]. destruct n as [|n]; [simpl in Ln; lia|]. reflexivity.
  - destruct s as [|c s].
    + destruct n as [|n]; [simpl in Ln; lia|]. reflexivity.
    + cbn [escFuel] in *. destruct (escFirst c s) as [o s'] eqn:E. rewrite length_app_s in Ln. rewrite app_assoc_s.
      destruct (read_escFirst c s o s' (escFuel k s' ++ String (byte_of_N 34) rest) E) as (c' & t & E1 & E2 & E3 & E4).
      pose proof (read_escFirst c s o s' EmptyString E) as (c2 & t2 & O & _).
      assert (1 <= String.length o)%nat by (rewrite app_nil_r_s in O; rewrite O; simpl; lia).
      destruct n as [|n]; [lia|]. rewrite E1. cbn [readStr]. rewrite E2, E3.
      assert (String.length s' <= String.length s)%nat as LS.
      { subst s'. clear. unfold decode_rune.
        repeat match goal with
        | |- context[if ?b then _ else _] => destruct b
        | |- context[match ?x with EmptyString => _ | String _ _ => _ end] => destruct x
        end; simpl; lia. }
      rewrite IH; [|simpl in L; lia|lia].
      cbn [decode_fuel]. destruct (decode_rune c s) as [r s2]. cbn [fst snd] in *. subst s2. reflexivity.
Qed.

Lemma readStr_quote s n rest : (String.length (escape s) < n)%nat ->
  readStr n (escape s ++ String (byte_of_N 34) rest) = Some (san s, rest).
Proof. intros L. apply readStr_escFuel; auto. Qed.

Lemma san_valid s : ValidUtf8 s -> san s = s.
Proof. intros (rs & V & ->). unfold san. rewrite decode_encode by assumption. reflexivity. Qed.

(** ** Numbers *)

(** a byte that cannot continue a number *)
Definition numDelim (s : string) : Prop :=
  match s with
  | EmptyString => True
  | String c _ => is_digit_byte c = false /\ N_of_byte c <> 46 /\ N_of_byte c <> 101 /\ N_of_byte c <> 69
  end.

Lemma digits_app s a b t : digits s = (a, b) -> (b <> EmptyString \/ numDelim t) ->
  digits (s ++ t) = (a, (b ++ t)%string).
Proof.
  revert a b. induction s as [|c s IH]; intros a b E H; simpl in *.
  - injection E as <- <-. destruct H as [H|H]; [congruence|].
    destruct t as [|c t]; [reflexivity|]. simpl in *. destruct H as [H _]. rewrite H. reflexivity.
  - destruct (is_digit_byte c) eqn:D.
    + destruct (digits s) as [a' b'] eqn:E'. injection E as <- <-.
      rewrite (IH a' b') by auto. reflexivity.
    + injection E as <- <-. reflexivity.
Qed.

Lemma readInt_app s a b t : readInt s = Some (a, b) -> (b <> EmptyString \/ numDelim t) ->
  readInt (s ++ t) = Some (a, (b ++ t)%string).
Proof.
  destruct s as [|c s]; [discriminate|]. unfold readInt. cbn [append].
  destruct (N_of_byte c =? 48); [intros [= <- <-] _; reflexivity|].
  destruct (is_digit_byte c) eqn:D; [|discriminate].
  intros [= E] H. f_equal. exact (digits_app (String c s) a b t E H).
Qed.

Lemma readFrac_app s a b t : readFrac s = Some (a, b) -> (b <> EmptyString \/ numDelim t) ->
  readFrac (s ++ t) = Some (a, (b ++ t)%string).
Proof.
  destruct s as [|c s].
  - intros [= <- <-] H. destruct H as [H|H]; [congruence|]. simpl.
    destruct t as [|c t]; [reflexivity|]. simpl in *.
    replace (N_of_byte c =? 46) with false by (symmetry; apply N.eqb_neq; tauto). reflexivity.
  - unfold readFrac. cbn [append]. destruct (N_of_byte c =? 46).
    + destruct (digits s) as [d r] eqn:D. intros E H.
      destruct (isEmptyStr d) eqn:I; [discriminate|]. injection E as <- <-.
      rewrite (digits_app s d r t) by assumption. rewrite I. reflexivity.
    + intros [= <- <-] _. reflexivity.
Qed.

Lemma readExp_app s a b t : readExp s = Some (a, b) -> (b <> EmptyString \/ numDelim t) ->
  readExp (s ++ t) = Some (a, (b ++ t)%string).
Proof.
  destruct s as [|c s].
  - intros [= <- <-] H. destruct H as [H|H]; [congruence|]. simpl.
    destruct t as [|c t]; [reflexivity|]. simpl in *.
    replace (N_of_byte c =? 101) with false by (symmetry; apply N.eqb_neq; tauto).
    replace (N_of_byte c =? 69) with false by (symmetry; apply N.eqb_neq; tauto). reflexivity.
  - unfold readExp. cbn [append]. destruct ((N_of_byte c =? 101) || (N_of_byte c =? 69)).
    + destruct s as [|c2 s].
      * simpl. intros E. discriminate.
      * cbn [append]. destruct ((N_of_byte c2 =? 43) || (N_of_byte c2 =? 45)).
        -- destruct (digits s) as [d r] eqn:D. intros E H.
           destruct (isEmptyStr d) eqn:I; [discriminate|]. injection E as <- <-.
           rewrite (digits_app s d r t) by assumption. rewrite I. reflexivity.
        -- destruct (digits (String c2 s)) as [d r] eqn:D. intros E H.
           destruct (isEmptyStr d) eqn:I; [discriminate|]. injection E as <- <-.
           change (String c2 (s ++ t)) with (String c2 s ++ t)%string.
           rewrite (digits_app (String c2 s) d r t) by assumption. rewrite I. reflexivity.
    + intros [= <- <-] _. reflexivity.
Qed.

Lemma numDelim_left s t : s <> EmptyString \/ numDelim t -> s <> EmptyString \/ numDelim t.
Proof. auto. Qed.

Lemma readNum_app l t : NumLit l -> numDelim t -> readNum (l ++ t) = Some (l, t).
Proof.
  unfold NumLit, readNum. intros E H.
  destruct l as [|c l]; [discriminate|]. cbn [append].
  assert (exists sg s1, (if N_of_byte c =? 45 then (chr 45, l) else (EmptyString, String c l)) = (sg, s1)
    /\ (if N_of_byte c =? 45 then (chr 45, (l ++ t)%string) else (EmptyString, String c (l ++ t))) = (sg, (s1 ++ t)%string))
    as (sg & s1 & E1 & E2).
  { destruct (N_of_byte c =? 45); do 2 eexists; split; reflexivity. }
  rewrite E1 in E. rewrite E2.
  destruct (readInt s1) as [[i s2]|] eqn:Ei; [|discriminate].
  destruct (readFrac s2) as [[f s3]|] eqn:Ef; [|discriminate].
  destruct (readExp s3) as [[e s4]|] eqn:Ee; [|discriminate].
  injection E as E ->.
  rewrite (readInt_app _ _ _ t Ei) by auto.
  rewrite (readFrac_app _ _ _ t Ef) by auto.
  rewrite (readExp_app _ _ _ t Ee) by auto.
  simpl. rewrite E. reflexivity.
Qed.

(** a number literal starts with a minus or a digit *)
Lemma NumLit_first l : NumLit l -> exists c r, l = String c r /\ (N_of_byte c = 45 \/ is_digit_byte c = true).
Proof.
  unfold NumLit, readNum. destruct l as [|c l]; [discriminate|].
  intros E. exists c, l. split; [reflexivity|].
  destruct (N_of_byte c =? 45) eqn:M; [left; apply N.eqb_eq; assumption|].
  simpl in E. right.
  destruct (N_of_byte c =? 48) eqn:Z.
  - apply N.eqb_eq in Z. unfold is_digit_byte, in_range. rewrite Z. reflexivity.
  - destruct (is_digit_byte c); [reflexivity|discriminate].
Qed.

(** ** Values *)
Local Open Scope nat_scope.

Fixpoint printElems (l : list json) : string :=
  match l with
  | [] => EmptyString
  | x :: r => (chr 44 ++ printJ x ++ printElems r)%string
  end.
Fixpoint printMembers (l : list (string * json)) : string :=
  match l with
  | [] => EmptyString
  | (k, x) :: r => (chr 44 ++ quoteJ k ++ chr 58 ++ printJ x ++ printMembers r)%string
  end.

Lemma printJ_arr x l : printJ (JArr (x :: l)) = (chr 91 ++ printJ x ++ printElems l ++ chr 93)%string.
Proof.
  cbn [printJ]. rewrite !sapp_assoc. f_equal.
  change ("" ++ ?x)%string with x. rewrite ?sapp_assoc. f_equal. f_equal.
  induction l as [|y l IH]; [reflexivity|]. cbn [printElems]. rewrite IH. reflexivity.
Qed.

Lemma printJ_obj k x l : printJ (JObj ((k, x) :: l)) =
  (chr 123 ++ quoteJ k ++ chr 58 ++ printJ x ++ printMembers l ++ chr 125)%string.
Proof.
  cbn [printJ]. rewrite !sapp_assoc. f_equal.
  change ("" ++ ?x)%string with x. rewrite ?sapp_assoc. do 4 f_equal.
  induction l as [|[k' y] l IH]; [reflexivity|]. cbn [printMembers]. rewrite IH. reflexivity.
Qed.

Fixpoint depthElems (l : list json) : nat :=
  match l with [] => 0 | x :: r => Nat.max (jdepth x) (depthElems r) end.
Fixpoint depthMembers (l : list (string * json)) : nat :=
  match l with [] => 0 | (_, x) :: r => Nat.max (jdepth x) (depthMembers r) end.
Fixpoint sizeElems (l : list json) : nat :=
  match l with [] => 0 | x :: r => S (jsize x + sizeElems r) end.
Fixpoint sizeMembers (l : list (string * json)) : nat :=
  match l with [] => 0 | (_, x) :: r => S (jsize x + sizeMembers r) end.

Lemma jdepth_arr l : jdepth (JArr l) = S (depthElems l).
Proof. cbn [jdepth]. f_equal. Qed.
Lemma jdepth_obj l : jdepth (JObj l) = S (depthMembers l).
Proof. cbn [jdepth]. f_equal. Qed.
Lemma jsize_arr l : jsize (JArr l) = S (sizeElems l).
Proof. cbn [jsize]. f_equal. Qed.
Lemma jsize_obj l : jsize (JObj l) = S (sizeMembers l).
Proof. cbn [jsize]. f_equal. Qed.

(** the writer starts a value with a byte that is no white space and no bracket end *)
Lemma printJ_first j : JNums j -> exists c t, printJ j = String c t /\ isWs c = false /\
  (N_of_byte c =? 93)%N = false /\ (N_of_byte c =? 125)%N = false.
Proof.
  intros W. destruct W as [ |b|l L|s|l H|l H].
  - do 2 eexists; repeat split.
  - destruct b; do 2 eexists; repeat split.
  - destruct (NumLit_first l L) as (c & r & -> & D). exists c, r. split; [reflexivity|].
    assert (N_of_byte c = 45 \/ (48 <= N_of_byte c <= 57))%N as B.
    { destruct D as [D|D]; [left; exact D|right]. unfold is_digit_byte, in_range in D.
      rewrite andb_true_iff, !N.leb_le in D. lia. }
    unfold isWs. split; [|split; apply N.eqb_neq; lia].
    rewrite !orb_false_iff, !N.eqb_neq. lia.
  - do 2 eexists; repeat split.
  - destruct l as [|x l]; [do 2 eexists; repeat split|]. rewrite printJ_arr. do 2 eexists; repeat split.
  - destruct l as [|[k x] l]; [do 2 eexists; repeat split|]. rewrite printJ_obj. do 2 eexists; repeat split.
Qed.

Lemma skipWs_id c t : isWs c = false -> skipWs (String c t) = String c t.
Proof. intros H. simpl. rewrite H. reflexivity. Qed.

Lemma skipWs_print j t : JNums j -> skipWs (printJ j ++ t) = (printJ j ++ t)%string.
Proof.
  intros W. destruct (printJ_first j W) as (c & r & E & S & _). rewrite E. simpl. rewrite S. reflexivity.
Qed.

Lemma quoteJ_app s t : (quoteJ s ++ t)%string = String (byte_of_N 34) (escape s ++ String (byte_of_N 34) t).
Proof. unfold quoteJ, chr. simpl. rewrite sapp_assoc. reflexivity. Qed.

Lemma readStr_quoteJ s t :
  readStr (S (String.length (escape s ++ String (byte_of_N 34) t))) (escape s ++ String (byte_of_N 34) t) = Some (san s, t).
Proof. apply readStr_quote. rewrite slength_app. simpl. lia. Qed.

Definition ReadsBack (j : json) : Prop :=
  forall n d rest, JNums j -> jsize j <= n -> (N.of_nat (jdepth j) <= d)%N -> numDelim rest ->
  readVal n d (printJ j ++ rest) = Some (sanJ j, rest).

Lemma numDelim_44 t : numDelim (String (byte_of_N 44) t).
Proof. repeat split; discriminate. Qed.
Lemma numDelim_93 t : numDelim (String (byte_of_N 93) t).
Proof. repeat split; discriminate. Qed.
Lemma numDelim_125 t : numDelim (String (byte_of_N 125) t).
Proof. repeat split; discriminate. Qed.

Lemma readElems_print : forall l x n d rest,
  ReadsBack x -> (forall y, In y l -> ReadsBack y) ->
  JNums x -> (forall y, In y l -> JNums y) ->
  S (jsize x + sizeElems l) <= n -> (N.of_nat (Nat.max (jdepth x) (depthElems l)) <= d)%N ->
  readElems n d (printJ x ++ printElems l ++ String (byte_of_N 93) rest) = Some (sanJ x :: map sanJ l, rest).
Proof.
  induction l as [|y l IH]; intros x n d rest Rx Rl Wx Wl L D;
  (destruct n as [|n]; [lia|]); cbn [readElems printElems append].
  - cbn [sizeElems depthElems] in *. rewrite (Rx n d _ Wx); [|lia|lia|apply numDelim_93].
    reflexivity.
  - cbn [sizeElems depthElems] in *.
    change (((chr 44 ++ printJ y ++ printElems l) ++ String (byte_of_N 93) rest))%string
      with (String (byte_of_N 44) ((printJ y ++ printElems l) ++ String (byte_of_N 93) rest)).
    rewrite (Rx n d _ Wx); [|lia|lia|apply numDelim_44].
    cbn [skipWs]. replace (isWs (byte_of_N 44)) with false by reflexivity.
    replace (N_of_byte (byte_of_N 44) =? 93)%N with false by reflexivity.
    replace (N_of_byte (byte_of_N 44) =? 44)%N with true by reflexivity.
    rewrite sapp_assoc, IH; [reflexivity|apply Rl; left; reflexivity|intros z Hz; apply Rl; right; exact Hz
      |apply Wl; left; reflexivity|intros z Hz; apply Wl; right; exact Hz|lia|lia].
Qed.

Lemma readMembers_print : forall l k x n d rest,
  ReadsBack x -> (forall k y, In (k, y) l -> ReadsBack y) ->
  JNums x -> (forall k y, In (k, y) l -> JNums y) ->
  S (jsize x + sizeMembers l) <= n -> (N.of_nat (Nat.max (jdepth x) (depthMembers l)) <= d)%N ->
  readMembers n d (quoteJ k ++ chr 58 ++ printJ x ++ printMembers l ++ String (byte_of_N 125) rest)
    = Some ((san k, sanJ x) :: map (fun e => (san (fst e), sanJ (snd e))) l, rest).
Proof.
  induction l as [|[k' y] l IH]; intros k x n d rest Rx Rl Wx Wl L D;
  (destruct n as [|n]; [lia|]); rewrite quoteJ_app;
  cbn [readMembers skipWs];
  (replace (isWs (byte_of_N 34)) with false by reflexivity);
  (replace (N_of_byte (byte_of_N 34) =? 34)%N with true by reflexivity);
  rewrite readStr_quoteJ;
  cbn [chr append skipWs];
  (replace (isWs (byte_of_N 58)) with false by reflexivity);
  (replace (N_of_byte (byte_of_N 58) =? 58)%N with true by reflexivity);
  cbn [sizeMembers depthMembers printMembers append] in *.
  - rewrite (Rx n d _ Wx); [|lia|lia|apply numDelim_125]. reflexivity.
  - unfold chr at 1. cbn [append].
    rewrite (Rx n d _ Wx); [|lia|lia|apply numDelim_44].
    cbn [skipWs]. replace (isWs (byte_of_N 44)) with false by reflexivity.
    replace (N_of_byte (byte_of_N 44) =? 125)%N with false by reflexivity.
    replace (N_of_byte (byte_of_N 44) =? 44)%N with true by reflexivity.
    assert (Wy : JNums y) by (apply (Wl k' y); left; reflexivity).
    rewrite !sapp_assoc, (IH k' y n d rest); [reflexivity|eapply Rl; left; reflexivity|intros ? z Hz; eapply Rl; right; exact Hz
      |exact Wy|intros ? z Hz; eapply Wl; right; exact Hz|lia|lia].
Qed.

Lemma reads_back j : ReadsBack j.
Proof.
  induction j as [ |b|l|s|l IH|l IH] using json_ind'; intros n d rest W L D N.
  - destruct n as [|n]; [simpl in L; lia|]. reflexivity.
  - destruct n as [|n]; [simpl in L; lia|]. destruct b; reflexivity.
  - destruct n as [|n]; [simpl in L; lia|].
    inversion W as [ | |? NL| | | ]; subst. cbn [printJ].
    destruct (NumLit_first l NL) as (c & r & E & F).
    assert (N_of_byte c = 45 \/ (48 <= N_of_byte c <= 57))%N as B.
    { destruct F as [F|F]; [left; exact F|right]. unfold is_digit_byte, in_range in F.
      rewrite andb_true_iff, !N.leb_le in F. lia. }
    pose proof (skipWs_print (JNum l) rest W) as SK. cbn [printJ] in SK.
    cbn [readVal]. rewrite SK. rewrite E at 1. cbn [append].
    replace (N_of_byte c =? 110)%N with false by (symmetry; apply N.eqb_neq; lia).
    replace (N_of_byte c =? 116)%N with false by (symmetry; apply N.eqb_neq; lia).
    replace (N_of_byte c =? 102)%N with false by (symmetry; apply N.eqb_neq; lia).
    replace (N_of_byte c =? 34)%N with false by (symmetry; apply N.eqb_neq; lia).
    replace (N_of_byte c =? 91)%N with false by (symmetry; apply N.eqb_neq; lia).
    replace (N_of_byte c =? 123)%N with false by (symmetry; apply N.eqb_neq; lia).
    change (String c (r ++ rest)) with (String c r ++ rest)%string. rewrite <- E.
    rewrite readNum_app by assumption. reflexivity.
  - destruct n as [|n]; [simpl in L; lia|].
    cbn [printJ]. rewrite quoteJ_app.
    cbn [readVal skipWs]. replace (isWs (byte_of_N 34)) with false by reflexivity.
    cbn [N_of_byte]. 
    replace (N_of_byte (byte_of_N 34) =? 110)%N with false by reflexivity.
    replace (N_of_byte (byte_of_N 34) =? 116)%N with false by reflexivity.
    replace (N_of_byte (byte_of_N 34) =? 102)%N with false by reflexivity.
    replace (N_of_byte (byte_of_N 34) =? 34)%N with true by reflexivity.
    rewrite readStr_quoteJ. reflexivity.
  - rewrite jsize_arr in L. rewrite jdepth_arr in D.
    inversion W as [ | | | |? WL| ]; subst.
    destruct n as [|n]; [lia|].
    destruct l as [|x l].
    + cbn [printJ append chr readVal skipWs].
      replace (isWs (byte_of_N 91)) with false by reflexivity.
      replace (N_of_byte (byte_of_N 91) =? 110)%N with false by reflexivity.
      replace (N_of_byte (byte_of_N 91) =? 116)%N with false by reflexivity.
      replace (N_of_byte (byte_of_N 91) =? 102)%N with false by reflexivity.
      replace (N_of_byte (byte_of_N 91) =? 34)%N with false by reflexivity.
      replace (N_of_byte (byte_of_N 91) =? 91)%N with true by reflexivity.
      replace (d =? 0)%N with false by (symmetry; apply N.eqb_neq; lia). reflexivity.
    + rewrite printJ_arr. unfold chr at 1. rewrite !sapp_assoc. cbn [append readVal].
      cbn [skipWs].
      replace (isWs (byte_of_N 91)) with false by reflexivity.
      replace (N_of_byte (byte_of_N 91) =? 110)%N with false by reflexivity.
      replace (N_of_byte (byte_of_N 91) =? 116)%N with false by reflexivity.
      replace (N_of_byte (byte_of_N 91) =? 102)%N with false by reflexivity.
      replace (N_of_byte (byte_of_N 91) =? 34)%N with false by reflexivity.
      replace (N_of_byte (byte_of_N 91) =? 91)%N with true by reflexivity.
      replace (d =? 0)%N with false by (symmetry; apply N.eqb_neq; lia).
      assert (Wx : JNums x) by (apply WL; left; reflexivity).
      rewrite (skipWs_print x _ Wx).
      destruct (printJ_first x Wx) as (c & t & E & _ & C93 & _).
      rewrite E at 1. cbn [append]. rewrite C93.
      cbn [sizeElems depthElems] in *.
      unfold chr. cbn [append].
      rewrite readElems_print; [reflexivity|apply IH; left; reflexivity|intros y Hy; apply IH; right; exact Hy
        |exact Wx|intros y Hy; apply WL; right; exact Hy|lia|lia].
  - rewrite jsize_obj in L. rewrite jdepth_obj in D.
    inversion W as [ | | | | |? WL]; subst.
    destruct n as [|n]; [lia|].
    destruct l as [|[k x] l].
    + cbn [printJ append chr readVal skipWs].
      replace (isWs (byte_of_N 123)) with false by reflexivity.
      replace (N_of_byte (byte_of_N 123) =? 110)%N with false by reflexivity.
      replace (N_of_byte (byte_of_N 123) =? 116)%N with false by reflexivity.
      replace (N_of_byte (byte_of_N 123) =? 102)%N with false by reflexivity.
      replace (N_of_byte (byte_of_N 123) =? 34)%N with false by reflexivity.
      replace (N_of_byte (byte_of_N 123) =? 91)%N with false by reflexivity.
      replace (N_of_byte (byte_of_N 123) =? 123)%N with true by reflexivity.
      replace (d =? 0)%N with false by (symmetry; apply N.eqb_neq; lia). reflexivity.
    + rewrite printJ_obj. unfold chr at 1. rewrite !sapp_assoc. cbn [append readVal].
      cbn [skipWs].
      replace (isWs (byte_of_N 123)) with false by reflexivity.
      replace (N_of_byte (byte_of_N 123) =? 110)%N with false by reflexivity.
      replace (N_of_byte (byte_of_N 123) =? 116)%N with false by reflexivity.
      replace (N_of_byte (byte_of_N 123) =? 102)%N with false by reflexivity.
      replace (N_of_byte (byte_of_N 123) =? 34)%N with false by reflexivity.
      replace (N_of_byte (byte_of_N 123) =? 91)%N with false by reflexivity.
      replace (N_of_byte (byte_of_N 123) =? 123)%N with true by reflexivity.
      replace (d =? 0)%N with false by (symmetry; apply N.eqb_neq; lia).
      assert (Wx : JNums x) by (apply (WL k x); left; reflexivity).
      rewrite quoteJ_app at 1. cbn [skipWs].
      replace (isWs (byte_of_N 34)) with false by reflexivity.
      replace (N_of_byte (byte_of_N 34) =? 125)%N with false by reflexivity.
      cbn [sizeMembers depthMembers] in *.
      unfold chr at 2. cbn [append].
      rewrite readMembers_print; [reflexivity|eapply IH; left; reflexivity|intros ? y Hy; eapply IH; right; exact Hy
        |exact Wx|intros ? y Hy; eapply WL; right; exact Hy|lia|lia].
Qed.

Lemma jsize_length j : JNums j -> jsize j <= 2 * String.length (printJ j).
Proof.
  induction j as [ |b|l|s|l IH|l IH] using json_ind'; intros W.
  - simpl; lia.
  - destruct b; simpl; lia.
  - destruct (printJ_first _ W) as (c & t & E & _). rewrite E. simpl. lia.
  - simpl. lia.
  - rewrite jsize_arr. inversion W as [ | | | |? WL| ]; subst. destruct l as [|x l]; [simpl; lia|].
    rewrite printJ_arr. rewrite !slength_app. unfold chr. cbn [String.length].
    assert (Hx : jsize x <= 2 * String.length (printJ x))
      by (apply IH; [left; reflexivity|apply WL; left; reflexivity]).
    assert (Hl : sizeElems l <= 2 * String.length (printElems l)).
    { clear Hx. assert (forall y, In y l -> jsize y <= 2 * String.length (printJ y)) as IH'.
      { intros y Hy. apply IH; [right; exact Hy|apply WL; right; exact Hy]. }
      clear - IH'. induction l as [|y l IHl]; [simpl; lia|].
      cbn [sizeElems printElems]. rewrite !slength_app. unfold chr. cbn [String.length].
      specialize (IHl (fun z Hz => IH' z (or_intror Hz))).
      specialize (IH' y (or_introl eq_refl)). lia. }
    cbn [sizeElems]. lia.
  - rewrite jsize_obj. inversion W as [ | | | | |? WL]; subst. destruct l as [|[k x] l]; [simpl; lia|].
    rewrite printJ_obj. rewrite !slength_app. unfold chr. cbn [String.length].
    assert (Hx : jsize x <= 2 * String.length (printJ x))
      by (eapply IH; [left; reflexivity|apply (WL k x); left; reflexivity]).
    assert (Hl : sizeMembers l <= 2 * String.length (printMembers l)).
    { clear Hx. assert (forall k y, In (k, y) l -> jsize y <= 2 * String.length (printJ y)) as IH'.
      { intros k' y Hy. eapply IH; [right; exact Hy|apply (WL k' y); right; exact Hy]. }
      clear - IH'. induction l as [|[k' y] l IHl]; [simpl; lia|].
      cbn [sizeMembers printMembers]. rewrite !slength_app. unfold chr. cbn [String.length].
      specialize (IHl (fun k z Hz => IH' k z (or_intror Hz))).
      specialize (IH' k' y (or_introl eq_refl)). lia. }
    cbn [sizeMembers]. lia.
Qed.

Lemma wf_nums j : JWf j -> JNums j.
Proof.
  induction j as [ |b|l|s|l IH|l IH] using json_ind'; intros W; inversion W; subst; constructor; auto.
  intros k x Hx. destruct (H0 k x Hx). eauto.
Qed.

Lemma wf_san j : JWf j -> sanJ j = j.
Proof.
  induction j as [ |b|l|s|l IH|l IH] using json_ind'; intros W; cbn [sanJ]; try reflexivity; inversion W; subst.
  - f_equal. apply san_valid. assumption.
  - f_equal. rewrite <- (map_id l) at 2. apply map_ext_in. intros x Hx. apply IH; auto.
  - f_equal. rewrite <- (map_id l) at 2. apply map_ext_in. intros [k x] Hx. cbn [fst snd].
    destruct (H0 k x Hx) as [V WX]. rewrite (IH k x Hx WX), san_valid by assumption. reflexivity.
Qed.

(** reading what was written: the value, with invalid UTF-8 replaced *)
Theorem parse_print_san j : JNums j -> (N.of_nat (jdepth j) <= maxNestingDepth)%N ->
  parseJ (printJ j) = Some (sanJ j) /\ parseJ (printJ j ++ String (byte_of_N 10) EmptyString) = Some (sanJ j).
Proof.
  intros W D. pose proof (jsize_length j W) as SZ. unfold parseJ. split.
  - pose proof (reads_back j (S (2 * String.length (printJ j))) maxNestingDepth EmptyString W) as R.
    rewrite sapp_nil_r in R. rewrite R; [reflexivity| |assumption|exact I]. lia.
  - rewrite reads_back; [reflexivity|assumption| |assumption|repeat split; discriminate].
    rewrite slength_app. lia.
Qed.

(** reading what was written gives the value back *)
Theorem parse_print j : JWf j -> (N.of_nat (jdepth j) <= maxNestingDepth)%N ->
  parseJ (printJ j) = Some j.
Proof.
  intros W D. rewrite (proj1 (parse_print_san j (wf_nums j W) D)). rewrite wf_san by assumption. reflexivity.
Qed.

(** also with the line feed that Encoder.Encode appends *)
Theorem parse_print_line j : JWf j -> (N.of_nat (jdepth j) <= maxNestingDepth)%N ->
  parseJ (printJ j ++ String (byte_of_N 10) EmptyString) = Some j.
Proof.
  intros W D. rewrite (proj2 (parse_print_san j (wf_nums j W) D)). rewrite wf_san by assumption. reflexivity.
Qed.

(** ** No line feed is ever written inside a value *)

Definition noLF (s : string) : bool := sforall (fun c => negb (N_of_byte c =? 10)%N) s.

Lemma noLF_app a b : noLF (a ++ b) = noLF a && noLF b.
Proof. apply sforall_app. Qed.

Lemma byte_ge n : (n < 256)%N -> (n <> 10)%N -> negb (N_of_byte (byte_of_N n) =? 10)%N = true.
Proof. intros H E. rewrite N_of_byte_of_N by assumption. apply negb_true_iff, N.eqb_neq, E. Qed.

Lemma noLF_encode_rune r : valid_rune r = true -> r <> 10%N -> noLF (encode_rune r) = true.
Proof.
  intros V E. unfold encode_rune. rewrite V. unfold encode_valid, valid_rune in *.
  assert (B : (r <= 0x10FFFF)%N) by
    (apply orb_true_iff in V; rewrite andb_true_iff, N.ltb_lt, !N.leb_le in V; lia).
  assert (M : forall x, (x mod 64 < 64)%N) by (intros; apply N.mod_lt; lia).
  assert (M0 := M r). assert (M1 := M (r / 64)%N). assert (M2 := M (r / 4096)%N).
  unfold noLF.
  destruct (r <? 0x80)%N eqn:E1; [|destruct (r <? 0x800)%N eqn:E2; [|destruct (r <? 0x10000)%N eqn:E3]];
  rewrite ?N.ltb_lt, ?N.ltb_ge in *; cbn [sforall].
  - rewrite byte_ge; [reflexivity|lia|lia].
  - assert (r / 64 < 0x20)%N by (apply N.div_lt_upper_bound; lia).
    rewrite !byte_ge; [reflexivity|lia..].
  - assert (r / 4096 < 0x10)%N by (apply N.div_lt_upper_bound; lia).
    rewrite !byte_ge; [reflexivity|lia..].
  - assert (r / 262144 < 5)%N by (apply N.div_lt_upper_bound; lia).
    rewrite !byte_ge; [reflexivity|lia..].
Qed.

Lemma hexDigit_noLF n : (n < 16)%N -> negb (N_of_byte (hexDigit n) =? 10)%N = true.
Proof.
  intros H. unfold hexDigit. destruct (n <? 10)%N; apply byte_ge; lia.
Qed.

Lemma noLF_uEscape n : noLF (uEscape n) = true.
Proof.
  unfold uEscape, noLF. cbn [sforall]. rewrite !hexDigit_noLF by (apply N.mod_lt; lia). reflexivity.
Qed.

Lemma noLF_escRune r : valid_rune r = true -> noLF (escRune r) = true.
Proof.
  intros V. unfold escRune.
  repeat match goal with
  | |- context[if (r =? 10)%N then _ else _] => destruct (r =? 10)%N eqn:E10; [reflexivity|]
  | |- context[if ?b then _ else _] => destruct b; [first [reflexivity|apply noLF_uEscape]|]
  end.
  apply noLF_encode_rune; [assumption|apply N.eqb_neq; assumption].
Qed.

Lemma noLF_escFuel n : forall s, noLF (escFuel n s) = true.
Proof.
  induction n as [|n IH]; intros [|c s]; try reflexivity. cbn [escFuel].
  unfold escFirst. pose proof (decode_rune_valid c s) as V.
  destruct (decode_rune c s) as [r s']. cbn [fst] in V.
  destruct (_ && _); rewrite noLF_app, IH; [rewrite noLF_uEscape|rewrite noLF_escRune]; auto.
Qed.

Lemma noLF_quoteJ s : noLF (quoteJ s) = true.
Proof. unfold quoteJ, escape. rewrite !noLF_app, noLF_escFuel. reflexivity. Qed.

Lemma noLF_digits s a b : digits s = (a, b) -> noLF a = true.
Proof.
  revert a b. induction s as [|c s IH]; intros a b; simpl; [intros [= <- <-]; reflexivity|].
  destruct (is_digit_byte c) eqn:D.
  - destruct (digits s) as [a' b']. intros [= <- <-]. unfold noLF. cbn [sforall].
    unfold is_digit_byte, in_range in D. rewrite andb_true_iff, !N.leb_le in D.
    replace (N_of_byte c =? 10)%N with false by (symmetry; apply N.eqb_neq; lia).
    exact (IH a' b' eq_refl).
  - intros [= <- <-]. reflexivity.
Qed.

Lemma noLF_String c s : (N_of_byte c <> 10)%N -> noLF s = true -> noLF (String c s) = true.
Proof. intros H E. unfold noLF in *. cbn [sforall]. rewrite E. apply N.eqb_neq in H. rewrite H. reflexivity. Qed.

Lemma noLF_NumLit l : NumLit l -> noLF l = true.
Proof.
  unfold NumLit, readNum. intros E.
  destruct l as [|c l]; [reflexivity|].
  assert (exists sg s1, (if (N_of_byte c =? 45)%N then (chr 45, l) else (EmptyString, String c l)) = (sg, s1)
    /\ noLF sg = true) as (sg & s1 & E1 & S).
  { destruct (N_of_byte c =? 45)%N; do 2 eexists; split; reflexivity. }
  rewrite E1 in E.
  destruct (readInt s1) as [[i s2]|] eqn:Ei; [|discriminate].
  destruct (readFrac s2) as [[f s3]|] eqn:Ef; [|discriminate].
  destruct (readExp s3) as [[e s4]|] eqn:Ee; [|discriminate].
  injection E as <- ->. rewrite !noLF_app, S.
  assert (noLF i = true) as ->.
  { unfold readInt in Ei. destruct s1 as [|c1 s1]; [discriminate|].
    destruct (N_of_byte c1 =? 48)%N; [injection Ei as <-; reflexivity|].
    destruct (is_digit_byte c1) eqn:D; [|discriminate].
    apply (noLF_digits (String c1 s1) i s2). congruence. }
  assert (noLF f = true) as ->.
  { unfold readFrac in Ef. destruct s2 as [|c1 s2]; [injection Ef as <-; reflexivity|].
    destruct (N_of_byte c1 =? 46)%N eqn:D1; [|injection Ef as <-; reflexivity].
    destruct (digits s2) as [d r] eqn:D. destruct (isEmptyStr d); [discriminate|]. injection Ef as <-.
    apply noLF_String; [apply N.eqb_eq in D1; lia|]. eapply noLF_digits; eauto. }
  assert (noLF e = true) as ->; [|reflexivity].
  { unfold readExp in Ee. destruct s3 as [|c1 s3]; [injection Ee as <-; reflexivity|].
    destruct ((N_of_byte c1 =? 101)%N || (N_of_byte c1 =? 69)%N) eqn:D1; [|injection Ee as <-; reflexivity].
    assert (N_of_byte c1 <> 10)%N as C1 by (rewrite orb_true_iff, !N.eqb_eq in D1; lia).
    destruct s3 as [|c2 s3]; [discriminate|].
    destruct ((N_of_byte c2 =? 43)%N || (N_of_byte c2 =? 45)%N) eqn:D2.
    - destruct (digits s3) as [d r] eqn:D. destruct (isEmptyStr d); [discriminate|]. injection Ee as <-.
      apply noLF_String; [assumption|]. cbn [append].
      apply noLF_String; [rewrite orb_true_iff, !N.eqb_eq in D2; lia|]. eapply noLF_digits; eauto.
    - destruct (digits (String c2 s3)) as [d r] eqn:D. destruct (isEmptyStr d); [discriminate|]. injection Ee as <-.
      apply noLF_String; [assumption|]. eapply noLF_digits; eauto. }
Qed.

(** numbers are literals: all that is needed for [print_noLF] *)
Theorem print_noLF j : JNums j -> noLF (printJ j) = true.
Proof.
  induction j as [ |b|l|s|l IH|l IH] using json_ind'; intros W.
  - reflexivity.
  - destruct b; reflexivity.
  - inversion W; subst. apply noLF_NumLit. assumption.
  - apply noLF_quoteJ.
  - inversion W as [ | | | |? WL| ]; subst. destruct l as [|x l]; [reflexivity|].
    rewrite printJ_arr, !noLF_app. rewrite IH; [|left; reflexivity|apply WL; left; reflexivity].
    assert (noLF (printElems l) = true) as ->; [|reflexivity].
    assert (forall y, In y l -> noLF (printJ y) = true) as H
      by (intros y Hy; apply IH; [right; exact Hy|apply WL; right; exact Hy]).
    clear - H. induction l as [|y l IHl]; [reflexivity|]. cbn [printElems]. rewrite !noLF_app.
    rewrite (H y (or_introl eq_refl)), IHl; [reflexivity|]. intros z Hz; apply H; right; exact Hz.
  - inversion W as [ | | | | |? WL]; subst. destruct l as [|[k x] l]; [reflexivity|].
    rewrite printJ_obj, !noLF_app, noLF_quoteJ. erewrite IH; [|left; reflexivity|apply (WL k x); left; reflexivity].
    assert (noLF (printMembers l) = true) as ->; [|reflexivity].
    assert (forall k y, In (k, y) l -> noLF (printJ y) = true) as H
      by (intros k' y Hy; eapply IH; [right; exact Hy|apply (WL k' y); right; exact Hy]).
    clear - H. induction l as [|[k' y] l IHl]; [reflexivity|]. cbn [printMembers]. rewrite !noLF_app, noLF_quoteJ.
    rewrite (H k' y (or_introl eq_refl)), IHl; [reflexivity|]. intros ? z Hz; eapply H; right; exact Hz.
Qed.
