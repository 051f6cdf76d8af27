(** Every text of a schema read from RIDL files is valid UTF-8. *)
From Verif Require Import Base BaseProofs Utf8 Utf8Proofs JsonProofs GoValProofs Lexer LexerProofs Tokenize Ast Parser.

Definition U := ValidUtf8.
Lemma encode_valid_runes rs : exists rs', forallb valid_rune rs' = true /\ encode rs = encode rs'.
Proof.
  induction rs as [|r rs (rs' & V & E)]; [now exists []|].
  exists ((if valid_rune r then r else replacement) :: rs'). split.
  - cbn [forallb]. rewrite V, andb_true_r. destruct (valid_rune r) eqn:E'; [exact E'|reflexivity].
  - cbn [encode]. rewrite E. f_equal. unfold encode_rune. destruct (valid_rune r) eqn:E'; [now rewrite E'|reflexivity].
Qed.
Lemma U_encode rs : U (encode rs).
Proof. destruct (encode_valid_runes rs) as (rs' & V & E). now exists rs'. Qed.
Lemma U_empty : U "".
Proof. now exists []. Qed.
Lemma U_app a b : U a -> U b -> U (a ++ b).
Proof.
  intros (r & V & ->) (r' & V' & ->). exists (r ++ r'). split; [|now rewrite encode_app].
  now rewrite forallb_app, V, V'.
Qed.
Lemma U_rune r : U (encode_rune r).
Proof. replace (encode_rune r) with (encode [r]) by (cbn; apply sapp_nil_r). apply U_encode. Qed.
Definition asciiB (c : ascii) : Prop := (N_of_byte c < 128)%N.
Lemma U_char c : asciiB c -> U (String c "").
Proof. intros H. apply ascii_valid. cbn. apply N.ltb_lt in H. unfold is_ascii. cbn [sforall]. now rewrite H. Qed.
Lemma U_cons c s : asciiB c -> U s -> U (String c s).
Proof. intros H H'. change (String c s) with (String c "" ++ s)%string. apply U_app; [now apply U_char|exact H']. Qed.
Lemma U_concat l : Forall U l -> U (sconcat l).
Proof. induction 1 as [|s l H _ IH]; [exact U_empty|]. cbn [sconcat]. now apply U_app. Qed.
Lemma U_join sep l : U sep -> Forall U l -> U (join sep l).
Proof.
  intros Hs H. induction H as [|s l H Hl IH]; [exact U_empty|]. cbn [join]. destruct l as [|x l]; [exact H|].
  apply U_app; [exact H|]. apply U_app; [exact Hs|exact IH].
Qed.

Lemma rune_shape r : (exists d, asciiB d /\ encode_rune r = String d "") \/ Forall (fun c => (128 <= N_of_byte c)%N) (list_ascii_of_string (encode_rune r)).
Proof.
  unfold encode_rune. remember (if valid_rune r then r else replacement) as x eqn:Hx. assert (Hb : (x < 0x110000)%N).
  { subst x. unfold valid_rune, replacement. destruct (_ || _) eqn:E; [|lia]. apply orb_true_iff in E. rewrite andb_true_iff, N.ltb_lt, !N.leb_le in E. lia. }
  clear Hx. unfold encode_valid. destruct (x <? 128)%N eqn:E0; [left; eexists; split; [|reflexivity]; unfold asciiB; apply N.ltb_lt in E0; rewrite N_of_byte_of_N; lia|right]. apply N.ltb_ge in E0.
  assert (B : forall n, (n < 256)%N -> (128 <= n)%N -> (128 <= N_of_byte (byte_of_N n))%N) by (intros n H1 H2; now rewrite N_of_byte_of_N).
  Ltac Zify.zify_post_hook ::= Z.div_mod_to_equations.
  destruct (x <? 2048)%N eqn:E1; [|destruct (x <? 65536)%N eqn:E2]; cbn [list_ascii_of_string];
    rewrite ?N.ltb_lt, ?N.ltb_ge in *; repeat constructor; apply B; lia.
Qed.
Lemma high_prefix x : forall y a c b, Forall (fun c => (128 <= N_of_byte c)%N) (list_ascii_of_string x) -> asciiB c ->
  (x ++ y = a ++ String c b)%string -> exists a', a = (x ++ a')%string /\ y = (a' ++ String c b)%string.
Proof.
  induction x as [|d x IH]; intros y a c b HF Hc E; cbn in *; [eauto|]. inversion HF as [|? ? Hd HF']; subst.
  destruct a as [|e a]; cbn in E.
  - injection E as <- _. unfold asciiB in Hc. lia.
  - injection E as <- E. destruct (IH _ _ _ _ HF' Hc E) as (a' & -> & ->). now exists a'.
Qed.
Lemma U_cut a c b : asciiB c -> U (a ++ String c b) -> U a /\ U b.
Proof.
  intros Hc (rs & _ & E). revert a E. induction rs as [|r rs IH]; intros a E; cbn [encode] in E; [destruct a; discriminate|].
  destruct (rune_shape r) as [(d & _ & Ed)|HF].
  - rewrite Ed in E. destruct a as [|e a]; cbn in E.
    + injection E as _ ->. split; [exact U_empty|apply U_encode].
    + injection E as <- E. destruct (IH a E) as [Ha Hb]. split; [|exact Hb].
      change (String e a) with (String e "" ++ a)%string. rewrite <- Ed. now apply U_app; [apply U_rune|].
  - destruct (high_prefix _ _ _ _ _ HF Hc (eq_sym E)) as (a' & -> & E'). destruct (IH a' (eq_sym E')) as [Ha Hb].
    split; [|exact Hb]. now apply U_app; [apply U_rune|].
Qed.
Lemma U_split c s : asciiB c -> U s -> Forall U (split_byte c s).
Proof.
  intros Hc. assert (G : forall s p, U (p ++ s) -> match split_byte c s with [] => False | x :: l => U (p ++ x) /\ Forall U l end).
  { clear s. induction s as [|d s IH]; intros p H; cbn [split_byte]; [now split|].
    destruct (Ascii.eqb_spec d c) as [->|N].
    - apply U_cut in H as [H1 H2]; [|exact Hc]. rewrite sapp_nil_r. split; [exact H1|]. specialize (IH ""). cbn in IH. specialize (IH H2).
      destruct (split_byte c s); [contradiction|]. now constructor.
    - specialize (IH (p ++ String d ""))%string. rewrite sapp_assoc in IH. cbn in IH. specialize (IH H).
      destruct (split_byte c s); [contradiction|]. rewrite sapp_assoc in IH. exact IH. }
  intros H. specialize (G s ""%string H). destruct (split_byte c s); [constructor|]. now constructor.
Qed.

Lemma lower_ascii a b : lower_byte a = lower_byte b -> asciiB a -> asciiB b.
Proof.
  unfold lower_byte, asciiB. intros E H. destruct (is_upper_byte b) eqn:Eb.
  - unfold is_upper_byte, in_range in Eb. rewrite andb_true_iff, !N.leb_le in Eb. lia.
  - destruct (is_upper_byte a) eqn:Ea; [|congruence]. rewrite <- E. unfold is_upper_byte, in_range in Ea. rewrite andb_true_iff, !N.leb_le in Ea.
    rewrite N_of_byte_of_N; lia.
Qed.
Lemma lower_high a b : lower_byte a = lower_byte b -> (128 <= N_of_byte a)%N -> a = b.
Proof.
  intros E H. assert (Hb : (128 <= N_of_byte b)%N).
  { destruct (N.lt_ge_cases (N_of_byte b) 128) as [L|L]; [|exact L]. symmetry in E. apply (lower_ascii _ _ E) in L. unfold asciiB in L. lia. }
  unfold lower_byte in E. assert (F : forall c, (128 <= N_of_byte c)%N -> is_upper_byte c = false).
  { intros c Hc. unfold is_upper_byte, in_range. rewrite andb_false_iff, !N.leb_gt. lia. }
  now rewrite (F a H), (F b Hb) in E.
Qed.
Lemma lower_prefix x : forall y b, Forall (fun c => (128 <= N_of_byte c)%N) (list_ascii_of_string x) -> to_lower (x ++ y) = to_lower b ->
  exists b', b = (x ++ b')%string /\ to_lower y = to_lower b'.
Proof.
  induction x as [|c x IH]; intros y b HF E; [now exists b|]. inversion HF; subst. destruct b as [|d b]; [discriminate|]. cbn in E. injection E as E1 E2.
  apply lower_high in E1; [|assumption]. subst d. destruct (IH _ _ ltac:(assumption) E2) as (b' & -> & E'). now exists b'.
Qed.
Lemma U_lower a b : to_lower a = to_lower b -> U a -> U b.
Proof.
  intros E (rs & _ & ->). revert b E. induction rs as [|r rs IH]; intros b E; cbn [encode] in E.
  - destruct b; [exact U_empty|discriminate].
  - destruct (rune_shape r) as [(d & Hd & Ed)|HF].
    + rewrite Ed in E. destruct b as [|e b]; [discriminate|]. cbn in E. injection E as E1 E2. apply U_cons; [now apply (lower_ascii d)|now apply IH].
    + apply lower_prefix in E as (b' & -> & E'); [|exact HF]. apply U_app; [apply U_rune|now apply IH].
Qed.

(** ** tokens *)
Definition UT (t : token) : Prop := U (val t).
Lemma U_lexRun n : forall l, Forall UT (lexRun n l).
Proof.
  assert (E : forall t l, UT (fst (emit t l))) by (intros; apply U_encode).
  induction n as [|n IH]; intros l; cbn [lexRun]; [constructor; [apply E|constructor]|].
  destruct (lexToken l) as [[t l']|] eqn:L; [|constructor; [apply E|constructor]]. constructor; [|apply IH].
  unfold lexToken in L. repeat match type of L with
    | (if ?b then _ else _) = _ => destruct b
    | (match ?x with _ => _ end) = _ => destruct x eqn:?
    end; try discriminate; try (injection L as <- _; try apply U_encode).
  all: try (match goal with H : emit _ _ = _ |- _ => injection H as <- _; apply U_encode end).
Qed.
Lemma U_until l : Forall UT l -> Forall UT (until_eof l).
Proof. induction 1 as [|t l H _ IH]; cbn [until_eof]; [constructor|]. destruct (tt_eqb _ _); constructor; auto. Qed.

Definition UC (m : comments) : Prop := Forall (fun kv => U (snd kv)) m.
Lemma U_put n s m : U s -> UC m -> UC (put_comment n s m).
Proof.
  intros Hs. induction 1 as [|[k v] m H Hm IH]; cbn [put_comment]; [now constructor; [|constructor]|].
  destruct (k =? n); constructor; auto.
Qed.
Lemma U_words t p l : UT t -> Forall U l -> Forall U (parseCommentToken t p l).
Proof.
  intros Ht Hl. assert (A : Forall U (l ++ [tokString t])) by (apply Forall_app; split; [exact Hl|now constructor]).
  unfold parseCommentToken. destruct p as [p|]; [|exact A]. destruct (tt_eqb _ _); [exact A|].
  unfold append_last. apply Forall_rev in Hl. destruct (rev l) as [|x r]; [now constructor|].
  inversion Hl; subst. apply Forall_app. split; [now apply Forall_rev|]. constructor; [now apply U_app|constructor].
Qed.
Definition UK (st : tkst) : Prop := UC (tk_comments st) /\ Forall U (tk_words st).
Lemma U_tokStep st t : UT t -> UK st -> UK (tokStep st t).
Proof.
  intros Ht [HC HW]. unfold tokStep. destruct (tt_eqb _ _); [now split|]. cbv zeta.
  assert (A : Forall U (if tk_parsing st && negb (tt_eqb (ty t) TNewLine) && negb (tt_eqb (ty t) TWhitespace)
              then parseCommentToken t (tk_prev st) (tk_words st) else tk_words st)) by (destruct (_ && _); [now apply U_words|exact HW]).
  destruct (tt_eqb (ty t) TNewLine && tk_parsing st); [|now split]. split; [|constructor]. cbn [tk_comments]. apply U_put; [|exact HC].
  apply U_join; [apply U_char; reflexivity|exact A].
Qed.
Lemma U_tokenize src ts cm : tokenize src = (ts, cm) -> Forall UT ts /\ UC cm.
Proof.
  unfold tokenize. intros H. injection H as <- <-. pose proof (U_until _ (U_lexRun (length (rest (newLexer src))) (newLexer src))) as A.
  split; [exact A|]. assert (G : forall l st, Forall UT l -> UK st -> UK (fold_left tokStep l st)).
  { induction l as [|t l IH]; intros st HL HS; [exact HS|]. inversion HL; subst. cbn [fold_left]. apply IH; [assumption|now apply U_tokStep]. }
  apply (G _ _ A). split; constructor.
Qed.

(** ** the parsing functions *)
Definition okp {A} (Q : A -> Prop) (r : pres A) : Prop :=
  match r with POk a ts => Q a /\ Forall UT ts | PErr _ ts => Forall UT ts | PFuel => True end.
Lemma U_cursor ts : Forall UT ts -> UT (cursor ts).
Proof. intros [|t l H _]; [exact U_empty|exact H]. Qed.
Lemma U_pnext ts : Forall UT ts -> Forall UT (pnext ts).
Proof. intros [|t l _ H]; [constructor|exact H]. Qed.
Lemma U_nth l n : Forall UT l -> UT (nth n l eofTok).
Proof.
  intros H. revert n. induction H as [|t l H _ IH]; intros [|n]; cbn [nth]; auto; exact U_empty.
Qed.
Lemma U_unescape n : forall s o, (String.length s <= n)%nat -> unescape s = Ok o -> U o.
Proof.
  induction n as [|n IH]; intros [|c s] o HL H; cbn [unescape] in H; try (injection H as <-; exact U_empty); cbn [String.length] in HL; [lia|].
  destruct (Ascii.eqb c _).
  - destruct s as [|d s]; [discriminate|]. cbn [String.length] in HL.
    destruct (Ascii.eqb d "n"); [|destruct (Ascii.eqb d "t"); [|destruct (Ascii.eqb_spec d """"); [|discriminate]]];
      apply bind_ok in H as (o' & H & E); injection E as <-; apply U_cons; try (subst d; reflexivity); try reflexivity; apply (IH s); auto; lia.
  - apply bind_ok in H as (o' & H & E). injection E as <-. apply U_app; [apply U_rune|apply (IH s); auto; lia].
Qed.
Lemma U_composeAt l ts : Forall UT ts -> okp UT (composeAt l ts).
Proof.
  intros H. unfold composeAt, composedValue. destruct l as [|b l]; [exact H|]. destruct (unescape _) as [v|e| |] eqn:E; cbn; try exact I; [|exact H].
  split; [|exact H]. eapply U_unescape; [apply Nat.le_refl|exact E].
Qed.
Lemma U_continue ts : Forall UT ts -> Forall UT (continueUntilEOL ts).
Proof. induction 1 as [|t l H Hl IH]; cbn [continueUntilEOL]; [constructor|]. destruct (_ || _); [now constructor|exact IH]. Qed.
Lemma U_expectEOL ts : Forall UT ts -> okp (fun _ => True) (expectEOL ts).
Proof.
  induction 1 as [|t l H Hl IH]; cbn [expectEOL]; [now split|]. assert (A : Forall UT (t :: l)) by now constructor.
  destruct (ty t); try exact A; try (now split); try exact IH. split; [exact I|]. now apply U_continue.
Qed.
Lemma U_matchGo start : Forall UT start -> forall want ts acc, Forall UT ts -> Forall UT acc -> okp (Forall UT) (matchGo start ts want acc).
Proof.
  intros Hs. induction want as [|e w IH]; intros ts acc Ht Ha; cbn [matchGo]; [split; [now apply Forall_rev|exact Ht]|].
  destruct (tt_eqb (ty (cursor ts)) e).
  - apply IH; [now apply U_pnext|]. constructor; [now apply U_cursor|exact Ha].
  - destruct (tt_eqb e TEOL).
    + pose proof (U_expectEOL ts Ht) as HE. destruct (expectEOL ts); try exact HE. destruct HE as [_ HE]. split; [|exact HE].
      apply Forall_rev. constructor; [exact U_empty|exact Ha].
    + destruct (tt_eqb e TWhitespace); [|exact Hs]. apply IH; [exact Ht|]. constructor; [apply U_char; reflexivity|exact Ha].
Qed.
Lemma U_pmatch want ts : Forall UT ts -> okp (Forall UT) (pmatch want ts).
Proof. intros H. apply U_matchGo; auto. Qed.
Lemma U_strLoop n : forall ts acc, (length ts <= n)%nat -> Forall UT ts -> okp (fun _ => True) (strLoop ts acc).
Proof.
  induction n as [|n IH]; intros [|t l] acc HL H; cbn [strLoop length] in *; try constructor; try lia; inversion H as [|? ? Ht Hl]; subst.
  destruct (ty t); try exact Hl; try (apply IH; [lia|exact Hl]); [|now split].
  destruct l as [|t2 l]; [constructor|]. inversion Hl; subst. cbn [length] in HL. apply IH; [lia|assumption].
Qed.
Lemma U_expectStringValue ts : Forall UT ts -> okp UT (expectStringValue ts).
Proof.
  intros H. unfold expectStringValue. destruct (tt_eqb _ _); [|now apply U_pnext].
  pose proof (U_strLoop _ (pnext ts) [] (Nat.le_refl _) (U_pnext _ H)) as A. destruct (strLoop _ _); try exact A.
  destruct A as [_ A]. now apply U_composeAt.
Qed.
Lemma U_litLoop dots ts : forall acc, Forall UT ts -> okp UT (litLoop dots ts acc).
Proof.
  induction ts as [|t l IH]; intros acc H; cbn [litLoop]; [now apply U_composeAt|]. inversion H; subst.
  destruct (ty t); try (now apply U_composeAt); try (now apply IH); [now apply U_expectStringValue|].
  destruct dots; [now apply IH|now apply U_composeAt].
Qed.
Lemma U_metaKeyLoop n : forall ts acc, (length ts <= n)%nat -> Forall UT ts -> okp UT (metaKeyLoop ts acc).
Proof.
  induction n as [|n IH]; intros [|t l] acc HL H; cbn [metaKeyLoop length] in *; try exact H; try lia; inversion H as [|? ? Ht Hl]; subst.
  destruct (ty t); try exact H; try (now apply U_composeAt); [|apply IH; [lia|exact Hl]].
  destruct l as [|t2 l]; [exact H|]. destruct (tt_eqb _ _); [|exact H]. inversion Hl; subst. cbn [length] in HL. apply IH; [lia|assumption].
Qed.
Lemma U_expectMetadataKey ts : Forall UT ts -> okp UT (expectMetadataKey ts).
Proof.
  intros H. unfold expectMetadataKey. pose proof (U_pmatch [TWord] ts H) as A. destruct (pmatch _ ts); try exact A.
  destruct A as [_ A]. eapply U_metaKeyLoop; [apply Nat.le_refl|exact A].
Qed.
Lemma U_expectMetadataValue ts : Forall UT ts -> okp UT (expectMetadataValue ts).
Proof.
  intros H. unfold expectMetadataValue. destruct (tt_eqb _ _); [now apply U_expectStringValue|].
  generalize (@nil token). induction H as [|t l Ht Hl IH]; intros acc; cbn [metaValLoop]; [apply U_composeAt; constructor|].
  destruct (ty t); try apply IH; apply U_composeAt; now constructor.
Qed.
Lemma U_typeLoops n : (forall ts acc, Forall UT ts -> okp UT (typeLoop n ts acc)) /\
  (forall ts acc, Forall UT ts -> okp UT (mapLoop n ts acc)) /\ (forall ts acc, Forall UT ts -> okp UT (typeListLoop n ts acc)).
Proof.
  induction n as [|n (I1 & I2 & I3)]; [repeat split; intros; exact I|]. repeat split; intros ts acc H.
  - cbn [typeLoop]. destruct (ty (cursor ts)); try exact H; try (now apply U_composeAt).
    + pose proof (U_pmatch [TOpenBracket; TCloseBracket] ts H) as A. destruct (pmatch _ ts) as [brs ts1| |]; try exact A. destruct A as [_ A].
      pose proof (I1 ts1 [] A) as B. destruct (typeLoop n ts1 []); try exact B. destruct B as [_ B]. now apply I1.
    + destruct (String.eqb _ _).
      * pose proof (I2 (pnext ts) [cursor ts] (U_pnext _ H)) as B. destruct (mapLoop _ _ _); try exact B. destruct B as [_ B]. now apply I1.
      * destruct (_ || _); [exact H|]. apply I1. now apply U_pnext.
  - cbn [mapLoop]. destruct (ty (cursor ts)); try exact H; try (apply U_composeAt; now apply U_pnext); try (apply I2; now apply U_pnext).
    pose proof (I3 (pnext ts) [cursor ts] (U_pnext _ H)) as B. destruct (typeListLoop _ _ _); try exact B. destruct B as [_ B]. now apply I2.
  - cbn [typeListLoop]. destruct (ty (cursor ts)); try exact H; try (now apply U_composeAt); try (apply I3; now apply U_pnext).
    all: pose proof (I1 ts [] H) as B; destruct (typeLoop n ts []); try exact B; destruct B as [_ B]; now apply I3.
Qed.
Lemma U_expectType ts : Forall UT ts -> okp UT (expectType ts).
Proof. apply U_typeLoops. Qed.

Definition UO (o : option string) : Prop := match o with None => True | Some s => U s end.
Definition UArg (a : argNode) : Prop := U (a_name a) /\ U (a_type a) /\ UO (a_inline a).
Lemma U_argLoop n : forall ts acc, Forall UT ts -> Forall UArg acc -> okp (Forall UArg) (argLoop n ts acc).
Proof.
  induction n as [|n IH]; intros ts acc H HA; [exact I|]. cbn [argLoop].
  assert (A : forall o want, okp (Forall UArg) match pmatch want ts with
     | POk l ts1 => match expectType ts1 with POk vt ts2 => argLoop n ts2 (Arg (val (cursor l)) (val vt) o None :: acc) | PErr m ts2 => PErr m ts2 | PFuel => PFuel end
     | PErr m ts1 => PErr m ts1 | PFuel => PFuel end).
  { intros o want. pose proof (U_pmatch want ts H) as B. destruct (pmatch want ts) as [l ts1| |]; try exact B. destruct B as [B1 B2].
    pose proof (U_expectType ts1 B2) as C. destruct (expectType ts1) as [vt ts2| |]; try exact C. destruct C as [C1 C2]. apply IH; [exact C2|].
    constructor; [|exact HA]. split; [now apply U_cursor|]. split; [exact C1|exact I]. }
  destruct (ty (cursor ts)); try exact H; try (apply IH; [now apply U_pnext|exact HA]).
  - split; [now apply Forall_rev|now apply U_pnext].
  - pose proof (U_pmatch [TWord; TCloseParen] ts H) as B. destruct (pmatch [TWord; TCloseParen] ts) as [l ts1| |].
    { destruct B as [B1 B2]. split; [|now apply U_pnext]. apply Forall_rev. constructor; [|exact HA].
      split; [exact U_empty|]. split; [exact U_empty|]. cbn. now apply U_cursor. }
    all: pose proof (A true [TWord; TQuestion; TColon; TWhitespace]) as A1; pose proof (A false [TWord; TColon; TWhitespace]) as A2;
      destruct (pmatch [TWord; TQuestion; TColon; TWhitespace] ts); assumption.
Qed.
Lemma U_expectArgumentList ts : Forall UT ts -> okp (Forall UArg) (expectArgumentList ts).
Proof.
  intros H. unfold expectArgumentList.
  assert (A : forall ts, Forall UT ts -> okp (Forall UArg) match pmatch [TOpenParen] ts with
    | POk _ ts1 => argLoop (S (length ts1)) ts1 [] | PErr m ts1 => PErr m ts1 | PFuel => PFuel end).
  { clear. intros ts H. pose proof (U_pmatch [TOpenParen] ts H) as B. destruct (pmatch _ ts); try exact B. destruct B as [_ B]. now apply U_argLoop. }
  pose proof (U_pmatch [TWord; TWhitespace] ts H) as B. destruct (pmatch [TWord; TWhitespace] ts) as [l ts1| |]; try (now apply A).
  destruct B as [_ B]. destruct (String.eqb _ _); [now apply A|exact B].
Qed.
Lemma U_errListLoop n : forall ts acc, Forall UT ts -> Forall U acc -> okp (Forall U) (errListLoop n ts acc).
Proof.
  induction n as [|n IH]; intros ts acc H HA; [exact I|]. cbn [errListLoop].
  pose proof (U_pmatch [TWhitespace; TBar; TWhitespace; TWord] ts H) as B. destruct (pmatch _ ts) as [l ts1| |]; try (split; [now apply Forall_rev|exact H]).
  destruct B as [B1 B2]. apply IH; [exact B2|]. constructor; [now apply U_nth|exact HA].
Qed.
Lemma U_expectErrorList ts : Forall UT ts -> okp (Forall U) (expectErrorList ts).
Proof.
  intros H. unfold expectErrorList. pose proof (U_pmatch [TWhitespace; TWord] ts H) as B. destruct (pmatch _ ts) as [l ts1| |]; try exact B.
  destruct B as [B1 B2]. apply U_errListLoop; [exact B2|]. constructor; [now apply U_nth|constructor].
Qed.
Definition UAnn (a : annNode) : Prop := U (an_type a) /\ UO (an_value a).
Lemma U_annLoop n : forall ts seen acc, Forall UT ts -> Forall UAnn acc -> okp (Forall UAnn) (annLoop n ts seen acc).
Proof.
  induction n as [|n IH]; intros ts seen acc H HA; [exact I|]. cbn [annLoop].
  pose proof (U_pmatch [TAt; TWord] ts H) as B. destruct (pmatch _ ts) as [l ts1| |]; try (split; [now apply Forall_rev|exact H]).
  destruct B as [B1 B2]. assert (Hn : UT (nth 1 l eofTok)) by now apply U_nth. cbv zeta. destruct (str_in _ _); [exact B2|].
  assert (N : Forall UAnn (Ann (val (nth 1 l eofTok)) (line (nth 1 l eofTok)) None :: acc)) by (constructor; [split; [exact Hn|exact I]|exact HA]).
  destruct (tt_eqb _ _); [|apply IH; assumption]. apply U_pnext in B2.
  destruct (ty (cursor (pnext ts1))); try (apply IH; [now apply U_pnext|assumption]).
  - pose proof (U_expectStringValue _ B2) as C. destruct (expectStringValue _) as [v ts3| |]; try exact C. destruct C as [C1 C2].
    apply IH; [now apply U_pnext|]. constructor; [split; [exact Hn|exact C1]|exact HA].
  - apply IH; [now apply U_pnext|]. constructor; [split; [exact Hn|now apply U_cursor]|exact HA].
Qed.
Lemma U_getComment n m s : UC m -> getComment n m = Some s -> U s.
Proof. induction 1 as [|[k v] m H _ IH]; cbn [getComment]; [discriminate|]. destruct (k =? n); [intros E; now injection E as <-|exact IH]. Qed.
Lemma U_delComment n m : UC m -> UC (delComment n m).
Proof. intros H. unfold delComment. apply Forall_forall. intros x Hx. apply filter_In in Hx. eapply Forall_forall in H; [exact H|apply Hx]. Qed.
Lemma U_add s c : U s -> Forall U c -> Forall U (if has_prefix "!" s then c else c ++ [s]).
Proof. intros Hs HC. destruct (has_prefix "!" s); [exact HC|]. apply Forall_app. split; [exact HC|now constructor]. Qed.
Lemma U_pcLoop cl : forall it c m c' m', Forall U c -> UC m -> pcLoop cl it c m = (c', m') -> Forall U c' /\ UC m'.
Proof.
  induction cl as [|k IH]; intros it c m c' m' HC HM H; cbn [pcLoop] in H; destruct (getComment _ m) as [s|] eqn:G.
  - pose proof (U_add s c (U_getComment _ _ _ HM G) HC) as HC'. pose proof (U_delComment 0 m HM) as D.
    assert (E : (c', m') = (if has_prefix "!" s then c else c ++ [s], delComment 0 m)) by (destruct (delComment 0 m); congruence).
    injection E as -> ->. now split.
  - destruct c; [destruct (1 <? S it)|]; injection H as <- <-; now split.
  - pose proof (U_add s c (U_getComment _ _ _ HM G) HC) as HC'. pose proof (U_delComment (S k) m HM) as D.
    destruct (delComment (S k) m) eqn:E; [injection H as <- <-; now split|].
    eapply IH; [exact HC'|exact D|exact H].
  - destruct c; [destruct (1 <? S it)|]; try (injection H as <- <-; now split). eapply IH; [exact HC|exact HM|exact H].
Qed.
Lemma U_parseComments m n c m' : UC m -> parseComments m n = (c, m') -> U c /\ UC m'.
Proof.
  intros HM H. unfold parseComments in H. destruct m as [|x m]; [injection H as <- <-; split; [exact U_empty|constructor]|].
  destruct (pcLoop _ _ _ _) as [c0 m0] eqn:E. apply U_pcLoop in E as [A B]; [|constructor|exact HM]. injection H as <- <-. split; [|exact B].
  apply U_join; [apply U_char; reflexivity|now apply Forall_rev].
Qed.

(** ** the parse tree *)
Definition UPair (kv : string * string) : Prop := U (fst kv) /\ U (snd kv).
Definition UDef (d : defNode) : Prop := U (d_left d) /\ U (d_right d) /\ Forall UPair (d_meta d) /\ U (d_comment d).
Definition UEnum (e : enumNode) : Prop := U (e_name e) /\ U (e_type e) /\ Forall UDef (e_values e) /\ U (e_comment e).
Definition UStruct (s : structNode) : Prop := U (s_name s) /\ Forall UDef (s_fields s) /\ U (s_comment s).
Definition UErr (e : errorNode) : Prop := U (er_code e) /\ U (er_name e) /\ U (er_message e) /\ UO (er_status e).
Definition UMethod (m : methodNode) : Prop :=
  U (m_name m) /\ U (m_comment m) /\ Forall UAnn (m_annotations m) /\ Forall UArg (m_inputs m) /\ Forall UArg (m_outputs m) /\ Forall U (m_errors m).
Definition UService (s : serviceNode) : Prop := U (sv_name s) /\ Forall UMethod (sv_methods s) /\ Forall UAnn (sv_anns s) /\ U (sv_comment s).
Definition UAlias (a : aliasNode) : Prop := U (al_name a) /\ U (al_type a) /\ Forall UPair (al_meta a) /\ U (al_comment a).
Definition UImp (i : importNode) : Prop := U (i_path i) /\ Forall U (i_members i).
Definition UNode (n : node) : Prop :=
  match n with
  | NDef d => UDef d | NImport i => UImp i | NEnum e => UEnum e | NStruct s => UStruct s | NError e => UErr e
  | NService s => UService s | NAlias a => UAlias a
  end.
Definition UState (s : pstate) : Prop :=
  match s with
  | SDefinitionValue d => UDef d
  | SEnumDefinition e => UEnum e | SEnumExplicitValue e d => UEnum e /\ UDef d
  | SErrorMessage e | SErrorStatus e => UErr e
  | SImportMembers i => UImp i
  | STypeAliasMeta a | STypeAliasMetaDef a => UAlias a
  | SStructField s | SStructFieldDef s | SStructFieldMeta s | SStructFieldMetaDef s => UStruct s
  | SServiceMethod s | SServiceMethodDef s => UService s
  | _ => True
  end.
Definition UConf (c : pconf) : Prop := UState (p_state c) /\ Forall UT (p_toks c) /\ UC (p_comments c) /\ Forall UNode (p_out c).
Definition UStep (r : pstep) : Prop := match r with Next c => UConf c | Done o => Forall UNode o | _ => True end.
Lemma U_onOk {A} (Q : A -> Prop) r k : okp Q r -> (forall a ts, Q a -> Forall UT ts -> UStep (k a ts)) -> UStep (onOk r k).
Proof. destruct r; cbn; auto. intros [H1 H2] H. now apply H. Qed.
Lemma U_stateError m ts : UStep (stateError m ts).
Proof. exact I. Qed.

Lemma U_methodErrors f ts : Forall UT ts -> (forall es ts, Forall U es -> Forall UT ts -> UStep (f es ts)) -> UStep (methodErrors f ts).
Proof.
  intros H Hf. unfold methodErrors. pose proof (U_pmatch [TWhitespace; TWord] ts H) as B.
  destruct (pmatch _ ts) as [l ts1| |]; try (apply Hf; [constructor|exact H]). destruct B as [_ B].
  destruct (String.eqb _ _); [|apply Hf; [constructor|exact B]]. eapply U_onOk; [now apply U_expectErrorList|exact Hf].
Qed.
Lemma U_methodOutputs f ts : Forall UT ts -> (forall o outs es ts, Forall UArg outs -> Forall U es -> Forall UT ts -> UStep (f o outs es ts)) ->
  UStep (methodOutputs f ts).
Proof.
  intros H Hf. unfold methodOutputs. pose proof (U_pmatch [TWhitespace; TRocket; TWhitespace] ts H) as B.
  destruct (pmatch _ ts) as [l ts1| |]; try (apply U_methodErrors; [exact H|]; intros; apply Hf; auto). destruct B as [_ B].
  assert (A : forall o ts, Forall UT ts -> UStep (onOk (expectArgumentList ts) (fun outs ts5 => methodErrors (f o outs) ts5))).
  { intros o ts' H'. eapply U_onOk; [now apply U_expectArgumentList|]. intros outs ts5 H1 H2. apply U_methodErrors; [exact H2|]. intros; now apply Hf. }
  pose proof (U_pmatch [TWord; TWhitespace] ts1 B) as C. destruct (pmatch [TWord; TWhitespace] ts1) as [l5 ts5| |]; try (now apply A).
  destruct C as [_ C]. destruct (String.eqb _ _); [now apply A|exact I].
Qed.
Lemma U_methodRest s cm out a b n name ts : UService s -> UC cm -> Forall UNode out -> U name -> Forall UT ts ->
  UStep (methodRest s cm out a b n name ts).
Proof.
  intros HS HC HO HN H. unfold methodRest. destruct (parseComments cm n) as [com cm'] eqn:E. apply U_parseComments in E as [E1 E2]; [|exact HC].
  assert (F : forall m ts, UMethod m -> Forall UT ts -> UStep (finishMethod s cm' out m ts)).
  { intros m ts' Hm Ht. destruct HS as (S1 & S2 & S3 & S4). unfold finishMethod, UStep, UConf. cbn.
    split; [|now split]. unfold UService. cbn. split; [exact S1|]. split; [apply Forall_app; split; [exact S2|now constructor]|]. now split. }
  destruct b.
  - apply F; [|exact H]. unfold UMethod. cbn. repeat split; auto. apply HS.
  - eapply U_onOk; [now apply U_expectArgumentList|]. intros ins ts3 Hi H3. apply U_methodOutputs; [exact H3|]. intros o outs es ts4 Ho He H4.
    apply F; [|exact H4]. unfold UMethod. cbn. repeat split; auto. apply HS.
Qed.
Lemma U_addMeta s kv : UStruct s -> UPair kv -> UStruct (addMeta s kv).
Proof.
  intros (S1 & S2 & S3) Hk. unfold addMeta. pose proof (Forall_rev S2) as R. destruct (rev (s_fields s)) as [|f r]; [now repeat split|].
  inversion R as [|? ? (F1 & F2 & F3 & F4) R']; subst. split; [exact S1|]. split; [|exact S3]. cbn [s_fields]. apply Forall_app. split; [now apply Forall_rev|].
  constructor; [|constructor]. split; [exact F1|]. split; [exact F2|]. split; [|exact F4]. cbn [d_meta]. apply Forall_app. split; [exact F3|now constructor].
Qed.

Ltac ut :=
  first [ assumption | exact I | exact U_empty | constructor; fail | now apply U_pnext | now apply U_continue | now apply U_cursor | now apply U_nth
        | now apply U_pmatch | now apply U_expectStringValue | now apply U_litLoop | now apply U_expectType | now apply U_expectEOL
        | now apply U_expectMetadataKey | now apply U_expectMetadataValue ].
Ltac conf := unfold UStep, UConf; cbn [p_state p_toks p_comments p_out]; repeat match goal with |- _ /\ _ => split end; try ut.

Lemma U_step c : UConf c -> UStep (step c).
Proof.
  destruct c as [st ts cm out]. intros (HS & HT & HC & HO). cbn [p_state p_toks p_comments p_out] in *.
  destruct st; unfold step; cbn [p_state p_toks p_comments p_out]; cbn [UState] in HS.
  - destruct (ty (cursor ts)); try exact I; conf.
  - destruct (negb _); [exact I|]. repeat (destruct (String.eqb _ _) || destruct (str_in _ _)); try exact I; conf.
  - destruct (tt_eqb _ _); conf.
  - destruct (tt_eqb _ _); conf.
  - conf.
  - cbn. now apply Forall_rev.
  - eapply U_onOk; [ut|]. intros. conf.
  - destruct ts; inversion HT; subst; conf.
  - eapply U_onOk; [ut|]. intros l ts1 H1 H2. destruct (parseComments cm _) as [com cm'] eqn:E. apply U_parseComments in E as [E1 E2]; [|exact HC]. conf.
    cbn. split; [now apply U_cursor|]. split; [ut|]. split; [constructor|ut].
  - eapply U_onOk; [ut|]. intros v ts1 H1 H2. conf. constructor; [|exact HO]. destruct HS as (D1 & D2 & D3 & D4). cbn. split; [exact D1|]. split; [exact H1|].
    split; [constructor|exact D4].
  - eapply U_onOk; [ut|]. intros l ts1 H1 H2. destruct (String.eqb _ _); [|exact I]. destruct (parseComments cm _) as [com cm'] eqn:E.
    apply U_parseComments in E as [E1 E2]; [|exact HC]. conf. cbn. split; [ut|]. split; [ut|]. split; [constructor|ut].
  - destruct (ty (cursor ts)); try (conf; (constructor; [exact HS|exact HO])).
    eapply U_onOk; [ut|]. intros l ts1 H1 H2. destruct (parseComments cm _) as [com cm'] eqn:E.
    apply U_parseComments in E as [E1 E2]; [|exact HC]. conf. cbn. split; [exact HS|]. cbn. split; [ut|]. split; [ut|]. split; [constructor|ut].
  - destruct HS as [(A1 & A2 & A3 & A4) (D1 & D2 & D3 & D4)]. pose proof (U_pmatch [TWhitespace; TEqual; TWhitespace] ts HT) as B.
    assert (N : forall d c, UDef d -> U c -> UEnum (Enum (e_name e) (e_type e) (e_values e ++ [d]) c (e_line e))).
    { intros d' c' Hd Hc. split; [exact A1|]. split; [exact A2|]. split; [|exact Hc]. cbn. apply Forall_app. split; [exact A3|now constructor]. }
    destruct (pmatch _ ts) as [l ts1| |]; try (conf; apply N; [repeat split; assumption|exact A4]). destruct B as [_ B].
    eapply U_onOk; [ut|]. intros v ts2 H1 H2. destruct (parseComments cm _) as [com cm'] eqn:E.
    apply U_parseComments in E as [E1 E2]; [|exact HC]. conf. apply N; [|exact E1]. cbn. split; [exact D1|]. split; [exact H1|]. split; [constructor|exact D4].
  - eapply U_onOk; [ut|]. intros l ts1 H1 H2. destruct (negb _); [exact I|]. destruct (isNumber _); [|exact I]. conf. cbn. split; [ut|]. split; [ut|]. split; ut.
  - destruct HS as (E1 & E2 & E3 & E4). destruct (ty (cursor ts)); try exact I.
    + eapply U_onOk; [ut|]. intros v ts1 H1 H2. conf. repeat split; assumption.
    + conf. split; [exact E1|]. split; [exact E2|]. split; ut.
  - destruct HS as (E1 & E2 & E3 & E4). pose proof (U_pmatch [TWhitespace; TWord] ts HT) as B. destruct (pmatch _ ts) as [l ts1| |].
    + destruct B as [B1 B2]. destruct (negb _); [exact I|]. pose proof (U_pmatch [TWhitespace; TWord] ts1 B2) as C. destruct (pmatch _ ts1) as [l2 ts2| |]; try exact I.
      destruct C as [C1 C2]. destruct (isNumber _); [|exact I]. eapply U_onOk; [ut|]. intros v ts3 H1 H2. conf. constructor; [|exact HO].
      split; [exact E1|]. split; [exact E2|]. split; [exact E3|]. cbn. ut.
    + eapply U_onOk; [ut|]. intros v ts3 H1 H2. conf. constructor; [repeat split; assumption|exact HO].
    + eapply U_onOk; [ut|]. intros v ts3 H1 H2. conf. constructor; [repeat split; assumption|exact HO].
  - pose proof (U_pmatch [TWord; TEOL] ts HT) as B. destruct (pmatch _ ts) as [l ts1|m ts1|]; [|
      eapply U_onOk; [ut|]; intros x ts2 H1 H2; eapply U_onOk; [ut|]; intros v ts3 H3 H4; conf; split; [exact H3|constructor]|exact I].
    destruct B as [_ B]. destruct (String.eqb _ _); [|exact I]. conf.
  - destruct (ty (cursor ts)); try (conf; fail).
    eapply U_onOk; [ut|]. intros x ts2 H1 H2. eapply U_onOk; [ut|]. intros v ts3 H3 H4. conf. constructor; [|exact HO]. split; [exact H3|constructor].
  - destruct (ty (cursor ts)); try (conf; (constructor; [exact HS|exact HO])).
    eapply U_onOk; [ut|]. intros x ts2 H1 H2. eapply U_onOk; [ut|]. intros v ts3 H3 H4. conf. destruct HS as [I1 I2]. split; [exact I1|]. cbn. apply Forall_app.
    split; [exact I2|]. constructor; [exact H3|constructor].
  - eapply U_onOk; [ut|]. intros l ts1 H1 H2. destruct (negb _); [exact I|]. eapply U_onOk; [ut|]. intros v ts3 H3 H4.
    destruct (parseComments cm _) as [com cm'] eqn:E. apply U_parseComments in E as [E1 E2]; [|exact HC]. conf. split; [cbn; ut|]. split; [exact H3|]. split; [constructor|exact E1].
  - destruct (ty (cursor ts)); try (conf; (constructor; [exact HS|exact HO])).
  - destruct HS as (A1 & A2 & A3 & A4). eapply U_onOk; [ut|]. intros l ts1 _ H2. eapply U_onOk; [ut|]. intros k ts2 Hk H3. eapply U_onOk; [ut|]. intros l' ts3 _ H4.
    eapply U_onOk; [ut|]. intros v ts4 Hv H5. conf. split; [exact A1|]. split; [exact A2|]. split; [|exact A4]. cbn. apply Forall_app. split; [exact A3|].
    constructor; [now split|constructor].
  - eapply U_onOk; [ut|]. intros l ts1 H1 H2. destruct (negb _); [exact I|]. destruct (parseComments cm _) as [com cm'] eqn:E. apply U_parseComments in E as [E1 E2]; [|exact HC].
    conf. split; [cbn; ut|]. split; [constructor|exact E1].
  - destruct (ty (cursor ts)); try (conf; (constructor; [exact HS|exact HO])).
  - destruct HS as (A1 & A2 & A3). eapply U_onOk; [ut|]. intros l ts1 H1 H2. destruct (parseComments cm _) as [com cm'] eqn:E. apply U_parseComments in E as [E1 E2]; [|exact HC].
    pose proof (U_pmatch [TQuestion] ts1 H2) as B.
    assert (G : forall opt ts2, Forall UT ts2 -> UStep (onOk (pmatch [TColon; TWhitespace] ts2) (fun _ ts3 => onOk (expectType ts3) (fun v ts4 =>
      Next (PC (SStructFieldMeta (Struct (s_name s) (s_fields s ++ [Def (val (nth 2 l eofTok)) (val v) opt [] com]) (s_comment s) (s_line s))) ts4 cm' out))))).
    { intros opt ts2 Ht. eapply U_onOk; [ut|]. intros l' ts3 _ H4. eapply U_onOk; [ut|]. intros v ts4 Hv H5. conf. split; [exact A1|]. split; [|exact A3]. cbn. apply Forall_app.
      split; [exact A2|]. constructor; [|constructor]. split; [cbn; ut|]. split; [exact Hv|]. split; [constructor|exact E1]. }
    destruct (pmatch [TQuestion] ts1); [destruct B as [_ B]; now apply G|now apply G|now apply G].
  - destruct (ty (cursor ts)); conf.
  - eapply U_onOk; [ut|]. intros l ts1 _ H2. eapply U_onOk; [ut|]. intros k ts2 Hk H3. eapply U_onOk; [ut|]. intros l' ts3 _ H4.
    eapply U_onOk; [ut|]. intros v ts4 Hv H5. conf. apply U_addMeta; [exact HS|now split].
  - eapply U_onOk; [ut|]. intros l ts1 H1 H2. destruct (negb _); [exact I|]. eapply U_onOk; [ut|]. intros v ts2 Hv H3. eapply U_onOk; [ut|]. intros x ts3 _ H4.
    destruct (parseComments cm _) as [com cm'] eqn:E. apply U_parseComments in E as [E1 E2]; [|exact HC]. conf. split; [exact Hv|]. split; [constructor|]. split; [constructor|exact E1].
  - destruct (ty (cursor ts)); try (conf; (constructor; [exact HS|exact HO])).
    eapply U_onOk; [now apply U_annLoop|]. intros anns ts1 H1 H2. conf. destruct HS as (S1 & S2 & S3 & S4). split; [exact S1|]. split; [exact S2|]. split; [|exact S4].
    cbn. apply Forall_app. now split.
  - unfold stepServiceMethodDef. destruct (hasDup _); [exact I|]. eapply U_onOk; [ut|]. intros l ts1 H1 H2. cbv zeta.
    destruct (_ || _).
    + eapply U_onOk; [ut|]. intros l2 ts2 H3 H4. apply U_methodRest; auto. ut.
    + apply U_methodRest; auto. ut.
Qed.
Lemma U_run k : forall c nodes, UConf c -> runParser k c = Parsed nodes -> Forall UNode nodes.
Proof.
  induction k as [|k IH]; intros c nodes HC H; [discriminate|]. cbn in H. pose proof (U_step c HC) as S.
  destruct (step c) as [c'|o|e|]; try discriminate; [exact (IH c' nodes S H)|]. injection H as <-. exact S.
Qed.
Lemma U_parse src nodes : parseRidl src = Parsed nodes -> Forall UNode nodes.
Proof.
  apply U_run. unfold initConf. destruct (tokenize src) as [ts cm] eqn:E. apply U_tokenize in E as [E1 E2].
  split; [exact I|]. split; [exact E1|]. split; [exact E2|constructor].
Qed.
