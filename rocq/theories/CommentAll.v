(** Comments of all the definitions of an accepted document. *)
From Coq Require Import ZifyBool ZifyNat.
From Verif Require Import Base BaseProofs Utf8 Utf8Proofs Lexer LexSpec LexerProofs Tokenize Ast Parser ParserTerm PropsParserAux
  StringProofs CommentSpec CommentProofs EraseProofs CommentBlock.

(** ** Lines of tokens *)
Definition nonNL (t : token) : Prop := ty t <> TNewLine.
Definition Lined (T : toks) : Prop :=
  (forall a t1 t2 b, T = a ++ t1 :: t2 :: b -> nonNL t1 -> line t2 = line t1) /\
  Forall (fun t => val t <> ""%string /\ 1 <= line t) T.

Lemma init_lined src : Lined (p_toks (initConf src)).
Proof.
  destruct (init_toks src) as (eof & He & HL). split.
  - intros a t1 t2 b E H1. rewrite E, <- app_assoc in HL. cbn [app] in HL.
    destruct (init_segments src) as (segs & HS & HV). rewrite E in HV.
    assert (HV' := HV). rewrite map_app in HV. symmetry in HV. destruct (map_app_inv _ _ _ _ HV) as (s1 & s2 & -> & V1 & V2).
    destruct s2 as [|[ty1 ch1] s2]; [discriminate|]. cbn in V2. injection V2 as V2 V3 V4.
    destruct (segments_app _ _ _ HS) as (rest & ED & HR). inversion HR as [|ch' rs t' sg Hsh Hrs]; subst ch' t' sg rest.
    assert (HVal : forallb valid_rune (flat_map snd s1 ++ ch1) = true).
    { pose proof (decode_valid src) as HD. rewrite ED, app_assoc, valid_app in HD. now apply andb_true_iff in HD. }
    assert (L1 : line t1 = 1 + newlines (flat_map snd s1)).
    { eapply tok_line; [exact E|apply sconcat_tv; now symmetry|]. rewrite valid_app in HVal. now apply andb_true_iff in HVal. }
    assert (L2 : line t2 = 1 + newlines (flat_map snd s1 ++ ch1)).
    { eapply (tok_line src (a ++ [t1])); [rewrite <- app_assoc; exact E| |exact HVal].
      rewrite (sconcat_tv (a ++ [t1]) (s1 ++ [(ty1, ch1)])).
      - f_equal. rewrite flat_map_app. cbn. now rewrite app_nil_r.
      - rewrite !map_app. f_equal; [now symmetry|]. cbn. unfold tv, sv. cbn. now rewrite V2, V3. }
    rewrite L1, L2, newlines_cons_app. enough (newlines ch1 = 0) by lia.
    destruct (in_dec N.eq_dec 10%N ch1) as [Hin|Hin].
    + pose proof (solo_newline _ _ _ Hsh Hin) as ->. exfalso. apply H1. rewrite <- V2.
      inversion Hsh; subst; try reflexivity; try congruence.
      * unfold word_start in *. lia.
      * match goal with H : Forall blank [_] |- _ => inversion H; subst; unfold blank in *; lia end.
      * match goal with H : In (10%N, _) punctuation |- _ => apply punct_not in H; lia end.
    + clear -Hin. induction ch1 as [|c ch IH]; [reflexivity|]. cbn. destruct (N.eqb_spec c 10); [subst; exfalso; apply Hin; now left|].
      apply IH. intro. apply Hin. now right.
  - destruct (lexAll_eof src) as (body & eof' & E1 & E2 & E3 & E4 & E5). rewrite HL in E1. apply app_inj_tail in E1. destruct E1 as [E1 _].
    apply Forall_forall. intros t Ht. split.
    + rewrite E1 in Ht. rewrite Forall_forall in E5. now apply E5.
    + apply in_split in Ht. destruct Ht as (a & b & Ht). rewrite Ht, <- app_assoc in HL. cbn in HL.
      destruct (lexAll_positions src a t (b ++ [eof]) HL) as (bf & ch & af & P1 & P2 & P3 & P4 & P5 & P6); [destruct b; discriminate|]. lia.
Qed.

Lemma sameline T ts q1 t q2 : Lined T -> Suf ts T -> ts = q1 ++ t :: q2 -> Forall nonNL q1 -> line t = line (cursor ts).
Proof.
  intros [HL _] [p HS] -> HF. revert t q2 HS HF. induction q1 as [|w q IH] using rev_ind; intros t q2 HS HF; [reflexivity|].
  apply Forall_app in HF. destruct HF as [F1 F2]. pose proof (Forall_inv F2) as Hw. cbn beta in Hw.
  rewrite <- app_assoc in *. cbn [app] in *.
  rewrite (HL (p ++ q) w t q2) by (try assumption; rewrite HS, <- app_assoc; reflexivity).
  exact (IH w (t :: q2) HS F1).
Qed.

(** ** What a match consumes *)
Fixpoint eolLast (l : list ttype) : bool :=
  match l with
  | [] => true
  | e :: w => negb (tt_eqb e TEOF) && negb (tt_eqb e TNewLine) &&
              (if tt_eqb e TEOL then match w with [] => true | _ => false end else eolLast w)
  end.

Lemma matchGo_places start : forall want ts acc l ts', eolLast want = true ->
  matchGo start ts want acc = POk l ts' ->
  exists l' q, l = rev acc ++ l' /\ ts = q ++ ts' /\
    forall i e, nth_error want i = Some e -> e <> TWhitespace -> e <> TEOL ->
      exists q1 q2, q = q1 ++ nth i l' eofTok :: q2 /\ Forall nonNL (q1 ++ [nth i l' eofTok]) /\ ty (nth i l' eofTok) = e.
Proof.
  induction want as [|e w IH]; intros ts acc l ts' HW H; cbn [matchGo] in H.
  - injection H as <- <-. exists [], []. rewrite app_nil_r. repeat split. intros [|i] e0; discriminate.
  - cbn [eolLast] in HW. apply andb_true_iff in HW. destruct HW as [HW1 HW].
    apply andb_true_iff in HW1. destruct HW1 as [HF HN].
    assert (HF' : e <> TEOF) by (intros ->; discriminate). assert (HN' : e <> TNewLine) by (intros ->; discriminate).
    destruct (tt_eqb e TEOL) eqn:E1.
    + apply tt_eqb_eq in E1. subst e. destruct w; [|discriminate].
      assert (G : exists l' q, l = rev acc ++ l' /\ ts = q ++ ts').
      { destruct (tt_eqb (ty (cursor ts)) TEOL) eqn:Et.
        - cbn [matchGo] in H. injection H as <- <-. exists [cursor ts], (match ts with [] => [] | t :: _ => [t] end).
          split; [reflexivity|]. destruct ts; reflexivity.
        - change (tt_eqb TEOL TEOL) with true in H. cbv iota in H. destruct (expectEOL ts) as [u t|m t|] eqn:EE; try discriminate.
          injection H as <- <-. pose proof (expectEOL_good ts) as HG. rewrite EE in HG. destruct HG as [[q HG] _].
          exists [Tok TEOL "" 0 (line (cursor ts)) (col (cursor ts))], q. now split. }
      destruct G as (l' & q & G1 & G2). exists l', q. split; [exact G1|]. split; [exact G2|].
      intros [|i] e0 E0 W0 W1; [injection E0 as <-; congruence|destruct i; discriminate].
    + destruct (tt_eqb (ty (cursor ts)) e) eqn:Et.
      * apply tt_eqb_eq in Et. assert (Hne : ts <> []) by (apply cursor_ne; congruence).
        destruct ts as [|t ts]; [congruence|]. cbn [cursor pnext] in *.
        destruct (IH _ _ _ _ HW H) as (l' & q & -> & -> & G). exists (t :: l'), (t :: q). cbn [rev]. rewrite <- app_assoc.
        repeat split. intros [|i] e0 E0 W0 W1; cbn in *.
        -- injection E0 as <-. exists [], q. repeat split; [|exact Et]. constructor; [|constructor]. unfold nonNL. congruence.
        -- destruct (G i e0 E0 W0 W1) as (q1 & q2 & -> & F1 & F2). exists (t :: q1), q2. repeat split; [|exact F2].
           constructor; [|exact F1]. unfold nonNL. congruence.
      * destruct (tt_eqb e TWhitespace) eqn:E2; [|discriminate]. apply tt_eqb_eq in E2. subst e.
        destruct (IH _ _ _ _ HW H) as (l' & q & -> & -> & G).
        exists (Tok TWhitespace " " 0 (line (cursor (q ++ ts'))) (col (cursor (q ++ ts'))) :: l'), q. cbn [rev]. rewrite <- app_assoc.
        repeat split. intros [|i] e0 E0 W0 W1; cbn [nth_error nth] in *; [injection E0 as <-; congruence|].
        apply (G i e0 E0 W0 W1).
Qed.

Lemma pmatch_place want ts l ts' : pmatch want ts = POk l ts' -> eolLast want = true ->
  forall i e, nth_error want i = Some e -> e <> TWhitespace -> e <> TEOL ->
    exists q1 q2, ts = q1 ++ nth i l eofTok :: q2 ++ ts' /\ Forall nonNL (q1 ++ [nth i l eofTok]) /\ ty (nth i l eofTok) = e.
Proof.
  intros H HW i e E W0 W1. destruct (matchGo_places ts want ts [] l ts' HW H) as (l' & q & -> & -> & G). cbn [rev app].
  destruct (G i e E W0 W1) as (q1 & q2 & -> & F1 & F2). exists q1, q2. rewrite <- app_assoc. now repeat split.
Qed.

(** two tokens of one match are on the same line *)
Lemma pmatch_line T want ts l ts' i j : Lined T -> Suf ts T -> pmatch want ts = POk l ts' -> eolLast want = true ->
  (exists e, nth_error want i = Some e /\ e <> TWhitespace /\ e <> TEOL) ->
  (exists e, nth_error want j = Some e /\ e <> TWhitespace /\ e <> TEOL) ->
  line (nth i l eofTok) = line (nth j l eofTok).
Proof.
  intros HT HS HM HW (e & E1 & E2 & E3) (e' & E1' & E2' & E3').
  destruct (pmatch_place _ _ _ _ HM HW i e E1 E2 E3) as (q1 & q2 & Q & F & _).
  destruct (pmatch_place _ _ _ _ HM HW j e' E1' E2' E3') as (q1' & q2' & Q' & F' & _).
  apply Forall_app in F. apply Forall_app in F'.
  rewrite (sameline T ts q1 _ _ HT HS Q (proj1 F)). now rewrite (sameline T ts q1' _ _ HT HS Q' (proj1 F')).
Qed.

(** ** Literal values *)
Lemma unescape_nonempty s o : unescape s = Ok o -> s <> ""%string -> o <> ""%string.
Proof.
  destruct s as [|c r]; [congruence|]. intros H _. cbn [unescape] in H.
  assert (G : forall x (r : result string) p, p <> ""%string -> (do o <- r; Ok (p ++ o)%string) = Ok x -> x <> ""%string).
  { intros x [a| | |] p Hp; cbn; try discriminate. intro E. injection E as <-. destruct p; [congruence|discriminate]. }
  destruct (Ascii.eqb c "\").
  - destruct r as [|d r']; [discriminate|].
    destruct (Ascii.eqb d "n"); [now apply (G o (unescape r') (String "010" "")) in H|].
    destruct (Ascii.eqb d "t"); [now apply (G o (unescape r') (String "009" "")) in H|].
    destruct (Ascii.eqb d """"); [now apply (G o (unescape r') (String d "")) in H|]. discriminate.
  - eapply (G o (unescape r)); [|exact H]. pose proof (encode_rune_length (N_of_byte c)) as HL. destruct (encode_rune _); [cbn in HL; lia|discriminate].
Qed.

Definition full (t : token) : Prop := val t <> ""%string.

Lemma composeAt_spec l ts v ts' : composeAt l ts = POk v ts' -> Forall full l ->
  exists t r, l = t :: r /\ line v = line t /\ val v <> ""%string /\ ts' = ts.
Proof.
  unfold composeAt, composedValue. destruct l as [|t r]; [discriminate|]. intros H HF.
  destruct (unescape (sconcat (map val (t :: r)))) as [o| | |] eqn:E; try discriminate. cbn in H. injection H as <- <-.
  exists t, r. repeat split. cbn. eapply unescape_nonempty; [exact E|]. inversion HF; subst. unfold full in *. cbn.
  destruct (val t); [congruence|discriminate].
Qed.

Lemma strLoop_spec : forall ts acc l ts', strLoop ts acc = POk l ts' -> exists m, l = rev acc ++ m /\ (Forall full ts -> Forall full m) /\
  (m <> [] -> exists r, ts = hd eofTok m :: r).
Proof.
  intro ts. remember (length ts) as n eqn:Hn. revert ts Hn.
  induction n as [n IH] using lt_wf_ind. intros [|t r] Hn acc l ts' H; cbn [strLoop] in H; [discriminate|]. cbn in Hn.
  assert (H1 : strLoop r (t :: acc) = POk l ts' -> exists m, l = rev acc ++ m /\ (Forall full (t :: r) -> Forall full m) /\ (m <> [] -> exists r0, t :: r = hd eofTok m :: r0)).
  { intro HH. destruct (IH (length r) ltac:(lia) r eq_refl _ _ _ HH) as (m & -> & G & _). exists (t :: m). cbn [rev]. rewrite <- app_assoc.
    repeat split; [|intros _; now exists r]. intro F. inversion F; subst. constructor; [assumption|now apply G]. }
  destruct (ty t); try (now apply H1); try discriminate.
  - destruct r as [|t2 r2]; [discriminate|]. destruct (IH (length r2) ltac:(cbn in Hn; lia) r2 eq_refl _ _ _ H) as (m & -> & G & _).
    exists (t :: t2 :: m). cbn [rev]. rewrite <- !app_assoc. repeat split; [|intros _; now exists (t2 :: r2)].
    intro F. inversion F as [|? ? F1 F2]; subst. inversion F2; subst. constructor; [assumption|]. constructor; [assumption|now apply G].
  - injection H as <- <-. exists []. rewrite app_nil_r. repeat split; [constructor|congruence].
Qed.

Lemma litLoop_spec dots : forall ts acc v ts', litLoop dots ts acc = POk v ts' -> Forall nonNL acc -> Forall full acc -> Forall full ts ->
  val v <> ""%string /\ exists q1 t q2, rev acc ++ ts = q1 ++ t :: q2 /\ Forall nonNL q1 /\ line v = line t.
Proof.
  assert (HC : forall acc ts v ts', composeAt (rev acc) ts = POk v ts' -> Forall full acc ->
    val v <> ""%string /\ exists q1 t q2, rev acc ++ ts = q1 ++ t :: q2 /\ Forall nonNL q1 /\ line v = line t).
  { intros acc ts v ts' H HF. apply composeAt_spec in H; [|now apply Forall_rev]. destruct H as (t & r & E & L & V & _).
    split; [exact V|]. exists [], t, (r ++ ts). rewrite E. repeat split; [constructor|exact L]. }
  induction ts as [|t r IH]; intros acc v ts' H HN HF HT; cbn [litLoop] in H; [eapply HC; eassumption|].
  inversion HT as [|? ? T1 T2]; subst.
  assert (HS : ty t <> TNewLine -> litLoop dots r (t :: acc) = POk v ts' ->
    val v <> ""%string /\ exists q1 t0 q2, rev acc ++ t :: r = q1 ++ t0 :: q2 /\ Forall nonNL q1 /\ line v = line t0).
  { intros Ht HH. destruct (IH _ _ _ HH) as [V (q1 & t0 & q2 & Q & G)]; try assumption; try (constructor; assumption).
    split; [exact V|]. exists q1, t0, q2. cbn [rev] in Q. rewrite <- app_assoc in Q. now split. }
  destruct (ty t) eqn:E; try (apply HS; [congruence|exact H]); try (eapply HC; eassumption).
  - unfold expectStringValue in H. cbn [cursor pnext] in H. rewrite E in H. change (tt_eqb TQuote TQuote) with true in H. cbv iota in H.
    destruct (strLoop r []) as [l t'|m t'|] eqn:ES; try discriminate.
    destruct (strLoop_spec _ _ _ _ ES) as (m & -> & G1 & G2). cbn [rev app] in H. apply composeAt_spec in H; [|now apply G1].
    destruct H as (t0 & r0 & -> & L & V & _). split; [exact V|]. destruct (G2 ltac:(discriminate)) as (r1 & ->). cbn [hd].
    exists (rev acc ++ [t]), t0, r1. rewrite <- app_assoc. repeat split; [|exact L]. apply Forall_app. split; [now apply Forall_rev|].
    constructor; [unfold nonNL; congruence|constructor].
  - destruct dots; [apply HS; [congruence|exact H]|eapply HC; eassumption].
Qed.

(** ** Taking comments *)
Definition get (cm : comments) : clines := fun n => getComment n cm.

Lemma take_spec cm n com cm' : parseComments cm n = (com, cm') -> 1 <= n -> Take (get cm) n com (get cm').
Proof.
  intros E Hn. destruct (parseComments_spec cm n Hn) as (k & s & B & E1 & E2). rewrite E in *. cbn [fst snd] in *.
  exists k, s. split; [exact B|]. split; [exact E1|exact E2].
Qed.

Lemma take_again m n t m' cm : Take m n t m' -> (forall i, get cm i = m' i) -> 1 <= n ->
  fst (parseComments cm n) = ""%string /\ forall i, get (snd (parseComments cm n)) i = get cm i.
Proof.
  intros (k & s & B & _ & E) Hcm Hn. destruct (parseComments_spec cm n Hn) as (k' & s' & (B1' & B2' & B3' & B4') & E1 & E2).
  assert (G1 : getComment n cm = None).
  { change (get cm n = None). rewrite Hcm, E. destruct B as (B1 & B2 & B3 & B4). destruct B1 as [[B1 ->]|[B1 Bs]].
    - destruct (le_lt_dec k n); [replace (k <=? n) with true by lia; replace (n <=? n) with true by lia; reflexivity|].
      replace (k <=? n) with false by lia. cbn. exfalso. destruct B4 as [B4|B4]; [lia|]. apply B4. replace (k - 1) with n by lia. exact B1.
    - destruct (_ && _); [reflexivity|]. destruct (m n); [exfalso; apply B1; discriminate|reflexivity]. }
  assert (G2 : getComment (n - 1) cm = None).
  { change (get cm (n - 1) = None). rewrite Hcm, E. destruct B as (B1 & B2 & B3 & B4).
    destruct ((k <=? n - 1) && (n - 1 <=? s)) eqn:Ek; [reflexivity|]. destruct B1 as [[B1 ->]|[B1 Bs]].
    - destruct B4 as [B4|B4]; [lia|]. assert (k = n \/ k = S n) as [->| ->] by lia.
      + destruct (m (n - 1)); [exfalso; apply B4; discriminate|reflexivity].
      + exfalso. apply B4. replace (S n - 1) with n by lia. exact B1.
    - destruct B4 as [B4|B4]; [lia|]. assert (k = n) as -> by lia. destruct (m (n - 1)); [exfalso; apply B4; discriminate|reflexivity]. }
  assert (Hs : s' = n - 1) by (destruct B1' as [[X _]|[_ X]]; [unfold hasC in X; congruence|lia]).
  assert (Hk : k' = S s').
  { destruct (Nat.eq_dec k' (S s')) as [H|H]; [exact H|]. exfalso. assert (k' <= s') by lia.
    apply (B3' s'); [lia|]. rewrite Hs. exact G2. }
  split.
  - rewrite E1, Hk. replace (S s' - S s') with 0 by lia. reflexivity.
  - intro i. unfold get. rewrite E2. replace ((k' <=? i) && (i <=? s')) with false by lia. reflexivity.
Qed.

Lemma block_ext (m m' : clines) n k s : (forall i, m i = m' i) -> Block (fun i => m i <> None) n k s -> Block (fun i => m' i <> None) n k s.
Proof.
  intros E (B1 & B2 & B3 & B4). unfold Block. rewrite <- !E. repeat split; try assumption. intros i Hi. rewrite <- E. now apply B3.
Qed.

Lemma blockText_ext (m m' : clines) k s : (forall i, m i = m' i) -> blockText m k s = blockText m' k s.
Proof. intro E. unfold blockText. do 2 f_equal. apply map_ext. intro i. now rewrite E. Qed.

Lemma take_ext m1 m2 n t m' : (forall i, m1 i = m2 i) -> Take m1 n t m' -> Take m2 n t m'.
Proof.
  intros E (k & s & B & -> & H). exists k, s. split; [eapply block_ext; eassumption|]. split; [now apply blockText_ext|].
  intro i. rewrite H. now rewrite E.
Qed.

Lemma taken_end m l m' m2 : Taken m l m' -> (forall i, m2 i = m' i) -> Taken m l m2.
Proof.
  intros H. induction H as [m m' E|m n t m1 l m' HT H IH]; intro E2.
  - constructor. intro i. now rewrite E2, E.
  - econstructor; [exact HT|now apply IH].
Qed.

Lemma taken_snoc m l m1 n t m2 : Taken m l m1 -> Take m1 n t m2 -> Taken m (l ++ [(n, t)]) m2.
Proof.
  intros H HT. induction H as [m m1 E|m n' t' m0 l m1 H1 H IH].
  - cbn. econstructor; [eapply take_ext; [|exact HT]; exact E|]. constructor. reflexivity.
  - cbn. econstructor; [exact H1|now apply IH].
Qed.

Lemma taken_snoc_inv m l n t m2 : Taken m (l ++ [(n, t)]) m2 -> exists m1, Taken m l m1 /\ Take m1 n t m2.
Proof.
  revert m. induction l as [|[n' t'] l IH]; intros m H; cbn in H; inversion H as [|? ? ? m1 ? ? HT HR]; subst.
  - inversion HR as [? ? E|]; subst. exists m. split; [constructor; reflexivity|]. destruct HT as (k & s & B & E1 & E2).
    exists k, s. repeat split; try assumption; try apply B. intro i. now rewrite E, E2.
  - destruct (IH _ HR) as (m0 & H1 & H2). exists m0. split; [econstructor; eassumption|exact H2].
Qed.

Lemma sub_app {A} (a b : list A) x c : Sub a b -> Sub (a ++ [x]) (b ++ x :: c).
Proof.
  intro H. induction H as [b|y a b H IH|y a b H IH]; cbn.
  - induction b as [|y b IH]; cbn; [constructor; constructor|now constructor].
  - now constructor.
  - now constructor.
Qed.
Lemma sub_more {A} (a b c : list A) : Sub a b -> Sub a (b ++ c).
Proof. intro H. induction H; cbn; now constructor. Qed.

(** ** The invariant *)
Definition place (t : token) : string * nat := (val t, line t).
Definition lineOf (x : definition) : nat * string := (snd (fst x), snd x).

(** the definitions of the node under construction; [pre] are the consumed tokens, [p2] those
    after the last definition *)
Definition Pending (st : pstate) (pre p2 : toks) (ds : list definition) : Prop :=
  match st with
  | SDefinitionValue d => exists n, ds = [((d_left d, n), d_comment d)]
  | SEnumDefinition e => DefinedBy (NEnum e) ds
  | SEnumExplicitValue e d =>
      d_right d = ""%string /\
      exists ds0 p t, ds = ds0 ++ [((d_left d, line t), d_comment d)] /\ DefinedBy (NEnum e) ds0 /\ pre = p ++ [t] /\ nonNL t
  | STypeAliasMeta a | STypeAliasMetaDef a => DefinedBy (NAlias a) ds
  | SStructField s | SStructFieldDef s | SStructFieldMeta s | SStructFieldMetaDef s => DefinedBy (NStruct s) ds
  | SServiceMethod s | SServiceMethodDef s =>
      DefinedBy (NService s) ds /\ Forall (fun a => In (an_type a, an_line a) (map place p2)) (sv_anns s)
  | _ => ds = []
  end.

Definition Made (out : list node) (ds : list definition) : Prop := Definitions (rev out) ds.

Definition Inv (T : toks) (cm0 : comments) (c : pconf) : Prop :=
  exists p1 p2 ds1 ds2,
    T = p1 ++ p2 ++ p_toks c /\ Made (p_out c) ds1 /\ Pending (p_state c) (p1 ++ p2) p2 ds2 /\
    Sub (map fst (ds1 ++ ds2)) (map place p1) /\
    Taken (get cm0) (map lineOf (ds1 ++ ds2)) (get (p_comments c)).

(** the next configuration keeps the invariant *)
Definition okStep (T : toks) (cm0 : comments) (r : pstep) : Prop :=
  match r with Next c => Inv T cm0 c | _ => True end.

Lemma okStep_error T cm0 m ts : okStep T cm0 (stateError m ts).
Proof. exact I. Qed.

Lemma okStep_onOk {A} T cm0 (r : pres A) k f ts : good k ts r ->
  (forall a ts', r = POk a ts' -> Suf ts' ts -> okStep T cm0 (f a ts')) -> okStep T cm0 (onOk r f).
Proof.
  intros HG H. destruct r as [a t|m t|]; cbn in *; [|exact I|exact I]. apply H; [reflexivity|apply HG].
Qed.

(** moving on without a definition *)
Lemma inv_move T cm0 st st' ts ts' cm out : Inv T cm0 (PC st ts cm out) -> Suf ts' ts ->
  (forall pre p2 q ds, Pending st pre p2 ds -> Pending st' (pre ++ q) (p2 ++ q) ds) ->
  Inv T cm0 (PC st' ts' cm out).
Proof.
  intros (p1 & p2 & ds1 & ds2 & HT & HM & HP & HS & HK) [q HQ] H. cbn [p_toks p_out p_state p_comments] in *. subst ts.
  exists p1, (p2 ++ q), ds1, ds2. cbn [p_toks p_out p_state p_comments]. repeat split; try assumption.
  - rewrite HT. now rewrite <- !app_assoc.
  - rewrite app_assoc. now apply H.
Qed.

(** emitting a node *)
Lemma inv_emit T cm0 st st' ts ts' cm out n : Inv T cm0 (PC st ts cm out) -> Suf ts' ts ->
  (forall pre p2 ds, Pending st pre p2 ds -> DefinedBy n ds) -> (forall pre p2, Pending st' pre p2 []) ->
  Inv T cm0 (PC st' ts' cm (n :: out)).
Proof.
  intros (p1 & p2 & ds1 & ds2 & HT & HM & HP & HS & HK) [q HQ] H H'. cbn [p_toks p_out p_state p_comments] in *. subst ts.
  exists p1, (p2 ++ q), (ds1 ++ ds2), []. cbn [p_toks p_out p_state p_comments]. rewrite app_nil_r. repeat split; try assumption.
  - rewrite HT. now rewrite <- !app_assoc.
  - destruct HM as (ls & M1 & ->). exists (ls ++ [ds2]). cbn [rev]. split.
    + apply Forall2_app; [exact M1|]. constructor; [exact (H _ _ _ HP)|constructor].
    + rewrite concat_app. cbn. now rewrite app_nil_r.
  - apply H'.
Qed.

(** taking a comment for a definition named by token [t] *)
Lemma inv_take T cm0 st st' ts ts' cm cm' out com q1 t q2 n :
  Lined T -> Inv T cm0 (PC st ts cm out) -> ts = q1 ++ t :: q2 ++ ts' -> line t = n -> parseComments cm n = (com, cm') ->
  (forall pre p2 ds, Pending st pre p2 ds -> Pending st' (pre ++ q1 ++ t :: q2) q2 (ds ++ [(place t, com)])) ->
  Inv T cm0 (PC st' ts' cm' out).
Proof.
  intros HL (p1 & p2 & ds1 & ds2 & HT & HM & HP & HS & HK) HQ Hn HC H. cbn [p_toks p_out p_state p_comments] in *. subst ts.
  exists (p1 ++ p2 ++ q1 ++ [t]), q2, ds1, (ds2 ++ [(place t, com)]). cbn [p_toks p_out p_state p_comments].
  assert (Hl : 1 <= n).
  { destruct HL as [_ HF]. rewrite Forall_forall in HF. rewrite <- Hn. apply HF. rewrite HT. rewrite !in_app_iff. cbn. tauto. }
  repeat split; try assumption.
  - rewrite HT. rewrite <- !app_assoc. reflexivity.
  - replace ((p1 ++ p2 ++ q1 ++ [t]) ++ q2) with ((p1 ++ p2) ++ q1 ++ t :: q2) by (rewrite <- !app_assoc; reflexivity). exact (H _ _ _ HP).
  - replace (p1 ++ p2 ++ q1 ++ [t]) with ((p1 ++ (p2 ++ q1)) ++ [t]) by (rewrite <- !app_assoc; reflexivity).
    rewrite app_assoc, !map_app. cbn [map fst]. apply sub_app, sub_more. now rewrite map_app in HS.
  - rewrite app_assoc, map_app. change (map lineOf [(place t, com)]) with [(line t, com)]. rewrite Hn. eapply taken_snoc; [exact HK|]. now apply take_spec.
Qed.

(** ... for a method named by an annotation *)
Lemma inv_take_before T cm0 st st' ts ts' cm cm' out com x n :
  Lined T -> Inv T cm0 (PC st ts cm out) -> Suf ts' ts -> snd x = n -> parseComments cm n = (com, cm') ->
  (forall pre p2 ds, Pending st pre p2 ds -> In x (map place p2)) ->
  (forall pre p2 p2' ds pre', Pending st pre p2 ds -> Pending st' pre' p2' (ds ++ [(x, com)])) ->
  Inv T cm0 (PC st' ts' cm' out).
Proof.
  intros HL (p1 & p2 & ds1 & ds2 & HT & HM & HP & HS & HK) [q HQ] Hn HC HX H. cbn [p_toks p_out p_state p_comments] in *. subst ts.
  pose proof (HX _ _ _ HP) as HX'. apply in_map_iff in HX'. destruct HX' as (t & Hx & Ht). apply in_split in Ht. destruct Ht as (a & b & ->).
  exists (p1 ++ a ++ [t]), (b ++ q), ds1, (ds2 ++ [(x, com)]). cbn [p_toks p_out p_state p_comments].
  assert (Hl : 1 <= n).
  { destruct HL as [_ HF]. rewrite Forall_forall in HF. rewrite <- Hn, <- Hx. cbn. apply HF. rewrite HT. rewrite !in_app_iff. cbn. tauto. }
  repeat split; try assumption.
  - rewrite HT, <- !app_assoc. reflexivity.
  - exact (H _ _ _ _ _ HP).
  - replace (p1 ++ a ++ [t]) with ((p1 ++ a) ++ [t]) by (rewrite <- !app_assoc; reflexivity).
    rewrite app_assoc, !map_app. cbn [map fst]. rewrite <- Hx. apply sub_app, sub_more. now rewrite map_app in HS.
  - rewrite app_assoc, map_app. change (map lineOf [(x, com)]) with [(snd x, com)]. rewrite Hn. eapply taken_snoc; [exact HK|]. now apply take_spec.
Qed.

Lemma fields_snoc l ds d x : Forall2 FieldAt l ds -> FieldAt d x -> Forall2 FieldAt (l ++ [d]) (ds ++ [x]).
Proof. intros H1 H2. apply Forall2_app; [exact H1|]. constructor; [exact H2|constructor]. Qed.

Lemma defined_struct s ds : DefinedBy (NStruct s) ds <-> exists fs, Forall2 FieldAt (s_fields s) fs /\ ds = ((s_name s, s_line s), s_comment s) :: fs.
Proof.
  split; [intro H; inversion H; subst; eauto|]. intros (fs & H & ->). now constructor.
Qed.
Lemma defined_service s ds : DefinedBy (NService s) ds <->
  exists n ms, Forall2 MethodAt (sv_methods s) ms /\ ds = (("service"%string, n), sv_comment s) :: ms.
Proof.
  split; [intro H; inversion H; subst; eauto|]. intros (n & fs & H & ->). now constructor.
Qed.
Lemma defined_alias a ds : DefinedBy (NAlias a) ds <-> ds = [((al_name a, al_line a), al_comment a)].
Proof. split; [intro H; inversion H; subst; reflexivity|intros ->; constructor]. Qed.

Lemma addMeta_defined s kv ds : DefinedBy (NStruct s) ds -> DefinedBy (NStruct (addMeta s kv)) ds.
Proof.
  rewrite !defined_struct. intros (fs & H & ->). unfold addMeta. destruct (rev (s_fields s)) as [|f r] eqn:E; [now exists fs|].
  exists fs. split; [|reflexivity]. cbn [s_fields].
  assert (E' : s_fields s = rev r ++ [f]) by (rewrite <- (rev_involutive (s_fields s)), E; reflexivity).
  rewrite E' in H. apply Forall2_app_inv_l in H. destruct H as (a & b & H1 & H2 & ->). inversion H2 as [|? x ? ? Hx Hn]; subst.
  inversion Hn; subst. apply Forall2_app; [exact H1|]. constructor; [|constructor]. exact Hx.
Qed.

(** the pending annotations are tokens that were read *)
Lemma annLoop_places : forall n ts seen acc anns ts', annLoop n ts seen acc = POk anns ts' ->
  exists q m, ts = q ++ ts' /\ anns = rev acc ++ m /\ Forall (fun a => In (an_type a, an_line a) (map place q)) m.
Proof.
  induction n as [|n IH]; intros ts seen acc anns ts' H; cbn [annLoop] in H; [discriminate|].
  destruct (pmatch [TAt; TWord] ts) as [l ts1|e ts1|] eqn:EM; try discriminate.
  2, 3: injection H as <- <-; exists [], []; rewrite app_nil_r; repeat split; constructor.
  destruct (pmatch_place _ _ _ _ EM eq_refl 1 TWord eq_refl ltac:(discriminate) ltac:(discriminate)) as (q1 & q2 & Q & _ & _).
  set (t := nth 1 l eofTok) in *. destruct (str_in (val t) seen); [discriminate|].
  assert (G : forall ts2 v, Suf ts2 ts1 -> annLoop n ts2 (val t :: seen) (Ann (val t) (line t) v :: acc) = POk anns ts' ->
    exists q m, ts = q ++ ts' /\ anns = rev acc ++ m /\ Forall (fun a => In (an_type a, an_line a) (map place q)) m).
  { intros ts2 v [p Hp] HH. destruct (IH _ _ _ _ _ HH) as (q & m & -> & -> & F). subst ts1.
    exists (q1 ++ t :: q2 ++ p ++ q), (Ann (val t) (line t) v :: m). cbn [rev]. split; [|split; [now rewrite <- app_assoc|]].
    - rewrite Q, <- !app_assoc. cbn. now rewrite <- !app_assoc.
    - constructor; [cbn; change (val t, line t) with (place t); apply in_map; rewrite !in_app_iff; cbn; tauto|].
      eapply Forall_impl; [|exact F]. intros a Ha. rewrite !map_app. cbn [map]. rewrite !map_app. rewrite !in_app_iff. cbn. rewrite !in_app_iff. tauto. }
  destruct (tt_eqb (ty (cursor ts1)) TColon); [|now apply (G ts1 None); [apply Suf_refl|]].
  assert (S1 := Suf_pnext ts1).
  assert (S2 : Suf (pnext (pnext ts1)) ts1) by (eapply Suf_trans; [apply Suf_pnext|exact S1]).
  destruct (ty (cursor (pnext ts1))); try (now eapply G; [exact S2|exact H]).
  destruct (expectStringValue (pnext ts1)) as [v ts3|e ts3|] eqn:EV; try discriminate.
  pose proof (expectStringValue_good (pnext ts1)) as HG. rewrite EV in HG. eapply G; [|exact H].
  eapply Suf_trans; [apply Suf_pnext|]. eapply Suf_trans; [apply HG|exact S1].
Qed.

(** same pending definitions, in any state that looks at them in the same way *)
Ltac same := intros pre p2 q ds HP; exact HP.

(** a match of [-, blank, word] *)
Lemma item_place T ts l ts' : Lined T -> Suf ts T -> pmatch [TMinus; TWhitespace; TWord] ts = POk l ts' ->
  exists q1, ts = q1 ++ nth 2 l eofTok :: ts' /\ nonNL (nth 2 l eofTok) /\ line (nth 2 l eofTok) = line (nth 0 l eofTok).
Proof.
  intros HL HS H.
  assert (HLn : line (nth 2 l eofTok) = line (nth 0 l eofTok)).
  { eapply pmatch_line; [exact HL|exact HS|exact H|reflexivity| |]; (eexists; split; [reflexivity|split; discriminate]). }
  unfold pmatch in H. cbn [matchGo] in H. destruct (tt_eqb (ty (cursor ts)) TMinus) eqn:E1; [|discriminate].
  apply tt_eqb_eq in E1. destruct ts as [|t0 ts]; [discriminate|]. cbn [cursor pnext] in *.
  destruct (tt_eqb (ty (cursor ts)) TWhitespace) eqn:E2.
  - apply tt_eqb_eq in E2. destruct ts as [|t1 ts]; [discriminate|]. cbn [cursor pnext] in *.
    destruct (tt_eqb (ty (cursor ts)) TWord) eqn:E3; [|discriminate]. apply tt_eqb_eq in E3. destruct ts as [|t2 ts]; [discriminate|].
    cbn [cursor pnext] in *. injection H as <- <-. cbn [nth] in *. exists [t0; t1]. repeat split; [unfold nonNL; congruence|exact HLn].
  - change (tt_eqb TWhitespace TEOL) with false in H. change (tt_eqb TWhitespace TWhitespace) with true in H. cbv iota in H.
    destruct (tt_eqb (ty (cursor ts)) TWord) eqn:E3; [|discriminate]. apply tt_eqb_eq in E3. destruct ts as [|t2 ts]; [discriminate|].
    cbn [cursor pnext] in *. injection H as <- <-. cbn [nth] in *. exists [t0]. repeat split; [unfold nonNL; congruence|exact HLn].
Qed.

Lemma methodErrors_ok T cm0 finish ts : (forall es t, Suf t ts -> okStep T cm0 (finish es t)) -> okStep T cm0 (methodErrors finish ts).
Proof.
  intro H. unfold methodErrors. pose proof (pmatch_good' [TWhitespace; TWord] ts 1 ltac:(noeof) eq_refl) as HM.
  destruct (pmatch [TWhitespace; TWord] ts) as [l t|m t|]; cbn in HM; try (apply H, Suf_refl).
  destruct (String.eqb _ _).
  - eapply okStep_onOk; [apply expectErrorList_good|]. intros a ts' _ HS. apply H. eapply Suf_trans; [exact HS|apply HM].
  - apply H, HM.
Qed.

Lemma methodOutputs_ok T cm0 finish ts : (forall os outs es t, Suf t ts -> okStep T cm0 (finish os outs es t)) -> okStep T cm0 (methodOutputs finish ts).
Proof.
  intro H. unfold methodOutputs. pose proof (pmatch_good' [TWhitespace; TRocket; TWhitespace] ts 1 ltac:(noeof) eq_refl) as HM.
  destruct (pmatch [TWhitespace; TRocket; TWhitespace] ts) as [l t|m t|]; cbn in HM.
  - assert (G : forall os u, Suf u ts -> okStep T cm0 (onOk (expectArgumentList u) (fun outs ts5 => methodErrors (finish os outs) ts5))).
    { intros os u HU. eapply okStep_onOk; [apply expectArgumentList_good|]. intros a ts' _ HS. apply methodErrors_ok. intros es t' Ht.
      apply H. eapply Suf_trans; [exact Ht|]. eapply Suf_trans; [exact HS|exact HU]. }
    cbv zeta. pose proof (pmatch_good' [TWord; TWhitespace] t 1 ltac:(noeof) eq_refl) as HM2.
    destruct (pmatch [TWord; TWhitespace] t) as [l2 t2|m2 t2|]; cbn in HM2; try (apply G, HM).
    destruct (String.eqb _ _); [|exact I]. apply G. eapply Suf_trans; [apply HM2|apply HM].
  - apply methodErrors_ok. intros es t' Ht. apply H, Ht.
  - contradiction.
Qed.

(** the method takes its comment and is added *)
Lemma method_ok T cm0 s ts ts' cm out com cm' t0 q1 q2 n m :
  Lined T -> Inv T cm0 (PC (SServiceMethodDef s) ts cm out) ->
  ts = q1 ++ t0 :: q2 -> Suf ts' q2 -> val t0 = m_name m -> m_comment m = com -> m_annotations m = sv_anns s ->
  n = match rev (sv_anns s) with [] => line t0 | a :: _ => an_line a end -> parseComments cm n = (com, cm') ->
  okStep T cm0 (finishMethod s cm' out m ts').
Proof.
  intros HL HI HQ [q HS] Hv Hc Ha Hn HC. subst q2. unfold finishMethod, okStep.
  assert (HM : forall pre p2 ds x p2' pre', Pending (SServiceMethodDef s) pre p2 ds -> MethodAt m (x, com) ->
    Pending (SServiceMethod (Service (sv_name s) (sv_methods s ++ [m]) [] (sv_comment s))) pre' p2' (ds ++ [(x, com)])).
  { intros pre p2 ds x p2' pre' [HP _] HX. cbn [Pending sv_anns]. split; [|constructor]. apply defined_service in HP.
    destruct HP as (k & ms & F & ->). apply defined_service. exists k, (ms ++ [(x, com)]). cbn [sv_methods sv_comment]. split; [|reflexivity].
    apply Forall2_app; [exact F|]. constructor; [exact HX|constructor]. }
  destruct (rev (sv_anns s)) as [|a r] eqn:E.
  - eapply inv_take; [exact HL|exact HI|exact HQ|symmetry; exact Hn|exact HC|]. intros pre p2 ds HP. eapply HM; [exact HP|].
    unfold MethodAt. rewrite Ha, E. cbn. now split.
  - eapply (inv_take_before T cm0 _ _ _ _ _ _ _ _ (an_type a, an_line a)); [exact HL|exact HI| |symmetry; exact Hn|exact HC| |].
    + exists (q1 ++ t0 :: q). rewrite HQ, <- app_assoc. reflexivity.
    + intros pre p2 ds [_ HP]. rewrite Forall_forall in HP. apply HP. rewrite <- (rev_involutive (sv_anns s)), E. cbn. rewrite in_app_iff. right. now left.
    + intros pre p2 p2' ds pre' HP. eapply HM; [exact HP|]. unfold MethodAt. rewrite Ha, E. cbn. now split.
Qed.

Lemma methodRest_ok T cm0 s ts cm out a b t0 q1 ts2 n :
  Lined T -> Inv T cm0 (PC (SServiceMethodDef s) ts cm out) -> ts = q1 ++ t0 :: ts2 ->
  n = match rev (sv_anns s) with [] => line t0 | a :: _ => an_line a end ->
  okStep T cm0 (methodRest s cm out a b n (val t0) ts2).
Proof.
  intros HL HI HQ Hn. unfold methodRest. destruct (parseComments cm n) as [com cm'] eqn:EC. destruct b.
  - eapply method_ok; try eassumption; try reflexivity. apply Suf_refl.
  - eapply okStep_onOk; [apply expectArgumentList_good|]. intros ins ts3 _ S3. apply methodOutputs_ok. intros os outs es t Ht.
    eapply method_ok; try eassumption; try reflexivity. eapply Suf_trans; eassumption.
Qed.

Lemma inv_suf T cm0 c : Inv T cm0 c -> Suf (p_toks c) T.
Proof. intros (p1 & p2 & ? & ? & HT & _). exists (p1 ++ p2). now rewrite <- app_assoc. Qed.

Lemma serviceMethod_ok T cm0 s ts cm out : Lined T -> Inv T cm0 (PC (SServiceMethodDef s) ts cm out) ->
  okStep T cm0 (stepServiceMethodDef s ts cm out).
Proof.
  intros HL HI. pose proof (inv_suf _ _ _ HI) as HS. cbn [p_toks] in HS. unfold stepServiceMethodDef. destruct (hasDup _); [exact I|].
  eapply okStep_onOk; [apply (pmatch_good' _ _ 2); [noeof|reflexivity]|]. intros l ts1 EM S1. cbv zeta.
  destruct (item_place _ _ _ _ HL HS EM) as (q1 & Q & Hnl & Hl).
  set (w := nth 2 l eofTok) in *. destruct (_ || _).
  - eapply okStep_onOk; [apply (pmatch_good' _ _ 1); [noeof|reflexivity]|]. intros l2 ts2 EM2 S2.
    destruct (pmatch_place _ _ _ _ EM2 eq_refl 1 TWord eq_refl ltac:(discriminate) ltac:(discriminate)) as (r1 & r2 & R & F & _).
    assert (r2 = []) as ->.
    { unfold pmatch in EM2. cbn [matchGo] in EM2. clear -EM2 R. set (x := nth 1 l2 eofTok) in *. assert (EL : True) by exact I.
      destruct (tt_eqb (ty (cursor ts1)) TWhitespace) eqn:E1.
      - apply tt_eqb_eq in E1. destruct ts1 as [|u1 ts1]; [discriminate|]. cbn [cursor pnext] in *.
        destruct (tt_eqb (ty (cursor ts1)) TWord) eqn:E2; [|discriminate]. apply tt_eqb_eq in E2. destruct ts1 as [|u2 ts1]; [discriminate|].
        cbn [cursor pnext] in *. injection EM2 as EL1 EL2. subst ts2 l2. cbn [nth] in x. subst x.
        apply (f_equal (@length _)) in R as R'. rewrite !app_length in R'. cbn in R'. rewrite app_length in R'.
        destruct r1 as [|a [|b r1]]; cbn in *; [|destruct r2; [reflexivity|cbn in *; lia]|destruct r2; [reflexivity|cbn in *; lia]].
        injection R as R1 R2. subst. rewrite E1 in E2. discriminate.
      - change (tt_eqb TWhitespace TEOL) with false in EM2. change (tt_eqb TWhitespace TWhitespace) with true in EM2. cbv iota in EM2.
        destruct (tt_eqb (ty (cursor ts1)) TWord) eqn:E2; [|discriminate]. apply tt_eqb_eq in E2. destruct ts1 as [|u2 ts1]; [discriminate|].
        cbn [cursor pnext] in *. injection EM2 as EL1 EL2. subst ts2 l2. cbn [nth] in x. subst x.
        apply (f_equal (@length _)) in R as R'. rewrite !app_length in R'. cbn in R'. rewrite app_length in R'.
        destruct r2; [reflexivity|cbn in *; lia]. }
    eapply methodRest_ok; [exact HL|exact HI| |].
    + rewrite Q, R. instantiate (1 := q1 ++ w :: r1). rewrite <- app_assoc. reflexivity.
    + destruct (rev (sv_anns s)); [|reflexivity]. rewrite <- Hl.
      assert (E : w :: ts1 = (w :: r1) ++ nth 1 l2 eofTok :: ts2) by (rewrite R; reflexivity).
      rewrite (sameline T (w :: ts1) (w :: r1) (nth 1 l2 eofTok) ts2 HL); [reflexivity| |exact E|].
      * eapply Suf_trans; [|exact HS]. exists q1. exact Q.
      * constructor; [exact Hnl|]. apply Forall_app in F. apply F.
  - eapply methodRest_ok; [exact HL|exact HI|exact Q|]. destruct (rev (sv_anns s)); [now symmetry|reflexivity].
Qed.

Lemma pending_none st : match st with
  | SDefinitionValue _ | SEnumDefinition _ | SEnumExplicitValue _ _ | STypeAliasMeta _ | STypeAliasMetaDef _
  | SStructField _ | SStructFieldDef _ | SStructFieldMeta _ | SStructFieldMetaDef _ | SServiceMethod _ | SServiceMethodDef _ => False
  | _ => True end -> forall pre p2 ds, Pending st pre p2 ds <-> ds = [].
Proof. destruct st; try contradiction; intros _ pre p2 ds; reflexivity. Qed.

Lemma enum_member e ds c0 d x : DefinedBy (NEnum e) ds -> FieldAt d x ->
  (d_right d = ""%string /\ c0 = e_comment e \/ d_right d <> ""%string /\ c0 = ""%string) ->
  DefinedBy (NEnum (Enum (e_name e) (e_type e) (e_values e ++ [d]) c0 (e_line e))) (ds ++ [x]).
Proof.
  intros H HX HC. inversion H as [| | | | |e' c ms F HD|]; subst.
  apply (DefinedEnum (Enum (e_name e) (e_type e) (e_values e ++ [d]) c0 (e_line e)) c (ms ++ [x])); [now apply fields_snoc|].
  cbn [e_comment e_values]. destruct HC as [[C1 ->]|[C1 ->]].
  - destruct HD as [[D1 D2]|[D1 D2]]; [left|right]; (split; [exact D1|]).
    + apply Forall_app. split; [exact D2|]. now constructor.
    + apply Exists_app. now left.
  - right. split; [reflexivity|]. apply Exists_app. right. now left.
Qed.

Lemma step_ok T cm0 c : Lined T -> Inv T cm0 c -> okStep T cm0 (step c).
Proof.
  destruct c as [st ts cm out]. intros HL HI. pose proof (inv_suf _ _ _ HI) as HS. cbn [p_toks] in HS.
  assert (HV : forall st' ts', Suf ts' ts -> (forall pre p2 q ds, Pending st pre p2 ds -> Pending st' (pre ++ q) (p2 ++ q) ds) ->
    Inv T cm0 (PC st' ts' cm out)) by (intros; eapply inv_move; eassumption).
  assert (HE : forall n st' ts', Suf ts' ts -> (forall pre p2 ds, Pending st pre p2 ds -> DefinedBy n ds) -> (forall pre p2, Pending st' pre p2 []) ->
    Inv T cm0 (PC st' ts' cm (n :: out))) by (intros; eapply inv_emit; eassumption).
  pose proof (Suf_pnext ts) as SP. pose proof (continueUntilEOL_Suf ts) as SC. pose proof (Suf_refl ts) as SR.
  unfold step. cbn [p_state p_toks p_comments p_out].
  destruct st; cbv zeta; cbv beta.
  - destruct (ty (cursor ts)); try exact I; (apply HV; [assumption|same]).
  - destruct (negb _); [exact I|]. repeat match goal with |- okStep _ _ (if ?b then _ else _) => destruct b end;
      try exact I; (apply HV; [assumption|same]).
  - apply HV; [assumption|]. destruct (tt_eqb _ _); same.
  - apply HV; [assumption|]. destruct (tt_eqb _ _); same.
  - apply HV; [assumption|same].
  - exact I.
  - eapply okStep_onOk; [apply expectEOL_good|]. intros u ts1 _ S1. apply HV; [assumption|same].
  - destruct ts as [|t r]; apply HV; auto with suf; same.
  - (* SDefinition *)
    eapply okStep_onOk; [apply (pmatch_good' _ _ 2); [noeof|reflexivity]|]. intros l ts1 EM S1.
    destruct (pmatch_place _ _ _ _ EM eq_refl 0 TWord eq_refl ltac:(discriminate) ltac:(discriminate)) as (q1 & q2 & Q & _ & _).
    replace (nth 0 l eofTok) with (cursor l) in Q by (destruct l; reflexivity).
    destruct (parseComments cm (line (cursor l))) as [com cm'] eqn:EC.
    eapply inv_take; [exact HL|exact HI|exact Q|reflexivity|exact EC|]. intros pre p2 ds HP. cbn in HP. subst ds. cbn. eexists. reflexivity.
  - (* SDefinitionValue *)
    eapply okStep_onOk; [apply expectLiteralValue_good|]. intros v ts1 _ S1. apply HE; [exact S1| |reflexivity].
    intros pre p2 ds (n & ->). apply (DefinedDef (Def (d_left d) (val v) false [] (d_comment d)) n).
  - (* SEnum *)
    eapply okStep_onOk; [apply (pmatch_good' _ _ 4); [noeof|reflexivity]|]. intros l ts1 EM S1.
    destruct (String.eqb _ _); [|exact I].
    destruct (pmatch_place _ _ _ _ EM eq_refl 2 TWord eq_refl ltac:(discriminate) ltac:(discriminate)) as (q1 & q2 & Q & _ & _).
    assert (HN : line (nth 2 l eofTok) = line (nth 0 l eofTok)).
    { eapply pmatch_line; [exact HL|exact HS|exact EM|reflexivity| |]; (eexists; split; [reflexivity|split; discriminate]). }
    destruct (parseComments cm _) as [com cm'] eqn:EC.
    eapply inv_take; [exact HL|exact HI|exact Q|exact HN|exact EC|]. intros pre p2 ds HP. cbn in HP. subst ds. cbn [app Pending].
    unfold place. rewrite HN.
    apply (DefinedEnum (Enum (val (nth 2 l eofTok)) (val (nth 5 l eofTok)) [] com (line (nth 0 l eofTok))) com []); [constructor|].
    left. split; [reflexivity|constructor].
  - (* SEnumDefinition *)
    destruct (ty (cursor ts)); try (apply HV; [assumption|same]); try (apply HE; [assumption|intros pre p2 ds HP; exact HP|reflexivity]).
    eapply okStep_onOk; [apply (pmatch_good' _ _ 2); [noeof|reflexivity]|]. intros l ts1 EM S1.
    destruct (item_place _ _ _ _ HL HS EM) as (q1 & Q & Hnl & Hl).
    destruct (parseComments cm _) as [com cm'] eqn:EC.
    eapply (inv_take _ _ _ _ _ _ _ _ _ _ q1 _ []); [exact HL|exact HI|exact Q|exact Hl|exact EC|].
    intros pre p2 ds HP. cbn [Pending d_right d_left d_comment]. split; [reflexivity|].
    exists ds, (pre ++ q1), (nth 2 l eofTok). repeat split; [exact HP|now rewrite <- app_assoc|exact Hnl].
  - (* SEnumExplicitValue *)
    pose proof (pmatch_good' [TWhitespace; TEqual; TWhitespace] ts 1 ltac:(noeof) eq_refl) as HM.
    assert (HNo : Inv T cm0 (PC (SEnumDefinition (Enum (e_name e) (e_type e) (e_values e ++ [d]) (e_comment e) (e_line e))) ts cm out)).
    { apply HV; [assumption|]. intros pre p2 q ds (Hd & ds0 & p & t & -> & HP & _ & _). cbn [Pending]. eapply enum_member; [exact HP|now split|].
      left. now split. }
    destruct (pmatch [TWhitespace; TEqual; TWhitespace] ts) as [l t|m t|] eqn:EM; cbn in HM; try exact HNo.
    eapply okStep_onOk; [apply expectLiteralValue_good|]. intros v ts2 EV S2.
    destruct HI as (p1 & p2 & ds1 & ds2 & HT & HMd & HP & HSub & HK). cbn [p_toks p_out p_state p_comments] in *.
    destruct HP as (Hd & ds0 & p & t0 & -> & HP & Hpre & Hnl).
    assert (HF : Forall full T) by (eapply Forall_impl; [|apply HL]; intros x Hx; apply Hx).
    destruct (pmatch_place _ _ _ _ EM eq_refl 1 TEqual eq_refl ltac:(discriminate) ltac:(discriminate)) as (q1 & q2 & Q & F & _).
    assert (HFt : Forall full t).
    { rewrite HT in HF. apply Forall_app in HF. destruct HF as [_ HF]. apply Forall_app in HF. destruct HF as [_ HF].
      rewrite Q in HF. apply Forall_app in HF. destruct HF as [_ HF]. inversion HF as [|? ? _ HF']; subst. now apply Forall_app in HF'. }
    assert (HTs : T = p ++ t0 :: ts) by (rewrite HT, app_assoc, Hpre, <- app_assoc; reflexivity).
    destruct (litLoop_spec false t [] v ts2 EV (Forall_nil _) (Forall_nil _) HFt) as [HVal (r1 & tv0 & r2 & R & FR & Lv)].
    cbn [rev app] in R.
    assert (Hq2 : Forall nonNL q2).
    { clear -EM Q. unfold pmatch in EM.
      destruct (matchGo_places ts [TWhitespace; TEqual; TWhitespace] ts [] l t eq_refl EM) as (l' & q & _ & E & _).
      assert (HQ : q = q1 ++ nth 1 l eofTok :: q2).
      { rewrite E in Q. replace (q1 ++ nth 1 l eofTok :: q2 ++ t) with ((q1 ++ nth 1 l eofTok :: q2) ++ t) in Q by (rewrite <- app_assoc; reflexivity).
        now apply app_inv_tail in Q. }
      assert (HA : Forall nonNL q).
      { clear -EM E.
        cbn [matchGo] in EM. change (tt_eqb TWhitespace TEOL) with false in EM. change (tt_eqb TWhitespace TWhitespace) with true in EM.
        change (tt_eqb TEqual TEOL) with false in EM. change (tt_eqb TEqual TWhitespace) with false in EM. cbv iota in EM.
        assert (Z : forall (x : token) e, tt_eqb (ty x) e = true -> e <> TNewLine -> nonNL x) by (intros x e Hx He; apply tt_eqb_eq in Hx; unfold nonNL; congruence).
        assert (C : forall ts e, e <> TEOF -> tt_eqb (ty (cursor ts)) e = true -> exists x r, ts = x :: r /\ cursor ts = x /\ pnext ts = r).
        { intros [|x r] e He Hx; [apply tt_eqb_eq in Hx; cbn in Hx; congruence|]. now exists x, r. }
        assert (M : forall ts1 acc l1, (if tt_eqb (ty (cursor ts1)) TEqual
             then if tt_eqb (ty (cursor (pnext ts1))) TWhitespace
                  then POk (rev (cursor (pnext ts1) :: cursor ts1 :: acc)) (pnext (pnext ts1))
                  else POk (rev (Tok TWhitespace " " 0 (line (cursor (pnext ts1))) (col (cursor (pnext ts1))) :: cursor ts1 :: acc)) (pnext ts1)
             else PErr "expecting another token" ts) = POk l1 t -> exists y, ts1 = y ++ t /\ Forall nonNL y).
        { intros ts1 acc l1 H. destruct (tt_eqb (ty (cursor ts1)) TEqual) eqn:E1; [|discriminate].
          destruct (C ts1 TEqual ltac:(discriminate) E1) as (x & r & -> & C2 & C3). cbn [cursor pnext] in *.
          assert (NX : nonNL x) by (eapply Z; [exact E1|discriminate]).
          destruct (tt_eqb (ty (cursor r)) TWhitespace) eqn:E2.
          - destruct (C r TWhitespace ltac:(discriminate) E2) as (x2 & r2 & -> & _ & _). cbn [cursor pnext] in *. injection H as _ <-.
            exists [x; x2]. split; [reflexivity|]. constructor; [exact NX|]. constructor; [eapply Z; [exact E2|discriminate]|constructor].
          - injection H as _ <-. exists [x]. split; [reflexivity|]. now constructor. }
        destruct (tt_eqb (ty (cursor ts)) TWhitespace) eqn:E0.
        - destruct (C ts TWhitespace ltac:(discriminate) E0) as (x & r & Hts & C2 & C3). rewrite C3 in EM.
          destruct (M _ _ _ EM) as (y & Hy & Fy). rewrite Hts, Hy in E.
          assert (q = x :: y) as -> by (apply (app_inv_tail t); rewrite <- E; reflexivity).
          constructor; [eapply Z; [rewrite <- C2; exact E0|discriminate]|exact Fy].
        - destruct (M _ _ _ EM) as (y & Hy & Fy). rewrite Hy in E. apply app_inv_tail in E. now subst. }
      rewrite HQ in HA. apply Forall_app in HA. destruct HA as [_ HA]. now inversion HA. }
    assert (Lv' : line v = line t0).
    { rewrite Lv. rewrite (sameline T (t0 :: ts) (t0 :: q1 ++ nth 1 l eofTok :: q2 ++ r1) tv0 r2 HL); [reflexivity| | |].
      - exists p. exact HTs.
      - rewrite Q, R. cbn. f_equal. rewrite <- app_assoc. cbn. now rewrite <- app_assoc.
      - constructor; [exact Hnl|]. apply Forall_app in F. destruct F as [F1 F2]. inversion F2; subst.
        apply Forall_app. split; [exact F1|]. constructor; [assumption|]. apply Forall_app. now split. }
    assert (H1 : 1 <= line v).
    { rewrite Lv'. destruct HL as [_ HX]. rewrite Forall_forall in HX. apply HX. rewrite HTs, in_app_iff. right. now left. }
    rewrite app_assoc, map_app in HK. change (map lineOf [((d_left d, line t0), d_comment d)]) with [(line t0, d_comment d)] in HK.
    destruct (taken_snoc_inv _ _ _ _ _ HK) as (m1 & K1 & K2).
    rewrite <- Lv' in K2. destruct (take_again _ _ _ _ cm K2 (fun _ => eq_refl) H1) as [A1 A2].
    destruct (parseComments cm (line v)) as [com cm'] eqn:EC. cbn [fst snd] in A1, A2. subst com.
    assert (S3 : Suf ts2 ts) by (eapply Suf_trans; [exact S2|apply HM]). destruct S3 as [q3 S3].
    exists p1, (p2 ++ q3), ds1, (ds0 ++ [((d_left d, line t0), d_comment d)]). cbn [p_toks p_out p_state p_comments].
    repeat split; try assumption.
    + rewrite HT, S3. now rewrite <- !app_assoc.
    + cbn [Pending]. eapply enum_member; [exact HP|split; reflexivity|]. right. split; [exact HVal|reflexivity].
    + rewrite app_assoc, map_app. change (map lineOf [((d_left d, line t0), d_comment d)]) with [(line t0, d_comment d)].
      eapply taken_end; [exact HK|exact A2].
  - (* SError *)
    eapply okStep_onOk; [apply (pmatch_good' _ _ 3); [noeof|reflexivity]|]. intros l ts1 EM S1.
    destruct (negb _); [exact I|]. destruct (isNumber _); [|exact I]. apply HV; [assumption|same].
  - destruct (ty (cursor ts)); try exact I.
    + eapply okStep_onOk; [apply expectStringValue_good|]. intros v ts1 _ S1. apply HV; [assumption|same].
    + apply HV; [assumption|same].
  - (* SErrorStatus *)
    pose proof (pmatch_good' [TWhitespace; TWord] ts 1 ltac:(noeof) eq_refl) as HM.
    destruct (pmatch [TWhitespace; TWord] ts) as [l t|m t|] eqn:EM; cbn in HM; [| |contradiction].
    + destruct (negb _); [exact I|].
      pose proof (pmatch_good' [TWhitespace; TWord] t 1 ltac:(noeof) eq_refl) as HM2.
      destruct (pmatch [TWhitespace; TWord] t) as [l2 t2|m t2|] eqn:EM2; cbn in HM2; [|exact I|contradiction].
      destruct (isNumber _); [|exact I]. eapply okStep_onOk; [apply expectEOL_good|]. intros u ts3 _ S3.
      apply HE; [|intros pre p3 ds HP; cbn in HP; subst ds; constructor|reflexivity].
      eapply Suf_trans; [exact S3|]. eapply Suf_trans; [apply HM2|apply HM].
    + eapply okStep_onOk; [apply expectEOL_good|]. intros u ts3 _ S3.
      apply HE; [exact S3|intros pre p3 ds HP; cbn in HP; subst ds; constructor|reflexivity].
  - (* SImport *)
    pose proof (pmatch_good' [TWord; TEOL] ts 1 ltac:(noeof) eq_refl) as HM.
    destruct (pmatch [TWord; TEOL] ts) as [l t|m t|]; cbn in HM; [| |contradiction].
    + destruct (String.eqb _ _); [|exact I]. apply HV; [apply HM|same].
    + eapply okStep_onOk; [apply (pmatch_good' _ _ 0); [noeof|reflexivity]|]. intros l2 ts2 _ S2.
      eapply okStep_onOk; [apply expectPath_good|]. intros v ts3 _ S3. apply HV; [|same].
      eapply Suf_trans; [exact S3|]. eapply Suf_trans; [exact S2|exact HM].
  - (* SImportValue *)
    destruct (ty (cursor ts)); try (apply HV; [assumption|same]).
    eapply okStep_onOk; [apply (pmatch_good' _ _ 1); [noeof|reflexivity]|]. intros l2 ts2 _ S2.
    eapply okStep_onOk; [apply expectPath_good|]. intros v ts3 _ S3.
    apply HE; [eapply Suf_trans; eassumption|intros pre p3 ds HP; cbn in HP; subst ds; constructor|reflexivity].
  - (* SImportMembers *)
    destruct (ty (cursor ts)); try (apply HV; [assumption|same]);
      try (apply HE; [assumption|intros pre p3 ds HP; cbn in HP; subst ds; constructor|reflexivity]).
    eapply okStep_onOk; [apply (pmatch_good' _ _ 1); [noeof|reflexivity]|]. intros l2 ts2 _ S2.
    eapply okStep_onOk; [apply expectLiteralValue_good|]. intros v ts3 _ S3. apply HV; [eapply Suf_trans; eassumption|same].
  - (* STypeAlias *)
    eapply okStep_onOk; [apply (pmatch_good' _ _ 3); [noeof|reflexivity]|]. intros l ts1 EM S1.
    destruct (negb _); [exact I|]. eapply okStep_onOk; [apply expectType_good|]. intros v ts2 _ [q3 S2].
    destruct (pmatch_place _ _ _ _ EM eq_refl 2 TWord eq_refl ltac:(discriminate) ltac:(discriminate)) as (q1 & q2 & Q & _ & _).
    assert (HN : line (nth 2 l eofTok) = line (nth 0 l eofTok)).
    { eapply pmatch_line; [exact HL|exact HS|exact EM|reflexivity| |]; (eexists; split; [reflexivity|split; discriminate]). }
    destruct (parseComments cm _) as [com cm'] eqn:EC. rewrite S2, app_assoc in Q.
    eapply inv_take; [exact HL|exact HI|exact Q|exact HN|exact EC|]. intros pre p2 ds HP. cbn in HP. subst ds. cbn [app Pending].
    apply defined_alias. unfold place. rewrite HN. reflexivity.
  - destruct (ty (cursor ts)); try (apply HV; [assumption|same]); (apply HE; [assumption|intros pre p3 ds HP; exact HP|reflexivity]).
  - (* STypeAliasMetaDef *)
    eapply okStep_onOk; [apply (pmatch_good' _ _ 1); [noeof|reflexivity]|]. intros l ts1 _ S1.
    eapply okStep_onOk; [apply expectMetadataKey_good|]. intros k ts2 _ S2.
    eapply okStep_onOk; [apply (pmatch_good' _ _ 1); [noeof|reflexivity]|]. intros l3 ts3 _ S3.
    eapply okStep_onOk; [apply expectMetadataValue_good|]. intros v ts4 _ S4.
    apply HV; [eapply Suf_trans; [exact S4|]; eapply Suf_trans; [exact S3|]; eapply Suf_trans; eassumption|].
    intros pre p2 q ds HP. cbn [Pending] in *. apply defined_alias in HP. apply defined_alias. exact HP.
  - (* SStruct *)
    eapply okStep_onOk; [apply (pmatch_good' _ _ 2); [noeof|reflexivity]|]. intros l ts1 EM S1.
    destruct (negb _); [exact I|].
    destruct (pmatch_place _ _ _ _ EM eq_refl 2 TWord eq_refl ltac:(discriminate) ltac:(discriminate)) as (q1 & q2 & Q & _ & _).
    assert (HN : line (nth 2 l eofTok) = line (nth 0 l eofTok)).
    { eapply pmatch_line; [exact HL|exact HS|exact EM|reflexivity| |]; (eexists; split; [reflexivity|split; discriminate]). }
    destruct (parseComments cm _) as [com cm'] eqn:EC.
    eapply inv_take; [exact HL|exact HI|exact Q|exact HN|exact EC|]. intros pre p2 ds HP. cbn in HP. subst ds. cbn [app Pending].
    apply defined_struct. exists []. split; [constructor|]. unfold place. rewrite HN. reflexivity.
  - destruct (ty (cursor ts)); try (apply HV; [assumption|same]); (apply HE; [assumption|intros pre p3 ds HP; exact HP|reflexivity]).
  - (* SStructFieldDef *)
    eapply okStep_onOk; [apply (pmatch_good' _ _ 2); [noeof|reflexivity]|]. intros l ts1 EM S1.
    destruct (item_place _ _ _ _ HL HS EM) as (q1 & Q & Hnl & Hl).
    destruct (parseComments cm _) as [com cm'] eqn:EC. cbv zeta.
    assert (G : forall opt tq, Suf tq ts1 -> okStep T cm0 (onOk (pmatch [TColon; TWhitespace] tq) (fun _ ts3 => onOk (expectType ts3) (fun v ts4 =>
      Next (PC (SStructFieldMeta (Struct (s_name s) (s_fields s ++ [Def (val (nth 2 l eofTok)) (val v) opt [] com]) (s_comment s) (s_line s))) ts4 cm' out))))).
    { intros opt tq HQ. eapply okStep_onOk; [apply (pmatch_good' _ _ 1); [noeof|reflexivity]|]. intros l3 ts3 _ S3.
      eapply okStep_onOk; [apply expectType_good|]. intros v ts4 _ S4.
      assert (S5 : Suf ts4 ts1) by (eapply Suf_trans; [exact S4|]; eapply Suf_trans; eassumption). destruct S5 as [q5 S5]. rewrite S5 in Q.
      eapply inv_take; [exact HL|exact HI|exact Q|exact Hl|exact EC|]. intros pre p2 ds HP. cbn [Pending] in *. apply defined_struct in HP.
      destruct HP as (fs & F & ->). apply defined_struct. cbn [s_fields s_name s_line s_comment]. eexists. split; [|reflexivity].
      apply fields_snoc; [exact F|]. now split. }
    pose proof (pmatch_good' [TQuestion] ts1 1 ltac:(noeof) eq_refl) as HM.
    destruct (pmatch [TQuestion] ts1) as [lq tq|m tq|]; cbn in HM; [| |contradiction]; apply G; [apply HM|apply Suf_refl].
  - destruct (ty (cursor ts)); apply HV; try assumption; same.
  - (* SStructFieldMetaDef *)
    eapply okStep_onOk; [apply (pmatch_good' _ _ 1); [noeof|reflexivity]|]. intros l ts1 _ S1.
    eapply okStep_onOk; [apply expectMetadataKey_good|]. intros k ts2 _ S2.
    eapply okStep_onOk; [apply (pmatch_good' _ _ 1); [noeof|reflexivity]|]. intros l3 ts3 _ S3.
    eapply okStep_onOk; [apply expectMetadataValue_good|]. intros v ts4 _ S4.
    apply HV; [eapply Suf_trans; [exact S4|]; eapply Suf_trans; [exact S3|]; eapply Suf_trans; eassumption|].
    intros pre p2 q ds HP. now apply addMeta_defined.
  - (* SService *)
    eapply okStep_onOk; [apply (pmatch_good' _ _ 1); [noeof|reflexivity]|]. intros l ts1 EM S1.
    destruct (negb _) eqn:EN; [exact I|]. apply negb_false_iff, String.eqb_eq in EN.
    eapply okStep_onOk; [apply expectLiteralValue_good|]. intros v ts2 _ S2.
    eapply okStep_onOk; [apply expectEOL_good|]. intros u ts3 _ S3.
    destruct (pmatch_place _ _ _ _ EM eq_refl 0 TWord eq_refl ltac:(discriminate) ltac:(discriminate)) as (q1 & q2 & Q & _ & _).
    replace (nth 0 l eofTok) with (cursor l) in Q by (destruct l; reflexivity).
    destruct (parseComments cm _) as [com cm'] eqn:EC.
    assert (S5 : Suf ts3 ts1) by (eapply Suf_trans; eassumption). destruct S5 as [q5 S5]. rewrite S5, app_assoc in Q.
    eapply inv_take; [exact HL|exact HI|exact Q|reflexivity|exact EC|]. intros pre p2 ds HP. cbn in HP. subst ds. cbn [app Pending].
    split; [|constructor]. apply defined_service. exists (line (cursor l)), []. split; [constructor|]. unfold place. rewrite EN. reflexivity.
  - (* SServiceMethod *)
    assert (HA : forall pre p2 q ds, Pending (SServiceMethod s) pre p2 ds -> Pending (SServiceMethod s) (pre ++ q) (p2 ++ q) ds).
    { intros pre p2 q ds [H1 H2]. split; [exact H1|]. eapply Forall_impl; [|exact H2]. intros a Ha. rewrite map_app, in_app_iff. now left. }
    destruct (ty (cursor ts)); try (apply HV; [assumption|exact HA]);
      try (apply HE; [assumption|intros pre p3 ds HP; exact (proj1 HP)|reflexivity]).
    destruct (parseAnnotations ts) as [anns ts1|m ts1|] eqn:EA; [|exact I|exact I]. cbn [onOk].
    destruct (annLoop_places _ _ _ _ _ _ EA) as (q & m & HQ & -> & F). cbn [rev app].
    destruct HI as (p1 & p2 & ds1 & ds2 & HT & HMd & HP & HSub & HK). cbn [p_toks p_out p_state p_comments] in *.
    exists p1, (p2 ++ q), ds1, ds2. cbn [p_toks p_out p_state p_comments]. repeat split; try assumption.
    + rewrite HT, HQ. now rewrite <- !app_assoc.
    + destruct HP as [HP _]. apply defined_service in HP. destruct HP as (n & ms & FM & ->). apply defined_service. now exists n, ms.
    + destruct HP as [_ HP]. cbn [sv_anns]. apply Forall_app. split; [|].
      * eapply Forall_impl; [|exact HP]. intros a Ha. rewrite map_app, in_app_iff. now left.
      * eapply Forall_impl; [|exact F]. intros a Ha. rewrite map_app, in_app_iff. now right.
  - now apply serviceMethod_ok.
Qed.

Lemma run_ok T cm0 : Lined T -> forall k c nodes, Inv T cm0 c -> runParser k c = Parsed nodes ->
  exists ds rest, Definitions nodes ds /\ Sub (map fst ds) (map place T) /\ Taken (get cm0) (map lineOf ds) rest.
Proof.
  intro HL. induction k as [|k IH]; intros c nodes HI H; cbn [runParser] in H; [discriminate|].
  pose proof (step_ok T cm0 c HL HI) as HO. destruct (step c) as [c'|out'|e|] eqn:E; try discriminate.
  - now apply (IH c').
  - injection H as ->. assert (HD : p_state c = SEOF /\ nodes = rev (p_out c)).
    { clear -E. destruct c as [st ts cm out]. unfold step in E. cbn [p_state p_toks p_comments p_out] in *.
      assert (ND : forall (A : Type) (r : pres A) f, (forall a t, f a t <> Done nodes) -> onOk r f <> Done nodes).
      { intros A [a t|m t|] f Hf; cbn; try discriminate. apply Hf. }
      assert (NE : forall m t, stateError m t <> Done nodes) by (intros; discriminate).
      destruct st; cbv zeta in E;
        try (match type of E with Done _ = _ => injection E as <-; split; reflexivity end);
        exfalso; revert E;
        repeat match goal with
        | |- onOk _ _ = _ -> False => apply ND; intros
        | |- onOk _ _ <> _ => apply ND; intros
        | |- (let (_, _) := ?x in _) = _ -> False => destruct x
        | |- (let (_, _) := ?x in _) <> _ => destruct x
        | |- (match ?x with _ => _ end) = _ -> False => destruct x
        | |- (match ?x with _ => _ end) <> _ => destruct x
        | |- (if ?x then _ else _) <> _ => destruct x
        end; try discriminate.
      unfold stepServiceMethodDef. destruct (hasDup _); [discriminate|]. apply ND. intros l ts1. cbv zeta.
      assert (NM : forall n name t2, methodRest s cm out (String.eqb (val (nth 2 l eofTok)) "stream") (String.eqb (val (nth 2 l eofTok)) "proxy") n name t2 <> Done nodes).
      { intros n name t2. unfold methodRest. destruct (parseComments cm n). destruct (String.eqb _ "proxy"); [discriminate|]. apply ND. intros ins t3.
        unfold methodOutputs. assert (NR : forall fin t, (forall es t', fin es t' <> Done nodes) -> methodErrors fin t <> Done nodes).
        { intros fin t Hf. unfold methodErrors. destruct (pmatch [TWhitespace; TWord] t); try apply Hf. destruct (String.eqb _ _); [apply ND|]; intros; apply Hf. }
        destruct (pmatch [TWhitespace; TRocket; TWhitespace] t3) as [? t4|? ?|]; try (apply NR; discriminate).
        cbv zeta. destruct (pmatch [TWord; TWhitespace] t4); try (apply ND; intros; apply NR; discriminate).
        destruct (String.eqb _ _); [|discriminate]. apply ND. intros. apply NR. discriminate. }
      destruct (_ || _); [apply ND; intros|]; apply NM. }
    destruct HD as [HD ->]. destruct HI as (p1 & p2 & ds1 & ds2 & HT & HM & HP & HS & HK). rewrite HD in HP. cbn in HP. subst ds2.
    rewrite app_nil_r in *. exists ds1, (get (p_comments c)). split; [exact HM|]. split; [|exact HK].
    rewrite HT, map_app. now apply sub_more.
Qed.

Lemma parsed_comments src nodes : parseRidl src = Parsed nodes ->
  exists ds rest, Definitions nodes ds /\ Sub (map fst ds) (map place (fst (tokenize src))) /\
    Taken (fun n => getComment n (snd (tokenize src))) (map lineOf ds) rest.
Proof.
  unfold parseRidl. intro H. cbv zeta in H.
  assert (E : initConf src = PC SDefault (fst (tokenize src)) (snd (tokenize src)) []) by (unfold initConf; now destruct (tokenize src)).
  pose proof (init_lined src) as HL. rewrite E in HL. rewrite E in H. cbn [p_toks] in *.
  eapply (run_ok _ (snd (tokenize src)) HL); [|exact H].
  exists [], [], [], []. cbn [p_toks p_out p_state p_comments app map]. repeat split; try constructor.
  - exists []. split; [constructor|reflexivity].
  - reflexivity.
Qed.

(** ** Consequences *)
Lemma take_less m n t m' i : Take m n t m' -> (m' i = m i \/ m' i = None) /\ (n < i -> m' i = m i).
Proof.
  intros (k & s & (B1 & _) & _ & E). rewrite E. destruct ((k <=? i) && (i <=? s)) eqn:X; [|tauto]. split; [tauto|]. intro. exfalso.
  destruct B1 as [[_ ->]|[_ B]]; lia.
Qed.

Lemma taken_less m l m' i : Taken m l m' -> (m' i = m i \/ m' i = None) /\ (Forall (fun d => fst d < i) l -> m' i = m i).
Proof.
  intro H. induction H as [m m' E|m n t m1 l m' HT H IH].
  - rewrite E. split; [now left|reflexivity].
  - destruct IH as [I1 I2]. destruct (take_less _ _ _ _ i HT) as [J1 J2]. split.
    + destruct I1 as [-> |I1]; [exact J1|now right].
    + intro F. inversion F; subst. rewrite I2 by assumption. now apply J2.
Qed.

Lemma block_unique has n k s k' s' : Block has n k s -> Block has n k' s' -> k = k' /\ s = s'.
Proof.
  intros (A1 & A2 & A3 & A4) (B1 & B2 & B3 & B4).
  assert (s = s') as <- by (destruct A1 as [[A1 ->]|[A1 A1']]; destruct B1 as [[B1 ->]|[B1 B1']]; try reflexivity; try contradiction; lia).
  split; [|reflexivity]. destruct (lt_eq_lt_dec k k') as [[L|L]|L]; [|exact L|]; exfalso.
  - destruct B4 as [B4|B4]; [lia|]. apply B4, A3. lia.
  - destruct A4 as [A4|A4]; [lia|]. apply A4, B3. lia.
Qed.

Lemma block_kept (m m' : clines) n k s : Block (fun i => m i <> None) n k s ->
  (forall i, k <= i -> m' i = m i) -> (forall i, m' i = m i \/ m' i = None) -> k <= n -> Block (fun i => m' i <> None) n k s.
Proof.
  intros (B1 & B2 & B3 & B4) HK HN Hk. unfold Block. rewrite HK by exact Hk. repeat split; try assumption.
  - intros i Hi. rewrite HK by lia. now apply B3.
  - destruct B4 as [B4|B4]; [now left|right]. intro X. destruct (HN (k - 1)) as [Y|Y]; [apply B4; congruence|contradiction].
Qed.

Lemma taken_block m : forall l m', Taken m l m' -> forall before n t after, l = before ++ (n, t) :: after ->
  forall k s, Block (fun i => m i <> None) n k s -> Forall (fun d => fst d < k) before -> t = blockText m k s.
Proof.
  intros l m' H before n t after -> k s HB HF.
  assert (G : exists m1 m2, Taken m before m1 /\ Take m1 n t m2).
  { clear HB HF. revert m H. induction before as [|[n0 t0] b IH]; intros m H; cbn in H; inversion H as [|? ? ? m1 ? ? HT HR]; subst.
    - exists m, m1. split; [constructor; reflexivity|exact HT].
    - destruct (IH _ HR) as (x & y & X & Y). exists x, y. split; [econstructor; eassumption|exact Y]. }
  destruct G as (m1 & m2 & H1 & (k' & s' & HB' & -> & _)).
  assert (Kn : k <= n).
  { destruct HB as (B1 & B2 & B3 & B4). destruct B1 as [[B1 ->]|[_ B1]]; [|lia]. destruct (le_lt_dec k n); [assumption|]. exfalso.
    destruct B4 as [B4|B4]; [lia|]. apply B4. replace (k - 1) with n by lia. exact B1. }
  assert (HK : forall i, k <= i -> m1 i = m i).
  { intros i Hi. apply (taken_less _ _ _ i H1). eapply Forall_impl; [|exact HF]. intros d Hd. cbn in *. lia. }
  pose proof (block_kept _ m1 _ _ _ HB HK (fun i => proj1 (taken_less _ _ _ i H1)) Kn) as HB2.
  destruct (block_unique _ _ _ _ _ _ HB' HB2) as [-> ->].
  unfold blockText. do 2 f_equal. apply map_ext_in. intros i Hi. apply in_seq in Hi. rewrite HK by lia. reflexivity.
Qed.

Lemma taken_disjoint m l m' : Taken m l m' -> exists blocks,
  Forall2 (fun d b => snd d = blockText m (fst b) (snd b) /\ (snd b = fst d \/ S (snd b) = fst d)) l blocks /\
  Forall (fun b => forall i, fst b <= i <= snd b -> m i <> None) blocks /\
  ForallOrdPairs (fun a b => forall i, ~ (fst a <= i <= snd a /\ fst b <= i <= snd b)) blocks.
Proof.
  intro H. induction H as [m m' E|m n t m1 l m' HT H (bs & I1 & I2 & I3)].
  - exists []. repeat split; constructor.
  - destruct HT as (k & s & (B1 & B2 & B3 & B4) & -> & E).
    assert (HD : forall i, m1 i <> None -> m1 i = m i /\ ~ (k <= i <= s)).
    { intros i Hi. rewrite E in *. destruct ((k <=? i) && (i <=? s)) eqn:X; [congruence|]. split; [reflexivity|lia]. }
    exists ((k, s) :: bs). repeat split.
    + constructor; [cbn; split; [reflexivity|]; destruct B1 as [[_ B1]|[_ B1]]; [now left|now right]|].
      clear I3 H. revert I2. induction I1 as [|d b l bs [J1 J2] J IHJ]; intro F; [constructor|]. inversion F as [|? ? F1 F2]; subst.
      constructor; [|apply IHJ; exact F2].
      split; [|exact J2]. rewrite J1. unfold blockText. do 2 f_equal. apply map_ext_in. intros i Hi. apply in_seq in Hi.
      rewrite (proj1 (HD i (F1 i ltac:(lia)))). reflexivity.
    + constructor; [exact B3|]. eapply Forall_impl; [|exact I2]. intros b Hb i Hi. specialize (Hb i Hi). rewrite <- (proj1 (HD i Hb)). exact Hb.
    + constructor; [|exact I3]. eapply Forall_impl; [|exact I2]. intros b Hb i [Hi Hi2]. cbn in Hi. exact (proj2 (HD i (Hb i Hi2)) Hi).
Qed.
