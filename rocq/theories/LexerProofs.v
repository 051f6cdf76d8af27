(** Proofs about the lexer model *)
From Coq Require Import ZifyBool ZifyNat ZifyN.
From Verif Require Import Base BaseProofs Utf8 Utf8Proofs Lexer LexSpec.

Lemma mem_In r l : mem r l = true <-> In r l.
Proof.
  unfold mem. rewrite existsb_exists. split.
  - intros [x [Hx He]]. apply N.eqb_eq in He. now subst.
  - intro H. exists r. split; [assumption|apply N.eqb_refl].
Qed.

Lemma isSpace_blank r : isSpace r = true <-> blank r.
Proof. unfold isSpace. rewrite mem_In. unfold blank. cbn. intuition congruence. Qed.

Lemma isWord_start r : isWord r = true <-> word_start r.
Proof. unfold isWord, word_start, in_range. lia. Qed.

Lemma isWordBreak_break r : isWordBreak r = true <-> word_break r.
Proof. unfold isWordBreak. rewrite mem_In. reflexivity. Qed.

Lemma punct_spec r t : punct r = Some t <-> In (r, t) punctuation.
Proof.
  split.
  - unfold punct. intro H.
    repeat match type of H with
    | (if (?a =? ?b)%N then _ else _) = _ =>
        destruct (N.eqb_spec a b); [subst; injection H as <-; cbn; tauto|]
    end. discriminate.
  - intro H. cbn in H.
    repeat match type of H with
    | _ \/ _ => destruct H as [H|H]; [injection H as <- <-; reflexivity|]
    end. contradiction.
Qed.

Lemma punct_none r : punct r = None <-> ~ In r (map fst punctuation).
Proof.
  split.
  - intros H Hin. apply in_map_iff in Hin as [[c t] [Hc Hin]]. cbn in Hc. subst c.
    apply punct_spec in Hin. congruence.
  - intro H. destruct (punct r) as [t|] eqn:E; [|reflexivity].
    apply punct_spec in E. exfalso. apply H. apply in_map_iff. now exists (r, t).
Qed.

(** ** Position bookkeeping *)

Lemma newlines_app a b : newlines (a ++ b) = newlines a + newlines b.
Proof. unfold newlines. now rewrite filter_app, app_length. Qed.

Lemma since_app_not a b :
  Forall (fun r => r <> 10%N) b -> since_newline (a ++ b) = since_newline a + length b.
Proof.
  unfold since_newline. intro H. rewrite fold_left_app.
  generalize (fold_left (fun n r => if (r =? 10)%N then 0 else S n) a 0). intro k.
  revert k; induction H as [|r b Hr _ IH]; intro k; cbn; [lia|].
  destruct (N.eqb_spec r 10); [congruence|]. rewrite IH. lia.
Qed.

Lemma since_app_nl a : since_newline (a ++ [10%N]) = 0.
Proof. unfold since_newline. rewrite fold_left_app. reflexivity. Qed.

Lemma newlines_none b : Forall (fun r => r <> 10%N) b -> newlines b = 0.
Proof.
  unfold newlines. induction 1 as [|r b Hr _ IH]; cbn; [reflexivity|].
  destruct (N.eqb_spec r 10); [congruence|]. exact IH.
Qed.

(** state of the lexer after the text [pre] has been consumed *)
Definition LexInv (pre : list N) (l : lx) : Prop :=
  cur l = [] /\ lpos l = length pre /\
  lline l = newlines pre + (if since_newline pre =? 0 then 0 else 1) /\
  lcol l = since_newline pre.

(** state of the lexer in the middle of a token: [chunk] consumed after [pre] *)
Definition MidInv (pre chunk : list N) (l : lx) : Prop :=
  cur l = rev chunk /\ lpos l = length pre + length chunk /\
  lline l = S (newlines pre) /\ lcol l = since_newline pre + length chunk.

Lemma next_first pre l r t :
  LexInv pre l -> rest l = r :: t -> MidInv pre [r] (next l) /\ rest (next l) = t.
Proof.
  intros (Hc & Hp & Hl & Hco) Hr. unfold next. rewrite Hr. cbn.
  unfold MidInv. cbn. rewrite Hc, Hp, Hl, Hco.
  split; [|reflexivity]. repeat split; try lia.
  destruct (since_newline pre); cbn; lia.
Qed.

Lemma next_more pre chunk l r t :
  chunk <> [] -> MidInv pre chunk l -> rest l = r :: t ->
  MidInv pre (chunk ++ [r]) (next l) /\ rest (next l) = t.
Proof.
  intros Hne (Hc & Hp & Hl & Hco) Hr. unfold next. rewrite Hr. cbn.
  unfold MidInv. cbn. rewrite Hc, Hp, Hl, Hco, rev_app_distr, app_length. cbn.
  split; [|reflexivity]. destruct chunk as [|x chunk]; [congruence|]. cbn [length].
  repeat split; try lia.
  destruct (since_newline pre + S (length chunk)) eqn:E; cbn; lia.
Qed.

Lemma nextWhile_spec p pre chunk l :
  chunk <> [] -> MidInv pre chunk l ->
  exists more, MidInv pre (chunk ++ more) (nextWhile p l) /\
    rest l = more ++ rest (nextWhile p l) /\
    Forall (fun r => p r = true) more /\
    (forall r, hd_error (rest (nextWhile p l)) = Some r -> p r = false).
Proof.
  intros Hne Hm. unfold nextWhile.
  destruct l as [rs cu ps ln cl]. cbn [rest cur lpos lline lcol].
  revert chunk cu ps ln cl Hne Hm.
  induction rs as [|r rs IH]; intros chunk cu ps ln cl Hne Hm.
  - exists []. cbn. rewrite app_nil_r. repeat split; try apply Hm; [constructor|discriminate].
  - cbn [next_while]. destruct (p r) eqn:Hp.
    + destruct (next_more pre chunk _ r rs Hne Hm eq_refl) as [Hm' _].
      unfold next in Hm'. cbn in Hm'.
      destruct (IH (chunk ++ [r]) _ _ _ _ ltac:(destruct chunk; discriminate) Hm')
        as (more & H1 & H2 & H3 & H4).
      exists (r :: more). rewrite <- app_assoc in H1. cbn in H1.
      split; [exact H1|]. split; [cbn; f_equal; exact H2|]. split; [now constructor|exact H4].
    + exists []. cbn. rewrite app_nil_r. repeat split; try apply Hm; [constructor|].
      intros r' H. injection H as <-. exact Hp.
Qed.

Lemma emit_spec t pre chunk l tok l' :
  MidInv pre chunk l -> Forall (fun r => r <> 10%N) chunk -> chunk <> [] ->
  emit t l = (tok, l') ->
  ty tok = t /\ val tok = encode chunk /\ pos tok = length (pre ++ chunk) /\
  line tok = S (newlines pre) /\ col tok = since_newline pre + length chunk /\
  LexInv (pre ++ chunk) l' /\ rest l' = rest l.
Proof.
  intros (Hc & Hp & Hl & Hco) Hn Hne H. unfold emit in H. injection H as <- <-. cbn.
  rewrite Hc, rev_involutive, app_length.
  split; [reflexivity|]. split; [reflexivity|]. split; [exact Hp|]. split; [exact Hl|].
  split; [exact Hco|]. split; [|reflexivity]. unfold LexInv. cbn.
  split; [reflexivity|]. split; [now rewrite app_length|]. split.
  - rewrite Hl, newlines_app, (newlines_none chunk), since_app_not by assumption.
    destruct chunk as [|x chunk]; [congruence|]. cbn [length].
    destruct (since_newline pre + S (length chunk)) eqn:E; cbn; lia.
  - now rewrite Hco, since_app_not.
Qed.

(** what one round of the lexer does *)
Definition TokenAt (pre chunk : list N) (t : token) (nx : option N) : Prop :=
  TokenShape (ty t) chunk nx /\ val t = encode chunk /\
  pos t = length (pre ++ chunk) /\ line t = S (newlines pre) /\
  col t = since_newline pre + length chunk.

Lemma blank_not r : blank r -> r <> 0%N /\ r <> 10%N.
Proof. unfold blank. lia. Qed.
Lemma nonbreak_not r : ~ word_break r -> r <> 0%N /\ r <> 10%N.
Proof. unfold word_break. cbn. intuition congruence. Qed.
Lemma word_start_not r : word_start r -> r <> 0%N /\ r <> 10%N.
Proof. unfold word_start. lia. Qed.

Lemma shape_nonempty t chunk nx : TokenShape t chunk nx -> chunk <> [].
Proof. destruct 1; discriminate. Qed.

Lemma shape_no_nul t chunk nx : TokenShape t chunk nx -> Forall (fun r => r <> 0%N) chunk.
Proof.
  destruct 1 as [c cs nx Hc Hcs _|c cs nx Hcs _|nx|nx _|nx|c t nx Hin|c nx H0 _ _ _ _ _].
  - constructor; [now apply word_start_not|]. eapply Forall_impl; [|exact Hcs].
    intros r Hr. now apply nonbreak_not.
  - eapply Forall_impl; [|exact Hcs]. intros r Hr. now apply blank_not.
  - constructor; [discriminate|constructor].
  - constructor; [discriminate|constructor].
  - constructor; [discriminate|]. constructor; [discriminate|constructor].
  - constructor; [|constructor]. intros ->. cbn in Hin.
    repeat (destruct Hin as [Hin|Hin]; [discriminate Hin|]). contradiction.
  - now constructor.
Qed.

Lemma some_inj {A} (a b : A) : Some a = Some b -> a = b.
Proof. now injection 1. Qed.

Lemma lexToken_spec pre l t l' :
  LexInv pre l -> lexToken l = Some (t, l') ->
  exists chunk, rest l = chunk ++ rest l' /\ LexInv (pre ++ chunk) l' /\
    TokenAt pre chunk t (hd_error (rest l')).
Proof.
  intros Hinv H. unfold lexToken in H. unfold peek in H.
  destruct (rest l) as [|r rs] eqn:Hrest; [discriminate|].
  destruct (isEmpty r) eqn:He; [discriminate|].
  destruct (next_first pre l r rs Hinv Hrest) as [Hm Hr1].
  assert (single : forall ty0, r <> 10%N ->
     Some (emit ty0 (next l)) = Some (t, l') ->
     TokenShape ty0 [r] (hd_error rs) ->
     exists chunk, r :: rs = chunk ++ rest l' /\ LexInv (pre ++ chunk) l' /\
       TokenAt pre chunk t (hd_error (rest l'))).
  { intros ty0 Hne10 He0 Hsh. apply some_inj in He0.
    destruct (emit_spec ty0 pre [r] (next l) t l' Hm) as (E1&E2&E3&E4&E5&E6&E7);
      [constructor; [assumption|constructor]|discriminate|exact He0|].
    exists [r]. rewrite E7, Hr1. split; [reflexivity|]. split; [exact E6|].
    unfold TokenAt. rewrite E1. tauto. }
  destruct (isSpace r) eqn:Hsp.
  { apply some_inj in H.
    destruct (nextWhile_spec isSpace pre [r] (next l) ltac:(discriminate) Hm)
      as (more & M1 & M2 & M3 & M4).
    rewrite Hr1 in M2.
    assert (Hbl : Forall blank (r :: more)).
    { constructor; [now apply isSpace_blank|]. eapply Forall_impl; [|exact M3].
      intros x Hx. now apply isSpace_blank. }
    destruct (emit_spec TWhitespace pre (r :: more) _ t l' M1) as (E1&E2&E3&E4&E5&E6&E7);
      [eapply Forall_impl; [|exact Hbl]; intros x Hx; now apply blank_not|discriminate|exact H|].
    exists (r :: more). rewrite E7. split; [cbn; f_equal; exact M2|]. split; [exact E6|].
    unfold TokenAt. rewrite E1. split; [|tauto]. constructor; [exact Hbl|].
    intros x Hx Hb. apply isSpace_blank in Hb. rewrite (M4 x Hx) in Hb. discriminate. }
  destruct (N.eqb_spec r 10) as [->|Hn10].
  { unfold emit in H. injection H as <- <-.
    destruct Hm as (Hc & Hp & Hl & Hco). cbn in Hc, Hp, Hco.
    exists [10%N]. cbn [rest cur lpos lline lcol]. rewrite Hr1. split; [reflexivity|].
    split.
    - repeat split; cbn [rest cur lpos lline lcol].
      + rewrite Hp, app_length. reflexivity.
      + rewrite Hl, newlines_app, since_app_nl. cbn. lia.
      + now rewrite since_app_nl.
    - unfold TokenAt. cbn [ty val pos line col]. rewrite Hc. cbn [rev app].
      repeat split; try assumption.
      + constructor.
      + rewrite Hp, app_length. reflexivity. }
  destruct (N.eqb_spec r 61) as [->|Hn61].
  { destruct (N.eqb_spec (match rest (next l) with [] => 0%N | r0 :: _ => r0 end) 62) as [H62|H62].
    - rewrite Hr1 in H62. destruct rs as [|r2 rs2]; [discriminate|]. subst r2.
      apply some_inj in H.
      destruct (next_more pre [61%N] (next l) 62 rs2 ltac:(discriminate) Hm Hr1) as [Hm2 Hr2].
      cbn in Hm2.
      destruct (emit_spec TRocket pre [61%N; 62%N] _ t l' Hm2) as (E1&E2&E3&E4&E5&E6&E7);
        [repeat constructor; discriminate|discriminate|exact H|].
      exists [61%N; 62%N]. rewrite E7, Hr2. split; [reflexivity|]. split; [exact E6|].
      unfold TokenAt. rewrite E1. split; [constructor|tauto].
    - apply (single TEqual); [discriminate|exact H|]. constructor.
      rewrite Hr1 in H62. destruct rs as [|r2 rs2]; [discriminate|]. cbn.
      intro E; injection E as E; congruence. }
  destruct (punct r) as [pt|] eqn:Hpu.
  { apply (single pt); [assumption|exact H|]. constructor. now apply punct_spec. }
  destruct (isWord r) eqn:Hw.
  { apply some_inj in H.
    destruct (nextWhile_spec (fun c => negb (isWordBreak c)) pre [r] (next l)
                ltac:(discriminate) Hm) as (more & M1 & M2 & M3 & M4).
    rewrite Hr1 in M2. apply isWord_start in Hw.
    assert (Hnb : Forall (fun x => ~ word_break x) more).
    { eapply Forall_impl; [|exact M3]. intros x Hx Hb.
      apply isWordBreak_break in Hb. cbv beta in Hx. rewrite Hb in Hx. discriminate. }
    destruct (emit_spec TWord pre (r :: more) _ t l' M1) as (E1&E2&E3&E4&E5&E6&E7);
      [constructor; [assumption|]; eapply Forall_impl; [|exact Hnb];
       intros x Hx; now apply nonbreak_not|discriminate|exact H|].
    exists (r :: more). rewrite E7. split; [cbn; f_equal; exact M2|]. split; [exact E6|].
    unfold TokenAt. rewrite E1. split; [|tauto]. constructor; [exact Hw|exact Hnb|].
    intros x Hx. apply isWordBreak_break. specialize (M4 x Hx).
    destruct (isWordBreak x); [reflexivity|discriminate]. }
  { apply (single TExtra); [assumption|exact H|].
    unfold isEmpty in He.
    apply ShapeExtra; try assumption.
    - now apply N.eqb_neq.
    - intro Hx. apply isWord_start in Hx. congruence.
    - intro Hx. apply isSpace_blank in Hx. congruence.
    - now apply punct_none. }
Qed.

Lemma lexToken_none l : lexToken l = None <-> peek l = 0%N.
Proof.
  unfold lexToken. destruct (isEmpty (peek l)) eqn:He; unfold isEmpty in He.
  - split; [lia|reflexivity].
  - split; [|lia]. intro H. exfalso.
    destruct (isSpace (peek l)); [discriminate|].
    destruct (peek l =? 10)%N; [destruct (emit TNewLine (next l)); discriminate|].
    destruct (peek l =? 61)%N; [destruct (peek (next l) =? 62)%N; discriminate|].
    destruct (punct (peek l)); [discriminate|].
    destruct (isWord (peek l)); discriminate.
Qed.

(** the tokens of the rest of the document, with their chunks *)
Inductive LexRel : list N -> list N -> list token -> Prop :=
| LREnd pre rs eof :
    hd_error rs = None \/ hd_error rs = Some 0%N ->
    ty eof = TEOF -> val eof = EmptyString ->
    LexRel pre rs [eof]
| LRTok pre chunk rs t toks :
    TokenAt pre chunk t (hd_error rs) ->
    LexRel (pre ++ chunk) rs toks ->
    LexRel pre (chunk ++ rs) (t :: toks).

Lemma lexRun_rel fuel pre l :
  LexInv pre l -> length (rest l) <= fuel -> LexRel pre (rest l) (lexRun fuel l).
Proof.
  revert pre l. induction fuel as [|fuel IH]; intros pre l Hinv Hf.
  - destruct (rest l) as [|r rs] eqn:Hr; [|cbn in Hf; lia].
    cbn. constructor; cbn; [now left|reflexivity|]. destruct Hinv as [-> _]. reflexivity.
  - cbn [lexRun]. destruct (lexToken l) as [[t l']|] eqn:Hl.
    + destruct (lexToken_spec pre l t l' Hinv Hl) as (chunk & H1 & H2 & H3).
      rewrite H1. constructor; [exact H3|]. apply IH; [exact H2|].
      destruct H3 as [Hs _]. apply shape_nonempty in Hs.
      rewrite H1, app_length in Hf. destruct chunk; [congruence|]. cbn in Hf. lia.
    + apply lexToken_none in Hl. unfold peek in Hl.
      constructor; cbn.
      * destruct (rest l); [now left|]. right. cbn. now f_equal.
      * reflexivity.
      * destruct Hinv as [-> _]. reflexivity.
Qed.

Lemma lexAll_rel src : LexRel [] (decode src) (lexAll src).
Proof.
  unfold lexAll. change (decode src) with (rest (newLexer src)). apply lexRun_rel; [|reflexivity].
  unfold LexInv, newLexer. cbn. repeat split; reflexivity.
Qed.

Lemma until_nul_app chunk rs :
  Forall (fun r => r <> 0%N) chunk -> until_nul (chunk ++ rs) = chunk ++ until_nul rs.
Proof.
  induction 1 as [|r c Hr _ IH]; cbn; [reflexivity|].
  destruct (N.eqb_spec r 0); [congruence|]. now rewrite IH.
Qed.

Lemma LexRel_lossless pre rs toks :
  LexRel pre rs toks -> sconcat (map val toks) = encode (until_nul rs).
Proof.
  induction 1 as [pre rs eof Hrs Hty Hval|pre chunk rs t toks Ht _ IH].
  - cbn. rewrite Hval. destruct rs as [|r rs]; [reflexivity|]. cbn in Hrs.
    destruct Hrs as [Hrs|Hrs]; [discriminate|]. injection Hrs as ->. reflexivity.
  - cbn [map sconcat]. destruct Ht as (Hs & Hv & _).
    rewrite Hv, IH, until_nul_app by (eapply shape_no_nul; exact Hs).
    now rewrite encode_app.
Qed.

Lemma lexAll_lossless src : sconcat (map val (lexAll src)) = encode (until_nul (decode src)).
Proof. eapply LexRel_lossless, lexAll_rel. Qed.

Lemma LexRel_split pre rs toks a t b :
  LexRel pre rs toks -> toks = a ++ t :: b -> b <> [] ->
  exists before chunk after,
    rs = before ++ chunk ++ after /\
    sconcat (map val a) = encode before /\
    TokenAt (pre ++ before) chunk t (hd_error after).
Proof.
  intros H. revert a t b. induction H as [pre rs eof Hrs Hty Hval|pre chunk rs t' toks Ht Hr IH];
    intros a t b Heq Hb.
  - destruct a as [|x a]; cbn in Heq; injection Heq as Heq1 Heq2.
    + congruence.
    + destruct a; discriminate.
  - destruct a as [|x a]; cbn in Heq; injection Heq as Heq1 Heq2; subst.
    + exists [], chunk, rs. rewrite app_nil_r. repeat split; try apply Ht.
    + destruct (IH a t b eq_refl Hb) as (before & chunk' & after & E1 & E2 & E3).
      exists (chunk ++ before), chunk', after. subst rs. rewrite <- app_assoc.
      split; [reflexivity|]. split.
      * cbn. rewrite E2, encode_app. destruct Ht as (_ & Hv & _). now rewrite Hv.
      * rewrite app_assoc. exact E3.
Qed.

Lemma LexRel_eof pre rs toks :
  LexRel pre rs toks ->
  exists body eof, toks = body ++ [eof] /\ ty eof = TEOF /\ val eof = "" /\
    Forall (fun t => ty t <> TEOF /\ val t <> "") body.
Proof.
  induction 1 as [pre rs eof Hrs Hty Hval|pre chunk rs t toks Ht _ (body & eof & -> & H1 & H2 & H3)].
  - exists [], eof. repeat split; try assumption. constructor.
  - exists (t :: body), eof. repeat split; try assumption. constructor; [|assumption].
    destruct Ht as (Hs & Hv & _). split.
    + intro E. rewrite E in Hs. inversion Hs; subst; cbn in *;
        repeat match goal with H : _ \/ _ |- _ => destruct H as [H|H]; [discriminate H|] end; contradiction.
    + rewrite Hv. pose proof (shape_nonempty _ _ _ Hs) as Hne.
      destruct chunk as [|r chunk]; [congruence|]. cbn.
      pose proof (encode_rune_length r) as Hl. intro E. apply (f_equal String.length) in E.
      rewrite slength_app in E. cbn in E. lia.
Qed.

Lemma lexAll_segments src :
  exists segs, Segments (decode src) segs /\
    map (fun t => (ty t, val t)) (lexAll src) =
    map (fun s => (fst s, encode (snd s))) segs ++ [(TEOF, "")].
Proof.
  pose proof (lexAll_rel src) as H. revert H.
  generalize (decode src) as rs. generalize (lexAll src) as toks.
  generalize (@nil N) as pre. intros pre toks rs H.
  induction H as [pre rs eof Hrs Hty Hval|pre chunk rs t toks Ht _ (segs & IH1 & IH2)].
  - exists []. split.
    + constructor. destruct rs as [|r rs]; [now left|]. cbn in Hrs.
      destruct Hrs as [Hrs|Hrs]; [discriminate|]. injection Hrs as ->. right. now exists rs.
    + cbn. now rewrite Hty, Hval.
  - exists ((ty t, chunk) :: segs). destruct Ht as (Hs & Hv & _). split.
    + constructor; assumption.
    + cbn. now rewrite IH2, Hv.
Qed.

(** ** The segmentation is unique *)

Lemma word_start_excl c :
  word_start c -> ~ blank c /\ c <> 10%N /\ c <> 61%N /\ ~ In c (map fst punctuation).
Proof.
  unfold word_start, blank. intro H. repeat split; try lia.
  intro Hin. cbn in Hin. lia.
Qed.

Lemma blank_excl c : blank c -> c <> 10%N /\ c <> 61%N /\ ~ In c (map fst punctuation).
Proof.
  unfold blank. intro H. repeat split; try lia. intro Hin. cbn in Hin. lia.
Qed.

Lemma punct_fun c t t' : In (c, t) punctuation -> In (c, t') punctuation -> t = t'.
Proof. intros H H'. apply punct_spec in H, H'. congruence. Qed.

Lemma in_punct c t : In (c, t) punctuation -> In c (map fst punctuation).
Proof. intro H. apply in_map_iff. now exists (c, t). Qed.

Lemma punct_not c t : In (c, t) punctuation -> c <> 10%N /\ c <> 61%N.
Proof.
  intro H. cbn in H.
  repeat (destruct H as [H|H]; [injection H as <- <-; split; discriminate|]). contradiction.
Qed.

Lemma munch_unique {P : N -> Prop} cs cs' (a a' : list N) :
  Forall P cs -> Forall P cs' ->
  (forall r, hd_error a = Some r -> ~ P r) -> (forall r, hd_error a' = Some r -> ~ P r) ->
  cs ++ a = cs' ++ a' -> cs = cs' /\ a = a'.
Proof.
  intros H. revert cs'. induction H as [|r cs Hr _ IH]; intros cs' H' Ha Ha' E.
  - destruct H' as [|r' cs' Hr' H']; [now split|]. cbn in E. subst a.
    exfalso. exact (Ha r' eq_refl Hr').
  - destruct H' as [|r' cs' Hr' H']; cbn in E.
    + subst a'. exfalso. exact (Ha' r eq_refl Hr).
    + injection E as <- E. destruct (IH cs' H' Ha Ha' E) as [-> ->]. now split.
Qed.

Lemma first_class t c cs nx :
  TokenShape t (c :: cs) nx ->
  (word_start c /\ t = TWord) \/ (blank c /\ t = TWhitespace) \/
  (c = 10%N /\ t = TNewLine) \/ (c = 61%N /\ (t = TEqual \/ t = TRocket)) \/
  (In (c, t) punctuation) \/
  (t = TExtra /\ ~ word_start c /\ ~ blank c /\ c <> 10%N /\ c <> 61%N /\ ~ In c (map fst punctuation)).
Proof.
  intro H. inversion H; subst.
  - now left.
  - right; left. match goal with HF : Forall blank _ |- _ => inversion HF; auto end.
  - now do 2 right; left.
  - do 3 right; left. auto.
  - do 3 right; left. auto.
  - do 4 right; left. assumption.
  - do 5 right. tauto.
Qed.

Lemma shape_unique t t' chunk chunk' rs rs' :
  TokenShape t chunk (hd_error rs) -> TokenShape t' chunk' (hd_error rs') ->
  chunk ++ rs = chunk' ++ rs' -> t = t' /\ chunk = chunk' /\ rs = rs'.
Proof.
  intros H H' E.
  destruct chunk as [|c cs]; [exfalso; exact (shape_nonempty _ _ _ H eq_refl)|].
  destruct chunk' as [|c' cs']; [exfalso; exact (shape_nonempty _ _ _ H' eq_refl)|].
  cbn in E. injection E as <- E.
  assert (Hlen1 : t <> TWord -> t <> TWhitespace -> t <> TRocket -> cs = []).
  { inversion H; subst; congruence. }
  assert (Hlen1' : t' <> TWord -> t' <> TWhitespace -> t' <> TRocket -> cs' = []).
  { inversion H'; subst; congruence. }
  destruct (first_class _ _ _ _ H) as [[Ha ->]|[[Ha ->]|[[Ha ->]|[[Ha Hb]|[Ha|Ha]]]]];
  destruct (first_class _ _ _ _ H') as [[Ha' ->]|[[Ha' ->]|[[Ha' ->]|[[Ha' Hb']|[Ha'|Ha']]]]];
  try (pose proof (word_start_excl _ Ha)); try (pose proof (word_start_excl _ Ha'));
  try (pose proof (blank_excl _ Ha)); try (pose proof (blank_excl _ Ha'));
  try (pose proof (punct_not _ _ Ha); pose proof (in_punct _ _ Ha));
  try (pose proof (punct_not _ _ Ha'); pose proof (in_punct _ _ Ha'));
  try (exfalso; intuition congruence).
  - inversion H as [? ? ? _ Hcs Hnx| | | | |? ? ? Hin|]; subst;
      [|exfalso; cbn in Hin; repeat (destruct Hin as [Hin|Hin]; [discriminate Hin|]); contradiction].
    inversion H' as [? ? ? _ Hcs' Hnx'| | | | |? ? ? Hin|]; subst;
      [|exfalso; cbn in Hin; repeat (destruct Hin as [Hin|Hin]; [discriminate Hin|]); contradiction].
    destruct (munch_unique cs cs' rs rs' Hcs Hcs') as [-> ->]; auto.
  - inversion H as [|? ? ? Hcs Hnx| | | |? ? ? Hin|]; subst;
      [|exfalso; cbn in Hin; repeat (destruct Hin as [Hin|Hin]; [discriminate Hin|]); contradiction].
    inversion H' as [|? ? ? Hcs' Hnx'| | | |? ? ? Hin|]; subst;
      [|exfalso; cbn in Hin; repeat (destruct Hin as [Hin|Hin]; [discriminate Hin|]); contradiction].
    inversion Hcs; inversion Hcs'; subst.
    destruct (munch_unique (P := blank) cs cs' rs rs') as [-> ->]; auto.
  - rewrite Hlen1 in * by discriminate. rewrite Hlen1' in * by discriminate. auto.
  - subst c. destruct Hb as [->| ->]; destruct Hb' as [->| ->].
    + rewrite Hlen1 in * by discriminate. rewrite Hlen1' in * by discriminate. auto.
    + exfalso. rewrite Hlen1 in E by discriminate.
      inversion H' as [| | | | |? ? ? Hin|]; subst.
      * inversion H as [| | |? Hnx| |? ? ? Hin|]; subst; [cbn in E, Hnx; subst rs; apply Hnx; reflexivity|].
        apply punct_not in Hin. intuition congruence.
      * apply punct_not in Hin. intuition congruence.
    + exfalso. rewrite Hlen1' in E by discriminate.
      inversion H as [| | | | |? ? ? Hin|]; subst.
      * inversion H' as [| | |? Hnx| |? ? ? Hin|]; subst; [cbn in E, Hnx; subst rs'; apply Hnx; reflexivity|].
        apply punct_not in Hin. intuition congruence.
      * apply punct_not in Hin. intuition congruence.
    + inversion H as [| | | | |? ? ? Hin|]; subst; [|apply punct_not in Hin; intuition congruence].
      inversion H' as [| | | | |? ? ? Hin|]; subst; [|apply punct_not in Hin; intuition congruence].
      injection E as ->. auto.
  - assert (Hp : forall x tt, In (x, tt) punctuation -> tt <> TWord /\ tt <> TWhitespace /\ tt <> TRocket).
    { intros x tt Hx. cbn in Hx.
      repeat (destruct Hx as [Hx|Hx]; [injection Hx as <- <-; repeat split; discriminate|]). contradiction. }
    destruct (Hp _ _ Ha) as (?&?&?). destruct (Hp _ _ Ha') as (?&?&?).
    rewrite Hlen1 in * by assumption. rewrite Hlen1' in * by assumption.
    split; [eapply punct_fun; eassumption|]. auto.
  - destruct Ha as [-> _]. destruct Ha' as [-> _].
    rewrite Hlen1 in * by discriminate. rewrite Hlen1' in * by discriminate. auto.
Qed.

Lemma segments_unique rs segs segs' : Segments rs segs -> Segments rs segs' -> segs = segs'.
Proof.
  assert (Hend : forall rs t chunk nx, (rs = [] \/ exists x, rs = 0%N :: x) ->
            TokenShape t chunk nx -> forall more, rs = chunk ++ more -> False).
  { intros rs0 t chunk nx Hrs Hs more E.
    pose proof (shape_nonempty _ _ _ Hs) as Hne. pose proof (shape_no_nul _ _ _ Hs) as Hnn.
    destruct chunk as [|c cs]; [congruence|]. inversion Hnn; subst.
    destruct Hrs as [Hrs|[x Hrs]]; [discriminate|]. injection Hrs as Hrs _. congruence. }
  intro H. revert segs'. induction H as [rs Hrs|chunk rs t segs Hs Hseg IH]; intros segs' H'.
  - inversion H' as [rs' Hrs'|chunk' rs' t' segs0 Hs' Hseg']; subst; [reflexivity|].
    exfalso. eapply Hend; [exact Hrs|exact Hs'|reflexivity].
  - inversion H' as [rs' Hrs'|chunk' rs' t' segs0 Hs' Hseg']; subst.
    + exfalso. eapply Hend; [exact Hrs'|exact Hs|reflexivity].
    + match goal with E : _ ++ _ = _ ++ _ |- _ =>
        destruct (shape_unique _ _ _ _ _ _ Hs' Hs E) as (-> & -> & ->) end.
      f_equal. now apply IH.
Qed.

(** ** Statements for Props_Lexer *)

Lemma lossless_chars cs :
  forallb valid_rune cs = true ->
  sconcat (map val (lexAll (encode cs))) = encode (until_nul cs).
Proof. intro H. rewrite lexAll_lossless. now rewrite decode_encode. Qed.

Lemma until_nul_id cs : ~ In 0%N cs -> until_nul cs = cs.
Proof.
  induction cs as [|r cs IH]; cbn; intro H; [reflexivity|].
  destruct (N.eqb_spec r 0); [subst; tauto|]. rewrite IH; tauto.
Qed.

Lemma lossless_no_nul cs :
  forallb valid_rune cs = true -> ~ In 0%N cs ->
  sconcat (map val (lexAll (encode cs))) = encode cs.
Proof. intros H H0. rewrite lossless_chars by assumption. now rewrite until_nul_id. Qed.

Lemma nul_truncates : exists src, sconcat (map val (lexAll src)) <> src.
Proof. exists (encode [97; 0; 98]%N). vm_compute. discriminate. Qed.

Lemma lexRun_eof fuel pre l :
  LexInv pre l -> length (rest l) <= fuel ->
  exists body eof, lexRun fuel l = body ++ [eof] /\ ty eof = TEOF /\
    pos eof = length pre + length (until_nul (rest l)).
Proof.
  revert pre l. induction fuel as [|fuel IH]; intros pre l Hinv Hf.
  - destruct (rest l) as [|r rs] eqn:Hr; [|cbn in Hf; lia].
    cbn [lexRun]. eexists [], _. split; [reflexivity|]. split; [reflexivity|].
    cbn. destruct Hinv as (_ & -> & _). lia.
  - cbn [lexRun]. destruct (lexToken l) as [[t l']|] eqn:Hl.
    + destruct (lexToken_spec pre l t l' Hinv Hl) as (chunk & H1 & H2 & H3).
      destruct H3 as [Hs _].
      destruct (IH (pre ++ chunk) l' H2) as (body & eof & E1 & E2 & E3).
      { pose proof (shape_nonempty _ _ _ Hs) as Hne.
        rewrite H1, app_length in Hf. destruct chunk; [congruence|]. cbn in Hf. lia. }
      exists (t :: body), eof. rewrite E1. split; [reflexivity|]. split; [exact E2|].
      rewrite E3, H1, until_nul_app by (eapply shape_no_nul; exact Hs).
      rewrite !app_length. lia.
    + apply lexToken_none in Hl. unfold peek in Hl.
      eexists [], _. split; [reflexivity|]. split; [reflexivity|].
      cbn. destruct Hinv as (_ & -> & _).
      destruct (rest l) as [|r rs]; cbn; [lia|]. subst r. cbn. lia.
Qed.

Lemma lexAll_eof src :
  exists body eof,
    lexAll src = body ++ [eof] /\ ty eof = TEOF /\ val eof = "" /\
    pos eof = length (until_nul (decode src)) /\
    Forall (fun t => ty t <> TEOF /\ val t <> "") body.
Proof.
  destruct (LexRel_eof _ _ _ (lexAll_rel src)) as (body & eof & E1 & E2 & E3 & E4).
  destruct (lexRun_eof (length (rest (newLexer src))) [] (newLexer src)) as (body' & eof' & F1 & F2 & F3).
  { unfold LexInv, newLexer. cbn. repeat split; reflexivity. }
  { reflexivity. }
  change (lexRun (length (rest (newLexer src))) (newLexer src)) with (lexAll src) in F1.
  rewrite E1 in F1. apply app_inj_tail in F1 as [<- <-].
  exists body, eof. rewrite F3. repeat split; try assumption.
Qed.

Lemma lexAll_positions src a t b :
  lexAll src = a ++ t :: b -> b <> [] ->
  exists before chunk after,
    decode src = before ++ chunk ++ after /\
    sconcat (map val a) = encode before /\
    val t = encode chunk /\
    pos t = length before + length chunk /\
    line t = 1 + newlines before /\
    col t = since_newline before + length chunk.
Proof.
  intros E Hb.
  destruct (LexRel_split [] _ _ a t b (lexAll_rel src) E Hb) as (before & chunk & after & H1 & H2 & H3).
  exists before, chunk, after. cbn in H3. destruct H3 as (_ & Hv & Hp & Hl & Hc).
  rewrite app_length in Hp. repeat split; assumption.
Qed.
