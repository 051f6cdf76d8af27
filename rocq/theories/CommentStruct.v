(** End to end: the comment block above a struct is the struct's comment. *)
From Coq Require Import ZifyBool ZifyN.
From Verif Require Import Base BaseProofs Utf8 Utf8Proofs Lexer LexSpec LexerProofs Tokenize Ast Parser
  ParserTerm PropsParserAux StringProofs CommentSpec CommentProofs EraseProofs CommentBlock.

Lemma nth_error_ext {A} (l l' : list A) : (forall i, nth_error l i = nth_error l' i) -> l = l'.
Proof.
  revert l'. induction l as [|x l IH]; intros [|y l'] H; [reflexivity|specialize (H 0); discriminate|specialize (H 0); discriminate|].
  f_equal; [specialize (H 0); cbn in H; congruence|]. apply IH. intro i. apply (H (S i)).
Qed.

(** a comment line: indentation, "#", text *)
Definition comment_lines (b : list (list N * list N)) : list cline :=
  map (fun p => CL (fst p) (Some (snd p))) b.
Definition comment_line_ok (p : list N * list N) : Prop :=
  Forall blank (fst p) /\ ~ In 0%N (snd p) /\ ~ In 10%N (snd p) /\ ~ In 35%N (snd p) /\
  forallb valid_rune (snd p) = true.
(** the lines above the block: none, or any comment and blank lines of which the last is blank *)
Definition detached (b0 : list cline) : Prop :=
  Forall cline_ok b0 /\ (b0 = [] \/ exists b ind, b0 = b ++ [CL ind None]).

Definition structLine (name : list N) : list N := runes_of "struct " ++ name ++ [10%N].

Lemma comment_lines_ok b : Forall comment_line_ok b -> Forall cline_ok (comment_lines b).
Proof.
  intro H. apply Forall_map. eapply Forall_impl; [|exact H]. intros [i t] (H1 & H2 & H3 & _ & H4). split; cbn; tauto.
Qed.

Lemma newlines_line l : cline_ok l -> newlines (cline_chars l) = 1.
Proof.
  intros [H1 H2]. unfold cline_chars. rewrite !newlines_app. change (newlines [10%N]) with 1.
  assert (HZ : forall x, ~ In 10%N x -> newlines x = 0).
  { induction x as [|c x IH]; intro Hn; [reflexivity|]. unfold newlines. cbn [filter].
    replace (c =? 10)%N with false by (symmetry; apply N.eqb_neq; intro; subst; apply Hn; now left).
    apply IH. intro; apply Hn; now right. }
  rewrite (HZ (cl_indent l)).
  - destruct (cl_text l) as [t|]; [|reflexivity]. destruct H2 as (_ & H2 & _). rewrite HZ; [reflexivity|].
    intros [E|E]; [discriminate|tauto].
  - intro Hin. rewrite Forall_forall in H1. specialize (H1 _ Hin). unfold blank in H1. lia.
Qed.
Lemma newlines_block b : Forall cline_ok b -> newlines (block_chars b) = length b.
Proof.
  induction 1 as [|l b Hl HF IH]; [reflexivity|]. cbn [block_chars flat_map length]. rewrite newlines_app.
  fold (block_chars b). rewrite IH, (newlines_line _ Hl). reflexivity.
Qed.
Lemma block_no_nul b : Forall cline_ok b -> no_char 0%N (block_chars b).
Proof.
  induction 1 as [|l b [H1 H2] HF IH]; [intros []|]. cbn [block_chars flat_map]. intro Hin.
  apply in_app_iff in Hin. destruct Hin as [Hin|Hin]; [|now apply IH]. unfold cline_chars in Hin.
  rewrite !in_app_iff in Hin. destruct Hin as [Hin|[Hin|[Hin|[]]]]; [| |discriminate].
  - rewrite Forall_forall in H1. specialize (H1 _ Hin). unfold blank in H1. lia.
  - destruct (cl_text l); [|destruct Hin]. destruct Hin as [Hin|Hin]; [discriminate|tauto].
Qed.
Lemma block_whole b : whole_lines (block_chars b).
Proof.
  destruct b as [|l b] using rev_ind; [now left|]. right. unfold block_chars. rewrite flat_map_app. cbn [flat_map].
  rewrite app_nil_r. unfold cline_chars at 2. rewrite !app_assoc. eexists. reflexivity.
Qed.
Lemma block_app a b : block_chars (a ++ b) = block_chars a ++ block_chars b.
Proof. apply flat_map_app. Qed.

Definition docOk (b0 : list cline) (b : list (list N * list N)) (below ln : list N) : Prop :=
  detached b0 /\ Forall comment_line_ok b /\ forallb valid_rune below = true /\
  no_char 0%N ln /\ no_char 35%N ln /\ no_char 10%N ln /\ forallb valid_rune ln = true.

Definition doc b0 b below ln := block_chars (b0 ++ comment_lines b) ++ ln ++ 10%N :: below.

Lemma all_ok b0 b below ln : docOk b0 b below ln -> Forall cline_ok (b0 ++ comment_lines b).
Proof. intros (H0 & Hb & Hbelow & Hln0 & Hln1 & Hln2 & Hlnv). apply Forall_app. split; [apply H0|]. now apply comment_lines_ok. Qed.

Lemma doc_valid b0 b below ln : docOk b0 b below ln -> forallb valid_rune (doc b0 b below ln) = true.
Proof.
  intro HO. pose proof (all_ok _ _ _ _ HO) as Hall. revert HO. intros (H0 & Hb & Hbelow & Hln0 & Hln1 & Hln2 & Hlnv).
  unfold doc. rewrite !valid_app, (block_valid _ Hall), Hlnv. cbn [andb forallb]. rewrite Hbelow. reflexivity.
Qed.

Lemma doc_comment b0 b below ln i ind t : docOk b0 b below ln -> nth_error b i = Some (ind, t) ->
  getComment (S (length b0 + i)) (snd (tokenize (encode (doc b0 b below ln)))) = Some (comment_text t).
Proof.
  intro HO. pose proof (all_ok _ _ _ _ HO) as Hall. pose proof (doc_valid _ _ _ _ HO) as HV. pose proof HO as HO'. revert HO'. intros (H0 & Hb & Hbelow & Hln0 & Hln1 & Hln2 & Hlnv).
  intro Hi. destruct (nth_error_split _ _ Hi) as (u & v & Eb & Lu).
  assert (Hok : comment_line_ok (ind, t)) by (rewrite Forall_forall in Hb; apply Hb; rewrite Eb; apply in_elt).
  destruct Hok as (K1 & K2 & K3 & K4 & K5). cbn [fst snd] in *.
  assert (Hpre : Forall cline_ok (b0 ++ comment_lines u)).
  { apply Forall_app. split; [apply H0|]. apply comment_lines_ok. rewrite Eb in Hb. now apply Forall_app in Hb. }
  assert (Ed : doc b0 b below ln = block_chars (b0 ++ comment_lines u) ++ ind ++ 35%N :: t ++ 10%N ::
     (block_chars (comment_lines v) ++ ln ++ 10%N :: below)).
  { unfold doc. rewrite Eb. unfold comment_lines. rewrite map_app. cbn [map fst snd].
    set (lv := map _ v). rewrite !block_app.
    change (block_chars (CL ind (Some t) :: lv)) with (((ind ++ (35%N :: t) ++ [10%N])) ++ block_chars lv).
    rewrite <- !app_assoc. cbn [app]. reflexivity. }
  rewrite Ed in HV |- *.
  replace (S (length b0 + i)) with (1 + newlines (block_chars (b0 ++ comment_lines u))).
  - apply recorded_comment; try assumption.
    + intro Z. rewrite !in_app_iff in Z. destruct Z as [Z|[Z|Z]]; [now apply (block_no_nul _ Hpre)| |tauto].
      rewrite Forall_forall in K1. specialize (K1 _ Z). unfold blank in K1. lia.
    + apply block_whole.
    + intro Z. rewrite Forall_forall in K1. specialize (K1 _ Z). unfold blank in K1. lia.
    + intro Z. rewrite Forall_forall in K1. specialize (K1 _ Z). unfold blank in K1. lia.
    + now apply ends_blank_blanks.
  - rewrite newlines_block by assumption. rewrite app_length. unfold comment_lines. rewrite map_length. lia.
Qed.

Lemma doc_def_line b0 b below ln : docOk b0 b below ln -> getComment (S (length b0 + length b)) (snd (tokenize (encode (doc b0 b below ln)))) = None.
Proof.
  intro HO. pose proof (all_ok _ _ _ _ HO) as Hall. pose proof (doc_valid _ _ _ _ HO) as HV. pose proof HO as HO'. revert HO'. intros (H0 & Hb & Hbelow & Hln0 & Hln1 & Hln2 & Hlnv).
  replace (S (length b0 + length b)) with (1 + newlines (block_chars (b0 ++ comment_lines b))).
  - apply uncommented_line; try assumption; [|apply block_whole].
    intro Z. apply in_app_iff in Z. destruct Z as [Z|Z]; [now apply (block_no_nul _ Hall)|now apply Hln0].
  - rewrite newlines_block by assumption. rewrite app_length. unfold comment_lines. rewrite map_length. lia.
Qed.

Lemma doc_above b0 b below ln : docOk b0 b below ln -> getComment (length b0) (snd (tokenize (encode (doc b0 b below ln)))) = None.
Proof.
  intro HO. pose proof (all_ok _ _ _ _ HO) as Hall. pose proof (doc_valid _ _ _ _ HO) as HV. pose proof HO as HO'. revert HO'. intros (H0 & Hb & Hbelow & Hln0 & Hln1 & Hln2 & Hlnv).
  destruct H0 as [HF [->|(b1 & ind & Eb0)]]; [apply line0|]. rewrite Eb0 in HF |- * at 1.
  apply Forall_app in HF. destruct HF as [F1 F2]. apply Forall_inv in F2. destruct F2 as [F3 _]. cbn in F3.
  rewrite app_length. cbn [length].
  assert (Ed : doc b0 b below ln = block_chars b1 ++ ind ++ 10%N :: (block_chars (comment_lines b) ++ ln ++ 10%N :: below)).
  { unfold doc. rewrite Eb0, !block_app. replace (block_chars [CL ind None]) with (ind ++ [10%N]) by (cbn; now rewrite app_nil_r).
    rewrite <- !app_assoc. reflexivity. }
  rewrite Ed in HV |- *.
  replace (length b1 + 1) with (1 + newlines (block_chars b1)) by (rewrite newlines_block by assumption; lia).
  apply uncommented_line; try assumption.
  - intro Z. apply in_app_iff in Z. destruct Z as [Z|Z]; [now apply (block_no_nul _ F1)|].
    rewrite Forall_forall in F3. specialize (F3 _ Z). unfold blank in F3. lia.
  - apply block_whole.
  - intro Z. rewrite Forall_forall in F3. specialize (F3 _ Z). unfold blank in F3. lia.
  - intro Z. rewrite Forall_forall in F3. specialize (F3 _ Z). unfold blank in F3. lia.
Qed.

(** the comment of a definition on that line *)
Lemma doc_parseComments b0 b below ln : docOk b0 b below ln ->
  fst (parseComments (snd (tokenize (encode (doc b0 b below ln)))) (S (length b0 + length b))) =
  join (String "010"%char "") (filter shown (map (fun p => comment_text (snd p)) b)).
Proof.
  intro HO. pose proof (all_ok _ _ _ _ HO) as Hall. pose proof (doc_valid _ _ _ _ HO) as HV. pose proof HO as HO'. revert HO'. intros (H0 & Hb & Hbelow & Hln0 & Hln1 & Hln2 & Hlnv).
  set (m := snd (tokenize (encode (doc b0 b below ln)))).
  destruct (parseComments_spec m (S (length b0 + length b)) ltac:(lia)) as (k & s & (B1 & B2 & B3 & B4) & E & _).
  assert (Hs : s = length b0 + length b).
  { destruct B1 as [[B1 _]|[_ B1]]; [|lia]. exfalso. apply B1. now apply doc_def_line. }
  assert (Hhas : forall i, length b0 < i -> i <= s -> hasC m i).
  { intros i I1 I2 Z. destruct (nth_error b (i - S (length b0))) as [[ind t]|] eqn:En.
    - pose proof (doc_comment _ _ _ _ _ _ _ HO En) as HC. replace (S (length b0 + (i - S (length b0)))) with i in HC by lia.
      fold m in HC. congruence.
    - apply nth_error_None in En. lia. }
  assert (Hk : k = S (length b0)).
  { destruct (le_lt_dec k (length b0)) as [L|L].
    - exfalso. apply (B3 (length b0)); [lia|]. now apply doc_above.
    - destruct (le_lt_dec k (S (length b0))) as [L2|L2]; [lia|]. exfalso. destruct B4 as [B4|B4]; [lia|].
      apply B4. apply Hhas; lia. }
  rewrite E. f_equal. f_equal. replace (S s - k) with (length b) by lia. rewrite Hk. clear - HO.
  apply nth_error_ext. intro i.
  destruct (le_lt_dec (length b) i) as [L|L].
  - transitivity (@None string); [|symmetry]; apply nth_error_None; rewrite map_length; [now rewrite seq_length|exact L].
  - rewrite nth_error_map. assert (En := proj2 (nth_error_Some b i) L). 
    destruct (nth_error b i) as [[ind t]|] eqn:E; [|congruence].
    rewrite nth_error_map, E. cbn [option_map snd].
    replace (nth_error (seq (S (length b0)) (length b)) i) with (Some (S (length b0) + i)).
    + cbn [option_map]. f_equal. unfold textC, m. pose proof (doc_comment _ _ _ _ _ _ _ HO E) as HC. cbn [Nat.add]. now rewrite HC.
    + rewrite (nth_error_nth' _ 0) by now rewrite seq_length. now rewrite seq_nth.
Qed.

Definition word (w : list N) : Prop := exists c cs, w = c :: cs /\ word_start c /\ Forall (fun r => ~ word_break r) cs.

Lemma word_chars w c : word w -> In c w -> ~ word_break c.
Proof.
  intros (d & cs & -> & H1 & H2) [<-|Hin]; [|rewrite Forall_forall in H2; now apply H2].
  unfold word_start in H1. unfold word_break. cbn. lia.
Qed.

Lemma struct_end_to_end b0 b name :
  detached b0 -> Forall comment_line_ok b -> word name -> ~ In 35%N name -> forallb valid_rune name = true ->
  parseRidl (encode (block_chars (b0 ++ comment_lines b) ++ structLine name)) =
  Parsed [NStruct (Struct (encode name) []
     (join (String "010"%char "") (filter shown (map (fun p => comment_text (snd p)) b)))
     (S (length b0 + length b)))].
Proof.
  intros H0 Hb Hw Hh Hv. set (ln := runes_of "struct " ++ name).
  assert (Ed : block_chars (b0 ++ comment_lines b) ++ structLine name = doc b0 b [] ln).
  { unfold doc, structLine, ln. now rewrite <- !app_assoc. }
  assert (Hall : Forall cline_ok (b0 ++ comment_lines b)) by (apply Forall_app; split; [apply H0|now apply comment_lines_ok]).
  assert (Hlv : forallb valid_rune ln = true) by (unfold ln; rewrite valid_app, Hv; reflexivity).
  assert (Hnb : forall c, In c name -> ~ word_break c) by (intros c Hc; eapply word_chars; eassumption).
  assert (Hn : forall c, In c ln -> c <> 0%N /\ c <> 35%N /\ c <> 10%N).
  { intros c Hc. unfold ln in Hc. apply in_app_iff in Hc. destruct Hc as [Hc|Hc].
    - cbn in Hc. lia.
    - specialize (Hnb c Hc). unfold word_break in Hnb. cbn in Hnb. repeat split; intros ->; tauto. }
  assert (HO : docOk b0 b [] ln).
  { repeat split; try assumption; try apply H0; intro Z; now apply Hn in Z. }
  pose proof (doc_parseComments _ _ _ _ HO) as HPC. pose proof (doc_valid _ _ _ _ HO) as HV.
  rewrite Ed. set (src := encode (doc b0 b [] ln)) in *.
  destruct (init_segments src) as (segs & HS & HM).
  assert (HD : decode src = doc b0 b [] ln) by (apply decode_encode; exact HV). rewrite HD in HS.
  assert (HC : initConf src = PC SDefault (p_toks (initConf src)) (snd (tokenize src)) []).
  { unfold initConf. now destruct (tokenize src). }
  set (m := snd (tokenize src)) in *.
  unfold doc in HS.
  destruct (skip_block _ Hall _ _ _ m [] HS HM) as (s2 & p & t2 & A1 & A2 & A3 & A4 & A5).
  assert (Hs2 : s2 = [(TWord, runes_of "struct"); (TWhitespace, [32%N]); (TWord, name); (TNewLine, [10%N])]).
  { eapply segments_unique; [exact A1|]. unfold ln.
    change (runes_of "struct ") with (runes_of "struct" ++ [32%N]). rewrite <- !app_assoc.
    destruct Hw as (c & cs & -> & W1 & W2).
    apply SegTok; [wordshape|]. cbn [app]. change (32 :: c :: cs ++ [10])%N with ([32] ++ (c :: cs) ++ [10])%N.
    apply SegTok.
    - apply ShapeBlank; [repeat constructor; unfold blank; lia|]. intros r Hr. injection Hr as <-.
      unfold word_start in W1. unfold blank. lia.
    - apply SegTok.
      + apply ShapeWord; [exact W1|exact W2|]. intros r Hr. injection Hr as <-. unfold word_break. cbn. tauto.
      + change [10%N] with ([10%N] ++ []). apply SegTok; [constructor|]. constructor. now left. }
  subst s2. cbn [map] in A2. destruct t2 as [|t1 [|t2 [|t3 [|t4 [|? ?]]]]]; try discriminate.
  cbn in A2. injection A2 as E1 E2 E3 E4 E5 E6 E7 E8. change (val t1 = "struct"%string) in E2.
  assert (Hline : line t1 = S (length b0 + length b)).
  { rewrite (tok_line src p t1 [t2; t3; t4] _ A3 A4 (block_valid _ Hall)).
    rewrite newlines_block by assumption. rewrite app_length. unfold comment_lines. rewrite map_length. lia. }
  set (res := Parsed _).
  assert (Hrun : runParser 10 (PC SDefault [t1; t2; t3; t4] m []) = res).
  { rewrite run_S. unfold step at 1. cbn [p_state p_toks p_comments p_out cursor]. rewrite E1.
    rewrite run_S. unfold step at 1. cbn [p_state p_toks p_comments p_out cursor]. rewrite E1, E2.
    change (tt_eqb TWord TWord) with true. cbn [negb]. 
    change (str_in "struct" ["webrpc"; "name"; "version"; "basepath"]) with false.
    cbv [String.eqb Ascii.eqb Bool.eqb]. cbv iota.
    rewrite run_S. unfold step at 1. cbn [p_state p_toks p_comments p_out cursor].
    assert (HMt : pmatch [TWord; TWhitespace; TWord] [t1; t2; t3; t4] = POk [t1; t2; t3] [t4]).
    { unfold pmatch. cbn [matchGo cursor pnext]. rewrite E1, E3, E5. reflexivity. }
    rewrite HMt. cbn [onOk cursor nth]. rewrite E2. 
    cbv [String.eqb Ascii.eqb Bool.eqb negb]. cbv iota. rewrite Hline.
    destruct (parseComments m (S (length b0 + length b))) as [com cm'] eqn:Epc. cbn [fst] in HPC.
    rewrite run_S. unfold step at 1. cbn [p_state p_toks p_comments p_out cursor]. rewrite E7. cbn [pnext].
    unfold res. rewrite E6, <- HPC. reflexivity. }
  destruct (proj2 (A5 res I) (ex_intro _ _ Hrun)) as [k Hk]. rewrite <- HC in Hk.
  transitivity (runParser (k + parserFuel (p_toks (initConf src))) (initConf src)).
  - symmetry. apply fuel_irrelevant. lia.
  - eapply run_mono; [exact Hk|exact I|lia].
Qed.
