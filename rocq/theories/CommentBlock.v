(** Blank lines and comment lines in front of a document change nothing but comments and
    positions. *)
From Coq Require Import ZifyBool ZifyN.
From Verif Require Import Base BaseProofs Utf8 Utf8Proofs Lexer LexSpec LexerProofs Tokenize Ast Parser
  ParserTerm PropsParserAux StringProofs CommentSpec CommentProofs EraseProofs.

(** same outcome *)
Definition sameEnd (c c' : pconf) : Prop :=
  forall r, verdict r -> (exists k, runParser k c = r) <-> (exists k, runParser k c' = r).

Lemma sameEnd_refl c : sameEnd c c. Proof. intros r _. tauto. Qed.
Lemma sameEnd_sym c c' : sameEnd c c' -> sameEnd c' c.
Proof. intros H r V. symmetry. now apply H. Qed.
Lemma sameEnd_trans a b c : sameEnd a b -> sameEnd b c -> sameEnd a c.
Proof. intros H1 H2 r V. etransitivity; [now apply H1|now apply H2]. Qed.
Lemma sameEnd_step c c' : step c = Next c' -> sameEnd c c'.
Proof.
  intros E r V. split; intros [k Hk].
  - destruct k as [|k]; [cbn in Hk; subst r; destruct V|]. cbn in Hk. rewrite E in Hk. now exists k.
  - exists (S k). cbn. now rewrite E.
Qed.

Lemma skip_ws t ts cm out : ty t = TWhitespace -> sameEnd (PC SDefault (t :: ts) cm out) (PC SDefault ts cm out).
Proof.
  intro Ht. eapply sameEnd_trans; [apply (sameEnd_step _ (PC SSpace (t :: ts) cm out))|].
  { unfold step. cbn [p_state p_toks cursor]. now rewrite Ht. }
  destruct (tt_eqb (ty (cursor ts)) TWhitespace) eqn:E.
  - eapply sameEnd_trans; [apply (sameEnd_step _ (PC SSpace ts cm out))|].
    { unfold step. cbn [p_state p_toks cursor pnext p_comments p_out]. now rewrite E. }
    apply sameEnd_sym, sameEnd_step. unfold step. cbn [p_state p_toks]. apply tt_eqb_eq in E. now rewrite E.
  - apply sameEnd_step. unfold step. cbn [p_state p_toks cursor pnext p_comments p_out]. now rewrite E.
Qed.

Lemma skip_nl t ts cm out : ty t = TNewLine -> sameEnd (PC SDefault (t :: ts) cm out) (PC SDefault ts cm out).
Proof.
  intro Ht. eapply sameEnd_trans; [apply (sameEnd_step _ (PC SNewLine (t :: ts) cm out))|].
  { unfold step. cbn [p_state p_toks cursor]. now rewrite Ht. }
  destruct (tt_eqb (ty (cursor ts)) TNewLine) eqn:E.
  - eapply sameEnd_trans; [apply (sameEnd_step _ (PC SNewLine ts cm out))|].
    { unfold step. cbn [p_state p_toks cursor pnext p_comments p_out]. now rewrite E. }
    apply sameEnd_sym, sameEnd_step. unfold step. cbn [p_state p_toks]. apply tt_eqb_eq in E. now rewrite E.
  - apply sameEnd_step. unfold step. cbn [p_state p_toks cursor pnext p_comments p_out]. now rewrite E.
Qed.

Lemma skip_hash t ts cm out : ty t = THash ->
  sameEnd (PC SDefault (t :: ts) cm out) (PC SDefault (continueUntilEOL ts) cm out).
Proof.
  intro Ht. eapply sameEnd_trans; [apply (sameEnd_step _ (PC SComment (t :: ts) cm out))|].
  { unfold step. cbn [p_state p_toks cursor]. now rewrite Ht. }
  apply sameEnd_step. unfold step. cbn [p_state p_toks cursor pnext p_comments p_out continueUntilEOL]. now rewrite Ht.
Qed.

Lemma until_eol_app l t r : Forall (fun x => ty x <> TNewLine /\ ty x <> TEOF) l -> ty t = TNewLine ->
  continueUntilEOL (l ++ t :: r) = t :: r.
Proof.
  intros HF Ht. induction HF as [|x l [H1 H2] HF IH]; cbn [app continueUntilEOL].
  - now rewrite Ht.
  - replace (tt_eqb (ty x) TNewLine) with false by (unfold tt_eqb; destruct (ttype_eq_dec (ty x) TNewLine); congruence).
    replace (tt_eqb (ty x) TEOF) with false by (unfold tt_eqb; destruct (ttype_eq_dec (ty x) TEOF); congruence). exact IH.
Qed.

(** a blank line or a comment line *)
Record cline := CL { cl_indent : list N; cl_text : option (list N) }.
Definition cline_ok (l : cline) : Prop :=
  Forall blank (cl_indent l) /\
  match cl_text l with None => True | Some t => ~ In 0%N t /\ ~ In 10%N t /\ forallb valid_rune t = true end.
Definition cline_chars (l : cline) : list N :=
  cl_indent l ++ match cl_text l with None => [] | Some t => 35%N :: t end ++ [10%N].
Definition block_chars (b : list cline) : list N := flat_map cline_chars b.

Lemma blank_shape t ch nx : TokenShape t ch nx -> Forall blank ch -> t = TWhitespace.
Proof.
  intros H HF. destruct (ttype_eq_dec t TWhitespace) as [|Hn]; [assumption|].
  pose proof (shape_nonblank _ _ _ H Hn) as Hb. pose proof (shape_nonempty _ _ _ H) as Hne.
  destruct ch as [|c ch]; [congruence|]. cbn in Hb. inversion HF; subst. unfold blank in H2.
  apply andb_true_iff in Hb. destruct Hb as [Hb _]. unfold blankb in Hb. lia.
Qed.

Lemma skip_blanks l rest cm out : Forall (fun t => ty t = TWhitespace) l ->
  sameEnd (PC SDefault (l ++ rest) cm out) (PC SDefault rest cm out).
Proof.
  induction 1 as [|t l H HF IH]; [apply sameEnd_refl|]. cbn [app]. eapply sameEnd_trans; [now apply skip_ws|exact IH].
Qed.

Lemma types_of_segs (l : list token) s (P : ttype -> Prop) : map tv l = map sv s ->
  Forall (fun p => P (fst p)) s -> Forall (fun t => P (ty t)) l.
Proof.
  revert s. induction l as [|t l IH]; intros s E HF; [constructor|]. destruct s as [|p s]; [discriminate|].
  cbn in E. injection E as E1 E2 E3. inversion HF; subst. constructor; [now rewrite E1|]. eapply IH; eassumption.
Qed.

Lemma ends_blank_blanks ind : Forall blank ind -> ends_blank ind.
Proof.
  intro H. destruct ind as [|c r]; [now left|]. right. destruct (@exists_last _ (c :: r)) as (z & b & E); [discriminate|].
  exists z, b. split; [exact E|]. rewrite E in H. apply Forall_app in H. destruct H as [_ H]. inversion H; subst.
  unfold blank in *. unfold blankb. lia.
Qed.

Lemma flat_blank_types s rest s' : Segments (flat_map snd s ++ rest) (s ++ s') -> Forall blank (flat_map snd s) ->
  Forall (fun p => fst p = TWhitespace) s.
Proof.
  intros H HF. pose proof (segs_shape s _ _ H) as HS. apply Forall_forall. intros p Hp. rewrite Forall_forall in HS.
  destruct (HS p Hp) as (nx & Hs). eapply blank_shape; [exact Hs|]. apply Forall_forall. intros c Hc.
  rewrite Forall_forall in HF. apply HF. eapply chunks_in; eassumption.
Qed.

Lemma shape_not_eof ch nx : ~ TokenShape TEOF ch nx.
Proof.
  intro H. inversion H as [| | | | |c t n Hp|]; subst. cbn in Hp. intuition discriminate.
Qed.

Lemma skip_line l rest segs toks cm out : cline_ok l -> Segments (cline_chars l ++ rest) segs -> map tv toks = map sv segs ->
  exists s2 p t2, Segments rest s2 /\ map tv t2 = map sv s2 /\ toks = p ++ t2 /\
    sconcat (map val p) = encode (cline_chars l) /\
    sameEnd (PC SDefault toks cm out) (PC SDefault t2 cm out).
Proof.
  destruct l as [ind txt]. unfold cline_ok, cline_chars. cbn [cl_indent cl_text]. intros [H1 H2] HS HM.
  assert (N1 : Forall (fun r => r <> 0%N) ind) by (eapply Forall_impl; [|exact H1]; cbn; unfold blank; lia).
  destruct txt as [t|].
  - rewrite <- !app_assoc in HS. cbn [app] in HS. rewrite <- ?app_assoc in HS. cbn [app] in HS.
    destruct (cut_hash _ _ _ HS N1 (ends_blank_blanks _ H1)) as (si & sx & -> & B1 & B2).
    assert (N2 : Forall (fun r => r <> 0%N) t) by (apply Forall_forall; intros r Hr ->; tauto).
    destruct (cut_newline _ _ _ B2 N2) as (st & sb & -> & C1 & C2).
    destruct (map_tv_inv _ _ _ _ HM) as (ti & th & tx & -> & T3 & T4 & T5).
    destruct (map_tv_inv _ _ _ _ T5) as (tt & tn & tb & -> & T6 & T7 & T8).
    unfold tv, sv in T4, T7. cbn in T4, T7. injection T4 as T4 T4'. injection T7 as T7 T7'.
    exists sb, (ti ++ th :: tt ++ [tn]), tb. split; [exact C2|]. split; [exact T8|].
    split; [rewrite <- !app_assoc; cbn [app]; now rewrite <- app_assoc|]. split.
    { rewrite map_app, sconcat_app. cbn [map sconcat]. rewrite map_app, sconcat_app. cbn [map sconcat].
      rewrite (sconcat_tv _ _ T3), (sconcat_tv _ _ T6), T4', T7', B1, C1. rewrite !encode_app. reflexivity. }
    eapply sameEnd_trans; [apply skip_blanks|].
    { eapply (types_of_segs ti si (fun t => t = TWhitespace)); [exact T3|]. rewrite <- B1 in HS, H1. eapply flat_blank_types; eassumption. }
    eapply sameEnd_trans; [apply skip_hash; exact T4|].
    rewrite until_eol_app; [apply skip_nl; exact T7| |exact T7].
    eapply (types_of_segs tt st (fun x => x <> TNewLine /\ x <> TEOF)); [exact T6|].
    rewrite <- C1 in B2. pose proof (segs_shape st _ _ B2) as Hsh. apply Forall_forall. intros p Hp.
    rewrite Forall_forall in Hsh. destruct (Hsh p Hp) as (nx & Hs). split; intro E; rewrite E in Hs.
    + apply newline_chunk in Hs. apply H2. rewrite <- C1. eapply chunks_in; eassumption.
    + now apply shape_not_eof in Hs.
  - cbn [app] in HS. rewrite <- app_assoc in HS. cbn [app] in HS.
    destruct (cut_newline _ _ _ HS N1) as (si & sb & -> & C1 & C2).
    destruct (map_tv_inv _ _ _ _ HM) as (ti & tn & tb & -> & T3 & T4 & T5).
    unfold tv, sv in T4. cbn in T4. injection T4 as T4 T4'.
    exists sb, (ti ++ [tn]), tb. split; [exact C2|]. split; [exact T5|].
    split; [now rewrite <- app_assoc|]. split.
    { rewrite map_app, sconcat_app. cbn [map sconcat]. rewrite (sconcat_tv _ _ T3), T4', C1. rewrite !encode_app. reflexivity. }
    eapply sameEnd_trans; [apply skip_blanks|apply skip_nl; exact T4].
    eapply (types_of_segs ti si (fun t => t = TWhitespace)); [exact T3|]. rewrite <- C1 in HS, H1. eapply flat_blank_types; eassumption.
Qed.

Lemma skip_block b : Forall cline_ok b -> forall rest segs toks cm out,
  Segments (block_chars b ++ rest) segs -> map tv toks = map sv segs ->
  exists s2 p t2, Segments rest s2 /\ map tv t2 = map sv s2 /\ toks = p ++ t2 /\
    sconcat (map val p) = encode (block_chars b) /\
    sameEnd (PC SDefault toks cm out) (PC SDefault t2 cm out).
Proof.
  induction 1 as [|l b Hl HF IH]; intros rest segs toks cm out HS HM.
  - exists segs, [], toks. split; [exact HS|]. split; [exact HM|]. split; [reflexivity|]. split; [reflexivity|]. apply sameEnd_refl.
  - cbn [block_chars flat_map] in HS. rewrite <- app_assoc in HS.
    destruct (skip_line l _ _ _ cm out Hl HS HM) as (s1 & p1 & t1 & A1 & A2 & A4 & A5 & A3).
    destruct (IH rest s1 t1 cm out A1 A2) as (s2 & p2 & t2 & B1 & B2 & B4 & B5 & B3).
    exists s2, (p1 ++ p2), t2. split; [exact B1|]. split; [exact B2|]. split; [subst; now rewrite app_assoc|]. split.
    + rewrite map_app, sconcat_app, A5, B5. cbn [block_chars flat_map]. now rewrite encode_app.
    + eapply sameEnd_trans; eassumption.
Qed.

Lemma eTs_tv a b : map tv a = map tv b -> eTs a = eTs b.
Proof.
  revert b. induction a as [|x a IH]; intros [|y b] E; try discriminate; [reflexivity|].
  cbn in E. injection E as E1 E2 E3. cbn. f_equal; [|now apply IH]. unfold eT. now rewrite E1, E2.
Qed.

Lemma verdict_e r : verdict (eR r) <-> verdict r.
Proof. destruct r; tauto. Qed.

Lemma run_mono k c r : runParser k c = r -> verdict r -> forall j, k <= j -> runParser j c = r.
Proof.
  revert c. induction k as [|k IH]; intros c H V j Hj; [cbn in H; subst r; destruct V|].
  destruct j as [|j]; [lia|]. cbn in *. destruct (step c); try assumption. apply IH; [assumption|assumption|lia].
Qed.

Lemma block_valid b : Forall cline_ok b -> forallb valid_rune (block_chars b) = true.
Proof.
  induction 1 as [|l b [H1 H2] HF IH]; [reflexivity|]. cbn [block_chars flat_map]. rewrite forallb_app. fold (block_chars b).
  rewrite IH, andb_true_r. unfold cline_chars. rewrite !forallb_app.
  assert (HI : forallb valid_rune (cl_indent l) = true).
  { apply forallb_forall. intros c Hc. rewrite Forall_forall in H1. specialize (H1 c Hc). unfold blank in H1. unfold valid_rune. lia. }
  rewrite HI. destruct (cl_text l) as [t|]; [|reflexivity]. destruct H2 as (_ & _ & H2). cbn. now rewrite H2.
Qed.

Lemma block_irrelevant b below : Forall cline_ok b -> forallb valid_rune below = true ->
  eR (parseRidl (encode (block_chars b ++ below))) = eR (parseRidl (encode below)).
Proof.
  intros HF HV. set (s1 := encode (block_chars b ++ below)). set (s2 := encode below).
  assert (HVb := block_valid b HF).
  assert (HD1 : decode s1 = block_chars b ++ below) by (apply decode_encode; rewrite valid_app, HVb; exact HV).
  assert (HD2 : decode s2 = below) by (apply decode_encode; exact HV).
  destruct (init_segments s1) as (sg1 & HS1 & HM1). rewrite HD1 in HS1.
  destruct (init_segments s2) as (sg2 & HS2 & HM2). rewrite HD2 in HS2.
  assert (HC1 : exists cm1, initConf s1 = PC SDefault (p_toks (initConf s1)) cm1 []).
  { unfold initConf. destruct (tokenize s1) as [t c]. now exists c. }
  assert (HC2 : exists cm2, initConf s2 = PC SDefault (p_toks (initConf s2)) cm2 []).
  { unfold initConf. destruct (tokenize s2) as [t c]. now exists c. }
  destruct HC1 as [cm1 HC1]. destruct HC2 as [cm2 HC2].
  destruct (skip_block b HF below sg1 _ cm1 [] HS1 HM1) as (sg2' & pp & t2 & A1 & A2 & _ & _ & A3).
  rewrite (segments_unique _ _ _ A1 HS2) in A2.
  assert (HE : eC (PC SDefault t2 cm1 []) = eC (initConf s2)).
  { rewrite HC2. unfold eC. cbn [p_state p_toks p_out eState map]. f_equal. apply eTs_tv. congruence. }
  rewrite <- HC1 in A3.
  assert (HX : forall r, verdict r -> (exists k, eR (runParser k (initConf s1)) = r) <-> (exists k, eR (runParser k (initConf s2)) = r)).
  { intros r V. split.
    - intros [k Hk]. assert (V1 : verdict (runParser k (initConf s1))) by (apply verdict_e; now rewrite Hk).
      destruct (proj1 (A3 _ V1) (ex_intro _ k eq_refl)) as [j Hj]. exists j. rewrite <- run_e, <- HE, run_e, Hj. exact Hk.
    - intros [k Hk]. rewrite <- run_e, <- HE, run_e in Hk.
      assert (V1 : verdict (runParser k (PC SDefault t2 cm1 []))) by (apply verdict_e; now rewrite Hk).
      destruct (proj2 (A3 _ V1) (ex_intro _ k eq_refl)) as [j Hj]. exists j. rewrite Hj. exact Hk. }
  assert (Hfin : forall s k, verdict (runParser k (initConf s)) -> parseRidl s = runParser k (initConf s)).
  { intros s k V. rewrite <- (run_mono k _ _ eq_refl V (k + parserFuel (p_toks (initConf s))) ltac:(lia)).
    symmetry. apply fuel_irrelevant. lia. }
  assert (Hloop : forall r, ~ verdict r -> r = ParseLoop) by (intros r Hr; destruct r; cbn in Hr; tauto).
  assert (Vdec : forall r, verdict r \/ ~ verdict r) by (intro r; destruct r; cbn; tauto).
  destruct (Vdec (parseRidl s1)) as [V1|V1].
  - destruct (proj1 (HX (eR (parseRidl s1)) (proj2 (verdict_e _) V1)) (ex_intro _ _ eq_refl)) as [k Hk].
    rewrite <- Hk. f_equal. symmetry. apply Hfin. apply verdict_e. rewrite Hk. now apply verdict_e.
  - destruct (Vdec (parseRidl s2)) as [V2|V2]; [|now rewrite (Hloop _ V1), (Hloop _ V2)].
    destruct (proj2 (HX (eR (parseRidl s2)) (proj2 (verdict_e _) V2)) (ex_intro _ _ eq_refl)) as [k Hk].
    rewrite <- Hk. f_equal. apply Hfin. apply verdict_e. rewrite Hk. now apply verdict_e.
Qed.

(** ** lines without a comment *)

Lemma fold_get n : forall l st, Forall (fun t => ty t = TNewLine -> line t <> n) l ->
  getComment n (tk_comments (fold_left tokStep l st)) = getComment n (tk_comments st).
Proof. exact (fold_later n). Qed.

(** all tokens of a text [pre] of whole lines are on lines <= newlines pre *)
Lemma lines_before src a b t pre : p_toks (initConf src) = a ++ b -> In t a -> ty t = TNewLine ->
  sconcat (map val a) = encode pre -> forallb valid_rune pre = true -> line t <= newlines pre.
Proof.
  intros HT Hin Hty HE HV. apply in_split in Hin. destruct Hin as (a1 & a2 & ->).
  destruct (init_segments src) as (segs & HS & HM). rewrite HT in HM. rewrite map_app in HM. symmetry in HM.
  destruct (map_app_inv _ _ _ _ HM) as (sa & sb & -> & M1 & M2). symmetry in M1.
  assert (Epre : flat_map snd sa = pre).
  { apply encode_inj; [|exact HV|]. 
    - destruct (segments_app _ _ _ HS) as (rr & Er & _). pose proof (decode_valid src) as HVd. rewrite Er, valid_app in HVd. now apply andb_true_iff in HVd.
    - rewrite <- HE. symmetry. now apply sconcat_tv. }
  rewrite map_app in M1. symmetry in M1. destruct (map_app_inv _ _ _ _ M1) as (s1 & s2 & -> & M3 & M4).
  destruct s2 as [|[ty0 ch] s2]; [discriminate|]. cbn in M4. injection M4 as E1 E2 E3.
  assert (Hsh : exists nx, TokenShape ty0 ch nx).
  { rewrite <- app_assoc in HS. cbn [app] in HS. destruct (segments_app _ _ _ HS) as (rr & Er & Hr).
    inversion Hr as [|ch' rs t' sg Hsh Hrs Ech]; subst. now exists (hd_error rs). }
  destruct Hsh as (nx & Hsh). rewrite E1, Hty in Hsh. pose proof (newline_chunk _ _ Hsh) as Hin.
  assert (HVs : forallb valid_rune (flat_map snd s1) = true).
  { rewrite <- Epre, flat_map_app, forallb_app in HV. now apply andb_true_iff in HV. }
  rewrite (tok_line src a1 t (a2 ++ b) (flat_map snd s1)); [|rewrite HT, <- app_assoc; reflexivity| |exact HVs].
  - rewrite <- Epre, flat_map_app, newlines_app. cbn [flat_map snd]. rewrite newlines_app.
    assert (1 <= newlines ch); [|lia]. unfold newlines. apply in_split in Hin. destruct Hin as (u & v & ->).
    rewrite filter_app, app_length. cbn. lia.
  - apply sconcat_tv. now symmetry.
Qed.

Lemma uncommented_line above ln below :
  forallb valid_rune (above ++ ln ++ 10%N :: below) = true ->
  no_char 0%N (above ++ ln) -> whole_lines above ->
  no_char 35%N ln -> no_char 10%N ln ->
  getComment (1 + newlines above) (snd (tokenize (encode (above ++ ln ++ 10%N :: below)))) = None.
Proof.
  intros HV H0 Hab Hi1 Hi2. set (src := encode _).
  assert (HD : decode src = above ++ ln ++ 10%N :: below) by (apply decode_encode; exact HV).
  assert (N1 : Forall (fun r => r <> 0%N) above) by (apply no_nul_forall; intro Z; apply H0; rewrite !in_app_iff; auto).
  assert (N2 : Forall (fun r => r <> 0%N) ln) by (apply no_nul_forall; intro Z; apply H0; rewrite !in_app_iff; auto).
  destruct (init_segments src) as (segs & HS & HM). rewrite HD in HS.
  assert (HA : exists sa srest, segs = sa ++ srest /\ flat_map snd sa = above /\
     Segments (ln ++ 10%N :: below) srest /\ (sa = [] \/ exists s0, sa = s0 ++ [(TNewLine, [10%N])])).
  { destruct Hab as [->|(z & ->)].
    - exists [], segs. repeat split; try assumption. now left.
    - rewrite <- app_assoc in HS. apply Forall_app in N1. cbn [app] in HS.
      destruct (cut_newline _ _ _ HS (proj1 N1)) as (s1 & s2 & -> & C1 & C2).
      exists (s1 ++ [(TNewLine, [10%N])]), s2. rewrite <- app_assoc. repeat split; try assumption.
      + rewrite flat_map_app, C1. reflexivity.
      + right. now exists s1. }
  destruct HA as (sa & srest & -> & A1 & A2 & A3).
  destruct (cut_newline _ _ _ A2 N2) as (st & sb & -> & C1 & C2).
  rewrite map_app in HM. destruct (map_app_inv _ _ _ _ HM) as (ta & tr & HT & T1 & T2).
  destruct (map_tv_inv _ _ _ _ T2) as (tt & tn & tb & -> & T6 & T7 & T8).
  unfold tv, sv in T7. cbn in T7. injection T7 as T7 T7'.
  assert (Hfold : snd (tokenize src) = tk_comments (fold_left tokStep (p_toks (initConf src)) (Tk None [] false []))).
  { unfold initConf, tokenize. reflexivity. }
  rewrite Hfold, HT. rewrite !fold_left_app. cbn [fold_left].
  set (st0 := fold_left tokStep ta (Tk None [] false [])).
  assert (Hst0 : idle st0).
  { destruct A3 as [->|(s0 & ->)].
    - destruct ta; [|discriminate]. now split.
    - destruct (map_tv_inv _ _ _ _ T1) as (ta0 & tl & tz & -> & Z1 & Z2 & Z3). destruct tz; [|discriminate].
      unfold st0. rewrite fold_left_app. cbn [fold_left]. apply tokStep_newline_idle; [apply fold_words; reflexivity|].
      unfold tv, sv in Z2. cbn in Z2. now injection Z2. }
  assert (HVa : forallb valid_rune above = true) by (rewrite valid_app in HV; now apply andb_true_iff in HV).
  assert (G0 : getComment (1 + newlines above) (tk_comments st0) = None).
  { unfold st0. rewrite fold_later; [reflexivity|]. apply Forall_forall. intros t Hin Hty.
    assert (line t <= newlines above); [|lia]. eapply (lines_before src ta); [exact HT|exact Hin|exact Hty| |exact HVa].
    rewrite (sconcat_tv _ _ T1). now rewrite A1. }
  assert (HSt := A2). rewrite <- C1 in HSt. pose proof (segs_shape st _ _ HSt) as Hsh_t.
  assert (Hnh : Forall (fun t => ty t <> THash) (tt ++ [tn])).
  { apply Forall_app. split; [|constructor; [rewrite T7; discriminate|constructor]].
    eapply (types_of_segs tt st (fun x => x <> THash)); [exact T6|]. apply Forall_forall. intros p Hp E.
    rewrite Forall_forall in Hsh_t. destruct (Hsh_t p Hp) as (nx & Hs). rewrite E in Hs.
    apply hash_chunk in Hs. apply Hi1. rewrite <- C1. eapply chunks_in; eassumption. }
  destruct (fold_idle (tt ++ [tn]) st0 Hst0 Hnh) as [_ Hc]. rewrite fold_left_app in Hc. cbn [fold_left] in Hc.
  rewrite fold_later; [now rewrite Hc|].
  apply Forall_forall. intros t Hin Hty. apply in_split in Hin. destruct Hin as (b1 & b2 & Hb).
  assert (Lpre : sconcat (map val (ta ++ tt)) = encode (above ++ ln)).
  { rewrite !map_app, !sconcat_app. rewrite (sconcat_tv _ _ T1), (sconcat_tv _ _ T6). rewrite A1, C1. now rewrite encode_app. }
  rewrite Hb in T8. rewrite map_app in T8. symmetry in T8. destruct (map_app_inv _ _ _ _ T8) as (u1 & u2 & Eu & U1 & _).
  assert (Ll : line t = 1 + newlines ((above ++ ln) ++ [10%N] ++ flat_map snd u1)).
  { eapply (tok_line src (ta ++ tt ++ tn :: b1) t b2).
    - rewrite HT, Hb. rewrite <- !app_assoc. cbn [app]. reflexivity.
    - replace (ta ++ tt ++ tn :: b1) with ((ta ++ tt) ++ tn :: b1) by (rewrite <- !app_assoc; reflexivity).
      rewrite map_app, sconcat_app, Lpre. cbn [map sconcat]. rewrite (sconcat_tv b1 u1) by now symmetry.
      rewrite T7'. rewrite !encode_app. reflexivity.
    - destruct (segments_app _ u1 u2 ltac:(rewrite <- Eu; exact C2)) as (rr & Er & _). rewrite Er in HV.
      rewrite !valid_app in HV. cbn [forallb] in HV. rewrite forallb_app in HV. rewrite !valid_app. cbn [forallb].
      destruct (forallb valid_rune above), (forallb valid_rune ln), (forallb valid_rune (flat_map snd u1)); cbn in *; try discriminate; reflexivity. }
  rewrite Ll, !newlines_app. change (newlines [10%N]) with 1. lia.
Qed.

Lemma line0 src : getComment 0 (snd (tokenize src)) = None.
Proof.
  assert (Hfold : snd (tokenize src) = tk_comments (fold_left tokStep (p_toks (initConf src)) (Tk None [] false []))).
  { unfold initConf, tokenize. reflexivity. }
  rewrite Hfold. rewrite fold_later; [reflexivity|]. apply Forall_forall. intros t Hin _. apply in_split in Hin.
  destruct Hin as (a & b & E). destruct (init_toks src) as (eof & He & HL). rewrite E, <- app_assoc in HL. cbn [app] in HL.
  destruct (lexAll_positions src a t (b ++ [eof]) HL) as (bf & ch & af & P1 & P2 & P3 & P4 & P5 & P6); [destruct b; discriminate|]. lia.
Qed.
