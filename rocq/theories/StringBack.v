(** What an accepted quoted value must look like (the converse of StringProofs). *)
From Coq Require Import ZifyBool ZifyN.
From Verif Require Import Base BaseProofs Utf8 Utf8Proofs Lexer LexSpec LexerProofs Tokenize Ast Parser
  ParserTerm PropsParserAux StringSpec StringProofs.

Ltac Zify.zify_post_hook ::= Z.div_mod_to_equations.

Inductive strBody : list ttype -> Prop :=
| SBNil : strBody []
| SBTok t l : t <> TNewLine -> t <> TQuote -> t <> TBackslash -> strBody l -> strBody (t :: l)
| SBEsc t l : strBody l -> strBody (TBackslash :: t :: l).

Lemma strLoop_inv n : forall ts acc l r, length ts <= n -> strLoop ts acc = POk l r ->
  exists body q, ts = body ++ q :: r /\ ty q = TQuote /\ l = rev acc ++ body /\ strBody (map ty body).
Proof.
  induction n as [|n IH]; intros ts acc l r Hn H.
  - destruct ts; [discriminate|cbn in Hn; lia].
  - destruct ts as [|t ts]; [discriminate|]. cbn [length] in Hn.
    assert (HD : ty t <> TNewLine -> ty t <> TQuote -> ty t <> TBackslash -> strLoop ts (t :: acc) = POk l r ->
      exists body q, t :: ts = body ++ q :: r /\ ty q = TQuote /\ l = rev acc ++ body /\ strBody (map ty body)).
    { intros H1 H2 H3 H4. destruct (IH ts (t :: acc) l r ltac:(lia) H4) as (body & q & -> & Hq & -> & HB).
      exists (t :: body), q. repeat split; [exact Hq| |cbn; now constructor]. cbn. now rewrite <- app_assoc. }
    cbn [strLoop] in H. destruct (ty t) eqn:Et; try discriminate; try (apply HD; [congruence..|exact H]).
    2: { injection H as <- <-. exists [], t. repeat split; [exact Et|now rewrite app_nil_r|constructor]. }
    + destruct ts as [|t2 ts]; [discriminate|]. cbn [length] in Hn.
      destruct (IH ts (t2 :: t :: acc) l r ltac:(lia) H) as (body & q & -> & Hq & -> & HB).
      exists (t :: t2 :: body), q. repeat split; [exact Hq| |].
      * cbn. now rewrite <- !app_assoc.
      * cbn. rewrite Et. now constructor.
Qed.

Lemma shape_newline t chunk nx : TokenShape t chunk nx -> In 10%N chunk -> t = TNewLine /\ chunk = [10%N].
Proof.
  intros H Hin. inversion H; subst.
  - destruct Hin as [->|Hin]; [unfold word_start in *; lia|]. rewrite Forall_forall in H1. exfalso. apply (H1 10%N Hin).
    unfold word_break. cbn. tauto.
  - rewrite Forall_forall in H0. specialize (H0 _ Hin). unfold blank in H0. lia.
  - auto.
  - destruct Hin as [E|[]]; discriminate.
  - destruct Hin as [E|[E|[]]]; discriminate.
  - destruct Hin as [->|[]]. cbn in H0. repeat (destruct H0 as [E|H0]; [discriminate|]). contradiction.
  - destruct Hin as [->|[]]. contradiction.
Qed.

Lemma shape_backslash chunk nx : TokenShape TBackslash chunk nx -> chunk = [92%N].
Proof.
  intro H. inversion H; subst. cbn in H0. repeat (destruct H0 as [E|H0]; [injection E; intros; subst; try discriminate; reflexivity|]). contradiction.
Qed.

(** newlines and quotes occur only directly after a backslash *)
Definition guarded (raw : list N) : Prop :=
  forall a c b, raw = a ++ c :: b -> (c = 10 \/ c = 34)%N -> exists a', a = a' ++ [92%N].

Lemma guarded_nil : guarded [].
Proof. intros a c b E. destruct a; discriminate. Qed.

Lemma guarded_pre pre raw : guarded raw -> ~ In 10%N pre -> ~ In 34%N pre -> guarded (pre ++ raw).
Proof.
  intros HG H1 H2 a c b E Hc. destruct (app_eq_split _ _ _ _ E) as [(x & -> & E2)|(x & y & -> & E2)].
  - destruct (HG x c b E2 Hc) as (a' & ->). exists (pre ++ a'). now rewrite app_assoc.
  - exfalso. injection E2 as -> _. destruct Hc as [->| ->]; [apply H1|apply H2]; apply in_or_app; right; now left.
Qed.

Lemma segments_guarded segs : forall doc segs', Segments doc (segs ++ segs') -> strBody (map fst segs) ->
  guarded (flat_map snd segs).
Proof.
  remember (length segs) as n eqn:En. revert segs En. induction n as [n IH] using lt_wf_ind.
  intros segs En doc segs' HS HB. destruct segs as [|[t ch] segs]; [apply guarded_nil|].
  cbn [app] in HS. inversion HS as [|ch' rs t' sg Hsh Hrs]; subst ch' t' sg doc. cbn [length] in En.
  cbn [map fst] in HB. remember (map fst segs) as tys eqn:Ety. inversion HB as [|t' l H1 H2 H3 H4 [E1 E2]|t2 l H1 [E1 E2]]; subst.
  - cbn [flat_map snd]. apply guarded_pre.
    + eapply (IH (length segs)); [lia|reflexivity|exact Hrs|exact H4].
    + intro Hin. destruct (shape_newline _ _ _ Hsh Hin). congruence.
    + intro Hin. destruct (shape_quote _ _ _ Hsh Hin). congruence.
  - destruct segs as [|[t3 ch3] segs]; [discriminate|]. cbn in E2. injection E2 as -> E2.
    cbn [app] in Hrs. inversion Hrs as [|ch' rs' t' sg Hsh2 Hrs2]; subst ch' t' sg rs. cbn [length] in IH.
    rewrite (shape_backslash _ _ Hsh). cbn [flat_map snd].
    assert (HG : guarded (flat_map snd segs)).
    { eapply (IH (length segs)); [lia|reflexivity|exact Hrs2|now rewrite <- E2]. }
    intros a c b E Hc. destruct a as [|x a]; [injection E as <- _; lia|]. cbn [app] in E. injection E as <- E.
    destruct (app_eq_split _ _ _ _ E) as [(x & -> & E3)|(x & y & -> & E3)].
    + destruct (HG x c b E3 Hc) as (a' & ->). exists (92%N :: ch3 ++ a'). cbn. now rewrite app_assoc.
    + injection E3 as -> _. exists []. cbn.
      assert (a ++ y :: x = [y]).
      { destruct Hc as [->| ->].
        - apply (shape_newline _ _ _ Hsh2). apply in_or_app; right; now left.
        - apply (shape_quote _ _ _ Hsh2). apply in_or_app; right; now left. }
      destruct a as [|? [|]]; [reflexivity|discriminate|discriminate].
Qed.

Fixpoint noBs (s : string) : Prop := match s with EmptyString => True | String c r => c <> "\"%char /\ noBs r end.

Lemma unescape_plain s1 : noBs s1 -> forall s2 o, unescape (s1 ++ s2) = Ok o ->
  exists o2, unescape s2 = Ok o2 /\ o = (encode (runes_of s1) ++ o2)%string.
Proof.
  induction s1 as [|c s1 IH]; intros HB s2 o H; [now exists o|].
  destruct HB as [HB1 HB2]. cbn [append unescape] in H.
  destruct (Ascii.eqb c "\") eqn:E; [apply Ascii.eqb_eq in E; contradiction|].
  destruct (unescape (s1 ++ s2)) as [o'| | |] eqn:E2; try discriminate. cbn [bind] in H. injection H as <-.
  destruct (IH HB2 s2 o' E2) as (o2 & H1 & ->). exists o2. split; [exact H1|].
  change (runes_of (String c s1)) with (N_of_byte c :: runes_of s1). cbn [encode]. now rewrite sapp_assoc.
Qed.

Lemma noBs_of s : Forall (fun n => n <> 92%N) (map N_of_byte (list_ascii_of_string s)) -> noBs s.
Proof.
  induction s as [|c s IH]; cbn; [trivial|]. intro H. inversion H; subst. split; [|now apply IH].
  intros ->. now apply H2.
Qed.

Lemma encode_rune_noBs c : c <> 92%N -> noBs (encode_rune c).
Proof.
  intro H. unfold encode_rune. set (v := if valid_rune c then c else replacement).
  assert (Hv : v <> 92%N) by (unfold v; destruct (valid_rune c); [exact H|discriminate]).
  assert (HV : (v <= 0x10FFFF)%N) by (unfold v; destruct (valid_rune c) eqn:E; [unfold valid_rune in E; lia|unfold replacement; lia]).
  clearbody v. apply noBs_of. unfold encode_valid.
  destruct (v <? 0x80)%N eqn:H1; [cbn [list_ascii_of_string map]; repeat constructor; rewrite N_of_byte_of_N; lia|].
  destruct (v <? 0x800)%N eqn:H2; [cbn [list_ascii_of_string map]; repeat constructor; rewrite N_of_byte_of_N; lia|].
  destruct (v <? 0x10000)%N eqn:H3; cbn [list_ascii_of_string map]; repeat constructor; rewrite N_of_byte_of_N; lia.
Qed.

Lemma guarded_tail c raw : guarded (c :: raw) -> c <> 92%N -> guarded raw.
Proof.
  intros HG Hc a x b E Hx. destruct (HG (c :: a) x b) as (a' & Ea); [now rewrite E|exact Hx|].
  destruct a' as [|y a']; cbn in Ea; [|injection Ea as _ ->; now exists a'].
  injection Ea as -> _. contradiction.
Qed.
Lemma guarded_tail2 e raw : guarded (92%N :: e :: raw) -> e <> 92%N -> guarded raw.
Proof.
  intros HG He a x b E Hx. destruct (HG (92%N :: e :: a) x b) as (a' & Ea); [now rewrite E|exact Hx|].
  destruct a' as [|y [|z a']]; cbn in Ea; [discriminate| |injection Ea as _ _ ->; now exists a'].
  injection Ea as _ ->. contradiction.
Qed.

Lemma str_head c s d r : String c s = String d r -> c = d /\ s = r.
Proof. intro E. injection E as -> ->. auto. Qed.

Lemma encode_head_ascii e raw n r : encode (e :: raw) = String n r -> (N_of_byte n < 128)%N ->
  N_of_byte n <> 0%N -> valid_rune e = true -> e = N_of_byte n /\ r = encode raw.
Proof.
  intros E Hn H0 HV. cbn [encode] in E. unfold encode_rune in E. rewrite HV in E. unfold encode_valid in E.
  unfold valid_rune in HV.
  destruct (e <? 0x80)%N eqn:H1.
  { cbn [append] in E. injection E as <- <-. rewrite N_of_byte_of_N by lia. auto. }
  exfalso. destruct (e <? 0x800)%N eqn:H2; [|destruct (e <? 0x10000)%N eqn:H3];
    cbn [append] in E; apply str_head in E; destruct E as [E1 E2]; rewrite <- E1 in Hn; (rewrite N_of_byte_of_N in Hn; [|lia]); lia.
Qed.

Lemma unescape_reads n : forall raw s, length raw <= n -> forallb valid_rune raw = true -> guarded raw ->
  unescape (encode raw) = Ok s -> Reads raw s.
Proof.
  induction n as [|n IH]; intros raw s Hn HV HG H.
  - destruct raw; [injection H as <-; constructor|cbn in Hn; lia].
  - destruct raw as [|c raw]; [injection H as <-; constructor|]. cbn [length] in Hn.
    cbn [forallb] in HV. apply andb_true_iff in HV. destruct HV as [HV1 HV].
    destruct (N.eq_dec c 92) as [->|Hc].
    + cbn [encode] in H. change (encode_rune 92) with (String "\" "") in H. cbn [append unescape] in H.
      change (Ascii.eqb "\" "\") with true in H. cbv iota in H.
      destruct (encode raw) as [|nx r] eqn:Er; [discriminate|].
      destruct raw as [|e raw]; [discriminate|]. cbn [length forallb] in *. apply andb_true_iff in HV. destruct HV as [HV2 HV].
      assert (HX : forall b, nx = b -> (0 < N_of_byte b < 128)%N -> N_of_byte b <> 92%N ->
        e = N_of_byte b /\ r = encode raw /\ guarded raw).
      { intros b -> H1 H2. destruct (encode_head_ascii e raw b r Er ltac:(lia) ltac:(lia) HV2) as [-> ->].
        repeat split. now apply (guarded_tail2 (N_of_byte b)). }
      destruct (Ascii.eqb nx "n") eqn:E1.
      { apply Ascii.eqb_eq in E1. destruct (HX _ E1) as (-> & -> & HG2); [cbn; lia|cbn; lia|].
        destruct (unescape (encode raw)) as [o| | |] eqn:Eo; try discriminate. injection H as <-.
        apply RdNewline. apply (IH raw o); [lia|assumption..]. }
      destruct (Ascii.eqb nx "t") eqn:E2.
      { apply Ascii.eqb_eq in E2. destruct (HX _ E2) as (-> & -> & HG2); [cbn; lia|cbn; lia|].
        destruct (unescape (encode raw)) as [o| | |] eqn:Eo; try discriminate. injection H as <-.
        apply RdTab. apply (IH raw o); [lia|assumption..]. }
      destruct (Ascii.eqb nx """") eqn:E3; [|discriminate].
      { apply Ascii.eqb_eq in E3. destruct (HX _ E3) as (-> & -> & HG2); [cbn; lia|cbn; lia|].
        destruct (unescape (encode raw)) as [o| | |] eqn:Eo; try discriminate. injection H as <-. subst nx.
        apply RdQuote. apply (IH raw o); [lia|assumption..]. }
    + cbn [encode] in H. destruct (unescape_plain _ (encode_rune_noBs c Hc) _ _ H) as (o2 & H1 & ->).
      assert (HN : forall x, (x = 10 \/ x = 34)%N -> c <> x).
      { intros x Hx ->. destruct (HG [] x raw eq_refl Hx) as (a' & Ea). destruct a'; discriminate. }
      change (encode (runes_of (encode_rune c))) with (stands_for c).
      apply RdPlain; [apply HN; lia|apply HN; lia|exact Hc|]. apply (IH raw o2); [lia|exact HV| |exact H1].
      now apply (guarded_tail c).
Qed.

Lemma stands_for_ascii c : (c <= 127)%N -> stands_for c = String (ascii_of_N c) "".
Proof.
  intro H. unfold stands_for. rewrite encode_rune_small by lia. cbn [list_ascii_of_string map encode].
  unfold N_of_byte. rewrite N_ascii_embedding by lia. now rewrite encode_rune_small by lia.
Qed.

Lemma Denotes_Reads raw s : Denotes raw s -> Reads raw s.
Proof.
  induction 1 as [|c raw s H1 H2 H3 H4 Hd IH|raw s Hd IH|raw s Hd IH]; try (constructor; assumption).
  change (String (ascii_of_N c) s) with (String (ascii_of_N c) "" ++ s)%string.
  rewrite <- stands_for_ascii by lia. now constructor.
Qed.

Lemma quoted_back src before tail a q b v after :
  decode src = before ++ [34%N] ++ tail ->
  p_toks (initConf src) = a ++ q :: b ->
  sconcat (map val a) = encode before ->
  expectStringValue (q :: b) = POk v after ->
  exists raw rest, tail = raw ++ [34%N] ++ rest /\ raw <> [] /\ Reads raw (val v) /\
    sconcat (map val after) = encode (until_nul rest).
Proof.
  intros HD HT HB HE.
  destruct (init_segments src) as (segs & HS & HM). rewrite HT in HM. rewrite map_app in HM. symmetry in HM.
  destruct (map_app_inv _ _ _ _ HM) as (sa & sq & -> & Ha & Hqb).
  destruct sq as [|s sb]; [discriminate|]. cbn in Hqb. injection Hqb as Hq1 Hq2 Hb.
  destruct (segments_app _ _ _ HS) as (tl & Htail & HSt).
  pose proof (decode_valid src) as HV.
  assert (Hbe : flat_map snd sa = before).
  { apply encode_inj.
    - rewrite Htail, valid_app in HV. now apply andb_true_iff in HV.
    - rewrite HD, valid_app in HV. now apply andb_true_iff in HV.
    - rewrite <- HB, <- sconcat_sv, Ha. now rewrite map_snd_tv. }
  rewrite HD, Hbe in Htail. apply app_inv_head in Htail. subst tl.
  destruct s as [t ch]. inversion HSt as [|ch' rs t' sg Hsh Hrs Ech]; subst ch' t' sg.
  pose proof (shape_nonempty _ _ _ Hsh) as Hn0. destruct ch as [|c ch]; [congruence|].
  cbn in Ech. injection Ech as Hc Ech. subst c.
  destruct (shape_quote _ _ _ Hsh ltac:(now left)) as [-> Hch]. injection Hch as ->. cbn in Ech. subst rs.
  unfold expectStringValue in HE. cbn [cursor] in HE. rewrite <- Hq1 in HE. cbn [fst] in HE.
  change (tt_eqb TQuote TQuote) with true in HE. cbv iota in HE. change (pnext (q :: b)) with b in HE.
  destruct (strLoop b []) as [l r| |] eqn:EL; try discriminate.
  destruct (strLoop_inv _ _ _ _ _ (le_n _) EL) as (body & q2 & -> & Hq3 & -> & HSB). cbn [rev app] in *.
  rewrite map_app in Hb. destruct (map_app_inv _ _ _ _ Hb) as (s1 & sr & -> & M1 & M2).
  destruct sr as [|[t2 ch2] s2]; [discriminate|]. cbn [map] in M2. injection M2 as M3 M4 M5. cbn in M3. 
  destruct (segments_app _ _ _ Hrs) as (rest0 & HR & HSr).
  inversion HSr as [|ch' rs t' sg Hsh2 Hrs2 Ech2]; subst ch' t' sg. rewrite Hq3 in M3. subst t2.
  assert (ch2 = [34%N]) as ->.
  { inversion Hsh2; subst. cbn in H. repeat (destruct H as [E|H]; [injection E; intros; subst; try discriminate; reflexivity|]). contradiction. }
  subst rest0.
  assert (Hval : sconcat (map val body) = encode (flat_map snd s1)).
  { rewrite <- map_snd_tv, <- M1, sconcat_sv. reflexivity. }
  assert (Hty : map fst s1 = map ty body) by (rewrite <- map_fst_tv, <- M1; symmetry; apply map_fst_sv).
  exists (flat_map snd s1), rs. split; [exact HR|].
  unfold composeAt, composedValue in HE. destruct body as [|t0 body]; [discriminate|].
  destruct (unescape (sconcat (map val (t0 :: body)))) as [sv0| | |] eqn:EU; try discriminate.
  cbn [bind] in HE. injection HE as <- <-. cbn [val].
  split; [|split].
  - destruct s1 as [|[t3 ch3] s1]; [discriminate|]. cbn [app] in Hrs. inversion Hrs as [|ch' rs3 t' sg Hsh3 _]; subst.
    pose proof (shape_nonempty _ _ _ Hsh3). cbn. destruct ch3; [congruence|discriminate].
  - apply (unescape_reads (length (flat_map snd s1))); [apply le_n| | |now rewrite <- Hval].
    + rewrite HD, HR in HV. rewrite (valid_app before) in HV. apply andb_true_iff in HV. destruct HV as [_ HV].
      cbn [app forallb] in HV. apply andb_true_iff in HV. destruct HV as [_ HV].
      rewrite valid_app in HV. apply andb_true_iff in HV. apply HV.
    + eapply segments_guarded; [exact Hrs|]. now rewrite Hty.
  - rewrite <- map_snd_tv, <- M5, sconcat_sv. f_equal. now apply segments_rest_text.
Qed.

Lemma Reads_one_line raw s : Reads raw s -> ~ In 10%N raw.
Proof. induction 1; cbn; intuition congruence. Qed.

Lemma Reads_unique raw s s' : Reads raw s -> Reads raw s' -> s = s'.
Proof.
  intro H. revert s'. induction H; intros s' H'; inversion H'; subst; try congruence; try (f_equal; now apply IHReads).
Qed.
