(** Quoted values: tokenisation of the characters between two quotes and unquoting. *)
From Coq Require Import ZifyBool ZifyN.
From Verif Require Import Base BaseProofs Utf8 Utf8Proofs Lexer LexSpec LexerProofs Tokenize Ast Parser
  ParserTerm PropsParserAux StringSpec.

Definition bs_ok (raw : list N) : Prop :=
  forall a b, raw = a ++ 92%N :: b -> exists c b', b = c :: b' /\ (c = 110 \/ c = 116)%N.

Lemma bs_ok_app a b : bs_ok (a ++ b) -> bs_ok b.
Proof. intros H x y E. apply (H (a ++ x) y). rewrite E. now rewrite app_assoc. Qed.

Lemma Denotes_bs raw s : Denotes raw s -> bs_ok raw.
Proof.
  induction 1 as [|c raw s H1 H2 H3 H4 Hd IH|raw s Hd IH|raw s Hd IH]; intros a b E.
  - destruct a; discriminate.
  - destruct a as [|x a]; cbn in E; injection E; intros; [congruence|]. subst. now apply (IH a b).
  - destruct a as [|x a]; cbn in E; injection E; intros; subst; [eauto|].
    destruct a as [|y a]; cbn in *; injection H; intros; subst; [discriminate|]. now apply (IH a b).
  - destruct a as [|x a]; cbn in E; injection E; intros; subst; [eauto|].
    destruct a as [|y a]; cbn in *; injection H; intros; subst; [discriminate|]. now apply (IH a b).
Qed.

Lemma Denotes_chars raw s : Denotes raw s -> Forall (fun c => (1 <= c <= 127)%N /\ c <> 10%N /\ c <> 34%N) raw.
Proof.
  induction 1; repeat constructor; try assumption; try lia; discriminate.
Qed.

Lemma encode_rune_small c : (c <= 127)%N -> encode_rune c = String (ascii_of_N c) "".
Proof.
  intro H. unfold encode_rune, valid_rune. replace (c <? 0xD800)%N with true by lia. cbn [orb].
  unfold encode_valid. replace (c <? 0x80)%N with true by lia. reflexivity.
Qed.

Lemma Denotes_unescape raw s : Denotes raw s -> unescape (encode raw) = Ok s.
Proof.
  induction 1 as [|c raw s H1 H2 H3 H4 Hd IH|raw s Hd IH|raw s Hd IH].
  - reflexivity.
  - cbn [encode]. rewrite encode_rune_small by lia. cbn [append unescape].
    destruct (Ascii.eqb (ascii_of_N c) "\") eqn:E.
    + apply Ascii.eqb_eq in E. apply (f_equal N_of_ascii) in E. rewrite N_ascii_embedding in E by lia. cbn in E. lia.
    + rewrite IH. cbn [bind]. unfold N_of_byte. rewrite N_ascii_embedding by lia.
      rewrite encode_rune_small by lia. reflexivity.
  - cbn [encode]. rewrite !encode_rune_small by lia. cbn [append]. change (ascii_of_N 92) with "\"%char.
    change (ascii_of_N 110) with "n"%char. cbn [unescape]. cbn. now rewrite IH.
  - cbn [encode]. rewrite !encode_rune_small by lia. cbn [append]. change (ascii_of_N 92) with "\"%char.
    change (ascii_of_N 116) with "t"%char. cbn [unescape]. cbn. now rewrite IH.
Qed.

Definition plain_type (t : ttype) : Prop := t <> TNewLine /\ t <> TQuote /\ t <> TEOF.

(** backslash tokens are followed by words *)
Fixpoint bsok (l : list ttype) : Prop :=
  match l with
  | [] => True
  | t :: r => (t = TBackslash -> exists r', r = TWord :: r') /\ bsok r
  end.

(** a token that contains a quote is the quote *)
Lemma shape_quote t chunk nx : TokenShape t chunk nx -> In 34%N chunk -> t = TQuote /\ chunk = [34%N].
Proof.
  intros H Hin. inversion H; subst.
  - destruct Hin as [->|Hin]; [unfold word_start in *; lia|]. rewrite Forall_forall in H1. exfalso. apply (H1 34%N Hin).
    unfold word_break. cbn. tauto.
  - rewrite Forall_forall in H0. specialize (H0 _ Hin). unfold blank in H0. lia.
  - destruct Hin as [E|[]]; discriminate.
  - destruct Hin as [E|[]]; discriminate.
  - destruct Hin as [E|[E|[]]]; discriminate.
  - destruct Hin as [->|[]]. split; [|reflexivity]. eapply punct_fun; [exact H0|]. cbn. tauto.
  - destruct Hin as [->|[]]. exfalso. apply H5. cbn. tauto.
Qed.

Lemma shape_plain t chunk nx : TokenShape t chunk nx -> ~ In 34%N chunk -> ~ In 10%N chunk -> plain_type t.
Proof.
  intros H H1 H2. unfold plain_type. inversion H; subst; repeat split; try discriminate.
  1: exfalso; apply H2; now left.
  all: intros ->; cbn in H0; repeat (destruct H0 as [E|H0]; [injection E; intros; subst; try discriminate|]); try contradiction.
  apply H1; now left.
Qed.

Lemma app_eq_split {A} (a b c d : list A) : a ++ b = c ++ d ->
  (exists x, c = a ++ x /\ b = x ++ d) \/ (exists x y, a = c ++ y :: x /\ d = y :: x ++ b).
Proof.
  revert c. induction a as [|h a IH]; intros c E.
  - left. exists c. now split.
  - destruct c as [|h' c]; cbn in E.
    + right. exists a, h. split; [reflexivity|]. now rewrite <- E.
    + injection E as -> E. destruct (IH c E) as [(x & -> & ->)|(x & y & -> & ->)].
      * left. exists x. now split.
      * right. exists x, y. now split.
Qed.

Lemma shape_word_first t c cs nx : TokenShape t (c :: cs) nx -> word_start c -> t = TWord.
Proof.
  intros H Hw. destruct (word_start_excl c Hw) as (X1 & X2 & X3 & X4).
  remember (c :: cs) as ch eqn:E.
  destruct H as [? ? ? ? ? ?|c0 ? ? Hb ?| | | |c0 ? ? Hp|c0 ? ? Hn]; try reflexivity; injection E as E1 E2; subst.
  - inversion Hb; contradiction.
  - congruence.
  - congruence.
  - congruence.
  - apply in_punct in Hp. contradiction.
  - contradiction.
Qed.

Lemma segments_quoted segs : forall doc raw rest, Segments doc segs -> doc = raw ++ 34%N :: rest ->
  Forall (fun c => c <> 0%N /\ c <> 10%N /\ c <> 34%N) raw -> bs_ok raw ->
  exists segs1 segs2, segs = segs1 ++ (TQuote, [34%N]) :: segs2 /\ Segments rest segs2 /\
    flat_map snd segs1 = raw /\ Forall plain_type (map fst segs1) /\ bsok (map fst segs1).
Proof.
  induction segs as [|[t chunk] segs IH]; intros doc raw rest HS E HF HB.
  - subst doc. inversion HS as [rs [E|[t E]] E0|]; subst.
    + destruct raw; discriminate.
    + destruct raw as [|r raw]; [discriminate|]. injection E as -> _. inversion HF. lia.
  - inversion HS as [|ch rs tt sg Hsh Hrs Ech]; subst doc tt ch sg. rename Ech into E'.
    destruct (app_eq_split _ _ _ _ E') as [(x & -> & ->)|(x & y & -> & Ed)].
    + (* the chunk is inside raw *)
      apply Forall_app in HF. destruct HF as [HF1 HF2].
      destruct (IH _ x rest Hrs eq_refl HF2 (bs_ok_app _ _ HB)) as (s1 & s2 & -> & H2 & H3 & H4 & H5).
      exists ((t, chunk) :: s1), s2. repeat split; try assumption.
      * cbn. now rewrite H3.
      * cbn. constructor; [|assumption]. rewrite Forall_forall in HF1.
        eapply shape_plain; [exact Hsh| |]; intro Hin; specialize (HF1 _ Hin); lia.
      * cbn. intros ->. assert (chunk = [92%N]) as ->.
        { inversion Hsh; subst. destruct c; cbn in H; repeat (destruct H as [E|H]; [inversion E; subst; try discriminate|]); try contradiction; reflexivity. }
        destruct (HB [] x eq_refl) as (c & b' & -> & Hc).
        destruct s1 as [|[t1 ch1] s1]; [discriminate|]. cbn in H3.
        exists (map fst s1). cbn. f_equal. inversion Hrs as [|ch rs' tt' sg' Hsh' Hrs']; subst.
        pose proof (shape_nonempty _ _ _ Hsh') as Hne. destruct ch1 as [|z ch1]; [congruence|].
        injection H3 as -> _.
        assert (Hw : word_start c) by (unfold word_start; lia).
        eapply shape_word_first; eassumption.
    + (* the chunk contains the quote *)
      injection Ed as Ey Ed. subst y.
      destruct (shape_quote _ _ _ Hsh) as [-> Hch]; [apply in_or_app; right; now left|].
      destruct raw as [|r raw]; cbn in Hch; [|destruct raw; discriminate].
      injection Hch as ->. cbn in Ed. exists [], segs. subst. repeat split; try assumption; constructor.
Qed.

Definition tv (t : token) : ttype * string := (ty t, val t).
Definition sv (s : ttype * list N) : ttype * string := (fst s, encode (snd s)).

Lemma init_segments src : exists segs, Segments (decode src) segs /\
  map tv (p_toks (initConf src)) = map sv segs.
Proof.
  destruct (lexAll_segments src) as (segs & H1 & H2). exists segs. split; [exact H1|].
  destruct (init_toks src) as (eof & He & HL). rewrite HL, map_app in H2. cbn in H2.
  apply app_inj_tail in H2. apply H2.
Qed.

Lemma segments_app doc a b : Segments doc (a ++ b) ->
  exists rest, doc = flat_map snd a ++ rest /\ Segments rest b.
Proof.
  revert doc. induction a as [|[t ch] a IH]; intros doc H; cbn in *; [now exists doc|].
  inversion H as [|ch' rs t' sg Hsh Hrs]; subst. destruct (IH _ Hrs) as (rest & -> & Hr).
  exists rest. split; [now rewrite app_assoc|exact Hr].
Qed.

Lemma encode_inj a b : forallb valid_rune a = true -> forallb valid_rune b = true -> encode a = encode b -> a = b.
Proof. intros Ha Hb E. rewrite <- (decode_encode a Ha), <- (decode_encode b Hb). now rewrite E. Qed.

Lemma map_app_inv {A B} (f : A -> B) l x y : map f l = x ++ y ->
  exists a b, l = a ++ b /\ map f a = x /\ map f b = y.
Proof.
  revert x. induction l as [|h l IH]; intros x E; cbn in E.
  - symmetry in E. apply app_eq_nil in E. destruct E as [-> ->]. now exists [], [].
  - destruct x as [|z x]; cbn in E; [now exists [], (h :: l)|]. injection E as E1 E2.
    destruct (IH x E2) as (a & b & -> & H1 & H2). exists (h :: a), b. cbn. rewrite E1, H1. auto.
Qed.

Lemma sconcat_sv segs : sconcat (map snd (map sv segs)) = encode (flat_map snd segs).
Proof.
  induction segs as [|[t c] segs IH]; [reflexivity|]. cbn. rewrite encode_app. now rewrite <- IH.
Qed.

Lemma map_snd_tv l : map snd (map tv l) = map val l.
Proof. rewrite map_map. reflexivity. Qed.
Lemma map_fst_tv l : map fst (map tv l) = map ty l.
Proof. rewrite map_map. reflexivity. Qed.
Lemma map_fst_sv l : map fst (map sv l) = map fst l.
Proof. rewrite map_map. reflexivity. Qed.

Lemma valid_app a b : forallb valid_rune (a ++ b) = forallb valid_rune a && forallb valid_rune b.
Proof. apply forallb_app. Qed.

Lemma strLoop_plain : forall l q r acc, Forall plain_type (map ty l) -> bsok (map ty l) -> ty q = TQuote ->
  strLoop (l ++ q :: r) acc = POk (rev acc ++ l) r.
Proof.
  intros l. remember (length l) as n eqn:Hn. revert l Hn.
  induction n as [n IH] using lt_wf_ind. intros l Hn q r acc HF HB Hq.
  destruct l as [|t l].
  - cbn. rewrite Hq. now rewrite app_nil_r.
  - cbn in HF, HB, Hn. inversion HF as [|x y [P1 [P2 P3]] HF']; subst x y. destruct HB as [HB1 HB].
    assert (Hdef : strLoop (l ++ q :: r) (t :: acc) = POk (rev acc ++ t :: l) r).
    { rewrite (IH (length l) ltac:(lia) l eq_refl q r (t :: acc) HF' HB Hq). cbn. now rewrite <- app_assoc. }
    cbn [app strLoop]. destruct (ty t) eqn:Et; try congruence.
    destruct (HB1 eq_refl) as (r' & Hr'). destruct l as [|t2 l]; [discriminate|]. cbn in Hr', HF', HB, Hn.
    cbn [app]. inversion HF' as [|x y _ HF'']; subst x y.
    rewrite (IH (length l) ltac:(cbn; lia) l eq_refl q r (t2 :: t :: acc) HF'' (proj2 HB) Hq).
    cbn. now rewrite <- !app_assoc.
Qed.

Lemma segments_rest_text rest segs : Segments rest segs -> flat_map snd segs = until_nul rest.
Proof.
  induction 1 as [rs [->|[t ->]]|chunk rs t segs Hsh Hs IH]; [reflexivity|reflexivity|].
  cbn. rewrite IH. symmetry. apply until_nul_app. eapply shape_no_nul; exact Hsh.
Qed.

Lemma quoted_value src before raw rest content a q b :
  decode src = before ++ [34%N] ++ raw ++ [34%N] ++ rest ->
  p_toks (initConf src) = a ++ q :: b ->
  sconcat (map val a) = encode before ->
  raw <> [] -> Denotes raw content ->
  exists v after,
    val v = content /\ sconcat (map val after) = encode (until_nul rest) /\ Suf after b /\
    expectStringValue (q :: b) = POk v after.
Proof.
  intros HD HT HB Hne Hden.
  destruct (init_segments src) as (segs & HS & HM). rewrite HT in HM. rewrite map_app in HM. symmetry in HM.
  destruct (map_app_inv _ _ _ _ HM) as (sa & sq & -> & Ha & Hqb).
  destruct sq as [|s sb]; [discriminate|]. cbn in Hqb. injection Hqb as Hq1 Hq2 Hb.
  destruct (segments_app _ _ _ HS) as (tail & Htail & HSt).
  pose proof (decode_valid src) as HV.
  assert (Hbe : flat_map snd sa = before).
  { apply encode_inj.
    - rewrite Htail, valid_app in HV. now apply andb_true_iff in HV.
    - rewrite HD, valid_app in HV. now apply andb_true_iff in HV.
    - rewrite <- HB, <- sconcat_sv, Ha. now rewrite map_snd_tv. }
  rewrite HD, Hbe in Htail. apply app_inv_head in Htail. subst tail.
  destruct s as [t ch]. inversion HSt as [|ch' rs t' sg Hsh Hrs Ech]; subst ch' t' sg.
  pose proof (shape_nonempty _ _ _ Hsh) as Hn0. destruct ch as [|c ch]; [congruence|].
  cbn in Ech. injection Ech as Hc Ech. subst c.
  destruct (shape_quote _ _ _ Hsh ltac:(now left)) as [-> Hch]. injection Hch as ->. cbn in Ech. subst rs.
  destruct (segments_quoted _ _ raw rest Hrs eq_refl) as (s1 & s2 & -> & R1 & R2 & R3 & R4).
  { eapply Forall_impl; [|apply (Denotes_chars _ _ Hden)]. cbn. lia. }
  { eapply Denotes_bs; exact Hden. }
  rewrite map_app in Hb. cbn [map] in Hb. symmetry in Hb.
  destruct (map_app_inv _ _ _ _ Hb) as (l & qr & -> & Hl & Hqr).
  destruct qr as [|q2 r]; [discriminate|]. cbn in Hqr. injection Hqr as Hq3 Hq4 Hr.
  assert (Hty : map ty l = map fst s1) by (rewrite <- map_fst_tv, Hl; apply map_fst_sv).
  assert (Hval : sconcat (map val l) = encode raw).
  { rewrite <- map_snd_tv, Hl, sconcat_sv, R2. reflexivity. }
  cbn in Hq1.
  assert (Hstr : strLoop (l ++ q2 :: r) [] = POk l r).
  { rewrite strLoop_plain; [reflexivity| | |exact Hq3]; rewrite Hty; assumption. }
  destruct l as [|t0 l0] eqn:El.
  { exfalso. apply Hne. destruct s1; [|discriminate]. cbn in R2. congruence. }
  eexists (Tok TComposed content 0 (line t0) (col t0)), r. split; [reflexivity|]. split.
  - rewrite <- map_snd_tv, Hr, sconcat_sv. f_equal. now apply segments_rest_text.
  - split; [exists ((t0 :: l0) ++ [q2]); now rewrite <- app_assoc|].
    unfold expectStringValue. cbn [cursor]. rewrite <- Hq1. change (tt_eqb TQuote TQuote) with true. cbv iota.
    change (pnext (q :: (t0 :: l0) ++ q2 :: r)) with ((t0 :: l0) ++ q2 :: r). rewrite Hstr.
    unfold composeAt, composedValue. rewrite Hval, (Denotes_unescape _ _ Hden). reflexivity.
Qed.

(** ** End to end *)

Lemma segments_exist rs : forallb valid_rune rs = true -> exists segs, Segments rs segs.
Proof.
  intro H. destruct (lexAll_segments (encode rs)) as (segs & HS & _). rewrite decode_encode in HS by assumption.
  now exists segs.
Qed.

(** known first tokens *)
Lemma init_prefix pre rest segs0 :
  forallb valid_rune (pre ++ rest) = true ->
  (forall segs, Segments rest segs -> Segments (pre ++ rest) (segs0 ++ segs)) ->
  exists l, map tv (p_toks (initConf (encode (pre ++ rest)))) = map sv segs0 ++ l.
Proof.
  intros HV Hp. assert (HV2 : forallb valid_rune rest = true) by (rewrite valid_app in HV; now apply andb_true_iff in HV).
  destruct (segments_exist rest HV2) as (segs & HS). specialize (Hp segs HS).
  destruct (init_segments (encode (pre ++ rest))) as (segs' & HS' & HM).
  rewrite decode_encode in HS' by assumption. rewrite (segments_unique _ _ _ HS' Hp) in HM.
  exists (map sv segs). now rewrite HM, map_app.
Qed.

Lemma Denotes_valid raw s : Denotes raw s -> forallb valid_rune raw = true.
Proof.
  intro H. apply forallb_forall. intros c Hc. pose proof (Denotes_chars _ _ H) as HF.
  rewrite Forall_forall in HF. specialize (HF c Hc). unfold valid_rune. lia.
Qed.

Lemma runes_ascii_valid s : is_ascii s = true -> forallb valid_rune (runes_of s) = true.
Proof.
  intro H. rewrite <- (decode_ascii s H). apply decode_valid.
Qed.

Lemma run_S k c : runParser (S k) c =
  match step c with Next c' => runParser k c' | Done o => Parsed o | Fail e => ParseError e | NoFuel => ParseLoop end.
Proof. reflexivity. Qed.

Definition defKeywords : list string := ["webrpc"; "name"; "version"; "basepath"]%string.

Lemma end_of_def ts cm out k l :
  map tv ts = [(TNewLine, String "010"%char "")] \/ ts = [] ->
  10 <= k -> runParser k (PC SEOL ts cm (l :: out)) = Parsed (rev (l :: out)).
Proof.
  intros [H| ->] Hk.
  - destruct ts as [|t [|? ?]]; try discriminate. injection H as H1 H2.
    do 10 (destruct k as [|k]; [lia|]). cbn [runParser step p_state p_toks p_comments p_out cursor expectEOL].
    rewrite H1. cbn [onOk]. reflexivity.
  - do 10 (destruct k as [|k]; [lia|]). reflexivity.
Qed.

Definition defDoc (key : string) (raw : list N) : list N :=
  runes_of key ++ [32; 61; 32; 34]%N ++ raw ++ [34; 10]%N.

Ltac wordshape := apply ShapeWord; [unfold word_start; cbn; lia | repeat constructor; unfold word_break; cbn; lia
  | intros ? H; injection H as <-; unfold word_break; cbn; tauto].
Ltac blankshape := apply ShapeBlank; [repeat constructor; unfold blank; lia
  | intros ? H; injection H as <-; unfold blank; lia].

Lemma seg_key key rest segs : In key defKeywords ->
  Segments (34%N :: rest) segs ->
  Segments (runes_of key ++ [32; 61; 32; 34]%N ++ rest)
    ([(TWord, runes_of key); (TWhitespace, [32]%N); (TEqual, [61]%N); (TWhitespace, [32]%N)] ++ segs).
Proof.
  intros Hk HS. cbn [app]. apply SegTok.
  - repeat (destruct Hk as [<-|Hk]; [wordshape|]). contradiction.
  - change (32 :: 61 :: 32 :: 34 :: rest)%N with ([32] ++ [61] ++ [32] ++ 34 :: rest)%N.
    apply SegTok; [blankshape|]. apply SegTok; [apply ShapeEqual; discriminate|]. apply SegTok; [blankshape|exact HS].
Qed.

Lemma def_end_to_end key raw content : In key defKeywords -> raw <> [] -> Denotes raw content ->
  exists com, parseRidl (encode (defDoc key raw)) = Parsed [NDef (Def key content false [] com)].
Proof.
  intros Hk Hne Hden. set (src := encode (defDoc key raw)).
  assert (Hka : is_ascii key = true) by (repeat (destruct Hk as [<-|Hk]; [reflexivity|]); contradiction).
  assert (HV : forallb valid_rune (defDoc key raw) = true).
  { unfold defDoc. rewrite !valid_app. rewrite (runes_ascii_valid _ Hka), (Denotes_valid _ _ Hden). reflexivity. }
  assert (HD : decode src = defDoc key raw) by (apply decode_encode; exact HV).
  destruct (init_prefix (runes_of key ++ [32; 61; 32]%N) (34%N :: raw ++ [34; 10]%N)
    [(TWord, runes_of key); (TWhitespace, [32]%N); (TEqual, [61]%N); (TWhitespace, [32]%N)]) as (l & Hl).
  { rewrite <- HV. unfold defDoc. f_equal. now rewrite <- app_assoc. }
  { intros segs HS. rewrite <- app_assoc. now apply seg_key. }
  rewrite <- app_assoc in Hl. change (encode (runes_of key ++ [32; 61; 32]%N ++ 34%N :: raw ++ [34; 10]%N)) with src in Hl.
  destruct (map_app_inv _ _ _ _ Hl) as (a & qb & Ha & H1 & _).
  pose proof H1 as H1'. cbn in H1.
  destruct a as [|t1 [|t2 [|t3 [|t4 [|? ?]]]]]; try discriminate.
  cbn in H1. injection H1 as E1 E2 E3 E4 E5 E6 E7 E8. rewrite (encode_runes_of key Hka) in E2.
  assert (Hpre : sconcat (map val [t1; t2; t3; t4]) = encode (runes_of key ++ [32; 61; 32]%N)).
  { rewrite <- map_snd_tv, H1', sconcat_sv. reflexivity. }
  destruct qb as [|q b].
  { exfalso. destruct (init_toks src) as (eof & He & HL). rewrite Ha in HL.
    pose proof (lexAll_lossless src) as HX. rewrite HL in HX. cbn [app map] in HX.
    destruct (lexAll_eof src) as (body & eof' & X1 & X2 & X3 & _). rewrite X1 in HL.
    apply app_inj_tail in HL. destruct HL as [_ <-].
    assert (HX2 : sconcat (map val ([t1; t2; t3; t4] ++ [eof'])) = encode (until_nul (decode src))) by exact HX.
    rewrite map_app, sconcat_app, Hpre in HX2. cbn [map sconcat] in HX2. rewrite X3 in HX2.
    rewrite HD, until_nul_id in HX2.
    - unfold defDoc in HX2. rewrite encode_app in HX2. rewrite (encode_app (runes_of key) ([32; 61; 32; 34]%N ++ _)) in HX2.
      rewrite sapp_assoc in HX2. apply sapp_inv_head in HX2. rewrite encode_app in HX2. cbn in HX2. discriminate.
    - unfold defDoc. rewrite !in_app_iff. intros [Z|[Z|[Z|Z]]].
      + repeat (destruct Hk as [<-|Hk]; [cbn in Z; lia|]). contradiction.
      + cbn in Z. lia.
      + pose proof (Denotes_chars _ _ Hden) as HF. rewrite Forall_forall in HF. specialize (HF _ Z). lia.
      + cbn in Z. lia. }
  destruct (quoted_value src (runes_of key ++ [32; 61; 32]%N) raw [10%N] content [t1; t2; t3; t4] q b) as (v & after & V1 & V2 & V3 & V4).
  { rewrite HD. unfold defDoc. now rewrite <- app_assoc. }
  { exact Ha. }
  { exact Hpre. }
  { exact Hne. }
  { exact Hden. }
  assert (Hafter : map tv after = [(TNewLine, String "010"%char "")]).
  { destruct (init_segments src) as (segs & HS & HM).
    assert (Hsuf : Suf after (p_toks (initConf src))).
    { rewrite Ha. eapply Suf_trans; [exact V3|]. exists ([t1; t2; t3; t4] ++ [q]). reflexivity. }
    destruct Hsuf as (p & Hp). rewrite Hp, map_app in HM. symmetry in HM.
    destruct (map_app_inv _ _ _ _ HM) as (s1 & s2 & -> & M1 & M2).
    destruct (segments_app _ _ _ HS) as (rest & R1 & R2).
    assert (Hs2 : flat_map snd s2 = [10%N]).
    { apply encode_inj.
      - rewrite (segments_rest_text _ _ R2). pose proof (decode_valid src) as HV2. rewrite R1, valid_app in HV2.
        apply andb_true_iff in HV2. destruct HV2 as [_ HV2]. clear -HV2. induction rest as [|x r IH]; [reflexivity|].
        cbn in *. apply andb_true_iff in HV2. destruct (x =? 0)%N; [reflexivity|]. cbn. rewrite (proj1 HV2). now apply IH.
      - reflexivity.
      - rewrite <- sconcat_sv, M2, map_snd_tv, V2. reflexivity. }
    rewrite <- M2. destruct s2 as [|[t ch] s2]; [discriminate|]. inversion R2 as [|ch' rs t' sg Hsh Hrs]; subst ch' t' sg.
    pose proof (shape_nonempty _ _ _ Hsh) as Hn0. destruct ch as [|c ch]; [congruence|]. cbn in Hs2.
    injection Hs2 as -> Hs2. apply app_eq_nil in Hs2. destruct Hs2 as [-> Hs2].
    assert (t = TNewLine) as ->.
    { eapply (proj1 (shape_unique t TNewLine [10%N] [10%N] rs rs Hsh (ShapeNewLine _) eq_refl)). }
    destruct s2 as [|[t3' ch3] s2]; [reflexivity|]. exfalso. cbn in Hs2. apply app_eq_nil in Hs2.
    inversion Hrs as [|? ? ? ? Hsh3 _]. subst. destruct Hs2 as [-> _]. now apply (shape_nonempty _ _ _ Hsh3). }
  assert (Hq : ty q = TQuote).
  { unfold expectStringValue in V4. cbn in V4. destruct (tt_eqb (ty q) TQuote) eqn:E; [now apply tt_eqb_eq|discriminate]. }
  rewrite <- (fuel_irrelevant src (20 + parserFuel (p_toks (initConf src))) ltac:(lia)).
  unfold initConf in *. destruct (tokenize src) as [ts cm]. cbn [p_toks] in *. subst ts. cbn [app].
  remember (16 + parserFuel (t1 :: t2 :: t3 :: t4 :: q :: b)) as k eqn:Ek.
  change (20 + parserFuel (t1 :: t2 :: t3 :: t4 :: q :: b)) with (4 + (16 + parserFuel (t1 :: t2 :: t3 :: t4 :: q :: b))).
  rewrite <- Ek. cbn [Nat.add].
  rewrite run_S. unfold step at 1. cbn [p_state p_toks p_comments p_out cursor]. rewrite E1.
  rewrite run_S. unfold step at 1. cbn [p_state p_toks p_comments p_out cursor]. rewrite E1, E2.
  change (tt_eqb TWord TWord) with true. cbn [negb].
  replace (str_in key ["webrpc"; "name"; "version"; "basepath"]) with true
    by (symmetry; apply str_in_In; exact Hk).
  rewrite run_S. unfold step at 1. cbn [p_state p_toks p_comments p_out cursor]. 
  assert (HM : pmatch [TWord; TWhitespace; TEqual; TWhitespace] (t1 :: t2 :: t3 :: t4 :: q :: b) = POk [t1; t2; t3; t4] (q :: b)).
  { unfold pmatch. cbn [matchGo cursor pnext]. rewrite E1, E3, E5, E7. reflexivity. }
  rewrite HM. cbn [onOk cursor].
  destruct (parseComments cm (line t1)) as [com cm'] eqn:Epc. exists com.
  rewrite run_S. unfold step at 1. cbn [p_state p_toks p_comments p_out].
  unfold expectLiteralValue. cbn [litLoop]. rewrite Hq, V4. cbn [onOk]. rewrite V1, E2. cbn [d_left d_comment].
  rewrite end_of_def; [reflexivity|now left|lia].
Qed.

Lemma quoted_value_all src before raw rest content a q b :
  decode src = before ++ [34%N] ++ raw ++ [34%N] ++ rest ->
  p_toks (initConf src) = a ++ q :: b ->
  sconcat (map val a) = encode before ->
  raw <> [] -> Denotes raw content ->
  exists v after,
    val v = content /\ sconcat (map val after) = encode (until_nul rest) /\
    expectStringValue (q :: b) = POk v after /\
    expectLiteralValue (q :: b) = POk v after /\
    expectMetadataValue (q :: b) = POk v after /\
    expectPath (q :: b) = POk v after.
Proof.
  intros H1 H2 H3 H4 H5. destruct (quoted_value _ _ _ _ _ _ _ _ H1 H2 H3 H4 H5) as (v & after & V1 & V2 & _ & V4).
  exists v, after. repeat (split; [assumption|]).
  assert (Hq : ty q = TQuote).
  { unfold expectStringValue in V4. cbn in V4. destruct (tt_eqb (ty q) TQuote) eqn:E; [now apply tt_eqb_eq|discriminate]. }
  unfold expectLiteralValue, expectMetadataValue, expectPath. cbn [litLoop cursor]. rewrite Hq.
  repeat split; exact V4.
Qed.
