(** The parser reads the documents of Grammar.v as specified there. *)
From Coq Require Import ZifyBool ZifyN.
From Verif Require Import Base BaseProofs Utf8 Utf8Proofs Lexer LexSpec LexerProofs Tokenize Ast Parser
  ParserTerm PropsParserAux StringSpec StringProofs EraseProofs CommentBlock Grammar.

(** lexemes as tokens without a position *)
Definition tk (x : lexeme) : token := Tok (fst x) (snd x) 0 0 0.
Definition tks (l : list lexeme) : toks := map tk l.

Lemma tks_app a b : tks (a ++ b) = tks a ++ tks b. Proof. apply map_app. Qed.
Lemma tks_cons x l : tks (x :: l) = tk x :: tks l. Proof. reflexivity. Qed.

Lemma tt_eqb_refl t : tt_eqb t t = true.
Proof. unfold tt_eqb. destruct (ttype_eq_dec t t); congruence. Qed.
Lemma tt_neqb a b : a <> b -> tt_eqb a b = false.
Proof. unfold tt_eqb. destruct (ttype_eq_dec a b); congruence. Qed.

(** ** gaps *)

Definition loopState (s : pstate) : Prop :=
  match s with
  | SDefault | SEnumDefinition _ | SImportValue | SImportMembers _ | STypeAliasMeta _ | SStructField _
  | SStructFieldMeta _ | SServiceMethod _ => True
  | _ => False
  end.

Notation same := sameEnd.

Lemma loop_ws st s r out : loopState st -> same (PC st (tks ((TWhitespace, s) :: r)) [] out) (PC st (tks r) [] out).
Proof.
  intro H. destruct st; try destruct H; try (apply sameEnd_step; reflexivity). now apply skip_ws.
Qed.
Lemma loop_nl st s r out : loopState st -> same (PC st (tks ((TNewLine, s) :: r)) [] out) (PC st (tks r) [] out).
Proof.
  intro H. destruct st; try destruct H; try (apply sameEnd_step; reflexivity). now apply skip_nl.
Qed.
Lemma until_eol h body s r : Forall (fun x : lexeme => fst x <> TNewLine /\ fst x <> TEOF) body ->
  continueUntilEOL (tk (THash, h) :: tks body ++ tk (TNewLine, s) :: r) = tk (TNewLine, s) :: r.
Proof.
  intro HF. cbn [continueUntilEOL]. change (ty (tk (THash, h))) with THash. cbn [tt_eqb orb].
  rewrite (tt_neqb THash TNewLine), (tt_neqb THash TEOF) by discriminate. cbn [orb].
  apply until_eol_app; [|reflexivity]. unfold tks. apply Forall_map. exact HF.
Qed.
Lemma loop_comment st c s r out : loopState st -> Comment c ->
  same (PC st (tks (c ++ (TNewLine, s) :: r)) [] out) (PC st (tks ((TNewLine, s) :: r)) [] out).
Proof.
  intros H [h body HF]. pose proof (until_eol h body s (tks r) HF) as E.
  rewrite tks_app. cbn [tks map app]. fold (tks body) (tks r).
  destruct st; try destruct H;
    try (apply sameEnd_step; unfold step; cbn [p_state p_toks p_comments p_out cursor]; change (ty (tk (THash, h))) with THash; cbv iota;
         rewrite E; reflexivity).
  eapply sameEnd_trans; [now apply skip_hash|].
  rewrite until_eol_app; [apply sameEnd_refl| |reflexivity]. unfold tks. apply Forall_map. exact HF.
Qed.
Lemma loop_gap g : Gap g -> forall st r out, loopState st -> same (PC st (tks (g ++ r)) [] out) (PC st (tks r) [] out).
Proof.
  induction 1 as [|s l HG IH|s l HG IH|c s l HC HG IH]; intros st r out H.
  - apply sameEnd_refl.
  - eapply sameEnd_trans; [now apply loop_ws|]. now apply IH.
  - eapply sameEnd_trans; [now apply loop_nl|]. now apply IH.
  - rewrite <- app_assoc. cbn [app]. eapply sameEnd_trans; [now apply loop_comment|].
    eapply sameEnd_trans; [now apply loop_nl|]. now apply IH.
Qed.
Lemma loop_lineEnd e : LineEnd e -> forall st r out, loopState st -> same (PC st (tks (e ++ r)) [] out) (PC st (tks r) [] out).
Proof.
  intros [c s l HC HG] st r out H. rewrite <- app_assoc. cbn [app].
  assert (Hn : same (PC st (tks ((TNewLine, s) :: l ++ r)) [] out) (PC st (tks r) [] out)).
  { eapply sameEnd_trans; [now apply loop_nl|]. now apply loop_gap. }
  destruct HC as [->|HC]; [exact Hn|]. eapply sameEnd_trans; [now apply loop_comment|exact Hn].
Qed.
Lemma loop_eol e : Eol e -> forall st r out, loopState st -> same (PC st (tks (e ++ r)) [] out) (PC st (tks r) [] out).
Proof.
  intros [s l HG|w l HL] st r out H; cbn [app].
  - eapply sameEnd_trans; [now apply loop_nl|]. now apply loop_gap.
  - eapply sameEnd_trans; [now apply loop_ws|]. now apply loop_lineEnd.
Qed.

(** the end of a line where the parser insists on it *)
Lemma lineEnd_expect e : LineEnd e -> exists s g, Gap g /\ forall r,
  expectEOL (tks (e ++ r)) = POk tt (tks ((TNewLine, s) :: g ++ r)).
Proof.
  intros [c s l HC HG]. exists s, l. split; [exact HG|]. intro r. rewrite <- app_assoc. cbn [app].
  destruct HC as [->|[h body HF]]; [reflexivity|].
  rewrite tks_app. cbn [tks map app]. fold (tks body). 
  cbn [expectEOL]. change (ty (tk (THash, h))) with THash. cbv iota. f_equal. now apply until_eol.
Qed.
Lemma eol_expect e : Eol e -> exists s g, Gap g /\ forall r,
  expectEOL (tks (e ++ r)) = POk tt (tks ((TNewLine, s) :: g ++ r)).
Proof.
  intros [s l HG|w l HL].
  - exists s, l. split; [exact HG|]. reflexivity.
  - destruct (lineEnd_expect _ HL) as (s & g & HG & E). exists s, g. split; [exact HG|]. intro r. cbn [app tks map].
    fold (tks (l ++ r)). cbn [expectEOL]. change (ty (tk (TWhitespace, w))) with TWhitespace. cbv iota. apply E.
Qed.

(** what starts a line end *)
Lemma eol_head e : Eol e -> exists x r, e = x :: r /\ (fst x = TWhitespace \/ fst x = TNewLine).
Proof. intros [s l HG|w l HL]; eexists _, _; split; try reflexivity; cbn; tauto. Qed.

(** ** matching *)
Lemma match_tok start x ts w acc : matchGo start (tk x :: ts) (fst x :: w) acc = matchGo start ts w (tk x :: acc).
Proof. cbn [matchGo cursor pnext]. cbn [tk ty]. now rewrite tt_eqb_refl. Qed.
Lemma match_is start x ts t w acc : fst x = t -> matchGo start (tk x :: ts) (t :: w) acc = matchGo start ts w (tk x :: acc).
Proof. intros <-. apply match_tok. Qed.
Lemma match_blank start b x r w acc : Blank b -> fst x <> TWhitespace ->
  exists ws, matchGo start (tks (b ++ x :: r)) (TWhitespace :: w) acc = matchGo start (tks (x :: r)) w (ws :: acc).
Proof.
  intros [|s] Hx; cbn [app].
  - eexists. cbn [matchGo cursor tks map]. cbn [tk ty]. rewrite tt_neqb by exact Hx. reflexivity.
  - eexists. cbn [tks map]. apply (match_tok start (TWhitespace, s)).
Qed.
Lemma match_no start x ts t w acc : fst x <> t -> t <> TEOL -> t <> TWhitespace ->
  matchGo start (tk x :: ts) (t :: w) acc = PErr "expecting another token" start.
Proof.
  intros H1 H2 H3. cbn [matchGo cursor]. cbn [tk ty]. rewrite !tt_neqb by assumption. reflexivity.
Qed.
Lemma match_end start ts acc : matchGo start ts [] acc = POk (rev acc) ts.
Proof. reflexivity. Qed.

(** ** values *)
Lemma unescape_plain s : plain s -> unescape s = Ok s.
Proof.
  unfold plain. induction s as [|c s IH]; [reflexivity|]. cbn [sforall]. intro H.
  apply andb_true_iff in H. destruct H as [H1 H2]. apply andb_true_iff in H1. destruct H1 as [H1 H3].
  cbn [unescape]. destruct (Ascii.eqb c "\"); [discriminate|]. rewrite (IH H2). cbn [bind].
  rewrite encode_rune_small by lia. cbn [append]. do 2 f_equal. apply ascii_N_embedding.
Qed.
Lemma plain_app a b : plain a -> plain b -> plain (a ++ b).
Proof. unfold plain. intros H1 H2. rewrite sforall_app. now rewrite H1, H2. Qed.

Lemma compose_tks l s ts : l <> [] -> unescape (text l) = Ok s -> composeAt (tks l) ts = POk (tk (TComposed, s)) ts.
Proof.
  intros Hn H. unfold composeAt. assert (E : composedValue (tks l) = Ok (tk (TComposed, s))); [|now rewrite E].
  assert (EV : sconcat (map val (tks l)) = text l) by (unfold text, tks; rewrite map_map; reflexivity).
  unfold composedValue. rewrite EV, H. destruct l as [|x l]; [congruence|]. reflexivity.
Qed.

(** string literals *)
Definition bsOk (s : string) : Prop := forall a b, s = (a ++ String "\" b)%string -> exists c r, b = String c r /\ (c = "n" \/ c = "t")%char.
Lemma bsOk_suffix a b : bsOk (a ++ b) -> bsOk b.
Proof. intros H x y E. apply (H (a ++ x)%string). rewrite E. now rewrite sapp_assoc. Qed.
Lemma Denotes_bsOk raw s : Denotes raw s -> bsOk (encode raw).
Proof.
  induction 1 as [|c raw s H1 H2 H3 H4 Hd IH|raw s Hd IH|raw s Hd IH]; intros a b E.
  - destruct a; discriminate.
  - cbn [encode] in E. rewrite encode_rune_small in E by lia. cbn [append] in E. destruct a as [|x a]; cbn in E; injection E as E1 E2.
    + exfalso. apply (f_equal N_of_ascii) in E1. rewrite N_ascii_embedding in E1 by lia. cbn in E1. lia.
    + now apply (IH a b).
  - cbn [encode] in E. rewrite !encode_rune_small in E by lia. cbn [append] in E. destruct a as [|x a]; cbn in E.
    + injection E as E2. exists "n"%char. eexists. split; [symmetry; exact E2|now left].
    + injection E as E1 E2. destruct a as [|y a]; cbn in E2; injection E2 as E2 E3; [discriminate|]. now apply (IH a b).
  - cbn [encode] in E. rewrite !encode_rune_small in E by lia. cbn [append] in E. destruct a as [|x a]; cbn in E.
    + injection E as E2. exists "t"%char. eexists. split; [symmetry; exact E2|now right].
    + injection E as E1 E2. destruct a as [|y a]; cbn in E2; injection E2 as E2 E3; [discriminate|]. now apply (IH a b).
Qed.

Definition inString (x : lexeme) : Prop :=
  fst x <> TQuote /\ fst x <> TNewLine /\ fst x <> TEOF /\ (fst x = TBackslash -> snd x = "\"%string).

Lemma strLoop_body n : forall body q r acc, length body <= n -> Forall inString body -> bsOk (text body) ->
  strLoop (tks (body ++ (TQuote, q) :: r)) acc = POk (rev acc ++ tks body) (tks r).
Proof.
  induction n as [|n IH]; intros body q r acc Hn HF HB.
  - destruct body; [|cbn in Hn; lia]. cbn. now rewrite app_nil_r.
  - destruct body as [|[t v] body]; [cbn; now rewrite app_nil_r|]. inversion HF as [|? ? (N1 & N2 & N3 & N4) HF']; subst.
    cbn [fst snd] in *. cbn [length] in Hn. cbn [app tks map]. fold (tks (body ++ (TQuote, q) :: r)). fold (tks body).
    assert (HB' : bsOk (text body)) by (apply (bsOk_suffix v); exact HB).
    assert (HN : strLoop (tks (body ++ (TQuote, q) :: r)) (tk (t, v) :: acc) = POk (rev acc ++ tk (t, v) :: tks body) (tks r)).
    { rewrite IH; [|cbn [length] in Hn; lia|assumption|assumption]. cbn [rev]. now rewrite <- app_assoc. }
    cbn [strLoop]. change (ty (tk (t, v))) with t.
    destruct t; try exact HN; try congruence.
    specialize (N4 eq_refl). subst v. destruct body as [|[t2 v2] body].
    + exfalso. destruct (HB ""%string ""%string eq_refl) as (c & rr & E & _). discriminate.
    + cbn [app tks map]. fold (tks (body ++ (TQuote, q) :: r)). fold (tks body). inversion HF' as [|? ? _ HF'']; subst.
      rewrite IH; [|cbn [length] in Hn; lia|assumption|apply (bsOk_suffix v2); exact HB'].
      cbn [rev]. now rewrite <- !app_assoc.
Qed.

Lemma string_expect l s r : StringLit l s -> expectStringValue (tks (l ++ r)) = POk (tk (TComposed, s)) (tks r).
Proof.
  intros [q q' body raw s' Hn HF HT HD]. cbn [app tks map]. rewrite <- app_assoc. cbn [app].
  unfold expectStringValue. cbn [cursor pnext]. change (tt_eqb (ty (tk (TQuote, q))) TQuote) with true.
  fold (tks (body ++ (TQuote, q') :: r)).
  rewrite (strLoop_body (length body) body); [|apply le_n|exact HF|rewrite HT; now apply (Denotes_bsOk raw s')].
  cbn [rev app]. apply compose_tks; [exact Hn|]. rewrite HT. now apply Denotes_unescape.
Qed.
Lemma string_head l s : StringLit l s -> exists q r, l = (TQuote, q) :: r.
Proof. intros [q q' body raw s' Hn HF HT HD]. eauto. Qed.

(** [stops r]: the document goes on with white space or a line end *)
Definition stops (r : list lexeme) : Prop := exists x r', r = x :: r' /\ (fst x = TWhitespace \/ fst x = TNewLine).
Lemma eol_stops e r : Eol e -> stops (e ++ r).
Proof. intro H. destruct (eol_head _ H) as (x & r' & -> & Hx). exists x, (r' ++ r). split; [reflexivity|exact Hx]. Qed.

Lemma litLoop_bare dots l : Forall (bareLexeme dots) l -> forall r acc, stops r ->
  litLoop dots (tks (l ++ r)) acc = composeAt (rev acc ++ tks l) (tks r).
Proof.
  induction 1 as [|x l Hx HF IH]; intros r acc (y & r' & -> & Hy).
  - cbn [app tks map litLoop]. change (ty (tk y)) with (fst y). rewrite app_nil_r. destruct Hy as [-> | ->]; reflexivity.
  - cbn [app tks map litLoop]. fold (tks (l ++ y :: r')). fold (tks l). change (ty (tk x)) with (fst x).
    specialize (IH (y :: r') (tk x :: acc) ltac:(exists y, r'; tauto)). cbn [rev] in IH. rewrite <- app_assoc in IH. cbn [app] in IH.
    destruct Hx as [-> | [-> | [-> ->]]]; exact IH.
Qed.
Lemma literal_expect dots l s r : Literal dots l s -> stops r -> litLoop dots (tks (l ++ r)) [] = POk (tk (TComposed, s)) (tks r).
Proof.
  intros [l' s' H|l' Hn HF HP] Hr.
  - pose proof (string_expect _ _ r H) as E. destruct (string_head _ _ H) as (q & b & ->). cbn [app tks map] in *. exact E.
  - rewrite litLoop_bare by assumption. cbn [rev app]. apply compose_tks; [exact Hn|]. now apply unescape_plain.
Qed.
Lemma literal_head dots l s : Literal dots l s -> exists x r, l = x :: r /\
  (fst x = TQuote \/ bareLexeme dots x).
Proof.
  intros [l' s' H|l' Hn HF HP].
  - destruct (string_head _ _ H) as (q & r & ->). exists (TQuote, q), r. split; [reflexivity|now left].
  - destruct l' as [|x r]; [congruence|]. inversion HF; subst. exists x, r. split; [reflexivity|now right].
Qed.
Lemma literal_head_ne dots l s : Literal dots l s -> exists x r, l = x :: r /\
  fst x <> TWhitespace /\ fst x <> TNewLine /\ fst x <> THash /\ fst x <> TEOF.
Proof.
  intro H. destruct (literal_head _ _ _ H) as (x & r & -> & Hx). exists x, r. split; [reflexivity|].
  destruct Hx as [-> | [-> | [-> | [_ ->]]]]; repeat split; discriminate.
Qed.

Lemma metaVal_bare l : Forall (fun x : lexeme => fst x <> TWhitespace /\ fst x <> TNewLine /\ fst x <> TEOF) l ->
  forall r acc, stops r -> metaValLoop (tks (l ++ r)) acc = composeAt (rev acc ++ tks l) (tks r).
Proof.
  induction 1 as [|x l (N1 & N2 & N3) HF IH]; intros r acc (y & r' & -> & Hy).
  - cbn [app tks map metaValLoop]. change (ty (tk y)) with (fst y). rewrite app_nil_r. destruct Hy as [-> | ->]; reflexivity.
  - cbn [app tks map metaValLoop]. fold (tks (l ++ y :: r')). fold (tks l). change (ty (tk x)) with (fst x).
    specialize (IH (y :: r') (tk x :: acc) ltac:(exists y, r'; tauto)). cbn [rev] in IH. rewrite <- app_assoc in IH. cbn [app] in IH.
    destruct (fst x); try exact IH; congruence.
Qed.
Lemma metaValue_expect l v r : MetaValue l v -> stops r -> expectMetadataValue (tks (l ++ r)) = POk (tk (TComposed, v)) (tks r).
Proof.
  intros [l' s H|x l' Hx HF HP] Hr.
  - unfold expectMetadataValue. pose proof (string_expect _ _ r H) as E. destruct (string_head _ _ H) as (q & b & ->).
    cbn [app tks map cursor] in *. exact E.
  - unfold expectMetadataValue. cbn [app tks map cursor]. change (ty (tk x)) with (fst x). rewrite tt_neqb by exact Hx.
    pose proof (metaVal_bare _ HF r [] Hr) as E. cbn [app tks map] in E. rewrite E. cbn [rev app].
    apply (compose_tks (x :: l')); [discriminate|]. now apply unescape_plain.
Qed.
Lemma metaValue_head l v : MetaValue l v -> exists x r, l = x :: r /\ fst x <> TWhitespace.
Proof.
  intros [l' s H|x l' Hx HF HP].
  - destruct (string_head _ _ H) as (q & b & ->). exists (TQuote, q), b. split; [reflexivity|discriminate].
  - exists x, l'. inversion HF; subst. tauto.
Qed.

(** ** types *)
Definition stopT (r : list lexeme) : Prop :=
  r = [] \/ exists x r', r = x :: r' /\
    In (fst x) [TNewLine; TWhitespace; TComma; TBar; TCloseAngle; TCloseParen; THash; TEOF].
Lemma stops_stopT r : stops r -> stopT r.
Proof. intros (x & r' & -> & H). right. exists x, r'. split; [reflexivity|]. destruct H as [-> | ->]; cbn; tauto. Qed.
Lemma stopT_cons x r : In (fst x) [TNewLine; TWhitespace; TComma; TBar; TCloseAngle; TCloseParen; THash; TEOF] -> stopT (x :: r).
Proof. intro H. right. eauto. Qed.
Lemma typeLoop_stop n acc r : stopT r -> typeLoop (S n) (tks r) acc = composeAt (rev acc) (tks r).
Proof.
  intros [->|(x & r' & -> & H)]; [reflexivity|]. cbn [tks map typeLoop cursor]. change (ty (tk x)) with (fst x).
  cbn [In] in H. destruct (fst x); try reflexivity; exfalso; intuition discriminate.
Qed.
Lemma listLoop_blank b : Blank b -> forall n r acc, typeListLoop (length b + n) (tks (b ++ r)) acc = typeListLoop n (tks r) acc.
Proof. intros [|s] n r acc; reflexivity. Qed.
Lemma mapLoop_blank b : Blank b -> forall n r acc, mapLoop (length b + n) (tks (b ++ r)) acc = mapLoop n (tks r) acc.
Proof. intros [|s] n r acc; reflexivity. Qed.
Lemma stopT_blank b x r : Blank b -> In (fst x) [TComma; TCloseAngle] -> stopT (b ++ x :: r).
Proof.
  intros [|s] H; cbn [app]; apply stopT_cons; cbn in *; [|tauto]. destruct H as [<-|[<-|[]]]; tauto.
Qed.
Lemma text_app a b : text (a ++ b) = (text a ++ text b)%string.
Proof. unfold text. now rewrite map_app, sconcat_app. Qed.
Lemma text_one x : text [x] = snd x.
Proof. unfold text. cbn. apply sapp_nil_r. Qed.

Definition typeHead (l : list lexeme) : Prop := exists h r, l = h :: r /\ (fst h = TWord \/ fst h = TOpenBracket).
Lemma type_head l t : TypeExpr l t -> typeHead l.
Proof. intros []; eexists _, _; split; try reflexivity; cbn; tauto. Qed.
Lemma type_plain l t : TypeExpr l t -> plain t.
Proof.
  induction 1; [assumption| |]; repeat (apply plain_app; try assumption; try reflexivity).
Qed.

Lemma type_loop l t : TypeExpr l t -> forall n acc rest, length l < n -> stopT rest ->
  exists ll, ll <> [] /\ text ll = t /\ typeLoop n (tks (l ++ rest)) acc = composeAt (rev acc ++ tks ll) (tks rest).
Proof.
  intro HT. induction HT as [w Hp Hw|l t HT IH|b0 b1 lk k b2 b3 lv v b4 B0 B1 HK IHK B2 B3 HV IHV B4]; intros n acc rest Hn Hr.
  - exists [(TWord, w)]. split; [discriminate|]. split; [apply text_one|].
    cbn [length] in Hn. destruct n as [|[|n]]; [lia|lia|]. cbn [app tks map typeLoop cursor]. change (ty (tk (TWord, w))) with TWord. cbv iota.
    change (val (tk (TWord, w))) with w.
    assert (N1 : String.eqb w "map" = false) by (apply String.eqb_neq; intros ->; apply Hw; cbn; tauto).
    assert (N2 : String.eqb w "stream" = false) by (apply String.eqb_neq; intros ->; apply Hw; cbn; tauto).
    assert (N3 : String.eqb w "struct" = false) by (apply String.eqb_neq; intros ->; apply Hw; cbn; tauto).
    rewrite N1, N2, N3. cbn [orb pnext]. fold (tks rest). exact (typeLoop_stop n (tk (TWord, w) :: acc) rest Hr).
  - cbn [length] in Hn. destruct n as [|[|n]]; [lia|lia|].
    destruct (IH (S n) [] rest ltac:(lia) Hr) as (ll & Hne & Ht & E).
    assert (Hc : composeAt (rev [] ++ tks ll) (tks rest) = POk (tk (TComposed, t)) (tks rest)).
    { cbn [rev app]. apply compose_tks; [exact Hne|]. rewrite Ht. apply unescape_plain. now apply (type_plain l). }
    rewrite Hc in E.
    exists [(TOpenBracket, "["%string); (TCloseBracket, "]"%string); (TComposed, t)]. split; [discriminate|].
    split; [unfold text; cbn; now rewrite sapp_nil_r|].
    change (tks (((TOpenBracket, "["%string) :: (TCloseBracket, "]"%string) :: l) ++ rest))
      with (tk (TOpenBracket, "["%string) :: tk (TCloseBracket, "]"%string) :: tks (l ++ rest)).
    remember (S n) as m eqn:Em. cbn [typeLoop cursor]. change (ty (tk (TOpenBracket, "["%string))) with TOpenBracket. cbv iota.
    unfold pmatch. rewrite (match_tok _ (TOpenBracket, "["%string)), (match_tok _ (TCloseBracket, "]"%string)), match_end.
    rewrite E. subst m. rewrite (typeLoop_stop n) by exact Hr. f_equal. cbn [rev app tks map]. rewrite <- !app_assoc. reflexivity.
  - cbn [length] in Hn. rewrite !app_length in Hn. cbn [length] in Hn. rewrite !app_length in Hn. cbn [length] in Hn.
    rewrite !app_length in Hn. cbn [length] in Hn.
    destruct (type_head _ _ HK) as (hk & rk & EK & HhK). destruct (type_head _ _ HV) as (hv & rv & EV & HhV).
    pose proof (type_plain _ _ HK) as PK. pose proof (type_plain _ _ HV) as PV.
    (* the value, from the comma on *)
    assert (HL2 : forall m ac, length b3 + length lv + length b4 + 2 <= m ->
      typeListLoop m (tks (b3 ++ lv ++ b4 ++ (TCloseAngle, ">"%string) :: rest)) ac
      = composeAt (rev (tk (TCloseAngle, ">"%string) :: tk (TComposed, v) :: ac)) (tks ((TCloseAngle, ">"%string) :: rest))).
    { intros m ac Hm. replace m with (length b3 + (S (length b4 + S (m - length b3 - length b4 - 2)))) by lia.
      rewrite listLoop_blank by exact B3. set (j := length b4 + S (m - length b3 - length b4 - 2)).
      destruct (IHV j [] (b4 ++ (TCloseAngle, ">"%string) :: rest)) as (ll & Hne & Ht & E); [unfold j; lia| |].
      { apply stopT_blank; [exact B4|cbn; tauto]. }
      rewrite EV in *. cbn [app tks map]. cbn [app tks map] in E.
      cbn [typeListLoop cursor]. change (ty (tk hv)) with (fst hv).
      assert (Hc : composeAt (rev [] ++ tks ll) (tks (b4 ++ (TCloseAngle, ">"%string) :: rest))
        = POk (tk (TComposed, v)) (tks (b4 ++ (TCloseAngle, ">"%string) :: rest))).
      { cbn [rev app]. apply compose_tks; [exact Hne|]. rewrite Ht. now apply unescape_plain. }
      rewrite E, Hc. unfold j. rewrite listLoop_blank by exact B4. destruct HhV as [-> | ->]; reflexivity. }
    assert (HL1 : forall m ac, length b1 + length lk + length b2 + length b3 + length lv + length b4 + 3 <= m ->
      exists mm, typeListLoop m (tks (b1 ++ lk ++ b2 ++ (TComma, ","%string) :: b3 ++ lv ++ b4 ++ (TCloseAngle, ">"%string) :: rest)) ac
      = typeListLoop mm (tks (b3 ++ lv ++ b4 ++ (TCloseAngle, ">"%string) :: rest)) (tk (TComma, ","%string) :: tk (TComposed, k) :: ac)
      /\ length b3 + length lv + length b4 + 2 <= mm).
    { intros m ac Hm. exists (m - length b1 - length b2 - 2).
      assert (Hlk : 1 <= length lk) by (rewrite EK; cbn; lia).
      split; [|lia]. replace m with (length b1 + (S (length b2 + S (m - length b1 - length b2 - 2)))) at 1 by lia.
      rewrite listLoop_blank by exact B1. set (j := length b2 + S (m - length b1 - length b2 - 2)).
      destruct (IHK j [] (b2 ++ (TComma, ","%string) :: b3 ++ lv ++ b4 ++ (TCloseAngle, ">"%string) :: rest)) as (ll & Hne & Ht & E); [unfold j; lia| |].
      { apply stopT_blank; [exact B2|cbn; tauto]. }
      rewrite EK in *. cbn [app tks map]. cbn [app tks map] in E.
      cbn [typeListLoop cursor]. change (ty (tk hk)) with (fst hk).
      match type of E with _ = composeAt _ ?ts => assert (Hc : composeAt (rev [] ++ tks ll) ts = POk (tk (TComposed, k)) ts) end.
      { cbn [rev app]. apply compose_tks; [exact Hne|]. rewrite Ht. now apply unescape_plain. }
      rewrite E, Hc. unfold j. rewrite listLoop_blank by exact B2. destruct HhK as [-> | ->]; reflexivity. }
    assert (Hlk : 1 <= length lk) by (rewrite EK; cbn; lia). assert (Hlv : 1 <= length lv) by (rewrite EV; cbn; lia).
    exists [(TComposed, "map<" ++ k ++ "," ++ v ++ ">")%string]. split; [discriminate|]. split; [apply text_one|].
    destruct n as [|[|n]]; [lia|lia|].
    assert (EM : mapLoop (S n) (tks (b0 ++ (TOpenAngle, "<"%string) :: b1 ++ lk ++ b2 ++ (TComma, ","%string) :: b3 ++ lv ++ b4 ++ (TCloseAngle, ">"%string) :: rest)) [tk (TWord, "map"%string)]
      = POk (tk (TComposed, "map<" ++ k ++ "," ++ v ++ ">")%string) (tks rest)).
    { replace (S n) with (length b0 + S (n - length b0)) by lia. rewrite mapLoop_blank by exact B0.
      cbn [tks map mapLoop cursor pnext]. change (ty (tk (TOpenAngle, "<"%string))) with TOpenAngle. cbv iota.
      match goal with |- context [typeListLoop ?m (map tk ?z) ?ac] => change (map tk z) with (tks z); destruct (HL1 m ac) as (mm & EL & Hmm); [lia|] end.
      rewrite EL, (HL2 mm) by exact Hmm.
      assert (Hc : composeAt (rev [tk (TCloseAngle, ">"%string); tk (TComposed, v); tk (TComma, ","%string); tk (TComposed, k); tk (TOpenAngle, "<"%string)])
         (tks ((TCloseAngle, ">"%string) :: rest)) = POk (tk (TComposed, "<" ++ k ++ "," ++ v ++ ">")%string) (tks ((TCloseAngle, ">"%string) :: rest))).
      { apply (compose_tks [(TOpenAngle, "<"); (TComposed, k); (TComma, ","); (TComposed, v); (TCloseAngle, ">")]%string); [discriminate|].
        unfold text. cbn [map snd sconcat]. rewrite sapp_nil_r. apply unescape_plain.
        repeat (apply plain_app; try assumption; try reflexivity). }
      rewrite Hc. destruct (n - length b0) as [|q] eqn:Eq; [lia|].
      cbn [tks map mapLoop cursor pnext]. change (ty (tk (TCloseAngle, ">"%string))) with TCloseAngle. cbv iota.
      apply (compose_tks [(TWord, "map"); (TComposed, "<" ++ k ++ "," ++ v ++ ">")]%string); [discriminate|].
      unfold text. cbn [map snd sconcat]. rewrite sapp_nil_r. apply unescape_plain.
      repeat (apply plain_app; try assumption; try reflexivity). }
    assert (EA : ((TWord, "map"%string) :: b0 ++ (TOpenAngle, "<"%string) :: b1 ++ lk ++ b2 ++ (TComma, ","%string) :: b3 ++ lv ++ b4 ++ [(TCloseAngle, ">"%string)]) ++ rest
      = (TWord, "map"%string) :: b0 ++ (TOpenAngle, "<"%string) :: b1 ++ lk ++ b2 ++ (TComma, ","%string) :: b3 ++ lv ++ b4 ++ (TCloseAngle, ">"%string) :: rest).
    { cbn [app]. rewrite <- app_assoc. cbn [app]. rewrite <- !app_assoc. cbn [app]. rewrite <- !app_assoc. reflexivity. }
    etransitivity; [exact (f_equal (fun z => typeLoop (S (S n)) (tks z) acc) EA)|]. cbv beta. rewrite tks_cons. remember (S n) as m eqn:Em. cbn [typeLoop cursor pnext]. change (ty (tk (TWord, "map"%string))) with TWord. cbv iota.
    change (String.eqb (val (tk (TWord, "map"%string))) "map") with true. cbv iota.
    rewrite EM. subst m. rewrite typeLoop_stop by exact Hr. reflexivity.
Qed.

Lemma type_expect l t rest : TypeExpr l t -> stopT rest ->
  expectType (tks (l ++ rest)) = POk (tk (TComposed, t)) (tks rest).
Proof.
  intros HT Hr. unfold expectType. destruct (type_loop _ _ HT (typeFuel (tks (l ++ rest))) [] rest) as (ll & Hne & Ht & E).
  - unfold typeFuel, tks. rewrite map_length, app_length. lia.
  - exact Hr.
  - rewrite E. cbn [rev app]. apply compose_tks; [exact Hne|]. rewrite Ht. apply unescape_plain. now apply (type_plain l).
Qed.

(** ** heads *)
Lemma lineEnd_head e : LineEnd e -> exists x r, e = x :: r /\ (fst x = THash \/ fst x = TNewLine).
Proof. intros [c s l [->|[h body HF]] HG]; eexists _, _; split; try reflexivity; cbn; tauto. Qed.

(** the end of a line matches no pattern that starts with optional white space and then another token *)
Lemma eol_nomatch e r t w : Eol e -> t <> TWhitespace -> t <> TNewLine -> t <> THash -> t <> TEOL ->
  exists m, pmatch (TWhitespace :: t :: w) (tks (e ++ r)) = PErr m (tks (e ++ r)).
Proof.
  intros [s l HG|ws l HL] N1 N2 N3 N4; eexists; unfold pmatch.
  - cbn [app tks map matchGo cursor pnext tk ty fst snd]. change (tt_eqb TNewLine TWhitespace) with false.
    change (tt_eqb TWhitespace TEOL) with false. change (tt_eqb TWhitespace TWhitespace) with true. cbv iota.
    cbn [ty]. rewrite (tt_neqb TNewLine t), (tt_neqb t TEOL), (tt_neqb t TWhitespace) by congruence. reflexivity.
  - destruct (lineEnd_head _ HL) as ([xt xs] & r' & -> & Hx). cbn [fst] in Hx.
    cbn [app tks map matchGo cursor pnext tk ty fst snd]. change (tt_eqb TWhitespace TWhitespace) with true. cbv iota.
    cbn [cursor ty]. rewrite (tt_neqb xt t), (tt_neqb t TEOL), (tt_neqb t TWhitespace) by (destruct Hx; congruence). reflexivity.
Qed.
Lemma lineEnd_nomatch e r t w : LineEnd e -> t <> TWhitespace -> t <> TNewLine -> t <> THash -> t <> TEOL ->
  exists m, pmatch (TWhitespace :: t :: w) (tks (e ++ r)) = PErr m (tks (e ++ r)).
Proof.
  intros HL N1 N2 N3 N4. destruct (lineEnd_head _ HL) as ([xt xs] & r' & -> & Hx). cbn [fst] in Hx. eexists. unfold pmatch.
  cbn [app tks map matchGo cursor pnext tk ty fst snd]. rewrite (tt_neqb xt TWhitespace) by (destruct Hx; congruence).
  change (tt_eqb TWhitespace TEOL) with false. change (tt_eqb TWhitespace TWhitespace) with true. cbv iota.
  cbn [cursor ty]. rewrite (tt_neqb xt t), (tt_neqb t TEOL), (tt_neqb t TWhitespace) by (destruct Hx; congruence). reflexivity.
Qed.

(** white space is optional *)
Lemma pm_ws b x r w start acc : Blank b -> fst x <> TWhitespace ->
  exists z, matchGo start (tks (b ++ x :: r)) (TWhitespace :: w) acc = matchGo start (tks (x :: r)) w (z :: acc).
Proof. apply match_blank. Qed.

Lemma pm_ws_eq_ws {b1 e b2 x r} : Blank b1 -> Blank b2 -> fst x <> TWhitespace ->
  exists z, pmatch [TWhitespace; TEqual; TWhitespace] (tks (b1 ++ (TEqual, e) :: b2 ++ x :: r)) = POk z (tks (x :: r)).
Proof.
  intros B1 B2 Hx. unfold pmatch.
  destruct (pm_ws b1 (TEqual, e) (b2 ++ x :: r) [TEqual; TWhitespace] (tks (b1 ++ (TEqual, e) :: b2 ++ x :: r)) [] B1 ltac:(discriminate)) as (z & ->).
  change (tks ((TEqual, e) :: b2 ++ x :: r)) with (tk (TEqual, e) :: tks (b2 ++ x :: r)). rewrite (match_tok _ (TEqual, e)). cbn [fst].
  destruct (pm_ws b2 x r [] (tks (b1 ++ (TEqual, e) :: b2 ++ x :: r)) [tk (TEqual, e); z] B2 Hx) as (z' & ->). eexists. reflexivity.
Qed.

(** ** meta entries *)
Lemma meta_parts {p b0 k b1 e b2 lv v rest} (K : token -> token -> toks -> pstep) :
  Blank b0 -> plain k -> Blank b1 -> Blank b2 -> MetaValue lv v -> stops rest ->
  onOk (pmatch [TPlus; TWhitespace] (tks ((TPlus, p) :: b0 ++ (TWord, k) :: b1 ++ (TEqual, e) :: b2 ++ lv ++ rest))) (fun _ ts1 =>
  onOk (expectMetadataKey ts1) (fun k ts2 =>
  onOk (pmatch [TWhitespace; TEqual; TWhitespace] ts2) (fun _ ts3 =>
  onOk (expectMetadataValue ts3) (fun v ts4 => K k v ts4)))) = K (tk (TComposed, k)) (tk (TComposed, v)) (tks rest).
Proof.
  intros B0 Pk B1 B2 HV Hr.
  destruct (metaValue_head _ _ HV) as (x & lv' & Elv & Hx).
  assert (E1 : exists z, pmatch [TPlus; TWhitespace] (tks ((TPlus, p) :: b0 ++ (TWord, k) :: b1 ++ (TEqual, e) :: b2 ++ lv ++ rest))
     = POk z (tks ((TWord, k) :: b1 ++ (TEqual, e) :: b2 ++ lv ++ rest))).
  { destruct B0; eexists; reflexivity. }
  destruct E1 as (z1 & ->). cbn [onOk].
  assert (E2 : expectMetadataKey (tks ((TWord, k) :: b1 ++ (TEqual, e) :: b2 ++ lv ++ rest)) = POk (tk (TComposed, k)) (tks (b1 ++ (TEqual, e) :: b2 ++ lv ++ rest))).
  { assert (E : composeAt (tks [(TWord, k)]) (tks (b1 ++ (TEqual, e) :: b2 ++ lv ++ rest)) = POk (tk (TComposed, k)) (tks (b1 ++ (TEqual, e) :: b2 ++ lv ++ rest))).
    { apply compose_tks; [discriminate|]. rewrite text_one. now apply unescape_plain. }
    rewrite <- E. destruct B1; reflexivity. }
  rewrite E2. cbn [onOk].
  assert (E3 : exists z, pmatch [TWhitespace; TEqual; TWhitespace] (tks (b1 ++ (TEqual, e) :: b2 ++ lv ++ rest)) = POk z (tks (lv ++ rest))).
  { rewrite Elv. cbn [app]. now apply pm_ws_eq_ws. }
  destruct E3 as (z3 & ->). cbn [onOk]. now rewrite (metaValue_expect _ _ _ HV Hr).
Qed.

(** what may follow a declaration, an entry, a method *)
Definition declNext (nx : list lexeme) : Prop := nx = [] \/ exists w r, nx = (TWord, w) :: r.
Definition entryNext (nx : list lexeme) : Prop := declNext nx \/ exists m r, nx = (TMinus, m) :: r.

Lemma meta_stops e rest : Eol e -> stops (e ++ rest).
Proof. apply eol_stops. Qed.

Ltac assoc := repeat (rewrite <- app_assoc; cbn [app]).

Lemma aliasMeta lm metas : Many Meta lm metas -> forall a nx out, declNext nx ->
  same (PC (STypeAliasMeta a) (tks (lm ++ nx)) [] out)
       (PC SDefault (tks nx) [] (NAlias (Alias (al_name a) (al_type a) (al_meta a ++ metas) (al_comment a) (al_line a)) :: out)).
Proof.
  induction 1 as [|l kv ls r HM _ IH]; intros a nx out Hn.
  - cbn [app]. rewrite app_nil_r. destruct a as [n t m c ln]. cbn [al_name al_type al_meta al_comment al_line].
    destruct Hn as [->|(w & r & ->)]; apply sameEnd_step; reflexivity.
  - rewrite <- app_assoc. destruct HM as [p b0 k b1 e b2 lv v end_ B0 Pk B1 B2 HV HE].
    eapply sameEnd_trans.
    { cbn [app]. assoc. apply sameEnd_step. reflexivity. }
    eapply sameEnd_trans.
    { apply sameEnd_step. unfold step. cbn [p_state p_toks p_comments p_out].
      apply (meta_parts (fun k0 v0 ts4 => Next (PC (STypeAliasMeta (Alias (al_name a) (al_type a) (al_meta a ++ [(val k0, val v0)]) (al_comment a) (al_line a))) ts4 [] out)) B0 Pk B1 B2 HV).
      now apply eol_stops. }
    eapply sameEnd_trans; [apply (loop_eol _ HE); exact I|].
    eapply sameEnd_trans; [apply IH, Hn|]. cbn [al_name al_type al_meta al_comment al_line]. rewrite <- app_assoc. apply sameEnd_refl.
Qed.

Lemma addMeta_last n fs f c ln kv : addMeta (Struct n (fs ++ [f]) c ln) kv =
  Struct n (fs ++ [Def (d_left f) (d_right f) (d_optional f) (d_meta f ++ [kv]) (d_comment f)]) c ln.
Proof. unfold addMeta. cbn [s_fields s_name s_comment s_line]. rewrite rev_app_distr. cbn [rev app]. now rewrite rev_involutive. Qed.

Lemma fieldMeta lm metas : Many Meta lm metas -> forall n fs l r o ms cm c ln nx out, entryNext nx ->
  same (PC (SStructFieldMeta (Struct n (fs ++ [Def l r o ms cm]) c ln)) (tks (lm ++ nx)) [] out)
       (PC (SStructField (Struct n (fs ++ [Def l r o (ms ++ metas) cm]) c ln)) (tks nx) [] out).
Proof.
  induction 1 as [|lx kv ls rr HM _ IH]; intros n fs l r o ms cm c ln nx out Hn.
  - cbn [app]. rewrite app_nil_r. 
    destruct Hn as [[->|(w & r' & ->)]|(m & r' & ->)]; apply sameEnd_step; reflexivity.
  - rewrite <- app_assoc. destruct HM as [p b0 k b1 e b2 lv v end_ B0 Pk B1 B2 HV HE].
    eapply sameEnd_trans.
    { cbn [app]. assoc. apply sameEnd_step. reflexivity. }
    eapply sameEnd_trans.
    { apply sameEnd_step. unfold step. cbn [p_state p_toks p_comments p_out].
      apply (meta_parts (fun k0 v0 ts4 => Next (PC (SStructFieldMeta (addMeta (Struct n (fs ++ [Def l r o ms cm]) c ln) (val k0, val v0))) ts4 [] out)) B0 Pk B1 B2 HV).
      now apply eol_stops. }
    rewrite addMeta_last. cbn [d_left d_right d_optional d_meta d_comment].
    eapply sameEnd_trans; [apply (loop_eol _ HE); exact I|].
    eapply sameEnd_trans; [apply IH, Hn|]. rewrite <- app_assoc. apply sameEnd_refl.
Qed.

Lemma field_one l d : FieldDecl l d -> forall n fs c ln nx out, entryNext nx ->
  same (PC (SStructField (Struct n fs c ln)) (tks (l ++ nx)) [] out)
       (PC (SStructField (Struct n (fs ++ [d]) c ln)) (tks nx) [] out).
Proof.
  intros [m b0 f lo opt c0 b1 lt t end_ lm metas B0 HO B1 HT HE HM] n fs c ln nx out Hn.
  eapply sameEnd_trans.
  { cbn [app]. assoc. apply sameEnd_step. reflexivity. }
  destruct (type_head _ _ HT) as ([th ts] & lt' & Elt & Hh). cbn [fst] in Hh.
  eapply sameEnd_trans.
  { apply (sameEnd_step _ (PC (SStructFieldMeta (Struct n (fs ++ [Def f t opt [] ""]) c ln)) (tks (end_ ++ lm ++ nx)) [] out)).
    match goal with |- step (PC _ ?t _ _) = _ => change t with (tks ((TMinus, m) :: b0 ++ (TWord, f) :: lo ++ (TColon, c0) :: b1 ++ lt ++ end_ ++ lm ++ nx)) end.
    unfold step. cbn [p_state p_toks p_comments p_out].
    assert (E1 : exists z, pmatch [TMinus; TWhitespace; TWord] (tks ((TMinus, m) :: b0 ++ (TWord, f) :: lo ++ (TColon, c0) :: b1 ++ lt ++ end_ ++ lm ++ nx))
      = POk [tk (TMinus, m); z; tk (TWord, f)] (tks (lo ++ (TColon, c0) :: b1 ++ lt ++ end_ ++ lm ++ nx))).
    { destruct B0; eexists; reflexivity. }
    destruct E1 as (z1 & ->). cbn [onOk parseComments nth].
    assert (E2 : exists z, pmatch [TColon; TWhitespace] (tks ((TColon, c0) :: b1 ++ lt ++ end_ ++ lm ++ nx)) = POk z (tks (lt ++ end_ ++ lm ++ nx))).
    { rewrite Elt. destruct Hh as [-> | ->]; destruct B1; eexists; reflexivity. }
    destruct E2 as (z2 & E2).
    assert (E3 : expectType (tks (lt ++ end_ ++ lm ++ nx)) = POk (tk (TComposed, t)) (tks (end_ ++ lm ++ nx))).
    { apply type_expect; [exact HT|]. apply stops_stopT. now apply eol_stops. }
    destruct HO as [q|].
    - change (pmatch [TQuestion] (tks ([(TQuestion, q)] ++ (TColon, c0) :: b1 ++ lt ++ end_ ++ lm ++ nx)))
        with (POk [tk (TQuestion, q)] (tks ((TColon, c0) :: b1 ++ lt ++ end_ ++ lm ++ nx))). cbv iota.
      rewrite E2. cbn [onOk]. rewrite E3. reflexivity.
    - cbn [app]. change (pmatch [TQuestion] (tks ((TColon, c0) :: b1 ++ lt ++ end_ ++ lm ++ nx)))
        with (@PErr (list token) "expecting another token" (tks ((TColon, c0) :: b1 ++ lt ++ end_ ++ lm ++ nx))). cbv iota.
      rewrite E2. cbn [onOk]. rewrite E3. reflexivity. }
  eapply sameEnd_trans; [apply (loop_eol _ HE); exact I|].
  exact (fieldMeta _ _ HM n fs f t opt [] "" c ln nx out Hn).
Qed.

Lemma many_head {A} (P : list lexeme -> A -> Prop) ls r nx : Many P ls r ->
  (forall l a, P l a -> exists m l', l = (TMinus, m) :: l') -> declNext nx -> entryNext (ls ++ nx).
Proof.
  intros [|l a ls' r' H _] HP Hn; [now left|]. destruct (HP _ _ H) as (m & l' & ->). right. cbn [app]. eauto.
Qed.

Lemma fields_all ls fields : Many FieldDecl ls fields -> forall n fs c ln nx out, declNext nx ->
  same (PC (SStructField (Struct n fs c ln)) (tks (ls ++ nx)) [] out)
       (PC SDefault (tks nx) [] (NStruct (Struct n (fs ++ fields) c ln) :: out)).
Proof.
  induction 1 as [|l d ls r H HM IH]; intros n fs c ln nx out Hn.
  - cbn [app]. rewrite app_nil_r. destruct Hn as [->|(w & r & ->)]; apply sameEnd_step; reflexivity.
  - rewrite <- app_assoc. eapply sameEnd_trans; [apply (field_one _ _ H)|].
    { apply (many_head FieldDecl ls r); [exact HM| |exact Hn]. intros ? ? []; eexists _, _; reflexivity. }
    eapply sameEnd_trans; [apply IH, Hn|]. rewrite <- app_assoc. apply sameEnd_refl.
Qed.

(** ** enum members, lists *)
Lemma pm_minus_ws {b x r m} : Blank b -> fst x <> TWhitespace ->
  exists z, pmatch [TMinus; TWhitespace] (tks ((TMinus, m) :: b ++ x :: r)) = POk z (tks (x :: r)).
Proof.
  intros B Hx. unfold pmatch. change (tks ((TMinus, m) :: b ++ x :: r)) with (tk (TMinus, m) :: tks (b ++ x :: r)) at 2. rewrite (match_tok _ (TMinus, m)). cbn [fst].
  destruct (pm_ws b x r [] (tks ((TMinus, m) :: b ++ x :: r)) [tk (TMinus, m)] B Hx) as (z & ->). eexists. reflexivity.
Qed.
Lemma member_one l d : MemberDecl l d -> forall n t ms ln nx out,
  same (PC (SEnumDefinition (Enum n t ms "" ln)) (tks (l ++ nx)) [] out)
       (PC (SEnumDefinition (Enum n t (ms ++ [d]) "" ln)) (tks nx) [] out).
Proof.
  intros H n t ms ln nx out.
  assert (H1 : forall m b0 f r, Blank b0 ->
    same (PC (SEnumDefinition (Enum n t ms "" ln)) (tks ((TMinus, m) :: b0 ++ (TWord, f) :: r)) [] out)
         (PC (SEnumExplicitValue (Enum n t ms "" ln) (Def f "" false [] "")) (tks r) [] out)).
  { intros m b0 f r B0. apply sameEnd_step. destruct B0; reflexivity. }
  destruct H as [m b0 f end_ B0 HE|m b0 f b1 e b2 lv v end_ B0 B1 B2 HV HE]; cbn [app]; assoc.
  - eapply sameEnd_trans; [apply H1, B0|].
    destruct (eol_nomatch end_ nx TEqual [TWhitespace] HE) as (msg & E); try discriminate.
    eapply sameEnd_trans; [apply sameEnd_step; unfold step; cbn [p_state p_toks p_comments p_out]; rewrite E; reflexivity|].
    cbn [e_name e_type e_values e_comment e_line]. apply (loop_eol _ HE). exact I.
  - eapply sameEnd_trans; [apply H1, B0|].
    destruct (literal_head_ne _ _ _ HV) as (x & lv' & Elv & Hx & _).
    destruct (@pm_ws_eq_ws b1 e b2 x (lv' ++ end_ ++ nx) B1 B2 Hx) as (z & E).
    assert (EV : expectLiteralValue (tks (lv ++ end_ ++ nx)) = POk (tk (TComposed, v)) (tks (end_ ++ nx))).
    { apply literal_expect; [exact HV|]. now apply eol_stops. }
    rewrite Elv in EV. cbn [app] in EV.
    eapply sameEnd_trans.
    { apply sameEnd_step. unfold step. cbn [p_state p_toks p_comments p_out]. rewrite Elv. cbn [app]. unfold lexeme in *. rewrite E, EV. reflexivity. }
    cbn [e_name e_type e_values e_comment e_line d_left d_comment]. apply (loop_eol _ HE). exact I.
Qed.
Lemma members_all ls members : Many MemberDecl ls members -> forall n t ms ln nx out, declNext nx ->
  same (PC (SEnumDefinition (Enum n t ms "" ln)) (tks (ls ++ nx)) [] out)
       (PC SDefault (tks nx) [] (NEnum (Enum n t (ms ++ members) "" ln) :: out)).
Proof.
  induction 1 as [|l d ls r H HM IH]; intros n t ms ln nx out Hn.
  - cbn [app]. rewrite app_nil_r. destruct Hn as [->|(w & r & ->)]; apply sameEnd_step; reflexivity.
  - rewrite <- app_assoc. eapply sameEnd_trans; [apply (member_one _ _ H)|].
    eapply sameEnd_trans; [apply IH, Hn|]. rewrite <- app_assoc. apply sameEnd_refl.
Qed.

Lemma listItem_parts dots l v nx : ListItem dots l v -> exists end_, Eol end_ /\
  forall (K : token -> toks -> pstep),
  onOk (pmatch [TMinus; TWhitespace] (tks (l ++ nx))) (fun _ ts1 => onOk (litLoop dots ts1 []) K) = K (tk (TComposed, v)) (tks (end_ ++ nx)).
Proof.
  intros [m b lv v' end_ B HV HE]. exists end_. split; [exact HE|]. intro K. cbn [app]. assoc.
  destruct (literal_head_ne _ _ _ HV) as (x & lv' & Elv & Hx & _).
  assert (EV : litLoop dots (tks (lv ++ end_ ++ nx)) [] = POk (tk (TComposed, v')) (tks (end_ ++ nx))).
  { apply literal_expect; [exact HV|]. now apply eol_stops. }
  rewrite Elv in *. cbn [app] in *. destruct (@pm_minus_ws b x (lv' ++ end_ ++ nx) m B Hx) as (z & E). unfold lexeme in *. rewrite E. cbn [onOk]. now rewrite EV.
Qed.
Lemma paths_all ls paths : Many (ListItem true) ls paths -> forall nx out, declNext nx ->
  same (PC SImportValue (tks (ls ++ nx)) [] out)
       (PC SDefault (tks nx) [] (rev (map (fun p => NImport (Imp p [])) paths) ++ out)).
Proof.
  induction 1 as [|l d ls r H HM IH]; intros nx out Hn.
  - cbn [app map rev]. destruct Hn as [->|(w & r & ->)]; apply sameEnd_step; reflexivity.
  - rewrite <- app_assoc. destruct (listItem_parts _ _ _ (ls ++ nx) H) as (end_ & HE & EK).
    eapply sameEnd_trans.
    { apply (sameEnd_step _ (PC SImportValue (tks (end_ ++ ls ++ nx)) [] (NImport (Imp d []) :: out))).
      etransitivity; [|exact (EK (fun p ts2 => Next (PC SImportValue ts2 [] (NImport (Imp (val p) []) :: out))))].
      destruct H. reflexivity. }
    eapply sameEnd_trans; [apply (loop_eol _ HE); exact I|].
    eapply sameEnd_trans; [apply IH, Hn|]. cbn [map rev]. rewrite <- app_assoc. apply sameEnd_refl.
Qed.
Lemma impMembers_all ls members : Many (ListItem false) ls members -> forall p ms nx out, declNext nx ->
  same (PC (SImportMembers (Imp p ms)) (tks (ls ++ nx)) [] out)
       (PC SDefault (tks nx) [] (NImport (Imp p (ms ++ members)) :: out)).
Proof.
  induction 1 as [|l d ls r H HM IH]; intros p ms nx out Hn.
  - cbn [app]. rewrite app_nil_r. destruct Hn as [->|(w & r & ->)]; apply sameEnd_step; reflexivity.
  - rewrite <- app_assoc. destruct (listItem_parts _ _ _ (ls ++ nx) H) as (end_ & HE & EK).
    eapply sameEnd_trans.
    { apply (sameEnd_step _ (PC (SImportMembers (Imp p (ms ++ [d]))) (tks (end_ ++ ls ++ nx)) [] out)).
      etransitivity; [|exact (EK (fun m ts2 => Next (PC (SImportMembers (Imp p (ms ++ [val m]))) ts2 [] out)))].
      destruct H. reflexivity. }
    eapply sameEnd_trans; [apply (loop_eol _ HE); exact I|].
    eapply sameEnd_trans; [apply IH, Hn|]. rewrite <- app_assoc. apply sameEnd_refl.
Qed.
