(** The parser reads the documents of Grammar.v as specified there: declarations and whole documents. *)
From Coq Require Import ZifyBool ZifyN.
From Verif Require Import Base BaseProofs Utf8 Utf8Proofs Lexer LexSpec LexerProofs Tokenize Ast Parser
  ParserTerm PropsParserAux StringSpec StringProofs EraseProofs CommentBlock Grammar GrammarProofs GrammarMethods.

Lemma to_decl w r out : sameEnd (PC SDefault (tks ((TWord, w) :: r)) [] out) (PC SDeclaration (tks ((TWord, w) :: r)) [] out).
Proof. apply sameEnd_step. reflexivity. Qed.
Lemma literal_stop dots l s end_ rest : Literal dots l s -> Eol end_ ->
  litLoop dots (tks (l ++ end_ ++ rest)) [] = POk (tk (TComposed, s)) (tks (end_ ++ rest)).
Proof. intros HV HE. apply literal_expect; [exact HV|]. now apply eol_stops. Qed.

(** an end of line at the end of a pattern *)
Lemma match_eol start e r acc : Eol e -> exists z s g, Gap g /\
  matchGo start (tks (e ++ r)) [TEOL] acc = POk (rev (z :: acc)) (tks ((TNewLine, s) :: g ++ r)).
Proof.
  intro HE. destruct (eol_expect _ HE) as (s & g & HG & E). destruct (eol_head _ HE) as ([xt xs] & r' & Ee & Hx). cbn [fst] in Hx.
  eexists _, s, g. split; [exact HG|]. cbn [matchGo]. rewrite E.
  assert (Ht : tt_eqb (ty (cursor (tks (e ++ r)))) TEOL = false).
  { rewrite Ee. cbn [app tks map cursor tk ty fst]. destruct Hx as [-> | ->]; reflexivity. }
  rewrite Ht. change (tt_eqb TEOL TEOL) with true. cbv iota. reflexivity.
Qed.

Lemma loop_nl_gap st s g r out : loopState st -> Gap g ->
  sameEnd (PC st (tks ((TNewLine, s) :: g ++ r)) [] out) (PC st (tks r) [] out).
Proof. intros Hl HG. eapply sameEnd_trans; [now apply loop_nl|now apply loop_gap]. Qed.

Lemma item_def k b0 e b1 lv v end_ nx out :
  In k ["webrpc"; "name"; "version"; "basepath"]%string -> Blank b0 -> Blank b1 -> Literal false lv v -> Eol end_ ->
  sameEnd (PC SDefault (tks ((TWord, k) :: b0 ++ (TEqual, e) :: b1 ++ lv ++ end_ ++ nx)) [] out)
          (PC SDefault (tks nx) [] (NDef (Def k v false [] "") :: out)).
Proof.
  intros Hk B0 B1 HV HE. eapply sameEnd_trans; [apply to_decl|].
  eapply sameEnd_trans.
  { apply (sameEnd_step _ (PC SDefinition (tks ((TWord, k) :: b0 ++ (TEqual, e) :: b1 ++ lv ++ end_ ++ nx)) [] out)).
    cbn [In] in Hk. decompose [or] Hk; subst; try reflexivity; tauto. }
  destruct (literal_head_ne _ _ _ HV) as (x & lv' & Elv & Hx & _).
  destruct (@pm_ws_eq_ws b0 e b1 x (lv' ++ end_ ++ nx) B0 B1 Hx) as (z & E).
  eapply sameEnd_trans.
  { apply (sameEnd_step _ (PC (SDefinitionValue (Def k "" false [] "")) (tks (lv ++ end_ ++ nx)) [] out)).
    unfold step. cbn [p_state p_toks p_comments p_out].
    assert (EM : exists z', pmatch [TWord; TWhitespace; TEqual; TWhitespace] (tks ((TWord, k) :: b0 ++ (TEqual, e) :: b1 ++ lv ++ end_ ++ nx))
      = POk (tk (TWord, k) :: z') (tks (lv ++ end_ ++ nx))).
    { rewrite Elv. cbn [app]. destruct x as [xt xs]. cbn [fst] in Hx.
      destruct B0; destruct B1; cbn [app]; unfold pmatch; cbn [matchGo tks map cursor pnext tk ty fst snd];
        repeat match goal with |- context [tt_eqb ?a ?b] => progress (let v := eval cbv in (tt_eqb a b) in match v with true => change (tt_eqb a b) with true | false => change (tt_eqb a b) with false end) end;
        cbn [cursor ty]; try rewrite (tt_neqb xt TWhitespace Hx); eexists; reflexivity. }
    destruct EM as (z' & EM). unfold lexeme in *. rewrite EM. cbn [onOk cursor]. rewrite parseComments_nil. reflexivity. }
  eapply sameEnd_trans.
  { apply (sameEnd_step _ (PC SEOL (tks (end_ ++ nx)) [] (NDef (Def k v false [] "") :: out))).
    unfold step. cbn [p_state p_toks p_comments p_out]. unfold expectLiteralValue. rewrite (literal_stop _ _ _ _ _ HV HE). reflexivity. }
  destruct (eol_expect _ HE) as (s & g & HG & EE).
  eapply sameEnd_trans.
  { apply (sameEnd_step _ (PC SContinue (tks ((TNewLine, s) :: g ++ nx)) [] (NDef (Def k v false [] "") :: out))).
    unfold step. cbn [p_state p_toks p_comments p_out]. rewrite EE. reflexivity. }
  eapply sameEnd_trans; [apply (sameEnd_step _ (PC SDefault (tks (g ++ nx)) [] (NDef (Def k v false [] "") :: out))); reflexivity|].
  now apply loop_gap.
Qed.

Lemma item_enum b0 n c b1 t end_ ls members nx out :
  Blank b0 -> Blank b1 -> Eol end_ -> Many MemberDecl ls members -> declNext nx ->
  sameEnd (PC SDefault (tks ((TWord, "enum"%string) :: b0 ++ (TWord, n) :: (TColon, c) :: b1 ++ (TWord, t) :: end_ ++ ls ++ nx)) [] out)
          (PC SDefault (tks nx) [] (NEnum (Enum n t members "" 0) :: out)).
Proof.
  intros B0 B1 HE HM Hn. eapply sameEnd_trans; [apply to_decl|]. eapply sameEnd_trans; [apply sameEnd_step; reflexivity|].
  assert (EM : exists z1 z2 z3 z4 s g, Gap g /\
    pmatch [TWord; TWhitespace; TWord; TColon; TWhitespace; TWord; TEOL] (tks ((TWord, "enum"%string) :: b0 ++ (TWord, n) :: (TColon, c) :: b1 ++ (TWord, t) :: end_ ++ ls ++ nx))
    = POk [tk (TWord, "enum"%string); z1; tk (TWord, n); z2; z3; tk (TWord, t); z4] (tks ((TNewLine, s) :: g ++ ls ++ nx))).
  { unfold pmatch. destruct B0 as [|s0]; destruct B1 as [|s1]; cbn [app].
    all: match goal with |- context [matchGo ?st (tks _) _ []] => set (start := st) end.
    1: destruct (match_eol start end_ (ls ++ nx) [tk (TWord, t); Tok TWhitespace " " 0 0 0; tk (TColon, c); tk (TWord, n); Tok TWhitespace " " 0 0 0; tk (TWord, "enum"%string)] HE) as (z & s & g & HG & E).
    2: destruct (match_eol start end_ (ls ++ nx) [tk (TWord, t); tk (TWhitespace, s1); tk (TColon, c); tk (TWord, n); Tok TWhitespace " " 0 0 0; tk (TWord, "enum"%string)] HE) as (z & s & g & HG & E).
    3: destruct (match_eol start end_ (ls ++ nx) [tk (TWord, t); Tok TWhitespace " " 0 0 0; tk (TColon, c); tk (TWord, n); tk (TWhitespace, s0); tk (TWord, "enum"%string)] HE) as (z & s & g & HG & E).
    4: destruct (match_eol start end_ (ls ++ nx) [tk (TWord, t); tk (TWhitespace, s1); tk (TColon, c); tk (TWord, n); tk (TWhitespace, s0); tk (TWord, "enum"%string)] HE) as (z & s & g & HG & E).
    all: eexists _, _, _, _, s, g; split; [exact HG|]; etransitivity; [|etransitivity; [exact E|reflexivity]]; reflexivity. }
  destruct EM as (z1 & z2 & z3 & z4 & s & g & HG & EM).
  eapply sameEnd_trans.
  { apply (sameEnd_step _ (PC (SEnumDefinition (Enum n t [] "" 0)) (tks ((TNewLine, s) :: g ++ ls ++ nx)) [] out)).
    change (map tk (b0 ++ (TWord, n) :: (TColon, c) :: b1 ++ (TWord, t) :: end_ ++ ls ++ nx)) with (tks (b0 ++ (TWord, n) :: (TColon, c) :: b1 ++ (TWord, t) :: end_ ++ ls ++ nx)).
    unfold step. cbn [p_state p_toks p_comments p_out]. unfold lexeme in *.
    match goal with |- onOk (pmatch _ ?x) _ = _ => change x with (tks ((TWord, "enum"%string) :: b0 ++ (TWord, n) :: (TColon, c) :: b1 ++ (TWord, t) :: end_ ++ ls ++ nx)) end.
    unfold lexeme in *. rewrite EM. reflexivity. }
  eapply sameEnd_trans; [apply loop_nl_gap; [exact I|exact HG]|].
  exact (members_all _ _ HM n t [] 0 nx out Hn).
Qed.

Lemma item_struct b0 n end_ ls fields nx out : Blank b0 -> Eol end_ -> Many FieldDecl ls fields -> declNext nx ->
  sameEnd (PC SDefault (tks ((TWord, "struct"%string) :: b0 ++ (TWord, n) :: end_ ++ ls ++ nx)) [] out)
          (PC SDefault (tks nx) [] (NStruct (Struct n fields "" 0) :: out)).
Proof.
  intros B0 HE HM Hn. eapply sameEnd_trans; [apply to_decl|]. eapply sameEnd_trans; [apply sameEnd_step; reflexivity|].
  eapply sameEnd_trans.
  { apply (sameEnd_step _ (PC (SStructField (Struct n [] "" 0)) (tks (end_ ++ ls ++ nx)) [] out)). destruct B0; reflexivity. }
  eapply sameEnd_trans; [apply (loop_eol _ HE); exact I|].
  exact (fields_all _ _ HM n [] "" 0 nx out Hn).
Qed.

Lemma item_alias b0 n c b1 lt t end_ lm metas nx out :
  Blank b0 -> Blank b1 -> TypeExpr lt t -> Eol end_ -> Many Meta lm metas -> declNext nx ->
  sameEnd (PC SDefault (tks ((TWord, "type"%string) :: b0 ++ (TWord, n) :: (TColon, c) :: b1 ++ lt ++ end_ ++ lm ++ nx)) [] out)
          (PC SDefault (tks nx) [] (NAlias (Alias n t metas "" 0) :: out)).
Proof.
  intros B0 B1 HT HE HM Hn. eapply sameEnd_trans; [apply to_decl|]. eapply sameEnd_trans; [apply sameEnd_step; reflexivity|].
  destruct (type_head _ _ HT) as ([th ts] & lt' & Elt & Hh). cbn [fst] in Hh.
  assert (EM : exists z1 z2 z3, pmatch [TWord; TWhitespace; TWord; TColon; TWhitespace] (tks ((TWord, "type"%string) :: b0 ++ (TWord, n) :: (TColon, c) :: b1 ++ lt ++ end_ ++ lm ++ nx))
    = POk [tk (TWord, "type"%string); z1; tk (TWord, n); z2; z3] (tks (lt ++ end_ ++ lm ++ nx))).
  { rewrite Elt. destruct Hh as [-> | ->]; destruct B0; destruct B1; eexists _, _, _; reflexivity. }
  destruct EM as (z1 & z2 & z3 & EM).
  assert (ET : expectType (tks (lt ++ end_ ++ lm ++ nx)) = POk (tk (TComposed, t)) (tks (end_ ++ lm ++ nx))).
  { apply type_expect; [exact HT|]. apply stops_stopT. now apply eol_stops. }
  eapply sameEnd_trans.
  { apply (sameEnd_step _ (PC (STypeAliasMeta (Alias n t [] "" 0)) (tks (end_ ++ lm ++ nx)) [] out)).
    unfold step. cbn [p_state p_toks p_comments p_out].
    match goal with |- onOk (pmatch _ ?x) _ = _ => change x with (tks ((TWord, "type"%string) :: b0 ++ (TWord, n) :: (TColon, c) :: b1 ++ lt ++ end_ ++ lm ++ nx)) end.
    unfold lexeme in *. rewrite EM. cbn [onOk nth].
    change (String.eqb (val (tk (TWord, "type"%string))) "type") with true. cbn [negb]. rewrite ET. reflexivity. }
  eapply sameEnd_trans; [apply (loop_eol _ HE); exact I|].
  exact (aliasMeta _ _ HM (Alias n t [] "" 0) nx out Hn).
Qed.

Lemma item_error b0 code b1 n b2 lm msg ls status end_ nx out :
  Blank b0 -> number code -> Blank b1 -> Blank b2 -> StringLit lm msg \/ lm = [(TWord, msg)] ->
  (ls = [] /\ status = None \/
   exists b3 b4 s, Blank b3 /\ Blank b4 /\ number s /\
     ls = b3 ++ (TWord, "HTTP"%string) :: b4 ++ [(TWord, s)] /\ status = Some s) ->
  Eol end_ ->
  sameEnd (PC SDefault (tks ((TWord, "error"%string) :: b0 ++ (TWord, code) :: b1 ++ (TWord, n) :: b2 ++ lm ++ ls ++ end_ ++ nx)) [] out)
          (PC SDefault (tks nx) [] (NError (ErrN code n msg status) :: out)).
Proof.
  intros B0 Hc B1 B2 HM HS HE. eapply sameEnd_trans; [apply to_decl|]. eapply sameEnd_trans; [apply sameEnd_step; reflexivity|].
  assert (Hh : exists th v lm', lm = (th, v) :: lm' /\ (th = TQuote \/ th = TWord)).
  { destruct HM as [HM| ->]; [|eexists _, _, _; split; [reflexivity|tauto]]. destruct (string_head _ _ HM) as (q & r & ->). eexists _, _, _; split; [reflexivity|tauto]. }
  destruct Hh as (th & tv0 & lm' & Elm & Hh).
  assert (EM : exists z1 z2 z3, pmatch [TWord; TWhitespace; TWord; TWhitespace; TWord; TWhitespace] (tks ((TWord, "error"%string) :: b0 ++ (TWord, code) :: b1 ++ (TWord, n) :: b2 ++ lm ++ ls ++ end_ ++ nx))
    = POk [tk (TWord, "error"%string); z1; tk (TWord, code); z2; tk (TWord, n); z3] (tks (lm ++ ls ++ end_ ++ nx))).
  { rewrite Elm. destruct Hh as [-> | ->]; destruct B0; destruct B1; destruct B2; eexists _, _, _; reflexivity. }
  destruct EM as (z1 & z2 & z3 & EM).
  eapply sameEnd_trans.
  { apply (sameEnd_step _ (PC (SErrorMessage (ErrN code n "" None)) (tks (lm ++ ls ++ end_ ++ nx)) [] out)).
    unfold step. cbn [p_state p_toks p_comments p_out].
    match goal with |- onOk (pmatch _ ?x) _ = _ => change x with (tks ((TWord, "error"%string) :: b0 ++ (TWord, code) :: b1 ++ (TWord, n) :: b2 ++ lm ++ ls ++ end_ ++ nx)) end.
    unfold lexeme in *. rewrite EM. cbn [onOk nth].
    change (String.eqb (val (tk (TWord, "error"%string))) "error") with true. cbn [negb].
    change (val (tk (TWord, code))) with code. unfold isNumber. rewrite Hc. reflexivity. }
  eapply sameEnd_trans.
  { apply (sameEnd_step _ (PC (SErrorStatus (ErrN code n msg None)) (tks (ls ++ end_ ++ nx)) [] out)).
    destruct HM as [HM| ->]; [|reflexivity].
    pose proof (string_expect _ _ (ls ++ end_ ++ nx) HM) as ES. destruct (string_head _ _ HM) as (q & r & ->).
    unfold step. cbn [p_state p_toks p_comments p_out]. cbn [app] in *.
    change (ty (cursor (tks ((TQuote, q) :: r ++ ls ++ end_ ++ nx)))) with TQuote. cbv iota. unfold lexeme in *. rewrite ES. reflexivity. }
  destruct (eol_expect _ HE) as (s & g & HG & EE).
  eapply sameEnd_trans; [|apply (loop_nl_gap SDefault s g); [exact I|exact HG]].
  destruct HS as [[-> ->]|(b3 & b4 & st & B3 & B4 & Hst & -> & ->)].
  - cbn [app]. apply sameEnd_step. unfold step. cbn [p_state p_toks p_comments p_out].
    destruct (eol_nomatch end_ nx TWord [] HE) as (m & ->); try discriminate. rewrite EE. reflexivity.
  - assoc. apply sameEnd_step. unfold step. cbn [p_state p_toks p_comments p_out].
    assert (E1 : exists z, pmatch [TWhitespace; TWord] (tks (b3 ++ (TWord, "HTTP"%string) :: b4 ++ (TWord, st) :: end_ ++ nx))
      = POk [z; tk (TWord, "HTTP"%string)] (tks (b4 ++ (TWord, st) :: end_ ++ nx))) by (destruct B3; eexists; reflexivity).
    assert (E2 : exists z, pmatch [TWhitespace; TWord] (tks (b4 ++ (TWord, st) :: end_ ++ nx))
      = POk [z; tk (TWord, st)] (tks (end_ ++ nx))) by (destruct B4; eexists; reflexivity).
    destruct E1 as (w1 & E1), E2 as (w2 & E2). unfold lexeme in *. rewrite E1. cbn [nth].
    change (String.eqb (val (tk (TWord, "HTTP"%string))) "HTTP") with true. cbn [negb]. rewrite E2. cbn [nth].
    change (val (tk (TWord, st))) with st. unfold isNumber. rewrite Hst, EE. reflexivity.
Qed.

Lemma item_imports end_ ls paths nx out : Eol end_ -> Many (ListItem true) ls paths -> declNext nx ->
  sameEnd (PC SDefault (tks ((TWord, "import"%string) :: end_ ++ ls ++ nx)) [] out)
          (PC SDefault (tks nx) [] (rev (map (fun p => NImport (Imp p [])) paths) ++ out)).
Proof.
  intros HE HM Hn. eapply sameEnd_trans; [apply to_decl|]. eapply sameEnd_trans; [apply sameEnd_step; reflexivity|].
  destruct (match_eol (tks ((TWord, "import"%string) :: end_ ++ ls ++ nx)) end_ (ls ++ nx) [tk (TWord, "import"%string)] HE) as (z & s & g & HG & E).
  eapply sameEnd_trans.
  { apply (sameEnd_step _ (PC SImportValue (tks ((TNewLine, s) :: g ++ ls ++ nx)) [] out)).
    unfold step. cbn [p_state p_toks p_comments p_out].
    match goal with |- match pmatch ?w ?x with _ => _ end = _ =>
      assert (EP : pmatch w x = POk [tk (TWord, "import"%string); z] (tks ((TNewLine, s) :: g ++ ls ++ nx))) end.
    { etransitivity; [|exact E]. reflexivity. }
    rewrite EP. reflexivity. }
  eapply sameEnd_trans; [apply loop_nl_gap; [exact I|exact HG]|]. now apply paths_all.
Qed.
Lemma item_import b lp p end_ ls members nx out : Blank b -> Literal true lp p -> Eol end_ -> Many (ListItem false) ls members -> declNext nx ->
  sameEnd (PC SDefault (tks ((TWord, "import"%string) :: b ++ lp ++ end_ ++ ls ++ nx)) [] out)
          (PC SDefault (tks nx) [] (NImport (Imp p members) :: out)).
Proof.
  intros B HP HE HM Hn. eapply sameEnd_trans; [apply to_decl|]. eapply sameEnd_trans; [apply sameEnd_step; reflexivity|].
  destruct (literal_head _ _ _ HP) as ([xt xs] & lp' & Elp & Hx). unfold bareLexeme in Hx. cbn [fst] in Hx.
  pose proof (literal_stop _ _ _ end_ (ls ++ nx) HP HE) as EP.
  eapply sameEnd_trans.
  { apply (sameEnd_step _ (PC (SImportMembers (Imp p [])) (tks (end_ ++ ls ++ nx)) [] out)).
    unfold step. cbn [p_state p_toks p_comments p_out].
    match goal with |- match pmatch ?w ?x with _ => _ end = _ =>
      assert (EM : exists m, pmatch w x = PErr m (tks (lp ++ end_ ++ ls ++ nx))) end.
    { rewrite Elp. unfold pmatch. destruct B; destruct Hx as [-> | [-> | [-> | [_ ->]]]]; eexists; reflexivity. }
    destruct EM as (m & EM). rewrite EM.
    assert (EW : exists zz, pmatch [TWhitespace] (tks (lp ++ end_ ++ ls ++ nx)) = POk zz (tks (lp ++ end_ ++ ls ++ nx))).
    { rewrite Elp. destruct Hx as [-> | [-> | [-> | [_ ->]]]]; eexists; reflexivity. }
    destruct EW as (zz & EW). unfold lexeme in *. rewrite EW. cbn [onOk]. unfold expectPath. rewrite EP. reflexivity. }
  eapply sameEnd_trans; [apply (loop_eol _ HE); exact I|].
  exact (impMembers_all _ _ HM p [] nx out Hn).
Qed.

Lemma item_service b0 ln n end_ ls ms nx out : Blank b0 -> Literal false ln n -> Eol end_ -> Methods nx ls ms -> declNext nx ->
  sameEnd (PC SDefault (tks ((TWord, "service"%string) :: b0 ++ ln ++ end_ ++ ls ++ nx)) [] out)
          (PC SDefault (tks nx) [] (NService (Service n ms [] "") :: out)).
Proof.
  intros B HP HE HM Hn. eapply sameEnd_trans; [apply to_decl|]. eapply sameEnd_trans; [apply sameEnd_step; reflexivity|].
  destruct (literal_head _ _ _ HP) as ([xt xs] & lp' & Elp & Hx). unfold bareLexeme in Hx. cbn [fst] in Hx.
  pose proof (literal_stop _ _ _ end_ (ls ++ nx) HP HE) as EP.
  destruct (eol_expect _ HE) as (s & g & HG & EE).
  eapply sameEnd_trans.
  { apply (sameEnd_step _ (PC (SServiceMethod (Service n [] [] "")) (tks ((TNewLine, s) :: g ++ ls ++ nx)) [] out)).
    unfold step. cbn [p_state p_toks p_comments p_out].
    match goal with |- onOk (pmatch ?w ?x) _ = _ =>
      assert (EM : exists z, pmatch w x = POk [tk (TWord, "service"%string); z] (tks (ln ++ end_ ++ ls ++ nx))) end.
    { rewrite Elp. unfold pmatch. destruct B; destruct Hx as [-> | [-> | [-> | [_ ->]]]]; eexists; reflexivity. }
    destruct EM as (z & EM). rewrite EM. cbn [onOk cursor].
    change (String.eqb (val (tk (TWord, "service"%string))) "service") with true. cbn [negb].
    unfold expectLiteralValue. unfold lexeme in *. rewrite EP. cbn [onOk]. rewrite EE. reflexivity. }
  eapply sameEnd_trans; [apply loop_nl_gap; [exact I|exact HG]|].
  exact (methods_all _ _ _ HM Hn n [] "" out).
Qed.

Lemma item_one l ns nx : Item l ns nx -> declNext nx -> forall out,
  sameEnd (PC SDefault (tks (l ++ nx)) [] out) (PC SDefault (tks nx) [] (rev ns ++ out)).
Proof.
  intros H Hn out. destruct H; cbn [app rev]; assoc.
  - now apply item_def.
  - now apply item_imports.
  - now apply item_import.
  - now apply item_enum.
  - now apply item_struct.
  - now apply item_alias.
  - now apply item_error.
  - now apply item_service.
Qed.
Lemma items_next ls nodes : Items ls nodes -> declNext ls.
Proof. intros [|l ns ls' rs H _]; [now left|]. right. destruct H; cbn [app]; eauto. Qed.
Lemma items_all ls nodes : Items ls nodes -> forall out,
  sameEnd (PC SDefault (tks ls) [] out) (PC SEOF [] [] (rev nodes ++ out)).
Proof.
  induction 1 as [|l ns ls rs H HI IH]; intro out.
  - apply sameEnd_step. reflexivity.
  - eapply sameEnd_trans; [apply (item_one _ _ _ H); now apply items_next in HI|].
    eapply sameEnd_trans; [apply IH|]. rewrite rev_app_distr, <- app_assoc. apply sameEnd_refl.
Qed.

Lemma document_tokens l nodes : Document l nodes -> exists k, runParser k (PC SDefault (tks l) [] []) = Parsed nodes.
Proof.
  intros [g ls nodes' HG HI]. apply (loop_gap _ HG); [exact I|exact I|]. apply (items_all _ _ HI []); [exact I|].
  exists 1. cbn. now rewrite app_nil_r, rev_involutive.
Qed.

Lemma sv_tk segs : map (fun x : lexeme => tk x) (map sv segs) = tks (map sv segs). Proof. reflexivity. Qed.
Lemma eTs_lex ts l : map tv ts = l -> eTs ts = tks l.
Proof. intros <-. unfold eTs, tks. rewrite map_map. reflexivity. Qed.

Lemma document_parse text segs nodes : forallb valid_rune text = true -> Segments text segs -> Document (map sv segs) nodes ->
  eR (parseRidl (encode text)) = Parsed nodes.
Proof.
  intros HV HS HD. destruct (document_tokens _ _ HD) as (k & Hk).
  destruct (init_segments (encode text)) as (sg & HS1 & HM). rewrite (decode_encode text HV) in HS1.
  rewrite (segments_unique _ _ _ HS1 HS) in HM.
  assert (HE : eC (initConf (encode text)) = PC SDefault (tks (map sv segs)) [] []).
  { rewrite <- (eTs_lex _ _ HM). unfold initConf. destruct (tokenize (encode text)) as [t c]. reflexivity. }
  rewrite <- HE, run_e in Hk.
  assert (V : verdict (runParser k (initConf (encode text)))) by (apply verdict_e; rewrite Hk; exact I).
  rewrite <- Hk. f_equal. unfold parseRidl.
  rewrite <- (run_mono k _ _ eq_refl V (k + parserFuel (p_toks (initConf (encode text)))) ltac:(lia)).
  symmetry. apply fuel_irrelevant. lia.
Qed.
