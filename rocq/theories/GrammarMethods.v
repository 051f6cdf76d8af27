(** The parser reads the services and documents of Grammar.v as specified there. *)
From Coq Require Import ZifyBool ZifyN.
From Verif Require Import Base BaseProofs Utf8 Utf8Proofs Lexer LexSpec LexerProofs Tokenize Ast Parser
  ParserTerm PropsParserAux StringSpec StringProofs EraseProofs CommentBlock Grammar GrammarProofs.

(** ** arguments *)
Lemma args_loop l a : ArgDecls l a -> forall n acc rest, length l <= n ->
  argLoop n (tks (l ++ rest)) acc = POk (rev acc ++ a) (tks rest).
Proof.
  induction 1 as [p|x l a Hx HA IH|w lo opt c b lt t x l a HO B HT Hx HA IH]; intros n acc rest Hn.
  - destruct n as [|n]; [cbn in Hn; lia|]. cbn. now rewrite app_nil_r.
  - cbn [length] in Hn. destruct n as [|n]; [lia|]. destruct x as [xt xs]. unfold separator in Hx. cbn [fst] in Hx.
    specialize (IH n acc rest ltac:(lia)). destruct Hx as [-> | [-> | ->]]; exact IH.
  - destruct (type_head _ _ HT) as ([th ts] & lt' & Elt & Hh). cbn [fst] in Hh.
    cbn [length] in Hn. rewrite !app_length in Hn. cbn [length] in Hn. rewrite !app_length in Hn. cbn [length] in Hn.
    destruct n as [|n]; [lia|].
    specialize (IH n (Arg w t opt None :: acc) rest ltac:(cbn [length]; lia)). cbn [rev] in IH. rewrite <- app_assoc in IH. cbn [app] in IH.
    assert (ET : expectType (tks (lt ++ x :: l ++ rest)) = POk (tk (TComposed, t)) (tks (x :: l ++ rest))).
    { apply type_expect; [exact HT|]. apply stopT_cons. unfold separator in Hx. cbn [In]. intuition. }
    assert (EQ : exists z, pmatch [TColon; TWhitespace] (tks ((TColon, c) :: b ++ lt ++ x :: l ++ rest)) = POk z (tks (lt ++ x :: l ++ rest))).
    { rewrite Elt. destruct Hh as [-> | ->]; destruct B; eexists; reflexivity. }
    cbn [app]. assoc.
    assert (EP : exists z, (match lo with [] => pmatch [TWord; TColon; TWhitespace] | _ => pmatch [TWord; TQuestion; TColon; TWhitespace] end)
       (tks ((TWord, w) :: lo ++ (TColon, c) :: b ++ lt ++ x :: l ++ rest)) = POk (tk (TWord, w) :: z) (tks (lt ++ x :: l ++ rest))).
    { rewrite Elt. destruct HO; destruct Hh as [-> | ->]; destruct B; eexists; reflexivity. }
    destruct EP as (z & EP). destruct HO as [q|]; cbn [app] in *.
    + cbn [argLoop]. change (ty (cursor (tks ((TWord, w) :: (TQuestion, q) :: (TColon, c) :: b ++ lt ++ x :: l ++ rest)))) with TWord. cbv iota.
      change (pmatch [TWord; TCloseParen] (tks ((TWord, w) :: (TQuestion, q) :: (TColon, c) :: b ++ lt ++ x :: l ++ rest)))
        with (@PErr (list token) "expecting another token" (tks ((TWord, w) :: (TQuestion, q) :: (TColon, c) :: b ++ lt ++ x :: l ++ rest))). cbv iota.
      unfold lexeme in *. rewrite EP, ET. exact IH.
    + cbn [argLoop]. change (ty (cursor (tks ((TWord, w) :: (TColon, c) :: b ++ lt ++ x :: l ++ rest)))) with TWord. cbv iota.
      change (pmatch [TWord; TCloseParen] (tks ((TWord, w) :: (TColon, c) :: b ++ lt ++ x :: l ++ rest)))
        with (@PErr (list token) "expecting another token" (tks ((TWord, w) :: (TColon, c) :: b ++ lt ++ x :: l ++ rest))).
      change (pmatch [TWord; TQuestion; TColon; TWhitespace] (tks ((TWord, w) :: (TColon, c) :: b ++ lt ++ x :: l ++ rest)))
        with (@PErr (list token) "expecting another token" (tks ((TWord, w) :: (TColon, c) :: b ++ lt ++ x :: l ++ rest))). cbv iota.
      unfold lexeme in *. rewrite EP, ET. exact IH.
Qed.
Lemma expectArgs_paren p r : expectArgumentList (tks ((TOpenParen, p) :: r)) = argLoop (S (length (tks r))) (tks r) [].
Proof. reflexivity. Qed.
Lemma args_expect l a rest : ArgList l a -> expectArgumentList (tks (l ++ rest)) = POk a (tks rest).
Proof.
  intros [p l' a' H]. cbn [app]. rewrite expectArgs_paren. rewrite (args_loop _ _ H); [reflexivity|].
  unfold tks. rewrite map_length, app_length. lia.
Qed.
Lemma succinct_loop seps s p x rest : Forall separator seps -> forall n acc, length seps < n ->
  argLoop n (tks (seps ++ (TWord, s) :: (TCloseParen, p) :: x :: rest)) acc = POk (rev acc ++ [Arg "" "" false (Some s)]) (tks rest).
Proof.
  induction 1 as [|y seps Hy HF IH]; intros n acc Hn; (destruct n as [|n]; [cbn in Hn; lia|]).
  - reflexivity.
  - cbn [length] in Hn. specialize (IH n acc ltac:(lia)). destruct y as [yt ys]. unfold separator in Hy. cbn [fst] in Hy.
    destruct Hy as [-> | [-> | ->]]; exact IH.
Qed.
Lemma succinct_expect l a x rest : Succinct l a -> expectArgumentList (tks (l ++ x :: rest)) = POk a (tks rest).
Proof.
  intros [p seps s p' HF]. cbn [app]. assoc. rewrite expectArgs_paren. rewrite succinct_loop; [reflexivity|exact HF|].
  unfold tks. rewrite map_length, app_length. lia.
Qed.
Lemma args_head l a : ArgList l a -> exists p r, l = (TOpenParen, p) :: r. Proof. intros []. eauto. Qed.
Lemma succinct_head l a : Succinct l a -> exists p r, l = (TOpenParen, p) :: r. Proof. intros []. eauto. Qed.

(** ** errors *)
Lemma errors_loop l ws : Many ErrorAlt l ws -> forall n acc end_ rest, length l < n -> Eol end_ ->
  errListLoop n (tks (l ++ end_ ++ rest)) acc = POk (rev acc ++ ws) (tks (end_ ++ rest)).
Proof.
  induction 1 as [|l a ls r H HM IH]; intros n acc end_ rest Hn HE; (destruct n as [|n]; [lia|]).
  - cbn [app errListLoop]. destruct (eol_nomatch end_ rest TBar [TWhitespace; TWord] HE) as (m & ->); try discriminate.
    now rewrite app_nil_r.
  - destruct H as [b0 b b1 w B0 B1]. rewrite !app_length in Hn. cbn [length] in Hn. 
    specialize (IH n (w :: acc) end_ rest ltac:(lia) HE). cbn [rev] in IH. rewrite <- app_assoc in IH. cbn [app] in IH.
    assoc. cbn [errListLoop].
    assert (EP : exists z1 z2, pmatch [TWhitespace; TBar; TWhitespace; TWord] (tks (b0 ++ (TBar, b) :: b1 ++ (TWord, w) :: ls ++ end_ ++ rest))
      = POk [z1; tk (TBar, b); z2; tk (TWord, w)] (tks (ls ++ end_ ++ rest))).
    { destruct B0; destruct B1; eexists _, _; reflexivity. }
    destruct EP as (z1 & z2 & EP). unfold lexeme in *. rewrite EP. exact IH.
Qed.
Lemma errors_clause le es end_ rest f : ErrorsClause le es -> Eol end_ ->
  methodErrors f (tks (le ++ end_ ++ rest)) = f es (tks (end_ ++ rest)).
Proof.
  intros [|b0 b1 w l ws B0 B1 HM] HE; unfold methodErrors.
  - cbn [app]. destruct (eol_nomatch end_ rest TWord [] HE) as (m & ->); try discriminate. reflexivity.
  - assoc.
    assert (E1 : exists z, pmatch [TWhitespace; TWord] (tks (b0 ++ (TWord, "errors"%string) :: b1 ++ (TWord, w) :: l ++ end_ ++ rest))
      = POk [z; tk (TWord, "errors"%string)] (tks (b1 ++ (TWord, w) :: l ++ end_ ++ rest))).
    { destruct B0; eexists; reflexivity. }
    assert (E2 : exists z, pmatch [TWhitespace; TWord] (tks (b1 ++ (TWord, w) :: l ++ end_ ++ rest))
      = POk [z; tk (TWord, w)] (tks (l ++ end_ ++ rest))).
    { destruct B1; eexists; reflexivity. }
    destruct E1 as (z1 & E1), E2 as (z2 & E2). unfold lexeme in *. rewrite E1. cbn [nth tk val snd].
    change (String.eqb "errors" "errors") with true. cbv iota. unfold expectErrorList. rewrite E2.
    cbn [nth]. change (val (tk (TWord, w))) with w. rewrite (errors_loop _ _ HM); [reflexivity| |exact HE].
    unfold tks. rewrite map_length, !app_length. unfold lexeme in *. lia.
Qed.

(** ** results *)
Definition skipped (t : list lexeme) (nx : list lexeme) : Prop :=
  forall st out, loopState st -> sameEnd (PC st (tks (t ++ nx)) [] out) (PC st (tks nx) [] out).
Lemma not_wordNext l : ~ wordNext l -> exists m ts, pmatch [TWhitespace; TWord] (tks l) = PErr m ts.
Proof.
  intro H. unfold pmatch. destruct l as [|[xt xs] r]; [eexists _, _; reflexivity|].
  cbn [tks map matchGo cursor pnext tk ty fst snd].
  destruct (ttype_eq_dec xt TWhitespace) as [->|Hw].
  - change (tt_eqb TWhitespace TWhitespace) with true. cbv iota. destruct r as [|[yt ys] r]; [eexists _, _; reflexivity|].
    cbn [map cursor tk ty fst]. rewrite (tt_neqb yt TWord); [eexists _, _; reflexivity|].
    intros ->. apply H. right. eauto.
  - rewrite (tt_neqb xt TWhitespace) by exact Hw. change (tt_eqb TWhitespace TEOL) with false.
    change (tt_eqb TWhitespace TWhitespace) with true. cbv iota. cbn [cursor ty].
    rewrite (tt_neqb xt TWord); [eexists _, _; reflexivity|]. intros ->. apply H. left. eauto.
Qed.
Lemma pm_rocket b0 r b1 x rest : Blank b0 -> Blank b1 -> fst x <> TWhitespace ->
  exists z, pmatch [TWhitespace; TRocket; TWhitespace] (tks (b0 ++ (TRocket, r) :: b1 ++ x :: rest)) = POk z (tks (x :: rest)).
Proof.
  intros B0 B1 Hx. unfold pmatch.
  destruct (pm_ws b0 (TRocket, r) (b1 ++ x :: rest) [TRocket; TWhitespace] (tks (b0 ++ (TRocket, r) :: b1 ++ x :: rest)) [] B0 ltac:(discriminate)) as (z & ->).
  change (tks ((TRocket, r) :: b1 ++ x :: rest)) with (tk (TRocket, r) :: tks (b1 ++ x :: rest)). rewrite (match_tok _ (TRocket, r)). cbn [fst].
  destruct (pm_ws b1 x rest [] (tks (b0 ++ (TRocket, r) :: b1 ++ x :: rest)) [tk (TRocket, r); z] B1 Hx) as (z' & ->). eexists. reflexivity.
Qed.

(** the part up to the outputs *)
Lemma outputs_start b0 r b1 ls st p la rest fin : Blank b0 -> Blank b1 -> StreamMark ls st ->
  methodOutputs fin (tks (b0 ++ (TRocket, r) :: b1 ++ ls ++ ((TOpenParen, p) :: la) ++ rest)) =
  onOk (expectArgumentList (tks (((TOpenParen, p) :: la) ++ rest))) (fun outs ts5 => methodErrors (fin st outs) ts5).
Proof.
  intros B0 B1 HS. unfold methodOutputs. destruct HS as [s|].
  - destruct (pm_rocket b0 r b1 (TWord, "stream"%string) ([(TWhitespace, s)] ++ ((TOpenParen, p) :: la) ++ rest) B0 B1 ltac:(discriminate)) as (z & E).
    cbn [app] in *. unfold lexeme in *. rewrite E. reflexivity.
  - destruct (pm_rocket b0 r b1 (TOpenParen, p) (la ++ rest) B0 B1 ltac:(discriminate)) as (z & E).
    cbn [app] in *. unfold lexeme in *. rewrite E. reflexivity.
Qed.

Lemma result_tail lt st o es nx : ResultTail lt st o es nx -> exists tail, skipped tail nx /\
  forall fin, methodOutputs fin (tks (lt ++ nx)) = fin st o es (tks (tail ++ nx)).
Proof.
  intros [le es' end_ nx' HEr HE
         |b0 r b1 ls st' la a le es' end_ nx' B0 B1 HS HA HEr HE
         |b0 r b1 ls st' la a s le es' end_ nx' B0 B1 HS HA HEr Hne HE
         |b0 r b1 ls st' la a s end_ nx' B0 B1 HS HA HL
         |b0 r b1 ls st' la a s gap nx' B0 B1 HS HA HG Hw].
  - exists end_. split; [intros st'' out Hl; now apply loop_eol|]. intro fin. assoc. unfold methodOutputs.
    assert (E : exists m ts, pmatch [TWhitespace; TRocket; TWhitespace] (tks (le ++ end_ ++ nx')) = PErr m ts).
    { destruct HEr as [|b0 b1 w l ws B0 B1 HM].
      - cbn [app]. destruct (eol_nomatch end_ nx' TRocket [TWhitespace] HE) as (m & ->); try discriminate. eauto.
      - destruct B0; eexists _, _; reflexivity. }
    destruct E as (m & ts & E). unfold lexeme in *. rewrite E. now apply errors_clause.
  - exists end_. split; [intros st'' out Hl; now apply loop_eol|]. intro fin. assoc.
    destruct (args_head _ _ HA) as (p & r' & Ela). pose proof (args_expect _ _ (le ++ end_ ++ nx') HA) as EA. rewrite Ela in *.
    rewrite (outputs_start b0 r b1 ls st') by assumption. unfold lexeme in *. rewrite EA. cbn [onOk]. now apply errors_clause.
  - exists end_. split; [intros st'' out Hl; now apply loop_eol|]. intro fin. assoc.
    destruct (succinct_head _ _ HA) as (p & r' & Ela). pose proof (succinct_expect _ _ (TWhitespace, s) (le ++ end_ ++ nx') HA) as EA. rewrite Ela in *.
    rewrite (outputs_start b0 r b1 ls st') by assumption. unfold lexeme in *. rewrite EA. cbn [onOk]. now apply errors_clause.
  - exists end_. split; [intros st'' out Hl; now apply loop_lineEnd|]. intro fin. assoc.
    destruct (succinct_head _ _ HA) as (p & r' & Ela). pose proof (succinct_expect _ _ (TWhitespace, s) (end_ ++ nx') HA) as EA. rewrite Ela in *.
    rewrite (outputs_start b0 r b1 ls st') by assumption. unfold lexeme in *. rewrite EA. cbn [onOk].
    unfold methodErrors. destruct (lineEnd_nomatch end_ nx' TWord [] HL) as (m & E); try discriminate. unfold lexeme in *. now rewrite E.
  - exists gap. split; [intros st'' out Hl; now apply loop_gap|]. intro fin. assoc.
    destruct (succinct_head _ _ HA) as (p & r' & Ela). pose proof (succinct_expect _ _ (TNewLine, s) (gap ++ nx') HA) as EA. rewrite Ela in *.
    rewrite (outputs_start b0 r b1 ls st') by assumption. unfold lexeme in *. rewrite EA. cbn [onOk].
    unfold methodErrors. destruct (not_wordNext _ Hw) as (m & ts & E). unfold lexeme in *. now rewrite E.
Qed.

Lemma inputs_expect li i rest : Inputs li i -> expectArgumentList (tks (li ++ rest)) = POk i (tks rest).
Proof.
  intros [l a H|l a s H]; [now apply args_expect|]. assoc. now apply succinct_expect.
Qed.

Lemma hasDup_false l : NoDup l -> hasDup l = false.
Proof.
  induction 1 as [|x l Hn HD IH]; [reflexivity|]. unfold hasDup in *. rewrite IH, orb_false_r.
  destruct (str_in x l) eqn:E; [|reflexivity]. apply str_in_In in E. tauto.
Qed.

Lemma method_line lm anns m nx : MethodLine lm anns m nx -> NoDup (map an_type anns) -> forall n ms c out,
  sameEnd (PC (SServiceMethod (Service n ms anns c)) (tks (lm ++ nx)) [] out)
          (PC (SServiceMethod (Service n (ms ++ [m]) [] c)) (tks nx) [] out).
Proof.
  intros H HD n ms c out. pose proof (hasDup_false _ HD) as HD'.
  destruct H as [mi b0 name li i lt st o es anns nx B0 Hname HI HR|mi b0 b1 name li i lt st o es anns nx B0 B1 HI HR|mi b0 b1 name end_ anns nx B0 B1 HE].
  - destruct (result_tail _ _ _ _ _ HR) as (tail & Hsk & ER).
    eapply sameEnd_trans; [apply (sameEnd_step _ (PC (SServiceMethodDef (Service n ms anns c)) (tks ((TMinus, mi) :: b0 ++ (TWord, name) :: li ++ lt ++ nx)) [] out))|].
    { cbn [app]. assoc. reflexivity. }
    eapply sameEnd_trans; [|apply Hsk; exact I].
    apply sameEnd_step. unfold step. cbn [p_state p_toks p_comments p_out]. unfold stepServiceMethodDef. cbn [sv_anns]. rewrite HD'.
    assert (E1 : exists z, pmatch [TMinus; TWhitespace; TWord] (tks ((TMinus, mi) :: b0 ++ (TWord, name) :: li ++ lt ++ nx))
      = POk [tk (TMinus, mi); z; tk (TWord, name)] (tks (li ++ lt ++ nx))).
    { destruct B0; eexists; reflexivity. }
    destruct E1 as (z & E1). unfold lexeme in *. rewrite E1. cbn [onOk nth]. change (val (tk (TWord, name))) with name.
    assert (N1 : String.eqb name "stream" = false) by (apply String.eqb_neq; intros ->; apply Hname; cbn; tauto).
    assert (N2 : String.eqb name "proxy" = false) by (apply String.eqb_neq; intros ->; apply Hname; cbn; tauto).
    rewrite N1, N2. cbn [orb]. unfold methodRest. rewrite parseComments_nil.
    rewrite (inputs_expect _ _ _ HI). cbn [onOk]. rewrite ER. reflexivity.
  - destruct (result_tail _ _ _ _ _ HR) as (tail & Hsk & ER).
    eapply sameEnd_trans; [apply (sameEnd_step _ (PC (SServiceMethodDef (Service n ms anns c)) (tks ((TMinus, mi) :: b0 ++ (TWord, "stream"%string) :: b1 ++ (TWord, name) :: li ++ lt ++ nx)) [] out))|].
    { cbn [app]. assoc. reflexivity. }
    eapply sameEnd_trans; [|apply Hsk; exact I].
    apply sameEnd_step. unfold step. cbn [p_state p_toks p_comments p_out]. unfold stepServiceMethodDef. cbn [sv_anns]. rewrite HD'.
    assert (E1 : exists z, pmatch [TMinus; TWhitespace; TWord] (tks ((TMinus, mi) :: b0 ++ (TWord, "stream"%string) :: b1 ++ (TWord, name) :: li ++ lt ++ nx))
      = POk [tk (TMinus, mi); z; tk (TWord, "stream"%string)] (tks (b1 ++ (TWord, name) :: li ++ lt ++ nx))).
    { destruct B0; eexists; reflexivity. }
    assert (E2 : exists z, pmatch [TWhitespace; TWord] (tks (b1 ++ (TWord, name) :: li ++ lt ++ nx)) = POk [z; tk (TWord, name)] (tks (li ++ lt ++ nx))).
    { destruct B1; eexists; reflexivity. }
    destruct E1 as (z & E1), E2 as (z2 & E2). unfold lexeme in *. rewrite E1. cbn [onOk nth]. 
    change (String.eqb (val (tk (TWord, "stream"%string))) "stream") with true. change (String.eqb (val (tk (TWord, "stream"%string))) "proxy") with false.
    cbn [orb]. rewrite E2. cbn [onOk nth]. change (val (tk (TWord, name))) with name. unfold methodRest. rewrite parseComments_nil.
    rewrite (inputs_expect _ _ _ HI). cbn [onOk]. rewrite ER. reflexivity.
  - eapply sameEnd_trans; [apply (sameEnd_step _ (PC (SServiceMethodDef (Service n ms anns c)) (tks ((TMinus, mi) :: b0 ++ (TWord, "proxy"%string) :: b1 ++ (TWord, name) :: end_ ++ nx)) [] out))|].
    { cbn [app]. assoc. reflexivity. }
    eapply sameEnd_trans; [|apply (loop_eol _ HE); exact I].
    apply sameEnd_step. unfold step. cbn [p_state p_toks p_comments p_out]. unfold stepServiceMethodDef. cbn [sv_anns]. rewrite HD'.
    destruct B0; destruct B1; reflexivity.
Qed.

(** ** annotations *)
Definition noAt (r : list lexeme) : Prop := forall a r', r = (TAt, a) :: r' -> False.
Lemma annLoop_stop n r seen acc : noAt r -> annLoop (S n) (tks r) seen acc = POk (rev acc) (tks r).
Proof.
  intro H. cbn [annLoop]. unfold pmatch. destruct r as [|[xt xs] r]; [reflexivity|].
  cbn [tks map matchGo cursor tk ty fst]. rewrite (tt_neqb xt TAt); [reflexivity|]. intros ->. exact (H _ _ eq_refl).
Qed.
Lemma space_gap sp : Space sp -> Gap sp.
Proof. intros [s l H|s l H]; now constructor. Qed.
Lemma gap_noAt g r : Gap g -> g <> [] -> noAt (g ++ r).
Proof. intros [|s l H|s l H|c s l [h body HF] H] Hn a r'; try congruence; cbn; congruence. Qed.
Lemma space_noAt sp r : Space sp -> noAt (sp ++ r).
Proof. intro H. apply gap_noAt; [now apply space_gap|]. destruct H; discriminate. Qed.

Lemma annLoop_all la anns : Many Annotation la anns -> forall n rest seen acc, length la < n -> noAt rest ->
  NoDup (map an_type anns) -> (forall a, In a anns -> ~ In (an_type a) seen) ->
  exists anns1 anns2 g la2, anns = anns1 ++ anns2 /\ Gap g /\ Many Annotation la2 anns2 /\ (anns <> [] -> anns1 <> []) /\
    annLoop n (tks (la ++ rest)) seen acc = POk (rev acc ++ anns1) (tks (g ++ la2 ++ rest)).
Proof.
  induction 1 as [|l a ls r H HM IH]; intros n rest seen acc Hn Hr HD Hs.
  - exists [], [], [], []. destruct n as [|n]; [lia|]. rewrite annLoop_stop by exact Hr. cbn [app]. rewrite app_nil_r.
    repeat split; try constructor. congruence.
  - cbn [map] in HD. inversion HD as [|? ? HD1 HD2]; subst. rewrite app_length in Hn.
    assert (Hn0 : 1 <= length l) by (destruct H; cbn; lia).
    destruct n as [|n]; [lia|].
    assert (Hs0 : str_in (an_type a) seen = false).
    { destruct (str_in (an_type a) seen) eqn:E; [|reflexivity]. apply str_in_In in E. exfalso. exact (Hs a (or_introl eq_refl) E). }
    assert (Hs' : forall b, In b r -> ~ In (an_type b) (an_type a :: seen)).
    { intros b Hb [E|E]; [|exact (Hs b (or_intror Hb) E)]. apply HD1. rewrite E. now apply in_map. }
    destruct H as [at_ t sp Hsp|at_ t c v sp Hsp|at_ t c lv v sp HV Hsp]; cbn [an_type] in *; cbn [app]; assoc.
    + destruct Hsp as [s g HG|s g HG].
      * exists [Ann t 0 None], r, ((TWhitespace, s) :: g), ls. repeat split; try assumption; [now constructor|discriminate|].
        cbn in Hn. destruct n as [|n]; [lia|].
        change (annLoop (S (S n)) (tks ((TAt, at_) :: (TWord, t) :: ((TWhitespace, s) :: g) ++ ls ++ rest)) seen acc)
          with (if str_in t seen then PErr "duplicate annotation type" (tks (((TWhitespace, s) :: g) ++ ls ++ rest))
                else annLoop (S n) (tks (((TWhitespace, s) :: g) ++ ls ++ rest)) (t :: seen) (Ann t 0 None :: acc)).
        rewrite Hs0, annLoop_stop; [reflexivity|]. intros x r'. discriminate.
      * exists [Ann t 0 None], r, ((TNewLine, s) :: g), ls. repeat split; try assumption; [now constructor|discriminate|].
        cbn in Hn. destruct n as [|n]; [lia|].
        change (annLoop (S (S n)) (tks ((TAt, at_) :: (TWord, t) :: ((TNewLine, s) :: g) ++ ls ++ rest)) seen acc)
          with (if str_in t seen then PErr "duplicate annotation type" (tks (((TNewLine, s) :: g) ++ ls ++ rest))
                else annLoop (S n) (tks (((TNewLine, s) :: g) ++ ls ++ rest)) (t :: seen) (Ann t 0 None :: acc)).
        rewrite Hs0, annLoop_stop; [reflexivity|]. intros x r'. discriminate.
    + exists [Ann t 0 (Some v)], r, sp, ls. repeat split; try assumption; [now apply space_gap|discriminate|].
      cbn in Hn. destruct n as [|n]; [lia|].
      change (annLoop (S (S n)) (tks ((TAt, at_) :: (TWord, t) :: (TColon, c) :: (TWord, v) :: sp ++ ls ++ rest)) seen acc)
        with (if str_in t seen then PErr "duplicate annotation type" (tks ((TColon, c) :: (TWord, v) :: sp ++ ls ++ rest))
              else annLoop (S n) (tks (sp ++ ls ++ rest)) (t :: seen) (Ann t 0 (Some v) :: acc)).
      rewrite Hs0, annLoop_stop; [reflexivity|]. now apply space_noAt.
    + pose proof (string_expect _ _ (sp ++ ls ++ rest) HV) as EV. destruct (string_head _ _ HV) as (q & lv' & ->). cbn [app] in *.
      assert (ES : annLoop (S n) (tks ((TAt, at_) :: (TWord, t) :: (TColon, c) :: (TQuote, q) :: lv' ++ sp ++ ls ++ rest)) seen acc
        = annLoop n (pnext (tks (sp ++ ls ++ rest))) (t :: seen) (Ann t 0 (Some v) :: acc)).
      { change (annLoop (S n) (tks ((TAt, at_) :: (TWord, t) :: (TColon, c) :: (TQuote, q) :: lv' ++ sp ++ ls ++ rest)) seen acc)
          with (if str_in t seen then PErr "duplicate annotation type" (tks ((TColon, c) :: (TQuote, q) :: lv' ++ sp ++ ls ++ rest))
                else match expectStringValue (tks ((TQuote, q) :: lv' ++ sp ++ ls ++ rest)) with
                     | POk v ts3 => annLoop n (pnext ts3) (t :: seen) (Ann t 0 (Some (val v)) :: acc)
                     | PErr m ts3 => PErr "parse string value" ts3
                     | PFuel => PFuel end).
        rewrite Hs0. unfold lexeme in *. rewrite EV. reflexivity. }
      cbn [length] in Hn. rewrite app_length in Hn.
      assert (Hsp' : exists g x, sp = x :: g /\ Gap g) by (destruct Hsp; eauto). destruct Hsp' as (g & x & -> & HG).
      change (pnext (tks ((x :: g) ++ ls ++ rest))) with (tks (g ++ ls ++ rest)) in ES. cbn [length] in Hn.
      destruct g as [|y g].
      * destruct (IH n rest (t :: seen) (Ann t 0 (Some v) :: acc)) as (a1 & a2 & g & la2 & -> & HG' & HM' & _ & E); try assumption; [lia|].
        exists (Ann t 0 (Some v) :: a1), a2, g, la2. repeat split; try assumption; [discriminate|].
        unfold lexeme in *. rewrite ES. cbn [app]. rewrite E. cbn [rev]. rewrite <- app_assoc. reflexivity.
      * exists [Ann t 0 (Some v)], r, (y :: g), ls. repeat split; try assumption; [discriminate|].
        destruct n as [|n]; [lia|]. unfold lexeme in *. rewrite ES. apply annLoop_stop. apply gap_noAt; [exact HG|discriminate].
Qed.

Lemma NoDup_app_l {A} (a b : list A) : NoDup (a ++ b) -> NoDup b.
Proof. induction a as [|x a IH]; [tauto|]. intro H. inversion H. auto. Qed.

Lemma annotations k : forall la anns, length anns <= k -> Many Annotation la anns -> forall n ms an0 c rest out,
  noAt rest -> NoDup (map an_type anns) ->
  sameEnd (PC (SServiceMethod (Service n ms an0 c)) (tks (la ++ rest)) [] out)
          (PC (SServiceMethod (Service n ms (an0 ++ anns) c)) (tks rest) [] out).
Proof.
  induction k as [|k IH]; intros la anns Hk HM n ms an0 c rest out Hr HD.
  - destruct anns; [|cbn in Hk; lia]. inversion HM; subst. rewrite app_nil_r. apply sameEnd_refl.
  - destruct anns as [|a anns]; [inversion HM; subst; rewrite app_nil_r; apply sameEnd_refl|].
    destruct (annLoop_all _ _ HM (S (length (tks (la ++ rest)))) rest [] []) as (a1 & a2 & g & la2 & EA & HG & HM2 & Hne & E); try assumption.
    { unfold tks. rewrite map_length, app_length. lia. }
    { intros ? ? []. }
    cbn [rev app] in E. specialize (Hne ltac:(discriminate)).
    assert (Hlen : length a2 <= k).
    { apply (f_equal (@length _)) in EA. rewrite app_length in EA. cbn [length] in EA, Hk. destruct a1; [congruence|]. cbn [length] in EA. lia. }
    eapply sameEnd_trans.
    { apply (sameEnd_step _ (PC (SServiceMethod (Service n ms (an0 ++ a1) c)) (tks (g ++ la2 ++ rest)) [] out)).
      unfold step. cbn [p_state p_toks p_comments p_out].
      assert (Et : ty (cursor (tks (la ++ rest))) = TAt).
      { inversion HM as [|l ? ls ? Ha]; subst. destruct Ha; reflexivity. }
      rewrite Et. unfold parseAnnotations. rewrite E. reflexivity. }
    eapply sameEnd_trans; [apply loop_gap; [exact HG|exact I]|].
    eapply sameEnd_trans; [apply (IH la2 a2 Hlen HM2); [exact Hr|]|].
    { rewrite EA, map_app in HD. now apply NoDup_app_l in HD. }
    rewrite EA, app_assoc. apply sameEnd_refl.
Qed.

Lemma methods_all nx ls ms : Methods nx ls ms -> declNext nx -> forall n ms0 c out,
  sameEnd (PC (SServiceMethod (Service n ms0 [] c)) (tks (ls ++ nx)) [] out)
          (PC SDefault (tks nx) [] (NService (Service n (ms0 ++ ms) [] c) :: out)).
Proof.
  intros H Hn. induction H as [|la anns lm m ls ms HA HD HL HM IH]; intros n ms0 c out.
  - cbn [app]. rewrite app_nil_r. destruct Hn as [->|(w & r & ->)]; apply sameEnd_step; reflexivity.
  - assoc. eapply sameEnd_trans; [apply (annotations _ _ _ (le_n _) HA); [|exact HD]|].
    { destruct HL; intros a r'; discriminate. }
    cbn [app]. eapply sameEnd_trans; [apply (method_line _ _ _ _ HL HD)|].
    eapply sameEnd_trans; [apply IH|]. rewrite <- app_assoc. apply sameEnd_refl.
Qed.
