(** Corollaries used by Props_Parser.v *)
From Verif Require Import Base BaseProofs Utf8 Lexer LexSpec LexerProofs Tokenize Ast Parser ParserTerm.

Lemma until_eof_body body eof : ty eof = TEOF -> Forall (fun t => ty t <> TEOF /\ val t <> "") body ->
  until_eof (body ++ [eof]) = body.
Proof.
  intros He. induction 1 as [|t b [H _] Hb IH]; cbn.
  - now rewrite He.
  - destruct (tt_eqb (ty t) TEOF) eqn:E; [apply tt_eqb_eq in E; congruence|]. now rewrite IH.
Qed.

(** the parser's tokens are the lexer's without the final EOF *)
Lemma init_toks src : exists eof, ty eof = TEOF /\ lexAll src = p_toks (initConf src) ++ [eof].
Proof.
  destruct (lexAll_eof src) as (body & eof & E1 & E2 & E3 & E4 & E5).
  exists eof. split; [exact E2|]. unfold initConf, tokenize. cbn [p_toks]. rewrite E1.
  now rewrite until_eof_body.
Qed.

(** the "@" tokens of the document are followed by a word *)
Definition annotations_named (src : string) : Prop :=
  forall a t b, lexAll src = a ++ t :: b -> ty t = TAt ->
    exists w b', b = w :: b' /\ ty w = TWord.

Lemma named_not_stuck src : annotations_named src ->
  forall c, Steps (initConf src) c -> stuck c = false.
Proof.
  intros Hn c Hc. destruct (stuck c) eqn:Hs; [|reflexivity]. exfalso.
  pose proof (steps_suffix _ _ Hc (atState_init src)) as [p Hp].
  destruct (init_toks src) as (eof & He & HL). rewrite Hp in HL.
  unfold stuck in Hs. destruct (p_state c); try discriminate.
  apply andb_true_iff in Hs. destruct Hs as [H1 H2]. apply tt_eqb_eq in H1.
  destruct (p_toks c) as [|t ts]; [discriminate|]. cbn in H1. rewrite <- app_assoc in HL. cbn [app] in HL.
  destruct (Hn p t (ts ++ [eof]) HL H1) as (w & b' & Hw & Hty).
  apply negb_true_iff in H2. cbn in H2. destruct ts as [|t2 ts].
  - cbn in Hw. injection Hw as <- <-. congruence.
  - cbn in Hw. injection Hw as <- <-. rewrite Hty, H1 in H2. now cbn in H2.
Qed.

Lemma parse_stable src : annotations_named src ->
  exists r, verdict r /\ forall k, parserFuel (p_toks (initConf src)) <= k -> runParser k (initConf src) = r.
Proof.
  intro H. apply (run_verdict (parserFuel (p_toks (initConf src)))); [apply atState_init|apply measure_init|].
  now apply named_not_stuck.
Qed.

Lemma loop_iff src : parseRidl src = ParseLoop <-> exists c, Steps (initConf src) c /\ stuck c = true.
Proof.
  split.
  - intro H. destruct (steps_or_stuck _ _ (atState_init src) (measure_init src)) as [G|G]; [exact G|].
    destruct (run_verdict _ _ (atState_init src) (measure_init src) G) as (r & V & R).
    unfold parseRidl in H. rewrite (R _ (le_n _)) in H. subst r. destruct V.
  - intros (c & S & H). unfold parseRidl. eapply steps_stuck; eassumption.
Qed.

Lemma loop_forever src : parseRidl src = ParseLoop -> forall k, runParser k (initConf src) = ParseLoop.
Proof. intros H k. apply loop_iff in H. destruct H as (c & S & H). eapply steps_stuck; eassumption. Qed.

Lemma fuel_irrelevant src k : parserFuel (p_toks (initConf src)) <= k ->
  runParser k (initConf src) = parseRidl src.
Proof.
  intro Hk. destruct (steps_or_stuck _ _ (atState_init src) (measure_init src)) as [G|G].
  - destruct G as (c & S & H). rewrite (steps_stuck _ _ S H k). unfold parseRidl. now rewrite (steps_stuck _ _ S H).
  - destruct (run_verdict _ _ (atState_init src) (measure_init src) G) as (r & V & R).
    rewrite (R k Hk). unfold parseRidl. now rewrite (R _ (le_n _)).
Qed.

Lemma error_position src e : parseRidl src = ParseError e ->
  (pe_line e = 0 /\ pe_col e = 0 /\ pe_near e = "") \/
  exists t, In t (lexAll src) /\ ty t <> TEOF /\ pe_line e = line t /\ pe_col e = col t /\ pe_near e = val t.
Proof.
  intro H. destruct (fail_run _ _ _ (atState_init src) H) as (ts & [p Hp] & H1 & H2 & H3).
  destruct ts as [|t ts]; [left; cbn in *; auto|]. right. exists t.
  destruct (lexAll_eof src) as (body & eof & E1 & E2 & E3 & E4 & E5).
  destruct (init_toks src) as (eof' & He & HL). rewrite HL in E1. apply app_inj_tail in E1 as [E1 _].
  assert (Hin : In t body) by (rewrite <- E1, Hp; apply in_or_app; right; now left).
  rewrite Forall_forall in E5. split; [rewrite HL, E1; apply in_or_app; now left|].
  split; [apply (E5 t Hin)|]. auto.
Qed.

Lemma error_in_document src e : parseRidl src = ParseError e ->
  (pe_line e = 0 /\ pe_col e = 0 /\ pe_near e = "") \/
  exists before chunk after,
    decode src = before ++ chunk ++ after /\ chunk <> [] /\
    pe_near e = encode chunk /\
    pe_line e = 1 + newlines before /\
    pe_col e = since_newline before + length chunk.
Proof.
  intro H. destruct (error_position src e H) as [H0|(t & Hin & Ht & E1 & E2 & E3)]; [now left|right].
  destruct (in_split _ _ Hin) as (a & b & Hab).
  destruct (lexAll_eof src) as (body & eof & X1 & X2 & _ & _ & X5).
  assert (Hb : b <> []).
  { intros ->. rewrite X1 in Hab. apply app_inj_tail in Hab. destruct Hab as [_ <-]. contradiction. }
  destruct (lexAll_positions src a t b Hab Hb) as (bf & ch & af & P1 & P2 & P3 & P4 & P5 & P6).
  exists bf, ch, af. split; [exact P1|]. split; [|now rewrite E1, E2, E3].
  intros ->. rewrite X1 in Hin. apply in_app_iff in Hin. destruct Hin as [Hin|[<-|[]]]; [|contradiction].
  rewrite Forall_forall in X5. now destruct (X5 t Hin).
Qed.

Definition bareAt : string := ("service A" ++ String "010"%char ("@" ++ String "010"%char ""))%string.
Lemma bareAt_hangs : forall k, runParser k (initConf bareAt) = ParseLoop.
Proof. apply loop_forever. vm_compute. reflexivity. Qed.

Definition namedDoc : string :=
  ("service A" ++ String "010"%char ("@auth:""x"" @b" ++ String "010"%char ("- Ping() => (ok: bool)"
    ++ String "010"%char "")))%string.

Fixpoint named_b (l : list token) : bool :=
  match l with
  | [] => true
  | t :: r => (if tt_eqb (ty t) TAt then match r with w :: _ => tt_eqb (ty w) TWord | [] => false end else true)
              && named_b r
  end.
Lemma named_b_ok l : named_b l = true -> forall a t b, l = a ++ t :: b -> ty t = TAt ->
  exists w b', b = w :: b' /\ ty w = TWord.
Proof.
  intros H a. revert l H. induction a as [|x a IH]; intros l H t b E Ht; subst l; cbn in H; apply andb_true_iff in H.
  - destruct H as [H _]. rewrite Ht in H. cbn in H. destruct b as [|w b]; [discriminate|].
    exists w, b. split; [reflexivity|]. now apply tt_eqb_eq.
  - eapply IH; [apply H|reflexivity|exact Ht].
Qed.
