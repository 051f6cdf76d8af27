(** Termination of the parser: the sub-parsers never run out of fuel and
    consume tokens, the state machine has a decreasing measure. *)
From Coq Require Import ZifyBool ZifyNat.
From Verif Require Import Base BaseProofs Utf8 Lexer Tokenize Ast Parser.

Definition Suf (a b : toks) : Prop := exists p, b = p ++ a.

Lemma Suf_refl a : Suf a a.
Proof. now exists []. Qed.
Lemma Suf_trans a b c : Suf a b -> Suf b c -> Suf a c.
Proof. intros [p ->] [q ->]. exists (q ++ p). now rewrite app_assoc. Qed.
Lemma Suf_cons x a : Suf a (x :: a).
Proof. now exists [x]. Qed.
Lemma Suf_pnext a : Suf (pnext a) a.
Proof. destruct a; [apply Suf_refl|apply Suf_cons]. Qed.
Lemma Suf_len a b : Suf a b -> length a <= length b.
Proof. intros [p ->]. rewrite app_length. lia. Qed.
#[global] Hint Resolve Suf_refl Suf_cons Suf_pnext : suf.

Lemma tt_eqb_eq a b : tt_eqb a b = true <-> a = b.
Proof. unfold tt_eqb. destruct (ttype_eq_dec a b); split; congruence. Qed.

Lemma cursor_ne ts : ty (cursor ts) <> TEOF -> ts <> [].
Proof. destruct ts; [cbn; congruence|discriminate]. Qed.
Lemma pnext_len ts : ts <> [] -> S (length (pnext ts)) = length ts.
Proof. destruct ts; [congruence|reflexivity]. Qed.

(** outcome of a sub-parser called at [ts] that consumes at least [k] tokens *)
Definition good {A} (k : nat) (ts : toks) (r : pres A) : Prop :=
  match r with
  | POk _ ts' => Suf ts' ts /\ length ts' + k <= length ts
  | PErr _ ts' => Suf ts' ts
  | PFuel => False
  end.

Lemma good_mono {A} k k' ts ts' (r : pres A) :
  good k ts r -> Suf ts ts' -> k' + length ts <= k + length ts' -> good k' ts' r.
Proof.
  destruct r as [a t|m t|]; cbn; [|intros; eapply Suf_trans; eassumption|trivial].
  intros [H1 H2] H3 H4. split; [eapply Suf_trans; eassumption|]. lia.
Qed.

Lemma unescape_res s : match unescape s with Ok _ | Err _ => True | _ => False end.
Proof.
  remember (String.length s) as n eqn:Hn. revert s Hn.
  induction n as [n IH] using lt_wf_ind. intros [|c r] Hn; cbn; [trivial|]. cbn in Hn.
  assert (H : forall x, String.length x <= String.length r -> match unescape x with Ok _ | Err _ => True | _ => False end).
  { intros x Hx. apply (IH (String.length x)); [lia|reflexivity]. }
  destruct (Ascii.eqb c "\").
  - destruct r as [|d r']; [trivial|]. assert (H' := H r' ltac:(cbn; lia)).
    repeat (destruct (Ascii.eqb d _)); try (destruct (unescape r'); cbn; trivial); trivial.
  - assert (H' := H r ltac:(lia)). destruct (unescape r); cbn; trivial.
Qed.

Lemma composeAt_good l ts ts' k :
  Suf ts' ts -> (l <> [] -> length ts' + k <= length ts) -> good k ts (composeAt l ts').
Proof.
  intros Hs Hl. unfold composeAt, composedValue. destruct l as [|b l]; [exact Hs|].
  pose proof (unescape_res (sconcat (map val (b :: l)))) as H.
  destruct (unescape _); cbn; try contradiction; [|exact Hs]. split; [exact Hs|]. apply Hl. discriminate.
Qed.

Lemma continueUntilEOL_Suf ts : Suf (continueUntilEOL ts) ts.
Proof.
  induction ts as [|t ts IH]; cbn; [apply Suf_refl|].
  destruct (_ || _); [apply Suf_refl|]. eapply Suf_trans; [exact IH|apply Suf_cons].
Qed.
#[global] Hint Resolve continueUntilEOL_Suf : suf.

Lemma continueUntilEOL_hash ts : ty (cursor ts) = THash -> S (length (continueUntilEOL ts)) <= length ts.
Proof.
  destruct ts as [|t ts]; cbn; [discriminate|]. intros ->. cbn.
  pose proof (Suf_len _ _ (continueUntilEOL_Suf ts)). lia.
Qed.

Lemma expectEOL_good ts : good 0 ts (expectEOL ts).
Proof.
  assert (G : forall t r, good 0 (t :: r) (PErr errUnexpectedToken (t :: r) : pres unit)) by (intros; apply Suf_refl).
  induction ts as [|t ts IH]; [split; [apply Suf_refl|cbn; lia]|]. cbn [expectEOL].
  destruct (ty t) eqn:E; try apply G; try (split; [apply Suf_refl|cbn; lia]).
  - eapply good_mono; [exact IH|apply Suf_cons|cbn; lia].
  - split; [apply continueUntilEOL_Suf|]. pose proof (Suf_len _ _ (continueUntilEOL_Suf (t :: ts))). cbn in *. lia.
Qed.

(** the number of tokens that a successful match surely consumes *)
Fixpoint hard (want : list ttype) : nat :=
  match want with
  | [] => 0
  | e :: w => if tt_eqb e TEOL then 0 else if tt_eqb e TWhitespace then hard w else S (hard w)
  end.

Lemma matchGo_good start : forall want ts acc, ~ In TEOF want -> Suf ts start ->
  match matchGo start ts want acc with
  | POk _ ts' => Suf ts' ts /\ length ts' + hard want <= length ts
  | PErr _ ts' => Suf ts' start
  | PFuel => False
  end.
Proof.
  induction want as [|e w IH]; intros ts acc Hw Hs; cbn [matchGo].
  - split; [apply Suf_refl|cbn; lia].
  - assert (Hw' : ~ In TEOF w) by (intro; apply Hw; now right).
    assert (He : e <> TEOF) by (intro; apply Hw; now left).
    destruct (tt_eqb (ty (cursor ts)) e) eqn:Et.
    + apply tt_eqb_eq in Et. assert (Hn : ts <> []) by (apply cursor_ne; congruence).
      specialize (IH (pnext ts) (cursor ts :: acc) Hw' (Suf_trans _ _ _ (Suf_pnext _) Hs)).
      pose proof (pnext_len ts Hn) as Hl.
      destruct (matchGo start (pnext ts) w _) as [l t|m t|]; try assumption.
      destruct IH as [I1 I2]. split; [eapply Suf_trans; [exact I1|apply Suf_pnext]|].
      cbn [hard]. destruct (tt_eqb e TEOL); [lia|]. destruct (tt_eqb e TWhitespace); lia.
    + cbn [hard]. destruct (tt_eqb e TEOL) eqn:E1.
      * pose proof (expectEOL_good ts) as HE. destruct (expectEOL ts) as [l t|m t|]; cbn in HE.
        -- exact HE.
        -- eapply Suf_trans; eassumption.
        -- contradiction.
      * destruct (tt_eqb e TWhitespace) eqn:E2; [now apply IH|apply Suf_refl].
Qed.

Lemma pmatch_good want ts : ~ In TEOF want -> good (hard want) ts (pmatch want ts).
Proof.
  intro H. unfold pmatch. pose proof (matchGo_good ts want ts [] H (Suf_refl _)) as G.
  destruct (matchGo ts ts want []); exact G.
Qed.

(** the same with a computed bound *)
Lemma pmatch_good' want ts k : ~ In TEOF want -> k = hard want -> good k ts (pmatch want ts).
Proof. intros H ->. now apply pmatch_good. Qed.

Ltac noeof := cbn; intuition discriminate.

Lemma strLoop_good : forall ts acc, good 0 ts (strLoop ts acc).
Proof.
  intro ts. remember (length ts) as n eqn:Hn. revert ts Hn.
  induction n as [n IH] using lt_wf_ind. intros [|t r] Hn acc; cbn [strLoop]; [apply Suf_refl|].
  cbn in Hn.
  assert (H1 : forall a, good 0 (t :: r) (strLoop r a)).
  { intro a. eapply good_mono; [apply (IH (length r)); [lia|reflexivity]|apply Suf_cons|cbn; lia]. }
  destruct (ty t); try apply H1; try (cbn; apply Suf_cons); try (split; [apply Suf_cons|cbn; lia]).
  - destruct r as [|t2 r2]; [cbn; now exists [t]|].
    eapply good_mono; [apply (IH (length r2)); [cbn in Hn; lia|reflexivity]|now exists [t; t2]|cbn; lia].
Qed.

Lemma expectStringValue_good ts : good 1 ts (expectStringValue ts).
Proof.
  unfold expectStringValue. destruct (tt_eqb (ty (cursor ts)) TQuote) eqn:E; [|apply Suf_pnext].
  apply tt_eqb_eq in E. assert (Hn : ts <> []) by (apply cursor_ne; congruence).
  pose proof (strLoop_good (pnext ts) []) as H. pose proof (pnext_len ts Hn).
  destruct (strLoop (pnext ts) []) as [l t|m t|]; cbn in H.
  - apply composeAt_good; [eapply Suf_trans; [apply H|apply Suf_pnext]|]. intros _. lia.
  - eapply Suf_trans; [apply H|apply Suf_pnext].
  - contradiction.
Qed.

Lemma litLoop_good dots : forall ts acc all, Suf ts all -> (acc <> [] -> length ts + 1 <= length all) ->
  good 1 all (litLoop dots ts acc).
Proof.
  assert (Hrev : forall acc : list token, rev acc <> [] -> acc <> []) by (intros [|? ?]; cbn; congruence).
  induction ts as [|t r IH]; intros acc all Hs Ha; cbn [litLoop].
  - apply composeAt_good; [assumption|]. intro H. apply Hrev in H. auto.
  - assert (H1 : good 1 all (litLoop dots r (t :: acc))).
    { apply IH; [eapply Suf_trans; [apply Suf_cons|exact Hs]|]. intros _. apply Suf_len in Hs. cbn in Hs. lia. }
    assert (H2 : good 1 all (composeAt (rev acc) (t :: r))).
    { apply composeAt_good; [assumption|]. intro H. apply Hrev in H. auto. }
    destruct (ty t) eqn:E; try apply H2; try apply H1.
    + eapply good_mono; [apply expectStringValue_good|exact Hs|apply Suf_len in Hs; lia].
    + destruct dots; assumption.
Qed.

Lemma expectLiteralValue_good ts : good 1 ts (expectLiteralValue ts).
Proof. apply litLoop_good; [apply Suf_refl|congruence]. Qed.
Lemma expectPath_good ts : good 1 ts (expectPath ts).
Proof. apply litLoop_good; [apply Suf_refl|congruence]. Qed.

Lemma metaKeyLoop_good ts : forall acc, good 0 ts (metaKeyLoop ts acc).
Proof.
  remember (length ts) as n eqn:Hn. revert ts Hn.
  induction n as [n IH] using lt_wf_ind. intros [|t r] Hn acc; cbn [metaKeyLoop]; [apply Suf_refl|].
  assert (H1 : forall a, good 0 (t :: r) (metaKeyLoop r a)).
  { intro a. cbn in Hn. eapply good_mono; [apply (IH (length r)); [lia|reflexivity]|apply Suf_cons|cbn; lia]. }
  assert (H2 : good 0 (t :: r) (composeAt (rev acc) (t :: r))) by (apply composeAt_good; [apply Suf_refl|intros; lia]).
  destruct (ty t); try apply H1; try apply H2; try (cbn; apply Suf_refl).
  destruct r as [|t2 r2]; [apply Suf_refl|]. destruct (tt_eqb (ty t2) TWord); [|apply Suf_refl].
  cbn in Hn. eapply good_mono; [apply (IH (length r2)); [lia|reflexivity]|now exists [t; t2]|cbn; lia].
Qed.

Lemma good_bind {A B} k j ts (r : pres A) (f : A -> toks -> pres B) :
  good k ts r -> (forall a ts', Suf ts' ts -> length ts' + k <= length ts -> good j ts (f a ts')) ->
  good j ts (match r with POk a ts' => f a ts' | PErr m ts' => PErr m ts' | PFuel => PFuel end).
Proof. destruct r as [a t|m t|]; cbn; auto. intros [H1 H2] H. now apply H. Qed.

Lemma expectMetadataKey_good ts : good 1 ts (expectMetadataKey ts).
Proof.
  unfold expectMetadataKey. eapply good_bind; [apply (pmatch_good' [TWord] ts 1); [noeof|reflexivity]|].
  intros l ts' Hs Hl. eapply good_mono; [apply metaKeyLoop_good|exact Hs|lia].
Qed.

Lemma metaValLoop_good ts : forall acc, good 0 ts (metaValLoop ts acc).
Proof.
  induction ts as [|t r IH]; intro acc; cbn [metaValLoop]; [apply composeAt_good; [apply Suf_refl|intros; lia]|].
  assert (H1 : forall a, good 0 (t :: r) (metaValLoop r a)) by (intro a; eapply good_mono; [apply IH|apply Suf_cons|cbn; lia]).
  assert (H2 : good 0 (t :: r) (composeAt (rev acc) (t :: r))) by (apply composeAt_good; [apply Suf_refl|intros; lia]).
  destruct (ty t); auto.
Qed.

Lemma expectMetadataValue_good ts : good 0 ts (expectMetadataValue ts).
Proof.
  unfold expectMetadataValue. destruct (tt_eqb _ _); [|apply metaValLoop_good].
  eapply good_mono; [apply expectStringValue_good|apply Suf_refl|lia].
Qed.

(** ** types *)

Lemma rev_ne {A} (l : list A) : rev l <> [] -> l <> [].
Proof. destruct l; cbn; congruence. Qed.

(** results of the type loops: never out of fuel; consumption at least one
    token unless something was collected before *)
Definition goodc (acc : list token) (ts : toks) (r : pres token) : Prop :=
  good 0 ts r /\ (acc = [] -> good 1 ts r).

Lemma goodc_compose acc ts : goodc acc ts (composeAt (rev acc) ts).
Proof.
  split; [apply composeAt_good; [apply Suf_refl|intros; lia]|]. intros ->. cbn. apply Suf_refl.
Qed.

Lemma goodc_err acc ts ts' m : Suf ts' ts -> goodc acc ts (PErr m ts').
Proof. intro H. split; [exact H|]. intros _. exact H. Qed.

Lemma goodc_step acc ts ts' r : good 0 ts' r -> Suf ts' ts -> length ts' < length ts -> goodc acc ts r.
Proof.
  intros H1 H2 H3. split; [eapply good_mono; [exact H1|exact H2|lia]|]. intros _.
  eapply good_mono; [exact H1|exact H2|lia].
Qed.

Lemma type_loops_good : forall n,
  (forall ts acc, 2 * length ts + 1 <= n -> goodc acc ts (typeLoop n ts acc)) /\
  (forall ts acc, 2 * length ts + 1 <= n -> good 0 ts (mapLoop n ts acc)) /\
  (forall ts acc, 2 * length ts + 2 <= n -> good 0 ts (typeListLoop n ts acc)).
Proof.
  induction n as [|n (IHt & IHm & IHl)]; [repeat split; intros; lia|]. split; [|split].
  - intros ts acc Hn. cbn [typeLoop].
    destruct (ty (cursor ts)) eqn:E; try apply goodc_compose; try (apply goodc_err; apply Suf_refl).
    + pose proof (pmatch_good' [TOpenBracket; TCloseBracket] ts 2 ltac:(noeof) eq_refl) as HP.
      destruct (pmatch [TOpenBracket; TCloseBracket] ts) as [brs ts1|m ts1|]; cbn in HP; [| |contradiction].
      * destruct HP as [P1 P2]. destruct (IHt ts1 [] ltac:(lia)) as [_ HT]. specialize (HT eq_refl).
        destruct (typeLoop n ts1 []) as [tn ts2|m ts2|]; cbn in HT; [| |contradiction].
        -- destruct HT as [T1 T2]. apply (goodc_step _ _ ts2); [apply IHt; lia| |lia].
           eapply Suf_trans; eassumption.
        -- apply goodc_err. eapply Suf_trans; eassumption.
      * apply goodc_err. exact HP.
    + assert (Hne : ts <> []) by (apply cursor_ne; congruence). pose proof (pnext_len ts Hne) as Hp.
      destruct (String.eqb (val (cursor ts)) "map").
      * pose proof (IHm (pnext ts) [cursor ts] ltac:(lia)) as HM.
        destruct (mapLoop n (pnext ts) [cursor ts]) as [mt ts1|m ts1|]; cbn in HM; [| |contradiction].
        -- destruct HM as [M1 M2]. apply (goodc_step _ _ ts1); [apply IHt; lia| |lia].
           eapply Suf_trans; [exact M1|apply Suf_pnext].
        -- apply goodc_err. eapply Suf_trans; [exact HM|apply Suf_pnext].
      * destruct (_ || _); [apply goodc_err, Suf_refl|].
        apply (goodc_step _ _ (pnext ts)); [apply IHt; lia|apply Suf_pnext|lia].
  - intros ts acc Hn. cbn [mapLoop].
    destruct (ty (cursor ts)) eqn:E; try (cbn; apply Suf_refl).
    + assert (Hne : ts <> []) by (apply cursor_ne; congruence). pose proof (pnext_len ts Hne) as Hp.
      eapply good_mono; [apply IHm; lia|apply Suf_pnext|lia].
    + assert (Hne : ts <> []) by (apply cursor_ne; congruence). pose proof (pnext_len ts Hne) as Hp.
      pose proof (IHl (pnext ts) [cursor ts] ltac:(lia)) as HL.
      destruct (typeListLoop n (pnext ts) [cursor ts]) as [tl ts1|m ts1|]; cbn in HL; [| |contradiction].
      * destruct HL as [L1 L2]. eapply good_mono; [apply IHm; lia| |lia].
        eapply Suf_trans; [exact L1|apply Suf_pnext].
      * cbn. eapply Suf_trans; [exact HL|apply Suf_pnext].
    + assert (Hne : ts <> []) by (apply cursor_ne; congruence). pose proof (pnext_len ts Hne) as Hp.
      apply composeAt_good; [apply Suf_pnext|intros; lia].
  - intros ts acc Hn. cbn [typeListLoop].
    assert (HT : ts <> [] -> good 0 ts (match typeLoop n ts [] with
          | POk tn ts1 => typeListLoop n ts1 (tn :: acc) | PErr m t => PErr m t | PFuel => PFuel end)).
    { intro Hne. destruct (IHt ts [] ltac:(lia)) as [_ HT]. specialize (HT eq_refl).
      destruct (typeLoop n ts []) as [tn ts1|m ts1|]; cbn in HT; [| |contradiction].
      - destruct HT as [T1 T2]. eapply good_mono; [apply IHl; lia|exact T1|lia].
      - exact HT. }
    assert (HN : ts <> [] -> forall a, good 0 ts (typeListLoop n (pnext ts) a)).
    { intros Hne a. pose proof (pnext_len ts Hne). eapply good_mono; [apply IHl; lia|apply Suf_pnext|lia]. }
    assert (HC : good 0 ts (composeAt (rev (cursor ts :: acc)) ts)) by (apply composeAt_good; [apply Suf_refl|intros; lia]).
    destruct (ty (cursor ts)) eqn:E; try (cbn; apply Suf_refl);
      try exact HC; try (apply HN; apply cursor_ne; congruence).
    all: assert (Hne : ts <> []) by (apply cursor_ne; congruence); specialize (HT Hne);
      destruct (typeLoop n ts []); exact HT.
Qed.

Lemma expectType_good ts : good 1 ts (expectType ts).
Proof.
  unfold expectType, typeFuel. destruct (type_loops_good (2 * length ts + 2)) as (H & _).
  apply (H ts []); [lia|reflexivity].
Qed.

(** ** argument lists *)

Lemma argLoop_good : forall n ts acc, S (length ts) <= n -> good 0 ts (argLoop n ts acc).
Proof.
  induction n as [|n IH]; intros ts acc Hn; [lia|]. cbn [argLoop].
  assert (HN : ts <> [] -> forall a, good 0 ts (argLoop n (pnext ts) a)).
  { intros Hne a. pose proof (pnext_len ts Hne). eapply good_mono; [apply IH; lia|apply Suf_pnext|lia]. }
  destruct (ty (cursor ts)) eqn:E; try (cbn; apply Suf_refl); try (apply HN; apply cursor_ne; congruence).
  - assert (Hne : ts <> []) by (apply cursor_ne; congruence). pose proof (pnext_len ts Hne).
    split; [apply Suf_pnext|lia].
  - assert (HA : forall opt l ts1 (P1 : Suf ts1 ts) (P2 : length ts1 <= length ts),
      good 0 ts (match expectType ts1 with
                | POk vt ts2 => argLoop n ts2 (Arg (val (cursor l)) (val vt) opt None :: acc)
                | PErr m ts2 => PErr m ts2
                | PFuel => PFuel
                end)).
    { intros opt l ts1 P1 P2. pose proof (expectType_good ts1) as HT.
      destruct (expectType ts1) as [vt ts2|m ts2|]; cbn in HT; [| |contradiction].
      - destruct HT as [T1 T2]. eapply good_mono; [apply IH; lia|eapply Suf_trans; eassumption|lia].
      - cbn. eapply Suf_trans; eassumption. }
    pose proof (pmatch_good' [TWord; TCloseParen] ts 2 ltac:(noeof) eq_refl) as H1.
    pose proof (pmatch_good' [TWord; TQuestion; TColon; TWhitespace] ts 3 ltac:(noeof) eq_refl) as H2.
    pose proof (pmatch_good' [TWord; TColon; TWhitespace] ts 2 ltac:(noeof) eq_refl) as H3.
    cbv zeta.
    destruct (pmatch [TWord; TCloseParen] ts) as [l1 t1|m1 t1|]; cbn in H1.
    { destruct H1 as [P1 P2]. split; [eapply Suf_trans; [apply Suf_pnext|exact P1]|].
      pose proof (Suf_len _ _ (Suf_pnext t1)). lia. }
    all: destruct (pmatch [TWord; TQuestion; TColon; TWhitespace] ts) as [l2 t2|m2 t2|]; cbn in H2;
      [apply HA; [apply H2|lia]| |].
    all: destruct (pmatch [TWord; TColon; TWhitespace] ts) as [l3 t3|m3 t3|]; cbn in H3;
      [apply HA; [apply H3|lia]|exact H3|contradiction].
Qed.

Lemma expectArgumentList_good ts : good 1 ts (expectArgumentList ts).
Proof.
  unfold expectArgumentList. cbv zeta.
  assert (HP : forall t0, Suf t0 ts -> good 1 ts (match pmatch [TOpenParen] t0 with
    | POk _ ts1 => argLoop (S (length ts1)) ts1 []
    | PErr m ts1 => PErr m ts1
    | PFuel => PFuel
    end)).
  { intros t0 H0. pose proof (pmatch_good' [TOpenParen] t0 1 ltac:(noeof) eq_refl) as H.
    apply Suf_len in H0 as H0'.
    destruct (pmatch [TOpenParen] t0) as [l t|m t|]; cbn in H; [| |contradiction].
    - destruct H as [H1 H2]. eapply good_mono; [apply argLoop_good; lia|eapply Suf_trans; eassumption|lia].
    - cbn. eapply Suf_trans; eassumption. }
  pose proof (pmatch_good' [TWord; TWhitespace] ts 1 ltac:(noeof) eq_refl) as H.
  destruct (pmatch [TWord; TWhitespace] ts) as [l t|m t|]; cbn in H.
  - destruct (String.eqb _ _); [now apply HP|apply H].
  - apply HP, Suf_refl.
  - contradiction.
Qed.

Lemma errListLoop_good : forall n ts acc, S (length ts) <= n -> good 0 ts (errListLoop n ts acc).
Proof.
  induction n as [|n IH]; intros ts acc Hn; [lia|]. cbn [errListLoop].
  pose proof (pmatch_good' [TWhitespace; TBar; TWhitespace; TWord] ts 2 ltac:(noeof) eq_refl) as H.
  destruct (pmatch _ ts) as [l t|m t|]; cbn in H; try contradiction.
  - destruct H as [H1 H2]. eapply good_mono; [apply IH; lia|exact H1|lia].
  - split; [apply Suf_refl|lia].
Qed.

Lemma expectErrorList_good ts : good 1 ts (expectErrorList ts).
Proof.
  unfold expectErrorList. pose proof (pmatch_good' [TWhitespace; TWord] ts 1 ltac:(noeof) eq_refl) as H.
  destruct (pmatch _ ts) as [l t|m t|]; cbn in H; try contradiction; [|exact H].
  destruct H as [H1 H2]. eapply good_mono; [apply errListLoop_good; lia|exact H1|lia].
Qed.

Lemma annLoop_good : forall n ts seen acc, S (length ts) <= n -> good 0 ts (annLoop n ts seen acc).
Proof.
  induction n as [|n IH]; intros ts seen acc Hn; [lia|]. cbn [annLoop].
  pose proof (pmatch_good' [TAt; TWord] ts 2 ltac:(noeof) eq_refl) as H.
  destruct (pmatch [TAt; TWord] ts) as [l ts1|m ts1|]; cbn in H; try contradiction.
  2:{ split; [apply Suf_refl|lia]. }
  destruct H as [H1 H2].
  assert (HA : forall t s a, Suf t ts -> length t < length ts -> good 0 ts (annLoop n t s a)).
  { intros t s a Ht Hl. eapply good_mono; [apply IH; lia|exact Ht|lia]. }
  assert (HP : forall t, Suf t ts1 -> Suf (pnext t) ts /\ length (pnext t) < length ts).
  { intros t Ht. split; [eapply Suf_trans; [apply Suf_pnext|]; eapply Suf_trans; eassumption|].
    apply Suf_len in Ht. pose proof (Suf_len _ _ (Suf_pnext t)). lia. }
  cbv zeta. destruct (str_in _ seen); [exact H1|].
  destruct (tt_eqb (ty (cursor ts1)) TColon).
  2:{ apply HA; [assumption|lia]. }
  assert (Hn1 : Suf (pnext (pnext ts1)) ts /\ length (pnext (pnext ts1)) < length ts) by (apply HP, Suf_pnext).
  destruct Hn1 as [Hn1 Hn2].
  destruct (ty (cursor (pnext ts1))); try (apply HA; assumption).
  pose proof (expectStringValue_good (pnext ts1)) as HS.
  destruct (expectStringValue (pnext ts1)) as [v ts3|m ts3|]; cbn in HS; try contradiction.
  - destruct HS as [S1 S2]. assert (Hs3 : Suf ts3 ts1) by (eapply Suf_trans; [exact S1|apply Suf_pnext]).
    destruct (HP ts3 Hs3). apply HA; assumption.
  - cbn. eapply Suf_trans; [exact HS|]. eapply Suf_trans; [apply Suf_pnext|exact H1].
Qed.

(** [@word] at the cursor: at least two tokens are consumed *)
Lemma parseAnnotations_good ts : good 0 ts (parseAnnotations ts).
Proof. apply annLoop_good. lia. Qed.

Definition atWord (ts : toks) : bool :=
  match ts with t1 :: t2 :: _ => tt_eqb (ty t1) TAt && tt_eqb (ty t2) TWord | _ => false end.

Lemma parseAnnotations_consumes ts : atWord ts = true -> good 1 ts (parseAnnotations ts).
Proof.
  destruct ts as [|t1 [|t2 r]]; try discriminate. cbn [atWord]. intro H. apply andb_true_iff in H as [E1 E2].
  unfold parseAnnotations. remember (length (t1 :: t2 :: r)) as n eqn:Hn. cbn [annLoop].
  assert (Hm : pmatch [TAt; TWord] (t1 :: t2 :: r) = POk [t1; t2] r).
  { unfold pmatch. cbn [matchGo cursor pnext]. rewrite E1. cbn [matchGo cursor pnext]. rewrite E2. reflexivity. }
  rewrite Hm. cbn [nth]. cbv zeta. change (str_in (val t2) []) with false. cbv iota.
  assert (HA : forall t s a, Suf t r -> good 1 (t1 :: t2 :: r) (annLoop n t s a)).
  { intros t s a Ht. pose proof (Suf_len _ _ Ht). eapply good_mono; [apply annLoop_good; cbn in Hn; lia| |cbn; lia].
    eapply Suf_trans; [exact Ht|]. now exists [t1; t2]. }
  destruct (tt_eqb (ty (cursor r)) TColon); [|apply HA, Suf_refl].
  assert (Hp2 : Suf (pnext (pnext r)) r) by (eapply Suf_trans; apply Suf_pnext).
  destruct (ty (cursor (pnext r))); try (apply HA; exact Hp2).
  pose proof (expectStringValue_good (pnext r)) as HS.
  destruct (expectStringValue (pnext r)) as [v ts3|m ts3|]; cbn in HS; try contradiction.
  - destruct HS as [S1 S2]. apply HA. eapply Suf_trans; [apply Suf_pnext|]. eapply Suf_trans; [exact S1|apply Suf_pnext].
  - cbn. eapply Suf_trans; [exact HS|]. eapply Suf_trans; [apply Suf_pnext|]. now exists [t1; t2].
Qed.

Lemma parseAnnotations_stuck ts : atWord ts = false -> parseAnnotations ts = POk [] ts.
Proof.
  intro H. unfold parseAnnotations. cbn [annLoop].
  assert (Hm : forall l r, pmatch [TAt; TWord] ts <> POk l r).
  { intros l r. unfold pmatch. cbn [matchGo]. destruct ts as [|t1 [|t2 r']]; cbn [cursor pnext].
    - cbn. discriminate.
    - destruct (tt_eqb (ty t1) TAt); cbn; discriminate.
    - cbn in H. destruct (tt_eqb (ty t1) TAt); [|cbn; discriminate]. cbn [andb] in H.
      cbn [matchGo cursor pnext]. rewrite H. cbn. discriminate. }
  destruct (pmatch [TAt; TWord] ts) as [l r|m r|] eqn:E; [now destruct (Hm l r)|reflexivity|reflexivity].
Qed.

(** ** the machine *)

(** what the states know about the cursor *)
Definition atState (s : pstate) (ts : toks) : Prop :=
  match s with
  | SSpace => ty (cursor ts) = TWhitespace
  | SNewLine => ty (cursor ts) = TNewLine
  | SComment => ty (cursor ts) = THash
  | SImport => ty (cursor ts) = TWord
  | _ => True
  end.

Definition rank (s : pstate) : nat :=
  match s with
  | SEOF => 0
  | SDefault => 3
  | SDeclaration => 2
  | SEOL => 2
  | SEnumDefinition _ | SErrorStatus _ | SImportValue | SImportMembers _
  | STypeAliasMeta _ | SStructField _ | SServiceMethod _ | SStructFieldMetaDef _ => 4
  | STypeAliasMetaDef _ | SStructFieldDef _ | SServiceMethodDef _ => 3
  | SEnumExplicitValue _ _ | SStructFieldMeta _ => 5
  | _ => 1
  end.

Definition measure (c : pconf) : nat := 4 * length (p_toks c) + rank (p_state c).

(** the one state that does not progress: in a service, "@" without a word *)
Definition stuck (c : pconf) : bool :=
  match p_state c with
  | SServiceMethod _ => tt_eqb (ty (cursor (p_toks c))) TAt && negb (atWord (p_toks c))
  | _ => false
  end.

Definition progress (c : pconf) (r : pstep) : Prop :=
  match r with
  | Next c' => atState (p_state c') (p_toks c') /\ measure c' < measure c /\ Suf (p_toks c') (p_toks c)
  | Fail e => exists ts, Suf ts (p_toks c) /\ pe_line e = line (cursor ts) /\ pe_col e = col (cursor ts)
                         /\ pe_near e = val (cursor ts)
  | Done _ => True
  | NoFuel => False
  end.

Lemma stateError_progress c m ts : Suf ts (p_toks c) -> progress c (stateError m ts).
Proof. intro H. exists ts. now repeat split. Qed.

Lemma onOk_progress {A} c k ts (r : pres A) f : Suf ts (p_toks c) ->
  good k ts r ->
  (forall a ts', Suf ts' (p_toks c) -> length ts' + k <= length ts -> progress c (f a ts')) ->
  progress c (onOk r f).
Proof.
  intros Hs H Hf. destruct r as [a t|m t|]; cbn in H; [| |contradiction].
  - apply Hf; [eapply Suf_trans; [apply H|exact Hs]|apply H].
  - apply stateError_progress. eapply Suf_trans; eassumption.
Qed.

Lemma nth_match_last ts l ts1 : pmatch [TWhitespace; TWord] ts = POk l ts1 ->
  Suf (nth 1 l eofTok :: ts1) ts.
Proof.
  unfold pmatch. cbn [matchGo]. intro H.
  destruct (tt_eqb (ty (cursor ts)) TWhitespace) eqn:E.
  - cbn [matchGo] in H. destruct (tt_eqb (ty (cursor (pnext ts))) TWord) eqn:E2; cbn [matchGo] in H.
    + injection H as <- <-. cbn. destruct ts as [|a [|b r]]; try discriminate. cbn. now exists [a].
    + cbn in H. discriminate.
  - change (tt_eqb TWhitespace TEOL) with false in H. change (tt_eqb TWhitespace TWhitespace) with true in H.
    cbv iota in H. cbn [matchGo] in H. destruct (tt_eqb (ty (cursor ts)) TWord) eqn:E2; cbn [matchGo] in H.
    + injection H as <- <-. cbn. destruct ts as [|b r]; try discriminate. cbn. apply Suf_refl.
    + cbn in H. discriminate.
Qed.

Ltac next_ok := repeat split; cbn [p_state p_toks measure rank atState]; try assumption; try exact I;
  try (unfold measure; cbn [p_state p_toks rank]; lia).

Ltac chain k := eapply (onOk_progress _ k); [eassumption || apply Suf_refl|first
  [ apply pmatch_good'; [noeof|reflexivity] | apply expectLiteralValue_good | apply expectPath_good
  | apply expectStringValue_good | apply expectType_good | apply expectMetadataKey_good
  | apply expectMetadataValue_good | apply expectEOL_good | apply expectArgumentList_good
  | apply expectErrorList_good ]|].


Lemma methodErrors_progress c f ts :
  (forall es t, Suf t ts -> progress c (f es t)) -> Suf ts (p_toks c) -> progress c (methodErrors f ts).
Proof.
  intros Hf Hs. unfold methodErrors.
  pose proof (pmatch_good' [TWhitespace; TWord] ts 1 ltac:(noeof) eq_refl) as HM.
  destruct (pmatch [TWhitespace; TWord] ts) as [l6 ts6|m6 ts6|]; cbn in HM; [|apply Hf, Suf_refl|contradiction].
  destruct HM as [M1 M2]. destruct (String.eqb _ _); [|now apply Hf].
  pose proof (expectErrorList_good ts6) as HG.
  destruct (expectErrorList ts6) as [es t|m t|]; cbn in HG; [| |contradiction].
  - apply Hf. eapply Suf_trans; [apply HG|exact M1].
  - apply stateError_progress. eapply Suf_trans; [exact HG|]. eapply Suf_trans; eassumption.
Qed.

Lemma methodOutputs_progress c f ts :
  (forall os outs es t, Suf t ts -> progress c (f os outs es t)) -> Suf ts (p_toks c) ->
  progress c (methodOutputs f ts).
Proof.
  intros Hf Hs. unfold methodOutputs.
  pose proof (pmatch_good' [TWhitespace; TRocket; TWhitespace] ts 1 ltac:(noeof) eq_refl) as HM.
  destruct (pmatch [TWhitespace; TRocket; TWhitespace] ts) as [l4 ts4|m4 ts4|]; cbn in HM.
  - destruct HM as [M1 M2]. assert (S4 : Suf ts4 (p_toks c)) by (eapply Suf_trans; eassumption). cbv zeta.
    assert (HO : forall os t, Suf t ts4 -> progress c (onOk (expectArgumentList t)
        (fun outs ts5 => methodErrors (f os outs) ts5))).
    { intros os t St. pose proof (expectArgumentList_good t) as HG.
      destruct (expectArgumentList t) as [outs t5|m t5|]; cbn in HG; [| |contradiction].
      - cbn [onOk]. apply methodErrors_progress.
        + intros es t6 S6. apply Hf. eapply Suf_trans; [exact S6|]. eapply Suf_trans; [apply HG|].
          eapply Suf_trans; eassumption.
        + eapply Suf_trans; [apply HG|]. eapply Suf_trans; eassumption.
      - apply stateError_progress. eapply Suf_trans; [exact HG|]. eapply Suf_trans; eassumption. }
    pose proof (pmatch_good' [TWord; TWhitespace] ts4 1 ltac:(noeof) eq_refl) as HM2.
    destruct (pmatch [TWord; TWhitespace] ts4) as [l5 ts5|m5 ts5|]; cbn in HM2;
      [|apply HO, Suf_refl|contradiction].
    destruct (String.eqb _ _); [apply HO, HM2|].
    apply stateError_progress. eapply Suf_trans; [apply HM2|exact S4].
  - apply methodErrors_progress; [|assumption]. intros. now apply Hf.
  - contradiction.
Qed.

Lemma methodRest_progress s ts cm out a b n name ts2 :
  Suf ts2 ts -> length ts2 + 2 <= length ts ->
  progress (PC (SServiceMethodDef s) ts cm out) (methodRest s cm out a b n name ts2).
Proof.
  intros S2 L2. set (c := PC (SServiceMethodDef s) ts cm out). unfold methodRest.
  destruct (parseComments cm n) as [com cm'].
  assert (HF : forall m t, Suf t ts2 -> progress c (finishMethod s cm' out m t)).
  { intros m t St. split; [exact I|]. split; [|eapply Suf_trans; eassumption].
    apply Suf_len in St. unfold measure, c. cbn [p_state p_toks rank]. lia. }
  destruct b; [apply HF, Suf_refl|].
  eapply (onOk_progress c 1); [exact S2|apply expectArgumentList_good|]. intros ins ts3 S3 L3.
  pose proof (expectArgumentList_good ts2) as HG.
  assert (St3 : length ts3 <= length ts2) by lia.
  apply methodOutputs_progress; [|exact S3]. intros os outs es t St.
  split; [exact I|]. split; [|eapply Suf_trans; eassumption].
  apply Suf_len in St. unfold measure, c. cbn [p_state p_toks rank]. lia.
Qed.

Lemma stepServiceMethodDef_progress s ts cm out :
  progress (PC (SServiceMethodDef s) ts cm out) (stepServiceMethodDef s ts cm out).
Proof.
  set (c := PC (SServiceMethodDef s) ts cm out). unfold stepServiceMethodDef.
  destruct (hasDup _); [apply stateError_progress, Suf_refl|].
  eapply (onOk_progress c 2); [apply Suf_refl|apply pmatch_good'; [noeof|reflexivity]|].
  intros l ts1 S1 L1. cbv zeta. destruct (_ || _).
  - eapply (onOk_progress c 1); [exact S1|apply pmatch_good'; [noeof|reflexivity]|].
    intros l2 ts2 S2 L2. apply methodRest_progress; [exact S2|cbn in L1; lia].
  - apply methodRest_progress; [exact S1|exact L1].
Qed.

Lemma step_progress c : atState (p_state c) (p_toks c) -> stuck c = false -> progress c (step c).
Proof.
  destruct c as [st ts cm out]. cbn [p_state p_toks]. intros Ha Hst.
  set (c := PC st ts cm out).
  assert (HN : forall st' ts' cm' out', Suf ts' ts -> atState st' ts' ->
     4 * length ts' + rank st' < 4 * length ts + rank st -> progress c (Next (PC st' ts' cm' out'))).
  { intros st' ts' cm' out' H1 H2 H3. split; [exact H2|]. split; [exact H3|exact H1]. }
  assert (HE : forall m ts', Suf ts' ts -> progress c (stateError m ts')) by (intros; now apply stateError_progress).
  assert (HP : ty (cursor ts) <> TEOF -> S (length (pnext ts)) = length ts) by (intro; apply pnext_len, cursor_ne; assumption).
  assert (HH : ty (cursor ts) = THash -> S (length (continueUntilEOL ts)) <= length ts) by apply continueUntilEOL_hash.
  pose proof (Suf_pnext ts) as SP. pose proof (continueUntilEOL_Suf ts) as SC.
  change (step c) with (step (PC st ts cm out)).
  unfold step. cbn [p_state p_toks p_comments p_out].
  destruct st; cbv zeta.
  - (* SDefault *)
    destruct (ty (cursor ts)) eqn:E; cbv beta iota; try (apply HE; apply Suf_refl);
      (apply HN; [apply Suf_refl|cbn; trivial|cbn; lia]).
  - (* SDeclaration *)
    destruct (tt_eqb (ty (cursor ts)) TWord) eqn:E; [|apply HE, Suf_refl]. apply tt_eqb_eq in E. cbn [negb].
    repeat match goal with |- progress _ (if ?b then _ else _) => destruct b end;
      try (apply HE; apply Suf_refl); (apply HN; [apply Suf_refl|cbn; trivial|cbn; lia]).
  - (* SSpace *)
    cbn in Ha. assert (Hp := HP ltac:(congruence)).
    destruct (tt_eqb (ty (cursor (pnext ts))) TWhitespace) eqn:E; [apply tt_eqb_eq in E|];
      (apply HN; [assumption|cbn; trivial|cbn; lia]).
  - cbn in Ha. assert (Hp := HP ltac:(congruence)).
    destruct (tt_eqb (ty (cursor (pnext ts))) TNewLine) eqn:E; [apply tt_eqb_eq in E|];
      (apply HN; [assumption|cbn; trivial|cbn; lia]).
  - cbn in Ha. specialize (HH Ha). apply HN; [assumption|exact I|cbn; lia].
  - exact I.
  - eapply (onOk_progress c 0); [apply Suf_refl|apply expectEOL_good|]. intros _ ts1 S1 L1.
    apply HN; [exact S1|exact I|cbn in *; lia].
  - destruct ts as [|t r]; (apply HN; [auto with suf|exact I|cbn; lia]).
  - eapply (onOk_progress c 2); [apply Suf_refl|apply pmatch_good'; [noeof|reflexivity]|]. intros l ts1 S1 L1.
    destruct (parseComments cm _) as [com cm']. apply HN; [exact S1|exact I|cbn in *; lia].
  - eapply (onOk_progress c 1); [apply Suf_refl|apply expectLiteralValue_good|]. intros v ts1 S1 L1.
    apply HN; [exact S1|exact I|cbn in *; lia].
  - (* SEnum *)
    eapply (onOk_progress c 4); [apply Suf_refl|apply pmatch_good'; [noeof|reflexivity]|]. intros l ts1 S1 L1.
    destruct (String.eqb _ _); [|apply HE; exact S1].
    destruct (parseComments cm _) as [com cm']. apply HN; [exact S1|exact I|cbn in *; lia].
  - (* SEnumDefinition *)
    destruct (ty (cursor ts)) eqn:E; cbv beta iota; try (apply HN; [apply Suf_refl|exact I|cbn; lia]);
      try (assert (Hp := HP ltac:(congruence)); apply HN; [assumption|exact I|cbn; lia]).
    + eapply (onOk_progress c 2); [apply Suf_refl|apply pmatch_good'; [noeof|reflexivity]|]. intros l ts1 S1 L1.
      destruct (parseComments cm _) as [com cm']. apply HN; [exact S1|exact I|cbn in *; lia].
  - (* SEnumExplicitValue *)
    pose proof (pmatch_good' [TWhitespace; TEqual; TWhitespace] ts 1 ltac:(noeof) eq_refl) as HM.
    destruct (pmatch [TWhitespace; TEqual; TWhitespace] ts) as [l t|m t|]; cbn in HM.
    + eapply (onOk_progress c 1); [exact (proj1 HM)|apply expectLiteralValue_good|]. intros v ts2 S2 L2.
      destruct (parseComments cm _) as [com cm']. apply HN; [exact S2|exact I|cbn in *; lia].
    + apply HN; [apply Suf_refl|exact I|cbn; lia].
    + contradiction.
  - (* SError *)
    eapply (onOk_progress c 3); [apply Suf_refl|apply pmatch_good'; [noeof|reflexivity]|]. intros l ts1 S1 L1.
    destruct (negb _); [apply HE; exact S1|]. destruct (isNumber _); [|apply HE; exact S1].
    apply HN; [exact S1|exact I|cbn in *; lia].
  - (* SErrorMessage *)
    destruct (ty (cursor ts)) eqn:E; cbv beta iota; try (apply HE; apply Suf_refl).
    + eapply (onOk_progress c 1); [apply Suf_refl|apply expectStringValue_good|]. intros v ts1 S1 L1.
      apply HN; [exact S1|exact I|cbn in *; lia].
    + assert (Hp := HP ltac:(congruence)). apply HN; [assumption|exact I|cbn; lia].
  - (* SErrorStatus *)
    pose proof (pmatch_good' [TWhitespace; TWord] ts 1 ltac:(noeof) eq_refl) as HM.
    destruct (pmatch [TWhitespace; TWord] ts) as [l t|m t|] eqn:EM; cbn in HM; [| |contradiction].
    + apply nth_match_last in EM. destruct (negb _); [apply HE; exact EM|].
      pose proof (pmatch_good' [TWhitespace; TWord] t 1 ltac:(noeof) eq_refl) as HM2.
      destruct (pmatch [TWhitespace; TWord] t) as [l2 t2|m t2|] eqn:EM2; cbn in HM2; [| |contradiction].
      * apply nth_match_last in EM2. destruct (isNumber _).
        -- eapply (onOk_progress c 0); [eapply Suf_trans; [exact (proj1 HM2)|exact (proj1 HM)]|apply expectEOL_good|].
           intros _ ts3 S3 L3. apply HN; [exact S3|exact I|cbn in *; lia].
        -- apply HE. eapply Suf_trans; [exact EM2|exact (proj1 HM)].
      * apply HE. eapply Suf_trans; [exact HM2|exact (proj1 HM)].
    + eapply (onOk_progress c 0); [apply Suf_refl|apply expectEOL_good|].
      intros _ ts3 S3 L3. apply HN; [exact S3|exact I|cbn in *; lia].
  - (* SImport *)
    cbn in Ha.
    assert (HM : match pmatch [TWord; TEOL] ts with
                 | POk _ t => Suf t ts /\ length t + 1 <= length ts
                 | PErr _ t => Suf t ts /\ length t + 1 <= length ts
                 | PFuel => False end).
    { pose proof (pmatch_good' [TWord; TEOL] ts 1 ltac:(noeof) eq_refl) as HM.
      unfold pmatch in *. cbn [matchGo] in *. rewrite Ha in *. change (tt_eqb TWord TWord) with true in *. cbv iota in *.
      assert (Hp := HP ltac:(congruence)). cbn [matchGo] in *.
      destruct (tt_eqb (ty (cursor (pnext ts))) TEOL).
      - exact HM.
      - change (tt_eqb TEOL TEOL) with true in *. cbv iota in *.
        pose proof (expectEOL_good (pnext ts)) as HG. destruct (expectEOL (pnext ts)) as [u t|m t|]; cbn in HG.
        + exact HM.
        + split; [exact HM|]. apply Suf_len in HG. lia.
        + contradiction. }
    destruct (pmatch [TWord; TEOL] ts) as [l t|m t|]; [| |contradiction].
    + destruct HM as [M1 M2]. destruct (String.eqb _ _); [|apply HE; exact M1]. apply HN; [exact M1|exact I|cbn; lia].
    + destruct HM as [M1 M2].
      eapply (onOk_progress c 0); [exact M1|apply pmatch_good'; [noeof|reflexivity]|]. intros l2 ts2 S2 L2.
      eapply (onOk_progress c 1); [exact S2|apply expectPath_good|]. intros pth ts3 S3 L3.
      apply HN; [exact S3|exact I|cbn; lia].
  - (* SImportValue *)
    destruct (ty (cursor ts)) eqn:E; cbv beta iota; try (apply HN; [apply Suf_refl|exact I|cbn; lia]);
      try (assert (Hp := HP ltac:(congruence)); apply HN; [assumption|exact I|cbn; lia]).
    + eapply (onOk_progress c 1); [apply Suf_refl|apply pmatch_good'; [noeof|reflexivity]|]. intros l ts1 S1 L1.
      eapply (onOk_progress c 1); [exact S1|apply expectPath_good|]. intros v ts2 S2 L2.
      apply HN; [exact S2|exact I|cbn in *; lia].
  - (* SImportMembers *)
    destruct (ty (cursor ts)) eqn:E; cbv beta iota; try (apply HN; [apply Suf_refl|exact I|cbn; lia]);
      try (assert (Hp := HP ltac:(congruence)); apply HN; [assumption|exact I|cbn; lia]).
    + eapply (onOk_progress c 1); [apply Suf_refl|apply pmatch_good'; [noeof|reflexivity]|]. intros l ts1 S1 L1.
      eapply (onOk_progress c 1); [exact S1|apply expectLiteralValue_good|]. intros v ts2 S2 L2.
      apply HN; [exact S2|exact I|cbn in *; lia].
  - (* STypeAlias *)
    eapply (onOk_progress c 3); [apply Suf_refl|apply pmatch_good'; [noeof|reflexivity]|]. intros l ts1 S1 L1.
    destruct (negb _); [apply HE; exact S1|].
    eapply (onOk_progress c 1); [exact S1|apply expectType_good|]. intros v ts2 S2 L2.
    destruct (parseComments cm _) as [com cm']. apply HN; [exact S2|exact I|cbn in *; lia].
  - (* STypeAliasMeta *)
    destruct (ty (cursor ts)) eqn:E; cbv beta iota; try (apply HN; [apply Suf_refl|exact I|cbn; lia]);
      try (assert (Hp := HP ltac:(congruence)); apply HN; [assumption|exact I|cbn; lia]).
  - (* STypeAliasMetaDef *)
    eapply (onOk_progress c 1); [apply Suf_refl|apply pmatch_good'; [noeof|reflexivity]|]. intros l ts1 S1 L1.
    eapply (onOk_progress c 1); [exact S1|apply expectMetadataKey_good|]. intros k ts2 S2 L2.
    eapply (onOk_progress c 1); [exact S2|apply pmatch_good'; [noeof|reflexivity]|]. intros l3 ts3 S3 L3.
    eapply (onOk_progress c 0); [exact S3|apply expectMetadataValue_good|]. intros v ts4 S4 L4.
    apply HN; [exact S4|exact I|cbn in *; lia].
  - (* SStruct *)
    eapply (onOk_progress c 2); [apply Suf_refl|apply pmatch_good'; [noeof|reflexivity]|]. intros l ts1 S1 L1.
    destruct (negb _); [apply HE; exact S1|].
    destruct (parseComments cm _) as [com cm']. apply HN; [exact S1|exact I|cbn in *; lia].
  - (* SStructField *)
    destruct (ty (cursor ts)) eqn:E; cbv beta iota; try (apply HN; [apply Suf_refl|exact I|cbn; lia]);
      try (assert (Hp := HP ltac:(congruence)); apply HN; [assumption|exact I|cbn; lia]).
  - (* SStructFieldDef *)
    eapply (onOk_progress c 2); [apply Suf_refl|apply pmatch_good'; [noeof|reflexivity]|]. intros l ts1 S1 L1.
    destruct (parseComments cm _) as [com cm']. cbv zeta.
    pose proof (pmatch_good' [TQuestion] ts1 1 ltac:(noeof) eq_refl) as HM.
    destruct (pmatch [TQuestion] ts1) as [lq tq|m tq|]; cbn in HM; [| |contradiction].
    + assert (Sq : Suf tq ts) by (eapply Suf_trans; [apply HM|exact S1]).
      eapply (onOk_progress c 1); [exact Sq|apply pmatch_good'; [noeof|reflexivity]|]. intros l3 ts3 S3 L3.
      eapply (onOk_progress c 1); [exact S3|apply expectType_good|]. intros v ts4 S4 L4.
      apply HN; [exact S4|exact I|cbn in *; lia].
    + eapply (onOk_progress c 1); [exact S1|apply pmatch_good'; [noeof|reflexivity]|]. intros l3 ts3 S3 L3.
      eapply (onOk_progress c 1); [exact S3|apply expectType_good|]. intros v ts4 S4 L4.
      apply HN; [exact S4|exact I|cbn in *; lia].
  - (* SStructFieldMeta *)
    destruct (ty (cursor ts)) eqn:E; cbv beta iota; try (apply HN; [apply Suf_refl|exact I|cbn; lia]);
      try (assert (Hp := HP ltac:(congruence)); apply HN; [assumption|exact I|cbn; lia]).
  - (* SStructFieldMetaDef *)
    eapply (onOk_progress c 1); [apply Suf_refl|apply pmatch_good'; [noeof|reflexivity]|]. intros l ts1 S1 L1.
    eapply (onOk_progress c 1); [exact S1|apply expectMetadataKey_good|]. intros k ts2 S2 L2.
    eapply (onOk_progress c 1); [exact S2|apply pmatch_good'; [noeof|reflexivity]|]. intros l3 ts3 S3 L3.
    eapply (onOk_progress c 0); [exact S3|apply expectMetadataValue_good|]. intros v ts4 S4 L4.
    apply HN; [exact S4|exact I|cbn in *; lia].
  - (* SService *)
    eapply (onOk_progress c 1); [apply Suf_refl|apply pmatch_good'; [noeof|reflexivity]|]. intros l ts1 S1 L1.
    destruct (negb _); [apply HE; exact S1|].
    eapply (onOk_progress c 1); [exact S1|apply expectLiteralValue_good|]. intros n ts2 S2 L2.
    eapply (onOk_progress c 0); [exact S2|apply expectEOL_good|]. intros _ ts3 S3 L3.
    destruct (parseComments cm _) as [com cm']. apply HN; [exact S3|exact I|cbn in *; lia].
  - (* SServiceMethod *)
    destruct (ty (cursor ts)) eqn:E; cbv beta iota; try (apply HN; [apply Suf_refl|exact I|cbn; lia]);
      try (assert (Hp := HP ltac:(congruence)); apply HN; [assumption|exact I|cbn; lia]).
    + cbn [stuck p_state p_toks] in Hst. unfold stuck in Hst. cbn [p_state p_toks] in Hst. rewrite E in Hst.
      change (tt_eqb TAt TAt) with true in Hst. cbn [andb] in Hst. apply negb_false_iff in Hst.
      eapply (onOk_progress c 1); [apply Suf_refl|apply parseAnnotations_consumes; exact Hst|].
      intros anns ts1 S1 L1. apply HN; [exact S1|exact I|cbn in *; lia].
  - apply stepServiceMethodDef_progress.
Qed.

(** ** Runs *)

(** [Steps c c']: the parser gets from [c] to [c'] *)
Inductive Steps : pconf -> pconf -> Prop :=
| StepsRefl c : Steps c c
| StepsNext c c1 c2 : step c = Next c1 -> Steps c1 c2 -> Steps c c2.

Lemma stuck_step c : stuck c = true -> step c = Next c.
Proof.
  destruct c as [st ts cm out]. unfold stuck. cbn [p_state p_toks]. destruct st; try discriminate.
  intro H. apply andb_true_iff in H. destruct H as [H1 H2]. apply tt_eqb_eq in H1. apply negb_true_iff in H2.
  unfold step. cbn [p_state p_toks p_comments p_out]. rewrite H1. rewrite (parseAnnotations_stuck _ H2). cbn [onOk].
  rewrite app_nil_r. now destruct s.
Qed.

Lemma stuck_run c : stuck c = true -> forall k, runParser k c = ParseLoop.
Proof. intros H k. induction k as [|k IH]; [reflexivity|]. cbn [runParser]. now rewrite (stuck_step c H). Qed.

Definition verdict (r : parseResult) : Prop :=
  match r with ParseLoop => False | _ => True end.

Lemma run_verdict : forall n c, atState (p_state c) (p_toks c) -> measure c < n ->
  (forall c', Steps c c' -> stuck c' = false) ->
  exists r, verdict r /\ (forall k, n <= k -> runParser k c = r).
Proof.
  induction n as [|n IH]; intros c Ha Hm Hs; [lia|].
  pose proof (step_progress c Ha (Hs c (StepsRefl c))) as P.
  destruct (step c) as [c1|o|e|] eqn:E; [| | |destruct P].
  - destruct P as (P1 & P2 & P3).
    destruct (IH c1 P1 ltac:(lia)) as (r & V & R).
    { intros c' H. apply Hs. eapply StepsNext; eassumption. }
    exists r. split; [exact V|]. intros [|k] Hk; [lia|]. cbn. rewrite E. apply R. lia.
  - exists (Parsed o). split; [exact I|]. intros [|k] Hk; [lia|]. cbn. now rewrite E.
  - exists (ParseError e). split; [exact I|]. intros [|k] Hk; [lia|]. cbn. now rewrite E.
Qed.

(** a run that reaches a stuck configuration never ends *)
Lemma steps_stuck c c' : Steps c c' -> stuck c' = true -> forall k, runParser k c = ParseLoop.
Proof.
  intro H. induction H as [c|c c1 c2 E H IH]; intros Hs k; [now apply stuck_run|].
  destruct k as [|k]; [reflexivity|]. cbn. rewrite E. now apply IH.
Qed.

Lemma steps_or_stuck : forall n c, atState (p_state c) (p_toks c) -> measure c < n ->
  (exists c', Steps c c' /\ stuck c' = true) \/ (forall c', Steps c c' -> stuck c' = false).
Proof.
  induction n as [|n IH]; intros c Ha Hm; [lia|].
  destruct (stuck c) eqn:Hc; [left; exists c; split; [constructor|assumption]|].
  pose proof (step_progress c Ha Hc) as P.
  destruct (step c) as [c1|o|e|] eqn:E; [| | |destruct P].
  - destruct P as (P1 & P2 & P3). destruct (IH c1 P1 ltac:(lia)) as [(c' & S' & H')|H'].
    + left. exists c'. split; [eapply StepsNext; eassumption|assumption].
    + right. intros c' H. inversion H; subst; [assumption|]. rewrite E in H0. injection H0 as <-. now apply H'.
  - right. intros c' H. inversion H; subst; [assumption|congruence].
  - right. intros c' H. inversion H; subst; [assumption|congruence].
Qed.

Lemma measure_init src : measure (initConf src) < parserFuel (p_toks (initConf src)).
Proof. unfold initConf. destruct (tokenize src) as [ts cm]. unfold measure, parserFuel. cbn. lia. Qed.
Lemma atState_init src : atState (p_state (initConf src)) (p_toks (initConf src)).
Proof. unfold initConf. destruct (tokenize src) as [ts cm]. exact I. Qed.

Lemma steps_suffix c c' : Steps c c' -> atState (p_state c) (p_toks c) -> Suf (p_toks c') (p_toks c).
Proof.
  intro H. induction H as [c|c c1 c2 E H IH]; intro Ha; [apply Suf_refl|].
  destruct (stuck c) eqn:Hc.
  - rewrite (stuck_step c Hc) in E. injection E as <-. now apply IH.
  - pose proof (step_progress c Ha Hc) as P. rewrite E in P. destruct P as (P1 & P2 & P3).
    eapply Suf_trans; [apply IH; exact P1|exact P3].
Qed.

Lemma fail_run : forall k c e, atState (p_state c) (p_toks c) -> runParser k c = ParseError e ->
  exists ts, Suf ts (p_toks c) /\ pe_line e = line (cursor ts) /\ pe_col e = col (cursor ts)
             /\ pe_near e = val (cursor ts).
Proof.
  induction k as [|k IH]; intros c e Ha H; [discriminate|]. cbn in H.
  destruct (stuck c) eqn:Hc.
  - rewrite (stuck_step c Hc) in H. now apply IH.
  - pose proof (step_progress c Ha Hc) as P. destruct (step c) as [c1|o|e1|]; try discriminate.
    + destruct P as (P1 & P2 & P3). destruct (IH c1 e P1 H) as (ts & S1 & R). exists ts. split; [|exact R].
      eapply Suf_trans; eassumption.
    + injection H as <-. exact P.
Qed.
