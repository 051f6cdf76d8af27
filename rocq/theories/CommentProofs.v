(** Comments: what the tokenizer records and what parseComments attaches. *)
From Coq Require Import ZifyBool ZifyN.
From Verif Require Import Base BaseProofs Utf8 Utf8Proofs Lexer LexSpec LexerProofs Tokenize Ast Parser
  ParserTerm PropsParserAux StringProofs CommentSpec.

(** ** the comments map *)

Lemma getComment_put n k s m : getComment n (put_comment k s m) = if k =? n then Some s else getComment n m.
Proof.
  induction m as [|[j v] m IH]; cbn.
  - destruct (k =? n); reflexivity.
  - destruct (Nat.eqb_spec j k) as [->|H]; cbn.
    + now destruct (k =? n).
    + rewrite IH. destruct (Nat.eqb_spec j n) as [->|]; [|reflexivity]. destruct (Nat.eqb_spec k n); congruence.
Qed.

Lemma getComment_del n k m : getComment n (delComment k m) = if k =? n then None else getComment n m.
Proof.
  unfold delComment in *. induction m as [|[j v] m IH]; cbn; [now destruct (k =? n)|].
  destruct (Nat.eqb_spec j k) as [->|H]; cbn.
  - rewrite IH. now destruct (k =? n).
  - rewrite IH. destruct (Nat.eqb_spec j n) as [->|]; [|reflexivity]. destruct (Nat.eqb_spec k n); congruence.
Qed.

Definition hasC (m : comments) (n : nat) : Prop := getComment n m <> None.
Definition textC (m : comments) (n : nat) : string := match getComment n m with Some s => s | None => "" end.
Definition shown (s : string) : bool := negb (has_prefix "!" s).

Lemma hasC_nil n : ~ hasC [] n.
Proof. unfold hasC. cbn. congruence. Qed.

(** the loop once it has entered the block (or is about to give up) *)
Lemma pcLoop_block : forall s c m it, 1 <= it ->
  exists k, k <= S s /\ (forall i, k <= i <= s -> hasC m i) /\ (k = 0 \/ ~ hasC m (k - 1)) /\
    let (c', m') := pcLoop s it c m in
    rev c' = filter shown (map (textC m) (seq k (S s - k))) ++ rev c /\
    forall i, getComment i m' = if (k <=? i) && (i <=? s) then None else getComment i m.
Proof.
  induction s as [|s IH]; intros c m it Hit; cbn [pcLoop].
  - destruct (getComment 0 m) as [t|] eqn:E.
    + exists 0. split; [lia|]. split; [intros i Hi; assert (i = 0) as -> by lia; unfold hasC; congruence|]. split; [now left|].
      assert (HX : forall i, getComment i (delComment 0 m) = if (0 <=? i) && (i <=? 0) then None else getComment i m).
      { intro i. rewrite getComment_del. destruct (Nat.eqb_spec 0 i) as [<-|]; [reflexivity|]. replace (i <=? 0) with false by lia. now rewrite andb_false_r. }
      assert (HC : rev (if has_prefix "!" t then c else c ++ [t]) = filter shown (map (textC m) (seq 0 1)) ++ rev c).
      { cbn [seq map filter]. unfold textC. rewrite E. unfold shown. destruct (has_prefix "!" t); [reflexivity|].
        cbn. now rewrite rev_unit. }
      destruct (delComment 0 m) eqn:ED; (split; [exact HC|exact HX]).
    + exists 1. split; [lia|]. split; [lia|]. split; [right; unfold hasC; cbn; congruence|].
      destruct c as [|c0 c]; [replace (1 <? S it) with true by lia|];
        (split; [reflexivity|intro i; destruct i; reflexivity]).
  - destruct (getComment (S s) m) as [t|] eqn:E.
    + assert (HC : forall l, rev (if has_prefix "!" t then l else l ++ [t]) = filter shown [textC m (S s)] ++ rev l).
      { intro l. cbn [filter]. unfold textC. rewrite E. unfold shown. destruct (has_prefix "!" t); [reflexivity|]. cbn. now rewrite rev_unit. }
      set (c1 := if has_prefix "!" t then c else c ++ [t]).
      destruct (IH c1 (delComment (S s) m) 1 (le_n _)) as (k & K1 & K2 & K3 & K4).
      assert (Hd : forall i, i <= s -> getComment i (delComment (S s) m) = getComment i m).
      { intros i Hi. rewrite getComment_del. replace (S s =? i) with false by lia. reflexivity. }
      assert (HD : exists k, k <= S (S s) /\ (forall i, k <= i <= S s -> hasC m i) /\ (k = 0 \/ ~ hasC m (k - 1)) /\
        let (c', m') := pcLoop s 1 c1 (delComment (S s) m) in
        rev c' = filter shown (map (textC m) (seq k (S (S s) - k))) ++ rev c /\
        forall i, getComment i m' = if (k <=? i) && (i <=? S s) then None else getComment i m).
      { exists k. split; [lia|]. split.
        { intros i Hi. destruct (Nat.eq_dec i (S s)) as [->|]; [unfold hasC; congruence|].
          unfold hasC. rewrite <- Hd by lia. apply K2. lia. }
        split. { destruct K3 as [->|K3]; [now left|]. destruct k as [|k]; [now left|]. right. cbn in *. unfold hasC in *. rewrite <- Hd by lia. exact K3. }
        destruct (pcLoop s 1 c1 (delComment (S s) m)) as [c' m']. destruct K4 as [K4 K5]. split.
        - rewrite K4. replace (S (S s) - k) with ((S s - k) + 1) by lia. rewrite seq_app, map_app, filter_app.
          rewrite <- app_assoc. f_equal.
          + f_equal. apply map_ext_in. intros i Hi. apply in_seq in Hi. unfold textC. rewrite Hd by lia. reflexivity.
          + replace (k + (S s - k)) with (S s) by lia. apply HC.
        - intro i. rewrite K5, getComment_del. destruct (Nat.eqb_spec (S s) i) as [<-|].
          + replace (k <=? S s) with true by lia. replace (S s <=? S s) with true by lia. now destruct (_ && _).
          + replace (i <=? S s) with (i <=? s) by lia. reflexivity. }
      destruct (delComment (S s) m) eqn:ED; [|exact HD].
      (* nothing left: the block ends here *)
      assert (Hall : forall i, i <= s -> ~ hasC m i).
      { intros i Hi. unfold hasC. rewrite <- Hd by lia. apply hasC_nil. }
      exists (S s). split; [lia|]. split; [intros i Hi; assert (i = S s) as -> by lia; unfold hasC; congruence|].
      split; [right; cbn; rewrite Nat.sub_0_r; apply Hall; lia|]. split.
      * replace (S (S s) - S s) with 1 by lia. cbn [seq map]. apply HC.
      * intro i. transitivity (getComment i (delComment (S s) m)); [now rewrite ED|].
        rewrite getComment_del. destruct (Nat.eqb_spec (S s) i) as [<-|].
        { replace (S s <=? S s) with true by lia. reflexivity. }
        { replace ((S s <=? i) && (i <=? S s)) with false by lia. reflexivity. }
    + exists (S (S s)). split; [lia|]. split; [lia|]. split; [right; cbn; unfold hasC; congruence|].
      replace (S (S s) - S (S s)) with 0 by lia. destruct c as [|c0 c]; [replace (1 <? S it) with true by lia|];
        (split; [reflexivity|intro i; replace ((S (S s) <=? i) && (i <=? S s)) with false by lia; reflexivity]).
Qed.

Lemma parseComments_spec m n : 1 <= n ->
  exists k s, Block (hasC m) n k s /\
    fst (parseComments m n) = join (String "010"%char "") (filter shown (map (textC m) (seq k (S s - k)))) /\
    forall i, getComment i (snd (parseComments m n)) = if (k <=? i) && (i <=? s) then None else getComment i m.
Proof.
  destruct n as [|n]; [lia|]. intros _.
  unfold parseComments. destruct m as [|e m'] eqn:Em.
  - exists (S n), n. split; [|split; [replace (S n - S n) with 0 by lia; reflexivity|intro i; now destruct (_ && _)]].
    unfold Block. split; [right; repeat split; apply hasC_nil|]. repeat split; try lia. right. apply hasC_nil.
  - rewrite <- Em in *. destruct (getComment (S n) m) as [t|] eqn:E.
    + destruct (pcLoop_block (S n) [] m 1 (le_n _)) as (k & K1 & K2 & K3 & K4).
      assert (HE : pcLoop (S n) 0 [] m = pcLoop (S n) 1 [] m) by (cbn; rewrite E; reflexivity).
      rewrite HE. destruct (pcLoop (S n) 1 [] m) as [c' m2]. destruct K4 as [K4 K5]. exists k, (S n). split; [|split].
      * unfold Block. split; [left; split; [unfold hasC; congruence|reflexivity]|]. repeat split; try assumption; lia.
      * cbn [fst]. rewrite K4. now rewrite app_nil_r.
      * exact K5.
    + destruct (pcLoop_block n [] m 1 (le_n _)) as (k & K1 & K2 & K3 & K4).
      assert (HE : pcLoop (S n) 0 [] m = pcLoop n 1 [] m) by (cbn [pcLoop]; rewrite E; reflexivity).
      rewrite HE. destruct (pcLoop n 1 [] m) as [c' m2]. destruct K4 as [K4 K5]. exists k, n. split; [|split].
      * unfold Block. split; [right; split; [unfold hasC; congruence|reflexivity]|]. repeat split; try assumption; lia.
      * cbn [fst]. rewrite K4. now rewrite app_nil_r.
      * exact K5.
Qed.

(** ** the tokenizer *)

Definition blankb (r : N) : bool := (r =? 32)%N || (r =? 9)%N || (r =? 13)%N.

Lemma fields_word x : forallb (fun r => negb (blankb r)) x = true -> forall w,
  fields_from w x = match rev x ++ w with [] => [] | l => [rev l] end.
Proof.
  induction x as [|r x IH]; intros H w; [now destruct w|]. cbn in H. apply andb_true_iff in H. destruct H as [H1 H2].
  cbn [fields_from]. unfold blankb in H1. apply negb_true_iff in H1. rewrite H1, IH by assumption.
  cbn [rev]. now rewrite <- app_assoc.
Qed.

Lemma fields_blank_split c y : blankb c = true -> forall x w,
  fields_from w (x ++ c :: y) = fields_from w x ++ fields_from [] y.
Proof.
  intros Hc x. unfold blankb in Hc. induction x as [|r x IH]; intro w; cbn [app fields_from].
  - rewrite Hc. now destruct w.
  - destruct ((r =? 32)%N || (r =? 9)%N || (r =? 13)%N); [|apply IH]. destruct w; [apply IH|]. cbn. now rewrite IH.
Qed.

(** a text that is empty or ends with a blank *)
Definition ends_blank (x : list N) : Prop := x = [] \/ exists z c, x = z ++ [c] /\ blankb c = true.

Lemma fields_after p y : ends_blank p -> fields (p ++ y) = fields p ++ fields y.
Proof.
  intros [->|(z & c & -> & Hc)]; [reflexivity|]. unfold fields. rewrite <- app_assoc. cbn [app].
  rewrite !fields_blank_split by assumption. now rewrite app_nil_r.
Qed.

Definition nonblank (x : list N) : bool := forallb (fun r => negb (blankb r)) x.

Lemma fields_word' x : nonblank x = true -> fields x = match x with [] => [] | _ => [x] end.
Proof.
  intro H. unfold fields. rewrite fields_word by exact H. rewrite app_nil_r. destruct x as [|r x]; [reflexivity|].
  destruct (rev (r :: x)) eqn:E; [apply (f_equal (@length N)) in E; rewrite rev_length in E; discriminate|].
  rewrite <- E. now rewrite rev_involutive.
Qed.

(** tokens that are not blank contain no blank *)
Lemma shape_nonblank t ch nx : TokenShape t ch nx -> t <> TWhitespace -> nonblank ch = true.
Proof.
  intros H Ht. unfold nonblank. apply forallb_forall. intros r Hr. apply negb_true_iff.
  destruct (blankb r) eqn:E; [|reflexivity]. exfalso.
  assert (Hb : blank r) by (unfold blankb in E; unfold blank; lia).
  inversion H; subst; try congruence.
  - destruct Hr as [->|Hr]; [unfold word_start, blank in *; lia|]. rewrite Forall_forall in H1. apply (H1 r Hr).
    unfold word_break. unfold blank in Hb. destruct Hb as [->|[->| ->]]; cbn; tauto.
  - destruct Hr as [<-|[]]. unfold blank in Hb. lia.
  - destruct Hr as [<-|[]]. unfold blank in Hb. lia.
  - destruct Hr as [<-|[<-|[]]]; unfold blank in Hb; lia.
  - destruct Hr as [<-|[]]. apply in_punct in H0. apply blank_excl in Hb. tauto.
  - destruct Hr as [<-|[]]. contradiction.
Qed.

Lemma shape_blank ch nx : TokenShape TWhitespace ch nx -> forallb blankb ch = true.
Proof.
  intro H. apply forallb_forall. intros r Hr. inversion H; subst.
  - rewrite Forall_forall in H0. specialize (H0 r Hr). unfold blank in H0. unfold blankb. lia.
  - cbn in H0. repeat (destruct H0 as [E|H0]; [discriminate|]). contradiction.
Qed.

(** state of the tokenizer inside a comment whose text so far is [x] *)
Definition InComment (x : list N) (m : comments) (st : tkst) : Prop :=
  tk_parsing st = true /\ tk_comments st = m /\
  exists p wd, x = p ++ wd /\ ends_blank p /\ nonblank wd = true /\
    tk_words st = map encode (fields x) /\
    (wd = [] -> tk_words st = [] \/ exists t, tk_prev st = Some t /\ ty t = TWhitespace) /\
    (wd <> [] -> exists t, tk_prev st = Some t /\ ty t <> TWhitespace).

Lemma append_last_snoc l a s : append_last (l ++ [a]) s = l ++ [(a ++ s)%string].
Proof. unfold append_last. rewrite rev_unit. now rewrite rev_involutive. Qed.

Lemma encode_app1 a b : encode (a ++ b) = (encode a ++ encode b)%string.
Proof. apply encode_app. Qed.

Lemma tokStep_comment x m st t ch nx :
  InComment x m st -> TokenShape (ty t) ch nx -> val t = encode ch -> ty t <> THash -> ty t <> TNewLine ->
  InComment (x ++ ch) m (tokStep st t).
Proof.
  intros (I1 & I2 & p & wd & -> & I3 & I4 & I5 & I6 & I7) Hsh Hv Hh Hn.
  pose proof (shape_nonempty _ _ _ Hsh) as Hne.
  unfold tokStep. replace (tt_eqb (ty t) THash) with false by (unfold tt_eqb; destruct (ttype_eq_dec (ty t) THash); congruence).
  rewrite I1. replace (tt_eqb (ty t) TNewLine) with false by (unfold tt_eqb; destruct (ttype_eq_dec (ty t) TNewLine); congruence).
  cbn [andb negb]. destruct (tt_eqb (ty t) TWhitespace) eqn:Ew.
  - (* whitespace *)
    apply tt_eqb_eq in Ew. cbn [negb]. repeat split; try assumption. cbn [tk_words tk_prev].
    rewrite Ew in Hsh. pose proof (shape_blank _ _ Hsh) as Hb.
    exists ((p ++ wd) ++ ch), []. split; [now rewrite app_nil_r|]. split.
    { right. destruct (exists_last Hne) as (z & c & ->). exists ((p ++ wd) ++ z), c. rewrite app_assoc. split; [reflexivity|].
      rewrite forallb_app in Hb. apply andb_true_iff in Hb. destruct Hb as [_ Hb]. cbn in Hb. now rewrite andb_true_r in Hb. }
    split; [reflexivity|]. split; [|split; [intros _; right; exists t; now split|congruence]].
    rewrite I5. f_equal. clear -Hb. revert Hb. generalize (p ++ wd) as y. intros y Hb.
    unfold fields. generalize (@nil N). revert Hb. induction ch as [|c ch IH] using rev_ind; intros Hb w; [now rewrite app_nil_r|].
    rewrite forallb_app in Hb. apply andb_true_iff in Hb. destruct Hb as [H1 H2]. cbn in H2. rewrite andb_true_r in H2.
    rewrite (app_assoc y ch [c]). rewrite (fields_blank_split c [] H2). cbn. rewrite app_nil_r. now apply IH.
  - (* a visible token *)
    assert (Hw : ty t <> TWhitespace) by (intro Z; rewrite Z in Ew; discriminate).
    pose proof (shape_nonblank _ _ _ Hsh Hw) as Hnb. cbn [negb].
    repeat split; try assumption. cbn [tk_words tk_prev]. exists p, (wd ++ ch). rewrite app_assoc.
    split; [reflexivity|]. split; [exact I3|]. split; [unfold nonblank in *; rewrite forallb_app, I4, Hnb; reflexivity|].
    split; [|split; [intro Z; apply app_eq_nil in Z; destruct Z; contradiction|intros _; now exists t]].
    rewrite <- app_assoc. rewrite (fields_after p (wd ++ ch) I3). rewrite (fields_word' (wd ++ ch)) by (unfold nonblank in *; rewrite forallb_app, I4, Hnb; reflexivity).
    rewrite (fields_after p wd I3) in I5. rewrite (fields_word' wd I4) in I5.
    destruct (wd ++ ch) as [|c0 r0] eqn:Ewc; [apply app_eq_nil in Ewc; destruct Ewc; contradiction|]. rewrite <- Ewc.
    unfold parseCommentToken, tokString. rewrite Hv. destruct wd as [|d wd].
    + cbn [app] in *. rewrite app_nil_r in I5. rewrite map_app. cbn [map]. rewrite <- I5.
      destruct (tk_prev st) as [pt|] eqn:Ep; [|reflexivity].
      destruct (tt_eqb (ty pt) TWhitespace) eqn:E; [reflexivity|].
      destruct (I6 eq_refl) as [H0|(t0 & E0 & E1)].
      * rewrite H0. reflexivity.
      * injection E0 as <-. rewrite E1 in E. discriminate.
    + destruct (I7 ltac:(discriminate)) as (t0 & E0 & E1). rewrite E0.
      replace (tt_eqb (ty t0) TWhitespace) with false by (unfold tt_eqb; destruct (ttype_eq_dec (ty t0) TWhitespace); congruence).
      rewrite I5, map_app. cbn [map]. rewrite append_last_snoc, map_app. cbn [map]. now rewrite encode_app.
Qed.

(** ** the document *)

(** characters that always are a token of their own *)
Definition solo (c : N) : Prop := forall t ch nx, TokenShape t ch nx -> In c ch -> ch = [c].

Lemma solo_newline : solo 10%N.
Proof.
  intros t ch nx H Hin. inversion H; subst; try reflexivity.
  - destruct Hin as [->|Hin]; [unfold word_start in *; lia|]. rewrite Forall_forall in H1. exfalso. apply (H1 10%N Hin).
    unfold word_break. cbn. tauto.
  - rewrite Forall_forall in H0. specialize (H0 _ Hin). unfold blank in H0. lia.
  - destruct Hin as [E|[]]; discriminate.
  - destruct Hin as [E|[E|[]]]; discriminate.
  - destruct Hin as [->|[]]. apply punct_not in H0. lia.
  - destruct Hin as [->|[]]. congruence.
Qed.

Definition SufN (a x : list N) : Prop := exists p, x = p ++ a.

Lemma segments_cut segs : forall x c y, Segments (x ++ c :: y) segs ->
  Forall (fun r => r <> 0%N) x ->
  (forall t a d nx, TokenShape t (a ++ c :: d) nx -> SufN a x -> a = []) ->
  exists s1 s2, segs = s1 ++ s2 /\ flat_map snd s1 = x /\ Segments (c :: y) s2.
Proof.
  induction segs as [|[t ch] segs IH]; intros x c y HS HF Hb.
  - destruct x as [|r x]; [exists [], []; cbn in HS; auto|].
    inversion HS as [rs [E|[t E]] E0|]; subst; [discriminate|]. injection E as -> _. inversion HF; congruence.
  - destruct x as [|r x0] eqn:Ex; [exists [], ((t, ch) :: segs); cbn in HS; auto|]. rewrite <- Ex in *.
    inversion HS as [|ch' rs t' sg Hsh Hrs Ech]; subst ch' t' sg.
    destruct (app_eq_split _ _ _ _ Ech) as [(z & Hz & ->)|(z & w & Hch & Ed)].
    + rewrite Hz in HF. apply Forall_app in HF. destruct HF as [_ HF].
      destruct (IH z c y Hrs HF) as (s1 & s2 & -> & H1 & H2).
      { intros t0 a d nx Hs [p Hp]. apply (Hb t0 a d nx Hs). exists (ch ++ p). now rewrite Hz, Hp, app_assoc. }
      exists ((t, ch) :: s1), s2. split; [reflexivity|]. split; [|exact H2]. cbn. now rewrite H1.
    + injection Ed as <- Ed. subst ch. assert (x = []) by (eapply Hb; [exact Hsh|exists []; reflexivity]). subst. discriminate.
Qed.

Lemma cut_newline y x segs : Segments (x ++ 10%N :: y) segs -> Forall (fun r => r <> 0%N) x ->
  exists s1 s2, segs = s1 ++ (TNewLine, [10%N]) :: s2 /\ flat_map snd s1 = x /\ Segments y s2.
Proof.
  intros HS HF.
  destruct (segments_cut segs x 10%N y HS HF) as (s1 & s2 & -> & H1 & H2).
  { intros t a d nx Hs _. assert (E := solo_newline _ _ _ Hs ltac:(apply in_or_app; right; now left)).
    destruct a as [|a0 a]; [reflexivity|]. destruct a; discriminate. }
  inversion H2 as [rs [E|[t E]] E0|ch rs t sg Hsh Hrs Ech]; subst; try discriminate.
  pose proof (shape_nonempty _ _ _ Hsh) as Hne. destruct ch as [|c' ch]; [congruence|]. injection Ech as -> Ech.
  assert (E := solo_newline _ _ _ Hsh ltac:(now left)). injection E as ->. cbn in Ech. subst rs.
  assert (t = TNewLine) as -> by (eapply (proj1 (shape_unique t TNewLine [10%N] [10%N] y y Hsh (ShapeNewLine _) eq_refl))).
  exists s1, sg. repeat split; assumption.
Qed.

Lemma cut_hash y x segs : Segments (x ++ 35%N :: y) segs -> Forall (fun r => r <> 0%N) x -> ends_blank x ->
  exists s1 s2, segs = s1 ++ (THash, [35%N]) :: s2 /\ flat_map snd s1 = x /\ Segments y s2.
Proof.
  intros HS HF He.
  destruct (segments_cut segs x 35%N y HS HF) as (s1 & s2 & -> & H1 & H2).
  { intros t a d nx Hs [p Hp]. destruct a as [|a0 a]; [reflexivity|]. exfalso.
    destruct (@exists_last _ (a0 :: a)) as (z & b & Hz); [discriminate|].
    destruct He as [->|(z' & c & Ex & Hc)]; [destruct p; discriminate|].
    rewrite Hz in Hp. rewrite Ex, app_assoc in Hp. apply app_inj_tail in Hp. destruct Hp as [_ <-].
    destruct (ttype_eq_dec t TWhitespace) as [->|Ht].
    - apply shape_blank in Hs. rewrite forallb_app in Hs. apply andb_true_iff in Hs. destruct Hs as [_ Hs]. discriminate.
    - apply shape_nonblank in Hs; [|exact Ht]. unfold nonblank in Hs. rewrite Hz, !forallb_app in Hs. cbn in Hs.
      rewrite Hc in Hs. cbn in Hs. rewrite andb_false_r in Hs. discriminate. }
  inversion H2 as [rs [E|[t E]] E0|ch rs t sg Hsh Hrs Ech]; subst; try discriminate.
  pose proof (shape_nonempty _ _ _ Hsh) as Hne. destruct ch as [|c' ch]; [congruence|]. injection Ech as -> Ech.
  assert (Hp : TokenShape THash [35%N] (hd_error y)) by (apply ShapePunct; cbn; tauto).
  destruct (shape_unique t THash (35%N :: ch) [35%N] rs y Hsh Hp) as (-> & E & ->); [cbn; now rewrite Ech|].
  injection E as ->. exists s1, sg. repeat split; assumption.
Qed.

(** ** the state of the tokenizer along the document *)

Definition idle (st : tkst) : Prop := tk_parsing st = false /\ tk_words st = [].

Lemma tokStep_words st t : (tk_parsing st = false -> tk_words st = []) ->
  (tk_parsing (tokStep st t) = false -> tk_words (tokStep st t) = []).
Proof.
  intro H. unfold tokStep. destruct (tt_eqb (ty t) THash); [discriminate|].
  destruct (tk_parsing st) eqn:E; cbn [andb].
  - destruct (tt_eqb (ty t) TNewLine); [reflexivity|discriminate].
  - rewrite andb_false_r. cbn. intros _. now apply H.
Qed.

Lemma fold_words l st : (tk_parsing st = false -> tk_words st = []) ->
  (tk_parsing (fold_left tokStep l st) = false -> tk_words (fold_left tokStep l st) = []).
Proof.
  revert st. induction l as [|t l IH]; intros st H; [exact H|]. cbn [fold_left]. apply IH. now apply tokStep_words.
Qed.

Lemma tokStep_newline_idle st t : (tk_parsing st = false -> tk_words st = []) -> ty t = TNewLine -> idle (tokStep st t).
Proof.
  intros H Ht. unfold tokStep. rewrite Ht. change (tt_eqb TNewLine THash) with false.
  change (tt_eqb TNewLine TNewLine) with true. cbn [negb andb]. rewrite andb_false_r. cbn [andb].
  destruct (tk_parsing st) eqn:E; [split; reflexivity|]. split; [reflexivity|]. cbn. now apply H.
Qed.

Lemma fold_idle l st : idle st -> Forall (fun t => ty t <> THash) l ->
  idle (fold_left tokStep l st) /\ tk_comments (fold_left tokStep l st) = tk_comments st.
Proof.
  intros Hi HF. revert st Hi. induction HF as [|t l Ht HF IH]; intros st [I1 I2]; [now repeat split|].
  cbn [fold_left].
  assert (H : idle (tokStep st t) /\ tk_comments (tokStep st t) = tk_comments st).
  { unfold tokStep. replace (tt_eqb (ty t) THash) with false by (unfold tt_eqb; destruct (ttype_eq_dec (ty t) THash); congruence).
    rewrite I1. cbn [andb]. rewrite andb_false_r. repeat split; assumption. }
  destruct H as [H1 H2]. destruct (IH _ H1) as [H3 H4]. split; [exact H3|]. now rewrite H4.
Qed.

Lemma fold_comment m : forall s rest s' toks x st,
  Segments (flat_map snd s ++ rest) (s ++ s') -> map tv toks = map sv s ->
  Forall (fun p => fst p <> THash /\ fst p <> TNewLine) s ->
  InComment x m st -> InComment (x ++ flat_map snd s) m (fold_left tokStep toks st).
Proof.
  induction s as [|[t ch] s IH]; intros rest s' toks x st HS HM HF HI.
  - destruct toks; [|discriminate]. cbn. now rewrite app_nil_r.
  - destruct toks as [|tok toks]; [discriminate|]. cbn in HM. injection HM as E1 E2 HM.
    inversion HF as [|? ? [F1 F2] HF']; subst. cbn [app flat_map] in HS. rewrite <- app_assoc in HS.
    inversion HS as [|ch' rs t' sg Hsh Hrs Ech]; subst. cbn in Ech. apply app_inv_head in Ech. subst rs.
    cbn [fold_left flat_map snd]. rewrite app_assoc. eapply IH; [exact Hrs|exact HM|exact HF'|].
    eapply tokStep_comment; [exact HI|exact Hsh|exact E2|exact F1|exact F2].
Qed.

Lemma fold_later n : forall l st, Forall (fun t => ty t = TNewLine -> line t <> n) l ->
  getComment n (tk_comments (fold_left tokStep l st)) = getComment n (tk_comments st).
Proof.
  induction l as [|t l IH]; intros st HF; [reflexivity|]. inversion HF as [|? ? H1 H2]; subst. cbn [fold_left].
  rewrite IH by assumption. unfold tokStep. destruct (tt_eqb (ty t) THash); [reflexivity|].
  destruct (tt_eqb (ty t) TNewLine) eqn:E; [|reflexivity]. apply tt_eqb_eq in E. cbn [andb].
  destruct (tk_parsing st); [|reflexivity]. cbn [tk_comments]. rewrite getComment_put.
  replace (line t =? n) with false by (specialize (H1 E); lia). reflexivity.
Qed.

Lemma tok_line src a t b before : p_toks (initConf src) = a ++ t :: b ->
  sconcat (map val a) = encode before -> forallb valid_rune before = true -> line t = 1 + newlines before.
Proof.
  intros H1 H2 H3. destruct (init_toks src) as (eof & He & HL). rewrite H1, <- app_assoc in HL. cbn [app] in HL.
  destruct (lexAll_positions src a t (b ++ [eof]) HL) as (bf & ch & af & P1 & P2 & P3 & P4 & P5 & P6).
  { destruct b; discriminate. }
  rewrite P5. rewrite H2 in P2. f_equal. f_equal.
  apply encode_inj; [|exact H3|now symmetry]. pose proof (decode_valid src) as HV. rewrite P1, valid_app in HV.
  now apply andb_true_iff in HV.
Qed.

Lemma chunks_in (s : list (ttype * list N)) p c : In p s -> In c (snd p) -> In c (flat_map snd s).
Proof. intros H1 H2. apply in_flat_map. now exists p. Qed.

Lemma segs_shape s : forall rest s', Segments (flat_map snd s ++ rest) (s ++ s') ->
  Forall (fun p => exists nx, TokenShape (fst p) (snd p) nx) s.
Proof.
  induction s as [|[t ch] s IH]; intros rest s' H; [constructor|]. cbn [app flat_map] in H. rewrite <- app_assoc in H.
  inversion H as [|ch' rs t' sg Hsh Hrs Ech]; subst. cbn in Ech. apply app_inv_head in Ech. subst.
  constructor; [now exists (hd_error (flat_map snd s ++ rest))|]. now apply (IH rest s').
Qed.

Lemma hash_chunk ch nx : TokenShape THash ch nx -> In 35%N ch.
Proof.
  intro H. inversion H; subst. cbn in H0. repeat (destruct H0 as [E|H0]; [inversion E; subst; try (now left); try discriminate|]). contradiction.
Qed.
Lemma newline_chunk ch nx : TokenShape TNewLine ch nx -> In 10%N ch.
Proof.
  intro H. inversion H; subst; [now left|]. cbn in H0. repeat (destruct H0 as [E|H0]; [discriminate|]). contradiction.
Qed.

Definition no_char (c : N) (x : list N) : Prop := ~ In c x.

Lemma no_nul_forall x : no_char 0%N x -> Forall (fun r => r <> 0%N) x.
Proof. intro H. apply Forall_forall. intros r Hr ->. now apply H. Qed.

Lemma newlines_cons_app a b : newlines (a ++ b) = newlines a + newlines b.
Proof. apply newlines_app. Qed.

(** the text of [above]: nothing, or whole lines *)
Definition whole_lines (x : list N) : Prop := x = [] \/ exists z, x = z ++ [10%N].

Lemma map_tv_inv (l : list token) s1 p s2 : map tv l = map sv (s1 ++ p :: s2) ->
  exists a t b, l = a ++ t :: b /\ map tv a = map sv s1 /\ tv t = sv p /\ map tv b = map sv s2.
Proof.
  rewrite map_app. intro H. destruct (map_app_inv _ _ _ _ H) as (a & tb & -> & H1 & H2).
  destruct tb as [|t b]; [discriminate|]. cbn in H2. injection H2 as E1 E2 E3.
  exists a, t, b. repeat split; try assumption. unfold tv, sv. now rewrite E1, E2.
Qed.

Lemma sconcat_tv a s : map tv a = map sv s -> sconcat (map val a) = encode (flat_map snd s).
Proof. intro H. rewrite <- map_snd_tv, H. apply sconcat_sv. Qed.

Lemma recorded_comment above ind text below :
  forallb valid_rune (above ++ ind ++ 35%N :: text ++ 10%N :: below) = true ->
  no_char 0%N (above ++ ind ++ text) ->
  whole_lines above ->
  no_char 35%N ind -> no_char 10%N ind -> ends_blank ind ->
  no_char 35%N text -> no_char 10%N text ->
  getComment (1 + newlines above)
    (snd (tokenize (encode (above ++ ind ++ 35%N :: text ++ 10%N :: below)))) = Some (comment_text text).
Proof.
  intros HV H0 Hab Hi1 Hi2 Hi3 Ht1 Ht2. set (src := encode _).
  assert (HD : decode src = above ++ ind ++ 35%N :: text ++ 10%N :: below) by (apply decode_encode; exact HV).
  assert (N1 : Forall (fun r => r <> 0%N) above) by (apply no_nul_forall; intro Z; apply H0; rewrite !in_app_iff; auto).
  assert (N2 : Forall (fun r => r <> 0%N) ind) by (apply no_nul_forall; intro Z; apply H0; rewrite !in_app_iff; auto).
  assert (N3 : Forall (fun r => r <> 0%N) text) by (apply no_nul_forall; intro Z; apply H0; rewrite !in_app_iff; auto).
  destruct (init_segments src) as (segs & HS & HM). rewrite HD in HS.
  (* split the segments *)
  assert (HA : exists sa srest, segs = sa ++ srest /\ flat_map snd sa = above /\
     Segments (ind ++ 35%N :: text ++ 10%N :: below) srest /\
     (sa = [] \/ exists s0, sa = s0 ++ [(TNewLine, [10%N])])).
  { destruct Hab as [->|(z & ->)].
    - exists [], segs. repeat split; try assumption. now left.
    - rewrite <- app_assoc in HS. apply Forall_app in N1. cbn [app] in HS.
      destruct (cut_newline _ _ _ HS (proj1 N1)) as (s1 & s2 & -> & C1 & C2).
      exists (s1 ++ [(TNewLine, [10%N])]), s2. rewrite <- app_assoc. repeat split; try assumption.
      + rewrite flat_map_app, C1. reflexivity.
      + right. now exists s1. }
  destruct HA as (sa & srest & -> & A1 & A2 & A3).
  destruct (cut_hash _ _ _ A2 N2 Hi3) as (si & sx & -> & B1 & B2).
  destruct (cut_newline _ _ _ B2 N3) as (st & sb & -> & C1 & C2).
  (* the tokens *)
  rewrite map_app in HM. destruct (map_app_inv _ _ _ _ HM) as (ta & tr & HT & T1 & T2).
  destruct (map_tv_inv _ _ _ _ T2) as (ti & th & tx & -> & T3 & T4 & T5).
  destruct (map_tv_inv _ _ _ _ T5) as (tt & tn & tb & -> & T6 & T7 & T8).
  unfold tv, sv in T4, T7. cbn in T4, T7. injection T4 as T4 T4'. injection T7 as T7 T7'.
  assert (HK : tokenize src = (p_toks (initConf src), snd (tokenize src))).
  { unfold initConf. destruct (tokenize src) as [l c]. reflexivity. }
  assert (Hfold : snd (tokenize src) = tk_comments (fold_left tokStep (p_toks (initConf src)) (Tk None [] false []))).
  { unfold initConf, tokenize. reflexivity. }
  rewrite Hfold, HT. rewrite !fold_left_app. cbn [fold_left]. rewrite fold_left_app. cbn [fold_left].
  set (st0 := fold_left tokStep ta (Tk None [] false [])).
  assert (Hst0 : idle st0).
  { destruct A3 as [->|(s0 & ->)].
    - destruct ta; [|discriminate]. now split.
    - destruct (map_tv_inv _ _ _ _ T1) as (ta0 & tl & tz & -> & Z1 & Z2 & Z3). destruct tz; [|discriminate].
      unfold st0. rewrite fold_left_app. cbn [fold_left]. apply tokStep_newline_idle; [apply fold_words; reflexivity|].
      unfold tv, sv in Z2. cbn in Z2. now injection Z2. }
  assert (HSi := A2). rewrite <- B1 in HSi.
  pose proof (segs_shape si _ _ HSi) as Hsh_i.
  assert (Hnh : Forall (fun t => ty t <> THash) ti).
  { apply Forall_forall. intros t Hin E. assert (Hin2 : In (tv t) (map sv si)) by (rewrite <- T3; now apply in_map).
    apply in_map_iff in Hin2. destruct Hin2 as (p & Ep & Hp). rewrite Forall_forall in Hsh_i.
    destruct (Hsh_i p Hp) as (nx & Hs). unfold tv, sv in Ep. injection Ep as E1 E2. rewrite E1, E in Hs.
    apply hash_chunk in Hs. apply Hi1. rewrite <- B1. eapply chunks_in; eassumption. }
  destruct (fold_idle ti st0 Hst0 Hnh) as [Hst1 _].
  set (st1 := fold_left tokStep ti st0) in *.
  assert (Hst2 : InComment [] (tk_comments st1) (tokStep st1 th)).
  { unfold tokStep. rewrite T4. change (tt_eqb THash THash) with true. cbv iota. repeat split. destruct Hst1 as [_ Hw].
    exists [], []. repeat split; cbn; try assumption.
    - now left.
    - intros _. now left.
    - congruence. }
  assert (HSt := B2). rewrite <- C1 in HSt.
  pose proof (segs_shape st _ _ HSt) as Hsh_t.
  assert (Hst3 := fold_comment (tk_comments st1) st _ _ tt [] (tokStep st1 th) HSt T6).
  assert (Hcl : Forall (fun p : ttype * list N => fst p <> THash /\ fst p <> TNewLine) st).
  { apply Forall_forall. intros p Hp. rewrite Forall_forall in Hsh_t. destruct (Hsh_t p Hp) as (nx & Hs).
    split; intro E; rewrite E in Hs.
    - apply hash_chunk in Hs. apply Ht1. rewrite <- C1. eapply chunks_in; eassumption.
    - apply newline_chunk in Hs. apply Ht2. rewrite <- C1. eapply chunks_in; eassumption. }
  specialize (Hst3 Hcl Hst2). cbn [app] in Hst3. rewrite C1 in Hst3.
  set (st3 := fold_left tokStep tt (tokStep st1 th)) in *.
  destruct Hst3 as (I1 & I2 & p & wd & _ & _ & _ & I5 & _).
  (* lines *)
  assert (HVa : forallb valid_rune above = true) by (rewrite valid_app in HV; now apply andb_true_iff in HV).
  assert (Lpre : sconcat (map val (ta ++ ti ++ th :: tt)) = encode (above ++ ind ++ 35%N :: text)).
  { rewrite !map_app, !sconcat_app. cbn [map sconcat]. rewrite (sconcat_tv _ _ T1), (sconcat_tv _ _ T3), (sconcat_tv _ _ T6), T4'.
    rewrite A1, B1, C1. rewrite !encode_app. reflexivity. }
  assert (HVp : forallb valid_rune (above ++ ind ++ 35%N :: text) = true).
  { replace (above ++ ind ++ 35%N :: text ++ 10%N :: below) with ((above ++ ind ++ 35%N :: text) ++ 10%N :: below) in HV
      by (rewrite <- !app_assoc; reflexivity). rewrite valid_app in HV. now apply andb_true_iff in HV. }
  assert (Lnl : newlines (above ++ ind ++ 35%N :: text) = newlines above).
  { rewrite !newlines_app. change (35%N :: text) with ([35%N] ++ text). rewrite newlines_app.
    rewrite (newlines_none ind), (newlines_none text); [cbn; lia| |].
    - apply Forall_forall. intros r Hr ->. now apply Ht2.
    - apply Forall_forall. intros r Hr ->. now apply Hi2. }
  assert (Lline : line tn = 1 + newlines above).
  { rewrite <- Lnl. eapply (tok_line src (ta ++ ti ++ th :: tt) tn tb); [|exact Lpre|exact HVp].
    rewrite HT. rewrite <- !app_assoc. reflexivity. }
  rewrite fold_later.
  - unfold tokStep. rewrite T7. change (tt_eqb TNewLine THash) with false. change (tt_eqb TNewLine TNewLine) with true.
    rewrite I1. cbn [andb negb tk_comments]. rewrite getComment_put, Lline, Nat.eqb_refl.
    rewrite I5. reflexivity.
  - apply Forall_forall. intros t Hin Hty. apply in_split in Hin. destruct Hin as (b1 & b2 & Hb).
    rewrite Hb in T8. rewrite map_app in T8. symmetry in T8. destruct (map_app_inv _ _ _ _ T8) as (u1 & u2 & Eu & U1 & _).
    assert (Ll : line t = 1 + newlines ((above ++ ind ++ 35%N :: text) ++ [10%N] ++ flat_map snd u1)).
    { eapply (tok_line src (ta ++ ti ++ th :: tt ++ tn :: b1) t b2).
      - rewrite HT, Hb. rewrite <- !app_assoc. cbn [app]. rewrite <- !app_assoc. reflexivity.
      - replace (ta ++ ti ++ th :: tt ++ tn :: b1) with ((ta ++ ti ++ th :: tt) ++ tn :: b1) by (rewrite <- !app_assoc; reflexivity).
        rewrite map_app, sconcat_app, Lpre. cbn [map sconcat]. rewrite (sconcat_tv b1 u1) by now symmetry.
        rewrite T7'. rewrite !encode_app. reflexivity.
      - rewrite !valid_app. rewrite !valid_app in HVp. rewrite HVp. cbn [andb].
        pose proof HV as HVb. rewrite !valid_app in HVb. apply andb_true_iff in HVb. destruct HVb as [_ HVb].
        apply andb_true_iff in HVb. destruct HVb as [_ HVb]. cbn [forallb] in HVb. apply andb_true_iff in HVb. destruct HVb as [_ HVb].
        rewrite forallb_app in HVb. apply andb_true_iff in HVb. destruct HVb as [_ HVb]. cbn [forallb] in HVb. apply andb_true_iff in HVb.
        destruct HVb as [_ HVb]. cbn [forallb]. replace (valid_rune 10) with true by reflexivity. cbn [andb].
        subst sb. destruct (segments_app _ _ _ C2) as (rr & Er & _). rewrite Er, forallb_app in HVb. now apply andb_true_iff in HVb. }
    rewrite Ll, !newlines_app. change (newlines [10%N]) with 1. rewrite <- !newlines_app, Lnl. lia.
Qed.
