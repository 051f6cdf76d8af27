(** What the Go server writes, read by the TypeScript client. *)
From Verif Require Import Base BaseProofs Utf8 Utf8Proofs Json JsonProofs GoVal GoValSpec GoValProofs Rpc RpcSpec RpcProofs
  Stream StreamSpec StreamProofs Ts TsSpec TsProofs.

(** ** JSON is written in UTF-8 *)

Lemma utf8_app a b : ValidUtf8 a -> ValidUtf8 b -> ValidUtf8 (a ++ b).
Proof.
  intros (x & V1 & ->) (y & V2 & ->). exists (x ++ y). rewrite forallb_app, V1, V2, encode_app. auto.
Qed.
Lemma utf8_nil : ValidUtf8 EmptyString.
Proof. exists []. auto. Qed.

Lemma hexDigit_ascii n : (n < 16)%N -> (N_of_byte (hexDigit n) <? 128)%N = true.
Proof. intros H. unfold hexDigit. destruct (n <? 10)%N; rewrite N_of_byte_of_N by lia; apply N.ltb_lt; lia. Qed.

Lemma utf8_uEscape n : ValidUtf8 (uEscape n).
Proof.
  apply ascii_valid. unfold uEscape, is_ascii. cbn [sforall]. rewrite !hexDigit_ascii by (apply N.mod_lt; lia). reflexivity.
Qed.

Lemma utf8_rune r : valid_rune r = true -> ValidUtf8 (encode_rune r).
Proof. intros V. exists [r]. cbn. rewrite V, sapp_nil_r. auto. Qed.

Lemma utf8_escRune r : valid_rune r = true -> ValidUtf8 (escRune r).
Proof.
  intros V. unfold escRune.
  repeat match goal with
  | |- context[if ?b then _ else _] => destruct b; [first [apply utf8_uEscape|apply ascii_valid; reflexivity]|]
  end.
  apply utf8_rune, V.
Qed.

Lemma utf8_escFuel n : forall s, ValidUtf8 (escFuel n s).
Proof.
  induction n as [|n IH]; intros [|c s]; try apply utf8_nil. cbn [escFuel]. unfold escFirst.
  pose proof (decode_rune_valid c s) as V. destruct (decode_rune c s) as [r s']. cbn [fst] in V.
  destruct (_ && _); apply utf8_app; auto; [apply utf8_uEscape|apply utf8_escRune, V].
Qed.

Lemma utf8_quoteJ s : ValidUtf8 (quoteJ s).
Proof.
  unfold quoteJ. apply utf8_app; [apply ascii_valid; reflexivity|]. apply utf8_app; [apply utf8_escFuel|apply ascii_valid; reflexivity].
Qed.

Lemma ascii_String c s : (N_of_byte c < 128)%N -> is_ascii s = true -> is_ascii (String c s) = true.
Proof. intros H E. unfold is_ascii in *. cbn [sforall]. rewrite E. apply N.ltb_lt in H. rewrite H. reflexivity. Qed.
Lemma ascii_app a b : is_ascii (a ++ b) = is_ascii a && is_ascii b.
Proof. apply sforall_app. Qed.

Lemma ascii_digits s a b : digits s = (a, b) -> is_ascii a = true.
Proof.
  revert a b. induction s as [|c s IH]; intros a b; simpl; [intros [= <- <-]; reflexivity|].
  destruct (is_digit_byte c) eqn:D.
  - destruct (digits s) as [a' b']. intros [= <- <-]. unfold is_digit_byte, in_range in D. rewrite andb_true_iff, !N.leb_le in D.
    apply ascii_String; [lia|]. exact (IH a' b' eq_refl).
  - intros [= <- <-]. reflexivity.
Qed.

Lemma ascii_NumLit l : NumLit l -> is_ascii l = true.
Proof.
  unfold NumLit, readNum. intros E.
  destruct l as [|c l]; [reflexivity|].
  assert (exists sg s1, (if (N_of_byte c =? 45)%N then (chr 45, l) else (EmptyString, String c l)) = (sg, s1)
    /\ is_ascii sg = true) as (sg & s1 & E1 & S).
  { destruct (N_of_byte c =? 45)%N; do 2 eexists; split; reflexivity. }
  rewrite E1 in E.
  destruct (readInt s1) as [[i s2]|] eqn:Ei; [|discriminate].
  destruct (readFrac s2) as [[f s3]|] eqn:Ef; [|discriminate].
  destruct (readExp s3) as [[e s4]|] eqn:Ee; [|discriminate].
  injection E as <- ->. rewrite !ascii_app, S.
  assert (is_ascii i = true) as ->.
  { unfold readInt in Ei. destruct s1 as [|c1 s1]; [discriminate|].
    destruct (N_of_byte c1 =? 48)%N; [injection Ei as <-; reflexivity|].
    destruct (is_digit_byte c1) eqn:D; [|discriminate].
    apply (ascii_digits (String c1 s1) i s2). congruence. }
  assert (is_ascii f = true) as ->.
  { unfold readFrac in Ef. destruct s2 as [|c1 s2]; [injection Ef as <-; reflexivity|].
    destruct (N_of_byte c1 =? 46)%N eqn:D1; [|injection Ef as <-; reflexivity].
    destruct (digits s2) as [d r] eqn:D. destruct (isEmptyStr d); [discriminate|]. injection Ef as <-.
    apply ascii_String; [apply N.eqb_eq in D1; lia|]. eapply ascii_digits; eauto. }
  assert (is_ascii e = true) as ->; [|reflexivity].
  { unfold readExp in Ee. destruct s3 as [|c1 s3]; [injection Ee as <-; reflexivity|].
    destruct ((N_of_byte c1 =? 101)%N || (N_of_byte c1 =? 69)%N) eqn:D1; [|injection Ee as <-; reflexivity].
    assert (N_of_byte c1 < 128)%N as C1 by (rewrite orb_true_iff, !N.eqb_eq in D1; lia).
    destruct s3 as [|c2 s3]; [discriminate|].
    destruct ((N_of_byte c2 =? 43)%N || (N_of_byte c2 =? 45)%N) eqn:D2.
    - destruct (digits s3) as [d r] eqn:D. destruct (isEmptyStr d); [discriminate|]. injection Ee as <-.
      apply ascii_String; [assumption|]. cbn [append].
      apply ascii_String; [rewrite orb_true_iff, !N.eqb_eq in D2; lia|]. eapply ascii_digits; eauto.
    - destruct (digits (String c2 s3)) as [d r] eqn:D. destruct (isEmptyStr d); [discriminate|]. injection Ee as <-.
      apply ascii_String; [assumption|]. eapply ascii_digits; eauto. }
Qed.

Lemma utf8_elems l : (forall x, In x l -> ValidUtf8 (printJ x)) -> ValidUtf8 (printElems l).
Proof.
  induction l as [|x l IH]; intros H; [apply utf8_nil|]. cbn [printElems]. apply utf8_app; [apply ascii_valid; reflexivity|].
  apply utf8_app; [apply H; left; reflexivity|apply IH; intros y Hy; apply H; right; exact Hy].
Qed.
Lemma utf8_members l : (forall k x, In (k, x) l -> ValidUtf8 (printJ x)) -> ValidUtf8 (printMembers l).
Proof.
  induction l as [|[k x] l IH]; intros H; [apply utf8_nil|]. cbn [printMembers].
  repeat (apply utf8_app; [first [apply ascii_valid; reflexivity|apply utf8_quoteJ|eapply H; left; reflexivity]|]).
  apply IH; intros k' y Hy; eapply H; right; exact Hy.
Qed.

Theorem print_utf8 j : JNums j -> ValidUtf8 (printJ j).
Proof.
  induction j as [ |b|l|s|l IH|l IH] using json_ind'; intros W.
  - apply ascii_valid. reflexivity.
  - destruct b; apply ascii_valid; reflexivity.
  - inversion W; subst. apply ascii_valid, ascii_NumLit. assumption.
  - apply utf8_quoteJ.
  - inversion W as [| | | |l' H E|]; subst. destruct l as [|x l]; [apply ascii_valid; reflexivity|]. rewrite printJ_arr.
    apply utf8_app; [apply ascii_valid; reflexivity|]. apply utf8_app; [apply IH; [left; reflexivity|apply H; left; reflexivity]|].
    apply utf8_app; [|apply ascii_valid; reflexivity]. apply utf8_elems. intros y Hy. apply IH; [right; exact Hy|apply H; right; exact Hy].
  - inversion W as [| | | | |l' H E]; subst. destruct l as [|[k x] l]; [apply ascii_valid; reflexivity|]. rewrite printJ_obj.
    repeat (apply utf8_app; [first [apply ascii_valid; reflexivity|apply utf8_quoteJ
      |eapply IH; [left; reflexivity|eapply H; left; reflexivity]]|]).
    apply utf8_app; [|apply ascii_valid; reflexivity]. apply utf8_members. intros k' y Hy.
    eapply IH; [right; exact Hy|eapply H; right; exact Hy].
Qed.

(** ** Members *)

Lemma getMember_none k l : ~ In k (map fst l) -> getMember k (JObj l) = None.
Proof.
  cbn [getMember]. generalize (@None json). induction l as [|[k' x] l IH]; intros acc H; [reflexivity|]. cbn [fold_left fst snd].
  destruct (String.eqb_spec k' k) as [->|NE]; [exfalso; apply H; left; reflexivity|]. apply IH. intros X. apply H. right. exact X.
Qed.

Lemma toFields_names env fs vs l : toFields env fs vs = Some l -> incl (map fst l) (map gf_name fs).
Proof.
  revert vs l. induction fs as [|f fs IH]; intros [|v vs] l; cbn [toFields]; try discriminate.
  - intros [= <-]. intros x [].
  - destruct (toFields env fs vs) as [js|] eqn:E; [|discriminate]. specialize (IH vs js E).
    destruct (_ && _).
    + intros [= <-]. intros x Hx. right. apply IH, Hx.
    + destruct (toJ _ _ _); [|discriminate]. intros [= <-]. intros x [<-|Hx]; [left; reflexivity|right; apply IH, Hx].
Qed.

(** the object decodes to the message, by the rules of Go *)
Definition DecodesTo (env : goEnv) (fs : list goField) (vs : list gval) (d : json) : Prop :=
  exists l, d = JObj l /\ fromFields env fs (map (fun f => zeroVal (gf_ty f)) fs) l = Some vs.

Lemma carried env fs vs : Carries env fs vs -> exists l, toFields env fs vs = Some l /\ JWf (JObj l) /\
  (N.of_nat (jdepth (JObj l)) <= maxNestingDepth)%N /\ DecodesTo env fs vs (JObj l).
Proof.
  intros [F D]. destruct (proj2 (fits_round_trip env) fs vs F) as (l & T & W & DM & R). exists l.
  split; [exact T|]. split; [constructor; exact W|]. split; [rewrite jdepth_obj; lia|].
  exists l. split; [reflexivity|]. specialize (R [] [] eq_refl (fun g (h : In g []) => match h with end)). exact R.
Qed.

(** ** A printed value read as text *)

Lemma jsParse_print rs j : forallb valid_rune rs = true -> printJ j = Utf8.encode rs -> JNums j ->
  (N.of_nat (jdepth j) <= maxNestingDepth)%N -> jsParse rs = Some (sanJ j).
Proof. intros V E W D. unfold jsParse. rewrite <- E. apply (proj1 (parse_print_san j W D)). Qed.

Lemma first_rune rs c s : forallb valid_rune rs = true -> Utf8.encode rs = String c s -> (N_of_byte c < 128)%N ->
  exists t, rs = N_of_byte c :: t.
Proof.
  intros V E C. destruct rs as [|r rs]; [discriminate E|]. exists rs. cbn [forallb] in V. apply andb_true_iff in V. destruct V as [V1 V2].
  pose proof (decode_encode (r :: rs)) as D. cbn [forallb] in D. rewrite V1, V2 in D. specialize (D eq_refl). rewrite E in D.
  unfold decode in D. cbn [String.length decode_fuel] in D. unfold decode_rune in D.
  replace (N_of_byte c <? 128)%N with true in D by (symmetry; apply N.ltb_lt; exact C). injection D as -> _. reflexivity.
Qed.

Lemma decodeText_print j : JNums j -> (exists l, j = JObj l) -> forallb valid_rune (decodeText (printJ j)) = true /\ printJ j = Utf8.encode (decodeText (printJ j)).
Proof.
  intros W [l ->]. destruct (print_utf8 _ W) as (rs & V & E). rewrite E. unfold decodeText. rewrite decode_utf8 by exact V.
  cbn [ds_need dstart]. rewrite app_nil_r.
  assert (exists s, printJ (JObj l) = String (byte_of_N 123) s) as [s P] by (destruct l as [|[k x] l]; [eexists; reflexivity|rewrite printJ_obj; eexists; reflexivity]).
  rewrite P in E. destruct (first_rune rs _ _ V (eq_sym E)) as [t ->]; [reflexivity|]. cbn [dropBOM]. auto.
Qed.

Theorem text_of_print j : JNums j -> (N.of_nat (jdepth j) <= maxNestingDepth)%N -> (exists l, j = JObj l) ->
  jsParse (decodeText (printJ j)) = Some (sanJ j).
Proof. intros W D O. destruct (decodeText_print j W O) as [V E]. apply jsParse_print; auto. Qed.

(** ** Lines of a stream *)

(** the call writes one line; as text it is [rs], not starting with a byte order mark *)
Definition textLine (o : op) (rs : list N) : Prop :=
  forallb valid_rune rs = true /\ op_bytes o = (Utf8.encode rs ++ lf)%string /\ ~ In 10%N rs /\ hd 0%N rs <> 0xFEFF%N.

Lemma encode_lf : Utf8.encode [10%N] = lf.
Proof. reflexivity. Qed.

Lemma text_line_bytes o rs : textLine o rs -> decodeBytes dstart (op_bytes o) = (dstart, rs ++ [10%N]).
Proof.
  intros (V & E & _). rewrite E, <- encode_lf, <- encode_app. apply decode_utf8. rewrite forallb_app, V. reflexivity.
Qed.

Lemma text_lines_bytes l rss : Forall2 textLine l rss -> decodeBytes dstart (allBytes l) = (dstart, flat_map (fun rs => rs ++ [10%N]) rss).
Proof.
  induction 1 as [|o rs l rss H HH IH]; [reflexivity|]. cbn [allBytes flat_map]. rewrite decodeBytes_app, (text_line_bytes o rs H).
  cbn [fst snd]. rewrite IH. reflexivity.
Qed.

Lemma lines_of rss t : (forall rs, In rs rss -> ~ In 10%N rs) -> ~ In 10%N t -> Lines (flat_map (fun rs => rs ++ [10%N]) rss ++ t) rss t.
Proof.
  induction rss as [|rs rss IH]; intros H T; [constructor; exact T|]. cbn [flat_map]. rewrite <- !app_assoc. cbn [app].
  constructor; [apply H; left; reflexivity|]. apply IH; [|exact T]. intros r Hr. apply H. right. exact Hr.
Qed.

Theorem stream_lines l rss q : Forall2 textLine l rss -> noLF q = true ->
  exists t, Lines (streamText (allBytes l ++ q)) rss t.
Proof.
  intros H NQ. unfold streamText, decodeChunk. cbn [de_state de_bom newDecoder].
  rewrite decodeBytes_app, (text_lines_bytes l rss H). cbn [fst snd].
  pose proof (bytes_noLF q dstart I NQ) as NT. destruct (decodeBytes dstart q) as [s t]. cbn [fst snd] in *.
  assert (NL : forall rs, In rs rss -> ~ In 10%N rs).
  { clear - H. induction H as [|o rs l rss (V & E & N & B) HH IH]; intros x Hx; [destruct Hx|]. destruct Hx as [<-|Hx]; [exact N|apply IH, Hx]. }
  destruct rss as [|rs rss].
  - cbn [flat_map app dropBOM]. destruct t as [|c t]; cbn [dropBOM snd]; [exists []; constructor; intros []|].
    destruct (c =? 65279)%N; eexists; constructor; [intros X; apply NT; right; exact X|exact NT].
  - exists t. inversion H as [|o rs' l' rss' (V & E & N & B) HH]; subst.
    assert (X : dropBOM false (flat_map (fun rs => rs ++ [10%N]) (rs :: rss) ++ t) = (true, flat_map (fun rs => rs ++ [10%N]) (rs :: rss) ++ t)).
    { cbn [flat_map]. destruct rs as [|c rs]; [reflexivity|]. cbn [app dropBOM hd] in *. apply N.eqb_neq in B. rewrite B. reflexivity. }
    rewrite X. cbn [snd]. apply lines_of; auto.
Qed.

Lemma noLF_runes rs : forallb valid_rune rs = true -> noLF (Utf8.encode rs) = true -> ~ In 10%N rs.
Proof.
  intros V H. pose proof (bytes_noLF (Utf8.encode rs) dstart I H) as X. rewrite decode_utf8 in X by exact V. exact X.
Qed.

Lemma print_textLine j : JNums j -> (exists l, j = JObj l) -> exists rs, forallb valid_rune rs = true /\ printJ j = Utf8.encode rs /\
  ~ In 10%N rs /\ hd 0%N rs <> 0xFEFF%N /\ rs <> [].
Proof.
  intros W [l ->]. destruct (print_utf8 _ W) as (rs & V & E). exists rs. split; [exact V|]. split; [exact E|].
  split; [apply noLF_runes; [exact V|rewrite <- E; apply print_noLF, W]|].
  assert (exists s, printJ (JObj l) = String (byte_of_N 123) s) as [s P] by (destruct l as [|[k x] l]; [eexists; reflexivity|rewrite printJ_obj; eexists; reflexivity]).
  rewrite P in E. destruct (first_rune rs _ _ V (eq_sym E)) as [t ->]; [reflexivity|]. split; discriminate.
Qed.

Lemma ping_text : textLine pingOp [].
Proof. repeat split; [intros []|discriminate]. Qed.

(** messages a JavaScript object carries *)
Definition JsSendable (env : goEnv) (fs : list goField) (vs : list gval) : Prop :=
  Sendable env fs vs /\ ~ In "hasOwnProperty" (map gf_name fs).

Lemma message_text env fs vs table st : JsSendable env fs vs ->
  exists rs d, textLine (writeOp env fs vs) rs /\ onLine table st rs = ([OnMessage (Some d)], false) /\ DecodesTo env fs vs d.
Proof.
  intros [[C N] NH]. destruct (carried env fs vs C) as (l & T & W & D & R).
  destruct (print_textLine (JObj l) (wf_nums _ W) (ex_intro _ l eq_refl)) as (rs & V & E & NL & B & NE).
  exists rs, (JObj l). split.
  { split; [exact V|]. split; [|auto]. cbn [writeOp op_bytes]. unfold Stream.encode, marshalStruct. rewrite T. cbn [option_map].
    rewrite E. reflexivity. }
  split; [|exact R]. unfold onLine. destruct rs as [|c rs]; [congruence|].
  rewrite (jsParse_print (c :: rs) (JObj l) V E (wf_nums _ W) D), (wf_san _ W).
  rewrite (getMember_none "hasOwnProperty"), (getMember_none "webrpcError"); [reflexivity| |];
  intros X; apply (toFields_names _ _ _ _ T) in X; contradiction.
Qed.

(** what the client makes of an error of the server *)
Definition TsArrived (table : list tsClass) (e : rpcError) (t : tsError) : Prop :=
  te_class t = classFor table (re_code e) /\ te_code t = JNum (zdec (re_code e)) /\ te_status t = JNum (zdec (re_status e)) /\
  te_message t = tc_message (classFor table (re_code e)) /\
  (ValidUtf8 (re_causeText e) -> te_cause t = if isEmptyStr (re_causeText e) then None else Some (JStr (re_causeText e))).

Definition SafeCode (e : rpcError) : Prop := (- 2 ^ 53 <= re_code e <= 2 ^ 53)%Z.

Lemma new_arrived table e : SafeCode e ->
  TsArrived table e (newError (classFor table (codeOf (sanJ (JObj (errorMembers e))))) (sanJ (JObj (errorMembers e)))).
Proof.
  intros S. rewrite san_errorMembers.
  assert (G : forall k, getMember k (JObj (("error", JStr (san (re_name e))) :: ("code", JNum (zdec (re_code e))) :: ("msg", JStr (san (re_message e))) ::
      (if isEmptyStr (re_causeText e) then [] else [("cause", JStr (san (re_causeText e)))]) ++ [("status", JNum (zdec (re_status e)))])) =
    if String.eqb "status" k then Some (JNum (zdec (re_status e)))
    else if String.eqb "cause" k && negb (isEmptyStr (re_causeText e)) then Some (JStr (san (re_causeText e)))
    else if String.eqb "msg" k then Some (JStr (san (re_message e)))
    else if String.eqb "code" k then Some (JNum (zdec (re_code e)))
    else if String.eqb "error" k then Some (JStr (san (re_name e))) else None).
  { intros k. cbn [getMember]. destruct (isEmptyStr (re_causeText e)); cbn [app fold_left fst snd negb];
    rewrite ?andb_false_r, ?andb_true_r; destruct (String.eqb "status" k), (String.eqb "cause" k), (String.eqb "msg" k); reflexivity. }
  assert (CO : codeOf (JObj (("error", JStr (san (re_name e))) :: ("code", JNum (zdec (re_code e))) :: ("msg", JStr (san (re_message e))) ::
      (if isEmptyStr (re_causeText e) then [] else [("cause", JStr (san (re_causeText e)))]) ++ [("status", JNum (zdec (re_status e)))])) = re_code e).
  { unfold codeOf. rewrite G. cbn [String.eqb Ascii.eqb Bool.eqb andb]. rewrite (parseInt_zdec _ _ _ S). reflexivity. }
  rewrite CO. unfold TsArrived, newError. cbn [te_class te_code te_status te_message te_cause]. rewrite !G.
  cbn [String.eqb Ascii.eqb Bool.eqb andb orNumber orText]. repeat split.
  intros V. destruct (isEmptyStr (re_causeText e)); cbn [negb]; [reflexivity|]. rewrite san_valid by exact V. reflexivity.
Qed.

Lemma error_text env e table st : HasErrorType env -> SafeCode e ->
  exists rs t, textLine (errorOp env e) rs /\ onLine table st rs = ([OnError t], true) /\ TsArrived table e t.
Proof.
  intros HE S. set (j := JObj [("webrpcError", JObj (errorMembers e))]).
  destruct (print_textLine j (error_nums e) (ex_intro _ _ eq_refl)) as (rs & V & E & NL & B & NE).
  exists rs. eexists. split.
  { split; [exact V|]. split; [|auto]. cbn [errorOp op_bytes]. unfold errorLine, Stream.encode. rewrite error_json by exact HE.
    fold j. rewrite E. reflexivity. }
  split; [|apply (new_arrived table e S)].
  unfold onLine. destruct rs as [|c rs]; [congruence|].
  rewrite (jsParse_print (c :: rs) j V E (error_nums e) (error_depth e)).
  change (sanJ j) with (JObj [("webrpcError", sanJ (JObj (errorMembers e)))]). cbn [getMember fold_left fst snd String.eqb Ascii.eqb Bool.eqb].
  rewrite san_errorMembers. reflexivity.
Qed.

(** *** whole streams *)

Lemma pings_text l : Between pingOp [] l -> forall table st, exists rss, Forall2 textLine l rss /\ onLines table st rss = ([], false).
Proof.
  intros B table st. remember [] as q eqn:E. induction B as [|q out B IH|]; [exists []; split; [constructor|reflexivity]| |discriminate].
  destruct (IH E) as (rss & F & O). exists ([] :: rss). split; [constructor; [exact ping_text|exact F]|]. cbn [onLines onLine]. rewrite O. reflexivity.
Qed.

Lemma messages_text env fs table st msgs : (forall vs, In vs msgs -> JsSendable env fs vs) ->
  forall l, Between pingOp (map (writeOp env fs) msgs) l ->
  exists rss ds, Forall2 textLine l rss /\ onLines table st rss = (map (fun d => OnMessage (Some d)) ds, false) /\ Forall2 (DecodesTo env fs) msgs ds.
Proof.
  induction msgs as [|vs msgs IH]; intros S l B.
  - destruct (pings_text l B table st) as (rss & F & O). exists rss, []. split; [exact F|]. split; [exact O|constructor].
  - cbn [map] in B. remember (writeOp env fs vs :: map (writeOp env fs) msgs) as q eqn:E.
    induction B as [|q out B IHB|y q out B IHB]; [discriminate| |].
    + destruct (IHB E) as (rss & ds & F & O & D). exists ([] :: rss), ds. split; [constructor; [exact ping_text|exact F]|].
      split; [cbn [onLines onLine]; rewrite O; reflexivity|exact D].
    + injection E as -> ->. destruct (IH (fun v h => S v (or_intror h)) out B) as (rss & ds & F & O & D).
      destruct (message_text env fs vs table st (S vs (or_introl eq_refl))) as (rs & d & T & ON & DT).
      exists (rs :: rss), (d :: ds). split; [constructor; assumption|]. split; [|constructor; assumption].
      cbn [onLines]. rewrite ON, O. reflexivity.
Qed.

Lemma ending_text env table st (e : option rpcError) l : HasErrorType env -> (forall r, e = Some r -> SafeCode r) ->
  Between pingOp (match e with None => [] | Some r => [errorOp env r] end) l ->
  exists rss es, Forall2 textLine l rss /\ onLines table st rss = (es, match e with None => false | Some _ => true end) /\
    match e with None => es = [] | Some r => exists t, es = [OnError t] /\ TsArrived table r t end.
Proof.
  intros HE S B. destruct e as [r|].
  - remember [errorOp env r] as q eqn:E. induction B as [|q out B IH|x q out B IH]; [discriminate| |].
    + destruct (IH E) as (rss & es & F & O & K). exists ([] :: rss), es. split; [constructor; [exact ping_text|exact F]|].
      split; [cbn [onLines onLine]; rewrite O; reflexivity|exact K].
    + injection E as -> ->. destruct (pings_text out B table st) as (rss & F & O).
      destruct (error_text env r table st HE (S r eq_refl)) as (rs & t & T & ON & A).
      exists (rs :: rss), [OnError t]. split; [constructor; assumption|]. split; [cbn [onLines]; rewrite ON; reflexivity|eauto].
  - destruct (pings_text l B table st) as (rss & F & O). exists rss, []. auto.
Qed.
