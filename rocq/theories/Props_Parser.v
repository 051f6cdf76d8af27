(** C04, C05: properties of the RIDL parser. Theorems only. *)
From Verif Require Import Base Utf8 Utf8Proofs Lexer LexSpec Tokenize Ast Parser ParserTerm PropsParserAux
  StringSpec StringProofs StringBack.

(** C04 (partial: it excludes the documents of C04_hang_refuted).  If every "@" is directly
    followed by a word, parsing ends with a verdict, after at most 4 steps per token plus 8;
    more steps do not change it. *)
Theorem C04_parsing_terminates_partial : forall src,
  (forall a t b, lexAll src = a ++ t :: b -> ty t = TAt ->
     exists w b', b = w :: b' /\ ty w = TWord) ->
  exists r, r <> ParseLoop /\
    forall steps, 4 * length (lexAll src) + 4 <= steps -> runParser steps (initConf src) = r.
Proof.
  intros src H. destruct (parse_stable src H) as (r & V & R). exists r. split; [now destruct r|].
  intros k Hk. apply R. unfold parserFuel. destruct (init_toks src) as (eof & _ & HL).
  rewrite HL, app_length in Hk. cbn [length] in Hk. lia.
Qed.
Print Assumptions C04_parsing_terminates_partial.

(** Without any hypothesis: a document either gets its verdict within that bound, or it never
    gets one. *)
Theorem C04_verdict_in_linear_time_or_never : forall src steps,
  4 * length (lexAll src) + 4 <= steps ->
  runParser steps (initConf src) = parseRidl src /\
  (parseRidl src = ParseLoop -> forall n, runParser n (initConf src) = ParseLoop).
Proof.
  intros src k Hk. split; [|apply loop_forever]. apply fuel_irrelevant. unfold parserFuel.
  destruct (init_toks src) as (eof & _ & HL). rewrite HL, app_length in Hk. cbn [length] in Hk. lia.
Qed.
Print Assumptions C04_verdict_in_linear_time_or_never.

(** The parser hangs exactly when it comes, inside a service, to an "@" not followed by a
    word: the configuration then steps to itself. *)
Theorem C04_hang_iff_bare_at : forall src,
  parseRidl src = ParseLoop <->
  exists c s t ts, Steps (initConf src) c /\ p_state c = SServiceMethod s /\ p_toks c = t :: ts /\
    ty t = TAt /\ ty (cursor ts) <> TWord /\ step c = Next c.
Proof.
  intro src. rewrite loop_iff. split.
  - intros (c & S & H). pose proof (stuck_step c H) as E. unfold stuck in H.
    destruct (p_state c) eqn:Es; try discriminate. apply andb_true_iff in H. destruct H as [H1 H2].
    destruct (p_toks c) as [|t ts] eqn:Et; [discriminate|]. exists c, s, t, ts.
    apply tt_eqb_eq in H1. cbn in H1. repeat split; try assumption. intro Hw. apply negb_true_iff in H2.
    cbn in H2. rewrite H1 in H2. destruct ts as [|t2 ts]; [discriminate|]. cbn in Hw. rewrite Hw in H2. discriminate.
  - intros (c & s & t & ts & S & Es & Et & H1 & H2 & _). exists c. split; [exact S|]. unfold stuck.
    rewrite Es, Et. cbn. rewrite H1. cbn. destruct ts as [|t2 ts]; [reflexivity|]. cbn in H2.
    destruct (tt_eqb (ty t2) TWord) eqn:E; [apply tt_eqb_eq in E; congruence|reflexivity].
Qed.
Print Assumptions C04_hang_iff_bare_at.

(** "Parsing terminates for every document" is false. *)
Theorem C04_hang_refuted : exists src, forall steps, runParser steps (initConf src) = ParseLoop.
Proof. exists bareAt. exact bareAt_hangs. Qed.
Print Assumptions C04_hang_refuted.

(** A parse error points at a token of the document (its line, column and text), or at 0:0 for
    the end of the document. *)
Theorem C04_errors_are_located : forall src e, parseRidl src = ParseError e ->
  (pe_line e = 0 /\ pe_col e = 0 /\ pe_near e = ""%string) \/
  exists t, In t (lexAll src) /\ ty t <> TEOF /\
    pe_line e = line t /\ pe_col e = col t /\ pe_near e = val t.
Proof. exact error_position. Qed.
Print Assumptions C04_errors_are_located.

(** ... and the position is the one a reader would count: the line of the reported text and the
    column of its last character. *)
Theorem C02_parse_errors_point_into_the_document : forall src e, parseRidl src = ParseError e ->
  (pe_line e = 0 /\ pe_col e = 0 /\ pe_near e = ""%string) \/
  exists before chunk after,
    decode src = before ++ chunk ++ after /\ chunk <> [] /\
    pe_near e = encode chunk /\
    pe_line e = 1 + newlines before /\
    pe_col e = since_newline before + length chunk.
Proof. exact error_in_document. Qed.
Print Assumptions C02_parse_errors_point_into_the_document.

Example C02_error_position :
  exists m, parseRidl ("name = x" ++ String "010"%char "struct A B")%string = ParseError (PE 2 10 "B" m).
Proof. eexists. vm_compute. reflexivity. Qed.

(** Non-vacuity: a service with two annotated lines meets the hypothesis and parses. *)
Example C04_hypothesis_met :
  (forall a t b, lexAll namedDoc = a ++ t :: b -> ty t = TAt ->
     exists w b', b = w :: b' /\ ty w = TWord) /\
  exists nodes, parseRidl namedDoc = Parsed nodes /\ nodes <> [].
Proof.
  split.
  - apply named_b_ok. vm_compute. reflexivity.
  - eexists. split; [vm_compute; reflexivity|discriminate].
Qed.

(** C05. Wherever a value may be quoted: if the document reads
    [before "raw" rest] and the token after [before] is reached, then each of the four value
    readers of the parser returns exactly what [raw] denotes and goes on with [rest]. *)
Theorem C05_quoted_values_denote_their_content : forall src before raw rest content a q b,
  decode src = before ++ [34%N] ++ raw ++ [34%N] ++ rest ->
  p_toks (initConf src) = a ++ q :: b ->
  sconcat (map val a) = encode before ->
  raw <> [] -> Denotes raw content ->
  exists v after,
    val v = content /\ sconcat (map val after) = encode (until_nul rest) /\
    expectStringValue (q :: b) = POk v after /\
    expectLiteralValue (q :: b) = POk v after /\
    expectMetadataValue (q :: b) = POk v after /\
    expectPath (q :: b) = POk v after.
Proof. exact quoted_value_all. Qed.
Print Assumptions C05_quoted_values_denote_their_content.

(** Conversely, whatever the parser accepts as a quoted value is a text on one line between the
    quotes, in which quotes and backslashes occur only in the three escapes, and the value is
    what that text reads as (see StringSpec.v). *)
Theorem C05_strings_end_on_their_line : forall src before tail a q b v after,
  decode src = before ++ [34%N] ++ tail ->
  p_toks (initConf src) = a ++ q :: b ->
  sconcat (map val a) = encode before ->
  expectStringValue (q :: b) = POk v after ->
  exists raw rest,
    tail = raw ++ [34%N] ++ rest /\ raw <> [] /\ Reads raw (val v) /\ ~ In 10%N raw /\
    sconcat (map val after) = encode (until_nul rest).
Proof.
  intros src before tail a q b v after H1 H2 H3 H4.
  destruct (quoted_back _ _ _ _ _ _ _ _ H1 H2 H3 H4) as (raw & rest & R1 & R2 & R3 & R4).
  exists raw, rest. repeat (split; [assumption|]). split; [now apply Reads_one_line with (s := val v)|exact R4].
Qed.
Print Assumptions C05_strings_end_on_their_line.

(** A text reads in only one way, and ASCII texts without escapes read as themselves. *)
Theorem C05_reading_is_unique : forall raw s s', Reads raw s -> Reads raw s' -> s = s'.
Proof. exact Reads_unique. Qed.
Print Assumptions C05_reading_is_unique.
Theorem C05_plain_text_reads_as_itself : forall raw s, Denotes raw s -> Reads raw s.
Proof. exact Denotes_Reads. Qed.
Print Assumptions C05_plain_text_reads_as_itself.

Example C05_multi_line_rejected :
  exists e, parseRidl ("name = ""a" ++ String "010"%char "b""")%string = ParseError e.
Proof. eexists. vm_compute. reflexivity. Qed.

(** End to end: the document [key = "raw"] parses to the definition of [key] with the content. *)
Theorem C05_quoted_definition : forall key raw content,
  In key ["webrpc"; "name"; "version"; "basepath"]%string -> raw <> [] -> Denotes raw content ->
  exists com,
    parseRidl (key ++ " = """ ++ encode raw ++ """" ++ String "010"%char "")%string =
    Parsed [NDef (Def key content false [] com)].
Proof.
  intros key raw content Hk Hne Hd. destruct (def_end_to_end key raw content Hk Hne Hd) as (com & H).
  exists com. rewrite <- H. f_equal. unfold defDoc. rewrite !encode_app.
  rewrite encode_runes_of; [reflexivity|]. repeat (destruct Hk as [<-|Hk]; [reflexivity|]). contradiction.
Qed.
Print Assumptions C05_quoted_definition.

(** What does not hold: the empty string is rejected, non-ASCII text is re-encoded byte by byte
    (U+00E9 becomes U+00C3 U+00A9), and an escaped quote after a word ends the string. *)
Theorem C05_empty_and_non_ascii_and_quote_refuted :
  (exists e, parseRidl ("name = """"" ++ String "010"%char "")%string = ParseError e) /\
  parseRidl (encode ([110; 97; 109; 101; 32; 61; 32; 34; 0xE9; 34; 10]%N)) =
    Parsed [NDef (Def "name" (encode [0xC3; 0xA9]%N) false [] "")] /\
  (exists e, parseRidl ("name = ""a\""b""" ++ String "010"%char "")%string = ParseError e).
Proof.
  split; [eexists; vm_compute; reflexivity|]. split; [vm_compute; reflexivity|]. eexists. vm_compute. reflexivity.
Qed.
Print Assumptions C05_empty_and_non_ascii_and_quote_refuted.

(** Non-vacuity: a text with a blank, an escape, punctuation and a comment sign. *)
Example C05_denotes : Denotes (runes_of "a b\n#=>\tc") ("a b" ++ String "010"%char ("#=>" ++ String "009"%char "c")).
Proof. repeat (first [apply DenNil | apply DenNewline | apply DenTab | apply DenPlain; [cbn; lia|discriminate|discriminate|discriminate|]]). Qed.
