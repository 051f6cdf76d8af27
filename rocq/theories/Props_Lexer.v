(** C01-C03: properties of the RIDL lexer. Theorems only. *)
From Verif Require Import Base Utf8 Utf8Proofs Lexer LexSpec LexerProofs.

(** C01. A document is a list of unicode characters [cs], stored as UTF-8; the
    token texts concatenated are the document up to its first NUL. *)
Theorem C01_lexing_is_lossless : forall cs,
  forallb valid_rune cs = true ->
  sconcat (map val (lexAll (encode cs))) = encode (until_nul cs).
Proof. exact lossless_chars. Qed.
Print Assumptions C01_lexing_is_lossless.

(** ... hence the document itself if it has no NUL, ... *)
Theorem C01_lexing_is_lossless_without_nul : forall cs,
  forallb valid_rune cs = true -> ~ In 0%N cs ->
  sconcat (map val (lexAll (encode cs))) = encode cs.
Proof. exact lossless_no_nul. Qed.
Print Assumptions C01_lexing_is_lossless_without_nul.

(** ... also for arbitrary bytes, after Go's replacement of malformed UTF-8, ... *)
Theorem C01_lexing_is_lossless_bytes : forall src,
  sconcat (map val (lexAll src)) = encode (until_nul (decode src)).
Proof. exact lexAll_lossless. Qed.
Print Assumptions C01_lexing_is_lossless_bytes.

(** ... and the stream is ended by exactly one EOF, at the end of the document; no other
    token is empty. *)
Theorem C01_ends_with_one_eof : forall src,
  exists body eof,
    lexAll src = body ++ [eof] /\ ty eof = TEOF /\ val eof = "" /\
    pos eof = length (until_nul (decode src)) /\
    Forall (fun t => ty t <> TEOF /\ val t <> "") body.
Proof. exact lexAll_eof. Qed.
Print Assumptions C01_ends_with_one_eof.

(** The claim "the token texts are the whole document" is false: a NUL ends it. *)
Theorem C01_nul_truncates_refuted : exists src,
  sconcat (map val (lexAll src)) <> src.
Proof. exact nul_truncates. Qed.
Print Assumptions C01_nul_truncates_refuted.

(** C02. Every token except EOF sits in the document at a definite place
    [before ++ chunk ++ after], is [chunk], and reports the place where it ends. *)
Theorem C02_positions_are_real : forall src a t b,
  lexAll src = a ++ t :: b -> b <> [] ->
  exists before chunk after,
    decode src = before ++ chunk ++ after /\
    sconcat (map val a) = encode before /\
    val t = encode chunk /\
    pos t = length before + length chunk /\
    line t = 1 + newlines before /\
    col t = since_newline before + length chunk.
Proof. exact lexAll_positions. Qed.
Print Assumptions C02_positions_are_real.

(** C03. The tokens are a segmentation of the document in which every token has the shape of
    its class (maximal words and blanks, single punctuation characters, "=>"), ... *)
Theorem C03_tokens_have_their_shape : forall src,
  exists segs, Segments (decode src) segs /\
    map (fun t => (ty t, val t)) (lexAll src) =
    map (fun s => (fst s, encode (snd s))) segs ++ [(TEOF, "")].
Proof. exact lexAll_segments. Qed.
Print Assumptions C03_tokens_have_their_shape.

(** ... and there is only one such segmentation. *)
Theorem C03_segmentation_is_unique : forall doc segs segs',
  Segments doc segs -> Segments doc segs' -> segs = segs'.
Proof. exact segments_unique. Qed.
Print Assumptions C03_segmentation_is_unique.

(** Non-vacuity: [- a=>b] *)
Example lexer_example :
  map (fun t => (ty t, val t, pos t, line t, col t))
      (lexAll ("- a=>b" ++ String (byte_of_N 10) "c1")%string) =
  [(TMinus, "-", 1, 1, 1); (TWhitespace, " ", 2, 1, 2); (TWord, "a", 3, 1, 3);
   (TRocket, "=>", 5, 1, 5); (TWord, "b", 6, 1, 6);
   (TNewLine, String (byte_of_N 10) "", 7, 1, 7); (TWord, "c1", 9, 2, 2); (TEOF, "", 9, 2, 2)]%string.
Proof. vm_compute. reflexivity. Qed.

Example lossless_hypotheses : forallb valid_rune [0x41; 0x20AC; 0x1F600]%N = true /\
  ~ In 0%N [0x41; 0x20AC; 0x1F600]%N.
Proof. split; [reflexivity|]. cbn. intuition discriminate. Qed.
