(** C23, C24, C35: template helpers. Theorems only. *)
From Verif Require Import Base Utf8 Gen GenProofs PropsGenAux.

(** C23. What minVersion computes on "vA.B[.rest]" and "vC.D[.rest]": *)
Theorem C23_min_version_is_componentwise : forall a b r c d r',
  (Z.of_nat a <= int64_max)%Z -> (Z.of_nat b <= int64_max)%Z ->
  (Z.of_nat c <= int64_max)%Z -> (Z.of_nat d <= int64_max)%Z ->
  minVersion (version_string a b r) (version_string c d r') = Ok ((c <=? a) && (d <=? b)).
Proof. exact minVersion_exact. Qed.
Print Assumptions C23_min_version_is_componentwise.

(** This is "version >= minimum" when the major versions agree or the minimum is of a later major;
    missing: a version of a later major and a smaller minor. *)
Theorem C23_min_version_partial : forall a b r c d r',
  (Z.of_nat a <= int64_max)%Z -> (Z.of_nat b <= int64_max)%Z ->
  (Z.of_nat c <= int64_max)%Z -> (Z.of_nat d <= int64_max)%Z ->
  a <= c \/ d <= b ->
  (minVersion (version_string a b r) (version_string c d r') = Ok true <-> version_le (c, d) (a, b)) /\
  (minVersion (version_string a b r) (version_string c d r') = Ok false <-> ~ version_le (c, d) (a, b)).
Proof. exact min_version_partial. Qed.
Print Assumptions C23_min_version_partial.

(** The full claim is false: v1.0 does not satisfy a minimum of v0.7. *)
Theorem C23_min_version_refuted : exists a b c d,
  version_le (c, d) (a, b) /\
  minVersion (version_string a b []) (version_string c d []) = Ok false.
Proof. exact min_version_refuted. Qed.
Print Assumptions C23_min_version_refuted.

(** C24. The header round-trips when no component contains ';' and the names contain no '@'. *)
Theorem C24_header_round_trip : forall h,
  contains_byte ";" (hv_gen h) = false ->
  contains_byte ";" (hv_codegen h) = false -> contains_byte "@" (hv_codegen h) = false ->
  contains_byte ";" (hv_codegenVersion h) = false ->
  contains_byte ";" (hv_schema h) = false -> contains_byte "@" (hv_schema h) = false ->
  contains_byte ";" (hv_schemaVersion h) = false -> contains_byte ";" (hv_hash h) = false ->
  parseGenVersions (webRPCGenHeader h) =
  Some (GenVersions (hv_gen h) (hv_codegen h)
         (if String.eqb (hv_codegenVersion h) "" then "unknown" else hv_codegenVersion h)
         (hv_schema h)
         (if String.eqb (hv_schemaVersion h) "" then ("v0.0.0-" ++ hv_hash h)%string else hv_schemaVersion h)).
Proof. exact header_round_trip. Qed.
Print Assumptions C24_header_round_trip.

Theorem C24_header_separator_refuted : exists h v,
  hv_codegenVersion h <> "" /\ hv_schemaVersion h <> "" /\
  parseGenVersions (webRPCGenHeader h) = Some v /\
  (gv_schema v <> hv_schema h \/ gv_schemaVersion v <> hv_schemaVersion h).
Proof. exact header_separator_refuted. Qed.
Print Assumptions C24_header_separator_refuted.

(** C35. On an ASCII first letter the helpers change its case and nothing else, and are idempotent. *)
Theorem C35_first_letter : forall c s, ascii_byte c = true ->
  firstLetterToLower (String c s) = String (lower_byte c) s /\
  firstLetterToUpper (String c s) = String (upper_byte c) s /\
  firstLetterToLower (firstLetterToLower (String c s)) = firstLetterToLower (String c s) /\
  firstLetterToUpper (firstLetterToUpper (String c s)) = firstLetterToUpper (String c s) /\
  to_lower (firstLetterToLower (String c s)) = to_lower (String c s) /\
  to_lower (firstLetterToUpper (String c s)) = to_lower (String c s).
Proof. exact first_letter. Qed.
Print Assumptions C35_first_letter.

(** For any other first letter they destroy it. *)
Theorem C35_first_letter_non_ascii_refuted : exists s,
  to_lower (firstLetterToLower s) <> to_lower s /\ s = encode [233; 97]%N.
Proof. exact first_letter_refuted. Qed.
Print Assumptions C35_first_letter_non_ascii_refuted.

(** firstWordToLower changes only case, is idempotent, and leaves everything from the first
    character that is no ASCII letter or digit on unchanged. *)
Theorem C35_first_word_changes_only_case : forall cs, forallb valid_rune cs = true ->
  to_lower (firstWordToLower (encode cs)) = to_lower (encode cs).
Proof. exact firstWord_case_only. Qed.
Print Assumptions C35_first_word_changes_only_case.

Theorem C35_first_word_idempotent : forall cs, forallb valid_rune cs = true ->
  firstWordToLower (firstWordToLower (encode cs)) = firstWordToLower (encode cs).
Proof. exact firstWord_idem. Qed.
Print Assumptions C35_first_word_idempotent.

Theorem C35_first_word_keeps_the_rest : forall w c rest,
  forallb valid_rune (w ++ c :: rest) = true -> alnum c = false ->
  exists w', firstWordToLower (encode (w ++ c :: rest)) = encode (w' ++ c :: rest) /\
             map lower_rune w' = map lower_rune w /\ length w' = length w.
Proof. exact firstWord_rest. Qed.
Print Assumptions C35_first_word_keeps_the_rest.

(** An acronym followed by a capitalised word is lower-cased as one word, up to the last capital. *)
Theorem C35_first_word_acronym : forall up c low rest,
  up <> [] -> Forall (fun r => r_upper r = true) up -> r_upper c = true ->
  Forall (fun r => r_lower r = true) low -> 2 <= length low ->
  (forall r, hd_error rest = Some r -> r_lower r = false) ->
  forallb valid_rune rest = true ->
  firstWordToLower (encode (up ++ c :: low ++ rest)) = encode (map lower_rune up ++ c :: low ++ rest).
Proof. exact first_word_acronym. Qed.
Print Assumptions C35_first_word_acronym.

Example gen_examples :
  minVersion "v0.7.2" "v0.7" = Ok true /\
  firstWordToLower "HTTPServer_ID" = "httpServer_ID" /\
  firstLetterToLower "UserID" = "userID" /\
  parseGenVersions (webRPCGenHeader (HeaderVars "v0.31.0" "gen-golang" "v0.23.1" "Test" "v1" "abc"))
    = Some (GenVersions "v0.31.0" "gen-golang" "v0.23.1" "Test" "v1").
Proof. vm_compute. repeat split; reflexivity. Qed.

(** The header values of the committed clients and servers of _examples (chat.gen.go 845, rpc.gen.ts 533, api.gen.go 724,
    client.gen.ts 573 and others) have no version after "webrpc", and so none of them is read. *)
Theorem C24_committed_headers_refuted : forall rest, parseGenVersions ("webrpc;" ++ rest) = None.
Proof.
  intros rest. unfold parseGenVersions. change ("webrpc;" ++ rest)%string with ("webrpc" ++ String ";"%char rest)%string.
  rewrite BaseProofs.split_byte_app by reflexivity. destruct (split_byte ";"%char rest) as [|v1 [|v2 l]]; reflexivity.
Qed.
Print Assumptions C24_committed_headers_refuted.
