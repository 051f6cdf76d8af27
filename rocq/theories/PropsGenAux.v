(** Lemmas in the form stated in Props_Gen.v *)
From Coq Require Import ZifyBool ZifyNat ZifyN.
From Verif Require Import Base BaseProofs Utf8 Utf8Proofs Gen GenProofs.

(** lexicographic order of (major, minor) *)
Definition version_le (v w : nat * nat) : Prop :=
  fst v < fst w \/ (fst v = fst w /\ snd v <= snd w).

Lemma min_version_partial a b r c d r' :
  (Z.of_nat a <= int64_max)%Z -> (Z.of_nat b <= int64_max)%Z ->
  (Z.of_nat c <= int64_max)%Z -> (Z.of_nat d <= int64_max)%Z ->
  a <= c \/ d <= b ->
  (minVersion (version_string a b r) (version_string c d r') = Ok true <-> version_le (c, d) (a, b)) /\
  (minVersion (version_string a b r) (version_string c d r') = Ok false <-> ~ version_le (c, d) (a, b)).
Proof.
  intros Ha Hb Hc Hd H. rewrite minVersion_exact by assumption. unfold version_le. cbn [fst snd].
  destruct ((c <=? a) && (d <=? b)) eqn:E; split; split; intro X; try discriminate; try reflexivity; lia.
Qed.

Lemma min_version_refuted : exists a b c d,
  version_le (c, d) (a, b) /\
  minVersion (version_string a b []) (version_string c d []) = Ok false.
Proof. exists 1, 0, 0, 7. split; [left; cbn; lia|vm_compute; reflexivity]. Qed.

Lemma header_separator_refuted : exists h v,
  hv_codegenVersion h <> "" /\ hv_schemaVersion h <> "" /\
  parseGenVersions (webRPCGenHeader h) = Some v /\
  (gv_schema v <> hv_schema h \/ gv_schemaVersion v <> hv_schemaVersion h).
Proof.
  exists (HeaderVars "v0.31.0" "gen-golang" "v0.23.1" "my@app" "v1" "abc").
  eexists. split; [discriminate|]. split; [discriminate|]. split; [vm_compute; reflexivity|].
  left. vm_compute. discriminate.
Qed.

Lemma first_letter c s : ascii_byte c = true ->
  firstLetterToLower (String c s) = String (lower_byte c) s /\
  firstLetterToUpper (String c s) = String (upper_byte c) s /\
  firstLetterToLower (firstLetterToLower (String c s)) = firstLetterToLower (String c s) /\
  firstLetterToUpper (firstLetterToUpper (String c s)) = firstLetterToUpper (String c s) /\
  to_lower (firstLetterToLower (String c s)) = to_lower (String c s) /\
  to_lower (firstLetterToUpper (String c s)) = to_lower (String c s).
Proof.
  intro H. rewrite fl_lower_idem, fl_upper_idem by assumption.
  rewrite fl_lower, fl_upper by assumption. repeat split.
  - unfold to_lower. cbn. now rewrite to_lower_idem_byte.
  - unfold to_lower. cbn. now rewrite lower_upper_byte.
Qed.

Lemma first_letter_refuted : exists s,
  to_lower (firstLetterToLower s) <> to_lower s /\ s = encode [233; 97]%N.
Proof. exists (encode [233; 97]%N). split; [vm_compute; discriminate|reflexivity]. Qed.

Lemma count_while_app p a b : Forall (fun r => p r = true) a ->
  (forall r, hd_error b = Some r -> p r = false) -> count_while p (a ++ b) = length a.
Proof.
  induction 1 as [|x a Hx _ IH]; cbn; intro Hb.
  - destruct b as [|y b]; [reflexivity|]. cbn. now rewrite (Hb y eq_refl).
  - rewrite Hx. now rewrite IH.
Qed.

Lemma first_word_acronym up c low rest :
  up <> [] -> Forall (fun r => r_upper r = true) up -> r_upper c = true ->
  Forall (fun r => r_lower r = true) low -> 2 <= length low ->
  (forall r, hd_error rest = Some r -> r_lower r = false) ->
  forallb valid_rune rest = true ->
  firstWordToLower (encode (up ++ c :: low ++ rest)) = encode (map lower_rune up ++ c :: low ++ rest).
Proof.
  intros Hne Hup Hc Hlow Hlen Hrest Hv.
  assert (Hval : forallb valid_rune (up ++ c :: low ++ rest) = true).
  { rewrite forallb_app. cbn [forallb]. rewrite forallb_app, Hv.
    assert (H1 : forallb valid_rune up = true).
    { apply forallb_forall. intros x Hx. rewrite Forall_forall in Hup. specialize (Hup x Hx).
      unfold r_upper, in_range, valid_rune in *. lia. }
    assert (H2 : forallb valid_rune low = true).
    { apply forallb_forall. intros x Hx. rewrite Forall_forall in Hlow. specialize (Hlow x Hx).
      unfold r_lower, in_range, valid_rune in *. lia. }
    rewrite H1, H2. unfold r_upper, in_range in Hc. unfold valid_rune. lia. }
  unfold firstWordToLower.
  destruct (encode (up ++ c :: low ++ rest)) as [|b s] eqn:E.
  { exfalso. pose proof (encode_length (up ++ c :: low ++ rest)) as Hl. rewrite E, app_length in Hl. cbn in Hl. lia. }
  assert (Hb : is_lower_byte b = false).
  { destruct up as [|u up]; [congruence|]. inversion Hup; subst.
    assert (b = byte_of_N u).
    { apply (decode_hd b s u (up ++ c :: low ++ rest)).
      - rewrite <- E. now apply decode_encode.
      - unfold r_upper, in_range in *. lia. }
    subst b. unfold is_lower_byte, in_range. unfold r_upper, in_range in *.
    rewrite N_of_byte_of_N by lia. lia. }
  rewrite Hb, <- E, decode_encode by assumption.
  assert (Hj : firstWordLen (up ++ c :: low ++ rest) = length up).
  { destruct up as [|u up]; [congruence|]. inversion Hup as [|? ? Hu Hup']; subst. unfold firstWordLen.
    cbn [app]. rewrite Hu.
    destruct low as [|l1 [|l2 low]]; cbn [length] in Hlen; try lia.
    inversion Hlow as [|? ? Hl1 Hlow1]; subst. inversion Hlow1 as [|? ? Hl2 Hlow2]; subst.
    assert (Hcw : count_while r_upper (u :: up ++ c :: (l1 :: l2 :: low) ++ rest) = S (S (length up))).
    { replace (u :: up ++ c :: (l1 :: l2 :: low) ++ rest)
        with (((u :: up) ++ [c]) ++ (l1 :: l2 :: low) ++ rest) by (cbn; now rewrite <- app_assoc).
      rewrite count_while_app.
      - rewrite app_length. cbn. lia.
      - apply Forall_app. split; [assumption|]. constructor; [assumption|constructor].
      - cbn. intros r Hr. injection Hr as <-. unfold r_lower, r_upper, in_range in *. lia. }
    rewrite Hcw.
    assert (Hn1 : nth_error (u :: up ++ c :: (l1 :: l2 :: low) ++ rest) (S (S (length up))) = Some l1).
    { change (nth_error (up ++ c :: (l1 :: l2 :: low) ++ rest) (S (length up)) = Some l1). rewrite nth_error_app2 by lia. replace (S (length up) - length up) with 1 by lia. reflexivity. }
    assert (Hn2 : nth_error (u :: up ++ c :: (l1 :: l2 :: low) ++ rest) (S (S (S (length up)))) = Some l2).
    { change (nth_error (up ++ c :: (l1 :: l2 :: low) ++ rest) (S (S (length up))) = Some l2). rewrite nth_error_app2 by lia. replace (S (S (length up)) - length up) with 2 by lia. reflexivity. }
    rewrite Hn1, Hn2, Hl1, Hl2. cbn [andb Nat.ltb Nat.leb].
    replace (S (S (length up)) - 1) with (S (length up)) by lia.
    cbn [skipn]. rewrite skipn_app, skipn_all, Nat.sub_diag. cbn [app skipn count_while].
    replace (r_lower c || r_digit c) with false
      by (unfold r_lower, r_digit, r_upper, in_range in *; lia).
    cbn [length]. lia. }
  rewrite Hj, firstn_app, skipn_app, Nat.sub_diag, firstn_all, skipn_all. cbn [firstn skipn].
  now rewrite app_nil_r.
Qed.
