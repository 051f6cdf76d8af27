(** Round trip of the UTF-8 conversions *)
From Coq Require Import ZifyBool ZifyNat ZifyN.
From Verif Require Import Base BaseProofs Utf8.
Ltac Zify.zify_post_hook ::= Z.div_mod_to_equations.
Local Open Scope N_scope.

Lemma N_of_byte_of_N n : n < 256 -> N_of_byte (byte_of_N n) = n.
Proof. apply N_ascii_embedding. Qed.

Lemma N_of_byte_lt c : N_of_byte c < 256.
Proof. apply N_ascii_bounded. Qed.

Lemma byte_of_N_of_byte c : byte_of_N (N_of_byte c) = c.
Proof. apply ascii_N_embedding. Qed.

Lemma decode_encode_rune r s :
  valid_rune r = true ->
  exists c t, encode_rune r = String c t /\ decode_rune c (t ++ s) = (r, s).
Proof.
  intro Hv. unfold encode_rune. rewrite Hv. unfold encode_valid.
  unfold valid_rune in Hv.
  destruct (r <? 0x80) eqn:H1.
  { eexists _, _. split; [reflexivity|]. unfold decode_rune.
    rewrite N_of_byte_of_N by lia. cbn [append]. rewrite H1. reflexivity. }
  destruct (r <? 0x800) eqn:H2.
  { eexists _, _. split; [reflexivity|]. unfold decode_rune. cbn [append].
    rewrite !N_of_byte_of_N by lia.
    replace (0xC0 + r / 64 <? 0x80) with false by lia.
    replace (0xC0 + r / 64 <? 0xC2) with false by lia.
    replace (0xC0 + r / 64 <? 0xE0) with true by lia.
    unfold is_cont.
    replace (0x80 <=? 0x80 + r mod 64) with true by lia.
    replace (0x80 + r mod 64 <? 0xC0) with true by lia.
    cbn [andb]. f_equal. lia. }
  destruct (r <? 0x10000) eqn:H3.
  { eexists _, _. split; [reflexivity|]. unfold decode_rune. cbn [append].
    rewrite !N_of_byte_of_N by lia.
    replace (0xE0 + r / 4096 <? 0x80) with false by lia.
    replace (0xE0 + r / 4096 <? 0xC2) with false by lia.
    replace (0xE0 + r / 4096 <? 0xE0) with false by lia.
    replace (0xE0 + r / 4096 <? 0xF0) with true by lia.
    unfold is_cont.
    replace (0x80 <=? 0x80 + r mod 64) with true by lia.
    replace (0x80 + r mod 64 <? 0xC0) with true by lia.
    cbn [andb]. rewrite andb_true_r.
    replace (((if 0xE0 + r / 4096 =? 0xE0 then 0xA0 else 0x80) <=? 0x80 + r / 64 mod 64) &&
             (0x80 + r / 64 mod 64 <=? (if 0xE0 + r / 4096 =? 0xED then 0x9F else 0xBF)))
      with true.
    - f_equal. lia.
    - symmetry. apply andb_true_iff. split.
      + destruct (0xE0 + r / 4096 =? 0xE0) eqn:E; lia.
      + destruct (0xE0 + r / 4096 =? 0xED) eqn:E; lia. }
  { eexists _, _. split; [reflexivity|]. unfold decode_rune. cbn [append].
    rewrite !N_of_byte_of_N by lia.
    replace (0xF0 + r / 262144 <? 0x80) with false by lia.
    replace (0xF0 + r / 262144 <? 0xC2) with false by lia.
    replace (0xF0 + r / 262144 <? 0xE0) with false by lia.
    replace (0xF0 + r / 262144 <? 0xF0) with false by lia.
    replace (0xF0 + r / 262144 <? 0xF5) with true by lia.
    unfold is_cont.
    replace (0x80 <=? 0x80 + r mod 64) with true by lia.
    replace (0x80 + r mod 64 <? 0xC0) with true by lia.
    replace (0x80 <=? 0x80 + r / 64 mod 64) with true by lia.
    replace (0x80 + r / 64 mod 64 <? 0xC0) with true by lia.
    cbn [andb]. rewrite !andb_true_r.
    replace (((if 0xF0 + r / 262144 =? 0xF0 then 0x90 else 0x80) <=? 0x80 + r / 4096 mod 64) &&
             (0x80 + r / 4096 mod 64 <=? (if 0xF0 + r / 262144 =? 0xF4 then 0x8F else 0xBF)))
      with true.
    - f_equal. lia.
    - symmetry. apply andb_true_iff. split.
      + destruct (0xF0 + r / 262144 =? 0xF0) eqn:E; lia.
      + destruct (0xF0 + r / 262144 =? 0xF4) eqn:E; lia. }
Qed.

Lemma encode_rune_length r : (1 <= String.length (encode_rune r))%nat.
Proof.
  unfold encode_rune, encode_valid.
  generalize (if valid_rune r then r else replacement). intro x.
  destruct (x <? 0x80); [cbn; lia|].
  destruct (x <? 0x800); [cbn; lia|].
  destruct (x <? 0x10000); cbn; lia.
Qed.

Lemma decode_fuel_encode rs n :
  forallb valid_rune rs = true ->
  (length rs <= n)%nat ->
  decode_fuel n (encode rs) = rs.
Proof.
  revert n. induction rs as [|r rs IH]; intros n Hv Hn.
  - destruct n; reflexivity.
  - cbn [forallb] in Hv. apply andb_true_iff in Hv as [Hr Hv].
    destruct n as [|n]; [cbn in Hn; lia|].
    cbn [encode].
    destruct (decode_encode_rune r (encode rs) Hr) as [c [t [He Hd]]].
    rewrite He. cbn [append decode_fuel]. rewrite Hd. f_equal.
    apply IH; [assumption|]. cbn in Hn. lia.
Qed.

Lemma encode_length rs : (length rs <= String.length (encode rs))%nat.
Proof.
  induction rs as [|r rs IH]; cbn; [lia|]. rewrite slength_app.
  pose proof (encode_rune_length r). lia.
Qed.

Theorem decode_encode rs :
  forallb valid_rune rs = true -> decode (encode rs) = rs.
Proof. intro H. apply decode_fuel_encode; [assumption|apply encode_length]. Qed.

Lemma encode_app a b : encode (a ++ b) = (encode a ++ encode b)%string.
Proof. induction a as [|x a IH]; cbn; [reflexivity|]. now rewrite IH, sapp_assoc. Qed.

(** every decoded rune is a scalar value *)
Lemma decode_rune_valid c s : valid_rune (fst (decode_rune c s)) = true.
Proof.
  unfold decode_rune.
  assert (Hbad : valid_rune (fst (replacement, s)) = true) by reflexivity.
  destruct (N_of_byte c <? 0x80) eqn:H0.
  { cbn. unfold valid_rune. lia. }
  destruct (N_of_byte c <? 0xC2) eqn:H1; [exact Hbad|].
  destruct (N_of_byte c <? 0xE0) eqn:H2.
  { destruct s as [|c1 s1]; [exact Hbad|].
    destruct (is_cont (N_of_byte c1)) eqn:Hc; [|exact Hbad].
    cbn [fst]. unfold is_cont in Hc. unfold valid_rune. lia. }
  destruct (N_of_byte c <? 0xF0) eqn:H3.
  { destruct s as [|c1 [|c2 s2]]; try exact Hbad.
    destruct (N_of_byte c =? 0xE0) eqn:Ea; destruct (N_of_byte c =? 0xED) eqn:Eb;
      match goal with |- context[if ?b then _ else _] => destruct b eqn:Hc end;
      try exact Hbad; cbn [fst]; unfold is_cont in Hc; unfold valid_rune; lia. }
  destruct (N_of_byte c <? 0xF5) eqn:H4; [|exact Hbad].
  destruct s as [|c1 [|c2 [|c3 s3]]]; try exact Hbad.
  destruct (N_of_byte c =? 0xF0) eqn:Ea; destruct (N_of_byte c =? 0xF4) eqn:Eb;
      match goal with |- context[if ?b then _ else _] => destruct b eqn:Hc end;
      try exact Hbad; cbn [fst]; unfold is_cont in Hc; unfold valid_rune; lia.
Qed.

Lemma decode_fuel_valid n s : forallb valid_rune (decode_fuel n s) = true.
Proof.
  revert s; induction n as [|n IH]; intro s; [reflexivity|].
  destruct s as [|c s]; [reflexivity|]. cbn [decode_fuel].
  pose proof (decode_rune_valid c s) as H.
  destruct (decode_rune c s) as [x r]. cbn [fst] in H. cbn [forallb]. now rewrite H, IH.
Qed.

Lemma decode_valid s : forallb valid_rune (decode s) = true.
Proof. apply decode_fuel_valid. Qed.

(** ASCII strings are their own rune sequences *)
Definition runes_of (s : string) : list N := map N_of_byte (list_ascii_of_string s).

Definition is_ascii (s : string) : bool := sforall (fun c => N_of_byte c <? 128) s.

Lemma encode_rune_ascii c : N_of_byte c <? 128 = true -> encode_rune (N_of_byte c) = String c "".
Proof.
  intro H. unfold encode_rune.
  replace (valid_rune (N_of_byte c)) with true by (unfold valid_rune; lia).
  unfold encode_valid. rewrite H. now rewrite byte_of_N_of_byte.
Qed.

Lemma encode_runes_of s : is_ascii s = true -> encode (runes_of s) = s.
Proof.
  unfold runes_of. induction s as [|c s IH]; cbn; intro H; [reflexivity|].
  apply andb_true_iff in H as [Hc H]. rewrite encode_rune_ascii by assumption.
  cbn. now rewrite (IH H).
Qed.

Lemma decode_ascii s : is_ascii s = true -> decode s = runes_of s.
Proof.
  intro H. rewrite <- (encode_runes_of s H) at 1. apply decode_encode.
  unfold runes_of. clear -H. induction s as [|c s IH]; cbn in *; [reflexivity|].
  apply andb_true_iff in H as [Hc H]. rewrite (IH H), andb_true_r. unfold valid_rune. lia.
Qed.
