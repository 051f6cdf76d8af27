(** Reading a body chunk by chunk (NodeHttp.v): UTF-8 *)
From Coq Require Import ZifyBool ZifyNat ZifyN.
From Verif Require Import Base BaseProofs Utf8 Utf8Proofs Json GoVal BigInt TsBig NodeHttp NodeSpec.
Ltac Zify.zify_post_hook ::= Z.div_mod_to_equations.
Local Open Scope N_scope.

Lemma chunk_encode_rune r s : valid_rune r = true ->
  exists c t, encode_rune r = String c t /\ chunkRune c (t ++ s) = (r, s).
Proof.
  intro Hv. unfold encode_rune. rewrite Hv. unfold encode_valid. unfold valid_rune in Hv.
  destruct (r <? 0x80) eqn:H1.
  { eexists _, _. split; [reflexivity|]. unfold chunkRune. rewrite N_of_byte_of_N by lia. cbn [append]. rewrite H1. reflexivity. }
  destruct (r <? 0x800) eqn:H2.
  { eexists _, _. split; [reflexivity|]. unfold chunkRune. cbn [append]. rewrite !N_of_byte_of_N by lia.
    replace (0xC0 + r / 64 <? 0x80) with false by lia. replace (0xC0 + r / 64 <? 0xC2) with false by lia. replace (0xC0 + r / 64 <? 0xE0) with true by lia.
    unfold is_cont. replace (0x80 <=? 0x80 + r mod 64) with true by lia. replace (0x80 + r mod 64 <? 0xC0) with true by lia. cbn [andb]. f_equal. lia. }
  destruct (r <? 0x10000) eqn:H3.
  { eexists _, _. split; [reflexivity|]. unfold chunkRune. cbn [append]. rewrite !N_of_byte_of_N by lia.
    replace (0xE0 + r / 4096 <? 0x80) with false by lia. replace (0xE0 + r / 4096 <? 0xC2) with false by lia.
    replace (0xE0 + r / 4096 <? 0xE0) with false by lia. replace (0xE0 + r / 4096 <? 0xF0) with true by lia.
    replace (((if 0xE0 + r / 4096 =? 0xE0 then 0xA0 else 0x80) <=? 0x80 + r / 64 mod 64) &&
             (0x80 + r / 64 mod 64 <=? (if 0xE0 + r / 4096 =? 0xED then 0x9F else 0xBF))) with true.
    - unfold is_cont. replace (0x80 <=? 0x80 + r mod 64) with true by lia. replace (0x80 + r mod 64 <? 0xC0) with true by lia. cbn [andb]. f_equal. lia.
    - symmetry. apply andb_true_iff. split; [destruct (0xE0 + r / 4096 =? 0xE0) eqn:E; lia|destruct (0xE0 + r / 4096 =? 0xED) eqn:E; lia]. }
  { eexists _, _. split; [reflexivity|]. unfold chunkRune. cbn [append]. rewrite !N_of_byte_of_N by lia.
    replace (0xF0 + r / 262144 <? 0x80) with false by lia. replace (0xF0 + r / 262144 <? 0xC2) with false by lia.
    replace (0xF0 + r / 262144 <? 0xE0) with false by lia. replace (0xF0 + r / 262144 <? 0xF0) with false by lia. replace (0xF0 + r / 262144 <? 0xF5) with true by lia.
    replace (((if 0xF0 + r / 262144 =? 0xF0 then 0x90 else 0x80) <=? 0x80 + r / 4096 mod 64) &&
             (0x80 + r / 4096 mod 64 <=? (if 0xF0 + r / 262144 =? 0xF4 then 0x8F else 0xBF))) with true.
    - unfold is_cont. replace (0x80 <=? 0x80 + r mod 64) with true by lia. replace (0x80 + r mod 64 <? 0xC0) with true by lia.
      replace (0x80 <=? 0x80 + r / 64 mod 64) with true by lia. replace (0x80 + r / 64 mod 64 <? 0xC0) with true by lia. cbn [andb]. f_equal. lia.
    - symmetry. apply andb_true_iff. split; [destruct (0xF0 + r / 262144 =? 0xF0) eqn:E; lia|destruct (0xF0 + r / 262144 =? 0xF4) eqn:E; lia]. }
Qed.

Lemma chunk_fuel_encode rs n : forallb valid_rune rs = true -> (length rs <= n)%nat -> chunkFuel n (encode rs) = encode rs.
Proof.
  revert n. induction rs as [|r rs IH]; intros n Hv Hn; [destruct n; reflexivity|].
  cbn [forallb] in Hv. apply andb_true_iff in Hv as [Hr Hv]. destruct n as [|n]; [cbn in Hn; lia|]. cbn [encode].
  destruct (chunk_encode_rune r (encode rs) Hr) as (c & t & He & Hd). rewrite He at 1. cbn [append chunkFuel]. rewrite Hd. f_equal.
  apply IH; [assumption|]. cbn in Hn. lia.
Qed.

(** a chunk of whole characters is read as it is *)
Lemma chunk_whole s : Utf8Text s -> chunkText s = s.
Proof. intros (rs & HV & ->). apply chunk_fuel_encode; [exact HV|apply encode_length]. Qed.

Lemma rune_len r : String.length (encode_rune r) =
  let x := if valid_rune r then r else replacement in
  if x <? 0x80 then 1%nat else if x <? 0x800 then 2%nat else if x <? 0x10000 then 3%nat else 4%nat.
Proof.
  unfold encode_rune, encode_valid. cbv zeta. generalize (if valid_rune r then r else replacement). intros x.
  destruct (x <? 0x80); [reflexivity|]. destruct (x <? 0x800); [reflexivity|]. destruct (x <? 0x10000); reflexivity.
Qed.

Lemma chunk_rune_longer c s x s' : chunkRune c s = (x, s') ->
  (S (String.length s) <= String.length (encode_rune x) + String.length s')%nat /\ (String.length s' <= String.length s)%nat /\
  (is_cont (N_of_byte c) = true -> s' = s /\ String.length (encode_rune x) = 3%nat).
Proof.
  unfold chunkRune. pose proof (N_of_byte_lt c) as Hc. set (b0 := N_of_byte c) in *.
  assert (R3 : String.length (encode_rune replacement) = 3%nat) by reflexivity.
  assert (C : is_cont b0 = true -> (b0 <? 0x80) = false /\ (b0 <? 0xC2) = true) by (unfold is_cont; lia).
  destruct (b0 <? 0x80) eqn:H0.
  { intros [= <- <-]. rewrite rune_len. split; [|split; [lia|intros X; apply C in X; destruct X; discriminate]].
    cbv zeta. replace (valid_rune b0) with true by (unfold valid_rune; lia). rewrite H0. lia. }
  destruct (b0 <? 0xC2) eqn:H1; [intros [= <- <-]; rewrite R3; repeat split; lia|].
  assert (C' : is_cont b0 = true -> False) by (intros X; apply C in X; destruct X; discriminate).
  destruct (b0 <? 0xE0) eqn:H2.
  { destruct s as [|c1 s1]; [intros [= <- <-]; rewrite R3; cbn; repeat split; try lia; intros X; destruct (C' X)|].
    destruct (is_cont (N_of_byte c1)) eqn:K; intros [= <- <-]; [|rewrite R3; repeat split; try lia; destruct (C' H)].
    split; [|split; [cbn; lia|intros X; destruct (C' X)]]. rewrite rune_len. cbv zeta. unfold is_cont in K.
    set (v := (b0 - 192) * 64 + (N_of_byte c1 - 128)) in *. assert (0x80 <= v < 0x800) by (unfold v; lia).
    replace (valid_rune v) with true by (unfold valid_rune; lia). replace (v <? 0x80) with false by lia. replace (v <? 0x800) with true by lia. cbn [String.length]. lia. }
  destruct (b0 <? 0xF0) eqn:H3.
  { destruct s as [|c1 s1]; [intros [= <- <-]; rewrite R3; cbn; repeat split; try lia; intros X; destruct (C' X)|].
    set (lo := if b0 =? 0xE0 then 0xA0 else 0x80). set (hi := if b0 =? 0xED then 0x9F else 0xBF).
    destruct ((lo <=? N_of_byte c1) && (N_of_byte c1 <=? hi)) eqn:K1; [|intros [= <- <-]; rewrite R3; repeat split; try lia; destruct (C' H)].
    destruct s1 as [|c2 s2]; [intros [= <- <-]; rewrite R3; cbn; repeat split; try lia; intros X; destruct (C' X)|].
    destruct (is_cont (N_of_byte c2)) eqn:K2; intros [= <- <-]; [|rewrite R3; cbn [String.length]; repeat split; try lia; destruct (C' H)].
    split; [|split; [cbn; lia|intros X; destruct (C' X)]]. rewrite rune_len. cbv zeta. unfold is_cont in K2.
    set (v := (b0 - 224) * 4096 + (N_of_byte c1 - 128) * 64 + (N_of_byte c2 - 128)) in *.
    assert (0x800 <= v < 0x10000 /\ valid_rune v = true) as [V1 V2].
    { unfold v, lo, hi, valid_rune in *. destruct (b0 =? 0xE0) eqn:E1; destruct (b0 =? 0xED) eqn:E2; lia. }
    rewrite V2. replace (v <? 0x80) with false by lia. replace (v <? 0x800) with false by lia. replace (v <? 0x10000) with true by lia. cbn [String.length]. lia. }
  destruct (b0 <? 0xF5) eqn:H4; [|intros [= <- <-]; rewrite R3; repeat split; try lia; destruct (C' H)].
  destruct s as [|c1 s1]; [intros [= <- <-]; rewrite R3; cbn; repeat split; try lia; intros X; destruct (C' X)|].
  set (lo := if b0 =? 0xF0 then 0x90 else 0x80). set (hi := if b0 =? 0xF4 then 0x8F else 0xBF).
  destruct ((lo <=? N_of_byte c1) && (N_of_byte c1 <=? hi)) eqn:K1; [|intros [= <- <-]; rewrite R3; repeat split; try lia; destruct (C' H)].
  destruct s1 as [|c2 s2]; [intros [= <- <-]; rewrite R3; cbn; repeat split; try lia; intros X; destruct (C' X)|].
  destruct (is_cont (N_of_byte c2)) eqn:K2; [|intros [= <- <-]; rewrite R3; cbn [String.length]; repeat split; try lia; destruct (C' H)].
  destruct s2 as [|c3 s3]; [intros [= <- <-]; rewrite R3; cbn; repeat split; try lia; intros X; destruct (C' X)|].
  destruct (is_cont (N_of_byte c3)) eqn:K3; intros [= <- <-]; [|rewrite R3; cbn [String.length]; repeat split; try lia; destruct (C' H)].
  split; [|split; [cbn; lia|intros X; destruct (C' X)]]. rewrite rune_len. cbv zeta. unfold is_cont in K2, K3.
  set (v := (b0 - 240) * 262144 + (N_of_byte c1 - 128) * 4096 + (N_of_byte c2 - 128) * 64 + (N_of_byte c3 - 128)) in *.
  assert (0x10000 <= v /\ valid_rune v = true) as [V1 V2].
  { unfold v, lo, hi, valid_rune in *. destruct (b0 =? 0xF0) eqn:E1; destruct (b0 =? 0xF4) eqn:E2; lia. }
  rewrite V2. replace (v <? 0x80) with false by lia. replace (v <? 0x800) with false by lia. replace (v <? 0x10000) with false by lia. cbn [String.length]. lia.
Qed.

Lemma chunk_fuel_longer n s : (String.length s <= n)%nat -> (String.length s <= String.length (chunkFuel n s))%nat.
Proof.
  revert s. induction n as [|n IH]; intros [|c s] H; cbn [chunkFuel String.length] in *; try lia.
  destruct (chunkRune c s) as [x s'] eqn:E. destruct (chunk_rune_longer _ _ _ _ E) as (L & M & _). rewrite slength_app. specialize (IH s' ltac:(lia)). lia.
Qed.
Lemma chunk_longer s : (String.length s <= String.length (chunkText s))%nat.
Proof. apply chunk_fuel_longer. lia. Qed.
Lemma chunk_strictly_longer c s : is_cont (N_of_byte c) = true -> (String.length (String c s) < String.length (chunkText (String c s)))%nat.
Proof.
  intros C. unfold chunkText. cbn [String.length chunkFuel]. destruct (chunkRune c s) as [x s'] eqn:E. destruct (chunk_rune_longer _ _ _ _ E) as (_ & _ & L).
  destruct (L C) as [-> R]. rewrite slength_app, R. pose proof (chunk_fuel_longer (String.length s) s ltac:(lia)). lia.
Qed.

(** the bytes of a character after the first *)
Lemma rune_tail r : exists c t, encode_rune r = String c t /\ forall c', In c' (list_ascii_of_string t) -> is_cont (N_of_byte c') = true.
Proof.
  unfold encode_rune, encode_valid. set (x := if valid_rune r then r else replacement). assert (x <= 0x10FFFF) by (unfold x, valid_rune, replacement; destruct (_ || _) eqn:E; lia).
  destruct (x <? 0x80); [eexists _, _; split; [reflexivity|intros ? []]|].
  destruct (x <? 0x800); [|destruct (x <? 0x10000)];
    (eexists _, _; split; [reflexivity|]; cbn [list_ascii_of_string In]; intros c' X;
     repeat (destruct X as [<-|X]; [rewrite N_of_byte_of_N by lia; unfold is_cont; lia|]); contradiction).
Qed.

Lemma list_ascii_app a b : list_ascii_of_string (a ++ b) = (list_ascii_of_string a ++ list_ascii_of_string b)%list.
Proof. induction a as [|c a IH]; [reflexivity|]. cbn. now rewrite IH. Qed.

Lemma prefix_split (a b p q : string) : (a ++ b = p ++ q)%string -> (String.length p <= String.length a)%nat ->
  exists m, a = (p ++ m)%string /\ q = (m ++ b)%string.
Proof.
  revert a. induction p as [|c p IH]; intros a E L; [exists a; now split|]. destruct a as [|c' a]; [cbn in L; lia|]. cbn in E. injection E as -> E.
  destruct (IH a E ltac:(cbn in L; lia)) as (m & -> & ->). exists m. now split.
Qed.

(** where a text can be cut *)
Lemma cut_valid rs : forallb valid_rune rs = true -> forall a b, encode rs = (a ++ b)%string ->
  match b with String c _ => is_cont (N_of_byte c) = false | EmptyString => True end -> Utf8Text a /\ Utf8Text b.
Proof.
  induction rs as [|r rs IH]; intros HV a b E Hb.
  - cbn in E. destruct a; [|discriminate]. cbn in E. subst b. split; exists []; split; reflexivity.
  - pose proof HV as HV0. cbn [forallb] in HV. apply andb_true_iff in HV as [Hr HV]. cbn [encode] in E.
    destruct (le_lt_dec (String.length (encode_rune r)) (String.length a)) as [L|L].
    + symmetry in E. destruct (prefix_split _ _ _ _ E L) as (m & -> & E2). destruct (IH HV m b E2 Hb) as [(ms & V & ->) B]. split; [|exact B].
      exists (r :: ms). split; [cbn; now rewrite Hr|reflexivity].
    + destruct a as [|c a]; [cbn in E; split; [exists []; now split|exists (r :: rs); split; [exact HV0|now symmetry]]|]. exfalso.
      destruct (prefix_split _ _ _ _ E ltac:(lia)) as (m & E1 & ->). destruct (rune_tail r) as (c0 & t & E0 & T). rewrite E0 in E1, L. cbn in E1. injection E1 as <- ->.
      destruct m as [|c1 m]; [rewrite sapp_nil_r in L; cbn in L; lia|]. cbn [append] in Hb. rewrite T in Hb; [discriminate|].
      rewrite list_ascii_app. apply in_or_app. right. left. reflexivity.
Qed.

Lemma read_whole cs : forall data es, Forall Utf8Text cs -> readBody data (map Chunk cs ++ End :: es) = Some (inl (data ++ String.concat EmptyString cs)%string).
Proof.
  induction cs as [|c cs IH]; intros data es H; [cbn; now rewrite sapp_nil_r|]. inversion H; subst. cbn [map app readBody]. rewrite IH by assumption. rewrite chunk_whole by assumption.
  rewrite sapp_assoc. do 3 f_equal. destruct cs; [cbn; now rewrite sapp_nil_r|reflexivity].
Qed.
Lemma concat_cons c cs : String.concat EmptyString (c :: cs) = (c ++ String.concat EmptyString cs)%string.
Proof. destruct cs; [cbn; now rewrite sapp_nil_r|reflexivity]. Qed.
Lemma read_text cs : forall data es, readBody data (map Chunk cs ++ End :: es) = Some (inl (data ++ String.concat EmptyString (map chunkText cs))%string).
Proof.
  induction cs as [|c cs IH]; intros data es; [cbn; now rewrite sapp_nil_r|]. cbn [map app readBody]. rewrite IH. rewrite sapp_assoc. f_equal. f_equal. f_equal. now rewrite concat_cons.
Qed.
Lemma texts_longer cs : (String.length (String.concat EmptyString cs) <= String.length (String.concat EmptyString (map chunkText cs)))%nat.
Proof. induction cs as [|c cs IH]; [cbn; lia|]. cbn [map]. rewrite !concat_cons, !slength_app. pose proof (chunk_longer c). lia. Qed.
(** the next bytes begin in the middle of a character *)
Lemma texts_strict cs c r : String.concat EmptyString cs = String c r -> is_cont (N_of_byte c) = true ->
  (String.length (String.concat EmptyString cs) < String.length (String.concat EmptyString (map chunkText cs)))%nat.
Proof.
  induction cs as [|x cs IH]; [discriminate|]. cbn [map]. rewrite !concat_cons, !slength_app. intros E C. destruct x as [|c' x].
  - specialize (IH E C). cbn [String.length chunkText chunkFuel]. lia.
  - cbn in E. injection E as -> E. pose proof (chunk_strictly_longer c x C). pose proof (texts_longer cs). lia.
Qed.

Lemma read_iff cs es : Utf8Text (String.concat EmptyString cs) ->
  (readBody EmptyString (map Chunk cs ++ End :: es) = Some (inl (String.concat EmptyString cs)) <-> Forall Utf8Text cs).
Proof.
  intros V. split; [|intros H; rewrite read_whole by exact H; reflexivity]. rewrite read_text. intros E. injection E as E. cbn [append] in E.
  revert V E. induction cs as [|c cs IH]; [constructor|]. intros (rs & HV & EV) E. rewrite concat_cons in EV. cbn [map] in E. rewrite !concat_cons in E.
  symmetry in EV. destruct (String.concat EmptyString cs) as [|c1 r1] eqn:R.
  - pose proof (cut_valid rs HV c EmptyString EV I) as [A B]. constructor; [exact A|]. apply IH; [exact B|].
    rewrite chunk_whole in E by exact A. now apply sapp_inv_head in E.
  - destruct (is_cont (N_of_byte c1)) eqn:K.
    + exfalso. assert (L : String.length (chunkText c ++ String.concat EmptyString (map chunkText cs)) = String.length (c ++ String c1 r1)) by now rewrite E.
      rewrite !slength_app in L. pose proof (chunk_longer c). pose proof (texts_strict cs c1 r1 R K) as S. rewrite R in S. lia.
    + pose proof (cut_valid rs HV c (String c1 r1) EV K) as [A B]. constructor; [exact A|]. apply IH; [exact B|]. rewrite chunk_whole in E by exact A. now apply sapp_inv_head in E.
Qed.
