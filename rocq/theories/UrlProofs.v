(** Proofs about URLs: escaping, parsing, joining. *)
From Verif Require Import Base BaseProofs CliProofs Uri Ridl Schema Url PathSpec PathProofs UrlSpec.

Ltac Zify.zify_post_hook ::= Z.div_mod_to_equations.

(** ** Bytes *)

Lemma all_bytes (f : ascii -> bool) : forallb f (map ascii_of_nat (seq 0 256)) = true -> forall c, f c = true.
Proof.
  intros H c. rewrite forallb_forall in H. apply H. rewrite <- (ascii_nat_embedding c). apply in_map, in_seq.
  pose proof (nat_ascii_bounded c). lia.
Qed.

Lemma pct_unescape c r : unescape (pct c ++ r) = option_map (String c) (unescape r).
Proof.
  assert (H : forall c, is_hex (hexDigit (N_of_byte c / 16)) && is_hex (hexDigit (N_of_byte c mod 16)) &&
     Ascii.eqb (byte_of_N (16 * hexVal (hexDigit (N_of_byte c / 16)) + hexVal (hexDigit (N_of_byte c mod 16)))) c = true).
  { apply all_bytes. vm_compute. reflexivity. }
  specialize (H c). apply andb_true_iff in H as [H1 H2]. apply Ascii.eqb_eq in H2.
  unfold pct. cbn [append unescape]. change (Ascii.eqb "%" "%") with true. cbn iota. rewrite H1, H2. reflexivity.
Qed.

Lemma pct_chars c : sforall (fun x => is_hex x || Ascii.eqb x "%") (pct c) = true.
Proof. revert c. apply all_bytes. vm_compute. reflexivity. Qed.

Lemma sforall_impl (p q : ascii -> bool) s : (forall c, p c = true -> q c = true) -> sforall p s = true -> sforall q s = true.
Proof. intros H. induction s as [|c s IH]; [reflexivity|]. cbn. rewrite !andb_true_iff. intros [A B]. auto. Qed.

Lemma sforall_not_contains (p : ascii -> bool) c s : sforall p s = true -> p c = false -> contains_byte c s = false.
Proof.
  intros H N. induction s as [|x s IH]; [reflexivity|]. cbn in H. apply andb_true_iff in H as [H1 H2].
  unfold contains_byte in *. cbn [sexists]. rewrite (IH H2), orb_false_r.
  destruct (Ascii.eqb_spec x c) as [->|X]; [congruence|]. try (apply Ascii.eqb_neq; congruence). reflexivity.
Qed.

(** ** Escaping *)

Lemma escape_app p a b : escapeWith p (a ++ b) = (escapeWith p a ++ escapeWith p b)%string.
Proof. induction a as [|c a IH]; [reflexivity|]. cbn [escapeWith append]. rewrite IH. destruct (p c); [reflexivity|]. rewrite sapp_assoc. reflexivity. Qed.

Lemma unescape_escape p s : p "%"%char = false -> unescape (escapeWith p s) = Some s.
Proof.
  intros P. induction s as [|c s IH]; [reflexivity|]. cbn [escapeWith]. destruct (p c) eqn:E.
  - cbn [unescape]. destruct (Ascii.eqb_spec c "%") as [->|_]; [congruence|]. rewrite IH. reflexivity.
  - rewrite pct_unescape, IH. reflexivity.
Qed.

Lemma unescape_plain s : contains_byte "%" s = false -> unescape s = Some s.
Proof.
  induction s as [|c s IH]; [reflexivity|]. unfold contains_byte. cbn [sexists]. intros H. apply orb_false_iff in H as [H1 H2].
  cbn [unescape]. rewrite IH by exact H2. destruct (Ascii.eqb_spec c "%") as [->|_]; [discriminate|]. reflexivity.
Qed.

Lemma unescape_app a b d : unescape a = Some d -> unescape (a ++ b) = option_map (fun r => d ++ r)%string (unescape b).
Proof.
  remember (String.length a) as n eqn:N. assert (L : String.length a <= n) by lia. clear N. revert a L d.
  induction n as [|n IH]; intros a L d H.
  - destruct a; [|cbn in L; lia]. cbn in H. injection H as <-. cbn. destruct (unescape b); reflexivity.
  - destruct a as [|c a]; [injection H as <-; cbn; destruct (unescape b); reflexivity|]. cbn in L. cbn [unescape append] in *.
    destruct (Ascii.eqb c "%").
    + destruct a as [|x [|y a]]; try discriminate. cbn [append]. destruct (is_hex x && is_hex y); [|discriminate].
      destruct (unescape a) as [d'|] eqn:E; [|discriminate]. injection H as <-. cbn in L. rewrite (IH a) with (d := d'); [|lia|exact E].
      destruct (unescape b); reflexivity.
    + destruct (unescape a) as [d'|] eqn:E; [|discriminate]. injection H as <-. rewrite (IH a) with (d := d'); [|lia|exact E].
      destruct (unescape b); reflexivity.
Qed.

Lemma unescape_app_inv a b : pctOk a = true -> pctOk b = true -> pctOk (a ++ b) = true.
Proof.
  remember (String.length a) as n eqn:N. assert (L : String.length a <= n) by lia. clear N. revert a L.
  induction n as [|n IH]; intros a L Ha Hb.
  - destruct a; [exact Hb|cbn in L; lia].
  - destruct a as [|c a]; [exact Hb|]. cbn in L. cbn [pctOk append] in *. destruct (Ascii.eqb c "%").
    + destruct a as [|x [|y a]]; try discriminate. cbn [append]. cbn in L. apply andb_true_iff in Ha as [H1 H2]. rewrite H1. apply IH; [lia|exact H2|exact Hb].
    + apply IH; [lia|exact Ha|exact Hb].
Qed.

Lemma pctOk_unescape s : pctOk s = true <-> exists d, unescape s = Some d.
Proof.
  remember (String.length s) as n eqn:N. assert (L : String.length s <= n) by lia. clear N. revert s L.
  induction n as [|n IH]; intros s L.
  - destruct s; [|cbn in L; lia]. split; [exists ""|]; reflexivity.
  - destruct s as [|c s]; [split; [exists ""|]; reflexivity|]. cbn in L. cbn [pctOk unescape]. destruct (Ascii.eqb c "%").
    + destruct s as [|x [|y s]]; try (split; [discriminate|intros [? ?]; discriminate]). cbn in L.
      rewrite andb_true_iff, (IH s) by lia. destruct (is_hex x && is_hex y); [|split; [intros [? _]|intros [? ?]]; discriminate].
      split; [intros [_ [d ->]]; eexists; reflexivity|]. intros [d H]. split; [reflexivity|]. destruct (unescape s); [eauto|discriminate].
    + rewrite (IH s) by lia. split; [intros [d ->]; eexists; reflexivity|]. intros [d H]. destruct (unescape s); [eauto|discriminate].
Qed.

(** decoding shortens unless there is nothing to decode *)
Lemma unescape_length s d : unescape s = Some d -> String.length d <= String.length s /\
  (String.length d = String.length s -> contains_byte "%" s = false /\ d = s).
Proof.
  remember (String.length s) as n eqn:N. assert (L : String.length s <= n) by lia. rewrite N. clear N. revert s L d.
  induction n as [|n IH]; intros s L d H.
  - destruct s; [|cbn in L; lia]. injection H as <-. split; [reflexivity|]. intros _. split; reflexivity.
  - destruct s as [|c s]; [injection H as <-; split; [reflexivity|]; intros _; split; reflexivity|]. cbn in L. cbn [unescape] in H.
    destruct (Ascii.eqb_spec c "%") as [->|NE].
    + destruct s as [|x [|y s]]; try discriminate. destruct (is_hex x && is_hex y); [|discriminate].
      destruct (unescape s) as [d'|] eqn:E; [|discriminate]. injection H as <-. cbn in L. destruct (IH s ltac:(lia) d' E) as [H _].
      cbn. split; lia.
    + destruct (unescape s) as [d'|] eqn:E; [|discriminate]. injection H as <-. destruct (IH s ltac:(lia) d' E) as [H1 H2].
      cbn [String.length]. split; [lia|]. intros EQ. destruct (H2 ltac:(lia)) as [H3 ->]. split; [|reflexivity].
      unfold contains_byte in *. cbn [sexists]. rewrite H3, orb_false_r. try (apply Ascii.eqb_neq; congruence).
Qed.

(** ** Parsing *)

Definition targetByte (c : ascii) : bool := plainInPath c || contains_byte c "!'()*[]%".
Lemma valid_def s : validEncoded s = sforall targetByte s. Proof. reflexivity. Qed.

Lemma target_not_ctl s : sforall targetByte s = true -> sexists is_ctl s = false.
Proof.
  assert (T : forall c, negb (targetByte c) || negb (is_ctl c) = true) by (apply all_bytes; vm_compute; reflexivity).
  intros H. induction s as [|c s IH]; [reflexivity|]. cbn [sforall sexists] in *. apply andb_true_iff in H as [A B]. rewrite (IH B), orb_false_r.
  specialize (T c). rewrite A in T. apply negb_true_iff in T. exact T.
Qed.

Lemma index_none c s : contains_byte c s = false -> cutByte c s = (s, None).
Proof. intros H. unfold cutByte. rewrite (proj1 (index_byte_none c s) H). reflexivity. Qed.

Lemma index_some c a b : contains_byte c a = false -> cutByte c (a ++ String c b) = (a, Some b).
Proof.
  intros H. unfold cutByte.
  assert (I : index_byte c (a ++ String c b) = Some (String.length a)).
  { clear - H. induction a as [|x a IH]; cbn [append index_byte].
    - rewrite Ascii.eqb_refl. reflexivity.
    - unfold contains_byte in H. cbn [sexists] in H. apply orb_false_iff in H as [H1 H2]. rewrite H1, (IH H2). reflexivity. }
  rewrite I, take_app. f_equal. f_equal.
  change (a ++ String c b)%string with (a ++ (String c "" ++ b))%string. rewrite <- sapp_assoc.
  assert (L : S (String.length a) = String.length (a ++ String c "")) by (rewrite slength_app; cbn; lia). rewrite L. apply drop_app.
Qed.

Lemma scheme_letters s : HttpScheme s -> sforall is_alpha_byte s = true /\ s <> "" /\ to_lower s <> "".
Proof.
  intros H. assert (S : sforall is_alpha_byte s = sforall is_alpha_byte (to_lower s)).
  { unfold to_lower. clear H. induction s as [|c s IH]; [reflexivity|]. cbn. rewrite IH. f_equal.
    assert (T : forall c, Bool.eqb (is_alpha_byte c) (is_alpha_byte (lower_byte c)) = true) by (apply all_bytes; vm_compute; reflexivity).
    apply Bool.eqb_prop, T. }
  rewrite S. destruct H as [H|H]; rewrite H; (split; [reflexivity|]); (split; [intros ->; discriminate|discriminate]).
Qed.

Lemma scheme_go s : sforall is_alpha_byte s = true -> forall first acc r, (first = false \/ s <> "") ->
  schemeGo first acc (s ++ String ":" r) = Some (Some ((acc ++ s)%string, r)).
Proof.
  induction s as [|c s IH]; intros H first acc r D.
  - destruct D as [->|D]; [|congruence]. cbn. rewrite sapp_nil_r. reflexivity.
  - cbn [sforall] in H. apply andb_true_iff in H as [H1 H2]. cbn [append schemeGo]. rewrite H1.
    rewrite IH; [|exact H2|left; reflexivity]. rewrite sapp_assoc. reflexivity.
Qed.

Lemma getScheme_http s r : HttpScheme s -> getScheme (s ++ String ":" r) = Some (s, r).
Proof. intros H. destruct (scheme_letters s H) as (A & B & _). unfold getScheme. rewrite scheme_go; [reflexivity|exact A|right; exact B]. Qed.

Lemma getScheme_slash r : getScheme (String "/" r) = Some ("", String "/" r).
Proof. reflexivity. Qed.

Definition nameByte (c : ascii) : bool := is_alpha_byte c || is_digit_byte c || Ascii.eqb c "-" || Ascii.eqb c ".".

Lemma host_ok h : HostPort h -> parseHost h = Some h /\ sforall targetByte h = true /\ contains_byte "/" h = false /\ h <> "".
Proof.
  intros H.
  assert (N : forall x, sforall nameByte x = true -> sforall hostByteOk x = true /\ sforall targetByte x = true /\
            contains_byte "/" x = false /\ contains_byte ":" x = false).
  { intros x X. split; [|split; [|split]].
    - revert X. apply sforall_impl. assert (T : forall c, negb (nameByte c) || hostByteOk c = true) by (apply all_bytes; vm_compute; reflexivity).
      intros c C. specialize (T c). rewrite C in T. exact T.
    - revert X. apply sforall_impl. assert (T : forall c, negb (nameByte c) || targetByte c = true) by (apply all_bytes; vm_compute; reflexivity).
      intros c C. specialize (T c). rewrite C in T. exact T.
    - apply (sforall_not_contains _ _ _ X). reflexivity.
    - apply (sforall_not_contains _ _ _ X). reflexivity. }
  destruct H as [h [NE H]|h port [NE H] P].
  - destruct (N h H) as (A & B & C & D). unfold parseHost, portOk. rewrite A, split_byte_none by exact D. repeat split; assumption.
  - assert (P' : sforall nameByte port = true).
    { revert P. apply sforall_impl. intros c E. unfold nameByte. rewrite E, orb_true_r. reflexivity. }
    destruct (N h H) as (A & B & C & D). destruct (N port P') as (A' & B' & C' & D').
    unfold parseHost, portOk. change (h ++ ":" ++ port)%string with (h ++ String ":" port)%string.
    rewrite split_byte_app, split_byte_none by assumption. cbn [rev app]. rewrite P, andb_true_r, !sforall_app. cbn [sforall].
    rewrite A, A', B, B'. split; [reflexivity|]. split; [reflexivity|]. split.
    + rewrite contains_byte_app, C. unfold contains_byte in *. cbn [sexists]. rewrite C'. reflexivity.
    + destruct h; discriminate.
Qed.

Lemma suffix_last a b z c : (a ++ b)%string = (z ++ String c "")%string -> b <> "" -> exists z', b = (z' ++ String c "")%string.
Proof.
  revert z. induction a as [|x a IH]; intros z H B; [exists z; exact H|]. destruct z as [|y z]; cbn [append] in H.
  - injection H as _ H. destruct a; [destruct b; [congruence|discriminate]|discriminate].
  - injection H as _ H. apply (IH z H B).
Qed.

(** the parse of an http address *)
Lemma parse_http s h r q : HttpScheme s -> HostPort h -> (r = "" \/ exists r', r = String "/" r') ->
  sexists is_ctl r = false -> contains_byte "?" r = false -> (q = "" \/ exists q', q = String "?" q' /\ q' <> "" /\ sexists is_ctl q' = false) ->
  parse false (s ++ "://" ++ h ++ r ++ q) = setPath (Url (to_lower s) "" h "" "" false false (drop 1 q) "") r.
Proof.
  intros HS HH HR CR QR HQ. destruct (scheme_letters s HS) as (S1 & S2 & S3). destruct (host_ok h HH) as (H1 & H2 & H3 & H4).
  assert (ST : sforall targetByte s = true).
  { revert S1. apply sforall_impl. intros c E. unfold targetByte, plainInPath, unreserved. rewrite E. reflexivity. }
  unfold parse.
  assert (C : sexists is_ctl (s ++ "://" ++ h ++ r ++ q) = false).
  { rewrite !sexists_app, (target_not_ctl _ ST), (target_not_ctl _ H2), CR. cbn.
    destruct HQ as [->|(q' & -> & _ & Q)]; [reflexivity|]. cbn. exact Q. }
  rewrite C.
  assert (NE : forall x, (s ++ x)%string <> "") by (intros x E; destruct s; [congruence|discriminate]).
  destruct (String.eqb_spec (s ++ "://" ++ h ++ r ++ q) "") as [E|_]; [destruct (NE _ E)|]. cbn [andb].
  destruct (String.eqb_spec (s ++ "://" ++ h ++ r ++ q) "*") as [E|_].
  { destruct s as [|c s]; [congruence|]. cbn [append] in E. injection E as E1 E2. subst c. cbn in S1. discriminate. }
  change (s ++ "://" ++ h ++ r ++ q)%string with (s ++ String ":" ("//" ++ h ++ r ++ q))%string. rewrite getScheme_http by exact HS.
  assert (QH : contains_byte "?" ("//" ++ h ++ r) = false).
  { rewrite !contains_byte_app, QR. cbn. rewrite orb_false_r. apply (sforall_not_contains _ _ _ H2). reflexivity. }
  assert (PR : forall f qq, parseRest false (to_lower s) ("//" ++ h ++ r) f qq = setPath (Url (to_lower s) "" h "" "" false f qq "") r).
  { intros f qq. unfold parseRest. destruct (String.eqb_spec (to_lower s) "") as [E|_]; [congruence|].
    cbn [negb orb andb append]. cbn [has_prefix Ascii.eqb Bool.eqb negb andb orb drop].
    assert (CB : cutByte "/" (h ++ r) = (h, match r with "" => None | String _ r' => Some r' end)).
    { destruct HR as [->|(r' & ->)]; [rewrite sapp_nil_r; apply index_none, H3|apply index_some, H3]. }
    rewrite CB. cbn [fst snd]. rewrite H1. f_equal. destruct HR as [->|(r' & ->)]; reflexivity. }
  destruct HQ as [->|(q' & -> & Q1 & Q2)].
  - rewrite sapp_nil_r. assert (CN : count_byte "?" ("//" ++ h ++ r) = 0) by (unfold count_byte; rewrite split_byte_none by exact QH; reflexivity).
    rewrite CN, andb_false_r, index_none by exact QH. apply PR.
  - assert (E : ("//" ++ h ++ r ++ String "?" q')%string = (("//" ++ h ++ r) ++ String "?" q')%string) by (rewrite !sapp_assoc; reflexivity).
    rewrite E, index_some by exact QH. cbn [fst snd].
    assert (F : has_suffix "?" (("//" ++ h ++ r) ++ String "?" q') && (count_byte "?" (("//" ++ h ++ r) ++ String "?" q') =? 1) = false).
    { destruct (has_suffix "?" _) eqn:SF; [|reflexivity]. cbn [andb]. apply Nat.eqb_neq. unfold count_byte. rewrite split_byte_app by exact QH.
      apply has_suffix_iff in SF as (z & Z). destruct (contains_byte "?" q') eqn:CQ.
      - intros X. cbn [length] in X. assert (length (split_byte "?" q') = 1) as L by lia.
        pose proof (join_split "?" q') as J. pose proof (split_byte_no "?" q') as K.
        destruct (split_byte "?" q') as [|x [|? ?]]; try discriminate. cbn in J. subst x. rewrite K in CQ by (left; reflexivity). discriminate.
      - exfalso. change (("//" ++ h ++ r) ++ String "?" q')%string with (("//" ++ h ++ r) ++ ("?" ++ q'))%string in Z. rewrite <- sapp_assoc in Z.
        destruct (suffix_last _ _ _ _ Z Q1) as (z' & ->). rewrite contains_byte_app in CQ. apply orb_false_iff in CQ as [_ CQ]. discriminate. }
    rewrite F. apply PR.
Qed.
