From Verif Require Import Base BaseProofs Utf8 Utf8Proofs Json JsonProofs GoVal GoValSpec GoValProofs Rpc Ts TsSpec.

(** ** The decoder *)

Lemma decodeBytes_app a : forall d b, decodeBytes d (a ++ b) =
  (fst (decodeBytes (fst (decodeBytes d a)) b), snd (decodeBytes d a) ++ snd (decodeBytes (fst (decodeBytes d a)) b)).
Proof.
  induction a as [|c a IH]; intros d b; cbn [append decodeBytes].
  - cbn [fst snd app]. destruct (decodeBytes d b); reflexivity.
  - destruct (decodeByte d (N_of_byte c)) as [d1 o1]. rewrite IH. destruct (decodeBytes d1 a) as [d2 o2]. cbn [fst snd].
    destruct (decodeBytes d2 b). cbn [fst snd]. rewrite app_assoc. reflexivity.
Qed.

Lemma dropBOM_app seen a b : dropBOM seen (a ++ b) =
  (fst (dropBOM (fst (dropBOM seen a)) b), snd (dropBOM seen a) ++ snd (dropBOM (fst (dropBOM seen a)) b)).
Proof.
  destruct seen; cbn [dropBOM fst snd]; [reflexivity|]. destruct a as [|x a]; cbn [app dropBOM fst snd].
  - destruct b; reflexivity.
  - destruct (x =? 65279)%N; reflexivity.
Qed.

Lemma decodeChunk_app d a b : decodeChunk d (a ++ b) =
  (fst (decodeChunk (fst (decodeChunk d a)) b), snd (decodeChunk d a) ++ snd (decodeChunk (fst (decodeChunk d a)) b)).
Proof.
  unfold decodeChunk. rewrite decodeBytes_app. destruct (decodeBytes (de_state d) a) as [s o]. cbn [fst snd].
  destruct (dropBOM (de_bom d) o) as [bs bo] eqn:E. cbn [fst snd de_state de_bom].
  destruct (decodeBytes s b) as [s2 o2]. cbn [fst snd]. rewrite dropBOM_app, E. cbn [fst snd].
  destruct (dropBOM bs o2); reflexivity.
Qed.

Lemma decodeChunk_nil d : decodeChunk d EmptyString = (d, []).
Proof. destruct d as [s []]; reflexivity. Qed.

(** *** it reads UTF-8 *)

Lemma decode_rune_bytes r : valid_rune r = true -> decodeBytes dstart (encode_rune r) = (dstart, [r]).
Proof.
  intros V. unfold encode_rune. rewrite V. unfold encode_valid.
  assert (R : (r <= 0x10FFFF)%N /\ (r < 0xD800 \/ 0xE000 <= r)%N).
  { unfold valid_rune in V. rewrite orb_true_iff, andb_true_iff, N.ltb_lt, !N.leb_le in V. lia. }
  destruct (r <? 0x80)%N eqn:A.
  { apply N.ltb_lt in A. cbn [decodeBytes]. rewrite N_of_byte_of_N by lia. unfold decodeByte, leadByte. cbn [ds_need dstart].
    replace (r <? 0x80)%N with true by (symmetry; apply N.ltb_lt; lia). reflexivity. }
  apply N.ltb_ge in A. destruct (r <? 0x800)%N eqn:B.
  { apply N.ltb_lt in B. assert (r / 64 < 32 /\ 2 <= r / 64)%N as [Q1 Q2].
    { split; [apply N.div_lt_upper_bound; lia|apply N.div_le_lower_bound; lia]. }
    pose proof (N.mod_lt r 64 ltac:(lia)) as M. pose proof (N.div_mod r 64 ltac:(lia)) as DM.
    cbn [decodeBytes]. rewrite !N_of_byte_of_N by lia. unfold decodeByte at 1, leadByte. cbn [ds_need dstart].
    replace (0xC0 + r / 64 <? 0x80)%N with false by (symmetry; apply N.ltb_ge; lia).
    replace ((0xC2 <=? 0xC0 + r / 64) && (0xC0 + r / 64 <=? 0xDF))%N with true
      by (symmetry; apply andb_true_iff; rewrite !N.leb_le; lia).
    unfold decodeByte. cbn [ds_need ds_lo ds_hi ds_cp].
    replace ((0x80 <=? 0x80 + r mod 64) && (0x80 + r mod 64 <=? 0xBF))%N with true
      by (symmetry; apply andb_true_iff; rewrite !N.leb_le; lia).
    cbn [app]. f_equal. f_equal. lia. }
  apply N.ltb_ge in B. destruct (r <? 0x10000)%N eqn:C.
  { apply N.ltb_lt in C.
    assert (Q : (r / 4096 < 16)%N) by (apply N.div_lt_upper_bound; lia).
    pose proof (N.mod_lt r 64 ltac:(lia)) as M. pose proof (N.mod_lt (r / 64) 64 ltac:(lia)) as M2.
    pose proof (N.div_mod r 64 ltac:(lia)) as DM. pose proof (N.div_mod (r / 64) 64 ltac:(lia)) as DM2.
    rewrite N.div_div in DM2 by lia. change (64 * 64)%N with 4096%N in DM2.
    cbn [decodeBytes]. rewrite !N_of_byte_of_N by lia. unfold decodeByte at 1, leadByte. cbn [ds_need dstart].
    replace (0xE0 + r / 4096 <? 0x80)%N with false by (symmetry; apply N.ltb_ge; lia).
    replace ((0xC2 <=? 0xE0 + r / 4096) && (0xE0 + r / 4096 <=? 0xDF))%N with false
      by (symmetry; apply andb_false_iff; rewrite !N.leb_gt; lia).
    replace ((0xE0 <=? 0xE0 + r / 4096) && (0xE0 + r / 4096 <=? 0xEF))%N with true
      by (symmetry; apply andb_true_iff; rewrite !N.leb_le; lia).
    unfold decodeByte at 1. cbn [ds_need ds_lo ds_hi ds_cp].
    assert (((if 0xE0 + r / 4096 =? 0xE0 then 0xA0 else 0x80) <=? 0x80 + r / 64 mod 64) = true)%N as ->.
    { apply N.leb_le. destruct (N.eqb_spec (0xE0 + r / 4096) 0xE0); lia. }
    assert ((0x80 + r / 64 mod 64 <=? (if 0xE0 + r / 4096 =? 0xED then 0x9F else 0xBF)) = true)%N as ->.
    { apply N.leb_le. destruct (N.eqb_spec (0xE0 + r / 4096) 0xED); lia. }
    cbn [andb]. unfold decodeByte. cbn [ds_need ds_lo ds_hi ds_cp].
    replace ((0x80 <=? 0x80 + r mod 64) && (0x80 + r mod 64 <=? 0xBF))%N with true
      by (symmetry; apply andb_true_iff; rewrite !N.leb_le; lia).
    cbn [app]. f_equal. f_equal. lia. }
  apply N.ltb_ge in C.
  assert (Q : (r / 262144 <= 4)%N).
  { pose proof (N.div_le_mono r 0x10FFFF 262144 ltac:(lia) ltac:(lia)) as Z. change (0x10FFFF / 262144)%N with 4%N in Z. exact Z. }
  pose proof (N.mod_lt r 64 ltac:(lia)) as M. pose proof (N.mod_lt (r / 64) 64 ltac:(lia)) as M2.
  pose proof (N.mod_lt (r / 4096) 64 ltac:(lia)) as M3.
  pose proof (N.div_mod r 64 ltac:(lia)) as DM. pose proof (N.div_mod (r / 64) 64 ltac:(lia)) as DM2.
  pose proof (N.div_mod (r / 4096) 64 ltac:(lia)) as DM3.
  rewrite N.div_div in DM2, DM3 by lia. change (64 * 64)%N with 4096%N in DM2. change (4096 * 64)%N with 262144%N in DM3.
  cbn [decodeBytes]. rewrite !N_of_byte_of_N by lia. unfold decodeByte at 1, leadByte. cbn [ds_need dstart].
  replace (0xF0 + r / 262144 <? 0x80)%N with false by (symmetry; apply N.ltb_ge; lia).
  replace ((0xC2 <=? 0xF0 + r / 262144) && (0xF0 + r / 262144 <=? 0xDF))%N with false
    by (symmetry; apply andb_false_iff; rewrite !N.leb_gt; lia).
  replace ((0xE0 <=? 0xF0 + r / 262144) && (0xF0 + r / 262144 <=? 0xEF))%N with false
    by (symmetry; apply andb_false_iff; rewrite !N.leb_gt; lia).
  replace ((0xF0 <=? 0xF0 + r / 262144) && (0xF0 + r / 262144 <=? 0xF4))%N with true
    by (symmetry; apply andb_true_iff; rewrite !N.leb_le; lia).
  unfold decodeByte at 1. cbn [ds_need ds_lo ds_hi ds_cp].
  assert (((if 0xF0 + r / 262144 =? 0xF0 then 0x90 else 0x80) <=? 0x80 + r / 4096 mod 64) = true)%N as ->.
  { apply N.leb_le. destruct (N.eqb_spec (0xF0 + r / 262144) 0xF0); lia. }
  assert ((0x80 + r / 4096 mod 64 <=? (if 0xF0 + r / 262144 =? 0xF4 then 0x8F else 0xBF)) = true)%N as ->.
  { apply N.leb_le. destruct (N.eqb_spec (0xF0 + r / 262144) 0xF4); lia. }
  cbn [andb]. unfold decodeByte at 1. cbn [ds_need ds_lo ds_hi ds_cp].
  replace ((0x80 <=? 0x80 + r / 64 mod 64) && (0x80 + r / 64 mod 64 <=? 0xBF))%N with true
    by (symmetry; apply andb_true_iff; rewrite !N.leb_le; lia).
  unfold decodeByte. cbn [ds_need ds_lo ds_hi ds_cp].
  replace ((0x80 <=? 0x80 + r mod 64) && (0x80 + r mod 64 <=? 0xBF))%N with true
    by (symmetry; apply andb_true_iff; rewrite !N.leb_le; lia).
  cbn [app]. f_equal. f_equal. lia.
Qed.

Theorem decode_utf8 rs : forallb valid_rune rs = true -> decodeBytes dstart (encode rs) = (dstart, rs).
Proof.
  induction rs as [|r rs IH]; intros V; [reflexivity|]. cbn [forallb] in V. apply andb_true_iff in V. destruct V as [V1 V2].
  cbn [encode]. rewrite decodeBytes_app, decode_rune_bytes by exact V1. cbn [fst snd]. rewrite IH by exact V2. reflexivity.
Qed.

(** *** a line feed is never part of another character *)

Definition dInv (d : dstate) : Prop :=
  match ds_need d with
  | O => True
  | S O => (2 <= ds_cp d)%N /\ (0x80 <= ds_lo d)%N
  | S (S _) => (1 <= ds_cp d \/ 0x90 <= ds_lo d)%N /\ (0x80 <= ds_lo d)%N /\ (ds_need d = 2 -> (1 <= ds_cp d \/ 0xA0 <= ds_lo d)%N)
  end.

Lemma lead_inv b : dInv (fst (leadByte b)) /\ (b <> 10%N -> ~ In 10%N (snd (leadByte b))).
Proof.
  unfold leadByte.
  destruct (b <? 0x80)%N eqn:A; [split; [exact I|cbn; intuition]|]. apply N.ltb_ge in A.
  destruct ((0xC2 <=? b) && (b <=? 0xDF))%N eqn:B.
  { apply andb_true_iff in B. rewrite !N.leb_le in B. split; [|cbn; tauto]. unfold dInv. cbn. lia. }
  destruct ((0xE0 <=? b) && (b <=? 0xEF))%N eqn:C.
  { apply andb_true_iff in C. rewrite !N.leb_le in C. split; [|cbn; tauto]. unfold dInv. cbn [fst ds_need ds_cp ds_lo].
    destruct (N.eqb_spec b 0xE0); lia. }
  destruct ((0xF0 <=? b) && (b <=? 0xF4))%N eqn:D.
  { apply andb_true_iff in D. rewrite !N.leb_le in D. split; [|cbn; tauto]. unfold dInv. cbn [fst ds_need ds_cp ds_lo].
    destruct (N.eqb_spec b 0xF0); lia. }
  split; [exact I|]. cbn. unfold replacement. intuition discriminate.
Qed.

Lemma byte_inv d b : dInv d -> dInv (fst (decodeByte d b)) /\ (b <> 10%N -> ~ In 10%N (snd (decodeByte d b))).
Proof.
  intros H. unfold decodeByte. destruct (ds_need d) as [|k] eqn:N; [apply lead_inv|].
  destruct ((ds_lo d <=? b) && (b <=? ds_hi d))%N eqn:R.
  - apply andb_true_iff in R. rewrite !N.leb_le in R. unfold dInv in H. rewrite N in H.
    destruct k as [|k].
    + split; [exact I|]. intros _ [E|[]]. lia.
    + split; [|cbn; tauto]. unfold dInv. cbn [fst ds_need ds_cp ds_lo]. destruct k as [|k]; [|destruct k; lia].
      destruct H as (H1 & H2 & H3). specialize (H3 eq_refl). lia.
  - pose proof (lead_inv b) as [L1 L2]. destruct (leadByte b) as [d' o]. cbn [fst snd] in *. split; [exact L1|].
    intros NE [E|E]; [discriminate E|]. exact (L2 NE E).
Qed.

Lemma bytes_inv s : forall d, dInv d -> dInv (fst (decodeBytes d s)).
Proof.
  induction s as [|c s IH]; intros d H; [exact H|]. cbn [decodeBytes].
  pose proof (proj1 (byte_inv d (N_of_byte c) H)) as H1. destruct (decodeByte d (N_of_byte c)) as [d1 o1]. cbn [fst] in H1.
  specialize (IH d1 H1). destruct (decodeBytes d1 s). exact IH.
Qed.

Lemma bytes_noLF s : forall d, dInv d -> noLF s = true -> ~ In 10%N (snd (decodeBytes d s)).
Proof.
  induction s as [|c s IH]; intros d H NL; [cbn; tauto|]. unfold noLF in *. cbn [sforall] in NL. apply andb_true_iff in NL.
  destruct NL as [C NL]. apply negb_true_iff, N.eqb_neq in C. cbn [decodeBytes].
  pose proof (byte_inv d (N_of_byte c) H) as [H1 H2]. destruct (decodeByte d (N_of_byte c)) as [d1 o1]. cbn [fst snd] in *.
  specialize (IH d1 H1 NL). destruct (decodeBytes d1 s) as [d2 o2]. cbn [snd] in *.
  intros X. apply in_app_iff in X. destruct X as [X|X]; [exact (H2 C X)|exact (IH X)].
Qed.

(** ** Lines *)

Lemma splitLF_ne t : splitLF t <> [].
Proof. destruct t as [|c t]; cbn; [discriminate|]. destruct (c =? 10)%N; [discriminate|]. destruct (splitLF t); discriminate. Qed.

Lemma split_line l t : ~ In 10%N l -> splitLF (l ++ 10%N :: t) = l :: splitLF t.
Proof.
  induction l as [|c l IH]; intros H; [reflexivity|]. cbn [app splitLF].
  destruct (N.eqb_spec c 10); [exfalso; apply H; left; auto|]. rewrite IH by (intros X; apply H; right; exact X). reflexivity.
Qed.
Lemma split_rest t : ~ In 10%N t -> splitLF t = [t].
Proof.
  induction t as [|c t IH]; intros H; [reflexivity|]. cbn [splitLF].
  destruct (N.eqb_spec c 10); [exfalso; apply H; left; auto|]. rewrite IH by (intros X; apply H; right; exact X). reflexivity.
Qed.

Lemma lines_split t ls r : Lines t ls r -> removelast (splitLF t) = ls /\ last (splitLF t) [] = r.
Proof.
  induction 1 as [t H|l t ls r H L [IH1 IH2]].
  - rewrite split_rest by exact H. auto.
  - rewrite split_line by exact H. pose proof (splitLF_ne t). destruct (splitLF t) as [|x xs]; [congruence|]. cbn. cbn in IH1. rewrite IH1. auto.
Qed.

Lemma in_dec_10 (t : list N) : In 10%N t -> exists l r, t = l ++ 10%N :: r /\ ~ In 10%N l.
Proof.
  induction t as [|c t IH]; intros H; [destruct H|]. destruct (N.eq_dec c 10) as [->|NE].
  - exists [], t. split; [reflexivity|intros []].
  - destruct H as [H|H]; [congruence|]. destruct (IH H) as (l & r & -> & N). exists (c :: l), r. split; [reflexivity|].
    intros [X|X]; [congruence|exact (N X)].
Qed.

Lemma lines_exist t : exists ls r, Lines t ls r.
Proof.
  remember (length t) as n eqn:E. revert t E. induction n as [n IH] using lt_wf_ind. intros t ->.
  destruct (in_dec N.eq_dec 10%N t) as [H|H].
  - destruct (in_dec_10 t H) as (l & r & -> & N). destruct (IH (length r)) with (t := r) as (ls & q & L); [rewrite app_length; cbn; lia|reflexivity|].
    exists (l :: ls), q. constructor; assumption.
  - exists [], t. constructor. exact H.
Qed.

Lemma lines_rest t ls r : Lines t ls r -> ~ In 10%N r.
Proof. induction 1; auto. Qed.

Lemma lines_app t ls r u ls' r' : Lines t ls r -> Lines (r ++ u) ls' r' -> Lines (t ++ u) (ls ++ ls') r'.
Proof.
  induction 1 as [t H|l t ls r H L IH]; intros K; [exact K|]. cbn [app]. rewrite <- app_assoc. cbn [app]. constructor; [exact H|]. apply IH, K.
Qed.

(** ** Chunks *)

Definition finishEvents (table : list tsClass) (e : readEnd) : list event :=
  match e with
  | ReadDone => [OnClose]
  | ReadAborted => [OnError (newError (classFor builtinClasses (-8)) (JObj [("message", JStr "AbortError")]))]
  | ReadLost => [OnError (ownError (-9))]
  end.

Lemma onLines_app table st a b : onLines table st (a ++ b) =
  if snd (onLines table st a) then onLines table st a
  else (fst (onLines table st a) ++ fst (onLines table st b), snd (onLines table st b)).
Proof.
  induction a as [|l a IH]; cbn [app onLines].
  - destruct (onLines table st b); reflexivity.
  - destruct (onLine table st l) as [es []]; [reflexivity|]. rewrite IH.
    destruct (onLines table st a) as [ea []]; cbn [fst snd]; [reflexivity|]. rewrite app_assoc. reflexivity.
Qed.

Definition joinChunks (chunks : list string) : string := fold_right String.append EmptyString chunks.

Lemma loop_lines table st e chunks : forall d buffer ls r, ~ In 10%N buffer ->
  Lines (buffer ++ snd (decodeChunk d (joinChunks chunks))) ls r ->
  readLoop table st e chunks d buffer =
    fst (onLines table st ls) ++ (if snd (onLines table st ls) then [] else finishEvents table e).
Proof.
  induction chunks as [|c chunks IH]; intros d buffer ls r NB L.
  - cbn [joinChunks fold_right] in L. rewrite decodeChunk_nil, app_nil_r in L.
    assert (ls = []) as ->.
    { destruct L as [t H|l t ls r H L]; [reflexivity|]. exfalso. apply NB, in_app_iff. right. left. reflexivity. }
    cbn [readLoop]. destruct e; cbn; try reflexivity. rewrite split_rest by exact NB. reflexivity.
  - change (joinChunks (c :: chunks)) with (c ++ joinChunks chunks)%string in L. rewrite decodeChunk_app in L. cbn [snd] in L.
    cbn [readLoop]. destruct (decodeChunk d c) as [d' out]. cbn [fst snd] in L. rewrite app_assoc in L.
    destruct (lines_exist (buffer ++ out)) as (ls1 & r1 & L1). destruct (lines_split _ _ _ L1) as [S1 S2]. rewrite S1, S2.
    destruct (lines_exist (r1 ++ snd (decodeChunk d' (joinChunks chunks)))) as (ls2 & r2 & L2).
    pose proof (lines_app _ _ _ _ _ _ L1 L2) as L12.
    destruct (lines_split _ _ _ L) as [Q1 _]. destruct (lines_split _ _ _ L12) as [Q2 _]. assert (ls = ls1 ++ ls2) as -> by congruence.
    rewrite (IH d' r1 ls2 r2 (lines_rest _ _ _ L1) L2). rewrite onLines_app.
    destruct (onLines table st ls1) as [es []]; cbn [fst snd]; [rewrite app_nil_r; reflexivity|]. rewrite app_assoc. reflexivity.
Qed.

(** the text of a body *)
Definition streamText (body : string) : list N := snd (decodeChunk newDecoder body).

Theorem sse_lines table st e chunks ls r : Lines (streamText (joinChunks chunks)) ls r ->
  sseResponse table st e chunks = fst (onLines table st ls) ++ (if snd (onLines table st ls) then [] else finishEvents table e).
Proof. intros L. apply (loop_lines table st e chunks newDecoder [] ls r); [intros []|exact L]. Qed.
