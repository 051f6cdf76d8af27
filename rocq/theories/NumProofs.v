(** Numbers as the RIDL loader reads them. *)
From Verif Require Import Base BigSpec GoBigProofs Ridl DeclSpec.

Lemma parse_digits_sval s : forall acc, allDigits s = true -> parse_digits s (Z.of_N acc) = Z.of_N (sval s acc).
Proof.
  induction s as [|c s IH]; intros acc H; [reflexivity|]. unfold allDigits in *. cbn [sforall] in H.
  apply andb_true_iff in H as [H1 H2]. cbn [parse_digits sval]. rewrite <- (IH _ H2). f_equal.
  apply digit_cases in H1 as (d & Hd & Hc). unfold digit_val. rewrite Hc. lia.
Qed.

Lemma parseInt32_number s : Number s (parseInt32 s).
Proof.
  unfold parseInt32, Number. destruct (String.eqb_spec s "") as [->|Ne].
  - right. split; [|reflexivity]. intros n D. apply DigitsOf_sval in D as (_ & D & _). congruence.
  - destruct (sforall is_digit_byte s) eqn:A.
    + left. exists (sval s 0). split; [apply sval_DigitsOf; assumption|].
      change 0%Z with (Z.of_N 0). rewrite parse_digits_sval by exact A. reflexivity.
    + right. split; [|reflexivity]. intros n D. apply DigitsOf_sval in D as (D & _). unfold allDigits in D. congruence.
Qed.

Lemma number_fun s z z' : Number s z -> Number s z' -> z = z'.
Proof.
  intros [(n & D & ->)|[N ->]] [(n' & D' & ->)|[N' ->]]; try reflexivity.
  - apply DigitsOf_sval in D as (_ & _ & <-), D' as (_ & _ & <-). reflexivity.
  - exfalso. exact (N' _ D).
  - exfalso. exact (N _ D').
Qed.

Lemma lower_first s : LowerFirst s (toLowerFirstChar s).
Proof.
  destruct s as [|c r]; [left; split; reflexivity|right]. exists c, r. split; [reflexivity|].
  cbn [toLowerFirstChar]. unfold lower_byte, is_upper_byte, in_range.
  destruct (N.leb_spec 65 (N_of_byte c)); destruct (N.leb_spec (N_of_byte c) 90); cbn [andb].
  - left. split; [lia|reflexivity].
  - right. split; [lia|reflexivity].
  - right. split; [lia|reflexivity].
  - right. split; [lia|reflexivity].
Qed.
