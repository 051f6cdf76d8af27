(** C48: big integers in generated Go code: JSON, binary, database. Theorems only.
    Specification: BigSpec.v (what a decimal numeral denotes). *)
From Verif Require Import Base BaseProofs Utf8 Utf8Proofs Json GoVal GoBig BigSpec GoBigProofs.

(** C48. Every integer, of any size and sign, survives JSON, the binary form and a database column,
    whatever the receiver held before. *)
Theorem C48_json_round_trip : forall old z, bigUnmarshalJSON old (bigMarshalJSON z) = Some z.
Proof.
  intros old z. rewrite bigUnmarshalJSON_eq. apply bigUnmarshalText_iff. right. right. exists (zdec z).
  split; [reflexivity|apply zdec_decimal].
Qed.
Print Assumptions C48_json_round_trip.

(** what is written is a quoted decimal numeral of that integer, without blanks *)
Theorem C48_json_is_a_quoted_numeral : forall z, exists d,
  bigMarshalJSON z = (chr 34 ++ d ++ chr 34)%string /\ Decimal d z /\ bigMarshalText z = bigMarshalJSON z.
Proof. intros z. exists (zdec z). split; [reflexivity|]. split; [apply zdec_decimal|reflexivity]. Qed.
Print Assumptions C48_json_is_a_quoted_numeral.

Theorem C48_binary_round_trip : forall z, bigUnmarshalBinary (bigMarshalBinary z) = z.
Proof. exact binary_back. Qed.
Print Assumptions C48_binary_round_trip.

(** two different integers never have the same binary form *)
Theorem C48_binary_is_injective : forall y z, bigMarshalBinary y = bigMarshalBinary z -> y = z.
Proof. intros y z E. rewrite <- (binary_back y), E. apply binary_back. Qed.
Print Assumptions C48_binary_is_injective.

Theorem C48_database_round_trip : forall old z,
  bigScan old (DbText (bigValue z)) = Some z /\ bigScan old (DbBytes (bigValue z)) = Some z /\ bigScan old DbNil = Some old.
Proof.
  intros old z. unfold bigValue, bigScan. rewrite (cutE_none (zdec z)) by exact (decimal_no_e _ _ (zdec_decimal z)).
  rewrite (proj2 (setString10_iff _ _) (zdec_decimal z)). auto.
Qed.
Print Assumptions C48_database_round_trip.

(** C48. Exactly the decimal numerals are read, quoted or not (unquoted ones without a plus sign), and to
    the integer they denote; null and the empty text leave the receiver as it was; all else is an error. *)
Theorem C48_json_reads_exactly_numerals : forall old t z, bigUnmarshalJSON old t = Some z <->
  (t = EmptyString \/ t = "null") /\ z = old \/
  (exists c r, t = String c r /\ c <> byte_of_N 43) /\ Decimal t z \/
  exists d, t = (chr 34 ++ d ++ chr 34)%string /\ Decimal d z.
Proof. intros old t z. rewrite bigUnmarshalJSON_eq. apply bigUnmarshalText_iff. Qed.
Print Assumptions C48_json_reads_exactly_numerals.

(** a numeral denotes one integer only *)
Theorem C48_numerals_are_unambiguous : forall s y z, Decimal s y -> Decimal s z -> y = z.
Proof. intros s y z A B. apply setString10_iff in A, B. congruence. Qed.
Print Assumptions C48_numerals_are_unambiguous.

(** C48. A database column is read exactly when it is a numeral N, or N e X with X a numeral; the result
    is N, or N times ten to the X when X is not negative. *)
Theorem C48_scan_reads_powers_of_ten : forall old n x N X, Decimal n N -> Decimal x X -> (0 <= X)%Z ->
  bigScan old (DbText n) = Some N /\ bigScan old (DbText (n ++ "e" ++ x)) = Some (N * 10 ^ X)%Z.
Proof.
  intros old n x N X DN DX P. unfold bigScan. rewrite (cutE_none n), (cutE_some n x) by exact (decimal_no_e _ _ DN).
  rewrite (proj2 (setString10_iff _ _) DN), (proj2 (setString10_iff _ _) DX). split; [reflexivity|]. unfold bigExp10.
  destruct (Z.leb_spec X 0); [|reflexivity]. replace X with 0%Z by lia. reflexivity.
Qed.
Print Assumptions C48_scan_reads_powers_of_ten.

Theorem C48_scan_reads_nothing_else : forall old t z, bigScan old (DbText t) = Some z ->
  Decimal t z \/ exists n x N X, t = (n ++ "e" ++ x)%string /\ Decimal n N /\ Decimal x X /\ (0 <= X -> z = (N * 10 ^ X)%Z)%Z.
Proof.
  intros old t z. unfold bigScan. destruct (cutE t) as [a b] eqn:C. apply cutE_inv in C.
  destruct (setString10 a) as [N|] eqn:A; [|discriminate]. apply setString10_iff in A. destruct b as [x|].
  - destruct (setString10 x) as [X|] eqn:B; [|discriminate]. apply setString10_iff in B. intros [= <-]. right. exists a, x, N, X.
    repeat split; try assumption. intros P. unfold bigExp10. destruct (Z.leb_spec X 0); [|reflexivity]. replace X with 0%Z by lia. reflexivity.
  - intros [= <-]. subst t. auto.
Qed.
Print Assumptions C48_scan_reads_nothing_else.

(** With a negative exponent the number is not N times ten to the X, nor an error: the exponent is dropped
    (math/big's Exp answers 1). *)
Theorem C48_negative_exponents_are_dropped_refuted : forall old n x N X, Decimal n N -> Decimal x X -> (X < 0)%Z ->
  bigScan old (DbText (n ++ "e" ++ x)) = Some N.
Proof.
  intros old n x N X DN DX P. unfold bigScan. rewrite (cutE_some n x) by exact (decimal_no_e _ _ DN).
  rewrite (proj2 (setString10_iff _ _) DN), (proj2 (setString10_iff _ _) DX). unfold bigExp10.
  destruct (Z.leb_spec X 0); [|lia]. f_equal. lia.
Qed.
Print Assumptions C48_negative_exponents_are_dropped_refuted.

(** The binary form is not canonical: a text other than the one written is read too. *)
Theorem C48_binary_forms_are_not_unique_refuted : exists a b, a <> b /\ bigUnmarshalBinary a = bigUnmarshalBinary b /\
  bigUnmarshalBinary a = 5%Z.
Proof. exists (String (byte_of_N 0) (String (byte_of_N 5) "")), (String (byte_of_N 7) (String (byte_of_N 5) "")). vm_compute. repeat split; discriminate. Qed.
Print Assumptions C48_binary_forms_are_not_unique_refuted.

Example C48_example :
  bigMarshalJSON (-340282366920938463463374607431768211456) = (chr 34 ++ "-340282366920938463463374607431768211456" ++ chr 34)%string /\
  bigUnmarshalJSON 0 (bigMarshalJSON (-340282366920938463463374607431768211456)) = Some (-340282366920938463463374607431768211456)%Z /\
  bigUnmarshalJSON 7 "null" = Some 7%Z /\ bigUnmarshalJSON 7 "1.5" = None /\ bigUnmarshalJSON 7 "0x10" = None /\
  bigUnmarshalJSON 7 "007" = Some 7%Z /\ bigUnmarshalJSON 7 (chr 34 ++ " 12" ++ chr 34) = None /\
  bigUnmarshalBinary (bigMarshalBinary (-65536)) = (-65536)%Z /\
  bigScan 0 (DbText "12e3") = Some 12000%Z /\ bigScan 0 (DbText "5e-1") = Some 5%Z /\ bigScan 0 (DbText "") = None.
Proof. vm_compute. repeat split. Qed.
