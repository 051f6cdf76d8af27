(** Decimal numerals, read from left to right, stated without the decoder. *)
From Verif Require Import Base.

Definition Digit (c : ascii) (d : N) : Prop := (d < 10)%N /\ N_of_byte c = (48 + d)%N.

Inductive DigitsOf : string -> N -> Prop :=
| DO_one c d : Digit c d -> DigitsOf (String c EmptyString) d
| DO_snoc s n c d : DigitsOf s n -> Digit c d -> DigitsOf (s ++ String c EmptyString) (10 * n + d).

(** an optional sign and at least one digit *)
Inductive Decimal : string -> Z -> Prop :=
| DecPlain s n : DigitsOf s n -> Decimal s (Z.of_N n)
| DecMinus s n : DigitsOf s n -> Decimal ("-" ++ s) (- Z.of_N n)
| DecPlus s n : DigitsOf s n -> Decimal ("+" ++ s) (Z.of_N n).
