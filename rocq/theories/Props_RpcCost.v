(** C31, continued: what matching costs. Theorems only.  Model: Rpc.v, RpcCost.v. *)
From Verif Require Import Base GoVal Rpc RpcSpec RpcCost.

(** The chain of an error is what Unwrap finds. *)
Lemma chain_unwraps x y : In y (chain x) <-> Unwraps x y.
Proof.
  split.
  - induction x as [i m|i m e IH|n k m t s|n k m t s c IH] using err_ind; cbn [chain];
      intros [<-|I]; try apply UHere; try contradiction; [apply UWrap, IH, I|apply UCause, IH, I].
  - induction 1; [destruct x as [| |[? ? ? ? ? [|]]]; left; reflexivity|right; assumption|right; assumption].
Qed.

(** errors.Is(x, t) for a webrpc error t looks at each error of the chain of x at most once. *)
Theorem C31_matching_codes_is_linear : forall x t,
  (forall y, In y (chain x) <-> Unwraps x y) /\
  (visits x (ERpc t) <= N.of_nat (List.length (chain x)))%N.
Proof. intros x t. split; [apply chain_unwraps|apply visits_linear]. Qed.
Print Assumptions C31_matching_codes_is_linear.

(** For any other t it is not so: each webrpc error of the chain that has a cause doubles the work, because its Is
    method and errors.Is itself both look at the cause.  The number of errors looked at is at least 2^n and at most
    2^n times the length of the chain for n such errors, when t is not found, ... *)
Theorem C31_matching_others_doubles : forall x o, (forall e, o <> ERpc e) -> errorsIs x o = false ->
  let n := N.of_nat (List.length (filter caused (chain x))) in
  (2 ^ n <= visits x o <= N.of_nat (List.length (chain x)) * 2 ^ n)%N.
Proof. intros x o N H. split; [apply visits_lower; assumption|apply visits_upper]. Qed.
Print Assumptions C31_matching_others_doubles.

(** ... so no multiple of the length of the chain bounds it. *)
Theorem C31_matching_others_is_linear_refuted :
  ~ exists k : N, forall x o, (visits x o <= k * N.of_nat (List.length (chain x)))%N.
Proof.
  intros [k H].
  assert (Q : forall n, (n < 2 ^ n)%N) by (intros n; apply N.pow_gt_lin_r; lia).
  set (n := N.to_nat (2 * k + 4)).
  specialize (H (nested n (EPlain 1 "eof")) (EPlain 2 "eof")).
  rewrite nested_visits, nested_chain in H.
  assert (E : N.of_nat n = (2 * k + 4)%N) by (unfold n; lia). rewrite Nat2N.inj_succ, E in H.
  pose proof (Q (k + 2)%N) as A.
  replace (2 * k + 4 + 1)%N with ((k + 2) + (k + 2) + 1)%N in H by lia.
  rewrite (N.pow_add_r 2 (k + 2 + (k + 2)) 1), (N.pow_add_r 2 (k + 2) (k + 2)) in H. change (2 ^ 1)%N with 2%N in H.
  remember (2 ^ (k + 2))%N as p. assert ((k + 3) * (k + 3) <= p * p)%N by (apply N.mul_le_mono; lia).
  rewrite <- N.add_1_r in H.
  replace (k * (2 * k + 4 + 1))%N with (2 * (k * k) + 5 * k)%N in H by ring.
  replace ((k + 3) * (k + 3))%N with (k * k + 6 * k + 9)%N in H0 by ring. lia.
Qed.
Print Assumptions C31_matching_others_is_linear_refuted.

(** A stream error of twenty layers: two million looks for one that is not there; 21 for a webrpc error. *)
Example nested_cost :
  visits (nested 20 (EPlain 1 "eof")) (EPlain 2 "eof") = 2097151%N /\
  (visits (nested 20 (EPlain 1 "eof")) (ERpc ErrWebrpcBadRoute) = 21)%N /\
  errorsIs (nested 20 (EPlain 1 "eof")) (ERpc ErrWebrpcBadRoute) = false.
Proof. split; [exact (nested_visits 20)|]. vm_compute. split; reflexivity. Qed.
