(** What errors.Is costs on errors of webrpc: the number of error values that it looks at. *)
From Verif Require Import Base GoVal Rpc.

(** The standard library's errors.Is(err, target), counting the error values looked at.  WebRPCError.Is
    (tests/server/server.gen.go 873-881, the same in every generated Go file) asks errors.Is for the cause if the
    target is not a WebRPCError; WebRPCError.Unwrap (883-885) makes errors.Is itself look at the same cause
    afterwards if the answer was no. *)
Fixpoint visits (err target : goError) : N :=
  (1 + if sameValue err target then 0 else
       match err with
       | EPlain _ _ => 0
       | EWrap _ _ inner => visits inner target
       | ERpc (RpcError _ code _ _ _ cause) =>
           match cause with
           | None => 0
           | Some c =>
               match target with
               | ERpc t => if Z.eqb (re_code t) code then 0 else visits c target
               | _ => if errorsIs c target then visits c target else visits c target + visits c target
               end
           end
       end)%N.

(** The errors of a chain, from the outermost: what Unwrap gives, again and again. *)
Fixpoint chain (err : goError) : list goError :=
  err :: match err with
         | EPlain _ _ => []
         | EWrap _ _ inner => chain inner
         | ERpc (RpcError _ _ _ _ _ None) => []
         | ERpc (RpcError _ _ _ _ _ (Some c)) => chain c
         end.

(** The webrpc errors among them that have a cause. *)
Definition caused (err : goError) : bool :=
  match err with ERpc (RpcError _ _ _ _ _ (Some _)) => true | _ => false end.
Definition layers (err : goError) : N := N.of_nat (List.length (filter caused (chain err))).

(** ** Bounds *)

Lemma chain_cause n k m t s c : chain (ERpc (RpcError n k m t s (Some c))) = ERpc (RpcError n k m t s (Some c)) :: chain c.
Proof. reflexivity. Qed.

Lemma err_ind (P : goError -> Prop) :
  (forall i m, P (EPlain i m)) -> (forall i m e, P e -> P (EWrap i m e)) ->
  (forall n k m t s, P (ERpc (RpcError n k m t s None))) ->
  (forall n k m t s c, P c -> P (ERpc (RpcError n k m t s (Some c)))) -> forall e, P e.
Proof.
  intros A B C D. fix IH 1. intros [i m|i m e|[n k m t s [c|]]]; [apply A|apply B, IH|apply D, IH|apply C].
Qed.

Lemma visits_linear x t : (visits x (ERpc t) <= N.of_nat (List.length (chain x)))%N.
Proof.
  induction x as [i m|i m e IH|n k m u s|n k m u s c IH] using err_ind; cbn [visits chain sameValue List.length].
  - lia.
  - lia.
  - lia.
  - destruct (Z.eqb (re_code t) k); lia.
Qed.

Lemma visits_upper x o : (visits x o <= N.of_nat (List.length (chain x)) * 2 ^ layers x)%N.
Proof.
  assert (P : forall n, (1 <= 2 ^ n)%N) by (intros n; pose proof (N.pow_nonzero 2 n ltac:(lia)); lia).
  induction x as [i m|i m e IH|n k m u s|n k m u s c IH] using err_ind.
  - unfold layers. cbn [visits chain filter caused List.length N.of_nat]. destruct (sameValue (EPlain i m) o); lia.
  - unfold layers in *. cbn [visits chain filter caused List.length] in *.
    specialize (P (N.of_nat (List.length (filter caused (chain e))))). destruct (sameValue (EWrap i m e) o); nia.
  - cbn. destruct o; cbn; lia.
  - unfold layers in *. cbn [visits chain filter caused List.length] in *. rewrite !Nat2N.inj_succ, N.pow_succ_r'.
    specialize (P (N.of_nat (List.length (filter caused (chain c))))).
    destruct (sameValue (ERpc (RpcError n k m u s (Some c))) o); [nia|]. destruct o as [j w|j w f|w]; [destruct (errorsIs c _); nia|destruct (errorsIs c _); nia|destruct (Z.eqb _ _); nia].
Qed.

Lemma visits_lower x o : (forall e, o <> ERpc e) -> errorsIs x o = false -> (2 ^ layers x <= visits x o)%N.
Proof.
  intros N. induction x as [i m|i m e IH|n k m u s|n k m u s c IH] using err_ind; intros H.
  - unfold layers. cbn [visits chain filter caused List.length N.of_nat]. destruct (sameValue (EPlain i m) o); lia.
  - unfold layers in *. cbn [visits chain filter caused errorsIs] in *. apply orb_false_iff in H as [H1 H2].
    rewrite H1. specialize (IH H2). lia.
  - cbn. destruct o; cbn; lia.
  - unfold layers in *. cbn [visits chain filter caused errorsIs List.length] in *. rewrite Nat2N.inj_succ, N.pow_succ_r'.
    apply orb_false_iff in H as [H1 H2]. rewrite H1. apply orb_false_iff in H2 as [_ H2]. specialize (IH H2).
    destruct o; [| |exfalso; eapply N; reflexivity]; rewrite H2; lia.
Qed.

(** Error [n] of a row in which each is the cause of the next. *)
Fixpoint nested (n : nat) (inner : goError) : goError :=
  match n with 0 => inner | S n => ERpc (withCause ErrWebrpcInternalError (nested n inner)) end.

Lemma nested_chain n : List.length (chain (nested n (EPlain 1 "eof"))) = S n.
Proof. induction n as [|n IH]; [reflexivity|]. cbn [nested]. unfold withCause. rewrite chain_cause. cbn [List.length]. congruence. Qed.

Lemma nested_is n : errorsIs (nested n (EPlain 1 "eof")) (EPlain 2 "eof") = false.
Proof. induction n as [|n IH]; [reflexivity|]. cbn [nested withCause errorsIs sameValue re_name re_code re_message re_status ErrWebrpcInternalError webrpcError]. rewrite IH. reflexivity. Qed.

Lemma nested_visits n : visits (nested n (EPlain 1 "eof")) (EPlain 2 "eof") = (2 ^ (N.of_nat n + 1) - 1)%N.
Proof.
  induction n as [|n IH]; [reflexivity|].
  cbn [nested withCause visits sameValue re_name re_code re_message re_status ErrWebrpcInternalError webrpcError].
  rewrite nested_is, IH. rewrite Nat2N.inj_succ, <- N.add_1_l.
  replace (1 + N.of_nat n + 1)%N with (N.succ (N.of_nat n + 1)) by lia. rewrite N.pow_succ_r'.
  pose proof (N.pow_nonzero 2 (N.of_nat n + 1) ltac:(lia)). lia.
Qed.
