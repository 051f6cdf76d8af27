(** Proofs about the chat web application. *)
From Verif Require Import Base BaseProofs WebApp WebAppSpec.
From Verif Require Chat.

(** ** Histories *)

Lemma run_snoc b : forall xs a x a1 o1 a2 o2, runFrom b a xs = Some (a1, o1) -> step b a1 x = Some (a2, o2) ->
  runFrom b a (xs ++ [x]) = Some (a2, o1 ++ o2).
Proof.
  induction xs as [|y xs IH]; cbn; intros a x a1 o1 a2 o2 R S.
  - injection R as <- <-. rewrite S, app_nil_r. reflexivity.
  - destruct (step b a y) as [[a' o']|]; [|discriminate].
    destruct (runFrom b a' xs) as [[a'' o'']|] eqn:E; [|discriminate]. injection R as <- <-.
    rewrite (IH a' x a'' o'' a2 o2 E S), app_assoc. reflexivity.
Qed.

Lemma run_app b : forall xs ys a, runFrom b a (xs ++ ys) =
  match runFrom b a xs with
  | None => None
  | Some (a1, o1) => match runFrom b a1 ys with None => None | Some (a2, o2) => Some (a2, o1 ++ o2) end
  end.
Proof.
  induction xs as [|x xs IH]; intros ys a; cbn.
  - destruct (runFrom b a ys) as [[]|]; reflexivity.
  - destruct (step b a x) as [[a1 o1]|]; [|reflexivity]. rewrite IH. destruct (runFrom b a1 xs) as [[a2 o2]|]; [|reflexivity].
    destruct (runFrom b a2 ys) as [[a3 o3]|]; [|reflexivity]. rewrite app_assoc. reflexivity.
Qed.

(** an invariant relating the state with what was seen so far *)
Lemma invariant b (P : app -> list output -> Prop) :
  P (fst loaded) (snd loaded) ->
  (forall a o x a' o', P a o -> step b a x = Some (a', o') -> P a' (o ++ o')) ->
  forall xs a o, history b xs = Some (a, o) -> P a o.
Proof.
  intros P0 PS. assert (G : forall xs a0 o0 a o, P a0 o0 -> runFrom b a0 xs = Some (a, o) -> P a (o0 ++ o)).
  { induction xs as [|x xs IH]; cbn; intros a0 o0 a o H R.
    - injection R as <- <-. rewrite app_nil_r. exact H.
    - destruct (step b a0 x) as [[a1 o1]|] eqn:S; [|discriminate].
      destruct (runFrom b a1 xs) as [[a2 o2]|] eqn:R'; [|discriminate]. injection R as <- <-.
      rewrite app_assoc. apply (IH a1 _ a2 o2); [|exact R']. exact (PS _ _ _ _ _ H S). }
  intros xs a o H. unfold history in H. destruct loaded as [a0 o0]. destruct (runFrom b a0 xs) as [[a1 o1]|] eqn:R; [|discriminate].
  injection H as <- <-. exact (G xs a0 o0 a1 o1 P0 R).
Qed.

(** ** Kinds of steps *)

Lemma onError_cases code i a : 
  (exists s, onError code i a = (withStatus s a, []) /\ (s = Finished \/ s = Disconnected)) \/
  onError code i a = (App (a_messages a) (a_last a) Connecting (S (a_retry a)) (a_subs a) (a_active a) (a_timers a ++ [i]),
                      [Scheduled i (backoff (a_retry a))]).
Proof.
  unfold onError.
  repeat match goal with |- context [match ?x with _ => _ end] => is_var x; destruct x end; eauto 6.
Qed.

(** what a step changes *)
Inductive Change (x : input) (a : app) : app -> list output -> Prop :=
| ChStop k s : nth_error (a_active a) k <> None -> Change x a (withStatus s (ended k a)) []
| ChRetry k i p : nth_error (a_active a) k = Some (i, p) ->
    Change x a (App (a_messages a) (a_last a) Connecting (S (a_retry a)) (a_subs a) (removeAt k (a_active a)) (a_timers a ++ [i]))
             [Scheduled i (backoff (a_retry a))]
| ChOpen k i : nth_error (a_active a) k = Some (i, Fetching) ->
    Change x a (onOpen (withActive (replaceAt k (i, Reading) (a_active a)) a)) [Opened]
| ChMessage m : a_active a <> [] -> Change x a (onMessage m a) [Received m]
| ChTimer j i c : nth_error (a_timers a) j = Some i -> nth_error (a_subs a) i = Some c ->
    Change x a (App (a_messages a) (a_last a) (a_status a) (a_retry a) (a_subs a) (a_active a ++ [(i, Fetching)]) (removeAt j (a_timers a)))
             [Requested i (c_last c)]
| ChLostTimer j i : nth_error (a_timers a) j = Some i -> nth_error (a_subs a) i = None ->
    Change x a (App (a_messages a) (a_last a) (a_status a) (a_retry a) (a_subs a) (a_active a) (removeAt j (a_timers a))) []
| ChConnect : x = Click -> a_status a = Disconnected -> 
    Change x a (App (a_messages a) (a_last a) (a_status a) (a_retry a) (a_subs a ++ [Subscription (a_last a) false])
                  (a_active a ++ [(List.length (a_subs a), Fetching)]) (a_timers a)) [Requested (List.length (a_subs a)) (a_last a)]
| ChAbort : a_status a = Connected -> Change x a (abort a) []
| ChSend t : a_status a = Connected -> t <> EmptyString -> Change x a a [Sent t]
| ChNone : Change x a a [].

Lemma ended_same k a : withStatus (a_status a) (ended k a) = ended k a.
Proof. reflexivity. Qed.

Lemma running_nth k p a i x : running k p a = Some (i, x) ->
  nth_error (a_active a) k = Some (i, p) /\ exists c, nth_error (a_subs a) i = Some c /\ c_aborted c = x.
Proof.
  unfold running. destruct (nth_error (a_active a) k) as [[j q]|]; [|discriminate].
  destruct p, q; try discriminate; (destruct (nth_error (a_subs a) j) as [c|] eqn:E; [|discriminate]);
  intros [= <- <-]; eauto.
Qed.
Lemma live_running k p a i : live k p a = Some i -> running k p a = Some (i, false).
Proof. unfold live. destruct (running k p a) as [[j []]|]; congruence. Qed.
Lemma live_nth k p a i : live k p a = Some i ->
  nth_error (a_active a) k = Some (i, p) /\ exists c, nth_error (a_subs a) i = Some c /\ c_aborted c = false.
Proof. intros H. apply running_nth, live_running, H. Qed.

Lemma failing x a k i p code : nth_error (a_active a) k = Some (i, p) ->
  Change x a (fst (onError code i (ended k a))) (snd (onError code i (ended k a))).
Proof.
  intros N. destruct (onError_cases code i (ended k a)) as [(s & -> & _)| ->]; cbn [fst snd].
  - apply ChStop. congruence.
  - exact (ChRetry x a k i p N).
Qed.

Lemma connect_eq a : connect a =
  (App (a_messages a) (a_last a) (a_status a) (a_retry a) (a_subs a ++ [Subscription (a_last a) false])
       (a_active a ++ [(List.length (a_subs a), Fetching)]) (a_timers a), [Requested (List.length (a_subs a)) (a_last a)]).
Proof.
  unfold connect, fetch. cbn [a_subs]. rewrite nth_error_app2 by lia. rewrite Nat.sub_diag. reflexivity.
Qed.

Lemma step_change b a x a' o : step b a x = Some (a', o) -> Change x a a' o.
Proof.
  assert (Pr : forall (r : app * list output), Some r = Some (a', o) -> Change x a (fst r) (snd r) -> Change x a a' o)
    by (intros r [= ->] C; exact C).
  unfold step. destruct x.
  - destruct (running k Fetching a) as [[i ab]|] eqn:R; [|discriminate]. intros E. apply (Pr _ E).
    apply running_nth in R. destruct R as [N _]. exact (failing _ _ _ _ _ _ N).
  - destruct (live k Fetching a) as [i|] eqn:R; [|discriminate]. intros E. apply (Pr _ E).
    apply live_nth in R. destruct R as [N _]. exact (failing _ _ _ _ _ _ N).
  - destruct (live k Fetching a) as [i|] eqn:R; [|discriminate]. intros E. apply (Pr _ E).
    apply live_nth in R. destruct R as [N _]. exact (ChOpen _ a k i N).
  - destruct (live k Reading a) as [i|] eqn:R; [|discriminate]. intros E. apply (Pr _ E).
    apply live_nth in R. destruct R as [N _]. apply ChMessage. intros Z. rewrite Z in N. destruct k; discriminate N.
  - destruct (live k Reading a) as [i|] eqn:R; [|discriminate]. intros E. apply (Pr _ E).
    apply live_nth in R. destruct R as [N _]. exact (failing _ _ _ _ _ _ N).
  - destruct (live k Reading a) as [i|] eqn:R; [|discriminate]. intros E. apply (Pr _ E).
    apply live_nth in R. destruct R as [N _]. apply (ChStop _ a k (a_status a)). congruence.
  - destruct (live k Reading a) as [i|] eqn:R; [|discriminate]. intros E. apply (Pr _ E).
    apply live_nth in R. destruct R as [N _]. exact (failing _ _ _ _ _ _ N).
  - destruct (running k Reading a) as [[i ab]|] eqn:R; [|discriminate]. intros E. apply (Pr _ E).
    apply running_nth in R. destruct R as [N _]. exact (failing _ _ _ _ _ _ N).
  - destruct (live k Reading a) as [i|] eqn:R; [|discriminate]. intros E. apply (Pr _ E).
    apply live_nth in R. destruct R as [N _]. apply (ChStop _ a k Disconnected). congruence.
  - destruct (nth_error (a_timers a) j) as [i|] eqn:N; [|discriminate]. intros E. apply (Pr _ E).
    unfold fetch. cbn [a_subs]. destruct (nth_error (a_subs a) i) as [c|] eqn:S; cbn [fst snd].
    + exact (ChTimer _ a j i c N S).
    + exact (ChLostTimer _ a j i N S).
  - intros E. apply (Pr _ E). unfold click. destruct (a_status a) eqn:S; cbn [fst snd].
    + apply ChAbort, S.
    + apply ChNone.
    + rewrite connect_eq. cbn [fst snd]. apply ChConnect; [reflexivity|exact S].
    + apply ChNone.
  - intros E. apply (Pr _ E). unfold submit. destruct (a_status a) eqn:S; cbn [fst snd]; try apply ChNone.
    destruct (String.eqb_spec text ""); cbn [fst snd]; [apply ChNone|apply ChSend; assumption].
Qed.

(** ** Messages *)

Lemma received_app a b : receivedIn (a ++ b) = receivedIn a ++ receivedIn b.
Proof. induction a as [|[] a IH]; cbn; rewrite ?IH; reflexivity. Qed.
Lemma lastId_snoc o m : lastId (o ++ [Received m]) = Some (msg_id m).
Proof. unfold lastId. rewrite received_app. cbn. rewrite rev_app_distr. reflexivity. Qed.
Lemma lastId_app o o' : receivedIn o' = [] -> lastId (o ++ o') = lastId o.
Proof. intros E. unfold lastId. rewrite received_app, E, app_nil_r. reflexivity. Qed.

Lemma lastN_end {A} n (l : list A) : IsEnd n l (lastN n l).
Proof.
  unfold IsEnd, lastN. split; [rewrite skipn_length; lia|]. exists (firstn (List.length l - n) l). symmetry. apply firstn_skipn.
Qed.
Lemma end_grow {A} (l e : list A) m : IsEnd 1000 l e ->
  IsEnd 1000 (l ++ [m]) (if 1000 <=? List.length e then lastN 999 e ++ [m] else e ++ [m]).
Proof.
  intros [L [b E]]. pose proof (app_length b e) as BL. rewrite <- E in BL.
  destruct (1000 <=? List.length e) eqn:C.
  - apply Nat.leb_le in C. destruct (lastN_end 999 e) as [L' [b' E']]. split.
    + rewrite !app_length. cbn [List.length]. lia.
    + exists (b ++ b'). rewrite E. rewrite E' at 1. rewrite <- !app_assoc. reflexivity.
  - apply Nat.leb_gt in C. assert (b = []) as ->.
    { destruct b; [reflexivity|]. exfalso. cbn in BL. lia. }
    split; [rewrite !app_length; cbn [List.length]; lia|]. exists []. rewrite E. reflexivity.
Qed.

Definition MessagesOk (a : app) (o : list output) : Prop :=
  IsEnd 1000 (receivedIn o) (a_messages a) /\ a_last a = lastId o.

Lemma messages_ok b xs a o : history b xs = Some (a, o) -> MessagesOk a o.
Proof.
  apply invariant.
  - split; [split; [reflexivity|exists []; reflexivity]|reflexivity].
  - intros a0 o0 x a1 o1 [M L] S. apply step_change in S. unfold MessagesOk. rewrite received_app. destruct S;
      try (cbn [receivedIn]; rewrite app_nil_r; (split; [exact M|rewrite lastId_app by reflexivity; exact L])).
    + split; [|cbn; symmetry; apply lastId_snoc]. cbn [receivedIn onMessage a_messages]. apply end_grow, M.
    + assert (a_messages (abort a0) = a_messages a0 /\ a_last (abort a0) = a_last a0) as [-> ->]
        by (unfold abort; destruct (nth_error _ _); split; reflexivity).
      cbn [receivedIn]. rewrite app_nil_r. split; [exact M|rewrite lastId_app by reflexivity; exact L].
Qed.

(** ** Delays *)

Lemma failures_app : forall a n b, failuresIn n (a ++ b) = failuresIn (failuresIn n a) b.
Proof. induction a as [|[] a IH]; intros n b; cbn; auto. Qed.

Definition DelaysOk (a : app) (o : list output) : Prop :=
  a_retry a = failuresIn 0 o /\
  forall before i d after, o = before ++ Scheduled i d :: after -> d = Nat.min 30 (2 ^ failuresIn 0 before).

Lemma snoc_split {A} (o l : list A) x y r : o ++ [x] = l ++ y :: r -> (l = o /\ x = y /\ r = []) \/ exists r', r = r' ++ [x] /\ o = l ++ y :: r'.
Proof.
  intros E. destruct (exists_last (l := y :: r)) as (r0 & z & Ez); [discriminate|].
  rewrite Ez, app_assoc in E. apply app_inj_tail in E. destruct E as [-> ->].
  destruct r0 as [|w r0]; injection Ez as -> ->.
  - left. rewrite app_nil_r. auto.
  - right. exists r0. auto.
Qed.

Lemma delays_ok b xs a o : history b xs = Some (a, o) -> DelaysOk a o.
Proof.
  assert (Same : forall o0 o1, (forall i d, ~ In (Scheduled i d) o1) ->
    (forall before i d after, o0 = before ++ Scheduled i d :: after -> d = Nat.min 30 (2 ^ failuresIn 0 before)) ->
    forall before i d after, o0 ++ o1 = before ++ Scheduled i d :: after -> d = Nat.min 30 (2 ^ failuresIn 0 before)).
  { intros o0 o1. revert o0. induction o1 as [|y o1 IH]; intros o0 N H before i d after E.
    - rewrite app_nil_r in E. exact (H _ _ _ _ E).
    - change (y :: o1) with ([y] ++ o1) in E. rewrite app_assoc in E. revert before i d after E.
      apply IH; [intros i d I; apply (N i d); right; exact I|]. intros before i d after E.
      apply snoc_split in E. destruct E as [(_ & -> & _)|(r' & _ & E)]; [destruct (N i d); left; reflexivity|exact (H _ _ _ _ E)]. }
  apply invariant.
  - split; [reflexivity|]. intros [|? [|? ?]] i d after E; discriminate E.
  - intros a0 o0 x a1 o1 [R D] S. apply step_change in S. unfold DelaysOk. rewrite failures_app.
    assert (NS : (forall i d, ~ In (Scheduled i d) o1) ->
      forall before i d after, o0 ++ o1 = before ++ Scheduled i d :: after -> d = Nat.min 30 (2 ^ failuresIn 0 before))
      by (intros N; exact (Same o0 o1 N D)).
    destruct S; cbn [failuresIn];
      try (split; [exact R|apply NS; intros ? ? I; cbn in I; intuition discriminate]).
    + split; [cbn; congruence|]. intros before i' d after E. apply snoc_split in E.
      destruct E as [(-> & [= <- <-] & _)|(r' & _ & E)]; [|exact (D _ _ _ _ E)].
      unfold backoff, maxDelay. rewrite R. reflexivity.
    + split; [reflexivity|]. apply NS; intros ? ? I; cbn in I; intuition discriminate.
    + split; [unfold abort; destruct (nth_error _ _); exact R|apply NS; intros ? ? []].
Qed.

(** ** Requests *)

(** the subscriptions: what each asks for is the last id at the time it was made *)
Definition RequestsOk (a : app) (o : list output) : Prop :=
  a_last a = lastId o /\
  (forall i l, In (Requested i l) o -> exists c, nth_error (a_subs a) i = Some c /\ c_last c = l) /\
  (forall before i l after, o = before ++ Requested i l :: after -> Fresh i before -> l = lastId before) /\
  (forall i, i < List.length (a_subs a) -> exists l, In (Requested i l) o).

Lemma subs_abort a i : option_map c_last (nth_error (a_subs (abort a)) i) = option_map c_last (nth_error (a_subs a) i) /\
  List.length (a_subs (abort a)) = List.length (a_subs a).
Proof.
  unfold abort. set (k := List.length (a_subs a) - 1). destruct (nth_error (a_subs a) k) as [c|] eqn:E; [|auto].
  cbn [a_subs]. revert i. clearbody k. revert k c E. generalize (a_subs a) as l.
  induction l as [|y l IH]; intros [|k] c E i; cbn in *; try discriminate.
  - injection E as ->. split; [|reflexivity]. destruct i; reflexivity.
  - destruct i as [|i]; cbn; [split; [reflexivity|f_equal; exact (proj2 (IH k c E 0))]|].
    destruct (IH k c E i) as [A B]. split; [exact A|f_equal; exact B].
Qed.

Lemma requests_ok b xs a o : history b xs = Some (a, o) -> RequestsOk a o.
Proof.
  apply invariant.
  - split; [reflexivity|]. split; [|split].
    + intros i l [[= <- <-]|[]]. eexists. split; reflexivity.
    + intros [|y [|z before]] i l after E; try discriminate E. injection E as <- <- <-. reflexivity.
    + intros [|i] L; [|cbn in L; lia]. eexists. left. reflexivity.
  - intros a0 o0 x a1 o1 (L & R & F & T) S. apply step_change in S.
    assert (Quiet : (forall i l, ~ In (Requested i l) o1) -> List.length o1 <= 1 ->
      a_last a1 = lastId (o0 ++ o1) ->
      (forall i, option_map c_last (nth_error (a_subs a1) i) = option_map c_last (nth_error (a_subs a0) i)) ->
      List.length (a_subs a1) = List.length (a_subs a0) -> RequestsOk a1 (o0 ++ o1)).
    { intros N1 N2 L' S' Le. split; [exact L'|]. split; [|split].
      - intros i l I. apply in_app_iff in I. destruct I as [I|I]; [|destruct (N1 _ _ I)].
        destruct (R i l I) as (c & C1 & C2). specialize (S' i). rewrite C1 in S'.
        destruct (nth_error (a_subs a1) i) as [c'|]; [|discriminate]. exists c'. split; [reflexivity|]. cbn in S'. congruence.
      - intros before i l after E. destruct o1 as [|y [|]]; [rewrite app_nil_r in E; exact (F _ _ _ _ E)| |cbn in N2; lia].
        apply snoc_split in E. destruct E as [(_ & -> & _)|(r' & _ & E)]; [destruct (N1 i l); left; reflexivity|exact (F _ _ _ _ E)].
      - intros i Li. rewrite Le in Li. destruct (T i Li) as [l I]. exists l. apply in_app_iff. left. exact I. }
    destruct S;
      try (apply Quiet; [intros ? ? I; cbn in I; intuition discriminate|cbn; lia|rewrite lastId_app by reflexivity; exact L|reflexivity|reflexivity]).
    + apply Quiet; [intros ? ? I; cbn in I; intuition discriminate|cbn; lia|cbn; symmetry; apply lastId_snoc|reflexivity|reflexivity].
    + (* timer *) split; [rewrite lastId_app by reflexivity; exact L|]. split; [|split].
      * intros i' l I. apply in_app_iff in I. destruct I as [I|[[= <- <-]|[]]]; [exact (R i' l I)|]. exists c. auto.
      * intros before i' l after E Fr. apply snoc_split in E. destruct E as [(-> & [= <- <-] & _)|(r' & _ & E)]; [|exact (F _ _ _ _ E Fr)].
        exfalso. destruct (T i) as [l' I].
        { match goal with H : nth_error (a_subs a0) i = _ |- _ => apply nth_error_Some; rewrite H; discriminate end. }
        exact (Fr l' I).
      * intros i' Li. destruct (T i' Li) as [l I]. exists l. apply in_app_iff. left. exact I.
    + (* connect *) split; [rewrite lastId_app by reflexivity; exact L|]. split; [|split].
      * intros i' l I. apply in_app_iff in I. cbn [a_subs]. destruct I as [I|[[= <- <-]|[]]].
        -- destruct (R i' l I) as (c & C1 & C2). exists c. split; [|exact C2]. rewrite nth_error_app1; [exact C1|].
           apply nth_error_Some. congruence.
        -- exists (Subscription (a_last a0) false). split; [|reflexivity]. rewrite nth_error_app2 by lia. rewrite Nat.sub_diag. reflexivity.
      * intros before i' l after E Fr. apply snoc_split in E. destruct E as [(-> & [= <- <-] & _)|(r' & _ & E)]; [|exact (F _ _ _ _ E Fr)].
        exact L.
      * intros i' Li. cbn [a_subs] in Li. rewrite app_length in Li. cbn in Li.
        destruct (Nat.eq_dec i' (List.length (a_subs a0))) as [->|Ne].
        -- exists (a_last a0). apply in_app_iff. right. left. reflexivity.
        -- destruct (T i') as [l I]; [lia|]. exists l. apply in_app_iff. left. exact I.
    + (* abort *) apply Quiet; [intros ? ? []|cbn; lia| | |].
      * rewrite lastId_app by reflexivity. unfold abort. destruct (nth_error _ _); exact L.
      * intros i. apply subs_abort.
      * apply (subs_abort a0 0).
Qed.

(** ** One stream at a time *)

Lemma removeAt_length {A} (l : list A) : forall k, nth_error l k <> None -> S (List.length (removeAt k l)) = List.length l.
Proof. induction l as [|y l IH]; intros [|k] N; cbn in *; try congruence. f_equal. apply IH, N. Qed.
Lemma replaceAt_length {A} (y : A) l : forall k, List.length (replaceAt k y l) = List.length l.
Proof. induction l as [|z l IH]; intros [|k]; cbn; auto. Qed.

Lemma abort_work a : work (abort a) = work a /\ a_active (abort a) = a_active a /\ a_timers (abort a) = a_timers a /\
  a_status (abort a) = a_status a /\ a_messages (abort a) = a_messages a.
Proof. unfold abort, work. destruct (nth_error _ _); auto. Qed.

(** the invariant of patient users *)
Definition Single (a : app) : Prop := work a <= 1 /\ (a_status a = Finished -> work a = 0).

Lemma finished_never b a x a' o : step b a x = Some (a', o) -> work a = 0 -> a_status a = Finished -> a' = a /\ o = [].
Proof.
  intros E W Fi. apply step_change in E. unfold work in W.
  destruct (a_active a) eqn:A; [|cbn in W; lia]. destruct (a_timers a) eqn:T; [|cbn in W; lia].
  assert (NE : forall k, @nth_error (nat * phase) [] k = None) by (intros []; reflexivity).
  assert (NE' : forall k, @nth_error nat [] k = None) by (intros []; reflexivity).
  destruct E; try (rewrite ?A, ?T, ?NE, ?NE' in *; congruence). auto.
Qed.

Lemma single_step b a x a' o : Single a -> (x = Click -> a_status a = Disconnected -> work a = 0) ->
  step b a x = Some (a', o) -> Single a'.
Proof.
  intros [W Fi] Pa E. apply step_change in E. unfold Single, work in *. destruct E;
    cbn [withStatus ended withActive onOpen onMessage a_active a_timers a_status] in *.
  all: try (match goal with H : nth_error (a_active ?z) ?k <> None |- _ => pose proof (removeAt_length (a_active z) k H) end).
  all: try (match goal with H : nth_error (a_active ?z) ?k = Some _ |- _ => pose proof (removeAt_length (a_active z) k ltac:(congruence)) end).
  all: try (match goal with H : nth_error (a_timers ?z) ?k = Some _ |- _ => pose proof (removeAt_length (a_timers z) k ltac:(congruence)) end).
  all: rewrite ?app_length, ?replaceAt_length in *; cbn [List.length] in *.
  all: try (split; [lia|intros Z; try discriminate Z; try (specialize (Fi Z)); lia]).
  - (* connect *) split; [|congruence].
    match goal with H : x = Click, H' : a_status a = Disconnected |- _ => pose proof (Pa H H') end. lia.
  - (* abort *) destruct (abort_work a) as (_ & -> & -> & -> & _). auto.
Qed.

Lemma single_run b : forall xs a a' o, Single a -> Patient b a xs -> runFrom b a xs = Some (a', o) -> Single a'.
Proof.
  induction xs as [|x xs IH]; cbn; intros a a' o H P R; [injection R as <- <-; exact H|].
  destruct P as [P0 P]. destruct (step b a x) as [[a1 o1]|] eqn:E; [|discriminate].
  destruct (runFrom b a1 xs) as [[a2 o2]|] eqn:R'; [|discriminate]. injection R as <- <-.
  exact (IH a1 a2 o2 (single_step _ _ _ _ _ H P0 E) P R').
Qed.

Lemma finished_run b : forall xs a a' o, runFrom b a xs = Some (a', o) -> work a = 0 -> a_status a = Finished -> a' = a /\ o = [].
Proof.
  induction xs as [|x xs IH]; cbn; intros a a' o R W Fi; [injection R as <- <-; auto|].
  destruct (step b a x) as [[a1 o1]|] eqn:E; [|discriminate]. destruct (finished_never _ _ _ _ _ E W Fi) as [-> ->].
  destruct (runFrom b a xs) as [[a2 o2]|] eqn:R'; [|discriminate]. injection R as <- <-.
  destruct (IH a a2 o2 R' W Fi) as [-> ->]. auto.
Qed.

(** ** After a click on "Disconnect" *)

(** all work is for aborted subscriptions, and there is work *)
Definition Aborted (a : app) (i : nat) : Prop := exists c, nth_error (a_subs a) i = Some c /\ c_aborted c = true.
Definition Stuck (a : app) : Prop :=
  (a_status a = Connected \/ a_status a = Connecting) /\ work a = 1 /\
  (forall i p, In (i, p) (a_active a) -> Aborted a i) /\ (forall i, In i (a_timers a) -> Aborted a i).

Lemma aborted_not_live a k p i : (forall i p, In (i, p) (a_active a) -> Aborted a i) -> live k p a = Some i -> False.
Proof.
  intros A H. apply live_nth in H. destruct H as (N & c & C & F). destruct (A i p (nth_error_In _ _ N)) as (c' & C' & T). congruence.
Qed.

Lemma one_in {A} (l : list A) k x : List.length l <= 1 -> nth_error l k = Some x -> k = 0 /\ l = [x].
Proof.
  destruct l as [|y [|z l]]; cbn; intros L N; [destruct k; discriminate| |lia].
  destruct k as [|k]; [injection N as ->; auto|]. destruct k; discriminate N.
Qed.

Lemma replaceAt_self {A} (l : list A) : forall k x, nth_error (replaceAt k x l) k = if k <? List.length l then Some x else None.
Proof. induction l as [|y l IH]; intros [|k] x; cbn; try reflexivity. apply IH. Qed.
Lemma replaceAt_other {A} (l : list A) : forall k x j, j <> k -> nth_error (replaceAt k x l) j = nth_error l j.
Proof. induction l as [|y l IH]; intros [|k] x [|j] N; cbn; try reflexivity; try congruence. apply IH. congruence. Qed.

Lemma abort_keeps a i : Aborted a i -> Aborted (abort a) i.
Proof.
  intros (c & C & T). unfold Aborted, abort. set (k := List.length (a_subs a) - 1).
  destruct (nth_error (a_subs a) k) as [d|] eqn:D; [|eauto]. cbn [a_subs].
  destruct (Nat.eq_dec i k) as [->|Ne]; [|rewrite replaceAt_other by exact Ne; eauto].
  rewrite replaceAt_self. assert (k < List.length (a_subs a)) by (apply nth_error_Some; congruence).
  destruct (Nat.ltb_spec k (List.length (a_subs a))); [|lia]. eauto.
Qed.

Lemma stuck_step a x a' o : Stuck a -> step false a x = Some (a', o) ->
  Stuck a' /\ a_messages a' = a_messages a /\ receivedIn o = [] /\ ~ In Opened o.
Proof.
  intros (St & W & A & T) E. unfold work in W.
  assert (Fail : forall k i p code, nth_error (a_active a) k = Some (i, p) -> code = None \/ code = Some (-9)%Z ->
    Some (onError code i (ended k a)) = Some (a', o) -> Stuck a' /\ a_messages a' = a_messages a /\ receivedIn o = [] /\ ~ In Opened o).
  { intros k i p code N C E'. destruct (one_in (a_active a) k (i, p)) as [-> Ea]; [lia|exact N|]. rewrite Ea in W. cbn in W.
    destruct (a_timers a) as [|t l] eqn:Et; [|cbn in W; lia].
    assert (a' = App (a_messages a) (a_last a) Connecting (S (a_retry a)) (a_subs a) [] [i] /\ o = [Scheduled i (backoff (a_retry a))]) as [-> ->].
    { destruct C as [->| ->]; cbn in E'; injection E' as <- <-; rewrite Et, Ea; split; reflexivity. }
    split; [|split; [reflexivity|split; [reflexivity|cbn; intuition discriminate]]]. split; [right; reflexivity|]. split; [reflexivity|].
    split; [intros ? ? []|]. intros j [<-|[]]. apply (A i p). rewrite Ea. left. reflexivity. }
  assert (Keep : Some (a, []) = Some (a', o) -> Stuck a' /\ a_messages a' = a_messages a /\ receivedIn o = [] /\ ~ In Opened o).
  { intros [= <- <-]. split; [|auto]. split; [exact St|]. split; [exact W|]. split; assumption. }
  unfold step in E. destruct x.
  - destruct (running k Fetching a) as [[i ab]|] eqn:R; [|discriminate]. apply running_nth in R. destruct R as [N _].
    apply (Fail k i Fetching None); auto.
  - destruct (live k Fetching a) eqn:R; [|discriminate]. destruct (aborted_not_live _ _ _ _ A R).
  - destruct (live k Fetching a) eqn:R; [|discriminate]. destruct (aborted_not_live _ _ _ _ A R).
  - destruct (live k Reading a) eqn:R; [|discriminate]. destruct (aborted_not_live _ _ _ _ A R).
  - destruct (live k Reading a) eqn:R; [|discriminate]. destruct (aborted_not_live _ _ _ _ A R).
  - destruct (live k Reading a) eqn:R; [|discriminate]. destruct (aborted_not_live _ _ _ _ A R).
  - destruct (live k Reading a) eqn:R; [|discriminate]. destruct (aborted_not_live _ _ _ _ A R).
  - destruct (running k Reading a) as [[i ab]|] eqn:R; [|discriminate]. apply running_nth in R. destruct R as [N _].
    rewrite andb_false_r in E. apply (Fail k i Reading (Some (-9)%Z)); auto.
  - destruct (live k Reading a) eqn:R; [|discriminate]. destruct (aborted_not_live _ _ _ _ A R).
  - destruct (nth_error (a_timers a) j) as [i|] eqn:N; [|discriminate].
    destruct (one_in (a_timers a) j i) as [-> Et]; [lia|exact N|]. rewrite Et in W. cbn in W.
    destruct (a_active a) as [|t l] eqn:Ea; [|cbn in W; lia].
    destruct (T i) as (c & C & Ab); [rewrite Et; left; reflexivity|].
    unfold fetch in E. cbn [a_subs] in E. rewrite C in E. injection E as <- <-. unfold withActive. cbn.
    split; [|split; [reflexivity|split; [reflexivity|intuition discriminate]]].
    split; [exact St|]. unfold work. cbn. rewrite ?Ea, ?Et. split; [reflexivity|]. split; [|intros ? []].
    intros j p [[= <- <-]|[]]. exists c. auto.
  - unfold click in E. destruct St as [St|St]; rewrite St in E; [|exact (Keep E)]. injection E as <- <-.
    destruct (abort_work a) as (Ew & Ea & Et & Es & Em). split; [|auto]. split; [rewrite Es; auto|]. split; [rewrite Ew; exact W|].
    split; [intros i p I; rewrite Ea in I; apply abort_keeps, (A i p I)|intros i I; rewrite Et in I; apply abort_keeps, (T i I)].
  - unfold submit in E. destruct (a_status a) eqn:Es; try exact (Keep E). destruct (String.eqb text ""); [exact (Keep E)|].
    injection E as <- <-. split; [|split; [reflexivity|split; [reflexivity|cbn; intuition discriminate]]].
    split; [left; exact Es|]. split; [exact W|]. split; assumption.
Qed.

Lemma stuck_run : forall xs a a' o, Stuck a -> runFrom false a xs = Some (a', o) ->
  Stuck a' /\ a_messages a' = a_messages a /\ receivedIn o = [] /\ ~ In Opened o.
Proof.
  induction xs as [|x xs IH]; cbn; intros a a' o H R; [injection R as <- <-; auto|].
  destruct (step false a x) as [[a1 o1]|] eqn:E; [|discriminate].
  destruct (runFrom false a1 xs) as [[a2 o2]|] eqn:R'; [|discriminate]. injection R as <- <-.
  destruct (stuck_step _ _ _ _ H E) as (H1 & M1 & R1 & O1). destruct (IH _ _ _ H1 R') as (H2 & M2 & R2 & O2).
  split; [exact H2|]. split; [congruence|]. split; [rewrite received_app, R1, R2; reflexivity|].
  intros I. apply in_app_iff in I. tauto.
Qed.
