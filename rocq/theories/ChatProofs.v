(** Invariants of the chat server. *)

From Coq Require Import List String Arith Bool Lia.
From Verif Require Import Chat ChatSpec.
Import ListNotations.
Local Open Scope list_scope.

(** ** Lists *)

Lemma run_of_nil : forall ms k, run_of ms k [].
Proof. intros ms k. exists (skipn k ms). reflexivity. Qed.

Lemma skipn_snoc : forall (A : Type) (l : list A) k x,
  k <= List.length l -> skipn k (l ++ [x]) = skipn k l ++ [x].
Proof.
  intros A l k x Hk. rewrite skipn_app. replace (k - List.length l) with 0 by lia. reflexivity.
Qed.

Lemma run_of_more : forall ms k part x,
  k + List.length part <= List.length ms -> run_of ms k part -> run_of (ms ++ x) k part.
Proof.
  intros ms k part x Hl [rest H]. exists (rest ++ x). rewrite skipn_app, H.
  replace (k - List.length ms) with 0 by lia. simpl. rewrite <- app_assoc. reflexivity.
Qed.

Lemma run_of_snoc : forall ms k part m,
  run_of ms k part -> nth_error ms (k + List.length part) = Some m -> run_of ms k (part ++ [m]).
Proof.
  intros ms k part m [rest H] Hn.
  assert (Hr : nth_error rest 0 = Some m).
  { rewrite <- (firstn_skipn k ms), H in Hn.
    assert (Hk : k <= List.length ms).
    { destruct (Nat.le_gt_cases k (List.length ms)); [assumption|exfalso].
      rewrite skipn_all2 in H by lia. destruct part; [|discriminate]. simpl in *.
      rewrite firstn_all2 in Hn by lia. destruct rest; [|discriminate].
      rewrite app_nil_r in Hn. rewrite (proj2 (nth_error_None ms (k + 0))) in Hn by lia. discriminate. }
    rewrite nth_error_app2 in Hn by (rewrite firstn_length; lia).
    rewrite firstn_length, Nat.min_l in Hn by lia.
    replace (k + List.length part - k) with (List.length part) in Hn by lia.
    rewrite nth_error_app2 in Hn by lia. rewrite Nat.sub_diag in Hn. exact Hn. }
  destruct rest as [|y rest]; [discriminate|]. injection Hr as ->.
  exists rest. rewrite H, <- app_assoc. reflexivity.
Qed.

(** ** Runs *)

Lemma steps_trans : forall size s0 tr1 s1, steps size s0 tr1 s1 ->
  forall tr2 s2, steps size s1 tr2 s2 -> steps size s0 (tr1 ++ tr2) s2.
Proof.
  intros size s0 tr1 s1 H1 tr2 s2 H2. induction H2 as [|tr s e s' H2 IH Hs].
  - rewrite app_nil_r. exact H1.
  - rewrite app_assoc. eapply steps_step; eassumption.
Qed.

Lemma emit_last : forall e (tr tr1 : list event) x, tr ++ emit e = tr1 ++ [x] ->
  (e = Some x /\ tr = tr1) \/ (e = None /\ tr = tr1 ++ [x]).
Proof.
  intros [y|] tr tr1 x H; simpl in H.
  - apply app_inj_tail in H. destruct H as [-> ->]. now left.
  - rewrite app_nil_r in H. now right.
Qed.

(** A run in which [e] is seen passes through the moment of [e]. *)
Lemma steps_split : forall size s0 tr s, steps size s0 tr s ->
  forall tr1 e tr2, tr = tr1 ++ e :: tr2 ->
  exists s1 s2, steps size s0 tr1 s1 /\ step size s1 (Some e) s2 /\ steps size s2 tr2 s.
Proof.
  intros size s0 tr s H. induction H as [|tr s x s' H IH Hs]; intros tr1 e tr2 Heq.
  - destruct tr1; discriminate.
  - destruct x as [y|]; simpl in *.
    + destruct (exists_last (l := e :: tr2)) as [tr3 [z Hz]]; [discriminate|].
      rewrite Hz, app_assoc in Heq. apply app_inj_tail in Heq. destruct Heq as [-> ->].
      destruct tr3 as [|e' tr3].
      * simpl in Hz. injection Hz as -> ->. exists s, s'. rewrite app_nil_r in H.
        repeat split; [exact H|exact Hs|constructor].
      * simpl in Hz. injection Hz as -> ->. destruct (IH tr1 e' tr3 eq_refl) as [s1 [s2 [A [B C]]]].
        exists s1, s2. repeat split; [exact A|exact B|].
        apply (steps_step size s2 tr3 s (Some z) s' C Hs).
    + rewrite app_nil_r in Heq. destruct (IH tr1 e tr2 Heq) as [s1 [s2 [A [B C]]]].
      exists s1, s2. repeat split; [exact A|exact B|].
      replace tr2 with (tr2 ++ emit None) by apply app_nil_r. eapply steps_step; eassumption.
Qed.

(** ** The invariant *)

(** The messages written by goroutine [i]. *)
Definition by_ (i : nat) (ws : list (nat * message)) : list message :=
  map snd (filter (fun x => Nat.eqb (fst x) i) ws).

Lemma by_snoc : forall i ws j m,
  by_ i (ws ++ [(j, m)]) = by_ i ws ++ (if Nat.eqb j i then [m] else []).
Proof.
  intros. unfold by_. rewrite filter_app, map_app. simpl. destruct (Nat.eqb j i); reflexivity.
Qed.

(** The goroutine holds the lock. *)
Definition holds (p : pc) : Prop :=
  match p with PBuild _ _ _ _ | PIncr _ _ | PWrite _ _ | PUnlock _ => True | _ => False end.

Definition said (u t : string) (m : message) : Prop := msg_user m = u /\ msg_text m = t.

(** The messages [ws] that a goroutine which is to say [u], [t] and go on with [k] has written before
    it starts to. *)
Definition sending (c : call) (u t : string) (k : cont) (ws : list message) : Prop :=
  match c, k with
  | SendMessage u' t', KReturn => u = u' /\ t = t' /\ ws = []
  | SubscribeMessages u' l', KSubscribe u0 l0 =>
      u0 = u' /\ l0 = l' /\ u' <> "" /\ u = "" /\ t = joined u' /\ ws = []
  | SubscribeMessages u' _, KResult r =>
      u' <> "" /\ u = "" /\ t = left_ u' /\ r <> Ok /\ r <> EmptyUsername /\
      exists m, ws = [m] /\ said "" (joined u') m
  | CloseServer, KClose => u = "SYSTEM" /\ t = "Server shutting down..." /\ ws = []
  | _, _ => False
  end%string.

(** What a goroutine executing call [c] has written when it is at [p]. *)
Definition okThread (c : call) (ws : list message) (p : pc) : Prop :=
  match p with
  | PNow u t k | PLock u t _ k | PBuild u t _ k => sending c u t k ws
  | PIncr m k | PWrite m k => sending c (msg_user m) (msg_text m) k ws
  | PUnlock k => exists ws' m, ws = ws' ++ [m] /\ sending c (msg_user m) (msg_text m) k ws'
  | PEntry u l => c = SubscribeMessages u l /\ ws = []
  | PSub u l | PSkip u l _ =>
      c = SubscribeMessages u l /\ u <> ""%string /\ exists m, ws = [m] /\ said "" (joined u) m
  | PStream u _ =>
      (exists l, c = SubscribeMessages u l) /\ u <> ""%string /\
      exists m, ws = [m] /\ said "" (joined u) m
  | PSwitch u r =>
      (exists l, c = SubscribeMessages u l) /\ u <> ""%string /\ r <> Ok /\ r <> EmptyUsername /\
      exists m, ws = [m] /\ said "" (joined u) m
  | PClose => c = CloseServer /\ exists m, ws = [m] /\ said "SYSTEM" "Server shutting down..." m
  | PReturn r =>
      match c with
      | SendMessage u t => r = Ok /\ exists m, ws = [m] /\ said u t m
      | SubscribeMessages u _ =>
          (u = ""%string /\ r = EmptyUsername /\ ws = []) \/
          (u <> ""%string /\ r <> Ok /\ r <> EmptyUsername /\
           exists m m', ws = [m; m'] /\ said "" (joined u) m /\ said "" (left_ u) m')
      | CloseServer => r = Ok /\ exists m, ws = [m] /\ said "SYSTEM" "Server shutting down..." m
      end
  | PDone => True
  end.

(** The result StreamFinished, once decided. *)
Definition finished (p : pc) : Prop :=
  match p with
  | PSwitch _ StreamFinished | PReturn StreamFinished => True
  | PNow _ _ k | PLock _ _ _ k | PBuild _ _ _ k | PIncr _ k | PWrite _ k | PUnlock k =>
      k = KResult StreamFinished
  | _ => False
  end.

(** The time a goroutine has read. *)
Definition nowOf (p : pc) : option nat :=
  match p with
  | PLock _ _ now _ | PBuild _ _ now _ => Some now
  | PIncr m _ | PWrite m _ => Some (msg_time m)
  | _ => None
  end.

Record inv (tr : list event) (s : state) : Prop := Inv {
  inv_ids : numbered (history s);
  inv_lock : forall i p, thread s i = Some p -> holds p -> mu s = Some i;
  inv_mu : forall i, mu s = Some i -> exists p, thread s i = Some p /\ holds p;
  inv_free : mu s = None -> nextId s = List.length (written s);
  inv_next : forall i p, thread s i = Some p ->
    match p with
    | PBuild _ _ _ _ | PUnlock _ => nextId s = List.length (written s)
    | PIncr m _ => nextId s = List.length (written s) /\ msg_id m = List.length (written s)
    | PWrite m _ => nextId s = S (List.length (written s)) /\ msg_id m = List.length (written s)
    | _ => True
    end;
  inv_none : forall i, thread s i = None ->
    (forall c, ~ In (ECall i c) tr) /\ delivered i tr = [] /\ (forall r, ~ In (ERet i r) tr) /\
    by_ i (written s) = [];
  inv_call : forall i p, thread s i = Some p ->
    exists c, In (ECall i c) tr /\ (forall c', In (ECall i c') tr -> c' = c) /\
      okThread c (by_ i (written s)) p;
  inv_ret : forall i r, In (ERet i r) tr ->
    thread s i = Some PDone /\ (r = StreamFinished -> closed s = true) /\
    exists c, In (ECall i c) tr /\ okThread c (by_ i (written s)) (PReturn r);
  inv_fin : forall i p, thread s i = Some p -> finished p -> closed s = true;
  inv_close : closed s = true -> exists k, In (ECall k CloseServer) tr;
  inv_time : forall m, In m (history s) -> msg_time m <= clock s;
  inv_now : forall i p n, thread s i = Some p -> nowOf p = Some n -> n <= clock s;
  inv_msg : forall i m, In (EMsg i m) tr -> nth_error (history s) (msg_id m) = Some m }.

Lemma setPc_same : forall s i p, thread (setPc s i p) i = Some p.
Proof. intros. simpl. rewrite Nat.eqb_refl. reflexivity. Qed.

Lemma setPc_other : forall s i p j, j <> i -> thread (setPc s i p) j = thread s j.
Proof. intros s i p j H. simpl. apply Nat.eqb_neq in H. rewrite H. reflexivity. Qed.

Lemma delivered_app : forall i a b, delivered i (a ++ b) = delivered i a ++ delivered i b.
Proof.
  induction a as [|e a IH]; intros b; simpl; [reflexivity|].
  destruct e as [j c|j m|j r]; rewrite ?IH; try reflexivity. destruct (Nat.eqb j i); reflexivity.
Qed.

Lemma inv_initial : inv [] initial.
Proof.
  constructor; simpl; try discriminate; try contradiction; auto.
  intros k m H. destruct k; discriminate.
Qed.

(** ** The invariant is kept *)

(** Events that are neither calls nor returns. *)
Definition plain (s : state) (e : option event) : Prop :=
  match e with
  | None => True
  | Some (EMsg i m) => thread s i <> None /\ nth_error (history s) (msg_id m) = Some m
  | _ => False
  end.

Lemma plain_call : forall s e tr i c, plain s e -> (In (ECall i c) (tr ++ emit e) <-> In (ECall i c) tr).
Proof.
  intros s e tr i c H. rewrite in_app_iff. destruct e as [[j c'|j m|j r]|]; simpl in *; intuition discriminate.
Qed.

Lemma plain_ret : forall s e tr i r, plain s e -> (In (ERet i r) (tr ++ emit e) <-> In (ERet i r) tr).
Proof.
  intros s e tr i r H. rewrite in_app_iff. destruct e as [[j c'|j m|j r']|]; simpl in *; intuition discriminate.
Qed.

Lemma plain_delivered : forall s e tr i, plain s e -> thread s i = None ->
  delivered i (tr ++ emit e) = delivered i tr.
Proof.
  intros s e tr i H Hi. rewrite delivered_app. destruct e as [[j c'|j m|j r']|]; simpl in *;
    try contradiction; try apply app_nil_r.
  destruct (Nat.eqb_spec j i) as [->|_]; [|apply app_nil_r]. destruct H as [H _]. congruence.
Qed.

Lemma plain_msg : forall s e tr i m, plain s e ->
  (forall i m, In (EMsg i m) tr -> nth_error (history s) (msg_id m) = Some m) ->
  In (EMsg i m) (tr ++ emit e) -> nth_error (history s) (msg_id m) = Some m.
Proof.
  intros s e tr i m H Hm. rewrite in_app_iff. intros [Hi|Hi]; [eauto|].
  destruct e as [[j c'|j m'|j r']|]; simpl in *; try contradiction.
  destruct Hi as [Hi|[]]. injection Hi as -> ->. apply H.
Qed.

(** A step of goroutine [i] that may also change the lock, the counter and the flag, but writes no
    message. *)
Lemma inv_moves : forall tr s e s' i p q,
  inv tr s -> thread s i = Some p -> p <> PDone -> q <> PDone -> plain s e ->
  written s' = written s -> clock s' = clock s ->
  (forall j, thread s' j = if Nat.eqb j i then Some q else thread s j) ->
  (* the lock *)
  (holds q -> mu s' = Some i) ->
  (mu s' = mu s \/ (mu s = None /\ mu s' = Some i) \/ (mu s = Some i /\ mu s' = None)) ->
  (mu s' = Some i -> holds q) ->
  (holds p -> mu s = Some i) ->
  (* the counter *)
  (nextId s' = nextId s \/ holds p) ->
  (mu s' = None -> nextId s' = List.length (written s)) ->
  match q with
  | PBuild _ _ _ _ | PUnlock _ => nextId s' = List.length (written s)
  | PIncr m _ => nextId s' = List.length (written s) /\ msg_id m = List.length (written s)
  | PWrite m _ => nextId s' = S (List.length (written s)) /\ msg_id m = List.length (written s)
  | _ => True
  end ->
  (* the call *)
  (forall c, okThread c (by_ i (written s)) p -> okThread c (by_ i (written s)) q) ->
  (finished q -> closed s' = true) ->
  (closed s = true -> closed s' = true) ->
  (closed s' = true -> closed s = true \/ exists k, In (ECall k CloseServer) tr) ->
  (forall n, nowOf q = Some n -> n <= clock s) ->
  inv (tr ++ emit e) s'.
Proof.
  intros tr s e s' i p q I Hp Hpd Hqd He Hw Hck Ht Hq1 Hmu Hq2 Hp1 Hnx Hfree Hq3 Hok Hfin Hcl1 Hcl2 Hnow.
  assert (Hh : history s' = history s) by (unfold history; rewrite Hw; reflexivity).
  assert (Hin : i = i) by reflexivity.
  assert (Hother : forall j pj, j <> i -> thread s j = Some pj -> holds pj -> mu s = Some j /\ mu s' = Some j).
  { intros j pj Hj Hpj Hh'. assert (Hm := inv_lock _ _ I _ _ Hpj Hh'). split; [exact Hm|].
    destruct Hmu as [H|[[H _]|[H _]]]; congruence. }
  constructor.
  - rewrite Hh. apply (inv_ids _ _ I).
  - intros j pj. rewrite Ht. destruct (Nat.eqb_spec j i) as [->|Hj].
    + intros [= <-]. exact Hq1.
    + intros Hpj Hh'. eapply Hother; eassumption.
  - intros j Hj. rewrite Ht. destruct (Nat.eqb_spec j i) as [->|Hji].
    + exists q. split; [reflexivity|]. apply Hq2. exact Hj.
    + apply (inv_mu _ _ I). destruct Hmu as [H|[[H H']|[H H']]]; congruence.
  - rewrite Hw. exact Hfree.
  - intros j pj. rewrite Ht, Hw. destruct (Nat.eqb_spec j i) as [->|Hj].
    + intros [= <-]. exact Hq3.
    + intros Hpj. assert (X := inv_next _ _ I _ _ Hpj).
      destruct pj; auto;
        (destruct (Hother _ _ Hj Hpj Logic.I) as [Hm Hm'];
         destruct Hnx as [->|Hx]; [exact X|]; apply Hp1 in Hx; congruence).
  - intros j. rewrite Ht, Hw. destruct (Nat.eqb_spec j i) as [->|Hj]; [discriminate|]. intros Hn.
    destruct (inv_none _ _ I _ Hn) as [A [B [C D]]]. repeat split.
    + intros c. rewrite (plain_call s) by exact He. apply A.
    + rewrite (plain_delivered s); assumption.
    + intros r. rewrite (plain_ret s) by exact He. apply C.
    + exact D.
  - intros j pj. rewrite Ht, Hw. destruct (Nat.eqb_spec j i) as [->|Hj].
    + intros [= <-]. destruct (inv_call _ _ I _ _ Hp) as [c [A [B C]]]. exists c. repeat split.
      * rewrite (plain_call s) by exact He. exact A.
      * intros c'. rewrite (plain_call s) by exact He. apply B.
      * apply Hok. exact C.
    + intros Hpj. destruct (inv_call _ _ I _ _ Hpj) as [c [A [B C]]]. exists c. repeat split.
      * rewrite (plain_call s) by exact He. exact A.
      * intros c'. rewrite (plain_call s) by exact He. apply B.
      * exact C.
  - intros j r. rewrite (plain_ret s) by exact He. intros Hr.
    destruct (inv_ret _ _ I _ _ Hr) as [A [A' [c [B C]]]].
    rewrite Ht, Hw. destruct (Nat.eqb_spec j i) as [->|Hj]; [congruence|].
    repeat split; [exact A|auto|]. exists c. rewrite (plain_call s) by exact He. split; assumption.
  - intros j pj. rewrite Ht. destruct (Nat.eqb_spec j i) as [->|Hj].
    + intros [= <-]. exact Hfin.
    + intros Hpj Hf. apply Hcl1. eapply (inv_fin _ _ I); eassumption.
  - intros Hc. destruct (Hcl2 Hc) as [Hc'|[k Hk]].
    + destruct (inv_close _ _ I Hc') as [k Hk]. exists k. rewrite (plain_call s) by exact He. exact Hk.
    + exists k. rewrite (plain_call s) by exact He. exact Hk.
  - rewrite Hh, Hck. apply (inv_time _ _ I).
  - intros j pj n. rewrite Ht, Hck. destruct (Nat.eqb_spec j i) as [->|Hj].
    + intros [= <-]. apply Hnow.
    + apply (inv_now _ _ I).
  - intros j m. rewrite Hh. apply (plain_msg s); [exact He|]. apply (inv_msg _ _ I).
Qed.

(** A step of goroutine [i] alone. *)
Lemma inv_local : forall tr s e i p q,
  inv tr s -> thread s i = Some p -> p <> PDone -> q <> PDone -> plain s e ->
  (holds q <-> holds p) ->
  match q with
  | PBuild _ _ _ _ | PUnlock _ => nextId s = List.length (written s)
  | PIncr m _ => nextId s = List.length (written s) /\ msg_id m = List.length (written s)
  | PWrite m _ => nextId s = S (List.length (written s)) /\ msg_id m = List.length (written s)
  | _ => True
  end ->
  (forall c, okThread c (by_ i (written s)) p -> okThread c (by_ i (written s)) q) ->
  (finished q -> closed s = true) ->
  (forall n, nowOf q = Some n -> n <= clock s) ->
  inv (tr ++ emit e) (setPc s i q).
Proof.
  intros tr s e i p q I Hp Hpd Hqd He Hh Hq Hok Hf Hn.
  eapply inv_moves with (i := i) (p := p) (q := q) (s := s); eauto.
  - intros H. apply (inv_lock _ _ I _ _ Hp). apply Hh. exact H.
  - simpl. intros H. apply Hh. destruct (inv_mu _ _ I _ H) as [p' [A B]]. congruence.
  - intros H. apply (inv_lock _ _ I _ _ Hp). exact H.
  - exact (inv_free _ _ I).
Qed.

(** Writing a message. *)
Lemma inv_write : forall tr s i m k, inv tr s -> thread s i = Some (PWrite m k) ->
  inv tr (setPc (addMsg s i m) i (PUnlock k)).
Proof.
  intros tr s i m k I Hp.
  destruct (inv_next _ _ I _ _ Hp) as [Hnx Hid].
  assert (Hmu : mu s = Some i) by (apply (inv_lock _ _ I _ _ Hp); exact Logic.I).
  assert (Hlen : List.length (written s ++ [(i, m)]) = S (List.length (written s)))
    by (rewrite app_length; simpl; lia).
  assert (Hhist : history (setPc (addMsg s i m) i (PUnlock k)) = history s ++ [m])
    by (unfold history; simpl; rewrite map_app; reflexivity).
  assert (Hhl : List.length (history s) = List.length (written s)) by (unfold history; apply map_length).
  assert (Hlone : forall j p, j <> i -> thread s j = Some p -> ~ holds p).
  { intros j p Hj Hpj Hh. assert (X := inv_lock _ _ I _ _ Hpj Hh). congruence. }
  constructor.
  - rewrite Hhist. intros n x Hn. destruct (Nat.lt_ge_cases n (List.length (history s))) as [Hlt|Hge].
    + rewrite nth_error_app1 in Hn by exact Hlt. apply (inv_ids _ _ I _ _ Hn).
    + rewrite nth_error_app2 in Hn by exact Hge.
      destruct (n - List.length (history s)) eqn:Hd; simpl in Hn; [|destruct n0; discriminate].
      injection Hn as <-. lia.
  - intros j p. simpl. destruct (Nat.eqb_spec j i) as [->|Hj]; [intros; assumption|].
    intros Hpj Hh. exfalso. eapply Hlone; eassumption.
  - intros j Hj. simpl in *. rewrite Hmu in Hj. injection Hj as <-. rewrite Nat.eqb_refl.
    eexists. split; [reflexivity|exact Logic.I].
  - simpl. congruence.
  - intros j p. simpl. rewrite Hlen. destruct (Nat.eqb_spec j i) as [->|Hj].
    + intros [= <-]. exact Hnx.
    + intros Hpj. assert (X := Hlone _ _ Hj Hpj). destruct p; simpl in X; tauto.
  - intros j. simpl. destruct (Nat.eqb_spec j i) as [->|Hj]; [discriminate|]. intros Hn.
    destruct (inv_none _ _ I _ Hn) as [A [B [C D]]]. repeat split; auto.
    rewrite by_snoc, D. destruct (Nat.eqb_spec i j); [congruence|reflexivity].
  - intros j p. simpl. destruct (Nat.eqb_spec j i) as [->|Hj].
    + intros [= <-]. destruct (inv_call _ _ I _ _ Hp) as [c [A [B C]]]. exists c. repeat split; auto.
      simpl in *. exists (by_ i (written s)), m. rewrite by_snoc, Nat.eqb_refl. split; [reflexivity|exact C].
    + intros Hpj. destruct (inv_call _ _ I _ _ Hpj) as [c [A [B C]]]. exists c. repeat split; auto.
      rewrite by_snoc. destruct (Nat.eqb_spec i j); [congruence|]. rewrite app_nil_r. exact C.
  - intros j r Hr. destruct (inv_ret _ _ I _ _ Hr) as [A [A' [c [B C]]]].
    assert (Hj : j <> i) by congruence. simpl. rewrite (proj2 (Nat.eqb_neq j i) Hj).
    repeat split; auto. exists c. split; [exact B|]. rewrite by_snoc.
    destruct (Nat.eqb_spec i j); [congruence|]. rewrite app_nil_r. exact C.
  - intros j p. simpl. destruct (Nat.eqb_spec j i) as [->|Hj].
    + intros [= <-] Hf. apply (inv_fin _ _ I _ _ Hp). exact Hf.
    + apply (inv_fin _ _ I).
  - exact (inv_close _ _ I).
  - intros x. rewrite Hhist, in_app_iff. simpl. intros [Hx|[<-|[]]].
    + apply (inv_time _ _ I). exact Hx.
    + apply (inv_now _ _ I _ _ _ Hp). reflexivity.
  - intros j p n. simpl. destruct (Nat.eqb_spec j i) as [->|Hj].
    + intros [= <-]. discriminate.
    + apply (inv_now _ _ I).
  - intros j x Hx. rewrite Hhist. assert (X := inv_msg _ _ I _ _ Hx).
    rewrite nth_error_app1; [exact X|]. apply nth_error_Some. congruence.
Qed.

(** Returning. *)
Lemma inv_returns : forall tr s i r, inv tr s -> thread s i = Some (PReturn r) ->
  inv (tr ++ [ERet i r]) (setPc s i PDone).
Proof.
  intros tr s i r I Hp.
  assert (Hmu : mu s <> Some i).
  { intros H. destruct (inv_mu _ _ I _ H) as [p [A B]]. rewrite Hp in A. injection A as <-. exact B. }
  assert (Hcall : forall j c, In (ECall j c) (tr ++ [ERet i r]) <-> In (ECall j c) tr).
  { intros j c. rewrite in_app_iff. simpl. intuition discriminate. }
  constructor.
  - exact (inv_ids _ _ I).
  - intros j p. simpl. destruct (Nat.eqb_spec j i) as [->|Hj].
    + intros [= <-] [].
    + apply (inv_lock _ _ I).
  - intros j Hj. simpl in *. destruct (Nat.eqb_spec j i) as [->|Hji]; [contradiction|].
    apply (inv_mu _ _ I _ Hj).
  - exact (inv_free _ _ I).
  - intros j p. simpl. destruct (Nat.eqb_spec j i) as [->|Hj].
    + intros [= <-]. exact Logic.I.
    + apply (inv_next _ _ I).
  - intros j. simpl. destruct (Nat.eqb_spec j i) as [->|Hj]; [discriminate|]. intros Hn.
    destruct (inv_none _ _ I _ Hn) as [A [B [C D]]]. repeat split; auto.
    + intros c. rewrite Hcall. apply A.
    + rewrite delivered_app, B. reflexivity.
    + intros r'. rewrite in_app_iff. simpl. intros [H|[H|[]]]; [eapply C; eassumption|congruence].
  - intros j p. simpl. destruct (Nat.eqb_spec j i) as [->|Hj].
    + intros [= <-]. destruct (inv_call _ _ I _ _ Hp) as [c [A [B C]]]. exists c. repeat split; auto.
      * rewrite Hcall. exact A.
      * intros c'. rewrite Hcall. apply B.
    + intros Hpj. destruct (inv_call _ _ I _ _ Hpj) as [c [A [B C]]]. exists c. repeat split; auto.
      * rewrite Hcall. exact A.
      * intros c'. rewrite Hcall. apply B.
  - intros j r'. rewrite in_app_iff. intros [Hr|Hr].
    + destruct (inv_ret _ _ I _ _ Hr) as [A [A' [c [B C]]]].
      assert (Hj : j <> i) by congruence. simpl. rewrite (proj2 (Nat.eqb_neq j i) Hj).
      repeat split; auto. exists c. rewrite Hcall. split; assumption.
    + simpl in Hr. destruct Hr as [Hr|[]]. injection Hr as <- <-. simpl. rewrite Nat.eqb_refl.
      repeat split; auto.
      * intros ->. apply (inv_fin _ _ I _ _ Hp). exact Logic.I.
      * destruct (inv_call _ _ I _ _ Hp) as [c [A [B C]]]. exists c. rewrite Hcall. split; assumption.
  - intros j p. simpl. destruct (Nat.eqb_spec j i) as [->|Hj].
    + intros [= <-] [].
    + apply (inv_fin _ _ I).
  - intros Hc. destruct (inv_close _ _ I Hc) as [k Hk]. exists k. rewrite Hcall. exact Hk.
  - exact (inv_time _ _ I).
  - intros j p n. simpl. destruct (Nat.eqb_spec j i) as [->|Hj].
    + intros [= <-]. discriminate.
    + apply (inv_now _ _ I).
  - intros j m. rewrite in_app_iff. simpl. intros [H|[H|[]]]; [|discriminate]. apply (inv_msg _ _ I _ _ H).
Qed.

(** A new call. *)
Lemma inv_calls : forall tr s i c, inv tr s -> thread s i = None ->
  inv (tr ++ [ECall i c]) (setPc s i (entry c)).
Proof.
  intros tr s i c I Hp.
  destruct (inv_none _ _ I _ Hp) as [A0 [B0 [C0 D0]]].
  assert (Hcall : forall j c', In (ECall j c') (tr ++ [ECall i c]) <->
                               In (ECall j c') tr \/ (j = i /\ c' = c)).
  { intros j c'. rewrite in_app_iff. simpl. split.
    - intros [H|[H|[]]]; [now left|injection H as <- <-; now right].
    - intros [H|[-> ->]]; auto. }
  assert (Hret : forall j r, In (ERet j r) (tr ++ [ECall i c]) <-> In (ERet j r) tr).
  { intros j r. rewrite in_app_iff. simpl. intuition discriminate. }
  constructor.
  - exact (inv_ids _ _ I).
  - intros j p. simpl. destruct (Nat.eqb_spec j i) as [->|Hj].
    + intros [= <-]. destruct c; intros [].
    + apply (inv_lock _ _ I).
  - intros j Hj. simpl in *. destruct (inv_mu _ _ I _ Hj) as [p [A B]].
    destruct (Nat.eqb_spec j i) as [->|Hji]; [congruence|]. exists p. auto.
  - exact (inv_free _ _ I).
  - intros j p. simpl. destruct (Nat.eqb_spec j i) as [->|Hj].
    + intros [= <-]. destruct c; exact Logic.I.
    + apply (inv_next _ _ I).
  - intros j. simpl. destruct (Nat.eqb_spec j i) as [->|Hj]; [discriminate|]. intros Hn.
    destruct (inv_none _ _ I _ Hn) as [A [B [C D]]]. repeat split; auto.
    + intros c'. rewrite Hcall. intros [H|[H _]]; [eapply A; eassumption|contradiction].
    + rewrite delivered_app, B. reflexivity.
    + intros r. rewrite Hret. apply C.
  - intros j p. simpl. destruct (Nat.eqb_spec j i) as [->|Hj].
    + intros [= <-]. exists c. repeat split.
      * rewrite Hcall. now right.
      * intros c'. rewrite Hcall. intros [H|[_ H]]; [exfalso; eapply A0; eassumption|exact H].
      * rewrite D0. destruct c; simpl; auto.
    + intros Hpj. destruct (inv_call _ _ I _ _ Hpj) as [c' [A [B C]]]. exists c'. repeat split; auto.
      * rewrite Hcall. now left.
      * intros c''. rewrite Hcall. intros [H|[H _]]; [apply B; exact H|contradiction].
  - intros j r. rewrite Hret. intros Hr. destruct (inv_ret _ _ I _ _ Hr) as [A [A' [c' [B C]]]].
    assert (Hj : j <> i) by congruence. simpl. rewrite (proj2 (Nat.eqb_neq j i) Hj).
    repeat split; auto. exists c'. rewrite Hcall. split; [now left|assumption].
  - intros j p. simpl. destruct (Nat.eqb_spec j i) as [->|Hj].
    + intros [= <-]. destruct c; simpl; try contradiction; discriminate.
    + apply (inv_fin _ _ I).
  - intros Hc. destruct (inv_close _ _ I Hc) as [k Hk]. exists k. rewrite Hcall. now left.
  - exact (inv_time _ _ I).
  - intros j p n. simpl. destruct (Nat.eqb_spec j i) as [->|Hj].
    + intros [= <-]. destruct c; discriminate.
    + apply (inv_now _ _ I).
  - intros j m. rewrite in_app_iff. simpl. intros [H|[H|[]]]; [|discriminate]. apply (inv_msg _ _ I _ _ H).
Qed.

Lemma inv_ticks : forall tr s n, inv tr s -> clock s <= n -> inv tr (setClock s n).
Proof.
  intros tr s n I Hn. destruct I. constructor; auto.
  - intros m Hm. simpl. specialize (inv_time0 m Hm). lia.
  - intros i p k Hp Hk. simpl. specialize (inv_now0 i p k Hp Hk). lia.
Qed.

Lemma numbered_id : forall ms k m, numbered ms -> nth_error ms k = Some m ->
  nth_error ms (msg_id m) = Some m.
Proof. intros ms k m H Hk. rewrite (H _ _ Hk). exact Hk. Qed.

Lemma inv_step : forall size tr s e s', inv tr s -> step size s e s' -> inv (tr ++ emit e) s'.
Proof.
  intros size tr s e s' I H. destruct H as [s i c Hi|s i p e s' Hi Hg|s n Hn].
  - apply inv_calls; assumption.
  - destruct Hg.
    + (* now *) eapply inv_local; eauto; simpl; try discriminate; try tauto.
      * intros ->. apply (inv_fin _ _ I _ _ Hi). reflexivity.
      * intros n [= <-]. lia.
    + (* lock *)
      eapply inv_moves with (i := i) (s := s) (p := PLock u t now k) (q := PBuild u t now k);
        eauto; simpl; try discriminate; try tauto.
      * apply (inv_free _ _ I H).
      * intros ->. apply (inv_fin _ _ I _ _ Hi). reflexivity.
      * intros n [= <-]. apply (inv_now _ _ I _ _ _ Hi). reflexivity.
    + (* build *)
      assert (X := inv_next _ _ I _ _ Hi). simpl in X.
      eapply inv_local; eauto; simpl; try discriminate; try tauto.
      * intros ->. apply (inv_fin _ _ I _ _ Hi). reflexivity.
      * intros n [= <-]. apply (inv_now _ _ I _ _ _ Hi). reflexivity.
    + (* incr *)
      destruct (inv_next _ _ I _ _ Hi) as [X Y].
      assert (Z : mu s = Some i) by (apply (inv_lock _ _ I _ _ Hi); exact Logic.I).
      eapply inv_moves with (i := i) (s := s) (p := PIncr m k) (q := PWrite m k);
        eauto; simpl; try discriminate; try tauto.
      * congruence.
      * split; [lia|exact Y].
      * intros ->. apply (inv_fin _ _ I _ _ Hi). reflexivity.
      * intros n [= <-]. apply (inv_now _ _ I _ _ _ Hi). reflexivity.
    + (* write *) simpl. rewrite app_nil_r. apply inv_write; assumption.
    + (* unlock *)
      assert (X := inv_next _ _ I _ _ Hi). simpl in X.
      assert (Z : mu s = Some i) by (apply (inv_lock _ _ I _ _ Hi); exact Logic.I).
      eapply inv_moves with (i := i) (s := s) (p := PUnlock k) (q := resume k);
        eauto; simpl; try discriminate; try tauto.
      * destruct k; discriminate.
      * destruct k; simpl; tauto.
      * destruct k; exact Logic.I.
      * intros c [ws' [m [E S]]]. rewrite E. destruct c, k; simpl in *; try contradiction.
        -- destruct S as [? [? ->]]. split; [reflexivity|]. exists m. split; [reflexivity|split; assumption].
        -- destruct S as [-> [-> [A [B [C ->]]]]]. repeat split; auto. exists m.
           split; [reflexivity|split; assumption].
        -- destruct S as [A [B [C [D [F [m0 [-> G]]]]]]]. right. repeat split; auto.
           exists m0, m. repeat split; try assumption; apply G.
        -- destruct S as [? [? ->]]. split; [reflexivity|]. exists m. split; [reflexivity|split; assumption].
      * intros F. apply (inv_fin _ _ I _ _ Hi). destruct k; simpl in *; try contradiction.
        destruct r; try contradiction. reflexivity.
      * destruct k; discriminate.
    + (* empty *) eapply inv_local; eauto; simpl; try discriminate; try tauto.
      intros c [-> ->]. left. auto.
    + (* entry *) eapply inv_local; eauto; simpl; try discriminate; try tauto.
      intros c [-> ->]. repeat split; auto.
    + (* sub *) eapply inv_local; eauto; simpl; try discriminate; try tauto.
    + (* skip *) eapply inv_local; eauto; simpl; try discriminate; try tauto.
      intros c [-> [A B]]. eauto.
    + eapply inv_local; eauto; simpl; try discriminate; try tauto.
      intros c [-> [A B]]. eauto.
    + (* msg *) eapply inv_local; eauto; simpl; try discriminate; try tauto.
      split; [congruence|]. eapply numbered_id; [apply (inv_ids _ _ I)|eassumption].
    + (* fail *) eapply inv_local; eauto; simpl; try discriminate; try tauto.
      intros c [[l ->] [A B]]. repeat split; eauto; discriminate.
    + (* slow *) eapply inv_local; eauto; simpl; try discriminate; try tauto.
      intros c [[l ->] [A B]]. repeat split; eauto; discriminate.
    + (* cancel *) eapply inv_local; eauto; simpl; try discriminate; try tauto.
      intros c [[l ->] [A B]]. repeat split; eauto; discriminate.
    + (* closed *) eapply inv_local; eauto; simpl; try discriminate; try tauto.
      intros c [[l ->] [A B]]. repeat split; eauto; discriminate.
    + (* left *) eapply inv_local; eauto; simpl; try discriminate; try tauto.
      * intros c [[l ->] [A [B [C D]]]]. repeat split; auto.
      * intros [= ->]. apply (inv_fin _ _ I _ _ Hi). exact Logic.I.
    + (* close *)
      eapply inv_moves with (i := i) (s := s) (p := PClose) (q := PReturn Ok);
        eauto; simpl; try discriminate; try tauto.
      * intros H. destruct (inv_mu _ _ I _ H) as [p [A B]]. rewrite Hi in A. injection A as <-. exact B.
      * exact (inv_free _ _ I).
      * intros c [-> H]. split; [reflexivity|exact H].
      * intros _. right. destruct (inv_call _ _ I _ _ Hi) as [c [A [B [C D]]]]. subst c. eauto.
    + (* return *) apply inv_returns; assumption.
  - simpl. rewrite app_nil_r. apply inv_ticks; assumption.
Qed.

Theorem inv_run : forall size tr s, run size tr s -> inv tr s.
Proof.
  intros size tr s H. unfold run in H. induction H as [|tr s e s' H IH Hs].
  - exact inv_initial.
  - eapply inv_step; eassumption.
Qed.

(** ** One call, from its beginning *)

Lemma skip_place : forall ms last pos, numbered ms -> pos <= List.length ms ->
  pos + skipWhile (fun m => Nat.leb (msg_id m) last) (skipn pos ms)
  = Nat.max pos (Nat.min (S last) (List.length ms)).
Proof.
  intros ms last pos Hn Hp.
  remember (List.length ms - pos) as d eqn:Hd. revert pos Hp Hd.
  induction d as [|d IH]; intros pos Hp Hd.
  - rewrite skipn_all2 by lia. cbn [skipWhile]. lia.
  - destruct (nth_error ms pos) as [m|] eqn:Hm.
    + assert (Hs : skipn pos ms = m :: skipn (S pos) ms).
      { clear - Hm. revert pos Hm. induction ms as [|x ms IH]; intros [|pos] Hm; try discriminate.
        - injection Hm as ->. reflexivity.
        - simpl in *. apply IH. exact Hm. }
      rewrite Hs. cbn [skipWhile]. rewrite (Hn _ _ Hm).
      destruct (Nat.leb_spec pos last) as [Hl|Hl].
      * rewrite Nat.add_succ_r, <- Nat.add_succ_l. rewrite IH by lia. lia.
      * lia.
    + apply nth_error_None in Hm. lia.
Qed.

(** Where the stream of a call [c] starts: [n0] messages had been written when the call was made,
    [n] are now. *)
Definition okStart (size n0 : nat) (c : call) (st n : nat) : Prop :=
  exists u l w w', c = SubscribeMessages u l /\ n0 <= w /\ w <= w' /\ w' <= n /\
    st = match l with
         | None => w - startBehind size
         | Some last => Nat.max (w - startBehind size) (Nat.min (S last) w')
         end.

Definition okPlace (size n0 : nat) (c : call) (n : nat) (hist del : list message) (p : pc) : Prop :=
  match p with
  | PSkip u l pos => c = SubscribeMessages u l /\ del = [] /\
                     exists w, n0 <= w /\ w <= n /\ pos = w - startBehind size
  | PSub u l => c = SubscribeMessages u l /\ del = []
  | PEntry u l => c = SubscribeMessages u l /\ del = []
  | PNow _ _ (KSubscribe u l) | PLock _ _ _ (KSubscribe u l) | PBuild _ _ _ (KSubscribe u l)
  | PIncr _ (KSubscribe u l) | PWrite _ (KSubscribe u l) | PUnlock (KSubscribe u l) =>
      c = SubscribeMessages u l /\ del = []
  | PStream u pos => exists st, okStart size n0 c st n /\ run_of hist st del /\
                     pos = st + List.length del /\ pos <= n
  | _ => del = [] \/ exists st, okStart size n0 c st n /\ run_of hist st del /\
                     st + List.length del <= n
  end.

Lemma okStart_more : forall size n0 c st n n', n <= n' -> okStart size n0 c st n -> okStart size n0 c st n'.
Proof.
  intros size n0 c st n n' H [u [l [w [w' [A [B [C [D E]]]]]]]]. exists u, l, w, w'.
  repeat split; auto. lia.
Qed.

Lemma okPlace_more : forall size n0 c n hist x del p, n = List.length hist ->
  okPlace size n0 c n hist del p -> okPlace size n0 c (n + List.length x) (hist ++ x) del p.
Proof.
  intros size n0 c n hist x del p Hn H.
  assert (G : forall st, okStart size n0 c st n /\ run_of hist st del /\ st + List.length del <= n ->
              okStart size n0 c st (n + List.length x) /\ run_of (hist ++ x) st del /\
              st + List.length del <= n + List.length x).
  { intros st [A [B C]]. split; [|split].
    - eapply okStart_more; [|exact A]. lia.
    - apply run_of_more; [lia|exact B].
    - lia. }
  destruct p; simpl in *; auto;
    try (destruct k; auto);
    try (destruct H as [H|[st H]]; [now left|right; exists st; apply G; exact H]).
  - destruct H as [A [B [w [C [D E]]]]]. repeat split; auto. exists w. repeat split; auto. lia.
  - destruct H as [st [A [B [C D]]]]. exists st. destruct (G st) as [A' [B' C']].
    { repeat split; auto. lia. }
    repeat split; auto. lia.
Qed.

Record rel (size : nat) (s1 : state) (i : nat) (c : call) (tr : list event) (s : state) : Prop := Rel {
  rel_grow : exists more, written s = written s1 ++ more;
  rel_clock : clock s1 <= clock s;
  rel_now : forall p n, thread s i = Some p -> nowOf p = Some n -> clock s1 <= n;
  rel_time : forall m, In m (by_ i (written s)) -> clock s1 <= msg_time m;
  rel_pc : exists p, thread s i = Some p /\
    okPlace size (List.length (written s1)) c (List.length (written s)) (history s) (delivered i tr) p }.

(** What a step of another goroutine, or of time, does. *)
Lemma step_shape : forall size s e s', step size s e s' ->
  (exists more, written s' = written s ++ more) /\ clock s <= clock s'.
Proof.
  intros size s e s' H. destruct H as [s i c Hi|s i p e s' Hi Hg|s n Hn].
  - simpl. split; [exists []; now rewrite app_nil_r|lia].
  - destruct Hg; simpl; (split; [|lia]); try (exists []; now rewrite app_nil_r). exists [(i, m)]. reflexivity.
  - simpl. split; [exists []; now rewrite app_nil_r|exact Hn].
Qed.

Lemma delivered_other : forall i e tr, (forall m, e <> Some (EMsg i m)) ->
  delivered i (tr ++ emit e) = delivered i tr.
Proof.
  intros i e tr H. rewrite delivered_app. destruct e as [[j c|j m|j r]|]; simpl; try apply app_nil_r.
  destruct (Nat.eqb_spec j i) as [->|_]; [|apply app_nil_r]. exfalso. apply (H m). reflexivity.
Qed.

Lemma history_len : forall s, List.length (history s) = List.length (written s).
Proof. intros. unfold history. apply map_length. Qed.

Lemma by_other : forall i ws j m, j <> i -> by_ i (ws ++ [(j, m)]) = by_ i ws.
Proof.
  intros. rewrite by_snoc. rewrite (proj2 (Nat.eqb_neq j i) H). apply app_nil_r.
Qed.

(** A step of another goroutine keeps the facts about call [i]. *)
Lemma rel_others : forall size s1 i c tr s e s', rel size s1 i c tr s -> step size s e s' ->
  thread s' i = thread s i -> by_ i (written s') = by_ i (written s) ->
  (forall m, e <> Some (EMsg i m)) ->
  rel size s1 i c (tr ++ emit e) s'.
Proof.
  intros size s1 i c tr s e s' R Hs Ht Hb He. destruct (step_shape _ _ _ _ Hs) as [[more Hw] Hc].
  constructor.
  - destruct (rel_grow _ _ _ _ _ _ R) as [m0 H0]. exists (m0 ++ more). rewrite Hw, H0, app_assoc. reflexivity.
  - assert (X := rel_clock _ _ _ _ _ _ R). lia.
  - rewrite Ht. apply (rel_now _ _ _ _ _ _ R).
  - rewrite Hb. apply (rel_time _ _ _ _ _ _ R).
  - destruct (rel_pc _ _ _ _ _ _ R) as [p [A B]]. exists p. rewrite Ht. split; [exact A|].
    rewrite delivered_other by exact He. unfold history. rewrite Hw, map_app, app_length.
    rewrite <- (map_length snd more). apply okPlace_more; [|exact B].
    unfold history. symmetry. apply map_length.
Qed.

(** A step of goroutine [i] itself that writes no message. *)
Lemma rel_own : forall size s1 i c tr s e s' q, rel size s1 i c tr s ->
  written s' = written s -> clock s' = clock s -> thread s' i = Some q ->
  (forall n, nowOf q = Some n -> clock s1 <= n) ->
  okPlace size (List.length (written s1)) c (List.length (written s)) (history s)
          (delivered i (tr ++ emit e)) q ->
  rel size s1 i c (tr ++ emit e) s'.
Proof.
  intros size s1 i c tr s e s' q R Hw Hc Ht Hn Hp. constructor.
  - rewrite Hw. apply (rel_grow _ _ _ _ _ _ R).
  - rewrite Hc. apply (rel_clock _ _ _ _ _ _ R).
  - rewrite Ht. intros p n [= <-]. apply Hn.
  - rewrite Hw. apply (rel_time _ _ _ _ _ _ R).
  - exists q. split; [exact Ht|]. unfold history. rewrite Hw. exact Hp.
Qed.

Lemma rel_step : forall size s1 i c tr0 tr s e s', inv tr0 s -> rel size s1 i c tr s ->
  step size s e s' -> rel size s1 i c (tr ++ emit e) s'.
Proof.
  intros size s1 i c tr0 tr s e s' I R Hs. assert (Hs0 := Hs).
  destruct Hs as [s j c' Hj|s j p e s' Hj Hg|s n Hn].
  - destruct (rel_pc _ _ _ _ _ _ R) as [p [A _]]. assert (Hji : i <> j) by congruence.
    eapply rel_others; eauto; simpl; try discriminate.
    rewrite (proj2 (Nat.eqb_neq i j) Hji). reflexivity.
  - destruct (Nat.eq_dec j i) as [->|Hji].
    + destruct (rel_pc _ _ _ _ _ _ R) as [p' [A B]]. rewrite Hj in A. injection A as <-.
      assert (Hlen := history_len s).
      assert (Hlen1 : List.length (written s1) <= List.length (written s)).
      { destruct (rel_grow _ _ _ _ _ _ R) as [more ->]. rewrite app_length. lia. }
      destruct Hg.
      * (* now *) eapply rel_own; eauto; [simpl; rewrite Nat.eqb_refl; reflexivity| |].
        -- intros n [= <-]. apply (rel_clock _ _ _ _ _ _ R).
        -- rewrite delivered_other by discriminate. exact B.
      * (* lock *) eapply rel_own; eauto; [simpl; rewrite Nat.eqb_refl; reflexivity| |].
        -- intros n [= <-]. apply (rel_now _ _ _ _ _ _ R _ _ Hj eq_refl).
        -- rewrite delivered_other by discriminate. exact B.
      * eapply rel_own; eauto; [simpl; rewrite Nat.eqb_refl; reflexivity| |].
        -- intros n [= <-]. apply (rel_now _ _ _ _ _ _ R _ _ Hj eq_refl).
        -- rewrite delivered_other by discriminate. exact B.
      * eapply rel_own; eauto; [simpl; rewrite Nat.eqb_refl; reflexivity| |].
        -- intros n [= <-]. apply (rel_now _ _ _ _ _ _ R _ _ Hj eq_refl).
        -- rewrite delivered_other by discriminate. exact B.
      * (* write *) constructor; simpl.
        -- destruct (rel_grow _ _ _ _ _ _ R) as [more ->]. exists (more ++ [(i, m)]). now rewrite app_assoc.
        -- apply (rel_clock _ _ _ _ _ _ R).
        -- rewrite Nat.eqb_refl. intros p n [= <-]. discriminate.
        -- intros x. rewrite by_snoc, Nat.eqb_refl, in_app_iff. intros [H|[<-|[]]].
           ++ apply (rel_time _ _ _ _ _ _ R _ H).
           ++ apply (rel_now _ _ _ _ _ _ R _ _ Hj eq_refl).
        -- rewrite Nat.eqb_refl. exists (PUnlock k). split; [reflexivity|].
           rewrite app_nil_r, app_length. unfold history. cbn [written setPc addMsg]. rewrite map_app.
           apply (okPlace_more size (List.length (written s1)) c (List.length (written s)) (history s) [m]
                               (delivered i tr) (PUnlock k)); [symmetry; exact Hlen|]. exact B.
      * (* unlock *) eapply rel_own; eauto; [simpl; rewrite Nat.eqb_refl; reflexivity| |].
        -- destruct k; discriminate.
        -- rewrite delivered_other by discriminate.
           destruct (inv_call _ _ I _ _ Hj) as [c0 [_ [_ [ws' [m0 [_ S]]]]]].
           destruct k; simpl in *; auto.
      * eapply rel_own; eauto; [simpl; rewrite Nat.eqb_refl; reflexivity|discriminate|].
        rewrite delivered_other by discriminate. left. apply B.
      * eapply rel_own; eauto; [simpl; rewrite Nat.eqb_refl; reflexivity|discriminate|].
        rewrite delivered_other by discriminate. exact B.
      * (* sub *) eapply rel_own; eauto; [simpl; rewrite Nat.eqb_refl; reflexivity|discriminate|].
        rewrite delivered_other by discriminate. simpl in *. destruct B as [B1 B2].
        repeat split; auto. exists (List.length (written s)). repeat split; auto.
      * (* skip none *) eapply rel_own; eauto; [simpl; rewrite Nat.eqb_refl; reflexivity|discriminate|].
        rewrite delivered_other by discriminate. simpl in *. destruct B as [B1 [B2 [w [B3 [B4 B5]]]]].
        exists pos. rewrite B2. split; [|split; [apply run_of_nil|split; [simpl; lia|lia]]].
        exists u, None, w, w. repeat split; auto.
      * (* skip some *) eapply rel_own; eauto; [simpl; rewrite Nat.eqb_refl; reflexivity|discriminate|].
        rewrite delivered_other by discriminate. simpl in *. destruct B as [B1 [B2 [w [B3 [B4 B5]]]]].
        rewrite skip_place by (try apply (inv_ids _ _ I); lia).
        exists (Nat.max pos (Nat.min (S last) (List.length (history s)))). rewrite B2.
        split; [|split; [apply run_of_nil|split; [cbn [List.length]; lia|lia]]].
        exists u, (Some last), w, (List.length (written s)). repeat split; auto; lia.
      * (* msg *) eapply rel_own; eauto; [simpl; rewrite Nat.eqb_refl; reflexivity|discriminate|].
        rewrite delivered_app. simpl. rewrite Nat.eqb_refl. simpl in B.
        destruct B as [st [B1 [B2 [B3 B4]]]]. exists st. rewrite app_length. simpl.
        assert (X : pos < List.length (history s)) by (apply nth_error_Some; congruence).
        repeat split; auto; try lia. apply run_of_snoc; [exact B2|]. rewrite <- B3. exact H0.
      * eapply rel_own; eauto; [simpl; rewrite Nat.eqb_refl; reflexivity|discriminate|].
        rewrite delivered_other by discriminate. simpl in *. right.
        destruct B as [st [B1 [B2 [B3 B4]]]]. exists st. repeat split; auto; lia.
      * eapply rel_own; eauto; [simpl; rewrite Nat.eqb_refl; reflexivity|discriminate|].
        rewrite delivered_other by discriminate. simpl in *. right.
        destruct B as [st [B1 [B2 [B3 B4]]]]. exists st. repeat split; auto; lia.
      * eapply rel_own; eauto; [simpl; rewrite Nat.eqb_refl; reflexivity|discriminate|].
        rewrite delivered_other by discriminate. simpl in *. right.
        destruct B as [st [B1 [B2 [B3 B4]]]]. exists st. repeat split; auto; lia.
      * eapply rel_own; eauto; [simpl; rewrite Nat.eqb_refl; reflexivity|discriminate|].
        rewrite delivered_other by discriminate. simpl in *. right.
        destruct B as [st [B1 [B2 [B3 B4]]]]. exists st. repeat split; auto; lia.
      * eapply rel_own; eauto; [simpl; rewrite Nat.eqb_refl; reflexivity|discriminate|].
        rewrite delivered_other by discriminate. exact B.
      * eapply rel_own; eauto; [simpl; rewrite Nat.eqb_refl; reflexivity|discriminate|].
        rewrite delivered_other by discriminate. exact B.
      * eapply rel_own; eauto; [simpl; rewrite Nat.eqb_refl; reflexivity|discriminate|].
        rewrite delivered_other by discriminate. exact B.
    + eapply rel_others; eauto.
      * destruct Hg; simpl; rewrite (proj2 (Nat.eqb_neq i j)) by congruence; reflexivity.
      * destruct Hg; simpl; try reflexivity. apply by_other. congruence.
      * destruct Hg; intros x; try discriminate. intros [= -> ->]. congruence.
  - eapply rel_others; eauto. discriminate.
Qed.

(** The facts about a call, in the state after it was made and ever after. *)
Theorem rel_run : forall size tr1 s1 i c tr2 s,
  run size tr1 s1 -> thread s1 i = None -> steps size (setPc s1 i (entry c)) tr2 s ->
  rel size s1 i c tr2 s.
Proof.
  intros size tr1 s1 i c tr2 s H1 Hi H2.
  assert (I1 := inv_run _ _ _ H1).
  assert (G : steps size (setPc s1 i (entry c)) tr2 s ->
              run size ((tr1 ++ [ECall i c]) ++ tr2) s /\ rel size s1 i c tr2 s).
  { clear H2. intros H2. induction H2 as [|tr s e s' H2 [IHr IH] Hs].
    - split.
      + rewrite app_nil_r. eapply (steps_step _ _ _ _ (Some (ECall i c))); [exact H1|].
        constructor. exact Hi.
      + constructor.
        * exists []. now rewrite app_nil_r.
        * simpl. lia.
        * simpl. rewrite Nat.eqb_refl. intros p n [= <-]. destruct c; discriminate.
        * simpl. destruct (inv_none _ _ I1 _ Hi) as [_ [_ [_ ->]]]. contradiction.
        * simpl. rewrite Nat.eqb_refl. exists (entry c). split; [reflexivity|].
          destruct c; simpl; auto.
    - split.
      + rewrite app_assoc. eapply steps_step; eassumption.
      + exact (rel_step _ _ _ _ _ _ _ _ _ (inv_run _ _ _ IHr) IH Hs). }
  apply G. exact H2.
Qed.

(** A call seen in a run splits it. *)
Theorem call_split : forall size tr1 i c tr2 s, run size (tr1 ++ ECall i c :: tr2) s ->
  exists s1, run size tr1 s1 /\ thread s1 i = None /\ inv tr1 s1 /\
    inv (tr1 ++ ECall i c :: tr2) s /\ rel size s1 i c tr2 s.
Proof.
  intros size tr1 i c tr2 s H. assert (Hinv := inv_run _ _ _ H).
  destruct (steps_split _ _ _ _ H _ _ _ eq_refl) as [s1 [s2 [A [B C]]]].
  exists s1.
  assert (Hn : thread s1 i = None /\ s2 = setPc s1 i (entry c)).
  { inversion B; subst.
    - auto.
    - match goal with g : gstep _ _ _ _ _ _ |- _ => inversion g end. }
  destruct Hn as [Hn ->]. split; [exact A|]. split; [exact Hn|]. split; [exact (inv_run _ _ _ A)|].
  split; [exact Hinv|]. exact (rel_run _ _ _ _ _ _ _ A Hn C).
Qed.
