(** A scheduler for the chat server, to exhibit executions; and further lemmas. *)

From Coq Require Import List String Arith Bool Lia.
From Verif Require Import Chat ChatSpec ChatProofs.
Import ListNotations.
Local Open Scope list_scope.

(** Scheduling decisions: a new call, one step of a goroutine (a reader is handed its next message), a
    reader is cancelled, a reader is told the buffer is closed, time passes. *)
Inductive choice := Call (i : nat) (c : call) | Go (i : nat) | Cancel (i : nat) | Stop (i : nat) | Wait (n : nat).

Definition goStep (size i : nat) (p : pc) (s : state) : option (option event * state) :=
  match p with
  | PNow u t k => Some (None, setPc s i (PLock u t (clock s) k))
  | PLock u t now k =>
      match mu s with
      | None => Some (None, setPc (setMu s (Some i)) i (PBuild u t now k))
      | Some _ => None
      end
  | PBuild u t now k => Some (None, setPc s i (PIncr (Message (nextId s) u t now) k))
  | PIncr m k => Some (None, setPc (setNext s (nextId s + 1)) i (PWrite m k))
  | PWrite m k => Some (None, setPc (addMsg s i m) i (PUnlock k))
  | PUnlock k => Some (None, setPc (setMu s None) i (resume k))
  | PEntry u l =>
      if String.eqb u "" then Some (None, setPc s i (PReturn EmptyUsername))
      else Some (None, setPc s i (PNow "" (joined u) (KSubscribe u l)))
  | PSub u l => Some (None, setPc s i (PSkip u l (List.length (written s) - startBehind size)))
  | PSkip u None pos => Some (None, setPc s i (PStream u pos))
  | PSkip u (Some last) pos =>
      Some (None, setPc s i (PStream u (pos + skipWhile (fun m => Nat.leb (msg_id m) last)
                                                        (skipn pos (history s)))))
  | PStream u pos =>
      if Nat.leb (List.length (written s) - pos) (maxBehind size) then
        match nth_error (history s) pos with
        | Some m => Some (Some (EMsg i m), setPc s i (PStream u (S pos)))
        | None => None
        end
      else Some (None, setPc s i (PSwitch u InternalError))
  | PSwitch u r => Some (None, setPc s i (PNow "" (left_ u) (KResult r)))
  | PClose => Some (None, setPc (setClosed s) i (PReturn Ok))
  | PReturn r => Some (Some (ERet i r), setPc s i PDone)
  | PDone => None
  end.

Definition doStep (size : nat) (c : choice) (s : state) : option (option event * state) :=
  match c with
  | Call i c => match thread s i with None => Some (Some (ECall i c), setPc s i (entry c)) | Some _ => None end
  | Go i => match thread s i with Some p => goStep size i p s | None => None end
  | Cancel i =>
      match thread s i with
      | Some (PStream u pos) => Some (None, setPc s i (PSwitch u InternalError))
      | _ => None
      end
  | Stop i =>
      match thread s i with
      | Some (PStream u pos) => if closed s then Some (None, setPc s i (PSwitch u StreamFinished)) else None
      | _ => None
      end
  | Wait n => if Nat.leb (clock s) n then Some (None, setClock s n) else None
  end.

Fixpoint exec (size : nat) (cs : list choice) (tr : list event) (s : state) : option (list event * state) :=
  match cs with
  | [] => Some (tr, s)
  | c :: cs' =>
      match doStep size c s with
      | Some (e, s') => exec size cs' (tr ++ emit e) s'
      | None => None
      end
  end.

Lemma goStep_sound : forall size i p s e s', goStep size i p s = Some (e, s') -> gstep size i p s e s'.
Proof.
  intros size i p s e s' H. destruct p; simpl in H; try (injection H as <- <-; constructor).
  - destruct (mu s) eqn:Hm; [discriminate|]. injection H as <- <-. constructor. exact Hm.
  - destruct (String.eqb_spec u "") as [->|Hu]; injection H as <- <-; constructor. exact Hu.
  - destruct last; injection H as <- <-; constructor.
  - destruct (Nat.leb_spec (List.length (written s) - pos) (maxBehind size)) as [Hl|Hl].
    + destruct (nth_error (history s) pos) eqn:Hn; [|discriminate]. injection H as <- <-. constructor; assumption.
    + injection H as <- <-. apply g_slow. exact Hl.
  - discriminate.
Qed.

Lemma doStep_sound : forall size c s e s', doStep size c s = Some (e, s') -> step size s e s'.
Proof.
  intros size c s e s' H. destruct c as [i c|i|i|i|n]; simpl in H.
  - destruct (thread s i) eqn:Ht; [discriminate|]. injection H as <- <-. constructor. exact Ht.
  - destruct (thread s i) as [p|] eqn:Ht; [|discriminate]. eapply s_go; [exact Ht|].
    apply goStep_sound. exact H.
  - destruct (thread s i) as [[]|] eqn:Ht; try discriminate. injection H as <- <-.
    eapply s_go; [exact Ht|]. apply g_cancel.
  - destruct (thread s i) as [[]|] eqn:Ht; try discriminate.
    destruct (closed s) eqn:Hc; [|discriminate]. injection H as <- <-.
    eapply s_go; [exact Ht|]. apply g_closed. exact Hc.
  - destruct (Nat.leb_spec (clock s) n) as [Hl|Hl]; [|discriminate]. injection H as <- <-.
    constructor. exact Hl.
Qed.

Lemma exec_sound : forall size cs tr s s0 tr' s', steps size s0 tr s ->
  exec size cs tr s = Some (tr', s') -> steps size s0 tr' s'.
Proof.
  induction cs as [|c cs IH]; intros tr s s0 tr' s' H He; simpl in He.
  - injection He as <- <-. exact H.
  - destruct (doStep size c s) as [[e s1]|] eqn:Hd; [|discriminate].
    eapply IH; [|exact He]. eapply steps_step; [exact H|]. exact (doStep_sound _ _ _ _ _ Hd).
Qed.

(** What an execution delivered to call [i]: its trace and history. *)
Definition outcome (size : nat) (cs : list choice) : option (list event * list message) :=
  match exec size cs [] initial with
  | Some (tr, s) => Some (tr, history s)
  | None => None
  end.

Lemma outcome_run : forall size cs tr h, outcome size cs = Some (tr, h) ->
  exists s, run size tr s /\ history s = h.
Proof.
  intros size cs tr h H. unfold outcome in H. destruct (exec size cs [] initial) as [[tr' s]|] eqn:He; [|discriminate].
  injection H as <- <-. exists s. split; [|reflexivity]. eapply exec_sound; [constructor|exact He].
Qed.

(** ** Authors *)

Lemma by_nil : forall i ws k m, by_ i ws = [] -> nth_error ws k = Some (i, m) -> False.
Proof.
  induction ws as [|[j x] ws IH]; intros k m H Hk; [destruct k; discriminate|].
  unfold by_ in H. simpl in H. destruct (Nat.eqb_spec j i) as [->|Hj]; [discriminate|].
  destruct k; simpl in Hk; [injection Hk as -> ->; congruence|]. eapply IH; eassumption.
Qed.

Lemma by_cons : forall i ws m l, by_ i ws = m :: l ->
  exists a b, ws = a ++ (i, m) :: b /\ by_ i a = [] /\ by_ i b = l.
Proof.
  induction ws as [|[j x] ws IH]; intros m l H; [discriminate|].
  unfold by_ in H. simpl in H. destruct (Nat.eqb_spec j i) as [->|Hj].
  - simpl in H. injection H as <- <-. exists [], ws. repeat split.
  - destruct (IH _ _ H) as [a [b [-> [A B]]]]. exists ((j, x) :: a), b. repeat split.
    + unfold by_. simpl. rewrite (proj2 (Nat.eqb_neq j i) Hj). exact A.
    + exact B.
Qed.

Lemma nth_mid : forall (A : Type) (a b : list A) x k y, nth_error (a ++ x :: b) k = Some y ->
  (nth_error a k = Some y) \/ (k = List.length a /\ y = x) \/
  (exists n, k = S (List.length a) + n /\ nth_error b n = Some y).
Proof.
  intros A a b x k y H. destruct (Nat.lt_ge_cases k (List.length a)) as [Hl|Hl].
  - left. rewrite nth_error_app1 in H by exact Hl. exact H.
  - right. rewrite nth_error_app2 in H by exact Hl. destruct (k - List.length a) as [|n] eqn:Hd.
    + left. injection H as <-. split; [lia|reflexivity].
    + right. exists n. split; [lia|exact H].
Qed.

Lemma by_one : forall i ws m, by_ i ws = [m] ->
  exists k, nth_error ws k = Some (i, m) /\ forall k' m', nth_error ws k' = Some (i, m') -> k' = k.
Proof.
  intros i ws m H. destruct (by_cons _ _ _ _ H) as [a [b [-> [A B]]]]. exists (List.length a). split.
  - rewrite nth_error_app2, Nat.sub_diag by lia. reflexivity.
  - intros k' m' H'. apply nth_mid in H'. destruct H' as [H'|[[H' _]|[n [_ H']]]]; auto; exfalso.
    + eapply (by_nil i a); eassumption.
    + eapply (by_nil i b); eassumption.
Qed.

Lemma by_two : forall i ws m m0, by_ i ws = [m; m0] ->
  exists k k0, k < k0 /\ nth_error ws k = Some (i, m) /\ nth_error ws k0 = Some (i, m0) /\
    forall k' m', nth_error ws k' = Some (i, m') -> k' = k \/ k' = k0.
Proof.
  intros i ws m m0 H. destruct (by_cons _ _ _ _ H) as [a [b [-> [A B]]]].
  destruct (by_one _ _ _ B) as [k0 [C D]]. exists (List.length a), (S (List.length a) + k0).
  split; [lia|]. split; [|split].
  - rewrite nth_error_app2, Nat.sub_diag by lia. reflexivity.
  - rewrite nth_error_app2 by lia. replace (S (List.length a) + k0 - List.length a) with (S k0) by lia. exact C.
  - intros k' m' H'. apply nth_mid in H'. destruct H' as [H'|[[H' _]|[n [Hn H']]]]; auto.
    + exfalso. eapply (by_nil i a); eassumption.
    + right. rewrite Hn. f_equal. apply (D _ _ H').
Qed.

Lemma by_in : forall i ws k m, nth_error ws k = Some (i, m) -> In m (by_ i ws).
Proof.
  intros i ws k m H. unfold by_. apply nth_error_In in H. apply in_map_iff. exists (i, m).
  split; [reflexivity|]. apply filter_In. split; [exact H|]. simpl. apply Nat.eqb_refl.
Qed.

(** A goroutine is done only when its call has returned. *)
Lemma done_ret : forall size tr s, run size tr s ->
  forall i, thread s i = Some PDone -> exists r, In (ERet i r) tr.
Proof.
  intros size tr s H. unfold run in H. induction H as [|tr s e s' H IH Hs]; intros i Hi; [discriminate|].
  assert (K : thread s i = Some PDone -> exists r, In (ERet i r) (tr ++ emit e)).
  { intros X. destruct (IH _ X) as [r Hr]. exists r. apply in_or_app. now left. }
  destruct Hs as [s j c Hj|s j p e s' Hj Hg|s n Hn].
  - simpl in Hi. destruct (Nat.eqb i j) eqn:Hij; [|auto]. destruct c; discriminate.
  - destruct (Nat.eq_dec i j) as [->|Hij].
    + destruct Hg; simpl in Hi; rewrite Nat.eqb_refl in Hi; try discriminate.
      * destruct k; discriminate.
      * exists r. apply in_or_app. right. now left.
    + apply K. rewrite <- Hi. destruct Hg; simpl; rewrite (proj2 (Nat.eqb_neq i j) Hij); reflexivity.
  - auto.
Qed.

(** Whatever a goroutine has written so far, its call sends. *)
Lemma okThread_sent : forall c ws p m, p <> PDone -> okThread c ws p -> In m ws -> sent_by c m.
Proof.
  assert (S : forall c u t k ws m, sending c u t k ws -> In m ws -> sent_by c m).
  { intros c u t k ws m H Hm. destruct c, k; simpl in H; try contradiction.
    - destruct H as [_ [_ ->]]. destruct Hm.
    - destruct H as [_ [_ [_ [_ [_ ->]]]]]. destruct Hm.
    - destruct H as [A [_ [_ [_ [_ [m0 [-> [B C]]]]]]]]. destruct Hm as [<-|[]]. simpl. auto.
    - destruct H as [_ [_ ->]]. destruct Hm. }
  intros c ws p m Hd H Hm. destruct p; simpl in H; eauto.
  - destruct H as [ws' [m0 [-> H]]]. apply in_app_or in Hm. destruct Hm as [Hm|[<-|[]]]; [eauto|].
    destruct c, k; simpl in *; try contradiction; intuition.
  - destruct H as [_ ->]. destruct Hm.
  - destruct H as [-> [A [m0 [-> [B C]]]]]. destruct Hm as [<-|[]]. simpl. auto.
  - destruct H as [-> [A [m0 [-> [B C]]]]]. destruct Hm as [<-|[]]. simpl. auto.
  - destruct H as [[l ->] [A [m0 [-> [B C]]]]]. destruct Hm as [<-|[]]. simpl. auto.
  - destruct H as [[l ->] [A [_ [_ [m0 [-> [B C]]]]]]]. destruct Hm as [<-|[]]. simpl. auto.
  - destruct H as [-> [m0 [-> [B C]]]]. destruct Hm as [<-|[]]. simpl. auto.
  - destruct c.
    + destruct H as [_ [m0 [-> [B C]]]]. destruct Hm as [<-|[]]. simpl. auto.
    + destruct H as [[_ [_ ->]]|[A [_ [_ [m0 [m1 [-> [[B C] [D E]]]]]]]]]; [destruct Hm|].
      destruct Hm as [<-|[<-|[]]]; simpl; auto.
    + destruct H as [_ [m0 [-> [B C]]]]. destruct Hm as [<-|[]]. simpl. auto.
  - congruence.
Qed.

Lemma okThread_send : forall u t ws p, p <> PDone -> okThread (SendMessage u t) ws p -> List.length ws <= 1.
Proof.
  intros u t ws p Hd H. destruct p; simpl in H;
    try (destruct k; try contradiction; destruct H as [_ [_ ->]]; simpl; lia).
  - destruct H as [ws' [m [-> H]]]. destruct k; try contradiction. destruct H as [_ [_ ->]]. simpl. lia.
  - destruct H. discriminate.
  - destruct H. discriminate.
  - destruct H. discriminate.
  - destruct H as [[l H] _]. discriminate.
  - destruct H as [[l H] _]. discriminate.
  - destruct H. discriminate.
  - destruct H as [_ [m [-> _]]]. simpl. lia.
  - congruence.
Qed.

Lemma okThread_anon : forall l ws p, p <> PDone -> okThread (SubscribeMessages "" l) ws p -> ws = [].
Proof.
  intros l ws p Hd H. destruct p; simpl in H;
    try (destruct k; try contradiction; intuition congruence).
  - destruct H as [ws' [m [-> H]]]. destruct k; try contradiction; intuition congruence.
  - apply H.
  - destruct H as [A [B _]]. congruence.
  - destruct H as [A [B _]]. congruence.
  - destruct H as [[l' A] [B _]]. congruence.
  - destruct H as [[l' A] [B _]]. congruence.
  - destruct H as [H _]. discriminate.
  - intuition congruence.
  - congruence.
Qed.

(** The call of a goroutine, and what it has written, whether it has returned or not. *)
Lemma call_wrote : forall size tr s i c, run size tr s -> In (ECall i c) tr ->
  exists p, p <> PDone /\ okThread c (by_ i (written s)) p.
Proof.
  intros size tr s i c H Hc. assert (I := inv_run _ _ _ H).
  destruct (thread s i) as [p|] eqn:Hp.
  - destruct (inv_call _ _ I _ _ Hp) as [c0 [A [B C]]]. rewrite <- (B _ Hc) in C.
    assert (D : p = PDone \/ p <> PDone) by (destruct p; (now left) || (right; discriminate)).
    destruct D as [->|D]; [|exists p; auto].
    destruct (done_ret _ _ _ H _ Hp) as [r Hr]. destruct (inv_ret _ _ I _ _ Hr) as [_ [_ [c1 [E F]]]].
    exists (PReturn r). split; [discriminate|]. rewrite (B _ E) in F. rewrite (B _ Hc). exact F.
  - destruct (inv_none _ _ I _ Hp) as [A _]. exfalso. eapply A; eassumption.
Qed.

(** The position of a message written between two moments. *)
Lemma before_split : forall e e' tr, before e e' tr -> exists tr1 tr2, tr = tr1 ++ e' :: tr2 /\ In e tr1.
Proof.
  intros e e' tr [a [b [c ->]]]. exists (a ++ e :: b), c. split.
  - rewrite <- app_assoc. reflexivity.
  - apply in_or_app. right. now left.
Qed.

Lemma nth_fst : forall s k m, nth_error (history s) k = Some m ->
  exists i, nth_error (written s) k = Some (i, m).
Proof.
  intros s k m H. unfold history in H. rewrite nth_error_map in H.
  destruct (nth_error (written s) k) as [[i x]|]; [|discriminate]. injection H as ->. eauto.
Qed.

Definition authorOf (s : state) (k : nat) : nat :=
  match nth_error (written s) k with Some (i, _) => i | None => 0 end.

Theorem explained_run : forall size tr s, run size tr s -> explained tr (history s) (authorOf s).
Proof.
  intros size tr s H. assert (I := inv_run _ _ _ H).
  assert (Hlt : forall k, k < List.length (history s) ->
                exists m, nth_error (written s) k = Some (authorOf s k, m)).
  { intros k Hk. rewrite history_len in Hk. apply nth_error_Some in Hk. unfold authorOf.
    destruct (nth_error (written s) k) as [[i m]|]; [|congruence]. eauto. }
  assert (Hat : forall k m, nth_error (history s) k = Some m ->
                nth_error (written s) k = Some (authorOf s k, m)).
  { intros k m Hk. destruct (nth_fst _ _ _ Hk) as [i Hi]. unfold authorOf. rewrite Hi. reflexivity. }
  constructor.
  - intros k m Hk. apply Hat in Hk. assert (Hin := by_in _ _ _ _ Hk).
    destruct (thread s (authorOf s k)) as [p|] eqn:Hp.
    + destruct (inv_call _ _ I _ _ Hp) as [c [A [B C]]]. exists c. split; [exact A|].
      destruct (call_wrote _ _ _ _ _ H A) as [p' [D E]]. eapply okThread_sent; eassumption.
    + exfalso. destruct (inv_none _ _ I _ Hp) as [_ [_ [_ D]]]. rewrite D in Hin. destruct Hin.
  - intros i u t Hc k k' Hk Hk' Ha Ha'. destruct (call_wrote _ _ _ _ _ H Hc) as [p [D E]].
    apply okThread_send in E; [|exact D].
    destruct (Hlt _ Hk) as [m Hm]. destruct (Hlt _ Hk') as [m' Hm'].
    rewrite Ha in Hm. rewrite Ha' in Hm'.
    assert (X : In m (by_ i (written s))) by (eapply by_in; eassumption).
    destruct (by_ i (written s)) as [|x [|]] eqn:Hb; [destruct X| |simpl in E; lia].
    destruct (by_one _ _ _ Hb) as [k0 [_ F]]. rewrite (F _ _ Hm), (F _ _ Hm'). reflexivity.
  - intros i u t r Hc Hr. destruct (inv_ret _ _ I _ _ Hr) as [A [_ [c [B C]]]].
    destruct (inv_call _ _ I _ _ A) as [c0 [_ [U _]]].
    rewrite (U _ B), <- (U _ Hc) in C. destruct C as [_ [m [C _]]].
    destruct (by_one _ _ _ C) as [k [F _]]. exists k. split.
    + rewrite history_len. apply nth_error_Some. congruence.
    + unfold authorOf. rewrite F. reflexivity.
  - intros i u l r Hc Hr Hu. destruct (inv_ret _ _ I _ _ Hr) as [A [_ [c [B C]]]].
    destruct (inv_call _ _ I _ _ A) as [c0 [_ [U _]]].
    rewrite (U _ B), <- (U _ Hc) in C. destruct C as [[C _]|[_ [_ [_ [m [m' [C [[_ D] [_ E]]]]]]]]]; [contradiction|].
    destruct (by_two _ _ _ _ C) as [k [k' [F [G [K L]]]]]. exists k, k', m, m'.
    split; [exact F|]. split; [unfold history; rewrite nth_error_map, G; reflexivity|].
    split; [unfold history; rewrite nth_error_map, K; reflexivity|].
    split; [unfold authorOf; rewrite G; reflexivity|].
    split; [unfold authorOf; rewrite K; reflexivity|]. split; [exact D|]. split; [exact E|].
    intros x Hx Hax. destruct (Hlt _ Hx) as [y Hy]. rewrite Hax in Hy. apply (L _ _ Hy).
  - intros i l Hc x Hx Ha. destruct (Hlt _ Hx) as [y Hy]. rewrite Ha in Hy.
    destruct (call_wrote _ _ _ _ _ H Hc) as [p [D E]]. apply okThread_anon in E; [|exact D].
    eapply by_nil; eassumption.
  - intros i r j c k k' m m' Hb Hk Hk' Hm Hm'.
    destruct (before_split _ _ _ Hb) as [tr1 [tr2 [-> Hin]]].
    destruct (call_split _ _ _ _ _ _ H) as [s1 [R1 [Hn [I1 [_ R]]]]].
    apply Hat in Hm. apply Hat in Hm'. rewrite Hk in Hm. rewrite Hk' in Hm'.
    (* [i] wrote before [s1] *)
    assert (X : In m (by_ i (written s))) by (eapply by_in; eassumption).
    assert (Hd : thread s i = Some PDone).
    { apply (inv_ret _ _ I i r). apply in_or_app. now left. }
    destruct (inv_ret _ _ I1 _ _ Hin) as [Hd1 [_ [c1 [B1 C1]]]].
    assert (Y : by_ i (written s) = by_ i (written s1)).
    { (* a call that has returned writes nothing more *)
      assert (Z : In (ERet i r) (tr1 ++ ECall j c :: tr2)) by (apply in_or_app; now left).
      destruct (inv_ret _ _ I _ _ Z) as [_ [_ [c2 [B2 C2]]]].
      destruct (inv_call _ _ I _ _ Hd) as [c3 [_ [U _]]].
      rewrite (U _ B2) in C2.
      assert (B1' : c1 = c3) by (apply U; apply in_or_app; now left). rewrite B1' in C1.
      destruct (rel_grow _ _ _ _ _ _ R) as [more Hmore].
      assert (Q : by_ i (written s) = by_ i (written s1) ++ by_ i more).
      { rewrite Hmore. unfold by_. rewrite filter_app, map_app. reflexivity. }
      assert (L : List.length (by_ i (written s)) = List.length (by_ i (written s1))).
      { destruct c3; simpl in C1, C2.
        - destruct C1 as [_ [? [-> _]]]. destruct C2 as [_ [? [-> _]]]. reflexivity.
        - destruct C1 as [[? [-> ->]]|[? [? [? [? [? [-> _]]]]]]];
            destruct C2 as [[? [? ->]]|[? [? [? [? [? [-> _]]]]]]]; try reflexivity; congruence.
        - destruct C1 as [_ [? [-> _]]]. destruct C2 as [_ [? [-> _]]]. reflexivity. }
      rewrite Q, app_length in L. destruct (by_ i more); [|simpl in L; lia].
      rewrite app_nil_r in Q. exact Q. }
    rewrite Y in X. unfold by_ in X. apply in_map_iff in X. destruct X as [[i' x] [E X]]. simpl in E. subst x.
    apply filter_In in X. destruct X as [X Ei]. apply Nat.eqb_eq in Ei. simpl in Ei. subst i'.
    split.
    + (* position *)
      destruct (rel_grow _ _ _ _ _ _ R) as [more Hmore].
      destruct (inv_none _ _ I1 _ Hn) as [_ [_ [_ Hnone]]].
      destruct (Nat.lt_ge_cases k (List.length (written s1))) as [Hk1|Hk1].
      * destruct (Nat.lt_ge_cases k' (List.length (written s1))) as [Hk2|Hk2]; [|lia].
        exfalso. rewrite Hmore in Hm'. rewrite nth_error_app1 in Hm' by exact Hk2.
        eapply by_nil; eassumption.
      * exfalso. rewrite Hmore in Hm. rewrite nth_error_app2 in Hm by exact Hk1.
        apply by_in in Hm. rewrite Hmore in Y. unfold by_ in Y, Hm. rewrite filter_app, map_app in Y.
        assert (L := f_equal (@List.length message) Y). rewrite app_length in L.
        destruct (map snd (filter (fun x => Nat.eqb (fst x) i) more)); [destruct Hm|simpl in L; lia].
    + assert (T1 : msg_time m <= clock s1).
      { apply (inv_time _ _ I1). unfold history. apply in_map_iff. exists (i, m). auto. }
      assert (T2 : clock s1 <= msg_time m').
      { apply (rel_time _ _ _ _ _ _ R). eapply by_in; eassumption. }
      lia.
Qed.

(** ** SendMessage can always be brought to its end *)

(** The lock can always be released by its holder; nobody else moves. *)
Lemma release : forall size tr s i, inv tr s -> mu s = Some i ->
  exists s' k, steps size s [] s' /\ mu s' = None /\ thread s' i = Some (resume k) /\
    (forall j, j <> i -> thread s' j = thread s j) /\
    (exists p, thread s i = Some p /\
     match p with PBuild _ _ _ k' | PIncr _ k' | PWrite _ k' | PUnlock k' => k' = k | _ => False end).
Proof.
  intros size tr s i I Hm. destruct (inv_mu _ _ I _ Hm) as [p [Hp Hh]].
  assert (U : forall s k, thread s i = Some (PUnlock k) ->
            exists s', steps size s [] s' /\ mu s' = None /\ thread s' i = Some (resume k) /\
              forall j, j <> i -> thread s' j = thread s j).
  { clear. intros s k Hp. exists (setPc (setMu s None) i (resume k)). split; [|split; [reflexivity|split]].
    - apply (steps_step size s [] s None); [constructor|]. eapply s_go; [exact Hp|constructor].
    - simpl. rewrite Nat.eqb_refl. reflexivity.
    - intros j Hj. simpl. rewrite (proj2 (Nat.eqb_neq j i) Hj). reflexivity. }
  assert (W : forall s m k, thread s i = Some (PWrite m k) ->
            exists s', steps size s [] s' /\ mu s' = None /\ thread s' i = Some (resume k) /\
              forall j, j <> i -> thread s' j = thread s j).
  { intros s0 m k Hp0. destruct (U (setPc (addMsg s0 i m) i (PUnlock k)) k) as [s' [A [B [C D]]]].
    { simpl. rewrite Nat.eqb_refl. reflexivity. }
    exists s'. split; [|split; [exact B|split; [exact C|]]].
    - apply (steps_trans size s0 [] _ (steps_step size s0 [] s0 None _ (steps_nil _ _)
               (s_go size s0 i _ None _ Hp0 (g_write size i m k s0))) [] s' A).
    - intros j Hj. rewrite (D _ Hj). simpl. rewrite (proj2 (Nat.eqb_neq j i) Hj). reflexivity. }
  assert (N : forall s m k, thread s i = Some (PIncr m k) ->
            exists s', steps size s [] s' /\ mu s' = None /\ thread s' i = Some (resume k) /\
              forall j, j <> i -> thread s' j = thread s j).
  { intros s0 m k Hp0. destruct (W (setPc (setNext s0 (nextId s0 + 1)) i (PWrite m k)) m k) as [s' [A [B [C D]]]].
    { simpl. rewrite Nat.eqb_refl. reflexivity. }
    exists s'. split; [|split; [exact B|split; [exact C|]]].
    - apply (steps_trans size s0 [] _ (steps_step size s0 [] s0 None _ (steps_nil _ _)
               (s_go size s0 i _ None _ Hp0 (g_incr size i m k s0))) [] s' A).
    - intros j Hj. rewrite (D _ Hj). simpl. rewrite (proj2 (Nat.eqb_neq j i) Hj). reflexivity. }
  assert (B : forall s u t now k, thread s i = Some (PBuild u t now k) ->
            exists s', steps size s [] s' /\ mu s' = None /\ thread s' i = Some (resume k) /\
              forall j, j <> i -> thread s' j = thread s j).
  { intros s0 u t now k Hp0.
    destruct (N (setPc s0 i (PIncr (Message (nextId s0) u t now) k)) (Message (nextId s0) u t now) k)
      as [s' [A [B [C D]]]].
    { simpl. rewrite Nat.eqb_refl. reflexivity. }
    exists s'. split; [|split; [exact B|split; [exact C|]]].
    - apply (steps_trans size s0 [] _ (steps_step size s0 [] s0 None _ (steps_nil _ _)
               (s_go size s0 i _ None _ Hp0 (g_build size i u t now k s0))) [] s' A).
    - intros j Hj. rewrite (D _ Hj). simpl. rewrite (proj2 (Nat.eqb_neq j i) Hj). reflexivity. }
  destruct p; try contradiction.
  - destruct (B _ _ _ _ _ Hp) as [s' [A1 [A2 [A3 A4]]]]. exists s', k.
    split; [exact A1|]. split; [exact A2|]. split; [exact A3|]. split; [exact A4|].
    eexists. split; [exact Hp|reflexivity].
  - destruct (N _ _ _ Hp) as [s' [A1 [A2 [A3 A4]]]]. exists s', k.
    split; [exact A1|]. split; [exact A2|]. split; [exact A3|]. split; [exact A4|].
    eexists. split; [exact Hp|reflexivity].
  - destruct (W _ _ _ Hp) as [s' [A1 [A2 [A3 A4]]]]. exists s', k.
    split; [exact A1|]. split; [exact A2|]. split; [exact A3|]. split; [exact A4|].
    eexists. split; [exact Hp|reflexivity].
  - destruct (U _ _ Hp) as [s' [A1 [A2 [A3 A4]]]]. exists s', k.
    split; [exact A1|]. split; [exact A2|]. split; [exact A3|]. split; [exact A4|].
    eexists. split; [exact Hp|reflexivity].
Qed.

Lemma steps_one : forall size s e s', step size s e s' -> steps size s (emit e) s'.
Proof. intros. apply (steps_step size s [] s e s' (steps_nil _ _) H). Qed.

(** A goroutine about to lock a free lock reaches the end of its SendMessage. *)
Lemma lock_through : forall size tr s i u t now k, run size tr s ->
  thread s i = Some (PLock u t now k) -> mu s = None ->
  exists s', steps size s [] s' /\ thread s' i = Some (resume k).
Proof.
  intros size tr s i u t now k H Hp Hm.
  assert (S1 : steps size s [] (setPc (setMu s (Some i)) i (PBuild u t now k))).
  { apply (steps_one size s None). eapply s_go; [exact Hp|]. constructor. exact Hm. }
  assert (R1 : run size (tr ++ []) (setPc (setMu s (Some i)) i (PBuild u t now k))).
  { eapply steps_trans; eassumption. }
  destruct (release size _ _ i (inv_run _ _ _ R1) eq_refl) as [s' [k' [A [_ [B [_ [p [C D]]]]]]]].
  simpl in C. rewrite Nat.eqb_refl in C. injection C as <-. subst k'.
  exists s'. split; [|exact B]. apply (steps_trans _ _ _ _ S1 _ _ A).
Qed.

(** From anywhere in SendMessage to its end. *)
Lemma send_through : forall size tr s i p k, run size tr s -> thread s i = Some p ->
  match p with
  | PNow _ _ k' | PLock _ _ _ k' | PBuild _ _ _ k' | PIncr _ k' | PWrite _ k' | PUnlock k' => k' = k
  | _ => False
  end ->
  exists s', steps size s [] s' /\ thread s' i = Some (resume k).
Proof.
  intros size tr s i p k H Hp Hk.
  assert (I := inv_run _ _ _ H).
  assert (L : forall s u t now, run size tr s -> thread s i = Some (PLock u t now k) ->
              exists s', steps size s [] s' /\ thread s' i = Some (resume k)).
  { clear. intros s u t now H Hp. destruct (mu s) as [j|] eqn:Hm; [|eapply lock_through; eassumption].
    destruct (release size _ _ j (inv_run _ _ _ H) Hm) as [s1 [k' [A [B [_ [C [q [D E]]]]]]]].
    assert (Hij : i <> j). { intros ->. rewrite Hp in D. injection D as <-. exact E. }
    assert (R1 : run size (tr ++ []) s1) by (eapply steps_trans; eassumption).
    destruct (lock_through size _ s1 i u t now k R1) as [s' [F G]].
    - rewrite (C _ Hij). exact Hp.
    - exact B.
    - exists s'. split; [|exact G]. apply (steps_trans _ _ _ _ A _ _ F). }
  assert (Hold : holds p -> exists s', steps size s [] s' /\ thread s' i = Some (resume k)).
  { intros Hh. destruct (release size _ _ i I (inv_lock _ _ I _ _ Hp Hh)) as [s1 [k' [A [_ [B [_ [q [D E]]]]]]]].
    rewrite Hp in D. injection D as <-. exists s1. split; [exact A|].
    destruct p; try contradiction; subst; exact B. }
  destruct p; try contradiction; try (apply Hold; exact Logic.I); subst.
  - assert (S1 : steps size s [] (setPc s i (PLock u t (clock s) k))).
    { apply (steps_one size s None). eapply s_go; [exact Hp|]. constructor. }
    assert (R1 : run size tr (setPc s i (PLock u t (clock s) k))).
    { rewrite <- (app_nil_r tr). eapply steps_trans; eassumption. }
    destruct (L _ u t (clock s) R1) as [s' [A B]].
    { simpl. rewrite Nat.eqb_refl. reflexivity. }
    exists s'. split; [|exact B]. apply (steps_trans _ _ _ _ S1 _ _ A).
  - eapply L; eassumption.
Qed.
