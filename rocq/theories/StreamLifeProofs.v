(** Proofs about StreamLife.v. *)
From Coq Require Import List ZArith Bool Lia.
From Verif Require Import StreamLife.
Import ListNotations.
Local Open Scope Z_scope.

(** ** Times of chunks *)
Definition gap (d : Z) : Z := 10000 + 13 * d.
Arguments gap : simpl never.
Fixpoint Gaps (g : Z) (l : list Z) : Prop :=
  match l with a :: ((b :: _) as r) => b <= a + g /\ Gaps g r | _ => True end.
Definition lastOf (l : list Z) : Z := List.last l 0.

Lemma lastOf_snoc l a : lastOf (l ++ [a]) = a.
Proof. apply last_last. Qed.
Lemma Gaps_snoc g l b : Gaps g l -> l <> [] -> b <= lastOf l + g -> Gaps g (l ++ [b]).
Proof.
  induction l as [|a l IH]; intros G N B; [contradiction|]. destruct l as [|a' l]; [cbn in *; lia|].
  destruct G as [G1 G2]. split; [exact G1|]. apply IH; [exact G2|discriminate|exact B].
Qed.

(** what has been sent and not been read, and before it what was read last *)
Definition Times (seen : list Z) (wi : list (Z * bool)) : list Z := seen ++ map fst wi.

Definition KDue (d : Z) (m : Z) (w : world) : Prop :=
  match k w with
  | KStart => kt w + 10000 + 5 * d <= m
  | KSelect due => due + 4 * d <= m
  | KLock => kt w + 3 * d <= m
  | KWrite => kt w + 2 * d <= m
  | KFlush ok => ok = true /\ kt w + d <= m
  | KUnlock ok => ok = true /\ kt w + 10000 + 6 * d <= m
  | KNone | KEnd => False
  end.
Definition Due (d : Z) (m : Z) (w : world) : Prop :=
  match h w with
  | HUnlock First ok => ok = true /\ k w = KNone /\ doneAt w = None /\ ht w <= m
  | HSpawn => k w = KNone /\ doneAt w = None /\ ht w <= m + d
  | HImpl | HLock Message | HWrite Message | HFlush Message _ | HUnlock Message _ =>
      doneAt w = None /\ KDue d (m + 10000 + 7 * d) w
  | HCancel => ht w <= m + 10000 + 7 * d
  | HLock Failure => ht w <= m + 10000 + 8 * d
  | HWrite Failure => ht w <= m + 10000 + 9 * d
  | HFlush Failure _ => ht w <= m + 10000 + 10 * d
  | HUnlock Failure _ => ht w <= m + 10000 + 11 * d
  | HDefer => ht w <= m + 10000 + 12 * d
  | HDone => True
  | HLock First | HWrite First | HFlush First _ => False
  end.
Definition Fresh (w : world) : Prop :=
  match h w with HLock First | HWrite First => True | HFlush First ok => ok = true | _ => False end /\
  wire w = [] /\ c w = CWait /\ k w = KNone /\ doneAt w = None /\ timer w = None.
Definition Ends (w : world) : Prop :=
  match h w with
  | HDone => c w = CClosed \/ exists wi t, wire w = wi ++ [(t, true)] /\ Forall (fun x => snd x = false) wi
  | _ => c w <> CClosed /\ Forall (fun x => snd x = false) (wire w)
  end.
Definition Live (d : Z) (w : world) : Prop :=
  exists seen, Times seen (wire w) <> [] /\ Gaps (gap d) (Times seen (wire w)) /\
    (forall x, In x (Times seen (wire w)) -> x <= now w) /\
    match c w with CWait => seen = [] | CReading => exists p, seen = [p] /\ p <= last w | CClosed => True | CLost => False end /\
    Due d (lastOf (Times seen (wire w))) w /\ Ends w.
Definition Inv (d : Z) (w : world) : Prop := net w = Up -> Fresh w \/ Live d w.

(** the time is bounded by the last chunk while the end has not been sent *)
Lemma due_now d j e w m : 0 <= d -> Timely d j e w -> Due d m w -> h w <> HDone -> now w <= m + gap d.
Proof.
  intros D (TH & TK & _ & _) U N. unfold HandlerTimely, KeeperTimely, Due, KDue, gap in *.
  destruct (h w) as [[]|[]|[]|[]| | | | |]; try contradiction; try (exfalso; apply N; reflexivity); try lia;
    destruct U as [_ U]; destruct (k w); try contradiction; repeat match goal with H : _ /\ _ |- _ => destruct H end; lia.
Qed.

Lemma silence d j e w : 0 <= d -> 0 <= j -> Timely d j e w -> Live d w -> c w = CReading -> now w <= last w + gap d + j.
Proof.
  intros D J T (seen & N & G & P & C & U & E) R. rewrite R in C. destruct C as (p & -> & PL).
  pose proof T as (_ & _ & W & _). unfold WireTimely in W. unfold Times in *. destruct (wire w) as [|[x b] wi] eqn:EW.
  - cbn in U. assert (NH : h w <> HDone).
    { intros HD. unfold Ends in E. rewrite HD, R, EW in E. destruct E as [E|(wi & t & E & _)]; [discriminate|]. destruct wi; discriminate. }
    pose proof (due_now _ _ _ _ _ D T U NH). lia.
  - cbn in G. destruct G as [G _]. apply Forall_inv in W. cbn in W. lia.
Qed.

Lemma times_app seen wi x b : Times seen (wi ++ [(x, b)]) = Times seen wi ++ [x].
Proof. unfold Times. rewrite map_app, app_assoc. reflexivity. Qed.

Lemma forall_snoc (wi : list (Z * bool)) x : Forall (fun y => snd y = false) wi -> Forall (fun y => snd y = false) (wi ++ [(x, false)]).
Proof. intros F. apply Forall_app. split; [exact F|]. repeat constructor. Qed.

(** a chunk is sent now *)
Lemma live_send d seen wi n : Times seen wi <> [] -> Gaps (gap d) (Times seen wi) ->
  (forall x, In x (Times seen wi) -> x <= n) -> n <= lastOf (Times seen wi) + gap d -> forall b,
  Times seen (wi ++ [(n, b)]) <> [] /\ Gaps (gap d) (Times seen (wi ++ [(n, b)])) /\
  (forall x, In x (Times seen (wi ++ [(n, b)])) -> x <= n) /\ lastOf (Times seen (wi ++ [(n, b)])) = n /\
  lastOf (Times seen wi) <= n.
Proof.
  intros N G P B b. rewrite times_app. split; [destruct (Times seen wi); discriminate|]. split; [apply Gaps_snoc; auto|].
  split. { intros x H. apply in_app_or in H. destruct H as [H|[<-|[]]]; [auto|lia]. }
  split; [apply lastOf_snoc|]. apply P. unfold lastOf. destruct (Times seen wi) as [|a l]; [contradiction|].
  destruct (exists_last (l := a :: l)) as (q & y & E); [discriminate|]. rewrite E, last_last. apply in_or_app. right. left. reflexivity.
Qed.

Lemma kdue_mono d m m' w : KDue d m w -> m <= m' -> KDue d m' w.
Proof. unfold KDue. destruct (k w); intros H L; try lia; destruct H; split; auto; lia. Qed.
Lemma due_mono d m m' w : Due d m w -> m <= m' -> Due d m' w.
Proof.
  unfold Due. destruct (h w) as [[]|[]|[]|[]| | | | |]; intros H L; try lia; try assumption;
    try (destruct H as (A & B & C & X); repeat split; auto; lia); try (destruct H as (A & B & X); repeat split; auto; lia);
    destruct H as [A X]; (split; [exact A|]); (eapply kdue_mono; [exact X|lia]).
Qed.
Lemma due_keeper d m n l hp th kp tk dn ne wi cp la ti n' l' kp' tk' wi' :
  Due d m (World n l hp th kp tk dn ne wi cp la ti) -> kp <> KNone ->
  (KDue d (m + 10000 + 7 * d) (World n l hp th kp tk dn ne wi cp la ti) ->
   KDue d (m + 10000 + 7 * d) (World n' l' hp th kp' tk' dn ne wi' cp la ti)) ->
  Due d m (World n' l' hp th kp' tk' dn ne wi' cp la ti).
Proof.
  unfold Due. cbn [h ht k doneAt]. destruct hp as [[]|[]|[]|[]| | | | |]; intros H N F; try assumption;
    try (destruct H as (A & B & C & X); contradiction); try (destruct H as (A & B); contradiction);
    destruct H as [A X]; (split; [exact A|exact (F X)]).
Qed.
Lemma ends_eq w w' : h w' = h w -> wire w' = wire w -> c w' = c w -> Ends w -> Ends w'.
Proof. unfold Ends. intros -> -> ->. auto. Qed.

(** nothing is sent or read *)
Lemma live_keep d w w' seen : Times seen (wire w) <> [] -> Gaps (gap d) (Times seen (wire w)) ->
  (forall x, In x (Times seen (wire w)) -> x <= now w) ->
  match c w with CWait => seen = [] | CReading => exists p, seen = [p] /\ p <= last w | CClosed => True | CLost => False end ->
  wire w' = wire w -> c w' = c w -> last w' = last w -> now w <= now w' ->
  Due d (lastOf (Times seen (wire w))) w' -> Ends w' -> Live d w'.
Proof.
  intros N G P C E1 E2 E3 L U E. exists seen. rewrite E1, E2, E3. repeat split; auto. intros x X. specialize (P x X). lia.
Qed.
(** a chunk is sent *)
Lemma live_sent d w w' seen b : Times seen (wire w) <> [] -> Gaps (gap d) (Times seen (wire w)) ->
  (forall x, In x (Times seen (wire w)) -> x <= now w) ->
  match c w with CWait => seen = [] | CReading => exists p, seen = [p] /\ p <= last w | CClosed => True | CLost => False end ->
  now w <= lastOf (Times seen (wire w)) + gap d ->
  wire w' = wire w ++ [(now w, b)] -> c w' = c w -> last w' = last w -> now w' = now w ->
  (lastOf (Times seen (wire w)) <= now w -> Due d (now w) w') -> Ends w' -> Live d w'.
Proof.
  intros N G P C B E1 E2 E3 E4 U E. destruct (live_send _ _ _ _ N G P B b) as (A1 & A2 & A3 & A4 & A5).
  exists seen. rewrite E1, E2, E3, E4. repeat split; auto. rewrite A4. auto.
Qed.
(** the first chunk of the wire is read *)
Lemma live_read d w w' x b wi : 0 <= d -> Live d w -> wire w = (x, b) :: wi -> wire w' = wi -> c w <> CClosed -> last w' = now w -> now w' = now w ->
  h w' = h w -> ht w' = ht w -> k w' = k w -> kt w' = kt w -> doneAt w' = doneAt w ->
  c w' = (if b then CClosed else CReading) -> Live d w'.
Proof.
  intros D (seen & N & G & P & C & U & E) W W' NC LA NO H1 H2 H3 H4 H5 CC.
  exists [x]. rewrite W', LA, NO, CC. rewrite W in *.
  assert (T : Times [x] wi = map fst ((x, b) :: wi)) by reflexivity.
  assert (L : lastOf (Times seen ((x, b) :: wi)) = lastOf (Times [x] wi)).
  { unfold lastOf, Times. cbn [map fst app]. clear. destruct (exists_last (l := x :: map fst wi)) as (q & y & Q); [discriminate|]. rewrite Q, app_assoc, !last_last. reflexivity. }
  split; [discriminate|]. split.
  { rewrite T. destruct (c w); try contradiction; [subst seen; exact G|]. destruct C as (p & -> & _). destruct G as [_ G]. exact G. }
  split. { intros y Y. apply P. unfold Times. apply in_or_app. right. exact Y. }
  split. { destruct b; [exact Logic.I|]. exists x. split; [reflexivity|]. apply P. unfold Times. apply in_or_app. right. left. reflexivity. }
  split. { rewrite <- L. unfold Due, KDue in *. rewrite H1, H2, H3, H4, H5. exact U. }
  unfold Ends in *. rewrite H1, CC, W'. rewrite W in E. destruct (h w).
  9: { destruct b; [left; reflexivity|right]. destruct E as [E|(wi0 & t & E & F)]; [contradiction|]. destruct wi0 as [|y wi0]; [discriminate|].
       injection E as _ ->. exists wi0, t. split; [reflexivity|]. inversion F. assumption. }
  all: destruct E as [E F]; inversion F; subst; cbn in *; subst b; split; [discriminate|assumption].
Qed.

Ltac fr := match goal with X : Fresh _ |- _ => destruct X as (F1 & F2 & F3 & F4 & F5 & F6) end; cbn [h wire c k doneAt timer] in *; subst; try discriminate; try contradiction.
Ltac lv := match goal with L : Live _ _ |- _ => destruct L as (seen & N & G & P & C & U & E) end.
Ltac kp seen N G P C := right; eapply (live_keep _ _ _ seen N G P C); [reflexivity|reflexivity|reflexivity|cbn [now]; lia| |].
Ltac due U := unfold Due, KDue, gap, keepAliveInterval in *; cbn [now h ht k kt doneAt wire c last timer afterUnlock] in *.
Ltac ends E := first [exact E | unfold Ends in *; cbn [h wire c afterUnlock] in *; exact E].

Lemma inv_step d j e w ev w' : 0 <= d -> 0 <= j -> gap d + j <= 11000 ->
  Inv d w -> Timely d j e w -> step w ev w' -> Inv d w'.
Proof.
  intros D J B I T ST UP. destruct ST; cbn [net] in UP; try discriminate; subst; specialize (I eq_refl);
    pose proof T as (TH & TK & _ & _); unfold HandlerTimely, KeeperTimely in TH, TK; cbn [h ht k kt now doneAt] in TH, TK.
  - destruct I as [F|L]; [left; exact F|]. lv. kp seen N G P C; [due U; exact U|ends E].
  - destruct I as [F|L]; [fr; destruct t; try contradiction; left; repeat split|]. lv.
    kp seen N G P C; [|destruct t; ends E]. destruct t; due U; [contradiction|exact U|lia].
  - destruct I as [F|L]; [fr; destruct t; try contradiction; left; repeat split; apply H0; [reflexivity|discriminate]|]. lv.
    kp seen N G P C; [|destruct t; ends E]. destruct t; due U; [contradiction|exact U|lia].
  - destruct I as [F|L].
    + fr. destruct t; try contradiction. subst ok. right. exists []. cbn [wire sent app now c h ht k doneAt last].
      split; [discriminate|]. split; [exact Logic.I|]. split; [cbn; intros x [<-|[]]; lia|]. split; [reflexivity|].
      split; [unfold Due; cbn [h ht k doneAt]; cbn; repeat split; auto; lia|]. unfold Ends. cbn [h wire c]. split; [discriminate|repeat constructor].
    + lv. destruct ok.
      * right. eapply (live_sent d _ _ seen false N G P C); [|reflexivity|reflexivity|reflexivity|reflexivity| |].
        -- eapply due_now; [exact D|exact T|exact U|discriminate].
        -- cbn [now]. intros LA. destruct t; due U; [contradiction| |lia].
           destruct U as [U1 U2]. split; [exact U1|]. destruct kp; try lia; destruct U2; (split; [assumption|lia]).
        -- unfold Ends in *. cbn [h wire c] in *. destruct E as [E1 E2]. cbn [sent]. split; [exact E1|apply forall_snoc, E2].
      * kp seen N G P C; [|destruct t; ends E]. destruct t; due U; [contradiction|exact U|lia].
  - destruct I as [F|L]; [fr; destruct t; contradiction|]. lv.
    assert (OK : t = First -> ok = true) by (intros ->; exact (proj1 U)).
    kp seen N G P C; [|destruct t; [rewrite (OK eq_refl) in *| |]; ends E].
    destruct t; due U; [|exact U|lia]. destruct U as (-> & K0 & D0 & U). cbn. repeat split; auto. lia.
  - destruct I as [F|L]; [fr|]. lv. kp seen N G P C; [|ends E]. due U. destruct U as (K0 & D0 & U). split; [exact D0|lia].
  - destruct I as [F|L]; [fr|]. lv. kp seen N G P C; [|ends E]. due U. exact U.
  - destruct I as [F|L]; [fr|]. lv. kp seen N G P C; [|ends E]. due U. destruct U as [U1 U2].
    destruct kp; try contradiction; repeat match goal with H : _ /\ _ |- _ => destruct H end; lia.
  - destruct I as [F|L]; [fr|]. lv. kp seen N G P C; [|ends E]. due U. destruct U as [U1 U2].
    destruct kp; try contradiction; lia.
  - destruct I as [F|L]; [fr|]. lv. kp seen N G P C; [|ends E]. due U. lia.
  - destruct I as [F|L]; [fr|]. lv. right.
    eapply (live_sent d _ _ seen true N G P C); [|reflexivity|reflexivity|reflexivity|reflexivity|intros _; exact Logic.I|].
    + eapply due_now; [exact D|exact T|exact U|discriminate].
    + unfold Ends in *. cbn [h wire c] in *. destruct E as [E1 E2]. right. exists wi, n. split; [reflexivity|exact E2].
  - destruct I as [F|L]; [fr|]. lv. kp seen N G P C; [|ends E].
    eapply due_keeper; [exact U|discriminate|]. unfold KDue, keepAliveInterval. cbn [k kt]. lia.
  - destruct I as [F|L]; [fr|]. lv. kp seen N G P C; [|ends E].
    eapply due_keeper; [exact U|discriminate|]. unfold KDue. cbn [k kt]. lia.
  - destruct I as [F|L]; [fr|]. lv. kp seen N G P C; [|ends E].
    unfold Due in *. cbn [h ht k doneAt] in *. destruct hp as [[]|[]|[] ?|[] ?| | | | |]; try exact U;
      (destruct U as (X1 & X2 & X3 & _) || destruct U as (X1 & X2 & _) || destruct U as (X1 & _)); discriminate.
  - destruct I as [F|L]; [fr|]. lv. kp seen N G P C; [|ends E].
    eapply due_keeper; [exact U|discriminate|]. unfold KDue. cbn [k kt]. lia.
  - destruct I as [F|L]; [fr|]. lv. kp seen N G P C; [|ends E].
    eapply due_keeper; [exact U|discriminate|]. unfold KDue. cbn [k kt]. intros X. split; [apply H; discriminate|lia].
  - destruct I as [F|L]; [fr|]. lv.
    assert (KU : forall m, lastOf (Times seen wi) <= m -> n <= m -> Due d m (World n l hp th (KUnlock ok) n d0 Up (sentLate hp Up ok n wi) cp la ti)).
    { intros m M1 M2. eapply due_keeper; [eapply due_mono; [exact U|exact M1]|discriminate|]. unfold KDue. cbn [k kt]. intros [-> X]. split; [reflexivity|lia]. }
    destruct ok; [destruct hp as [t|t|t ?|t ?| | | | |]|];
      try (right; eapply (live_sent d _ _ seen false N G P C); [eapply due_now; [exact D|exact T|exact U|discriminate]|reflexivity|reflexivity|reflexivity|reflexivity
        |cbn [now]; intros LA; apply KU; [exact LA|lia]|unfold Ends in *; cbn [h wire c] in *; destruct E as [E1 E2]; split; [exact E1|apply forall_snoc, E2]]).
    + kp seen N G P C; [exact Logic.I|ends E].
    + assert (SW : sentLate hp Up false n wi = wi) by (destruct hp; reflexivity). rewrite SW in *.
      kp seen N G P C; [|ends E]. eapply due_keeper; [exact U|discriminate|]. unfold KDue. cbn [k kt]. intros [X _]. discriminate X.
  - destruct I as [F|L]; [fr|]. lv. kp seen N G P C; [|ends E].
    eapply due_keeper; [exact U|discriminate|]. unfold KDue. cbn [k kt]. intros [-> X]. lia.
  - destruct I as [F|L]; [fr|]. right. eapply (live_read d _ _ x false wi D L); try reflexivity. discriminate.
  - destruct I as [F|L]; [fr|]. right. eapply (live_read d _ _ x false wi D L); try reflexivity. discriminate.
  - destruct I as [F|L]; [fr|]. right. eapply (live_read d _ _ x true wi D L); try reflexivity. discriminate.
  - destruct I as [F|L]; [fr|]. destruct cp.
    + lv. kp seen N G P C; [due U; exact U|ends E].
    + pose proof (silence _ _ _ _ D J T L eq_refl) as S. cbn [now last] in S. unfold clientTimeout in *. lia.
    + lv. kp seen N G P C; [due U; exact U|ends E].
    + lv. contradiction C.
  - destruct I as [F|L]; [fr|]. lv. kp seen N G P C; [due U; exact U|ends E].
Qed.

Lemma fresh_start : Fresh start.
Proof. repeat split. Qed.
Lemma run_here P es w : run P es w -> P w.
Proof. destruct 1; assumption. Qed.
Lemma inv_run d j e es w : 0 <= d -> 0 <= j -> gap d + j <= 11000 -> run (Timely d j e) es w -> Inv d w.
Proof.
  intros D J B R. induction R as [P0|es w ev w' R IH ST P0].
  - intros _. left. apply fresh_start.
  - eapply inv_step; [exact D|exact J|exact B|exact IH|exact (run_here _ _ _ R)|exact ST].
Qed.

Lemma run_mono (P Q : world -> Prop) es w : (forall x, P x -> Q x) -> run P es w -> run Q es w.
Proof. intros M R. induction R; [apply RStart|eapply RStep]; eauto. Qed.

(** ** The timer of the client *)
Definition TimerOk (w : world) : Prop :=
  last w <= now w /\ match timer w with Some t => t <= last w + 22000 | None => c w <> CReading end.
Lemma timer_step w ev w' : TimerOk w -> step w ev w' -> TimerOk w'.
Proof.
  unfold TimerOk, clientTimeout. intros [L T] ST. destruct ST; cbn [last now timer c] in *; unfold clientTimeout in *; try (split; [lia|]); try exact T; try lia.
  - destruct ti as [t|]; [lia|]. exfalso. apply T. reflexivity.
  - destruct ti as [t|]; [lia|]. discriminate.
  - destruct ti as [t|]; [lia|]. discriminate.
  - destruct cp; discriminate.
Qed.
Lemma timer_run P es w : run P es w -> TimerOk w.
Proof. intros R. induction R as [|es w ev w' R IH ST _]; [split; [cbn; lia|discriminate]|]. eapply timer_step; eassumption. Qed.

(** ** The end of keepAlive *)
Definition Closing (d y : Z) (w : world) : Prop :=
  match k w with
  | KNone | KEnd => True
  | KStart => kt w <= y + 5 * d
  | KSelect _ => kt w <= y + 6 * d
  | KLock => kt w <= y + d
  | KWrite => kt w <= y + 2 * d
  | KFlush _ => kt w <= y + 3 * d
  | KUnlock _ => kt w <= y + 4 * d
  end.
Definition KeepOk (d : Z) (w : world) : Prop :=
  kt w <= now w /\ ht w <= now w /\
  (forall due, k w = KSelect due -> due = kt w + 10000) /\
  (h w = HDone -> doneAt w <> None) /\
  (forall x, doneAt w = Some x -> exists y, x <= y /\ y <= now w /\ (h w = HDone -> y <= ht w) /\ Closing d y w).
Lemma keep_step d w ev w' : 0 <= d < 10000 -> KeeperTimely d w -> KeepOk d w -> step w ev w' -> KeepOk d w'.
Proof.
  intros D T (A & A2 & S & HD & C) ST. unfold KeepOk, KeeperTimely, Closing in *.
  destruct ST; cbn [k kt ht h now doneAt] in *; unfold cancelled, keepAliveInterval in *;
    (split; [lia|split; [lia|split; [|split]]]);
    try exact S; try exact HD; try discriminate;
    try (intros due0 Q; first [discriminate Q | injection Q as <-; lia]).
  all: try (intros x1 Q; destruct (C _ Q) as (y & Y1 & Y2 & Y3 & Y4); exists y; (split; [exact Y1|split; [lia|split; [solve [exact Y3|discriminate]|]]]); solve [exact Y4|exact Logic.I|lia]).
  - intros Q. destruct t, ok; discriminate Q.
  - intros x1 Q. destruct (C _ Q) as (y & Y1 & Y2 & Y3 & Y4). exists y. split; [exact Y1|]. split; [lia|]. split; [destruct t, ok; discriminate|exact Y4].
  - intros x1 Q. destruct (C _ Q) as (y & Y1 & Y2 & Y3 & Y4). exists n. split; [lia|]. split; [lia|]. split; [discriminate|lia].
  - intros x1 Q. destruct d0 as [z|].
    + destruct (C _ eq_refl) as (y & Y1 & Y2 & Y3 & Y4). injection Q as <-. exists y. split; [exact Y1|]. split; [lia|]. split; [discriminate|exact Y4].
    + injection Q as <-. exists n. split; [lia|]. split; [lia|]. split; [discriminate|]. destruct kp; try exact Logic.I; lia.
  - intros _. destruct d0; discriminate.
  - intros x1 Q. destruct d0 as [z|].
    + destruct (C _ eq_refl) as (y & Y1 & Y2 & Y3 & Y4). injection Q as <-. exists y. split; [exact Y1|]. split; [lia|]. split; [lia|exact Y4].
    + injection Q as <-. exists n. split; [lia|]. split; [lia|]. split; [lia|]. destruct kp; try exact Logic.I; lia.
  - intros x1 Q. destruct (C _ Q) as (y & Y1 & Y2 & Y3 & Y4). exists y. split; [exact Y1|]. split; [lia|]. split; [exact Y3|].
    specialize (S due eq_refl). rewrite Q in T. lia.
  - destruct ok; discriminate.
  - intros x1 Q. destruct (C _ Q) as (y & Y1 & Y2 & Y3 & Y4). exists y. split; [exact Y1|]. split; [lia|]. split; [exact Y3|]. destruct ok; [lia|exact Logic.I].
  - intros Q. destruct d0; discriminate.
  - intros x1 Q. destruct d0 as [z|].
    + destruct (C _ eq_refl) as (y & Y1 & Y2 & Y3 & Y4). injection Q as <-. exists y. auto.
    + injection Q as <-. exists n. split; [lia|]. split; [lia|]. split; [intros Q; exfalso; exact (HD Q eq_refl)|]. destruct kp; try exact Logic.I; lia.
Qed.
Lemma keep_run d es w (P : world -> Prop) : 0 <= d < 10000 -> (forall x, P x -> KeeperTimely d x) -> run P es w -> KeepOk d w.
Proof.
  intros D M R. induction R as [|es w ev w' R IH ST _].
  - split; [cbn; lia|]. split; [cbn; lia|]. repeat split; discriminate.
  - eapply keep_step; [exact D|apply M; exact (run_here _ _ _ R)|exact IH|exact ST].
Qed.

(** how many pings keepAlive may still send after the context is done *)
Definition may (w : world) : nat :=
  match k w with
  | KLock | KWrite | KFlush _ => 1
  | KSelect _ => match doneAt w with Some x => if kt w <? x then 1 else 0 | None => 1 end
  | _ => 0
  end.
Fixpoint pings (es : list event) : nat :=
  match es with [] => 0 | Ping :: r => S (pings r) | _ :: r => pings r end.
Lemma pings_snoc es e : pings (es ++ [e]) = (pings es + match e with Ping => 1 | _ => 0 end)%nat.
Proof. induction es as [|[] es IH]; [destruct e; reflexivity|..]; cbn; rewrite IH; lia. Qed.

Lemma done_step w ev w' : h w = HDone -> step w ev w' -> h w' = HDone /\ ev <> Return.
Proof. intros H ST. destruct ST; cbn [h] in *; try discriminate; split; auto; discriminate. Qed.
Lemma may_step d w ev w' : 0 <= d < 10000 -> KeeperTimely d w -> KeepOk d w -> h w = HDone -> step w ev w' ->
  ((match ev with Ping => 1 | _ => 0 end) + may w' <= may w)%nat.
Proof.
  intros D T (A & A2 & S & HD & C) H ST. unfold may, KeeperTimely in *. specialize (HD H).
  destruct ST; cbn [k kt ht h now doneAt cancelled] in *; try discriminate; try lia.
  - destruct d0 as [y|]; [|contradiction]. destruct (C _ eq_refl) as (z & Z1 & Z2 & _). 
    destruct (n <? y) eqn:Q; [apply Z.ltb_lt in Q; lia|lia].
  - destruct d0 as [y|]; [|contradiction]. specialize (S due eq_refl).
    destruct (tk <? y) eqn:Q; [lia|]. apply Z.ltb_ge in Q. lia.
  - destruct ok; cbn; lia.
  - destruct d0 as [y|]; [exact (le_n _)|contradiction].
Qed.
Lemma pings_after_return d es w (P : world -> Prop) : 0 <= d < 10000 -> (forall x, P x -> KeeperTimely d x) -> run P es w ->
  forall a b, es = a ++ Return :: b -> h w = HDone /\ (pings b + may w <= 1)%nat.
Proof.
  intros D M R. induction R as [|es w ev w' R IH ST P0]; intros a b Q; [destruct a; discriminate|].
  destruct b as [|e0 b0] using rev_ind.
  - apply app_inj_tail in Q. destruct Q as [-> ->]. inversion ST; subst. cbn [h]. split; [reflexivity|].
    unfold may. cbn [k pings]. destruct kp; cbn; try lia. destruct d0; cbn [cancelled doneAt]; destruct (_ <? _); lia.
  - rewrite app_comm_cons, app_assoc in Q. apply app_inj_tail in Q. destruct Q as [Q ->].
    destruct (IH _ _ Q) as [H B]. pose proof (done_step _ _ _ H ST) as [H' _]. split; [exact H'|].
    pose proof (may_step _ _ _ _ D (M _ (run_here _ _ _ R)) (keep_run _ _ _ _ D M R) H ST). rewrite pings_snoc. lia.
Qed.

(** ** The context of the implementation, the mutex, and keepAlive while the connection is not broken *)
Definition Section_ (a : actor) (w : world) : Prop :=
  match a with
  | Handler => match h w with HWrite _ | HFlush _ _ | HUnlock _ _ => True | _ => False end
  | Keeper => match k w with KWrite | KFlush _ | KUnlock _ => True | _ => False end
  end.
Definition Alive (w : world) : Prop :=
  match k w with KNone | KEnd | KFlush false | KUnlock false => False | _ => True end.
Definition Sane (w : world) : Prop :=
  (forall a, Section_ a w -> lock w = Some a) /\
  match h w with
  | HImpl | HLock Message | HWrite Message | HFlush Message _ | HUnlock Message _ =>
      net w <> Broken -> doneAt w = None /\ Alive w
  | HDone => True
  | HCancel | HDefer | HLock Failure | HWrite Failure | HFlush Failure _ | HUnlock Failure _ => True
  | _ => (net w <> Broken -> doneAt w = None) /\ k w = KNone
  end.
Lemma sane_step w ev w' : Sane w -> step w ev w' -> Sane w'.
Proof.
  intros [L C] ST. unfold Sane in *.
  assert (LK := L Keeper). assert (LH := L Handler). clear L. unfold Section_, Alive in *.
  destruct ST; cbn [h k lock net doneAt sent] in *.
  all: split; [intros []; cbn; intros X; try contradiction; try reflexivity|].
  all: try solve [apply LK; exact X | apply LH; exact X | exfalso; first [specialize (LK X)|specialize (LH X)]; discriminate].
  all: try exact C; try exact Logic.I.
  all: try solve [destruct t; try destruct ok; cbn in *; auto; contradiction].
  all: try solve [exfalso; first [destruct ok; contradiction | pose proof (LK X); pose proof (LH Logic.I); congruence | pose proof (LH X); pose proof (LK Logic.I); congruence]].
  all: try solve [destruct C as [C1 C2]; subst; intros Q; split; [auto|exact Logic.I]].
  all: try solve [destruct hp as [[]|[]|[] ?|[] ?| | | | |]; try exact Logic.I; try (destruct C as [C1 C2]; discriminate C2); intros Q;
    destruct (C Q) as [C1 C2]; first [discriminate C1 | split; [exact C1|]; first [exact Logic.I | destruct ok; [exact Logic.I|contradiction]]]].
  all: try solve [destruct hp as [[]|[]|[] ?|[] ?| | | | |]; try exact Logic.I; try (destruct C as [C1 C2]; discriminate C2); intros Q;
    destruct (C Q) as [C1 C2]; (split; [exact C1|]); destruct ok; [exact Logic.I|]; apply H in Q; discriminate].
  all: try solve [destruct hp as [[]|[]|[] ?|[] ?| | | | |]; try exact Logic.I; try contradiction; first [intros Q; apply C; discriminate | intros Q; contradiction
    | (destruct C as [C1 C2]; split; [intros Q; first [contradiction | apply C1; discriminate]|exact C2])]].
  destruct hp as [[]|[]|[] ?|[] ?| | | | |]; try exact Logic.I; try (destruct C as [C1 C2]; discriminate C2); intros Q;
    destruct (C Q) as [C1 _]; (split; [exact C1|]); destruct ok; try exact Logic.I; apply H in Q; discriminate Q.
Qed.
Lemma sane_run P es w : run P es w -> Sane w.
Proof.
  intros R. induction R as [|es w ev w' R IH ST _]; [split; [intros []; contradiction|cbn; auto]|]. eapply sane_step; eassumption.
Qed.

(** ** Streams that go on *)
(** the implementation waits, everything that was sent has been read, and keepAlive has just begun to wait *)
Definition parked (n t : Z) : world := World n None HImpl 0 (KSelect (n + 10000)) n None Up [] CReading n (Some t).

Ltac now_step := eapply RStep; [|constructor|].
Lemma timely_any d j e w : 0 <= d -> 0 <= j -> 0 <= e -> Timely 0 0 0 w -> Timely d j e w.
Proof.
  intros D J E (A & B & C & F). unfold Timely, HandlerTimely, KeeperTimely, WireTimely, TimerTimely in *. repeat split.
  - destruct (h w) as [[]|[]|[] ?|[] ?| | | | |]; try exact Logic.I; lia.
  - destruct (k w); try exact Logic.I; try lia. destruct B as [B1 B2]. split; [lia|]. destruct (doneAt w); [lia|exact Logic.I].
  - eapply Forall_impl; [|exact C]. cbn. lia.
  - destruct (timer w); [lia|exact Logic.I].
Qed.

Ltac timely := unfold Timely, HandlerTimely, KeeperTimely, WireTimely, TimerTimely, sent, sentLate, clientTimeout, keepAliveInterval; cbn;
  repeat split; repeat constructor; try exact Logic.I; cbn; try lia.
Ltac go s := eapply RStep; [|eapply s|timely].

Lemma parked_start : run (Timely 0 0 0) [Other; Other; Other; Other; Other; Other; Other] (parked 0 11000).
Proof.
  change [Other; Other; Other; Other; Other; Other; Other] with ([Other; Other; Other; Other; Other; Other] ++ [Other]).
  go KSleep. change [Other; Other; Other; Other; Other; Other] with ([Other; Other; Other; Other; Other] ++ [Other]).
  go (COpen 0 None HImpl 0 KStart 0 None Up 0 [] 0 None). change [Other; Other; Other; Other; Other] with ([Other; Other; Other; Other] ++ [Other]).
  go (SSpawn 0 None 0 KNone 0 None Up [(0, false)] CWait 0 None). change [Other; Other; Other; Other] with ([Other; Other; Other] ++ [Other]).
  go (SUnlock 0 (Some Handler) First 0 KNone 0 None Up [(0, false)] CWait 0 None true). change [Other; Other; Other] with ([Other; Other] ++ [Other]).
  go (SFlush 0 (Some Handler) First 0 KNone 0 None Up [] CWait 0 None true). change [Other; Other] with ([Other] ++ [Other]).
  eapply RStep; [|eapply (SWrite 0 (Some Handler) First 0 KNone 0 None Up [] CWait 0 None true); [discriminate|reflexivity]|timely]. change [Other] with ([] ++ [Other]).
  go (SLock 0 First 0 KNone 0 None Up [] CWait 0 None). apply RStart. timely.
Qed.
Lemma ping_now es n m t : run (Timely 0 0 0) es (World m None HImpl 0 (KSelect m) n None Up [] CReading n (Some t)) ->
  n <= m <= t -> exists es', run (Timely 0 0 0) es' (parked m t).
Proof.
  intros R B. eexists. unfold parked.
  go (KSleep m None HImpl 0 m None Up [] CReading m (Some t)).
  go (KRelease m (Some Keeper) HImpl 0 m None Up [] CReading m (Some t) true).
  go (CRead m (Some Keeper) HImpl 0 (KUnlock true) m None Up m [] n (Some t)).
  go (KSend m (Some Keeper) HImpl 0 m None Up [] CReading n (Some t) true).
  eapply RStep; [|eapply (KPut m (Some Keeper) HImpl 0 m None Up [] CReading n (Some t) true); split; [discriminate|reflexivity]|timely].
  go (KTake m HImpl 0 m None Up [] CReading n (Some t)).
  eapply RStep; [|eapply (KWake m None HImpl 0 m n None Up [] CReading n (Some t)); lia|timely].
  exact R.
Qed.
Lemma wait es n m t x : run (Timely 0 0 0) es (World n None HImpl 0 (KSelect m) x None Up [] CReading x (Some t)) ->
  n < m -> m <= t -> run (Timely 0 0 0) (es ++ [Other]) (World m None HImpl 0 (KSelect m) x None Up [] CReading x (Some t)).
Proof.
  intros R B B2. replace m with (n + (m - n)) at 1 by lia.
  eapply RStep; [exact R|eapply SPass; lia|]. replace (n + (m - n)) with m by lia. timely.
Qed.
Lemma period es n t : run (Timely 0 0 0) es (parked n t) -> n < t <= n + 11000 ->
  exists es' t', run (Timely 0 0 0) es' (parked (n + 10000) t') /\ n + 10000 < t' <= n + 21000.
Proof.
  intros R B. unfold parked in R.
  destruct (Z_lt_le_dec (n + 10000) t) as [L|L].
  - apply wait in R; [|lia|lia]. apply ping_now in R; [|lia]. destruct R as [es' R]. exists es', t. split; [exact R|lia].
  - assert (R2 : run (Timely 0 0 0) (es ++ [Other]) (World t None HImpl 0 (KSelect (n + 10000)) n None Up [] CReading n (Some t))).
    { replace t with (n + (t - n)) at 1 by lia. eapply RStep; [exact R|eapply SPass; lia|]. replace (n + (t - n)) with t by lia. timely. }
    assert (R3 : run (Timely 0 0 0) ((es ++ [Other]) ++ [Other]) (World t None HImpl 0 (KSelect (n + 10000)) n None Up [] CReading n (Some (t + 11000)))).
    { eapply RStep; [exact R2|eapply CFine; [lia|unfold clientTimeout; lia]|timely]. }
    clear R2. rename R3 into R2.
    destruct (Z.eq_dec t (n + 10000)) as [->|NE].
    + apply ping_now in R2; [|lia]. destruct R2 as [es' R2]. eexists es', _. split; [exact R2|lia].
    + apply wait in R2; [|lia|lia]. apply ping_now in R2; [|lia]. destruct R2 as [es' R2]. eexists es', _. split; [exact R2|lia].
Qed.
Lemma parked_always m : exists es t, run (Timely 0 0 0) es (parked (10000 * Z.of_nat m) t) /\ 10000 * Z.of_nat m < t <= 10000 * Z.of_nat m + 11000.
Proof.
  induction m as [|m (es & t & R & B)].
  - eexists _, 11000. split; [exact parked_start|cbn; lia].
  - destruct (period _ _ _ R B) as (es' & t' & R' & B'). exists es', t'. replace (10000 * Z.of_nat (S m)) with (10000 * Z.of_nat m + 10000) by lia. split; [exact R'|lia].
Qed.
