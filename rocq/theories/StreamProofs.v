From Verif Require Import Base BaseProofs Utf8 Utf8Proofs Json JsonProofs GoVal GoValSpec GoValProofs Rpc RpcSpec RpcProofs RpcRemote
  Stream StreamSpec.

(** ** setNth *)

Lemma nth_setNth {A} i (v : A) l x : nth_error l i = Some x -> nth_error (setNth i v l) i = Some v.
Proof. revert i. induction l as [|y l IH]; intros [|i]; cbn; try discriminate; auto. Qed.
Lemma nth_setNth_ne {A} i j (v : A) l : i <> j -> nth_error (setNth i v l) j = nth_error l j.
Proof. revert i j. induction l as [|y l IH]; intros [|i] [|j] H; cbn; auto; congruence. Qed.
Lemma map_setNth {A B} (f : A -> B) i v l : map f (setNth i v l) = setNth i (f v) (map f l).
Proof. revert i. induction l as [|y l IH]; intros [|i]; cbn; congruence. Qed.
Lemma setNth_same {A} i (v : A) l : nth_error l i = Some v -> setNth i v l = l.
Proof. revert i. induction l as [|y l IH]; intros [|i]; cbn; try congruence. intros H. rewrite IH by exact H. reflexivity. Qed.
Lemma setNth_twice {A} i (v w : A) l : setNth i v (setNth i w l) = setNth i v l.
Proof. revert i. induction l as [|y l IH]; intros [|i]; cbn; congruence. Qed.
Lemma setNth_length {A} i (v : A) l : length (setNth i v l) = length l.
Proof. revert i. induction l as [|y l IH]; intros [|i]; cbn; auto. Qed.

Lemma takes_snoc {A} (ps : list (list A)) l ps' i o rest : Takes ps l ps' -> nth_error ps' i = Some (o :: rest) ->
  Takes ps (l ++ [o]) (setNth i rest ps').
Proof.
  induction 1 as [ps|j o' rest' ps l ps' N T IH]; intros H; cbn [app].
  - eapply TakesOne; [exact H|apply TakesNone].
  - eapply TakesOne; [exact N|apply IH, H].
Qed.

(** ** The mutex *)

Fixpoint allBytes (l : list op) : string :=
  match l with [] => EmptyString | o :: r => (op_bytes o ++ allBytes r)%string end.

Lemma allBytes_app a b : allBytes (a ++ b) = (allBytes a ++ allBytes b)%string.
Proof. induction a as [|x a IH]; cbn; [reflexivity|]. rewrite IH, sapp_assoc. reflexivity. Qed.

Definition locked (ps : list (list op)) : Prop := forall p o, In p ps -> In o p -> op_locked o = true.

(** with all calls locked, what is on the wire is a sequence of whole calls,
    but for the call of the goroutine that holds the mutex *)
Inductive Inv (ps : list (list op)) : world -> Prop :=
| InvFree l out ths :
    out = allBytes l -> Takes ps l (map th_todo ths) -> (forall th, In th ths -> th_cur th = None) ->
    Inv ps (World None out ths)
| InvHeld i l o written left rest out ths :
    op_bytes o = (written ++ left)%string -> out = (allBytes l ++ written)%string ->
    nth_error ths i = Some (Thread rest (Some (true, left))) ->
    Takes ps l (map th_todo (setNth i (Thread (o :: rest) None) ths)) ->
    (forall j th, j <> i -> nth_error ths j = Some th -> th_cur th = None) ->
    Inv ps (World (Some i) out ths).

Lemma locked_left ps l ps' : Takes ps l ps' -> locked ps -> locked ps'.
Proof.
  induction 1 as [ps|i o rest ps l ps' N T IH]; intros L; [exact L|]. apply IH.
  intros p x Hp Hx. apply In_nth_error in Hp. destruct Hp as [j Hj].
  destruct (Nat.eq_dec i j) as [->|NE].
  - rewrite (nth_setNth _ _ _ _ N) in Hj. injection Hj as <-. apply (L (o :: rest)); [eapply nth_error_In, N|right; exact Hx].
  - rewrite nth_setNth_ne in Hj by exact NE. apply (L p); [eapply nth_error_In, Hj|exact Hx].
Qed.

Lemma inv_start ps : Inv ps (start ps).
Proof.
  unfold start. apply InvFree with (l := []); [reflexivity| |].
  - rewrite map_map. cbn. rewrite map_id. apply TakesNone.
  - intros th H. apply in_map_iff in H. destruct H as (p & <- & _). reflexivity.
Qed.

Lemma takes_todo ps l ths i o rest cur : Takes ps l (map th_todo ths) -> nth_error ths i = Some (Thread (o :: rest) cur) ->
  locked ps -> op_locked o = true.
Proof.
  intros T N L. apply (locked_left _ _ _ T L (o :: rest)); [|left; reflexivity].
  apply nth_error_In with (n := i). rewrite nth_error_map, N. reflexivity.
Qed.

Lemma inv_step ps a b : locked ps -> Inv ps a -> step a b -> Inv ps b.
Proof.
  intros L I S. destruct S as [i o rest out ths N LK|i o rest lk out ths N LK|i bb c s rest lk out ths N|i rest lk out ths N|i rest lk out ths N].
  - inversion I as [l out' ths' E T F EQ|]; subst.
    apply InvHeld with (l := l) (o := o) (written := EmptyString) (left := op_bytes o) (rest := rest).
    + reflexivity.
    + rewrite sapp_nil_r. reflexivity.
    + eapply nth_setNth, N.
    + rewrite setNth_twice, setNth_same by exact N. exact T.
    + intros j th NE H. rewrite nth_setNth_ne in H by congruence. apply F. eapply nth_error_In, H.
  - exfalso. inversion I as [l out' ths' E T F EQ|k l o' w lf' rest' out' ths' E1 E2 NK T F]; subst.
    + pose proof (takes_todo _ _ _ _ _ _ _ T N L). congruence.
    + destruct (Nat.eq_dec k i) as [->|NE]; [rewrite NK in N; discriminate|].
      pose proof (takes_todo _ _ _ i o rest None T) as X. rewrite nth_setNth_ne in X by exact NE. specialize (X N L). congruence.
  - inversion I as [l out' ths' E T F EQ|k l o' w lf' rest' out' ths' E1 E2 NK T F]; subst.
    + apply nth_error_In, F in N. discriminate N.
    + destruct (Nat.eq_dec k i) as [->|NE]; [|apply F in N; [discriminate N|congruence]].
      rewrite NK in N. injection N as -> <- ->.
      apply InvHeld with (l := l) (o := o') (written := (w ++ String c EmptyString)%string) (left := s) (rest := rest).
      * rewrite sapp_assoc. exact E1.
      * rewrite sapp_assoc. reflexivity.
      * eapply nth_setNth, NK.
      * rewrite setNth_twice. exact T.
      * intros j th NE H. rewrite nth_setNth_ne in H by congruence. apply (F j); assumption.
  - inversion I as [l out' ths' E T F EQ|k l o' w lf' rest' out' ths' E1 E2 NK T F]; subst.
    + apply nth_error_In, F in N. discriminate N.
    + destruct (Nat.eq_dec k i) as [->|NE]; [|apply F in N; [discriminate N|congruence]].
      rewrite NK in N. injection N as -> ->. rewrite sapp_nil_r in E1.
      apply InvFree with (l := l ++ [o']).
      * rewrite allBytes_app. cbn. rewrite sapp_nil_r, E1. reflexivity.
      * rewrite map_setNth in T |- *. cbn [th_todo] in *.
        replace (setNth i rest (map th_todo ths)) with (setNth i rest (setNth i (o' :: rest) (map th_todo ths))) by apply setNth_twice.
        apply (takes_snoc _ _ _ _ o'); [exact T|]. eapply nth_setNth. rewrite nth_error_map, NK. reflexivity.
      * intros th H. apply In_nth_error in H. destruct H as [j H]. destruct (Nat.eq_dec i j) as [->|NE].
        -- rewrite (nth_setNth _ _ _ _ NK) in H. injection H as <-. reflexivity.
        -- rewrite nth_setNth_ne in H by exact NE. apply (F j); [congruence|exact H].
  - exfalso. inversion I as [l out' ths' E T F EQ|k l o' w lf' rest' out' ths' E1 E2 NK T F]; subst.
    + apply nth_error_In, F in N. discriminate N.
    + destruct (Nat.eq_dec k i) as [->|NE]; [rewrite NK in N; discriminate|apply F in N; [discriminate N|congruence]].
Qed.

Theorem inv_steps ps w : locked ps -> steps (start ps) w -> Inv ps w.
Proof.
  intros L H. remember (start ps) as s eqn:E. induction H as [w|a b c H IH S]; subst.
  - apply inv_start.
  - apply (inv_step ps b); auto.
Qed.

(** ** No deadlock *)

Definition workOf (th : thread) : nat :=
  fold_right (fun o n => 2 + String.length (op_bytes o) + n) 0 (th_todo th) +
  match th_cur th with Some (_, s) => 1 + String.length s | None => 0 end.
Definition work (w : world) : nat := fold_right (fun th n => workOf th + n) 0 (wd_threads w).

Lemma work_setNth i th th' ths : nth_error ths i = Some th -> workOf th' < workOf th ->
  fold_right (fun th n => workOf th + n) 0 (setNth i th' ths) < fold_right (fun th n => workOf th + n) 0 ths.
Proof.
  revert i. induction ths as [|x ths IH]; intros [|i] N L; cbn in *; try discriminate.
  - injection N as ->. lia.
  - specialize (IH i N L). lia.
Qed.

Theorem step_work a b : step a b -> work b < work a.
Proof.
  intros S. destruct S as [i o rest out ths N LK|i o rest lk out ths N LK|i bb c s rest lk out ths N|i rest lk out ths N|i rest lk out ths N];
  unfold work; cbn [wd_threads]; eapply work_setNth; try exact N; cbn; lia.
Qed.

Definition allDone (w : world) : Prop := forall th, In th (wd_threads w) -> th = Thread [] None.

Lemma some_active ths : (forall th, In th ths -> th = Thread [] None) \/
  (exists i th, nth_error ths i = Some th /\ (th_todo th <> [] \/ th_cur th <> None)).
Proof.
  induction ths as [|[t c] ths [IH|(i & th & N & A)]].
  - left. intros th [].
  - destruct t as [|o t].
    + destruct c as [x|].
      * right. exists 0. eexists. split; [reflexivity|]. right. discriminate.
      * left. intros th [<-|H]; auto.
    + right. exists 0. eexists. split; [reflexivity|]. left. discriminate.
  - right. exists (S i), th. auto.
Qed.

Theorem no_deadlock ps w : locked ps -> steps (start ps) w -> allDone w \/ exists w', step w w'.
Proof.
  intros L H. pose proof (inv_steps ps w L H) as I.
  destruct I as [l out ths E T F|k l o' wr lf' rest' out ths E1 E2 NK T F].
  - destruct (some_active ths) as [D|(i & [t c] & N & A)]; [left; exact D|]. right.
    assert (c = None) as -> by (apply nth_error_In, F in N; exact N).
    destruct t as [|o t]; [destruct A as [A|A]; exfalso; apply A; reflexivity|].
    eexists. eapply StepLock; [exact N|]. eapply takes_todo; eauto.
  - right. destruct lf' as [|c s].
    + eexists. eapply StepUnlock, NK.
    + eexists. eapply StepWrite, NK.
Qed.

(** ** A handler and the keep-alive goroutine *)

Lemma takes_pings H l n H' k' : Takes [H; repeat pingOp n] l [H'; k'] ->
  exists done, H = done ++ H' /\ Between pingOp done l.
Proof.
  remember [H; repeat pingOp n] as ps eqn:EP. remember [H'; k'] as qs eqn:EQ.
  intros T. revert H n EP. induction T as [ps|i o rest ps l qs N T IH]; intros H n EP; subst.
  - injection EP as -> _. exists []. split; [reflexivity|constructor].
  - destruct i as [|[|i]]; cbn in N.
    + injection N as ->. destruct (IH eq_refl rest n eq_refl) as (d & -> & B). exists (o :: d). split; [reflexivity|constructor; exact B].
    + destruct n as [|n]; cbn in N; [discriminate|]. injection N as <- <-.
      destruct (IH eq_refl H n eq_refl) as (d & -> & B). exists d. split; [reflexivity|constructor; exact B].
    + destruct i; discriminate N.
Qed.

Lemma takes_two (H K l : list op) qs : Takes [H; K] l qs -> exists a b, qs = [a; b].
Proof.
  remember [H; K] as ps eqn:E. intros T. revert H K E.
  induction T as [ps|i o rest ps l qs N T IH]; intros H K ->; [eauto|].
  destruct i as [|[|i]]; cbn in *; [eapply IH; reflexivity|eapply IH; reflexivity|destruct i; discriminate N].
Qed.

Definition twoThreads (w : world) : Prop := exists a b, wd_threads w = [a; b].

(** when the handler is done, its calls are on the wire, whole and in order,
    with pings between them *)
Theorem handler_done H n w : (forall o, In o H -> op_locked o = true) ->
  steps (start [H; keepAliveOps n]) w -> finished 0 w ->
  exists l, Between pingOp H l /\ wd_out w = allBytes l.
Proof.
  intros LH S D. unfold keepAliveOps in *.
  assert (L : locked [H; repeat pingOp n]).
  { intros p o [<-|[<-|[]]] Ho; [auto|]. apply repeat_spec in Ho. subst. reflexivity. }
  pose proof (inv_steps _ _ L S) as I. unfold finished in D.
  destruct I as [l out ths E T F|k l o written left rest out ths E1 E2 NK T F]; cbn [wd_threads wd_out] in *.
  - destruct (takes_two _ _ _ _ T) as (a & b & Q). rewrite Q in T.
    destruct (takes_pings _ _ _ _ _ T) as (d & -> & B).
    assert (a = []) as ->.
    { destruct ths as [|t0 ths]; [discriminate D|]. cbn in D. injection D as ->. cbn in Q. injection Q as <- _. reflexivity. }
    exists l. rewrite app_nil_r. auto.
  - destruct (takes_two _ _ _ _ T) as (a & b & Q). rewrite Q in T.
    destruct k as [|k]; [rewrite D in NK; discriminate NK|].
    destruct ths as [|t0 [|t1 ths]]; [discriminate D|destruct k; discriminate NK|]. cbn in D. injection D as ->.
    destruct k as [|k]; [|cbn in Q; destruct (setNth k _ ths) eqn:EE; cbn in Q; [destruct ths; [destruct k; discriminate NK|destruct k; discriminate EE]|discriminate Q]].
    cbn in NK. injection NK as ->. cbn in Q. injection Q as <- <- Q'. 
    pose proof (takes_pings _ _ _ _ _ T) as (d & -> & B). rewrite app_nil_r.
    assert (o = pingOp) as ->.
    { assert (Forall (eq pingOp) (o :: rest)) as FA.
      { clear - T. remember [d ++ []; repeat pingOp n] as ps eqn:EP. remember [[]; o :: rest] as qs eqn:EQ.
        revert EP. generalize (d ++ []) as h. revert n. induction T as [ps|i x r ps l qs N T IH]; intros n h ->.
        - injection EQ as _ EQ. assert (Forall (eq pingOp) (repeat pingOp n)) as R by (apply Forall_forall; intros x Hx; apply repeat_spec in Hx; auto).
          rewrite <- EQ. exact R.
        - destruct i as [|[|i]]; cbn in N.
          + eapply (IH EQ n r). reflexivity.
          + destruct n; cbn in N; [discriminate|]. injection N as _ <-. eapply (IH EQ n h). reflexivity.
          + destruct i; discriminate N. }
      inversion FA; congruence. }
    destruct written as [|c w0].
    + exists l. split; [exact B|]. rewrite E2, sapp_nil_r. reflexivity.
    + cbn in E1. injection E1 as <- E1. destruct w0; [|discriminate E1]. destruct left; [|discriminate E1].
      exists (l ++ [pingOp]). split.
      * clear - B. induction B; cbn; [constructor; constructor|constructor; assumption|constructor; assumption].
      * rewrite allBytes_app, E2. reflexivity.
Qed.

(** ** What the reader makes of it *)

Lemma readLine_app s rest : noLF s = true -> readLine (s ++ lf ++ rest) = Some (s, rest).
Proof.
  unfold noLF. induction s as [|c s IH]; intros H; [reflexivity|]. cbn [append readLine]. cbn [sforall] in H.
  apply andb_true_iff in H. destruct H as [C H]. apply negb_true_iff in C. rewrite C, IH by exact H. reflexivity.
Qed.

Lemma readLine_none s : noLF s = true -> readLine s = None.
Proof.
  unfold noLF. induction s as [|c s IH]; intros H; [reflexivity|]. cbn [readLine]. cbn [sforall] in H.
  apply andb_true_iff in H. destruct H as [C H]. apply negb_true_iff in C. rewrite C, IH by exact H. reflexivity.
Qed.

Lemma readLine_length s l rest : readLine s = Some (l, rest) -> String.length s = S (String.length l + String.length rest).
Proof.
  revert l rest. induction s as [|c s IH]; intros l rest H; cbn in *; [discriminate|].
  destruct (N_of_byte c =? 10)%N; [injection H as <- <-; reflexivity|].
  destruct (readLine s) as [[l' r']|]; [|discriminate]. injection H as <- <-. rewrite (IH l' r' eq_refl). reflexivity.
Qed.

Lemma nextLine_fuel n : forall s f g, String.length s < n -> String.length s < f -> String.length s < g -> nextLine f s = nextLine g s.
Proof.
  induction n as [|n IH]; intros s f g Hn Hf Hg; [lia|].
  destruct f as [|f]; [lia|]. destruct g as [|g]; [lia|]. cbn [nextLine].
  destruct (readLine s) as [[l rest]|] eqn:E; [|reflexivity]. apply readLine_length in E.
  destruct l; [|reflexivity]. cbn in E. apply IH; lia.
Qed.

Lemma nextLine_length f : forall s l rest, nextLine f s = Some (l, rest) -> String.length rest < String.length s.
Proof.
  induction f as [|f IH]; intros s l rest H; cbn in H; [discriminate|].
  destruct (readLine s) as [[l' r']|] eqn:E; [|discriminate]. apply readLine_length in E.
  destruct l'; [apply IH in H; cbn in E; lia|]. injection H as <- <-. lia.
Qed.

Lemma read_length env fs tail s vs rest : read env fs tail s = Message vs rest -> String.length rest < String.length s.
Proof.
  unfold read. destruct (nextLine _ s) as [[l r]|] eqn:E; [|discriminate]. apply nextLine_length in E.
  destruct (unmarshalStruct _ _ _) as [ws|]; [|discriminate].
  destruct (asError _); [discriminate|]. intros [= _ <-]. exact E.
Qed.

Lemma readAll_fuel n env fs tail : forall s f g, String.length s < n -> String.length s < f -> String.length s < g ->
  readAll f env fs tail s = readAll g env fs tail s.
Proof.
  induction n as [|n IH]; intros s f g Hn Hf Hg; [lia|].
  destruct f as [|f]; [lia|]. destruct g as [|g]; [lia|]. cbn [readAll].
  destruct (read env fs tail s) as [vs rest|] eqn:E; [|reflexivity]. apply read_length in E.
  rewrite (IH rest f g) by lia. reflexivity.
Qed.

Lemma read_ping env fs tail s : read env fs tail (lf ++ s) = read env fs tail s.
Proof.
  unfold read. rewrite slength_app. change (String.length lf) with 1. cbn [plus]. cbn [nextLine].
  change (readLine (lf ++ s)) with (Some (EmptyString, s)). reflexivity.
Qed.

Lemma readAll_S f env fs tail s : readAll (S f) env fs tail s =
  match read env fs tail s with
  | Failed e => ([], Some e)
  | Message vs rest => let (ms, e) := readAll f env fs tail rest in (vs :: ms, e)
  end.
Proof. reflexivity. Qed.

Lemma received_ping env fs tail s : received env fs tail (lf ++ s) = received env fs tail s.
Proof.
  unfold received. rewrite slength_app. change (String.length lf) with 1. cbn [plus].
  rewrite !readAll_S, read_ping. destruct (read env fs tail s) as [vs rest|] eqn:E; [|reflexivity].
  apply read_length in E. rewrite (readAll_fuel (S (String.length rest)) env fs tail rest (S (String.length s)) (String.length s)) by lia. reflexivity.
Qed.

Lemma received_empty env fs tail : received env fs tail EmptyString = ([], Some (endError tail)).
Proof. reflexivity. Qed.

Lemma received_partial env fs tail s : noLF s = true -> received env fs tail s = ([], Some (endError tail)).
Proof.
  intros H. unfold received. cbn [readAll]. unfold read. cbn [nextLine]. rewrite readLine_none by exact H. reflexivity.
Qed.

(** *** a message *)

Lemma fits_snoc env fs vs f v : FitsFields env fs vs -> Fits env (gf_ty f) v -> ValidUtf8 (gf_name f) ->
  ~ In (gf_name f) (map gf_name fs) -> (gf_omit f = true -> v <> VSlice (Some []) /\ v <> VMap (Some [])) ->
  FitsFields env (fs ++ [f]) (vs ++ [v]).
Proof.
  intros F H V N O. revert vs F. induction fs as [|g fs IH]; intros vs F; inversion F; subst; cbn [app].
  - apply FFCons; auto.
  - apply FFCons; auto.
    + rewrite map_app. intros C. apply in_app_iff in C. cbn in C. destruct C as [C|[C|[]]]; [contradiction|].
      apply N. left. symmetry. exact C.
    + apply IH; [|assumption]. intros C. apply N. right. exact C.
Qed.

Lemma toFields_snoc_omit env fs vs f v : length fs = length vs -> gf_omit f = true -> isEmptyValue v = true ->
  toFields env (fs ++ [f]) (vs ++ [v]) = toFields env fs vs.
Proof.
  revert vs. induction fs as [|g fs IH]; intros [|w vs] L O E; cbn in L; try discriminate L; cbn [app toFields].
  - rewrite O, E. reflexivity.
  - rewrite IH by (auto; lia). reflexivity.
Qed.

Lemma fits_length env fs vs : FitsFields env fs vs -> length fs = length vs.
Proof. revert vs. induction fs as [|f fs IH]; intros vs F; inversion F; subst; cbn; auto. Qed.

Definition sameField (f g : goField) : Prop := gf_name f = gf_name g /\ gf_ty f = gf_ty g.

Lemma fieldIndex_same p fs gs : Forall2 sameField fs gs -> fieldIndex p fs = fieldIndex p gs.
Proof. induction 1 as [|f g fs gs [N _] H IH]; cbn; [reflexivity|]. rewrite N, IH. reflexivity. Qed.

Lemma nth_same fs gs i : Forall2 sameField fs gs ->
  match nth_error fs i, nth_error gs i with Some f, Some g => gf_ty f = gf_ty g | None, None => True | _, _ => False end.
Proof. intros H. revert i. induction H as [|f g fs gs [_ T] H IH]; intros [|i]; cbn; auto. apply IH. Qed.

Lemma fromFields_same env fs gs l : Forall2 sameField fs gs -> forall acc, fromFields env fs acc l = fromFields env gs acc l.
Proof.
  intros H. induction l as [|[k x] l IH]; intros acc; cbn [fromFields]; [reflexivity|].
  unfold findField. rewrite !(fieldIndex_same _ _ _ H).
  destruct (match fieldIndex (String.eqb k) gs with Some i => Some i | None => _ end) as [i|]; [|apply IH].
  pose proof (nth_same fs gs i H) as N. destruct (nth_error fs i), (nth_error gs i); try contradiction; [|reflexivity].
  rewrite N. destruct (fromJ _ _ _); [apply IH|reflexivity].
Qed.

Lemma zeros_same fs gs : Forall2 sameField fs gs -> map (fun f => zeroVal (gf_ty f)) fs = map (fun f => zeroVal (gf_ty f)) gs.
Proof. induction 1 as [|f g fs gs [_ T] H IH]; cbn; congruence. Qed.

Lemma unmarshal_same env fs gs s : Forall2 sameField fs gs -> unmarshalStruct env fs s = unmarshalStruct env gs s.
Proof.
  intros H. unfold unmarshalStruct. rewrite (zeros_same _ _ H). destruct (parseJ s) as [[]|]; try reflexivity.
  apply fromFields_same, H.
Qed.

Lemma vsdepth_app a b : vsdepth (a ++ b) = Nat.max (vsdepth a) (vsdepth b).
Proof. induction a as [|x a IH]; cbn [app vsdepth]; [reflexivity|]. rewrite IH. lia. Qed.

Lemma message_line env fs vs : Sendable env fs vs ->
  exists s, encode env fs vs = (s ++ lf)%string /\ noLF s = true /\ s <> EmptyString /\
    unmarshalStruct env (readerFields fs) (s ++ lf) = Some (vs ++ [VPtr None]).
Proof.
  intros [[F D] N]. set (g := GF "webrpcError" true (TRef "WebRPCError")).
  assert (F' : FitsFields env (fs ++ [g]) (vs ++ [VPtr None])).
  { apply fits_snoc; auto; [apply FNilRef|apply ascii_valid; reflexivity|intros _; split; discriminate]. }
  destruct (payload_round_trip env (fs ++ [g]) (vs ++ [VPtr None]) F') as (s & M & NL & _ & U).
  { rewrite vsdepth_app. cbn. lia. }
  unfold marshalStruct in M. rewrite toFields_snoc_omit in M; [|eapply fits_length, F|reflexivity|reflexivity].
  exists s. unfold encode, marshalStruct. destruct (toFields env fs vs) as [l|]; [|discriminate M]. cbn in M. injection M as <-.
  split; [reflexivity|]. split; [exact NL|]. split; [discriminate|].
  rewrite (unmarshal_same env (readerFields fs) (fs ++ [g])); [exact U|].
  unfold readerFields. apply Forall2_app; [|repeat constructor].
  clear. induction fs; repeat constructor; auto.
Qed.

Lemma received_line env fs tail s rest : noLF s = true -> s <> EmptyString ->
  received env fs tail ((s ++ lf) ++ rest) =
  match unmarshalStruct env (readerFields fs) (s ++ lf) with
  | None => ([], Some (withCausef ErrWebrpcBadResponse "reading stream"))
  | Some vs =>
      match asError (last vs (VPtr None)) with
      | Some e => ([], Some e)
      | None => (removelast vs :: fst (received env fs tail rest), snd (received env fs tail rest))
      end
  end.
Proof.
  intros NL NE. set (whole := ((s ++ lf) ++ rest)%string).
  assert (NX : nextLine (S (String.length whole)) whole = Some (s, rest)).
  { unfold whole. cbn [nextLine]. rewrite sapp_assoc, readLine_app by exact NL. destruct s; [congruence|reflexivity]. }
  assert (LR : String.length rest < String.length whole) by (apply nextLine_length in NX; exact NX).
  unfold received at 1. rewrite readAll_S.
  assert (R : read env fs tail whole = match unmarshalStruct env (readerFields fs) (s ++ lf) with
      | None => Failed (withCausef ErrWebrpcBadResponse "reading stream")
      | Some vs =>
          match asError (last vs (VPtr None)) with
          | Some e => Failed e
          | None => Message (removelast vs) rest
          end
      end) by (unfold read; rewrite NX; reflexivity).
  rewrite R. clear R.
  assert (G : forall vs, (let (ms, e) := readAll (String.length whole) env fs tail rest in (removelast vs :: ms, e)) =
    (removelast vs :: fst (received env fs tail rest), snd (received env fs tail rest))).
  { intros vs. unfold received. rewrite (readAll_fuel (String.length whole) env fs tail rest _ (S (String.length rest))) by lia.
    destruct (readAll _ _ _ _ rest). reflexivity. }
  destruct (unmarshalStruct _ _ _) as [vs|]; [|reflexivity].
  destruct (asError _); [reflexivity|apply G].
Qed.

Lemma removelast_snoc {A} (l : list A) x : removelast (l ++ [x]) = l.
Proof. apply removelast_last. Qed.

Lemma received_message env fs tail vs rest : Sendable env fs vs ->
  received env fs tail (encode env fs vs ++ rest) =
  (vs :: fst (received env fs tail rest), snd (received env fs tail rest)).
Proof.
  intros S. destruct (message_line env fs vs S) as (s & E & NL & NE & U). rewrite E.
  rewrite received_line by assumption. rewrite U, last_last, removelast_last. reflexivity.
Qed.

(** *** an error *)

Lemma error_json env e : HasErrorType env ->
  marshalStruct env [webrpcErrorField] [VPtr (Some (VStruct (errorVals e)))] =
  Some (printJ (JObj [("webrpcError", JObj (errorMembers e))])).
Proof.
  intros H. unfold marshalStruct. cbn [toFields webrpcErrorField gf_omit andb gf_ty gf_name].
  rewrite toJ_ref, H. change (toFields env errorFields (errorVals e)) with (toFields env errorFields (errorVals e)).
  rewrite errorMembers_eq. reflexivity.
Qed.

Lemma error_nums e : JNums (JObj [("webrpcError", JObj (errorMembers e))]).
Proof. constructor. intros k x [[= <- <-]|[]]. apply errorMembers_nums. Qed.

Lemma error_depth e : (N.of_nat (jdepth (JObj [("webrpcError", JObj (errorMembers e))])) <= maxNestingDepth)%N.
Proof. unfold errorMembers. destruct (isEmptyStr (re_causeText e)); apply N.leb_le; reflexivity. Qed.

Lemma error_line env e : HasErrorType env -> Int64 (re_code e) -> Int64 (re_status e) ->
  exists s, errorLine env e = (s ++ lf)%string /\ noLF s = true /\ s <> EmptyString /\
  forall fs, ~ In "webrpcError" (map gf_name fs) ->
  unmarshalStruct env (readerFields fs) (s ++ lf) =
    Some (map (fun f => zeroVal (gf_ty f)) fs ++
      [VPtr (Some (VStruct [VStr (san (re_name e)); VInt (re_code e); VStr (san (re_message e)); VStr (san (re_causeText e)); VInt (re_status e)]))]).
Proof.
  intros H C ST. exists (printJ (JObj [("webrpcError", JObj (errorMembers e))])).
  unfold errorLine, encode. rewrite error_json by exact H.
  split; [reflexivity|]. split; [apply print_noLF, error_nums|]. split; [discriminate|]. intros fs N.
  unfold unmarshalStruct, lf, chr. rewrite (proj2 (parse_print_san _ (error_nums e) (error_depth e))).
  change (sanJ (JObj [("webrpcError", JObj (errorMembers e))])) with (JObj [("webrpcError", sanJ (JObj (errorMembers e)))]).
  rewrite san_errorMembers. cbn [fromFields].
  assert (findField "webrpcError" (readerFields fs) = Some (length fs)) as ->.
  { unfold findField, readerFields. change "webrpcError" with (gf_name webrpcErrorField). rewrite (fieldIndex_exact fs webrpcErrorField []); [reflexivity|exact N]. }
  unfold readerFields. rewrite nth_error_mid. cbn [webrpcErrorField gf_ty]. rewrite fromJ_ref, H.
  assert (FE : fromFields env errorFields (map (fun f => zeroVal (gf_ty f)) errorFields)
      (("error", JStr (san (re_name e))) :: ("code", JNum (zdec (re_code e))) :: ("msg", JStr (san (re_message e))) ::
        (if isEmptyStr (re_causeText e) then [] else [("cause", JStr (san (re_causeText e)))]) ++
        [("status", JNum (zdec (re_status e)))]) =
      Some [VStr (san (re_name e)); VInt (re_code e); VStr (san (re_message e)); VStr (san (re_causeText e)); VInt (re_status e)]).
  { destruct (re_causeText e) as [|c t]; cbn [isEmptyStr app].
    - apply (proj2 (from_errorMembers env _ _ _ EmptyString _ C ST)).
    - apply (proj1 (from_errorMembers env _ _ _ _ _ C ST)). }
  rewrite FE. cbn [option_map]. rewrite map_app. cbn [map].
  rewrite <- (map_length (fun f => zeroVal (gf_ty f)) fs). rewrite setNth_mid. reflexivity.
Qed.

Lemma received_error env fs tail e rest : HasErrorType env -> Int64 (re_code e) -> Int64 (re_status e) ->
  ~ In "webrpcError" (map gf_name fs) ->
  received env fs tail (errorLine env e ++ rest) = ([], Some (sanError e)).
Proof.
  intros H C ST N. destruct (error_line env e H C ST) as (s & E & NL & NE & U). rewrite E.
  rewrite received_line by assumption. rewrite (U fs N), last_last. reflexivity.
Qed.

(** *** whole streams *)

Lemma between_app p (a b l : list op) : Between p (a ++ b) l -> exists l1 l2, l = l1 ++ l2 /\ Between p a l1 /\ Between p b l2.
Proof.
  revert l. induction a as [|x a IH]; intros l B.
  - exists [], l. split; [reflexivity|]. split; [constructor|exact B].
  - cbn [app] in B. remember (x :: a ++ b) as q eqn:E. revert IH E. induction B as [|q out B IHB|y q out B IHB]; intros IH E; [discriminate| |].
    + destruct (IHB IH E) as (l1 & l2 & -> & B1 & B2). exists (p :: l1), l2. split; [reflexivity|]. split; [constructor; exact B1|exact B2].
    + injection E as -> ->. destruct (IH out B) as (l1 & l2 & -> & B1 & B2).
      exists (x :: l1), l2. split; [reflexivity|]. split; [constructor; exact B1|exact B2].
Qed.

Lemma received_pings env fs tail l : Between pingOp [] l -> forall rest,
  received env fs tail (allBytes l ++ rest) = received env fs tail rest.
Proof.
  intros B rest. remember [] as q eqn:E. induction B as [|q out B IH|]; [reflexivity| |discriminate].
  cbn [allBytes]. rewrite sapp_assoc. change (op_bytes pingOp) with lf. rewrite received_ping. apply IH, E.
Qed.

Lemma received_messages env fs tail msgs : (forall vs, In vs msgs -> Sendable env fs vs) ->
  forall l, Between pingOp (map (writeOp env fs) msgs) l -> forall rest,
  received env fs tail (allBytes l ++ rest) = (msgs ++ fst (received env fs tail rest), snd (received env fs tail rest)).
Proof.
  induction msgs as [|vs msgs IH]; intros S l B rest.
  - cbn [map] in B. rewrite (received_pings _ _ _ _ B). cbn [app]. destruct (received env fs tail rest); reflexivity.
  - cbn [map] in B. remember (writeOp env fs vs :: map (writeOp env fs) msgs) as q eqn:E.
    induction B as [|q out B IHB|y q out B IHB]; [discriminate| |].
    + cbn [allBytes]. rewrite sapp_assoc. change (op_bytes pingOp) with lf. rewrite received_ping. apply IHB, E.
    + injection E as -> ->. cbn [allBytes]. rewrite sapp_assoc. cbn [writeOp op_bytes].
      rewrite received_message by (apply S; left; reflexivity).
      rewrite (IH (fun v h => S v (or_intror h)) out B). reflexivity.
Qed.

Lemma between_ping_head p (H l : list op) : Between p (p :: H) l -> exists l', Between p H l'.
Proof.
  intros B. remember (p :: H) as q eqn:E. induction B as [|q out B IH|x q out B IH]; [discriminate|apply IH, E|].
  injection E as -> ->. eauto.
Qed.

Theorem stream_received env fs tail msgs e l : HasErrorType env ->
  (forall vs, In vs msgs -> Sendable env fs vs) ->
  Between pingOp (pingOp :: map (writeOp env fs) msgs ++
    match e with None => [] | Some r => [errorOp env r] end) l ->
  ~ In "webrpcError" (map gf_name fs) ->
  (forall r, e = Some r -> Int64 (re_code r) /\ Int64 (re_status r)) ->
  received env fs tail (allBytes l) =
    (msgs, Some (match e with None => endError tail | Some r => sanError r end)).
Proof.
  intros HE S B N I.
  change (pingOp :: map (writeOp env fs) msgs ++ match e with None => [] | Some r => [errorOp env r] end)
    with ([pingOp] ++ map (writeOp env fs) msgs ++ match e with None => [] | Some r => [errorOp env r] end) in B.
  apply between_app in B. destruct B as (l1 & l2 & -> & B1 & B2).
  apply between_app in B2. destruct B2 as (l3 & l4 & -> & B3 & B4).
  rewrite !allBytes_app.
  assert (P : forall rest, received env fs tail (allBytes l1 ++ rest) = received env fs tail rest).
  { clear - B1. intros rest. remember [pingOp] as q eqn:E. induction B1 as [|q out B IH|x q out B IH]; [discriminate| |].
    - cbn [allBytes]. rewrite sapp_assoc. change (op_bytes pingOp) with lf. rewrite received_ping. apply IH, E.
    - injection E as -> ->. cbn [allBytes]. rewrite sapp_assoc. change (op_bytes pingOp) with lf. rewrite received_ping.
      apply received_pings, B. }
  rewrite P. clear P B1. rewrite (received_messages env fs tail msgs S l3 B3).
  assert (L : received env fs tail (allBytes l4) = ([], Some (match e with None => endError tail | Some r => sanError r end))).
  { destruct e as [r|].
    - remember [errorOp env r] as q eqn:E. clear - B4 E HE N I. induction B4 as [|q out B IH|x q out B IH]; [discriminate| |].
      + cbn [allBytes]. change (op_bytes pingOp) with lf. rewrite received_ping. apply IH, E.
      + injection E as -> ->. cbn [allBytes errorOp op_bytes]. apply received_error; auto; apply (I r eq_refl).
    - rewrite <- (sapp_nil_r (allBytes l4)), (received_pings env fs tail l4 B4). reflexivity. }
  rewrite L. cbn. rewrite app_nil_r. reflexivity.
Qed.

(** *** streams cut anywhere *)

Definition isLine (o : op) : Prop := exists s, op_bytes o = (s ++ lf)%string /\ noLF s = true.

Lemma ping_line : isLine pingOp.
Proof. exists EmptyString. split; reflexivity. Qed.

Lemma write_line env fs vs : Sendable env fs vs -> isLine (writeOp env fs vs).
Proof. intros S. destruct (message_line env fs vs S) as (s & E & NL & _). exists s. auto. Qed.

Lemma errorOp_line env e : HasErrorType env -> Int64 (re_code e) -> Int64 (re_status e) -> isLine (errorOp env e).
Proof. intros H C ST. destruct (error_line env e H C ST) as (s & E & NL & _). exists s. auto. Qed.

Lemma prefixS_app_cases p a b : PrefixS p (a ++ b) -> PrefixS p a \/ exists q, p = (a ++ q)%string /\ PrefixS q b.
Proof.
  revert a. induction p as [|c p IH]; intros a [x E].
  - left. exists a. reflexivity.
  - destruct a as [|d a].
    + right. exists (String c p). split; [reflexivity|]. exists x. exact E.
    + cbn in E. injection E as -> E. destruct (IH a (ex_intro _ x E)) as [[y Y]|(q & -> & Q)].
      * left. exists y. cbn. congruence.
      * right. exists q. split; [reflexivity|exact Q].
Qed.

Lemma prefixS_line p s : PrefixS p (s ++ lf) -> noLF s = true -> p = (s ++ lf)%string \/ noLF p = true.
Proof.
  revert s. induction p as [|c p IH]; intros s P N; [right; reflexivity|]. destruct P as [x E]. destruct s as [|d s].
  - cbn in E. injection E as <- E. destruct p; [|discriminate E]. left. reflexivity.
  - cbn in E. injection E as <- E. unfold noLF in *. cbn [sforall] in *. apply andb_true_iff in N. destruct N as [N1 N2].
    destruct (IH s (ex_intro _ x E) N2) as [->|Q]; [left; reflexivity|right]. rewrite N1. exact Q.
Qed.

Lemma cut_lines l : Forall isLine l -> forall p, PrefixS p (allBytes l) ->
  exists l1 l2 q, l = l1 ++ l2 /\ p = (allBytes l1 ++ q)%string /\ noLF q = true.
Proof.
  induction 1 as [|o l (s & E & N) L IH]; intros p P; cbn [allBytes] in P.
  - exists [], [], EmptyString. destruct P as [x E]. destruct p; [|discriminate E]. auto.
  - destruct (prefixS_app_cases _ _ _ P) as [P'|(q & -> & Q)].
    + rewrite E in P'. destruct (prefixS_line _ _ P' N) as [->|Q].
      * exists [o], l, EmptyString. split; [reflexivity|]. split; [|reflexivity]. cbn [allBytes]. rewrite E, !sapp_nil_r. reflexivity.
      * exists [], (o :: l), p. auto.
    + destruct (IH q Q) as (l1 & l2 & r & -> & -> & NR). exists (o :: l1), l2, r.
      split; [reflexivity|]. split; [|exact NR]. cbn [allBytes]. rewrite sapp_assoc. reflexivity.
Qed.

Theorem reach_prefix ps w : locked ps -> steps (start ps) w ->
  exists l ps', Takes ps l ps' /\ PrefixS (wd_out w) (allBytes l).
Proof.
  intros L S. destruct (inv_steps ps w L S) as [l out ths E T F|k l o written left rest out ths E1 E2 NK T F]; cbn [wd_out].
  - exists l, (map th_todo ths). split; [exact T|]. exists EmptyString. rewrite sapp_nil_r. auto.
  - exists (l ++ [o]). rewrite map_setNth in T. cbn [th_todo] in T. eexists. split.
    + eapply takes_snoc; [exact T|]. eapply nth_setNth. rewrite nth_error_map, NK. reflexivity.
    + exists left. rewrite allBytes_app, E2, sapp_assoc. cbn [allBytes]. rewrite sapp_nil_r, E1. reflexivity.
Qed.

Theorem allDone_out ps w : locked ps -> steps (start ps) w -> allDone w ->
  exists l, Takes ps l (map (fun _ => []) ps) /\ wd_out w = allBytes l.
Proof.
  intros L S D. destruct (inv_steps ps w L S) as [l out ths E T F|k l o written left rest out ths E1 E2 NK T F]; unfold allDone in D; cbn [wd_out wd_threads] in *.
  - exists l. split; [|exact E].
    assert (LEN : length ps = length (map th_todo ths)).
    { clear - T. induction T as [ps|i o rest ps l ps' N T IH]; [reflexivity|]. rewrite <- IH, setNth_length. reflexivity. }
    rewrite map_length in LEN. replace (map (fun _ => []) ps) with (map th_todo ths); [exact T|].
    clear - D LEN. revert ps LEN. induction ths as [|t ths IH]; intros [|p ps] LEN; try discriminate LEN; [reflexivity|].
    cbn. rewrite (D t (or_introl eq_refl)). cbn. f_equal. apply IH; [intros th H; apply D; right; exact H|]. cbn in LEN. lia.
  - exfalso. apply nth_error_In, D in NK. discriminate NK.
Qed.

Lemma between_prefix {A} (p : A) H l : Between p H l -> forall l1 l2, l = l1 ++ l2 -> exists H1 H2, H = H1 ++ H2 /\ Between p H1 l1.
Proof.
  induction 1 as [|H out B IH|x H out B IH]; intros l1 l2 E.
  - exists [], []. destruct l1; [|discriminate E]. split; [reflexivity|constructor].
  - destruct l1 as [|y l1]; [exists [], H; split; [reflexivity|constructor]|]. cbn in E. injection E as <- E.
    destruct (IH l1 l2 E) as (H1 & H2 & -> & B1). exists H1, H2. split; [reflexivity|constructor; exact B1].
  - destruct l1 as [|y l1]; [exists [], (x :: H); split; [reflexivity|constructor]|]. cbn in E. injection E as <- E.
    destruct (IH l1 l2 E) as (H1 & H2 & -> & B1). exists (x :: H1), H2. split; [reflexivity|constructor; exact B1].
Qed.

Lemma between_forall {A} (P : A -> Prop) p H l : Between p H l -> P p -> Forall P H -> Forall P l.
Proof. induction 1; intros Hp F; [constructor|constructor; auto|inversion F; subst; constructor; auto]. Qed.

Lemma app_prefix_cases {A} (x y a b : list A) : x ++ y = a ++ b -> (exists c, a = x ++ c) \/ (exists c, x = a ++ c /\ c <> [] /\ b = c ++ y).
Proof.
  revert a. induction x as [|u x IH]; intros a E; [left; exists a; reflexivity|].
  destruct a as [|v a].
  - right. exists (u :: x). split; [reflexivity|]. split; [discriminate|]. cbn in *. congruence.
  - cbn in E. injection E as <- E. destruct (IH a E) as [[c ->]|(c & -> & NE & ->)]; [left|right]; exists c; auto.
Qed.

Lemma map_prefix {A B} (f : A -> B) l a b : map f l = a ++ b -> exists l1 l2, l = l1 ++ l2 /\ map f l1 = a.
Proof.
  revert a. induction l as [|x l IH]; intros a E.
  - exists [], []. destruct a; [auto|discriminate E].
  - destruct a as [|y a]; [exists [], (x :: l); auto|]. cbn in E. injection E as <- E.
    destruct (IH a E) as (l1 & l2 & -> & <-). exists (x :: l1), l2. auto.
Qed.

(** the beginning of a body *)
Theorem cut_received env fs tail msgs e l p : HasErrorType env ->
  (forall vs, In vs msgs -> Sendable env fs vs) ->
  ~ In "webrpcError" (map gf_name fs) ->
  (forall r, e = Some r -> Int64 (re_code r) /\ Int64 (re_status r)) ->
  (exists left, Between pingOp (pingOp :: map (writeOp env fs) msgs ++ match e with None => [] | Some r => [errorOp env r] end) (l ++ left)) ->
  PrefixS p (allBytes l) ->
  exists ms err, received env fs tail p = (ms, Some err) /\ Prefix ms msgs /\
    (err = endError tail \/ exists r, e = Some r /\ ms = msgs /\ err = sanError r).
Proof.
  intros HE S N I [left B] P.
  set (ends := match e with None => [] | Some r => [errorOp env r] end) in *.
  assert (LN : Forall isLine (pingOp :: map (writeOp env fs) msgs ++ ends)).
  { constructor; [exact ping_line|]. apply Forall_app. split.
    - apply Forall_forall. intros o Ho. apply in_map_iff in Ho. destruct Ho as (vs & <- & Hv). apply write_line, S, Hv.
    - unfold ends. destruct e as [r|]; [|constructor]. constructor; [|constructor]. apply errorOp_line; auto; apply (I r eq_refl). }
  pose proof (between_forall isLine _ _ _ B ping_line LN) as LL. apply Forall_app in LL. destruct LL as [LL _].
  destruct (cut_lines l LL p P) as (l1 & l2 & q & -> & -> & NQ).
  destruct (between_prefix _ _ _ B l1 (l2 ++ left)) as (H1 & H2 & EH & B1); [rewrite app_assoc; reflexivity|].
  destruct H1 as [|x H1].
  { exists [], (endError tail). rewrite (received_pings env fs tail l1 B1), received_partial by exact NQ.
    split; [reflexivity|]. split; [exists msgs; reflexivity|auto]. }
  cbn [app] in EH. injection EH as <- EH.
  assert (B1' : exists la lb, l1 = la ++ lb /\ Between pingOp [pingOp] la /\ Between pingOp H1 lb).
  { apply between_app. exact B1. }
  destruct B1' as (la & lb & -> & BA & BB).
  assert (PA : forall rest, received env fs tail (allBytes la ++ rest) = received env fs tail rest).
  { clear - BA. intros rest. remember [pingOp] as qq eqn:E. induction BA as [|qq out B IH|x qq out B IH]; [discriminate| |].
    - cbn [allBytes]. rewrite sapp_assoc. change (op_bytes pingOp) with lf. rewrite received_ping. apply IH, E.
    - injection E as -> ->. cbn [allBytes]. rewrite sapp_assoc. change (op_bytes pingOp) with lf. rewrite received_ping.
      apply received_pings, B. }
  rewrite allBytes_app, sapp_assoc, PA.
  destruct (app_prefix_cases _ _ _ _ (eq_sym EH)) as [[c EC]|(c & -> & NE & EC)].
  - destruct (map_prefix _ _ _ _ EC) as (m1 & m2 & -> & <-).
    exists m1, (endError tail).
    rewrite (received_messages env fs tail m1) by (auto; intros v Hv; apply S, in_app_iff; auto).
    rewrite received_partial by exact NQ. cbn [fst snd]. rewrite app_nil_r.
    split; [reflexivity|]. split; [exists m2; reflexivity|auto].
  - unfold ends in EC. destruct e as [r|]; [|destruct c; [congruence|discriminate EC]].
    destruct c as [|o c]; [congruence|]. cbn in EC. injection EC as <- EC. destruct c; [|discriminate EC].
    apply between_app in BB. destruct BB as (lc & ld & -> & BC & BD).
    exists msgs, (sanError r).
    rewrite allBytes_app, sapp_assoc, (received_messages env fs tail msgs S lc BC).
    assert (L : received env fs tail (allBytes ld ++ q) = ([], Some (sanError r))).
    { remember [errorOp env r] as qq eqn:E. clear - BD E HE N I. induction BD as [|qq out B IH|x qq out B IH]; [discriminate| |].
      + cbn [allBytes]. rewrite sapp_assoc. change (op_bytes pingOp) with lf. rewrite received_ping. apply IH, E.
      + injection E as -> ->. cbn [allBytes errorOp op_bytes]. rewrite sapp_assoc. apply received_error; auto; apply (I r eq_refl). }
    rewrite L. cbn [fst snd]. rewrite app_nil_r. split; [reflexivity|]. split; [exists []; rewrite app_nil_r; reflexivity|eauto].
Qed.

Lemma between_snoc_all {A} (p : A) H1 l : Between p H1 l -> forall H2, Between p (H1 ++ H2) (l ++ H2).
Proof.
  induction 1 as [|H out B IH|x H out B IH]; intros H2; cbn [app]; [|constructor; apply IH|constructor; apply IH].
  induction H2; constructor; auto.
Qed.

Theorem handler_cut H n w : (forall o, In o H -> op_locked o = true) ->
  steps (start [H; keepAliveOps n]) w ->
  exists l left, Between pingOp H (l ++ left) /\ PrefixS (wd_out w) (allBytes l).
Proof.
  intros LH S. unfold keepAliveOps in *.
  assert (L : locked [H; repeat pingOp n]).
  { intros p o [<-|[<-|[]]] Ho; [auto|]. apply repeat_spec in Ho. subst. reflexivity. }
  destruct (reach_prefix _ _ L S) as (l & ps' & T & P).
  destruct (takes_two _ _ _ _ T) as (a & b & ->). destruct (takes_pings _ _ _ _ _ T) as (d & -> & B).
  exists l, a. split; [apply between_snoc_all, B|exact P].
Qed.

(** *** several writers *)

Lemma takes_writers {A} (f : A -> op) n ws l qs : Takes (repeat pingOp n :: map (map f) ws) l qs ->
  exists k order ws', qs = repeat pingOp k :: map (map f) ws' /\ Takes ws order ws' /\ Between pingOp (map f order) l.
Proof.
  remember (repeat pingOp n :: map (map f) ws) as ps eqn:E. intros T. revert n ws E.
  induction T as [ps|i o rest ps l qs N T IH]; intros n ws ->.
  - exists n, [], ws. split; [reflexivity|]. split; constructor.
  - destruct i as [|i]; cbn [nth_error setNth] in *.
    + destruct n as [|n]; cbn in N; [discriminate|]. injection N as <- <-.
      destruct (IH n ws eq_refl) as (k & order & ws' & -> & T' & B). exists k, order, ws'. split; [reflexivity|]. split; [exact T'|constructor; exact B].
    + rewrite nth_error_map in N. destruct (nth_error ws i) as [[|v vs]|] eqn:NI; cbn in N; try discriminate N.
      injection N as <- <-. destruct (IH n (setNth i vs ws)) as (k & order & ws' & -> & T' & B).
      { cbn. rewrite map_setNth. reflexivity. }
      exists k, (v :: order), ws'. split; [reflexivity|]. split; [econstructor; eauto|cbn; constructor; exact B].
Qed.

(** ** Runs exist *)

Lemma steps_trans a b c : steps a b -> steps b c -> steps a c.
Proof. intros H K. induction K as [|x y z K IH S]; [exact H|]. eapply StepsTrans; [apply IH, H|exact S]. Qed.

Theorem completes ps w : locked ps -> steps (start ps) w -> exists w', steps w w' /\ allDone w'.
Proof.
  intros L. remember (work w) as n eqn:E. revert w E. induction n as [n IH] using lt_wf_ind. intros w -> S.
  destruct (no_deadlock ps w L S) as [D|[w1 S1]].
  - exists w. split; [apply StepsRefl|exact D].
  - destruct (IH (work w1) (step_work _ _ S1) w1 eq_refl) as (w2 & S2 & D); [eapply StepsTrans; eauto|].
    exists w2. split; [|exact D]. eapply steps_trans; [|exact S2]. eapply StepsTrans; [apply StepsRefl|exact S1].
Qed.

Lemma run_writes i b rest t : forall s l out ths, nth_error ths i = Some (Thread rest (Some (b, (s ++ t)%string))) ->
  steps (World l out ths) (World l (out ++ s) (setNth i (Thread rest (Some (b, t))) ths)).
Proof.
  induction s as [|c s IH]; intros l out ths N; cbn [append] in N.
  - rewrite sapp_nil_r, setNth_same by exact N. apply StepsRefl.
  - eapply steps_trans; [eapply StepsTrans; [apply StepsRefl|eapply StepWrite, N]|].
    replace (out ++ String c s)%string with ((out ++ String c EmptyString) ++ s)%string by (rewrite sapp_assoc; reflexivity).
    pose proof (IH l (out ++ String c EmptyString)%string _ (nth_setNth i (Thread rest (Some (b, (s ++ t)%string))) ths _ N)) as X.
    rewrite setNth_twice in X. exact X.
Qed.

(** a whole locked call *)
Lemma run_locked i o rest out ths : nth_error ths i = Some (Thread (o :: rest) None) -> op_locked o = true ->
  steps (World None out ths) (World None (out ++ op_bytes o) (setNth i (Thread rest None) ths)).
Proof.
  intros N L. eapply steps_trans; [eapply StepsTrans; [apply StepsRefl|eapply StepLock; eauto]|].
  eapply steps_trans.
  - apply (run_writes i true rest EmptyString (op_bytes o)). rewrite sapp_nil_r. eapply nth_setNth, N.
  - eapply StepsTrans; [apply StepsRefl|]. rewrite setNth_twice.
    pose proof (StepUnlock i rest (Some i) (out ++ op_bytes o) _ (nth_setNth i (Thread rest (Some (true, EmptyString))) ths _ N)) as X.
    rewrite setNth_twice in X. exact X.
Qed.
