From Verif Require Import Base BaseProofs Utf8 Json JsonProofs GoVal GoValSpec Rpc RpcSpec RpcProofs RpcRemote Methods MethodsSpec MethodsProofs GoCtx GoCtxSpec.

Lemma key_eqb_spec a b : ctxKey_eqb a b = true <-> a = b.
Proof.
  destruct a as [p k|i], b as [q l|j]; cbn; try (split; congruence).
  - rewrite andb_true_iff, Nat.eqb_eq. split.
    + intros [-> E]. destruct k, l; try discriminate E; reflexivity.
    + intros [= -> ->]. split; [reflexivity|]. destruct l; reflexivity.
  - rewrite Nat.eqb_eq. split; congruence.
Qed.
Lemma key_eqb_refl a : ctxKey_eqb a a = true.
Proof. apply key_eqb_spec. reflexivity. Qed.
Lemma key_eqb_other a b : a <> b -> ctxKey_eqb a b = false.
Proof. intros N. destruct (ctxKey_eqb a b) eqn:E; [|reflexivity]. apply key_eqb_spec in E. contradiction. Qed.

Lemma sees_service_ctx pkg name w r : Sees pkg name w r (serviceCtx pkg name w r).
Proof.
  constructor; unfold serviceNameFromContext, requestFromContext, responseWriterFromContext, serviceCtx; cbn [ctxGet ctxDone];
    try (cbn; rewrite ?Nat.eqb_refl; cbn; reflexivity).
  intros k N. rewrite !key_eqb_other by apply N. reflexivity.
Qed.
Lemma sees_method pkg name w r c n : Sees pkg name w r c -> Sees pkg name w r (WithValue c (Key pkg MethodName) (VText n)).
Proof.
  intros [A B C D E]. constructor; cbn [ctxDone]; auto;
    try (unfold serviceNameFromContext, requestFromContext, responseWriterFromContext in *; cbn [ctxGet];
         rewrite key_eqb_other by discriminate; assumption).
  intros k N. cbn [ctxGet]. rewrite key_eqb_other by apply N. apply D, N.
Qed.
Lemma method_seen pkg c n : methodNameFromContext pkg (WithValue c (Key pkg MethodName) (VText n)) = n.
Proof. unfold methodNameFromContext. cbn [ctxGet]. rewrite key_eqb_refl. reflexivity. Qed.
Lemma method_not_seen pkg name w r : methodNameFromContext pkg (serviceCtx pkg name w r) = methodNameFromContext pkg (reqCtx r).
Proof. unfold methodNameFromContext, serviceCtx. cbn [ctxGet]. rewrite !key_eqb_other by discriminate. reflexivity. Qed.

(** ** every event of a run *)

Definition plainEvent (e : tevent) : Prop :=
  match e with TOnRequest _ _ | TOnError _ _ | TCall _ _ _ => False | _ => True end.

Lemma forall_then P a b : Forall P (fst a) -> Forall P (fst b) -> Forall P (fst (tThen a b)).
Proof. destruct a as [es []]; cbn; [|auto]. intros A B. apply Forall_app. split; assumption. Qed.
Lemma forall_users (P : tevent -> Prop) hs : (forall h, P (TUser h)) -> Forall P (map TUser hs).
Proof. intros U. apply Forall_forall. intros x I. apply in_map_iff in I. destruct I as (h & <- & _). apply U. Qed.

Definition allows (P : tevent -> Prop) : Prop := forall e, plainEvent e -> P e.
Lemma forall_json P st b : allows P -> Forall P (fst (tJson st b)).
Proof.
  intros U. unfold tJson, tWriteHead. destruct ((100 <=? st)%Z && (st <=? 999)%Z); cbn; repeat constructor; apply U; exact I.
Qed.
Lemma forall_error (P : tevent -> Prop) o r e : allows P -> (forall x, P (TOnError r x)) -> Forall P (fst (tSendError o r e)).
Proof.
  intros U X. unfold tSendError. destruct (h_onError o) as [f|]; [|apply forall_json, U].
  destruct (f r e) as [hs res]. apply forall_then.
  - cbn. constructor; [apply X|]. apply forall_users. intros h. apply U. exact I.
  - destruct res; [apply forall_json, U|constructor].
Qed.
Lemma forall_call (P : tevent -> Prop) s o impl m c r args : allows P -> (forall x, P (TOnError r x)) -> (forall a, P (TCall (rm_name m) c a)) ->
  Forall P (fst (tCallAndAnswer s o impl m c r args)).
Proof.
  intros U X C. unfold tCallAndAnswer. destruct (impl (rm_name m) c args) as [hs res]. apply forall_then.
  - cbn. constructor; [apply C|]. apply forall_users. intros h. apply U. exact I.
  - destruct res as [vs|e|msg]; [|apply forall_error; assumption|constructor].
    destruct (rm_out m) as [|f fs]; [apply forall_json, U|].
    destruct (marshalStruct _ _ _); [apply forall_json, U|apply forall_error; assumption].
Qed.
Lemma forall_serve (P : tevent -> Prop) pkg s o impl m c r : allows P -> (forall x, P (TOnError r x)) ->
  (forall a, P (TCall (rm_name m) (WithValue c (Key pkg MethodName) (VText (rm_name m))) a)) ->
  Forall P (fst (tServeJSON pkg s o impl m c r)).
Proof.
  intros U X C. unfold tServeJSON. destruct (rm_in m) as [|f fs]; [apply forall_call; assumption|].
  destruct (q_body (plainReq r)); [|apply forall_error; assumption].
  destruct (unmarshalStruct _ _ _); [apply forall_call; assumption|apply forall_error; assumption].
Qed.
Lemma forall_run (P : tevent -> Prop) pkg name hv s o impl w r :
  let c := serviceCtx pkg name w r in
  allows P -> (forall x, P (TOnError (withContext r c) x)) ->
  (forall m, In m (sv_methods s) -> q_path (plainReq r) = routeOf s m -> P (TOnRequest w (withContext r c))) ->
  (forall m a, In m (sv_methods s) -> q_path (plainReq r) = routeOf s m ->
     P (TCall (rm_name m) (WithValue c (Key pkg MethodName) (VText (rm_name m))) a)) ->
  Forall P (fst (tServeHTTP pkg name hv s o impl w r)).
Proof.
  intros c U X Q C.
  assert (B : Forall P (fst (tServeBody pkg name hv s o impl w r))).
  { unfold tServeBody. fold c. apply forall_then; [cbn; constructor; [apply U; exact Logic.I|constructor]|].
    change (plainReq (withContext r c)) with (plainReq r).
    destruct (dispatch s (q_path (plainReq r))) as [m|] eqn:D; [|apply forall_error; assumption].
    unfold dispatch in D. apply find_some in D. destruct D as [I E]. apply String.eqb_eq in E.
    destruct (negb _).
    - apply forall_then; [cbn; constructor; [apply U; exact Logic.I|constructor]|apply forall_error; assumption].
    - destruct (String.eqb _ "application/json"); [|apply forall_error; assumption].
      destruct (h_onRequest o) as [f|]; [|apply forall_serve; auto].
      destruct (f w (withContext r c)) as [hs res]. apply forall_then.
      + cbn. constructor; [apply (Q m); assumption|]. apply forall_users. intros h. apply U. exact Logic.I.
      + destruct res as [[e|]|msg]; [apply forall_error; assumption| |constructor].
        apply forall_serve; auto. }
  unfold tServeHTTP. destruct (tServeBody pkg name hv s o impl w r) as [es [|msg]]; [exact B|].
  fold c. pose proof (forall_error P o (withContext r c) (withCausef ErrWebrpcServerPanic msg) U X) as F.
  destruct (tSendError _ _ _) as [es' []]; cbn [fst] in *; apply Forall_app; split; assumption.
Qed.

(** the three kinds of calls *)
Theorem calls_of pkg name hv s o impl w r e : In e (fst (tServeHTTP pkg name hv s o impl w r)) ->
  let c := serviceCtx pkg name w r in
  match e with
  | TOnRequest w' r' => w' = w /\ r' = withContext r c /\ exists m, In m (sv_methods s) /\ q_path (plainReq r) = routeOf s m
  | TOnError r' _ => r' = withContext r c
  | TCall n c' _ => exists m, In m (sv_methods s) /\ q_path (plainReq r) = routeOf s m /\ n = rm_name m /\
      c' = WithValue c (Key pkg MethodName) (VText n)
  | _ => True
  end.
Proof.
  intros I c.
  pose (P := fun e => match e with
  | TOnRequest w' r' => w' = w /\ r' = withContext r c /\ exists m, In m (sv_methods s) /\ q_path (plainReq r) = routeOf s m
  | TOnError r' _ => r' = withContext r c
  | TCall n c' _ => exists m, In m (sv_methods s) /\ q_path (plainReq r) = routeOf s m /\ n = rm_name m /\
      c' = WithValue c (Key pkg MethodName) (VText n)
  | _ => True
  end).
  assert (F : Forall P (fst (tServeHTTP pkg name hv s o impl w r))).
  { apply forall_run; fold c.
    - intros [] H; cbn in *; auto; contradiction.
    - intros x. reflexivity.
    - intros m Im E. cbn. eauto.
    - intros m a Im E. cbn. exists m. auto. }
  rewrite Forall_forall in F. exact (F e I).
Qed.

(** ** erasure to Rpc.v *)

Definition erase (x : trun) : run := (eventsOf (fst x), snd x).
Lemma events_app a b : eventsOf (a ++ b) = eventsOf a ++ eventsOf b.
Proof. apply flat_map_app. Qed.
Lemma erase_then a b : erase (tThen a b) = andThen (erase a) (erase b).
Proof. destruct a as [es []]; cbn; [|reflexivity]. unfold erase. cbn. rewrite events_app. reflexivity. Qed.
Lemma events_users hs : eventsOf (map TUser hs) = [].
Proof. induction hs; cbn; auto. Qed.
Lemma erase_json st b : erase (tJson st b) = andThen ([SetHeader "Content-Type" "application/json"], Returned)
  (andThen (writeHeader st) ([Write b], Returned)).
Proof.
  unfold tJson. rewrite !erase_then. f_equal. f_equal. unfold tWriteHead, writeHeader.
  destruct ((100 <=? st)%Z && (st <=? 999)%Z); reflexivity.
Qed.
Lemma andThen_nothing x : andThen ([], Returned) x = x.
Proof. destruct x; reflexivity. Qed.
Lemma erase_error o w r e : CalmOnError o -> erase (tSendError o r e) = sendErrorJSON (hookFor o w r) e.
Proof.
  intros K. unfold tSendError, sendErrorJSON, hookFor. cbn [o_onError]. destruct (h_onError o) as [f|] eqn:E.
  - pose proof (K f E r e) as N. destruct (f r e) as [hs res]. cbn [snd] in *.
    rewrite erase_then. unfold erase at 1. cbn [fst snd eventsOf flat_map eventOf]. cbn [app].
    change (flat_map eventOf (map TUser hs)) with (eventsOf (map TUser hs)). rewrite events_users, andThen_nothing.
    destruct res as [e'|msg]; [apply erase_json|]. destruct (N msg eq_refl).
  - apply erase_json.
Qed.
Lemma erase_call s o impl pkg m c w r args : CalmOnError o ->
  erase (tCallAndAnswer s o impl m (WithValue c (Key pkg MethodName) (VText (rm_name m))) r args) =
  callAndAnswer s (hookFor o w r) (implFor impl pkg c) m args.
Proof.
  intros K. unfold tCallAndAnswer, callAndAnswer, implFor.
  destruct (impl (rm_name m) (WithValue c (Key pkg MethodName) (VText (rm_name m))) args) as [hs res]. cbn [snd].
  rewrite erase_then. f_equal.
  - unfold erase. cbn [fst snd eventsOf flat_map eventOf].
    change (flat_map eventOf (map TUser hs)) with (eventsOf (map TUser hs)). rewrite events_users. reflexivity.
  - destruct res as [vs|e|msg]; [|apply erase_error, K|reflexivity].
    destruct (rm_out m) as [|f fs]; [apply erase_json|].
    destruct (marshalStruct _ _ _); [apply erase_json|apply erase_error, K].
Qed.
Lemma erase_serve s o impl pkg m c w r : CalmOnError o ->
  erase (tServeJSON pkg s o impl m c r) = serveJSON s (hookFor o w r) (implFor impl pkg c) m (plainReq r).
Proof.
  intros K. unfold tServeJSON, serveJSON. destruct (rm_in m) as [|f fs]; [apply erase_call, K|].
  destruct (q_body (plainReq r)); [|apply erase_error, K].
  destruct (unmarshalStruct _ _ _); [apply erase_call, K|apply erase_error, K].
Qed.
Theorem erasure pkg name hv s o impl w r : CalmOnError o ->
  erase (tServeHTTP pkg name hv s o impl w r) =
  serveHTTP hv s (hookFor o w (withContext r (serviceCtx pkg name w r))) (implFor impl pkg (serviceCtx pkg name w r)) (plainReq r).
Proof.
  intros K. set (c := serviceCtx pkg name w r). set (h := hookFor o w (withContext r c)).
  assert (B : erase (tServeBody pkg name hv s o impl w r) = serveBody hv s h (implFor impl pkg c) (plainReq r)).
  { unfold tServeBody, serveBody. fold c. change (plainReq (withContext r c)) with (plainReq r).
    rewrite erase_then. f_equal. destruct (dispatch s (q_path (plainReq r))) as [m|]; [|apply erase_error, K].
    destruct (negb _).
    - rewrite erase_then. f_equal. apply erase_error, K.
    - destruct (String.eqb _ "application/json"); [|apply erase_error, K].
      unfold h at 1, hookFor. cbn [o_onRequest]. destruct (h_onRequest o) as [f|]; [|exact (erase_serve s o impl pkg m c w (withContext r c) K)].
      destruct (f w (withContext r c)) as [hs res]. cbn [snd].
      rewrite erase_then. unfold erase at 1. cbn [fst snd eventsOf flat_map eventOf]. cbn [app].
      change (flat_map eventOf (map TUser hs)) with (eventsOf (map TUser hs)). rewrite events_users, andThen_nothing.
      destruct res as [[e|]|msg]; [apply erase_error, K|exact (erase_serve s o impl pkg m c w (withContext r c) K)|reflexivity]. }
  unfold tServeHTTP, serveHTTP. rewrite <- B.
  destruct (tServeBody pkg name hv s o impl w r) as [es [|msg]]; unfold erase; cbn [fst snd]; [reflexivity|].
  fold c. pose proof (erase_error o w (withContext r c) (withCausef ErrWebrpcServerPanic msg) K) as X. fold h in X. rewrite <- X.
  destruct (tSendError _ _ _) as [es' []]; unfold erase; cbn [fst snd]; rewrite events_app; reflexivity.
Qed.
