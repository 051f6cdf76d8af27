From Verif Require Import Base BaseProofs Utf8 Json JsonProofs GoVal GoValSpec Rpc RpcSpec RpcProofs RpcRemote Methods MethodsSpec MethodsProofs GoCtx GoCtxSpec GoCtxProofs.

(** ** Reports *)

Lemma rep_app a b : reported (a ++ b) = reported a ++ reported b.
Proof. induction a as [|[] a IH]; cbn; rewrite ?IH; reflexivity. Qed.
Lemma stat_app a b : statuses (a ++ b) = statuses a ++ statuses b.
Proof. induction a as [|[] a IH]; cbn; rewrite ?IH; reflexivity. Qed.
Lemma written_app a b : written (a ++ b) = (written a ++ written b)%string.
Proof. induction a as [|[] a IH]; cbn; rewrite ?IH, ?sapp_assoc; reflexivity. Qed.
Lemma users_quiet hs : reported (map TUser hs) = [] /\ statuses (map TUser hs) = [] /\ written (map TUser hs) = EmptyString.
Proof. induction hs; cbn; auto. Qed.

Definition hushed (es : list tevent) : Prop := reported es = [] /\ statuses es = [] /\ written es = EmptyString.

(** what a body does: report and answer an error, answer a result, or crash *)
Definition Reports (f : httpRequest -> rpcError -> list hcall * (rpcError + string)) (r : httpRequest) (impl : ctxImpl) (x : trun) : Prop :=
  match snd x with
  | Returned =>
      (exists e hs e', reported (fst x) = [(r, e)] /\ f r e = (hs, inl e') /\
         statuses (fst x) = [re_status e'] /\ written (fst x) = marshalError e') \/
      (reported (fst x) = [] /\ statuses (fst x) = [200%Z] /\
         exists n c args vs, In (TCall n c args) (fst x) /\ snd (impl n c args) = Returns vs)
  | Panicked _ => (reported (fst x) = [] \/ exists e, reported (fst x) = [(r, e)]) /\ statuses (fst x) = [] /\ written (fst x) = EmptyString
  end.

Lemma reports_then f r impl es x : hushed es -> Reports f r impl x -> Reports f r impl (tThen (es, Returned) x).
Proof.
  intros (A & B & C). unfold Reports, tThen. cbn [fst snd]. rewrite rep_app, stat_app, written_app, A, B, C. cbn [app append].
  destruct (snd x); [|auto]. intros [L|(R & T & n & c & args & vs & I & E)]; [left; exact L|right].
  split; [exact R|]. split; [exact T|]. exists n, c, args, vs. split; [|exact E]. apply in_or_app. right. exact I.
Qed.
Lemma json_ok st b : (100 <=? st)%Z && (st <=? 999)%Z = true ->
  tJson st b = ([TSet "Content-Type" "application/json"; TWriteHead st; TWrite b], Returned).
Proof. intros E. unfold tJson, tWriteHead. rewrite E. reflexivity. Qed.
Lemma json_bad st b : (100 <=? st)%Z && (st <=? 999)%Z = false ->
  tJson st b = ([TSet "Content-Type" "application/json"], Panicked ("invalid WriteHeader code " ++ zdec st)).
Proof. intros E. unfold tJson, tWriteHead. rewrite E. reflexivity. Qed.

Lemma reports_error f r impl o e : h_onError o = Some f -> Reports f r impl (tSendError o r e).
Proof.
  intros O. unfold tSendError. rewrite O. destruct (f r e) as [hs res] eqn:F. unfold Reports.
  destruct (users_quiet hs) as (A & B & C). destruct res as [e'|msg].
  - destruct ((100 <=? re_status e')%Z && (re_status e' <=? 999)%Z) eqn:V.
    + rewrite (json_ok _ _ V). cbn [tThen fst snd]. cbn [reported statuses written app].
      rewrite rep_app, stat_app, written_app, A, B, C. cbn. rewrite sapp_nil_r. left. exists e, hs, e'. auto.
    + rewrite (json_bad _ _ V). cbn [tThen fst snd]. cbn [reported statuses written app].
      rewrite rep_app, stat_app, written_app, A, B, C. cbn. eauto.
  - cbn [tThen fst snd]. rewrite app_nil_r. cbn [reported statuses written]. rewrite A, B, C. eauto.
Qed.
Lemma reports_call f r impl s o m c args : h_onError o = Some f -> Reports f r impl (tCallAndAnswer s o impl m c r args).
Proof.
  intros O. unfold tCallAndAnswer. destruct (impl (rm_name m) c args) as [hs res] eqn:E.
  destruct (users_quiet hs) as (A & B & C).
  assert (Q : hushed (TCall (rm_name m) c args :: map TUser hs)) by (unfold hushed; cbn; auto).
  assert (K : forall vs body, snd (impl (rm_name m) c args) = Returns vs ->
    Reports f r impl (tThen (TCall (rm_name m) c args :: map TUser hs, Returned) (tJson 200 body))).
  { intros vs body V. rewrite (json_ok 200 body eq_refl). unfold Reports, tThen. cbn [fst snd]. right.
    destruct Q as (Q1 & Q2 & Q3). rewrite rep_app, stat_app, Q1, Q2. split; [reflexivity|]. split; [reflexivity|].
    exists (rm_name m), c, args, vs. split; [left; reflexivity|exact V]. }
  destruct res as [vs|e|msg].
  - destruct (rm_out m) as [|g fs]; [apply (K vs); rewrite E; reflexivity|].
    destruct (marshalStruct _ _ _); [apply (K vs); rewrite E; reflexivity|]. apply reports_then; [exact Q|apply reports_error, O].
  - apply reports_then; [exact Q|apply reports_error, O].
  - unfold Reports. cbn [tThen fst snd]. rewrite app_nil_r. destruct Q as (-> & -> & ->). auto.
Qed.
Lemma reports_serve f r impl pkg s o m c : h_onError o = Some f -> Reports f r impl (tServeJSON pkg s o impl m c r).
Proof.
  intros O. unfold tServeJSON. destruct (rm_in m); [apply reports_call, O|].
  destruct (q_body _); [|apply reports_error, O]. destruct (unmarshalStruct _ _ _); [apply reports_call, O|apply reports_error, O].
Qed.
Lemma reports_body f impl pkg name hv s o w r : h_onError o = Some f ->
  Reports f (withContext r (serviceCtx pkg name w r)) impl (tServeBody pkg name hv s o impl w r).
Proof.
  intros O. unfold tServeBody. set (c := serviceCtx pkg name w r). set (r' := withContext r c).
  apply reports_then; [repeat split|]. destruct (dispatch _ _) as [m|]; [|apply reports_error, O].
  destruct (negb _); [apply reports_then; [repeat split|apply reports_error, O]|].
  destruct (String.eqb _ "application/json"); [|apply reports_error, O].
  destruct (h_onRequest o) as [g|]; [|apply reports_serve, O].
  destruct (g w r') as [hs res]. destruct (users_quiet hs) as (A & B & C).
  assert (Q : hushed (TOnRequest w r' :: map TUser hs)) by (unfold hushed; cbn; auto).
  destruct res as [[e|]|msg].
  - apply reports_then; [exact Q|apply reports_error, O].
  - apply reports_then; [exact Q|apply reports_serve, O].
  - unfold Reports. cbn [tThen fst snd]. rewrite app_nil_r. destruct Q as (-> & -> & ->). auto.
Qed.

Theorem errors_reported f impl pkg name hv s o w r : h_onError o = Some f ->
  let x := tServeHTTP pkg name hv s o impl w r in
  let r' := withContext r (serviceCtx pkg name w r) in
  snd x = Returned ->
  (exists e hs e', reported (fst x) = [(r', e)] /\ f r' e = (hs, inl e') /\
     statuses (fst x) = [re_status e'] /\ written (fst x) = marshalError e') \/
  (reported (fst x) = [] /\ statuses (fst x) = [200%Z] /\
     exists n c args vs, In (TCall n c args) (fst x) /\ snd (impl n c args) = Returns vs).
Proof.
  intros O x r' R. pose proof (reports_body f impl pkg name hv s o w r O) as B. fold r' in B.
  subst x. unfold tServeHTTP in *. destruct (tServeBody pkg name hv s o impl w r) as [es [|msg]]; [exact B|].
  fold r' in R. destruct (tSendError o r' _) as [es' []]; discriminate R.
Qed.

Theorem panics_reported f impl pkg name hv s o w r : h_onError o = Some f ->
  let x := tServeHTTP pkg name hv s o impl w r in
  let r' := withContext r (serviceCtx pkg name w r) in
  (forall e, exists hs e', f r' e = (hs, inl e') /\ (HttpStatus (re_status e) -> HttpStatus (re_status e'))) ->
  forall msg, snd x = Panicked msg ->
  exists before hs e', (before = [] \/ exists e, before = [(r', e)]) /\
    reported (fst x) = before ++ [(r', withCausef ErrWebrpcServerPanic msg)] /\
    f r' (withCausef ErrWebrpcServerPanic msg) = (hs, inl e') /\
    statuses (fst x) = [re_status e'] /\ written (fst x) = marshalError e'.
Proof.
  intros O x r' K msg R. pose proof (reports_body f impl pkg name hv s o w r O) as B. fold r' in B.
  subst x. unfold tServeHTTP in *. destruct (tServeBody pkg name hv s o impl w r) as [es [|msg0]]; [discriminate R|].
  destruct B as (L & S & W). cbn [fst snd] in *. fold r' in R. fold r'.
  destruct (K (withCausef ErrWebrpcServerPanic msg0)) as (hs & e' & F & V).
  assert (V' : (100 <=? re_status e')%Z && (re_status e' <=? 999)%Z = true).
  { destruct (V ltac:(cbn; unfold HttpStatus; lia)) as [V1 V2]. apply andb_true_iff. split; apply Z.leb_le; assumption. }
  assert (T : tSendError o r' (withCausef ErrWebrpcServerPanic msg0) =
    ((TOnError r' (withCausef ErrWebrpcServerPanic msg0) :: map TUser hs) ++
     [TSet "Content-Type" "application/json"; TWriteHead (re_status e'); TWrite (marshalError e')], Returned)).
  { unfold tSendError. rewrite O, F, (json_ok _ _ V'). reflexivity. }
  rewrite T in *. cbn [snd fst] in R |- *. injection R as <-.
  exists (reported es), hs, e'. destruct (users_quiet hs) as (A & B & C). split; [exact L|].
  rewrite !rep_app, !stat_app, !written_app, S, W. cbn [reported statuses written]. rewrite A, B, C. cbn.
  rewrite sapp_nil_r. auto.
Qed.

(** an OnError hook that always panics: nothing is answered *)
Theorem panicking_hook impl pkg name hv s o w r f : h_onError o = Some f -> (forall r e, exists hs msg, f r e = (hs, inr msg)) ->
  let x := tServeHTTP pkg name hv s o impl w r in
  (exists msg, snd x = Panicked msg) /\ statuses (fst x) = [] /\ written (fst x) = EmptyString \/
  snd x = Returned /\ reported (fst x) = [] /\ statuses (fst x) = [200%Z].
Proof.
  intros O P x. pose proof (reports_body f impl pkg name hv s o w r O) as B. subst x. unfold tServeHTTP.
  destruct (tServeBody pkg name hv s o impl w r) as [es [|msg]].
  - right. destruct B as [(e & hs & e' & _ & F & _)|(A & B & _)]; [|cbn in *; auto].
    destruct (P (withContext r (serviceCtx pkg name w r)) e) as (hs' & msg & F'). congruence.
  - left. destruct B as (_ & S & W). cbn [fst snd] in *.
    set (r' := withContext r (serviceCtx pkg name w r)). unfold tSendError. rewrite O.
    destruct (P r' (withCausef ErrWebrpcServerPanic msg)) as (hs & msg' & ->). cbn [tThen fst snd]. rewrite app_nil_r.
    destruct (users_quiet hs) as (A & B & C). rewrite stat_app, written_app, S, W. cbn [statuses written]. rewrite B, C.
    split; [eauto|]. split; reflexivity.
Qed.

(** ** Headers *)

Definition ownKeys : list string := ["Content-Type"; "Webrpc"; "Allow"].
Definition ownKey (k : string) : bool := str_in (canonical k) ownKeys.
Definition SameOff (a b : headers) : Prop := forall k, ownKey k = false -> headerValues a k = headerValues b k.

Lemma values_del h k c : valuesOf (headerDel h k) c = if String.eqb c (canonical k) then [] else valuesOf h c.
Proof.
  unfold headerDel, valuesOf. induction h as [|[k' vs] h IH]; cbn [filter assoc].
  - destruct (String.eqb c (canonical k)); reflexivity.
  - cbn [fst]. destruct (String.eqb k' (canonical k)) eqn:E; cbn [negb].
    + apply String.eqb_eq in E. subst k'. rewrite IH. destruct (String.eqb c (canonical k)); reflexivity.
    + cbn [assoc]. destruct (String.eqb c k') eqn:E'; [|exact IH].
      apply String.eqb_eq in E'. subst k'. rewrite E. reflexivity.
Qed.
Lemma own_of k c : canonical k = canonical c -> ownKey k = ownKey c.
Proof. unfold ownKey. intros ->. reflexivity. Qed.
Lemma set_off a b k v : SameOff a b -> SameOff (headerSet a k v) (headerSet b k v).
Proof.
  intros H c O. unfold headerValues, headerSet. rewrite !values_put. destruct (String.eqb _ _); [reflexivity|apply H, O].
Qed.
Lemma add_off a b k v : SameOff a b -> SameOff (headerAdd a k v) (headerAdd b k v).
Proof.
  intros H c O. unfold headerValues, headerAdd. rewrite !values_put. destruct (String.eqb _ _) eqn:E; [|apply H, O].
  apply String.eqb_eq in E. f_equal. apply H. rewrite <- O. symmetry. apply own_of. exact E.
Qed.
Lemma own_set a b k v : ownKey k = true -> SameOff a b -> SameOff (headerSet a k v) b.
Proof.
  intros K H c O. unfold headerValues, headerSet. rewrite values_put. destruct (String.eqb _ _) eqn:E; [|apply H, O].
  apply String.eqb_eq in E. rewrite (own_of _ _ E) in O. congruence.
Qed.
Lemma own_add a b k v : ownKey k = true -> SameOff a b -> SameOff (headerAdd a k v) b.
Proof.
  intros K H c O. unfold headerValues, headerAdd. rewrite values_put. destruct (String.eqb _ _) eqn:E; [|apply H, O].
  apply String.eqb_eq in E. rewrite (own_of _ _ E) in O. congruence.
Qed.
Lemma call_off a b c : SameOff a b -> SameOff (applyCall a c) (applyCall b c).
Proof.
  intros H. destruct c as [k v|k v|k]; [apply set_off, H|apply add_off, H|].
  intros c O. cbn [applyCall]. unfold headerValues. rewrite !values_del. destruct (String.eqb _ _); [reflexivity|apply H, O].
Qed.

(** events before the status line, and a whole run *)
Definition early (e : tevent) : Prop :=
  match e with TSet k _ | TAdd k _ => ownKey k = true | TWriteHead _ | TWrite _ => False | _ => True end.
Definition Shaped (x : trun) : Prop :=
  exists pre tail, fst x = pre ++ tail /\ Forall early pre /\
    match snd x with Returned => exists st b, tail = [TWriteHead st; TWrite b] | Panicked _ => tail = [] end.

Lemma shaped_then es x : Forall early es -> Shaped x -> Shaped (tThen (es, Returned) x).
Proof.
  intros E (pre & tail & A & B & C). exists (es ++ pre), tail. cbn [tThen fst snd]. rewrite A, app_assoc.
  split; [reflexivity|]. split; [apply Forall_app; split; assumption|exact C].
Qed.
Lemma early_users hs : Forall early (map TUser hs).
Proof. apply forall_users. intros h. exact I. Qed.
Lemma shaped_json st b : Shaped (tJson st b).
Proof.
  destruct ((100 <=? st)%Z && (st <=? 999)%Z) eqn:E.
  - rewrite (json_ok _ _ E). exists [TSet "Content-Type" "application/json"], [TWriteHead st; TWrite b]. cbn.
    split; [reflexivity|]. split; [repeat constructor|eauto].
  - rewrite (json_bad _ _ E). exists [TSet "Content-Type" "application/json"], []. cbn. split; [reflexivity|]. split; [repeat constructor|reflexivity].
Qed.
Lemma shaped_panic msg : Shaped ([], Panicked msg).
Proof. exists [], []. repeat split. constructor. Qed.
Lemma shaped_error o r e : Shaped (tSendError o r e).
Proof.
  unfold tSendError. destruct (h_onError o) as [f|]; [|apply shaped_json]. destruct (f r e) as [hs res].
  apply shaped_then; [constructor; [exact I|apply early_users]|]. destruct res; [apply shaped_json|apply shaped_panic].
Qed.
Lemma shaped_call s o impl m c r args : Shaped (tCallAndAnswer s o impl m c r args).
Proof.
  unfold tCallAndAnswer. destruct (impl _ _ _) as [hs res]. apply shaped_then; [constructor; [exact I|apply early_users]|].
  destruct res; [|apply shaped_error|apply shaped_panic]. destruct (rm_out m); [apply shaped_json|].
  destruct (marshalStruct _ _ _); [apply shaped_json|apply shaped_error].
Qed.
Lemma shaped_serve pkg s o impl m c r : Shaped (tServeJSON pkg s o impl m c r).
Proof.
  unfold tServeJSON. destruct (rm_in m); [apply shaped_call|]. destruct (q_body _); [|apply shaped_error].
  destruct (unmarshalStruct _ _ _); [apply shaped_call|apply shaped_error].
Qed.
Lemma shaped_body pkg name hv s o impl w r : Shaped (tServeBody pkg name hv s o impl w r).
Proof.
  unfold tServeBody. apply shaped_then; [repeat constructor|]. destruct (dispatch _ _) as [m|]; [|apply shaped_error].
  destruct (negb _); [apply shaped_then; [repeat constructor|apply shaped_error]|].
  destruct (String.eqb _ "application/json"); [|apply shaped_error].
  destruct (h_onRequest o) as [g|]; [|apply shaped_serve]. destruct (g _ _) as [hs res].
  apply shaped_then; [constructor; [exact I|apply early_users]|].
  destruct res as [[e|]|msg]; [apply shaped_error|apply shaped_serve|apply shaped_panic].
Qed.

Lemma early_headers es : forall h h' t, Forall early es -> SameOff h h' ->
  (exists st b, t = [TWriteHead st; TWrite b]) \/ t = [] ->
  SameOff (sentHeaders h (es ++ t)) (fold_left applyCall (headerCalls es) h').
Proof.
  induction es as [|e es IH]; intros h h' t F H T.
  - destruct T as [(st & b & ->)| ->]; cbn; [destruct (informational st); exact H|exact H].
  - inversion F as [|? ? E F']; subst. destruct e; cbn in E; cbn [app sentHeaders headerCalls fold_left]; try contradiction;
      try (apply IH; assumption).
    + apply IH; [assumption|apply own_set; assumption|exact T].
    + apply IH; [assumption|apply own_add; assumption|exact T].
    + apply IH; [assumption|apply call_off; assumption|exact T].
Qed.
Lemma calls_tail pre t : (exists st b, t = [TWriteHead st; TWrite b]) \/ t = [] -> headerCalls (pre ++ t) = headerCalls pre.
Proof.
  intros T. induction pre as [|[] pre IH]; cbn; rewrite ?IH; try reflexivity.
  destruct T as [(st & b & ->)| ->]; reflexivity.
Qed.

Theorem headers_sent pkg name hv s o impl w r h k : ownKey k = false ->
  let es := fst (tServeHTTP pkg name hv s o impl w r) in
  headerValues (sentHeaders h es) k = headerValues (fold_left applyCall (headerCalls es) h) k.
Proof.
  intros O es.
  assert (S : exists pre t, es = pre ++ t /\ Forall early pre /\ ((exists st b, t = [TWriteHead st; TWrite b]) \/ t = [])).
  { subst es. unfold tServeHTTP. destruct (shaped_body pkg name hv s o impl w r) as (pre & t & A & B & C).
    destruct (tServeBody pkg name hv s o impl w r) as [es [|msg]]; cbn [fst snd] in *.
    - exists pre, t. auto.
    - subst t. rewrite app_nil_r in A. subst es.
      destruct (shaped_error o (withContext r (serviceCtx pkg name w r)) (withCausef ErrWebrpcServerPanic msg)) as (pre' & t' & A' & B' & C').
      destruct (tSendError _ _ _) as [es' [|msg']]; cbn [fst snd] in *; subst es'; exists (pre ++ pre'), t';
        rewrite app_assoc; (split; [reflexivity|]); (split; [apply Forall_app; auto|]); auto. }
  destruct S as (pre & t & E & F & T). rewrite E, (calls_tail pre t T). apply early_headers; [exact F|intros c _; reflexivity|exact T|exact O].
Qed.

(** ** The header calls of a run are those asked for *)

Definition Faithful (o : hooks) (impl : ctxImpl) (es : list tevent) : Prop := headerCalls es = flat_map (callsBy o impl) es.
Lemma hc_app a b : headerCalls (a ++ b) = headerCalls a ++ headerCalls b.
Proof. induction a as [|[] a IH]; cbn; rewrite ?IH; reflexivity. Qed.
Lemma hc_users hs : headerCalls (map TUser hs) = hs.
Proof. induction hs; cbn; congruence. Qed.
Lemma by_users o impl hs : flat_map (callsBy o impl) (map TUser hs) = [].
Proof. induction hs; cbn; auto. Qed.
Lemma faithful_app o impl a b : Faithful o impl a -> Faithful o impl b -> Faithful o impl (a ++ b).
Proof. unfold Faithful. intros A B. rewrite hc_app, flat_map_app, A, B. reflexivity. Qed.
Lemma faithful_then o impl es x : Faithful o impl es -> Faithful o impl (fst x) -> Faithful o impl (fst (tThen (es, Returned) x)).
Proof. apply faithful_app. Qed.
Lemma faithful_head o impl e hs : headerCalls [e] = [] -> callsBy o impl e = hs -> Faithful o impl (e :: map TUser hs).
Proof.
  intros A B. unfold Faithful. change (e :: map TUser hs) with ([e] ++ map TUser hs). rewrite hc_app, flat_map_app, A, hc_users, by_users, app_nil_r.
  cbn. rewrite B, app_nil_r. reflexivity.
Qed.
Lemma faithful_json o impl st b : Faithful o impl (fst (tJson st b)).
Proof. unfold tJson, tWriteHead. destruct ((100 <=? st)%Z && (st <=? 999)%Z); reflexivity. Qed.
Lemma faithful_error o impl r e : Faithful o impl (fst (tSendError o r e)).
Proof.
  unfold tSendError. destruct (h_onError o) as [f|] eqn:E; [|apply faithful_json]. destruct (f r e) as [hs res] eqn:F.
  apply faithful_then; [apply faithful_head; [reflexivity|cbn; rewrite E, F; reflexivity]|]. destruct res; [apply faithful_json|reflexivity].
Qed.
Lemma faithful_call s o impl m c r args : Faithful o impl (fst (tCallAndAnswer s o impl m c r args)).
Proof.
  unfold tCallAndAnswer. destruct (impl (rm_name m) c args) as [hs res] eqn:F.
  apply faithful_then; [apply faithful_head; [reflexivity|cbn; rewrite F; reflexivity]|].
  destruct res; [|apply faithful_error|reflexivity]. destruct (rm_out m); [apply faithful_json|].
  destruct (marshalStruct _ _ _); [apply faithful_json|apply faithful_error].
Qed.
Lemma faithful_serve pkg s o impl m c r : Faithful o impl (fst (tServeJSON pkg s o impl m c r)).
Proof.
  unfold tServeJSON. destruct (rm_in m); [apply faithful_call|]. destruct (q_body _); [|apply faithful_error].
  destruct (unmarshalStruct _ _ _); [apply faithful_call|apply faithful_error].
Qed.
Lemma faithful_body pkg name hv s o impl w r : Faithful o impl (fst (tServeBody pkg name hv s o impl w r)).
Proof.
  unfold tServeBody. apply faithful_then; [reflexivity|]. destruct (dispatch _ _) as [m|]; [|apply faithful_error].
  destruct (negb _); [apply faithful_then; [reflexivity|apply faithful_error]|].
  destruct (String.eqb _ "application/json"); [|apply faithful_error].
  destruct (h_onRequest o) as [g|] eqn:E; [|apply faithful_serve].
  destruct (g w (withContext r (serviceCtx pkg name w r))) as [hs res] eqn:F.
  apply faithful_then; [apply faithful_head; [reflexivity|cbn; rewrite E, F; reflexivity]|].
  destruct res as [[e|]|msg]; [apply faithful_error|apply faithful_serve|reflexivity].
Qed.
Theorem faithful pkg name hv s o impl w r : Faithful o impl (fst (tServeHTTP pkg name hv s o impl w r)).
Proof.
  unfold tServeHTTP. pose proof (faithful_body pkg name hv s o impl w r) as B.
  destruct (tServeBody pkg name hv s o impl w r) as [es [|msg]]; [exact B|].
  pose proof (faithful_error o impl (withContext r (serviceCtx pkg name w r)) (withCausef ErrWebrpcServerPanic msg)) as C.
  destruct (tSendError _ _ _) as [es' []]; apply faithful_app; assumption.
Qed.
