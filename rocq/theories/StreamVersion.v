(** Streams between programs of different versions *)
From Coq Require Import Lia.
From Verif Require Import Base BaseProofs Utf8 Json JsonProofs GoVal GoValSpec GoValProofs Rpc RpcSpec RpcProofs RpcRemote
  Stream StreamSpec StreamProofs JsOrder VersionSpec VersionProofs VersionRpc.

(** ** One message *)

Lemma sees_snoc same env env' fs vs gs : forall g ws, SeesFields same env env' fs vs (gs ++ [g]) ws ->
  ~ In (gf_name g) (map gf_name fs) ->
  exists vs' z, ws = vs' ++ [z] /\ SeesFields same env env' fs vs gs vs' /\ Zero (gf_ty g) z.
Proof.
  induction gs as [|f gs IH]; intros g ws S N; cbn [app] in S.
  - inversion S as [|? ? ? ? v' vs' NI Z R|? ? i f v ? ? v' vs' F V E O EM Z R|? ? i f v ? ? v' vs' F V E O SE R]; subst.
    + inversion R; subst. exists [], v'. split; [reflexivity|]. split; [constructor|exact Z].
    + exfalso. apply N. rewrite <- E. apply in_map. eapply nth_error_In, F.
    + exfalso. apply N. rewrite <- E. apply in_map. eapply nth_error_In, F.
  - inversion S as [|? ? ? ? v' vs' NI Z R|? ? i f0 v ? ? v' vs' F V E O EM Z R|? ? i f0 v ? ? v' vs' F V E O SE R]; subst;
      destruct (IH g vs' R N) as (ws & z & -> & SF & ZZ); exists (v' :: ws), z; (split; [reflexivity|split; [|exact ZZ]]).
    + apply SeesNew; assumption.
    + eapply SeesOmitted; eassumption.
    + eapply SeesSent; eassumption.
Qed.

(** the reserved name is not taken by either side *)
Definition NotReserved (fs : list goField) : Prop := forall f, In f fs -> to_lower (gf_name f) <> "webrpcerror".

Lemma reserved_in fs : NotReserved fs -> ~ In "webrpcError" (map gf_name fs).
Proof. intros N I. apply in_map_iff in I as (f & E & F). apply (N f F). rewrite E. reflexivity. Qed.

Lemma reader_agrees same fs fs' : FieldsAgree same fs fs' -> NotReserved fs -> NotReserved fs' -> FieldsAgree same fs (readerFields fs').
Proof.
  intros [ND A] N N'. unfold readerFields. split.
  - rewrite map_app. cbn [map webrpcErrorField gf_name].
    apply (NoDup_Add (a := "webrpcError") (l := map gf_name fs')); [|split; [exact ND|apply reserved_in, N']].
    rewrite <- (app_nil_r (map gf_name fs')) at 1. apply Add_app.
  - intros f f' F F' E. apply in_app_iff in F' as [F'|[<-|[]]]; [apply (A f f' F F' E)|].
    exfalso. apply (N f F). rewrite E. reflexivity.
Qed.

(** what the reader makes of a message *)
Definition readBack (env env' : goEnv) (fs fs' : list goField) (vs : list gval) : list gval :=
  match unmarshalStruct env' (readerFields fs') (encode env fs vs) with Some ws => removelast ws | None => [] end.

Lemma version_line same env env' fs fs' vs : StructsAgree same env env' -> FieldsAgree same fs fs' ->
  NotReserved fs -> NotReserved fs' -> Carries env fs vs ->
  SeesFields same env env' fs vs fs' (readBack env env' fs fs' vs) /\
  exists s, encode env fs vs = (s ++ lf)%string /\ noLF s = true /\ s <> EmptyString /\
    unmarshalStruct env' (readerFields fs') (s ++ lf) = Some (readBack env env' fs fs' vs ++ [VPtr None]).
Proof.
  intros SA FA N N' C. destruct (message_line env fs vs (conj C (reserved_in fs N))) as (s & E & NL & NE & _).
  pose proof (reader_agrees same fs fs' FA N N') as RA.
  destruct C as [F D]. destruct (proj2 (fits_round_trip env) fs vs F) as (l & T & W & DM & _).
  destruct (fields_seen same env env' fs vs (proj2 (versions same env env' SA) fs vs F) (readerFields fs') l RA T) as (ws & FF & S).
  destruct (sees_snoc same env env' fs vs fs' webrpcErrorField ws S (reserved_in fs N)) as (vs' & z & -> & S' & Z).
  assert (U : unmarshalStruct env' (readerFields fs') (s ++ lf) = Some (vs' ++ [VPtr None])).
  { assert (P : parseJ (s ++ lf) = Some (JObj l)).
    { unfold encode, marshalStruct in E. rewrite T in E. rewrite <- E.
      unfold lf, chr. apply parse_print_line; [constructor; exact W|rewrite jdepth_obj; lia]. }
    unfold unmarshalStruct. rewrite P. rewrite FF. inversion Z; subst. reflexivity. }
  assert (RB : readBack env env' fs fs' vs = vs') by (unfold readBack; rewrite E, U; apply removelast_last).
  rewrite RB. split; [exact S'|]. exists s. auto.
Qed.

(** ** Whole streams *)

(** the lines of the messages are what the reader understands as [g] of them *)
Definition Understood (env env' : goEnv) (fs fs' : list goField) (g : list gval -> list gval) (msgs : list (list gval)) : Prop :=
  forall vs, In vs msgs -> exists s, encode env fs vs = (s ++ lf)%string /\ noLF s = true /\ s <> EmptyString /\
    unmarshalStruct env' (readerFields fs') (s ++ lf) = Some (g vs ++ [VPtr None]).

Lemma understood_messages env env' fs fs' g tail msgs : Understood env env' fs fs' g msgs ->
  forall l, Between pingOp (map (writeOp env fs) msgs) l -> forall rest,
  received env' fs' tail (allBytes l ++ rest) = (map g msgs ++ fst (received env' fs' tail rest), snd (received env' fs' tail rest)).
Proof.
  induction msgs as [|vs msgs IH]; intros S l B rest.
  - cbn [map] in B. rewrite (received_pings _ _ _ _ B). cbn [map app]. destruct (received env' fs' tail rest); reflexivity.
  - cbn [map] in B. remember (writeOp env fs vs :: map (writeOp env fs) msgs) as q eqn:E.
    induction B as [|q out B IHB|y q out B IHB]; [discriminate| |].
    + cbn [allBytes]. rewrite sapp_assoc. change (op_bytes pingOp) with lf. rewrite received_ping. apply IHB, E.
    + injection E as -> ->. cbn [allBytes]. rewrite sapp_assoc. cbn [writeOp op_bytes].
      destruct (S vs (or_introl eq_refl)) as (s & ES & NL & NE & U). rewrite ES, received_line by assumption.
      rewrite U, last_last, removelast_last. cbn [asError].
      rewrite (IH (fun v h => S v (or_intror h)) out B). reflexivity.
Qed.

Lemma first_ping env fs tail l : Between pingOp [pingOp] l -> forall rest, received env fs tail (allBytes l ++ rest) = received env fs tail rest.
Proof.
  intros B rest. remember [pingOp] as q eqn:E. induction B as [|q out B IH|x q out B IH]; [discriminate| |].
  - cbn [allBytes]. rewrite sapp_assoc. change (op_bytes pingOp) with lf. rewrite received_ping. apply IH, E.
  - injection E as -> ->. cbn [allBytes]. rewrite sapp_assoc. change (op_bytes pingOp) with lf. rewrite received_ping.
    apply received_pings, B.
Qed.

Lemma errorLine_same env env' e : HasErrorType env -> HasErrorType env' -> errorLine env e = errorLine env' e.
Proof. intros H H'. unfold errorLine, encode. rewrite !error_json by assumption. reflexivity. Qed.

Lemma understood_error env env' fs' tail e l q : HasErrorType env -> HasErrorType env' -> Int64 (re_code e) -> Int64 (re_status e) ->
  ~ In "webrpcError" (map gf_name fs') -> Between pingOp [errorOp env e] l ->
  received env' fs' tail (allBytes l ++ q) = ([], Some (sanError e)).
Proof.
  intros H H' C ST N B. remember [errorOp env e] as qq eqn:E. induction B as [|qq out B IH|x qq out B IH]; [discriminate| |].
  - cbn [allBytes]. rewrite sapp_assoc. change (op_bytes pingOp) with lf. rewrite received_ping. apply IH, E.
  - injection E as -> ->. cbn [allBytes errorOp op_bytes]. rewrite sapp_assoc, (errorLine_same env env') by assumption.
    apply received_error; assumption.
Qed.

Theorem understood_stream env env' fs fs' g tail msgs e l : HasErrorType env -> HasErrorType env' ->
  Understood env env' fs fs' g msgs ->
  Between pingOp (pingOp :: map (writeOp env fs) msgs ++ match e with None => [] | Some r => [errorOp env r] end) l ->
  ~ In "webrpcError" (map gf_name fs') ->
  (forall r, e = Some r -> Int64 (re_code r) /\ Int64 (re_status r)) ->
  received env' fs' tail (allBytes l) = (map g msgs, Some (match e with None => endError tail | Some r => sanError r end)).
Proof.
  intros HE HE' S B N I.
  change (pingOp :: map (writeOp env fs) msgs ++ match e with None => [] | Some r => [errorOp env r] end)
    with ([pingOp] ++ map (writeOp env fs) msgs ++ match e with None => [] | Some r => [errorOp env r] end) in B.
  apply between_app in B. destruct B as (l1 & l2 & -> & B1 & B2).
  apply between_app in B2. destruct B2 as (l3 & l4 & -> & B3 & B4).
  rewrite !allBytes_app, (first_ping env' fs' tail l1 B1), (understood_messages env env' fs fs' g tail msgs S l3 B3).
  assert (L : received env' fs' tail (allBytes l4) = ([], Some (match e with None => endError tail | Some r => sanError r end))).
  { rewrite <- (sapp_nil_r (allBytes l4)). destruct e as [r|].
    - destruct (I r eq_refl). apply (understood_error env); assumption.
    - rewrite (received_pings env' fs' tail l4 B4). reflexivity. }
  rewrite L. cbn. rewrite app_nil_r. reflexivity.
Qed.

Theorem understood_cut env env' fs fs' g tail msgs e l p : HasErrorType env -> HasErrorType env' ->
  Understood env env' fs fs' g msgs ->
  ~ In "webrpcError" (map gf_name fs') ->
  (forall r, e = Some r -> Int64 (re_code r) /\ Int64 (re_status r)) ->
  (exists left, Between pingOp (pingOp :: map (writeOp env fs) msgs ++ match e with None => [] | Some r => [errorOp env r] end) (l ++ left)) ->
  PrefixS p (allBytes l) ->
  exists ms err, received env' fs' tail p = (map g ms, Some err) /\ Prefix ms msgs /\
    (err = endError tail \/ exists r, e = Some r /\ ms = msgs /\ err = sanError r).
Proof.
  intros HE HE' S N I [left B] P.
  set (ends := match e with None => [] | Some r => [errorOp env r] end) in *.
  assert (LN : Forall isLine (pingOp :: map (writeOp env fs) msgs ++ ends)).
  { constructor; [exact ping_line|]. apply Forall_app. split.
    - apply Forall_forall. intros o Ho. apply in_map_iff in Ho. destruct Ho as (vs & <- & Hv).
      destruct (S vs Hv) as (s & E & NL & _). exists s. auto.
    - unfold ends. destruct e as [r|]; [|constructor]. constructor; [|constructor]. apply errorOp_line; auto; apply (I r eq_refl). }
  pose proof (between_forall isLine _ _ _ B ping_line LN) as LL. apply Forall_app in LL. destruct LL as [LL _].
  destruct (cut_lines l LL p P) as (l1 & l2 & q & -> & -> & NQ).
  destruct (between_prefix _ _ _ B l1 (l2 ++ left)) as (H1 & H2 & EH & B1); [rewrite app_assoc; reflexivity|].
  destruct H1 as [|x H1].
  { exists [], (endError tail). rewrite (received_pings env' fs' tail l1 B1), received_partial by exact NQ.
    split; [reflexivity|]. split; [exists msgs; reflexivity|auto]. }
  cbn [app] in EH. injection EH as <- EH.
  assert (B1' : exists la lb, l1 = la ++ lb /\ Between pingOp [pingOp] la /\ Between pingOp H1 lb).
  { apply between_app. exact B1. }
  destruct B1' as (la & lb & -> & BA & BB).
  rewrite allBytes_app, sapp_assoc, (first_ping env' fs' tail la BA).
  destruct (app_prefix_cases _ _ _ _ (eq_sym EH)) as [[c EC]|(c & -> & NE & EC)].
  - destruct (map_prefix _ _ _ _ EC) as (m1 & m2 & -> & <-).
    exists m1, (endError tail).
    rewrite (understood_messages env env' fs fs' g tail m1) by (auto; intros v Hv; apply S, in_app_iff; auto).
    rewrite received_partial by exact NQ. cbn [fst snd]. rewrite app_nil_r.
    split; [reflexivity|]. split; [exists m2; reflexivity|auto].
  - unfold ends in EC. destruct e as [r|]; [|destruct c; [congruence|discriminate EC]].
    destruct c as [|o c]; [congruence|]. cbn in EC. injection EC as <- EC. destruct c; [|discriminate EC].
    apply between_app in BB. destruct BB as (lc & ld & -> & BC & BD).
    exists msgs, (sanError r). destruct (I r eq_refl) as [I1 I2].
    rewrite allBytes_app, sapp_assoc, (understood_messages env env' fs fs' g tail msgs S lc BC).
    rewrite (understood_error env env' fs' tail r ld q HE HE' I1 I2 N BD).
    cbn [fst snd]. rewrite app_nil_r. split; [reflexivity|]. split; [exists []; rewrite app_nil_r; reflexivity|eauto].
Qed.

Lemma forall2_map {A B} (R : A -> B -> Prop) (g : A -> B) l : (forall x, In x l -> R x (g x)) -> Forall2 R l (map g l).
Proof. induction l as [|x l IH]; intros H; constructor; [apply H; left; reflexivity|]. apply IH. intros y I. apply H. right. exact I. Qed.
