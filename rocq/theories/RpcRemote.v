(** Proofs about remote calls and error matching. *)
From Verif Require Import Base BaseProofs Utf8 Utf8Proofs Json JsonProofs GoVal GoValSpec GoValProofs Rpc RpcSpec RpcProofs.

(** ** The handler's run for a call of the client *)

Lemma null_args s m : rm_in m = [] -> requestBody s m [] = Some "null".
Proof. unfold requestBody. intros ->. reflexivity. Qed.

(** the request the client sends *)
Lemma client_request s m args : Carries (sv_env s) (rm_in m) args ->
  exists b, requestBody s m args = Some b /\
    (rm_in m = [] /\ args = [] \/ rm_in m <> [] /\ unmarshalStruct (sv_env s) (rm_in m) b = Some args).
Proof.
  intros [F D]. unfold requestBody. destruct (rm_in m) as [|f fs] eqn:E.
  - inversion F; subst. exists "null". auto.
  - destruct (payload_round_trip _ _ _ F D) as (b & M & _ & U & _). exists b. split; [exact M|]. right.
    split; [discriminate|exact U].
Qed.

Lemma json_ct : mediaType "application/json" = "application/json".
Proof. reflexivity. Qed.

Lemma serve_client_request hv s hook impl m args b :
  NoDup (map rm_name (sv_methods s)) -> In m (sv_methods s) -> hookSays hook (rm_name m) = inl None ->
  (rm_in m = [] /\ args = [] \/ rm_in m <> [] /\ unmarshalStruct (sv_env s) (rm_in m) b = Some args) ->
  serveHTTP hv s (hookOnly hook) impl (newRequest s m b) =
  guarded hook (andThen ([SetHeader "Webrpc" hv], Returned) (callAndAnswer s (hookOnly hook) impl m args)).
Proof.
  intros ND I H A. unfold serveHTTP. fold (guarded hook (serveBody hv s (hookOnly hook) impl (newRequest s m b))).
  f_equal. unfold serveBody, newRequest. cbn [q_path q_method q_contentType q_body]. f_equal.
  rewrite (proj2 (dispatch_iff s (routeOf s m) m ND) (conj I eq_refl)). rewrite json_ct, !String.eqb_refl. cbn [negb].
  assert (J : serveJSON s (hookOnly hook) impl m (Request "POST" (routeOf s m) "application/json" (Some b)) =
    callAndAnswer s (hookOnly hook) impl m args).
  { unfold serveJSON. cbn [q_body]. destruct A as [[-> ->]|[N U]]; [reflexivity|].
    destruct (rm_in m); [congruence|]. rewrite U. reflexivity. }
  cbn [o_onRequest hookOnly]. unfold hookSays in H. destruct hook as [f|]; [rewrite H|]; exact J.
Qed.

Lemma serve_rejected hv s hook impl m b e :
  NoDup (map rm_name (sv_methods s)) -> In m (sv_methods s) -> hookSays hook (rm_name m) = inl (Some e) ->
  serveHTTP hv s (hookOnly hook) impl (newRequest s m b) =
  guarded hook (andThen ([SetHeader "Webrpc" hv], Returned) (sendErrorJSON (hookOnly hook) (toRpcError e))).
Proof.
  intros ND I H. unfold serveHTTP. fold (guarded hook (serveBody hv s (hookOnly hook) impl (newRequest s m b))).
  f_equal. unfold serveBody, newRequest. cbn [q_path q_method q_contentType q_body]. f_equal.
  rewrite (proj2 (dispatch_iff s (routeOf s m) m ND) (conj I eq_refl)). rewrite json_ct, !String.eqb_refl. cbn [negb].
  cbn [o_onRequest hookOnly]. unfold hookSays in H. destruct hook as [f|]; [rewrite H; reflexivity|discriminate].
Qed.

(** ** What the client makes of it *)

Lemma transportable_http e : Transportable e -> HttpStatus (re_status e) /\ (re_status e =? 200)%Z = false /\
  informational (re_status e) = false /\ bodyAllowed (re_status e) = true.
Proof.
  intros (R & N4 & N3 & _). unfold HttpStatus, informational, bodyAllowed. split; [lia|].
  split; [apply Z.eqb_neq; lia|].
  assert ((re_status e <=? 199)%Z = false) as -> by (apply Z.leb_gt; lia).
  assert ((re_status e =? 204)%Z = false) as -> by (apply Z.eqb_neq; lia).
  assert ((re_status e =? 304)%Z = false) as -> by (apply Z.eqb_neq; lia).
  rewrite !andb_false_r. split; reflexivity.
Qed.

Definition silent (es : list event) : Prop := quiet es /\ statusOf es = None.

Lemma statusOf_app a b : statusOf a = None -> statusOf (a ++ b) = statusOf b.
Proof. induction a as [|[] a IH]; simpl; try congruence; auto. destruct (informational code); [auto|discriminate]. Qed.

Lemma response_error es e : silent es -> Transportable e ->
  responseOf (es ++ [SetHeader "Content-Type" "application/json"; WriteHeader (re_status e); Write (marshalError e)]) =
  Response (re_status e) (marshalError e).
Proof.
  intros [[_ B] S] T. destruct (transportable_http e T) as (_ & _ & I & A).
  unfold responseOf. rewrite statusOf_app by exact S. cbn [statusOf]. rewrite I, A.
  rewrite bodyOf_app, B. cbn. rewrite sapp_nil_r. reflexivity.
Qed.

Lemma response_ok es b : silent es ->
  responseOf (es ++ [SetHeader "Content-Type" "application/json"; WriteHeader 200; Write b]) = Response 200 b.
Proof.
  intros [[_ B] S]. unfold responseOf. rewrite statusOf_app by exact S. cbn [statusOf]. cbn.
  rewrite bodyOf_app, B. cbn. rewrite sapp_nil_r. reflexivity.
Qed.

Lemma response_ok' hv n a b :
  responseOf [SetHeader "Webrpc" hv; CallImpl n a; SetHeader "Content-Type" "application/json"; WriteHeader 200; Write b] = Response 200 b.
Proof. apply (response_ok [SetHeader "Webrpc" hv; CallImpl n a]). repeat split. Qed.

Definition seenError (e : rpcError) : rpcError := restoreCause (sanError e).

Definition zeros (m : rpcMethod) := map (fun f => zeroVal (gf_ty f)) (rm_out m).

Lemma client_sees_error s m args b net e : requestBody s m args = Some b ->
  net (newRequest s m b) = Received (Response (re_status e) (marshalError e)) -> Transportable e ->
  clientCall s None net m args = CallResult (zeros m) (Some (seenError e)).
Proof.
  intros RB N T. unfold clientCall. rewrite RB, N. cbn [p_status p_body].
  destruct (transportable_http e T) as (H & S & _ & _). rewrite S. cbn [negb].
  rewrite unmarshal_marshalError by (try apply T; apply http_int64, H). reflexivity.
Qed.

Theorem remote_error rec hv s hook impl m args e :
  NoDup (map rm_name (sv_methods s)) -> In m (sv_methods s) -> hookSays hook (rm_name m) = inl None ->
  Carries (sv_env s) (rm_in m) args -> impl (rm_name m) args = Fails e -> Transportable (toRpcError e) ->
  clientCall s None (connect rec hv s (hookOnly hook) impl) m args = CallResult (zeros m) (Some (seenError (toRpcError e))).
Proof.
  intros ND I H C F T. destruct (client_request s m args C) as (b & RB & A).
  apply (client_sees_error s m args b); [exact RB| |exact T].
  unfold connect. rewrite (serve_client_request hv s hook impl m args b ND I H A).
  unfold callAndAnswer. rewrite F, andThen_cons, sendError_ok by apply transportable_http, T.
  cbn [guarded andThen fst snd]. f_equal. apply response_error; [|exact T]. repeat split.
Qed.

Theorem remote_rejected rec hv s hook impl m args e :
  NoDup (map rm_name (sv_methods s)) -> In m (sv_methods s) -> hookSays hook (rm_name m) = inl (Some e) ->
  Carries (sv_env s) (rm_in m) args -> Transportable (toRpcError e) ->
  clientCall s None (connect rec hv s (hookOnly hook) impl) m args = CallResult (zeros m) (Some (seenError (toRpcError e))).
Proof.
  intros ND I H C T. destruct (client_request s m args C) as (b & RB & A).
  apply (client_sees_error s m args b); [exact RB| |exact T].
  unfold connect. rewrite (serve_rejected hv s hook impl m b e ND I H).
  rewrite sendError_ok by apply transportable_http, T.
  cbn [guarded andThen fst snd]. f_equal. apply response_error; [|exact T]. repeat split.
Qed.

Lemma panic_transportable msg : Transportable (withCausef ErrWebrpcServerPanic msg).
Proof. unfold Transportable. cbn. unfold Int64. lia. Qed.

Theorem remote_panic hv s hook impl m args msg :
  NoDup (map rm_name (sv_methods s)) -> In m (sv_methods s) -> hookSays hook (rm_name m) = inl None ->
  Carries (sv_env s) (rm_in m) args -> impl (rm_name m) args = Panics msg ->
  clientCall s None (connect true hv s (hookOnly hook) impl) m args =
    CallResult (zeros m) (Some (seenError (withCausef ErrWebrpcServerPanic msg))).
Proof.
  intros ND I H C F. destruct (client_request s m args C) as (b & RB & A).
  apply (client_sees_error s m args b); [exact RB| |apply panic_transportable].
  unfold connect. rewrite (serve_client_request hv s hook impl m args b ND I H A).
  unfold callAndAnswer. rewrite F, andThen_cons. cbn [andThen fst snd]. rewrite app_nil_r. cbn [guarded].
  rewrite sendError_ok by apply transportable_http, panic_transportable.
  f_equal. apply response_error; [|apply panic_transportable]. repeat split.
Qed.

Theorem remote_result rec hv s hook impl m args vs :
  NoDup (map rm_name (sv_methods s)) -> In m (sv_methods s) -> hookSays hook (rm_name m) = inl None ->
  Carries (sv_env s) (rm_in m) args -> impl (rm_name m) args = Returns vs -> Carries (sv_env s) (rm_out m) vs ->
  clientCall s None (connect rec hv s (hookOnly hook) impl) m args = CallResult vs None.
Proof.
  intros ND I H C F [FO DO]. destruct (client_request s m args C) as (b & RB & A).
  unfold clientCall. rewrite RB. unfold connect. rewrite (serve_client_request hv s hook impl m args b ND I H A).
  unfold callAndAnswer. rewrite F, andThen_cons. unfold sendOK. rewrite writeHeader_ok by (unfold HttpStatus; lia).
  destruct (rm_out m) as [|f fs] eqn:E.
  - inversion FO; subst. cbn [guarded andThen fst snd app]. 
    rewrite response_ok'. reflexivity.
  - destruct (payload_round_trip _ _ _ FO DO) as (body & M & _ & U & _). rewrite M.
    cbn [guarded andThen fst snd app].
    rewrite response_ok'.
    cbn [p_status p_body Z.eqb]. cbn. rewrite U. reflexivity.
Qed.

(** the implementation sees the client's arguments, once *)
Theorem remote_arguments hv s hook impl m args b :
  NoDup (map rm_name (sv_methods s)) -> In m (sv_methods s) -> hookSays hook (rm_name m) = inl None ->
  Carries (sv_env s) (rm_in m) args -> requestBody s m args = Some b ->
  callsMade (fst (serveHTTP hv s (hookOnly hook) impl (newRequest s m b))) = [(rm_name m, args)].
Proof.
  intros ND I H C RB. destruct (client_request s m args C) as (b' & RB' & A).
  assert (b' = b) by congruence. subst b'.
  destruct (gives_call hv hook impl s m (newRequest s m b) args) as (a & _ & G & _).
  - repeat split; cbn; [exact I|]. apply content_type_iff. reflexivity.
  - exact H.
  - destruct A as [[E ->]|[N U]]; [apply NoArguments, E|]. apply (BodyArguments s m _ b); [exact N|reflexivity|exact U].
  - rewrite (serve_client_request hv s hook impl m args b ND I H A). exact G.
Qed.

Lemma san_texts e : ValidTexts e -> SameFields e (seenError e).
Proof.
  intros (A & B & C). unfold seenError, restoreCause, sanError. cbn [re_causeText].
  destruct (isEmptyStr (san (re_causeText e))); unfold SameFields; cbn; rewrite !san_valid by assumption; repeat split.
Qed.

Lemma seen_code e : re_code (seenError e) = re_code e /\ re_status (seenError e) = re_status e.
Proof. unfold seenError, restoreCause. destruct (isEmptyStr _); split; reflexivity. Qed.

Lemma asWebrpc e : AsWebrpc e (toRpcError e).
Proof. destruct e; try (apply AWOther; [congruence|..]; reflexivity). apply AWRpc. Qed.

(** ** Errors the client cannot see *)

Theorem status_200_error rec hv s hook impl m args e :
  NoDup (map rm_name (sv_methods s)) -> In m (sv_methods s) -> hookSays hook (rm_name m) = inl None ->
  Carries (sv_env s) (rm_in m) args -> impl (rm_name m) args = Fails (ERpc e) -> re_status e = 200%Z ->
  rm_out m = [] ->
  clientCall s None (connect rec hv s (hookOnly hook) impl) m args = CallResult [] None.
Proof.
  intros ND I H C F S O. destruct (client_request s m args C) as (b & RB & A).
  unfold clientCall. rewrite RB. unfold connect. rewrite (serve_client_request hv s hook impl m args b ND I H A).
  unfold callAndAnswer. rewrite F, andThen_cons. cbn [toRpcError].
  rewrite sendError_ok by (rewrite S; unfold HttpStatus; lia). rewrite S.
  cbn [guarded andThen fst snd app].
  rewrite response_ok'.
  rewrite O. reflexivity.
Qed.

Theorem no_body_error rec hv s hook impl m args e :
  NoDup (map rm_name (sv_methods s)) -> In m (sv_methods s) -> hookSays hook (rm_name m) = inl None ->
  Carries (sv_env s) (rm_in m) args -> impl (rm_name m) args = Fails (ERpc e) -> re_status e = 204%Z \/ re_status e = 304%Z ->
  exists e', clientCall s None (connect rec hv s (hookOnly hook) impl) m args = CallResult (zeros m) (Some e') /\ re_code e' = (-5)%Z.
Proof.
  intros ND I H C F S. destruct (client_request s m args C) as (b & RB & A).
  unfold clientCall. rewrite RB. unfold connect. rewrite (serve_client_request hv s hook impl m args b ND I H A).
  unfold callAndAnswer. rewrite F, andThen_cons. cbn [toRpcError].
  rewrite sendError_ok by (unfold HttpStatus; lia).
  cbn [guarded andThen fst snd app]. unfold responseOf. cbn [statusOf].
  destruct S as [S|S]; rewrite S; cbn; eexists; split; reflexivity.
Qed.

(** ** Matching *)

Fixpoint goError_ind' (P : goError -> Prop) (HP : forall i m, P (EPlain i m)) (HW : forall i m x, P x -> P (EWrap i m x))
  (H0 : forall n c m t s, P (ERpc (RpcError n c m t s None)))
  (H1 : forall n c m t s x, P x -> P (ERpc (RpcError n c m t s (Some x)))) (e : goError) : P e :=
  match e with
  | EPlain i m => HP i m
  | EWrap i m x => HW i m x (goError_ind' P HP HW H0 H1 x)
  | ERpc (RpcError n c m t s None) => H0 n c m t s
  | ERpc (RpcError n c m t s (Some x)) => H1 n c m t s x (goError_ind' P HP HW H0 H1 x)
  end.

Theorem is_rpc_iff x t : errorsIs x (ERpc t) = true <-> exists e, Unwraps x (ERpc e) /\ re_code e = re_code t.
Proof.
  induction x as [i m|i m x IH|n c m tx s|n c m tx s x IH] using goError_ind'; cbn [errorsIs sameValue].
  - split; [discriminate|]. intros (e & U & _). inversion U.
  - rewrite orb_false_l, IH. split; intros (e & U & E); exists e; (split; [|exact E]); [constructor; exact U|inversion U; assumption].
  - rewrite orb_false_l, orb_false_r, Z.eqb_eq. split.
    + intros E. eexists. split; [apply UHere|cbn; congruence].
    + intros (e & U & E). inversion U; subst. cbn in E. congruence.
  - rewrite orb_false_l, orb_true_iff, IH, Z.eqb_eq. split.
    + intros [E|(e & U & E)]; [eexists; split; [apply UHere|cbn; congruence]|exists e; split; [constructor; exact U|exact E]].
    + intros (e & U & E). inversion U; subst; [left; cbn in E; congruence|right; exists e; auto].
Qed.

Definition notRpc (t : goError) : Prop := forall e, t <> ERpc e.

Theorem is_other_iff x t : notRpc t -> errorsIs x t = true <-> exists y, Unwraps x y /\ sameValue y t = true.
Proof.
  intros NR. induction x as [i m|i m x IH|n c m tx s|n c m tx s x IH] using goError_ind'; cbn [errorsIs].
  - rewrite orb_false_r. split; [intros E; eexists; split; [apply UHere|exact E]|].
    intros (y & U & E). inversion U; subst. exact E.
  - rewrite orb_true_iff, IH. split.
    + intros [E|(y & U & E)]; [eexists; split; [apply UHere|exact E]|exists y; split; [constructor; exact U|exact E]].
    + intros (y & U & E). inversion U; subst; [left; exact E|right; eauto].
  - destruct t as [j w|j w z|e]; [| |destruct (NR e eq_refl)]; cbn [sameValue]; rewrite !orb_false_r; (split; [discriminate|]);
    intros (y & U & E); inversion U; subst; discriminate E.
  - assert (E : (match t with ERpc t0 => (re_code t0 =? c)%Z | _ => errorsIs x t end) = errorsIs x t)
      by (destruct t; [reflexivity|reflexivity|destruct (NR e eq_refl)]).
    rewrite E, orb_diag. assert (SV : sameValue (ERpc (RpcError n c m tx s (Some x))) t = false) by (destruct t; reflexivity).
    rewrite SV, orb_false_l, IH. split.
    + intros (y & U & Y). exists y. split; [constructor; exact U|exact Y].
    + intros (y & U & Y). inversion U; subst; [rewrite SV in Y; discriminate|eauto].
Qed.

Theorem rpcIs_code e t : rpcIs e (Some (ERpc t)) = true <-> re_code e = re_code t.
Proof. cbn. rewrite Z.eqb_eq. split; congruence. Qed.

Theorem causes_preserve cs e t : rpcIs (fold_left withCause cs e) (Some (ERpc t)) = rpcIs e (Some (ERpc t)) /\
  rpcIs t (Some (ERpc (fold_left withCause cs e))) = rpcIs t (Some (ERpc e)).
Proof. revert e. induction cs as [|c cs IH]; intros e; [split; reflexivity|]. cbn [fold_left].
  destruct (IH (withCause e c)) as [-> ->]. split; reflexivity. Qed.

Lemma causes_fields cs e : let e' := fold_left withCause cs e in
  re_name e' = re_name e /\ re_code e' = re_code e /\ re_message e' = re_message e /\ re_status e' = re_status e.
Proof. revert e. induction cs as [|c cs IH]; intros e; [repeat split|]. cbn [fold_left]. apply (IH (withCause e c)). Qed.

(** the error the client holds matches exactly the errors with its code *)
Lemma seen_matches e t : errorsIs (ERpc (seenError e)) (ERpc t) = true <-> re_code e = re_code t.
Proof.
  rewrite is_rpc_iff. unfold seenError, restoreCause, sanError. cbn [re_causeText].
  destruct (isEmptyStr _); split.
  - intros (x & U & E). inversion U; subst. cbn in E. exact E.
  - intros E. eexists. split; [apply UHere|exact E].
  - intros (x & U & E). inversion U as [|?|? ? ? ? ? ? ? U']; subst; [exact E|inversion U'].
  - intros E. eexists. split; [apply UHere|exact E].
Qed.

(** ** Repeated keys *)

Lemma mapPut_in k v m x w : NoDup (map fst m) -> (In (x, w) (mapPut k v m) <-> (x = k /\ w = v) \/ (x <> k /\ In (x, w) m)).
Proof.
  intros ND. induction m as [|[k' v'] m IH]; cbn [mapPut].
  - cbn. split; [intros [[= <- <-]|[]]; left; auto|intros [[-> ->]|[_ []]]; left; reflexivity].
  - cbn [map fst] in ND. inversion ND as [|? ? N1 N2]; subst. destruct (gkey_eqb k k') eqn:E.
    + apply gkey_eqb_eq in E. subst k'. cbn [In]. split.
      * intros [[= <- <-]|H]; [left; auto|]. right. split; [|right; exact H]. intros ->. apply N1, in_map_iff. exists (k, w). auto.
      * intros [[-> ->]|[N [[= <- <-]|H]]]; [left; reflexivity|congruence|right; exact H].
    + assert (k' <> k) by (intros ->; rewrite (proj2 (gkey_eqb_eq k k) eq_refl) in E; discriminate). cbn [In]. rewrite (IH N2). split.
      * intros [[= <- <-]|[A|[A B]]]; [right; split; [assumption|left; reflexivity]|left; exact A|right; split; [exact A|right; exact B]].
      * intros [A|[A [B|B]]]; [right; left; exact A|left; exact B|right; right; auto].
Qed.
Lemma mapPut_nodup k v m : NoDup (map fst m) -> NoDup (map fst (mapPut k v m)).
Proof.
  intros ND. induction m as [|[k' v'] m IH]; cbn [mapPut]; [constructor; [intros []|constructor]|]. cbn [map fst] in ND. inversion ND as [|? ? N1 N2]; subst.
  destruct (gkey_eqb k k') eqn:E.
  - apply gkey_eqb_eq in E. subst k'. cbn. constructor; assumption.
  - cbn [map fst]. constructor; [|apply IH, N2]. intros C. apply in_map_iff in C. destruct C as ([x w] & EX & C). cbn in EX. subst x.
    apply mapPut_in in C; [|exact N2]. destruct C as [[-> _]|[_ C]]; [rewrite (proj2 (gkey_eqb_eq k k) eq_refl) in E; discriminate|].
    apply N1, in_map_iff. exists (k', w). auto.
Qed.
Lemma lookup_snoc {A} k (l : list (string * A)) e : lookup k (l ++ [e]) = match lookup k l with Some x => Some x | None => if String.eqb k (fst e) then Some (snd e) else None end.
Proof. induction l as [|[k' y] l IH]; [destruct e; reflexivity|]. cbn [app lookup]. destruct (String.eqb k k'); [reflexivity|exact IH]. Qed.

Lemma repeated_keys n l : ValidUtf8 n -> (forall k x, In (k, x) l -> ValidUtf8 k /\ JWf x) ->
  (N.of_nat (jdepth (JObj [(n, JObj l)])) <= maxNestingDepth)%N ->
  exists m, unmarshalStruct [] [GF n false (TMap KString TAny)] (printJ (JObj [(n, JObj l)])) = Some [VMap (Some m)] /\
    NoDup (map fst m) /\ forall k x, lookup k (rev l) = Some x <-> In (KS k, VAny x) m.
Proof.
  intros V W D. unfold unmarshalStruct. rewrite parse_print; [|constructor; intros k x [[= <- <-]|[]]; split; [exact V|constructor; exact W]|exact D].
  cbn [fromFields map]. unfold findField. cbn [fieldIndex gf_name]. rewrite String.eqb_refl. cbn [nth_error gf_ty]. rewrite fromJ_map.
  assert (G : forall l acc, NoDup (map fst acc) -> exists m, fromMap [] KString TAny acc l = Some m /\ NoDup (map fst m) /\
    forall k v, In (KS k, v) m <-> match lookup k (rev l) with Some x => v = VAny x | None => In (KS k, v) acc end).
  { clear. induction l as [|[s x] l IH]; intros acc ND.
    - exists acc. split; [reflexivity|]. split; [exact ND|]. intros k v. reflexivity.
    - cbn [fromMap parseKey]. assert (FX : fromJ [] TAny x = Some (VAny x)) by (destruct x; reflexivity). rewrite FX.
      destruct (IH (mapPut (KS s) (VAny x) acc) (mapPut_nodup _ _ _ ND)) as (m & F & N & H). exists m. split; [exact F|]. split; [exact N|].
      intros k v. rewrite H. cbn [rev]. rewrite lookup_snoc. destruct (lookup k (rev l)); [reflexivity|]. cbn [fst snd]. rewrite mapPut_in by exact ND.
      destruct (String.eqb_spec k s) as [->|NE]; split.
      + intros [[_ ->]|[C _]]; [reflexivity|congruence].
      + intros ->. left. auto.
      + intros [[[= C] _]|[_ C]]; [congruence|exact C].
      + intros C. right. split; [congruence|exact C]. }
  destruct (G l [] (NoDup_nil _)) as (m & F & N & H). exists m. rewrite F. cbn [option_map setNth fromFields]. split; [reflexivity|]. split; [exact N|].
  intros k x. rewrite H. destruct (lookup k (rev l)); [split; [intros [= ->]; reflexivity|intros [= ->]; reflexivity]|split; [discriminate|intros []]].
Qed.
