(** C50: the generated TypeScript server. *)
From Verif Require Import Base BaseProofs Utf8 Utf8Proofs Json JsonProofs Schema ValidateSpec BigInt BigIntSpec BigIntTable GoVal GoValSpec GoValProofs BigSpec GoBigProofs
  Rpc TsSpec Ts TsWire TsBig TsBigSpec TsBigProofs TsBigMain TsBigWire TsBigExample Props_TsBig TsServer.

(** ** specification *)

(** [x] is the value of the member [k] *)
Definition Has (v : jsv) (k : string) (x : jsv) : Prop := exists l, v = SObj l /\ lookup k l = Some x.
Definition Lacks (v : jsv) (k : string) : Prop := forall x, Has v k x -> x = SUndef.
Definition IsNumber (v : jsv) : Prop := exists l, v = SNum l.
Definition IsBig (v : jsv) : Prop := exists z, v = SBig z.

(** arguments of the types that the schema declares for a method of service Example (service.ridl 8-17) *)
Inductive Declared : string -> jsv -> Prop :=
| D_ping v : Lacks v "counter" \/ (exists x, Has v "counter" x /\ IsBig x) -> Declared "Ping" v
| D_getUser v x : Has v "userId" x -> IsNumber x -> Declared "GetUser" v
| D_getArticle v a b : Has v "articleId" a -> IsNumber a -> Has v "byBN" b -> IsBig b -> Declared "GetArticle" v.

(** JavaScript takes the body for false *)
Definition Empty (body : json) : Prop :=
  match body with
  | JNull | JBool false => True
  | JNum l => zeroMantissa l = true
  | JStr s => match parseJ s with Some JNull | Some (JBool false) => True | Some (JStr t) => t = EmptyString | Some (JNum l) => zeroMantissa l = true | _ => False end
  | _ => False
  end.

(** ** proofs *)

Lemma validate_js v t b : existsb (String.eqb t) jsTypes = true -> validateType v t = Val b -> String.eqb (typeOf v) t = b.
Proof. intros H. unfold validateType. cbn [validateFuel]. rewrite H. now intros [= <-]. Qed.

Lemma validate_enough : forall n m v t, sdepth v < n -> sdepth v < m -> validateFuel n v t = validateFuel m v t.
Proof.
  induction n as [|n IH]; intros [|m] v t Hn Hm; try lia. cbn [validateFuel]. destruct (existsb _ jsTypes); [reflexivity|].
  destruct (assoc t validators) as [cs|]; [|reflexivity]. induction cs as [|[[k o] ty] cs IHc]; [reflexivity|]. cbn [conditions].
  assert (E : condition (validateFuel n) v (k, o, ty) = condition (validateFuel m) v (k, o, ty)).
  { unfold condition. destruct v; cbn [jsIn jbind]; try reflexivity. destruct (lookup k l) as [x|] eqn:L; [|reflexivity].
    cbn [member]. unfold objGet. rewrite L. pose proof (sdepth_member k x l (lookup_In _ _ _ L)). apply IH; lia. }
  rewrite E. destruct (condition (validateFuel m) v (k, o, ty)) as [[|]|]; [exact IHc|reflexivity|reflexivity].
Qed.

Lemma typeOf_number v : String.eqb (typeOf v) "number" = true -> IsNumber v.
Proof. destruct v; try discriminate. intros _. eexists. reflexivity. Qed.
Lemma typeOf_bigint v : String.eqb (typeOf v) "bigint" = true -> IsBig v.
Proof. destruct v; try discriminate. intros _. eexists. reflexivity. Qed.

Lemma in_has k v : jsIn k v = Val true -> Has v k (member k v).
Proof. destruct v; try discriminate. cbn. unfold objGet. destruct (lookup k l) as [x|] eqn:L; [|discriminate]. intros _. exists l. rewrite L. auto. Qed.
Lemma in_lacks k v : jsIn k v = Val false -> Lacks v k.
Proof. destruct v; try discriminate; intros H x (l' & E & L); [discriminate|]. injection E as <-. exfalso. cbn in H. rewrite L in H. discriminate. Qed.

Lemma article_valid v : validateType v "GetArticleRequest" = Val true -> Declared "GetArticle" v.
Proof.
  unfold validateType. cbn [validateFuel]. cbn [existsb jsTypes]. cbn -[validateFuel jsIn condition member jbind].
  cbn [condition]. 
  destruct (jsIn "articleId" v) as [[|]|] eqn:I1; cbn [jbind]; try discriminate.
  destruct (validateFuel (sdepth v) (member "articleId" v) "number") as [[|]|] eqn:V1; cbn [jbind]; try discriminate.
  destruct (jsIn "byBN" v) as [[|]|] eqn:I2; cbn [jbind]; try discriminate.
  destruct (validateFuel (sdepth v) (member "byBN" v) "bigint") as [[|]|] eqn:V2; cbn [jbind]; try discriminate. intros _.
  destruct (sdepth v); [discriminate|]. cbn [validateFuel] in V1, V2. cbn in V1, V2. injection V1 as V1. injection V2 as V2.
  econstructor; [apply in_has, I1|apply typeOf_number, V1|apply in_has, I2|apply typeOf_bigint, V2].
Qed.
(** the calls *)
Lemma decode_true tbl k x : (exists l, x = SArr l) \/ (exists l, x = SObj l) -> forall y, decodeType tbl k x = Ok y -> isTrue y = true.
Proof.
  intros H y E. destruct (decode_fine tbl (S (sdepth x)) k x) as [(y' & E' & L)|E']; [lia| |unfold decodeType in E; congruence].
  unfold decodeType in E. rewrite E in E'. injection E' as <-. destruct H as [(l & ->)|(l & ->)]; inversion L; reflexivity.
Qed.

Lemma decode_atom tbl k x : match x with SArr _ | SObj _ => False | _ => True end -> decodeType tbl k x = Ok x.
Proof. destruct x; intros H; try contradiction; reflexivity. Qed.

Lemma ofJson_obj_shape l : exists l', ofJson (JObj l) = SObj l'.
Proof. cbn. eexists. reflexivity. Qed.

Lemma falsy_body tbl k body payload : jsonDecode tbl k body = Ok payload -> isTrue payload = false -> Empty body.
Proof.
  assert (K : forall i p, decodeType tbl k (ofJson i) = Ok p -> isTrue p = false ->
    match i with JNull | JBool false => True | JStr t => t = EmptyString | JNum l => zeroMantissa l = true | _ => False end).
  { intros i p E T. destruct i as [ |b|l|t|l|l]; cbn [ofJson] in E.
    - exact I.
    - cbn in E. injection E as <-. destruct b; [discriminate|exact I].
    - cbn in E. injection E as <-. cbn in T. destruct (zeroMantissa l); [reflexivity|discriminate].
    - cbn in E. injection E as <-. cbn in T. destruct t; [reflexivity|discriminate].
    - rewrite (decode_true tbl k (SArr (map ofJson l)) (or_introl (ex_intro _ _ eq_refl)) p E) in T. discriminate.
    - rewrite (decode_true tbl k _ (or_intror (ofJson_obj_shape l)) p E) in T. discriminate. }
  intros E T. unfold jsonDecode in E. destruct body as [ |b|l|t|l|l]; try exact (K _ _ E T).
  - cbn. destruct (parseJ t) as [i|] eqn:P; [|discriminate]. exact (K i payload E T).
Qed.

(** C50. The implementation of a method is called only with arguments of the declared types, or with no arguments at
    all if the body is JSON that JavaScript takes for false. *)
Theorem C50_only_declared_arguments_partial : forall m body args, arguments m body = Val args ->
  Declared m args \/ m = "GetArticle" /\ args = SObj [] /\ Empty body.
Proof.
  intros m body args H. unfold arguments in H. destruct (assoc m methodTypes) as [[req resp]|] eqn:A.
  2: { destruct (existsb _ prototypeNames); discriminate. }
  destruct (jsonDecode nodeTable req body) as [payload| | |] eqn:E; try discriminate. unfold checkArgs in H.
  destruct (String.eqb_spec m "Ping") as [->|].
  { destruct (jsIn "counter" payload) as [[|]|] eqn:I; cbn [jbind] in H; try discriminate.
    - destruct (validateType (member "counter" payload) "bigint") as [[|]|] eqn:V; cbn [jbind] in H; try discriminate.
      apply validate_js in V; [|reflexivity]. destruct (in_has _ _ I) as (l & -> & L). injection H as <-.
      left. constructor. right. exists (member "counter" (SObj l)). split; [apply in_has, I|apply typeOf_bigint, V].
    - left. constructor. left. assert (args = payload) as ->; [|apply in_lacks, I]. unfold orEmpty in H. destruct payload; try discriminate; cbn in H; congruence. }
  destruct (String.eqb_spec m "GetUser") as [->|].
  { destruct (jsIn "userId" payload) as [[|]|] eqn:I; cbn [jbind negb] in H; try discriminate.
    destruct (validateType (member "userId" payload) "number") as [[|]|] eqn:V; cbn [jbind] in H; try discriminate.
    apply validate_js in V; [|reflexivity]. destruct (in_has _ _ I) as (l & -> & L). injection H as <-.
    left. econstructor; [apply in_has, I|apply typeOf_number, V]. }
  destruct (String.eqb_spec m "GetArticle") as [->|]; [|discriminate].
  unfold orEmpty in H. destruct (isTrue payload) eqn:T.
  - destruct (validateType payload "GetArticleRequest") as [[|]|] eqn:V; cbn [jbind] in H; try discriminate.
    injection H as <-. left. apply article_valid, V.
  - right. cbn [jbind] in H. injection H as <-. split; [reflexivity|]. split; [reflexivity|]. exact (falsy_body _ _ _ _ E T).
Qed.
Print Assumptions C50_only_declared_arguments_partial.

(** In that case the arguments are missing: the body null calls GetArticle with nothing. *)
Theorem C50_null_skips_validation_refuted : arguments "GetArticle" JNull = Val (SObj []) /\ ~ Declared "GetArticle" (SObj []).
Proof.
  split; [vm_compute; reflexivity|]. intros D. inversion D as [| |v a b (l & E & L)]; subst. injection E as <-. discriminate.
Qed.
Print Assumptions C50_null_skips_validation_refuted.

(** the request of the method *)
Definition requestType (m : string) : string := (m ++ "Request")%string.

Lemma settled_lookup k l x : lookup k l = Some x -> x <> SUndef -> NoDup (map fst l) -> lookup k (settledMembers l) = Some (settled x).
Proof.
  induction l as [|[k' y] r IH]; [discriminate|]. intros L U ND. cbn in L. inversion ND as [|? ? N1 N2]; subst. destruct (String.eqb k k') eqn:E.
  - injection L as ->. rewrite settled_cons by exact U. cbn. rewrite E. reflexivity.
  - assert (X : lookup k (settledMembers r) = Some (settled x)) by (apply IH; assumption).
    destruct y; cbn [settledMembers]; try exact X; cbn [lookup]; rewrite E; exact X.
Qed.
Lemma settled_names k l : In k (map fst (settledMembers l)) -> In k (map fst l).
Proof.
  induction l as [|[k' y] r IH]; [tauto|]. cbn [map fst]. destruct y; cbn [settledMembers map fst]; [intros H; right; auto|..]; (intros [->|H]; [now left|right; auto]).
Qed.
Lemma settled_absent k l : NoDup (map fst l) -> (forall x, lookup k l = Some x -> x = SUndef) -> lookup k (settledMembers l) = None.
Proof.
  induction l as [|[k' y] r IH]; [reflexivity|]. intros ND H. inversion ND as [|? ? N1 N2]; subst. cbn in H. destruct (String.eqb_spec k k') as [->|E].
  - specialize (H y eq_refl). subst y. cbn [settledMembers]. destruct (lookup k' (settledMembers r)) eqn:L; [|reflexivity].
    exfalso. apply N1, settled_names. apply lookup_In in L. now apply (in_map fst) in L.
  - specialize (IH N2 H). apply String.eqb_neq in E. destruct y; cbn [settledMembers]; try exact IH; cbn [lookup]; rewrite E; exact IH.
Qed.

(** C50. What the TypeScript client sends for arguments of the declared types reaches the implementation unchanged. *)
Theorem C50_declared_arguments_arrive : forall m l, Declared m (SObj l) -> NoDup (map fst l) ->
  TypedMembers (sc_types nodeSchema) (MembersOf nodeSchema false (requestType m)) l ->
  exists j, jsonEncode (SObj l) = Some j /\ arguments m j = Val (settled (SObj l)).
Proof.
  intros m l D ND T. destruct (C49_typescript_round_trip_partial nodeSchema false node_setting) as (tbl & E & H). rewrite node_table in E. injection E as <-.
  assert (K : Defined nodeSchema false (requestType m)) by (clear - D; destruct D; vm_compute; repeat (first [left; reflexivity|right])).
  destruct (H (requestType m) l K ND T) as (j & J1 & J2). exists j. split; [exact J1|]. unfold arguments.
  assert (A : exists resp, assoc m methodTypes = Some (requestType m, resp)) by (destruct D; eexists; vm_compute; reflexivity).
  destruct A as (resp & ->). rewrite J2. rewrite settled_obj. inversion D as [v Hc|v x (l0 & E0 & L) (n & ->)|v a b (l0 & E0 & La) (na & ->) (l1 & E1 & Lb) (zb & ->)]; subst.
  - unfold checkArgs. cbn [String.eqb Ascii.eqb Bool.eqb jsIn]. destruct Hc as [Hc|(x & (l0 & E0 & L) & z & ->)].
    + rewrite settled_absent; [reflexivity|exact ND|]. intros x L. apply Hc. exists l. auto.
    + injection E0 as <-. pose proof (settled_lookup _ _ _ L ltac:(discriminate) ND) as X. cbn [jbind]. rewrite X. cbn [jbind member]. unfold objGet. rewrite X. reflexivity.
  - injection E0 as <-. pose proof (settled_lookup _ _ _ L ltac:(discriminate) ND) as X. unfold checkArgs. cbn [String.eqb Ascii.eqb Bool.eqb jsIn]. cbn [jbind]. rewrite X.
    cbn [negb member]. unfold objGet. rewrite X. reflexivity.
  - injection E0 as <-. injection E1 as <-. pose proof (settled_lookup _ _ _ La ltac:(discriminate) ND) as Xa. pose proof (settled_lookup _ _ _ Lb ltac:(discriminate) ND) as Xb.
    assert (V : validateType (SObj (settledMembers l)) "GetArticleRequest" = Val true).
    { unfold validateType. cbn [validateFuel]. cbn -[validateFuel settledMembers lookup sdepth].
      rewrite Xa, Xb. cbn [jbind]. unfold objGet. rewrite Xa, Xb. 
      assert (0 < sdepth (SObj (settledMembers l))) by (pose proof (sdepth_member _ _ _ (lookup_In _ _ _ Xa)); lia).
      destruct (sdepth (SObj (settledMembers l))); [lia|]. reflexivity. }
    unfold checkArgs. cbn [String.eqb Ascii.eqb Bool.eqb]. cbn [isTrue truthy]. rewrite V. reflexivity.
Qed.
Print Assumptions C50_declared_arguments_arrive.
(** ** what is answered *)

(** the error that an exception is reported as, with its status: a WebrpcError as it is, anything else as an endpoint error *)
Inductive Reported : thrown -> Z -> thrown -> Prop :=
| R_own n c m s k : s <> 0%Z -> Reported (ThrowRpc n c m s k) s (ThrowRpc n c m s k)
| R_none n c m k : Reported (ThrowRpc n c m 0 k) 400 (ThrowRpc n c m 0 k)
| R_other : Reported ThrowOther 400 (ThrowRpc "WebrpcEndpointError" 0 "" 400 None).
Lemma reported t s b : Reported t s b -> settle (Throw t) = (s, ErrorBody b).
Proof.
  intros [n c m s' k H|n c m k|]; [|reflexivity|reflexivity]. cbn [settle]. apply Z.eqb_neq in H. rewrite H. reflexivity.
Qed.

(** C50. Arguments sent by the TypeScript client: the answer is 200 with the result of the call ({} without one), or the error that
    the implementation throws. What is missing: the code has no function encodeType (here the parameter [encode]) and its paths are never
    recognised; see the refutations. *)
Theorem C50_results_and_errors_are_answered_partial : forall encode impl m l, Declared m (SObj l) -> NoDup (map fst l) ->
  TypedMembers (sc_types nodeSchema) (MembersOf nodeSchema false (requestType m)) l ->
  exists j, jsonEncode (SObj l) = Some j /\
    (forall r v, impl m (settled (SObj l)) = Val r -> encode (m ++ "Response")%string r = Val v ->
       (v <> SNull -> v <> SUndef -> settle (dispatchWith encode impl m j) = (200%Z, Data v)) /\
       (v = SNull \/ v = SUndef -> settle (dispatchWith encode impl m j) = (200%Z, Data (SObj [])))) /\
    (forall t s b, impl m (settled (SObj l)) = Throw t -> Reported t s b -> settle (dispatchWith encode impl m j) = (s, ErrorBody b)) /\
    (forall r t s b, impl m (settled (SObj l)) = Val r -> encode (m ++ "Response")%string r = Throw t -> Reported t s b ->
       settle (dispatchWith encode impl m j) = (s, ErrorBody b)).
Proof.
  intros encode impl m l D ND T. destruct (C50_declared_arguments_arrive m l D ND T) as (j & J & A). exists j. split; [exact J|].
  assert (M : exists req, assoc m methodTypes = Some (req, (m ++ "Response")%string)) by (destruct D; eexists; vm_compute; reflexivity).
  destruct M as (req & M). unfold dispatchWith. rewrite A. cbn [jbind]. rewrite M. repeat split.
  - intros N1 N2. rewrite H. cbn [jbind]. rewrite H0. cbn [settle]. destruct v; try reflexivity; contradiction.
  - intros N. rewrite H. cbn [jbind]. rewrite H0. destruct N as [->| ->]; reflexivity.
  - intros t s b H R. rewrite H. cbn [jbind]. apply reported, R.
  - intros r t s b H E R. rewrite H. cbn [jbind]. rewrite E. apply reported, R.
Qed.
Print Assumptions C50_results_and_errors_are_answered_partial.

(** objects that are not the arguments of a method, and the error *)
Definition BadRequest (cause : string) : thrown := ThrowRpc "WebrpcBadRequest" (-4) "bad request" 400 (Some cause).
Definition NumText (o : option json) : Prop := exists s, o = Some (JStr s) /\ exists z, jsBigInt s = Some z.
Definition NoText (o : option json) : Prop := forall s, o <> Some (JStr s).
Definition NoNumber (o : option json) : Prop := forall s, o <> Some (JNum s).
Inductive Wrong (l : list (string * json)) : string -> thrown -> Prop :=
| W_noUser : lookup "userId" l = None -> Wrong l "GetUser" (BadRequest "missing argument `userId`")
| W_user x : lookup "userId" l = Some x -> NoNumber (Some x) -> Wrong l "GetUser" (BadRequest "invalid argument: userId")
| W_counter x : lookup "counter" l = Some x -> NoText (Some x) -> Wrong l "Ping" (BadRequest "invalid argument: counter")
| W_counterText s : lookup "counter" l = Some (JStr s) -> jsBigInt s = None -> Wrong l "Ping" (ThrowRpc "WebrpcBadResponse" (-5) "bad response" 500 (Some ""))
| W_article : NoNumber (lookup "articleId" l) -> NoText (lookup "byBN" l) \/ NumText (lookup "byBN" l) ->
    Wrong l "GetArticle" (BadRequest "invalid argument: getArticleRequest")
| W_articleBN : NoText (lookup "byBN" l) -> Wrong l "GetArticle" (BadRequest "invalid argument: getArticleRequest")
| W_articleText s : lookup "byBN" l = Some (JStr s) -> jsBigInt s = None ->
    Wrong l "GetArticle" (ThrowRpc "WebrpcBadResponse" (-5) "bad response" 500 (Some "")).

Lemma lookup_members k l : lookup k (map ofMember l) = option_map ofJson (lookup k l).
Proof. induction l as [|[k' v] l IH]; [reflexivity|]. cbn. destruct (String.eqb k k'); [reflexivity|exact IH]. Qed.
Lemma not_text x : NoText (Some x) -> forall s, ofJson x <> SStr s.
Proof. intros N s. destruct x; cbn; try discriminate. destruct (N s0 eq_refl). Qed.
Lemma no_bigs x z : ofJson x <> SBig z.
Proof. destruct x; cbn; discriminate. Qed.
Lemma no_big_type x : String.eqb (typeOf (ofJson x)) "bigint" = false.
Proof. destruct x; reflexivity. Qed.
Lemma no_number_type x : NoNumber (Some x) -> String.eqb (typeOf (ofJson x)) "number" = false.
Proof. intros N. destruct x; try reflexivity. destruct (N lit eq_refl). Qed.

Lemma decoded l req field : assoc req nodeTable = Some [EName field] -> has_suffix "[]" field = false -> NoDup (map fst l) ->
  jsonDecode nodeTable req (JObj l) =
  match lookup field l with
  | Some (JStr s) => match jsBigInt s with Some z => Ok (SObj (objSet field (SBig z) (map ofMember l))) | None => badBig end
  | _ => Ok (SObj (map ofMember l))
  end.
Proof.
  intros A S ND. unfold jsonDecode, decodeType. rewrite ofJson_obj by exact ND. cbn [decodeFuel]. rewrite A.
  cbn [Base.foldM]. unfold decodeEntry. rewrite S. unfold objGet. rewrite lookup_members.
  destruct (lookup field l) as [x|]; cbn [option_map]; [|reflexivity]. destruct x; try reflexivity.
  cbn [ofJson toBig]. destruct (jsBigInt s) as [z|]; reflexivity.
Qed.
Lemma lookup_set_other k f x l : k <> f -> lookup k (objSet f x l) = lookup k l.
Proof.
  intros N. induction l as [|[k' y] l IH]; cbn [objSet lookup].
  - apply String.eqb_neq in N. rewrite N. reflexivity.
  - destruct (String.eqb_spec f k') as [->|E]; cbn [lookup]; [apply String.eqb_neq in N; rewrite N; reflexivity|]. destruct (String.eqb k k'); [reflexivity|exact IH].
Qed.
Lemma article_refused ms : (forall x, lookup "articleId" ms = Some x -> String.eqb (typeOf x) "number" = false) \/
  (forall x, lookup "byBN" ms = Some x -> String.eqb (typeOf x) "bigint" = false) ->
  checkArgs "GetArticle" (SObj ms) = Throw (BadRequest "invalid argument: getArticleRequest").
Proof.
  intros H. unfold checkArgs. cbn [String.eqb Ascii.eqb Bool.eqb isTrue truthy]. unfold validateType. cbn [validateFuel]. cbn -[validateFuel lookup sdepth].
  assert (D : forall k x, lookup k ms = Some x -> exists n, sdepth (SObj ms) = S n).
  { intros k x L. pose proof (sdepth_member k x ms (lookup_In _ _ _ L)). destruct (sdepth (SObj ms)); [lia|eauto]. }
  destruct (lookup "articleId" ms) as [a|] eqn:A; [|reflexivity]. cbn [jbind]. unfold objGet. rewrite A.
  destruct (D _ _ A) as (n & ->). cbn -[lookup typeOf]. destruct (String.eqb (typeOf a) "number") eqn:TA; [|reflexivity]. cbn [jbind].
  destruct (lookup "byBN" ms) as [b|] eqn:B; [|reflexivity]. cbn [jbind]. 
  destruct (String.eqb (typeOf b) "bigint") eqn:TB; [|reflexivity]. exfalso.
  destruct H as [H|H]; [rewrite (H a eq_refl) in TA; discriminate|rewrite (H b eq_refl) in TB; discriminate].
Qed.

(** C50. Other objects are refused: the implementation is not called, and the answer is the error, a bad request (400) if an argument is
    missing or of another type, a bad response (500) if the text of a bigint is not a number. *)
Theorem C50_wrong_arguments_are_refused : forall encode impl m l t, NoDup (map fst l) -> Wrong l m t ->
  arguments m (JObj l) = Throw t /\ settle (dispatchWith encode impl m (JObj l)) = (match t with ThrowRpc _ _ _ s _ => s | ThrowOther => 400%Z end, ErrorBody t).
Proof.
  intros encode impl m l t ND W. assert (A : arguments m (JObj l) = Throw t).
  2: { split; [exact A|]. unfold dispatchWith. rewrite A. destruct W; reflexivity. }
  destruct W as [L|x L N|x L N|s L N|N B|N|s L N]; unfold arguments.
  - change (assoc "GetUser" methodTypes) with (Some ("GetUserRequest", "GetUserResponse"))%string. cbv match.
    unfold jsonDecode, decodeType. rewrite ofJson_obj by exact ND. cbn [decodeFuel]. change (assoc "GetUserRequest" nodeTable) with (@None (list entry)). cbv match.
    unfold checkArgs. cbn [String.eqb Ascii.eqb Bool.eqb jsIn]. rewrite lookup_members, L. reflexivity.
  - change (assoc "GetUser" methodTypes) with (Some ("GetUserRequest", "GetUserResponse"))%string. cbv match.
    unfold jsonDecode, decodeType. rewrite ofJson_obj by exact ND. cbn [decodeFuel]. change (assoc "GetUserRequest" nodeTable) with (@None (list entry)). cbv match.
    unfold checkArgs. cbn [String.eqb Ascii.eqb Bool.eqb jsIn]. rewrite lookup_members, L. cbn [option_map jbind negb member]. unfold objGet. rewrite lookup_members, L. cbn [option_map].
    unfold validateType. cbn [validateFuel]. change (existsb (String.eqb "number") jsTypes) with true. cbv match. rewrite (no_number_type x N). reflexivity.
  - change (assoc "Ping" methodTypes) with (Some ("PingRequest", "PingResponse"))%string. cbv match.
    rewrite (decoded l "PingRequest" "counter" eq_refl eq_refl ND), L.
    assert (E : match x with JStr s => match jsBigInt s with Some z => Ok (SObj (objSet "counter" (SBig z) (map ofMember l))) | None => badBig end | _ => Ok (SObj (map ofMember l)) end = Ok (SObj (map ofMember l)))
      by (destruct x; try reflexivity; destruct (N s eq_refl)). rewrite E.
    unfold checkArgs. cbn [String.eqb Ascii.eqb Bool.eqb jsIn]. rewrite lookup_members, L. cbn [option_map jbind member]. unfold objGet. rewrite lookup_members, L. cbn [option_map].
    unfold validateType. cbn [validateFuel]. change (existsb (String.eqb "bigint") jsTypes) with true. cbv match. rewrite (no_big_type x). reflexivity.
  - change (assoc "Ping" methodTypes) with (Some ("PingRequest", "PingResponse"))%string. cbv match.
    rewrite (decoded l "PingRequest" "counter" eq_refl eq_refl ND), L, N. reflexivity.
  - change (assoc "GetArticle" methodTypes) with (Some ("GetArticleRequest", "GetArticleResponse"))%string. cbv match.
    rewrite (decoded l "GetArticleRequest" "byBN" eq_refl eq_refl ND).
    assert (X : forall x, lookup "articleId" (map ofMember l) = Some x -> String.eqb (typeOf x) "number" = false).
    { intros x. rewrite lookup_members. destruct (lookup "articleId" l) as [y|]; [|discriminate]. intros [= <-]. apply no_number_type, N. }
    destruct B as [B|(s & -> & z & ->)].
    + destruct (lookup "byBN" l) as [x|]; [|apply article_refused; left; exact X]. destruct x; try (apply article_refused; left; exact X). destruct (B s eq_refl).
    + apply article_refused. left. intros x. rewrite lookup_set_other by discriminate. apply X.
  - change (assoc "GetArticle" methodTypes) with (Some ("GetArticleRequest", "GetArticleResponse"))%string. cbv match.
    rewrite (decoded l "GetArticleRequest" "byBN" eq_refl eq_refl ND).
    assert (X : forall x, lookup "byBN" (map ofMember l) = Some x -> String.eqb (typeOf x) "bigint" = false).
    { intros x. rewrite lookup_members. destruct (lookup "byBN" l) as [y|]; [|discriminate]. intros [= <-]. apply no_big_type. }
    destruct (lookup "byBN" l) as [x|]; [|apply article_refused; right; exact X]. destruct x; try (apply article_refused; right; exact X). destruct (N s eq_refl).
  - change (assoc "GetArticle" methodTypes) with (Some ("GetArticleRequest", "GetArticleResponse"))%string. cbv match.
    rewrite (decoded l "GetArticleRequest" "byBN" eq_refl eq_refl ND), L, N. reflexivity.
Qed.
Print Assumptions C50_wrong_arguments_are_refused.
Example C50_wrong_example :
  Wrong [] "GetUser" (BadRequest "missing argument `userId`") /\ Wrong [("counter", JNum "3")] "Ping" (BadRequest "invalid argument: counter") /\
  Wrong [("articleId", JNum "1"); ("byBN", JStr "x")] "GetArticle" (ThrowRpc "WebrpcBadResponse" (-5) "bad response" 500 (Some "")) /\
  settle (dispatchWith (fun _ v => Val v) (fun _ v => Val v) "Ping" (JObj [("counter", JStr "7")])) = (200%Z, Data (SObj [("counter", SBig 7)])).
Proof.
  split; [constructor; reflexivity|]. split; [apply (W_counter _ (JNum "3")); [reflexivity|discriminate]|].
  split; [apply (W_articleText _ "x"); reflexivity|reflexivity].
Qed.

(** C50. A method that is not declared is refused with the error for bad routes, unless it is named like a member
    that every JavaScript object has. *)
Theorem C50_other_methods_are_refused : forall m body, ~ In m ["Ping"; "GetUser"; "GetArticle"] -> ~ In m prototypeNames ->
  arguments m body = Throw badRoute /\ settle (Throw badRoute) = (404%Z, ErrorBody badRoute).
Proof.
  intros m body N P. split; [|reflexivity]. unfold arguments. assert (A : assoc m methodTypes = None).
  { unfold methodTypes. cbn [assoc]. cbn [In] in N. repeat (match goal with |- context [String.eqb m ?x] => destruct (String.eqb_spec m x); [exfalso; subst; tauto|] end). reflexivity. }
  rewrite A. destruct (existsb (String.eqb m) prototypeNames) eqn:X; [|reflexivity]. exfalso. apply P.
  apply existsb_exists in X. destruct X as (y & Hy & E). apply String.eqb_eq in E. now subst.
Qed.
Print Assumptions C50_other_methods_are_refused.

(** Those give another error, with status 400. *)
Theorem C50_prototype_names_refuted : forall m body, In m prototypeNames -> arguments m body = Throw ThrowOther.
Proof. intros m body H. cbn in H. repeat (destruct H as [<-|H]; [reflexivity|]). contradiction. Qed.
Print Assumptions C50_prototype_names_refuted.

(** ** where it fails *)

Lemma first_part p s : has_prefix ("/" ++ p ++ "/") s = true -> contains_byte "/"%char p = false -> p <> EmptyString ->
  exists r, pathParts s = p :: r.
Proof.
  intros H N NE. apply has_prefix_iff in H. destruct H as (t & ->). unfold pathParts.
  assert (E : split_byte "/"%char (("/" ++ p ++ "/") ++ t) = EmptyString :: p :: split_byte "/"%char t).
  { cbn [append split_byte Ascii.eqb Bool.eqb]. f_equal. rewrite sapp_assoc. exact (split_byte_app "/"%char p t N). }
  rewrite E. cbn [filter isEmptyStr negb]. destruct p; [congruence|]. cbn [isEmptyStr negb]. eexists. reflexivity.
Qed.

(** No path names a method: a path has to begin with /v1/ and, at the same time, with rpc. *)
Theorem C50_no_path_is_served_refuted : forall impl url body, serveExampleRpc impl url body = None.
Proof.
  intros impl url body. unfold serveExampleRpc, route. destruct (has_prefix "/v1/" url) eqn:P; [|reflexivity]. cbn [negb].
  destruct (first_part "v1" url P eq_refl ltac:(discriminate)) as (r & ->). destruct r as [|b [|m [|x r]]]; reflexivity.
Qed.
Print Assumptions C50_no_path_is_served_refuted.

(** So the handler never answers a request, except one whose body is not JSON. *)
Theorem C50_requests_are_not_answered_refuted : forall impl verb url raw,
  handle impl verb url raw = None \/ verb = "POST" /\ raw <> EmptyString /\ parseJ raw = None /\ exists b, handle impl verb url raw = Some (400%Z, b).
Proof.
  intros impl verb url raw. unfold handle. destruct (has_prefix "/rpc/" url); [|now left]. cbn [negb].
  destruct (String.eqb_spec verb "POST") as [->|]; [|left; apply C50_no_path_is_served_refuted].
  destruct (isEmptyStr raw) eqn:Z; [left; apply C50_no_path_is_served_refuted|].
  destruct (parseJ raw) as [j|] eqn:P; [left; apply C50_no_path_is_served_refuted|right].
  split; [reflexivity|]. split; [intros ->; discriminate|]. split; [reflexivity|]. eauto.
Qed.
Print Assumptions C50_requests_are_not_answered_refuted.

(** And if a path were recognised no method would return its results: they are passed to a function that does not
    exist, so the status is never 200 unless the implementation throws an error with that status. *)
Theorem C50_results_are_never_returned_refuted : forall impl m body, exists t, dispatch impl m body = Throw t.
Proof.
  intros impl m body. unfold dispatch, dispatchWith. destruct (arguments m body) as [args|t] eqn:A; [|eexists; reflexivity]. cbn [jbind].
  destruct (impl m args) as [r|t]; [|eexists; reflexivity]. cbn [jbind]. unfold arguments in A.
  destruct (assoc m methodTypes) as [[a b]|]; [eexists; reflexivity|]. destruct (existsb _ prototypeNames); discriminate.
Qed.
Print Assumptions C50_results_are_never_returned_refuted.

(** The validators of structs with a list or an enum reject every value, also those of the type. *)
Theorem C50_validators_reject_everything_refuted :
  (forall v, validateType v "Extra" <> Val true) /\ (forall v, validateType v "User" <> Val true) /\
  (forall s, validateType (SStr s) "Kind" = Throw ThrowOther).
Proof.
  assert (X : forall n v, validateFuel n v "Extra" <> Val true).
  { intros [|n] v; [discriminate|]. cbn [validateFuel]. cbn -[validateFuel jsIn member condition jbind conditions].
    cbn [conditions condition]. destruct (jsIn "info" v) as [[|]|]; cbn [jbind]; try discriminate.
    destruct (validateFuel n (member "info" v) "string") as [[|]|]; cbn [jbind]; try discriminate.
    destruct (jsIn "amount" v) as [[|]|]; cbn [jbind]; try discriminate.
    destruct (validateFuel n (member "amount" v) "bigint") as [[|]|]; cbn [jbind]; try discriminate.
    destruct (jsIn "points" v) as [[|]|]; cbn [jbind]; try discriminate. destruct n; discriminate. }
  split; [intros v; apply X|]. split; [|intros s; reflexivity].
  intros v H. unfold validateType in H. cbn [validateFuel] in H. change (existsb (String.eqb "User") jsTypes) with false in H.
  change (assoc "User" validators) with (Some [("id", false, "number"); ("USERNAME", false, "string"); ("role", false, "Kind"); ("meta", false, "object"); ("-", false, "number");
             ("balance", false, "bigint"); ("createdAt", true, "string"); ("extra", false, "Extra")]) in H. cbv match in H.
  assert (L : forall cs c, In c cs -> conditions (validateFuel (sdepth v)) v cs = Val true -> condition (validateFuel (sdepth v)) v c = Val true).
  { induction cs as [|c0 cs IH]; [intros ? []|]. intros c Hc E. cbn [conditions] in E.
    destruct (condition (validateFuel (sdepth v)) v c0) as [[|]|] eqn:C; cbn [jbind] in E; try discriminate.
    destruct Hc as [->|Hc]; [exact C|exact (IH c Hc E)]. }
  pose proof (fun I => L _ ("extra", false, "Extra") I H) as L2. specialize (L2 ltac:(cbn; tauto)). clear L. rename L2 into L. unfold condition in L.
  destruct (jsIn "extra" v) as [[|]|]; cbn [jbind] in L; try discriminate. exact (X _ _ L).
Qed.
Print Assumptions C50_validators_reject_everything_refuted.

(** The errors of this server reach a Go client without name and message: their members are named otherwise. *)
Theorem C50_errors_lose_their_name_refuted :
  exists e, unmarshalError (printJ (errorJson badRoute)) = Some e /\ re_name e = "" /\ re_message e = "" /\ re_code e = (-2)%Z /\ re_causeText e = "method not found" /\ re_status e = 404%Z.
Proof. exists (RpcError "" (-2) "" "method not found" 404 None). split; [vm_compute; reflexivity|]. repeat split. Qed.
Print Assumptions C50_errors_lose_their_name_refuted.

(** The committed TypeScript client (client.gen.ts 104) asks for other paths than the committed Go server
    (server-go/example.gen.go 181) serves. *)
Theorem C50_client_paths_refuted : forall s m, sv_prefix s = "/rpc/Example/" -> Rpc.dispatch s ("/v1/Example/" ++ m) = None.
Proof.
  intros s m P. unfold Rpc.dispatch, routeOf. rewrite P. induction (sv_methods s) as [|x r IH]; [reflexivity|exact IH].
Qed.
Print Assumptions C50_client_paths_refuted.

(** Non-vacuity. *)
Example C50_example :
  Declared "GetArticle" (SObj [("articleId", SNum "3"); ("byBN", SBig (-7)); ("note", SUndef)]) /\
  arguments "GetArticle" (JObj [("articleId", JNum "3"); ("byBN", JStr "-7")]) = Val (SObj [("articleId", SNum "3"); ("byBN", SBig (-7))]) /\
  arguments "GetUser" (JObj [("userId", JStr "3")]) = Throw (badRequest "invalid argument: userId") /\
  arguments "Ping" (JObj []) = Val (SObj []) /\ arguments "Nothing" (JObj []) = Throw badRoute.
Proof.
  split; [|vm_compute; auto]. eapply D_getArticle with (a := SNum "3") (b := SBig (-7)); try (eexists; split; reflexivity); eexists; reflexivity.
Qed.
