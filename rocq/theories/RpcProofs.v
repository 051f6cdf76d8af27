From Verif Require Import Base BaseProofs Utf8 Utf8Proofs Json JsonProofs GoVal GoValSpec GoValProofs Rpc RpcSpec.

(** ** Errors on the wire *)

Definition sanError (e : rpcError) : rpcError :=
  RpcError (san (re_name e)) (re_code e) (san (re_message e)) (san (re_causeText e)) (re_status e) None.

Definition errorMembers (e : rpcError) : list (string * json) :=
  ("error", JStr (re_name e)) :: ("code", JNum (zdec (re_code e))) :: ("msg", JStr (re_message e)) ::
  (if isEmptyStr (re_causeText e) then [] else [("cause", JStr (re_causeText e))]) ++
  [("status", JNum (zdec (re_status e)))].

Lemma errorMembers_eq env e : toFields env errorFields (errorVals e) = Some (errorMembers e).
Proof.
  unfold errorFields, errorVals, errorMembers, intTy. cbn -[zdec].
  destruct (isEmptyStr (re_causeText e)); reflexivity.
Qed.

Lemma marshalError_eq e : marshalError e = printJ (JObj (errorMembers e)).
Proof. unfold marshalError, marshalStruct. rewrite errorMembers_eq. reflexivity. Qed.

Lemma san_empty : san EmptyString = EmptyString.
Proof. reflexivity. Qed.

Lemma errorMembers_depth e : (N.of_nat (jdepth (JObj (errorMembers e))) <= maxNestingDepth)%N.
Proof.
  unfold errorMembers. destruct (isEmptyStr (re_causeText e)); apply N.leb_le; reflexivity.
Qed.

Lemma errorMembers_nums e : JNums (JObj (errorMembers e)).
Proof.
  constructor. unfold errorMembers. intros k x H.
  repeat (destruct H as [H|H]; [injection H as <- <-; try constructor; apply NumLit_zdec|]).
  apply in_app_iff in H. destruct H as [H|[H|[]]].
  - destruct (isEmptyStr (re_causeText e)); [destruct H|destruct H as [H|[]]; injection H as <- <-; constructor].
  - injection H as <- <-. constructor. apply NumLit_zdec.
Qed.

Lemma from_errorMembers env n c m t st : Int64 c -> Int64 st ->
  fromFields env errorFields (map (fun f => zeroVal (gf_ty f)) errorFields)
    [("error", JStr n); ("code", JNum (zdec c)); ("msg", JStr m); ("cause", JStr t); ("status", JNum (zdec st))]
  = Some [VStr n; VInt c; VStr m; VStr t; VInt st] /\
  fromFields env errorFields (map (fun f => zeroVal (gf_ty f)) errorFields)
    [("error", JStr n); ("code", JNum (zdec c)); ("msg", JStr m); ("status", JNum (zdec st))]
  = Some [VStr n; VInt c; VStr m; VStr EmptyString; VInt st].
Proof.
  intros C S. pose proof (parseInt_zdec _ _ _ C) as PC. pose proof (parseInt_zdec _ _ _ S) as PS.
  change (- 2 ^ 63)%Z with (-9223372036854775808)%Z in PC, PS. change (2 ^ 63 - 1)%Z with 9223372036854775807%Z in PC, PS.
  split; cbn -[zdec parseInt]; rewrite PC; cbn -[zdec parseInt]; rewrite PS; reflexivity.
Qed.

Lemma san_errorMembers e : sanJ (JObj (errorMembers e)) =
  JObj (("error", JStr (san (re_name e))) :: ("code", JNum (zdec (re_code e))) :: ("msg", JStr (san (re_message e))) ::
  (if isEmptyStr (re_causeText e) then [] else [("cause", JStr (san (re_causeText e)))]) ++
  [("status", JNum (zdec (re_status e)))]).
Proof. unfold errorMembers. destruct (isEmptyStr (re_causeText e)); reflexivity. Qed.

Theorem unmarshal_marshalError e : Int64 (re_code e) -> Int64 (re_status e) ->
  unmarshalError (marshalError e) = Some (sanError e).
Proof.
  intros C S. rewrite marshalError_eq. unfold unmarshalError, unmarshalStruct.
  rewrite (proj1 (parse_print_san _ (errorMembers_nums e) (errorMembers_depth e))), san_errorMembers.
  unfold sanError.
  destruct (re_causeText e) as [|c t] eqn:E; cbn [isEmptyStr app].
  - rewrite (proj2 (from_errorMembers _ _ _ _ EmptyString _ C S)). reflexivity.
  - rewrite (proj1 (from_errorMembers _ _ _ _ _ _ C S)). reflexivity.
Qed.

(** ** The content type *)

Lemma revStr_app s : forall acc, revStr s acc = (revStr s EmptyString ++ acc)%string.
Proof.
  induction s as [|c s IH]; intros acc; [reflexivity|]. cbn [revStr].
  rewrite IH, (IH (String c EmptyString)), sapp_assoc. reflexivity.
Qed.

Definition rev' (s : string) := revStr s EmptyString.

Lemma rev_cons c s : rev' (String c s) = (rev' s ++ String c EmptyString)%string.
Proof. unfold rev'. cbn [revStr]. apply revStr_app. Qed.

Lemma rev_app a b : rev' (a ++ b) = (rev' b ++ rev' a)%string.
Proof.
  induction a as [|c a IH]; cbn [append]; [rewrite sapp_nil_r; reflexivity|].
  rewrite !rev_cons, IH, sapp_assoc. reflexivity.
Qed.

Lemma rev_rev s : rev' (rev' s) = s.
Proof. induction s as [|c s IH]; [reflexivity|]. rewrite rev_cons, rev_app, IH. reflexivity. Qed.

Lemma blanks_rev s : sforall isSpaceByte (rev' s) = sforall isSpaceByte s.
Proof.
  induction s as [|c s IH]; [reflexivity|]. rewrite rev_cons, sforall_app, IH. cbn [sforall].
  destruct (isSpaceByte c), (sforall isSpaceByte s); reflexivity.
Qed.

Lemma trimLeft_split s : exists a, s = (a ++ trimLeft s)%string /\ Blanks a.
Proof.
  induction s as [|c s (a & E & B)]; [exists EmptyString; split; reflexivity|]. cbn [trimLeft].
  destruct (isSpaceByte c) eqn:S.
  - exists (String c a). cbn [append]. rewrite <- E. split; [reflexivity|].
    unfold Blanks. cbn [sforall]. rewrite S. exact B.
  - exists EmptyString. split; reflexivity.
Qed.

Lemma trimSpace_split s : exists a b, s = (a ++ trimSpace s ++ b)%string /\ Blanks a /\ Blanks b.
Proof.
  destruct (trimLeft_split s) as (a & E & A). destruct (trimLeft_split (rev' (trimLeft s))) as (b & F & B).
  exists a, (rev' b). split; [|split; [exact A|unfold Blanks; rewrite blanks_rev; exact B]].
  unfold trimSpace. fold (rev' (trimLeft s)). fold (rev' (trimLeft (rev' (trimLeft s)))).
  rewrite <- rev_app, <- F, rev_rev. exact E.
Qed.

Lemma trimLeft_blanks a s : Blanks a -> trimLeft (a ++ s) = trimLeft s.
Proof.
  induction a as [|c a IH]; cbn [append]; [reflexivity|]. unfold Blanks. cbn [sforall trimLeft].
  intros H. apply andb_true_iff in H. destruct H as [-> H]. apply IH, H.
Qed.

Lemma trimSpace_json a b : Blanks a -> Blanks b -> trimSpace (a ++ "application/json" ++ b) = "application/json".
Proof.
  intros A B. unfold trimSpace. rewrite trimLeft_blanks by exact A.
  change (trimLeft ("application/json" ++ b)) with ("application/json" ++ b)%string.
  fold (rev' ("application/json" ++ b)). rewrite rev_app, trimLeft_blanks by (unfold Blanks; rewrite blanks_rev; exact B).
  reflexivity.
Qed.

Lemma lower_space c : isSpaceByte (lower_byte c) = isSpaceByte c.
Proof. destruct c as [[] [] [] [] [] [] [] []]; reflexivity. Qed.

Lemma lower_semi c : (N_of_byte (lower_byte c) =? 59)%N = (N_of_byte c =? 59)%N.
Proof. destruct c as [[] [] [] [] [] [] [] []]; reflexivity. Qed.

Lemma lower_blanks a : sforall isSpaceByte (to_lower a) = sforall isSpaceByte a.
Proof. induction a as [|c a IH]; [reflexivity|]. cbn. rewrite lower_space. unfold to_lower in IH. rewrite IH. reflexivity. Qed.

Lemma to_lower_split a : forall x y, to_lower a = (x ++ y)%string ->
  exists x' y', a = (x' ++ y')%string /\ to_lower x' = x /\ to_lower y' = y.
Proof.
  induction a as [|c a IH]; intros [|d x] y H; cbn in H.
  - exists EmptyString, EmptyString. subst y. repeat split.
  - discriminate.
  - subst y. exists EmptyString, (String c a). repeat split.
  - injection H as <- H. destruct (IH x y H) as (x' & y' & -> & <- & <-).
    exists (String c x'), y'. repeat split.
Qed.

Definition noSemi (s : string) : bool := sforall (fun c => negb (N_of_byte c =? 59)%N) s.

Lemma beforeSemicolon_split s : exists rest, s = (beforeSemicolon s ++ rest)%string /\
  noSemi (beforeSemicolon s) = true /\ (rest = EmptyString \/ exists x, rest = String ";" x).
Proof.
  induction s as [|c s (r & E & N & R)]; [exists EmptyString; repeat split; left; reflexivity|].
  cbn [beforeSemicolon]. destruct (N_of_byte c =? 59)%N eqn:C.
  - exists (String c s). split; [reflexivity|]. split; [reflexivity|]. right. exists s.
    apply N.eqb_eq in C. rewrite <- (byte_of_N_of_byte c), C. reflexivity.
  - exists r. cbn [append]. rewrite <- E. split; [reflexivity|].
    split; [unfold noSemi in *; cbn [sforall]; rewrite C; exact N|exact R].
Qed.

Lemma beforeSemicolon_app a rest : noSemi a = true ->
  (rest = EmptyString \/ exists x, rest = String ";" x) -> beforeSemicolon (a ++ rest) = a.
Proof.
  induction a as [|c a IH]; cbn [append]; intros N R.
  - destruct R as [->|(x & ->)]; reflexivity.
  - unfold noSemi in N. cbn [sforall] in N. apply andb_true_iff in N. destruct N as [C N].
    apply negb_true_iff in C. cbn [beforeSemicolon]. rewrite C, IH by assumption. reflexivity.
Qed.

Lemma noSemi_lower a : noSemi (to_lower a) = noSemi a.
Proof.
  induction a as [|c a IH]; [reflexivity|]. unfold noSemi in *. cbn. rewrite lower_semi. unfold to_lower in IH.
  rewrite IH. reflexivity.
Qed.

Lemma noSemi_blanks a : Blanks a -> noSemi a = true.
Proof.
  unfold Blanks, noSemi. induction a as [|c a IH]; [reflexivity|]. cbn [sforall]. intros H.
  apply andb_true_iff in H. destruct H as [S H]. rewrite IH by exact H.
  destruct c as [[] [] [] [] [] [] [] []]; try discriminate S; reflexivity.
Qed.

Theorem content_type_iff ct : mediaType ct = "application/json" <-> JsonContentType ct.
Proof.
  unfold mediaType, JsonContentType. split.
  - intros H. destruct (beforeSemicolon_split ct) as (rest & E & _ & R).
    destruct (trimSpace_split (to_lower (beforeSemicolon ct))) as (a & b & L & A & B). rewrite H in L.
    apply to_lower_split in L. destruct L as (a' & y & L & <- & Y).
    apply to_lower_split in Y. destruct Y as (core & b' & -> & C & <-).
    exists a', core, b', rest. rewrite E at 1. rewrite L, !sapp_assoc.
    unfold Blanks in *. rewrite lower_blanks in A, B. auto.
  - intros (a & core & b & rest & -> & A & B & C & R).
    replace (a ++ core ++ b ++ rest)%string with ((a ++ core ++ b) ++ rest)%string by (rewrite !sapp_assoc; reflexivity).
    rewrite beforeSemicolon_app; [|unfold noSemi; rewrite !sforall_app; fold (noSemi a); fold (noSemi core); fold (noSemi b);
      rewrite (noSemi_blanks a A), (noSemi_blanks b B); rewrite <- (noSemi_lower core), C; reflexivity|exact R].
    rewrite !to_lower_app, C. apply trimSpace_json; unfold Blanks in *; rewrite lower_blanks; assumption.
Qed.

(** ** Routing *)

Theorem dispatch_iff s path m : NoDup (map rm_name (sv_methods s)) ->
  dispatch s path = Some m <-> In m (sv_methods s) /\ path = (sv_prefix s ++ rm_name m)%string.
Proof.
  unfold dispatch, routeOf. generalize (sv_methods s) as ms. induction ms as [|x ms IH]; intros ND; [split; [discriminate|intros [[] _]]|].
  cbn [find]. inversion ND; subst. destruct (String.eqb_spec path (sv_prefix s ++ rm_name x)%string) as [E|E].
  - split.
    + intros [= <-]. split; [left; reflexivity|exact E].
    + intros [[->|I] P]; [reflexivity|]. exfalso. rewrite P in E. apply sapp_inv_head in E.
      match goal with H : ~ In _ _ |- _ => apply H end. rewrite <- E. apply in_map. exact I.
  - rewrite IH by assumption. split; [intros [I P]; split; [right; exact I|exact P]|].
    intros [[->|I] P]; [congruence|auto].
Qed.

Theorem dispatch_none s path :
  dispatch s path = None <-> forall m, In m (sv_methods s) -> path <> (sv_prefix s ++ rm_name m)%string.
Proof.
  unfold dispatch, routeOf. split.
  - intros H m I E. apply (find_none _ _ H) in I. rewrite E, String.eqb_refl in I. discriminate.
  - intros H. destruct (find _ _) as [m|] eqn:F; [|reflexivity].
    apply find_some in F. destruct F as [I E]. apply String.eqb_eq in E. destruct (H m I E).
Qed.

(** ** One answer per request *)

Lemma http_int64 c : HttpStatus c -> Int64 c.
Proof. unfold HttpStatus, Int64. lia. Qed.

Lemma writeHeader_ok c : HttpStatus c -> writeHeader c = ([WriteHeader c], Returned).
Proof.
  unfold HttpStatus, writeHeader. intros [A B]. apply Z.leb_le in A, B. rewrite A, B. reflexivity.
Qed.
Lemma writeHeader_bad c : ~ HttpStatus c -> writeHeader c = ([], Panicked ("invalid WriteHeader code " ++ zdec c)).
Proof.
  unfold HttpStatus, writeHeader. intros H.
  destruct (Z.leb_spec 100 c), (Z.leb_spec c 999); simpl; try reflexivity. exfalso. apply H. lia.
Qed.

Definition hookOnly hook : options := Options hook None.

Lemma sendError_ok hook e : HttpStatus (re_status e) ->
  sendErrorJSON (hookOnly hook) e =
    ([SetHeader "Content-Type" "application/json"; WriteHeader (re_status e); Write (marshalError e)], Returned).
Proof. intros H. unfold sendErrorJSON. cbn [o_onError hookOnly]. rewrite writeHeader_ok by exact H. reflexivity. Qed.
Lemma sendError_bad hook e : ~ HttpStatus (re_status e) ->
  sendErrorJSON (hookOnly hook) e =
    ([SetHeader "Content-Type" "application/json"], Panicked ("invalid WriteHeader code " ++ zdec (re_status e))).
Proof. intros H. unfold sendErrorJSON. cbn [o_onError hookOnly]. rewrite writeHeader_bad by exact H. reflexivity. Qed.

Lemma statusLines_app a b : statusLines (a ++ b) = statusLines a ++ statusLines b.
Proof. induction a as [|[]]; simpl; congruence. Qed.
Lemma callsMade_app a b : callsMade (a ++ b) = callsMade a ++ callsMade b.
Proof. induction a as [|[]]; simpl; congruence. Qed.
Lemma bodyOf_app a b : bodyOf (a ++ b) = (bodyOf a ++ bodyOf b)%string.
Proof. induction a as [|[]]; simpl; rewrite ?IHa, ?sapp_assoc; congruence. Qed.

(** events before the answer: headers and calls *)
Definition quiet (es : list event) : Prop := statusLines es = [] /\ bodyOf es = EmptyString.

(** [serveHTTP] in terms of its body, when errors are not rewritten *)
Definition guarded hook (x : run) : run :=
  match x with
  | (es, Returned) => (es, Returned)
  | (es, Panicked msg) =>
      match sendErrorJSON (hookOnly hook) (withCausef ErrWebrpcServerPanic msg) with
      | (es', Returned) => (es ++ es', Panicked msg)
      | (es', Panicked msg') => (es ++ es', Panicked msg')
      end
  end.

Lemma gives_panic hook es msg calls : quiet es -> callsMade es = calls ->
  Gives (guarded hook (es, Panicked msg)) calls (CrashAnswer msg).
Proof.
  intros [Q1 Q2] C. unfold guarded. rewrite sendError_ok by (cbn; unfold HttpStatus; lia).
  unfold Gives. cbn [fst snd]. rewrite callsMade_app, statusLines_app, bodyOf_app, Q1, Q2, C.
  cbn [callsMade statusLines bodyOf app]. rewrite app_nil_r, sapp_nil_r. cbn [append].
  split; [reflexivity|]. split; [reflexivity|]. split; [reflexivity|].
  eexists. split; [apply unmarshal_marshalError; cbn; unfold Int64; lia|]. split; reflexivity.
Qed.

Lemma gives_error hook es e calls : quiet es -> callsMade es = calls -> HttpStatus (re_status e) ->
  Gives (guarded hook (andThen (es, Returned) (sendErrorJSON (hookOnly hook) e))) calls (ErrorAnswer (re_code e) (re_status e)).
Proof.
  intros [Q1 Q2] C H. rewrite sendError_ok by exact H. unfold guarded, andThen, Gives. cbn [fst snd].
  rewrite callsMade_app, statusLines_app, bodyOf_app, Q1, Q2, C.
  cbn [callsMade statusLines bodyOf app]. rewrite app_nil_r, sapp_nil_r. cbn [append].
  split; [reflexivity|]. split; [reflexivity|]. split; [reflexivity|]. intros I.
  eexists. split; [apply unmarshal_marshalError; [exact I|apply http_int64, H]|]. split; reflexivity.
Qed.

Lemma gives_given hook es e calls a : quiet es -> callsMade es = calls -> ErrorGiven e a ->
  Gives (guarded hook (andThen (es, Returned) (sendErrorJSON (hookOnly hook) (toRpcError e)))) calls a.
Proof.
  intros Q C G.
  assert (E : codeStatus e = (re_code (toRpcError e), re_status (toRpcError e))) by (destruct e; reflexivity).
  destruct G as [H|H]; rewrite E in *; cbn [fst snd] in *.
  - apply gives_error; assumption.
  - rewrite sendError_bad by exact H. cbn [andThen fst snd]. apply gives_panic.
    + destruct Q as [Q1 Q2]. split; [rewrite statusLines_app, Q1; reflexivity|rewrite bodyOf_app, Q2; reflexivity].
    + rewrite callsMade_app, C. cbn. apply app_nil_r.
Qed.

Lemma gives_ok hook es body calls : quiet es -> callsMade es = calls ->
  Gives (guarded hook (andThen (es, Returned) (sendOK body))) calls (ResultAnswer body).
Proof.
  intros [Q1 Q2] C. unfold guarded, andThen, Gives, sendOK. rewrite writeHeader_ok by (unfold HttpStatus; lia).
  cbn [fst snd andThen]. rewrite callsMade_app, statusLines_app, bodyOf_app, Q1, Q2, C.
  cbn [callsMade statusLines bodyOf app]. rewrite app_nil_r, sapp_nil_r. repeat split.
Qed.

Lemma errorGiven_exists e : exists a, ErrorGiven e a.
Proof.
  destruct (Z_le_dec 100 (snd (codeStatus e))), (Z_le_dec (snd (codeStatus e)) 999);
    try (eexists; apply EGCrash; unfold HttpStatus; lia). eexists; apply EGError; unfold HttpStatus; lia.
Qed.

Lemma arguments_unique s m r a b : Arguments s m r a -> Arguments s m r b -> a = b.
Proof. intros [E|b1 x N Q U] [E'|b2 y N' Q' U']; congruence. Qed.

Lemma andThen_cons es e x : andThen (es, Returned) (andThen ([e], Returned) x) = andThen (es ++ [e], Returned) x.
Proof. unfold andThen. cbn [fst snd]. rewrite <- app_assoc. reflexivity. Qed.

Lemma gives_call hv hook impl s m r args : Addressed s r m -> hookSays hook (rm_name m) = inl None -> Arguments s m r args ->
  exists a, Expected s hook impl r [(rm_name m, args)] a /\
    Gives (guarded hook (andThen ([SetHeader "Webrpc" hv], Returned) (callAndAnswer s (hookOnly hook) impl m args))) [(rm_name m, args)] a.
Proof.
  intros A H G. unfold callAndAnswer. rewrite andThen_cons. cbn [app].
  assert (Q : quiet [SetHeader "Webrpc" hv; CallImpl (rm_name m) args]) by (split; reflexivity).
  assert (C : callsMade [SetHeader "Webrpc" hv; CallImpl (rm_name m) args] = [(rm_name m, args)]) by reflexivity.
  destruct (impl (rm_name m) args) as [vs|e|msg] eqn:I.
  - destruct (rm_out m) as [|f fs] eqn:O.
    + exists (ResultAnswer "{}"). split; [eapply ImplReturns; eauto|apply gives_ok; assumption].
    + destruct (marshalStruct (sv_env s) (f :: fs) vs) as [body|] eqn:M.
      * exists (ResultAnswer body).
        split; [eapply ImplReturns; eauto; right; split; [congruence|rewrite O; exact M]|apply gives_ok; assumption].
      * exists (ErrorAnswer (-5) 500).
        split; [eapply Unencodable; eauto; [congruence|rewrite O; exact M]|].
        apply (gives_error hook _ (withCausef ErrWebrpcBadResponse "failed to marshal json response")); try assumption.
        cbn. unfold HttpStatus. lia.
  - destruct (errorGiven_exists e) as [a EG]. exists a. split; [eapply ImplFails; eauto|].
    apply gives_given; assumption.
  - exists (CrashAnswer msg). split; [eapply ImplPanics; eauto|].
    unfold andThen. cbn [fst snd]. rewrite app_nil_r. apply gives_panic; assumption.
Qed.

Theorem served hv s hook impl r : NoDup (map rm_name (sv_methods s)) ->
  exists calls a, Expected s hook impl r calls a /\ Gives (serveHTTP hv s (hookOnly hook) impl r) calls a.
Proof.
  intros ND. unfold serveHTTP. fold (guarded hook (serveBody hv s (hookOnly hook) impl r)).
  unfold serveBody.
  assert (Q : quiet [SetHeader "Webrpc" hv]) by (split; reflexivity).
  destruct (dispatch s (q_path r)) as [m|] eqn:D.
  2:{ exists [], (ErrorAnswer (-2) 404). split; [apply UnknownRoute, dispatch_none, D|].
      apply (gives_error hook [SetHeader "Webrpc" hv] (withCausef ErrWebrpcBadRoute ("no webrpc method defined for path " ++ q_path r)));
      [exact Q|reflexivity|cbn; unfold HttpStatus; lia]. }
  apply dispatch_iff in D; [|exact ND]. destruct D as [IN P].
  destruct (String.eqb_spec (q_method r) "POST") as [PO|PO]; cbn [negb].
  2:{ exists [], (ErrorAnswer (-3) 405). split; [eapply NotPost; eauto|]. rewrite andThen_cons.
      eapply (gives_error hook (_ ++ _) (withCausef ErrWebrpcBadMethod _)); [split; reflexivity|reflexivity|cbn; unfold HttpStatus; lia]. }
  destruct (String.eqb_spec (mediaType (q_contentType r)) "application/json") as [CT|CT].
  2:{ exists [], (ErrorAnswer (-4) 400). split; [eapply NotJson; eauto; intros J; apply CT, content_type_iff, J|].
      eapply (gives_error hook _ (withCausef ErrWebrpcBadRequest _)); [exact Q|reflexivity|cbn; unfold HttpStatus; lia]. }
  apply content_type_iff in CT. assert (AD : Addressed s r m) by (repeat split; assumption).
  cbn [o_onRequest hookOnly].
  assert (HS : match hook with
    | Some f => match f (rm_name m) with
                | inl (Some e) => sendErrorJSON (hookOnly hook) (toRpcError e)
                | inl None => serveJSON s (hookOnly hook) impl m r
                | inr msg => ([], Panicked msg)
                end
    | None => serveJSON s (hookOnly hook) impl m r end =
    match hookSays hook (rm_name m) with
                | inl (Some e) => sendErrorJSON (hookOnly hook) (toRpcError e)
                | inl None => serveJSON s (hookOnly hook) impl m r
                | inr msg => ([], Panicked msg)
                end) by (destruct hook; reflexivity).
  rewrite HS. clear HS. destruct (hookSays hook (rm_name m)) as [[e|]|msg] eqn:HS.
  - destruct (errorGiven_exists e) as [a EG]. exists [], a. split; [eapply HookRejects; eauto|].
    apply gives_given; [exact Q|reflexivity|exact EG].
  - unfold serveJSON. destruct (rm_in m) as [|f fs] eqn:IN'.
    + destruct (gives_call hv hook impl s m r [] AD HS (NoArguments s m r IN')) as (a & X & G). eauto.
    + destruct (q_body r) as [b|] eqn:B.
      * destruct (unmarshalStruct (sv_env s) (f :: fs) b) as [args|] eqn:U.
        -- destruct (gives_call hv hook impl s m r args AD HS) as (a & X & G); [|eauto].
           apply (BodyArguments s m r b); [congruence|exact B|rewrite IN'; exact U].
        -- exists [], (ErrorAnswer (-4) 400). split.
           ++ eapply BadBody; eauto. intros args [E|b' args' E E1 E2]; congruence.
           ++ eapply (gives_error hook _ (withCausef ErrWebrpcBadRequest _)); [exact Q|reflexivity|cbn; unfold HttpStatus; lia].
      * exists [], (ErrorAnswer (-4) 400). split.
        -- eapply BadBody; eauto. intros args [E|b' args' E E1 E2]; congruence.
        -- eapply (gives_error hook _ (withCausef ErrWebrpcBadRequest _)); [exact Q|reflexivity|cbn; unfold HttpStatus; lia].
  - exists [], (CrashAnswer msg). split; [eapply HookPanics; eauto|].
    unfold andThen. cbn [fst snd]. apply gives_panic; [split; reflexivity|reflexivity].
Qed.

Lemma addressed_unique s r m m' : NoDup (map rm_name (sv_methods s)) ->
  In m (sv_methods s) -> q_path r = (sv_prefix s ++ rm_name m)%string ->
  In m' (sv_methods s) -> q_path r = (sv_prefix s ++ rm_name m')%string -> m = m'.
Proof.
  intros ND I P I' P'. pose proof (proj2 (dispatch_iff s (q_path r) m ND) (conj I P)).
  pose proof (proj2 (dispatch_iff s (q_path r) m' ND) (conj I' P')). congruence.
Qed.

Lemma errorGiven_unique e a b : ErrorGiven e a -> ErrorGiven e b -> a = b.
Proof. intros [H|H] [H'|H']; try reflexivity; contradiction. Qed.

Theorem expected_unique s hook impl r c a c' a' : NoDup (map rm_name (sv_methods s)) ->
  Expected s hook impl r c a -> Expected s hook impl r c' a' -> c = c' /\ a = a'.
Proof.
  intros ND X Y.
  destruct X; destruct Y;
  repeat match goal with H : Addressed _ _ _ |- _ => destruct H as (? & ? & ? & ?) end;
  try (exfalso; match goal with H : forall m, In m _ -> _ <> _, I : In ?x _ |- _ => apply (H x I); assumption end);
  repeat match goal with
  | I : In ?x (sv_methods s), I' : In ?y (sv_methods s) |- _ =>
      first [constr_eq x y; fail 1 | assert (x = y) by (eapply addressed_unique; eauto); subst y]
  end; try contradiction; try congruence; auto;
  repeat match goal with
  | A : Arguments ?s ?m ?r ?x, B : Arguments ?s ?m ?r ?y |- _ =>
      first [constr_eq x y; fail 1 | assert (x = y) by (eapply arguments_unique; eauto); subst y]
  end;
  try (exfalso; match goal with H : forall args, ~ Arguments _ _ _ args |- _ => eapply H; eassumption end);
  try congruence;
  repeat match goal with H : ?a = inl (Some ?x), H' : ?a = inl (Some ?y) |- _ => rewrite H in H'; injection H' as ? end;
  repeat match goal with H : ?a = Fails ?x, H' : ?a = Fails ?y |- _ => rewrite H in H'; injection H' as ? end;
  repeat match goal with H : ?a = Returns ?x, H' : ?a = Returns ?y |- _ => rewrite H in H'; injection H' as ? end;
  subst; try (split; [reflexivity|]; eapply errorGiven_unique; eassumption);
  repeat match goal with H : _ /\ _ \/ _ /\ _ |- _ => destruct H as [[? ?]|[? ?]] end; try congruence;
  split; congruence.
Qed.

(** with any options: exactly one status line as long as OnError keeps statuses valid *)
Definition keepsStatus (o : options) : Prop :=
  forall f, o_onError o = Some f -> forall e, HttpStatus (re_status e) -> HttpStatus (re_status (f e)).

Definition atMostOne (x : run) : Prop :=
  (snd x = Returned -> length (statusLines (fst x)) = 1) /\
  (snd x <> Returned -> statusLines (fst x) = []) /\ length (callsMade (fst x)) <= 1.

Lemma sendError_one o e : atMostOne (sendErrorJSON o e) /\ callsMade (fst (sendErrorJSON o e)) = [] /\
  (HttpStatus (re_status (match o_onError o with Some f => f e | None => e end)) -> snd (sendErrorJSON o e) = Returned).
Proof.
  unfold sendErrorJSON. set (e' := match o_onError o with Some f => f e | None => e end).
  destruct (Z_le_dec 100 (re_status e')) as [A|A].
  1: destruct (Z_le_dec (re_status e') 999) as [B|B].
  1: rewrite writeHeader_ok by (unfold HttpStatus; lia); cbn; unfold atMostOne; cbn; repeat split; auto; congruence.
  all: rewrite writeHeader_bad by (unfold HttpStatus; lia); cbn; unfold atMostOne, HttpStatus; cbn; repeat split; auto;
    try congruence; try lia; intros; exfalso; lia.
Qed.

Lemma andThen_one es x : statusLines es = [] -> length (callsMade es) + length (callsMade (fst x)) <= 1 ->
  atMostOne x -> atMostOne (andThen (es, Returned) x).
Proof.
  intros S C (A & B & D). unfold atMostOne, andThen. cbn [fst snd]. rewrite statusLines_app, callsMade_app, S.
  cbn [app]. rewrite app_length. auto.
Qed.

Lemma sendOK_one b : atMostOne (sendOK b) /\ callsMade (fst (sendOK b)) = [].
Proof. unfold sendOK. rewrite writeHeader_ok by (unfold HttpStatus; lia). cbn. unfold atMostOne. cbn. repeat split; auto; congruence. Qed.

Lemma call_one s o impl m args : atMostOne (callAndAnswer s o impl m args).
Proof.
  unfold callAndAnswer.
  assert (E : forall e, atMostOne (andThen ([CallImpl (rm_name m) args], Returned) (sendErrorJSON o e))).
  { intros e. apply andThen_one; [reflexivity| |apply sendError_one]. rewrite (proj1 (proj2 (sendError_one _ _))). cbn. lia. }
  assert (K : forall b, atMostOne (andThen ([CallImpl (rm_name m) args], Returned) (sendOK b))).
  { intros e. apply andThen_one; [reflexivity| |apply sendOK_one]. rewrite (proj2 (sendOK_one _)). cbn. lia. }
  destruct (impl (rm_name m) args) as [vs|e|msg].
  - destruct (rm_out m); [apply K|]. destruct (marshalStruct _ _ _); [apply K|apply E].
  - apply E.
  - unfold atMostOne. cbn. repeat split; auto; intros; discriminate.
Qed.

Lemma serveBody_one hv s o impl r : atMostOne (serveBody hv s o impl r).
Proof.
  unfold serveBody. 
  assert (E : forall e, atMostOne (andThen ([SetHeader "Webrpc" hv], Returned) (sendErrorJSON o e))).
  { intros e. apply andThen_one; [reflexivity| |apply sendError_one]. rewrite (proj1 (proj2 (sendError_one _ _))). cbn. lia. }
  assert (J : forall m, atMostOne (andThen ([SetHeader "Webrpc" hv], Returned) (serveJSON s o impl m r))).
  { intros m. unfold serveJSON. destruct (rm_in m).
    - pose proof (call_one s o impl m []) as C. apply andThen_one; [reflexivity|cbn; apply C|exact C].
    - destruct (q_body r); [|apply E]. destruct (unmarshalStruct _ _ _) as [args|]; [|apply E].
      pose proof (call_one s o impl m args) as C. apply andThen_one; [reflexivity|cbn; apply C|exact C]. }
  destruct (dispatch s (q_path r)) as [m|]; [|apply E].
  destruct (negb _).
  - rewrite andThen_cons. apply andThen_one; [reflexivity| |apply sendError_one]. rewrite (proj1 (proj2 (sendError_one _ _))). cbn. lia.
  - destruct (String.eqb _ _); [|apply E]. destruct (o_onRequest o) as [f|]; [|apply J].
    destruct (f (rm_name m)) as [[e|]|msg]; [apply E|apply J|].
    unfold atMostOne. cbn. repeat split; auto; intros; congruence.
Qed.

Theorem one_answer hv s o impl r : keepsStatus o ->
  length (statusLines (fst (serveHTTP hv s o impl r))) = 1 /\
  length (callsMade (fst (serveHTTP hv s o impl r))) <= 1.
Proof.
  intros K. unfold serveHTTP. pose proof (serveBody_one hv s o impl r) as (A & B & C).
  destruct (serveBody hv s o impl r) as [es [|msg]]; cbn [fst snd] in *.
  - split; [apply A; reflexivity|exact C].
  - destruct (sendError_one o (withCausef ErrWebrpcServerPanic msg)) as ((A' & B' & C') & N & R).
    assert (HttpStatus (re_status (match o_onError o with Some f => f (withCausef ErrWebrpcServerPanic msg) | None => withCausef ErrWebrpcServerPanic msg end))) as H.
    { assert (HttpStatus (re_status (withCausef ErrWebrpcServerPanic msg))) by (cbn; unfold HttpStatus; lia).
      destruct (o_onError o) as [f|] eqn:F; [apply (K f F)|]; assumption. }
    specialize (R H). destruct (sendErrorJSON o (withCausef ErrWebrpcServerPanic msg)) as [es' [|m']]; [|discriminate R].
    cbn [fst snd] in *. rewrite statusLines_app, callsMade_app, (B ltac:(discriminate)), N, app_nil_r.
    split; [apply A'; reflexivity|exact C].
Qed.
