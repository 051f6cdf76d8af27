(** Proofs about calls of TypeScript clients. *)
From Verif Require Import Base BaseProofs Utf8 Json JsonProofs GoVal GoValSpec GoValProofs Rpc RpcSpec RpcProofs RpcRemote
  Schema BigInt BigIntSpec TsBig TsBigSpec TsBigProofs TsBigMain TsBigWire Ts TsWire JsNum TsCall TsCallSpec.
From Verif Require Props_TsBig Props_Ts.
From Verif Require Import Rpc.

Lemma put_other k v (hs : list (string * string)) name : to_lower k <> name ->
  filter (fun e => String.eqb (to_lower (fst e)) name) (jsPut k v hs) = filter (fun e => String.eqb (to_lower (fst e)) name) hs.
Proof.
  intros N. apply String.eqb_neq in N. induction hs as [|[k' v'] r IH]; cbn [jsPut filter fst]; [rewrite N; reflexivity|].
  destruct (String.eqb_spec k k') as [->|_]; cbn [filter fst]; [rewrite N; reflexivity|]. rewrite IH. reflexivity.
Qed.

Lemma put_type v (hs : list (string * string)) : OrdinaryHeaders hs ->
  map snd (filter (fun e => String.eqb (to_lower (fst e)) "content-type") (jsPut "Content-Type" v hs)) = [v].
Proof.
  intros [ND H]. induction hs as [|[k' v'] r IH]; [reflexivity|]. cbn [jsPut]. inversion ND as [|? ? N1 N2]; subst.
  assert (Nr : forall k x, In (k, x) r -> to_lower k = "content-type" -> k = "Content-Type") by (intros k x I; apply (H k x); right; exact I).
  destruct (String.eqb_spec "Content-Type" k') as [<-|N].
  - cbn. f_equal. clear IH H. induction r as [|[k x] r IH]; [reflexivity|]. cbn [filter fst].
    destruct (String.eqb_spec (to_lower k) "content-type") as [E|_].
    + exfalso. apply N1. rewrite <- (Nr k x (or_introl eq_refl) E). left. reflexivity.
    + cbn in ND. inversion ND as [|? ? M1 M2]; subst. inversion M2; subst. apply IH.
      * constructor; [intros X; apply M1; right; exact X|assumption].
      * intros X. apply N1. right. exact X.
      * assumption.
      * intros k0 x0 I. apply (Nr k0 x0). right. exact I.
  - cbn [filter fst]. destruct (String.eqb_spec (to_lower k') "content-type") as [E|_].
    + exfalso. apply N. symmetry. apply (H k' v' (or_introl eq_refl) E).
    + apply IH; assumption.
Qed.

Lemma ts_request s m hs wv b : OrdinaryHeaders hs -> tsRequest s m hs wv b = newRequest s m b.
Proof.
  intros H. unfold tsRequest, newRequest, headerSent, createHeaders. rewrite put_other by discriminate.
  rewrite put_type by exact H. reflexivity.
Qed.

(** the body of the request *)
Lemma ts_body write ts env D m args ms : WritesJson write -> Carries env (rm_in m) args -> ShowsFields ts env D (rm_in m) args ms ->
  exists j, jsonEncode (SObj ms) = Some j /\
    (rm_in m = [] /\ args = [] \/ rm_in m <> [] /\ unmarshalStruct env (rm_in m) (write j) = Some args).
Proof.
  intros W C S. destruct (Props_TsBig.C49_requests_arrive_in_go ts env D _ _ _ C S) as (j & E & M & U). exists j. split; [exact E|].
  destruct (carried env _ _ C) as (l & T & WF & DP & _). unfold marshalStruct in M. rewrite T in M.
  pose proof (fields_encode ts env D _ _ _ S) as FE. rewrite T in FE. injection FE as ->. rewrite encode_obj in E. injection E as <-.
  specialize (U _ (W _ WF DP)). destruct (rm_in m); [left|right; split; [discriminate|exact U]].
  split; [reflexivity|]. destruct C as [F _]. inversion F. reflexivity.
Qed.

Lemma failure_http e : FailureStatus (re_status e) -> HttpStatus (re_status e) /\ ~ (200 <= re_status e <= 299)%Z /\
  (forall es, silent es -> responseOf (es ++ [SetHeader "Content-Type" "application/json"; WriteHeader (re_status e); Write (marshalError e)]) =
     Response (re_status e) (marshalError e)).
Proof.
  intros [R N]. split; [unfold HttpStatus; lia|]. split; [lia|]. intros es [[_ B] S].
  assert (I : informational (re_status e) = false).
  { unfold informational. assert ((re_status e <=? 199)%Z = false) as -> by (apply Z.leb_gt; lia). rewrite andb_false_r. reflexivity. }
  assert (A : bodyAllowed (re_status e) = true).
  { unfold bodyAllowed. assert ((re_status e <=? 199)%Z = false) as -> by (apply Z.leb_gt; lia).
    assert ((re_status e =? 204)%Z = false) as -> by (apply Z.eqb_neq; lia).
    assert ((re_status e =? 304)%Z = false) as -> by (apply Z.eqb_neq; lia). rewrite ?andb_false_r. reflexivity. }
  unfold responseOf. rewrite statusOf_app by exact S. cbn [statusOf]. rewrite I, A.
  rewrite bodyOf_app, B. cbn. rewrite sapp_nil_r. reflexivity.
Qed.

Lemma ts_sees_error write classes tbl s net hs wv m k req j e : jsonEncode req = Some j ->
  net (tsRequest s m hs wv (write j)) = Received (Response (re_status e) (marshalError e)) ->
  FailureStatus (re_status e) -> SafeCode e ->
  exists t, tsCall write classes tbl s net hs wv m k req = Rejected t /\ TsArrived classes e t.
Proof.
  intros E N F S. destruct (failure_http e F) as (_ & NO & _).
  destruct (Props_Ts.C41_errors_arrive classes e NO S) as (t & B & A). exists t. split; [|exact A].
  unfold tsCall. rewrite E, N. cbn [p_status p_body]. rewrite B. reflexivity.
Qed.
