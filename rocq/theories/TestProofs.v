(** Proofs about the interoperability tests. *)
From Verif Require Import Base BaseProofs Utf8 Json JsonProofs GoVal GoValSpec GoValProofs Rpc RpcSpec RpcProofs RpcRemote
  RpcExamples TestSuite TestSpec.
Local Open Scope string_scope.

(** ** cmp.Equal *)

Fixpoint json_size (j : json) : nat :=
  match j with
  | JArr l => S ((fix go l := match l with [] => 0 | x :: r => json_size x + go r end) l)
  | JObj l => S ((fix go l := match l with [] => 0 | (_, x) :: r => json_size x + go r end) l)
  | _ => 1
  end.

Lemma json_arr_size x l : In x l -> json_size x < json_size (JArr l).
Proof.
  cbn. intros H. apply Nat.lt_succ_r. induction l as [|y l IH]; [destruct H|]. destruct H as [->|H]; [lia|].
  specialize (IH H). lia.
Qed.
Lemma json_obj_size k x l : In (k, x) l -> json_size x < json_size (JObj l).
Proof.
  cbn. intros H. apply Nat.lt_succ_r. induction l as [|[k' y] l IH]; [destruct H|].
  destruct H as [[= -> ->]|H]; [lia|]. specialize (IH H). lia.
Qed.

Lemma jsonEq_iff : forall n a b, json_size a <= n -> jsonEq a b = true <-> JSame a b.
Proof.
  induction n as [|n IH]; intros a b Hn; [destruct a; cbn in Hn; lia|].
  destruct a; destruct b; cbn [jsonEq]; try (split; [discriminate|intros H; inversion H]; fail).
  - split; [constructor|reflexivity].
  - rewrite Bool.eqb_true_iff. split; [intros ->; constructor|intros H; inversion H; reflexivity].
  - rewrite String.eqb_eq. split; [intros ->; constructor|intros H; inversion H; reflexivity].
  - rewrite String.eqb_eq. split; [intros ->; constructor|intros H; inversion H; reflexivity].
  - assert (G : forall r r', (forall x, In x r -> json_size x <= n) ->
      (fix go l l' := match l, l' with
                      | [], [] => true
                      | x :: r, y :: r' => jsonEq x y && go r r'
                      | _, _ => false
                      end) r r' = true <-> Forall2 JSame r r').
    { induction r as [|x r IHr]; intros [|y r'] Hs; try (split; [discriminate|intros H; inversion H]; fail).
      - split; [constructor|reflexivity].
      - rewrite Bool.andb_true_iff, IH by (apply Hs; now left). rewrite IHr by (intros; apply Hs; now right).
        split; [intros [A B]; constructor; assumption|intros H; inversion H; auto]. }
    rewrite G.
    + split; [constructor; assumption|intros H; inversion H; assumption].
    + intros x Hx. apply json_arr_size in Hx. lia.
  - assert (G : forall r, (forall k x, In (k, x) r -> json_size x <= n) ->
      (fix go l := match l with
                   | [] => true
                   | (k, x) :: r => match lookup k l0 with Some y => jsonEq x y | None => false end && go r
                   end) r = true <-> (forall k x, In (k, x) r -> exists y, lookup k l0 = Some y /\ JSame x y)).
    { induction r as [|[k x] r IHr]; intros Hs.
      - split; [intros _ k x []|reflexivity].
      - rewrite Bool.andb_true_iff, IHr by (intros; eapply Hs; right; eassumption). split.
        + intros [A B] k' x' [[= <- <-]|H]; [|apply B; exact H].
          destruct (lookup k l0) as [y|]; [|discriminate]. exists y. split; [reflexivity|].
          apply IH; [eapply Hs; now left|exact A].
        + intros H. split; [|intros; apply H; now right].
          destruct (H k x (or_introl eq_refl)) as (y & -> & S). apply IH; [eapply Hs; now left|exact S]. }
    rewrite Bool.andb_true_iff, Nat.eqb_eq, G.
    + split; [intros [A B]; constructor; assumption|intros H; inversion H; auto].
    + intros k x Hx. apply json_obj_size in Hx. lia.
Qed.

Fixpoint val_size (v : gval) : nat :=
  match v with
  | VSlice (Some l) => S ((fix go l := match l with [] => 0 | x :: r => val_size x + go r end) l)
  | VMap (Some l) => S ((fix go l := match l with [] => 0 | (_, x) :: r => val_size x + go r end) l)
  | VPtr (Some v) => S (val_size v)
  | VStruct l => S ((fix go l := match l with [] => 0 | x :: r => val_size x + go r end) l)
  | _ => 1
  end.

Lemma val_list_size x (l : list gval) : In x l ->
  val_size x <= (fix go l := match l with [] => 0 | x :: r => val_size x + go r end) l.
Proof.
  induction l as [|y l IH]; [intros []|]. intros [->|H]; [lia|]. specialize (IH H). lia.
Qed.
Lemma val_map_size k x (l : list (gkey * gval)) : In (k, x) l ->
  val_size x <= (fix go l := match l with [] => 0 | (_, x) :: r => val_size x + go r end) l.
Proof.
  induction l as [|[k' y] l IH]; [intros []|]. intros [[= -> ->]|H]; [lia|]. specialize (IH H). lia.
Qed.

Lemma cmpEqual_iff : forall n a b, val_size a <= n -> cmpEqual a b = true <-> Same a b.
Proof.
  induction n as [|n IH]; intros a b Hn; [destruct a as [| | | |[]|[]|[]| | | |]; cbn in Hn; lia|].
  assert (G : forall r r', (forall x, In x r -> val_size x <= n) ->
      (fix go l l' := match l, l' with
                      | [], [] => true
                      | x :: r, y :: r' => cmpEqual x y && go r r'
                      | _, _ => false
                      end) r r' = true <-> Forall2 Same r r').
  { induction r as [|x r IHr]; intros [|y r'] Hs; try (split; [discriminate|intros H; inversion H]; fail).
    - split; [constructor|reflexivity].
    - rewrite Bool.andb_true_iff, IH by (apply Hs; now left). rewrite IHr by (intros; apply Hs; now right).
      split; [intros [A B]; constructor; assumption|intros H; inversion H; auto]. }
  destruct a as [x|x|x|x|[x|]|[x|]|[x|]|x|x|x|]; destruct b as [y|y|y|y|[y|]|[y|]|[y|]|y|y|y|]; cbn [cmpEqual];
    try (split; [discriminate|intros H; inversion H]; fail); try (split; [constructor|reflexivity]).
  - rewrite Bool.eqb_true_iff. split; [intros ->; constructor|intros H; inversion H; reflexivity].
  - rewrite Z.eqb_eq. split; [intros ->; constructor|intros H; inversion H; reflexivity].
  - rewrite String.eqb_eq. split; [intros ->; constructor|intros H; inversion H; reflexivity].
  - rewrite Z.eqb_eq. split; [intros ->; constructor|intros H; inversion H; reflexivity].
  - rewrite G.
    + split; [constructor; assumption|intros H; inversion H; assumption].
    + intros z Hz. apply val_list_size in Hz. cbn in Hn. lia.
  - assert (M : forall r, (forall k z, In (k, z) r -> val_size z <= n) ->
      (fix go l := match l with
                   | [] => true
                   | (k, x) :: r => match entry k y with Some z => cmpEqual x z | None => false end && go r
                   end) r = true <-> (forall k x, In (k, x) r -> exists z, valueAt k y = Some z /\ Same x z)).
    { assert (E : forall k l, entry k l = valueAt k l) by (intros k l; induction l as [|[k' v'] l IHl]; [reflexivity|]; cbn; rewrite IHl; reflexivity).
      induction r as [|[k z] r IHr]; intros Hs.
      - split; [intros _ k z []|reflexivity].
      - rewrite Bool.andb_true_iff, IHr by (intros; eapply Hs; right; eassumption). rewrite E. split.
        + intros [A B] k' z' [[= <- <-]|H]; [|apply B; exact H].
          destruct (valueAt k y) as [u|]; [|discriminate]. exists u. split; [reflexivity|].
          apply IH; [eapply Hs; now left|exact A].
        + intros H. split; [|intros; apply H; now right].
          destruct (H k z (or_introl eq_refl)) as (u & -> & S). apply IH; [eapply Hs; now left|exact S]. }
    rewrite Bool.andb_true_iff, Nat.eqb_eq, M.
    + split; [intros [A B]; constructor; assumption|intros H; inversion H; auto].
    + intros k z Hz. apply val_map_size in Hz. cbn in Hn. lia.
  - rewrite IH by (cbn in Hn; lia). split; [constructor; assumption|intros H; inversion H; assumption].
  - rewrite G.
    + split; [constructor; assumption|intros H; inversion H; assumption].
    + intros z Hz. apply val_list_size in Hz. cbn in Hn. lia.
  - rewrite (jsonEq_iff (json_size x)) by lia. split; [constructor; assumption|intros H; inversion H; assumption].
  - rewrite Z.eqb_eq. split; [intros ->; constructor|intros H; inversion H; reflexivity].
Qed.

Lemma cmpEqual_same a b : cmpEqual a b = true <-> Same a b.
Proof. apply (cmpEqual_iff (val_size a)). lia. Qed.

(** ** The client *)

Lemma setNth_length (A : Type) (v : A) : forall l i, length (setNth i v l) = length l.
Proof. induction l as [|x l IH]; intros [|i]; cbn; auto. Qed.

Lemma fromFields_length env fs : forall l acc vs, fromFields env fs acc l = Some vs -> length vs = length acc.
Proof.
  induction l as [|[s x] l IH]; intros acc vs H; cbn in H; [injection H as <-; reflexivity|].
  destruct (findField s fs) as [i|]; [|eauto]. destruct (nth_error fs i) as [f|]; [|discriminate].
  destruct (fromJ env (gf_ty f) x); [|discriminate]. apply IH in H. rewrite H. apply setNth_length.
Qed.

Lemma unmarshal_length env fs s vs : unmarshalStruct env fs s = Some vs -> length vs = length fs.
Proof.
  unfold unmarshalStruct. destruct (parseJ s) as [[]|]; try discriminate.
  - intros [= <-]. apply map_length.
  - intros H. rewrite (fromFields_length _ _ _ _ _ H). apply map_length.
Qed.

(** a call without results succeeds iff it is accepted *)
Lemma call_accepted net m args b : rm_out m = [] -> requestBody testApi m args = Some b ->
  isErr (clientCall testApi None net m args) = false <-> Accepted (post net (rm_name m) b).
Proof.
  intros Ho Hb. unfold clientCall. rewrite Hb, Ho. unfold post.
  change (newRequest testApi m b) with (Request "POST" ("/rpc/TestApi/" ++ rm_name m) "application/json" (Some b)).
  destruct (net _) as [e|[st body]|st e]; cbn [p_status p_body].
  - split; [discriminate|intros H; inversion H].
  - destruct (Z.eqb_spec st 200) as [->|Hs]; cbn [negb].
    + split; [constructor|reflexivity].
    + split; [destruct (unmarshalError body); discriminate|intros H; inversion H; congruence].
  - destruct (Z.eqb_spec st 200) as [->|Hs]; cbn [andb].
    + split; [constructor|reflexivity].
    + split; [discriminate|intros H; inversion H; congruence].
Qed.

Lemma call_rejected net m args : requestBody testApi m args = None ->
  isErr (clientCall testApi None net m args) = true.
Proof. intros H. unfold clientCall. rewrite H. reflexivity. Qed.

(** a call with results and without arguments *)
Lemma call_answered net m : rm_in m = [] -> rm_out m <> [] ->
  let r := clientCall testApi None net m [] in
  isErr r = false <->
  exists vs, Answers (sv_env testApi) (rm_out m) (post net (rm_name m) "null") vs /\ cr_results r = vs /\
    length vs = length (rm_out m).
Proof.
  intros Hi Ho. unfold clientCall. rewrite null_args by exact Hi. unfold post, Answers.
  change (newRequest testApi m "null") with (Request "POST" ("/rpc/TestApi/" ++ rm_name m) "application/json" (Some "null")).
  destruct (net _) as [e|[st body]|st e]; cbn [p_status p_body].
  - split; [discriminate|intros (vs & (b & H & _) & _); discriminate].
  - destruct (Z.eqb_spec st 200) as [->|Hs]; cbn [negb].
    + destruct (rm_out m) as [|f fs] eqn:Hm; [congruence|]. rewrite <- Hm in *. clear Hm.
      destruct (unmarshalStruct (sv_env testApi) (rm_out m) body) as [vs|] eqn:Hu.
      * split; [intros _; exists vs; repeat split; [eauto|eapply unmarshal_length; eassumption]|reflexivity].
      * split; [discriminate|]. intros (vs & (b & H & X) & _). injection H as <-. congruence.
    + split; [destruct (unmarshalError body); discriminate|].
      intros (vs & (b & H & X) & _). congruence.
  - destruct (rm_out m) eqn:Hm; [congruence|].
    destruct ((st =? 200)%Z); cbn [andb]; (split; [discriminate|intros (vs & (b & H & _) & _); discriminate]).
Qed.

Lemma when_nil b l : when b l = [] <-> b = false.
Proof. destruct b; cbn; split; congruence. Qed.

Lemma failed_nil r l : failed r l = [] <-> isErr r = false.
Proof. apply when_nil. Qed.

Lemma app_nil_iff (A : Type) (a b : list A) : (a ++ b)%list = [] <-> a = [] /\ b = [].
Proof. split; [apply app_eq_nil|intros [-> ->]; reflexivity]. Qed.

(** one row of the table *)
Lemma row_ok net w b : (0 <= w_code w)%Z -> re_code (w_err w) = w_code w ->
  requestBody testApi getSchemaError [VInt (w_code w)] = Some b ->
  checkRow w (cr_error (clientCall testApi None net getSchemaError [VInt (w_code w)])) = [] <->
  Refused (post net "GetSchemaError" b) (w_code w) (w_name w) (w_msg w) (w_status w) (w_cause w).
Proof.
  intros Hpos Hc Hb. unfold clientCall. rewrite Hb. unfold post, Refused.
  change (newRequest testApi getSchemaError b)
    with (Request "POST" ("/rpc/TestApi/" ++ "GetSchemaError") "application/json" (Some b)).
  assert (None_fails : forall (P : Prop), ~ P -> checkRow w None = [] <-> P).
  { intros P HP. split; [|tauto]. intros H. cbn in H. discriminate. }
  assert (Local_fails : forall e (P : Prop), ~ P -> (re_code e < 0)%Z -> checkRow w (Some e) = [] <-> P).
  { intros e P HP Hneg. split; [|tauto]. unfold checkRow. rewrite !app_nil_iff, !when_nil.
    intros (_ & X & _). apply Bool.negb_false_iff, Z.eqb_eq in X. lia. }
  destruct (net _) as [e|[st body]|st e]; cbn [p_status p_body].
  - apply Local_fails; [intros (? & ? & ? & H & _); discriminate|reflexivity].
  - destruct (Z.eqb_spec st 200) as [->|Hs]; cbn [negb].
    + apply None_fails. intros (? & ? & ? & H & X & _). injection H as <- <-. congruence.
    + destruct (unmarshalError body) as [e|] eqn:Hu; cbn [cr_error].
      * assert (K : checkRow w (Some (restoreCause e)) = [] <->
          re_code e = w_code w /\ re_name e = w_name w /\ re_message e = w_msg w /\ re_status e = w_status w /\
          (re_causeText e = "" \/ re_causeText e = w_cause w)).
        { unfold checkRow. rewrite !app_nil_iff, !when_nil, !Bool.negb_false_iff.
          assert (C : re_cause e = None).
          { revert Hu. unfold unmarshalError. destruct (unmarshalStruct _ _ _) as [vs|]; [|discriminate].
            repeat match goal with |- context [match ?x with _ => _ end] => destruct x; try discriminate end.
            intros [= <-]. reflexivity. }
          assert (F : re_code (restoreCause e) = re_code e /\ re_name (restoreCause e) = re_name e /\
                      re_message (restoreCause e) = re_message e /\ re_status (restoreCause e) = re_status e)
            by (unfold restoreCause; destruct (isEmptyStr _); auto).
          destruct F as (F1 & F2 & F3 & F4). rewrite F1, F2, F3, F4, Z.eqb_eq, !String.eqb_eq, Z.eqb_eq, is_rpc_iff.
          assert (G : match re_cause (restoreCause e) with
                      | Some c => when (negb (errText c =? w_cause w)) "cause" | None => [] end = [] <->
                      (re_causeText e = "" \/ re_causeText e = w_cause w)).
          { unfold restoreCause. destruct (re_causeText e) as [|a t] eqn:Ht; cbn [isEmptyStr].
            - rewrite C. split; [left; reflexivity|reflexivity].
            - cbn [re_cause]. rewrite when_nil, Bool.negb_false_iff. change (errText (EPlain 0 (String a t))) with (String a t).
              rewrite String.eqb_eq. split; [right; assumption|intros [H|H]; [discriminate|exact H]]. }
          rewrite G. split; [tauto|]. intros (A & R). split; [|tauto]. exists (restoreCause e).
          split; [constructor|congruence]. }
        rewrite K. split.
        -- intros H. exists st, body, e. tauto.
        -- intros (st' & b' & e' & H & _ & Hu' & R). injection H as <- <-. rewrite Hu in Hu'. injection Hu' as <-. exact R.
      * apply Local_fails; [intros (? & ? & ? & H & _ & X & _); injection H as <- <-; congruence|reflexivity].
  - replace (match rm_out getSchemaError with [] => true | _ => false end) with true by reflexivity.
    destruct (st =? 200)%Z; cbn [andb cr_error].
    + apply None_fails. intros (? & ? & ? & H & _); discriminate.
    + apply Local_fails; [intros (? & ? & ? & H & _); discriminate|reflexivity].
Qed.

(** ** The whole suite *)

Lemma one_field env f s v : unmarshalStruct env [f] s = Some [v] ->
  v = zeroVal (gf_ty f) \/ exists j, fromJ env (gf_ty f) j = Some v.
Proof.
  unfold unmarshalStruct. destruct (parseJ s) as [[| | | | |l]|]; try discriminate.
  - intros [= <-]. left. reflexivity.
  - cbn [map]. assert (H0 : zeroVal (gf_ty f) = zeroVal (gf_ty f) \/ exists j, fromJ env (gf_ty f) j = Some (zeroVal (gf_ty f)))
      by (left; reflexivity).
    revert H0. generalize (zeroVal (gf_ty f)) at 1 3 4 as a.
    induction l as [|[k x] l IH]; intros a Ha H.
    + injection H as <-. exact Ha.
    + cbn [fromFields] in H. destruct (findField k [f]) as [[|i]|]; [|destruct i; discriminate|eauto].
      cbn [nth_error] in H. destruct (fromJ env (gf_ty f) x) as [u|] eqn:E; [|discriminate].
      apply (IH u); [right; eauto|exact H].
Qed.

Lemma slice_shape env t j v : fromJ env (TSlice t) j = Some v -> exists l, v = VSlice l.
Proof.
  destruct j; cbn; try discriminate.
  - intros [= <-]. eauto.
  - destruct (_ l) as [vs|]; [|discriminate]. intros [= <-]. eauto.
Qed.

Lemma map_shape env k t j v : fromJ env (TMap k t) j = Some v -> exists l, v = VMap l.
Proof.
  destruct j; cbn; try discriminate.
  - intros [= <-]. eauto.
  - destruct (_ _ l) as [vs|]; [|discriminate]. intros [= <-]. eauto.
Qed.

Lemma len1 (A : Type) (l : list A) : length l = 1 -> exists a, l = [a].
Proof. destruct l as [|a []]; try discriminate. eauto. Qed.
Lemma len3 (A : Type) (l : list A) : length l = 3 -> exists a b c, l = [a; b; c].
Proof. destruct l as [|a [|b [|c []]]]; try discriminate. eauto. Qed.

Lemma answers_fun env fs t vs vs' : Answers env fs t vs -> Answers env fs t vs' -> vs = vs'.
Proof. intros (b & -> & H) (b' & [= <-] & H'). congruence. Qed.

(** a value received is sent back *)
Lemma roundtrip net g s fs : rm_in g = [] -> rm_out g = fs -> rm_in s = fs -> rm_out s = [] -> fs <> [] ->
  isErr (clientCall testApi None net g []) = false /\
  isErr (clientCall testApi None net s (cr_results (clientCall testApi None net g []))) = false <->
  exists vs b, Answers (sv_env testApi) fs (post net (rm_name g) "null") vs /\
    marshalStruct (sv_env testApi) fs vs = Some b /\ Accepted (post net (rm_name s) b).
Proof.
  intros Hi Ho Hsi Hso Hne. pose proof (call_answered net g Hi) as C. rewrite Ho in C. cbv zeta in C.
  rewrite (C Hne). clear C.
  assert (R : forall vs, requestBody testApi s vs = marshalStruct (sv_env testApi) fs vs)
    by (intros vs; unfold requestBody; rewrite Hsi; destruct fs; [congruence|reflexivity]).
  split.
  - intros ((vs & A & E & L) & S). rewrite E in S.
    destruct (marshalStruct (sv_env testApi) fs vs) as [b|] eqn:Hm.
    + exists vs, b. split; [exact A|]. split; [exact Hm|].
      apply (call_accepted net s vs b Hso); [rewrite R; exact Hm|exact S].
    + rewrite call_rejected in S; [discriminate|]. rewrite R. exact Hm.
  - intros (vs & b & A & Hm & S). pose proof A as A'. destruct A' as (body & Hp & Hu).
    assert (E : cr_results (clientCall testApi None net g []) = vs).
    { unfold clientCall. rewrite null_args by exact Hi. unfold post in Hp.
      change (newRequest testApi g "null") with (Request "POST" ("/rpc/TestApi/" ++ rm_name g) "application/json" (Some "null")).
      rewrite Hp. cbn [p_status p_body]. cbn [Z.eqb Pos.eqb negb]. rewrite Ho.
      destruct fs; [congruence|]. rewrite Hu. reflexivity. }
    split; [exists vs; repeat split; [exact A|exact E|eapply unmarshal_length; eassumption]|].
    rewrite E. apply (call_accepted net s vs b Hso); [rewrite R; exact Hm|exact S].
Qed.

Lemma results_length net m : rm_in m = [] -> length (cr_results (clientCall testApi None net m [])) = length (rm_out m).
Proof.
  intros Hi. unfold clientCall. rewrite null_args by exact Hi.
  destruct (net _) as [e|[st body]|st e]; cbn [p_status p_body]; try apply map_length.
  - destruct (negb _); [destruct (unmarshalError _); apply map_length|].
    destruct (rm_out m) eqn:Hm; [reflexivity|]. destruct (unmarshalStruct _ _ _) eqn:Hu; [|apply map_length].
    eapply unmarshal_length; eassumption.
  - destruct (rm_out m) eqn:Hm; [destruct ((st =? 200)%Z); reflexivity|].
    rewrite Bool.andb_false_r. apply map_length.
Qed.

Lemma table_ok w : In w table -> (0 <= w_code w)%Z /\ re_code (w_err w) = w_code w /\
  requestBody testApi getSchemaError [VInt (w_code w)] = Some (codeBody (w_code w)).
Proof.
  intros H. cbn [In table] in H.
  repeat (destruct H as [<-|H]; [split; [cbn; lia|split; [reflexivity|vm_compute; reflexivity]]|]). destruct H.
Qed.

Lemma table_asked : map (fun w => (w_code w, w_name w, w_msg w, w_status w, w_cause w)) table = asked.
Proof. reflexivity. Qed.

Lemma flat_map_nil (A B : Type) (f : A -> list B) l : flat_map f l = [] <-> forall x, In x l -> f x = [].
Proof.
  induction l as [|a l IH]; cbn; [split; [intros _ x []|reflexivity]|].
  rewrite app_nil_iff, IH. split; [intros [H1 H2] x [<-|H]; auto|intros H; split; auto].
Qed.

Theorem suite_exact net : runTests net = [] <->
  Passes (sv_env testApi) simpleRef (TRef "Complex") (TSlice (TEnum statusTable)) (TMap (KEnum accessTable) uint64Ty) net.
Proof.
  unfold runTests. rewrite !app_nil_iff, !failed_nil, !when_nil, !Bool.negb_false_iff, !Nat.eqb_eq, flat_map_nil.
  assert (One : [result (clientCall testApi None net mGetOne []) 0] = cr_results (clientCall testApi None net mGetOne [])).
  { unfold result. destruct (len1 _ _ (results_length net mGetOne eq_refl)) as (a & ->). reflexivity. }
  assert (Multi : let r := clientCall testApi None net mGetMulti [] in [result r 0; result r 1; result r 2] = cr_results r).
  { cbv zeta. unfold result. destruct (len3 _ _ (results_length net mGetMulti eq_refl)) as (a & b & c & ->). reflexivity. }
  assert (Cx : [result (clientCall testApi None net getComplex []) 0] = cr_results (clientCall testApi None net getComplex [])).
  { unfold result. destruct (len1 _ _ (results_length net getComplex eq_refl)) as (a & ->). reflexivity. }
  cbv zeta in Multi. rewrite One, Multi, Cx.
  pose proof (roundtrip net mGetOne mSendOne _ eq_refl eq_refl eq_refl eq_refl ltac:(discriminate)) as ROne.
  pose proof (roundtrip net mGetMulti mSendMulti _ eq_refl eq_refl eq_refl eq_refl ltac:(discriminate)) as RMulti.
  pose proof (roundtrip net getComplex sendComplex _ eq_refl eq_refl eq_refl eq_refl ltac:(discriminate)) as RCx.
  pose proof (call_answered net getEnumList eq_refl ltac:(discriminate)) as RList.
  pose proof (call_answered net mGetEnumMap eq_refl ltac:(discriminate)) as RMap.
  pose proof (call_accepted net mGetEmpty [] "null" eq_refl eq_refl) as REmpty.
  pose proof (call_accepted net getError [] "null" eq_refl eq_refl) as RError.
  assert (LList : isErr (clientCall testApi None net getEnumList []) = false /\
      lenOf (result (clientCall testApi None net getEnumList []) 0) = 2 <->
      exists x y, Answers (sv_env testApi) (rm_out getEnumList) (post net "GetEnumList" "null") [VSlice (Some [x; y])]).
  { rewrite RList. split.
    - intros ((vs & A & E & L) & N). apply len1 in L as (v & ->). unfold result in N. rewrite E in N. cbn [nth] in N.
      assert (S : exists l, v = VSlice l).
      { destruct A as (b & _ & U). apply one_field in U as [->|(j & U)]; [exists None; reflexivity|eapply slice_shape; exact U]. }
      destruct S as ([l|] & ->); [|discriminate]. destruct l as [|x [|y []]]; try discriminate. eauto.
    - intros (x & y & A).
      assert (E : cr_results (clientCall testApi None net getEnumList []) = [VSlice (Some [x; y])]).
      { destruct A as (b & Hp & Hu). unfold clientCall. rewrite null_args by reflexivity. unfold post in Hp.
        change (newRequest testApi getEnumList "null") with (Request "POST" ("/rpc/TestApi/" ++ "GetEnumList") "application/json" (Some "null")).
        rewrite Hp. cbn [p_status p_body Z.eqb Pos.eqb negb]. cbn [rm_out getEnumList mGetEnumMap] in *. rewrite Hu. reflexivity. }
      split; [|unfold result; rewrite E; reflexivity].
      exists [VSlice (Some [x; y])]. split; [exact A|]. split; [exact E|reflexivity]. }
  assert (LMap : isErr (clientCall testApi None net mGetEnumMap []) = false /\
      lenOf (result (clientCall testApi None net mGetEnumMap []) 0) = 2 <->
      exists x y, Answers (sv_env testApi) (rm_out mGetEnumMap) (post net "GetEnumMap" "null") [VMap (Some [x; y])]).
  { rewrite RMap. split.
    - intros ((vs & A & E & L) & N). apply len1 in L as (v & ->). unfold result in N. rewrite E in N. cbn [nth] in N.
      assert (S : exists l, v = VMap l).
      { destruct A as (b & _ & U). apply one_field in U as [->|(j & U)]; [exists None; reflexivity|eapply map_shape; exact U]. }
      destruct S as ([l|] & ->); [|discriminate]. destruct l as [|x [|y []]]; try discriminate. eauto.
    - intros (x & y & A).
      assert (E : cr_results (clientCall testApi None net mGetEnumMap []) = [VMap (Some [x; y])]).
      { destruct A as (b & Hp & Hu). unfold clientCall. rewrite null_args by reflexivity. unfold post in Hp.
        change (newRequest testApi mGetEnumMap "null") with (Request "POST" ("/rpc/TestApi/" ++ "GetEnumMap") "application/json" (Some "null")).
        rewrite Hp. cbn [p_status p_body Z.eqb Pos.eqb negb]. cbn [rm_out getEnumList mGetEnumMap] in *. rewrite Hu. reflexivity. }
      split; [|unfold result; rewrite E; reflexivity].
      exists [VMap (Some [x; y])]. split; [exact A|]. split; [exact E|reflexivity]. }
  assert (Rows : (forall w, In w table -> checkRow w (cr_error (clientCall testApi None net getSchemaError [VInt (w_code w)])) = []) <->
     (forall c n m s cause, In (c, n, m, s, cause) asked -> Refused (post net "GetSchemaError" (codeBody c)) c n m s cause)).
  { rewrite <- table_asked. split.
    - intros H c n m s cause Hin. apply in_map_iff in Hin as (w & [= <- <- <- <- <-] & Hin).
      destruct (table_ok w Hin) as (P1 & P2 & P3). apply (row_ok net w _ P1 P2 P3). apply H. exact Hin.
    - intros H w Hin. destruct (table_ok w Hin) as (P1 & P2 & P3). apply (row_ok net w _ P1 P2 P3). apply H.
      apply in_map_iff. exists w. split; [reflexivity|exact Hin]. }
  rewrite Rows. clear Rows.
  split.
  - intros (H1 & H2 & H3 & H4 & H5 & H6 & H7 & H8 & H9 & H10 & H11 & H12 & H13). split.
    + apply REmpty. exact H1.
    + intros A. apply RError in A. congruence.
    + destruct (proj1 ROne (conj H3 H4)) as (vs & b & A & B & C). pose proof A as A'. destruct A' as (body & _ & U).
      apply unmarshal_length in U. apply len1 in U as (v & ->). exists v, b. split; [exact A|]. split; [exact B|exact C].
    + destruct (proj1 RMulti (conj H5 H6)) as (vs & b & A & B & C). pose proof A as A'. destruct A' as (body & _ & U).
      apply unmarshal_length in U. apply len3 in U as (u & v & w & ->). exists u, v, w, b. cbv zeta.
      split; [exact A|]. split; [exact B|exact C].
    + destruct (proj1 RCx (conj H7 H8)) as (vs & b & A & B & C). pose proof A as A'. destruct A' as (body & _ & U).
      apply unmarshal_length in U. apply len1 in U as (v & ->). exists v, b. split; [exact A|]. split; [exact B|exact C].
    + exact (proj1 LList (conj H9 H10)).
    + exact (proj1 LMap (conj H11 H12)).
    + exact H13.
  - intros [P1 P2 (v & b & A1 & A2 & A3) (u2 & v2 & w2 & b2 & B1 & B2 & B3) (v3 & b3 & C1 & C2 & C3) P6 P7 P8].
    cbv zeta in B1, B2.
    assert (H34 := proj2 ROne (ex_intro _ [v] (ex_intro _ b (conj A1 (conj A2 A3))))).
    assert (H56 := proj2 RMulti (ex_intro _ [u2; v2; w2] (ex_intro _ b2 (conj B1 (conj B2 B3))))).
    assert (H78 := proj2 RCx (ex_intro _ [v3] (ex_intro _ b3 (conj C1 (conj C2 C3))))).
    assert (H910 := proj2 LList P6). assert (H1112 := proj2 LMap P7).
    assert (H1 := proj2 REmpty P1).
    assert (H2 : isErr (clientCall testApi None net getError []) = true).
    { destruct (isErr (clientCall testApi None net getError [])) eqn:E; [reflexivity|]. exfalso. apply P2, RError. first [exact E|reflexivity]. }
    repeat (split; [solve [tauto]|]). exact P8.
Qed.
