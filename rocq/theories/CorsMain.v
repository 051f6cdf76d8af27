(** Proofs about calls across origins: the servers. *)
From Verif Require Import Base BaseProofs Json GoVal Ts TsBig JsNum RpcSpec RpcProofs TsCall TsCallProofs Cors CorsSpec CorsProofs Rpc.
From Verif Require Methods.

Lemma listed_in names k : Listed names k <-> In (to_lower k) (map to_lower names).
Proof. unfold Listed. rewrite in_map_iff. split; intros (n & A & B); exists n; auto. Qed.

Lemma forbidden_reserved k : forbidden (to_lower k) = true -> Reserved k.
Proof.
  unfold forbidden. intros H. apply orb_true_iff in H. destruct H as [H|H]; [apply orb_true_iff in H; destruct H as [H|H]|].
  - apply str_in_In in H. left. apply listed_in. exact H.
  - apply has_prefix_iff in H. destruct H as (r & H). right. exists r. auto.
  - apply has_prefix_iff in H. destruct H as (r & H). right. exists r. auto.
Qed.

(** the token check of the browser *)
Lemma plain_listed names k : Forall Plain names -> Listed names k -> Plain k.
Proof.
  intros F (n & I & E). rewrite Forall_forall in F. destruct (F n I) as [N P]. split.
  - intros ->. destruct n; [contradiction|discriminate].
  - rewrite <- plain_lower, E, plain_lower. exact P.
Qed.
Lemma plain_is_token n : Plain n -> isTokenName n = true.
Proof. intros [N P]. apply token_iff. split; [exact N|apply plain_token, P]. Qed.

(** ** The preflight of a call, go-chi/cors *)

Definition PlainOptions (o : corsOptions) : Prop :=
  anyOrigin o = true /\ methodAllowed o "POST" = true /\ Forall Plain (co_headers o).

Lemma star_headers l : Forall Plain l -> str_in "*" l = false.
Proof. intros F. apply str_in_not. intros I. rewrite Forall_forall in F. destruct (F _ I) as [_ P]. discriminate. Qed.

Lemma lower_not_star ns : Forall Plain ns -> str_in "*" ns = false.
Proof. apply star_headers. Qed.

Lemma go_preflight o origin include path hs body U : PlainOptions o -> Origin origin -> U <> [] ->
  (forall n, In n U -> to_lower n = n) ->
  let q := Msg "POST" path hs body in
  preflightAllows origin include "POST" U (Answer 200 (preflightHeaders o (preflight origin q U)) EmptyString) = true <->
  include = false /\ forall n, In n U -> In n (map to_lower (co_headers o ++ ["Origin"])).
Proof.
  intros (AO & MA & PH) [ON OS] UN UL q.
  assert (PA : Forall Plain (co_headers o ++ ["Origin"])) by (apply Forall_app; split; [exact PH|constructor; [split; [discriminate|reflexivity]|constructor]]).
  assert (QO : requestHeader "origin" (preflight origin q U) = origin) by (destruct U; [contradiction|reflexivity]).
  assert (QM : requestHeader "access-control-request-method" (preflight origin q U) = "POST") by (destruct U; [contradiction|reflexivity]).
  assert (QH : requestHeader "access-control-request-headers" (preflight origin q U) = join "," U) by (destruct U; [contradiction|reflexivity]).
  unfold preflightHeaders. cbv zeta. rewrite QO, QM, QH. set (names := parseHeaderList (join "," U)).
  assert (PN : Forall Plain names) by (apply parse_plain; reflexivity).
  apply String.eqb_neq in ON. rewrite ON. unfold originAllowed. rewrite AO, MA. cbn [orb negb].
  assert (NO : forall l, preflightAllows origin include "POST" U (Answer 200 ([("Vary", "Origin"); ("Vary", "Access-Control-Request-Method"); ("Vary", "Access-Control-Request-Headers")] ++ l) "") =
     preflightAllows origin include "POST" U (Answer 200 l "")) by reflexivity.
  rewrite NO. destruct (headersAllowed o names) eqn:HA; cbn [negb].
  - (* the server agrees *)
    unfold headersAllowed in HA. rewrite (star_headers _ PH) in HA. cbn [orb] in HA. rewrite forallb_forall in HA.
    set (tail := (if co_credentials o then [("Access-Control-Allow-Credentials", "true")] else []) ++ (if (0 <? co_maxAge o)%Z then [("Access-Control-Max-Age", zdec (co_maxAge o))] else [])).
    set (ah := match names with [] => [] | _ => [("Access-Control-Allow-Headers", join ", " names)] end).
    set (a := Answer 200 _ "").
    assert (TL : forall k v, In (k, v) tail -> In k ["Access-Control-Allow-Credentials"; "Access-Control-Max-Age"]).
    { intros k v I. unfold tail in I. apply in_app_or in I. destruct I as [I|I]; [destruct (co_credentials o)|destruct (0 <? co_maxAge o)%Z]; cbn in I; try contradiction;
      destruct I as [I|[]]; injection I as <- _; cbn; auto. }
    assert (AHK : forall k v, In (k, v) ah -> k = "Access-Control-Allow-Headers").
    { intros k v I. unfold ah in I. destruct names; cbn in I; [contradiction|]. destruct I as [I|[]]. injection I as <- _. reflexivity. }
    assert (GO : headerGet "access-control-allow-origin" (a_headers a) = Some "*").
    { unfold a. cbn [a_headers]. rewrite get_app_l; [reflexivity|]. intros k v I. apply in_app_or in I. destruct I as [I|I]; [apply AHK in I; subst; discriminate|].
      apply TL in I. cbn in I. destruct I as [<-|[<-|[]]]; discriminate. }
    assert (GM : extract "access-control-allow-methods" a = Some ["POST"]).
    { unfold extract, a. cbn [a_headers]. rewrite get_app_l; [reflexivity|]. intros k v I. apply in_app_or in I. destruct I as [I|I]; [apply AHK in I; subst; discriminate|].
      apply TL in I. cbn in I. destruct I as [<-|[<-|[]]]; discriminate. }
    assert (GH : extract "access-control-allow-headers" a = Some names).
    { unfold extract, a. cbn [a_headers]. rewrite get_app by reflexivity. rewrite get_app_l.
      2: { intros k v I. apply TL in I. cbn in I. destruct I as [<-|[<-|[]]]; discriminate. }
      clearbody names. unfold ah. clear -PN. assert (NE : names = [] \/ names <> []) by (destruct names; [left; reflexivity|right; discriminate]).
      destruct NE as [->|NE]; [reflexivity|].
      assert (X : headerGet "access-control-allow-headers" (match names with [] => [] | _ => [("Access-Control-Allow-Headers", join ", " names)] end) = Some (join ", " names))
        by (destruct names; [contradiction|reflexivity]).
      rewrite X. apply listValues_gap; [|exact NE]. revert PN. apply Forall_impl. intros n [N P]. split; [exact N|apply plain_token, P]. }
    unfold preflightAllows, corsCheck. rewrite GO, GM, GH. rewrite (lower_not_star names PN). change (String.eqb "*" "*") with true. rewrite andb_true_r.
    change (a_status a) with 200%Z. change (str_in "POST" ["POST"]) with true. cbn [orb andb Z.leb Z.compare Pos.compare Pos.compare_cont].
    destruct include; cbn [negb andb].
    + assert (X : String.eqb "*" origin = false) by (apply String.eqb_neq; congruence). rewrite X. cbn [negb andb]. split; [discriminate|intros [E _]; discriminate].
    + rewrite !andb_true_l || cbn [andb]. rewrite forallb_forall. split.
      * intros H. split; [reflexivity|]. intros n I. specialize (H n I). rewrite orb_false_r in H. apply str_in_In, in_map_iff in H. destruct H as (h & <- & IH').
        apply (canonical_in h); [rewrite Forall_forall in PN; apply PN, IH'|exact PA|]. apply str_in_In. apply HA, IH'.
      * intros [_ H] n I. rewrite orb_false_r. apply str_in_In.
        assert (PU : Forall Plain U).
        { apply Forall_forall. intros x X. apply (plain_listed (co_headers o ++ ["Origin"]) x PA). apply listed_in. rewrite (UL x X). apply H, X. }
        unfold names. rewrite (parse_names U PU UN). apply in_map_iff. exists (kept true n). split; [|apply in_map, I].
        rewrite kept_lower; [apply UL, I|]. rewrite Forall_forall in PU. apply PU, I.
  - (* it does not *)
    unfold preflightAllows, corsCheck. cbn [a_headers headerGet filter map andb]. split; [discriminate|]. intros [_ H]. exfalso.
    unfold headersAllowed in HA. rewrite (star_headers _ PH) in HA. cbn [orb] in HA. enough (X : forallb (fun h => str_in (Methods.canonical h) (map Methods.canonical (co_headers o ++ ["Origin"]))) names = true) by congruence.
    apply forallb_forall. intros h I. apply str_in_In.
    assert (PU : Forall Plain U).
    { apply Forall_forall. intros x X. apply (plain_listed (co_headers o ++ ["Origin"]) x PA). apply listed_in. rewrite (UL x X). apply H, X. }
    apply canonical_in; [rewrite Forall_forall in PN; apply PN, I|exact PA|]. unfold names in I. rewrite (parse_names U PU UN) in I. apply in_map_iff in I.
    destruct I as (n & <- & I). rewrite kept_lower by (rewrite Forall_forall in PU; apply PU, I). rewrite (UL n I). apply H, I.
Qed.

(** ** The request itself *)

Lemma get_origin hs origin : headerGet "origin" (headerList hs ++ [("origin", origin)]) = Some origin.
Proof.
  rewrite get_app; [reflexivity|]. apply get_none. intros k v I E. apply headerList_in in I. destruct I as (_ & F & k' & w & _ & L).
  rewrite <- L, to_lower_idem in E. rewrite E in L. rewrite <- L in F. discriminate.
Qed.
Lemma get_list hs name : forbidden name = false -> name <> "origin" -> to_lower name = name ->
  forall origin, requestHeader name (Msg "POST" "" (headerList hs ++ [("origin", origin)]) "") = headerSent name hs.
Proof.
  intros F N L origin. unfold requestHeader. cbn [g_headers]. rewrite get_app_l by (intros k v [I|[]] E; injection I as <- <-; apply N; symmetry; exact E).
  unfold headerGet, headerList, headerSent.
  set (ns := nodup string_dec (map (fun h : string * string => to_lower (fst h)) hs)).
  assert (ND : NoDup ns) by apply NoDup_nodup.
  assert (LOW : forall n, In n ns -> to_lower n = n).
  { intros n I. unfold ns in I. apply nodup_In, in_map_iff in I. destruct I as (h & <- & _). apply to_lower_idem. }
  assert (E : map snd (filter (fun h : string * string => String.eqb (to_lower (fst h)) name)
     (map (fun n => (n, String.concat ", " (map snd (filter (fun e => String.eqb (to_lower (fst e)) n) hs)))) (filter (fun n => negb (forbidden n)) ns))) =
     if str_in name ns then [String.concat ", " (map snd (filter (fun e : string * string => String.eqb (to_lower (fst e)) name) hs))] else []).
  { clearbody ns. induction ns as [|n ns IH]; [reflexivity|]. inversion ND as [|? ? N1 N2]; subst. specialize (IH N2 (fun x I => LOW x (or_intror I))).
    cbn [filter]. destruct (String.eqb_spec n name) as [->|NE].
    - rewrite F. cbn [negb map filter fst]. rewrite L, String.eqb_refl. cbn [map snd]. rewrite IH. rewrite (proj2 (str_in_not name ns) N1).
      assert (S : str_in name (name :: ns) = true) by (apply str_in_In; left; reflexivity). rewrite S. reflexivity.
    - assert (S : str_in name (n :: ns) = str_in name ns).
      { destruct (str_in name ns) eqn:S; [apply str_in_In; right; apply str_in_In, S|]. apply str_in_not. intros [I|I]; [congruence|]. apply str_in_not in S. contradiction. }
      rewrite S. destruct (negb (forbidden n)); [|exact IH]. cbn [map filter fst]. rewrite (LOW n (or_introl eq_refl)). apply String.eqb_neq in NE. rewrite NE. exact IH. }
  rewrite E. destruct (str_in name ns) eqn:S; [reflexivity|].
  assert (Z : filter (fun e : string * string => String.eqb (to_lower (fst e)) name) hs = []).
  { apply str_in_not in S. clear -S. unfold ns in S. rewrite nodup_In in S. induction hs as [|h hs IH]; [reflexivity|]. cbn [filter]. cbn [map In] in S.
    destruct (String.eqb_spec (to_lower (fst h)) name) as [X|_]; [exfalso; apply S; left; exact X|]. apply IH. intros X. apply S. right. exact X. }
  rewrite Z. reflexivity.
Qed.

Lemma page_request s m hs wv b origin : toRequest (actual origin (pageRequest hs wv (tsRequest s m hs wv b))) = tsRequest s m hs wv b.
Proof.
  unfold toRequest, actual, pageRequest, tsRequest. cbn [g_method g_path g_body q_method q_path q_body g_headers]. f_equal.
  change (requestHeader "content-type" (Msg "POST" (routeOf s m) (headerList (createHeaders hs wv) ++ [("origin", origin)]) b))
    with (requestHeader "content-type" (Msg "POST" "" (headerList (createHeaders hs wv) ++ [("origin", origin)]) "")).
  apply get_list; [reflexivity|discriminate|reflexivity].
Qed.

(** the request of a page, when the browser lets it through *)
Lemma go_send o rec hv s ro impl origin q : PlainOptions o -> Origin origin -> g_method q = "POST" ->
  send (corsHandler o (goHandler rec hv s ro impl)) origin false q =
  (match goHandler rec hv s ro impl (actual origin q) with
   | Some a => Some (Answer (a_status a) (replaceHeaders (a_headers a) (actualHeaders o (actual origin q))) (a_body a))
   | None => None end, [actual origin q]).
Proof.
  intros (AO & MA & _) [ON OS] M. unfold send, corsHandler. assert (NP : isPreflight (actual origin q) = false) by (unfold isPreflight, actual; cbn [g_method]; rewrite M; reflexivity).
  rewrite NP. destruct (goHandler rec hv s ro impl (actual origin q)) as [a|] eqn:G; [|reflexivity].
  assert (C : corsCheck origin false (Answer (a_status a) (replaceHeaders (a_headers a) (actualHeaders o (actual origin q))) (a_body a)) = true); [|rewrite C; reflexivity].
  unfold corsCheck. cbn [a_headers]. rewrite get_replace.
  - unfold actualHeaders. cbv zeta. unfold requestHeader at 1 2. cbn [actual g_headers g_method]. rewrite get_origin. apply String.eqb_neq in ON. rewrite ON.
    unfold originAllowed. rewrite AO, M, MA. cbn [orb negb app]. destruct (co_exposed o), (co_credentials o); reflexivity.
  - intros k v I. apply (go_headers _ _ _ _ _ _ _ G) in I. cbn in I. destruct I as [<-|[<-|[<-|[]]]]; discriminate.
Qed.

Lemma created_low hs wv n : In n (unsafeNames (headerList (createHeaders hs wv))) -> to_lower n = n.
Proof. intros I. apply unsafe_name in I. destruct I as [(k & _ & <-) _]. apply to_lower_idem. Qed.

(** all calls, go-chi/cors *)
Definition Tokens (hs : list (string * string)) : Prop := forall k v, In (k, v) hs -> isTokenName k = true.
Lemma created_tokens hs wv : Tokens hs -> forallb (fun h : string * string => isTokenName (fst h)) (createHeaders hs wv) = true.
Proof.
  intros T. apply forallb_forall. intros h I. assert (J : In (fst h) (map fst (createHeaders hs wv))) by (apply in_map, I). apply created_names in J.
  destruct J as [->|[->|J]]; [reflexivity|reflexivity|]. apply in_map_iff in J. destruct J as ((k & v) & <- & J). apply (T k v J).
Qed.
Lemma created_not_tokens hs wv k v : In (k, v) hs -> isTokenName k = false -> forallb (fun h : string * string => isTokenName (fst h)) (createHeaders hs wv) = false.
Proof.
  intros I N. destruct (forallb _ _) eqn:E; [|reflexivity]. exfalso. rewrite forallb_forall in E.
  assert (J : In k (map fst (createHeaders hs wv))) by (apply created_names; right; right; apply in_map_iff; exists (k, v); auto).
  apply in_map_iff in J. destruct J as (h & <- & J). rewrite (E h J) in N. discriminate.
Qed.

Definition permitted (o : corsOptions) (include : bool) (hs : list (string * string)) (wv : string) : Prop :=
  Tokens hs /\ include = false /\ forall n, In n (unsafeNames (headerList (createHeaders hs wv))) -> Listed (co_headers o) n.

Lemma origin_not_unsafe hs wv o n : In n (unsafeNames (headerList (createHeaders hs wv))) ->
  (In n (map to_lower (co_headers o ++ ["Origin"])) <-> Listed (co_headers o) n).
Proof.
  intros I. rewrite listed_in, (created_low hs wv n I), map_app, in_app_iff. split; [|auto]. intros [H|[H|[]]]; [exact H|].
  apply unsafe_name in I. destruct I as [_ F]. change (to_lower "Origin") with "origin" in H. subst n. discriminate.
Qed.

Lemma go_cross o rec hv s ro impl origin include hs wv m b : PlainOptions o -> Origin origin ->
  let q := pageRequest hs wv (tsRequest s m hs wv b) in
  let f := crossFetch (corsHandler o (goHandler rec hv s ro impl)) origin include q in
  (permitted o include hs wv -> f = send (corsHandler o (goHandler rec hv s ro impl)) origin false q) /\
  (~ permitted o include hs wv -> f = (None, [])).
Proof.
  intros PO OR q f. set (U := unsafeNames (headerList (createHeaders hs wv))).
  assert (UN : U <> []) by apply unsafe_ne.
  assert (F : Tokens hs -> f = if preflightAllows origin include "POST" U (Answer 200 (preflightHeaders o (preflight origin q U)) "")
                 then send (corsHandler o (goHandler rec hv s ro impl)) origin include q else (None, [])).
  { intros T. unfold f, crossFetch. unfold q at 1. cbn [pageRequest g_headers]. rewrite (created_tokens hs wv T). cbn [negb]. cbv zeta.
    change (g_headers q) with (createHeaders hs wv). fold U.
    change (g_method q) with "POST". change (str_in "POST" ["GET"; "HEAD"; "POST"]) with true. destruct U as [|u U'] eqn:EU; [contradiction|]. rewrite <- EU in *. cbn [andb].
    assert (IP : isPreflight (preflight origin q U) = true) by (rewrite EU; reflexivity).
    unfold corsHandler at 1. rewrite IP. destruct (preflightAllows _ _ _ _ _); [|reflexivity].
    destruct (send _ _ _ _) as [r got]. reflexivity. }
  pose proof (go_preflight o origin include (routeOf s m) (createHeaders hs wv) b U PO OR UN (created_low hs wv)) as GP. cbv zeta in GP.
  change (Msg "POST" (routeOf s m) (createHeaders hs wv) b) with q in GP. split.
  - intros (T & -> & L). rewrite (F T). rewrite (proj2 GP); [reflexivity|]. split; [reflexivity|]. intros n I. apply (origin_not_unsafe hs wv o n I), L, I.
  - intros N. destruct (forallb (fun h : string * string => isTokenName (fst h)) (createHeaders hs wv)) eqn:T.
    + assert (T' : Tokens hs).
      { intros k v I. destruct (isTokenName k) eqn:E; [reflexivity|]. rewrite (created_not_tokens hs wv k v I E) in T. discriminate. }
      rewrite (F T'). destruct (preflightAllows _ _ _ _ _) eqn:A; [|reflexivity]. exfalso. apply N. destruct (proj1 GP eq_refl) as [-> L].
      split; [exact T'|]. split; [reflexivity|]. intros n I. apply (origin_not_unsafe hs wv o n I), L, I.
    + unfold f, crossFetch. unfold q at 1. cbn [pageRequest g_headers]. rewrite T. reflexivity.
Qed.

Lemma listed_permitted o hs wv : Forall Plain (co_headers o) -> Listed (co_headers o) "Content-Type" -> Listed (co_headers o) "Webrpc" ->
  AllListed (co_headers o) hs -> permitted o false hs wv.
Proof.
  intros PH LC LW L. split; [|split; [reflexivity|]].
  - intros k v I. apply plain_is_token, (plain_listed _ k PH), (L k v I).
  - intros n I. apply unsafe_name in I. destruct I as [(k & I & <-) _]. rewrite listed_in, to_lower_idem, <- listed_in. apply created_names in I.
    destruct I as [->|[->|I]]; [exact LW|exact LC|]. apply in_map_iff in I. destruct I as ((k' & v) & <- & I). apply (L k' v I).
Qed.

Lemma hello_plain : PlainOptions helloCors.
Proof. split; [reflexivity|]. split; [reflexivity|]. repeat (constructor; [split; [discriminate|reflexivity]|]). constructor. Qed.
Lemma serverGo_plain : PlainOptions serverGoCors.
Proof. split; [reflexivity|]. split; [reflexivity|]. repeat (constructor; [split; [discriminate|reflexivity]|]). constructor. Qed.
