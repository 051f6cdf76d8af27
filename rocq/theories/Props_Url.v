(** C61: the URLs of generated clients lead to the routes of the server.  Theorems only; specification in UrlSpec.v. *)
From Verif Require Import Base Uri Schema Url PathSpec UrlSpec UrlWeb UrlTs.

(** A Go client reaches the method's route, below the directory the address leads to, whatever query and fragment
    the address has: exactly if the base path is made of names without escapes. *)
Theorem C61_go_clients_reach_the_route : forall a h d b0 b svc m,
  Address a h d -> checkBasePath goUriOk b0 = Ok b -> b <> "" -> Ident svc -> Ident m ->
  (goSends (goMethodURL a (b ++ svc ++ "/") m) = Some (h, dirText d ++ b ++ svc ++ "/" ++ m)%string <-> NamedBase b).
Proof. exact go_reaches_iff. Qed.
Print Assumptions C61_go_clients_reach_the_route.

(** A TypeScript client does, below the path of the host name it was given, exactly if the base path has no escape,
    no backslash, no "." and no "..". *)
Theorem C61_ts_clients_reach_the_route : forall s h d n b0 b svc m,
  HttpScheme s -> HostPort h -> Forall PlainName d -> checkBasePath goUriOk b0 = Ok b -> b <> "" -> Ident svc -> Ident m ->
  exists rest, tsMethodURL (s ++ "://" ++ h ++ dirText d ++ slashesOf n) (b ++ svc ++ "/") m = (s ++ "://" ++ h ++ rest)%string /\
    (webSends rest = Some (dirText d ++ b ++ svc ++ "/" ++ m)%string <-> WebBase b).
Proof. exact ts_reaches_iff. Qed.
Print Assumptions C61_ts_clients_reach_the_route.

(** An older Go client keeps the address as it is and reaches the route exactly if the base path has no escape. *)
Theorem C61_older_go_clients_reach_the_route : forall s h d b0 b svc m,
  HttpScheme s -> HostPort h -> Forall PlainName d -> checkBasePath goUriOk b0 = Ok b -> b <> "" -> Ident svc -> Ident m ->
  (goSends (oldMethodURL (s ++ "://" ++ h ++ dirText d) (b ++ svc ++ "/") m) = Some (h, dirText d ++ b ++ svc ++ "/" ++ m)%string <->
   contains_byte "%" b = false).
Proof.
  intros s h d b0 b svc m HS HH PD CB BN IS IM.
  destruct (old_reaches s h (dirText d) b0 b svc m HS HH) as (x & X & G); [| |exact CB|exact BN|exact IS|exact IM|].
  - destruct d as [|e d]; [left; reflexivity|right]. cbn. eauto.
  - clear - PD. unfold Without. induction PD as [|e d [_ W] _ IH]; [reflexivity|].
    change (e :: d) with ([e] ++ d). rewrite UrlJoin.dirText_app, dirText1, !BaseProofs.sforall_app, IH.
    assert (We : Without "?#%" e).
    { unfold Without in *. revert W. apply UrlProofs.sforall_impl. intros c. rewrite !andb_true_iff. intros [A B]. split; [exact A|].
      destruct (contains_byte c "?#%") eqn:E; [|reflexivity]. exfalso. apply negb_true_iff in B. unfold contains_byte in *. cbn [sexists] in *.
      rewrite !orb_true_iff in E. rewrite !orb_false_iff in B. destruct B as (B1 & B2 & B3 & _). destruct E as [E|[E|[E|E]]]; congruence. }
    unfold Without in We. rewrite We. reflexivity.
  - rewrite G. destruct (UrlProofs.unescape_length _ _ X) as [L E]. split.
    + intros [= H]. apply BaseProofs.sapp_inv_head in H. apply E. apply (f_equal String.length) in H. rewrite !BaseProofs.slength_app in H. lia.
    + intros N. rewrite (UrlProofs.unescape_plain _ N) in X. injection X as <-. reflexivity.
Qed.
Print Assumptions C61_older_go_clients_reach_the_route.

(** ** Where it fails *)

(** Base paths that are accepted, but no Go client of the schema reaches its own server. *)
Theorem C61_accepted_base_paths_are_reached_refuted : forall a h d svc m, Address a h d -> Ident svc -> Ident m ->
  Forall (fun b0 => exists b, checkBasePath goUriOk b0 = Ok b /\
      goSends (goMethodURL a (b ++ svc ++ "/") m) <> Some (h, dirText d ++ b ++ svc ++ "/" ++ m)%string)
    ["/api//v1"; "/api/../v1"; "./v1"; "/my%20api"].
Proof.
  intros a h d svc m A IS IM.
  assert (N : forall es e, Forall (fun e => Name e /\ contains_byte "%" e = false) es -> In e es -> Name e /\ contains_byte "%" e = false).
  { intros es e F I. rewrite Forall_forall in F. apply F, I. }
  assert (K : forall b0 b, checkBasePath goUriOk b0 = Ok b -> b <> "" ->
    (exists e, In e (split_byte "/" (drop 1 b)) /\ (contains_byte "%" e = true \/ str_in e [""; "."; ".."] = true) /\ split_byte "/" (drop 1 b) = removelast (split_byte "/" (drop 1 b)) ++ [""] /\ In e (removelast (split_byte "/" (drop 1 b)))) ->
    exists b, checkBasePath goUriOk b0 = Ok b /\ goSends (goMethodURL a (b ++ svc ++ "/") m) <> Some (h, dirText d ++ b ++ svc ++ "/" ++ m)%string).
  { intros b0 b C BN (e & _ & BAD & SP & I). exists b. split; [exact C|]. intros G. apply (go_reaches_iff a h d b0 b svc m A C BN IS IM) in G.
    destruct G as (es & F & E).
    assert (S : split_byte "/" (drop 1 b) = es ++ [""]).
    { rewrite E, UrlJoin.dirText_dirT. cbn [append drop]. apply UrlJoin.split_dirT. eapply Forall_impl; [|exact F]. intros x [(_ & _ & _ & X) _]. exact X. }
    rewrite SP in S. apply app_inj_tail in S as [S _]. rewrite S in I. destruct (N es e F I) as [(N1 & N2 & N3 & _) N4].
    destruct BAD as [B|B]; [congruence|]. apply BaseProofs.str_in_In in B. cbn in B. intuition congruence. }
  constructor; [|constructor; [|constructor; [|constructor; [|constructor]]]].
  - apply (K _ "/api//v1/"); [reflexivity|discriminate|]. exists "". vm_compute. intuition.
  - apply (K _ "/api/../v1/"); [reflexivity|discriminate|]. exists "..". vm_compute. intuition.
  - apply (K _ "/./v1/"); [reflexivity|discriminate|]. exists ".". vm_compute. intuition.
  - apply (K _ "/my%20api/"); [reflexivity|discriminate|]. exists "my%20api". vm_compute. intuition.
Qed.
Print Assumptions C61_accepted_base_paths_are_reached_refuted.

(** A host name with a query sends every call of a TypeScript client to "/". *)
Theorem C61_ts_clients_drop_queries_refuted : forall s h q prefix m, HttpScheme s -> HostPort h ->
  exists rest, tsMethodURL (s ++ "://" ++ h ++ "?" ++ q) prefix m = (s ++ "://" ++ h ++ rest)%string /\ webSends rest = Some "/".
Proof.
  intros s h q prefix m HS HH. exists ("?" ++ stripSlashes q ++ prefix ++ m)%string. split; [|apply web_query].
  pose proof (origin_end s h HS HH [] (Forall_nil _)) as E. change (dirText []) with "" in E. rewrite BaseProofs.sapp_nil_r in E.
  unfold tsMethodURL. replace (s ++ "://" ++ h ++ "?" ++ q)%string with ((s ++ "://" ++ h) ++ ("?" ++ q))%string by (rewrite !BaseProofs.sapp_assoc; reflexivity).
  rewrite strip_app by exact E. rewrite (strip_app "?") by reflexivity. rewrite !BaseProofs.sapp_assoc. reflexivity.
Qed.
Print Assumptions C61_ts_clients_drop_queries_refuted.

(** An older Go client whose address ends with a slash reaches no route, ... *)
Theorem C61_older_go_clients_take_slashes_refuted : forall s h b0 b svc m,
  HttpScheme s -> HostPort h -> checkBasePath goUriOk b0 = Ok b -> b <> "" -> contains_byte "%" b = false -> Ident svc -> Ident m ->
  goSends (oldMethodURL (s ++ "://" ++ h ++ "/") (b ++ svc ++ "/") m) = Some (h, "/" ++ b ++ svc ++ "/" ++ m)%string.
Proof.
  intros s h b0 b svc m HS HH CB BN NP IS IM.
  destruct (old_reaches s h "/" b0 b svc m HS HH) as (x & X & G); [right; exists ""; reflexivity|reflexivity|exact CB|exact BN|exact IS|exact IM|].
  rewrite (UrlProofs.unescape_plain _ NP) in X. injection X as <-. exact G.
Qed.
Print Assumptions C61_older_go_clients_take_slashes_refuted.

(** ... and no scheme is added to an address like localhost:8080: no request is sent, by either Go client. *)
Theorem C61_addresses_without_scheme_refuted : forall h port b0 b svc m,
  HostName h -> sforall is_digit_byte port = true -> port <> "" ->
  checkBasePath goUriOk b0 = Ok b -> b <> "" -> Ident svc -> Ident m ->
  goSends (goMethodURL (h ++ ":" ++ port) (b ++ svc ++ "/") m) = None /\
  goSends (oldMethodURL (h ++ ":" ++ port) (b ++ svc ++ "/") m) = None.
Proof. exact schemeless_unreached. Qed.
Print Assumptions C61_addresses_without_scheme_refuted.

(** A question mark at the end of the address loses the method. *)
Theorem C61_question_marks_refuted :
  serviceURL "http://localhost:4242?" "/v1/Chat/" = "http://localhost:4242/v1/Chat/?" /\
  goSends (goMethodURL "http://localhost:4242?" "/v1/Chat/" "SendMessage") = Some ("localhost:4242", "/v1/Chat/").
Proof. split; vm_compute; reflexivity. Qed.
Print Assumptions C61_question_marks_refuted.

(** ** An example: a proxy, dots, a query and a fragment *)
Example C61_example_address : Address "HTTPS://example.com:8080//old/../proxy/?key=1#top" "example.com:8080" ["proxy"].
Proof.
  refine (Addr "HTTPS" "example.com:8080" "//old/../proxy/" "?key=1" "#top" ["proxy"] (or_intror eq_refl) (HostWithPort "example.com" "8080" (conj _ eq_refl) eq_refl) _ (QuerySome "key=1" _ eq_refl) (FragmentSome "top" eq_refl)); try discriminate.
  refine (PathSome "/old/../proxy/" _ ["proxy"] eq_refl (PathProofs.elements_split _) _). cbn.
  assert (Name "old" /\ Name "proxy") as [N1 N2] by (repeat split; discriminate).
  apply WalkStay; [left; reflexivity|]. apply WalkDown; [exact N1|]. apply (WalkUp true [] "old"). apply WalkDown; [exact N2|].
  apply WalkStay; [left; reflexivity|]. constructor.
Qed.
Example C61_example :
  goSends (goMethodURL "HTTPS://example.com:8080//old/../proxy/?key=1#top" "/api/v1/Chat/" "SendMessage") =
    Some ("example.com:8080", "/proxy/api/v1/Chat/SendMessage") /\ NamedBase "/api/v1/" /\ WebBase "/api//v1(x)/".
Proof.
  split; [vm_compute; reflexivity|]. split.
  - exists ["api"; "v1"]. split; [|reflexivity]. repeat constructor; discriminate.
  - split; [reflexivity|]. split; [reflexivity|]. eexists. split; [apply PathProofs.elements_split|]. vm_compute. intuition discriminate.
Qed.
