(** Proofs about calls across origins: the Node server and hono. *)
From Verif Require Import Base BaseProofs Json GoVal Rpc TsCall Cors CorsSpec CorsProofs CorsMain CorsNode.
From Verif Require Import NodeHttp NodeSpec NodeProofs.
From Verif Require Import Cors.

(** ** Header lists without repeated names *)
Definition Uniq (hs : list (string * string)) : Prop := NoDup (map (fun h => to_lower (fst h)) hs).
Lemma put_keys_low k v hs x : In x (map (fun h : string * string => to_lower (fst h)) (putHeader k v hs)) <-> x = to_lower k \/ In x (map (fun h => to_lower (fst h)) hs).
Proof.
  induction hs as [|[k' v'] t IH]; cbn [putHeader]; [cbn; intuition|]. destruct (String.eqb_spec (to_lower k) (to_lower k')) as [E|E]; cbn [map fst In].
  - rewrite E. intuition.
  - rewrite IH. intuition.
Qed.
Lemma put_uniq k v hs : Uniq hs -> Uniq (putHeader k v hs).
Proof.
  unfold Uniq. induction hs as [|[k' v'] t IH]; intros H; cbn [putHeader]; [constructor; [intros []|constructor]|].
  cbn [map fst] in H. inversion H as [|? ? N ND]; subst. destruct (String.eqb_spec (to_lower k) (to_lower k')) as [E|E]; cbn [map fst].
  - constructor; [rewrite E; exact N|exact ND].
  - constructor; [|apply IH, ND]. rewrite put_keys_low. intros [X|X]; [congruence|contradiction].
Qed.
Lemma puts_uniq own : forall hs, Uniq hs -> Uniq (putHeaders own hs).
Proof. induction own as [|[k v] t IH]; intros hs H; [exact H|]. unfold putHeaders. cbn [fold_left]. apply IH, put_uniq, H. Qed.

Lemma get_header name hs : Uniq hs -> to_lower name = name -> headerGet name hs = header name hs.
Proof.
  intros U L. induction hs as [|[k v] t IH]; [reflexivity|]. inversion U as [|? ? N ND]; subst. specialize (IH ND).
  unfold headerGet in *. cbn [filter fst header]. rewrite L, (String.eqb_sym name). destruct (String.eqb_spec (to_lower k) name) as [E|E]; [|exact IH].
  cbn [map snd]. rewrite get_none; [reflexivity|]. intros k' v' I E'. apply N. cbn [fst]. rewrite E, <- E'. apply in_map_iff. exists (k', v'). auto.
Qed.

Lemma common_uniq e q : Uniq (common e q).
Proof. unfold Uniq, common. cbn. repeat (constructor; [cbn; intros H; repeat (destruct H as [H|H]; [discriminate|]); contradiction|]). constructor. Qed.

(** what the Node server sends *)
Lemma node_head rpc e q st f status hs : server rpc e q = (st, f) -> r_head (s_res st) = Some (status, hs) -> exists own, hs = putHeaders own (common e q).
Proof.
  intros S H. destruct (server_inner rpc e q) as (st' & S' & _ & _ & R). rewrite S in S'. injection S' as <- _.
  destruct (inner rpc e q) as [sti fi] eqn:I. cbn [fst snd] in R. destruct (inner_general rpc e q sti fi I) as [_ G]. destruct fi.
  - destruct R as [R _]. rewrite R in H. destruct G as [G|(_ & st1 & own & body & G & _)]; rewrite G in H; [discriminate|]. cbn in H. injection H as <- <-. exists own. reflexivity.
  - cbv zeta in R. destruct R as [_ R]. destruct G as [G|[G _]]; [|discriminate]. rewrite G in R. cbn [headersSent startRes r_head r_headers r_body r_ended] in R.
    rewrite R in H. unfold endWith in H. cbn [r_ended r_head] in H. injection H as <- <-. exists [("Content-Type", "application/json")]. reflexivity.
  - subst sti. destruct G as [G|[G _]]; [|discriminate]. rewrite G in H. discriminate.
Qed.

Lemma node_preflight rpc e origin q U : U <> [] -> exists hs,
  nodeServer rpc e (preflight origin q U) = (Some (Answer 204 hs EmptyString), []) /\
  headerGet "access-control-allow-origin" hs = Some "*" /\
  headerGet "access-control-allow-methods" hs = Some "GET,POST,PUT,PATCH,DELETE,OPTIONS" /\
  headerGet "access-control-allow-headers" hs = Some (match join "," U with EmptyString => "Content-Type, Authorization" | v => v end).
Proof.
  intros N. set (m := preflight origin q U).
  assert (PF : Preflight (nodeRequest m)) by reflexivity.
  destruct (answered rpc e (nodeRequest m) 204 [] EmptyString (A_preflight _ _ _ PF)) as (st & S & (EN & (hs & H & HV) & B)).
  destruct (node_head rpc e (nodeRequest m) st _ _ _ S H) as (own & O).
  assert (UQ : Uniq hs) by (rewrite O; apply puts_uniq, common_uniq).
  assert (C : s_calls st = []).
  { destruct (server_inner rpc e (nodeRequest m)) as (st' & S' & C & _). rewrite S in S'. injection S' as <-. rewrite C. reflexivity. }
  exists hs. unfold nodeServer. rewrite S. cbn [fst]. rewrite H, EN, C. split.
  - cbn [map]. repeat f_equal. apply (proj1 B). right. right. left. reflexivity.
  - rewrite !get_header by (exact UQ || reflexivity). rewrite !HV. split; [reflexivity|]. split; [reflexivity|].
    unfold m, preflight, common, nodeRequest. cbn [rev header]. cbn [q_headers Cors.g_headers]. destruct U as [|u U]; [contradiction|].
    change (lookup "access-control-request-headers" _) with (Some (join "," (u :: U))). destruct U as [|u2 U]; destruct u; reflexivity.
Qed.

Lemma node_answer_origin rpc e m a got : nodeServer rpc e m = (Some a, got) ->
  (forall id ctx path j status hs v, rpc id ctx path j = Answers status hs v -> NoCorsHeaders hs) ->
  headerGet "access-control-allow-origin" (a_headers a) = Some "*" /\ headerGet "access-control-expose-headers" (a_headers a) = None.
Proof.
  intros N P. unfold nodeServer in N. destruct (server rpc e (nodeRequest m)) as [st f] eqn:S. cbn [fst] in N.
  destruct (r_head (s_res st)) as [[status hs]|] eqn:H; [|discriminate]. destruct (r_ended (s_res st)); [|discriminate]. injection N as <- _. cbn [a_headers].
  destruct (node_head rpc e _ st f status hs S H) as (own & O).
  assert (UQ : Uniq hs) by (rewrite O; apply puts_uniq, common_uniq). rewrite !get_header by (exact UQ || reflexivity).
  (* the headers of its own *)
  destruct (server_inner rpc e (nodeRequest m)) as (st' & S' & _ & _ & R). rewrite S in S'. injection S' as <- ->. destruct (inner rpc e (nodeRequest m)) as [sti fi] eqn:I. cbn [fst snd] in R.
  assert (K : forall own', (forall k, In k (map fst own') -> has_prefix "access-control-" (to_lower k) = false) -> forall x w,
     has_prefix "access-control-" (to_lower x) = true -> header x (common e (nodeRequest m)) = w -> header x (putHeaders own' (common e (nodeRequest m))) = w).
  { intros own' O' x w X C. rewrite header_puts, header_none; [exact C|]. intros k' I' E. rewrite map_rev in I'. apply in_rev in I'. apply O' in I'. rewrite E in I'. congruence. }
  destruct (inner_general rpc e _ sti fi I) as [_ G]. destruct fi.
  - destruct R as [R _]. rewrite R in H. destruct G as [G|(_ & st1 & own' & body & G & OH)]; rewrite G in H; [discriminate|]. cbn in H. injection H as <- <-.
    assert (X : forall k, In k (map fst own') -> has_prefix "access-control-" (to_lower k) = false).
    { intros k J. destruct (OH k J) as [M|(j & s & hs' & b & R1 & M)]; [cbn in M; destruct M as [<-|[<-|[<-|[]]]]; reflexivity|].
      apply in_map_iff in M. destruct M as ((k' & v') & <- & M). apply (P _ _ _ _ _ _ _ R1 k' v' M). }
    split; apply (K own' X); reflexivity.
  - cbv zeta in R. destruct R as [_ R]. destruct G as [G|[G _]]; [|discriminate]. rewrite G in R. cbn [headersSent startRes r_head r_headers r_body r_ended] in R.
    rewrite R in H. unfold endWith in H. cbn [r_ended r_head] in H. injection H as <- <-.
    split; apply (K [("Content-Type", "application/json")]); try reflexivity; intros k [<-|[]]; reflexivity.
  - subst sti. destruct G as [G|[G _]]; [|discriminate]. rewrite G in H. discriminate.
Qed.

Lemma join_ne U : U <> [] -> Forall Token U -> join "," U <> EmptyString.
Proof.
  intros N F. destruct U as [|u U]; [contradiction|]. inversion F as [|? ? [T _] _]; subst. destruct u as [|c u]; [contradiction|]. destruct U; discriminate.
Qed.

Lemma unsafe_tokens hs wv : Tokens hs -> Forall Token (unsafeNames (headerList (createHeaders hs wv))).
Proof.
  intros T. apply Forall_forall. intros n I. apply unsafe_name in I. destruct I as [(k & I & <-) _]. apply created_names in I.
  assert (K : isTokenName k = true).
  { destruct I as [->|[->|I]]; [reflexivity|reflexivity|]. apply in_map_iff in I. destruct I as ((k' & v) & <- & I). apply (T k' v I). }
  apply token_iff in K. destruct K as [K1 K2]. split; [intros E; apply K1; destruct k; [reflexivity|discriminate]|]. rewrite token_lower. exact K2.
Qed.

Lemma cross_start srv origin include hs wv r : Tokens hs -> Rpc.q_method r = "POST" ->
  let q := pageRequest hs wv r in let U := unsafeNames (headerList (createHeaders hs wv)) in
  crossFetch srv origin include q =
  (let (p, got) := srv (preflight origin q U) in
   match p with
   | Some a => if preflightAllows origin include "POST" U a then let (x, got') := send srv origin include q in (x, got ++ got') else (None, got)
   | None => (None, got)
   end).
Proof.
  intros T M q U. unfold crossFetch. unfold q at 1. cbn [pageRequest g_headers]. rewrite (created_tokens hs wv T). cbn [negb]. cbv zeta.
  change (g_headers q) with (createHeaders hs wv). fold U. assert (GM : g_method q = "POST") by exact M. rewrite GM.
  pose proof (unsafe_ne hs wv) as N. fold U in N. destruct U as [|u U']; [contradiction|]. reflexivity.
Qed.

Lemma node_cross rpc e origin include hs wv r : Origin origin -> Tokens hs -> Rpc.q_method r = "POST" ->
  (forall id ctx path j status hs v, rpc id ctx path j = Answers status hs v -> NoCorsHeaders hs) ->
  let q := pageRequest hs wv r in
  crossFetch (nodeServer rpc e) origin include q = if include then (None, []) else nodeServer rpc e (actual origin q).
Proof.
  intros [ON OS] T M P q. unfold q. rewrite cross_start by assumption. cbv zeta. fold q. set (U := unsafeNames (headerList (createHeaders hs wv))).
  assert (UN : U <> []) by apply unsafe_ne. destruct (node_preflight rpc e origin q U UN) as (hd & E & HO & HM & HH). rewrite E.
  assert (FT : Forall Token U) by (apply unsafe_tokens, T).
  assert (HH' : headerGet "access-control-allow-headers" hd = Some (join "," U)) by (rewrite HH; pose proof (join_ne U UN FT) as X; destruct (join "," U); [contradiction|reflexivity]).
  assert (ST : String.eqb "*" origin = false) by (apply String.eqb_neq; congruence).
  unfold preflightAllows, corsCheck, extract. cbn [a_headers a_status]. rewrite HO, HM, HH', (listValues_comma U FT UN), ST.
  destruct include; [reflexivity|]. change (negb false && String.eqb "*" "*") with true. cbv iota.
  change (listValues "GET,POST,PUT,PATCH,DELETE,OPTIONS") with (Some ["GET"; "POST"; "PUT"; "PATCH"; "DELETE"; "OPTIONS"]).
  assert (FA : forallb (fun n => str_in n (map to_lower U) || negb false && str_in "*" U && negb (String.eqb n "authorization")) U = true).
  { apply forallb_forall. intros n I. apply orb_true_iff. left. apply str_in_In, in_map_iff. exists n. split; [|exact I]. apply (created_low hs wv n I). }
  cbv iota beta. rewrite FA. cbn [andb orb str_in existsb String.eqb Z.leb Z.compare Pos.compare Pos.compare_cont app].
  change (str_in "POST" ["GET"; "POST"; "PUT"; "PATCH"; "DELETE"; "OPTIONS"]) with true. cbn [andb orb].
  unfold send. destruct (nodeServer rpc e (actual origin q)) as [[a|] got] eqn:N; [|reflexivity].
  destruct (node_answer_origin rpc e _ a got N P) as [AO _]. unfold corsCheck. rewrite AO. reflexivity.
Qed.

(** ** hono *)
Lemma hono_cross (next : msg -> option answer) origin include hs wv r : Origin origin -> Rpc.q_method r = "POST" ->
  (forall m a, next m = Some a -> NoCorsHeaders (a_headers a)) ->
  let q := pageRequest hs wv r in
  let ok := Tokens hs /\ forall n, In n (unsafeNames (headerList (createHeaders hs wv))) -> Listed ["Content-Type"; "Authorization"; "Webrpc"] n in
  (ok -> crossFetch (honoCors next) origin include q =
     (match next (actual origin q) with
      | Some a => Some (Answer (a_status a) (replaceHeaders (a_headers a) (honoHeaders (actual origin q))) (a_body a)) | None => None end, [actual origin q])) /\
  (~ ok -> crossFetch (honoCors next) origin include q = (None, [])).
Proof.
  intros [ON OS] M P q ok. set (U := unsafeNames (headerList (createHeaders hs wv))).
  assert (UN : U <> []) by apply unsafe_ne.
  set (pre := Answer 204 (honoHeaders (preflight origin q U) ++
       [("Access-Control-Max-Age", "86400"); ("Access-Control-Allow-Methods", "GET,POST,PUT,PATCH,DELETE,OPTIONS");
        ("Access-Control-Allow-Headers", "Content-Type,Authorization,Webrpc"); ("Vary", "Access-Control-Request-Headers")]) EmptyString).
  assert (H0 : honoCors next (preflight origin q U) = (Some pre, [])) by reflexivity.
  assert (RO : requestHeader "origin" (preflight origin q U) = origin) by (destruct U; [contradiction|reflexivity]).
  assert (HP : preflightAllows origin include "POST" U pre = forallb (fun n => str_in n ["content-type"; "authorization"; "webrpc"]) U).
  { unfold pre, honoHeaders. rewrite RO. apply String.eqb_neq in ON. rewrite ON. cbv zeta. unfold preflightAllows, corsCheck, extract. cbn [a_headers a_status app].
    change (headerGet "access-control-allow-origin" _) with (Some origin). change (headerGet "access-control-allow-credentials" _) with (Some "true").
    change (headerGet "access-control-allow-methods" _) with (Some "GET,POST,PUT,PATCH,DELETE,OPTIONS").
    change (headerGet "access-control-allow-headers" _) with (Some "Content-Type,Authorization,Webrpc").
    change (listValues "GET,POST,PUT,PATCH,DELETE,OPTIONS") with (Some ["GET"; "POST"; "PUT"; "PATCH"; "DELETE"; "OPTIONS"]).
    change (listValues "Content-Type,Authorization,Webrpc") with (Some ["Content-Type"; "Authorization"; "Webrpc"]). cbv iota beta.
    apply String.eqb_neq in OS. rewrite OS, andb_false_r, String.eqb_refl. cbn [negb]. change (String.eqb "true" "true") with true.
    replace (if negb include then true else true) with true by (destruct include; reflexivity).
    change (str_in "POST" ["GET"; "POST"; "PUT"; "PATCH"; "DELETE"; "OPTIONS"]) with true. change (str_in "*" ["Content-Type"; "Authorization"; "Webrpc"]) with false.
    change (map to_lower ["Content-Type"; "Authorization"; "Webrpc"]) with ["content-type"; "authorization"; "webrpc"]. cbn [andb orb Z.leb Z.compare Pos.compare Pos.compare_cont].
    assert (X : forall l, forallb (fun n => str_in n ["content-type"; "authorization"; "webrpc"] || negb include && false && negb (String.eqb n "authorization")) l =
      forallb (fun n => str_in n ["content-type"; "authorization"; "webrpc"]) l).
    { induction l as [|u l IH]; [reflexivity|]. cbn [forallb]. rewrite IH, andb_false_r. cbn [andb]. rewrite orb_false_r. reflexivity. }
    apply X. }
  assert (LI : forall n, In n U -> (Listed ["Content-Type"; "Authorization"; "Webrpc"] n <-> In n ["content-type"; "authorization"; "webrpc"])).
  { intros n I. rewrite listed_in, (created_low hs wv n I). reflexivity. }
  split.
  - intros [T L]. unfold q. rewrite cross_start by assumption. cbv zeta. fold q. fold U. rewrite H0, HP.
    assert (FA : forallb (fun n => str_in n ["content-type"; "authorization"; "webrpc"]) U = true) by (apply forallb_forall; intros n I; apply str_in_In, (LI n I), L, I).
    rewrite FA. unfold send. assert (HN : honoCors next (actual origin q) = (match next (actual origin q) with
      | Some a => Some (Answer (a_status a) (replaceHeaders (a_headers a) (honoHeaders (actual origin q))) (a_body a)) | None => None end, [actual origin q])).
    { unfold honoCors. assert (GM : g_method (actual origin q) = "POST") by exact M. rewrite GM. reflexivity. }
    rewrite HN. destruct (next (actual origin q)) as [a|] eqn:NX; [|reflexivity].
    assert (C : corsCheck origin include (Answer (a_status a) (replaceHeaders (a_headers a) (honoHeaders (actual origin q))) (a_body a)) = true); [|rewrite C; reflexivity].
    assert (RA : requestHeader "origin" (actual origin q) = origin) by (unfold requestHeader, actual; cbn [g_headers]; rewrite get_origin; reflexivity).
    assert (ND : forall k v name, In (k, v) (a_headers a) -> has_prefix "access-control-" name = true -> to_lower k <> name).
    { intros k v name I X E. apply (P _ _ NX) in I. rewrite E in I. congruence. }
    unfold corsCheck. cbn [a_headers]. rewrite !get_replace by (intros k v I; apply (ND k v _ I); reflexivity).
    unfold honoHeaders. rewrite RA. cbv zeta. apply String.eqb_neq in ON. rewrite ON. cbn [app].
    change (headerGet "access-control-allow-origin" _) with (Some origin). change (headerGet "access-control-allow-credentials" _) with (Some "true"). cbv iota.
    rewrite String.eqb_refl. cbn [negb]. apply String.eqb_neq in OS. rewrite OS, andb_false_r. destruct include; reflexivity.
  - intros N. destruct (forallb (fun h : string * string => isTokenName (fst h)) (createHeaders hs wv)) eqn:T.
    + assert (T' : Tokens hs).
      { intros k v I. destruct (isTokenName k) eqn:E; [reflexivity|]. rewrite (created_not_tokens hs wv k v I E) in T. discriminate. }
      unfold q. rewrite cross_start by assumption. cbv zeta. fold q. fold U. rewrite H0, HP. destruct (forallb _ U) eqn:FA; [|reflexivity].
      exfalso. apply N. split; [exact T'|]. intros n I. apply (LI n I). rewrite forallb_forall in FA. apply str_in_In, FA, I.
    + unfold crossFetch. unfold q at 1. cbn [pageRequest g_headers]. rewrite T. reflexivity.
Qed.
