(** Proofs about URLs: TypeScript clients, older Go clients, addresses without scheme. *)
From Verif Require Import Base BaseProofs CliProofs Uri Ridl Schema Url PathSpec PathProofs UrlSpec UrlProofs UrlJoin UrlMain UrlWeb.

Lemma strip_slashes n : stripSlashes (slashesOf n) = "".
Proof. induction n as [|n IH]; [reflexivity|]. cbn [slashesOf append stripSlashes]. rewrite IH. reflexivity. Qed.

Lemma suffix_cons c r : r <> "" -> has_suffix "/" (String c r) = false -> has_suffix "/" r = false.
Proof.
  intros N H. destruct (has_suffix "/" r) eqn:E; [|reflexivity]. apply has_suffix_iff in E as (z & ->).
  assert (X : has_suffix "/" (String c (z ++ "/")) = true) by (apply has_suffix_iff; exists (String c z); reflexivity). congruence.
Qed.

Lemma strip_app x y : has_suffix "/" x = false -> stripSlashes (x ++ y) = (x ++ stripSlashes y)%string.
Proof.
  induction x as [|c x IH]; intros H; [reflexivity|]. cbn [append stripSlashes]. destruct x as [|c' x].
  - cbn [append]. destruct (stripSlashes y) as [|k t]; [|reflexivity]. destruct (Ascii.eqb_spec c "/") as [->|_]; [discriminate|reflexivity].
  - rewrite IH by (apply (suffix_cons c); [discriminate|exact H]). cbn [append]. reflexivity.
Qed.

Lemma origin_end s h : HttpScheme s -> HostPort h -> forall d, Forall Name d -> has_suffix "/" (s ++ "://" ++ h ++ dirText d) = false.
Proof.
  intros HS HH d ND. destruct (has_suffix "/" _) eqn:E; [|reflexivity]. exfalso. apply has_suffix_iff in E as (z & Z).
  destruct d as [|e d _] using rev_ind.
  - cbn [dirText map sconcat] in Z. change (dirText []) with "" in Z. rewrite sapp_nil_r in Z. rewrite <- !sapp_assoc in Z.
    destruct (host_ok h HH) as (_ & _ & H3 & H4). destruct (suffix_last _ _ _ _ Z H4) as (y & ->).
    rewrite contains_byte_app in H3. apply orb_false_iff in H3 as [_ H3]. discriminate.
  - apply Forall_app in ND as [_ ND]. inversion ND as [|? ? (E1 & _ & _ & E2) _]; subst. rewrite dirText_app, dirText1 in Z. rewrite <- !sapp_assoc in Z.
    destruct (suffix_last _ _ _ _ Z E1) as (y & ->). rewrite contains_byte_app in E2. apply orb_false_iff in E2 as [_ E2]. discriminate.
Qed.

Lemma dirText_contains c l : Ascii.eqb "/" c = false -> (contains_byte c (dirText l) = false <-> Forall (fun e => contains_byte c e = false) l).
Proof.
  intros N. induction l as [|e l IH]; [split; [constructor|reflexivity]|].
  change (e :: l) with ([e] ++ l). rewrite dirText_app, dirText1, !contains_byte_app, !orb_false_iff, IH. cbn [app].
  assert (S : contains_byte c "/" = false) by (unfold contains_byte; cbn [sexists]; rewrite N; reflexivity). rewrite S.
  split; [intros [[_ A] B]; constructor; assumption|]. intros F. inversion F; subst. auto.
Qed.

Lemma dirText_join l : l <> [] -> dirText l = String "/" (join "/" l).
Proof.
  induction l as [|e l IH]; [congruence|]. intros _. change (e :: l) with ([e] ++ l) at 1. rewrite dirText_app, dirText1.
  destruct l as [|e' l]; [cbn [dirText map sconcat join]; apply sapp_nil_r|]. rewrite IH by discriminate. reflexivity.
Qed.

Lemma without_pct e : contains_byte "%" e = false -> pctOk e = true.
Proof. intros H. apply pctOk_unescape. exists e. apply unescape_plain, H. Qed.

Theorem ts_reaches_iff s h d n b0 b svc m : HttpScheme s -> HostPort h -> Forall PlainName d ->
  checkBasePath goUriOk b0 = Ok b -> b <> "" -> Ident svc -> Ident m ->
  exists rest, tsMethodURL (s ++ "://" ++ h ++ dirText d ++ slashesOf n) (b ++ svc ++ "/") m = (s ++ "://" ++ h ++ rest)%string /\
    (webSends rest = Some (dirText d ++ b ++ svc ++ "/" ++ m)%string <-> WebBase b).
Proof.
  intros HS HH PD CB BN IS IM. destruct (base_accepted b0 b CB BN) as (B1 & B2 & B3 & B4 & B5 & B6). destruct (base_elements b B1 B2) as (bs & SL & EB).
  destruct (ident_name svc IS) as (SN & SP & ST & _). destruct (ident_name m IM) as (MN & MP & MT & _).
  exists (dirText d ++ b ++ svc ++ "/" ++ m)%string. split.
  { unfold tsMethodURL. replace (s ++ "://" ++ h ++ dirText d ++ slashesOf n)%string with ((s ++ "://" ++ h ++ dirText d) ++ slashesOf n)%string by (rewrite !sapp_assoc; reflexivity).
    rewrite strip_app, strip_slashes by (apply origin_end; [exact HS|exact HH|]; eapply Forall_impl; [|exact PD]; intros e [K _]; exact K).
    rewrite sapp_nil_r, !sapp_assoc. reflexivity. }
  set (L := d ++ bs ++ [svc; m]).
  assert (EL : (dirText d ++ b ++ svc ++ "/" ++ m)%string = dirText L).
  { unfold L. rewrite !dirText_app, EB. change [svc; m] with ([svc] ++ [m]). rewrite dirText_app, !dirText1, !sapp_assoc. reflexivity. }
  assert (LN : L <> []) by (unfold L; intros X; apply app_eq_nil in X as [_ X]; destruct bs; discriminate).
  rewrite EL, dirText_join by exact LN.
  assert (SLL : Forall (fun e => contains_byte "/" e = false) L).
  { unfold L. apply Forall_app. split; [eapply Forall_impl; [|exact PD]; intros e [(_ & _ & _ & K) _]; exact K|]. apply Forall_app. split; [exact SL|].
    constructor; [apply SN|]. constructor; [apply MN|constructor]. }
  assert (LACK : forall c, contains_byte c "?#\%" = true -> contains_byte c svc = false /\ contains_byte c m = false).
  { intros c C. assert (T : forall c, negb (contains_byte c "?#\%") || negb (is_alpha_byte c || is_digit_byte c || Ascii.eqb c "_") = true) by (apply all_bytes; vm_compute; reflexivity).
    specialize (T c). rewrite C in T. cbn [negb orb] in T. apply negb_true_iff in T.
    split; [apply (sforall_not_contains _ _ _ (proj2 IS) T)|apply (sforall_not_contains _ _ _ (proj2 IM) T)]. }
  assert (CON : forall c, contains_byte c "?#\%" = true -> (contains_byte c (join "/" L) = false <-> contains_byte c b = false)).
  { intros c C. assert (N : Ascii.eqb "/" c = false) by (apply Ascii.eqb_neq; intros <-; discriminate).
    assert (J : contains_byte c (join "/" L) = contains_byte c (dirText L)).
    { rewrite dirText_join by exact LN. unfold contains_byte. cbn [sexists]. rewrite N. reflexivity. }
    rewrite J, dirText_contains by exact N. rewrite EB, contains_byte_app, orb_false_iff, dirText_contains by exact N.
    assert (S1 : contains_byte c "/" = false) by (unfold contains_byte; cbn [sexists]; rewrite N; reflexivity).
    destruct (LACK c C) as [LS LM]. unfold L. rewrite !Forall_app.
    split; [intros (_ & A & _); split; assumption|]. intros [A _]. split; [|split; [exact A|constructor; [exact LS|constructor; [exact LM|constructor]]]].
    eapply Forall_impl; [|exact PD]. intros e [_ W]. apply (without_not _ _ _ W).
    unfold contains_byte in *. cbn [sexists] in *. rewrite !orb_true_iff in *. tauto. }
  assert (PO : pctOk (join "/" L) = true).
  { assert (PF : Forall (fun e => pctOk e = true) L).
    { unfold L. rewrite !Forall_app. split; [eapply Forall_impl; [|exact PD]; intros e [_ W]; apply without_pct, (without_not _ _ _ W); reflexivity|].
      split; [apply pctOk_dirT; rewrite EB, dirText_dirT in B3; exact B3|]. constructor; [apply without_pct, SP|constructor; [apply without_pct, MP|constructor]]. }
    apply pctOk_unescape. eexists. apply unescape_join; assumption. }
  rewrite web_reaches_iff; [|apply CON; [reflexivity|exact B5]|apply CON; [reflexivity|exact B6]|exact PO].
  rewrite (split_join "/") by (try exact LN; intros x I; rewrite Forall_forall in SLL; apply SLL, I).
  assert (SB : split_byte "/" b = "" :: bs ++ [""]).
  { rewrite EB, dirText_dirT. cbn [append split_byte Ascii.eqb Bool.eqb]. rewrite split_dirT by exact SL. reflexivity. }
  rewrite CON by reflexivity. unfold WebBase. split.
  - intros [NB F]. unfold L in F. rewrite !Forall_app in F. destruct F as (_ & F & _).
    split; [|split; [exact NB|]].
    + rewrite EB, contains_byte_app, orb_false_iff. split; [|reflexivity]. apply dirText_contains; [reflexivity|]. eapply Forall_impl; [|exact F]. intros e (K & _). exact K.
    + exists (split_byte "/" b). split; [apply elements_split|]. rewrite SB.
      split; intros I; destruct I as [I|I]; try discriminate; apply in_app_iff in I as [I|[I|[]]]; try discriminate;
        rewrite Forall_forall in F; destruct (F _ I) as (_ & K1 & K2); congruence.
  - intros (NP & NB & es & EE & D1 & D2). apply elements_unique in EE. subst es. rewrite SB in D1, D2. split; [exact NB|].
    assert (NPB : Forall (fun e => contains_byte "%" e = false) bs).
    { rewrite EB, contains_byte_app in NP. apply orb_false_iff in NP as [NP _]. apply dirText_contains in NP; [exact NP|reflexivity]. }
    unfold L. rewrite !Forall_app. split; [|split].
    + eapply Forall_impl; [|exact PD]. intros e [(_ & K1 & K2 & _) W]. split; [apply (without_not _ _ _ W); reflexivity|split; assumption].
    + apply Forall_forall. intros e I. rewrite Forall_forall in NPB. split; [apply NPB, I|].
      split; intros ->; [apply D1|apply D2]; right; apply in_app_iff; left; exact I.
    + constructor; [split; [exact SP|split; apply SN]|]. constructor; [split; [exact MP|split; apply MN]|constructor].
Qed.

Lemma web_query q : webSends (String "?" q) = Some "/".
Proof. 
  assert (E : webPath (String "?" q) = "/").
  { unfold webPath, cutByte. cbn [index_byte Ascii.eqb Bool.eqb]. destruct (index_byte "#" q); cbn [fst take]; cbn [index_byte Ascii.eqb Bool.eqb fst take]; reflexivity. }
  unfold webSends. rewrite E. reflexivity.
Qed.

(** ** Older Go clients *)

Theorem old_reaches s h p b0 b svc m : HttpScheme s -> HostPort h -> (p = "" \/ exists p1, p = String "/" p1) -> Without "?#%" p ->
  checkBasePath goUriOk b0 = Ok b -> b <> "" -> Ident svc -> Ident m ->
  exists x, unescape b = Some x /\
    goSends (oldMethodURL (s ++ "://" ++ h ++ p) (b ++ svc ++ "/") m) = Some (h, p ++ x ++ svc ++ "/" ++ m)%string.
Proof.
  intros HS HH HP WP CB BN IS IM. destruct (base_accepted b0 b CB BN) as (B1 & B2 & B3 & B4 & B5 & B6).
  destruct (ident_name svc IS) as (SN & SP & ST & SU). destruct (ident_name m IM) as (MN & MP & MT & MU).
  pose proof B3 as BX. apply pctOk_unescape in BX as (x & BX). exists x. split; [exact BX|].
  assert (P1 : contains_byte "%" p = false) by (apply (without_not _ _ _ WP); reflexivity). pose proof (unescape_plain _ P1) as UP.
  unfold oldMethodURL, urlBase, urlParse.
  assert (NH : contains_byte "#" (s ++ "://" ++ h ++ p) = false).
  { destruct (scheme_letters s HS) as (S1 & _). destruct (host_ok h HH) as (_ & H2 & _). rewrite !contains_byte_app.
    rewrite (sforall_not_contains _ "#" _ S1 eq_refl), (sforall_not_contains _ "#" _ H2 eq_refl), (without_not _ _ "#" WP eq_refl). reflexivity. }
  rewrite index_none by exact NH. cbn [fst snd].
  replace (s ++ "://" ++ h ++ p)%string with (s ++ "://" ++ h ++ p ++ "")%string by (rewrite sapp_nil_r; reflexivity).
  rewrite parse_http; [|exact HS|exact HH|exact HP|exact (without_ctl _ _ WP)|apply (without_not _ _ _ WP); reflexivity|left; reflexivity].
  cbn [drop]. destruct (setPath_some (Url (to_lower s) "" h "" "" false false "" "") _ _ UP) as (v & V). rewrite V.
  assert (PS : p <> "*") by (intros ->; destruct HP as [X|[? X]]; discriminate).
  destruct (escaped_facts _ _ _ _ UP PS V) as (E1 & E2 & E3 & F1 & F2 & F3 & F4 & F5 & F6 & F7 & F8). cbn in F1, F2, F3, F4, F5, F6, F7, F8.
  assert (HS' : HttpScheme (to_lower s)) by (unfold HttpScheme; rewrite to_lower_idem; exact HS).
  destruct (scheme_letters _ HS') as (_ & SNE & _). destruct (host_ok h HH) as (_ & _ & _ & HN).
  rewrite F1. destruct (String.eqb_spec (to_lower s) "") as [X|_]; [congruence|].
  assert (US : urlString v = (to_lower s ++ "://" ++ h ++ escapedPath v)%string).
  { unfold urlString, queryPart. rewrite F1, F2, F3, F5, F6, F7, F8. cbn [String.eqb negb orb].
    destruct (String.eqb_spec (to_lower s) "") as [X|_]; [congruence|]. destruct (String.eqb_spec h "") as [X|_]; [congruence|]. cbn [andb negb].
    assert (SL : (if negb (String.eqb (escapedPath v) "") && negb (has_prefix "/" (escapedPath v)) && true then "/" else "") = "").
    { destruct E3 as [E3|E3]; rewrite E3; destruct HP as [->|(p1 & ->)]; reflexivity. }
    rewrite SL. rewrite ?sapp_nil_r, !sapp_assoc. cbn [append]. rewrite ?sapp_nil_r. reflexivity. }
  rewrite US, !sapp_assoc.
  assert (ALL : exists r, (escapedPath v ++ b ++ svc ++ "/" ++ m)%string = String "/" r).
  { apply has_prefix_iff in B1 as (b1 & ->). destruct E3 as [->| ->]; destruct HP as [->|(p1 & ->)]; cbn; eauto. }
  assert (CT : sexists is_ctl (escapedPath v ++ b ++ svc ++ "/" ++ m) = false).
  { rewrite !sexists_app, (target_not_ctl _ E2), B4, (target_not_ctl _ ST), (target_not_ctl _ MT). reflexivity. }
  assert (CQ : forall c, contains_byte c "?#" = true -> contains_byte c (escapedPath v ++ b ++ svc ++ "/" ++ m) = false).
  { intros c C. assert (TC : targetByte c = false).
    { assert (T : forall c, negb (contains_byte c "?#") || negb (targetByte c) = true) by (apply all_bytes; vm_compute; reflexivity).
      specialize (T c). rewrite C in T. apply negb_true_iff in T. exact T. }
    assert (BC : contains_byte c b = false).
    { unfold contains_byte in C. cbn [sexists] in C. rewrite !orb_true_iff in C. destruct C as [C|[C|C]]; [| |discriminate]; apply Ascii.eqb_eq in C; subst c; assumption. }
    assert (SC : contains_byte c "/" = false).
    { unfold contains_byte. cbn [sexists]. rewrite orb_false_r. apply Ascii.eqb_neq. intros <-. discriminate. }
    rewrite !contains_byte_app, BC, SC, (sforall_not_contains _ _ _ E2 TC), (sforall_not_contains _ _ _ ST TC), (sforall_not_contains _ _ _ MT TC). reflexivity. }
  assert (UN : unescape (escapedPath v ++ b ++ svc ++ "/" ++ m) = Some (p ++ x ++ svc ++ "/" ++ m)%string).
  { rewrite (unescape_app _ _ _ E1), (unescape_app _ _ _ BX), (unescape_app _ _ _ SU). cbn [append unescape Ascii.eqb Bool.eqb]. rewrite MU. reflexivity. }
  destruct ALL as (r & R). rewrite R in *. apply go_sends_any; [exact HS'|exact HH| | | |exact UN].
  - cbn [sexists] in CT. apply orb_false_iff in CT. apply CT.
  - specialize (CQ "?"%char eq_refl). unfold contains_byte in *. cbn [sexists] in CQ. apply orb_false_iff in CQ. apply CQ.
  - specialize (CQ "#"%char eq_refl). unfold contains_byte in *. cbn [sexists] in CQ. apply orb_false_iff in CQ. apply CQ.
Qed.

(** ** Addresses without scheme *)

Lemma scheme_name h : sforall nameByte h = true -> forall acc r, schemeGo false acc (h ++ String ":" r) = Some (Some ((acc ++ h)%string, r)).
Proof.
  induction h as [|c h IH]; intros H acc r; [cbn; rewrite sapp_nil_r; reflexivity|]. cbn [sforall] in H. apply andb_true_iff in H as [H1 H2].
  cbn [append schemeGo]. destruct (is_alpha_byte c) eqn:A; [rewrite IH by exact H2; rewrite sapp_assoc; reflexivity|].
  assert (D : is_digit_byte c || contains_byte c "+-." = true).
  { assert (T : forall c, negb (nameByte c) || is_alpha_byte c || (is_digit_byte c || contains_byte c "+-.") = true) by (apply all_bytes; vm_compute; reflexivity).
    specialize (T c). rewrite H1, A in T. exact T. }
  rewrite D, IH by exact H2. rewrite sapp_assoc. reflexivity.
Qed.

(** a host with a port, and what follows without query and fragment: no host is found *)
Lemma parse_schemeless h port r : HostName h -> sforall is_digit_byte port = true -> port <> "" ->
  sexists is_ctl r = false -> contains_byte "?" r = false -> contains_byte "#" r = false ->
  urlParse (h ++ ":" ++ port ++ r) = None \/
  urlParse (h ++ ":" ++ port ++ r) = Some (Url (to_lower h) (port ++ r) "" "" "" false false "" "").
Proof.
  intros [HN HB] PD PN RC RQ RF. fold nameByte in HB.
  assert (NT : forall x, sforall nameByte x = true -> sforall targetByte x = true).
  { intros x. apply sforall_impl. assert (T : forall c, negb (nameByte c) || targetByte c = true) by (apply all_bytes; vm_compute; reflexivity).
    intros c C. specialize (T c). rewrite C in T. exact T. }
  assert (PB : sforall nameByte port = true) by (revert PD; apply sforall_impl; intros c E; unfold nameByte; rewrite E, orb_true_r; reflexivity).
  assert (LK : forall c, targetByte c = false -> contains_byte c r = false -> contains_byte c (h ++ ":" ++ port ++ r) = false).
  { intros c T R. rewrite !contains_byte_app, R, (sforall_not_contains _ _ _ (NT _ HB) T), (sforall_not_contains _ _ _ (NT _ PB) T).
    unfold contains_byte. cbn [sexists]. destruct (Ascii.eqb_spec ":" c) as [<-|_]; [discriminate|reflexivity]. }
  unfold urlParse. rewrite index_none by (apply LK; [reflexivity|exact RF]). cbn [fst snd].
  unfold parse. rewrite !sexists_app, (target_not_ctl _ (NT _ HB)), (target_not_ctl _ (NT _ PB)), RC. cbn [sexists orb]. change (is_ctl ":") with false. cbn [orb].
  assert (NE : forall y, String.eqb (h ++ ":" ++ y) "" = false /\ String.eqb (h ++ ":" ++ y) "*" = false).
  { intros y. destruct h as [|c h]; [congruence|]. split; [reflexivity|]. apply String.eqb_neq. intros E. cbn [append] in E. injection E as -> E. destruct h; discriminate. }
  destruct (NE (port ++ r)%string) as [N1 N2]. rewrite N1, N2. cbn [andb].
  assert (QN : forall y, contains_byte "?" y = false -> (has_suffix "?" y && (count_byte "?" y =? 1) = false) /\ cutByte "?" y = (y, None)).
  { intros y Y. split; [|apply index_none, Y]. unfold count_byte. rewrite split_byte_none by exact Y. rewrite andb_false_r. reflexivity. }
  assert (Q1 : contains_byte "?" (h ++ ":" ++ port ++ r) = false) by (apply LK; [reflexivity|exact RQ]).
  assert (Q2 : contains_byte "?" (port ++ r) = false) by (rewrite contains_byte_app, RQ, (sforall_not_contains _ _ _ (NT _ PB)) by reflexivity; reflexivity).
  destruct h as [|c h]; [congruence|]. cbn [sforall] in HB. apply andb_true_iff in HB as [HC HB].
  change (String c h ++ ":" ++ port ++ r)%string with (String c (h ++ String ":" (port ++ r)))%string in *.
  destruct (is_alpha_byte c) eqn:A.
  - right. unfold getScheme. cbn [schemeGo]. rewrite A, scheme_name by exact HB. cbn [option_map append].
    destruct (QN _ Q2) as [K1 K2]. rewrite K1, K2. cbn [fst snd]. unfold parseRest.
    assert (NS : has_prefix "/" (port ++ r) = false).
    { destruct port as [|x port]; [congruence|]. cbn [append]. apply prefix_slash. intros ->. discriminate. }
    rewrite NS. reflexivity.
  - left. unfold getScheme. cbn [schemeGo]. rewrite A.
    assert (D : is_digit_byte c || contains_byte c "+-." = true).
    { assert (T : forall c, negb (nameByte c) || is_alpha_byte c || (is_digit_byte c || contains_byte c "+-.") = true) by (apply all_bytes; vm_compute; reflexivity).
      specialize (T c). rewrite HC, A in T. exact T. }
    rewrite D. cbn [option_map]. cbn [to_lower smap]. destruct (QN _ Q1) as [K1 K2]. rewrite K1, K2. cbn [fst snd]. unfold parseRest.
    assert (CS : Ascii.eqb c "/" = false) by (apply Ascii.eqb_neq; intros ->; discriminate).
    cbn [has_prefix]. rewrite Ascii.eqb_sym, CS. cbn [negb andb String.eqb].
    assert (HD : contains_byte ":" (hd "" (split_byte "/" (String c (h ++ String ":" (port ++ r))))) = true).
    { cbn [split_byte]. rewrite CS. rewrite split_prepend by (apply (sforall_not_contains _ _ _ HB); reflexivity).
      cbn [split_byte Ascii.eqb Bool.eqb]. destruct (split_byte "/" (port ++ r)) as [|y ys]; cbn [hd]; unfold contains_byte; cbn [sexists];
      rewrite sexists_app; cbn [sexists Ascii.eqb Bool.eqb orb]; rewrite !orb_true_r; reflexivity. }
    rewrite HD. reflexivity.
Qed.

Theorem schemeless_unreached h port b0 b svc m : HostName h -> sforall is_digit_byte port = true -> port <> "" ->
  checkBasePath goUriOk b0 = Ok b -> b <> "" -> Ident svc -> Ident m ->
  goSends (goMethodURL (h ++ ":" ++ port) (b ++ svc ++ "/") m) = None /\
  goSends (oldMethodURL (h ++ ":" ++ port) (b ++ svc ++ "/") m) = None.
Proof.
  intros HN PD PN CB BN IS IM. destruct (base_accepted b0 b CB BN) as (B1 & B2 & B3 & B4 & B5 & B6).
  destruct (ident_name svc IS) as (SN & SP & ST & SU). destruct (ident_name m IM) as (MN & MP & MT & MU).
  set (r := (b ++ svc ++ "/" ++ m)%string).
  assert (RC : sexists is_ctl r = false) by (unfold r; rewrite !sexists_app, B4, (target_not_ctl _ ST), (target_not_ctl _ MT); reflexivity).
  assert (RQ : contains_byte "?" r = false) by (unfold r; rewrite !contains_byte_app, B5, (sforall_not_contains _ "?" _ ST eq_refl), (sforall_not_contains _ "?" _ MT eq_refl); reflexivity).
  assert (RF : contains_byte "#" r = false) by (unfold r; rewrite !contains_byte_app, B6, (sforall_not_contains _ "#" _ ST eq_refl), (sforall_not_contains _ "#" _ MT eq_refl); reflexivity).
  assert (G : forall h', HostName h' -> goSends (h' ++ ":" ++ port ++ r) = None).
  { intros h' HN'. unfold goSends. destruct (parse_schemeless h' port r HN' PD PN RC RQ RF) as [->| ->]; [reflexivity|]. cbn [u_host u_scheme String.eqb]. rewrite orb_true_r. reflexivity. }
  pose proof (parse_schemeless h port "" HN PD PN eq_refl eq_refl eq_refl) as U. rewrite !sapp_nil_r in U.
  split.
  - unfold goMethodURL, serviceURL. destruct U as [->| ->]; cbn [u_host String.eqb]; rewrite !sapp_assoc; apply (G h HN).
  - unfold oldMethodURL, urlBase. destruct U as [->| ->]; [rewrite !sapp_assoc; apply (G h HN)|].
    assert (HL : HostName (to_lower h)).
    { destruct HN as [N B]. split; [destruct h; [congruence|discriminate]|]. clear - B. unfold to_lower. induction h as [|c h IH]; [reflexivity|].
      cbn [smap sforall] in *. apply andb_true_iff in B as [B1 B2]. rewrite (IH B2), andb_true_r.
      assert (T : forall c, negb (nameByte c) || nameByte (lower_byte c) = true) by (apply all_bytes; vm_compute; reflexivity).
      specialize (T c). unfold nameByte in T. rewrite B1 in T. exact T. }
    cbn [u_scheme]. destruct (String.eqb_spec (to_lower h) "") as [X|_]; [destruct HL; congruence|].
    unfold urlString, queryPart. cbn [u_opaque u_scheme u_forceQuery u_rawQuery u_fragment String.eqb negb orb].
    destruct (String.eqb_spec port "") as [X|_]; [congruence|]. destruct (String.eqb_spec (to_lower h) "") as [X|_]; [destruct HL; congruence|].
    cbn [negb]. rewrite !sapp_nil_r. rewrite !sapp_assoc. apply (G _ HL).
Qed.
