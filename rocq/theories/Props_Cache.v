(** C26, C27, C40: where templates come from. Theorems only. Specification: CacheSpec.v. *)
From Verif Require Import Base BaseProofs Schema Cli CliProofs BigIntProofs Cache CacheSpec CacheProofs.

(** C26. A first download that crashed after any number of steps: the next run either downloads again or, if
    it uses the cache, finds all templates of the download and nothing else. *)
Theorem C26_interrupted_first_download : forall target R now k refresh now' fetch stop l d',
  NoDup (map fst R) ->
  loadRemote target refresh now' fetch stop [(cacheDir target, crashed target R now k [])] = (Ok l, d') ->
  (exists R', fetch = Some R' /\ SameTemplates (l_files l) R') \/ SameTemplates (l_files l) R.
Proof.
  intros target R now k refresh now' fetch stop l d' Hnd H. apply loadRemote_cases in H. cbv zeta in H.
  assert (Ed : dirOf [(cacheDir target, crashed target R now k [])] (cacheDir target) = crashed target R now k []).
  { unfold dirOf. cbn [assoc]. now rewrite String.eqb_refl. }
  rewrite Ed in H. set (fs := crashed target R now k []) in *.
  assert (HC : fst (openCache fs) = true -> SameTemplates (templatesOf fs) R).
  { intros Ha f T. rewrite assoc_filter_templates by assumption.
    pose proof (crash_complete target R now k [] Hnd eq_refl Ha f T) as K. fold fs in K. destruct (assoc f R); assumption. }
  destruct (negb _ || refresh || _) eqn:En in H.
  - destruct fetch as [R'|].
    + left. exists R'. split; [reflexivity|]. destruct H as [_ H]. destruct (templatesOf R') eqn:Et; [discriminate|]. rewrite <- Et in H.
      destruct H as (v & H & _). injection H as ->. cbn [l_files]. intros g T. now apply assoc_filter_templates.
    + right. destruct H as [_ H]. destruct (fst (openCache fs)) eqn:Ea; [|discriminate].
      destruct (templatesOf fs) eqn:Et; [discriminate|]. injection H as ->. cbn [l_files]. now apply HC.
  - right. destruct H as [_ H]. apply orb_false_iff in En as [En _]. apply orb_false_iff in En as [En _]. apply negb_false_iff in En.
    destruct (templatesOf fs) eqn:Et; [discriminate|]. injection H as ->. cbn [l_files]. now apply HC.
Qed.
Print Assumptions C26_interrupted_first_download.

(** C26. While the repository does not change and no refresh of an existing cache is interrupted: after every
    sequence of runs, network failures, write failures and crashes, whatever a run loads is exactly the
    repository's templates. *)
Theorem C26_never_half_written : forall target R d refresh now fetch stop l d',
  NoDup (map fst R) -> History target R d -> fetch = None \/ fetch = Some R -> stop = None \/ ~ Available target d ->
  loadRemote target refresh now fetch stop d = (Ok l, d') -> SameTemplates (l_files l) R.
Proof.
  intros target R d refresh now fetch stop l d' Hnd HH Hf Hs H.
  pose proof (History_Inv target R d Hnd HH) as HI. destruct (load_Inv _ _ _ _ _ _ _ _ _ Hnd HI Hf Hs H) as [_ K]. now apply K.
Qed.
Print Assumptions C26_never_half_written.

(** C26. A completed download is usable: the next run without the network gets all its templates. *)
Theorem C26_completed_download_is_usable : forall target R now d r d' f data,
  NoDup (map fst R) -> (0 < now < 9223372036854775808)%N -> Template f -> In (f, data) R ->
  (forall refresh now', loadRemote target refresh now (Some R) None d = (r, d') ->
     refresh = true \/ ~ Available target d ->
     exists l d2, loadRemote target false now' None None d' = (Ok l, d2) /\ assoc f (l_files l) = Some data).
Proof.
  intros target R now d r d' f data Hnd Hn T Hin refresh now' H Hneed. apply loadRemote_cases in H. cbv zeta in H.
  assert (Ht : In (f, data) (templatesOf R)) by (unfold templatesOf; apply filter_In; split; [assumption|now apply isTemplate_iff]).
  assert (En : negb (fst (openCache (dirOf d (cacheDir target)))) || refresh || (ttl <? Z.of_N now - snd (openCache (dirOf d (cacheDir target))))%Z = true).
  { destruct Hneed as [->|Hu]; [now rewrite orb_true_r|]. rewrite available_open in Hu. destruct (fst (openCache _)); [exfalso; auto|reflexivity]. }
  rewrite En in H. destruct H as [-> _].
  destruct (loadRemote target false now' None None (mapSet (cacheDir target) (fst (cacheTemplates target R now None (dirOf d (cacheDir target)))) d)) as [r2 d2] eqn:E2.
  apply loadRemote_cases in E2. cbv zeta in E2. rewrite dirOf_mapSet in E2.
  assert (Ec : fst (cacheTemplates target R now None (dirOf d (cacheDir target))) = applyOps (cacheOps target R now) (dirOf d (cacheDir target))).
  { unfold cacheTemplates. destruct (templatesOf R); [contradiction|reflexivity]. }
  rewrite Ec in E2. set (fs := applyOps (cacheOps target R now) (dirOf d (cacheDir target))) in *.
  assert (Eo : openCache fs = (true, Z.of_N now)) by (apply openCache_stamp; [assumption|apply complete_stamp]).
  rewrite Eo in E2. cbn [fst snd negb orb] in E2.
  assert (Ef : assoc f (templatesOf fs) = Some data).
  { rewrite assoc_filter_templates by assumption. unfold fs. rewrite <- (firstn_all (cacheOps target R now)).
    apply stamp_prefix_templates; try assumption. rewrite cacheOps_eq, app_length. lia. }
  destruct (templatesOf fs) as [|p q] eqn:Et; [discriminate|].
  destruct (ttl <? Z.of_N now' - Z.of_N now)%Z; destruct E2 as [E2a E2b]; subst; eexists _, _; (split; [reflexivity|exact Ef]).
Qed.
Print Assumptions C26_completed_download_is_usable.

(** ** where the claim fails *)

Definition repo1 : files := [("a.go.tmpl", "old a"); ("b.go.tmpl", "old b"); ("README.md", "x")].
Definition repo2 : files := [("a.go.tmpl", "new a"); ("b.go.tmpl", "new b")].
Definition repo3 : files := [("a.go.tmpl", "new a")].
Definition tgt : string := "github.com/webrpc/gen-x".

(** the refresh of an existing cache is not atomic: after a crash the next run uses a mixture of two versions
    with a truncated file *)
Theorem C26_interrupted_refresh_refuted : exists k d1 d2 l,
  snd (loadRemote tgt false 1000 (Some repo1) None []) = d1 /\
  mapSet (cacheDir tgt) (crashed tgt repo2 2000 k (dirOf d1 (cacheDir tgt))) d1 = d2 /\
  fst (loadRemote tgt false 2001 None None d2) = Ok l /\
  l_refreshErr l = None /\ l_files l = [("a.go.tmpl", "new a"); ("b.go.tmpl", "ne")].
Proof. exists 9. eexists _, _, _. split; [vm_compute; reflexivity|]. split; [vm_compute; reflexivity|]. split; [vm_compute; reflexivity|]. split; vm_compute; reflexivity. Qed.
Print Assumptions C26_interrupted_refresh_refuted.

(** the cache directory is never emptied: a template removed from the repository stays in use after a
    completed refresh *)
Theorem C26_removed_template_refuted : exists d1 d2 l,
  snd (loadRemote tgt false 1000 (Some repo1) None []) = d1 /\
  snd (loadRemote tgt true 2000 (Some repo3) None d1) = d2 /\
  fst (loadRemote tgt false 2001 None None d2) = Ok l /\
  assoc "b.go.tmpl" repo3 = None /\ l_files l = [("a.go.tmpl", "new a"); ("b.go.tmpl", "old b")].
Proof. eexists _, _, _. split; [vm_compute; reflexivity|]. split; [vm_compute; reflexivity|]. split; [vm_compute; reflexivity|]. split; vm_compute; reflexivity. Qed.
Print Assumptions C26_removed_template_refuted.

(** ** C27 *)

(** C27. A usable cache of at most one hour is used without asking the network (whatever that would answer),
    unless a refresh is asked for; nothing is written. *)
Theorem C27_fresh_cache_is_used : forall target now fetch stop d r d' ts,
  Stamped target d ts -> (Z.of_N now - ts <= 3600)%Z ->
  loadRemote target false now fetch stop d = (r, d') ->
  d' = d /\
  ((forall f, Template f -> assoc f (dirOf d (cacheDir target)) = None) /\ r = Err "pattern matches no files" \/
   exists l, r = Ok l /\ SameTemplates (l_files l) (dirOf d (cacheDir target)) /\ l_fetched l = false /\ l_refreshErr l = None /\
     l_age l = (Z.of_N now - ts)%Z).
Proof.
  intros target now fetch stop d r d' ts Ha Hage H. apply stamped_open in Ha. apply loadRemote_cases in H. cbv zeta in H. rewrite Ha in H. cbn [fst snd negb orb] in H.
  unfold ttl in H. destruct (Z.ltb_spec 3600 (Z.of_N now - ts)); [lia|].
  destruct H as [-> H]. split; [reflexivity|].
  destruct (templatesOf (dirOf d (cacheDir target))) as [|p q] eqn:Et.
  - left. split; [|assumption]. intros f T. rewrite <- assoc_filter_templates, Et by assumption. reflexivity.
  - right. eexists. split; [exact H|]. cbn [l_files l_fetched l_refreshErr l_age]. repeat split. rewrite <- Et. intros f T. now apply assoc_filter_templates.
Qed.
Print Assumptions C27_fresh_cache_is_used.

(** C27. Otherwise the network is asked; what it gives is used, also if it cannot be stored. *)
Theorem C27_otherwise_fetched : forall target refresh now R stop d r d', target <> "" ->
  ~ Available target d \/ refresh = true \/ (exists ts, Stamped target d ts /\ (Z.of_N now - ts > 3600)%Z) ->
  loadRemote target refresh now (Some R) stop d = (r, d') ->
  (forall f, Template f -> assoc f R = None) /\ r = Err "pattern matches no files" \/
  exists l, r = Ok l /\ SameTemplates (l_files l) R /\ l_fetched l = true /\ l_version l = target /\ l_age l = 0%Z /\
            (stop = None -> l_refreshErr l = None).
Proof.
  intros target refresh now R stop d r d' Hne Hn H. rewrite ?available_open in *. apply loadRemote_cases in H. cbv zeta in H.
  assert (En : negb (fst (openCache (dirOf d (cacheDir target)))) || refresh || (ttl <? Z.of_N now - snd (openCache (dirOf d (cacheDir target))))%Z = true).
  { destruct Hn as [Hn|[->|(ts & Hs & Hn)]].
    - destruct (fst (openCache _)); [exfalso; auto|reflexivity].
    - now rewrite orb_true_r.
    - apply stamped_open in Hs. rewrite Hs. unfold ttl. cbn [fst snd].
      destruct (Z.ltb_spec 3600 (Z.of_N now - ts)); [now rewrite orb_true_r|lia]. }
  rewrite En in H. destruct H as [_ H]. destruct (templatesOf R) as [|p q] eqn:Et.
  - left. split; [|assumption]. intros f T. rewrite <- assoc_filter_templates, Et by assumption. reflexivity.
  - right. destruct H as (v & H & Hv). eexists. split; [exact H|]. cbn [l_files l_fetched l_version l_age l_refreshErr].
    split; [intros f T; rewrite <- Et; now apply assoc_filter_templates|]. split; [reflexivity|]. split; [auto|]. split; [reflexivity|].
    intros ->. unfold cacheTemplates. rewrite Et. reflexivity.
Qed.
Print Assumptions C27_otherwise_fetched.

(** C27. If the network fails, the cache is used however old it is, and the failure is reported; without a cache
    it is an error. *)
Theorem C27_failed_fetch_falls_back : forall target refresh now stop d r d', target <> "" ->
  ~ Available target d \/ refresh = true \/ (exists ts, Stamped target d ts /\ (Z.of_N now - ts > 3600)%Z) ->
  loadRemote target refresh now None stop d = (r, d') ->
  d' = d /\
  (~ Available target d /\ (exists e, r = Err e) \/
   exists ts, Stamped target d ts /\
   ((forall f, Template f -> assoc f (dirOf d (cacheDir target)) = None) /\ r = Err "pattern matches no files" \/
    exists l, r = Ok l /\ SameTemplates (l_files l) (dirOf d (cacheDir target)) /\ l_refreshErr l <> None /\ l_version l = target /\
      l_age l = (Z.of_N now - ts)%Z)).
Proof.
  intros target refresh now stop d r d' Hne Hn H. rewrite ?available_open in *. apply loadRemote_cases in H. cbv zeta in H.
  assert (En : negb (fst (openCache (dirOf d (cacheDir target)))) || refresh || (ttl <? Z.of_N now - snd (openCache (dirOf d (cacheDir target))))%Z = true).
  { destruct Hn as [Hn|[->|(ts & Hs & Hn)]].
    - destruct (fst (openCache _)); [exfalso; auto|reflexivity].
    - now rewrite orb_true_r.
    - apply stamped_open in Hs. rewrite Hs. unfold ttl. cbn [fst snd].
      destruct (Z.ltb_spec 3600 (Z.of_N now - ts)); [now rewrite orb_true_r|lia]. }
  rewrite En in H. destruct H as [-> H]. split; [reflexivity|].
  destruct (openCache (dirOf d (cacheDir target))) as [av ts] eqn:Eo. cbn [fst snd] in *.
  destruct av; [right; exists ts|left; split; [discriminate|eauto]]. split; [now apply stamped_open|].
  destruct (templatesOf (dirOf d (cacheDir target))) as [|p q] eqn:Et.
  - left. split; [|assumption]. intros f T. rewrite <- assoc_filter_templates, Et by assumption. reflexivity.
  - right. eexists. split; [exact H|]. cbn [l_files l_version l_age l_refreshErr]. apply String.eqb_neq in Hne. rewrite Hne.
    split; [intros f T; rewrite <- Et; now apply assoc_filter_templates|]. split; [discriminate|]. split; reflexivity.
Qed.
Print Assumptions C27_failed_fetch_falls_back.

(** C27. A completed download sets the timestamp to the time of the run. *)
Theorem C27_download_sets_the_timestamp : forall target refresh now R d r d',
  (0 < now < 9223372036854775808)%N -> (exists f, Template f /\ assoc f R <> None) ->
  ~ Available target d \/ refresh = true \/ (exists ts, Stamped target d ts /\ (Z.of_N now - ts > 3600)%Z) ->
  loadRemote target refresh now (Some R) None d = (r, d') ->
  Stamped target d' (Z.of_N now).
Proof.
  intros target refresh now R d r d' Hnow (f & T & Hf) Hn H. rewrite ?available_open in *. apply loadRemote_cases in H. cbv zeta in H.
  assert (En : negb (fst (openCache (dirOf d (cacheDir target)))) || refresh || (ttl <? Z.of_N now - snd (openCache (dirOf d (cacheDir target))))%Z = true).
  { destruct Hn as [Hn|[->|(ts & Hs & Hn)]].
    - destruct (fst (openCache _)); [exfalso; auto|reflexivity].
    - now rewrite orb_true_r.
    - apply stamped_open in Hs. rewrite Hs. unfold ttl. cbn [fst snd].
      destruct (Z.ltb_spec 3600 (Z.of_N now - ts)); [now rewrite orb_true_r|lia]. }
  rewrite En in H. destruct H as [-> _]. apply stamped_open. rewrite dirOf_mapSet. unfold cacheTemplates.
  destruct (templatesOf R) eqn:Et.
  - exfalso. apply Hf. rewrite <- assoc_filter_templates, Et by assumption. reflexivity.
  - cbn [fst]. rewrite (openCache_stamp _ now); [reflexivity|assumption|apply complete_stamp].
Qed.
Print Assumptions C27_download_sets_the_timestamp.

(** C27. Which targets share a cache directory: those with the same last path element and the same 32-bit hash. *)
Theorem C27_cache_directory : forall t t', cacheDir t = cacheDir t' <->
  fnv32a t = fnv32a t' /\ last (split_byte "/" t) "" = last (split_byte "/" t') "".
Proof. exact cacheDir_eq. Qed.
Print Assumptions C27_cache_directory.

(** "the cache of a target holds that target's templates" is false: two repositories can share it *)
Theorem C27_shared_cache_refuted : exists t t' d l,
  t <> t' /\ snd (loadRemote t false 1000 (Some [("a.go.tmpl", "code of t")]) None []) = d /\
  fst (loadRemote t' false 1001 (Some [("a.go.tmpl", "code of t'")]) None d) = Ok l /\ l_files l = [("a.go.tmpl", "code of t")].
Proof.
  exists "github.com/amrnw/gen", "github.com/a5pba/gen". eexists _, _. split; [discriminate|].
  split; [vm_compute; reflexivity|]. split; [vm_compute; reflexivity|]. reflexivity.
Qed.
Print Assumptions C27_shared_cache_refuted.

(** ** C40: targets *)

(** a line of go.mod that requires the embedded generator [name] at [version] *)
Definition Requires (line name version : string) : Prop :=
  In name ["golang"; "typescript"; "javascript"; "openapi"; "kotlin"; "dart"] /\ contains_byte " " version = false /\
  (line = modPrefix ++ name ++ " " ++ version \/ exists comment, line = modPrefix ++ name ++ " " ++ version ++ " " ++ comment)%string.
Definition Spelling (name version t : string) : Prop :=
  t = name \/ t = (name ++ "@" ++ version)%string \/ t = ("github.com/webrpc/gen-" ++ name)%string \/
  t = ("github.com/webrpc/gen-" ++ name ++ "@" ++ version)%string.

Lemma lineTargets_requires line t e : In (t, e) (lineTargets line) <->
  exists name version, Requires line name version /\ Spelling name version t /\ e = (name, ("github.com/webrpc/gen-" ++ name ++ "@" ++ version)%string).
Proof.
  unfold lineTargets. destruct (has_prefix modPrefix line) eqn:Ep.
  2:{ split; [contradiction|]. intros (name & version & (_ & _ & E) & _). exfalso.
      assert (K : exists r, line = (modPrefix ++ r)%string) by (destruct E as [->|[c ->]]; eauto).
      destruct K as [r ->]. assert (has_prefix modPrefix (modPrefix ++ r) = true) by (apply has_prefix_iff; eauto). congruence. }
  apply has_prefix_iff in Ep as [r ->].
  assert (Ed : drop (String.length modPrefix) (modPrefix ++ r) = r) by (clear; generalize modPrefix; induction s; cbn; auto).
  rewrite Ed. clear Ed.
  assert (Hinj : forall a b, (modPrefix ++ a)%string = (modPrefix ++ b)%string -> a = b).
  { generalize modPrefix. clear. induction s as [|c0 s IH]; cbn; intros a b H; [assumption|]. injection H as H. auto. }
  assert (Hns : forall n, In n embedded -> contains_byte " " n = false).
  { intros n Hn. cbn in Hn. repeat (destruct Hn as [<-|Hn]; [reflexivity|]). contradiction. }
  assert (HR : forall name version, Requires (modPrefix ++ r) name version <->
     In name embedded /\ exists rest, split_byte " " r = name :: version :: rest).
  { intros name version. split.
    - intros (H1 & H2 & H3).
      assert (H1' : In name embedded) by (cbn in *; tauto). split; [assumption|]. specialize (Hns name H1').
      destruct H3 as [H3|[c H3]]; apply Hinj in H3; rewrite H3.
      + exists []. change (" " ++ version)%string with (String " " version). rewrite split_byte_app by assumption. f_equal. now apply split_byte_none.
      + exists (split_byte " " c). change (" " ++ version ++ " " ++ c)%string with (String " " (version ++ String " " c)).
        rewrite split_byte_app by assumption. f_equal. now apply split_byte_app.
    - intros (H1 & rest & H2). split; [cbn in *; tauto|]. split.
      + apply (split_byte_no " " r). rewrite H2. right. now left.
      + pose proof (join_split " " r) as J. rewrite H2 in J. destruct rest as [|c rest].
        * left. rewrite <- J. reflexivity.
        * right. exists (join " " (c :: rest)). rewrite <- J. reflexivity. }
  destruct (split_byte " " r) as [|name [|version rest]] eqn:Es.
  - split; [contradiction|]. intros (n & v & Q & _). apply HR in Q as (_ & rest & Q). discriminate.
  - split; [contradiction|]. intros (n & v & Q & _). apply HR in Q as (_ & rest & Q). discriminate.
  - destruct (str_in name embedded) eqn:Ee.
    + apply str_in_In in Ee. split.
      * intro H. exists name, version. split; [apply HR; eauto|]. cbn [In] in H. unfold Spelling.
        destruct H as [H|[H|[H|[H|[]]]]]; injection H as <- <-; auto 6.
      * intros (n & v & Q & S & ->). apply HR in Q as (_ & rest' & Q). injection Q as <- <- <-. cbn [In].
        destruct S as [->|[->|[->| ->]]]; auto 6.
    + split; [contradiction|]. intros (n & v & Q & _). apply HR in Q as (Q1 & rest' & Q). injection Q as <- <- <-. apply str_in_In in Q1. congruence.
Qed.

Lemma assoc_fold_mapSet {A} (l : list (string * A)) : forall m k v,
  assoc k (fold_left (fun m p => mapSet (fst p) (snd p) m) l m) = Some v ->
  In (k, v) l \/ assoc k m = Some v.
Proof.
  induction l as [|[k0 v0] l IH]; intros m k v H; [now right|]. cbn [fold_left fst snd] in H. apply IH in H as [H|H]; [left; now right|].
  rewrite assoc_mapSet in H. destruct (String.eqb_spec k k0) as [->|]; [injection H as ->; left; now left|now right].
Qed.
Lemma assoc_fold_mapSet_some {A} (l : list (string * A)) : forall m k,
  (In k (map fst l) \/ assoc k m <> None) -> assoc k (fold_left (fun m p => mapSet (fst p) (snd p) m) l m) <> None.
Proof.
  induction l as [|[k0 v0] l IH]; intros m k H; [destruct H as [[]|H]; assumption|]. cbn [fold_left fst snd]. apply IH.
  rewrite assoc_mapSet. destruct (String.eqb_spec k k0); [right; discriminate|]. destruct H as [[H|H]|H]; [cbn in H; congruence|now left|now right].
Qed.

Definition isAlias (t : string) : Prop := t = "go" \/ t = "ts" \/ t = "js".

(** C40. The generator for a target: built in; else one of the generators required by go.mod, under any of its
    four spellings; else a local directory; else a repository, a bare name standing for that of the webrpc
    organisation, in lower case. *)
Theorem C40_target_resolution : forall goMod target, ~ isAlias target ->
  match sourceOf goMod target with
  | BuiltIn n => n = target /\ (target = "json" \/ target = "debug")
  | Embedded name tag => exists line version, In line goMod /\ Requires line name version /\ Spelling name version target /\
                           tag = ("github.com/webrpc/gen-" ++ name ++ "@" ++ version)%string
  | LocalDir dir => dir = target /\ (has_prefix "/" target = true \/ has_prefix "." target = true)
  | Remote url => has_prefix "/" target = false /\ has_prefix "." target = false /\
      (forall line name version, In line goMod -> Requires line name version -> ~ Spelling name version target) /\
      (contains_byte "/" target = true /\ url = target \/
       contains_byte "/" target = false /\ url = ("github.com/webrpc/gen-" ++ to_lower target)%string)
  end.
Proof.
  intros goMod target Hna. unfold sourceOf.
  destruct (String.eqb target "json" || String.eqb target "debug") eqn:Eb.
  { split; [reflexivity|]. apply orb_true_iff in Eb as [E|E]; apply String.eqb_eq in E; auto. }
  assert (Eo : getOldTarget target = target).
  { unfold getOldTarget, isAlias in *. destruct (String.eqb_spec target "go"); [tauto|]. destruct (String.eqb_spec target "ts"); [tauto|].
    destruct (String.eqb_spec target "js"); [tauto|reflexivity]. }
  rewrite Eo. destruct (assoc target (embeddedTargets goMod)) as [[name tag]|] eqn:Ea.
  - unfold embeddedTargets in Ea. apply assoc_fold_mapSet in Ea as [Ea|Ea]; [|discriminate].
    apply in_flat_map in Ea as (line & Hl & Ea). apply lineTargets_requires in Ea as (n & v & R & S & E). injection E as -> ->. exists line, v. auto.
  - destruct (isLocalDir target) eqn:El.
    + split; [reflexivity|]. unfold isLocalDir in El. apply orb_true_iff in El. assumption.
    + pose proof El as El'. unfold isLocalDir in El'. apply orb_false_iff in El' as [E1 E2]. split; [assumption|]. split; [assumption|]. split.
      * intros line name version Hl R S. revert Ea. unfold embeddedTargets. apply assoc_fold_mapSet_some. left.
        apply in_map_iff. exists (target, (name, ("github.com/webrpc/gen-" ++ name ++ "@" ++ version)%string)). split; [reflexivity|].
        apply in_flat_map. exists line. split; [assumption|]. apply lineTargets_requires. eauto.
      * unfold inferRemoteTarget. rewrite El. destruct (contains_byte "/" target) eqn:Ec.
        -- left. split; [reflexivity|]. pose proof (join_split "/" target) as J.
           destruct (split_byte "/" target) as [|x [|y l]] eqn:Es; try reflexivity. exfalso. cbn in J. subst x.
           rewrite (split_byte_no "/" target target) in Ec; [discriminate|]. rewrite Es. now left.
        -- right. split; [reflexivity|]. now rewrite split_byte_none by assumption.
Qed.
Print Assumptions C40_target_resolution.

(** C40. go, ts and js stand for the old generators, whatever go.mod requires *)
Theorem C40_old_aliases : forall goMod name alias,
  In (alias, name) [("go", "golang"); ("ts", "typescript"); ("js", "javascript")] ->
  (forall line n v, In line goMod -> Requires line n v -> v <> "v0.6.0") ->
  sourceOf goMod alias = Remote ("github.com/webrpc/gen-" ++ name ++ "@v0.6.0").
Proof.
  intros goMod name alias Hin Hv.
  assert (HS : forall t, (exists s, t = ("github.com/webrpc/gen-" ++ s ++ "@v0.6.0")%string /\ In s ["golang"; "typescript"; "javascript"]) ->
     assoc t (embeddedTargets goMod) = None).
  { intros t (s & Et & Hs). destruct (assoc t (embeddedTargets goMod)) as [e|] eqn:Ea; [exfalso|reflexivity].
    unfold embeddedTargets in Ea. apply assoc_fold_mapSet in Ea as [Ea|Ea]; [|discriminate].
    apply in_flat_map in Ea as (line & Hl & Ea). apply lineTargets_requires in Ea as (n & v & R & S & _).
    specialize (Hv line n v Hl R). destruct R as (Hn & _).
    assert (Hna : contains_byte "@" n = false /\ contains_byte "@" s = false).
    { split; [cbn in Hn; repeat (destruct Hn as [<-|Hn]; [reflexivity|]); contradiction|].
      cbn in Hs; repeat (destruct Hs as [<-|Hs]; [reflexivity|]); contradiction. }
    destruct Hna as [N1 N2].
    assert (C : cut "@" t = (("github.com/webrpc/gen-" ++ s)%string, "v0.6.0", true)).
    { rewrite Et. change ("github.com/webrpc/gen-" ++ s ++ "@v0.6.0")%string with ("github.com/webrpc/gen-" ++ (s ++ String "@" "v0.6.0"))%string.
      rewrite <- sapp_assoc. apply cut_found. rewrite contains_byte_app, N2. reflexivity. }
    destruct S as [E|[E|[E|E]]]; rewrite E in C.
    - rewrite (cut_none _ _ N1) in C. discriminate.
    - change ("@" ++ v)%string with (String "@" v) in C. rewrite (cut_found _ _ _ N1) in C. congruence.
    - rewrite cut_none in C; [discriminate|]. rewrite contains_byte_app, N1. reflexivity.
    - change ("@" ++ v)%string with (String "@" v) in C. rewrite <- sapp_assoc in C. rewrite cut_found in C; [congruence|].
      rewrite contains_byte_app, N1. reflexivity. }
  cbn in Hin. destruct Hin as [E|[E|[E|[]]]]; injection E as <- <-; unfold sourceOf; cbn [String.eqb Ascii.eqb Bool.eqb orb];
    unfold getOldTarget; cbn [String.eqb Ascii.eqb Bool.eqb orb]; (rewrite HS; [reflexivity|]); [exists "golang"|exists "typescript"|exists "javascript"]; (split; [reflexivity|]); cbn; auto.
Qed.
Print Assumptions C40_old_aliases.

(** Non-vacuity. *)
Definition exampleCrashed : disk := mapSet (cacheDir tgt) (crashed tgt repo1 900 4 (dirOf [] (cacheDir tgt))) [].
Definition exampleDisk : disk := snd (loadRemote tgt false 1000 (Some repo1) None exampleCrashed).
Example C26_example : History tgt repo1 exampleDisk /\ Available tgt exampleDisk /\
  fst (loadRemote tgt false 5000 None None exampleDisk) = Ok (Loaded [("a.go.tmpl", "old a"); ("b.go.tmpl", "old b")] tgt 4000 (Some "fetch error") true) /\
  fst (loadRemote tgt false 1500 None None exampleDisk) = Ok (Loaded [("a.go.tmpl", "old a"); ("b.go.tmpl", "old b")] tgt 500 None false).
Proof.
  split; [|split; [|split]]; [|apply available_open; vm_compute; reflexivity|vm_compute; reflexivity..].
  apply (Hrun tgt repo1 exampleCrashed false 1000%N (Some repo1) None (fst (loadRemote tgt false 1000 (Some repo1) None exampleCrashed)));
    [|now right|now left|unfold exampleDisk; apply surjective_pairing].
  apply Hcrash; [constructor|]. intro H. apply available_open in H. vm_compute in H. discriminate.
Qed.
Example C40_example :
  let goMod := [String "009" "github.com/webrpc/gen-golang v0.36.0"; String "009" "github.com/webrpc/gen-kotlin v0.3.2 // indirect"; "require ("] in
  sourceOf goMod "golang" = Embedded "golang" "github.com/webrpc/gen-golang@v0.36.0" /\
  sourceOf goMod "github.com/webrpc/gen-kotlin@v0.3.2" = Embedded "kotlin" "github.com/webrpc/gen-kotlin@v0.3.2" /\
  sourceOf goMod "golang@v0.1.0" = Remote "github.com/webrpc/gen-golang@v0.1.0" /\
  sourceOf goMod "../tmpl" = LocalDir "../tmpl" /\ sourceOf goMod "go" = Remote "github.com/webrpc/gen-golang@v0.6.0" /\
  isGolangTarget "golang@v0.1.0" = true /\ isGolangTarget "typescript" = false.
Proof. vm_compute. repeat split. Qed.
