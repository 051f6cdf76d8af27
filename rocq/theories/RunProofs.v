(** Proofs about runs of webrpc-gen. *)
From Verif Require Import Base BaseProofs Schema Uri Sha1 SchemaJson Gen Cache CacheSpec CacheProofs Cli CliSpec CliProofs Ridl Main PathSpec PathProofs MainRun RunSpec.

Lemma pathAbs_slash cwd p : has_prefix "/" cwd = true -> exists f, pathAbs cwd p = ("/" ++ f)%string.
Proof.
  intros H.
  assert (C : forall q, has_prefix "/" q = true -> exists f, pathClean q = ("/" ++ f)%string).
  { intros q Hq. exists (join "/" (cleanElems true (split_byte "/" q) [])). now apply pathClean_rooted. }
  unfold pathAbs. destruct (has_prefix "/" p) eqn:E; [now apply C|]. unfold pathJoin.
  destruct cwd as [|c cwd]; [discriminate|]. cbn [String.eqb andb].
  destruct (String.eqb p ""); apply C; [exact H|].
  cbn [has_prefix append] in *. exact H.
Qed.

Lemma outFile_eq w out f : pathAbs (w_cwd w) out = ("/" ++ f)%string -> outFile w out = f.
Proof. intros H. unfold outFile. rewrite H. reflexivity. Qed.

(** a partial write leaves a prefix *)
Lemma appends_prefix f l : forall fs s, assoc f fs = Some s -> forall k,
  exists s', assoc f (applyOps (firstn k (map (Append f) l)) fs) = Some s' /\
    exists l1 l2, l = l1 ++ l2 /\ s' = (s ++ string_of_list_ascii l1)%string.
Proof.
  induction l as [|c l IH]; intros fs s H k.
  - rewrite firstn_nil. exists s. split; [exact H|]. exists [], []. split; [reflexivity|]. cbn. now rewrite sapp_nil_r.
  - destruct k as [|k].
    + exists s. split; [exact H|]. exists [], (c :: l). split; [reflexivity|]. cbn. now rewrite sapp_nil_r.
    + cbn [map firstn]. unfold applyOps. cbn [fold_left].
      destruct (IH (applyOp fs (Append f c)) (s ++ String c "")%string) with (k := k) as (s' & A & l1 & l2 & E1 & E2).
      { cbn [applyOp]. rewrite H. rewrite assoc_mapSet, String.eqb_refl. reflexivity. }
      exists s'. split; [exact A|]. exists (c :: l1), l2. split; [now rewrite E1|]. rewrite E2, sapp_assoc. reflexivity.
Qed.

Lemma string_list_app a b : string_of_list_ascii (a ++ b) = (string_of_list_ascii a ++ string_of_list_ascii b)%string.
Proof. induction a as [|x a IH]; [reflexivity|]. cbn. now rewrite IH. Qed.

Lemma write_prefix f c k fs : assoc f (applyOps (firstn k (writeFile f c)) fs) = assoc f fs \/
  exists rest p, assoc f (applyOps (firstn k (writeFile f c)) fs) = Some p /\ c = (p ++ rest)%string.
Proof.
  destruct k as [|k]; [now left|]. right. unfold writeFile. cbn [firstn]. unfold applyOps. cbn [fold_left].
  destruct (appends_prefix f (list_ascii_of_string c) (applyOp fs (Create f)) "") with (k := k) as (s' & A & l1 & l2 & E1 & E2).
  { cbn [applyOp]. rewrite assoc_mapSet, String.eqb_refl. reflexivity. }
  exists (string_of_list_ascii l2), s'. split; [exact A|]. rewrite E2. cbn [append].
  rewrite <- string_list_app, <- E1. now rewrite string_of_list_ascii_of_string.
Qed.

Lemma write_other f c k fs : SameBut f (applyOps (firstn k (writeFile f c)) fs) fs.
Proof.
  intros x Hx. apply applyOps_other. intros op Hop E. apply Hx. rewrite <- E. apply (writeFile_file f c).
  revert Hop. clear. revert k. induction (writeFile f c) as [|a l IH]; intros k H; [now rewrite firstn_nil in H|].
  destruct k; [destruct H|]. cbn in H. destruct H as [->|H]; [now left|right; eauto].
Qed.
Lemma write_other_all f c fs : SameBut f (applyOps (writeFile f c) fs) fs.
Proof. rewrite <- (firstn_all (writeFile f c)). apply write_other. Qed.

Lemma usage_files w args vals opts msg c :
  exists m d c', usageThenExit w args vals opts msg c = Outcome (Exit c') "" m (w_files w) d.
Proof. unfold usageThenExit. destruct (usage w args vals opts) as [[c'|m] d]; unfold stop; eauto. Qed.

(** every run: either it stops with nothing on standard output and every file as it was, or prints the version,
    or delivers generated code *)
Lemma run_cases n w args :
  (exists e m d, run n w args = Outcome e "" m (w_files w) d) \/
  (exists vals opts, Asks args vals opts /\ flagValue vals "version" "false" = "true" /\
     run n w args = Outcome (Exit 0) ("webrpc-gen " ++ w_version w ++ nl)%string [] (w_files w) (w_disk w)) \/
  (exists vals opts g d, Asks args vals opts /\ Generates n w args vals opts g /\ run n w args = deliver w d vals g).
Proof.
  unfold run. destruct (collectCliArgs args) as [[cli opts]| | |] eqn:EC; try (left; unfold stop; eauto; fail).
  destruct (flagsParse cli) as [vals rest|e vals] eqn:EF.
  2:{ left. destruct e; match goal with |- context [usageThenExit ?a ?b ?c ?d ?e ?f] =>
        destruct (usage_files a b c d e f) as (m & dd & c' & ->) end; eauto. }
  assert (HA : Asks args vals opts) by (exists cli, rest; now split).
  destruct (String.eqb (flagValue vals "version" "false") "true") eqn:EV.
  { right; left. exists vals, opts. apply String.eqb_eq in EV. auto. }
  destruct (String.eqb (flagValue vals "schema" "") "") eqn:ES.
  { left. destruct (usage_files w args vals opts "-schema flag is required" 1) as (m & dd & c' & ->). eauto. }
  destruct (parseSchemaFile _ _ _ _) as [s0| | |] eqn:EP; try (left; unfold stop; eauto; fail).
  destruct (String.eqb (flagValue vals "target" "") "") eqn:ET.
  { left. destruct (usage_files w args vals opts "-target flag is required" 1) as (m & dd & c' & ->). eauto. }
  destruct (prepare n vals (w_env w) s0) as [s| | |] eqn:EPr; try (left; unfold stop; eauto; fail).
  destruct (generate _ _ _ _ _ _ _) as [[g|m|c] d] eqn:EG; try (left; unfold stop; eauto; fail).
  right; right. exists vals, opts, g, d. split; [exact HA|]. split; [|reflexivity]. exists s, d. split; [|exact EG].
  apply String.eqb_neq in EV, ES. split; [exact EV|]. split; [exact ES|]. eauto.
Qed.

Lemma run_generates n w args vals opts g : Asks args vals opts -> Generates n w args vals opts g ->
  exists d, run n w args = deliver w d vals g.
Proof.
  intros (cli & rest & EC & EF) (s & d & (HV & HS & s0 & EP & EPr) & EG). unfold run. rewrite EC, EF.
  apply String.eqb_neq in HV, HS. rewrite HV, HS, EP.
  assert (HT : String.eqb (flagValue vals "target" "") "" = false).
  { destruct (String.eqb (flagValue vals "target" "") "") eqn:E; [|reflexivity]. unfold prepare in EPr. rewrite E in EPr. discriminate. }
  rewrite HT, EPr, EG. eauto.
Qed.
