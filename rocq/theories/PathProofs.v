(** Proofs about path cleaning, joining and extensions. *)
From Verif Require Import Base BaseProofs Ridl Main PathSpec.

Lemma elements_split p : Elements p (split_byte "/" p).
Proof.
  remember (String.length p) as n eqn:Hn. assert (L : String.length p <= n) by lia. clear Hn. revert p L.
  induction n as [|n IH]; intros p L.
  - destruct p; [|cbn in L; lia]. now constructor.
  - destruct (contains_byte "/" p) eqn:C.
    + assert (exists a b, p = (a ++ String "/" b)%string /\ contains_byte "/" a = false) as (a & b & -> & Ha).
      { clear - C. unfold contains_byte in *. induction p as [|x p IHp]; [discriminate|]. cbn in C.
        destruct (Ascii.eqb x "/") eqn:E.
        - apply Ascii.eqb_eq in E as ->. exists "", p. now split.
        - cbn in C. destruct (IHp C) as (a & b & -> & Ha). exists (String x a), b. split; [reflexivity|]. cbn. now rewrite E. }
      rewrite split_byte_app by exact Ha. change (a ++ String "/" b)%string with (a ++ "/" ++ b)%string.
      constructor; [exact Ha|]. apply IH. rewrite slength_app in L. cbn in L. lia.
    + rewrite split_byte_none by exact C. now constructor.
Qed.

Lemma elements_unique p es : Elements p es -> es = split_byte "/" p.
Proof.
  induction 1 as [e H|e p es H HE IH].
  - now rewrite split_byte_none.
  - change (e ++ "/" ++ p)%string with (e ++ String "/" p)%string. rewrite split_byte_app by exact H. now f_equal.
Qed.

Lemma name_nostay e : Name e -> (String.eqb e "" || String.eqb e ".") = false /\ String.eqb e ".." = false.
Proof.
  intros (A & B & C & _). split; [apply orb_false_iff; split|]; now apply String.eqb_neq.
Qed.

Lemma clean_names r l st : Forall Name l -> forall es, cleanElems r (l ++ es) st = cleanElems r es (rev l ++ st).
Proof.
  revert st. induction l as [|e l IH]; intros st H es; [reflexivity|]. inversion H as [|? ? H1 H2]; subst.
  cbn [app cleanElems]. destruct (name_nostay _ H1) as [-> ->]. rewrite IH by exact H2. cbn [rev]. now rewrite <- app_assoc.
Qed.

Lemma walk_clean top d es t : Walk top d es t -> Forall Name d -> forall r, (top = true -> r = true) -> cleanElems r es (rev d) = t.
Proof.
  induction 1 as [d|d e es t He HW IH|d x es t HW IH|es t Ht HW IH|d e es t He HW IH]; intros HN r Hr.
  - cbn. apply rev_involutive.
  - cbn [cleanElems]. destruct He as [->| ->]; cbn; now apply IH.
  - apply Forall_app in HN as [HN Hx]. inversion Hx as [|? ? Hx' _]; subst. rewrite rev_app_distr. cbn [rev app cleanElems].
    cbn [String.eqb Ascii.eqb Bool.eqb orb]. destruct (name_nostay _ Hx') as [_ ->]. now apply IH.
  - cbn [rev cleanElems]. cbn [String.eqb Ascii.eqb Bool.eqb orb]. rewrite (Hr Ht). now apply (IH HN true).
  - cbn [cleanElems]. destruct (name_nostay _ He) as [-> ->].
    change (e :: rev d) with (rev [e] ++ rev d). rewrite <- rev_app_distr. apply IH; [|exact Hr].
    apply Forall_app. split; [exact HN|]. constructor; [exact He|constructor].
Qed.

Lemma walk_names top d es t : Walk top d es t -> Forall Name d -> Forall Name t.
Proof.
  induction 1 as [d|d e es t He HW IH|d x es t HW IH|es t Ht HW IH|d e es t He HW IH]; intros HN; auto.
  - apply Forall_app in HN as [HN _]. auto.
  - apply IH. apply Forall_app. split; [exact HN|]. constructor; [exact He|constructor].
Qed.

(** every list of elements leads somewhere, or out *)
Lemma walk_or_escape es : Forall (fun e => contains_byte "/" e = false) es -> forall d,
  (exists t, Walk false d es t) \/ Escapes d es.
Proof.
  induction es as [|e es IH]; intros HF d; [left; exists d; constructor|]. inversion HF as [|? ? H1 H2]; subst.
  specialize (IH H2).
  assert (T : forall d', (forall t, Walk false d' es t -> Walk false d (e :: es) t) ->
                         (forall pre, Walk false d' pre [] -> Walk false d (e :: pre) []) ->
                         (exists t, Walk false d (e :: es) t) \/ Escapes d (e :: es)).
  { intros d' W1 W2. destruct (IH d') as [(t & W)|(pre & post & -> & W)]; [left; exists t; auto|].
    right. exists (e :: pre), post. split; [reflexivity|auto]. }
  destruct (String.eqb e "") eqn:E1; [apply String.eqb_eq in E1; apply (T d); intros; now apply WalkStay; auto|].
  destruct (String.eqb e ".") eqn:E2; [apply String.eqb_eq in E2; apply (T d); intros; now apply WalkStay; auto|].
  destruct (String.eqb e "..") eqn:E3.
  - apply String.eqb_eq in E3. subst e. destruct d as [|x d] using rev_ind.
    + right. exists [], es. split; [reflexivity|constructor].
    + apply (T d); intros; now constructor.
  - assert (Name e) by (repeat split; try (now apply String.eqb_neq); exact H1).
    apply (T (d ++ [e])); intros; now constructor.
Qed.

Lemma walk_top_total es : Forall (fun e => contains_byte "/" e = false) es -> forall d, exists t, Walk true d es t.
Proof.
  induction es as [|e es IH]; intros HF d; [exists d; constructor|]. inversion HF as [|? ? H1 H2]; subst. specialize (IH H2).
  destruct (String.eqb e "") eqn:E1; [apply String.eqb_eq in E1; destruct (IH d) as (t & W); exists t; apply WalkStay; auto|].
  destruct (String.eqb e ".") eqn:E2; [apply String.eqb_eq in E2; destruct (IH d) as (t & W); exists t; apply WalkStay; auto|].
  destruct (String.eqb e "..") eqn:E3.
  - apply String.eqb_eq in E3. subst e. destruct d as [|x d] using rev_ind.
    + destruct (IH []) as (t & W). exists t. now apply WalkTop.
    + destruct (IH d) as (t & W). exists t. now constructor.
  - assert (Name e) by (repeat split; try (now apply String.eqb_neq); exact H1).
    destruct (IH (d ++ [e])) as (t & W). exists t. now constructor.
Qed.

(** once out, the cleaned path starts with ".." *)
Lemma clean_below es : forall st, hd "" (cleanElems false es (st ++ [".."])) = "..".
Proof.
  induction es as [|e es IH]; intros st.
  - cbn. rewrite rev_app_distr. reflexivity.
  - cbn [cleanElems]. destruct (String.eqb e "" || String.eqb e "."); [apply IH|].
    destruct (String.eqb e "..").
    + destruct st as [|x st]; cbn [app].
      * cbn. apply (IH [".."]).
      * destruct (String.eqb x ".."); [apply (IH (".." :: x :: st))|apply IH].
    + apply (IH (e :: st)).
Qed.

Lemma escape_clean d es : Escapes d es -> Forall Name d -> hd "" (cleanElems false es (rev d)) = "..".
Proof.
  intros (pre & post & -> & W) HN. revert W HN. revert d. induction pre as [|e pre IH]; intros d W HN.
  - inversion W; subst. cbn. apply (clean_below post []).
  - cbn [app cleanElems]. inversion W as [|? ? ? ? He W'|? x ? ? W'|? ? Ht|? ? ? ? He W']; subst.
    + destruct He as [->| ->]; cbn; now apply IH.
    + apply Forall_app in HN as [HN Hx]. inversion Hx as [|? ? Hx' _]; subst. rewrite rev_app_distr. cbn [rev app].
      cbn [String.eqb Ascii.eqb Bool.eqb orb]. destruct (name_nostay _ Hx') as [_ ->]. now apply IH.
    + discriminate.
    + destruct (name_nostay _ He) as [-> ->]. change (e :: rev d) with (rev [e] ++ rev d). rewrite <- rev_app_distr.
      apply IH; [exact W'|]. apply Forall_app. split; [exact HN|]. constructor; [exact He|constructor].
Qed.

(** ** pathClean, pathDir, pathJoin *)

Definition showRel (t : list string) : string := match t with [] => "." | _ => join "/" t end.

Lemma names_no_slash l : Forall Name l -> forall x, In x l -> contains_byte "/" x = false.
Proof. intros H x Hx. rewrite Forall_forall in H. now apply H. Qed.

Lemma split_names l : l <> [] -> Forall Name l -> split_byte "/" (join "/" l) = l.
Proof. intros A B. apply (split_join "/"); [exact A|]. now apply names_no_slash. Qed.

Lemma join_names_head l : l <> [] -> Forall Name l -> exists c r, join "/" l = String c r /\ c <> "/"%char.
Proof.
  destruct l as [|e l]; [congruence|]. intros _ H. inversion H as [|? ? (A & _ & _ & N) _]; subst.
  destruct e as [|c e]; [congruence|]. exists c. cbn in N. assert (c <> "/"%char) as Hc.
  { intros ->. unfold contains_byte in N. cbn in N. discriminate. }
  destruct l as [|f l]; cbn [join append]; eauto.
Qed.

Lemma prefix_slash c r : c <> "/"%char -> has_prefix "/" (String c r) = false.
Proof. intros H. cbn [has_prefix]. destruct (Ascii.eqb "/" c) eqn:E; [apply Ascii.eqb_eq in E; congruence|reflexivity]. Qed.

Lemma join_app (a b : list string) : a <> [] -> b <> [] -> join "/" (a ++ b) = (join "/" a ++ "/" ++ join "/" b)%string.
Proof.
  induction a as [|x a IH]; [congruence|]. intros _ Hb. destruct a as [|y a].
  - cbn [app]. destruct b; [congruence|]. reflexivity.
  - change (join "/" ((x :: y :: a) ++ b)) with (x ++ "/" ++ join "/" ((y :: a) ++ b))%string. rewrite IH by (try discriminate; exact Hb).
    change (join "/" (x :: y :: a)) with (x ++ "/" ++ join "/" (y :: a))%string. now rewrite !sapp_assoc.
Qed.


(** cleaning a relative path *)
Lemma pathClean_rel p l : has_prefix "/" p = false -> p <> "" -> cleanElems false (split_byte "/" p) [] = l -> pathClean p = showRel l.
Proof.
  intros H Hp <-. unfold pathClean. destruct (String.eqb p "") eqn:E; [apply String.eqb_eq in E; congruence|]. rewrite H.
  unfold showRel. destruct (cleanElems false (split_byte "/" p) []); [reflexivity|]. reflexivity.
Qed.

Lemma sconcat_slashes dir : dir <> [] -> sconcat (map (fun e => e ++ "/")%string dir) = (join "/" dir ++ "/")%string.
Proof.
  induction dir as [|x dir IH]; [congruence|]. intros _. cbn [map sconcat]. destruct dir as [|y dir].
  - cbn. now rewrite sapp_nil_r.
  - rewrite IH by discriminate. change (join "/" (x :: y :: dir)) with (x ++ "/" ++ join "/" (y :: dir))%string. now rewrite !sapp_assoc.
Qed.

Lemma split_trailing l : l <> [] -> Forall Name l -> split_byte "/" (join "/" l ++ "/") = l ++ [""].
Proof.
  intros A B. assert (E : (join "/" l ++ "/")%string = join "/" (l ++ [""])) by (rewrite join_app by (auto; discriminate); reflexivity).
  rewrite E. apply (split_join "/"); [now destruct l|]. intros x Hx. apply in_app_iff in Hx as [Hx|[<-|[]]]; [|reflexivity].
  eapply names_no_slash; eauto.
Qed.

Lemma pathDir_names dir f : Forall Name (dir ++ [f]) -> pathDir (join "/" (dir ++ [f])) = showRel dir.
Proof.
  intros H. unfold pathDir. rewrite split_names by (auto; now destruct dir). rewrite rev_app_distr. cbn [rev app]. rewrite rev_involutive.
  apply Forall_app in H as [H _]. destruct dir as [|x dir]; [reflexivity|]. set (l := x :: dir) in *.
  rewrite sconcat_slashes by discriminate. destruct (join_names_head l ltac:(discriminate) H) as (c & r & E & Hc).
  apply pathClean_rel.
  - rewrite E. now apply prefix_slash.
  - rewrite E. discriminate.
  - rewrite split_trailing by (auto; discriminate). rewrite clean_names by exact H. rewrite app_nil_r. cbn [cleanElems String.eqb orb]. apply rev_involutive.
Qed.

(** joining a directory inside the file system with any relative path *)
Lemma pathJoin_names dir p : Forall Name dir -> pathJoin (showRel dir) p = showRel (cleanElems false (split_byte "/" p) (rev dir)).
Proof.
  intros H. unfold pathJoin. assert (N : String.eqb (showRel dir) "" = false).
  { destruct dir as [|x dir]; [reflexivity|]. destruct (join_names_head (x :: dir) ltac:(discriminate) H) as (c & r & E & _).
    unfold showRel. rewrite E. reflexivity. }
  rewrite N. cbn [andb]. destruct dir as [|x dir].
  - cbn [showRel rev]. destruct (String.eqb p "") eqn:E; [apply String.eqb_eq in E; subst p; reflexivity|].
    apply pathClean_rel; [reflexivity|discriminate|]. change ("." ++ "/" ++ p)%string with ("." ++ String "/" p)%string.
    rewrite split_byte_app by reflexivity. reflexivity.
  - set (l := x :: dir) in *. destruct (join_names_head l ltac:(discriminate) H) as (c & r & E & Hc).
    change (showRel l) with (join "/" l). destruct (String.eqb p "") eqn:Ep.
    + apply String.eqb_eq in Ep. subst p. apply pathClean_rel.
      * rewrite E. now apply prefix_slash.
      * rewrite E. discriminate.
      * rewrite split_names by (auto; discriminate). pose proof (clean_names false l [] H []) as C. rewrite !app_nil_r in C. rewrite C. reflexivity.
    + apply pathClean_rel.
      * rewrite E. cbn [append]. now apply prefix_slash.
      * rewrite E. discriminate.
      * assert (S : split_byte "/" (join "/" l ++ "/" ++ p) = l ++ split_byte "/" p).
        { rewrite <- (join_split "/" p) at 1. change (String "/" "") with "/"%string.
          rewrite <- join_app by (try discriminate; apply split_byte_nonempty).
          apply (split_join "/"); [discriminate|]. intros y Hy. apply in_app_iff in Hy as [Hy|Hy];
            [eapply names_no_slash; eauto|eapply split_byte_no; eauto]. }
        rewrite S, clean_names by exact H. now rewrite app_nil_r.
Qed.

Lemma validPath_names t : t <> [] -> Forall Name t -> validPath (join "/" t) = true.
Proof.
  intros A B. unfold validPath. apply orb_true_iff. right. rewrite split_names by auto. apply forallb_forall. intros e He.
  rewrite Forall_forall in B. destruct (B e He) as (H1 & H2 & H3 & _). apply negb_true_iff. apply str_in_not.
  intros [E|[E|[E|[]]]]; congruence.
Qed.

Lemma showRel_split l : l <> [] -> (forall x, In x l -> contains_byte "/" x = false) -> split_byte "/" (showRel l) = l.
Proof. intros A B. unfold showRel. destruct l; [congruence|]. now apply (split_join "/"). Qed.

Lemma clean_no_slash r es st : (forall x, In x es -> contains_byte "/" x = false) -> (forall x, In x st -> contains_byte "/" x = false) ->
  forall x, In x (cleanElems r es st) -> contains_byte "/" x = false.
Proof.
  revert st. induction es as [|e es IH]; intros st He Hs x Hx.
  - cbn in Hx. apply in_rev in Hx. auto.
  - cbn [cleanElems] in Hx. assert (He' : forall x, In x es -> contains_byte "/" x = false) by (intros; apply He; now right).
    destruct (String.eqb e "" || String.eqb e "."); [now apply (IH st)|].
    destruct (String.eqb e "..").
    + destruct st as [|y st].
      * destruct r; [now apply (IH [])|]. apply (IH [".."]); auto. intros ? [<-|[]]; reflexivity.
      * destruct (String.eqb y "..").
        -- apply (IH (".." :: y :: st)); auto. intros ? [<-|H]; [reflexivity|auto].
        -- apply (IH st); auto. intros; apply Hs; now right.
    + apply (IH (e :: st)); auto. intros ? [<-|H]; [apply He; now left|auto].
Qed.

Lemma escaped_invalid l : hd "" l = ".." -> (forall x, In x l -> contains_byte "/" x = false) -> validPath (showRel l) = false.
Proof.
  intros H N. destruct l as [|x l]; [discriminate|]. cbn in H. subst x. unfold validPath.
  rewrite showRel_split by (auto; discriminate). cbn [forallb str_in existsb]. cbn [String.eqb Ascii.eqb Bool.eqb orb negb andb].
  rewrite orb_false_r. unfold showRel. destruct l; reflexivity.
Qed.

(** a valid path other than "." is a list of names *)
Lemma validPath_inv q : validPath q = true -> q = "." \/ (q = join "/" (split_byte "/" q) /\ Forall Name (split_byte "/" q)).
Proof.
  unfold validPath. intros H. apply orb_true_iff in H as [H|H]; [left; now apply String.eqb_eq|]. right. split.
  - symmetry. apply (join_split "/").
  - apply Forall_forall. intros e He. rewrite forallb_forall in H. specialize (H e He). apply negb_true_iff, str_in_not in H.
    repeat split; try (intros ->; apply H; cbn; tauto). eapply split_byte_no; eauto.
Qed.

(** ** absolute paths *)

Lemma pathClean_rooted p t : has_prefix "/" p = true -> cleanElems true (split_byte "/" p) [] = t -> pathClean p = ("/" ++ join "/" t)%string.
Proof.
  intros H <-. unfold pathClean. destruct p as [|c p]; [discriminate|]. cbn [String.eqb]. rewrite H.
  destruct (cleanElems true (split_byte "/" (String c p)) []); reflexivity.
Qed.

Lemma split_rooted p : split_byte "/" ("/" ++ p) = "" :: split_byte "/" p.
Proof. reflexivity. Qed.

Lemma pathAbs_absolute cwd p t : Walk true [] (split_byte "/" p) t -> has_prefix "/" p = true -> pathAbs cwd p = ("/" ++ join "/" t)%string.
Proof.
  intros W H. unfold pathAbs. rewrite H. apply pathClean_rooted; [exact H|]. apply (walk_clean _ _ _ _ W); [constructor|reflexivity].
Qed.

Lemma pathAbs_relative c p t : Forall Name c -> Walk true c (split_byte "/" p) t -> has_prefix "/" p = false ->
  pathAbs ("/" ++ join "/" c) p = ("/" ++ join "/" t)%string.
Proof.
  intros HN W H. unfold pathAbs. rewrite H. unfold pathJoin.
  change (String.eqb ("/" ++ join "/" c) "") with false. cbn [andb].
  assert (C : forall r, cleanElems true (split_byte "/" p) (rev c) = r -> r = t) by (intros r <-; apply (walk_clean _ _ _ _ W); auto).
  destruct (String.eqb p "") eqn:E.
  - apply String.eqb_eq in E. subst p. apply pathClean_rooted; [now destruct (join "/" c)|]. apply C.
    rewrite split_rooted. cbn [cleanElems String.eqb Ascii.eqb Bool.eqb orb].
    destruct c as [|x c]; [reflexivity|]. rewrite split_names by (auto; discriminate).
    pose proof (clean_names true (x :: c) [] HN []) as D. rewrite !app_nil_r in D. rewrite D. reflexivity.
  - apply pathClean_rooted; [now destruct (join "/" c)|]. apply C.
    rewrite !sapp_assoc, split_rooted.
    cbn [cleanElems String.eqb Ascii.eqb Bool.eqb orb].
    destruct c as [|x c].
    + change (join "/" [] ++ "/" ++ p)%string with ("/" ++ p)%string. rewrite split_rooted. reflexivity.
    + rewrite <- (join_split "/" p) at 2. change (String "/" "") with "/"%string.
      rewrite <- join_app by (try discriminate; apply split_byte_nonempty).
      rewrite (split_join "/"); [rewrite clean_names by exact HN; now rewrite app_nil_r|discriminate|].
      intros y Hy. apply in_app_iff in Hy as [Hy|Hy]; [eapply names_no_slash; eauto|eapply split_byte_no; eauto].
Qed.

Lemma last_split_join t b : Forall Name (t ++ [b]) -> last (split_byte "/" ("/" ++ join "/" (t ++ [b]))) "" = b.
Proof.
  intros H. rewrite split_rooted, split_names by (auto; now destruct t).
  change ("" :: t ++ [b]) with (("" :: t) ++ [b]). apply last_last.
Qed.

Lemma extension_iff b e : Extension b e <->
  match rev (split_byte "." b) with [] | [_] => "" | x :: _ => ("." ++ x)%string end = e.
Proof.
  assert (S : forall stem x, contains_byte "." x = false -> split_byte "." (stem ++ "." ++ x) = split_byte "." stem ++ [x]).
  { intros stem x Hx. rewrite <- (join_split "." stem) at 1.
    assert (J : forall l, l <> [] -> (join "." l ++ "." ++ x)%string = join "." (l ++ [x])).
    { clear. induction l as [|a l IH]; [congruence|]. intros _. destruct l as [|b l]; [reflexivity|].
      change (join "." (a :: b :: l)) with (a ++ "." ++ join "." (b :: l))%string. rewrite !sapp_assoc, IH by discriminate. reflexivity. }
    change (String "." "") with "."%string. rewrite J by apply split_byte_nonempty. apply (split_join "."); [now destruct (split_byte "." stem)|].
    intros y Hy. apply in_app_iff in Hy as [Hy|[<-|[]]]; [eapply split_byte_no; eauto|exact Hx]. }
  split.
  - intros [b' H|stem x H].
    + rewrite split_byte_none by exact H. reflexivity.
    + rewrite S by exact H. rewrite rev_app_distr. cbn [rev app].
      destruct (rev (split_byte "." stem)) as [|y l] eqn:R; [|reflexivity].
      exfalso. apply (split_byte_nonempty "." stem). rewrite <- (rev_involutive (split_byte "." stem)), R. reflexivity.
  - intros <-. destruct (contains_byte "." b) eqn:C.
    + destruct (exists_last (split_byte_nonempty "." b)) as (l & x & E). rewrite E, rev_app_distr. cbn [rev app].
      assert (Hx : contains_byte "." x = false) by (apply (split_byte_no "." b); rewrite E; apply in_app_iff; right; now left).
      assert (l <> []).
      { intros ->. assert (b = x) as -> by (rewrite <- (join_split "." b), E; reflexivity). congruence. }
      destruct (rev l) as [|y r] eqn:R; [exfalso; apply H; rewrite <- (rev_involutive l), R; reflexivity|].
      assert (B : b = (join "." l ++ "." ++ x)%string).
      { rewrite <- (join_split "." b), E. change (String "." "") with "."%string. clear - H.
        induction l as [|a l IH]; [congruence|]. destruct l as [|c l]; [reflexivity|].
        change (join "." ((a :: c :: l) ++ [x])) with (a ++ "." ++ join "." ((c :: l) ++ [x]))%string. rewrite IH by discriminate.
        change (join "." (a :: c :: l)) with (a ++ "." ++ join "." (c :: l))%string. now rewrite !sapp_assoc. }
      rewrite B. now constructor.
    + rewrite split_byte_none by exact C. now constructor.
Qed.
