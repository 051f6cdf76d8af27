(** Proofs about URLs, continued: joining paths and sending requests. *)
From Verif Require Import Base BaseProofs CliProofs Uri Ridl Schema Url PathSpec PathProofs UrlSpec UrlProofs.

Lemma escape_target s : sforall targetByte (escapePath s) = true.
Proof.
  induction s as [|c s IH]; [reflexivity|]. unfold escapePath in *. cbn [escapeWith]. destruct (plainInPath c) eqn:E.
  - cbn [sforall]. rewrite IH, andb_true_r. unfold targetByte. rewrite E. reflexivity.
  - rewrite sforall_app, IH, andb_true_r. assert (T : forall c, sforall targetByte (pct c) = true) by (apply all_bytes; vm_compute; reflexivity). apply T.
Qed.

Lemma escaped_facts u p d v : unescape p = Some d -> d <> "*" -> setPath u p = Some v ->
  unescape (escapedPath v) = Some d /\ sforall targetByte (escapedPath v) = true /\
  (escapedPath v = p \/ escapedPath v = escapePath d) /\
  u_scheme v = u_scheme u /\ u_opaque v = u_opaque u /\ u_host v = u_host u /\ u_path v = d /\ u_omitHost v = u_omitHost u /\
  u_forceQuery v = u_forceQuery u /\ u_rawQuery v = u_rawQuery u /\ u_fragment v = u_fragment u.
Proof.
  intros U D S. unfold setPath in S. rewrite U in S. injection S as <-. cbn.
  assert (X : escapedPath (Url (u_scheme u) (u_opaque u) (u_host u) d (if String.eqb p (escapePath d) then "" else p)
      (u_omitHost u) (u_forceQuery u) (u_rawQuery u) (u_fragment u)) = p /\ sforall targetByte p = true \/
     escapedPath (Url (u_scheme u) (u_opaque u) (u_host u) d (if String.eqb p (escapePath d) then "" else p)
      (u_omitHost u) (u_forceQuery u) (u_rawQuery u) (u_fragment u)) = escapePath d).
  { unfold escapedPath. cbn [u_rawPath u_path]. destruct (String.eqb_spec d "*") as [E|_]; [congruence|].
    destruct (String.eqb_spec p (escapePath d)) as [E|NE]; [right; reflexivity|].
    destruct (negb (String.eqb p "") && validEncoded p && match unescape p with Some p0 => String.eqb p0 d | None => false end) eqn:B; [|right; reflexivity].
    left. split; [reflexivity|]. apply andb_true_iff in B as [B _]. apply andb_true_iff in B as [_ B]. exact B. }
  split; [|split; [|split]]; try (repeat split; fail).
  - destruct X as [[-> _]| ->]; [exact U|]. apply unescape_escape. reflexivity.
  - destruct X as [[-> T]| ->]; [exact T|apply escape_target].
  - destruct X as [[E _]|E]; [left|right]; exact E.
Qed.

Lemma escape_slash d : has_prefix "/" (escapePath (String "/" d)) = true.
Proof. reflexivity. Qed.

Lemma unescape_slash r d : unescape (String "/" r) = Some d -> exists d', d = String "/" d' /\ unescape r = Some d'.
Proof. cbn [unescape Ascii.eqb Bool.eqb]. destruct (unescape r) as [x|]; [|discriminate]. intros [= <-]. exists x. split; reflexivity. Qed.

Lemma setPath_some u p d : unescape p = Some d -> exists v, setPath u p = Some v.
Proof. intros H. unfold setPath. rewrite H. eauto. Qed.

(** a request to a well-formed URL reaches its host and its decoded path *)
Lemma go_sends_any s h r d : HttpScheme s -> HostPort h -> sexists is_ctl r = false -> contains_byte "?" r = false -> contains_byte "#" r = false ->
  unescape (String "/" r) = Some d ->
  goSends (s ++ "://" ++ h ++ String "/" r) = Some (h, d).
Proof.
  intros HS HH RC RQ RF U. destruct (host_ok h HH) as (H1 & H2 & H3 & H4). destruct (scheme_letters s HS) as (S1 & _).
  assert (ST : sforall targetByte s = true).
  { revert S1. apply sforall_impl. intros c E. unfold targetByte, plainInPath, unreserved. rewrite E. reflexivity. }
  destruct (unescape_slash _ _ U) as (d' & ED & U').
  unfold goSends, urlParse.
  assert (NH : contains_byte "#" (s ++ "://" ++ h ++ String "/" r) = false).
  { rewrite !contains_byte_app. rewrite (sforall_not_contains _ "#" _ ST eq_refl), (sforall_not_contains _ "#" _ H2 eq_refl).
    unfold contains_byte in *. cbn [sexists Ascii.eqb Bool.eqb orb]. exact RF. }
  rewrite index_none by exact NH. cbn [fst snd].
  assert (RC' : sexists is_ctl (String "/" r) = false) by (cbn [sexists]; rewrite RC; reflexivity).
  assert (RQ' : contains_byte "?" (String "/" r) = false) by (unfold contains_byte in *; cbn [sexists]; rewrite RQ; reflexivity).
  replace (s ++ "://" ++ h ++ String "/" r)%string with (s ++ "://" ++ h ++ String "/" r ++ "")%string by (rewrite sapp_nil_r; reflexivity).
  rewrite (parse_http s h (String "/" r) ""); [|exact HS|exact HH|right; eauto|exact RC'|exact RQ'|left; reflexivity].
  cbn [drop]. destruct (setPath_some (Url (to_lower s) "" h "" "" false false "" "") _ _ U) as (v & V). rewrite V.
  assert (DS : d <> "*") by (subst d; discriminate).
  destruct (escaped_facts _ _ _ _ U DS V) as (E1 & E2 & E3 & F1 & F2 & F3 & F4 & F5 & F6 & F7 & F8). cbn in F1, F2, F3, F4, F5, F6, F7, F8.
  rewrite F1, F3. destruct (String.eqb_spec h "") as [E|_]; [congruence|].
  assert (SI : str_in (to_lower s) ["http"; "https"] = true) by (destruct HS as [-> | ->]; reflexivity). rewrite SI. cbn [negb orb].
  unfold queryPart. rewrite F6, F7. cbn [orb negb String.eqb]. rewrite sapp_nil_r.
  assert (PX : exists t, escapedPath v = String "/" t).
  { destruct E3 as [-> | ->]; [eauto|]. subst d. unfold escapePath. cbn. eauto. }
  destruct PX as (t & PX). rewrite PX in *. cbn [String.eqb].
  unfold parse. rewrite (target_not_ctl _ E2). cbn [String.eqb andb Ascii.eqb Bool.eqb]. rewrite getScheme_slash. cbn [to_lower smap].
  assert (NQ : contains_byte "?" (String "/" t) = false) by (apply (sforall_not_contains _ _ _ E2); reflexivity).
  assert (CN : count_byte "?" (String "/" t) = 0) by (unfold count_byte; rewrite split_byte_none by exact NQ; reflexivity).
  rewrite CN, andb_false_r, index_none by exact NQ. cbn [fst snd]. unfold parseRest. cbn [has_prefix Ascii.eqb Bool.eqb negb andb orb String.eqb].
  cbn [negb andb]. rewrite E1 || (unfold setPath; rewrite E1). cbn. reflexivity.
Qed.

Lemma go_sends s h r d : HttpScheme s -> HostPort h -> sforall targetByte r = true -> unescape (String "/" r) = Some d ->
  goSends (s ++ "://" ++ h ++ String "/" r) = Some (h, d).
Proof.
  intros HS HH TR U. apply go_sends_any; [exact HS|exact HH|apply target_not_ctl, TR| | |exact U]; apply (sforall_not_contains _ _ _ TR); reflexivity.
Qed.

(** ** Splitting and cleaning *)

Lemma split_prepend c a b : contains_byte c a = false ->
  split_byte c (a ++ b) = match split_byte c b with x :: xs => (a ++ x)%string :: xs | [] => [a] end.
Proof.
  induction a as [|x a IH]; intros H; cbn [append split_byte].
  - destruct (split_byte c b) eqn:E; [destruct (split_byte_nonempty _ _ E)|reflexivity].
  - unfold contains_byte in H. cbn [sexists] in H. apply orb_false_iff in H as [H1 H2]. rewrite H1, (IH H2).
    destruct (split_byte c b); reflexivity.
Qed.

Lemma split_sep c a b : split_byte c (a ++ String c b) = split_byte c a ++ split_byte c b.
Proof.
  induction a as [|x a IH]; cbn [append split_byte]; [rewrite Ascii.eqb_refl; reflexivity|].
  destruct (Ascii.eqb x c); [rewrite IH; reflexivity|]. rewrite IH.
  destruct (split_byte c a) eqn:E; [destruct (split_byte_nonempty _ _ E)|reflexivity].
Qed.

(** a way of writing a path: as it is, or escaped *)
Definition Writing (f : string -> string) : Prop := f = (fun s => s) \/ f = escapePath.

Lemma pct_slash c : contains_byte "/" (pct c) = false.
Proof. apply negb_true_iff. revert c. apply all_bytes. vm_compute. reflexivity. Qed.

Lemma split_writing f p : Writing f -> split_byte "/" (f p) = map f (split_byte "/" p).
Proof.
  intros [->| ->]; [rewrite map_id; reflexivity|]. unfold escapePath. induction p as [|c p IH]; [reflexivity|]. cbn [escapeWith split_byte].
  destruct (Ascii.eqb_spec c "/") as [->|N].
  - change (plainInPath "/") with true. cbn [split_byte Ascii.eqb Bool.eqb map]. rewrite IH. reflexivity.
  - destruct (plainInPath c) eqn:E.
    + cbn [split_byte]. assert (Ascii.eqb c "/" = false) as -> by (apply Ascii.eqb_neq; exact N). rewrite IH.
      destruct (split_byte "/" p) as [|x xs]; cbn [map escapeWith]; rewrite E; reflexivity.
    + rewrite split_prepend by apply pct_slash. rewrite IH. destruct (split_byte "/" p) as [|x xs]; cbn [map escapeWith]; rewrite E.
      * reflexivity.
      * reflexivity.
Qed.

Lemma writing_inj f a b : Writing f -> f a = f b -> a = b.
Proof.
  intros [->| ->] H; [exact H|]. pose proof (unescape_escape plainInPath a eq_refl) as A. pose proof (unescape_escape plainInPath b eq_refl) as B.
  unfold escapePath in H. rewrite H in A. congruence.
Qed.

Lemma writing_eqb f e x : Writing f -> f x = x -> String.eqb (f e) x = String.eqb e x.
Proof.
  intros W F. destruct (String.eqb_spec e x) as [->|N]; [rewrite F; apply String.eqb_refl|].
  apply String.eqb_neq. intros E. apply N, (writing_inj f); [exact W|congruence].
Qed.

Lemma writing_fix f : Writing f -> f "" = "" /\ f "." = "." /\ f ".." = "..".
Proof. intros [->| ->]; repeat split. Qed.

Lemma clean_writing f es : Writing f -> forall st, cleanElems true (map f es) (map f st) = map f (cleanElems true es st).
Proof.
  intros W. destruct (writing_fix f W) as (F1 & F2 & F3). induction es as [|e es IH]; intros st; cbn [map cleanElems]; [rewrite map_rev; reflexivity|].
  rewrite !(writing_eqb f e) by assumption. destruct (String.eqb e "" || String.eqb e "."); [apply IH|].
  destruct (String.eqb e "..").
  - destruct st as [|x st]; cbn [map]; [apply (IH [])|]. rewrite writing_eqb by assumption.
    destruct (String.eqb x ".."); [|apply IH]. rewrite <- F3 at 1. apply (IH (".." :: x :: st)).
  - apply (IH (e :: st)).
Qed.

Lemma clean_app es es' : forall st, cleanElems true (es ++ es') st = cleanElems true es' (rev (cleanElems true es st)).
Proof.
  induction es as [|e es IH]; intros st; cbn [app cleanElems]; [rewrite rev_involutive; reflexivity|].
  destruct (String.eqb e "" || String.eqb e "."); [apply IH|]. destruct (String.eqb e "..").
  - destruct st as [|x st]; [apply IH|]. destruct (String.eqb x ".."); apply IH.
  - apply IH.
Qed.

Lemma clean_forall (Q : string -> Prop) es : Q ".." -> Forall Q es -> forall st, Forall Q st -> Forall Q (cleanElems true es st).
Proof.
  intros QD. induction es as [|e es IH]; intros HE st HS; cbn [cleanElems]; [apply Forall_rev, HS|]. inversion HE as [|? ? H1 H2]; subst.
  destruct (String.eqb e "" || String.eqb e "."); [apply IH; assumption|]. destruct (String.eqb e "..").
  - destruct st as [|x st]; [apply IH; [exact H2|constructor]|]. inversion HS; subst. destruct (String.eqb x ".."); apply IH; try assumption.
    constructor; assumption.
  - apply IH; [exact H2|]. constructor; assumption.
Qed.

(** ** Texts of directories *)

Definition dirT (l : list string) : string := sconcat (map (fun e => e ++ "/")%string l).

Lemma dirText_dirT l : (dirText l ++ "/")%string = ("/" ++ dirT l)%string.
Proof.
  unfold dirText, dirT. induction l as [|e l IH]; [reflexivity|]. cbn [map sconcat]. rewrite sapp_assoc, IH. rewrite !sapp_assoc. reflexivity.
Qed.

Lemma dirText_app a b : dirText (a ++ b) = (dirText a ++ dirText b)%string.
Proof. unfold dirText. rewrite map_app, sconcat_app. reflexivity. Qed.
Lemma dirT_app a b : dirT (a ++ b) = (dirT a ++ dirT b)%string.
Proof. unfold dirT. rewrite map_app, sconcat_app. reflexivity. Qed.

Lemma dirT_join l : l <> [] -> (join "/" l ++ "/")%string = dirT l.
Proof. intros H. unfold dirT. rewrite sconcat_slashes by exact H. reflexivity. Qed.

Definition dec (e : string) : string := match unescape e with Some d => d | None => "" end.

Lemma unescape_dirT t : Forall (fun e => pctOk e = true) t -> unescape (dirT t) = Some (dirT (map dec t)).
Proof.
  unfold dirT. induction t as [|e t IH]; intros H; [reflexivity|]. inversion H as [|? ? H1 H2]; subst. cbn [map sconcat].
  apply pctOk_unescape in H1 as (d & D). rewrite sapp_assoc, (unescape_app _ _ _ D). unfold dec at 1. rewrite D.
  cbn [append unescape Ascii.eqb Bool.eqb]. rewrite (IH H2). cbn. rewrite sapp_assoc. reflexivity.
Qed.

Lemma split_dirT l : Forall (fun e => contains_byte "/" e = false) l -> split_byte "/" (dirT l) = l ++ [""].
Proof.
  unfold dirT. induction l as [|e l IH]; intros H; [reflexivity|]. inversion H as [|? ? H1 H2]; subst. cbn [map sconcat].
  rewrite sapp_assoc. cbn [append]. rewrite split_byte_app by exact H1. rewrite (IH H2). reflexivity.
Qed.

Lemma pctOk_sep a b : pctOk (a ++ String "/" b) = true -> pctOk a = true /\ pctOk b = true.
Proof.
  remember (String.length a) as n eqn:N. assert (L : String.length a <= n) by lia. clear N. revert a L.
  induction n as [|n IH]; intros a L H.
  - destruct a; [|cbn in L; lia]. cbn [append pctOk Ascii.eqb Bool.eqb] in H. split; [reflexivity|exact H].
  - destruct a as [|c a]; [cbn [append pctOk Ascii.eqb Bool.eqb] in H; split; [reflexivity|exact H]|]. cbn in L. cbn [append pctOk] in H |- *.
    destruct (Ascii.eqb c "%").
    + destruct a as [|x [|y a]]; cbn [append] in H.
      * destruct b; [discriminate|]. rewrite andb_true_iff in H. destruct H as [H _]. rewrite andb_true_iff in H. destruct H as [H _]. cbn in H. discriminate.
      * rewrite andb_true_iff in H. destruct H as [H _]. rewrite andb_true_iff in H. destruct H as [_ H]. cbn in H. discriminate.
      * cbn in L. rewrite andb_true_iff in *. destruct H as [H1 H2]. rewrite H1. destruct (IH a ltac:(lia) H2). tauto.
    + apply IH; [lia|exact H].
Qed.

Lemma pctOk_dirT l : pctOk (dirT l) = true -> Forall (fun e => pctOk e = true) l.
Proof.
  unfold dirT. induction l as [|e l IH]; intros H; [constructor|]. cbn [map sconcat] in H. rewrite sapp_assoc in H.
  destruct (pctOk_sep _ _ H) as [A B]. constructor; [exact A|apply IH, B].
Qed.

(** ** Lengths *)

Definition w1 (e : string) : nat := S (String.length (dec e)).
Definition l1 (e : string) : nat := S (String.length e).

Lemma length_dirT l : String.length (dirT l) = list_sum (map l1 l).
Proof. unfold dirT. induction l as [|e l IH]; [reflexivity|]. cbn [map sconcat]. rewrite !slength_app, IH. change (list_sum (l1 e :: map l1 l)) with (l1 e + list_sum (map l1 l)). unfold l1 at 2. cbn [String.length]. lia. Qed.

Lemma dec_length e : pctOk e = true -> w1 e <= l1 e /\ (w1 e = l1 e -> contains_byte "%" e = false).
Proof.
  intros H. apply pctOk_unescape in H as (d & D). unfold w1, l1, dec. rewrite D. destruct (unescape_length _ _ D) as [A B]. split; [lia|].
  intros E. apply B. lia.
Qed.

Lemma sum_rev (l : list nat) : list_sum (rev l) = list_sum l.
Proof. induction l as [|x l IH]; [reflexivity|]. cbn [rev]. rewrite list_sum_app, IH. change (list_sum (x :: l)) with (x + list_sum l). change (list_sum [x]) with (x + 0). lia. Qed.

Lemma clean_weight es : Forall (fun e => contains_byte "/" e = false) es -> Forall (fun e => pctOk e = true) es -> forall st, ~ In ".." st ->
  list_sum (map w1 (cleanElems true es st)) <= list_sum (map w1 st) + list_sum (map l1 es) /\
  (list_sum (map w1 (cleanElems true es st)) = list_sum (map w1 st) + list_sum (map l1 es) -> Forall (fun e => Name e /\ contains_byte "%" e = false) es).
Proof.
  induction es as [|e es IH]; intros S P st N.
  - cbn [cleanElems map]. rewrite map_rev, sum_rev. split; [cbn; lia|constructor].
  - inversion S as [|? ? S1 S2]; subst. inversion P as [|? ? P1 P2]; subst. specialize (IH S2 P2).
    cbn [cleanElems map]. change (list_sum (l1 e :: map l1 es)) with (l1 e + list_sum (map l1 es)).
    assert (LE : 0 < l1 e) by (unfold l1; lia).
    destruct (String.eqb e "" || String.eqb e ".") eqn:E1.
    + destruct (IH st N) as [A _]. split; lia.
    + destruct (String.eqb e "..") eqn:E2.
      * destruct st as [|x st]; [destruct (IH [] N) as [A _]; cbn [map list_sum fold_right] in *; split; lia|].
        destruct (String.eqb_spec x "..") as [->|_]; [destruct N; left; reflexivity|].
        destruct (IH st) as [A _]; [intros I; apply N; right; exact I|]. cbn [map].
        change (list_sum (w1 x :: map w1 st)) with (w1 x + list_sum (map w1 st)). split; lia.
      * destruct (IH (e :: st)) as [A B]; [intros [->|I]; [discriminate|exact (N I)]|]. cbn [map] in A, B.
        change (list_sum (w1 e :: map w1 st)) with (w1 e + list_sum (map w1 st)) in A, B. destruct (dec_length e P1) as [C D].
        split; [lia|]. intros E. constructor; [|apply B; lia]. split; [|apply D; lia].
        apply orb_false_iff in E1 as [E0 E1]. repeat split; try (apply String.eqb_neq; assumption). exact S1.
Qed.
