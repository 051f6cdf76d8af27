(** Proofs about URLs: which base paths Go clients reach. *)
From Verif Require Import Base BaseProofs CliProofs Uri Ridl Schema Url PathSpec PathProofs UrlSpec UrlProofs UrlJoin.

Lemma without_not bad s c : Without bad s -> contains_byte c bad = true -> contains_byte c s = false.
Proof.
  intros W H. apply (sforall_not_contains _ _ _ W). cbn beta. rewrite H, andb_false_r. reflexivity.
Qed.
Lemma without_ctl bad s : Without bad s -> sexists is_ctl s = false.
Proof.
  unfold Without. induction s as [|c s IH]; [reflexivity|]. cbn [sforall sexists]. rewrite andb_true_iff. intros [A B].
  rewrite (IH B), orb_false_r. unfold is_ctl. apply andb_true_iff in A as [A _]. apply andb_true_iff in A as [A1 A2].
  apply negb_true_iff in A1, A2. rewrite A1, A2. reflexivity.
Qed.

Lemma walk_forall (Q : string -> Prop) top d es t : Walk top d es t -> Forall Q d -> Forall Q es -> Forall Q t.
Proof.
  induction 1 as [d|d e es t He HW IH|d x es t HW IH|es t Ht HW IH|d e es t He HW IH]; intros HD HE; [exact HD| | | |].
  - inversion HE; subst. apply IH; assumption.
  - inversion HE; subst. apply Forall_app in HD as [HD _]. apply IH; assumption.
  - inversion HE; subst. apply IH; assumption.
  - inversion HE; subst. apply IH; [apply Forall_app; split; [exact HD|constructor; [assumption|constructor]]|assumption].
Qed.

Lemma split_lacks c x s : contains_byte x s = false -> Forall (fun e => contains_byte x e = false) (split_byte c s).
Proof.
  unfold contains_byte. induction s as [|y s IH]; cbn [split_byte sexists]; intros H; [constructor; [reflexivity|constructor]|].
  apply orb_false_iff in H as [H1 H2]. specialize (IH H2). destruct (Ascii.eqb y c); [constructor; [reflexivity|exact IH]|].
  destruct (split_byte c s) as [|e es]; [constructor; [cbn; rewrite H1; reflexivity|constructor]|]. inversion IH; subst.
  constructor; [cbn; rewrite H1; assumption|assumption].
Qed.

(** the parsed address *)
Definition Parsed (u : url) (h s : string) (f : string -> string) (p : string) (d : list string) : Prop :=
  u_host u = h /\ u_scheme u = to_lower s /\ u_opaque u = "" /\ u_omitHost u = false /\ u_forceQuery u = false /\
  escapedPath u = f p /\ Writing f /\ contains_byte "%" p = false /\ (p = "" \/ exists p1, p = String "/" p1) /\
  cleanElems true (split_byte "/" p) [] = d.

Lemma address_parsed a h d : Address a h d -> Forall Name d /\ Forall (fun e => contains_byte "%" e = false) d /\
  exists u s f p, urlParse a = Some u /\ HttpScheme s /\ HostPort h /\ Parsed u h s f p d.
Proof.
  intros A. destruct A as [s h p q fr d HS HH HP HQ HF].
  assert (P : Forall Name d /\ Forall (fun e => contains_byte "%" e = false) d /\ contains_byte "%" p = false /\ contains_byte "?" p = false /\
    contains_byte "#" p = false /\ sexists is_ctl p = false /\ (p = "" \/ exists p1, p = String "/" p1) /\ cleanElems true (split_byte "/" p) [] = d).
  { destruct HP as [|p es d W EL WK].
    - repeat (split; [first [left; reflexivity|reflexivity|constructor]|]). reflexivity.
    - apply elements_unique in EL. subst es.
      assert (NP : contains_byte "%" p = false) by (apply (without_not _ _ _ W); reflexivity).
      split; [apply (walk_names _ _ _ _ WK); constructor|]. split; [apply (walk_forall _ _ _ _ _ WK); [constructor|apply split_lacks, NP]|].
      split; [exact NP|]. split; [apply (without_not _ _ _ W); reflexivity|]. split; [apply (without_not _ _ _ W); reflexivity|].
      split; [exact (without_ctl _ _ W)|]. split; [right; exists p; reflexivity|].
      cbn [append split_byte Ascii.eqb Bool.eqb cleanElems]. cbn [String.eqb orb].
      apply (walk_clean _ _ _ _ WK); [constructor|reflexivity]. }
  destruct P as (N1 & N2 & P1 & P2 & P3 & P4 & P5 & P6). split; [exact N1|]. split; [exact N2|].
  pose proof (unescape_plain _ P1) as UP.
  destruct (setPath_some (Url (to_lower s) "" h "" "" false false (drop 1 q) "") _ _ UP) as (v & V).
  assert (PS : p <> "*") by (intros ->; destruct P5 as [X|[? X]]; discriminate).
  destruct (escaped_facts _ _ _ _ UP PS V) as (E1 & E2 & E3 & F1 & F2 & F3 & F4 & F5 & F6 & F7 & F8). cbn in F1, F2, F3, F4, F5, F6, F7, F8.
  assert (W : exists f, Writing f /\ escapedPath v = f p).
  { destruct E3 as [E|E]; [exists (fun x => x)|exists escapePath]; (split; [|exact E]); [left|right]; reflexivity. }
  destruct W as (f & W & E).
  assert (PA : parse false (s ++ "://" ++ h ++ p ++ q) = Some v).
  { rewrite parse_http; [exact V|exact HS|exact HH|exact P5|exact P4|exact P2|]. destruct HQ as [|q Q1 Q2]; [left; reflexivity|].
    right. exists q. split; [reflexivity|]. split; [exact Q1|exact (without_ctl _ _ Q2)]. }
  assert (NH : contains_byte "#" (s ++ "://" ++ h ++ p ++ q) = false).
  { destruct (scheme_letters s HS) as (S1 & _). destruct (host_ok h HH) as (_ & H2 & _). rewrite !contains_byte_app, P3.
    rewrite (sforall_not_contains _ "#" _ S1 eq_refl), (sforall_not_contains _ "#" _ H2 eq_refl). cbn.
    destruct HQ as [|q Q1 Q2]; [reflexivity|]. cbn [append contains_byte sexists Ascii.eqb Bool.eqb orb].
    apply (without_not _ _ _ Q2). reflexivity. }
  destruct HF as [|fr HF].
  - exists v, s, f, p. rewrite sapp_nil_r. split; [unfold urlParse; rewrite index_none by exact NH; cbn [fst snd]; rewrite PA; reflexivity|].
    split; [exact HS|]. split; [exact HH|]. unfold Parsed. rewrite F1, F2, F3, F5, F6. tauto.
  - exists (Url (u_scheme v) (u_opaque v) (u_host v) (u_path v) (u_rawPath v) (u_omitHost v) (u_forceQuery v) (u_rawQuery v) fr), s, f, p.
    split.
    + replace (s ++ "://" ++ h ++ p ++ q ++ "#" ++ fr)%string with ((s ++ "://" ++ h ++ p ++ q) ++ String "#" fr)%string
        by (rewrite !sapp_assoc; reflexivity).
      unfold urlParse. rewrite index_some by exact NH. cbn [fst snd]. rewrite PA.
      rewrite unescape_plain by (apply (without_not _ _ _ HF); reflexivity). reflexivity.
    + split; [exact HS|]. split; [exact HH|]. unfold Parsed. cbn [u_scheme u_host u_opaque u_omitHost u_forceQuery]. rewrite F1, F2, F3, F5, F6.
      repeat split; try assumption; exact E.
Qed.

(** base paths and prefixes *)
Lemma base_elements b : has_prefix "/" b = true -> has_suffix "/" b = true ->
  exists bs, Forall (fun e => contains_byte "/" e = false) bs /\ b = (dirText bs ++ "/")%string.
Proof.
  intros H1 H2. apply has_prefix_iff in H1 as (x & ->). apply has_suffix_iff in H2 as (z & Z).
  destruct x as [|c x]; [exists []; split; [constructor|reflexivity]|].
  assert (exists y, String c x = (y ++ "/")%string) as (y & Y).
  { apply (suffix_last _ _ _ _ Z). discriminate. }
  rewrite Y. exists (split_byte "/" y). split; [apply Forall_forall; intros e I; apply (split_byte_no _ _ _ I)|].
  rewrite dirText_dirT, <- dirT_join by apply split_byte_nonempty. rewrite (join_split "/"). reflexivity.
Qed.

Lemma dirT_ends l : l <> [] -> exists x, dirT l = (x ++ "/")%string.
Proof.
  destruct l as [|e l] using rev_ind; [congruence|]. intros _. rewrite dirT_app. exists (dirT l ++ e)%string. unfold dirT at 2. cbn [map sconcat].
  rewrite sapp_nil_r, sapp_assoc. reflexivity.
Qed.

Lemma ident_name m : Ident m -> Name m /\ contains_byte "%" m = false /\ sforall targetByte m = true /\ unescape m = Some m.
Proof.
  intros [N H].
  assert (C : forall c, (is_alpha_byte c || is_digit_byte c || Ascii.eqb c "_") = false -> contains_byte c m = false) by (intros c E; apply (sforall_not_contains _ _ _ H E)).
  assert (P : contains_byte "%" m = false) by (apply C; reflexivity).
  split; [|split; [exact P|split; [|apply unescape_plain, P]]].
  - repeat split; [exact N| | |apply C; reflexivity]; intros ->; discriminate.
  - revert H. apply sforall_impl. assert (T : forall c, negb (is_alpha_byte c || is_digit_byte c || Ascii.eqb c "_") || targetByte c = true)
      by (apply all_bytes; vm_compute; reflexivity).
    intros c E. specialize (T c). rewrite E in T. exact T.
Qed.

(** what the server sees of a method's URL *)
Lemma go_sees a h d bs svc m : Address a h d -> Forall (fun e => contains_byte "/" e = false) bs -> Forall (fun e => pctOk e = true) bs ->
  Ident svc -> Ident m ->
  exists f X, Writing f /\ Forall Name d /\ Forall (fun e => contains_byte "%" e = false) d /\
    goSends (goMethodURL a (dirText (bs ++ [svc]) ++ "/") m) = Some (h, (X ++ m)%string) /\
    let q := dirT (map dec (cleanElems true (bs ++ [svc]) (rev (map f d)))) in
    (X = q \/ X = ("/" ++ q)%string) /\ (has_prefix "/" q = false -> X = ("/" ++ q)%string).
Proof.
  intros A SL PO HS HM. destruct (address_parsed a h d A) as (ND & NP & u & s & f & p & UP & SS & HH & PU).
  destruct (ident_name svc HS) as (SN & SP & _ & _). destruct (ident_name m HM) as (MN & MP & MT & MU).
  exists f. set (es := bs ++ [svc]).
  assert (SLE : Forall (fun e => contains_byte "/" e = false) es).
  { apply Forall_app. split; [exact SL|]. constructor; [apply SN|constructor]. }
  assert (POE : Forall (fun e => pctOk e = true) es).
  { apply Forall_app. split; [exact PO|]. constructor; [apply pctOk_unescape; eexists; apply unescape_plain, SP|constructor]. }
  destruct PU as (P1 & P2 & P3 & P4 & P5 & P6 & W & P7 & P8 & P9).
  set (u' := Url (u_scheme u) (u_opaque u) (u_host u) (u_path u) (u_rawPath u) (u_omitHost u) (u_forceQuery u) "" "").
  assert (E' : escapedPath u' = f p) by (rewrite <- P6; reflexivity).
  set (t := cleanElems true es (rev (map f d))).
  assert (TL : exists t0, t = t0 ++ [svc]).
  { unfold t, es. rewrite clean_app. cbn [cleanElems]. destruct (name_nostay _ SN) as [-> ->]. cbn [rev]. rewrite rev_involutive. eauto. }
  destruct TL as (t0 & TL). assert (TN : t <> []) by (rewrite TL; intros X; destruct t0; discriminate).
  assert (PT : Forall (fun e => pctOk e = true) t).
  { apply clean_forall; [reflexivity|exact POE|]. apply Forall_rev, Forall_forall. intros x I. apply in_map_iff in I as (y & <- & I).
    apply pctOk_unescape. exists y. rewrite Forall_forall in NP. destruct W as [->| ->]; [apply unescape_plain, NP, I|apply unescape_escape; reflexivity]. }
  (* the cleaned path *)
  set (P := (dirText es ++ "/")%string).
  assert (SPL : split_byte "/" P = "" :: es ++ [""]).
  { unfold P. rewrite dirText_dirT. cbn [append split_byte Ascii.eqb Bool.eqb]. rewrite split_dirT by exact SLE. reflexivity. }
  assert (CL : forall E st, has_prefix "/" E = true -> cleanElems true (split_byte "/" E) [] = st -> 
     pathJoin E P = ("/" ++ join "/" (cleanElems true es (rev st)))%string).
  { intros E st H1 H2. unfold pathJoin. destruct (String.eqb_spec E "") as [->|_]; [discriminate|].
    destruct (String.eqb_spec P "") as [X|_]; [unfold P in X; destruct (dirText es); discriminate|]. cbn [andb].
    apply pathClean_rooted; [destruct E; [discriminate|exact H1]|].
    change (E ++ "/" ++ P)%string with (E ++ String "/" P)%string. rewrite split_sep, clean_app, H2, SPL.
    cbn [cleanElems String.eqb orb]. rewrite clean_app. cbn [cleanElems String.eqb orb]. rewrite !rev_involutive. reflexivity. }
  assert (SUF : forall x, has_suffix "/" (x ++ join "/" t) = false).
  { intros x. destruct (has_suffix "/" _) eqn:E; [|reflexivity]. apply has_suffix_iff in E as (z & Z). exfalso.
    rewrite TL in Z. destruct SN as (SN1 & _ & _ & SN2).
    assert (exists z', svc = (z' ++ "/")%string) as (z' & Z').
    { destruct t0 as [|e t0]; [apply (suffix_last _ _ _ _ Z SN1)|].
      rewrite join_app in Z by discriminate. cbn [join] in Z. rewrite <- !sapp_assoc in Z. apply (suffix_last _ _ _ _ Z SN1). }
    subst svc. rewrite contains_byte_app in SN2. apply orb_false_iff in SN2 as [_ SN2]. discriminate. }
  assert (HSP : has_suffix "/" P = true) by (apply has_suffix_app).
  assert (Q := unescape_dirT t PT). set (q := dirT (map dec t)) in *.
  assert (QN : exists x, q = (x ++ "/")%string) by (apply dirT_ends; intros X; apply map_eq_nil in X; exact (TN X)).
  assert (JP : joinedPath u' P = (if has_prefix "/" (f p) then "/" ++ dirT t else dirT t)%string).
  { unfold joinedPath. rewrite E', HSP. cbn [andb]. destruct P8 as [->|(p1 & ->)].
    - assert (FE : f "" = "") by apply (writing_fix f W). rewrite FE. cbn [has_prefix append].
      rewrite (CL "/" [] eq_refl eq_refl). cbn [split_byte] in P9. cbn in P9. subst d. fold t.
      cbn [append drop]. change (rev []) with (rev (map f [])). fold t.
      pose proof (SUF "") as SU. cbn [append] in SU. rewrite SU. cbn [negb]. apply dirT_join, TN.
    - assert (FE : has_prefix "/" (f (String "/" p1)) = true) by (destruct W as [->| ->]; reflexivity). rewrite FE.
      rewrite (CL _ (map f d)); [|exact FE|rewrite split_writing by exact W; rewrite <- P9; apply (clean_writing f _ W [])].
      fold t. rewrite (SUF "/"). cbn [negb]. rewrite sapp_assoc, dirT_join by exact TN. reflexivity. }
  assert (FIN : exists X, goSends (goMethodURL a P m) = Some (h, (X ++ m)%string) /\
     (X = q \/ X = ("/" ++ q)%string) /\ (has_prefix "/" q = false -> X = ("/" ++ q)%string)).
  { unfold goMethodURL, serviceURL. rewrite UP, P1. destruct (host_ok h HH) as (_ & HT & _ & HN).
    destruct (String.eqb_spec h "") as [X|_]; [congruence|]. rewrite <- P1. fold u'. rewrite P1.
    unfold urlJoinPath. rewrite JP.
    set (p' := (if has_prefix "/" (f p) then "/" ++ dirT t else dirT t)%string).
    set (q' := (if has_prefix "/" (f p) then "/" ++ q else q)%string).
    assert (U' : unescape p' = Some q').
    { unfold p', q'. destruct (has_prefix "/" (f p)); [|exact Q]. cbn [append unescape Ascii.eqb Bool.eqb]. rewrite Q. reflexivity. }
    assert (QS : q' <> "*" /\ q' <> "").
    { unfold q'. destruct QN as (x & ->). split; destruct (has_prefix "/" (f p)); try discriminate; destruct x as [|c [|? ?]]; discriminate. }
    destruct (setPath_some u' _ _ U') as (v & V). rewrite V.
    destruct (escaped_facts _ _ _ _ U' (proj1 QS) V) as (E1 & E2 & E3 & F1 & F2 & F3 & F4 & F5 & F6 & F7 & F8).
    cbn [u_scheme u_opaque u_host u_omitHost u_forceQuery u_rawQuery u_fragment u'] in F1, F2, F3, F5, F6, F7, F8.
    assert (HS' : HttpScheme (to_lower s)) by (unfold HttpScheme; rewrite to_lower_idem; exact SS).
    assert (EN : escapedPath v <> "") by (intros X; rewrite X in E1; cbn in E1; injection E1 as E1; destruct QS; congruence).
    assert (US : urlString v = (to_lower s ++ "://" ++ h ++ (if has_prefix "/" (escapedPath v) then "" else "/") ++ escapedPath v)%string).
    { unfold urlString, queryPart. rewrite F1, F2, F3, F5, F6, F7, F8, P1, P2, P3, P4, P5. cbn [String.eqb negb orb].
      destruct (scheme_letters _ HS') as (_ & SNE & _). destruct (String.eqb_spec (to_lower s) "") as [X|_]; [congruence|].
      destruct (String.eqb_spec h "") as [X|_]; [congruence|]. cbn [andb negb].
      destruct (String.eqb_spec (escapedPath v) "") as [X|_]; [congruence|]. cbn [negb andb].
      rewrite ?sapp_nil_r, !sapp_assoc. destruct (has_prefix "/" (escapedPath v)); cbn [negb andb append]; rewrite ?sapp_nil_r; reflexivity. }
    rewrite US, !sapp_assoc.
    destruct (has_prefix "/" (escapedPath v)) eqn:HP.
    - apply has_prefix_iff in HP as (r & HR). rewrite HR in E1, E2. exists q'. split.
      + change ("" ++ escapedPath v ++ m)%string with (escapedPath v ++ m)%string. rewrite HR, sapp_assoc. cbn [append].
        apply go_sends; [exact HS'|exact HH| |].
        * cbn [append sforall] in E2. apply andb_true_iff in E2 as [_ E2]. rewrite sforall_app, E2. exact MT.
        * change (String "/" (r ++ m))%string with (("/" ++ r) ++ m)%string. rewrite (unescape_app _ _ _ E1), MU. reflexivity.
      + unfold q'. destruct (has_prefix "/" (f p)) eqn:FP; [split; [right; reflexivity|intros _; reflexivity]|]. split; [left; reflexivity|].
        intros X. destruct (unescape_slash _ _ E1) as (d' & D & _). unfold q' in D. rewrite ?FP in D. rewrite D in X. discriminate.
    - exists ("/" ++ q')%string. split.
      + cbn [append]. apply go_sends; [exact HS'|exact HH| |].
        * rewrite sforall_app, E2. exact MT.
        * cbn [unescape Ascii.eqb Bool.eqb]. rewrite (unescape_app _ _ _ E1), MU. reflexivity.
      + assert (NF : has_prefix "/" (f p) = false).
        { destruct (has_prefix "/" (f p)) eqn:FP; [|reflexivity]. exfalso. destruct E3 as [E3|E3]; rewrite E3 in HP.
          - unfold p' in HP. rewrite ?FP in HP. discriminate.
          - unfold q' in HP. rewrite ?FP in HP. discriminate. }
        unfold q'. rewrite NF. split; [right; reflexivity|intros _; reflexivity]. }
  destruct FIN as (X & G & FX). exists X. split; [exact W|]. split; [exact ND|]. split; [exact NP|]. split; [exact G|]. exact FX.
Qed.
