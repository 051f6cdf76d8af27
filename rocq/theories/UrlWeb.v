(** Proofs about URLs: what browsers make of the base path, and older Go clients. *)
From Verif Require Import Base BaseProofs CliProofs Uri Ridl Schema Url PathSpec PathProofs UrlSpec UrlProofs UrlJoin UrlMain.

(** ** The base path *)
Lemma base_accepted b0 b : checkBasePath goUriOk b0 = Ok b -> b <> "" ->
  has_prefix "/" b = true /\ has_suffix "/" b = true /\ pctOk b = true /\ sexists is_ctl b = false /\
  contains_byte "?" b = false /\ contains_byte "#" b = false.
Proof.
  unfold checkBasePath. intros H N. destruct (String.eqb b0 ""); [injection H as <-; congruence|].
  destruct (containsAny b0 basepathSpaces); [discriminate|]. destruct (containsAny b0 "?#") eqn:Q; [discriminate|].
  destruct (contains "://" b0); [discriminate|].
  set (p := if has_prefix "/" b0 then b0 else ("/" ++ b0)%string) in H. destruct (goUriOk p) eqn:G; [|discriminate]. cbn [negb] in H.
  injection H as <-. unfold goUriOk in G. apply andb_true_iff in G as [G1 G2]. apply negb_true_iff in G1.
  assert (P : has_prefix "/" p = true) by (unfold p; destruct (has_prefix "/" b0) eqn:E; [exact E|reflexivity]).
  assert (CB : forall c, contains_byte c "?#" = true -> contains_byte c b0 = false).
  { intros c C. destruct (contains_byte c b0) eqn:E; [|reflexivity]. exfalso. revert Q. unfold containsAny. clear - C E.
    unfold contains_byte in *. induction b0 as [|x b0 IH]; [discriminate|]. cbn [sexists] in *. intros Q. apply orb_false_iff in Q as [Q1 Q2].
    apply orb_true_iff in E as [E|E]; [|exact (IH E Q2)]. apply Ascii.eqb_eq in E. subst x.
    first [congruence | (unfold contains_byte in Q1; congruence)]. }
  assert (CP : forall c, contains_byte c "?#" = true -> contains_byte c p = false).
  { intros c C. unfold p. destruct (has_prefix "/" b0); [apply CB, C|]. rewrite contains_byte_app, (CB c C), orb_false_r.
    unfold contains_byte in *. cbn [sexists] in *. destruct (Ascii.eqb_spec "/" c) as [<-|_]; [discriminate|reflexivity]. }
  destruct (has_suffix "/" p) eqn:S; [repeat split; try assumption; try (apply CP; reflexivity)|].
  split; [|split; [apply has_suffix_app|split; [|split; [|split]]]].
  - apply has_prefix_iff in P as (r & ->). reflexivity.
  - apply unescape_app_inv; [exact G2|reflexivity].
  - rewrite sexists_app, G1. reflexivity.
  - rewrite contains_byte_app, CP by reflexivity. reflexivity.
  - rewrite contains_byte_app, CP by reflexivity. reflexivity.
Qed.

(** ** Go clients *)

Lemma map_dec_id l : Forall (fun e => contains_byte "%" e = false) l -> map dec l = l.
Proof. induction 1 as [|e l H _ IH]; [reflexivity|]. cbn [map]. rewrite IH. unfold dec. rewrite unescape_plain by exact H. reflexivity. Qed.
Lemma map_dec_writing f l : Writing f -> Forall (fun e => contains_byte "%" e = false) l -> map dec (map f l) = l.
Proof.
  intros W H. induction H as [|e l H _ IH]; [reflexivity|]. cbn [map]. rewrite IH. f_equal. unfold dec.
  destruct W as [->| ->]; [rewrite unescape_plain by exact H|unfold escapePath; rewrite unescape_escape by reflexivity]; reflexivity.
Qed.

Lemma sapp_inv_tail a b c : (a ++ c)%string = (b ++ c)%string -> a = b.
Proof.
  revert b. induction a as [|x a IH]; intros b H; (destruct b as [|y b]; [try reflexivity|]).
  - exfalso. apply (f_equal String.length) in H. change ("" ++ c)%string with c in H. rewrite slength_app in H. cbn [String.length] in H. lia.
  - exfalso. apply (f_equal String.length) in H. change ("" ++ c)%string with c in H. rewrite slength_app in H. cbn [String.length] in H. lia.
  - cbn [append] in H. injection H as -> H. f_equal. apply IH, H.
Qed.

Lemma dirText1 x : dirText [x] = ("/" ++ x)%string.
Proof. unfold dirText. cbn [map sconcat]. apply sapp_nil_r. Qed.

Lemma first_of_names l : l <> [] -> Forall Name l -> has_prefix "/" (dirT l) = false.
Proof.
  destruct l as [|e l]; [congruence|]. intros _ H. inversion H as [|? ? (A & _ & _ & B) _]; subst. unfold dirT. cbn [map sconcat].
  destruct e as [|c e]; [congruence|]. cbn [append]. apply prefix_slash. intros ->. unfold contains_byte in B. cbn in B. discriminate.
Qed.

Theorem go_reaches_iff a h d b0 b svc m : Address a h d -> checkBasePath goUriOk b0 = Ok b -> b <> "" -> Ident svc -> Ident m ->
  (goSends (goMethodURL a (b ++ svc ++ "/") m) = Some (h, dirText d ++ b ++ svc ++ "/" ++ m)%string <-> NamedBase b).
Proof.
  intros A CB BN HS HM. destruct (base_accepted b0 b CB BN) as (B1 & B2 & B3 & _). destruct (base_elements b B1 B2) as (bs & SL & EB).
  assert (PB : Forall (fun e => pctOk e = true) bs).
  { apply pctOk_dirT. rewrite EB, dirText_dirT in B3. exact B3. }
  destruct (ident_name svc HS) as (SN & SP & _ & _).
  assert (EP : (b ++ svc ++ "/")%string = (dirText (bs ++ [svc]) ++ "/")%string).
  { rewrite EB, dirText_app, dirText1, !sapp_assoc. reflexivity. }
  destruct (go_sees a h d bs svc m A SL PB HS HM) as (f & X & W & ND & NP & G & QX & QN). rewrite EP, G.
  set (es := bs ++ [svc]) in *.
  assert (R : (dirText d ++ b ++ svc ++ "/" ++ m)%string = ((dirText d ++ dirText es ++ "/") ++ m)%string).
  { rewrite EB. unfold es. rewrite dirText_app, dirText1, !sapp_assoc. reflexivity. }
  rewrite R. split.
  - intros E. injection E as E. apply sapp_inv_tail in E.
    assert (L : String.length X = list_sum (map l1 d) + list_sum (map l1 es) + 1).
    { rewrite E, dirText_dirT, !slength_app. cbn [String.length]. rewrite length_dirT.
      assert (LD : String.length (dirText d) = list_sum (map l1 d)).
      { pose proof (f_equal String.length (dirText_dirT d)) as X0. rewrite !slength_app, length_dirT in X0. cbn in X0. lia. }
      rewrite LD. lia. }
    assert (LQ : String.length (dirT (map dec (cleanElems true es (rev (map f d))))) = list_sum (map w1 (cleanElems true es (rev (map f d))))).
    { rewrite length_dirT, map_map. reflexivity. }
    assert (LF : list_sum (map w1 (rev (map f d))) = list_sum (map l1 d)).
    { rewrite map_rev, sum_rev. rewrite <- (map_dec_writing f d W NP) at 2. rewrite !map_map. reflexivity. }
    destruct (clean_weight es) with (st := rev (map f d)) as [C1 C2].
    + apply Forall_app. split; [exact SL|]. constructor; [apply SN|constructor].
    + apply Forall_app. split; [exact PB|]. constructor; [apply pctOk_unescape; eexists; apply unescape_plain, SP|constructor].
    + intros I. apply in_rev in I. apply in_map_iff in I as (x & Hx & I). destruct (writing_fix f W) as (_ & _ & F3).
      rewrite <- F3 in Hx. apply (writing_inj f _ _ W) in Hx. subst x. rewrite Forall_forall in ND. destruct (ND _ I) as (_ & _ & Y & _). congruence.
    + assert (LX : String.length X <= 1 + list_sum (map w1 (cleanElems true es (rev (map f d))))).
      { destruct QX as [->| ->]; rewrite ?slength_app, LQ; cbn [String.length]; lia. }
      rewrite LF in *. exists bs. split; [|exact EB]. apply (Forall_app _ bs [svc]). apply C2. lia.
  - intros (es' & F & EB').
    assert (es' = bs).
    { assert (S1 : split_byte "/" b = "" :: bs ++ [""]) by (rewrite EB, dirText_dirT; cbn [append split_byte Ascii.eqb Bool.eqb]; rewrite split_dirT by exact SL; reflexivity).
      assert (S2 : split_byte "/" b = "" :: es' ++ [""]).
      { rewrite EB', dirText_dirT. cbn [append split_byte Ascii.eqb Bool.eqb]. rewrite split_dirT; [reflexivity|].
        eapply Forall_impl; [|exact F]. intros e [(_ & _ & _ & K) _]. exact K. }
      rewrite S1 in S2. injection S2 as S2. apply app_inj_tail in S2. symmetry. apply S2. }
    subst es'. f_equal. f_equal. f_equal.
    assert (NE : Forall Name es) by (apply Forall_app; split; [eapply Forall_impl; [|exact F]; intros e [K _]; exact K|constructor; [exact SN|constructor]]).
    assert (CE : cleanElems true es (rev (map f d)) = map f d ++ es).
    { replace es with (es ++ []) at 1 by apply app_nil_r. rewrite clean_names by exact NE. cbn [cleanElems]. rewrite rev_app_distr, !rev_involutive. reflexivity. }
    rewrite CE in QN. rewrite map_app, (map_dec_writing f d W NP), map_dec_id in QN.
    + rewrite QN; [|apply first_of_names; [intros K; apply app_eq_nil in K as [_ K]; destruct bs; discriminate|apply Forall_app; split; assumption]].
      rewrite dirT_app. transitivity (("/" ++ dirT d) ++ dirT es)%string; [reflexivity|]. rewrite <- dirText_dirT, !sapp_assoc. f_equal.
      symmetry. apply (dirText_dirT es).
    + apply Forall_app. split; [eapply Forall_impl; [|exact F]; intros e [_ K]; exact K|constructor; [exact SP|constructor]].
Qed.

(** ** Browsers *)

Definition esc : string -> string := escapeWith plainInWebPath.

Lemma hex_plain c : is_hex c = true -> plainInWebPath c = true.
Proof. assert (T : forall c, negb (is_hex c) || plainInWebPath c = true) by (apply all_bytes; vm_compute; reflexivity). intros H. specialize (T c). rewrite H in T. exact T. Qed.

Lemma unescape_esc e : pctOk e = true -> unescape (esc e) = unescape e.
Proof.
  unfold esc. remember (String.length e) as n eqn:N. assert (L : String.length e <= n) by lia. clear N. revert e L.
  induction n as [|n IH]; intros e L H.
  - destruct e; [reflexivity|cbn in L; lia].
  - destruct e as [|c e]; [reflexivity|]. cbn in L. cbn [pctOk] in H. destruct (Ascii.eqb_spec c "%") as [->|NE].
    + destruct e as [|x [|y e]]; try discriminate. cbn in L. apply andb_true_iff in H as [H1 H2]. pose proof H1 as H3. apply andb_true_iff in H3 as [Hx Hy].
      cbn [escapeWith]. change (plainInWebPath "%") with true. rewrite (hex_plain x Hx), (hex_plain y Hy).
      cbn [unescape Ascii.eqb Bool.eqb]. rewrite H1, (IH e) by (lia || exact H2). reflexivity.
    + cbn [escapeWith]. assert (Ascii.eqb c "%" = false) as EQ by (apply Ascii.eqb_neq; exact NE). destruct (plainInWebPath c).
      * cbn [unescape]. rewrite EQ, (IH e) by (lia || exact H). reflexivity.
      * rewrite pct_unescape, (IH e) by (lia || exact H). cbn [unescape]. rewrite EQ. reflexivity.
Qed.

Definition webByte (c : ascii) : bool := plainInWebPath c && negb (Ascii.eqb c "/").
Lemma esc_bytes e : sforall plainInWebPath (esc e) = true.
Proof.
  unfold esc. induction e as [|c e IH]; [reflexivity|]. cbn [escapeWith]. destruct (plainInWebPath c) eqn:E; [cbn [sforall]; rewrite E; exact IH|].
  rewrite sforall_app, IH, andb_true_r. assert (T : forall c, sforall plainInWebPath (pct c) = true) by (apply all_bytes; vm_compute; reflexivity). apply T.
Qed.

Lemma dec_esc e : pctOk e = true -> dec (esc e) = dec e.
Proof. intros H. unfold dec. rewrite unescape_esc by exact H. reflexivity. Qed.
Lemma esc_pctOk e : pctOk e = true -> pctOk (esc e) = true.
Proof. intros H. pose proof H as H'. apply pctOk_unescape in H as (d & D). apply pctOk_unescape. exists d. rewrite unescape_esc by exact H'. exact D. Qed.

Definition PlainElement (e : string) : Prop := contains_byte "%" e = false /\ e <> "." /\ e <> "..".

Lemma to_lower_contains c s : is_alpha_byte c = false -> contains_byte c (to_lower s) = contains_byte c s.
Proof.
  intros H. unfold contains_byte, to_lower. induction s as [|x s IH]; [reflexivity|]. cbn [smap sexists]. rewrite IH. f_equal.
  unfold lower_byte. destruct (is_upper_byte x) eqn:E; [|reflexivity].
  assert (T : forall x, negb (is_upper_byte x) || (is_alpha_byte (byte_of_N (N_of_byte x + 32)) && is_alpha_byte x) = true)
    by (apply all_bytes; vm_compute; reflexivity).
  specialize (T x). rewrite E in T. cbn in T. apply andb_true_iff in T as [T1 T2].
  transitivity false; [|symmetry]; apply Ascii.eqb_neq; intros <-; congruence.
Qed.

Lemma dots_plain e : PlainElement e -> singleDot e = false /\ doubleDot e = false.
Proof.
  intros (P & D1 & D2). assert (PL : contains_byte "%" (to_lower e) = false) by (rewrite to_lower_contains by reflexivity; exact P).
  split.
  - unfold singleDot. apply orb_false_iff. split; apply String.eqb_neq; [exact D1|]. intros E. rewrite E in PL. discriminate.
  - unfold doubleDot. apply str_in_not. intros I. cbn in I.
    destruct I as [E|[E|[E|[E|[]]]]]; try (rewrite <- E in PL; discriminate).
    apply D2. destruct e as [|a [|b [|? ?]]]; try discriminate. cbn in E. injection E as E1 E2.
    assert (T : forall a, negb (Ascii.eqb "." (lower_byte a)) || Ascii.eqb a "." = true) by (apply all_bytes; vm_compute; reflexivity).
    pose proof (T a) as Ta. pose proof (T b) as Tb. rewrite <- E1 in Ta. rewrite <- E2 in Tb. cbn in Ta, Tb. apply Ascii.eqb_eq in Ta, Tb. congruence.
Qed.

Lemma web_plain es : Forall PlainElement es -> forall acc, webSegments es acc = acc ++ map esc es.
Proof.
  induction 1 as [|e es H F IH]; intros acc; [cbn; symmetry; apply app_nil_r|]. destruct (dots_plain e H) as [S D].
  cbn [webSegments map]. destruct es as [|e' es]; [rewrite D, S; reflexivity|]. rewrite D, S, IH, <- app_assoc. reflexivity.
Qed.

Lemma removelast_sum (l : list string) : list_sum (map w1 (removelast l)) <= list_sum (map w1 l).
Proof.
  induction l as [|x l IH]; [cbn; lia|]. cbn [removelast]. destruct l as [|y l]; [cbn; lia|].
  cbn [map] in *. change (list_sum (w1 x :: w1 y :: map w1 l)) with (w1 x + list_sum (w1 y :: map w1 l)).
  change (list_sum (w1 x :: map w1 (removelast (y :: l)))) with (w1 x + list_sum (map w1 (removelast (y :: l)))). lia.
Qed.

Lemma dot_long e : singleDot e = true \/ doubleDot e = true -> 2 <= l1 e.
Proof.
  unfold l1. destruct e as [|c e]; [|cbn; lia]. intros [H|H]; discriminate.
Qed.

Lemma web_weight es : Forall (fun e => pctOk e = true) es -> es <> [] -> forall acc,
  list_sum (map w1 (webSegments es acc)) <= list_sum (map w1 acc) + list_sum (map l1 es) /\
  (list_sum (map w1 (webSegments es acc)) = list_sum (map w1 acc) + list_sum (map l1 es) -> Forall PlainElement es).
Proof.
  induction es as [|e es IH]; [congruence|]. intros P _ acc. inversion P as [|? ? P1 P2]; subst.
  assert (SUM : list_sum (map l1 (e :: es)) = l1 e + list_sum (map l1 es)) by reflexivity. rewrite SUM.
  assert (ONE : forall a x, list_sum (map w1 (a ++ [x])) = list_sum (map w1 a) + w1 x).
  { intros a x. rewrite map_app, list_sum_app. cbn [map]. change (list_sum [w1 x]) with (w1 x + 0). lia. }
  assert (W0 : w1 "" = 1) by reflexivity.
  assert (WE : w1 (esc e) = w1 e) by (unfold w1; rewrite dec_esc by exact P1; reflexivity).
  destruct (dec_length e P1) as [DL1 DL2]. pose proof (removelast_sum acc) as RL.
  assert (ND : singleDot e = false -> doubleDot e = false -> w1 e = l1 e -> PlainElement e).
  { intros S D E. split; [apply DL2, E|]. split; intros ->; discriminate. }
  cbn [webSegments]. destruct es as [|e' es].
  - change (list_sum (map l1 [])) with 0.
    destruct (doubleDot e) eqn:D; [pose proof (dot_long e (or_intror D)); rewrite ONE, W0; split; lia|].
    destruct (singleDot e) eqn:S; [pose proof (dot_long e (or_introl S)); rewrite ONE, W0; split; lia|].
    rewrite ONE. fold (esc e). rewrite WE. split; [lia|]. intros X. constructor; [|constructor]. apply ND; auto. lia.
  - destruct (doubleDot e) eqn:D.
    { pose proof (dot_long e (or_intror D)). destruct (IH P2 ltac:(discriminate) (removelast acc)) as [A _]. split; [lia|intros X; lia]. }
    destruct (singleDot e) eqn:S.
    { pose proof (dot_long e (or_introl S)). destruct (IH P2 ltac:(discriminate) acc) as [A _]. split; [lia|intros X; lia]. }
    destruct (IH P2 ltac:(discriminate) (acc ++ [escapeWith plainInWebPath e])) as [A B]. rewrite ONE in A, B. fold (esc e) in A, B |- *. rewrite WE in A, B.
    split; [lia|]. intros X. constructor; [apply ND; auto; lia|apply B; lia].
Qed.

Lemma web_nonempty es acc : es <> [] -> webSegments es acc <> [].
Proof.
  revert acc. induction es as [|e es IH]; [congruence|]. intros acc _. cbn [webSegments].
  assert (SN : forall (a : list string) x, a ++ [x] <> []) by (intros a x E; destruct a; discriminate).
  destruct es as [|e' es]; [destruct (doubleDot e); [apply SN|]; destruct (singleDot e); apply SN|].
  destruct (doubleDot e); [apply IH; discriminate|]. destruct (singleDot e); apply IH; discriminate.
Qed.

Lemma web_forall (Q : string -> Prop) es : Q "" -> Forall (fun e => Q (esc e)) es -> forall acc, Forall Q acc -> Forall Q (webSegments es acc).
Proof.
  intros Q0. induction es as [|e es IH]; intros HE acc HA; [exact HA|]. inversion HE as [|? ? H1 H2]; subst.
  assert (RL : Forall Q (removelast acc)).
  { clear - HA. induction HA as [|x l H F IH]; [constructor|]. cbn [removelast]. destruct l; [constructor|constructor; assumption]. }
  cbn [webSegments]. destruct es as [|e' es].
  - destruct (doubleDot e); [apply Forall_app; split; [exact RL|constructor; [exact Q0|constructor]]|].
    destruct (singleDot e); apply Forall_app; (split; [exact HA|constructor; [first [exact Q0|exact H1]|constructor]]).
  - destruct (doubleDot e); [apply IH; assumption|]. destruct (singleDot e); [apply IH; assumption|].
    apply IH; [exact H2|]. apply Forall_app. split; [exact HA|constructor; [exact H1|constructor]].
Qed.

Lemma unescape_join l : l <> [] -> Forall (fun e => pctOk e = true) l -> unescape (join "/" l) = Some (join "/" (map dec l)).
Proof.
  induction l as [|e l IH]; [congruence|]. intros _ H. inversion H as [|? ? H1 H2]; subst. apply pctOk_unescape in H1 as (d & D).
  destruct l as [|e' l]; [cbn [join map]; unfold dec; rewrite D; reflexivity|].
  change (join "/" (e :: e' :: l)) with (e ++ "/" ++ join "/" (e' :: l))%string. rewrite (unescape_app _ _ _ D).
  cbn [append unescape Ascii.eqb Bool.eqb]. rewrite (IH ltac:(discriminate) H2).
  change (join "/" (map dec (e :: e' :: l))) with (dec e ++ "/" ++ join "/" (map dec (e' :: l)))%string.
  unfold dec at 2. rewrite D. reflexivity.
Qed.

Lemma length_join l : l <> [] -> S (String.length (join "/" l)) = list_sum (map l1 l).
Proof.
  induction l as [|e l IH]; [congruence|]. intros _. destruct l as [|e' l]; [cbn [join map]; unfold l1; change (list_sum [S (String.length e)]) with (S (String.length e) + 0); lia|].
  change (join "/" (e :: e' :: l)) with (e ++ "/" ++ join "/" (e' :: l))%string. rewrite !slength_app. specialize (IH ltac:(discriminate)).
  change (list_sum (map l1 (e :: e' :: l))) with (l1 e + list_sum (map l1 (e' :: l))). rewrite <- IH. unfold l1. cbn [String.length]. lia.
Qed.

Lemma slashes_length s : String.length (slashes s) = String.length s.
Proof. apply smap_length. Qed.
Lemma slashes_id s : slashes s = s <-> contains_byte "\" s = false.
Proof.
  unfold slashes, contains_byte. induction s as [|c s IH]; [split; reflexivity|]. cbn [smap sexists].
  destruct (Ascii.eqb_spec c "\") as [->|N]; cbn [orb]; [split; discriminate|]. rewrite <- IH. split; [intros [= E]; exact E|intros ->; reflexivity].
Qed.
Lemma slashes_pct s : pctOk s = true -> pctOk (slashes s) = true.
Proof.
  unfold slashes. remember (String.length s) as n eqn:N. assert (L : String.length s <= n) by lia. clear N. revert s L.
  induction n as [|n IH]; intros s L H; [destruct s; [reflexivity|cbn in L; lia]|]. destruct s as [|c s]; [reflexivity|]. cbn in L. cbn [pctOk smap] in *.
  destruct (Ascii.eqb_spec c "%") as [->|NE].
  - destruct s as [|x [|y s]]; try discriminate. cbn in L. apply andb_true_iff in H as [H1 H2]. pose proof H1 as H3. apply andb_true_iff in H3 as [Hx Hy].
    cbn [smap]. assert (NB : forall z, is_hex z = true -> Ascii.eqb z "\" = false) by (intros z Z; apply Ascii.eqb_neq; intros ->; discriminate).
    rewrite (NB x Hx), (NB y Hy). cbn [Ascii.eqb Bool.eqb]. rewrite H1. apply IH; [lia|exact H2].
  - destruct (Ascii.eqb_spec c "\") as [->|_]; cbn [Ascii.eqb Bool.eqb]; [apply IH; [lia|exact H]|].
    assert (Ascii.eqb c "%" = false) as -> by (apply Ascii.eqb_neq; exact NE). apply IH; [lia|exact H].
Qed.

Lemma split_pctOk s : pctOk s = true -> Forall (fun e => pctOk e = true) (split_byte "/" s).
Proof.
  intros H. pose proof (elements_split s) as E. revert H. induction E as [e HE|e p es HE E IH]; intros H; [constructor; [exact H|constructor]|].
  destruct (pctOk_sep e p H) as [A B]. constructor; [exact A|apply IH, B].
Qed.

(** what the server sees of a path written in an URL *)
Lemma web_sees r : contains_byte "?" r = false -> contains_byte "#" r = false -> pctOk r = true ->
  exists l, l = webSegments (split_byte "/" (slashes r)) [] /\ webSends (String "/" r) = Some ("/" ++ join "/" (map dec l))%string.
Proof.
  intros Q H P. eexists. split; [reflexivity|]. set (es := split_byte "/" (slashes r)).
  assert (CB : forall c, contains_byte c r = false -> Ascii.eqb "/" c = false -> contains_byte c (String "/" r) = false).
  { intros c C N. unfold contains_byte in *. cbn [sexists]. rewrite C, N. reflexivity. }
  unfold webSends, webPath. rewrite (index_none "#") by (apply CB; [exact H|reflexivity]). cbn [fst].
  rewrite (index_none "?") by (apply CB; [exact Q|reflexivity]). cbn [fst]. fold es. set (l := webSegments es []).
  assert (PE : Forall (fun e => pctOk e = true) es) by (apply split_pctOk, slashes_pct, P).
  assert (LN : l <> []) by (apply web_nonempty, split_byte_nonempty).
  assert (PL : Forall (fun e => pctOk e = true) l).
  { apply web_forall; [reflexivity| |constructor]. eapply Forall_impl; [|exact PE]. apply esc_pctOk. }
  assert (BL : sforall plainInWebPath (String "/" (join "/" l)) = true).
  { cbn [sforall]. assert (BB : Forall (fun e => sforall plainInWebPath e = true) l).
    { apply web_forall; [reflexivity| |constructor]. apply Forall_forall. intros e _. apply esc_bytes. }
    cbn. clear - BB. induction BB as [|e l B F IH]; [reflexivity|]. destruct l as [|e' l]; [exact B|].
    change (join "/" (e :: e' :: l)) with (e ++ "/" ++ join "/" (e' :: l))%string. rewrite !sforall_app, B, IH. reflexivity. }
  assert (NC : sexists is_ctl (String "/" (join "/" l)) = false).
  { assert (T : forall c, negb (plainInWebPath c) || negb (is_ctl c) = true) by (apply all_bytes; vm_compute; reflexivity).
    revert BL. generalize (String "/" (join "/" l)). intros s. induction s as [|c s IH]; [reflexivity|]. cbn [sforall sexists]. intros B.
    apply andb_true_iff in B as [B1 B2]. rewrite (IH B2), orb_false_r. specialize (T c). rewrite B1 in T. apply negb_true_iff in T. exact T. }
  change ("/" ++ join "/" l)%string with (String "/" (join "/" l)).
  unfold parse. rewrite NC. cbn [String.eqb andb Ascii.eqb Bool.eqb]. rewrite getScheme_slash. cbn [to_lower smap].
  assert (NQ : contains_byte "?" (String "/" (join "/" l)) = false) by (apply (sforall_not_contains _ _ _ BL); reflexivity).
  assert (CN : count_byte "?" (String "/" (join "/" l)) = 0) by (unfold count_byte; rewrite split_byte_none by exact NQ; reflexivity).
  rewrite CN, andb_false_r, index_none by exact NQ. cbn [fst snd]. unfold parseRest. cbn [has_prefix Ascii.eqb Bool.eqb negb andb orb String.eqb].
  unfold setPath. cbn [unescape Ascii.eqb Bool.eqb]. rewrite (unescape_join l LN PL). reflexivity.
Qed.

Lemma web_reaches_iff r : contains_byte "?" r = false -> contains_byte "#" r = false -> pctOk r = true ->
  (webSends (String "/" r) = Some (String "/" r) <-> contains_byte "\" r = false /\ Forall PlainElement (split_byte "/" r)).
Proof.
  intros Q H P. destruct (web_sees r Q H P) as (l & EL & WS). rewrite WS. set (es := split_byte "/" (slashes r)) in *.
  assert (PE : Forall (fun e => pctOk e = true) es) by (apply split_pctOk, slashes_pct, P).
  assert (EN : es <> []) by apply split_byte_nonempty.
  assert (LN : l <> []) by (rewrite EL; apply web_nonempty, EN).
  assert (JE : join "/" es = slashes r) by apply (join_split "/").
  assert (PLAIN : Forall PlainElement es -> join "/" (map dec l) = slashes r).
  { intros F. rewrite EL, web_plain by exact F. cbn [app]. rewrite map_map. rewrite <- JE. f_equal.
    rewrite <- (map_id es) at 2. apply map_ext_in. intros e I. rewrite Forall_forall in F, PE. rewrite dec_esc by apply PE, I.
    unfold dec. rewrite unescape_plain by apply F, I. reflexivity. }
  split.
  - intros E. injection E as E. change (join "/" (map dec l) = r) in E.
    destruct (web_weight es PE EN []) as [A B]. rewrite <- EL in A, B. cbn [map] in A, B. change (list_sum []) with 0 in A, B.
    assert (L1 : list_sum (map w1 l) = S (String.length r)).
    { rewrite <- E, length_join; [rewrite map_map; reflexivity|]. intros X. apply map_eq_nil in X. exact (LN X). }
    assert (L2 : list_sum (map l1 es) = S (String.length r)) by (rewrite <- length_join by exact EN; rewrite JE, slashes_length; reflexivity).
    assert (F : Forall PlainElement es) by (apply B; lia).
    rewrite (PLAIN F) in E. split; [apply slashes_id, E|]. unfold es in F. rewrite E in F. exact F.
  - intros [NB F]. apply slashes_id in NB. assert (F' : Forall PlainElement es) by (unfold es; rewrite NB; exact F).
    rewrite (PLAIN F'), NB. reflexivity.
Qed.
