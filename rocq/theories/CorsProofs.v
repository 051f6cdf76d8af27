(** Proofs about calls across origins. *)
From Verif Require Import Base BaseProofs Json GoVal Ts TsBig JsNum RpcSpec RpcProofs TsCall Cors CorsSpec Rpc.
From Verif Require Methods MethodsSpec MethodsProofs.

(** ** Names *)

Lemma byte_cases (P : ascii -> bool) : (forall b0 b1 b2 b3 b4 b5 b6 b7, P (Ascii b0 b1 b2 b3 b4 b5 b6 b7) = true) -> forall c, P c = true.
Proof. intros H [b0 b1 b2 b3 b4 b5 b6 b7]. apply H. Qed.
Ltac bytes c := destruct c as [[] [] [] [] [] [] [] []]; try reflexivity; try discriminate.

Lemma plain_token n : sforall plainByte n = true -> sforall Methods.tokenByte n = true.
Proof.
  induction n as [|c n IH]; [reflexivity|]. cbn [sforall]. intros H. apply andb_true_iff in H. destruct H as [H1 H2].
  rewrite (IH H2), andb_true_r. clear -H1. bytes c.
Qed.
Lemma plain_nospace n : sforall plainByte n = true -> sexists isSpaceByte n = false.
Proof.
  induction n as [|c n IH]; [reflexivity|]. cbn [sforall sexists]. intros H. apply andb_true_iff in H. destruct H as [H1 H2].
  rewrite (IH H2), orb_false_r. clear -H1. bytes c.
Qed.
Lemma token_nospace n : sforall Methods.tokenByte n = true -> sexists isSpaceByte n = false.
Proof.
  induction n as [|c n IH]; [reflexivity|]. cbn [sforall sexists]. intros H. apply andb_true_iff in H. destruct H as [H1 H2].
  rewrite (IH H2), orb_false_r. clear -H1. bytes c.
Qed.
Lemma token_nocomma n : sforall Methods.tokenByte n = true -> contains_byte "," n = false.
Proof.
  unfold contains_byte. induction n as [|c n IH]; [reflexivity|]. cbn [sforall sexists]. intros H. apply andb_true_iff in H.
  destruct H as [H1 H2]. rewrite (IH H2), orb_false_r. clear -H1. bytes c.
Qed.
Lemma plain_lower n : sforall plainByte (to_lower n) = sforall plainByte n.
Proof.
  unfold to_lower. induction n as [|c n IH]; [reflexivity|]. cbn [smap sforall]. rewrite IH. f_equal. clear. bytes c.
Qed.
Lemma token_lower n : sforall Methods.tokenByte (to_lower n) = sforall Methods.tokenByte n.
Proof.
  unfold to_lower. induction n as [|c n IH]; [reflexivity|]. cbn [smap sforall]. rewrite IH. f_equal. clear. bytes c.
Qed.

Lemma trimLeft_none s : sexists isSpaceByte s = false -> trimLeft s = s.
Proof. destruct s as [|c s]; [reflexivity|]. cbn [sexists trimLeft]. intros H. apply orb_false_iff in H. destruct H as [-> _]. reflexivity. Qed.
Lemma nospace_rev s : sexists isSpaceByte (rev' s) = sexists isSpaceByte s.
Proof.
  induction s as [|c s IH]; [reflexivity|]. rewrite rev_cons, sexists_app, IH. cbn [sexists]. rewrite orb_false_r. apply orb_comm.
Qed.
Lemma trimSpace_none s : sexists isSpaceByte s = false -> trimSpace s = s.
Proof.
  intros H. unfold trimSpace. rewrite (trimLeft_none s H). change (revStr s "") with (rev' s).
  rewrite trimLeft_none by (rewrite nospace_rev; exact H). apply rev_rev.
Qed.
Lemma trimSpace_blank s : sexists isSpaceByte s = false -> trimSpace (String " " s) = s.
Proof. intros H. change (trimSpace (String " " s)) with (trimSpace s). apply trimSpace_none, H. Qed.

(** ** Lists of names *)

Lemma split_join_gap ns : (forall n, In n ns -> contains_byte "," n = false) -> ns <> [] ->
  split_byte "," (join ", " ns) = hd "" ns :: map (String " ") (tl ns).
Proof.
  induction ns as [|n ns IH]; intros H N; [contradiction|]. destruct ns as [|n' ns].
  - cbn [join hd tl map]. apply split_byte_none, H. left. reflexivity.
  - change (join ", " (n :: n' :: ns)) with (n ++ String "," (String " " (join ", " (n' :: ns))))%string.
    rewrite split_byte_app by (apply H; left; reflexivity).
    assert (E : split_byte "," (String " " (join ", " (n' :: ns))) = String " " (hd "" (n' :: ns)) :: map (String " ") (tl (n' :: ns))).
    { cbn [split_byte]. change (Ascii.eqb " " ",") with false. cbv iota. rewrite IH by (discriminate || (intros x X; apply H; right; exact X)). reflexivity. }
    rewrite E. reflexivity.
Qed.

Definition Token (n : string) : Prop := n <> EmptyString /\ sforall Methods.tokenByte n = true.
Lemma token_iff n : isTokenName n = true <-> Token n.
Proof. unfold isTokenName, Token. rewrite andb_true_iff, negb_true_iff, String.eqb_neq. reflexivity. Qed.
Lemma tokens_kept ns : Forall Token ns -> filter (fun x => negb (String.eqb x "")) ns = ns /\ forallb isTokenName ns = true.
Proof.
  induction 1 as [|n ns T F [IH1 IH2]]; [split; reflexivity|]. cbn [filter forallb]. rewrite IH1, IH2.
  assert (X := proj2 (token_iff n) T). rewrite X. split; [|reflexivity]. destruct T as [T _]. apply String.eqb_neq in T. rewrite T. reflexivity.
Qed.

Lemma listValues_gap ns : Forall Token ns -> ns <> [] -> listValues (join ", " ns) = Some ns.
Proof.
  intros F N. unfold listValues. rewrite split_join_gap; [|intros n I; apply token_nocomma; rewrite Forall_forall in F; apply F; exact I|exact N].
  assert (E : map trimSpace (hd "" ns :: map (String " ") (tl ns)) = ns).
  { destruct ns as [|n ns]; [contradiction|]. cbn [hd tl map]. inversion F as [|? ? T F']; subst.
    rewrite trimSpace_none by (apply token_nospace, T). f_equal. rewrite map_map. rewrite <- (map_id ns) at 2. apply map_ext_in.
    intros x X. apply trimSpace_blank, token_nospace. rewrite Forall_forall in F'. apply F', X. }
  rewrite E. destruct (tokens_kept ns F) as [-> ->]. reflexivity.
Qed.
Lemma listValues_comma ns : Forall Token ns -> ns <> [] -> listValues (join "," ns) = Some ns.
Proof.
  intros F N. unfold listValues. rewrite split_join; [|exact N|intros n I; apply token_nocomma; rewrite Forall_forall in F; apply F; exact I].
  assert (E : map trimSpace ns = ns).
  { rewrite <- (map_id ns) at 2. apply map_ext_in. intros x X. apply trimSpace_none, token_nospace. rewrite Forall_forall in F. apply F, X. }
  rewrite E. destruct (tokens_kept ns F) as [-> ->]. reflexivity.
Qed.

(** ** parseHeaderList *)

Fixpoint kept (u : bool) (n : string) : string :=
  match n with EmptyString => EmptyString | String b r => (keepByte u b ++ kept (Ascii.eqb b "-" || Ascii.eqb b "_") r)%string end.

Lemma keep_plain u b : plainByte b = true -> exists c, keepByte u b = String c "" /\ lower_byte c = lower_byte b.
Proof. intros H. destruct u; destruct b as [[] [] [] [] [] [] [] []]; try discriminate H; eexists; split; reflexivity. Qed.
Lemma kept_lower n : forall u, sforall plainByte n = true -> to_lower (kept u n) = to_lower n.
Proof.
  unfold to_lower. induction n as [|b n IH]; intros u H; [reflexivity|]. cbn [sforall] in H. apply andb_true_iff in H. destruct H as [H1 H2].
  cbn [kept smap]. destruct (keep_plain u b H1) as (c & -> & L). cbn [append smap]. rewrite L, IH by exact H2. reflexivity.
Qed.
Lemma kept_ne u n : Plain n -> kept u n <> "".
Proof.
  intros [N H]. destruct n as [|b n]; [contradiction|]. cbn [sforall] in H. apply andb_true_iff in H. destruct H as [H1 H2].
  cbn [kept]. destruct (keep_plain u b H1) as (c & -> & _). discriminate.
Qed.
Lemma app_empty a b : (a ++ b)%string = "" -> a = "" /\ b = "".
Proof. destruct a; [|discriminate]. cbn. auto. Qed.

Lemma plain_nosep b : plainByte b = true -> (Ascii.eqb b " " || Ascii.eqb b ",") = false.
Proof. clear. bytes b. Qed.

Lemma parse_last n : forall h u, n <> "" -> sforall plainByte n = true -> parseNames n h u = [(h ++ kept u n)%string].
Proof.
  induction n as [|b n IH]; intros h u N H; [contradiction|]. cbn [sforall] in H. apply andb_true_iff in H. destruct H as [H1 H2].
  cbn [parseNames]. rewrite (plain_nosep b H1). destruct (keep_plain u b H1) as (c & K & _). destruct n as [|b' n].
  - cbn [orb String.eqb kept]. rewrite K. destruct h; reflexivity.
  - change (String.eqb (String b' n) "") with false. cbn [orb]. rewrite IH by (discriminate || exact H2). cbn [kept]. rewrite <- !sapp_assoc. reflexivity.
Qed.
Lemma parse_more n : forall h u r, n <> "" -> sforall plainByte n = true ->
  parseNames (n ++ String "," r) h u = (h ++ kept u n)%string :: parseNames r "" true.
Proof.
  induction n as [|b n IH]; intros h u r N H; [contradiction|]. cbn [sforall] in H. apply andb_true_iff in H. destruct H as [H1 H2].
  cbn [append parseNames]. rewrite (plain_nosep b H1). destruct (keep_plain u b H1) as (c & K & _). destruct n as [|b' n].
  - cbn [append String.eqb orb kept]. cbn [parseNames]. change (Ascii.eqb "," " ") with false. change (Ascii.eqb "," ",") with true. cbn [orb].
    assert (KC : forall u', keepByte u' "," = "") by (intros []; reflexivity). rewrite KC, K, !sapp_nil_r.
    destruct (String.eqb_spec (h ++ String c "")%string "") as [E|_]; [apply app_empty in E; destruct E; discriminate|]. reflexivity.
  - change (String.eqb (String b' n ++ String "," r)%string "") with false. cbn [orb]. rewrite IH by (discriminate || exact H2).
    cbn [kept]. rewrite <- !sapp_assoc. reflexivity.
Qed.
Lemma parse_names ns : Forall Plain ns -> ns <> [] -> parseHeaderList (join "," ns) = map (kept true) ns.
Proof.
  unfold parseHeaderList. induction ns as [|n ns IH]; intros F N; [contradiction|]. inversion F as [|? ? [P1 P2] F']; subst. destruct ns as [|n' ns].
  - cbn [join map]. apply (parse_last n "" true P1 P2).
  - change (join "," (n :: n' :: ns)) with (n ++ String "," (join "," (n' :: ns)))%string. rewrite parse_more by assumption.
    rewrite IH by (discriminate || exact F'). reflexivity.
Qed.

Lemma keep_ok u b : sforall plainByte (keepByte u b) = true.
Proof. destruct u; destruct b as [[] [] [] [] [] [] [] []]; reflexivity. Qed.
Lemma parse_plain s : forall h u, sforall plainByte h = true -> Forall Plain (parseNames s h u).
Proof.
  induction s as [|b s IH]; intros h u H; [constructor|]. cbn [parseNames].
  assert (K : sforall plainByte (h ++ keepByte u b) = true) by (rewrite sforall_app, H, keep_ok; reflexivity).
  destruct (Ascii.eqb b " " || Ascii.eqb b "," || String.eqb s ""); [|apply IH; exact K].
  destruct (String.eqb_spec (h ++ keepByte u b)%string "") as [E|N]; [apply IH; reflexivity|]. constructor; [split; assumption|]. apply IH. reflexivity.
Qed.

Lemma canonical_in h l : sforall plainByte h = true -> Forall Plain l ->
  (In (Methods.canonical h) (map Methods.canonical l) <-> In (to_lower h) (map to_lower l)).
Proof.
  intros P F. rewrite !in_map_iff. rewrite Forall_forall in F. split; intros (x & E & I); exists x; split; try exact I.
  - apply MethodsProofs.canonical_iff in E. destruct E as [->|(_ & _ & E)]; [reflexivity|exact E].
  - apply MethodsProofs.canonical_iff. right. split; [|split; [|exact E]]; apply plain_token; [apply F, I|exact P].
Qed.

(** ** The browser *)

Lemma insert_in n l x : In x (insertName n l) <-> x = n \/ In x l.
Proof.
  induction l as [|y l IH]; cbn [insertName]; [cbn; intuition|]. destruct (String.compare n y); cbn [In]; rewrite ?IH; intuition.
Qed.
Lemma sort_in l x : In x (sortNames l) <-> In x l.
Proof. induction l as [|y l IH]; [reflexivity|]. cbn [sortNames fold_right]. change (fold_right insertName [] l) with (sortNames l). rewrite insert_in, IH. cbn [In]. intuition. Qed.

Lemma headerList_in hs n v : In (n, v) (headerList hs) <-> v = headerSent n hs /\ forbidden n = false /\ exists k w, In (k, w) hs /\ to_lower k = n.
Proof.
  unfold headerList. rewrite in_map_iff. setoid_rewrite filter_In. setoid_rewrite nodup_In. setoid_rewrite in_map_iff. split.
  - intros (x & E & ((k & w) & L & I) & F). injection E as -> <-. apply negb_true_iff in F. split; [reflexivity|]. split; [exact F|]. exists k, w. auto.
  - intros (-> & F & k & w & I & L). exists n. split; [reflexivity|]. split; [exists (k, w); auto|]. rewrite F. reflexivity.
Qed.

Lemma unsafe_in hl n : In n (unsafeNames hl) -> exists v, In (n, v) hl.
Proof.
  unfold unsafeNames. rewrite sort_in, in_map_iff. intros ((k & v) & E & I). cbn in E. subst k. apply filter_In in I. exists v. apply I.
Qed.
Lemma unsafe_there hl n v : In (n, v) hl -> harmless n v = false -> In n (unsafeNames hl).
Proof.
  intros I H. unfold unsafeNames. rewrite sort_in, in_map_iff. exists (n, v). split; [reflexivity|]. apply filter_In. split; [exact I|].
  cbn [fst snd]. rewrite H. reflexivity.
Qed.

Lemma put_in {A} k (v : A) l : In (k, v) (jsPut k v l).
Proof. induction l as [|[k' v'] l IH]; cbn [jsPut]; [left; reflexivity|]. destruct (String.eqb_spec k k') as [->|]; [left; reflexivity|right; exact IH]. Qed.
Lemma put_keys {A} k (v : A) l x : In x (map fst (jsPut k v l)) <-> x = k \/ In x (map fst l).
Proof.
  induction l as [|[k' v'] l IH]; cbn [jsPut]; [cbn; intuition|]. destruct (String.eqb_spec k k') as [->|]; cbn [map fst In]; rewrite ?IH; intuition.
Qed.
Lemma created_names hs wv x : In x (map fst (createHeaders hs wv)) <-> x = "Webrpc" \/ x = "Content-Type" \/ In x (map fst hs).
Proof. unfold createHeaders. rewrite !put_keys. reflexivity. Qed.

(** the names the browser asks for: always "webrpc" *)
Lemma webrpc_unsafe hs wv : In "webrpc" (unsafeNames (headerList (createHeaders hs wv))).
Proof.
  apply (unsafe_there _ _ (headerSent "webrpc" (createHeaders hs wv))).
  - apply headerList_in. split; [reflexivity|]. split; [reflexivity|]. exists "Webrpc", wv. split; [apply put_in|reflexivity].
  - unfold harmless. apply andb_false_r.
Qed.
Lemma unsafe_ne hs wv : unsafeNames (headerList (createHeaders hs wv)) <> [].
Proof. pose proof (webrpc_unsafe hs wv) as H. intros E. rewrite E in H. exact H. Qed.
Lemma unsafe_name hs n : In n (unsafeNames (headerList hs)) -> (exists k, In k (map fst hs) /\ to_lower k = n) /\ forbidden n = false.
Proof.
  intros I. apply unsafe_in in I. destruct I as (v & I). apply headerList_in in I. destruct I as (_ & F & k & w & I & L).
  split; [|exact F]. exists k. split; [|exact L]. apply in_map_iff. exists (k, w). auto.
Qed.
Lemma harmless_names n v : harmless n v = true -> In n ["accept"; "accept-language"; "content-language"; "content-type"].
Proof.
  unfold harmless. intros H. apply andb_true_iff in H. destruct H as [_ H]. destruct (String.eqb_spec n "accept") as [->|]; [cbn; auto|].
  destruct (str_in n ["accept-language"; "content-language"]) eqn:E; [apply str_in_In in E; cbn in *; intuition|].
  destruct (String.eqb_spec n "content-type") as [->|]; [cbn; auto 6|discriminate].
Qed.

(** ** Headers of answers *)

Lemma get_app name a b : map snd (filter (fun h => String.eqb (to_lower (fst h)) name) a) = [] -> headerGet name (a ++ b) = headerGet name b.
Proof. intros H. unfold headerGet. rewrite filter_app, map_app, H. reflexivity. Qed.
Lemma get_none name (a : list (string * string)) : (forall k v, In (k, v) a -> to_lower k <> name) ->
  map snd (filter (fun h => String.eqb (to_lower (fst h)) name) a) = [].
Proof.
  induction a as [|[k v] a IH]; intros H; [reflexivity|]. cbn [filter fst]. destruct (String.eqb_spec (to_lower k) name) as [E|_].
  - exfalso. apply (H k v); [left; reflexivity|exact E].
  - apply IH. intros k' v' I. apply (H k' v'). right. exact I.
Qed.
Lemma get_app_l name a b : (forall k v, In (k, v) b -> to_lower k <> name) -> headerGet name (a ++ b) = headerGet name a.
Proof. intros H. unfold headerGet. rewrite filter_app, map_app, (get_none name b H), app_nil_r. reflexivity. Qed.

Lemma get_replace name new hs : (forall k v, In (k, v) new -> to_lower k <> name) -> headerGet name (replaceHeaders new hs) = headerGet name hs.
Proof.
  intros H. unfold replaceHeaders. rewrite get_app_l by exact H. unfold headerGet. f_equal.
  assert (E : forall l : list (string * string), filter (fun h => String.eqb (to_lower (fst h)) name) (filter (fun h => negb (str_in (to_lower (fst h)) (map (fun x => to_lower (fst x)) new))) l) =
    filter (fun h => String.eqb (to_lower (fst h)) name) l); [|rewrite E; reflexivity].
  induction l as [|[k v] l IH]; [reflexivity|]. cbn [filter fst].
  destruct (String.eqb_spec (to_lower k) name) as [E|N].
  - assert (S : str_in (to_lower k) (map (fun x : string * string => to_lower (fst x)) new) = false).
    { apply str_in_not. intros I. apply in_map_iff in I. destruct I as ((k' & v') & E' & I). apply (H k' v' I). cbn [fst] in E'. congruence. }
    rewrite S. cbn [negb filter fst]. rewrite <- E, String.eqb_refl, E, IH. reflexivity.
  - destruct (negb _); cbn [filter fst]; [apply String.eqb_neq in N; rewrite N|]; exact IH.
Qed.
Lemma get_replaced name new hs : headerGet name new <> None -> headerGet name (replaceHeaders new hs) = headerGet name new.
Proof.
  intros H. unfold replaceHeaders. apply get_app. apply get_none. intros k v I E. apply filter_In in I. destruct I as [_ I]. cbn [fst] in I.
  apply negb_true_iff, str_in_not in I. apply H. unfold headerGet. rewrite get_none; [reflexivity|]. intros k' v' I' E'. apply I. apply in_map_iff.
  exists (k', v'). split; [cbn [fst]; congruence|exact I'].
Qed.

(** ** What the Go server sets *)
Definition Own (es : list event) : Prop := forall k v, In (SetHeader k v) es -> In k ["Webrpc"; "Content-Type"; "Allow"].
Definition OwnRun (r : run) : Prop := Own (fst r).
Lemma own_then a b : OwnRun a -> OwnRun b -> OwnRun (andThen a b).
Proof. destruct a as [es []]; intros A B; [|exact A]. intros k v I. cbn [andThen fst] in I. apply in_app_or in I. destruct I as [I|I]; [exact (A k v I)|exact (B k v I)]. Qed.
Lemma own_none e : OwnRun ([], e).
Proof. intros k v []. Qed.
Lemma own_write c : OwnRun (writeHeader c).
Proof. unfold writeHeader. destruct (_ && _); intros k v I; cbn in I; [destruct I as [I|[]]; discriminate|contradiction]. Qed.
Lemma own_one e x : (forall k v, e = SetHeader k v -> In k ["Webrpc"; "Content-Type"; "Allow"]) -> OwnRun ([e], x).
Proof. intros H k v [I|[]]. apply (H k v I). Qed.
Ltac own := repeat first [apply own_then | apply own_none | apply own_write | (apply own_one; let H := fresh in intros ? ? H; inversion H; cbn; tauto)].
Lemma own_error o e : OwnRun (sendErrorJSON o e).
Proof. unfold sendErrorJSON. cbv zeta. own. Qed.
Lemma own_call s o impl m args : OwnRun (callAndAnswer s o impl m args).
Proof.
  unfold callAndAnswer. apply own_then; [own|]. destruct (impl _ _); [|apply own_error|own].
  destruct (rm_out m); [unfold sendOK; own|]. destruct (marshalStruct _ _ _); [unfold sendOK; own|apply own_error].
Qed.
Lemma own_body hv s o impl r : exists es e, serveBody hv s o impl r = (SetHeader "Webrpc" hv :: es, e) /\
  (forall k v, In (SetHeader k v) es -> In k ["Content-Type"; "Allow"]).
Proof.
  unfold serveBody. match goal with |- context [andThen ([?x], Returned) ?b] => set (rest := b) end.
  exists (fst rest), (snd rest). split; [destruct rest; reflexivity|].
  assert (W : forall k v, In (SetHeader k v) (fst rest) -> In k ["Content-Type"; "Allow"]); [|exact W].
  assert (E : forall e k v, In (SetHeader k v) (fst (sendErrorJSON o e)) -> In k ["Content-Type"; "Allow"]).
  { intros e k v. unfold sendErrorJSON. cbv zeta. unfold writeHeader. destruct (_ && _); cbn; intuition (try discriminate);
    match goal with H : SetHeader _ _ = SetHeader _ _ |- _ => injection H as <- _; auto end. }
  assert (C : forall m a k v, In (SetHeader k v) (fst (callAndAnswer s o impl m a)) -> In k ["Content-Type"; "Allow"]).
  { intros m a k v. unfold callAndAnswer. cbn [andThen fst app In]. intros [H|H]; [discriminate|].
    destruct (impl _ _); cbn [fst In] in H; [|eapply E, H|contradiction].
    assert (K : forall b, In (SetHeader k v) (fst (sendOK b)) -> In k ["Content-Type"; "Allow"]).
    { intros b. cbn. intuition (try discriminate). match goal with H : SetHeader _ _ = SetHeader _ _ |- _ => injection H as <- _; auto end. }
    destruct (rm_out m); [eapply K, H|]. destruct (marshalStruct _ _ _); [eapply K, H|eapply E, H]. }
  assert (J : forall m k v, In (SetHeader k v) (fst (serveJSON s o impl m r)) -> In k ["Content-Type"; "Allow"]).
  { intros m k v. unfold serveJSON. destruct (rm_in m); [apply C|]. destruct (q_body r); [|apply E]. destruct (unmarshalStruct _ _ _); [apply C|apply E]. }
  subst rest. intros k v. destruct (dispatch s (q_path r)) as [m|]; [|apply E]. destruct (negb _).
  - cbn [andThen fst app In]. intros [H|H]; [injection H as <- _; cbn; auto|eapply E, H].
  - destruct (String.eqb _ _); [|apply E]. destruct (o_onRequest o) as [f|]; [|apply J]. destruct (f _) as [[e|]|]; [apply E|apply J|]. intros [].
Qed.

Lemma serve_headers hv s o impl r : exists es e, serveHTTP hv s o impl r = (SetHeader "Webrpc" hv :: es, e) /\
  (forall k v, In (SetHeader k v) es -> In k ["Content-Type"; "Allow"]).
Proof.
  unfold serveHTTP. destruct (own_body hv s o impl r) as (es & e & -> & O). destruct e as [|m]; [exists es, Returned; auto|].
  set (e2 := withCausef ErrWebrpcServerPanic m).
  assert (E : forall k v, In (SetHeader k v) (fst (sendErrorJSON o e2)) -> In k ["Content-Type"; "Allow"]).
  { intros k v. unfold sendErrorJSON. cbv zeta. unfold writeHeader. destruct (_ && _); cbn; intuition (try discriminate);
    match goal with H : SetHeader _ _ = SetHeader _ _ |- _ => injection H as <- _; auto end. }
  destruct (sendErrorJSON o e2) as [es' [|m']]; cbn [fst] in E; eexists (es ++ es'), _; (split; [reflexivity|]);
    intros k v I; apply in_app_or in I; destruct I as [I|I]; eauto.
Qed.

Lemma headersOf_names es : forall acc k v, In (k, v) (headersOf es acc) -> In (k, v) acc \/ In (SetHeader k v) es.
Proof.
  induction es as [|e es IH]; intros acc k v I; [left; exact I|]. destruct e as [k' v'|c|b|m a]; cbn [headersOf] in I.
  - apply IH in I. destruct I as [I|I]; [|right; right; exact I]. unfold replaceHeaders in I. apply in_app_or in I. destruct I as [I|[I|[]]].
    + apply filter_In in I. left. apply I.
    + injection I as -> ->. right. left. reflexivity.
  - destruct (informational c); [|left; exact I]. apply IH in I. destruct I as [I|I]; [left; exact I|right; right; exact I].
  - left. exact I.
  - apply IH in I. destruct I as [I|I]; [left; exact I|right; right; exact I].
Qed.
Lemma headersOf_webrpc hv es : forall acc, headerGet "webrpc" acc = Some hv -> (forall k v, In (SetHeader k v) es -> In k ["Content-Type"; "Allow"]) ->
  headerGet "webrpc" (headersOf es acc) = Some hv.
Proof.
  induction es as [|e es IH]; intros acc A H; [exact A|]. assert (H' : forall k v, In (SetHeader k v) es -> In k ["Content-Type"; "Allow"]) by (intros k v I; apply (H k v); right; exact I).
  destruct e as [k' v'|c|b|m a]; cbn [headersOf].
  - apply IH; [|exact H']. rewrite get_replace; [exact A|]. intros k v [I|[]]. injection I as <- <-. specialize (H k' v' (or_introl eq_refl)).
    cbn in H. destruct H as [<-|[<-|[]]]; discriminate.
  - destruct (informational c); [apply IH; assumption|exact A].
  - exact A.
  - apply IH; assumption.
Qed.

Lemma go_headers rec hv s o impl q a : goHandler rec hv s o impl q = Some a ->
  (forall k v, In (k, v) (a_headers a) -> In k ["Webrpc"; "Content-Type"; "Allow"]) /\ headerGet "webrpc" (a_headers a) = Some hv.
Proof.
  unfold goHandler. destruct (serve_headers hv s o impl (toRequest q)) as (es & e & -> & O).
  set (all := SetHeader "Webrpc" hv :: es) in *. intros H.
  assert (X : a_headers a = headersOf all []) by (destruct e; [|destruct rec; [|discriminate]]; injection H as <-; reflexivity).
  rewrite X. split.
  - intros k v I. apply headersOf_names in I. destruct I as [[]|I]. unfold all in I. destruct I as [I|I]; [injection I as <- _; cbn; auto|].
    apply O in I. cbn in *. tauto.
  - unfold all. cbn [headersOf]. apply headersOf_webrpc; [reflexivity|exact O].
Qed.
