(** Proofs about the template helpers *)
From Coq Require Import Permutation Sorted.
From Verif Require Import Base BaseProofs Utf8 Utf8Proofs Schema Tmpl TmplSpec SchemaJsonBack.

Lemma update_length {A} n (x : A) l : length (update n x l) = length l.
Proof. revert n. induction l as [|y l IH]; intros [|n]; cbn; congruence. Qed.
Lemma nth_update_same {A} n (x d : A) l : n < length l -> nth n (update n x l) d = x.
Proof. revert n. induction l as [|y l IH]; intros [|n]; cbn; intro H; try lia; [reflexivity|apply IH; lia]. Qed.
Lemma nth_update_other {A} n k (x d : A) l : n <> k -> nth k (update n x l) d = nth k l d.
Proof. revert n k. induction l as [|y l IH]; intros [|n] [|k] H; cbn; try reflexivity; try congruence. apply IH. congruence. Qed.

(** ** dictionaries *)

Lemma assoc_setKey {A} k (v : A) m k' : assoc k' (setKey k v m) = if String.eqb k' k then Some v else assoc k' m.
Proof.
  induction m as [|[q w] m IH]; cbn.
  - destruct (String.eqb k' k); reflexivity.
  - destruct (String.eqb k q) eqn:E; cbn.
    + apply String.eqb_eq in E. subst q. destruct (String.eqb k' k) eqn:E2; reflexivity.
    + rewrite IH. destruct (String.eqb k' q) eqn:E2; [|reflexivity]. apply String.eqb_eq in E2. subst q.
      rewrite String.eqb_sym in E. now rewrite E.
Qed.

Lemma assoc_app {A} k (a b : list (string * A)) : assoc k (a ++ b) = match assoc k a with Some v => Some v | None => assoc k b end.
Proof. induction a as [|[q w] a IH]; cbn; [reflexivity|]. destruct (String.eqb k q); [reflexivity|exact IH]. Qed.

Lemma dictPairs_flatten kvs : forall m, exists m', dictPairs (flatten kvs) m = Ok m' /\
  forall k, assoc k m' = match assoc k (rev kvs) with Some v => Some v | None => assoc k m end.
Proof.
  induction kvs as [|[k v] kvs IH]; intro m; cbn [flatten flat_map fst snd app dictPairs].
  - exists m. now split.
  - destruct (IH (setKey k v m)) as (m' & E & H). exists m'. split; [exact E|]. intro q. rewrite H. cbn [rev].
    rewrite assoc_app. destruct (assoc q (rev kvs)); [reflexivity|]. rewrite assoc_setKey. cbn.
    destruct (String.eqb q k); reflexivity.
Qed.

Lemma dictPairs_inv : forall n pairs m m', length pairs <= n -> dictPairs pairs m = Ok m' -> exists kvs, pairs = flatten kvs.
Proof.
  induction n as [|n IH]; intros pairs m m' Hn H.
  - destruct pairs; [exists []; reflexivity|cbn in Hn; lia].
  - destruct pairs as [|[] pairs]; try discriminate; [exists []; reflexivity|].
    destruct pairs as [|v r]; [discriminate|]. cbn [dictPairs length] in *.
    destruct (IH r _ _ ltac:(lia) H) as (kvs & ->). exists ((s, v) :: kvs). reflexivity.
Qed.
Lemma dictPairs_dec pairs m : (exists m', dictPairs pairs m = Ok m') \/ dictPairs pairs m = Panic.
Proof.
  remember (length pairs) as n eqn:Hn. revert pairs m Hn. induction n as [n IH] using lt_wf_ind. intros pairs m Hn.
  destruct pairs as [|[] [|v r]]; cbn [dictPairs]; eauto. cbn in Hn. apply (IH (length r)); [lia|reflexivity].
Qed.
Lemma flatten_even kvs : Nat.odd (length (flatten kvs)) = false.
Proof. induction kvs as [|[k v] kvs IH]; [reflexivity|]. cbn [flatten flat_map fst snd app length]. exact IH. Qed.

Lemma dict_ok h kvs : exists m,
  dictFn h (flatten kvs) = Ok (TvMap (length (h_maps h)), Heap (h_arrays h) (h_maps h ++ [m])) /\
  forall k, assoc k m = assoc k (rev kvs).
Proof.
  destruct (dictPairs_flatten kvs []) as (m & E & H). exists m. unfold dictFn. rewrite flatten_even, E. split; [reflexivity|].
  intro k. rewrite H. now destruct (assoc k (rev kvs)).
Qed.
Lemma dict_panics h pairs : (forall kvs, pairs <> flatten kvs) -> dictFn h pairs = Panic.
Proof.
  intro H. unfold dictFn. destruct (Nat.odd _); [reflexivity|].
  destruct (dictPairs_dec pairs []) as [(m & E)|E]; [|now rewrite E].
  destruct (dictPairs_inv _ _ _ _ (le_n _) E) as (kvs & ->). now destruct (H kvs).
Qed.

Lemma mapAt_new h ar m : mapAt (Heap ar (h_maps h ++ [m])) (length (h_maps h)) = m.
Proof. unfold mapAt. cbn. rewrite app_nth2, Nat.sub_diag by lia. reflexivity. Qed.
Lemma mapAt_old h ar m a : a < length (h_maps h) -> mapAt (Heap ar (h_maps h ++ [m])) a = mapAt h a.
Proof. intro H. unfold mapAt. cbn. now rewrite app_nth1. Qed.

Lemma setFn_maps h m k v : length (h_maps (setFn h m k v)) = length (h_maps h).
Proof. cbn. apply update_length. Qed.

Lemma setFn_assoc h m k v m' k' : m < length (h_maps h) ->
  assoc k' (mapAt (setFn h m k v) m') = if Nat.eqb m' m && String.eqb k' k then Some v else assoc k' (mapAt h m').
Proof.
  intro H. unfold setFn, mapAt. cbn [h_maps]. destruct (Nat.eqb m' m) eqn:E.
  - apply Nat.eqb_eq in E. subst m'. rewrite nth_update_same by assumption. rewrite assoc_setKey. cbn [andb].
    destruct (String.eqb k' k); reflexivity.
  - apply Nat.eqb_neq in E. now rewrite nth_update_other by congruence.
Qed.

Lemma setAll_get sets : forall h, Forall (fun s => fst (fst s) < length (h_maps h)) sets ->
  forall m k, assoc k (mapAt (setAll h sets) m) = lastSet m k sets (assoc k (mapAt h m)).
Proof.
  induction sets as [|[[m0 k0] v0] sets IH]; intros h HF m k; [reflexivity|].
  inversion HF as [|? ? H1 H2]; subst. cbn [fst snd] in H1. cbn [setAll fold_left fst snd]. fold (setAll (setFn h m0 k0 v0) sets).
  rewrite IH by (now rewrite setFn_maps). cbn [lastSet]. now rewrite setFn_assoc.
Qed.

(** ** arrays *)

Lemma arrayAt_new h ms l : arrayAt (Heap (h_arrays h ++ [l]) ms) (length (h_arrays h)) = l.
Proof. unfold arrayAt. cbn. rewrite app_nth2, Nat.sub_diag by lia. reflexivity. Qed.
Lemma arrayAt_old h ms l a : a < length (h_arrays h) -> arrayAt (Heap (h_arrays h ++ [l]) ms) a = arrayAt h a.
Proof. intro H. unfold arrayAt. cbn. now rewrite app_nth1. Qed.

Lemma goAppend_spec grow h a len es : (forall o n, n <= grow o n) -> wf h (TvSlice a len) ->
  exists a' h', goAppend grow h a len es = (TvSlice a' (len + length es), h') /\
    wf h' (TvSlice a' (len + length es)) /\
    items h' (TvSlice a' (len + length es)) = items h (TvSlice a len) ++ es /\
    h_maps h' = h_maps h /\
    (forall b k, wf h (TvSlice b k) -> wf h' (TvSlice b k)) /\
    (forall b k, wf h (TvSlice b k) -> b <> a \/ k <= len -> items h' (TvSlice b k) = items h (TvSlice b k)).
Proof.
  intros Hg [W1 W2]. unfold goAppend. destruct (len + length es <=? length (arrayAt h a)) eqn:E.
  - apply Nat.leb_le in E. set (arr' := firstn len (arrayAt h a) ++ es ++ skipn (len + length es) (arrayAt h a)).
    set (h' := Heap (update a arr' (h_arrays h)) (h_maps h)).
    assert (Lf : length (firstn len (arrayAt h a)) = len) by (rewrite firstn_length; lia).
    assert (La : arrayAt h' a = arr') by (apply nth_update_same; assumption).
    assert (Lo : forall b, b <> a -> arrayAt h' b = arrayAt h b) by (intros b Hb; apply nth_update_other; congruence).
    assert (Ll : length arr' = length (arrayAt h a)).
    { unfold arr'. rewrite !app_length, skipn_length, Lf. lia. }
    assert (Lh : length (h_arrays h') = length (h_arrays h)) by apply update_length.
    exists a, h'. split; [reflexivity|]. split; [split; [now rewrite Lh|rewrite La, Ll; exact E]|].
    split; [cbn [items]; rewrite La; unfold arr'; rewrite app_assoc, firstn_app, firstn_all2;
      [|rewrite app_length, Lf; lia]; rewrite app_length, Lf, Nat.sub_diag; cbn; now rewrite app_nil_r|].
    split; [reflexivity|]. split.
    + intros b k [X1 X2]. split; [now rewrite Lh|]. destruct (Nat.eq_dec b a) as [->|Hb]; [now rewrite La, Ll|now rewrite Lo].
    + intros b k [X1 X2] Hbk. cbn [items]. destruct (Nat.eq_dec b a) as [->|Hb]; [|now rewrite Lo].
      destruct Hbk as [?|Hk]; [congruence|]. rewrite La. unfold arr'. rewrite firstn_app, Lf.
      replace (k - len) with 0 by lia. cbn. rewrite app_nil_r, firstn_firstn. f_equal. lia.
  - apply Nat.leb_gt in E. set (n := len + length es) in *.
    set (arr' := firstn len (arrayAt h a) ++ es ++ repeat TvNil (grow (length (arrayAt h a)) n - n)).
    assert (Lf : length (firstn len (arrayAt h a)) = len) by (rewrite firstn_length; lia).
    exists (length (h_arrays h)), (Heap (h_arrays h ++ [arr']) (h_maps h)). split; [reflexivity|].
    assert (Lh : length (h_arrays (Heap (h_arrays h ++ [arr']) (h_maps h))) = S (length (h_arrays h))) by (cbn; rewrite app_length; cbn; lia).
    split.
    { split; [rewrite Lh; lia|]. rewrite arrayAt_new. unfold arr'. rewrite !app_length, Lf. lia. }
    split.
    { cbn [items]. rewrite arrayAt_new. unfold arr'. rewrite app_assoc, firstn_app, firstn_all2; [|rewrite app_length, Lf; lia].
      rewrite app_length, Lf. fold n. rewrite Nat.sub_diag. cbn. now rewrite app_nil_r. }
    split; [reflexivity|]. split.
    + intros b k [X1 X2]. split; [rewrite Lh; lia|]. now rewrite arrayAt_old.
    + intros b k [X1 X2] _. cbn [items]. now rewrite arrayAt_old.
Qed.

Lemma arrayFn_spec grow h es : (forall o n, n <= grow o n) ->
  exists a h', arrayFn grow h es = (TvSlice a (length es), h') /\
    wf h' (TvSlice a (length es)) /\ items h' (TvSlice a (length es)) = es /\ h_maps h' = h_maps h /\
    length (h_arrays h) <= a /\
    forall b k, wf h (TvSlice b k) -> wf h' (TvSlice b k) /\ items h' (TvSlice b k) = items h (TvSlice b k).
Proof.
  intro Hg. unfold arrayFn. set (h0 := Heap (h_arrays h ++ [[]]) (h_maps h)).
  assert (W : wf h0 (TvSlice (length (h_arrays h)) 0)).
  { split; [cbn; rewrite app_length; cbn; lia|lia]. }
  destruct (goAppend_spec grow h0 _ 0 es Hg W) as (a' & h' & E & H1 & H2 & H3 & H4 & H5). cbn [Nat.add] in *.
  exists a', h'. split; [exact E|]. split; [exact H1|]. split; [exact H2|]. split; [exact H3|]. split.
  - unfold goAppend in E. destruct (_ <=? _) eqn:Ec in E; injection E as <- _; [lia|]. cbn. rewrite app_length. cbn. lia.
  - intros b k [X1 X2]. assert (W0 : wf h0 (TvSlice b k)).
    { split; [cbn; rewrite app_length; lia|]. unfold h0. now rewrite arrayAt_old. }
    split; [now apply H4|]. rewrite (H5 b k W0) by (left; lia). cbn [items]. unfold h0. now rewrite arrayAt_old.
Qed.

Lemma appendLoop_spec grow ess : (forall o n, n <= grow o n) -> forall h a len, wf h (TvSlice a len) ->
  exists x h', appendLoop grow h (TvSlice a len) ess = Ok (x, h') /\ items h' x = items h (TvSlice a len) ++ concat ess /\
    wf h' x /\ h_maps h' = h_maps h /\
    forall b k, wf h (TvSlice b k) -> b <> a \/ k <= len -> items h' (TvSlice b k) = items h (TvSlice b k).
Proof.
  intro Hg. induction ess as [|es ess IH]; intros h a len W; cbn [appendLoop concat].
  - exists (TvSlice a len), h. rewrite app_nil_r. repeat split; try assumption; apply W.
  - destruct (goAppend_spec grow h a len es Hg W) as (a' & h' & E & H1 & H2 & H3 & H4 & H5).
    cbn [appendFn bind]. rewrite E. cbn [fst snd].
    destruct (IH h' a' _ H1) as (x & h2 & E2 & I1 & I2 & I3 & I4). exists x, h2. split; [exact E2|].
    split; [rewrite I1, H2; now rewrite <- app_assoc|]. split; [exact I2|]. split; [congruence|].
    intros b k Wb Hb. rewrite I4; [now apply H5|now apply H4|].
    unfold goAppend in E. destruct (_ <=? _) eqn:Ec in E; injection E as <- _; [destruct Hb; [now left|right; lia]|].
    left. destruct Wb. lia.
Qed.

(** ** comparison of values *)

Lemma strs_eqb_iff a : forall b, strs_eqb a b = true <-> a = b.
Proof.
  induction a as [|x a IH]; intros [|y b]; cbn; try (split; congruence).
  rewrite andb_true_iff, String.eqb_eq, IH. split; [intros [-> ->]; reflexivity|intros [= -> ->]; auto].
Qed.

Fixpoint varType_eqb_iff (a b : varType) {struct a} : varType_eqb a b = true <-> a = b
with shape_eqb_iff (a b : shape) {struct a} : shape_eqb a b = true <-> a = b.
Proof.
  - destruct a as [e s], b as [e' s']. cbn [varType_eqb]. rewrite andb_true_iff, String.eqb_eq, shape_eqb_iff.
    split; [intros [-> ->]; reflexivity|intros [= -> ->]; auto].
  - destruct a, b; cbn [shape_eqb]; try (split; congruence).
    + unfold core_eqb. destruct (core_eq_dec c c0); split; congruence.
    + rewrite varType_eqb_iff. split; congruence.
    + rewrite andb_true_iff, !varType_eqb_iff. split; [intros [-> ->]; reflexivity|intros [= -> ->]; auto].
    + rewrite andb_true_iff, !String.eqb_eq. split; [intros [-> ->]; reflexivity|intros [= -> ->]; auto].
    + rewrite andb_true_iff, !String.eqb_eq. split; [intros [-> ->]; reflexivity|intros [= -> ->]; auto].
    + rewrite andb_true_iff, !String.eqb_eq. split; [intros [-> ->]; reflexivity|intros [= -> ->]; auto].
Qed.

Lemma deepEqual_plain deep a b : plainVal a -> (deepEqual deep a b = true <-> a = b).
Proof.
  intro H. destruct a as [| | | | | | | |[v|]|], b as [| | | | | | | |[w|]|]; cbn in *; try contradiction; try (split; congruence).
  - rewrite Bool.eqb_true_iff. split; congruence.
  - rewrite Z.eqb_eq. split; congruence.
  - rewrite String.eqb_eq. split; congruence.
  - rewrite strs_eqb_iff. split; congruence.
  - rewrite varType_eqb_iff. split; congruence.
  - rewrite varType_eqb_iff. split; congruence.
  - rewrite String.eqb_eq. split; congruence.
Qed.

(** ** split and join *)

Lemma sapp_cons_nonempty sep : sep <> ""%string -> exists c r, sep = String c r.
Proof. destruct sep as [|c r]; [congruence|eauto]. Qed.

Lemma splitGo_skip sep k : forall p s acc, String.length p = k -> splitGo sep k (p ++ s) acc = splitGo sep 0 s acc.
Proof.
  induction k as [|k IH]; intros p s acc H.
  - destruct p; [reflexivity|discriminate].
  - destruct p as [|c p]; [discriminate|]. cbn [append splitGo]. apply IH. now injection H.
Qed.

Lemma splitGo_sep sep s acc : sep <> ""%string ->
  splitGo sep 0 (sep ++ s) acc = acc :: splitGo sep 0 s "".
Proof.
  intro H. destruct sep as [|c r]; [congruence|]. cbn [append splitGo].
  assert (E : has_prefix (String c r) (String c (r ++ s)) = true) by (apply (has_prefix_app (String c r) s)).
  rewrite E. f_equal. cbn [String.length]. rewrite Nat.sub_succ, Nat.sub_0_r. now apply splitGo_skip.
Qed.

Lemma join_cons sep x l : l <> [] -> join sep (x :: l) = (x ++ sep ++ join sep l)%string.
Proof. destruct l; [congruence|reflexivity]. Qed.

Lemma splitGo_nonempty sep n s acc : splitGo sep n s acc <> [].
Proof.
  revert n acc. induction s as [|c s IH]; intros n acc; cbn [splitGo]; [discriminate|].
  destruct n; [destruct (has_prefix sep (String c s)); [discriminate|apply IH]|apply IH].
Qed.

Lemma splitGo_join sep : sep <> ""%string -> forall n s acc, String.length s <= n ->
  join sep (splitGo sep 0 s acc) = (acc ++ s)%string.
Proof.
  intro Hs. induction n as [|n IH]; intros s acc Hn.
  - destruct s; [cbn; now rewrite sapp_nil_r|cbn in Hn; lia].
  - destruct s as [|c s]; [cbn; now rewrite sapp_nil_r|].
    destruct (has_prefix sep (String c s)) eqn:E.
    + apply has_prefix_iff in E. destruct E as (r & Er). rewrite Er, splitGo_sep by assumption.
      rewrite join_cons by apply splitGo_nonempty. rewrite IH; [reflexivity|].
      apply (f_equal String.length) in Er. rewrite slength_app in Er. cbn [String.length] in *.
      destruct sep; [congruence|cbn in Er; lia].
    + cbn [splitGo]. rewrite E, IH by (cbn in Hn; lia). now rewrite sapp_assoc.
Qed.

Lemma sapp_inj_l a b c d : (a ++ b)%string = (c ++ d)%string -> String.length a = String.length c -> a = c /\ b = d.
Proof.
  revert c. induction a as [|x a IH]; intros [|y c] E L; cbn in *; try discriminate; [auto|].
  injection E as -> E. destruct (IH c E) as [-> ->]; [congruence|auto].
Qed.

Lemma splitGo_clean_go sep x : clean sep x -> sep <> ""%string -> forall p q acc rest, x = (p ++ q)%string ->
  splitGo sep 0 (q ++ sep ++ rest) acc = (acc ++ q)%string :: splitGo sep 0 rest "".
Proof.
  intros Hc Hs p q. revert p. induction q as [|c q IH]; intros p acc rest E.
  - cbn [append]. rewrite splitGo_sep by assumption. now rewrite sapp_nil_r.
  - cbn [append splitGo]. destruct (has_prefix sep (String c (q ++ sep ++ rest))) eqn:Ep.
    + exfalso. apply has_prefix_iff in Ep. destruct Ep as (r & Er).
      (* the occurrence begins inside x: it lies within x ++ sep and is not at the end *)
      change (String c (q ++ sep ++ rest))%string with (String c q ++ (sep ++ rest))%string in Er.
      rewrite <- sapp_assoc in Er.
      assert (Hl : exists b, (String c q ++ sep)%string = (sep ++ b)%string /\ b <> ""%string).
      { assert (L : String.length sep < String.length (String c q ++ sep)) by (rewrite slength_app; cbn; lia).
        exists (drop (String.length sep) (String c q ++ sep)). 
        assert (HT : take (String.length sep) (String c q ++ sep) = sep /\ (String c q ++ sep)%string = (take (String.length sep) (String c q ++ sep) ++ drop (String.length sep) (String c q ++ sep))%string).
        { assert (HG : forall n s, (take n s ++ drop n s)%string = s).
          { induction n as [|n IHn]; intros [|z s]; cbn; try reflexivity. now rewrite IHn. }
          assert (HTL : forall n s, n <= String.length s -> String.length (take n s) = n).
          { induction n as [|n IHn]; intros [|z s] Hn; cbn in *; try reflexivity; try lia. rewrite IHn; lia. }
          split; [|now rewrite HG]. rewrite <- (HG (String.length sep) (String c q ++ sep)%string) in Er.
          rewrite sapp_assoc in Er. apply sapp_inj_l in Er; [apply Er|]. apply HTL. lia. }
        destruct HT as [T1 T2]. rewrite T1 in T2. split; [exact T2|].
        intro Hd. rewrite Hd, sapp_nil_r in T2. rewrite T2 in L. lia. }
      destruct Hl as (b & Hb & Hne). apply Hne. apply (Hc p b). rewrite E, sapp_assoc. now rewrite Hb.
    + rewrite (IH (p ++ String c "")%string (acc ++ String c "")%string rest).
      * now rewrite sapp_assoc.
      * rewrite sapp_assoc. exact E.
Qed.

Lemma splitGo_last sep x : sep <> ""%string -> (forall a b, x <> (a ++ sep ++ b)%string) ->
  forall p q acc, x = (p ++ q)%string -> splitGo sep 0 q acc = [(acc ++ q)%string].
Proof.
  intros Hs Hx p q. revert p. induction q as [|c q IH]; intros p acc E; [cbn; now rewrite sapp_nil_r|].
  cbn [splitGo]. destruct (has_prefix sep (String c q)) eqn:Ep.
  - exfalso. apply has_prefix_iff in Ep. destruct Ep as (r & Er). apply (Hx p r). now rewrite E, Er.
  - rewrite (IH (p ++ String c "")%string); [now rewrite sapp_assoc|]. now rewrite sapp_assoc.
Qed.

Lemma split_join_clean sep l : sep <> ""%string -> forall x,
  Forall (clean sep) l -> (forall a b, x <> (a ++ sep ++ b)%string) ->
  splitFn sep (join sep (l ++ [x])) = l ++ [x].
Proof.
  intros Hs x HF Hx. unfold splitFn. destruct sep as [|c0 r0] eqn:Es; [congruence|]. rewrite <- Es in *.
  induction l as [|y l IH].
  - cbn [app join]. now apply (splitGo_last sep x Hs Hx ""%string x "").
  - inversion HF as [|? ? H1 H2]; subst y l0. cbn [app]. rewrite join_cons by (destruct l; discriminate).
    rewrite (splitGo_clean_go sep x0 H1 Hs ""%string x0 ""%string _ eq_refl). cbn [append]. f_equal. now apply IH.
Qed.

Lemma splitGo_pieces sep : sep <> ""%string -> forall n s acc, String.length s <= n ->
  (forall a b, (acc ++ s)%string = (a ++ sep ++ b)%string -> String.length acc <= String.length a) ->
  exists l x, splitGo sep 0 s acc = l ++ [x] /\ Forall (clean sep) l /\ forall a b, x <> (a ++ sep ++ b)%string.
Proof.
  intro Hs. assert (Lsep : 0 < String.length sep) by (destruct sep; [congruence|cbn; lia]).
  induction n as [|n IH]; intros s acc Hn Hacc.
  - destruct s; [|cbn in Hn; lia]. exists [], acc. split; [reflexivity|]. split; [constructor|]. intros a b E.
    rewrite sapp_nil_r in Hacc. pose proof (Hacc _ _ E). apply (f_equal String.length) in E. rewrite !slength_app in E. lia.
  - destruct s as [|c s].
    { exists [], acc. split; [reflexivity|]. split; [constructor|]. intros a b E.
      rewrite sapp_nil_r in Hacc. pose proof (Hacc _ _ E). apply (f_equal String.length) in E. rewrite !slength_app in E. lia. }
    destruct (has_prefix sep (String c s)) eqn:Ep.
    + apply has_prefix_iff in Ep. destruct Ep as (r & Er). rewrite Er, splitGo_sep by assumption.
      assert (Lr : String.length r <= n).
      { apply (f_equal String.length) in Er. rewrite slength_app in Er. cbn [String.length] in *. lia. }
      destruct (IH r ""%string Lr) as (l & x & E & HF & Hx); [intros; cbn; lia|].
      exists (acc :: l), x. rewrite E. split; [reflexivity|]. split; [|exact Hx]. constructor; [|exact HF].
      intros a b Ec. assert (HL : String.length acc <= String.length a).
      { apply (Hacc a (b ++ r)%string). rewrite Er. rewrite <- sapp_assoc, Ec. now rewrite !sapp_assoc. }
      apply (f_equal String.length) in Ec. rewrite !slength_app in Ec. destruct b; [reflexivity|cbn in Ec; lia].
    + cbn [splitGo]. rewrite Ep. apply IH; [cbn in Hn; lia|]. intros a b E. rewrite sapp_assoc in E. cbn [append] in E.
      pose proof (Hacc _ _ E) as HL. rewrite slength_app. cbn [String.length].
      destruct (Nat.eq_dec (String.length a) (String.length acc)) as [Hl|Hl]; [|lia].
      apply sapp_inj_l in E; [|congruence]. destruct E as [_ E].
      assert (has_prefix sep (String c s) = true) by (rewrite E; apply has_prefix_app). congruence.
Qed.

Lemma split_iff sep s ps : sep <> ""%string ->
  (splitFn sep s = ps <->
   join sep ps = s /\ exists l x, ps = l ++ [x] /\ Forall (clean sep) l /\ forall a b, x <> (a ++ sep ++ b)%string).
Proof.
  intro Hs. assert (ES : splitFn sep s = splitGo sep 0 s "") by (destruct sep; [congruence|reflexivity]).
  split.
  - intros <-. rewrite ES. split; [now apply (splitGo_join sep Hs (String.length s))|].
    apply (splitGo_pieces sep Hs (String.length s)); [lia|intros; cbn; lia].
  - intros (<- & l & x & -> & HF & Hx). now apply split_join_clean.
Qed.

Lemma take_app_exact a b : take (String.length (a ++ b) - String.length b) (a ++ b) = a.
Proof.
  rewrite slength_app, Nat.add_sub. induction a as [|c a IH]; cbn; [now destruct b|now rewrite IH].
Qed.

Lemma explode_encode rs : forallb valid_rune rs = true -> forall n, String.length (encode rs) <= n ->
  explodeFuel n (encode rs) = map encode_rune rs.
Proof.
  induction rs as [|r rs IH]; intros HV n Hn; [now destruct n|].
  cbn [forallb] in HV. apply andb_true_iff in HV. destruct HV as [HV1 HV2].
  destruct (decode_encode_rune r (encode rs) HV1) as (c & t & E & D).
  assert (EE : encode (r :: rs) = String c (t ++ encode rs)%string) by (cbn [encode]; rewrite E; reflexivity).
  destruct n as [|n]; [rewrite EE in Hn; cbn in Hn; lia|]. rewrite EE. cbn [explodeFuel map]. rewrite D. cbn [snd].
  rewrite <- EE. f_equal; [apply take_app_exact|].
  apply IH; [exact HV2|]. rewrite EE in Hn. cbn [String.length] in Hn. rewrite slength_app in Hn. lia.
Qed.

Lemma split_chars rs : forallb valid_rune rs = true -> splitFn "" (encode rs) = map encode_rune rs.
Proof. intro H. now apply explode_encode. Qed.

(** ** sort *)

Lemma sort_unique mt l l' : Permutation l l' -> StronglySorted (textLe mt) l -> StronglySorted (textLe mt) l' ->
  (forall x, In x l -> exists s, toString mt x = Ok s) ->
  (forall x y, In x l -> In y l -> toString mt x = toString mt y -> x = y) -> l = l'.
Proof.
  assert (LT : forall a b, String.ltb a b = false -> String.ltb b a = false -> a = b).
  { intros a b H1 H2. unfold String.ltb in *. destruct (String.compare a b) eqn:E; try discriminate.
    - now apply String.compare_eq_iff.
    - rewrite String.compare_antisym, E in H2. discriminate. }
  revert l'. induction l as [|x l IH]; intros l' HP HS HS' HT HI.
  - apply Permutation_nil in HP. now subst.
  - destruct l' as [|y l']; [apply Permutation_sym, Permutation_nil in HP; discriminate|].
    inversion HS as [|? ? S1 S2]; subst. inversion HS' as [|? ? S3 S4]; subst.
    assert (x = y) as ->.
    { destruct (Permutation_in x HP ltac:(now left)) as [->|Hx]; [reflexivity|].
      destruct (Permutation_in y (Permutation_sym HP) ltac:(now left)) as [->|Hy]; [reflexivity|].
      rewrite Forall_forall in S2, S4. pose proof (S2 y Hy) as A. pose proof (S4 x Hx) as B.
      destruct (HT x ltac:(now left)) as (a & Ea). destruct (HT y ltac:(now right)) as (b & Eb).
      apply HI; [now left|now right|]. rewrite Ea, Eb. f_equal. apply LT; [now apply B|now apply A]. }
    f_equal. apply (IH l'); try assumption.
    + now apply Permutation_cons_inv in HP.
    + intros z Hz. apply HT. now right.
    + intros a b Ha Hb. apply HI; now right.
Qed.

Definition textOf (mt : nat -> string) (v : tval) : string := match toString mt v with Ok s => s | _ => "" end.
Fixpoint insertText (mt : nat -> string) (x : tval) (l : list tval) : list tval :=
  match l with
  | [] => [x]
  | y :: r => if String.leb (textOf mt x) (textOf mt y) then x :: l else y :: insertText mt x r
  end.
Lemma insertText_perm mt x l : Permutation (insertText mt x l) (x :: l).
Proof.
  induction l as [|y l IH]; [reflexivity|]. cbn. destruct (String.leb _ _); [reflexivity|].
  rewrite IH. apply perm_swap.
Qed.
Lemma ltb_leb_neg a b : String.ltb b a = negb (String.leb a b).
Proof. unfold String.ltb, String.leb. rewrite (String.compare_antisym b a). now destruct (String.compare a b). Qed.
Lemma textLe_leb mt x y : String.leb (textOf mt x) (textOf mt y) = true -> textLe mt x y.
Proof. intros H a b Ha Hb. unfold textOf in H. rewrite Ha, Hb in H. now rewrite ltb_leb_neg, H. Qed.
Lemma insertText_sorted mt x l : StronglySorted (fun x y => String.leb (textOf mt x) (textOf mt y) = true) l ->
  StronglySorted (fun x y => String.leb (textOf mt x) (textOf mt y) = true) (insertText mt x l).
Proof.
  induction 1 as [|y l HS IH HF]; [repeat constructor|]. cbn. destruct (String.leb (textOf mt x) (textOf mt y)) eqn:E.
  - constructor; [now constructor|]. constructor; [exact E|]. eapply Forall_impl; [|exact HF]. cbn. intros z Hz. eapply leb_trans; eassumption.
  - constructor; [exact IH|]. apply Forall_forall. intros z Hz. apply (Permutation_in _ (insertText_perm mt x l)) in Hz.
    destruct Hz as [<-|Hz]; [now apply leb_false|]. rewrite Forall_forall in HF. now apply HF.
Qed.
Lemma sort_exists mt l : exists l', Permutation l' l /\ StronglySorted (textLe mt) l'.
Proof.
  assert (H : exists l', Permutation l' l /\ StronglySorted (fun x y => String.leb (textOf mt x) (textOf mt y) = true) l').
  { induction l as [|x l (l' & HP & HS)]; [exists []; split; constructor|].
    exists (insertText mt x l'). split; [rewrite insertText_perm; now constructor|now apply insertText_sorted]. }
  destruct H as (l' & HP & HS). exists l'. split; [exact HP|]. clear HP.
  induction HS as [|y r HS IH HF]; constructor; [exact IH|]. eapply Forall_impl; [|exact HF]. intros z Hz. now apply textLe_leb.
Qed.

Lemma toString_dec mt v : (exists s, toString mt v = Ok s) \/ toString mt v = Panic.
Proof. destruct v as [| | | | | | | |[v|]|]; cbn; eauto. Qed.

Lemma sort_progress mt h a len : exists r, sortStep mt h a len r.
Proof.
  assert (H : (exists x, In x (items h (TvSlice a len)) /\ toString mt x = Panic) \/
    forall x, In x (items h (TvSlice a len)) -> toString mt x <> Panic).
  { induction (items h (TvSlice a len)) as [|x l [(y & Hy & E)|IH]]; [right; intros ? []|left; exists y; split; [now right|exact E]|].
    destruct (toString_dec mt x) as [(s & E)|E]; [|left; exists x; split; [now left|exact E]].
    right. intros y [<-|Hy]; [congruence|now apply IH]. }
  destruct (le_lt_dec 2 len) as [L|L].
  - destruct H as [H|H]; [exists Panic; now constructor|].
    destruct (sort_exists mt (items h (TvSlice a len))) as (l & HP & HS). eexists. apply (SortDone mt h a len l); auto.
  - destruct (sort_exists mt (items h (TvSlice a len))) as (l & HP & HS). eexists. apply (SortDone mt h a len l); auto. lia.
Qed.

Lemma sort_result mt h a len v h' : wf h (TvSlice a len) -> sortStep mt h a len (Ok (v, h')) ->
  Permutation (items h' v) (items h (TvSlice a len)) /\ StronglySorted (textLe mt) (items h' v) /\
  h_maps h' = h_maps h /\ wf h' v /\
  forall b k, wf h (TvSlice b k) -> items h' (TvSlice b k) = items h (TvSlice b k).
Proof.
  intros [W1 W2] H. inversion H as [|l HT HP HS]; subst.
  assert (L : length l = len) by (rewrite (Permutation_length HP); cbn; rewrite firstn_length; lia).
  assert (I : items (Heap (h_arrays h ++ [l]) (h_maps h)) (TvSlice (length (h_arrays h)) len) = l).
  { cbn [items]. rewrite arrayAt_new. apply firstn_all2. lia. }
  rewrite I. repeat split; try assumption.
  - cbn. rewrite app_length. cbn. lia.
  - rewrite arrayAt_new. lia.
  - intros b k [X1 X2]. cbn [items]. now rewrite arrayAt_old.
Qed.

Lemma coalesce_spec l : (exists pre x post, l = pre ++ x :: post /\ (forall y, In y pre -> zeroVal y = true) /\
    zeroVal x = false /\ coalesceFn l = x) \/
  ((forall y, In y l -> zeroVal y = true) /\ coalesceFn l = TvStr "").
Proof.
  induction l as [|v l IH]; [right; split; [intros ? []|reflexivity]|]. cbn [coalesceFn].
  destruct (zeroVal v) eqn:E.
  - destruct IH as [(pre & x & post & -> & H1 & H2 & H3)|[H1 H2]].
    + left. exists (v :: pre), x, post. repeat split; try assumption. intros y [<-|Hy]; [exact E|now apply H1].
    + right. split; [intros y [<-|Hy]; [exact E|now apply H1]|exact H2].
  - left. exists [], v, l. repeat split; [intros ? []|exact E].
Qed.

Lemma contains_byte_app c a b : contains_byte c (a ++ b) = contains_byte c a || contains_byte c b.
Proof. unfold contains_byte. induction a as [|x a IH]; [reflexivity|]. cbn. rewrite IH. now rewrite orb_assoc. Qed.

Lemma join_then_split c l : l <> [] -> (forall x, In x l -> contains_byte c x = false) ->
  splitFn (String c "") (join (String c "") l) = l.
Proof.
  intros Hl H. destruct (exists_last Hl) as (r & x & ->). apply split_join_clean; [discriminate| |].
  - apply Forall_forall. intros y Hy a b E. assert (HC : contains_byte c y = false) by (apply H, in_or_app; now left).
    clear -E HC. revert a E. induction y as [|z y IH]; intros a E.
    + destruct a as [|? a]; cbn in E; [now injection E|]. injection E as _ E. destruct a; discriminate.
    + unfold contains_byte in HC. cbn in HC. apply orb_false_iff in HC. destruct HC as [H1 H2].
      destruct a as [|w a]; cbn in E; injection E as E1 E2.
      * subst z. now rewrite Ascii.eqb_refl in H1.
      * apply (IH H2 a). exact E2.
  - intros a b E. assert (HC : contains_byte c x = false) by (apply H, in_or_app; right; now left).
    rewrite E, !contains_byte_app in HC. unfold contains_byte at 2 in HC. cbn in HC. rewrite Ascii.eqb_refl in HC. cbn in HC.
    rewrite orb_true_r in HC. discriminate.
Qed.

Lemma join_arrays mt h a len ss sep :
  Forall2 (fun v s => toString mt v = Ok s) (items h (TvSlice a len)) ss ->
  joinFn mt h (TvSlice a len) sep = Ok (join sep ss) /\ joinFn mt h (TvStrs ss) sep = Ok (join sep ss).
Proof.
  intro H. split; [|reflexivity]. cbn [joinFn].
  assert (E : mapM (toString mt) (items h (TvSlice a len)) = Ok ss).
  { induction H as [|v s l ss H1 H2 IH]; [reflexivity|]. cbn [mapM]. rewrite H1. cbn [bind]. now rewrite IH. }
  now rewrite E.
Qed.

Lemma zeroVal_iff v : zeroVal v = true <-> EmptyValue v.
Proof.
  split.
  - destruct v as [|[]|z|s| | | |t|[t|]|]; cbn; intro H; try discriminate; try constructor.
    + apply Z.eqb_eq in H. subst z. constructor.
    + apply String.eqb_eq in H. subst s. constructor.
    + apply varType_eqb_iff in H. subst t. constructor.
  - now destruct 1.
Qed.
Lemma zeroVal_false v : zeroVal v = false <-> ~ EmptyValue v.
Proof. rewrite <- zeroVal_iff. destruct (zeroVal v); split; congruence. Qed.
