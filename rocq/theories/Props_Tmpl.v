(** C45-C47: the template helpers for dictionaries, arrays and strings. Theorems only.
    Specification: TmplSpec.v.  [mt] is the text Go happens to produce for a map, [grow] the capacity Go
    happens to choose for a new array; both are arbitrary. *)
From Coq Require Import Permutation Sorted.
From Verif Require Import Base BaseProofs Utf8 Schema Tmpl TmplSpec TmplProofs.

(** C45. dict k1 v1 k2 v2 ... makes a new dictionary in which every key has the value given last for it;
    the existing dictionaries and arrays are as before. *)
Theorem C45_dict_has_the_last_values : forall mt h kvs, exists h',
  dictFn h (flatten kvs) = Ok (TvMap (length (h_maps h)), h') /\
  (forall k v, getFn mt h' (length (h_maps h)) (TvStr k) = Ok v <-> assoc k (rev kvs) = Some v) /\
  (forall m, m < length (h_maps h) -> mapAt h' m = mapAt h m) /\ h_arrays h' = h_arrays h.
Proof.
  intros mt h kvs. destruct (dict_ok h kvs) as (m & E & H). eexists. split; [exact E|]. split; [|split; [|reflexivity]].
  - intros k v. unfold getFn. cbn [toString bind]. rewrite mapAt_new, H. destruct (assoc k (rev kvs)); split; congruence.
  - intros a Ha. now apply mapAt_old.
Qed.
Print Assumptions C45_dict_has_the_last_values.

(** Anything else (an odd number of arguments, a key that is not a string) is a failure, not a wrong
    dictionary. *)
Theorem C45_dict_fails_otherwise : forall h args, (forall kvs, args <> flatten kvs) -> dictFn h args = Panic.
Proof. exact dict_panics. Qed.
Print Assumptions C45_dict_fails_otherwise.

(** C45. After any history of set calls on any dictionaries, get returns the value set last for that key of
    that dictionary, or what was there before; a key that was never set is an error, and exists tells. *)
Theorem C45_get_returns_what_was_set_last : forall mt h sets m k,
  Forall (fun s => fst (fst s) < length (h_maps h)) sets ->
  (forall v, getFn mt (setAll h sets) m (TvStr k) = Ok v <-> lastSet m k sets (assoc k (mapAt h m)) = Some v) /\
  (existsFn (setAll h sets) m k = true <-> exists v, getFn mt (setAll h sets) m (TvStr k) = Ok v) /\
  (existsFn (setAll h sets) m k = false -> exists e, getFn mt (setAll h sets) m (TvStr k) = Err e).
Proof.
  intros mt h sets m k HF. pose proof (setAll_get sets h HF m k) as H. unfold existsFn, getFn. cbn [toString bind].
  rewrite <- H. destruct (assoc k (mapAt (setAll h sets) m)) as [w|]; repeat split; try congruence; try eauto.
  intros (v & E). discriminate.
Qed.
Print Assumptions C45_get_returns_what_was_set_last.

(** set changes no array. *)
Theorem C45_set_changes_no_array : forall h m k v, h_arrays (setFn h m k v) = h_arrays h.
Proof. reflexivity. Qed.
Print Assumptions C45_set_changes_no_array.

(** A type is looked up by its expression, a type declaration by its kind. *)
Theorem C45_types_as_keys : forall mt h m t,
  getFn mt h m (TvType t) = getFn mt h m (TvStr (vt_expr t)) /\
  getFn mt h m (TvTypeP (Some t)) = getFn mt h m (TvStr (vt_expr t)).
Proof. split; reflexivity. Qed.
Print Assumptions C45_types_as_keys.

Example C45_example :
  let d := match dictFn (Heap [] []) [TvStr "a"; TvInt 1; TvStr "b"; TvInt 2; TvStr "a"; TvInt 3] with
           | Ok (_, h) => h | _ => Heap [] [] end in
  getFn (fun _ => "") d 0 (TvStr "a") = Ok (TvInt 3) /\
  getFn (fun _ => "") (setAll d [(0, "b", TvInt 7); (0, "c", TvInt 8)]) 0 (TvStr "b") = Ok (TvInt 7) /\
  dictFn (Heap [] []) [TvInt 1; TvInt 2] = Panic.
Proof. vm_compute. repeat split. Qed.

(** C46. array and append have the given elements, whatever capacities Go chooses, and change no slice
    that lives in another array or is not longer than the slice appended to. *)
Theorem C46_array_has_its_elements : forall grow h es, (forall o n, n <= grow o n) ->
  exists v h', arrayFn grow h es = (v, h') /\ items h' v = es /\ wf h' v /\ h_maps h' = h_maps h /\
  forall b k, wf h (TvSlice b k) -> wf h' (TvSlice b k) /\ items h' (TvSlice b k) = items h (TvSlice b k).
Proof.
  intros grow h es Hg. destruct (arrayFn_spec grow h es Hg) as (a & h' & E & H1 & H2 & H3 & _ & H4).
  exists (TvSlice a (length es)), h'. auto.
Qed.
Print Assumptions C46_array_has_its_elements.

Theorem C46_append_adds_at_the_end : forall grow h a len es, (forall o n, n <= grow o n) -> wf h (TvSlice a len) ->
  exists v h', appendFn grow h (TvSlice a len) es = Ok (v, h') /\ wf h' v /\
    items h' v = items h (TvSlice a len) ++ es /\ h_maps h' = h_maps h /\
    forall b k, wf h (TvSlice b k) -> b <> a \/ k <= len ->
      wf h' (TvSlice b k) /\ items h' (TvSlice b k) = items h (TvSlice b k).
Proof.
  intros grow h a len es Hg W. destruct (goAppend_spec grow h a len es Hg W) as (a' & h' & E & H1 & H2 & H3 & H4 & H5).
  exists (TvSlice a' (len + length es)), h'. cbn [appendFn]. rewrite E. repeat (split; [assumption || reflexivity|]).
  intros b k Wb Hb. split; [now apply H4|now apply H5].
Qed.
Print Assumptions C46_append_adds_at_the_end.

(** C46. The loop idiom [x = append x e] collects all elements in order, for every number of rounds, and
    keeps the slice it started from. *)
Theorem C46_append_loop_collects_everything : forall grow h a len ess, (forall o n, n <= grow o n) -> wf h (TvSlice a len) ->
  exists v h', appendLoop grow h (TvSlice a len) ess = Ok (v, h') /\
    items h' v = items h (TvSlice a len) ++ concat ess /\
    items h' (TvSlice a len) = items h (TvSlice a len).
Proof.
  intros grow h a len ess Hg W. destruct (appendLoop_spec grow ess Hg h a len W) as (v & h' & E & H1 & H2 & H3 & H4).
  exists v, h'. split; [exact E|]. split; [exact H1|]. apply H4; [exact W|now right].
Qed.
Print Assumptions C46_append_loop_collects_everything.

(** C46. "append makes a new array" is false: appending twice to the same array overwrites the first result.
    Go's growth makes room for 6 elements when a fourth is added to three, so: *)
Theorem C46_append_twice_refuted : forall grow, grow 0 3 = 3 -> grow 3 4 = 6 ->
  exists x h0 y h p h1 q h2,
    arrayFn grow (Heap [] []) (map TvStr ["a"; "b"; "c"]) = (x, h0) /\
    appendFn grow h0 x [TvStr "d"] = Ok (y, h) /\
    appendFn grow h y [TvStr "p"] = Ok (p, h1) /\ items h1 p = map TvStr ["a"; "b"; "c"; "d"; "p"] /\
    appendFn grow h1 y [TvStr "q"] = Ok (q, h2) /\ items h2 p = map TvStr ["a"; "b"; "c"; "d"; "q"].
Proof.
  intros grow H1 H2.
  destruct (arrayFn grow (Heap [] []) (map TvStr ["a"; "b"; "c"])) as [x h0] eqn:E0.
  exists x, h0. unfold arrayFn, goAppend in E0. cbn in E0. rewrite H1 in E0. injection E0 as <- <-.
  destruct (appendFn grow _ _ [TvStr "d"]) as [[y h]| | |] eqn:E1; cbn in E1; unfold goAppend in E1; cbn in E1; try discriminate.
  exists y, h. rewrite H2 in E1. injection E1 as <- <-. eexists _, _, _, _. split; [reflexivity|].
  split; [reflexivity|]. split; [reflexivity|]. split; [reflexivity|]. split; reflexivity.
Qed.
Print Assumptions C46_append_twice_refuted.

(** C46. first and last: an element at that end, an error when there is none, a failure on anything that is
    not an array. *)
Theorem C46_first_and_last : forall h v,
  ((exists a n, v = TvSlice a n) \/ (exists l, v = TvStrs l)) ->
  (forall x, firstFn h v = Ok x <-> exists r, items h v = x :: r) /\
  (forall x, lastFn h v = Ok x <-> exists r, items h v = r ++ [x]) /\
  (items h v = [] <-> exists e, firstFn h v = Err e) /\ (items h v = [] <-> exists e, lastFn h v = Err e).
Proof.
  intros h v Hv.
  assert (F : firstFn h v = match items h v with [] => Err "first(): no elements in the array" | x :: _ => Ok x end)
    by (destruct Hv as [(a & n & ->)|(l & ->)]; reflexivity).
  assert (L : lastFn h v = match rev (items h v) with [] => Err "last(): no elements in the array" | x :: _ => Ok x end)
    by (destruct Hv as [(a & n & ->)|(l & ->)]; reflexivity).
  rewrite F, L. set (l := items h v). clearbody l. clear. split; [|split; [|split]].
  - intro x. destruct l as [|y l]; split; [discriminate|intros (r & E); discriminate|intros [= ->]; eauto|intros (r & [= -> _]); reflexivity].
  - intro x. destruct (rev l) as [|y r] eqn:E.
    + split; [discriminate|]. intros (r & ->). rewrite rev_app_distr in E. discriminate.
    + split; [intros [= ->]; exists (rev r); rewrite <- (rev_involutive l), E; reflexivity|].
      intros (r' & ->). rewrite rev_app_distr in E. cbn in E. congruence.
  - destruct l; split; try congruence; [eauto|intros (e & E); discriminate].
  - destruct (rev l) as [|y r] eqn:E.
    + split; [eauto|]. intros _. rewrite <- (rev_involutive l), E. reflexivity.
    + split; [intros ->; discriminate|intros (e & X); discriminate].
Qed.
Print Assumptions C46_first_and_last.

Theorem C46_last_index : forall h v, wf h v -> forall n, lastIndexFn h v = Ok n -> (n = Z.of_nat (length (items h v)) - 1)%Z.
Proof.
  intros h v W n H. destruct v; try discriminate; cbn in *; injection H as <-.
  - now rewrite map_length.
  - rewrite firstn_length. f_equal. f_equal. lia.
Qed.
Print Assumptions C46_last_index.

(** C46. sort always comes to an end: with a failure only if two or more elements are to be compared and one
    has no text; otherwise with a new array that is a reordering of the given one, sorted by text.  The given
    array, and every other, stay as they are. *)
Theorem C46_sort_answers : forall mt h a len, exists r, sortStep mt h a len r.
Proof. exact sort_progress. Qed.
Print Assumptions C46_sort_answers.
Theorem C46_sort_is_a_sorted_copy : forall mt h a len v h', wf h (TvSlice a len) -> sortStep mt h a len (Ok (v, h')) ->
  Permutation (items h' v) (items h (TvSlice a len)) /\
  StronglySorted (fun x y => forall s t, toString mt x = Ok s -> toString mt y = Ok t -> String.ltb t s = false) (items h' v) /\
  h_maps h' = h_maps h /\ wf h' v /\
  forall b k, wf h (TvSlice b k) -> items h' (TvSlice b k) = items h (TvSlice b k).
Proof. exact sort_result. Qed.
Print Assumptions C46_sort_is_a_sorted_copy.

(** ... and if no two different elements have the same text there is only one possible result, so the
    generated code does not depend on the sorting algorithm. *)
Theorem C46_sort_is_determined : forall mt h a len v h' v' h'', wf h (TvSlice a len) ->
  sortStep mt h a len (Ok (v, h')) -> sortStep mt h a len (Ok (v', h'')) ->
  (forall x, In x (items h (TvSlice a len)) -> exists s, toString mt x = Ok s) ->
  (forall x y, In x (items h (TvSlice a len)) -> In y (items h (TvSlice a len)) -> toString mt x = toString mt y -> x = y) ->
  items h' v = items h'' v'.
Proof.
  intros mt h a len v h' v' h'' W S1 S2 HT HI.
  destruct (sort_result mt h a len v h' W S1) as (P1 & Q1 & _). destruct (sort_result mt h a len v' h'' W S2) as (P2 & Q2 & _).
  apply (sort_unique mt); try assumption.
  - etransitivity; [exact P1|now symmetry].
  - intros x Hx. apply HT. apply (Permutation_in x P1 Hx).
  - intros x y Hx Hy. apply HI; [apply (Permutation_in x P1 Hx)|apply (Permutation_in y P1 Hy)].
Qed.
Print Assumptions C46_sort_is_determined.

(** C46. in is membership by value and type; coalesce is the first value that is not empty; default and
    ternary choose. *)
Theorem C46_in_is_membership : forall deep x vs, plainVal x -> (inFn deep x vs = true <-> In x vs).
Proof.
  intros deep x vs H. unfold inFn. rewrite existsb_exists. split.
  - intros (y & Hy & E). apply (deepEqual_plain deep x y H) in E. now subst.
  - intro Hx. exists x. split; [exact Hx|]. now apply (deepEqual_plain deep x x H).
Qed.
Print Assumptions C46_in_is_membership.

Theorem C46_coalesce_is_the_first_non_empty : forall l,
  (exists pre x post, l = pre ++ x :: post /\ (forall y, In y pre -> EmptyValue y) /\ ~ EmptyValue x /\ coalesceFn l = x) \/
  ((forall y, In y l -> EmptyValue y) /\ coalesceFn l = TvStr "").
Proof.
  intro l. destruct (coalesce_spec l) as [(pre & x & post & E & H1 & H2 & H3)|[H1 H2]].
  - left. exists pre, x, post. split; [exact E|]. split; [intros y Hy; now apply zeroVal_iff, H1|]. split; [now apply zeroVal_false|exact H3].
  - right. split; [intros y Hy; now apply zeroVal_iff, H1|exact H2].
Qed.
Print Assumptions C46_coalesce_is_the_first_non_empty.

Theorem C46_default_and_ternary : forall v d c a b,
  (EmptyValue v -> defaultFn v d = d) /\ (~ EmptyValue v -> defaultFn v d = v) /\
  (ternaryFn c a b = Ok a \/ ternaryFn c a b = Ok b \/ ternaryFn c a b = Panic) /\
  ternaryFn (TvBool true) a b = Ok a /\ ternaryFn (TvBool false) a b = Ok b /\
  ternaryFn (TvStr "true") a b = Ok a /\ ternaryFn (TvStr "false") a b = Ok b.
Proof.
  intros v d c a b. unfold defaultFn. split; [intro H; apply zeroVal_iff in H; now rewrite H|].
  split; [intro H; apply zeroVal_false in H; now rewrite H|].
  split; [|repeat split]. unfold ternaryFn. destruct c; cbn; auto.
  - destruct b0; auto.
  - destruct (String.eqb s "true"); cbn; auto. destruct (String.eqb s "false"); cbn; auto.
Qed.
Print Assumptions C46_default_and_ternary.

(** C46. Emptiness is not what a template author expects for collections: an array or dictionary without
    elements counts as non-empty, so default and coalesce return it. *)
Theorem C46_empty_collections_refuted : forall grow d, exists v h m h',
  arrayFn grow (Heap [] []) [] = (v, h) /\ items h v = [] /\ defaultFn v d = v /\ coalesceFn [v; d] = v /\
  dictFn (Heap [] []) [] = Ok (m, h') /\ (forall k, existsFn h' 0 k = false) /\ m = TvMap 0 /\ defaultFn m d = m.
Proof.
  intros grow d. eexists _, _, _, _. split; [reflexivity|]. split; [reflexivity|]. split; [reflexivity|]. split; [reflexivity|].
  split; [reflexivity|]. repeat split; reflexivity.
Qed.
Print Assumptions C46_empty_collections_refuted.

(** C46. A type is never "in" a list of type names, although it prints like one of them. *)
Theorem C46_type_in_names_refuted : exists deep mt t, toString mt (TvType t) = Ok "string" /\
  inFn deep (TvType t) [TvStr "string"; TvStr "bool"] = false.
Proof. exists (fun _ _ => false), (fun _ => ""), (VT "string" (ShCore CString)). now vm_compute. Qed.
Print Assumptions C46_type_in_names_refuted.

(** C47. Splitting at a separator and joining with it gives the text back; the pieces are the ones a
    left-to-right reader finds, and there is only one such list. *)
Theorem C47_split_is_exact : forall sep s ps, sep <> ""%string ->
  (splitFn sep s = ps <->
   join sep ps = s /\
   exists l x, ps = l ++ [x] /\ Forall (clean sep) l /\ forall a b, x <> (a ++ sep ++ b)%string).
Proof. exact split_iff. Qed.
Print Assumptions C47_split_is_exact.

(** Joining and splitting again gives the list back if no element contains the separator and the separator
    is a single character ... *)
Theorem C47_join_then_split : forall c l, l <> [] -> (forall x, In x l -> contains_byte c x = false) ->
  splitFn (String c "") (join (String c "") l) = l.
Proof. exact join_then_split. Qed.
Print Assumptions C47_join_then_split.

(** ... but not for longer separators. *)
Theorem C47_join_then_split_refuted : exists sep l, sep <> ""%string /\ l <> [] /\
  (forall x, In x l -> forall a b, x <> (a ++ sep ++ b)%string) /\ splitFn sep (join sep l) <> l.
Proof.
  exists "::"%string, ["a:"; "b"]%string. split; [discriminate|]. split; [discriminate|]. split; [|vm_compute; discriminate].
  intros x Hx a b E. apply (f_equal String.length) in E as L. rewrite !slength_app in L. cbn [String.length] in L.
  destruct Hx as [<-|[<-|[]]]; cbn [String.length] in L; [|lia].
  destruct a as [|c a]; [|cbn in L; lia]. cbn in E. congruence.
Qed.
Print Assumptions C47_join_then_split_refuted.

(** Splitting at the empty separator yields the characters. *)
Theorem C47_split_characters : forall rs, forallb valid_rune rs = true -> splitFn "" (encode rs) = map encode_rune rs.
Proof. exact split_chars. Qed.
Print Assumptions C47_split_characters.

(** join of an array of texts and types is the join of their texts. *)
Theorem C47_join_of_arrays : forall mt h a len ss sep,
  Forall2 (fun v s => toString mt v = Ok s) (items h (TvSlice a len)) ss ->
  joinFn mt h (TvSlice a len) sep = Ok (join sep ss) /\ joinFn mt h (TvStrs ss) sep = Ok (join sep ss).
Proof. exact join_arrays. Qed.
Print Assumptions C47_join_of_arrays.

Example C47_example :
  splitFn ", " "a, b,c, " = ["a"; "b,c"; ""] /\ splitFn "aa" "aaa" = [""; "a"] /\ splitFn "x" "" = [""] /\ splitFn "" "" = [].
Proof. vm_compute. repeat split. Qed.
