(** C22: detection of bigint. Theorems only. Specification: BigIntSpec.v. *)
From Verif Require Import Base BaseProofs Schema TypeSpec Uri ValidateSpec PropsValidateAux Filter FilterSpec FilterProofs PropsFilterAux
  BigInt BigIntSpec BigIntProofs BigIntTable.

(** C22. Both functions return on every schema, also a recursive one. *)
Theorem C22_detection_terminates : forall s, schemaUsesBigInts s <> None /\ forall compat, schemaBigIntFieldsByType compat s <> None.
Proof.
  intro s. split; [apply uses_term|]. intros compat H. rewrite table_is_fold in H.
  pose proof (foldM_term (storeDef (sc_types s)) (Definitions (requestSuffix compat) (responseSuffix compat) s)
    (fun x b _ => store_term (sc_types s) (fst x) (snd x) b) ([], [])) as K.
  destruct (foldM _ _ _); [discriminate|contradiction].
Qed.
Print Assumptions C22_detection_terminates.

(** C22. The predicate holds iff some struct field, or some method argument or result, is a bigint or a list of
    bigint; also for recursive structs. *)
Theorem C22_detection_is_exact : forall s, Accepted s -> NoTypeNamedBigint s ->
  schemaUsesBigInts s = Some true <->
  (exists d v, FieldType (sc_types s) d v /\ Direct v) \/ (exists v, ArgumentType s (fun _ => True) v /\ Direct v).
Proof.
  intros s HA HB. pose proof (uses_term s) as K. destruct (schemaUsesBigInts s) as [b|] eqn:E; [|contradiction].
  rewrite <- (uses_spec s HA HB b E). split; [congruence|now intros ->].
Qed.
Print Assumptions C22_detection_is_exact.

(** C22. If no struct is nested in itself, the table gives, for each struct and each implicit request and
    response type, exactly its fields that are a bigint, a list of bigint, or a struct or list of structs
    containing one at any depth. Of several definitions of the same name the last that has such fields is shown. *)
Theorem C22_table_is_exact : forall s compat, Accepted s -> NoTypeNamedBigint s ->
  (forall d, ~ NestedIn (sc_types s) d d) ->
  exists tbl, schemaBigIntFieldsByType compat s = Some tbl /\
    forall k l, assoc k tbl = Some l <->
      l <> [] /\ exists pre fs post, Definitions (requestSuffix compat) (responseSuffix compat) s = pre ++ (k, fs) :: post /\
        Entries (sc_types s) fs l /\ forall fs', In (k, fs') post -> Entries (sc_types s) fs' [].
Proof.
  intros s compat HA HB Hac. rewrite table_is_fold.
  pose proof (foldM_term (storeDef (sc_types s)) (Definitions (requestSuffix compat) (responseSuffix compat) s)
    (fun x b _ => store_term (sc_types s) (fst x) (snd x) b) ([], [])) as K.
  destruct (foldM _ _ _) as [[tbl memo]|] eqn:E; [clear K|contradiction]. exists tbl. split; [reflexivity|]. intros k l.
  rewrite (table_exact (sc_types s) _ (accepted_WellB s HA HB) Hac (Entries (sc_types s)) (Entries_exact (sc_types s))
    (Definitions_ok s compat HA HB) _ _ _ _ (Inv_nil _ _) E k l).
  split; [intros [H|[H _]]; [assumption|discriminate]|now left].
Qed.
Print Assumptions C22_table_is_exact.

(** the same when the names are distinct *)
Theorem C22_table_of_distinct_names : forall s compat, Accepted s -> NoTypeNamedBigint s ->
  (forall d, ~ NestedIn (sc_types s) d d) ->
  NoDup (map fst (Definitions (requestSuffix compat) (responseSuffix compat) s)) ->
  exists tbl, schemaBigIntFieldsByType compat s = Some tbl /\
    forall k l, assoc k tbl = Some l <->
      l <> [] /\ exists fs, In (k, fs) (Definitions (requestSuffix compat) (responseSuffix compat) s) /\ Entries (sc_types s) fs l.
Proof.
  intros s compat HA HB Hac Hnd. destruct (C22_table_is_exact s compat HA HB Hac) as (tbl & E & H). exists tbl. split; [assumption|].
  intros k l. rewrite H. split; intros [Hl K]; (split; [assumption|]).
  - destruct K as (pre & fs & post & -> & K1 & _). exists fs. split; [|assumption]. apply in_or_app. right. now left.
  - destruct K as (fs & Hin & K1). apply in_split in Hin as (pre & post & Ed). exists pre, fs, post. split; [assumption|]. split; [assumption|].
    intros fs' Hf'. exfalso. rewrite Ed, map_app in Hnd. cbn [map fst] in Hnd. apply NoDup_remove_2 in Hnd. apply Hnd, in_or_app. right.
    now apply (in_map fst) in Hf'.
Qed.
Print Assumptions C22_table_of_distinct_names.

(** C22. On every schema, recursive or not: every entry of the table is right, and every definition with a
    direct bigint field has an entry. *)
Theorem C22_table_is_sound : forall s compat, Accepted s -> NoTypeNamedBigint s ->
  exists tbl, schemaBigIntFieldsByType compat s = Some tbl /\
    (forall k l, assoc k tbl = Some l -> exists fs, In (k, fs) (Definitions (requestSuffix compat) (responseSuffix compat) s) /\
       (forall e, In e l -> exists n v, In (n, Some v) fs /\ EntryOf (sc_types s) n v e) /\
       (forall n v, In (n, Some v) fs -> Direct v -> exists e, In e l /\ EntryOf (sc_types s) n v e)) /\
    (forall k fs n v, In (k, fs) (Definitions (requestSuffix compat) (responseSuffix compat) s) -> In (n, Some v) fs -> Direct v ->
       exists l, assoc k tbl = Some l).
Proof.
  intros s compat HA HB. rewrite table_is_fold.
  pose proof (foldM_term (storeDef (sc_types s)) (Definitions (requestSuffix compat) (responseSuffix compat) s)
    (fun x b _ => store_term (sc_types s) (fst x) (snd x) b) ([], [])) as K.
  destruct (foldM _ _ _) as [[tbl memo]|] eqn:E; [clear K|contradiction]. exists tbl. split; [reflexivity|]. split.
  - intros k l Hk.
    destruct (table_sound (sc_types s) _ (accepted_WellB s HA HB) (Definitions_ok s compat HA HB) _ _ _ _ (Inv_nil _ _) E k l Hk)
      as [K|(fs & F1 & F2)]; [discriminate|]. exists fs. split; [assumption|]. clear -F2.
    induction F2 as [|name v e r es H F IH|name v r es C F IH|name r es F IH]; cbn [In].
    + split; [now intros|intros; contradiction].
    + destruct IH as [I1 I2]. split.
      * intros x [<-|Hx]; [exists name, v; auto|]. destruct (I1 x Hx) as (n & w & W1 & W2). exists n, w. auto.
      * intros n w [W|W] D; [injection W as <- <-; eauto|]. destruct (I2 n w W D) as (x & X1 & X2). exists x. auto.
    + destruct IH as [I1 I2]. split.
      * intros x Hx. destruct (I1 x Hx) as (n & w & W1 & W2). exists n, w. auto.
      * intros n w [W|W] D; [injection W as <- <-; destruct C; contradiction|]. auto.
    + destruct IH as [I1 I2]. split.
      * intros x Hx. destruct (I1 x Hx) as (n & w & W1 & W2). exists n, w. auto.
      * intros n w [W|W] D; [discriminate|]. auto.
  - intros k fs n v Hk Hn D.
    pose proof (table_keeps (sc_types s) _ (accepted_WellB s HA HB) (Definitions_ok s compat HA HB) _ _ _ _ (Inv_nil _ _) E k) as K.
    destruct (assoc k tbl); [eauto|]. exfalso. apply K; [|reflexivity]. right. eauto 6.
Qed.
Print Assumptions C22_table_is_sound.

(** ** where the English claim fails *)

(** a bigint inside a map, a nested list or an alias is not seen *)
Definition hiddenBigintsSource : schema :=
  Schema_ "v1" "example" "v1" "rpc"
    [st "S" 0 [("m", "map<string,bigint>"); ("l", "[][]bigint"); ("a", "Amount")];
     Type_ ("f", 1) "alias" "Amount" (ref "bigint") [] [] []]
    [] [Service_ ("f", 2) "Svc" [mth "Get" [] [] ["S"]] []].
Definition hiddenBigints : schema := accept hiddenBigintsSource.
Theorem C22_hidden_bigints_refuted :
  Accepted hiddenBigints /\ NoTypeNamedBigint hiddenBigints /\
  (exists d v k, FieldType (sc_types hiddenBigints) d v /\ exists x, vt_shape v = ShMap k x /\ IsBigint x) /\
  (exists d v x y, FieldType (sc_types hiddenBigints) d v /\ ListOf v x /\ ListOf x y /\ IsBigint y) /\
  schemaUsesBigInts hiddenBigints = Some false /\ schemaBigIntFieldsByType false hiddenBigints = Some [].
Proof.
  assert (HA : Accepted hiddenBigints).
  { apply (accepted_run hiddenBigintsSource); [vm_compute; reflexivity|vm_compute; reflexivity|vm_compute; reflexivity|].
    cbn. repeat constructor; cbn; intuition congruence. }
  split; [assumption|]. split.
  { intros t Ht. vm_compute in Ht. destruct Ht as [<-|[<-|[]]]; vm_compute; discriminate. }
  split.
  { eexists _, _, _. split.
    - eexists _, _. split; [vm_compute; left; reflexivity|]. split; [reflexivity|]. split; [reflexivity|]. split; [left; reflexivity|reflexivity].
    - eexists. split; [reflexivity|reflexivity]. }
  split; [|split; vm_compute; reflexivity].
  eexists _, _, _, _. split.
  - eexists _, _. split; [vm_compute; left; reflexivity|]. split; [reflexivity|]. split; [reflexivity|]. split; [right; left; reflexivity|reflexivity].
  - split; [reflexivity|]. split; reflexivity.
Qed.
Print Assumptions C22_hidden_bigints_refuted.

(** a type named BigInt is taken for a bigint *)
Definition namedBigintSource : schema :=
  Schema_ "v1" "example" "v1" "rpc" [st "BigInt" 0 [("s", "string")]; st "S" 1 [("b", "BigInt")]]
    [] [Service_ ("f", 2) "Svc" [mth "Get" [] [] ["S"]] []].
Definition namedBigint : schema := accept namedBigintSource.
Theorem C22_type_named_bigint_refuted :
  Accepted namedBigint /\ (forall d v, FieldType (sc_types namedBigint) d v -> ~ Direct v) /\
  schemaUsesBigInts namedBigint = Some true.
Proof.
  split.
  { apply (accepted_run namedBigintSource); [vm_compute; reflexivity|vm_compute; reflexivity|vm_compute; reflexivity|].
    cbn. repeat constructor; cbn; intuition congruence. }
  split; [|vm_compute; reflexivity].
  intros d v (t & f & Ht & _ & _ & Hf & Hv). vm_compute in Ht. destruct Ht as [<-|[<-|[]]]; vm_compute in Hf; destruct Hf as [<-|[]];
    vm_compute in Hv; injection Hv as <-; unfold Direct, IsBigint, ListOf; cbn; intros [K|(x & K & _)]; discriminate.
Qed.
Print Assumptions C22_type_named_bigint_refuted.

(** with recursive structs a field containing a bigint can be missing: the answer for B, asked while A is being
    scanned, is remembered as "no" *)
Definition poisonedSource : schema :=
  Schema_ "v1" "example" "v1" "rpc"
    [st "X" 0 [("a", "A")]; st "A" 1 [("b", "B"); ("n", "bigint")]; st "B" 2 [("a", "A")]; st "Y" 3 [("b", "B")]]
    [] [Service_ ("f", 4) "Svc" [mth "Get" [] [] ["Y"]] []].
Definition poisoned : schema := accept poisonedSource.
Theorem C22_recursive_structs_refuted :
  Accepted poisoned /\ NoTypeNamedBigint poisoned /\ HasBigint (sc_types poisoned) "B" /\
  (exists v, FieldType (sc_types poisoned) "Y" v /\ IsStruct v "B") /\
  (exists tbl, schemaBigIntFieldsByType false poisoned = Some tbl /\ assoc "Y" tbl = None /\ assoc "X" tbl <> None).
Proof.
  split.
  { apply (accepted_run poisonedSource); [vm_compute; reflexivity|vm_compute; reflexivity|vm_compute; reflexivity|].
    cbn. repeat constructor; cbn; intuition congruence. }
  split.
  { intros t Ht. vm_compute in Ht. destruct Ht as [<-|[<-|[<-|[<-|[]]]]]; vm_compute; discriminate. }
  split.
  { eapply HB_nested.
    - eexists _, _. split; [vm_compute; right; right; left; reflexivity|]. split; [reflexivity|]. split; [reflexivity|]. split; [left; reflexivity|reflexivity].
    - left. eexists. reflexivity.
    - eapply HB_direct.
      + eexists _, _. split; [vm_compute; right; left; reflexivity|]. split; [reflexivity|]. split; [reflexivity|]. split; [right; left; reflexivity|reflexivity].
      + left. reflexivity. }
  split.
  { eexists. split.
    - eexists _, _. split; [vm_compute; right; right; right; left; reflexivity|]. split; [reflexivity|]. split; [reflexivity|]. split; [left; reflexivity|reflexivity].
    - eexists. reflexivity. }
  eexists. split; [vm_compute; reflexivity|]. split; [reflexivity|discriminate].
Qed.
Print Assumptions C22_recursive_structs_refuted.

(** methods of different services with the same name share their entry: one is lost *)
Definition twoGetsSource : schema :=
  Schema_ "v1" "example" "v1" "rpc" [] []
    [Service_ ("f", 0) "One" [Method_ "Get" [] [] false false false [Arg_ "x" (ref "bigint") false] [] []] [];
     Service_ ("f", 1) "Two" [Method_ "Get" [] [] false false false [Arg_ "y" (ref "[]bigint") false] [] []] []].
Definition twoGets : schema := accept twoGetsSource.
Theorem C22_colliding_methods_refuted :
  Accepted twoGets /\ schemaBigIntFieldsByType false twoGets = Some [("GetRequest", [EName "y[]"])].
Proof.
  split; [|vm_compute; reflexivity]. apply (accepted_run twoGetsSource); [vm_compute; reflexivity|vm_compute; reflexivity|vm_compute; reflexivity|constructor].
Qed.
Print Assumptions C22_colliding_methods_refuted.

(** Non-vacuity: an acyclic schema with nested structs. *)
Definition bigExampleSource : schema :=
  Schema_ "v1" "example" "v1" "rpc"
    [st "Leaf" 0 [("n", "bigint"); ("s", "string")]; st "Mid" 1 [("l", "[]Leaf")]; st "Top" 2 [("m", "Mid"); ("k", "[]bigint"); ("z", "Plain")];
     st "Plain" 3 [("s", "string")]]
    [] [Service_ ("f", 4) "Svc" [mth "Get" [] ["Plain"] ["Top"]; mth "Put" [] ["[]Mid"; "bigint"] []] []].
Definition bigExample : schema := accept bigExampleSource.
Example C22_example_accepted : Accepted bigExample /\ NoTypeNamedBigint bigExample.
Proof.
  split.
  { apply (accepted_run bigExampleSource); [vm_compute; reflexivity|vm_compute; reflexivity|vm_compute; reflexivity|].
    cbn. repeat constructor; cbn; intuition congruence. }
  intros t Ht. vm_compute in Ht. destruct Ht as [<-|[<-|[<-|[<-|[]]]]]; vm_compute; discriminate.
Qed.
Example C22_example_acyclic : forall d, ~ NestedIn (sc_types bigExample) d d.
Proof.
  set (rank := fun d : string => if String.eqb d "Top" then 3 else if String.eqb d "Mid" then 2 else if String.eqb d "Leaf" then 1 else 0).
  assert (HF : forall d v d', FieldType (sc_types bigExample) d v -> Nests v d' -> rank d' < rank d).
  { set (nests := fun v => match v with VT _ (ShStruct _ d) => [d] | VT _ (ShList (VT _ (ShStruct _ d))) => [d] | _ => [] end).
    assert (HC : forallb (fun t => forallb (fun f => match f_type f with
        Some v => forallb (fun d' => rank d' <? rank (t_name t)) (nests v) | None => true end) (t_fields t)) (sc_types bigExample) = true)
      by (vm_compute; reflexivity).
    intros d v d' (t & f & Ht & _ & <- & Hf & Hv) N. rewrite forallb_forall in HC. specialize (HC t Ht). cbv beta in HC.
    rewrite forallb_forall in HC. specialize (HC f Hf). cbv beta in HC. rewrite Hv in HC. rewrite forallb_forall in HC.
    apply Nat.ltb_lt, HC. destruct N as [(n & E)|(x & E & n & E2)]; destruct v as [e sh]; unfold ListOf in *; cbn in E; subst sh.
    - now left.
    - destruct x as [e' sh']. cbn in E2. subst sh'. now left. }
  assert (HR : forall d d', NestedIn (sc_types bigExample) d d' -> rank d' < rank d).
  { intros d d' H. induction H as [d v d' F N|d v d' d'' F N _ IH]; [eauto|]. specialize (HF d v d' F N). lia. }
  intros d H. specialize (HR d d H). lia.
Qed.
Example C22_example_value :
  schemaUsesBigInts bigExample = Some true /\
  schemaBigIntFieldsByType false bigExample =
    Some [("Leaf", [EName "n"]); ("Mid", [EPair "l" "Leaf[]"]); ("Top", [EPair "m" "Mid"; EName "k[]"]);
          ("GetResponse", [EPair "y" "Top"]); ("PutRequest", [EPair "x" "Mid[]"; EName "x"])] /\
  option_map (map fst) (schemaBigIntFieldsByType true bigExample) = Some ["Leaf"; "Mid"; "Top"; "GetReturn"; "PutArgs"].
Proof. repeat split; vm_compute; reflexivity. Qed.
