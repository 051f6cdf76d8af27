From Coq Require Import DecimalString Decimal DecimalN DecimalFacts.
From Verif Require Import Base BaseProofs Schema Cli CliProofs BigIntProofs Cache CacheSpec BigSpec GoBigProofs ValidateProofs PropsValidateAux.

(** ** time stamps *)

Lemma parseDigits_iff s z : parseDigits s = Some z <-> exists n, DigitsOf s n /\ z = Z.of_N n.
Proof.
  unfold parseDigits. destruct s as [|c r]; cbn [NilZero.uint_of_string].
  - split; [discriminate|]. intros (n & D & _). apply DigitsOf_sval in D. destruct D as (_ & D & _). congruence.
  - set (s := String c r). change (NilZero.uint_of_string s) with (NilEmpty.uint_of_string s).
    destruct (NilEmpty.uint_of_string s) as [u|] eqn:U.
    + assert (A : allDigits s = true) by (apply uint_of_string_digits; eauto).
      rewrite of_uint_val, (uint_of_string_val s u U). split.
      * intros [= <-]. exists (sval s 0). split; [apply sval_DigitsOf; [assumption|discriminate]|reflexivity].
      * intros (n & D & ->). apply DigitsOf_sval in D. destruct D as (_ & _ & <-). reflexivity.
    + split; [discriminate|]. intros (n & D & _). apply DigitsOf_sval in D. destruct D as (A & _). apply uint_of_string_digits in A.
      destruct A as [u A]. congruence.
Qed.

Lemma parseInt64_iff s t : (0 < t)%Z -> parseInt64 s = t <->
  exists z, Decimal s z /\ (0 < z)%Z /\ t = Z.min z 9223372036854775807.
Proof.
  intros Ht.
  assert (Plain : forall s', match parseDigits s' with Some z => Z.min z 9223372036854775807 | None => 0%Z end = t <->
                     exists n, DigitsOf s' n /\ (0 < Z.of_N n)%Z /\ t = Z.min (Z.of_N n) 9223372036854775807).
  { intros s'. destruct (parseDigits s') as [z|] eqn:P.
    - apply parseDigits_iff in P as (n & D & ->). split.
      + intros <-. exists n. split; [exact D|]. split; [lia|reflexivity].
      + intros (n' & D' & _ & ->). apply DigitsOf_sval in D, D'. destruct D as (_ & _ & <-), D' as (_ & _ & <-). reflexivity.
    - split; [lia|]. intros (n & D & _). assert (X : parseDigits s' = Some (Z.of_N n)) by (apply parseDigits_iff; eauto).
      congruence. }
  assert (Sign : forall c r n, DigitsOf (String c r) n -> c <> "-"%char /\ c <> "+"%char).
  { intros c r n D. apply digits_not_sign in D as [A B]. split; intros ->; [vm_compute in A|vm_compute in B]; discriminate. }
  unfold parseInt64. destruct s as [|c r].
  { rewrite Plain. split.
    - intros (n & D & H). exists (Z.of_N n). split; [constructor; exact D|exact H].
    - intros (z & D & H). apply decimal_cases in D. destruct D as [(n & D & ->)|[(d & n & E & _)|(d & n & E & _)]]; try discriminate. eauto. }
  destruct (Ascii.eqb_spec c "-") as [->|N1].
  { split.
    - destruct (parseDigits r) as [z|] eqn:P; [|lia]. apply parseDigits_iff in P as (n & _ & ->). lia.
    - intros (z & D & Hz & _). apply decimal_cases in D. destruct D as [(n & D & ->)|[(d & n & E & D & ->)|(d & n & E & _)]]; try discriminate.
      + apply Sign in D as [D _]. congruence.
      + lia. }
  destruct (Ascii.eqb_spec c "+") as [->|N2].
  { rewrite Plain. split.
    - intros (n & D & H). exists (Z.of_N n). split; [apply (DecPlus r n D)|exact H].
    - intros (z & D & H). apply decimal_cases in D. destruct D as [(n & D & ->)|[(d & n & E & _)|(d & n & E & D & ->)]]; try discriminate.
      + apply Sign in D as [_ D]. congruence.
      + cbn in E. injection E as ->. eauto. }
  replace (match String c r with
           | String "-" r0 => _ | String "+" r0 => _
           | _ => match parseDigits (String c r) with Some z => Z.min z 9223372036854775807 | None => 0%Z end end)
    with (match parseDigits (String c r) with Some z => Z.min z 9223372036854775807 | None => 0%Z end).
  - rewrite Plain. split.
    + intros (n & D & H). exists (Z.of_N n). split; [constructor; exact D|exact H].
    + intros (z & D & H). apply decimal_cases in D. destruct D as [(n & D & ->)|[(d & n & E & _)|(d & n & E & _)]].
      * eauto.
      * cbn in E. congruence.
      * cbn in E. congruence.
  - destruct c as [[] [] [] [] [] [] [] []]; try reflexivity; exfalso; first [apply N1; reflexivity|apply N2; reflexivity].
Qed.

Lemma space_iff c : is_space_byte c = true <-> In (N_of_byte c) [9; 10; 11; 12; 13; 32]%N.
Proof. destruct c as [[] [] [] [] [] [] [] []]; vm_compute; intuition discriminate. Qed.

Lemma Spaces_forall a : Forall (fun c => is_space_byte c = true) (list_ascii_of_string a) <-> Spaces a.
Proof. unfold Spaces. split; intros H; (eapply Forall_impl; [|exact H]); intros c; apply space_iff. Qed.

Lemma trim_left_spaces a s : Spaces a -> (match s with EmptyString => True | String c _ => is_space_byte c = false end) ->
  trim_left is_space_byte (a ++ s) = s.
Proof.
  intros Ha Hs. apply Spaces_forall in Ha. induction a as [|c a IH]; cbn in *.
  - destruct s; [reflexivity|]. cbn. now rewrite Hs.
  - inversion Ha as [|? ? H1 H2]; subst. rewrite H1. auto.
Qed.

Lemma trim_right_all b : Spaces b -> trim_right is_space_byte b = EmptyString.
Proof.
  intros Hb. apply Spaces_forall in Hb. induction b as [|c b IH]; [reflexivity|]. inversion Hb as [|? ? H1 H2]; subst.
  cbn. rewrite (IH H2), H1. reflexivity.
Qed.

Lemma trim_right_spaces s b : Spaces b -> sforall (fun c => negb (is_space_byte c)) s = true ->
  trim_right is_space_byte (s ++ b) = s.
Proof.
  intros Hb. induction s as [|c s IH]; cbn; intros H.
  - now apply trim_right_all.
  - apply andb_true_iff in H as [H1 H2]. rewrite (IH H2). destruct s; [|reflexivity]. destruct (is_space_byte c); [discriminate|reflexivity].
Qed.

Lemma digits_no_space s n : DigitsOf s n -> sforall (fun c => negb (is_space_byte c)) s = true.
Proof.
  intros D. apply DigitsOf_sval in D as (A & _). unfold allDigits in A. induction s as [|c s IH]; [reflexivity|].
  cbn in *. apply andb_true_iff in A as [A1 A2]. rewrite (IH A2), andb_true_r.
  destruct c as [[] [] [] [] [] [] [] []]; vm_compute in A1 |- *; congruence.
Qed.

Lemma decimal_no_space s z : Decimal s z -> sforall (fun c => negb (is_space_byte c)) s = true /\ s <> EmptyString.
Proof.
  intros H. apply decimal_cases in H. destruct H as [(n & D & _)|[(d & n & -> & D & _)|(d & n & -> & D & _)]].
  - split; [eapply digits_no_space; exact D|]. apply DigitsOf_sval in D. tauto.
  - split; [|discriminate]. cbn. eapply digits_no_space; exact D.
  - split; [|discriminate]. cbn. eapply digits_no_space; exact D.
Qed.

Lemma trim_space_split s : exists a b, Spaces a /\ Spaces b /\ s = (a ++ trim_space s ++ b)%string.
Proof.
  unfold trim_space. destruct (trim_left_split is_space_byte s) as (a & Ha & Ea).
  destruct (trim_right_split is_space_byte (trim_left is_space_byte s)) as (b & Hb & Eb).
  exists a, b. split; [now apply Spaces_forall|]. split; [now apply Spaces_forall|]. rewrite <- Eb. exact Ea.
Qed.

Lemma stamp_open fs ts : openCache fs = (true, ts) <-> exists text, assoc timestampFile fs = Some text /\ Stamp text ts.
Proof.
  unfold openCache. destruct (assoc timestampFile fs) as [text|].
  2: { split; [discriminate|]. intros (t & H & _). discriminate. }
  destruct (String.eqb_spec text "") as [->|Ne].
  { split; [discriminate|]. intros (t & [= <-] & S). exfalso. remember "" as t eqn:Et. destruct S as [a s b z _ _ D _].
    apply decimal_no_space in D as [_ D]. destruct a; [|discriminate]. destruct s; [congruence|discriminate]. }
  cbv zeta. split.
  - intros [= H1 H2]. apply Z.ltb_lt in H1. exists text. split; [reflexivity|].
    rewrite H2 in H1. apply (parseInt64_iff _ _ H1) in H2 as (z & D & Hz & ->).
    destruct (trim_space_split text) as (a & b & Ha & Hb & Et). rewrite Et. constructor; assumption.
  - intros (t & [= <-] & S). destruct S as [a s b z Ha Hb D Hz].
    assert (E : trim_space (a ++ s ++ b) = s).
    { destruct (decimal_no_space s z D) as [N1 N2]. unfold trim_space. rewrite trim_left_spaces; [now apply trim_right_spaces|exact Ha|].
      destruct s as [|c s]; [congruence|]. cbn in *. apply andb_true_iff in N1 as [N1 _]. now apply negb_true_iff. }
    rewrite E. assert (P : parseInt64 s = Z.min z 9223372036854775807) by (apply parseInt64_iff; [lia|eauto]).
    rewrite P. f_equal. apply Z.ltb_lt. lia.
Qed.

Lemma stamped_open target d ts : Stamped target d ts <-> openCache (dirOf d (cacheDir target)) = (true, ts).
Proof. symmetry. apply stamp_open. Qed.

Lemma available_open target d : Available target d <-> fst (openCache (dirOf d (cacheDir target))) = true.
Proof.
  unfold Available. split.
  - intros (ts & H). apply stamped_open in H. now rewrite H.
  - intros H. destruct (openCache (dirOf d (cacheDir target))) as [av ts] eqn:E. cbn in H. subst av. exists ts. now apply stamped_open.
Qed.

Lemma isTemplate_iff f : isTemplate f = true <-> Template f.
Proof. apply has_suffix_iff. Qed.

Lemma Template_not_special f : Template f -> f <> timestampFile /\ f <> infoFile.
Proof.
  intro H. apply isTemplate_iff in H. split; intros ->; vm_compute in H; discriminate.
Qed.

(** ** effects of write operations *)

Definition opFile (op : fsop) : string := match op with Create f => f | Append f _ => f end.

Lemma applyOp_other fs op f : opFile op <> f -> assoc f (applyOp fs op) = assoc f fs.
Proof.
  intro H. destruct op as [g|g c]; cbn in *; rewrite assoc_mapSet; destruct (String.eqb_spec f g); congruence.
Qed.

Lemma applyOps_other ops f : (forall op, In op ops -> opFile op <> f) -> forall fs, assoc f (applyOps ops fs) = assoc f fs.
Proof.
  induction ops as [|op ops IH]; intros H fs; [reflexivity|]. unfold applyOps in *. cbn [fold_left].
  rewrite IH by (intros; apply H; now right). apply applyOp_other, H. now left.
Qed.

Lemma applyOps_app a b fs : applyOps (a ++ b) fs = applyOps b (applyOps a fs).
Proof. unfold applyOps. apply fold_left_app. Qed.

Lemma appends f l : forall fs s, assoc f fs = Some s ->
  assoc f (applyOps (map (Append f) l) fs) = Some (s ++ string_of_list_ascii l)%string.
Proof.
  induction l as [|c l IH]; intros fs s H; [cbn; now rewrite sapp_nil_r|]. cbn [map]. unfold applyOps in *. cbn [fold_left applyOp].
  rewrite (IH _ (s ++ String c "")%string).
  - rewrite sapp_assoc. reflexivity.
  - rewrite H, assoc_mapSet, String.eqb_refl. reflexivity.
Qed.

Lemma writeFile_written f data fs : assoc f (applyOps (writeFile f data) fs) = Some data.
Proof.
  unfold writeFile. unfold applyOps. cbn [fold_left]. fold (applyOps (map (Append f) (list_ascii_of_string data)) (applyOp fs (Create f))).
  rewrite (appends f _ _ ""); [cbn [append]; now rewrite string_of_list_ascii_of_string|].
  cbn. now rewrite assoc_mapSet, String.eqb_refl.
Qed.

Lemma writeFile_file f data op : In op (writeFile f data) -> opFile op = f.
Proof. intros [<-|H]; [reflexivity|]. apply in_map_iff in H as (c & <- & _). reflexivity. Qed.

Definition writeAll (l : files) : list fsop := flat_map (fun p => writeFile (fst p) (snd p)) l.

Lemma writeAll_other l f : ~ In f (map fst l) -> forall op, In op (writeAll l) -> opFile op <> f.
Proof.
  intros H op Hop E. apply in_flat_map in Hop as (p & Hp & Hop). apply writeFile_file in Hop. apply H.
  rewrite <- E, Hop. now apply in_map.
Qed.

Lemma writeAll_written l f data : NoDup (map fst l) -> In (f, data) l -> forall fs, assoc f (applyOps (writeAll l) fs) = Some data.
Proof.
  induction l as [|[g x] l IH]; [intros _ []|]. intros Hnd [E|Hin] fs; cbn [map fst] in Hnd; inversion Hnd as [|? ? N1 N2]; subst;
    change (writeAll ((g, x) :: l)) with (writeFile g x ++ writeAll l); rewrite applyOps_app.
  - injection E as -> ->. rewrite applyOps_other by now apply writeAll_other. apply writeFile_written.
  - auto.
Qed.

Lemma assoc_filter_templates fs f : Template f -> assoc f (templatesOf fs) = assoc f fs.
Proof.
  intro H. apply isTemplate_iff in H. unfold templatesOf. induction fs as [|[g x] fs IH]; [reflexivity|].
  cbn [filter fst]. destruct (isTemplate g) eqn:E; cbn [assoc]; rewrite IH; [reflexivity|].
  destruct (String.eqb_spec f g); [congruence|reflexivity].
Qed.

Lemma assoc_NoDup_In {A} (l : list (string * A)) k v : NoDup (map fst l) -> (assoc k l = Some v <-> In (k, v) l).
Proof.
  induction l as [|[g x] l IH]; cbn [map fst assoc]; intro H; [split; [discriminate|contradiction]|].
  inversion H as [|? ? N1 N2]; subst. destruct (String.eqb_spec k g) as [->|N].
  - split; [intro E; injection E as ->; now left|]. intros [E|E]; [congruence|]. exfalso. apply N1. now apply (in_map fst) in E.
  - rewrite IH by assumption. split; [now right|]. intros [E|E]; [congruence|assumption].
Qed.

Lemma filter_NoDup_fst {A} (p : string * A -> bool) l : NoDup (map fst l) -> NoDup (map fst (filter p l)).
Proof.
  induction l as [|x l IH]; cbn; intro H; [constructor|]. inversion H as [|? ? N1 N2]; subst.
  destruct (p x); cbn; [|auto]. constructor; [|auto]. intro K. apply N1. apply in_map_iff in K as (y & E & Hy).
  apply filter_In in Hy as [Hy _]. rewrite <- E. now apply in_map.
Qed.

(** ** crash points *)

Definition beforeStamp (target : string) (remote : files) : list fsop :=
  writeAll (templatesOf remote) ++ writeFile infoFile (trim_space target).

Lemma cacheOps_eq target remote now : cacheOps target remote now = beforeStamp target remote ++ writeFile timestampFile (decimal now).
Proof. unfold cacheOps, beforeStamp, writeAll. now rewrite app_assoc. Qed.

Lemma template_names remote f : In f (map fst (templatesOf remote)) -> Template f.
Proof.
  intro H. apply in_map_iff in H as (p & <- & Hp). unfold templatesOf in Hp. apply filter_In in Hp as [_ Hp]. now apply isTemplate_iff.
Qed.

Lemma beforeStamp_files target remote op : In op (beforeStamp target remote) -> opFile op <> timestampFile.
Proof.
  intro H. unfold beforeStamp in H. apply in_app_or in H as [H|H].
  - apply writeAll_other with (templatesOf remote); [|assumption]. intro K. apply template_names, Template_not_special in K. tauto.
  - apply writeFile_file in H. rewrite H. discriminate.
Qed.

Lemma cacheOps_template target remote now op f : In op (cacheOps target remote now) -> opFile op = f -> Template f ->
  In f (map fst (templatesOf remote)).
Proof.
  intros H E T. destruct (in_dec string_dec f (map fst (templatesOf remote))) as [K|K]; [assumption|exfalso].
  destruct (Template_not_special f T) as [T1 T2].
  rewrite cacheOps_eq in H. unfold beforeStamp in H. apply in_app_or in H as [H|H]; [apply in_app_or in H as [H|H]|].
  - exact (writeAll_other _ _ K _ H E).
  - apply writeFile_file in H. congruence.
  - apply writeFile_file in H. congruence.
Qed.

Lemma stamp_prefix_templates target remote now k f data fs :
  NoDup (map fst remote) -> length (beforeStamp target remote) <= k -> Template f -> In (f, data) remote ->
  assoc f (applyOps (firstn k (cacheOps target remote now)) fs) = Some data.
Proof.
  intros Hnd Hk T Hin. rewrite cacheOps_eq, firstn_app, firstn_all2 by assumption. rewrite applyOps_app.
  destruct (Template_not_special f T) as [T1 T2].
  rewrite applyOps_other.
  2:{ intros op Hop E.
      assert (K : In op (writeFile timestampFile (decimal now))) by (rewrite <- (firstn_skipn (k - length (beforeStamp target remote)) (writeFile _ _)); apply in_or_app; now left).
      apply writeFile_file in K. congruence. }
  unfold beforeStamp. rewrite applyOps_app, applyOps_other.
  2:{ intros op Hop E. apply writeFile_file in Hop. congruence. }
  apply writeAll_written.
  - unfold templatesOf. now apply filter_NoDup_fst.
  - unfold templatesOf. apply filter_In. split; [assumption|]. now apply isTemplate_iff.
Qed.

Lemma openCache_ext fs fs' : assoc timestampFile fs = assoc timestampFile fs' -> openCache fs = openCache fs'.
Proof. intro H. unfold openCache. now rewrite H. Qed.

Lemma prefix_before_stamp target remote now k fs : k <= length (beforeStamp target remote) ->
  openCache (applyOps (firstn k (cacheOps target remote now)) fs) = openCache fs.
Proof.
  intro H. apply openCache_ext. apply applyOps_other. intros op Hop. rewrite cacheOps_eq, firstn_app in Hop.
  replace (k - length (beforeStamp target remote)) with 0 in Hop by lia. cbn [firstn] in Hop. rewrite app_nil_r in Hop.
  apply (beforeStamp_files target remote). rewrite <- (firstn_skipn k (beforeStamp target remote)). apply in_or_app. now left.
Qed.

Lemma prefix_other target remote now k fs f : Template f -> assoc f remote = None ->
  assoc f (applyOps (firstn k (cacheOps target remote now)) fs) = assoc f fs.
Proof.
  intros T H. apply applyOps_other. intros op Hop E.
  assert (K : In op (cacheOps target remote now)) by (rewrite <- (firstn_skipn k (cacheOps target remote now)); apply in_or_app; now left).
  apply (cacheOps_template target remote now op f K E) in T.
  apply in_map_iff in T as ([g x] & E2 & T). cbn in E2. subst g. unfold templatesOf in T. apply filter_In in T as [T _].
  clear -H T. induction remote as [|[g y] r IH]; [contradiction|]. cbn [assoc] in H. destruct (String.eqb_spec f g); [discriminate|].
  destruct T as [T|T]; [congruence|auto].
Qed.

Lemma assoc_none_or {A} k (l : list (string * A)) : assoc k l = None \/ exists v, assoc k l = Some v.
Proof. destruct (assoc k l); eauto. Qed.

(** crash points of a population: if the cache is usable afterwards, it is complete *)
Lemma crash_complete target remote now k fs : NoDup (map fst remote) ->
  fst (openCache fs) = false -> fst (openCache (crashed target remote now k fs)) = true ->
  forall f, Template f ->
    match assoc f remote with
    | Some data => assoc f (crashed target remote now k fs) = Some data
    | None => assoc f (crashed target remote now k fs) = assoc f fs
    end.
Proof.
  intros Hnd Hun Hav f T. unfold crashed in *. destruct (templatesOf remote) eqn:Et; [congruence|]. clear Et.
  destruct (Nat.le_gt_cases (length (beforeStamp target remote)) k) as [Hk|Hk].
  - destruct (assoc_none_or f remote) as [E|(data & E)]; rewrite E.
    + now apply prefix_other.
    + apply stamp_prefix_templates; try assumption. now apply assoc_NoDup_In.
  - rewrite prefix_before_stamp in Hav by lia. congruence.
Qed.

(** ** histories *)

Definition Inv target R (d : disk) : Prop :=
  (forall f, Template f -> assoc f R = None -> assoc f (dirOf d (cacheDir target)) = None) /\
  (Available target d -> SameTemplates (dirOf d (cacheDir target)) R).

Lemma dirOf_mapSet d dir fs : dirOf (mapSet dir fs d) dir = fs.
Proof. unfold dirOf. now rewrite assoc_mapSet, String.eqb_refl. Qed.

Lemma crashed_extra target R now k fs f : Template f -> assoc f R = None -> assoc f (crashed target R now k fs) = assoc f fs.
Proof. intros T H. unfold crashed. destruct (templatesOf R); [reflexivity|]. now apply prefix_other. Qed.

Lemma cacheTemplates_crashed target R now stop fs : exists k, fst (cacheTemplates target R now stop fs) = crashed target R now k fs /\
  (stop = None -> length (cacheOps target R now) <= k).
Proof.
  unfold cacheTemplates, crashed. destruct (templatesOf R).
  - exists (length (cacheOps target R now)). split; [reflexivity|lia].
  - destruct stop as [k|].
    + destruct (Nat.ltb_spec k (length (cacheOps target R now))).
      * exists k. split; [reflexivity|discriminate].
      * exists (length (cacheOps target R now)). split; [cbn [fst]; f_equal; symmetry; apply firstn_all|discriminate].
    + exists (length (cacheOps target R now)). split; [cbn [fst]; f_equal; symmetry; apply firstn_all|lia].
Qed.

Lemma crash_Inv target R d now k : NoDup (map fst R) -> Inv target R d ->
  ~ Available target d \/ (length (cacheOps target R now) <= k /\ templatesOf R <> []) \/ templatesOf R = [] ->
  Inv target R (mapSet (cacheDir target) (crashed target R now k (dirOf d (cacheDir target))) d).
Proof.
  intros Hnd [I1 I2] Hc. unfold Inv. rewrite available_open in *. rewrite dirOf_mapSet. split.
  - intros f T H. rewrite crashed_extra by assumption. auto.
  - intros Hav f T. destruct Hc as [Hc|[[Hk Hne]|He]].
    + assert (Hun : fst (openCache (dirOf d (cacheDir target))) = false) by (destruct (fst (openCache (dirOf d (cacheDir target)))); [exfalso; auto|reflexivity]).
      pose proof (crash_complete target R now k _ Hnd Hun Hav f T) as K.
      destruct (assoc_none_or f R) as [E|(data & E)]; rewrite E in K |- *; [|assumption]. rewrite K. auto.
    + destruct (assoc_none_or f R) as [E|(data & E)]; rewrite E.
      * rewrite crashed_extra by assumption. auto.
      * unfold crashed. destruct (templatesOf R) eqn:Et; [contradiction|]. apply stamp_prefix_templates; try assumption.
        -- rewrite cacheOps_eq, app_length in Hk. lia.
        -- now apply assoc_NoDup_In.
    + unfold crashed in *. rewrite He in *. apply I2; assumption.
Qed.

(** the parts of loadRemote *)
Lemma loadRemote_cases target refresh now fetch stop d r d' :
  loadRemote target refresh now fetch stop d = (r, d') ->
  let fs := dirOf d (cacheDir target) in
  let needed := negb (fst (openCache fs)) || refresh || (ttl <? Z.of_N now - snd (openCache fs))%Z in
  match needed, fetch with
  | true, None => d' = d /\
      if fst (openCache fs)
      then r = match templatesOf fs with [] => Err "pattern matches no files"
               | l => Ok (Loaded l (if String.eqb target "" then trim_space (match assoc infoFile fs with Some s => s | None => "" end) else target)
                          (Z.of_N now - snd (openCache fs)) (Some "fetch error") true) end
      else r = Err "failed to fetch from remote git"
  | true, Some remote =>
      d' = mapSet (cacheDir target) (fst (cacheTemplates target remote now stop fs)) d /\
      match templatesOf remote with
      | [] => r = Err "pattern matches no files"
      | l => exists v, r = Ok (Loaded l v 0 (snd (cacheTemplates target remote now stop fs)) true) /\ (target <> "" -> v = target)
      end
  | false, _ => d' = d /\
      r = match templatesOf fs with [] => Err "pattern matches no files"
          | l => Ok (Loaded l (trim_space (match assoc infoFile fs with Some s => s | None => "" end))
                       (Z.of_N now - snd (openCache fs)) None false) end
  end.
Proof.
  intro H. cbv zeta. unfold loadRemote in H. cbv zeta in H.
  destruct (openCache (dirOf d (cacheDir target))) as [av ts] eqn:Eo. cbn [fst snd].
  destruct (negb av || refresh || (ttl <? Z.of_N now - ts)%Z) eqn:En.
  - destruct fetch as [remote|].
    + destruct (cacheTemplates target remote now stop (dirOf d (cacheDir target))) as [fs' e]. injection H as <- <-. cbn [fst snd]. split; [reflexivity|].
      destruct (templatesOf remote); [reflexivity|]. eexists. split; [reflexivity|]. intro N. apply String.eqb_neq in N. rewrite N, andb_false_r. reflexivity.
    + destruct av; injection H as <- <-; (split; [reflexivity|]).
      * destruct (templatesOf _); reflexivity.
      * reflexivity.
  - injection H as <- <-. split; [reflexivity|]. destruct av; [|discriminate]. destruct (templatesOf _); reflexivity.
Qed.

Lemma load_Inv target R refresh now fetch stop d r d' : NoDup (map fst R) -> Inv target R d ->
  fetch = None \/ fetch = Some R -> stop = None \/ ~ Available target d ->
  loadRemote target refresh now fetch stop d = (r, d') ->
  Inv target R d' /\ forall l, r = Ok l -> SameTemplates (l_files l) R.
Proof.
  intros Hnd HI Hf Hs H. apply loadRemote_cases in H. cbv zeta in H.
  destruct (negb _ || refresh || _) eqn:En in H.
  - destruct Hf as [-> | ->].
    + destruct H as [-> H]. split; [assumption|]. intros l ->. destruct HI as [I1 I2].
      destruct (fst (openCache (dirOf d (cacheDir target)))) eqn:Ea; [|discriminate].
      destruct (templatesOf (dirOf d (cacheDir target))) eqn:Et; [discriminate|]. rewrite <- Et in H. injection H as ->. cbn [l_files].
      intros g T. rewrite assoc_filter_templates by assumption. apply I2; [|assumption]. now apply available_open.
    + destruct H as [-> H]. split.
      * destruct (cacheTemplates_crashed target R now stop (dirOf d (cacheDir target))) as (k & E & Hk). rewrite E.
        apply crash_Inv; try assumption. destruct Hs as [Hs|Hs]; [|now left]. right.
        destruct (templatesOf R) eqn:Et; [now right|left]. split; [auto|discriminate].
      * intros l ->. destruct (templatesOf R) eqn:Et; [discriminate|]. rewrite <- Et in H. destruct H as (v & H & _). injection H as ->.
        cbn [l_files]. intros g T. now apply assoc_filter_templates.
  - destruct H as [-> H]. split; [assumption|]. intros l ->. destruct HI as [I1 I2].
    apply orb_false_iff in En as [En _]. apply orb_false_iff in En as [En _]. apply negb_false_iff in En.
    destruct (templatesOf (dirOf d (cacheDir target))) eqn:Et; [discriminate|]. rewrite <- Et in H. injection H as ->. cbn [l_files].
    intros g T. rewrite assoc_filter_templates by assumption. apply I2; [|assumption]. now apply available_open.
Qed.

Lemma History_Inv target R d : NoDup (map fst R) -> History target R d -> Inv target R d.
Proof.
  intros Hnd H. induction H as [|d refresh now fetch stop r d' H IH Hf Hs E|d now k H IH Hun|d d' H IH E].
  - split; [reflexivity|]. intro H. apply available_open in H. vm_compute in H. discriminate.
  - eapply load_Inv; eassumption.
  - apply crash_Inv; auto.
  - unfold Inv in *. rewrite available_open in *. rewrite E. exact IH.
Qed.

(** ** timestamps *)

Lemma uint_of_decimal n : NilZero.uint_of_string (decimal n) = Some (N.to_uint n).
Proof.
  unfold decimal. apply NilZero.usu. intro H. pose proof (f_equal N.of_uint H) as K. rewrite DecimalN.Unsigned.of_to in K. cbn in K. subst n. discriminate.
Qed.

Lemma parse_decimal n : parseDigits (decimal n) = Some (Z.of_N n).
Proof. unfold parseDigits. rewrite uint_of_decimal. now rewrite DecimalN.Unsigned.of_to. Qed.

Lemma decimal_digits n : sforall is_digit_byte (decimal n) = true /\ decimal n <> "".
Proof.
  unfold decimal. split.
  - assert (H : forall u, sforall is_digit_byte (NilEmpty.string_of_uint u) = true) by (induction u; cbn; auto).
    unfold NilZero.string_of_uint. destruct (N.to_uint n); [reflexivity|..]; apply H.
  - unfold NilZero.string_of_uint. destruct (N.to_uint n); discriminate.
Qed.

Lemma digit_cases c : is_digit_byte c = true -> In c ["0";"1";"2";"3";"4";"5";"6";"7";"8";"9"]%char.
Proof. destruct c as [[] [] [] [] [] [] [] []]; vm_compute; intuition discriminate. Qed.

Lemma trim_space_digits s : sforall is_digit_byte s = true -> trim_space s = s.
Proof.
  intro H. unfold trim_space.
  assert (L : forall s, sforall is_digit_byte s = true -> trim_left is_space_byte s = s).
  { intros [|c r] K; [reflexivity|]. cbn in K. apply andb_true_iff in K as [K _]. apply digit_cases in K. cbn.
    cbn in K. repeat (destruct K as [<-|K]; [reflexivity|]). contradiction. }
  rewrite (L s H).
  assert (Rr : forall s, sforall is_digit_byte s = true -> trim_right is_space_byte s = s).
  { clear. induction s as [|c r IH]; intro K; [reflexivity|]. cbn in K. apply andb_true_iff in K as [K1 K2].
    unfold trim_right in *. cbn. rewrite (IH K2). destruct r; [|reflexivity].
    apply digit_cases in K1. cbn in K1. repeat (destruct K1 as [<-|K1]; [reflexivity|]). contradiction. }
  now apply Rr.
Qed.

Lemma parseInt64_decimal n : (0 < n < 9223372036854775808)%N -> parseInt64 (decimal n) = Z.of_N n.
Proof.
  intro H. destruct (decimal_digits n) as [D1 D2]. pose proof (parse_decimal n) as P. unfold parseInt64.
  destruct (decimal n) as [|c r]; [contradiction|]. cbn in D1. apply andb_true_iff in D1 as [D1 _]. apply digit_cases in D1.
  cbn in D1. repeat (destruct D1 as [<-|D1]; [rewrite P; lia|]). contradiction.
Qed.

Lemma openCache_stamp fs now : (0 < now < 9223372036854775808)%N -> assoc timestampFile fs = Some (decimal now) ->
  openCache fs = (true, Z.of_N now).
Proof.
  intros H E. unfold openCache. rewrite E. destruct (decimal_digits now) as [D1 D2].
  destruct (String.eqb_spec (decimal now) ""); [contradiction|]. rewrite trim_space_digits, parseInt64_decimal by assumption.
  destruct (Z.ltb_spec 0 (Z.of_N now)); [reflexivity|lia].
Qed.

Lemma complete_stamp target R now fs : assoc timestampFile (applyOps (cacheOps target R now) fs) = Some (decimal now) /\
  assoc infoFile (applyOps (cacheOps target R now) fs) = Some (trim_space target).
Proof.
  rewrite cacheOps_eq. unfold beforeStamp. rewrite !applyOps_app. split.
  - apply writeFile_written.
  - rewrite applyOps_other; [apply writeFile_written|]. intros op H. apply writeFile_file in H. rewrite H. discriminate.
Qed.

(** ** names *)

Lemma decimal_inj n m : decimal n = decimal m -> n = m.
Proof.
  intro H. pose proof (parse_decimal n) as P. rewrite H, parse_decimal in P. injection P as P. lia.
Qed.

Lemma digits_no_dash s : sforall is_digit_byte s = true -> forall a b t, (s ++ String "-" a)%string = (t ++ String "-" b)%string ->
  sforall is_digit_byte t = true -> s = t /\ a = b.
Proof.
  induction s as [|c s IH]; intros H a b [|c' t] E Ht.
  - cbn in E. injection E as ->. auto.
  - cbn in E, Ht. injection E as <- E. discriminate.
  - cbn in E, H. injection E as -> E. discriminate.
  - cbn in E, H, Ht. injection E as -> E. apply andb_true_iff in H as [_ H]. apply andb_true_iff in Ht as [_ Ht].
    destruct (IH H a b t E Ht) as [-> ->]. auto.
Qed.

Lemma cacheDir_eq t t' : cacheDir t = cacheDir t' <->
  fnv32a t = fnv32a t' /\ last (split_byte "/" t) "" = last (split_byte "/" t') "".
Proof.
  unfold cacheDir. split.
  - intro H. apply digits_no_dash in H; try apply decimal_digits. destruct H as [H1 H2]. split; [now apply decimal_inj|assumption].
  - intros [-> ->]. reflexivity.
Qed.
