From Verif Require Import Base BaseProofs Schema Schema ValidateProofs ValidateIdem PropsValidateAux Filter FilterSpec FilterProofs Cli CliSpec.

(** ** maps *)

Lemma assoc_mapSet {A} k k' (v : A) m : assoc k (mapSet k' v m) = if String.eqb k k' then Some v else assoc k m.
Proof.
  induction m as [|[k0 w] m IH]; cbn.
  - destruct (String.eqb k k'); reflexivity.
  - destruct (String.eqb_spec k' k0) as [->|N]; cbn.
    + destruct (String.eqb_spec k k0); reflexivity.
    + rewrite IH. destruct (String.eqb_spec k k0) as [->|N']; [|reflexivity].
      destruct (String.eqb_spec k0 k'); [congruence|reflexivity].
Qed.

Lemma assoc_In_fst {A} k (m : list (string * A)) : In k (map fst m) <-> exists v, assoc k m = Some v.
Proof.
  induction m as [|[k0 w] m IH]; cbn.
  - split; [contradiction|]. intros (v & H). discriminate.
  - destruct (String.eqb_spec k k0) as [->|N].
    + split; [eauto|]. now left.
    + rewrite <- IH. split; [intros [E|E]; [congruence|assumption]|now right].
Qed.

(** ** cutting at a byte *)

Lemma contains_index c s : contains_byte c s = true -> exists i, index_byte c s = Some i.
Proof.
  intro H. destruct (index_byte c s) eqn:E; [eauto|]. apply index_byte_none in E. congruence.
Qed.

Lemma cut_found c a b : contains_byte c a = false -> cut c (a ++ String c b) = (a, b, true).
Proof.
  intro H. unfold cut. rewrite (index_byte_app_not c a (String c b) H). cbn [index_byte]. rewrite Ascii.eqb_refl.
  rewrite Nat.add_0_r, take_app. replace (S (String.length a)) with (String.length (a ++ String c "")).
  - replace (a ++ String c b)%string with ((a ++ String c "") ++ b)%string by (rewrite sapp_assoc; reflexivity).
    now rewrite drop_app.
  - rewrite slength_app. cbn. lia.
Qed.

Lemma cut_none c a : contains_byte c a = false -> cut c a = (a, "", false).
Proof. intro H. unfold cut. apply index_byte_none in H. now rewrite H. Qed.

Lemma cut_inv c s a b : cut c s = (a, b, true) -> s = (a ++ String c b)%string /\ contains_byte c a = false.
Proof.
  unfold cut. destruct (index_byte c s) as [i|] eqn:E; [|discriminate]. intro H. injection H as <- <-.
  exact (index_byte_some c s i E).
Qed.

Lemma cut_inv_none c s a b : cut c s = (a, b, false) -> a = s /\ b = "" /\ contains_byte c s = false.
Proof.
  unfold cut. destruct (index_byte c s) as [i|] eqn:E; [discriminate|]. intro H. injection H as <- <-.
  apply index_byte_none in E. auto.
Qed.

(** ** one argument *)

Definition argSplit (arg : string) : option (string * string) :=
  let (name0, value) := match index_byte "="%char arg with
                        | Some i => (take i arg, drop (S i) arg)
                        | None => (arg, "")
                        end in
  if negb (has_prefix "-" name0) then None
  else let name := trim_dashes name0 in
       if String.eqb name "" then None else Some (name, value).

Lemma argSplit_cut arg : argSplit arg =
  match cut "=" arg with
  | (name0, value, _) =>
     if negb (has_prefix "-" name0) then None
     else let name := trim_dashes name0 in if String.eqb name "" then None else Some (name, value)
  end.
Proof. unfold argSplit, cut. destruct (index_byte "=" arg); reflexivity. Qed.

Lemma dashes_trim d name : Forall (fun c => c = "-"%char) (list_ascii_of_string d) ->
  has_prefix "-" name = false -> trim_dashes (d ++ name) = name.
Proof.
  induction d as [|c d IH]; cbn [append list_ascii_of_string]; intros H Hn.
  - destruct name as [|c r]; [reflexivity|]. cbn in Hn. unfold trim_dashes. cbn [trim_left]. unfold is_dash.
    destruct (Ascii.eqb_spec c "-"%char) as [->|]; [discriminate|reflexivity].
  - inversion H as [|? ? -> Hd]; subst. unfold trim_dashes. cbn [trim_left]. unfold is_dash at 1. cbn. now apply IH.
Qed.

Lemma dashes_no_eq d : Forall (fun c => c = "-"%char) (list_ascii_of_string d) -> contains_byte "=" d = false.
Proof.
  induction d as [|c d IH]; [reflexivity|]. cbn [list_ascii_of_string]. intro H. inversion H as [|? ? -> Hd]; subst.
  unfold contains_byte in *. cbn. now apply IH.
Qed.

Lemma contains_byte_app c a b : contains_byte c (a ++ b) = contains_byte c a || contains_byte c b.
Proof. apply sexists_app. Qed.

Lemma dashes_prefix d name : d <> "" -> Forall (fun c => c = "-"%char) (list_ascii_of_string d) -> has_prefix "-" (d ++ name) = true.
Proof. destruct d as [|c d]; [contradiction|]. cbn. intros _ H. inversion H; subst. reflexivity. Qed.

Lemma Option_split arg n v : Option arg n v <-> argSplit arg = Some (n, v).
Proof.
  rewrite argSplit_cut. split.
  - intros [d name H1 H2 H3 H4 H5|d name value H1 H2 H3 H4 H5].
    + assert (HE : contains_byte "=" (d ++ name) = false) by (rewrite contains_byte_app, dashes_no_eq, H5; auto).
      rewrite (cut_none _ _ HE), dashes_prefix, dashes_trim by assumption. cbn [negb]. cbv zeta.
      destruct (String.eqb_spec name ""); [contradiction|reflexivity].
    + assert (HE : contains_byte "=" (d ++ name) = false) by (rewrite contains_byte_app, dashes_no_eq, H5; auto).
      replace (d ++ name ++ "=" ++ value)%string with ((d ++ name) ++ String "=" value)%string by (rewrite sapp_assoc; reflexivity).
      rewrite (cut_found _ _ _ HE), dashes_prefix, dashes_trim by assumption. cbn [negb]. cbv zeta.
      destruct (String.eqb_spec name ""); [contradiction|reflexivity].
  - destruct (cut "=" arg) as [[name0 value] found] eqn:E.
    destruct (has_prefix "-" name0) eqn:Hp; [|discriminate]. cbn [negb]. cbv zeta.
    destruct (String.eqb_spec (trim_dashes name0) "") as [|Hne]; [discriminate|]. intro H. injection H as <- <-.
    destruct (trim_left_split is_dash name0) as (d & Hd & Ed). fold (trim_dashes name0) in Ed.
    assert (Hd' : Forall (fun c => c = "-"%char) (list_ascii_of_string d)).
    { eapply Forall_impl; [|exact Hd]. intros c Hc. unfold is_dash in Hc. now apply Ascii.eqb_eq. }
    assert (Hhead : has_prefix "-" (trim_dashes name0) = false).
    { pose proof (trim_left_head is_dash name0) as Hh. fold (trim_dashes name0) in Hh.
      destruct (trim_dashes name0) as [|c r]; [reflexivity|]. unfold is_dash in Hh.
      change (has_prefix "-" (String c r)) with (Ascii.eqb "-" c && true). rewrite Ascii.eqb_sym, Hh. reflexivity. }
    assert (Hdn : d <> "") by (intros ->; cbn in Ed; rewrite Ed in Hp; congruence).
    assert (Hno : contains_byte "=" name0 = false -> contains_byte "=" (trim_dashes name0) = false).
    { intro K. rewrite Ed, contains_byte_app in K. now apply orb_false_iff in K. }
    destruct found.
    + apply cut_inv in E as [-> HE]. rewrite Ed at 1.
      replace ((d ++ trim_dashes name0) ++ String "=" value)%string with (d ++ trim_dashes name0 ++ "=" ++ value)%string
        by (rewrite sapp_assoc; reflexivity). constructor; auto.
    + apply cut_inv_none in E as (-> & -> & HE). rewrite Ed at 1. constructor; auto.
Qed.

Lemma Option_fun arg n v n' v' : Option arg n v -> Option arg n' v' -> n = n' /\ v = v'.
Proof. rewrite !Option_split. intros H H'. rewrite H in H'. injection H' as -> ->. auto. Qed.

(** ** collectCliArgs *)

Definition forFlags (arg : string) : bool :=
  match argSplit arg with
  | Some (n, _) => match assoc n ownFlags with Some _ => true | None => String.eqb n "h" || String.eqb n "help" end
  | None => false
  end.

Definition gives (arg : string) : option (string * string) :=
  match argSplit arg with
  | Some (n, v) => match assoc n ownFlags with
                   | Some _ => None
                   | None => if String.eqb n "h" || String.eqb n "help" then Some ("help", "") else Some (n, v)
                   end
  | None => None
  end.

Definition setOpt (o : option (string * string)) (m : list (string * string)) :=
  match o with Some (k, v) => mapSet k v m | None => m end.

Lemma collectLoop_eq args : forall cli opts,
  collectLoop args cli opts =
    match find (fun a => match argSplit a with None => true | Some _ => false end) args with
    | Some a => Err a
    | None => Ok (cli ++ filter forFlags args, fold_left (fun m a => setOpt (gives a) m) args opts)
    end.
Proof.
  induction args as [|a r IH]; intros cli opts.
  - cbn. now rewrite app_nil_r.
  - assert (Hs : collectLoop (a :: r) cli opts =
       match argSplit a with
       | None => Err a
       | Some (name, value) =>
           match assoc name ownFlags with
           | Some _ => collectLoop r (cli ++ [a]) opts
           | None => if String.eqb name "h" || String.eqb name "help"
                     then collectLoop r (cli ++ [a]) (mapSet "help" "" opts)
                     else collectLoop r cli (mapSet name value opts)
           end
       end).
    { cbn [collectLoop]. unfold argSplit.
      destruct (match index_byte "=" a with Some i => (take i a, drop (S i) a) | None => (a, "") end) as [name0 value].
      destruct (negb (has_prefix "-" name0)); [reflexivity|]. cbv zeta.
      destruct (String.eqb (trim_dashes name0) ""); reflexivity. }
    rewrite Hs. clear Hs. cbn [find filter fold_left].
    assert (Hf : forFlags a = match argSplit a with
      | Some (n, _) => match assoc n ownFlags with Some _ => true | None => String.eqb n "h" || String.eqb n "help" end
      | None => false end) by reflexivity.
    assert (Hg : gives a = match argSplit a with
      | Some (n, v) => match assoc n ownFlags with
                   | Some _ => None
                   | None => if String.eqb n "h" || String.eqb n "help" then Some ("help", "") else Some (n, v)
                   end
      | None => None end) by reflexivity.
    rewrite Hf, Hg. clear Hf Hg. destruct (argSplit a) as [[name value]|]; [|reflexivity].
    destruct (assoc name ownFlags); [rewrite IH; cbn [setOpt]; now rewrite <- app_assoc|].
    destruct (String.eqb name "h" || String.eqb name "help"); rewrite IH; cbn [setOpt]; [now rewrite <- app_assoc|reflexivity].
Qed.

Lemma own_iff n : Own n <-> exists b, assoc n ownFlags = Some b.
Proof.
  rewrite <- assoc_In_fst. unfold Own, stringFlags, booleanFlags, ownFlags. cbn. intuition auto.
Qed.

Lemma string_flag n : In n stringFlags -> In (n, false) ownFlags.
Proof. intro H. cbn in H. repeat (destruct H as [<-|H]; [cbn; tauto|]). contradiction. Qed.
Lemma boolean_flag n : In n booleanFlags -> In (n, true) ownFlags.
Proof. intro H. cbn in H. repeat (destruct H as [<-|H]; [cbn; tauto|]). contradiction. Qed.

Lemma help_iff n : (String.eqb n "h" || String.eqb n "help") = true <-> HelpName n.
Proof. unfold HelpName. rewrite orb_true_iff, !String.eqb_eq. tauto. Qed.

Lemma help_not_own n : HelpName n -> assoc n ownFlags = None.
Proof. intros [->| ->]; reflexivity. Qed.

Lemma forFlags_iff a : forFlags a = true <-> ForFlags a.
Proof.
  unfold forFlags, ForFlags. destruct (argSplit a) as [[n v]|] eqn:E.
  - apply Option_split in E. split.
    + intro H. exists n, v. split; [assumption|]. destruct (assoc n ownFlags) eqn:Ea; [left; apply own_iff; eauto|right; now apply help_iff].
    + intros (n' & v' & H & K). destruct (Option_fun _ _ _ _ _ E H) as [<- <-].
      destruct K as [K|K]; [apply own_iff in K as (b & ->); reflexivity|].
      rewrite (help_not_own n K). now apply help_iff.
  - split; [discriminate|]. intros (n & v & H & _). apply Option_split in H. congruence.
Qed.

Lemma gives_iff a k v : gives a = Some (k, v) <-> ForTemplate a k v.
Proof.
  unfold gives, ForTemplate. destruct (argSplit a) as [[n w]|] eqn:E.
  - apply Option_split in E. destruct (assoc n ownFlags) as [b|] eqn:Ea.
    + split; [discriminate|]. intros [(H & N & _)|(_ & _ & n' & w' & H & K)]; destruct (Option_fun _ _ _ _ _ E H) as [<- <-].
      * exfalso. apply N, own_iff. eauto.
      * apply help_not_own in K. congruence.
    + destruct (String.eqb n "h" || String.eqb n "help") eqn:Eh.
      * apply help_iff in Eh. split.
        -- intro H. injection H as <- <-. right. split; [reflexivity|]. split; [reflexivity|]. eauto.
        -- intros [(H & _ & N)|(-> & -> & _)]; [|reflexivity]. destruct (Option_fun _ _ _ _ _ E H) as [<- <-]. contradiction.
      * assert (Nh : ~ HelpName n) by (intro K; apply help_iff in K; congruence). split.
        -- intro H. injection H as <- <-. left. split; [assumption|]. split; [|assumption]. intro K. apply own_iff in K as (b & K). congruence.
        -- intros [(H & _)|(_ & _ & n' & w' & H & K)]; destruct (Option_fun _ _ _ _ _ E H) as [<- <-]; [reflexivity|contradiction].
  - split; [discriminate|]. intros [(H & _)|(_ & _ & n' & w' & H & K)]; apply Option_split in H; congruence.
Qed.

(** the last element that gives a value wins *)
Lemma fold_last (g : string -> option (string * string)) l : forall m k,
  assoc k (fold_left (fun m a => setOpt (g a) m) l m) =
  match find (fun a => match g a with Some (k', _) => String.eqb k k' | None => false end) (rev l) with
  | Some a => option_map snd (g a)
  | None => assoc k m
  end.
Proof.
  induction l as [|a l IH]; intros m k; [reflexivity|]. cbn [fold_left rev]. rewrite IH.
  assert (F : forall (p : string -> bool) x y, find p (x ++ y) = match find p x with Some z => Some z | None => find p y end).
  { clear. intros p x y. induction x as [|z x IHx]; [reflexivity|]. cbn. destruct (p z); [reflexivity|apply IHx]. }
  rewrite F. destruct (find _ (rev l)); [reflexivity|]. cbn [find].
  destruct (g a) as [[k' v]|] eqn:E; cbn [setOpt]; [|reflexivity]. rewrite assoc_mapSet.
  destruct (String.eqb k k'); [now rewrite E|reflexivity].
Qed.

Lemma find_rev_split {A} (p : A -> bool) l a : find p (rev l) = Some a ->
  exists pre post, l = pre ++ a :: post /\ p a = true /\ forall x, In x post -> p x = false.
Proof.
  induction l as [|b l IH]; [discriminate|]. cbn [rev].
  assert (F : forall x y, find p (x ++ y) = match find p x with Some z => Some z | None => find p y end).
  { clear. intros x y. induction x as [|z x IHx]; [reflexivity|]. cbn. destruct (p z); [reflexivity|apply IHx]. }
  rewrite F. destruct (find p (rev l)) as [z|] eqn:E.
  - intro H. injection H as ->. destruct (IH eq_refl) as (pre & post & -> & H1 & H2). exists (b :: pre), post. auto.
  - cbn. destruct (p b) eqn:Eb; [|discriminate]. intro H. injection H as ->. exists [], l. repeat split; [assumption|].
    intros x Hx. apply (find_none p (rev l) E). now apply in_rev in Hx.
Qed.

Lemma LastGiven_fold (g : string -> option (string * string)) G l m k v :
  (forall a k v, g a = Some (k, v) <-> G a k v) ->
  assoc k m = None ->
  (assoc k (fold_left (fun m a => setOpt (g a) m) l m) = Some v <-> LastGiven G l k v).
Proof.
  intros HG Hm. rewrite fold_last, Hm. set (p := fun a => match g a with Some (k', _) => String.eqb k k' | None => false end).
  assert (Hp : forall a, p a = true <-> exists w, G a k w).
  { intro a. unfold p. destruct (g a) as [[k' w]|] eqn:E.
    - rewrite String.eqb_eq. split; [intros ->; exists w; now apply HG|]. intros (w' & K). apply HG in K. congruence.
    - split; [discriminate|]. intros (w & K). apply HG in K. congruence. }
  split.
  - destruct (find p (rev l)) as [a|] eqn:E; [|discriminate]. intro H.
    apply find_rev_split in E as (pre & post & -> & H1 & H2). exists pre, a, post. split; [reflexivity|].
    split.
    + destruct (g a) as [[k' w]|] eqn:Eg; [|discriminate]. injection H as ->. apply HG. unfold p in H1. rewrite Eg in H1.
      apply String.eqb_eq in H1. subst k'. assumption.
    + intros x w Hx K. assert (p x = true) by (apply Hp; eauto). rewrite (H2 x Hx) in H0. discriminate.
  - intros (pre & a & post & -> & Ha & Hpost).
    destruct (find p (rev (pre ++ a :: post))) as [b|] eqn:E.
    + apply find_rev_split in E as (pre' & post' & El & H1 & H2).
      assert (Hb : p a = true) by (apply Hp; eauto).
      assert (Hpp : forall x, In x post -> p x = false).
      { intros x Hx. destruct (p x) eqn:Ex; [|reflexivity]. apply Hp in Ex as (w & K). exfalso. exact (Hpost x w Hx K). }
      assert (a = b).
      { clear -El H1 H2 Hb Hpp. revert pre' El. induction pre as [|x pre IH]; intros [|y pre'] El; cbn in El; injection El as E1 E2.
        - assumption.
        - subst. exfalso. rewrite (Hpp b) in H1; [discriminate|]. apply in_or_app. right. now left.
        - subst. exfalso. rewrite (H2 a) in Hb; [discriminate|]. apply in_or_app. right. now left.
        - eauto. }
      subst b. apply HG in Ha. now rewrite Ha.
    + exfalso. assert (Hb : p a = true) by (apply Hp; eauto).
      rewrite (find_none p _ E a) in Hb; [discriminate|]. rewrite <- in_rev. apply in_or_app. right. now left.
Qed.

Lemma collect_ok args cli opts : collectCliArgs args = Ok (cli, opts) <->
  (forall a, In a args -> exists n v, Option a n v) /\ cli = filter forFlags args /\
  opts = fold_left (fun m a => setOpt (gives a) m) args [].
Proof.
  unfold collectCliArgs. rewrite collectLoop_eq. cbn [app].
  destruct (find (fun a => match argSplit a with None => true | Some _ => false end) args) as [b|] eqn:E.
  - split; [discriminate|]. intros (H & _). apply TypeProofs.find_some in E as [E1 E2]. destruct (H b E1) as (n & v & K).
    apply Option_split in K. rewrite K in E2. discriminate.
  - split.
    + intro H. injection H as <- <-. split; [|auto]. intros a Ha. pose proof (find_none _ _ E a Ha) as K. cbn in K.
      destruct (argSplit a) as [[n v]|] eqn:Ea; [|discriminate]. exists n, v. now apply Option_split.
    + intros (_ & -> & ->). reflexivity.
Qed.

Lemma collect_err args a : collectCliArgs args = Err a <->
  exists pre post, args = pre ++ a :: post /\ (forall b, In b pre -> exists n v, Option b n v) /\ forall n v, ~ Option a n v.
Proof.
  unfold collectCliArgs. rewrite collectLoop_eq. set (p := fun a => match argSplit a with None => true | Some _ => false end).
  assert (Hp : forall x, p x = false <-> exists n v, Option x n v).
  { intro x. unfold p. destruct (argSplit x) as [[n v]|] eqn:E.
    - apply Option_split in E. split; eauto.
    - split; [discriminate|]. intros (n & v & K). apply Option_split in K. congruence. }
  split.
  - destruct (find p args) as [b|] eqn:E; [|discriminate]. intro H. injection H as ->.
    revert E. induction args as [|x r IH]; [discriminate|]. cbn. destruct (p x) eqn:Ex.
    + intro H. injection H as ->. exists [], r. repeat split; [contradiction|]. intros n v K.
      assert (p a = false) by (apply Hp; eauto). congruence.
    + intro H. destruct (IH H) as (pre & post & -> & K1 & K2). exists (x :: pre), post. split; [reflexivity|]. split; [|assumption].
      intros b [<-|Hb]; [now apply Hp|auto].
  - intros (pre & post & -> & K1 & K2).
    assert (F : find p (pre ++ a :: post) = Some a).
    { induction pre as [|x pre IH]; cbn.
      - destruct (p a) eqn:Ea; [reflexivity|]. apply Hp in Ea as (n & v & K). now apply K2 in K.
      - rewrite (proj2 (Hp x) (K1 x (or_introl eq_refl))). apply IH. intros b Hb. apply K1. now right. }
    rewrite F. reflexivity.
Qed.

(** ** annotation lists *)

Definition annGives (a : string) : option (string * string) :=
  match cut "@" a with
  | (_, full, true) => match cut ":" full with (name, value, _) => Some (name, value) end
  | (_, _, false) => None
  end.

Lemma annotationsLoop_eq parts : forall m, annotationsLoop parts m =
  match find (fun a => negb (contains_byte "@" a)) parts with
  | Some a => Err a
  | None => Ok (fold_left (fun m a => setOpt (annGives a) m) parts m)
  end.
Proof.
  induction parts as [|a r IH]; intro m; [reflexivity|]. cbn [annotationsLoop find fold_left].
  assert (Hg : annGives a = match cut "@" a with
    | (_, full, true) => match cut ":" full with (name, value, _) => Some (name, value) end
    | (_, _, false) => None end) by reflexivity. rewrite Hg. clear Hg.
  destruct (cut "@" a) as [[x full] []] eqn:E.
  - apply cut_inv in E as [-> _]. rewrite contains_byte_app. change (contains_byte "@" (String "@" full)) with true.
    rewrite orb_true_r. cbn [negb]. destruct (cut ":" full) as [[name value] f]. rewrite IH. reflexivity.
  - apply cut_inv_none in E as (_ & _ & ->). reflexivity.
Qed.

Lemma annGives_show p : AnnotationOk p -> annGives (showAnnotation p) = Some p.
Proof.
  destruct p as [n v]. intros (H1 & H2 & H3). cbn [fst snd] in *. unfold annGives, showAnnotation. cbn [fst snd].
  change ("@" ++ n ++ (if String.eqb v "" then "" else ":" ++ v))%string with ("" ++ String "@" (n ++ (if String.eqb v "" then "" else ":" ++ v)))%string.
  rewrite cut_found by reflexivity. destruct (String.eqb_spec v "") as [->|Hv].
  - rewrite sapp_nil_r, (cut_none _ _ H2). reflexivity.
  - change (":" ++ v)%string with (String ":" v). rewrite (cut_found _ _ _ H2). reflexivity.
Qed.

Lemma show_no_comma p : AnnotationOk p -> contains_byte "," (showAnnotation p) = false.
Proof.
  destruct p as [n v]. intros (H1 & H2 & H3). cbn [fst snd] in *. unfold showAnnotation. cbn [fst snd].
  rewrite !contains_byte_app, H1. destruct (String.eqb v ""); [reflexivity|]. rewrite contains_byte_app, H3. reflexivity.
Qed.

(** ** the flag parser on well-formed flags *)

Definition flagGives (s : string) : option (string * string) :=
  match s with
  | String "-"%char (String c s') =>
      let name0 := if Ascii.eqb c "-"%char then s' else String c s' in
      match cut "="%char name0 with
      | (name, value, hasValue) =>
          match assoc name ownFlags with
          | Some true => if hasValue then option_map (fun b : bool => (name, if b then "true" else "false")) (assoc value boolWords)
                         else Some (name, "true")
          | Some false => if hasValue then Some (name, value) else None
          | None => None
          end
      end
  | _ => None
  end.

Lemma own_name_facts n b : In (n, b) ownFlags -> assoc n ownFlags = Some b /\ n <> "" /\ has_prefix "-" n = false /\
  has_prefix "=" n = false /\ contains_byte "=" n = false.
Proof.
  assert (H : Forall (fun p => assoc (fst p) ownFlags = Some (snd p) /\ fst p <> "" /\ has_prefix "-" (fst p) = false /\
     has_prefix "=" (fst p) = false /\ contains_byte "=" (fst p) = false) ownFlags).
  { repeat constructor; discriminate. }
  rewrite Forall_forall in H. intro K. exact (H (n, b) K).
Qed.

Lemma boolWords_assoc w b : BoolWord w b -> assoc w boolWords = Some b.
Proof.
  intros [[-> H]|[-> H]]; cbn in H; repeat (destruct H as [<-|H]; [reflexivity|]); contradiction.
Qed.

Lemma FlagArg_step a n v k r vals : FlagArg a n v -> flagParse (S k) (a :: r) vals = flagParse k r (mapSet n v vals).
Proof.
  assert (HD : forall d n b rest, d = "-" \/ d = "--" -> In (n, b) ownFlags ->
     exists c s' x y, (d ++ n ++ rest)%string = String "-" (String c s') /\
       (if Ascii.eqb c "-" then s' else String c s') = (n ++ rest)%string /\ (n ++ rest)%string = String x y /\
       Ascii.eqb x "-" || Ascii.eqb x "=" = false /\ String.eqb (d ++ n ++ rest) "--" = false).
  { clear. intros d n b rest Hd Hn. destruct (own_name_facts n b Hn) as (_ & N1 & N2 & N3 & _).
    destruct n as [|x y]; [contradiction|]. clear N1.
    change (Ascii.eqb "-" x && true = false) in N2. change (Ascii.eqb "=" x && true = false) in N3.
    rewrite andb_true_r in N2, N3. 
    assert (Ex : Ascii.eqb x "-" = false) by (rewrite Ascii.eqb_sym; exact N2).
    assert (Ee : Ascii.eqb x "=" = false) by (rewrite Ascii.eqb_sym; exact N3).
    destruct Hd as [->| ->].
    - exists x, (y ++ rest)%string, x, (y ++ rest)%string. rewrite Ex, Ee. repeat split.
      change (Ascii.eqb "-" "-" && (Ascii.eqb x "-" && String.eqb (y ++ rest) "") = false). rewrite Ex. reflexivity.
    - exists "-"%char, (String x (y ++ rest)), x, (y ++ rest)%string. rewrite Ex, Ee. repeat split. }
  intros [d n' w Hd Hn0|d n' Hd Hn0|d n' w b Hd Hn0 Hw];
    [pose proof (string_flag _ Hn0) as Hn|pose proof (boolean_flag _ Hn0) as Hn|pose proof (boolean_flag _ Hn0) as Hn].
  - destruct (HD d n' false ("=" ++ w)%string Hd Hn) as (c & s' & x & y & E1 & E2 & E3 & E4 & E5).
    destruct (own_name_facts _ _ Hn) as (A & _ & _ & _ & N5).
    rewrite E1 in E5 |- *. cbn [flagParse]. rewrite E5, E2, E3, E4, <- E3. 
    change ("=" ++ w)%string with (String "=" w). rewrite (cut_found _ _ _ N5), A. reflexivity.
  - destruct (HD d n' true "" Hd Hn) as (c & s' & x & y & E1 & E2 & E3 & E4 & E5). rewrite sapp_nil_r in *.
    destruct (own_name_facts _ _ Hn) as (A & _ & _ & _ & N5).
    rewrite E1 in E5 |- *. cbn [flagParse]. rewrite E5, E2, E3, E4, <- E3. rewrite (cut_none _ _ N5), A. reflexivity.
  - destruct (HD d n' true ("=" ++ w)%string Hd Hn) as (c & s' & x & y & E1 & E2 & E3 & E4 & E5).
    destruct (own_name_facts _ _ Hn) as (A & _ & _ & _ & N5).
    rewrite E1 in E5 |- *. cbn [flagParse]. rewrite E5, E2, E3, E4, <- E3.
    change ("=" ++ w)%string with (String "=" w). rewrite (cut_found _ _ _ N5), A, (boolWords_assoc _ _ Hw). reflexivity.
Qed.

Lemma FlagArg_Option a n v : FlagArg a n v -> exists w, Option a n w.
Proof.
  assert (HD : forall d, d = "-" \/ d = "--" -> d <> "" /\ Forall (fun c => c = "-"%char) (list_ascii_of_string d)).
  { intros d [->| ->]; (split; [discriminate|repeat constructor]). }
  intros [d n' w Hd Hn0|d n' Hd Hn0|d n' w b Hd Hn0 Hw];
    [pose proof (string_flag _ Hn0) as Hn|pose proof (boolean_flag _ Hn0) as Hn|pose proof (boolean_flag _ Hn0) as Hn];
    destruct (HD d Hd) as [D1 D2];
    destruct (own_name_facts _ _ Hn) as (_ & N1 & N2 & _ & N5); eexists; [apply OptValue|apply OptPlain|apply OptValue]; auto.
Qed.

Lemma FlagArg_name_fun a n v n' v' : FlagArg a n v -> FlagArg a n' v' -> n = n' /\ v = v'.
Proof.
  intros H H'. pose proof (FlagArg_step a n v 0 [] [] H) as E. pose proof (FlagArg_step a n' v' 0 [] [] H') as E'.
  rewrite E in E'. cbn in E'. injection E' as -> ->. auto.
Qed.

Lemma flagParse_fold args : (forall a, In a args -> exists n v, FlagArg a n v) -> forall vals,
  exists gs, Forall2 (fun a g => FlagArg a (fst g) (snd g)) args gs /\
    flagParse (length args) args vals = Flags (fold_left (fun m g => mapSet (fst g) (snd g) m) gs vals) [].
Proof.
  induction args as [|a r IH]; intros H vals.
  - exists []. split; [constructor|reflexivity].
  - destruct (H a (or_introl eq_refl)) as (n & v & Ha).
    destruct (IH (fun b Hb => H b (or_intror Hb)) (mapSet n v vals)) as (gs & G1 & G2).
    exists ((n, v) :: gs). split; [now constructor|]. cbn [length]. rewrite (FlagArg_step a n v _ _ _ Ha). exact G2.
Qed.

Lemma fold_gs_last gs : forall vals k v,
  assoc k (fold_left (fun m (g : string * string) => mapSet (fst g) (snd g) m) gs vals) = Some v <->
  (exists pre post, gs = pre ++ (k, v) :: post /\ ~ In k (map fst post)) \/
  (~ In k (map fst gs) /\ assoc k vals = Some v).
Proof.
  induction gs as [|[k0 v0] gs IH]; intros vals k v; cbn [fold_left].
  - split; [intro H; right; split; [intros []|assumption]|]. intros [(pre & post & E & _)|(_ & H)]; [destruct pre; discriminate|assumption].
  - rewrite IH. cbn [fst snd map In]. rewrite assoc_mapSet. destruct (String.eqb_spec k k0) as [->|N].
    + split.
      * intros [(pre & post & -> & H)|(H & E)].
        -- left. exists ((k0, v0) :: pre), post. auto.
        -- injection E as ->. left. exists [], gs. auto.
      * intros [(pre & post & E & H)|(H & E)].
        -- destruct pre as [|x pre]; cbn in E; injection E as E1 E2; [right; split; congruence|left; exists pre, post; auto].
        -- exfalso. apply H. now left.
    + split.
      * intros [(pre & post & -> & H)|(H & E)].
        -- left. exists ((k0, v0) :: pre), post. auto.
        -- right. split; [|assumption]. intros [K|K]; [congruence|contradiction].
      * intros [(pre & post & E & H)|(H & E)].
        -- destruct pre as [|x pre]; cbn in E; injection E as E1 E2; [congruence|left; exists pre, post; auto].
        -- right. split; [|assumption]. intro K. apply H. now right.
Qed.

Lemma flags_last args : (forall a, In a args -> exists n v, FlagArg a n v) ->
  exists vals, flagsParse args = Flags vals [] /\ forall k v, assoc k vals = Some v <-> LastGiven FlagArg args k v.
Proof.
  intro H. unfold flagsParse. destruct (flagParse_fold args H []) as (gs & G1 & G2). rewrite G2.
  eexists. split; [reflexivity|]. intros k v. rewrite fold_gs_last. unfold LastGiven. split.
  - intros [(pre & post & -> & Hn)|(_ & E)]; [|discriminate].
    apply Forall2_app_inv_r in G1 as (a1 & a2 & F1 & F2 & ->). inversion F2 as [|a ? a3 ? Fa F3]; subst.
    exists a1, a, a3. split; [reflexivity|]. split; [exact Fa|]. intros b w Hb K. apply Hn.
    clear -F3 Hb K. induction F3 as [|x g l l' Hx _ IH]; [contradiction|]. destruct Hb as [<-|Hb]; [left|right; now apply IH].
    destruct (FlagArg_name_fun _ _ _ _ _ Hx K). assumption.
  - intros (pre & a & post & -> & Ha & Hn). left.
    apply Forall2_app_inv_l in G1 as (g1 & g2 & F1 & F2 & ->). inversion F2 as [|? g ? g3 Fa F3]; subst.
    destruct (FlagArg_name_fun _ _ _ _ _ Ha Fa) as [E1 E2]. exists g1, g3. split; [destruct g; cbn in *; subst; reflexivity|].
    intro K. clear -F3 Hn K. induction F3 as [|x g l l' Hx _ IH]; [contradiction|]. destruct K as [K|K].
    + subst k. apply (Hn x (snd g)); [now left|assumption].
    + apply IH; [|assumption]. intros b w Hb. apply Hn. now right.
Qed.
