(** A loaded schema is what its files declare. *)
From Coq Require FinFun.
From Verif Require Import Base BaseProofs Ast Parser Schema TypeSpec TypeProofs ValidateSpec ValidateProofs
  Ridl LoadSpec LoadProofs DeclSpec NumProofs.

(** ** exports *)

Lemma exports_star fs {D} (decls : list node -> list D) name q id d :
  Exports fs decls name q id d -> ImportStar fs q (fst id).
Proof.
  induction 1 as [q nodes k d HS Hd|q nodes i id d HS Hi HE IH Hm]; [constructor|].
  econstructor; [|exact IH]. exists nodes, i. now split.
Qed.

(** a declaration is determined by its place *)
Lemma exports_place fs {D} (decls : list node -> list D) name q id d :
  Exports fs decls name q id d -> exists nodes, Source fs (fst id) nodes /\ nth_error (decls nodes) (snd id) = Some d.
Proof. induction 1 as [q nodes k d HS Hd|q nodes i id d HS Hi HE IH Hm]; [now exists nodes|exact IH]. Qed.

Lemma exports_fun fs {D} (decls : list node -> list D) name q q' id d d' :
  Exports fs decls name q id d -> Exports fs decls name q' id d' -> d = d'.
Proof.
  intros H H'. apply exports_place in H as (n & S & E). apply exports_place in H' as (n' & S' & E').
  assert (n' = n) by (eapply Source_unique; eassumption). congruence.
Qed.

(** ** merging *)

Section Merge.
  Context {A D : Type} (idA : A -> ident) (nameA : A -> string).

  Fixpoint mergeG (dedup : bool) (acc : list A) (members : list string) (l : list A) : list A :=
    match l with
    | [] => acc
    | t :: r =>
        if negb (dedup && id_in (idA t) (map idA acc)) && isImportAllowed (nameA t) members
        then mergeG dedup (acc ++ [t]) members r
        else mergeG dedup acc members r
    end.

  Lemma id_in_In i l : id_in i l = true <-> In i l.
  Proof.
    unfold id_in. rewrite existsb_exists. split.
    - intros (x & Hx & E). unfold ident_eqb in E. apply andb_true_iff in E as [E1 E2].
      apply String.eqb_eq in E1. apply Nat.eqb_eq in E2. destruct i, x. cbn in *. now subst.
    - intro H. exists i. split; [exact H|]. unfold ident_eqb. now rewrite String.eqb_refl, Nat.eqb_refl.
  Qed.

  Lemma mergeG_mem dedup members l acc x :
    In x (mergeG dedup acc members l) -> In x acc \/ (In x l /\ isImportAllowed (nameA x) members = true).
  Proof.
    revert acc. induction l as [|t r IH]; intros acc H; cbn in H; [now left|].
    destruct (_ && isImportAllowed (nameA t) members) eqn:E.
    - apply andb_true_iff in E as [_ E]. apply IH in H. rewrite in_app_iff in H. cbn in H.
      destruct H as [[H|[->|[]]]|[H1 H2]]; [now left|right; split; [now left|exact E]|right; split; [now right|exact H2]].
    - apply IH in H. destruct H as [H|[H1 H2]]; [now left|right; split; [now right|exact H2]].
  Qed.
  Lemma mergeG_keeps dedup members l acc x : In x acc -> In x (mergeG dedup acc members l).
  Proof.
    revert acc. induction l as [|t r IH]; intros acc H; cbn; [exact H|].
    destruct (_ && _); apply IH; [|exact H]. apply in_app_iff. now left.
  Qed.
  Lemma mergeG_has dedup members l acc x : In x l -> isImportAllowed (nameA x) members = true ->
    exists y, In y (mergeG dedup acc members l) /\ idA y = idA x.
  Proof.
    revert acc. induction l as [|t r IH]; intros acc H E; [destruct H|]. cbn. destruct H as [->|H].
    - rewrite E, andb_true_r. destruct (dedup && id_in (idA x) (map idA acc)) eqn:F; cbn.
      + apply andb_true_iff in F as [_ F]. apply id_in_In in F. apply in_map_iff in F as (y & Ey & Hy).
        exists y. split; [now apply mergeG_keeps|exact Ey].
      + exists x. split; [|reflexivity]. apply mergeG_keeps, in_app_iff. right. now left.
    - destruct (_ && _); now apply IH.
  Qed.
  Lemma mergeG_nodup members l acc : NoDup (map idA acc) -> NoDup (map idA (mergeG true acc members l)).
  Proof.
    revert acc. induction l as [|t r IH]; intros acc H; cbn; [exact H|].
    destruct (negb (id_in (idA t) (map idA acc))) eqn:E; cbn; [|now apply IH].
    destruct (isImportAllowed (nameA t) members); [|now apply IH]. apply IH. rewrite map_app. cbn.
    apply NoDup_app_snoc; [exact H|]. intro Z. apply id_in_In in Z. rewrite Z in E. discriminate.
  Qed.
End Merge.

Lemma mergeTypes_G members l acc : mergeTypes acc members l = mergeG t_id t_name true acc members l.
Proof. revert acc. induction l as [|t r IH]; intro acc; cbn; [reflexivity|]. now rewrite !IH. Qed.
Lemma mergeErrors_G members l acc : mergeErrors acc members l = mergeG x_id x_name true acc members l.
Proof. revert acc. induction l as [|t r IH]; intro acc; cbn; [reflexivity|]. now rewrite !IH. Qed.
Lemma mergeServices_G members l acc : mergeServices acc members l = mergeG v_id v_name false acc members l.
Proof.
  unfold mergeServices. revert acc. induction l as [|t r IH]; intro acc; cbn; [apply app_nil_r|].
  destruct (isImportAllowed (v_name t) members); rewrite <- IH; [now rewrite <- app_assoc|reflexivity].
Qed.

Lemma allowed_iff n m : isImportAllowed n m = true <-> m = [] \/ In n m.
Proof.
  unfold isImportAllowed. destruct m as [|x m]; [intuition|]. rewrite str_in_In. intuition discriminate.
Qed.

(** ** the imported part of a schema *)

(** [l] is what [q] exports *)
Definition Provides fs {D A} decls (name : D -> string) (idA : A -> ident) (R : D -> A -> Prop) q (l : list A) : Prop :=
  (forall a, In a l -> exists d, Exports fs decls name q (idA a) d /\ R d a) /\
  (forall id d, Exports fs decls name q id d -> exists a, In a l /\ idA a = id).

(** [l] is what the imports [is] of [q] bring in *)
Definition Brings fs {D A} decls (name : D -> string) (idA : A -> ident) (R : D -> A -> Prop) q is_ (l : list A) : Prop :=
  (forall a, In a l -> exists i d, In i is_ /\ Exports fs decls name (importTarget q i) (idA a) d /\ R d a /\
                                   (i_members i = [] \/ In (name d) (i_members i))) /\
  (forall i id d, In i is_ -> Exports fs decls name (importTarget q i) id d ->
     i_members i = [] \/ In (name d) (i_members i) -> exists a, In a l /\ idA a = id).

Lemma brings_fold fs {D A} decls (name : D -> string) (idA : A -> ident) (nameA : A -> string) (R : D -> A -> Prop) q dedup
  (HR : forall d a, R d a -> nameA a = name d) (get : schema -> list A) is_ : forall imps done acc,
  Forall2 (fun i imp => Provides fs decls name idA R (importTarget q i) (get imp)) is_ imps ->
  Brings fs decls name idA R q done acc ->
  Brings fs decls name idA R q (done ++ is_)
    (fold_left (fun acc p => mergeG idA nameA dedup acc (i_members (fst p)) (get (snd p))) (combine is_ imps) acc).
Proof.
  induction is_ as [|i is_ IH]; intros imps done acc HF [B1 B2].
  - inversion HF; subst. cbn. rewrite app_nil_r. now split.
  - inversion HF as [|? imp ? imps' [P1 P2] HF']; subst. cbn [combine fold_left fst snd].
    replace (done ++ i :: is_) with ((done ++ [i]) ++ is_) by (rewrite <- app_assoc; reflexivity).
    apply IH; [exact HF'|]. split.
    + intros a Ha. apply mergeG_mem in Ha. destruct Ha as [Ha|[Ha Hm]].
      * destruct (B1 a Ha) as (i' & d & H1 & H2). exists i', d. split; [apply in_app_iff; now left|exact H2].
      * destruct (P1 a Ha) as (d & H1 & H2). exists i, d. split; [apply in_app_iff; right; now left|].
        split; [exact H1|]. split; [exact H2|]. apply allowed_iff in Hm. now rewrite (HR _ _ H2) in Hm.
    + intros i' id d Hi HE Hm. apply in_app_iff in Hi. destruct Hi as [Hi|[->|[]]].
      * destruct (B2 i' id d Hi HE Hm) as (a & Ha & E). exists a. split; [now apply mergeG_keeps|exact E].
      * destruct (P2 id d HE) as (a & Ha & E). destruct (P1 a Ha) as (d' & HE' & HRa).
        assert (d' = d) by (rewrite E in HE'; eapply exports_fun; eassumption). subst d'.
        destruct (mergeG_has idA nameA dedup (i_members i') (get imp) acc a Ha) as (y & Hy & Ey).
        { apply allowed_iff. now rewrite (HR _ _ HRa). }
        exists y. split; [exact Hy|congruence].
Qed.

(** ** small list facts *)

Lemma Forall2_comp {A B C} (R : A -> B -> Prop) (S : B -> C -> Prop) l m n :
  Forall2 R l m -> Forall2 S m n -> Forall2 (fun a c => exists b, R a b /\ S b c) l n.
Proof.
  intro H. revert n. induction H as [|a b l m Hab H IH]; intros n G; inversion G as [|? c ? n' Hbc G']; subst; constructor; eauto.
Qed.
Lemma Forall2_with_in {A B} (R : A -> B -> Prop) l m : Forall2 R l m -> Forall2 (fun a b => In a l /\ R a b) l m.
Proof.
  induction 1 as [|a b l m Hab H IH]; constructor; [split; [now left|exact Hab]|].
  eapply Forall2_impl; [|exact IH]. cbv beta. intros x y [H1 H2]. split; [now right|exact H2].
Qed.
Lemma Forall2_nth {A B} (R : A -> B -> Prop) l m k : Forall2 R l m ->
  match nth_error l k, nth_error m k with Some a, Some b => R a b | None, None => True | _, _ => False end.
Proof. intro H. revert k. induction H as [|a b l m Hab H IH]; intros [|k]; cbn; auto. apply IH. Qed.
Lemma Forall2_in_r {A B} (R : A -> B -> Prop) l m b : Forall2 R l m -> In b m -> exists a, In a l /\ R a b.
Proof.
  induction 1 as [|x y l m Hxy H IH]; intros Hb; [destruct Hb|]. destruct Hb as [<-|Hb]; [exists x; split; [now left|exact Hxy]|].
  destruct (IH Hb) as (a & Ha & HR). exists a. split; [now right|exact HR].
Qed.
Lemma NoDup_map_eq {A B} (f : A -> B) l x y : NoDup (map f l) -> In x l -> In y l -> f x = f y -> x = y.
Proof.
  induction l as [|a l IH]; intros H Hx Hy E; [destruct Hx|]. cbn in H. inversion H as [|? ? Hn Hd]; subst.
  destruct Hx as [->|Hx], Hy as [->|Hy]; auto.
  - exfalso. apply Hn. rewrite E. now apply in_map.
  - exfalso. apply Hn. rewrite <- E. now apply in_map.
Qed.

(** ** the resolution passes *)

Definition sameG {A} (nameA : A -> string) (name : string) (t : A) : bool :=
  String.eqb (to_lower (nameA t)) (to_lower name).

Lemma updateFirst_miss {A} (p : A -> bool) f a b : (forall x, In x a -> p x = false) ->
  updateFirst p f (a ++ b) = a ++ updateFirst p f b.
Proof.
  induction a as [|x a IH]; intro H; cbn; [reflexivity|]. rewrite (H x) by now left. f_equal. apply IH. intros y Hy. apply H. now right.
Qed.
Lemma updateFirst_none {A} (p : A -> bool) f a : (forall x, In x a -> p x = false) -> updateFirst p f a = a.
Proof. intro H. rewrite <- (app_nil_r a) at 1. rewrite updateFirst_miss by exact H. apply app_nil_r. Qed.
Lemma updateFirst_proj {A B} (g : A -> B) (p : A -> bool) f l : (forall x, g (f x) = g x) -> map g (updateFirst p f l) = map g l.
Proof. intro H. induction l as [|x l IH]; cbn; [reflexivity|]. destruct (p x); cbn; [now rewrite H|now rewrite IH]. Qed.

Section Passes.
  Context {A N : Type} (nameA : A -> string) (nm : N -> string) (Q : N -> A -> A -> Prop)
          (step : list A -> N -> result (list A)).
  Definition StepOk : Prop := forall ts n ts', step ts n = Ok ts' ->
    exists f, ts' = updateFirst (sameG nameA (nm n)) f ts /\ (forall t, Q n t (f t)) /\ (forall t, nameA (f t) = nameA t).

  Lemma update_forall2 n f ts : NoDup (map (fun t => to_lower (nameA t)) ts) ->
    Forall2 (fun t t' => (t' = t /\ to_lower (nm n) <> to_lower (nameA t)) \/ (to_lower (nm n) = to_lower (nameA t) /\ t' = f t))
      ts (updateFirst (sameG nameA (nm n)) f ts).
  Proof.
    induction ts as [|t ts IH]; intro H; cbn; [constructor|]. inversion H as [|? ? H1 H2]; subst.
    unfold sameG at 1. destruct (String.eqb_spec (to_lower (nameA t)) (to_lower (nm n))) as [E|E].
    - constructor; [right; now split|]. clear - E H1. 
      assert (HN : forall x, In x ts -> to_lower (nm n) <> to_lower (nameA x)).
      { intros x Hx Z. apply H1. rewrite E, Z. apply in_map_iff. now exists x. }
      clear H1. induction ts as [|x ts IH]; constructor; [left; split; [reflexivity|apply HN; now left]|].
      apply IH. intros y Hy. apply HN. now right.
    - constructor; [left; split; [reflexivity|congruence]|now apply IH].
  Qed.

  Lemma passes (HS : StepOk) l : forall imp loc out,
    foldM step l (imp ++ loc) = Ok out ->
    (forall n x, In n l -> In x imp -> to_lower (nm n) <> to_lower (nameA x)) ->
    NoDup (map (fun t => to_lower (nameA t)) loc) -> NoDup (map (fun n => to_lower (nm n)) l) ->
    exists loc', out = imp ++ loc' /\
      Forall2 (fun t t' => nameA t' = nameA t /\
        ((t' = t /\ forall n, In n l -> to_lower (nm n) <> to_lower (nameA t)) \/
         exists n, In n l /\ to_lower (nm n) = to_lower (nameA t) /\ Q n t t')) loc loc'.
  Proof.
    induction l as [|n l IH]; intros imp loc out H Himp Hloc Hl; cbn in H.
    - injection H as <-. exists loc. split; [reflexivity|]. clear. induction loc; constructor; [|assumption].
      split; [reflexivity|]. left. split; [reflexivity|]. intros n [].
    - apply bind_ok in H as (ts1 & H1 & H). destruct (HS _ _ _ H1) as (f & E & HQ & HN). subst ts1.
      inversion Hl as [|? ? Hn1 Hn2]; subst.
      rewrite updateFirst_miss in H.
      2:{ intros x Hx. unfold sameG. apply String.eqb_neq. intro Z. apply (Himp n x); [now left|exact Hx|congruence]. }
      assert (Hloc1 : NoDup (map (fun t => to_lower (nameA t)) (updateFirst (sameG nameA (nm n)) f loc))).
      { rewrite (updateFirst_proj (fun t => to_lower (nameA t))); [exact Hloc|]. intro x. now rewrite HN. }
      destruct (IH imp _ out H) as (loc' & E & HF).
      { intros n' x Hn' Hx. apply Himp; [now right|exact Hx]. }
      { exact Hloc1. } { exact Hn2. }
      exists loc'. split; [exact E|].
      pose proof (Forall2_comp _ _ _ _ _ (update_forall2 n f loc Hloc) HF) as HC.
      eapply Forall2_impl; [|exact HC]. cbv beta. intros t t' (t1 & H12 & HN1 & H23).
      destruct H12 as [[-> Hne]|[Heq ->]].
      + split; [exact HN1|]. destruct H23 as [[-> H23]|(n' & I1 & I2 & I3)].
        * left. split; [reflexivity|]. intros x [<-|Hx]; [exact Hne|now apply H23].
        * right. exists n'. split; [now right|]. now split.
      + rewrite HN in *. split; [exact HN1|]. right. exists n. split; [now left|]. split; [exact Heq|].
        destruct H23 as [[-> H23]|(n' & I1 & I2 & I3)]; [apply HQ|]. exfalso. apply Hn1.
        rewrite Heq, <- I2. apply in_map_iff. now exists n'.
  Qed.
  Lemma passes_proj {B} (g : A -> B) (HS : StepOk) (HQ : forall n t t', Q n t t' -> g t' = g t) l :
    forall ts out, foldM step l ts = Ok out -> map g out = map g ts.
  Proof.
    induction l as [|n l IH]; intros ts out H; cbn in H; [now injection H as <-|].
    apply bind_ok in H as (ts1 & H1 & H). destruct (HS _ _ _ H1) as (f & -> & HQf & _).
    rewrite (IH _ _ H). apply updateFirst_proj. intro x. eapply HQ, HQf.
  Qed.
End Passes.

Definition AliasQ (a : aliasNode) (t t' : type) : Prop :=
  exists v, vt_expr v = al_type a /\
    t' = Type_ (t_id t) (t_kind t) (t_name t) (Some v) (t_fields t) (t_meta t ++ MetaOf (al_meta a)) (t_comments t).
Definition EnumQ (e : enumNode) (t t' : type) : Prop :=
  exists v, vt_expr v = e_type e /\
    t' = Type_ (t_id t) (t_kind t) (t_name t) (Some v)
           (t_fields t ++ enumFields (String.eqb (e_type e) "string") 0 (e_values e)) (t_meta t) (t_comments t).
Definition StructQ (s : structNode) (t t' : type) : Prop :=
  exists fs, Forall2 FieldOf (s_fields s) fs /\
    t' = Type_ (t_id t) (t_kind t) (t_name t) (t_type t) (t_fields t ++ fs) (t_meta t) (t_comments t).

Lemma parse_expr ts e v : parseVarTypeExpr ts e = Ok v -> vt_expr v = e.
Proof. intro H. apply parse_iff in H. eapply Parsed_expr; eassumption. Qed.

Lemma alias_step : StepOk t_name al_name AliasQ resolveAlias.
Proof.
  intros ts a ts'. unfold resolveAlias. destruct (getTypeByName ts (al_name a)); [|discriminate].
  destruct (parseVarTypeExpr ts (al_type a)) as [v| | |] eqn:E; try discriminate. intro H. injection H as <-.
  eexists. split; [reflexivity|]. split; [|reflexivity]. intro x. exists v. split; [eapply parse_expr; eassumption|reflexivity].
Qed.
Lemma enum_step : StepOk t_name e_name EnumQ resolveEnum.
Proof.
  intros ts a ts'. unfold resolveEnum. destruct (getTypeByName ts (e_name a)); [|discriminate].
  destruct (parseVarTypeExpr ts (e_type a)) as [v| | |] eqn:E; try discriminate. intro H. injection H as <-.
  apply parse_expr in E. eexists. split; [reflexivity|]. split; [|reflexivity]. intro x. exists v. split; [exact E|].
  now rewrite E.
Qed.

Lemma parseComment_lines c : Lines c (parseComment c).
Proof.
  unfold parseComment. destruct (String.eqb_spec c "") as [->|H]; [left; now split|]. right. split; [exact H|].
  split; [apply join_split|]. apply Forall_forall. intros x. apply split_byte_no.
Qed.

Lemma struct_step : StepOk t_name s_name StructQ resolveStruct.
Proof.
  intros ts s ts'. unfold resolveStruct. destruct (getTypeByName ts (s_name s)); [|discriminate].
  intro H. apply bind_ok in H as (fs & Hfs & H). injection H as <-.
  eexists. split; [reflexivity|]. split; [|reflexivity]. intro x. exists fs. split; [|reflexivity].
  apply mapM_Forall2 in Hfs. eapply Forall2_impl; [|exact Hfs]. cbv beta. intros d f. unfold buildField.
  destruct (parseVarTypeExpr ts (d_right d)) as [v| | |] eqn:E; try discriminate. intro H. injection H as <-.
  repeat (split; [reflexivity|]). split; [apply parseComment_lines|]. exists v. split; [reflexivity|]. right. eapply parse_expr; eassumption.
Qed.

Lemma enumFields_ok b ds : forall i0,
  length (enumFields b i0 ds) = length ds /\
  forall i d f, nth_error ds i = Some d -> nth_error (enumFields b i0 ds) i = Some f -> MemberOf b (i0 + i) d f.
Proof.
  induction ds as [|d ds IH]; intro i0; cbn; [split; [reflexivity|]; intros [|i]; discriminate|].
  destruct (IH (S i0)) as [L H]. split; [now rewrite L|]. intros [|i] d' f H1 H2; cbn in H1, H2.
  - injection H1 as <-. injection H2 as <-. rewrite Nat.add_0_r. repeat (split; [reflexivity|]).
    split; [apply parseComment_lines|]. cbn [f_value]. split; intro E.
    + destruct (String.eqb_spec (d_right d) ""); [contradiction|reflexivity].
    + now rewrite E.
  - rewrite <- Nat.add_succ_comm. now apply H.
Qed.

(** the first pass *)
Definition skeleton (i : ident) (d : tdecl) : type :=
  Type_ i (declKind d) (declName d) None [] []
    (match d with DAlias a => parseComment (al_comment a) | DEnum _ => [] | DStruct s => parseComment (s_comment s) end).

Lemma pass1_skeleton q nodes : pass1Types q nodes = map (fun d i => skeleton i d) (typeDecls nodes).
Proof. unfold pass1Types, typeDecls. rewrite !map_app, !map_map. reflexivity. Qed.

Lemma number_forall2 {D A} q (f : D -> ident -> A) l : forall n,
  Forall2 (fun d a => exists i, a = f d i) l (number q n (map f l)).
Proof. induction l as [|d l IH]; intro n; cbn; constructor; [now eexists|apply IH]. Qed.
Lemma number_ids {D A} q (f : D -> ident -> A) (idA : A -> ident) l : (forall d i, idA (f d i) = i) ->
  forall n, map idA (number q n (map f l)) = map (pair q) (seq n (length l)).
Proof. intro H. induction l as [|d l IH]; intro n; cbn; [reflexivity|]. now rewrite H, IH. Qed.

Lemma decl_names q nodes n : map (fun t => to_lower (t_name t)) (number q n (map (fun d i => skeleton i d) (typeDecls nodes)))
  = map (fun d => to_lower (declName d)) (typeDecls nodes).
Proof. generalize (typeDecls nodes). intro l. revert n. induction l as [|d l IH]; intro n; cbn; [reflexivity|]. now rewrite IH. Qed.

Lemma in_decls nodes d : In d (typeDecls nodes) <->
  match d with DAlias a => In a (typeAliases nodes) | DEnum e => In e (enums nodes) | DStruct s => In s (structs nodes) end.
Proof.
  unfold typeDecls. rewrite !in_app_iff, !in_map_iff. destruct d as [a|e|s]; split.
  1,3,5: intros [(x & E & H)|[(x & E & H)|(x & E & H)]]; try discriminate; injection E as ->; exact H.
  - intro H. left. now exists a.
  - intro H. right. left. now exists e.
  - intro H. right. right. now exists s.
Qed.

Lemma NoDup_app_l {A} (l l' : list A) : NoDup (l ++ l') -> NoDup l.
Proof. induction l as [|a l IH]; cbn; intro H; [constructor|]. inversion H as [|? ? H1 H2]; subst. constructor; [|now apply IH]. intro Z. apply H1, in_app_iff. now left. Qed.
Lemma NoDup_app_r {A} (l l' : list A) : NoDup (l ++ l') -> NoDup l'.
Proof. induction l as [|a l IH]; cbn; intro H; [exact H|]. inversion H as [|? ? H1 H2]; subst. now apply IH. Qed.

(** the three passes together *)
Lemma local_types q nodes imp ts1 ts2 ts3 :
  foldM resolveAlias (typeAliases nodes) (imp ++ number q 0 (pass1Types q nodes)) = Ok ts1 ->
  foldM resolveEnum (enums nodes) ts1 = Ok ts2 ->
  foldM resolveStruct (structs nodes) ts2 = Ok ts3 ->
  NoDup (map (fun d => to_lower (declName d)) (typeDecls nodes)) ->
  (forall d x, In d (typeDecls nodes) -> In x imp -> to_lower (declName d) <> to_lower (t_name x)) ->
  exists loc, ts3 = imp ++ loc /\ Forall2 TypeOf (typeDecls nodes) loc /\
    map t_id loc = map (pair q) (seq 0 (length (typeDecls nodes))).
Proof.
  intros H1 H2 H3 HND HD. rewrite pass1_skeleton in H1.
  set (loc0 := number q 0 (map (fun d i => skeleton i d) (typeDecls nodes))) in *.
  assert (HF0 : Forall2 (fun d a => exists i, a = skeleton i d) (typeDecls nodes) loc0) by apply number_forall2.
  assert (HN0 : NoDup (map (fun t => to_lower (t_name t)) loc0)) by (unfold loc0; now rewrite decl_names).
  assert (Hid0 : map t_id loc0 = map (pair q) (seq 0 (length (typeDecls nodes)))) by (unfold loc0; now apply number_ids).
  assert (NA : NoDup (map (fun n => to_lower (al_name n)) (typeAliases nodes))).
  { unfold typeDecls in HND. rewrite !map_app, !map_map in HND. cbn [declName] in HND. now apply NoDup_app_l in HND. }
  assert (NE : NoDup (map (fun n => to_lower (e_name n)) (enums nodes))).
  { unfold typeDecls in HND. rewrite !map_app, !map_map in HND. cbn [declName] in HND. apply NoDup_app_r in HND. now apply NoDup_app_l in HND. }
  assert (NS : NoDup (map (fun n => to_lower (s_name n)) (structs nodes))).
  { unfold typeDecls in HND. rewrite !map_app, !map_map in HND. cbn [declName] in HND. apply NoDup_app_r in HND. now apply NoDup_app_r in HND. }
  destruct (passes t_name al_name AliasQ resolveAlias alias_step _ imp loc0 ts1 H1) as (loc1 & -> & F1); try assumption.
  { intros n x Hn Hx. apply (HD (DAlias n) x); [now apply in_decls|exact Hx]. }
  assert (E1 : map t_name loc1 = map t_name loc0) by (clear - F1; induction F1 as [|a b l m [E _] F IH]; cbn; congruence).
  destruct (passes t_name e_name EnumQ resolveEnum enum_step _ imp loc1 ts2 H2) as (loc2 & -> & F2); try assumption.
  { intros n x Hn Hx. apply (HD (DEnum n) x); [now apply in_decls|exact Hx]. }
  { rewrite <- (map_map t_name to_lower), E1, map_map. exact HN0. }
  assert (E2 : map t_name loc2 = map t_name loc1) by (clear - F2; induction F2 as [|a b l m [E _] F IH]; cbn; congruence).
  destruct (passes t_name s_name StructQ resolveStruct struct_step _ imp loc2 ts3 H3) as (loc3 & -> & F3); try assumption.
  { intros n x Hn Hx. apply (HD (DStruct n) x); [now apply in_decls|exact Hx]. }
  { rewrite <- (map_map t_name to_lower), E2, E1, map_map. exact HN0. }
  exists loc3. split; [reflexivity|].
  pose proof (Forall2_comp _ _ _ _ _ (Forall2_with_in _ _ _ HF0) F1) as G1.
  pose proof (Forall2_comp _ _ _ _ _ G1 F2) as G2.
  pose proof (Forall2_comp _ _ _ _ _ G2 F3) as G3. clear G1 G2.
  assert (Huniq : forall d d', In d (typeDecls nodes) -> In d' (typeDecls nodes) -> to_lower (declName d) = to_lower (declName d') -> d = d').
  { intros d d' I1 I2 E. exact (NoDup_map_eq _ _ _ _ HND I1 I2 E). }
  assert (G : Forall2 (fun d t => TypeOf d t) (typeDecls nodes) loc3).
  { eapply Forall2_impl; [|exact G3]. cbv beta. clear G3 F1 F2 F3.
    intros d t3 (t2 & (t1 & (t0 & (Hd & i & ->) & _ & P1) & N2 & P2) & N3 & P3).
    assert (X1 : match d with DAlias a => AliasQ a (skeleton i d) t1 | _ => t1 = skeleton i d end).
    { destruct P1 as [[-> P1]|(a & I1 & I2 & I3)].
      - destruct d as [a| |]; try reflexivity. exfalso. apply (P1 a); [now apply in_decls in Hd|reflexivity].
      - assert (d = DAlias a) as -> by (apply Huniq; [exact Hd|now apply in_decls|symmetry; exact I2]). exact I3. }
    assert (Nm1 : t_name t1 = declName d) by (destruct d; [destruct X1 as (v & _ & ->)|subst t1|subst t1]; reflexivity).
    assert (X2 : match d with DEnum e => EnumQ e (skeleton i d) t2 | _ => t2 = t1 end).
    { destruct P2 as [[-> P2]|(a & I1 & I2 & I3)].
      - destruct d as [|e|]; try reflexivity. exfalso. apply (P2 e); [now apply in_decls in Hd|]. now rewrite Nm1.
      - assert (d = DEnum a) as -> by (apply Huniq; [exact Hd|now apply in_decls|rewrite <- Nm1; symmetry; exact I2]). now rewrite X1 in I3. }
    assert (Nm2 : t_name t2 = declName d) by congruence.
    assert (X3 : match d with DStruct s => StructQ s (skeleton i d) t3 | _ => t3 = t2 end).
    { destruct P3 as [[-> P3]|(a & I1 & I2 & I3)].
      - destruct d as [| |s]; try reflexivity. exfalso. apply (P3 s); [now apply in_decls in Hd|]. now rewrite Nm2.
      - assert (d = DStruct a) as -> by (apply Huniq; [exact Hd|now apply in_decls|rewrite <- Nm2; symmetry; exact I2]).
        now rewrite X2, X1 in I3. }
    destruct d as [a|e|s].
    - subst t3 t2. destruct X1 as (v & Ev & ->). split; [reflexivity|]. split; [reflexivity|]. cbn.
      repeat (split; [reflexivity|]). split; [apply parseComment_lines|]. now exists v.
    - subst t3 t1. destruct X2 as (v & Ev & ->). split; [reflexivity|]. split; [reflexivity|]. cbn.
      repeat (split; [reflexivity|]). split; [now exists v|]. exact (enumFields_ok _ _ 0).
    - subst t2 t1. destruct X3 as (fs & Hfs & ->). split; [reflexivity|]. split; [reflexivity|]. cbn.
      repeat (split; [reflexivity|]). split; [apply parseComment_lines|]. exact Hfs. }
  split; [exact G|].
  assert (Hids : map t_id (imp ++ loc3) = map t_id (imp ++ loc0)).
  { rewrite (passes_proj t_name s_name StructQ resolveStruct t_id struct_step) with (out := imp ++ loc3) (ts := imp ++ loc2) (l := structs nodes);
      [|intros n t t' (fs & _ & ->); reflexivity|exact H3].
    rewrite (passes_proj t_name e_name EnumQ resolveEnum t_id enum_step) with (out := imp ++ loc2) (ts := imp ++ loc1) (l := enums nodes);
      [|intros n t t' (fs & _ & ->); reflexivity|exact H2].
    apply (passes_proj t_name al_name AliasQ resolveAlias t_id alias_step) with (l := typeAliases nodes); [|exact H1].
    intros n t t' (fs & _ & ->); reflexivity. }
  rewrite !map_app in Hids. apply app_inv_head in Hids. now rewrite Hids.
Qed.

(** ** services *)

Lemma assoc_putAnn m k v x : assoc x (putAnn m k v) = if String.eqb x k then Some v else assoc x m.
Proof.
  induction m as [|[k' v'] m IH]; cbn [putAnn assoc]; [reflexivity|].
  destruct (String.eqb_spec k k') as [->|D]; cbn [assoc].
  - now destruct (String.eqb_spec x k').
  - rewrite IH. destruct (String.eqb_spec x k') as [->|D2]; [|reflexivity].
    destruct (String.eqb_spec k' k); [congruence|reflexivity].
Qed.
Lemma keys_putAnn m k v : NoDup (map fst m) -> NoDup (map fst (putAnn m k v)) /\ forall x, In x (map fst (putAnn m k v)) -> x = k \/ In x (map fst m).
Proof.
  induction m as [|[k' v'] m IH]; cbn; intro H.
  - split; [constructor; [intros []|constructor]|]. intros x [<-|[]]. now left.
  - inversion H as [|? ? H1 H2]; subst. destruct (String.eqb_spec k k') as [->|D]; cbn.
    + split; [exact H|]. intros x [<-|Hx]; [now left|now right; right].
    + destruct (IH H2) as [I1 I2]. split.
      * constructor; [|exact I1]. intro Z. destruct (I2 _ Z) as [->|Z']; [congruence|contradiction].
      * intros x [<-|Hx]; [right; now left|]. destruct (I2 _ Hx) as [->|Hx']; [now left|right; now right].
Qed.
Lemma annotations_ok mn : AnnotationsOf (m_annotations mn) (buildAnnotations mn).
Proof.
  unfold buildAnnotations, AnnotationsOf. induction (m_annotations mn) as [|a l [I1 I2]] using rev_ind.
  - split; [constructor|reflexivity].
  - rewrite fold_left_app, rev_app_distr. cbn [fold_left rev app find]. split; [now apply keys_putAnn|].
    intro k. rewrite assoc_putAnn, I2, (String.eqb_sym k). destruct (String.eqb_spec (an_type a) k) as [->|D]; reflexivity.
Qed.

Lemma buildArgs_ok ts l gs b : buildArgumentsList ts l = Ok (gs, b) ->
  if b then ShortArg l gs else Forall2 ArgOf l gs.
Proof.
  assert (Hlong : forall x, (do l0 <- mapM (buildArg ts) l; Ok (l0, false)) = Ok x -> snd x = false /\ Forall2 ArgOf l (fst x)).
  { intros x H. apply bind_ok in H as (l0 & H0 & H). injection H as <-. split; [reflexivity|]. cbn.
    apply mapM_Forall2 in H0. eapply Forall2_impl; [|exact H0]. cbv beta. intros a g Hg. unfold buildArg in Hg.
    apply bind_ok in Hg as (v & Hv & Hg). injection Hg as <-. split; [reflexivity|]. split; [reflexivity|].
    exists v. split; [reflexivity|]. right. eapply parse_expr; eassumption. }
  unfold buildArgumentsList. destruct l as [|[an at_ ao [sn|]] [|a2 l]]; intro H;
    try (apply Hlong in H as [H1 H2]; cbn in H1, H2; subst b; exact H2).
  destruct (getTypeByName ts sn) as [t|] eqn:Et; [|discriminate]. destruct (negb _); [discriminate|].
  apply bind_ok in H as (v & Hv & H). injection H as <- <-. unfold getTypeByName in Et. apply find_some in Et as [_ Et].
  apply String.eqb_eq in Et. eexists _, sn, _, (t_name t). repeat (split; [reflexivity|]). split; [exact Et|].
  split; [apply lower_first|]. split; [reflexivity|]. exists v. split; [reflexivity|]. right. eapply parse_expr; eassumption.
Qed.

Lemma buildMethod_ok ts mn m : buildMethod ts mn = Ok m -> MethodOf mn m.
Proof.
  unfold buildMethod. intro H. apply bind_ok in H as ([ins si] & H1 & H). apply bind_ok in H as ([outs so] & H2 & H).
  apply buildArgs_ok in H1, H2.
  destruct ((si || so) && negb (si && so)) eqn:E; [discriminate|]. injection H as <-.
  repeat (split; [first [reflexivity|apply parseComment_lines|apply annotations_ok]|]). cbn [me_succinct me_inputs me_outputs].
  destruct si, so; try discriminate E; now split.
Qed.

Definition ServiceQ (sn : serviceNode) (s s' : service) : Prop :=
  exists ms, Forall2 MethodOf (sv_methods sn) ms /\ s' = Service_ (v_id s) (v_name s) ms (v_comments s).
Lemma service_step ts : StepOk v_name sv_name ServiceQ (resolveService ts).
Proof.
  intros ss sn ss'. unfold resolveService. intro H. apply bind_ok in H as (ms & Hms & H).
  destruct (getServiceByName ss (sv_name sn)); [|discriminate]. injection H as <-.
  eexists. split; [reflexivity|]. split; [|reflexivity]. intro x. exists ms. split; [|reflexivity].
  apply mapM_Forall2 in Hms. eapply Forall2_impl; [|exact Hms]. cbv beta. intros a b. apply buildMethod_ok.
Qed.

Definition svcSkeleton (sn : serviceNode) (i : ident) : service :=
  Service_ i (sv_name sn) [] (parseComment (sv_comment sn)).

Lemma local_services q nodes imp ts ss :
  foldM (resolveService ts) (services_of nodes) (imp ++ number q 0 (map svcSkeleton (services_of nodes))) = Ok ss ->
  NoDup (map (fun d => to_lower (sv_name d)) (services_of nodes)) ->
  (forall d x, In d (services_of nodes) -> In x imp -> to_lower (sv_name d) <> to_lower (v_name x)) ->
  exists loc, ss = imp ++ loc /\ Forall2 ServiceOf (services_of nodes) loc /\
    map v_id loc = map (pair q) (seq 0 (length (services_of nodes))).
Proof.
  intros H HND HD. set (loc0 := number q 0 (map svcSkeleton (services_of nodes))) in *.
  assert (HF0 : Forall2 (fun d a => exists i, a = svcSkeleton d i) (services_of nodes) loc0) by apply number_forall2.
  assert (E0 : map (fun t => to_lower (v_name t)) loc0 = map (fun d => to_lower (sv_name d)) (services_of nodes)).
  { clear - HF0. induction HF0 as [|a b l m (i & ->) F IH]; [reflexivity|]. cbn [map]. rewrite IH. reflexivity. }
  destruct (passes v_name sv_name ServiceQ (resolveService ts) (service_step ts) _ imp loc0 ss H HD) as (loc & -> & F);
    [now rewrite E0|exact HND|].
  exists loc. split; [reflexivity|].
  pose proof (Forall2_comp _ _ _ _ _ (Forall2_with_in _ _ _ HF0) F) as G. split.
  - eapply Forall2_impl; [|exact G]. cbv beta. intros d t' (t0 & (Hd & i & ->) & _ & P).
    destruct P as [[_ P]|(n & I1 & I2 & ms & I3 & ->)].
    + exfalso. apply (P d Hd). reflexivity.
    + assert (n = d) by (apply (NoDup_map_eq _ _ n d HND I1 Hd); exact I2). subst n.
      split; [reflexivity|]. split; [apply parseComment_lines|exact I3].
  - assert (Hids : map v_id (imp ++ loc) = map v_id (imp ++ loc0)).
    { apply (passes_proj v_name sv_name ServiceQ (resolveService ts) v_id (service_step ts)) with (l := services_of nodes); [|exact H].
      intros n t t' (ms & _ & ->). reflexivity. }
    rewrite !map_app in Hids. apply app_inv_head in Hids. rewrite Hids. now apply number_ids.
Qed.

(** ** validation *)

Lemma vtParse_ref ts v w e : vtParse ts (Some v) = Ok w -> Hole e \/ vt_expr v = e -> Hole e \/ vt_expr w = e.
Proof.
  intros H [He|He]; [now left|]. unfold vtParse in H. destruct (String.eqb (vt_expr v) ""); [discriminate|].
  apply bind_ok in H as (v' & Hp & H). injection H as <-. apply parse_iff in Hp. rewrite He in Hp.
  destruct (tree v') as [y|] eqn:Ey; [right; cbn; eapply Parsed_build; eassumption|left; eapply Parsed_hole; eassumption].
Qed.
Lemma RefTo_parse ts o w e : vtParse ts o = Ok w -> RefTo e o -> RefTo e (Some w).
Proof. intros H (v & -> & He). exists w. split; [reflexivity|]. eapply vtParse_ref; eassumption. Qed.

Lemma typeParse_keeps ts t t' d : typeParse ts t = Ok t' -> TypeOf d t -> TypeOf d t'.
Proof.
  unfold typeParse. intros H (Hn & Hk & HT).
  repeat match type of H with (if ?b then Err _ else _) = _ => destruct b; [discriminate|] end.
  destruct (String.eqb_spec (t_kind t) "alias") as [Ea|_].
  { destruct (t_type t) eqn:E; [|discriminate]. injection H as <-. split; [exact Hn|]. split; [exact Hk|]. rewrite <- E in HT. exact HT. }
  apply bind_ok in H as (_ & _ & H). destruct (String.eqb_spec (t_kind t) "enum") as [Ee|Hne].
  { apply bind_ok in H as (_ & _ & H). destruct (isValidVarType _ _); [|discriminate]. injection H as <-.
    split; [exact Hn|]. split; [exact Hk|]. exact HT. }
  apply bind_ok in H as (fs & Hfs & H). injection H as <-. destruct d as [a|e|s].
  - destruct HT as (H1 & H2). rewrite H1 in Hfs. injection Hfs as <-. split; [exact Hn|]. split; [exact Hk|]. now split.
  - exfalso. now apply Hne.
  - destruct HT as (H1 & H2 & H3 & H4). split; [exact Hn|]. split; [exact Hk|]. split; [exact H1|]. split; [exact H2|]. split; [exact H3|].
    cbn [t_fields]. apply mapM_Forall2 in Hfs. pose proof (Forall2_comp _ _ _ _ _ H4 Hfs) as G.
    eapply Forall2_impl; [|exact G]. cbv beta. intros x f' (f & (F1 & F2 & F3 & F4 & F5 & F6) & Hp). unfold parseField in Hp.
    apply bind_ok in Hp as (w & Hw & Hp). destruct (String.eqb _ _); [|discriminate]. injection Hp as <-.
    repeat (split; [assumption|]). cbn. eapply RefTo_parse; eassumption.
Qed.

Lemma args_keep ts gs gs' l : mapM (parseArg ts) gs = Ok gs' -> Forall2 ArgOf l gs -> Forall2 ArgOf l gs'.
Proof.
  intros H HF. apply mapM_Forall2 in H. pose proof (Forall2_comp _ _ _ _ _ HF H) as G.
  eapply Forall2_impl; [|exact G]. cbv beta. intros a g' (g & (A1 & A2 & A3) & Hp). unfold parseArg in Hp.
  destruct (String.eqb _ _); [discriminate|]. apply bind_ok in Hp as (w & Hw & Hp). injection Hp as <-.
  split; [exact A1|]. split; [exact A2|]. cbn. eapply RefTo_parse; eassumption.
Qed.
Lemma short_keeps ts gs gs' l : mapM (parseArg ts) gs = Ok gs' -> ShortArg l gs -> ShortArg l gs'.
Proof.
  intros H (a & n & g & T & E1 & E2 & -> & E4 & E5 & E6 & E7). cbn in H. apply bind_ok in H as (g' & Hg & H). injection H as <-.
  unfold parseArg in Hg. destruct (String.eqb _ _); [discriminate|]. apply bind_ok in Hg as (w & Hw & Hg). injection Hg as <-.
  exists a, n, (Arg_ (g_name g) (Some w) (g_optional g)), T. repeat (split; [first [assumption|reflexivity]|]). cbn. eapply RefTo_parse; eassumption.
Qed.
Lemma method_keeps ts es m m' mn : methodParse ts es m = Ok m' -> MethodOf mn m -> MethodOf mn m'.
Proof.
  intros H (M1 & M2 & M3 & M4 & M5 & M6 & M7). apply methodParse_inv in H as (ins & outs & Hi & Ho & _ & _ & _ & ->).
  repeat (split; [assumption|]). cbn. destruct (me_succinct m); destruct M7 as [M7 M8].
  - split; eapply short_keeps; eassumption.
  - split; eapply args_keep; eassumption.
Qed.
Lemma serviceParse_keeps ts es ss s s' d : serviceParse ts es ss s = Ok s' -> ServiceOf d s -> ServiceOf d s'.
Proof.
  unfold serviceParse. intros H (S1 & S2 & S3). destruct (String.eqb _ _); [discriminate|]. destruct (existsb _ _); [discriminate|].
  destruct (v_methods s) as [|m0 ms0] eqn:E; [discriminate|]. rewrite <- E in *. apply bind_ok in H as (_ & _ & H).
  apply bind_ok in H as (ms & Hms & H). injection H as <-. split; [exact S1|]. split; [exact S2|]. cbn.
  apply mapM_Forall2 in Hms. pose proof (Forall2_comp _ _ _ _ _ S3 Hms) as G. eapply Forall2_impl; [|exact G].
  cbv beta. intros a b (m & H1 & H2). eapply method_keeps; eassumption.
Qed.

Lemma parseErrors_trim todo : forall before es, parseErrors before todo = Ok es ->
  exists es', es = before ++ es' /\
    Forall2 (fun e e' => e' = Error_ (x_id e) (x_code e) (trim_space (x_name e)) (x_message e) (x_status e)) todo es'.
Proof.
  induction todo as [|e todo IH]; intros before es H; cbn in H.
  - injection H as <-. exists []. split; [symmetry; apply app_nil_r|constructor].
  - apply bind_ok in H as (e' & He & H). apply errorParse_inv in He as (_ & _ & ->).
    apply IH in H as (es' & -> & HF). eexists (_ :: es'). split; [rewrite <- app_assoc; reflexivity|]. constructor; [reflexivity|exact HF].
Qed.

(** ** assembly *)

Lemma assemble fs {D A} decls (name : D -> string) (idA : A -> ident) (R R' : D -> A -> Prop) q nodes acc loc out :
  Source fs q nodes -> Brings fs decls name idA R q (imports nodes) acc ->
  Forall2 R' (decls nodes) loc -> map idA loc = map (pair q) (seq 0 (length (decls nodes))) ->
  (forall d a, R d a -> R' d a) ->
  Forall2 (fun a a' => idA a' = idA a /\ forall d, R' d a -> R d a') (acc ++ loc) out ->
  Provides fs decls name idA R q out.
Proof.
  intros HS [B1 B2] HF Hid HRR HO.
  assert (Hloc : forall k d, nth_error (decls nodes) k = Some d -> exists a, nth_error loc k = Some a /\ idA a = (q, k) /\ R' d a).
  { intros k d Hk. pose proof (Forall2_nth _ _ _ k HF) as HN. rewrite Hk in HN.
    destruct (nth_error loc k) as [a|] eqn:Ea; [|contradiction]. exists a. split; [reflexivity|]. split; [|exact HN].
    pose proof (map_nth_error idA k loc Ea) as E1. rewrite Hid in E1.
    assert (Hlt : k < length (decls nodes)) by (apply nth_error_Some; congruence).
    assert (E2 : nth_error (map (pair q) (seq 0 (length (decls nodes)))) k = Some (q, k)).
    { apply map_nth_error. rewrite nth_error_nth' with (d := 0) by (now rewrite seq_length). now rewrite seq_nth. }
    unfold ident in *. congruence. }
  split.
  - intros a' Ha'. destruct (Forall2_in_r _ _ _ _ HO Ha') as (a & Ha & Eid & HR). rewrite Eid.
    apply in_app_iff in Ha. destruct Ha as [Ha|Ha].
    + destruct (B1 a Ha) as (i & d & H1 & H2 & H3 & H4). exists d. split; [|apply HR, HRR, H3].
      eapply Imported; eassumption.
    + apply In_nth_error in Ha as (k & Hk). pose proof (Forall2_nth _ _ _ k HF) as HN. rewrite Hk in HN.
      destruct (nth_error (decls nodes) k) as [d|] eqn:Ed; [|contradiction]. exists d. split; [|now apply HR].
      destruct (Hloc k d Ed) as (a2 & E2 & E3 & _). assert (a2 = a) by congruence. subst a2. rewrite E3. now apply Own with nodes.
  - intros id d HE. assert (HX : exists a, In a (acc ++ loc) /\ idA a = id).
    { inversion HE as [q0 nodes0 k d0 HS0 Hk|q0 nodes0 i id0 d0 HS0 Hi HE0 Hm]; subst.
      - assert (nodes0 = nodes) by (eapply Source_unique; eassumption). subst nodes0.
        destruct (Hloc k d Hk) as (a & E1 & E2 & _). exists a. split; [|exact E2]. apply in_app_iff. right. eapply nth_error_In; eassumption.
      - assert (nodes0 = nodes) by (eapply Source_unique; eassumption). subst nodes0.
        destruct (B2 i id d Hi HE0 Hm) as (a & Ha & Ea). exists a. split; [apply in_app_iff; now left|exact Ea]. }
    destruct HX as (a & Ha & <-). destruct (forall2_in_l _ _ _ _ HO Ha) as (a' & Ha' & E & _). exists a'. now split.
Qed.

Lemma fold_types l s : sc_types (fold_left (fun s p => mergeImport s (snd p) (i_members (fst p))) l s) =
  fold_left (fun acc p => mergeG t_id t_name true acc (i_members (fst p)) (sc_types (snd p))) l (sc_types s).
Proof. revert s. induction l as [|p l IH]; intro s; cbn [fold_left]; [reflexivity|]. rewrite IH. cbn. now rewrite mergeTypes_G. Qed.
Lemma fold_errors l s : sc_errors (fold_left (fun s p => mergeImport s (snd p) (i_members (fst p))) l s) =
  fold_left (fun acc p => mergeG x_id x_name true acc (i_members (fst p)) (sc_errors (snd p))) l (sc_errors s).
Proof. revert s. induction l as [|p l IH]; intro s; cbn [fold_left]; [reflexivity|]. rewrite IH. cbn. now rewrite mergeErrors_G. Qed.
Lemma fold_services l s : sc_services (fold_left (fun s p => mergeImport s (snd p) (i_members (fst p))) l s) =
  fold_left (fun acc p => mergeG v_id v_name false acc (i_members (fst p)) (sc_services (snd p))) l (sc_services s).
Proof. revert s. induction l as [|p l IH]; intro s; cbn [fold_left]; [reflexivity|]. rewrite IH. cbn. now rewrite mergeServices_G. Qed.
Lemma fold_nodup {A} (idA : A -> ident) nameA (get : schema -> list A) l acc : NoDup (map idA acc) ->
  NoDup (map idA (fold_left (fun acc p => mergeG idA nameA true acc (i_members (fst p)) (get (snd p))) (l : list (importNode * schema)) acc)).
Proof. revert acc. induction l as [|p l IH]; intros acc H; cbn [fold_left]; [exact H|]. apply IH. now apply mergeG_nodup. Qed.

Lemma setDefs_lists ds : forall s s', foldM setDef ds s = Ok s' ->
  sc_types s' = sc_types s /\ sc_errors s' = sc_errors s /\ sc_services s' = sc_services s.
Proof.
  induction ds as [|d ds IH]; intros s s' H; cbn in H; [injection H as <-; auto|].
  apply bind_ok in H as (s1 & H1 & H). apply IH in H as (-> & -> & ->). unfold setDef in H1.
  repeat match type of H1 with (if ?b then _ else _) = _ => destruct b end; try discriminate; injection H1 as <-; auto.
Qed.

Lemma distinct_pairs {A} (idA : A -> ident) (nameA : A -> string) l l' :
  map (fun a => (idA a, nameA a)) l = map (fun a => (idA a, nameA a)) l' ->
  DistinctNames idA nameA l -> DistinctNames idA nameA l'.
Proof.
  intros E H a b Ha Hb Hne.
  assert (G : forall x, In x l' -> exists y, In y l /\ idA y = idA x /\ nameA y = nameA x).
  { intros x Hx. apply (in_map (fun a => (idA a, nameA a))) in Hx. rewrite <- E in Hx. apply in_map_iff in Hx as (y & Ey & Hy).
    exists y. injection Ey as E1 E2. auto. }
  destruct (G a Ha) as (a0 & Ha0 & Ia & Na). destruct (G b Hb) as (b0 & Hb0 & Ib & Nb). rewrite <- Na, <- Nb. apply H; congruence.
Qed.

Record Content fs (q : string) (s : schema) : Prop := {
  c_types : Provides fs typeDecls declName t_id TypeOf q (sc_types s);
  c_types_once : NoDup (map t_id (sc_types s));
  c_errors : Provides fs errors_of errName x_id ErrorOf q (sc_errors s);
  c_errors_once : NoDup (map x_id (sc_errors s));
  c_services : Provides fs services_of sv_name v_id ServiceOf q (sc_services s)
}.

(** what comes from elsewhere is not declared here *)
Lemma brings_elsewhere fs u {D A} decls (name : D -> string) (idA : A -> ident) R q nodes s acc a :
  LoadsTo fs u q s -> Source fs q nodes ->
  Brings fs decls name idA R q (imports nodes) acc -> In a acc -> fst (idA a) <> q.
Proof.
  intros HL HS [B1 _] Ha E. destruct (B1 a Ha) as (i & d & Hi & HE & _). apply exports_star in HE. rewrite E in HE.
  eapply LoadsTo_no_cycle; [exact HL|]. exists (importTarget q i). split; [|exact HE]. now exists nodes, i.
Qed.

Lemma nodup_ids_app {A} (idA : A -> ident) q acc loc n : NoDup (map idA acc) -> (forall a, In a acc -> fst (idA a) <> q) ->
  map idA loc = map (pair q) (seq 0 n) -> NoDup (map idA (acc ++ loc)).
Proof.
  intros H1 H2 H3. rewrite map_app, H3. clear H3. induction acc as [|a acc IH]; cbn.
  - apply FinFun.Injective_map_NoDup; [intros x y E; congruence|apply seq_NoDup].
  - cbn in H1. inversion H1 as [|? ? N1 N2]; subst. constructor; [|apply IH; [exact N2|intros; apply H2; now right]].
    rewrite in_app_iff. intros [Z|Z]; [contradiction|]. apply in_map_iff in Z as (k & Ek & _). apply (H2 a); [now left|]. now rewrite <- Ek.
Qed.

Theorem loaded_content fs u q s : LoadsTo fs u q s -> Content fs q s.
Proof.
  intro H. induction H as [q nodes imps s HS HF HP] using LoadsTo_ind'.
  assert (HL : LoadsTo fs u q s).
  { econstructor; [exact HS| |exact HP]. eapply Forall2_impl; [|exact HF]. cbv beta. now intros a b [X _]. }
  unfold Process in HP. apply bind_ok in HP as (s0 & H0 & HP). apply bind_ok in HP as (s2 & H2 & HV).
  destruct (setDefs_lists _ _ _ H0) as (ET & EE & ES). cbn in ET, EE, ES.
  set (s1 := fold_left _ _ s0) in *.
  assert (BT : Brings fs typeDecls declName t_id TypeOf q (imports nodes) (sc_types s1)).
  { unfold s1. rewrite fold_types, ET. apply (brings_fold fs typeDecls declName t_id t_name TypeOf q true) with (done := []).
    - intros d a [E _]. exact E.
    - eapply Forall2_impl; [|exact HF]. cbv beta. intros i imp [_ C]. apply C.
    - split; [intros a []|intros i id d []]. }
  assert (BE : Brings fs errors_of errName x_id ErrorOf q (imports nodes) (sc_errors s1)).
  { unfold s1. rewrite fold_errors, EE. apply (brings_fold fs errors_of errName x_id x_name ErrorOf q true) with (done := []).
    - intros d a [E _]. exact E.
    - eapply Forall2_impl; [|exact HF]. cbv beta. intros i imp [_ C]. apply C.
    - split; [intros a []|intros i id d []]. }
  assert (BS : Brings fs services_of sv_name v_id ServiceOf q (imports nodes) (sc_services s1)).
  { unfold s1. rewrite fold_services, ES. apply (brings_fold fs services_of sv_name v_id v_name ServiceOf q false) with (done := []).
    - intros d a [E _]. exact E.
    - eapply Forall2_impl; [|exact HF]. cbv beta. intros i imp [_ C]. apply C.
    - split; [intros a []|intros i id d []]. }
  assert (NT : NoDup (map t_id (sc_types s1))) by (unfold s1; rewrite fold_types, ET; apply fold_nodup; constructor).
  assert (NE : NoDup (map x_id (sc_errors s1))) by (unfold s1; rewrite fold_errors, EE; apply fold_nodup; constructor).
  clearbody s1. unfold buildLocal in H2.
  apply bind_ok in H2 as (ts1 & P1 & H2). apply bind_ok in H2 as (ts2 & P2 & H2).
  apply bind_ok in H2 as (ts3 & P3 & H2). apply bind_ok in H2 as (ss & P4 & H2). injection H2 as <-.
  apply validate_inv in HV as (b & ts & es & ss' & _ & _ & _ & VT_ & VE & VS & ->). cbn [sc_types sc_errors sc_services] in *.
  (* types *)
  assert (Hpairs : map (fun t => (t_id t, t_name t)) ts3 = map (fun t => (t_id t, t_name t)) (sc_types s1 ++ number q 0 (pass1Types q nodes))).
  { rewrite (passes_proj t_name s_name StructQ resolveStruct (fun t => (t_id t, t_name t)) struct_step) with (ts := ts2) (l := structs nodes);
      [|intros n t t' (x & _ & ->); reflexivity|exact P3].
    rewrite (passes_proj t_name e_name EnumQ resolveEnum (fun t => (t_id t, t_name t)) enum_step) with (ts := ts1) (l := enums nodes);
      [|intros n t t' (x & _ & ->); reflexivity|exact P2].
    apply (passes_proj t_name al_name AliasQ resolveAlias (fun t => (t_id t, t_name t)) alias_step) with (l := typeAliases nodes); [|exact P1].
    intros n t t' (x & _ & ->); reflexivity. }
  assert (Dist3 : DistinctNames t_id t_name ts3).
  { intros x y Hx Hy Hne E. apply mapM_Forall2 in VT_. destruct (forall2_in_l _ _ _ _ VT_ Hy) as (y' & _ & Py).
    apply typeParse_inv in Py as (_ & _ & _ & Hd). exact (Hd x Hx Hne E). }
  assert (Dist0 : DistinctNames t_id t_name (sc_types s1 ++ number q 0 (pass1Types q nodes))) by (eapply distinct_pairs; eassumption).
  assert (Hlocids : map t_id (number q 0 (pass1Types q nodes)) = map (pair q) (seq 0 (length (typeDecls nodes))))
    by (rewrite pass1_skeleton; now apply number_ids).
  assert (ND0 : NoDup (map t_id (sc_types s1 ++ number q 0 (pass1Types q nodes)))).
  { eapply nodup_ids_app; [exact NT| |exact Hlocids]. intros a Ha. eapply brings_elsewhere; eassumption. }
  pose proof (distinct_nodup _ _ _ ND0 Dist0) as NN.
  rewrite map_app in NN. rewrite pass1_skeleton in NN. rewrite decl_names in NN.
  destruct (local_types q nodes (sc_types s1) ts1 ts2 ts3 P1 P2 P3) as (loc & -> & LT & Lid).
  { now apply NoDup_app_r in NN. }
  { intros d x Hd Hx E. clear - NN Hd Hx E. induction (sc_types s1) as [|y l IH]; [destruct Hx|]. cbn in NN.
    inversion NN as [|? ? N1 N2]; subst. destruct Hx as [->|Hx]; [|now apply IH]. apply N1. apply in_app_iff. right.
    rewrite <- E. now apply (in_map (fun d => to_lower (declName d))). }
  (* services *)
  assert (Hsp : map (fun t => (v_id t, v_name t)) ss = map (fun t => (v_id t, v_name t)) (sc_services s1 ++ number q 0 (map svcSkeleton (services_of nodes)))).
  { apply (passes_proj v_name sv_name ServiceQ (resolveService (sc_types s1 ++ loc)) (fun t => (v_id t, v_name t)) (service_step (sc_types s1 ++ loc))) with (l := services_of nodes); [|exact P4].
    intros n t t' (x & _ & ->); reflexivity. }
  assert (SDist3 : DistinctNames v_id v_name ss).
  { intros x y Hx Hy Hne E. apply mapM_Forall2 in VS. destruct (forall2_in_l _ _ _ _ VS Hy) as (y' & _ & Py).
    apply serviceParse_inv in Py as (_ & _ & _ & Hd & _). exact (Hd x Hx Hne E). }
  assert (SDist0 : DistinctNames v_id v_name (sc_services s1 ++ number q 0 (map svcSkeleton (services_of nodes)))) by (eapply distinct_pairs; eassumption).
  assert (Slocids : map v_id (number q 0 (map svcSkeleton (services_of nodes))) = map (pair q) (seq 0 (length (services_of nodes))))
    by now apply number_ids.
  assert (SF : Forall2 (fun d a => exists i, a = svcSkeleton d i) (services_of nodes) (number q 0 (map svcSkeleton (services_of nodes)))) by apply number_forall2.
  destruct (local_services q nodes (sc_services s1) _ ss P4) as (sloc & -> & LS_ & SLid).
  { assert (E0 : map (fun t => to_lower (v_name t)) (number q 0 (map svcSkeleton (services_of nodes))) = map (fun d => to_lower (sv_name d)) (services_of nodes)).
    { clear - SF. induction SF as [|a b l m (i & ->) F IH]; [reflexivity|]. cbn [map]. rewrite IH. reflexivity. }
    rewrite <- E0. apply (distinct_nodup v_id v_name).
    - rewrite Slocids. apply FinFun.Injective_map_NoDup; [intros x y E; congruence|apply seq_NoDup].
    - intros x y Hx Hy. apply SDist0; apply in_app_iff; now right. }
  { intros d x Hd Hx E. destruct (forall2_in_l _ _ _ _ SF Hd) as (y & Hy & i & Ey).
    assert (Hyid : fst (v_id y) = q).
    { apply (in_map v_id) in Hy. rewrite Slocids in Hy. apply in_map_iff in Hy as (k & Ek & _). now rewrite <- Ek. }
    apply (SDist0 x y); [apply in_app_iff; now left|apply in_app_iff; now right| |].
    - intro Z. apply (brings_elsewhere fs u services_of sv_name v_id ServiceOf q nodes _ _ x HL HS BS Hx). now rewrite Z.
    - rewrite Ey. cbn. symmetry. exact E. }
  split; cbn [sc_types sc_errors sc_services].
  - eapply (assemble fs typeDecls declName t_id TypeOf TypeOf); [exact HS|exact BT|exact LT|exact Lid|auto|].
    apply mapM_Forall2 in VT_. eapply Forall2_impl; [|exact VT_]. cbv beta. intros t t' Ht. split.
    + apply typeParse_inv in Ht. tauto.
    + intros d. eapply typeParse_keeps; eassumption.
  - destruct (types_ok _ _ VT_) as (Hid & _). rewrite Hid. eapply nodup_ids_app; [exact NT| |exact Lid].
    intros a Ha. eapply brings_elsewhere; eassumption.
  - set (ErrPre := fun en x => trim_space (x_name x) = errName en /\ x_message x = er_message en /\ Number (er_code en) (x_code x) /\
       match er_status en with Some s => Number s (x_status x) | None => x_status x = 400%Z end).
    apply parseErrors_trim in VE as (es' & -> & HE). cbn [app].
    eapply (assemble fs errors_of errName x_id ErrorOf ErrPre) with (loc := number q 0 (map buildError (errors_of nodes))); [exact HS|exact BE| | | |].
    + eapply Forall2_impl; [|apply number_forall2]. cbv beta. intros d a (i & ->). unfold ErrPre. split; [reflexivity|]. split; [reflexivity|]. split; [apply parseInt32_number|].
      cbn. destruct (er_status d); [apply parseInt32_number|reflexivity].
    + now apply number_ids.
    + intros d a (E1 & E2). split; [|exact E2]. rewrite E1. unfold errName. apply trim_space_idem.
    + eapply Forall2_impl; [|exact HE]. cbv beta. intros e e' ->. split; [reflexivity|]. intros d (E1 & E2). now split.
  - apply parseErrors_trim in VE as (es' & -> & HE). cbn [app].
    assert (Eid : map x_id es' = map x_id (sc_errors s1 ++ number q 0 (map buildError (errors_of nodes)))).
    { clear - HE. induction HE as [|a b l m -> F IH]; [reflexivity|]. cbn [map]. now rewrite IH. }
    rewrite Eid. eapply nodup_ids_app; [exact NE| |now apply number_ids]. intros a Ha. eapply brings_elsewhere; eassumption.
  - eapply (assemble fs services_of sv_name v_id ServiceOf ServiceOf); [exact HS|exact BS|exact LS_|exact SLid|auto|].
    apply mapM_Forall2 in VS. eapply Forall2_impl; [|exact VS]. cbv beta. intros t t' Ht. split.
    + apply serviceParse_inv in Ht. tauto.
    + intros d. eapply serviceParse_keeps; eassumption.
Qed.

(** ** the header *)

Definition headerField (key : string) (s : schema) : string :=
  if String.eqb key "webrpc" then sc_webrpc s
  else if String.eqb key "name" then sc_name s
  else if String.eqb key "version" then sc_version s
  else sc_basepath s.

Lemma setDef_header d s s' : setDef s d = Ok s' ->
  (In (d_left d) ["webrpc"; "name"; "version"; "basepath"]) /\ headerField (d_left d) s = "" /\ headerField (d_left d) s' = d_right d /\
  forall k, In k ["webrpc"; "name"; "version"; "basepath"] -> k <> d_left d -> headerField k s' = headerField k s.
Proof.
  unfold setDef. intro H.
  destruct (String.eqb_spec (d_left d) "webrpc") as [E|N1]; [|destruct (String.eqb_spec (d_left d) "name") as [E|N2];
    [|destruct (String.eqb_spec (d_left d) "basepath") as [E|N3]; [|destruct (String.eqb_spec (d_left d) "version") as [E|N4]; [|discriminate]]]].
  all: match type of H with (if String.eqb ?x "" then _ else _) = _ => destruct (String.eqb_spec x "") as [E0|]; [|discriminate] end;
    injection H as <-; rewrite E; split; [cbn; tauto|]; split; [exact E0|]; split; [reflexivity|];
    intros k Hk Hne; cbn in Hk; destruct Hk as [<-|[<-|[<-|[<-|[]]]]]; first [reflexivity|contradiction].
Qed.

Lemma header_keep k ds : forall s s', foldM setDef ds s = Ok s' -> In k ["webrpc"; "name"; "version"; "basepath"] ->
  headerField k s <> "" -> headerField k s' = headerField k s /\ forall d, In d ds -> d_left d <> k.
Proof.
  induction ds as [|d ds IH]; intros s s' H Hk Hne; cbn in H; [injection H as <-; split; [reflexivity|intros d []]|].
  apply bind_ok in H as (s1 & H1 & H). destruct (setDef_header _ _ _ H1) as (_ & D2 & _ & D4).
  assert (Hd : d_left d <> k) by (intro E; subst k; contradiction).
  assert (E1 : headerField k s1 = headerField k s) by (apply D4; [exact Hk|congruence]).
  destruct (IH s1 s' H Hk) as [I1 I2]; [now rewrite E1|]. split; [congruence|]. intros x [<-|Hx]; [exact Hd|now apply I2].
Qed.

Lemma header_defs k ds : forall s s', foldM setDef ds s = Ok s' -> In k ["webrpc"; "name"; "version"; "basepath"] ->
  (forall d, In d ds -> d_left d = k -> d_right d <> "" -> headerField k s' = d_right d) /\
  ((forall d, In d ds -> d_left d <> k) -> headerField k s' = headerField k s).
Proof.
  induction ds as [|d ds IH]; intros s s' H Hk; cbn in H; [injection H as <-; split; [intros d []|reflexivity]|].
  apply bind_ok in H as (s1 & H1 & H). destruct (setDef_header _ _ _ H1) as (_ & D2 & D3 & D4). destruct (IH _ _ H Hk) as [I1 I2]. split.
  - intros x [<-|Hx] E Hne; [|now apply I1]. rewrite E in D3.
    destruct (header_keep k ds s1 s' H Hk) as [K1 _]; [now rewrite D3|]. now rewrite K1.
  - intro Hn. rewrite I2; [apply D4; [exact Hk|]|]; [intro E; apply (Hn d); [now left|now symmetry]|intros x Hx; apply Hn; now right].
Qed.

Lemma merge_header l k : forall s, headerField k (fold_left (fun s p => mergeImport s (snd p) (i_members (fst p))) l s) = headerField k s.
Proof. induction l as [|p l IH]; intro s; cbn [fold_left]; [reflexivity|]. now rewrite IH. Qed.

Lemma loaded_header fs u q s nodes k : LoadsTo fs u q s -> Source fs q nodes -> In k ["webrpc"; "name"; "version"] ->
  (forall d, In d (definitions nodes) -> d_left d = k -> d_right d <> "" -> headerField k s = d_right d) /\
  ((forall d, In d (definitions nodes) -> d_left d <> k) -> headerField k s = "").
Proof.
  intros H HS Hk. inversion H as [q0 nodes0 imps s' HS0 HF HP]; subst.
  assert (nodes0 = nodes) by (eapply Source_unique; eassumption). subst nodes0. unfold Process in HP.
  apply bind_ok in HP as (s0 & H0 & HP). apply bind_ok in HP as (s2 & H2 & HV).
  assert (E : headerField k s = headerField k s0).
  { apply validate_inv in HV as (b & ts & es & ss & _ & _ & _ & _ & _ & _ & ->).
    unfold buildLocal in H2. apply bind_ok in H2 as (? & _ & H2). apply bind_ok in H2 as (? & _ & H2).
    apply bind_ok in H2 as (? & _ & H2). apply bind_ok in H2 as (? & _ & H2). injection H2 as <-.
    rewrite <- (merge_header (combine (imports nodes) imps) k s0).
    destruct Hk as [<-|[<-|[<-|[]]]]; reflexivity. }
  rewrite E. destruct (header_defs k _ _ _ H0) as [I1 I2]; [cbn in *; tauto|]. split; [exact I1|]. intro Hn. rewrite (I2 Hn).
  destruct Hk as [<-|[<-|[<-|[]]]]; reflexivity.
Qed.
