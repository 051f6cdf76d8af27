(** The loader (cache, import graph, fuel) implements LoadsTo. *)
From Verif Require Import Base BaseProofs Graph GraphSpec GraphProofs Ast Parser Schema TypeProofs Ridl LoadSpec.

Lemma NoDup_app_snoc {A} (l : list A) x : NoDup l -> ~ In x l -> NoDup (l ++ [x]).
Proof.
  intros H Hx. induction H as [|y l Hy H IH]; cbn; [constructor; [intros []|constructor]|].
  constructor; [|apply IH; intro Z; apply Hx; now right]. rewrite in_app_iff. intros [Z|[Z|[]]]; [tauto|]. subst. apply Hx. now left.
Qed.

(** ** the graph operations *)

Lemma assoc_setAdj adj u l x : assoc x (setAdj adj u l) = if String.eqb x u then Some l else assoc x adj.
Proof.
  induction adj as [|[k v] r IH]; cbn [setAdj assoc].
  - reflexivity.
  - destruct (String.eqb_spec u k) as [->|D]; cbn [assoc].
    + now destruct (String.eqb_spec x k).
    + rewrite IH. destruct (String.eqb_spec x k) as [->|D2]; [|reflexivity].
      destruct (String.eqb_spec k u); [congruence|reflexivity].
Qed.

Lemma edge_addEdge g u v x y : Edge (g_adj (addEdge g u v)) x y <-> Edge (g_adj g) x y \/ (x = u /\ y = v).
Proof.
  unfold addEdge. destruct (str_in v (adjacent (g_adj g) u)) eqn:E.
  - split; [tauto|]. intros [H|[-> ->]]; [exact H|]. apply edge_adjacent. now apply str_in_In.
  - cbn [g_adj]. rewrite !edge_adjacent. unfold adjacent at 1. rewrite assoc_setAdj.
    destruct (String.eqb_spec x u) as [->|D].
    + rewrite in_app_iff. cbn. intuition (subst; auto).
    + fold (adjacent (g_adj g) x). intuition congruence.
Qed.
Lemma nodes_addEdge g u v : g_nodes (addEdge g u v) = g_nodes g.
Proof. unfold addEdge. now destruct (str_in _ _). Qed.
Lemma adj_addNode g n : g_adj (addNode g n) = g_adj g.
Proof. unfold addNode. now destruct (str_in _ _). Qed.
Lemma nodes_addNode g n x : In x (g_nodes (addNode g n)) <-> In x (g_nodes g) \/ x = n.
Proof.
  unfold addNode. destruct (str_in n (g_nodes g)) eqn:E; cbn [g_nodes].
  - apply str_in_In in E. intuition (subst; auto).
  - rewrite in_app_iff. cbn. intuition.
Qed.

Definition withImport (g : graph) (p ip : string) : graph := addEdge (addNode g ip) p ip.

Lemma edge_with g p ip x y : Edge (g_adj (withImport g p ip)) x y <-> Edge (g_adj g) x y \/ (x = p /\ y = ip).
Proof. unfold withImport. now rewrite edge_addEdge, adj_addNode. Qed.
Lemma nodes_with g p ip x : In x (g_nodes (withImport g p ip)) <-> In x (g_nodes g) \/ x = ip.
Proof. unfold withImport. now rewrite nodes_addEdge, nodes_addNode. Qed.

Lemma path_with g p ip x y : Path (g_adj (withImport g p ip)) x y ->
  Path (g_adj g) x y \/ (Path (g_adj g) x p /\ Path (g_adj g) ip y).
Proof.
  intro P. induction P as [u|u w v E P IH]; [left; constructor|].
  apply edge_with in E. destruct E as [E|[-> ->]].
  - destruct IH as [IH|[I1 I2]]; [left; econstructor; eassumption|]. right. split; [econstructor; eassumption|exact I2].
  - right. split; [constructor|]. destruct IH as [IH|[_ IH]]; exact IH.
Qed.

(** a new edge makes an acyclic graph circular only by a path back *)
Lemma circular_with g p ip : (forall u v, Edge (g_adj g) u v -> In u (g_nodes g)) -> ~ Circular g ->
  Circular (withImport g p ip) -> Path (g_adj g) ip p.
Proof.
  intros HS HA (n & u & Hn & HP & w & E & P).
  assert (Hold : Edge (g_adj g) u w -> Path (g_adj g) w u -> False).
  { intros E1 P1. apply HA. exists u, u. split; [eapply HS; exact E1|]. split; [constructor|]. exists w. now split. }
  apply edge_with in E. apply path_with in P. destruct E as [E|[-> ->]].
  - destruct P as [P|[P1 P2]]; [exfalso; now apply Hold|].
    eapply path_trans; [exact P2|]. econstructor; eassumption.
  - destruct P as [P|[_ P]]; exact P.
Qed.

Lemma path_mono g p ip x y : Path (g_adj g) x y -> Path (g_adj (withImport g p ip)) x y.
Proof. intro P. induction P; [constructor|]. econstructor; [|eassumption]. apply edge_with. now left. Qed.

(** ** the invariant *)

Definition keys (st : lstate) : list string := map fst (l_cache st).

Record Inv fs u (root : string) (active : list string) (st : lstate) : Prop := {
  i_edges : forall l1 a b l2, active = l1 ++ a :: b :: l2 -> Edge (g_adj (l_graph st)) b a;
  i_nodes : incl active (g_nodes (l_graph st));
  i_src : forall x y, Edge (g_adj (l_graph st)) x y -> In x (g_nodes (l_graph st));
  i_real : forall x y, Edge (g_adj (l_graph st)) x y -> Imports fs x y;
  i_acyc : ~ Circular (l_graph st);
  i_nodup : NoDup active;
  i_keys : forall x, In x (keys st) -> ~ In x active;
  i_cache : forall q s, In (q, s) (l_cache st) -> LoadsTo fs u q s;
  i_closed : forall q v, In q (keys st) -> Imports fs q v -> In v (keys st);
  i_reach : forall q, In q (keys st) \/ In q active -> ImportStar fs root q;
  i_reads : NoDup (l_reads st)
}.

Definition readSet (st : lstate) (active : list string) : Prop :=
  forall x, In x (l_reads st) <-> In x (keys st) \/ In x active.

Lemma import_star_snoc fs q r x : ImportStar fs q r -> Imports fs r x -> ImportStar fs q x.
Proof. intros H I. induction H; [econstructor; [exact I|constructor]|]. econstructor; eauto. Qed.
Lemma import_star_trans fs q r x : ImportStar fs q r -> ImportStar fs r x -> ImportStar fs q x.
Proof. intros H I. induction H; [exact I|]. econstructor; eauto. Qed.

Lemma path_real fs u root active st x y : Inv fs u root active st -> Path (g_adj (l_graph st)) x y -> ImportStar fs x y.
Proof. intros HI P. induction P; [constructor|]. econstructor; [eapply i_real; eassumption|assumption]. Qed.

(** every active file leads to the innermost one *)
Lemma active_path adj a l : (forall l1 x y l2, a :: l = l1 ++ x :: y :: l2 -> Edge adj y x) ->
  forall b, In b (a :: l) -> Path adj b a.
Proof.
  revert a. induction l as [|c l IH]; intros a H b Hb.
  - destruct Hb as [<-|[]]. constructor.
  - destruct Hb as [<-|Hb]; [constructor|]. eapply path_snoc.
    + apply (IH c); [|exact Hb]. intros l1 x y l2 E. apply (H (a :: l1) x y l2). cbn. now rewrite E.
    + apply (H [] a c l). reflexivity.
Qed.

Lemma Inv_acyclic_with fs u root p parents st ip :
  Inv fs u root (p :: parents) st -> Imports fs p ip -> ~ In ip (keys st) ->
  forall b, isCircular (withImport (l_graph st) p ip) = Some b ->
  (b = true -> ImportStar fs ip p) /\
  (b = false -> Inv fs u root (ip :: p :: parents) (LS (withImport (l_graph st) p ip) (l_cache st) (l_reads st))).
Proof.
  intros HI Himp Hk b Hb. destruct (isCircular_ok (withImport (l_graph st) p ip)) as (b' & E & Hc).
  rewrite E in Hb. injection Hb as ->. split.
  - intro T. apply Hc in T. apply circular_with in T; [|apply (i_src _ _ _ _ _ HI)|apply (i_acyc _ _ _ _ _ HI)].
    eapply path_real; eassumption.
  - intro F. assert (HA : ~ Circular (withImport (l_graph st) p ip)) by (intro Z; apply Hc in Z; congruence).
    assert (Hnip : ~ In ip (p :: parents)).
    { intro Z. apply HA. exists ip, ip. split; [apply nodes_with; now right|]. split; [constructor|].
      pose proof (active_path (g_adj (l_graph st)) p parents (i_edges _ _ _ _ _ HI) ip Z) as P.
      apply (path_mono (l_graph st) p ip) in P. inversion P as [x E0 E1|x w y E1 P1].
      - exists p. split; [apply edge_with; right; now split|constructor].
      - exists w. split; [exact E1|]. eapply path_snoc; [exact P1|]. apply edge_with. now right. }
    split; cbn [l_graph l_cache l_reads].
    + intros l1 a c l2 EQ. apply edge_with. destruct l1 as [|x l1]; cbn in EQ.
      * injection EQ as <- <- _. now right.
      * injection EQ as _ EQ. left. eapply i_edges; eassumption.
    + intros x [<-|Hx]; apply nodes_with; [now right|]. left. eapply i_nodes; eassumption.
    + intros x y Ex. apply edge_with in Ex. apply nodes_with. left. destruct Ex as [Ex|[-> ->]].
      * eapply i_src; eassumption.
      * eapply i_nodes; [eassumption|]. now left.
    + intros x y Ex. apply edge_with in Ex. destruct Ex as [Ex|[-> ->]]; [eapply i_real; eassumption|exact Himp].
    + exact HA.
    + constructor; [exact Hnip|]. exact (i_nodup _ _ _ _ _ HI).
    + intros x Hx [<-|Z]; [contradiction|]. exact (i_keys _ _ _ _ _ HI x Hx Z).
    + exact (i_cache _ _ _ _ _ HI).
    + exact (i_closed _ _ _ _ _ HI).
    + intros q [Hq|[<-|Hq]].
      * eapply i_reach; [eassumption|]. now left.
      * eapply import_star_snoc; [|exact Himp]. eapply i_reach; [eassumption|]. right. now left.
      * eapply i_reach; [eassumption|]. now right.
    + exact (i_reads _ _ _ _ _ HI).
Qed.

(** ** the loader *)

(** the source of some file reached from [p] makes the parser hang *)
Definition Hangs fs (p : string) : Prop :=
  exists q src, ImportStar fs p q /\ assoc q fs = Some src /\ parseRidl src = ParseLoop.

Definition Post fs u root p parents (st : lstate) (r : lstate * lres schema) : Prop :=
  let (st', x) := r in
  NoDup (l_reads st') /\
  match x with
  | LOk s =>
      Inv fs u root (p :: parents) st' /\ readSet st' (p :: parents) /\ incl (keys st) (keys st') /\
      (forall v, Imports fs p v -> In v (keys st')) /\ LoadsTo fs u p s
  | LErr e None => Blames fs u p e
  | LErr e (Some stack) =>
      exists front q, stack = q :: front ++ p :: parents /\ ImportChain fs (q :: front ++ [p]) /\ Blames fs u q e /\ NoDup stack
  | LPanic => exists q, ImportStar fs p q /\ Crashes fs u q
  | LFuel => Hangs fs p
  end.

Definition PreL fs u root p parents st : Prop :=
  Inv fs u root (p :: parents) st /\ readSet st parents /\ ~ In p (keys st) /\ incl parents (map fst fs).

Definition goodLoader fs u root (ld : string -> list string -> M schema) parents : Prop :=
  forall p st, PreL fs u root p parents st -> Post fs u root p parents st (ld p parents st).

Lemma hangs_import fs p r : Imports fs p r -> Hangs fs r -> Hangs fs p.
Proof. intros I (q & src & S & R). exists q, src. split; [econstructor; eassumption|exact R]. Qed.

Definition PostImport fs u root p parents st ip (r : lstate * lres schema) : Prop :=
  let (st', x) := r in
  NoDup (l_reads st') /\
  match x with
  | LOk imp =>
      Inv fs u root (p :: parents) st' /\ readSet st' (p :: parents) /\ incl (keys st) (keys st') /\
      In ip (keys st') /\ LoadsTo fs u ip imp
  | LErr e None => Blames fs u p e
  | LErr e (Some stack) =>
      exists front q, stack = q :: front ++ p :: parents /\ ImportChain fs (q :: front ++ [p]) /\ Blames fs u q e /\ NoDup stack
  | LPanic => exists q, ImportStar fs p q /\ Crashes fs u q
  | LFuel => Hangs fs p
  end.

Lemma chain_extend fs l p q : ImportChain fs (l ++ [p]) -> Imports fs q p -> ImportChain fs (l ++ [p; q]).
Proof.
  induction l as [|a l IH]; intros H I; cbn in *.
  - constructor; [exact I|constructor].
  - destruct l as [|b l]; cbn in *.
    + inversion H as [|? ? ? H1 H2]; subst. constructor; [exact H1|]. constructor; [exact I|constructor].
    + inversion H as [|? ? ? H1 H2]; subst. constructor; [exact H1|]. now apply IH.
Qed.

Lemma importOne_ok fs u root ld p parents i st :
  goodLoader fs u root ld (p :: parents) ->
  Inv fs u root (p :: parents) st -> readSet st (p :: parents) -> incl (p :: parents) (map fst fs) ->
  Imports fs p (importTarget p i) ->
  PostImport fs u root p parents st (importTarget p i) (importOne ld p parents i st).
Proof.
  intros Hld HI HR Hinc Himp. unfold importOne. set (ip := importTarget p i) in *.
  destruct (assoc ip (l_cache st)) as [imp|] eqn:Ea.
  - apply assoc_In in Ea. cbn. split; [eapply i_reads; eassumption|]. split; [exact HI|]. split; [exact HR|].
    split; [apply incl_refl|]. split; [change ip with (fst (ip, imp)); now apply in_map|]. eapply i_cache; eassumption.
  - assert (Hk : ~ In ip (keys st)).
    { unfold keys. intro Z. apply in_map_iff in Z. destruct Z as ([k s] & E & Z). cbn in E. subst k.
      clear - Ea Z. induction (l_cache st) as [|[k w] m IH]; [destruct Z|]. cbn in Ea.
      destruct (String.eqb_spec ip k) as [->|D]; [discriminate|]. destruct Z as [Z|Z]; [congruence|]. now apply IH. }
    unfold lbind, importParser. cbn [l_graph l_cache l_reads]. fold (withImport (l_graph st) p ip).
    destruct (isCircular_ok (withImport (l_graph st) p ip)) as (b & E & _). rewrite E.
    destruct (Inv_acyclic_with fs u root p parents st ip HI Himp Hk b E) as [HT HF].
    destruct b.
    + cbn. split; [eapply i_reads; eassumption|]. split; [reflexivity|]. split; [exact Himp|]. now apply HT.
    + specialize (HF eq_refl). set (st1 := LS _ _ _) in *.
      assert (HP : Post fs u root ip (p :: parents) st1 (ld ip (p :: parents) st1)).
      { apply Hld. split; [exact HF|]. split; [exact HR|]. split; [exact Hk|exact Hinc]. }
      unfold newImportError. destruct (ld ip (p :: parents) st1) as [st2 x]. destruct HP as [HN HP].
      destruct x as [imp|e [stack|]| |]; cbn.
      * destruct HP as (P1 & P2 & P3 & P4 & P5). split; [exact HN|].
        assert (Hnip : ~ In ip (p :: parents)) by (pose proof (i_nodup _ _ _ _ _ P1) as N; inversion N; assumption).
        split; [|split; [|split; [|split]]].
        -- split; cbn [l_graph l_cache l_reads].
           ++ intros l1 a c l2 EQ. apply (i_edges _ _ _ _ _ P1 (ip :: l1) a c l2). cbn. now rewrite EQ.
           ++ intros y Hy. apply (i_nodes _ _ _ _ _ P1). now right.
           ++ apply (i_src _ _ _ _ _ P1).
           ++ apply (i_real _ _ _ _ _ P1).
           ++ apply (i_acyc _ _ _ _ _ P1).
           ++ pose proof (i_nodup _ _ _ _ _ P1) as N. now inversion N.
           ++ intros y [<-|Hy]; [exact Hnip|]. intro Z. apply (i_keys _ _ _ _ _ P1 y Hy). now right.
           ++ intros q s [Q|Q]; [injection Q as <- <-; exact P5|]. apply (i_cache _ _ _ _ _ P1 q s Q).
           ++ intros q v [<-|Q] Iv; [right; now apply P4|]. right. eapply (i_closed _ _ _ _ _ P1); eassumption.
           ++ intros q [[<-|Q]|Q]; apply (i_reach _ _ _ _ _ P1); [right; now left|now left|right; now right].
           ++ exact HN.
        -- intro y. cbn [l_reads]. rewrite (P2 y). cbn. tauto.
        -- intros y Hy. right. now apply P3.
        -- now left.
        -- exact P5.
      * split; [exact HN|]. destruct HP as (front & q & E1 & E2 & E3). exists (front ++ [ip]), q.
        split; [rewrite E1, <- app_assoc; reflexivity|]. split; [|exact E3].
        rewrite <- app_assoc. cbn. apply (chain_extend fs (q :: front) ip p E2 Himp).
      * split; [exact HN|]. exists [], ip. split; [reflexivity|]. split; [constructor; [exact Himp|constructor]|]. split; [exact HP|]. exact (i_nodup _ _ _ _ _ HF).
      * split; [exact HN|]. destruct HP as (q & Q1 & Q2). exists q. split; [|exact Q2]. econstructor; eassumption.
      * split; [exact HN|]. eapply hangs_import; eassumption.
Qed.

Lemma importsLoop_ok fs u root ld p parents : goodLoader fs u root ld (p :: parents) ->
  incl (p :: parents) (map fst fs) ->
  forall l s st, (forall i, In i l -> Imports fs p (importTarget p i)) ->
  Inv fs u root (p :: parents) st -> readSet st (p :: parents) ->
  let (st', x) := importsLoop ld p parents l s st in
  NoDup (l_reads st') /\
  match x with
  | LOk s' =>
      Inv fs u root (p :: parents) st' /\ readSet st' (p :: parents) /\ incl (keys st) (keys st') /\
      (forall i, In i l -> In (importTarget p i) (keys st')) /\
      exists imps, Forall2 (fun i imp => LoadsTo fs u (importTarget p i) imp) l imps /\
        s' = fold_left (fun s p => mergeImport s (snd p) (i_members (fst p))) (combine l imps) s
  | LErr e None => Blames fs u p e
  | LErr e (Some stack) =>
      exists front q, stack = q :: front ++ p :: parents /\ ImportChain fs (q :: front ++ [p]) /\ Blames fs u q e /\ NoDup stack
  | LPanic => exists q, ImportStar fs p q /\ Crashes fs u q
  | LFuel => Hangs fs p
  end.
Proof.
  intros Hld Hinc. induction l as [|i l IH]; intros s st Hi HI HR; cbn [importsLoop].
  - cbn. split; [eapply i_reads; eassumption|]. split; [exact HI|]. split; [exact HR|]. split; [apply incl_refl|].
    split; [intros i []|]. exists []. split; [constructor|reflexivity].
  - unfold lbind.
    pose proof (importOne_ok fs u root ld p parents i st Hld HI HR Hinc (Hi i (or_introl eq_refl))) as HO.
    destruct (importOne ld p parents i st) as [st1 x]. destruct HO as [HN HO].
    destruct x as [imp|e k| |]; [|split; [exact HN|exact HO]|split; [exact HN|exact HO]|split; [exact HN|exact HO]].
    destruct HO as (O1 & O2 & O3 & O4 & O5).
    specialize (IH (mergeImport s imp (i_members i)) st1 (fun j Hj => Hi j (or_intror Hj)) O1 O2).
    destruct (importsLoop ld p parents l (mergeImport s imp (i_members i)) st1) as [st2 y].
    destruct IH as [HN2 IH]. split; [exact HN2|]. destruct y as [s'|e k| |]; try exact IH.
    destruct IH as (I1 & I2 & I3 & I4 & imps & I5 & I6). split; [exact I1|]. split; [exact I2|].
    split; [eapply incl_tran; eassumption|]. split.
    + intros j [<-|Hj]; [now apply I3|now apply I4].
    + exists (imp :: imps). split; [now constructor|exact I6].
Qed.

(** no OutOfFuel outside the parser *)
Lemma mapM_fuel {A B} (f : A -> result B) l : (forall x, f x <> OutOfFuel) -> mapM f l <> OutOfFuel.
Proof.
  intro H. induction l as [|x l IH]; cbn; [discriminate|]. specialize (H x). destruct (f x); cbn; try congruence.
  destruct (mapM f l); cbn; congruence.
Qed.
Lemma foldM_fuel {A B} (f : B -> A -> result B) l : (forall b x, f b x <> OutOfFuel) -> forall b, foldM f l b <> OutOfFuel.
Proof.
  intro H. induction l as [|x l IH]; intro b; cbn; [discriminate|]. specialize (H b x). destruct (f b x); cbn; congruence.
Qed.

Lemma foldM_no_panic {A B} (f : B -> A -> result B) l : (forall b x, f b x <> Panic) -> forall b, foldM f l b <> Panic.
Proof.
  intro H. induction l as [|x l IH]; intro b; cbn; [discriminate|]. specialize (H b x). destruct (f b x); cbn; congruence.
Qed.
Lemma setDef_no_panic s d : setDef s d <> Panic.
Proof. unfold setDef. repeat match goal with |- context [if ?b then _ else _] => destruct b end; discriminate. Qed.

Lemma bind_fuel {A B} (x : result A) (f : A -> result B) :
  x <> OutOfFuel -> (forall a, x = Ok a -> f a <> OutOfFuel) -> bind x f <> OutOfFuel.
Proof. destruct x; cbn; intros; try congruence. now apply H0. Qed.

Ltac nofuel := repeat first
  [ apply bind_fuel; [|intros ? _] | apply mapM_fuel; intros ? | apply foldM_fuel; intros ? ?
  | apply parse_never_out_of_fuel
  | discriminate
  | match goal with |- context [if ?b then _ else _] => destruct b end
  | match goal with |- context [match ?x with _ => _ end] =>
      lazymatch x with parseVarTypeExpr ?a ?b => pose proof (parse_never_out_of_fuel a b); destruct x
                     | _ => destruct x end end
  | congruence ].

Lemma setDef_fuel s d : setDef s d <> OutOfFuel.
Proof. unfold setDef. nofuel. Qed.
Lemma resolveAlias_fuel ts a : resolveAlias ts a <> OutOfFuel.
Proof. unfold resolveAlias. nofuel. Qed.
Lemma resolveEnum_fuel ts a : resolveEnum ts a <> OutOfFuel.
Proof. unfold resolveEnum. nofuel. Qed.
Lemma buildField_fuel ts a : buildField ts a <> OutOfFuel.
Proof. unfold buildField. nofuel. Qed.
Lemma resolveStruct_fuel ts a : resolveStruct ts a <> OutOfFuel.
Proof. unfold resolveStruct. destruct (getTypeByName ts (s_name a)); [|discriminate]. apply bind_fuel; [|discriminate]. apply mapM_fuel, buildField_fuel. Qed.
Lemma buildArg_fuel ts a : buildArg ts a <> OutOfFuel.
Proof. unfold buildArg. nofuel. Qed.
Lemma buildArgs_fuel ts a : buildArgumentsList ts a <> OutOfFuel.
Proof.
  unfold buildArgumentsList.
  assert (H : (do l <- mapM (buildArg ts) a; Ok (l, false)) <> OutOfFuel)
    by (apply bind_fuel; [apply mapM_fuel, buildArg_fuel|discriminate]).
  destruct a as [|[n t o [sn|]] [|b r]]; try exact H. nofuel.
Qed.
Lemma buildMethod_fuel ts m : buildMethod ts m <> OutOfFuel.
Proof.
  unfold buildMethod. apply bind_fuel; [apply buildArgs_fuel|intros [i si] _].
  apply bind_fuel; [apply buildArgs_fuel|intros [o so] _]. destruct (_ && _); discriminate.
Qed.
Lemma resolveService_fuel ts ss s : resolveService ts ss s <> OutOfFuel.
Proof.
  unfold resolveService. apply bind_fuel; [apply mapM_fuel, buildMethod_fuel|]. intros ms _.
  destruct (getServiceByName ss (sv_name s)); discriminate.
Qed.
Lemma buildLocal_fuel f n s : buildLocal f n s <> OutOfFuel.
Proof.
  unfold buildLocal.
  apply bind_fuel; [apply foldM_fuel, resolveAlias_fuel|intros ? _].
  apply bind_fuel; [apply foldM_fuel, resolveEnum_fuel|intros ? _].
  apply bind_fuel; [apply foldM_fuel, resolveStruct_fuel|intros ? _].
  apply bind_fuel; [apply foldM_fuel; intros; apply resolveService_fuel|discriminate].
Qed.

Lemma vtParse_fuel ts v : vtParse ts v <> OutOfFuel.
Proof. unfold vtParse. nofuel. Qed.
Lemma jsonName_fuel ms n : jsonName ms n <> OutOfFuel.
Proof. revert n. induction ms as [|m r IH]; intro n; cbn; [discriminate|]. destruct (assoc "json" m) as [[s|]|]; [|discriminate|apply IH].
  destruct (String.eqb s "-"); [apply IH|]. destruct (isValidArgName s); [apply IH|discriminate]. Qed.
Lemma checkFields_fuel fs a b : checkFields fs a b <> OutOfFuel.
Proof.
  revert a b. induction fs as [|f r IH]; intros a b; cbn; [discriminate|].
  repeat match goal with |- (if ?c then _ else _) <> _ => destruct c; [discriminate|] end.
  apply bind_fuel; [apply jsonName_fuel|]. intros j _. destruct (str_in _ _); [discriminate|apply IH].
Qed.
Lemma checkEnumFields_fuel fs : checkEnumFields fs <> OutOfFuel.
Proof. induction fs as [|f r IH]; cbn; [discriminate|]. destruct (String.eqb _ _); [discriminate|]. destruct (f_type f); [discriminate|exact IH]. Qed.
Lemma typeParse_fuel ts t : typeParse ts t <> OutOfFuel.
Proof.
  unfold typeParse.
  repeat match goal with |- (if ?c then _ else _) <> _ => destruct c; [first [discriminate | destruct (t_type t); discriminate]|] end.
  apply bind_fuel; [apply checkFields_fuel|intros ? _]. destruct (String.eqb _ _).
  - apply bind_fuel; [apply checkEnumFields_fuel|intros ? _]. destruct (isValidVarType _ _); discriminate.
  - apply bind_fuel; [|discriminate]. apply mapM_fuel. intro f. unfold parseField. apply bind_fuel; [apply vtParse_fuel|].
    intros ? _. destruct (String.eqb _ _); discriminate.
Qed.
Lemma checkErrorDups_fuel es a b : checkErrorDups es a b <> OutOfFuel.
Proof. revert a b. induction es as [|e r IH]; intros a b; cbn; [discriminate|]. destruct (str_in _ _); [discriminate|]. destruct (existsb _ _); [discriminate|apply IH]. Qed.
Lemma parseErrors_fuel b t : parseErrors b t <> OutOfFuel.
Proof.
  revert b. induction t as [|e r IH]; intro b; cbn [parseErrors]; [discriminate|]. apply bind_fuel; [|intros; apply IH].
  unfold errorParse. repeat match goal with |- (if ?c then _ else _) <> _ => destruct c; [discriminate|] end.
  apply bind_fuel; [apply checkErrorDups_fuel|discriminate].
Qed.
Lemma checkMethodNames_fuel ms a : checkMethodNames ms a <> OutOfFuel.
Proof. revert a. induction ms as [|e r IH]; intros a; cbn; [discriminate|]. destruct (String.eqb _ _); [discriminate|]. destruct (str_in _ _); [discriminate|apply IH]. Qed.
Lemma parseArg_fuel ts a : parseArg ts a <> OutOfFuel.
Proof. unfold parseArg. destruct (String.eqb _ _); [discriminate|]. apply bind_fuel; [apply vtParse_fuel|discriminate]. Qed.
Lemma serviceParse_fuel ts es ss s : serviceParse ts es ss s <> OutOfFuel.
Proof.
  unfold serviceParse. destruct (String.eqb _ _); [discriminate|]. destruct (existsb _ _); [discriminate|].
  destruct (v_methods s) as [|m ms]; [discriminate|]. apply bind_fuel; [apply checkMethodNames_fuel|intros ? _].
  apply bind_fuel; [|discriminate]. apply mapM_fuel. intro x. unfold methodParse. destruct (_ && _); [discriminate|].
  apply bind_fuel; [apply mapM_fuel, parseArg_fuel|intros ? _]. destruct (_ && _); [discriminate|].
  apply bind_fuel; [apply mapM_fuel, parseArg_fuel|intros ? _]. destruct (forallb _ _); discriminate.
Qed.
Lemma validate_fuel u s : validate u s <> OutOfFuel.
Proof.
  unfold validate. destruct (negb _); [discriminate|]. destruct (_ && _); [discriminate|].
  apply bind_fuel; [|intros ? _]. { unfold checkBasePath. cbv zeta. repeat match goal with |- (if ?c then _ else _) <> _ => destruct c; [discriminate|] end.
    discriminate. }
  apply bind_fuel; [apply mapM_fuel, typeParse_fuel|intros ? _].
  apply bind_fuel; [apply parseErrors_fuel|intros ? _].
  apply bind_fuel; [apply mapM_fuel, serviceParse_fuel|discriminate].
Qed.

Lemma lift_cases {A} p (r : result A) st st' x : lift p r st = (st', x) -> r <> OutOfFuel ->
  st' = st /\ ((exists a, r = Ok a /\ x = LOk a) \/ (exists m, r = Err m /\ x = LErr (ESchema p m) None) \/ (r = Panic /\ x = LPanic)).
Proof.
  unfold lift. intros E H. injection E as <- <-. split; [reflexivity|]. destruct r; [left|right; left|right; right|congruence]; eauto.
Qed.

Lemma load_ok fs u root : forall n parents,
  length (map fst fs) < n + length parents -> goodLoader fs u root (load fs u n) parents.
Proof.
  induction n as [|n IH]; intros parents Hn p st (HI & HR & Hk & Hinc).
  - exfalso. assert (HND : NoDup parents) by (pose proof (i_nodup _ _ _ _ _ HI) as N; now inversion N).
    pose proof (NoDup_incl_length HND Hinc). lia.
  - cbn [load]. unfold lbind at 1. unfold readFile. destruct (validPath p) eqn:EV; cbn [negb].
    2:{ cbn. split; [apply (i_reads _ _ _ _ _ HI)|]. now split. }
    set (st1 := LS (l_graph st) (l_cache st) (l_reads st ++ [p])).
    assert (Hpr : ~ In p (l_reads st)).
    { rewrite (HR p). intros [Z|Z]; [contradiction|]. pose proof (i_nodup _ _ _ _ _ HI) as N. now inversion N. }
    assert (HN1 : NoDup (l_reads st1)).
    { cbn. apply NoDup_app_snoc; [apply (i_reads _ _ _ _ _ HI)|exact Hpr]. }
    assert (HR1 : readSet st1 (p :: parents)).
    { intro x. unfold st1, keys. cbn [l_reads l_cache]. rewrite in_app_iff, (HR x). unfold keys. cbn. tauto. }
    assert (HI1 : Inv fs u root (p :: parents) st1) by (destruct HI; split; assumption).
    destruct (assoc p fs) as [src|] eqn:Ea; [|cbn; split; [exact HN1|]; now split].
    destruct (parseRidl src) as [nodes|e|] eqn:Ep.
    2:{ cbn. split; [exact HN1|]. split; [reflexivity|]. now exists src. }
    2:{ cbn. split; [exact HN1|]. exists p, src. split; [constructor|]. now split. }
    assert (HS : Source fs p nodes) by (split; [exact EV|]; now exists src).
    assert (Hinc1 : incl (p :: parents) (map fst fs)).
    { intros x [<-|Hx]; [|now apply Hinc]. apply assoc_In in Ea. change p with (fst (p, src)). now apply in_map. }
    unfold lbind at 1. destruct (lift p (foldM setDef (definitions nodes) emptySchema) st1) as [st2 x2] eqn:E2.
    destruct (lift_cases _ _ _ _ _ E2 (foldM_fuel _ _ setDef_fuel _)) as [-> [(s0 & H0 & ->)|[(m & Hm & ->)|[Hm ->]]]];
      [|cbn; split; [exact HN1|]; split; [reflexivity|]; exists nodes; split; [exact HS|]; now left
       |exfalso; revert Hm; apply foldM_no_panic, setDef_no_panic].
    unfold lbind at 1.
    assert (Hld : goodLoader fs u root (load fs u n) (p :: parents)) by (apply IH; cbn [length]; lia).
    pose proof (importsLoop_ok fs u root (load fs u n) p parents Hld Hinc1 (imports nodes) s0 st1) as HL.
    specialize (HL (fun i Hi => ex_intro _ nodes (ex_intro _ i (conj HS (conj Hi eq_refl)))) HI1 HR1).
    destruct (importsLoop (load fs u n) p parents (imports nodes) s0 st1) as [st3 x3]. destruct HL as [HN3 HL].
    destruct x3 as [s1|e k| |]; [|split; [exact HN3|exact HL]|split; [exact HN3|exact HL]|split; [exact HN3|exact HL]].
    destruct HL as (L1 & L2 & L3 & L4 & imps & L5 & L6).
    assert (HPr : Process u p nodes imps = (do s2 <- buildLocal p nodes s1; validate u s2)).
    { unfold Process. rewrite H0. cbn [bind]. now rewrite <- L6. }
    unfold lbind at 1. destruct (lift p (buildLocal p nodes s1) st3) as [st4 x4] eqn:E4.
    destruct (lift_cases _ _ _ _ _ E4 (buildLocal_fuel _ _ _)) as [-> [(s2 & H2 & ->)|[(m & Hm & ->)|[Hm ->]]]].
    2:{ cbn. split; [exact HN3|]. split; [reflexivity|]. exists nodes. split; [exact HS|]. right. exists imps.
        split; [exact L5|]. now rewrite HPr, Hm. }
    2:{ cbn. split; [exact HN3|]. exists p. split; [constructor|]. exists nodes, imps. split; [exact HS|].
        split; [exact L5|]. now rewrite HPr, Hm. }
    rewrite H2 in HPr. cbn [bind] in HPr.
    destruct (lift p (validate u s2) st3) as [st5 x5] eqn:E5.
    destruct (lift_cases _ _ _ _ _ E5 (validate_fuel _ _)) as [-> [(s3 & H3 & ->)|[(m & Hm & ->)|[Hm ->]]]].
    2:{ cbn. split; [exact HN3|]. split; [reflexivity|]. exists nodes. split; [exact HS|]. right. exists imps.
        split; [exact L5|]. now rewrite HPr. }
    2:{ cbn. split; [exact HN3|]. exists p. split; [constructor|]. exists nodes, imps. split; [exact HS|].
        split; [exact L5|]. now rewrite HPr. }
    cbn [Post]. split; [exact HN3|]. split; [exact L1|]. split; [exact L2|]. split; [exact L3|]. split.
    + intros v (nodes' & i & HS' & Hi & ->). assert (nodes' = nodes) as ->.
      { destruct HS' as [_ (src' & A & B)]. congruence. }
      now apply L4.
    + econstructor; [exact HS|exact L5|]. now rewrite HPr.
Qed.

Lemma start_inv fs u p : Inv fs u p [p] (startState p).
Proof.
  split; cbn; try tauto.
  - intros [|x [|y l1]] a b l2 E; discriminate.
  - apply incl_refl.
  - intros x y (l & E & _). discriminate.
  - intros x y (l & E & _). discriminate.
  - intros (n & v & Hn & _ & w & (l & E & _) & _). discriminate.
  - constructor; [intros []|constructor].
  - intros q [[]|[<-|[]]]. constructor.
  - constructor.
Qed.

Lemma loadRun_ok fs u p : Post fs u p p [] (startState p) (loadRun fs u p).
Proof.
  unfold loadRun. apply load_ok.
  - cbn. rewrite map_length. lia.
  - split; [apply start_inv|]. split; [intro x; cbn; tauto|]. split; [intros []|intros x []].
Qed.

(** ** what LoadsTo implies *)

Lemma forall2_in_l {A B} (R : A -> B -> Prop) l l' x : Forall2 R l l' -> In x l -> exists y, In y l' /\ R x y.
Proof.
  induction 1 as [|a b l l' H HF IH]; intros Hin; [destruct Hin|]. destruct Hin as [<-|Hin]; [exists b; split; [now left|exact H]|].
  destruct (IH Hin) as (y & Y1 & Y2). exists y. split; [now right|exact Y2].
Qed.

Lemma Source_unique fs q n n' : Source fs q n -> Source fs q n' -> n = n'.
Proof. intros [_ (s & A & B)] [_ (s' & A' & B')]. congruence. Qed.

Lemma LoadsTo_det fs u q s : LoadsTo fs u q s -> forall s', LoadsTo fs u q s' -> s = s'.
Proof.
  intro H. induction H as [q nodes imps s HS HF HP] using LoadsTo_ind'. intros s' H'.
  inversion H' as [q' nodes' imps' s'' HS' HF' HP']; subst.
  assert (nodes' = nodes) by (eapply Source_unique; eassumption). subst nodes'.
  assert (imps' = imps); [|congruence]. clear - HF HF'. revert imps' HF'.
  induction HF as [|i imp l l' [Hi Hi2] HF IH]; intros imps' HF'; inversion HF' as [|? imp' ? l'' G1 G2]; subst; [reflexivity|].
  f_equal; [symmetry; now apply Hi2|now apply IH].
Qed.

Lemma LoadsTo_import fs u q s r : LoadsTo fs u q s -> Imports fs q r -> exists s', LoadsTo fs u r s'.
Proof.
  intros H (nodes & i & HS & Hi & ->). inversion H as [q' nodes' imps s'' HS' HF HP]; subst.
  assert (nodes' = nodes) by (eapply Source_unique; eassumption). subst nodes'.
  destruct (forall2_in_l _ _ _ _ HF Hi) as (y & _ & Y). now exists y.
Qed.

Lemma LoadsTo_star fs u q r : ImportStar fs q r -> forall s, LoadsTo fs u q s -> exists s', LoadsTo fs u r s'.
Proof.
  induction 1 as [q|q r x I _ IH]; intros s H; [now exists s|]. destruct (LoadsTo_import _ _ _ _ _ H I) as (s' & H'). now apply (IH s').
Qed.

Lemma LoadsTo_no_cycle fs u q s : LoadsTo fs u q s -> ~ ImportCycle fs q.
Proof.
  intro H. induction H as [q nodes imps s HS HF HP] using LoadsTo_ind'. intros (r & I & S).
  assert (Hr : ~ ImportCycle fs r).
  { destruct I as (nodes' & i & HS' & Hi & ->). assert (nodes' = nodes) by (eapply Source_unique; eassumption). subst nodes'.
    destruct (forall2_in_l _ _ _ _ HF Hi) as (y & _ & _ & Y). exact Y. }
  apply Hr. inversion S as [x E1 E2|x y z I2 S2]; subst.
  - exists q. split; [exact I|constructor].
  - exists y. split; [exact I2|]. eapply import_star_snoc; eassumption.
Qed.

Lemma blamed_does_not_load fs u q e s : Blames fs u q e -> LoadsTo fs u q s -> False.
Proof.
  intros HB H. pose proof H as H0. inversion H as [q' nodes imps s' HS HF HP]; subst. destruct e; cbn [Blames] in HB.
  - destruct HB as [_ HB]. destruct HS as [HS _]. congruence.
  - destruct HB as [_ HB]. destruct HS as [_ (src & HS & _)]. congruence.
  - destruct HB as [_ (src' & HB1 & HB2)]. destruct HS as [_ (src & HS1 & HS2)]. rewrite HS1 in HB1. injection HB1 as <-. rewrite HS2 in HB2. discriminate.
  - destruct HB as (_ & I & S). eapply LoadsTo_no_cycle; [exact H0|]. now exists imported.
  - destruct HB as [_ (nodes' & HS' & HB)]. assert (nodes' = nodes) by (eapply Source_unique; eassumption). subst nodes'.
    destruct HB as [HB|(imps' & HF' & HB)].
    + unfold Process in HP. rewrite HB in HP. discriminate.
    + assert (imps' = imps); [|congruence]. clear - HF HF'. revert imps' HF'.
      induction HF as [|i imp l l' Hi HF IH]; intros imps' HF'; inversion HF' as [|? imp' ? l'' G1 G2]; subst; [reflexivity|].
      f_equal; [eapply LoadsTo_det; eassumption|now apply IH].
Qed.

Lemma crash_does_not_load fs u q s : Crashes fs u q -> LoadsTo fs u q s -> False.
Proof.
  intros (nodes' & imps' & HS' & HF' & HB) H. inversion H as [q' nodes imps s' HS HF HP]; subst.
  assert (nodes' = nodes) by (eapply Source_unique; eassumption). subst nodes'.
  assert (imps' = imps); [|congruence]. clear - HF HF'. revert imps' HF'.
  induction HF as [|i imp l l' Hi HF IH]; intros imps' HF'; inversion HF' as [|? imp' ? l'' G1 G2]; subst; [reflexivity|].
  f_equal; [eapply LoadsTo_det; eassumption|now apply IH].
Qed.

Lemma last_default {A} (l : list A) a d d' : last (a :: l) d = last (a :: l) d'.
Proof. revert a. induction l as [|b l IH]; intro a; [reflexivity|]. exact (IH b). Qed.

Lemma chain_star fs l : ImportChain fs l -> forall q p m, l = q :: m -> last l q = p -> ImportStar fs p q.
Proof.
  induction 1 as [x|x y l I H IH]; intros q p m E1 E2.
  - injection E1 as <- <-. cbn in E2. subst. constructor.
  - injection E1 as <- <-. eapply import_star_snoc; [|exact I]. apply (IH y p l eq_refl). rewrite <- E2.
    change (last (x :: y :: l) x) with (last (y :: l) x). apply last_default.
Qed.

Lemma loadFile_iff fs u p s : loadFile fs u p = LOk s <-> LoadsTo fs u p s.
Proof.
  pose proof (loadRun_ok fs u p) as HP. unfold loadFile. destruct (loadRun fs u p) as [st' x]. destruct HP as [_ HP]. cbn [snd].
  split.
  - intros ->. apply HP.
  - intro H. destruct x as [s'|e [stack|]| |].
    + destruct HP as (_ & _ & _ & _ & HL). f_equal. eapply LoadsTo_det; eassumption.
    + destruct HP as (front & q & E & HC & HB & _). exfalso.
      assert (HS : ImportStar fs p q).
      { eapply (chain_star fs _ HC); [reflexivity|]. change (q :: front ++ [p]) with ((q :: front) ++ [p]). apply last_last. }
      destruct (LoadsTo_star fs u p q HS s H) as (s' & Hs'). eapply blamed_does_not_load; eassumption.
    + exfalso. eapply blamed_does_not_load; eassumption.
    + exfalso. destruct HP as (q & Q1 & Q2). destruct (LoadsTo_star fs u p q Q1 s H) as (s' & Hs'). eapply crash_does_not_load; eassumption.
    + exfalso. destruct HP as (q & src & Q1 & Q2 & Q3). destruct (LoadsTo_star fs u p q Q1 s H) as (s' & Hs').
      inversion Hs' as [q' nodes imps s'' HS HF HPr]; subst. destruct HS as [_ (src' & A & B)]. congruence.
Qed.
