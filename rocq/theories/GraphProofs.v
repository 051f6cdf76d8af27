(** Correctness of the cycle check. *)
From Verif Require Import Base BaseProofs Graph GraphSpec.

Lemma edge_adjacent adj u v : Edge adj u v <-> In v (adjacent adj u).
Proof.
  unfold Edge, adjacent. split.
  - intros (l & -> & H). exact H.
  - destruct (assoc u adj) as [l|]; [|intros []]. intro H. now exists l.
Qed.

Definition Black (vis rs : list string) (x : string) : Prop := In x vis /\ ~ In x rs.

Record WF (adj : list (string * list string)) (vis rs : list string) : Prop := {
  wf_rs : forall x, In x rs -> In x vis;
  wf_closed : forall x y, Black vis rs x -> Edge adj x y -> Black vis rs y;
  wf_acyclic : forall x, Black vis rs x -> ~ OnCycle adj x
}.

Lemma WF_equiv adj vis rs rs' : (forall x, In x rs' <-> In x rs) -> WF adj vis rs -> WF adj vis rs'.
Proof.
  intros E [A B C]. assert (HB : forall x, Black vis rs' x <-> Black vis rs x) by (intro x; unfold Black; now rewrite E).
  split.
  - intros x H. apply A. now apply E.
  - intros x y H1 H2. apply HB in H1. apply HB. eauto.
  - intros x H. apply HB in H. auto.
Qed.

Definition unvisited (V vis : list string) : nat := length (filter (fun x => negb (str_in x vis)) V).

Lemma unvisited_max V vis : unvisited V vis <= length V.
Proof. unfold unvisited. induction V as [|x V IH]; cbn; [lia|]. destruct (negb _); cbn; lia. Qed.
Lemma unvisited_le V vis vis' : incl vis vis' -> unvisited V vis' <= unvisited V vis.
Proof.
  intro H. unfold unvisited. induction V as [|x V IH]; [reflexivity|]. cbn [filter].
  destruct (str_in x vis) eqn:E1, (str_in x vis') eqn:E2; cbn [negb length]; try lia.
  exfalso. apply str_in_In in E1. apply H in E1. apply str_in_In in E1. congruence.
Qed.
Lemma unvisited_lt V vis x : In x V -> ~ In x vis -> unvisited V (x :: vis) < unvisited V vis.
Proof.
  intros Hin Hn. unfold unvisited. induction V as [|y V IH]; [destruct Hin|]. cbn [filter].
  assert (Hle : unvisited V (x :: vis) <= unvisited V vis) by (apply unvisited_le; intros z Hz; now right). unfold unvisited in Hle.
  destruct (str_in y vis) eqn:E1.
  - replace (str_in y (x :: vis)) with true.
    + cbn [negb]. destruct Hin as [->|Hin]; [apply str_in_In in E1; contradiction|]. now apply IH.
    + symmetry. apply str_in_In. right. now apply str_in_In.
  - destruct (String.eqb_spec y x) as [->|D].
    + replace (str_in x (x :: vis)) with true by (symmetry; apply str_in_In; now left). cbn [negb length]. lia.
    + replace (str_in y (x :: vis)) with false.
      * cbn [negb length]. destruct Hin as [->|Hin]; [congruence|]. specialize (IH Hin). lia.
      * symmetry. apply Bool.not_true_iff_false. intro Z. apply str_in_In in Z. destruct Z as [Z|Z]; [congruence|].
        apply str_in_In in Z. congruence.
Qed.

Lemma path_black adj vis rs x y : WF adj vis rs -> Path adj x y -> Black vis rs x -> Black vis rs y.
Proof. intros W P. induction P; [auto|]. intro HB. apply IHP. eapply wf_closed; eassumption. Qed.

Lemma dfs_ok adj V (HV : forall u v, Edge adj u v -> In v V) : forall n node vis rs,
  In node V -> ~ In node vis -> WF adj vis rs -> (forall g, In g rs -> Path adj g node) ->
  unvisited V vis < n ->
  match dfs n adj node vis rs with
  | None => False
  | Some (true, _, _) => exists u, Path adj node u /\ OnCycle adj u
  | Some (false, vis', rs') => incl vis vis' /\ In node vis' /\ (forall x, In x rs' <-> In x rs) /\ WF adj vis' rs'
  end.
Proof.
  induction n as [|n IH]; intros node vis rs Hin Hnv W Hg Hf; [lia|]. cbn [dfs].
  set (loop := fix loop (ns : list string) (vis rs : list string) := _).
  assert (HL : forall ns vis1 rs1, (forall m, In m ns -> Edge adj node m) ->
     WF adj vis1 rs1 -> In node rs1 -> (forall g, In g rs1 -> Path adj g node) -> unvisited V vis1 < n ->
     match loop ns vis1 rs1 with
     | None => False
     | Some (true, _, _) => exists u, Path adj node u /\ OnCycle adj u
     | Some (false, vis', rs') => incl vis1 vis' /\ (forall x, In x rs' <-> In x rs1) /\ WF adj vis' rs' /\
          (forall m, In m ns -> Black vis' rs' m)
     end).
  { induction ns as [|m r IHr]; intros vis1 rs1 He W1 Hr1 Hg1 Hf1; cbn [loop].
    - split; [apply incl_refl|]. split; [tauto|]. split; [exact W1|]. intros m [].
    - destruct (str_in m vis1) eqn:Em; cbn [negb].
      + apply str_in_In in Em. destruct (str_in m rs1) eqn:Er.
        * apply str_in_In in Er. exists node. split; [constructor|]. exists m. split; [apply He; now left|]. now apply Hg1.
        * assert (Hb : Black vis1 rs1 m).
          { split; [exact Em|]. intro Z. apply str_in_In in Z. congruence. }
          specialize (IHr vis1 rs1 (fun x Hx => He x (or_intror Hx)) W1 Hr1 Hg1 Hf1).
          destruct (loop r vis1 rs1) as [[[[|] vis2] rs2]|]; [exact IHr| |exact IHr].
          destruct IHr as (I1 & I2 & I3 & I4). repeat (split; [assumption|]). intros x [<-|Hx]; [|now apply I4].
          split; [now apply I1|]. rewrite I2. apply Hb.
      + assert (Hm : ~ In m vis1) by (intro Z; apply str_in_In in Z; congruence).
        assert (Em' : Edge adj node m) by (apply He; now left).
        assert (Hgm : forall g, In g rs1 -> Path adj g m).
        { intros g Hgg. eapply path_snoc; [now apply Hg1|exact Em']. }
        specialize (IH m vis1 rs1 (HV _ _ Em') Hm W1 Hgm Hf1).
        destruct (dfs n adj m vis1 rs1) as [[[[|] vis2] rs2]|]; [| |exact IH].
        * destruct IH as (u & P & C). exists u. split; [|exact C]. econstructor; eassumption.
        * destruct IH as (D1 & D2 & D3 & D4).
          assert (Hbm : Black vis2 rs2 m) by (split; [exact D2|]; rewrite D3; intro Z; apply Hm; eapply wf_rs; eassumption).
          assert (Hf2 : unvisited V vis2 < n) by (pose proof (unvisited_le V _ _ D1); lia).
          specialize (IHr vis2 rs2 (fun x Hx => He x (or_intror Hx)) D4 (proj2 (D3 node) Hr1)
            (fun g Hgg => Hg1 g (proj1 (D3 g) Hgg)) Hf2).
          destruct (loop r vis2 rs2) as [[[[|] vis3] rs3]|]; [exact IHr| |exact IHr].
          destruct IHr as (I1 & I2 & I3 & I4). split; [eapply incl_tran; eassumption|].
          split; [intro x; rewrite I2; apply D3|]. split; [exact I3|]. intros x [<-|Hx]; [|now apply I4].
          split; [apply I1, D2|]. rewrite I2. apply Hbm. }
  assert (Hnr : ~ In node rs) by (intro Z; apply Hnv; eapply wf_rs; eassumption).
  assert (W1 : WF adj (node :: vis) (node :: rs)).
  { assert (HB : forall x, Black (node :: vis) (node :: rs) x <-> Black vis rs x).
    { intro x. unfold Black. cbn. split; [|intros [H1 H2]; split; [now right|]; intros [<-|Z]; tauto].
      intros [[<-|H1] H2]; [exfalso; apply H2; now left|]. tauto. }
    split.
    - intros x [<-|Hx]; [now left|]. right. eapply wf_rs; eassumption.
    - intros x y H1 H2. apply HB in H1. apply HB. eapply wf_closed; eassumption.
    - intros x H. apply HB in H. exact (wf_acyclic _ _ _ W x H). }
  assert (Hf1 : unvisited V (node :: vis) < n) by (pose proof (unvisited_lt V vis node Hin Hnv); lia).
  specialize (HL (adjacent adj node) (node :: vis) (node :: rs) (fun m => proj2 (edge_adjacent adj node m)) W1 (or_introl eq_refl)).
  assert (Hg1 : forall g, In g (node :: rs) -> Path adj g node) by (intros g [<-|H]; [constructor|now apply Hg]).
  specialize (HL Hg1 Hf1). destruct (loop (adjacent adj node) (node :: vis) (node :: rs)) as [[[[|] vis'] rs']|]; [exact HL| |exact HL].
  destruct HL as (L1 & L2 & L3 & L4).
  assert (Hrem : forall x, In x (remove string_dec node rs') <-> In x rs).
  { intro x. split.
    - intro H. apply in_remove in H. destruct H as [H1 H2]. apply L2 in H1. destruct H1 as [H1|H1]; [congruence|exact H1].
    - intro H. apply in_in_remove; [intros ->; contradiction|]. apply L2. now right. }
  split; [intros x Hx; apply L1; now right|]. split; [apply L1; now left|]. split; [exact Hrem|].
  assert (HB : forall x, Black vis' (remove string_dec node rs') x <-> x = node \/ Black vis' rs' x).
  { intro x. unfold Black. rewrite Hrem, L2. cbn. split.
    - intros [H1 H2]. destruct (string_dec x node); [now left|]. right. split; [exact H1|]. intros [Z|Z]; [congruence|tauto].
    - intros [->|[H1 H2]]; [|tauto]. split; [apply L1; now left|exact Hnr]. }
  assert (Hnc : ~ OnCycle adj node).
  { intros (y & E & P). pose proof (path_black _ _ _ _ _ L3 P (L4 y (proj1 (edge_adjacent _ _ _) E))) as [_ Z]. apply Z, L2. now left. }
  split.
  - intros x Hx. apply Hrem in Hx. apply L1. right. eapply wf_rs; eassumption.
  - intros x y H1 H2. apply HB in H1. apply HB. right. destruct H1 as [->|H1]; [now apply L4, edge_adjacent|]. eapply wf_closed; eassumption.
  - intros x H. apply HB in H. destruct H as [->|H]; [exact Hnc|]. exact (wf_acyclic _ _ _ L3 x H).
Qed.

Lemma circLoop_ok adj V n (HV : forall u v, Edge adj u v -> In v V) : forall ns vis rs,
  incl ns V -> WF adj vis rs -> (forall x, ~ In x rs) -> unvisited V vis < n ->
  exists b, circLoop n adj ns vis rs = Some b /\
    (b = true -> exists m u, In m ns /\ Path adj m u /\ OnCycle adj u) /\
    (b = false -> exists vis', WF adj vis' [] /\ incl vis vis' /\ incl ns vis').
Proof.
  induction ns as [|m r IH]; intros vis rs Hi W Hrs Hf; cbn [circLoop].
  - exists false. split; [reflexivity|]. split; [discriminate|]. intros _. exists vis.
    split; [|split; [apply incl_refl|intros x []]]. eapply WF_equiv; [|exact W]. intro x. split; [intros []|]. intro Z. exfalso. exact (Hrs x Z).
  - destruct (str_in m vis) eqn:E; cbn [negb].
    + destruct (IH vis rs (fun x Hx => Hi x (or_intror Hx)) W Hrs Hf) as (b & E1 & E2 & E3).
      exists b. split; [exact E1|]. split.
      * intro Hb. destruct (E2 Hb) as (m' & u & I & R). exists m', u. split; [now right|exact R].
      * intro Hb. destruct (E3 Hb) as (vis' & I1 & I2 & I3). exists vis'. split; [exact I1|]. split; [exact I2|].
        intros x [<-|Hx]; [|now apply I3]. apply I2. now apply str_in_In.
    + assert (Hm : ~ In m vis) by (intro Z; apply str_in_In in Z; congruence).
      pose proof (dfs_ok adj V HV n m vis rs (Hi m (or_introl eq_refl)) Hm W (fun g Hg => False_ind _ (Hrs g Hg)) Hf) as D.
      destruct (dfs n adj m vis rs) as [[[[|] vis2] rs2]|]; [| |destruct D].
      * exists true. split; [reflexivity|]. split; [|discriminate]. intros _. destruct D as (u & P & C). exists m, u.
        split; [now left|]. now split.
      * destruct D as (D1 & D2 & D3 & D4).
        destruct (IH vis2 rs2 (fun x Hx => Hi x (or_intror Hx)) D4) as (b & E1 & E2 & E3).
        { intros x Hx. apply D3 in Hx. exact (Hrs x Hx). }
        { pose proof (unvisited_le V _ _ D1). lia. }
        exists b. split; [exact E1|]. split.
        -- intro Hb. destruct (E2 Hb) as (m' & u & I & R). exists m', u. split; [now right|exact R].
        -- intro Hb. destruct (E3 Hb) as (vis' & I1 & I2 & I3). exists vis'. split; [exact I1|]. split; [eapply incl_tran; eassumption|].
           intros x [<-|Hx]; [now apply I2|now apply I3].
Qed.

Lemma assoc_In {A} k (m : list (string * A)) v : assoc k m = Some v -> In (k, v) m.
Proof.
  induction m as [|[k' w] m IH]; [discriminate|]. cbn. destruct (String.eqb_spec k k') as [->|D].
  - intro E. injection E as ->. now left.
  - intro E. right. now apply IH.
Qed.

Lemma edge_vertex g u v : Edge (g_adj g) u v -> In v (vertices g).
Proof.
  intros (l & E & H). unfold vertices.
  apply in_app_iff. right. apply in_flat_map. exists (u, l). split; [now apply assoc_In|]. right. exact H.
Qed.

Lemma isCircular_ok g : exists b, isCircular g = Some b /\ (b = true <-> Circular g).
Proof.
  unfold isCircular.
  destruct (circLoop_ok (g_adj g) (vertices g) (S (length (vertices g))) (edge_vertex g) (g_nodes g) [] []) as (b & E1 & E2 & E3).
  - unfold vertices. apply incl_appl, incl_refl.
  - split; [intros x []|intros x y [[] _]|intros x [[] _]].
  - intros x [].
  - apply Nat.lt_succ_r. apply unvisited_max.
  - exists b. split; [exact E1|]. split; [exact E2|]. intros (m & u & M & P & C). destruct b; [reflexivity|]. exfalso.
    destruct (E3 eq_refl) as (vis' & W & _ & I). eapply (wf_acyclic _ _ _ W u); [|exact C].
    eapply path_black; [exact W|exact P|]. split; [now apply I|intros []].
Qed.
