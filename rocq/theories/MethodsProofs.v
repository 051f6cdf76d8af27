(** Proofs about descriptors, hooks on annotations, and request headers. *)
From Verif Require Import Base BaseProofs Utf8 Json GoVal GoValSpec Rpc RpcSpec RpcProofs RpcRoutes RpcRemote Methods MethodsSpec.
From Verif Require Schema ValidateSpec ValidateProofs.

(** ** Paths *)

Lemma table_routes sch : map fst (methodsTable sch) = routesOf sch.
Proof.
  unfold methodsTable, routesOf. induction (Schema.sc_services sch) as [|v l IH]; [reflexivity|].
  cbn [flat_map]. rewrite map_app, IH, map_map. reflexivity.
Qed.

Lemma table_distinct sch : Accepted sch -> NoDup (map fst (methodsTable sch)).
Proof. intros ((u & s0 & V) & ND & NS). rewrite table_routes. exact (routes_distinct u s0 sch V ND NS). Qed.

Lemma table_in sch p i : In (p, i) (methodsTable sch) <-> exists v m, In v (Schema.sc_services sch) /\ In m (Schema.v_methods v) /\
  p = (Schema.sc_basepath sch ++ Schema.v_name v ++ "/" ++ Schema.me_name m)%string /\ i = infoOf v m.
Proof.
  unfold methodsTable. rewrite in_flat_map. split.
  - intros (v & Iv & Im). apply in_map_iff in Im. destruct Im as (m & [= <- <-] & Im). eauto 6.
  - intros (v & m & Iv & Im & -> & ->). exists v. split; [exact Iv|]. apply in_map_iff. eauto.
Qed.

Lemma assoc_nodup {A} k (x : A) l : NoDup (map fst l) -> In (k, x) l -> assoc k l = Some x.
Proof.
  induction l as [|[k' y] l IH]; cbn; intros ND I; [destruct I|]. inversion ND; subst.
  destruct I as [[= -> ->]|I]; [rewrite String.eqb_refl; reflexivity|].
  destruct (String.eqb k k') eqn:E; [|auto]. apply String.eqb_eq in E. subst.
  match goal with H : ~ In _ _ |- _ => destruct H end. exact (in_map fst _ _ I).
Qed.

Lemma assoc_some {A} k (x : A) l : assoc k l = Some x -> In (k, x) l.
Proof.
  induction l as [|[k' y] l IH]; cbn; [discriminate|]. destruct (String.eqb k k') eqn:E; [|auto].
  apply String.eqb_eq in E. subst. intros [= ->]. auto.
Qed.

Lemma assoc_map {A B} k (f : A -> B) l : assoc k (map (fun a => (fst a, f (snd a))) l) = option_map f (assoc k l).
Proof. induction l as [|[k' y] l IH]; cbn; [reflexivity|]. destruct (String.eqb k k'); [reflexivity|exact IH]. Qed.

Lemma describes v m : Describes (infoOf v m) v m.
Proof.
  split; [reflexivity|]. split; [reflexivity|]. unfold Annotated, hasAnnotation, annotation, infoOf. cbn [mi_annotations].
  split; intros key; [intros value|]; rewrite (assoc_map key (fun x : string * string => snd x));
  (destruct (assoc key (Schema.me_annotations m)) as [[ty v']|]; cbn [option_map snd]; [|try split]).
  - split; [intros (ty' & [= <- <-]); auto|intros [_ <-]; eauto].
  - intros (ty' & [=]).
  - intros [[=] _].
  - intros H. destruct (H v'). eauto.
  - reflexivity.
  - reflexivity.
Qed.

Lemma ctx_of sch v m : Accepted sch -> In v (Schema.sc_services sch) -> In m (Schema.v_methods v) ->
  methodCtx (methodsTable sch) (Some (Schema.sc_basepath sch ++ Schema.v_name v ++ "/" ++ Schema.me_name m)%string) = Some (infoOf v m).
Proof.
  intros A Iv Im. apply assoc_nodup; [apply table_distinct, A|]. apply table_in. eauto 6.
Qed.

(** ** Servers of services *)

Lemma prefix_assoc a b c : ((a ++ b ++ "/") ++ c)%string = (a ++ b ++ "/" ++ c)%string.
Proof. rewrite !sapp_assoc. reflexivity. Qed.

Lemma server_names sch v s : Accepted sch -> ServerOf sch v s -> NoDup (map rm_name (sv_methods s)).
Proof.
  intros ((u & s0 & V) & _) (Iv & _ & ->). destruct (ValidateProofs.validate_ok _ _ _ V) as [_ _ _ _ _ V6 _].
  rewrite Forall_forall in V6. destruct (V6 v Iv) as (_ & _ & _ & D).
  apply (NoDup_map_inv to_lower). rewrite map_map. exact D.
Qed.

Lemma server_method sch v s m : ServerOf sch v s -> In m (sv_methods s) ->
  exists m', In m' (Schema.v_methods v) /\ Schema.me_name m' = rm_name m /\
    routeOf s m = (Schema.sc_basepath sch ++ Schema.v_name v ++ "/" ++ Schema.me_name m')%string.
Proof.
  intros (Iv & P & N) I. apply (in_map rm_name) in I. rewrite N in I. apply in_map_iff in I.
  destruct I as (m' & E & I). exists m'. split; [exact I|]. split; [exact E|].
  unfold routeOf. rewrite P, E. apply prefix_assoc.
Qed.

Lemma server_has sch v s m' : ServerOf sch v s -> In m' (Schema.v_methods v) ->
  exists m, In m (sv_methods s) /\ rm_name m = Schema.me_name m'.
Proof.
  intros (Iv & P & N) I. apply (in_map Schema.me_name) in I. rewrite <- N in I. apply in_map_iff in I.
  destruct I as (m & E & I). eauto.
Qed.

(** ** The hook *)

Definition hookOf (sch : Schema.schema) (s : service) := Some (onPath s (deprecatedHook (methodsTable sch))).

Lemma hook_says sch v s m m' : Accepted sch -> ServerOf sch v s -> In m' (Schema.v_methods v) -> Schema.me_name m' = rm_name m ->
  hookSays (hookOf sch s) (rm_name m) =
  match assoc "deprecated" (Schema.me_annotations m') with
  | Some (_, new) => inl (Some (EPlain 0 ("endpoint " ++ (sv_prefix s ++ rm_name m) ++ " has been deprecated in favor of endpoint " ++ new)))
  | None => inl None
  end.
Proof.
  intros A (Iv & P & N) I E. unfold hookSays, hookOf, onPath, deprecatedHook. rewrite P, <- E, prefix_assoc.
  rewrite (ctx_of sch v m' A Iv I). unfold infoOf. cbn [mi_annotations].
  rewrite (assoc_map "deprecated" (fun x : string * string => snd x)).
  destruct (assoc "deprecated" _) as [[ty new]|]; cbn [option_map snd]; reflexivity.
Qed.

(** ** Headers *)

Lemma lower_caps b s : to_lower (capitals b s) = to_lower s.
Proof.
  revert b. induction s as [|c s IH]; intros b; [reflexivity|]. cbn [capitals]. unfold to_lower in *. cbn [smap]. rewrite IH.
  f_equal. destruct b; destruct c as [[] [] [] [] [] [] [] []]; reflexivity.
Qed.

Lemma caps_lower b s : capitals b (to_lower s) = capitals b s.
Proof.
  revert b. induction s as [|c s IH]; intros b; [reflexivity|]. unfold to_lower in *. cbn [smap capitals].
  assert (E : Ascii.eqb (lower_byte c) "-" = Ascii.eqb c "-") by (destruct c as [[] [] [] [] [] [] [] []]; reflexivity).
  rewrite E, IH. f_equal. destruct b; destruct c as [[] [] [] [] [] [] [] []]; reflexivity.
Qed.

Lemma caps_token b s : sforall tokenByte (capitals b s) = sforall tokenByte s.
Proof.
  revert b. induction s as [|c s IH]; intros b; [reflexivity|]. cbn [capitals sforall]. rewrite IH. f_equal.
  destruct b; destruct c as [[] [] [] [] [] [] [] []]; reflexivity.
Qed.

Lemma canonical_iff a b : canonical a = canonical b <-> SameHeader a b.
Proof.
  unfold canonical, SameHeader, Token. split.
  - destruct (sforall tokenByte a) eqn:A, (sforall tokenByte b) eqn:B; intros E.
    + right. split; [reflexivity|]. split; [reflexivity|]. rewrite <- (lower_caps true a), E. apply lower_caps.
    + rewrite <- E, caps_token in B. congruence.
    + rewrite E, caps_token in A. congruence.
    + left. exact E.
  - intros [->|(A & B & E)]; [reflexivity|]. rewrite A, B, <- (caps_lower true a), E. apply caps_lower.
Qed.

Lemma canonical_idem k : canonical (canonical k) = canonical k.
Proof.
  unfold canonical. destruct (sforall tokenByte k) eqn:T; [rewrite caps_token, T|rewrite T; reflexivity].
  rewrite <- (caps_lower true (capitals true k)), lower_caps. apply caps_lower.
Qed.

Lemma values_put k vs h c : valuesOf (putKey k vs h) c = if String.eqb c k then vs else valuesOf h c.
Proof.
  unfold valuesOf. induction h as [|[k' v'] h IH]; cbn [putKey assoc].
  - destruct (String.eqb c k); reflexivity.
  - destruct (String.eqb k k') eqn:E; cbn [assoc].
    + apply String.eqb_eq in E. subst k'. destruct (String.eqb c k); reflexivity.
    + destruct (String.eqb c k') eqn:E'; [|exact IH]. apply String.eqb_eq in E'. subst k'.
      rewrite String.eqb_sym, E. reflexivity.
Qed.

Lemma add_values vs : forall h k c, valuesOf (fold_left (fun a v => headerAdd a k v) vs h) c =
  valuesOf h c ++ (if String.eqb c (canonical k) then vs else []).
Proof.
  induction vs as [|v vs IH]; intros h k c; cbn [fold_left].
  - destruct (String.eqb c _); rewrite app_nil_r; reflexivity.
  - rewrite IH. unfold headerAdd. rewrite values_put. destruct (String.eqb c (canonical k)) eqn:E; [|reflexivity].
    apply String.eqb_eq in E. subst c. rewrite <- app_assoc. reflexivity.
Qed.

Lemma add_all c : forall hs h, exists ws, Given c hs ws /\
  valuesOf (fold_left (fun acc kv => fold_left (fun a v => headerAdd a (fst kv) v) (snd kv) acc) hs h) (canonical c) =
  valuesOf h (canonical c) ++ ws.
Proof.
  induction hs as [|[k vs] hs IH]; intros h; cbn [fold_left fst snd].
  - exists []. split; [constructor|]. rewrite app_nil_r. reflexivity.
  - destruct (IH (fold_left (fun a v => headerAdd a k v) vs h)) as (ws & G & E).
    rewrite add_values in E. destruct (String.eqb (canonical c) (canonical k)) eqn:S.
    + apply String.eqb_eq in S. exists (vs ++ ws). split; [apply GSame; [apply canonical_iff; congruence|exact G]|].
      rewrite E, <- app_assoc. reflexivity.
    + exists ws. split; [apply GOther; [|exact G]|].
      * intros C. apply canonical_iff in C. rewrite C, String.eqb_refl in S. discriminate S.
      * rewrite E, app_nil_r. reflexivity.
Qed.

Lemma given_none c hs : (forall k vs, In (k, vs) hs -> ~ SameHeader k c) -> forall ws, Given c hs ws -> ws = [].
Proof.
  intros H ws G. induction G; [reflexivity| |].
  - exfalso. apply (H k vs); [left; reflexivity|assumption].
  - apply IHG. intros k' vs' I. apply (H k' vs'). right. exact I.
Qed.

Lemma given_unique c hs ws ws' : Given c hs ws -> Given c hs ws' -> ws = ws'.
Proof. intros G. revert ws'. induction G; intros ws' G'; inversion G'; subst; try contradiction; [reflexivity|f_equal; auto|auto]. Qed.
