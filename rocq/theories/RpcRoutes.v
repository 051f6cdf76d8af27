(** Routes and error values of a schema. *)
From Verif Require Import Base BaseProofs Schema TypeSpec Uri ValidateSpec ValidateProofs PropsFilterAux PropsValidateAux.

(** ** Routes of a schema *)

(** the path constants of a generated server: base path, service, method
    (tests/server/server.gen.go 253-281 and tests/client/client.gen.go 207,
    from tests/schema/test.ridl 5-7) *)
Definition routesOf (s : schema) : list string :=
  flat_map (fun v => map (fun m => (sc_basepath s ++ v_name v ++ "/" ++ me_name m)%string) (v_methods v)) (sc_services s).

Definition noSlash (n : string) : Prop := sforall (fun c => negb (Ascii.eqb c "/")) n = true.

Lemma noSlash_split a : forall b x y, noSlash a -> noSlash b ->
  (a ++ "/" ++ x)%string = (b ++ "/" ++ y)%string -> a = b /\ x = y.
Proof.
  unfold noSlash. induction a as [|c a IH]; intros [|d b] x y A B E; cbn in *.
  - injection E as <-. auto.
  - injection E as <- E. apply andb_true_iff in B. rewrite Ascii.eqb_refl in B. destruct B as [B _]; discriminate B.
  - injection E as -> E. apply andb_true_iff in A. rewrite Ascii.eqb_refl in A. destruct A as [A _]; discriminate A.
  - injection E as <- E. apply andb_true_iff in A, B. destruct (IH b x y) as [-> ->]; tauto.
Qed.

Theorem routes_distinct u s s' : validate u s = Ok s' -> NoDup (map v_id (sc_services s')) ->
  (forall v, In v (sc_services s') -> noSlash (v_name v)) -> NoDup (routesOf s').
Proof.
  intros H. destruct (validate_ok _ _ _ H) as [_ _ _ _ _ V6 V7]. rewrite Forall_forall in V6.
  unfold routesOf. revert V6 V7. generalize (sc_basepath s') as b. generalize (sc_services s') as l.
  induction l as [|v l IH]; intros b V6 V7 ND NS; [constructor|].
  cbn [flat_map map] in *. inversion ND; subst.
  assert (R : NoDup (map (fun m => (b ++ v_name v ++ "/" ++ me_name m)%string) (v_methods v))).
  { destruct (V6 v (or_introl eq_refl)) as (_ & _ & _ & D). revert D. generalize (v_methods v) as ms.
    induction ms as [|m ms IHm]; cbn [map]; intros D; [constructor|]. inversion D; subst. constructor; [|auto].
    intros C. apply in_map_iff in C. destruct C as (m' & E & I).
    repeat apply sapp_inv_head in E. match goal with H : ~ In _ _ |- _ => apply H end.
    rewrite <- E. apply (in_map (fun m => to_lower (me_name m))), I. }
  assert (R' : NoDup (flat_map (fun v => map (fun m => (b ++ v_name v ++ "/" ++ me_name m)%string) (v_methods v)) l)).
  { apply IH; auto.
    - intros x Hx. apply V6. right. exact Hx.
    - intros x y Hx Hy. apply V7; right; assumption.
    - intros x Hx. apply NS. right. exact Hx. }
  assert (Dis : forall r, In r (map (fun m => (b ++ v_name v ++ "/" ++ me_name m)%string) (v_methods v)) ->
    ~ In r (flat_map (fun v => map (fun m => (b ++ v_name v ++ "/" ++ me_name m)%string) (v_methods v)) l)).
  { intros r Hr Hf. apply in_map_iff in Hr. destruct Hr as (m & <- & _).
    apply in_flat_map in Hf. destruct Hf as (w & Hw & Hr). apply in_map_iff in Hr. destruct Hr as (m' & E & _).
    apply sapp_inv_head in E. apply noSlash_split in E; [|apply NS; right; exact Hw|apply NS; left; reflexivity].
    destruct E as [E _].
    assert (v_id v <> v_id w) as NE by (intros C; match goal with H : ~ In _ _ |- _ => apply H end; rewrite C; apply in_map, Hw).
    apply (V7 v w (or_introl eq_refl) (or_intror Hw) NE). congruence. }
  revert R Dis. generalize (map (fun m => (b ++ v_name v ++ "/" ++ me_name m)%string) (v_methods v)) as rs.
  induction rs as [|r rs IHr]; intros R Dis; [exact R'|]. cbn [app]. inversion R; subst. constructor.
  - intros C. apply in_app_iff in C. destruct C as [C|C]; [contradiction|]. apply (Dis r (or_introl eq_refl) C).
  - apply IHr; [assumption|]. intros x Hx. apply Dis. right. exact Hx.
Qed.

(** two services whose methods share a route *)
Definition clashing : schema :=
  Schema_ "v1" "n" "v1" "rpc" [] [] [Service_ ("f", 0) "A/B" [mth "C" [] []] []; Service_ ("f", 1) "A" [mth "B/C" [] []] []].

Lemma clashing_routes : exists s', validate goUriOk clashing = Ok s' /\ NoDup (map v_id (sc_services s')) /\
  routesOf s' = ["/rpc/A/B/C"; "/rpc/A/B/C"].
Proof.
  assert (G : match validate goUriOk clashing with
              | Ok s' => if list_eq_dec string_dec (routesOf s') ["/rpc/A/B/C"; "/rpc/A/B/C"] then
                         match map v_id (sc_services s') with [a; b] => negb (Nat.eqb (snd a) (snd b)) | _ => false end else false
              | _ => false end = true) by (vm_compute; reflexivity).
  destruct (validate goUriOk clashing) as [s'| | |]; try discriminate G. exists s'. split; [reflexivity|].
  destruct (list_eq_dec _ _ _) as [E|]; [|discriminate G]. split; [|exact E].
  destruct (map v_id (sc_services s')) as [|a [|b [|]]]; try discriminate G.
  constructor; [|constructor; [intros []|constructor]]. intros [C|[]]. subst.
  rewrite Nat.eqb_refl in G. discriminate G.
Qed.

Lemma shake_routes : routesOf (accept shakeExample) =
  ["/rpc/Users/Get"; "/rpc/Users/List"; "/rpc/Users/Ping"; "/rpc/Admins/Grant"] /\
  NoDup (map v_id (sc_services (accept shakeExample))) /\
  (forall v, In v (sc_services (accept shakeExample)) -> noSlash (v_name v)) /\
  validate goUriOk shakeExample = Ok (accept shakeExample).
Proof.
  split; [vm_compute; reflexivity|]. split; [|split].
  - assert (map v_id (sc_services (accept shakeExample)) = [("f", 7); ("f", 8)]) as -> by (vm_compute; reflexivity).
    repeat constructor; cbn; intuition discriminate.
  - assert (G : forallb (fun v => sforall (fun c => negb (Ascii.eqb c "/")) (v_name v)) (sc_services (accept shakeExample)) = true)
      by (vm_compute; reflexivity).
    rewrite forallb_forall in G. exact G.
  - vm_compute. reflexivity.
Qed.
