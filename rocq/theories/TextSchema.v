(** Schemas read from RIDL files can be written as JSON documents. *)
From Coq Require Import Permutation.
From Verif Require Import Base BaseProofs Utf8 Utf8Proofs JsonProofs GoValProofs BigSpec Ast Parser Schema TypeSpec Uri ValidateSpec ValidateProofs Ridl LoadSpec LoadProofs
  DeclSpec DeclProofs GenProofs CacheSpec CacheProofs JsonSchemaSpec TextProofs.

Lemma U_LF : asciiB "010"%char.
Proof. reflexivity. Qed.
Lemma U_lines c l : U c -> Lines c l -> Forall U l.
Proof.
  intros H [[_ ->]|(_ & <- & _)]; [constructor|]. revert H. induction l as [|x l IH]; [constructor|]. intros H. cbn [join] in H.
  destruct l as [|y l]; [now constructor|]. apply U_cut in H as [H1 H2]; [|exact U_LF]. constructor; [exact H1|exact (IH H2)].
Qed.
Lemma space_ascii c : In (N_of_byte c) [9; 10; 11; 12; 13; 32]%N -> asciiB c.
Proof. unfold asciiB. cbn [In]. lia. Qed.
Lemma U_spaces_l a : forall b, Spaces a -> U (a ++ b) -> U b.
Proof.
  induction a as [|c a IH]; intros b Ha H; [exact H|]. inversion Ha; subst. apply IH; [assumption|].
  apply (U_cut "" c) in H; [apply H|]. now apply space_ascii.
Qed.
Lemma U_spaces_r b : forall a, Spaces b -> U (a ++ b) -> U a.
Proof.
  destruct b as [|c b]; intros a Hb H; [now rewrite sapp_nil_r in H|]. inversion Hb; subst. apply U_cut in H; [apply H|]. now apply space_ascii.
Qed.
Lemma U_trim s : U s -> U (trim_space s).
Proof.
  intros H. destruct (trim_space_split s) as (a & b & Ha & Hb & E). rewrite E in H. apply U_spaces_l in H; [|exact Ha]. now apply U_spaces_r in H.
Qed.
Lemma U_digits s : sforall is_digit_byte s = true -> U s.
Proof.
  intros H. apply ascii_valid. unfold is_ascii. revert H. induction s as [|c s IH]; [reflexivity|]. cbn [sforall]. rewrite !andb_true_iff.
  intros [H1 H2]. split; [|now apply IH]. unfold is_digit_byte, in_range in H1. rewrite andb_true_iff, !N.leb_le in H1. apply N.ltb_lt. lia.
Qed.
Lemma U_lowerFirst a b : U a -> LowerFirst a b -> U b.
Proof.
  intros H [[_ ->]|(c & r & -> & [[Hc ->]|[_ ->]])]; [exact U_empty| |exact H].
  apply U_cons; [unfold asciiB; rewrite N_of_byte_of_N; lia|]. apply (U_cut "" c) in H; [apply H|]. unfold asciiB. lia.
Qed.
Lemma number_int s z : Number s z -> int64 z.
Proof. intros [(n & _ & ->)|[_ ->]]; unfold int64; lia. Qed.
Lemma W_meta l : Forall UPair l -> Forall WMeta (MetaOf l).
Proof.
  induction 1 as [|[k v] l [H1 H2] _ IH]; constructor; [|exact IH]. split; [constructor; [intros []|constructor]|]. constructor; [now split|constructor].
Qed.
Lemma W_anns l m : Forall UAnn l -> AnnotationsOf l m -> NoDup (map fst m) /\ Forall WAnn m.
Proof.
  intros H [H1 H2]. split; [exact H1|]. apply Forall_forall. intros [k v] Hk.
  assert (E : assoc k m = Some v).
  { clear H2 H. induction m as [|[k' v'] m IH]; [destruct Hk|]. cbn [assoc]. inversion H1 as [|? ? Hn Hd]; subst. destruct Hk as [E|Hk].
    - injection E as -> ->. now rewrite String.eqb_refl.
    - destruct (String.eqb_spec k k') as [->|]; [|now apply IH]. exfalso. apply Hn. apply in_map_iff. now exists (k', v). }
  rewrite H2 in E. destruct (find _ (rev l)) as [a|] eqn:F; [|discriminate]. cbn in E. injection E as <-.
  apply find_some in F as [F1 F2]. apply String.eqb_eq in F2. apply in_rev in F1. rewrite Forall_forall in H. destruct (H a F1) as [A1 A2].
  unfold WAnn. cbn. rewrite F2 in A1. split; [exact A1|]. split; [exact A1|]. destruct (an_value a); [exact A2|exact U_empty].
Qed.

(** ** elements *)
Definition RefsW (isPrint : N -> bool) (o : option varType) : Prop := forall v, o = Some v -> WType isPrint v.
Lemma W_opt isPrint o : RefsW isPrint o -> WOpt (WType isPrint) o.
Proof. destruct o as [v|]; [intros H; now apply H|intros _; exact I]. Qed.
Lemma forall2_W {A B} (R : A -> B -> Prop) (P : A -> Prop) (Q : B -> Prop) l l' :
  (forall a b, In b l' -> P a -> R a b -> Q b) -> Forall P l -> Forall2 R l l' -> Forall Q l'.
Proof.
  intros H HP HF. induction HF as [|a b l l' Hab HF IH]; [constructor|]. inversion HP; subst. constructor; [apply (H a b); auto; now left|].
  apply IH; [intros; eapply H; eauto; now right|assumption].
Qed.
Lemma W_field isPrint d f : UDef d -> RefsW isPrint (f_type f) -> FieldOf d f -> WField isPrint f.
Proof.
  intros (D1 & D2 & D3 & D4) HR (F1 & F2 & F3 & F4 & F5 & F6). split; [rewrite F1; exact D1|]. split; [now apply W_opt|]. split; [rewrite F3; exact U_empty|].
  split; [rewrite F4; now apply W_meta|]. now apply U_lines in F5.
Qed.
Lemma W_member isPrint b i d f : UDef d -> MemberOf b i d f -> WField isPrint f.
Proof.
  intros (D1 & D2 & D3 & D4) (F1 & F2 & F3 & F4 & F5 & F6 & F7). split; [rewrite F1; exact D1|]. split; [rewrite F3; exact I|]. split.
  - destruct (String.eqb_spec (d_right d) "") as [E|N]; [rewrite (F7 E); destruct b; [exact D1|apply U_digits, itoa_digits]|rewrite (F6 N); exact D2].
  - split; [rewrite F4; constructor|]. now apply U_lines in F5.
Qed.
Definition UDecl (d : tdecl) : Prop := match d with DAlias a => UAlias a | DEnum e => UEnum e | DStruct s => UStruct s end.
Lemma W_decl isPrint d t : UDecl d -> RefsW isPrint (t_type t) -> Forall (fun f => RefsW isPrint (f_type f)) (t_fields t) -> TypeOf d t -> WDecl isPrint t.
Proof.
  intros HD HR HF (T1 & T2 & T3). split; [rewrite T2; destruct d; apply ascii_valid; reflexivity|].
  destruct d as [a|e|s]; cbn [UDecl declName] in *.
  - destruct HD as (D1 & D2 & D3 & D4). destruct T3 as (E1 & E2 & E3 & _). split; [rewrite T1; exact D1|]. split; [now apply W_opt|].
    split; [rewrite E1; constructor|]. split; [rewrite E2; now apply W_meta|]. now apply U_lines in E3.
  - destruct HD as (D1 & D2 & D3 & D4). destruct T3 as (E1 & E2 & _ & E3 & E4). split; [rewrite T1; exact D1|]. split; [now apply W_opt|].
    split; [|split; [rewrite E1; constructor|rewrite E2; constructor]].
    apply Forall_forall. intros f Hf. apply In_nth_error in Hf as [i Hi].
    destruct (nth_error (e_values e) i) as [d|] eqn:Ed.
    + eapply W_member; [|exact (E4 i d f Ed Hi)]. rewrite Forall_forall in D3. apply D3. now apply nth_error_In in Ed.
    + apply nth_error_None in Ed. assert (nth_error (t_fields t) i <> None) by congruence. apply nth_error_Some in H. lia.
  - destruct HD as (D1 & D2 & D3). destruct T3 as (E1 & E2 & E3 & E4). split; [rewrite T1; exact D1|]. split; [now apply W_opt|].
    split; [|split; [rewrite E2; constructor|now apply U_lines in E3]].
    eapply forall2_W; [|exact D2|exact E4]. intros d f Hf Hd HFO. eapply W_field; [exact Hd| |exact HFO]. rewrite Forall_forall in HF. now apply HF.
Qed.
Lemma W_error e x : UErr e -> ErrorOf e x -> WError x.
Proof.
  intros (E1 & E2 & E3 & E4) (X1 & X2 & X3 & X4). split; [eapply number_int, X3|]. split; [rewrite X1; now apply U_trim|].
  split; [rewrite X2; exact E3|]. destruct (er_status e); [eapply number_int, X4|rewrite X4; unfold int64; lia].
Qed.
Lemma W_arg isPrint a g : UArg a -> RefsW isPrint (g_type g) -> ArgOf a g -> WArg isPrint g.
Proof. intros (A1 & _) HR (G1 & _). split; [rewrite G1; exact A1|now apply W_opt]. Qed.
Lemma W_args isPrint (succinct : bool) l gs : Forall UArg l -> Forall (fun g => RefsW isPrint (g_type g)) gs ->
  (if succinct then ShortArg l gs else Forall2 ArgOf l gs) -> Forall (WArg isPrint) gs.
Proof.
  intros HL HR H. destruct succinct.
  - destruct H as (a & n & g & T & -> & E & -> & EL & LF & _). inversion HL as [|? ? (A1 & A2 & A3) _]; subst. inversion HR; subst.
    constructor; [|constructor]. split; [|now apply W_opt]. rewrite E in A3. cbn in A3. eapply U_lowerFirst; [|exact LF]. eapply U_lower; [|exact A3]. congruence.
  - eapply forall2_W; [|exact HL|exact H]. intros a g Hg Ha. apply W_arg; [exact Ha|]. rewrite Forall_forall in HR. now apply HR.
Qed.
Lemma W_method isPrint mn m : UMethod mn -> Forall (fun g => RefsW isPrint (g_type g)) (me_inputs m) -> Forall (fun g => RefsW isPrint (g_type g)) (me_outputs m) ->
  MethodOf mn m -> WMethod isPrint m.
Proof.
  intros (M1 & M2 & M3 & M4 & M5 & M6) HI HO (E1 & E2 & E3 & E4 & E5 & E6 & E7). apply W_anns in E6 as [E6 E6']; [|exact M3].
  split; [rewrite E1; exact M1|]. split; [exact E6|]. split; [exact E6'|]. split; [now apply U_lines in E2|].
  split; [|split; [|rewrite E5; exact M6]].
  - apply (W_args isPrint (me_succinct m) (m_inputs mn)); auto. destruct (me_succinct m); apply E7.
  - apply (W_args isPrint (me_succinct m) (m_outputs mn)); auto. destruct (me_succinct m); apply E7.
Qed.

Lemma W_refs isPrint s : WSchema isPrint s -> forall v, RefIn s v -> WType isPrint v.
Proof.
  intros (_ & _ & _ & _ & WT & _ & WS) v [(t & Ht & H)|(sv & m & a & Hs & Hm & Ha & E)].
  - rewrite Forall_forall in WT. destruct (WT t Ht) as (_ & _ & W1 & W2 & _). destruct H as [H|(f & Hf & H)].
    + now rewrite H in W1.
    + rewrite Forall_forall in W2. destruct (W2 f Hf) as (_ & W & _). now rewrite H in W.
  - rewrite Forall_forall in WS. destruct (WS sv Hs) as (_ & WM & _). rewrite Forall_forall in WM. destruct (WM m Hm) as (_ & _ & _ & _ & W1 & W2 & _).
    rewrite Forall_forall in W1, W2. assert (W : WArg isPrint a) by (destruct Ha; auto). destruct W as [_ W]. now rewrite E in W.
Qed.

Lemma U_slashed b : U b -> U (slashed b).
Proof. intros H. unfold slashed. destruct (has_prefix "/" b); [exact H|]. apply U_app; [apply U_char; reflexivity|exact H]. Qed.

Definition UHeader (s : schema) : Prop := U (sc_webrpc s) /\ U (sc_name s) /\ U (sc_version s) /\ U (sc_basepath s).
Lemma U_setDef s d s' : UHeader s -> U (d_right d) -> setDef s d = Ok s' -> UHeader s'.
Proof.
  intros (H1 & H2 & H3 & H4) Hd H. unfold setDef in H.
  repeat match type of H with (if ?b then _ else _) = _ => destruct b end; try discriminate; injection H as <-; unfold UHeader; cbn; auto.
Qed.
Lemma U_setDefs ds : forall s s', UHeader s -> Forall UDef ds -> foldM setDef ds s = Ok s' -> UHeader s'.
Proof.
  induction ds as [|d ds IH]; intros s s' HS HD H; cbn in H; [now injection H as <-|]. inversion HD as [|? ? (_ & Hd & _) HD']; subst.
  apply bind_ok in H as (s1 & H1 & H). eapply IH; [|exact HD'|exact H]. eapply U_setDef; eassumption.
Qed.
Lemma U_merge l : forall s, UHeader s -> UHeader (fold_left (fun s p => mergeImport s (snd p) (i_members (fst p))) l s).
Proof. induction l as [|p l IH]; intros s H; cbn [fold_left]; [exact H|]. now apply IH. Qed.

Lemma U_nodes_decls {D} (P : D -> Prop) (decls : list node -> list D) fs q id d name :
  (forall nodes, Forall UNode nodes -> Forall P (decls nodes)) -> Exports fs decls name q id d -> P d.
Proof.
  intros H E. apply exports_place in E as (nodes & (_ & src & _ & HP) & E). apply U_parse in HP. apply H in HP. rewrite Forall_forall in HP.
  apply HP. now apply nth_error_In in E.
Qed.
Lemma flat_forall {B} (Q : B -> Prop) (f : node -> list B) l : Forall UNode l -> (forall n, UNode n -> Forall Q (f n)) -> Forall Q (flat_map f l).
Proof. intros HF H. induction HF as [|n l Hn _ IH]; [constructor|]. cbn [flat_map]. apply Forall_app. split; [now apply H|exact IH]. Qed.
Ltac pick := let n := fresh in let H := fresh in intros n H; destruct n; try constructor; [exact H|constructor].
Lemma U_typeDecls nodes : Forall UNode nodes -> Forall UDecl (typeDecls nodes).
Proof.
  intros H. unfold typeDecls. rewrite !Forall_app, !Forall_map. split; [|split].
  - apply (flat_forall UAlias); [exact H|pick].
  - apply (flat_forall UEnum); [exact H|pick].
  - apply (flat_forall UStruct); [exact H|pick].
Qed.
Lemma U_errors nodes : Forall UNode nodes -> Forall UErr (errors_of nodes).
Proof. intros H. apply flat_forall; [exact H|pick]. Qed.
Lemma U_services nodes : Forall UNode nodes -> Forall UService (services_of nodes).
Proof. intros H. apply flat_forall; [exact H|pick]. Qed.
Lemma U_definitions nodes : Forall UNode nodes -> Forall UDef (definitions nodes).
Proof. intros H. apply flat_forall; [exact H|pick]. Qed.

Lemma U_basePath u b b' : U b -> checkBasePath u b = Ok b' -> U b'.
Proof.
  intros H. unfold checkBasePath. destruct (String.eqb b ""); [intros E; injection E as <-; exact U_empty|].
  destruct (containsAny b basepathSpaces); [discriminate|]. destruct (containsAny b _); [discriminate|]. destruct (contains _ b); [discriminate|]. cbv zeta.
  pose proof (U_slashed b H) as A. unfold slashed in A. destruct (negb _); [discriminate|]. intros E. injection E as <-.
  destruct (has_suffix _ _); [exact A|]. apply U_app; [exact A|apply U_char; reflexivity].
Qed.
Lemma U_header fs u q s : LoadsTo fs u q s -> UHeader s.
Proof.
  intros H. inversion H as [q0 nodes imps s' (_ & src & _ & HS) HF HP]; subst. unfold Process in HP.
  apply bind_ok in HP as (s0 & H0 & HP). apply bind_ok in HP as (s2 & H2 & HV).
  assert (A0 : UHeader s0).
  { eapply U_setDefs; [|eapply U_definitions, U_parse, HS|exact H0]. repeat split; exact U_empty. }
  apply (U_merge (combine (imports nodes) imps)) in A0. unfold buildLocal in H2. apply bind_ok in H2 as (? & _ & H2). apply bind_ok in H2 as (? & _ & H2).
  apply bind_ok in H2 as (? & _ & H2). apply bind_ok in H2 as (? & _ & H2). injection H2 as <-.
  apply validate_inv in HV as (b & ts & es & ss & _ & _ & Hb & _ & _ & _ & ->). destruct A0 as (A1 & A2 & A3 & A4).
  split; [exact A1|]. split; [exact A2|]. split; [exact A3|]. cbn [sc_basepath] in Hb |- *. now apply U_basePath in Hb.
Qed.

(** A schema loaded from RIDL can be written iff all its references can. *)
Theorem loaded_writable isPrint fs u q s : LoadsTo fs u q s -> (WSchema isPrint s <-> forall v, RefIn s v -> WType isPrint v).
Proof.
  intros H. split; [apply W_refs|]. intros HR. pose proof (U_header _ _ _ _ H) as (A1 & A2 & A3 & A4). apply loaded_content in H. destruct H as [[CT _] _ [CE _] _ [CS _]].
  split; [exact A1|]. split; [exact A2|]. split; [exact A3|]. split; [exact A4|]. split; [|split]; apply Forall_forall.
  - intros t Ht. destruct (CT t Ht) as (d & E & HT). apply (U_nodes_decls UDecl) in E; [|exact U_typeDecls]. eapply W_decl; [exact E| | |exact HT].
    + intros v Hv. apply HR. left. exists t. auto.
    + apply Forall_forall. intros f Hf v Hv. apply HR. left. exists t. split; [exact Ht|]. right. now exists f.
  - intros x Hx. destruct (CE x Hx) as (d & E & HT). apply (U_nodes_decls UErr) in E; [|exact U_errors]. eapply W_error; eassumption.
  - intros sv Hs. destruct (CS sv Hs) as (d & E & (S1 & S2 & S3)). apply (U_nodes_decls UService) in E; [|exact U_services]. destruct E as (D1 & D2 & D3 & D4).
    split; [rewrite S1; exact D1|]. split; [|now apply U_lines in S2]. eapply forall2_W; [|exact D2|exact S3]. intros mn m Hm Hmn HM.
    eapply W_method; [exact Hmn| | |exact HM]; apply Forall_forall; intros a Ha v Hv; apply HR; right; exists sv, m, a; auto.
Qed.
