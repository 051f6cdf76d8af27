(** Auxiliary definitions and lemmas for Props_Grammar.v. *)
From Verif Require Import Base BaseProofs Utf8 Lexer LexerProofs Tokenize Ast Parser ParserTerm Schema Ridl LoadSpec LoadProofs DeclSpec DeclProofs Grammar GrammarExample.

(** declarations without their comments *)
Definition bareDecl (d : tdecl) : tdecl :=
  match d with
  | DAlias a => DAlias (Alias (al_name a) (al_type a) (al_meta a) "" 0)
  | DEnum e => DEnum (Enum (e_name e) (e_type e) (map bareDef (e_values e)) "" 0)
  | DStruct s => DStruct (Struct (s_name s) (map bareDef (s_fields s)) "" 0)
  end.
Definition bareService (s : serviceNode) : serviceNode :=
  Service (sv_name s) (map bareMethod (sv_methods s)) (map bareAnn (sv_anns s)) "".

Lemma aliases_bare l : typeAliases (map bare l) = map (fun a => Alias (al_name a) (al_type a) (al_meta a) "" 0) (typeAliases l).
Proof. induction l as [|[] l IH]; cbn; try exact IH; [reflexivity|]. f_equal. exact IH. Qed.
Lemma enums_bare l : enums (map bare l) = map (fun e => Enum (e_name e) (e_type e) (map bareDef (e_values e)) "" 0) (enums l).
Proof. induction l as [|[] l IH]; cbn; try exact IH; [reflexivity|]. f_equal. exact IH. Qed.
Lemma structs_bare l : structs (map bare l) = map (fun s => Struct (s_name s) (map bareDef (s_fields s)) "" 0) (structs l).
Proof. induction l as [|[] l IH]; cbn; try exact IH; [reflexivity|]. f_equal. exact IH. Qed.
Lemma typeDecls_bare l : typeDecls (map bare l) = map bareDecl (typeDecls l).
Proof. unfold typeDecls. rewrite aliases_bare, enums_bare, structs_bare, !map_app, !map_map. reflexivity. Qed.
Lemma errors_bare l : errors_of (map bare l) = map (fun e => e) (errors_of l).
Proof. induction l as [|[] l IH]; cbn; try exact IH; [reflexivity|]. f_equal. exact IH. Qed.
Lemma services_bare l : services_of (map bare l) = map bareService (services_of l).
Proof. induction l as [|[] l IH]; cbn; try exact IH; [reflexivity|]. f_equal. exact IH. Qed.

Lemma loaded_source fs u p s src nodes : LoadsTo fs u p s -> assoc p fs = Some src -> parseRidl src = Parsed nodes -> Source fs p nodes.
Proof. intros [q ns imps s' [HV _] _ _] Ha Hp. split; [exact HV|]. now exists src. Qed.

Lemma own_elements fs {D A} (decls : list node -> list D) (name : D -> string) (idA : A -> ident) (R : D -> A -> Prop)
  p nodes (els : list A) (b : D -> D) :
  (forall l, decls (map bare l) = map b (decls l)) ->
  Source fs p nodes -> Provides fs decls name idA R p els ->
  forall k, match nth_error (decls (map bare nodes)) k with
            | Some d => exists a d', In a els /\ idA a = (p, k) /\ b d' = d /\ R d' a
            | None => forall a, In a els -> idA a <> (p, k)
            end.
Proof.
  intros HB HS [HP1 HP2] k. rewrite HB, nth_error_map. destruct (nth_error (decls nodes) k) as [d|] eqn:E; cbn [option_map].
  - assert (HE : Exports fs decls name p (p, k) d) by (now apply (Own fs decls name p nodes)).
    destruct (HP2 _ _ HE) as (a & Ha & Eid). destruct (HP1 a Ha) as (d' & HE' & HR).
    rewrite Eid in HE'. rewrite <- (exports_fun _ _ _ _ _ _ _ _ HE HE') in HR. now exists a, d.
  - intros a Ha Eid. destruct (HP1 a Ha) as (d' & HE' & _). rewrite Eid in HE'.
    apply exports_place in HE'. destruct HE' as (nodes' & HS' & E'). cbn [fst snd] in *.
    assert (nodes' = nodes).
    { destruct HS as (_ & s1 & A1 & A2), HS' as (_ & s2 & B1 & B2). congruence. }
    subst nodes'. congruence.
Qed.

Lemma encode_example : encode (decode exampleText) = exampleText.
Proof. vm_compute. reflexivity. Qed.

(** ** What every accepted document satisfies *)
Definition okMethod (m : methodNode) : Prop := NoDup (map an_type (m_annotations m)).
Definition okNode (n : node) : Prop :=
  match n with
  | NDef d => In (d_left d) ["webrpc"; "name"; "version"; "basepath"]%string
  | NError e => number (er_code e) /\ (forall s, er_status e = Some s -> number s)
  | NService s => Forall okMethod (sv_methods s)
  | _ => True
  end.
Definition okState (s : pstate) (ts : toks) : Prop :=
  match s with
  | SDefinition => ty (cursor ts) = TWord /\ In (val (cursor ts)) ["webrpc"; "name"; "version"; "basepath"]%string
  | SDefinitionValue d => In (d_left d) ["webrpc"; "name"; "version"; "basepath"]%string
  | SErrorMessage e => number (er_code e) /\ er_status e = None
  | SErrorStatus e => number (er_code e) /\ er_status e = None
  | SServiceMethod s | SServiceMethodDef s => Forall okMethod (sv_methods s)
  | _ => True
  end.
Definition okConf (c : pconf) : Prop := Forall okNode (p_out c) /\ okState (p_state c) (p_toks c).

Lemma hasDup_NoDup l : hasDup l = false -> NoDup l.
Proof.
  induction l as [|x l IH]; [constructor|]. unfold hasDup in *. intro H. apply orb_false_iff in H. destruct H as [H1 H2].
  constructor; [|now apply IH]. intro Hin. apply str_in_In in Hin. congruence.
Qed.
Lemma onOk_next {A} (r : pres A) k c' : onOk r k = Next c' -> exists a ts, r = POk a ts /\ k a ts = Next c'.
Proof. destruct r as [a ts|m ts|]; cbn; try discriminate. eauto. Qed.
Lemma match_first t w start ts l ts' : pmatch (t :: w) start = POk l ts' -> ts = start -> t <> TEOL -> t <> TWhitespace -> cursor l = cursor ts.
Proof.
  intros H -> N1 N2. unfold pmatch in H. cbn [matchGo] in H.
  destruct (tt_eqb (ty (cursor start)) t) eqn:E.
  - assert (G : forall w ts acc l ts', matchGo start ts w (acc ++ [cursor start]) = POk l ts' -> cursor l = cursor start).
    { clear. induction w as [|e w IH]; intros ts acc l ts' H; cbn [matchGo] in H.
      - injection H as <- _. rewrite rev_app_distr. reflexivity.
      - destruct (tt_eqb (ty (cursor ts)) e).
        + apply (IH (pnext ts) (cursor ts :: acc) _ _ H).
        + destruct (tt_eqb e TEOL).
          * destruct (expectEOL ts); try discriminate. injection H as <- _. cbn [rev]. rewrite rev_app_distr. reflexivity.
          * destruct (tt_eqb e TWhitespace); [|discriminate]. exact (IH ts (Tok TWhitespace " " 0 (line (cursor ts)) (col (cursor ts)) :: acc) _ _ H). }
    exact (G w (pnext start) [] l ts' H).
  - unfold tt_eqb in H at 1. destruct (ttype_eq_dec t TEOL); [congruence|]. unfold tt_eqb in H at 1. destruct (ttype_eq_dec t TWhitespace); [congruence|]. discriminate.
Qed.

Definition methodFinish (s : serviceNode) (out : list node) (r : pstep) : Prop :=
  forall c', r = Next c' -> exists m ts cm, m_annotations m = sv_anns s /\
    c' = PC (SServiceMethod (Service (sv_name s) (sv_methods s ++ [m]) [] (sv_comment s))) ts cm out.
Lemma errors_finish s out f ts : (forall es t, methodFinish s out (f es t)) -> methodFinish s out (methodErrors f ts).
Proof.
  intros Hf c' H. unfold methodErrors in H. destruct (pmatch [TWhitespace; TWord] ts); try (now apply (Hf _ _ _ H)).
  destruct (String.eqb _ _); [|now apply (Hf _ _ _ H)]. apply onOk_next in H as (a' & ts' & _ & H). now apply (Hf _ _ _ H).
Qed.
Lemma outputs_finish s out f ts : (forall os o es t, methodFinish s out (f os o es t)) -> methodFinish s out (methodOutputs f ts).
Proof.
  intros Hf c' H. unfold methodOutputs in H.
  destruct (pmatch [TWhitespace; TRocket; TWhitespace] ts); try (refine (errors_finish s out _ _ _ c' H); intros; apply Hf).
  destruct (pmatch [TWord; TWhitespace] ts0) as [l5 ts5| |].
  - destruct (String.eqb _ _); [|discriminate]. apply onOk_next in H as (a' & ts' & _ & H). refine (errors_finish s out _ _ _ c' H); intros; apply Hf.
  - apply onOk_next in H as (a' & ts' & _ & H). refine (errors_finish s out _ _ _ c' H); intros; apply Hf.
  - apply onOk_next in H as (a' & ts' & _ & H). refine (errors_finish s out _ _ _ c' H); intros; apply Hf.
Qed.
Lemma rest_finish s cm out a b n name ts : methodFinish s out (methodRest s cm out a b n name ts).
Proof.
  intros c' H. unfold methodRest in H. destruct (parseComments cm n) as [com cm'].
  destruct b; [injection H as <-; eexists _, _, _; split; [|reflexivity]; reflexivity|].
  apply onOk_next in H as (ins & ts' & _ & H). refine (outputs_finish s out _ _ _ c' H).
  intros os o es t c2 E. injection E as <-. eexists _, _, _; split; [|reflexivity]; reflexivity.
Qed.

Lemma ok_step c c' : okConf c -> step c = Next c' -> okConf c'.
Proof.
  destruct c as [st ts cm out]. intros [HO HS] H. cbn [p_out p_state p_toks] in *.
  destruct st; unfold step in H; cbn [p_state p_toks p_comments p_out] in H; cbn [okState] in HS.
  - destruct (ty (cursor ts)); try discriminate; injection H as <-; (split; [exact HO|exact I]).
  - (* declaration *)
    destruct (tt_eqb (ty (cursor ts)) TWord) eqn:E; cbn [negb] in H; [|discriminate].
    destruct (str_in (val (cursor ts)) _) eqn:E1.
    { injection H as <-. split; [exact HO|]. split; [now apply tt_eqb_eq|now apply str_in_In]. }
    repeat (destruct (String.eqb _ _); [first [discriminate H | injection H as <-; split; [exact HO|exact I]]|]). discriminate.
  - injection H as <-. split; [exact HO|]. cbn [p_state]. destruct (tt_eqb _ _); exact I.
  - injection H as <-. split; [exact HO|]. cbn [p_state]. destruct (tt_eqb _ _); exact I.
  - injection H as <-. split; [exact HO|exact I].
  - discriminate H.
  - apply onOk_next in H as (a & ts1 & E & H). injection H as <-. split; [exact HO|exact I].
  - destruct ts; injection H as <-; (split; [exact HO|exact I]).
  - (* definition *)
    apply onOk_next in H as (l & ts1 & E & H). destruct (parseComments cm _) as [com cm']. injection H as <-. split; [exact HO|].
    cbn [p_state okState d_left]. rewrite (match_first _ _ _ ts _ _ E eq_refl) by discriminate. apply HS.
  - apply onOk_next in H as (l & ts1 & E & H). injection H as <-. split; [|exact I]. constructor; [exact HS|exact HO].
  - apply onOk_next in H as (l & ts1 & E & H). destruct (String.eqb _ _); [|discriminate]. destruct (parseComments cm _) as [com cm']. injection H as <-. now split.
  - destruct (ty (cursor ts)); try (injection H as <-; split; [|exact I]; first [exact HO | constructor; [exact I|exact HO]]).
    apply onOk_next in H as (l & ts1 & E & H). destruct (parseComments cm _) as [com cm']. injection H as <-. now split.
  - destruct (pmatch _ ts); try (injection H as <-; now split).
    apply onOk_next in H as (l & ts1 & E & H). destruct (parseComments cm _) as [com cm']. injection H as <-. now split.
  - (* error *)
    apply onOk_next in H as (l & ts1 & E & H). destruct (String.eqb _ _); cbn [negb] in H; [|discriminate].
    destruct (isNumber _) eqn:En; [|discriminate]. injection H as <-. split; [exact HO|]. split; [exact En|reflexivity].
  - destruct (ty (cursor ts)); try discriminate.
    + apply onOk_next in H as (l & ts1 & E & H). injection H as <-. split; [exact HO|]. split; [apply HS|reflexivity].
    + injection H as <-. split; [exact HO|]. split; [apply HS|reflexivity].
  - destruct (pmatch [TWhitespace; TWord] ts) as [l ts1| |].
    + destruct (String.eqb _ _); cbn [negb] in H; [|discriminate]. destruct (pmatch [TWhitespace; TWord] ts1) as [l2 ts2| |]; try discriminate.
      destruct (isNumber _) eqn:En; [|discriminate]. apply onOk_next in H as (x & ts3 & E & H). injection H as <-. split; [|exact I].
      constructor; [|exact HO]. cbn [okNode er_code er_status]. split; [apply HS|]. intros s' E'. injection E' as <-. exact En.
    + apply onOk_next in H as (x & ts3 & E & H). injection H as <-. split; [|exact I]. constructor; [|exact HO].
      cbn [okNode]. destruct HS as [H1 H2]. split; [exact H1|]. intros s' E'. congruence.
    + apply onOk_next in H as (x & ts3 & E & H). injection H as <-. split; [|exact I]. constructor; [|exact HO].
      cbn [okNode]. destruct HS as [H1 H2]. split; [exact H1|]. intros s' E'. congruence.
  - destruct (pmatch [TWord; TEOL] ts); try discriminate.
    + destruct (String.eqb _ _); [|discriminate]. injection H as <-. now split.
    + apply onOk_next in H as (x & ts3 & E & H). apply onOk_next in H as (x' & ts3' & E' & H). injection H as <-. now split.
  - destruct (ty (cursor ts)); try (injection H as <-; now split).
    apply onOk_next in H as (x & ts3 & E & H). apply onOk_next in H as (x' & ts3' & E' & H). injection H as <-. split; [|exact I]. constructor; [exact I|exact HO].
  - destruct (ty (cursor ts)); try (injection H as <-; split; [|exact I]; first [exact HO | constructor; [exact I|exact HO]]).
    apply onOk_next in H as (x & ts3 & E & H). apply onOk_next in H as (x' & ts3' & E' & H). injection H as <-. now split.
  - apply onOk_next in H as (x & ts3 & E & H). destruct (String.eqb _ _); cbn [negb] in H; [|discriminate].
    apply onOk_next in H as (x' & ts3' & E' & H). destruct (parseComments cm _) as [com cm']. injection H as <-. now split.
  - destruct (ty (cursor ts)); try (injection H as <-; split; [|exact I]; first [exact HO | constructor; [exact I|exact HO]]).
  - do 4 apply onOk_next in H as (? & ? & _ & H). injection H as <-. now split.
  - apply onOk_next in H as (x & ts3 & E & H). destruct (String.eqb _ _); cbn [negb] in H; [|discriminate].
    destruct (parseComments cm _) as [com cm']. injection H as <-. now split.
  - destruct (ty (cursor ts)); try (injection H as <-; split; [|exact I]; first [exact HO | constructor; [exact I|exact HO]]).
  - apply onOk_next in H as (x & ts3 & E & H). destruct (parseComments cm _) as [com cm'].
    destruct (pmatch [TQuestion] ts3); do 2 apply onOk_next in H as (? & ? & _ & H); injection H as <-; now split.
  - destruct (ty (cursor ts)); injection H as <-; now split.
  - do 4 apply onOk_next in H as (? & ? & _ & H). injection H as <-. now split.
  - apply onOk_next in H as (x & ts3 & E & H). destruct (String.eqb _ _); cbn [negb] in H; [|discriminate].
    do 2 apply onOk_next in H as (? & ? & _ & H). destruct (parseComments cm _) as [com cm']. injection H as <-. split; [exact HO|constructor].
  - destruct (ty (cursor ts)); try (injection H as <-; split; first [exact HO | exact HS | exact I | constructor; [exact HS|exact HO]]).
    apply onOk_next in H as (? & ? & _ & H). injection H as <-. split; [exact HO|exact HS].
  - unfold stepServiceMethodDef in H. destruct (hasDup _) eqn:Ed; [discriminate|]. apply hasDup_NoDup in Ed.
    apply onOk_next in H as (l & ts1 & E & H).
    assert (HF : exists m ts0 cm0, m_annotations m = sv_anns s /\ c' = PC (SServiceMethod (Service (sv_name s) (sv_methods s ++ [m]) [] (sv_comment s))) ts0 cm0 out).
    { destruct (_ || _).
      - apply onOk_next in H as (l2 & ts2 & E2 & H). exact (rest_finish _ _ _ _ _ _ _ _ _ H).
      - exact (rest_finish _ _ _ _ _ _ _ _ _ H). }
    destruct HF as (m & ts0 & cm0 & Em & ->). split; [exact HO|]. cbn [p_state okState sv_methods]. apply Forall_app. split; [exact HS|].
    constructor; [|constructor]. unfold okMethod. now rewrite Em.
Qed.

Lemma ok_run k : forall c nodes, okConf c -> runParser k c = Parsed nodes -> Forall okNode nodes.
Proof.
  induction k as [|k IH]; intros c nodes HC H; [discriminate|]. cbn in H. destruct (step c) as [c'|o|e|] eqn:E; try discriminate.
  - exact (IH c' nodes (ok_step _ _ HC E) H).
  - injection H as <-. destruct c as [st ts cm out]. destruct HC as [HO _]. cbn [p_out] in HO.
    assert (Eo : o = rev out).
    { clear - E. assert (HH : forall A (r : pres A) k o', onOk r k = Done o' -> exists a t, k a t = Done o') by (intros A [a t|m t|] k o'; cbn; try discriminate; eauto).
      destruct st; unfold step in E; cbn [p_state p_toks p_comments p_out] in E; unfold stepServiceMethodDef, methodRest, methodOutputs, methodErrors, finishMethod in E.
      all: try (injection E as <-; reflexivity).
      all: exfalso; repeat match goal with
        | E : onOk ?r ?k = Done _ |- _ => apply HH in E; destruct E as (? & ? & E)
        | E : stateError _ _ = Done _ |- _ => discriminate E
        | E : Next _ = Done _ |- _ => discriminate E
        | E : NoFuel = Done _ |- _ => discriminate E
        | E : context [parseComments ?a ?b] |- _ => destruct (parseComments a b)
        | E : (match ?x with _ => _ end) = Done _ |- _ => destruct x
        end. }
    subst o. apply Forall_rev. exact HO.
Qed.
Lemma ok_parse src nodes : parseRidl src = Parsed nodes -> Forall okNode nodes.
Proof. apply ok_run. unfold initConf. destruct (tokenize src). split; [constructor|exact I]. Qed.
