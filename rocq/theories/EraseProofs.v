(** The parser depends on the texts of the tokens only: token positions and the comments map
    influence nothing but comment texts, line numbers and the place of an error. *)
From Verif Require Import Base BaseProofs Utf8 Lexer Tokenize Ast Parser ParserTerm.

(** ** erasing positions and comments *)
Definition eT (t : token) : token := Tok (ty t) (val t) 0 0 0.
Definition eD (d : defNode) : defNode := Def (d_left d) (d_right d) (d_optional d) (d_meta d) "".
Definition eEnum (e : enumNode) : enumNode := Enum (e_name e) (e_type e) (map eD (e_values e)) "" 0.
Definition eStruct (s : structNode) : structNode := Struct (s_name s) (map eD (s_fields s)) "" 0.
Definition eAnn (a : annNode) : annNode := Ann (an_type a) 0 (an_value a).
Definition eMethod (m : methodNode) : methodNode :=
  Method (m_name m) (m_proxy m) "" (map eAnn (m_annotations m)) (m_in_stream m) (m_inputs m)
         (m_out_stream m) (m_outputs m) (m_errors m).
Definition eService (s : serviceNode) : serviceNode :=
  Service (sv_name s) (map eMethod (sv_methods s)) (map eAnn (sv_anns s)) "".
Definition eAlias (a : aliasNode) : aliasNode := Alias (al_name a) (al_type a) (al_meta a) "" 0.
Definition eNode (n : node) : node :=
  match n with
  | NDef d => NDef (eD d)
  | NImport i => NImport i
  | NEnum e => NEnum (eEnum e)
  | NStruct s => NStruct (eStruct s)
  | NError e => NError e
  | NService s => NService (eService s)
  | NAlias a => NAlias (eAlias a)
  end.
Definition eState (s : pstate) : pstate :=
  match s with
  | SDefinitionValue d => SDefinitionValue (eD d)
  | SEnumDefinition e => SEnumDefinition (eEnum e)
  | SEnumExplicitValue e d => SEnumExplicitValue (eEnum e) (eD d)
  | STypeAliasMeta a => STypeAliasMeta (eAlias a)
  | STypeAliasMetaDef a => STypeAliasMetaDef (eAlias a)
  | SStructField s => SStructField (eStruct s)
  | SStructFieldDef s => SStructFieldDef (eStruct s)
  | SStructFieldMeta s => SStructFieldMeta (eStruct s)
  | SStructFieldMetaDef s => SStructFieldMetaDef (eStruct s)
  | SServiceMethod s => SServiceMethod (eService s)
  | SServiceMethodDef s => SServiceMethodDef (eService s)
  | s => s
  end.
Definition eTs (ts : toks) : toks := map eT ts.
Definition eC (c : pconf) : pconf := PC (eState (p_state c)) (eTs (p_toks c)) [] (map eNode (p_out c)).
Definition eE (e : perror) : perror := PE 0 0 (pe_near e) (pe_msg e).
Definition eS (r : pstep) : pstep :=
  match r with
  | Next c => Next (eC c)
  | Done o => Done (map eNode o)
  | Fail e => Fail (eE e)
  | NoFuel => NoFuel
  end.
Definition eR (r : parseResult) : parseResult :=
  match r with
  | Parsed o => Parsed (map eNode o)
  | ParseError e => ParseError (eE e)
  | ParseLoop => ParseLoop
  end.

(** outcome of a sub-parser whose value is mapped by [f] *)
Definition ePres {A} (f : A -> A) (r : pres A) : pres A :=
  match r with
  | POk a ts => POk (f a) (eTs ts)
  | PErr m ts => PErr m (eTs ts)
  | PFuel => PFuel
  end.

Lemma cursor_e ts : cursor (eTs ts) = eT (cursor ts).
Proof. now destruct ts. Qed.
Lemma pnext_e ts : pnext (eTs ts) = eTs (pnext ts).
Proof. now destruct ts. Qed.
Lemma ty_e t : ty (eT t) = ty t. Proof. reflexivity. Qed.
Lemma val_e t : val (eT t) = val t. Proof. reflexivity. Qed.
Lemma eT_idem t : eT (eT t) = eT t. Proof. reflexivity. Qed.

Lemma composedValue_e l : composedValue (eTs l) =
  match composedValue l with Ok t => Ok (eT t) | Err e => Err e | Panic => Panic | OutOfFuel => OutOfFuel end.
Proof.
  unfold composedValue, eTs. destruct l as [|b l]; [reflexivity|]. cbn [map].
  rewrite map_map. change (map (fun x => val (eT x)) l) with (map val l). change (val (eT b)) with (val b).
  now destruct (unescape (sconcat (val b :: map val l))).
Qed.

Lemma composeAt_e l ts : composeAt (eTs l) (eTs ts) = ePres eT (composeAt l ts).
Proof. unfold composeAt. rewrite composedValue_e. now destruct (composedValue l). Qed.

Lemma continueUntilEOL_e ts : continueUntilEOL (eTs ts) = eTs (continueUntilEOL ts).
Proof.
  induction ts as [|t r IH]; [reflexivity|]. cbn [eTs map continueUntilEOL]. fold (eTs r). rewrite IH.
  change (ty (eT t)) with (ty t). now destruct (_ || _).
Qed.

Lemma expectEOL_e ts : expectEOL (eTs ts) = ePres (fun u => u) (expectEOL ts).
Proof.
  induction ts as [|t r IH]; [reflexivity|]. cbn [eTs map expectEOL]. fold (eTs r). cbn [eT ty].
  destruct (ty t) eqn:E; try reflexivity; [exact IH|].
  cbn [ePres]. f_equal. exact (continueUntilEOL_e (t :: r)).
Qed.

Lemma rev_e l : rev (eTs l) = eTs (rev l).
Proof. unfold eTs. now rewrite map_rev. Qed.

Lemma matchGo_e start : forall want ts acc,
  matchGo (eTs start) (eTs ts) want (eTs acc) = ePres eTs (matchGo start ts want acc).
Proof.
  induction want as [|e w IH]; intros ts acc; cbn [matchGo].
  - rewrite rev_e. reflexivity.
  - rewrite cursor_e. cbn [eT ty]. destruct (tt_eqb (ty (cursor ts)) e).
    + rewrite pnext_e. exact (IH (pnext ts) (cursor ts :: acc)).
    + destruct (tt_eqb e TEOL).
      * rewrite expectEOL_e. destruct (expectEOL ts); cbn [ePres]; [|reflexivity|reflexivity].
        f_equal. cbn [line col]. rewrite <- rev_e. reflexivity.
      * destruct (tt_eqb e TWhitespace); [|reflexivity].
        exact (IH ts (Tok TWhitespace " " 0 (line (cursor ts)) (col (cursor ts)) :: acc)).
Qed.

Lemma pmatch_e want ts : pmatch want (eTs ts) = ePres eTs (pmatch want ts).
Proof. exact (matchGo_e ts want ts []). Qed.

Lemma strLoop_e : forall ts acc, strLoop (eTs ts) (eTs acc) = ePres eTs (strLoop ts acc).
Proof.
  intro ts. remember (length ts) as n eqn:Hn. revert ts Hn. induction n as [n IH] using lt_wf_ind. intros ts Hn acc.
  destruct ts as [|t r]; [reflexivity|]. cbn [eTs map strLoop]. fold (eTs r). cbn [eT ty].
  assert (Hd : forall x, strLoop (eTs r) (eTs (x :: acc)) = ePres eTs (strLoop r (x :: acc))).
  { intro x. apply (IH (length r)); [cbn in Hn; lia|reflexivity]. }
  destruct (ty t) eqn:E; try exact (Hd t); try reflexivity.
  - destruct r as [|t2 r2]; [reflexivity|]. cbn [eTs map]. fold (eTs r2).
    apply (IH (length r2) ltac:(cbn in Hn; lia) r2 eq_refl (t2 :: t :: acc)).
  - cbn [ePres]. f_equal. apply rev_e.
Qed.

Lemma eTs_nil : eTs [] = [].
Proof. reflexivity. Qed.
Lemma eTs_one t : eTs [t] = [eT t].
Proof. reflexivity. Qed.
Ltac erw H := let E := fresh "E" in pose proof H as E; rewrite ?eTs_nil, ?eTs_one in E; rewrite E; clear E.

Lemma expectStringValue_e ts : expectStringValue (eTs ts) = ePres eT (expectStringValue ts).
Proof.
  unfold expectStringValue. rewrite cursor_e, pnext_e. cbn [eT ty]. destruct (tt_eqb _ _); [|reflexivity].
  erw (strLoop_e (pnext ts) []). destruct (strLoop (pnext ts) []); cbn [ePres]; [apply composeAt_e|reflexivity|reflexivity].
Qed.

Lemma litLoop_e dots : forall ts acc, litLoop dots (eTs ts) (eTs acc) = ePres eT (litLoop dots ts acc).
Proof.
  induction ts as [|t r IH]; intro acc; cbn [eTs map litLoop]; fold (eTs acc).
  - rewrite rev_e. exact (composeAt_e (rev acc) []).
  - fold (eTs r). cbn [eT ty].
    assert (Hd : composeAt (rev (eTs acc)) (eT t :: eTs r) = ePres eT (composeAt (rev acc) (t :: r))).
    { rewrite rev_e. exact (composeAt_e (rev acc) (t :: r)). }
    destruct (ty t) eqn:E; try exact Hd; try exact (IH (t :: acc)).
    + exact (expectStringValue_e (t :: r)).
    + destruct dots; [exact (IH (t :: acc))|exact Hd].
Qed.
Lemma expectLiteralValue_e ts : expectLiteralValue (eTs ts) = ePres eT (expectLiteralValue ts).
Proof. exact (litLoop_e false ts []). Qed.
Lemma expectPath_e ts : expectPath (eTs ts) = ePres eT (expectPath ts).
Proof. exact (litLoop_e true ts []). Qed.

Lemma metaKeyLoop_e : forall ts acc, metaKeyLoop (eTs ts) (eTs acc) = ePres eT (metaKeyLoop ts acc).
Proof.
  intro ts. remember (length ts) as n eqn:Hn. revert ts Hn. induction n as [n IH] using lt_wf_ind. intros ts Hn acc.
  destruct ts as [|t r]; [reflexivity|]. cbn [eTs map metaKeyLoop]. fold (eTs r). fold (eTs acc). cbn [eT ty].
  assert (Hd : composeAt (rev (eTs acc)) (eT t :: eTs r) = ePres eT (composeAt (rev acc) (t :: r))).
  { rewrite rev_e. exact (composeAt_e (rev acc) (t :: r)). }
  destruct (ty t) eqn:E; try exact Hd; try reflexivity.
  - destruct r as [|t2 r2]; [reflexivity|]. cbn [eTs map]. fold (eTs r2). cbn [eT ty].
    destruct (tt_eqb (ty t2) TWord); [|reflexivity].
    apply (IH (length r2) ltac:(cbn in Hn; lia) r2 eq_refl (t2 :: t :: acc)).
  - apply (IH (length r) ltac:(cbn in Hn; lia) r eq_refl (t :: acc)).
Qed.

Lemma expectMetadataKey_e ts : expectMetadataKey (eTs ts) = ePres eT (expectMetadataKey ts).
Proof.
  unfold expectMetadataKey. rewrite pmatch_e. destruct (pmatch [TWord] ts); cbn [ePres]; [apply metaKeyLoop_e|reflexivity|reflexivity].
Qed.

Lemma metaValLoop_e : forall ts acc, metaValLoop (eTs ts) (eTs acc) = ePres eT (metaValLoop ts acc).
Proof.
  induction ts as [|t r IH]; intro acc; cbn [eTs map metaValLoop]; fold (eTs acc).
  - rewrite rev_e. exact (composeAt_e (rev acc) []).
  - fold (eTs r). cbn [eT ty].
    assert (Hd : composeAt (rev (eTs acc)) (eT t :: eTs r) = ePres eT (composeAt (rev acc) (t :: r))).
    { rewrite rev_e. exact (composeAt_e (rev acc) (t :: r)). }
    destruct (ty t) eqn:E; try exact Hd; exact (IH (t :: acc)).
Qed.
Lemma expectMetadataValue_e ts : expectMetadataValue (eTs ts) = ePres eT (expectMetadataValue ts).
Proof.
  unfold expectMetadataValue. rewrite cursor_e. cbn [eT ty]. destruct (tt_eqb _ _); [apply expectStringValue_e|].
  exact (metaValLoop_e ts []).
Qed.

Lemma eTs_app a b : eTs (a ++ b) = eTs a ++ eTs b.
Proof. apply map_app. Qed.

Lemma type_loops_e : forall n,
  (forall ts acc, typeLoop n (eTs ts) (eTs acc) = ePres eT (typeLoop n ts acc)) /\
  (forall ts acc, mapLoop n (eTs ts) (eTs acc) = ePres eT (mapLoop n ts acc)) /\
  (forall ts acc, typeListLoop n (eTs ts) (eTs acc) = ePres eT (typeListLoop n ts acc)).
Proof.
  induction n as [|n (I1 & I2 & I3)]; [repeat split; reflexivity|]. repeat split; intros ts acc.
  - cbn [typeLoop]. rewrite cursor_e, pnext_e. cbn [eT ty val].
    assert (Hd : composeAt (rev (eTs acc)) (eTs ts) = ePres eT (composeAt (rev acc) ts)) by (rewrite rev_e; apply composeAt_e).
    destruct (ty (cursor ts)); try exact Hd; try reflexivity.
    + rewrite pmatch_e. destruct (pmatch [TOpenBracket; TCloseBracket] ts) as [brs ts1|m ts1|]; cbn [ePres]; try reflexivity.
      erw (I1 ts1 []). destruct (typeLoop n ts1 []) as [tn ts2|m ts2|]; cbn [ePres]; try reflexivity.
      rewrite rev_e, <- eTs_app. exact (I1 ts2 (tn :: rev brs ++ acc)).
    + destruct (String.eqb _ _).
      * erw (I2 (pnext ts) [cursor ts]). destruct (mapLoop n (pnext ts) [cursor ts]) as [mt ts1|m ts1|]; cbn [ePres]; try reflexivity.
        exact (I1 ts1 (mt :: acc)).
      * destruct (_ || _); [reflexivity|]. exact (I1 (pnext ts) (cursor ts :: acc)).
  - cbn [mapLoop]. rewrite cursor_e, pnext_e. cbn [eT ty val].
    destruct (ty (cursor ts)); try reflexivity.
    + apply I2.
    + erw (I3 (pnext ts) [cursor ts]). destruct (typeListLoop n (pnext ts) [cursor ts]) as [tl ts1|m ts1|]; cbn [ePres]; try reflexivity.
      exact (I2 ts1 (tl :: acc)).
    + rewrite rev_e. apply composeAt_e.
  - cbn [typeListLoop]. rewrite cursor_e, pnext_e. cbn [eT ty val].
    assert (Hw : match typeLoop n (eTs ts) [] with
                 | POk tn ts1 => typeListLoop n ts1 (tn :: eTs acc) | e => e end =
                 ePres eT match typeLoop n ts [] with POk tn ts1 => typeListLoop n ts1 (tn :: acc) | e => e end).
    { erw (I1 ts []). destruct (typeLoop n ts []) as [tn ts1|m ts1|]; cbn [ePres]; try reflexivity. exact (I3 ts1 (tn :: acc)). }
    destruct (ty (cursor ts)); try reflexivity; try exact Hw.
    + apply I3.
    + change (eT (cursor ts) :: eTs acc) with (eTs (cursor ts :: acc)). rewrite rev_e. apply composeAt_e.
    + exact (I3 (pnext ts) (cursor ts :: acc)).
    + exact (I3 (pnext ts) (cursor ts :: acc)).
Qed.

Lemma len_e ts : length (eTs ts) = length ts.
Proof. apply map_length. Qed.

Lemma expectType_e ts : expectType (eTs ts) = ePres eT (expectType ts).
Proof.
  unfold expectType, typeFuel. rewrite len_e. exact (proj1 (type_loops_e _) ts []).
Qed.

Definition same {A} (a : A) := a.

Lemma argLoop_e : forall n ts acc, argLoop n (eTs ts) acc = ePres same (argLoop n ts acc).
Proof.
  induction n as [|n IH]; intros ts acc; [reflexivity|]. cbn [argLoop]. rewrite cursor_e, pnext_e. cbn [eT ty].
  destruct (ty (cursor ts)); try reflexivity; try apply IH.
  rewrite !pmatch_e. destruct (pmatch [TWord; TCloseParen] ts) as [l t|m t|]; cbn [ePres].
  - rewrite cursor_e, pnext_e. reflexivity.
  - assert (HA : forall opt l t1, match expectType (eTs t1) with
        | POk vt ts2 => argLoop n ts2 (Arg (val (cursor (eTs l))) (val vt) opt None :: acc)
        | PErr m ts2 => PErr m ts2 | PFuel => PFuel end =
        ePres same match expectType t1 with
        | POk vt ts2 => argLoop n ts2 (Arg (val (cursor l)) (val vt) opt None :: acc)
        | PErr m ts2 => PErr m ts2 | PFuel => PFuel end).
    { intros opt l t1. rewrite expectType_e. destruct (expectType t1) as [vt t2|m2 t2|]; cbn [ePres]; try reflexivity.
      rewrite cursor_e. apply IH. }
    destruct (pmatch [TWord; TQuestion; TColon; TWhitespace] ts) as [l2 t2|m2 t2|]; cbn [ePres]; [apply HA| |];
      (destruct (pmatch [TWord; TColon; TWhitespace] ts) as [l3 t3|m3 t3|]; cbn [ePres]; [apply HA|reflexivity|reflexivity]).
  - assert (HA : forall opt l t1, match expectType (eTs t1) with
        | POk vt ts2 => argLoop n ts2 (Arg (val (cursor (eTs l))) (val vt) opt None :: acc)
        | PErr m ts2 => PErr m ts2 | PFuel => PFuel end =
        ePres same match expectType t1 with
        | POk vt ts2 => argLoop n ts2 (Arg (val (cursor l)) (val vt) opt None :: acc)
        | PErr m ts2 => PErr m ts2 | PFuel => PFuel end).
    { intros opt l t1. rewrite expectType_e. destruct (expectType t1) as [vt t2|m2 t2|]; cbn [ePres]; try reflexivity.
      rewrite cursor_e. apply IH. }
    destruct (pmatch [TWord; TQuestion; TColon; TWhitespace] ts) as [l2 t2|m2 t2|]; cbn [ePres]; [apply HA| |];
      (destruct (pmatch [TWord; TColon; TWhitespace] ts) as [l3 t3|m3 t3|]; cbn [ePres]; [apply HA|reflexivity|reflexivity]).
Qed.

Lemma expectArgumentList_e ts : expectArgumentList (eTs ts) = ePres same (expectArgumentList ts).
Proof.
  unfold expectArgumentList.
  assert (HP : forall t, match pmatch [TOpenParen] (eTs t) with
      | POk _ ts1 => argLoop (S (length ts1)) ts1 [] | PErr m ts1 => PErr m ts1 | PFuel => PFuel end =
      ePres same match pmatch [TOpenParen] t with
      | POk _ ts1 => argLoop (S (length ts1)) ts1 [] | PErr m ts1 => PErr m ts1 | PFuel => PFuel end).
  { intro t. rewrite pmatch_e. destruct (pmatch [TOpenParen] t) as [l t1|m t1|]; cbn [ePres]; try reflexivity.
    rewrite len_e. apply argLoop_e. }
  rewrite (pmatch_e [TWord; TWhitespace]).
  destruct (pmatch [TWord; TWhitespace] ts) as [l t|m t|]; cbn [ePres]; [|apply HP|apply HP].
  rewrite cursor_e. cbn [eT val]. destruct (String.eqb _ _); [apply HP|reflexivity].
Qed.

Lemma nth_e n l : nth n (eTs l) eofTok = eT (nth n l eofTok).
Proof. change eofTok with (eT eofTok) at 1. apply map_nth. Qed.

Lemma errListLoop_e : forall n ts acc, errListLoop n (eTs ts) acc = ePres same (errListLoop n ts acc).
Proof.
  induction n as [|n IH]; intros ts acc; [reflexivity|]. cbn [errListLoop]. rewrite pmatch_e.
  destruct (pmatch _ ts) as [l t|m t|]; cbn [ePres]; [|reflexivity|reflexivity]. rewrite nth_e. apply IH.
Qed.
Lemma expectErrorList_e ts : expectErrorList (eTs ts) = ePres same (expectErrorList ts).
Proof.
  unfold expectErrorList. rewrite pmatch_e. destruct (pmatch _ ts) as [l t|m t|]; cbn [ePres]; try reflexivity.
  rewrite nth_e, len_e. apply errListLoop_e.
Qed.

Lemma annLoop_e : forall n ts seen acc,
  annLoop n (eTs ts) seen (map eAnn acc) = ePres (map eAnn) (annLoop n ts seen acc).
Proof.
  induction n as [|n IH]; intros ts seen acc; [reflexivity|]. cbn [annLoop]. rewrite pmatch_e.
  destruct (pmatch [TAt; TWord] ts) as [l t|m t|]; cbn [ePres]; [|now rewrite map_rev|now rewrite map_rev].
  rewrite nth_e, cursor_e, pnext_e. cbn [eT val ty line]. destruct (str_in _ _); [reflexivity|].
  assert (HA : forall t1 v, annLoop n (eTs t1) (val (nth 1 l eofTok) :: seen) (Ann (val (nth 1 l eofTok)) 0 v :: map eAnn acc) =
    ePres (map eAnn) (annLoop n t1 (val (nth 1 l eofTok) :: seen) (Ann (val (nth 1 l eofTok)) (line (nth 1 l eofTok)) v :: acc))).
  { intros t1 v. exact (IH t1 _ (Ann (val (nth 1 l eofTok)) (line (nth 1 l eofTok)) v :: acc)). }
  destruct (tt_eqb (ty (cursor t)) TColon); [|apply HA].
  rewrite cursor_e, pnext_e. cbn [eT val ty line].
  destruct (ty (cursor (pnext t))); try apply HA.
  rewrite expectStringValue_e. destruct (expectStringValue (pnext t)) as [v t3|m3 t3|]; cbn [ePres]; try reflexivity.
  rewrite pnext_e. apply HA.
Qed.
Lemma parseAnnotations_e ts : parseAnnotations (eTs ts) = ePres (map eAnn) (parseAnnotations ts).
Proof. unfold parseAnnotations. rewrite len_e. exact (annLoop_e _ ts [] []). Qed.

(** ** one step *)

Lemma stateError_e m ts : stateError m (eTs ts) = eS (stateError m ts).
Proof. unfold stateError. rewrite cursor_e. reflexivity. Qed.

Lemma onOk_e {A} (f : A -> A) (r r' : pres A) k k' :
  r' = ePres f r -> (forall a ts, k' (f a) (eTs ts) = eS (k a ts)) -> onOk r' k' = eS (onOk r k).
Proof.
  intros -> H. destruct r as [a t|m t|]; cbn [ePres onOk]; [apply H|apply stateError_e|reflexivity].
Qed.

Lemma parseComments_nil n : parseComments [] n = ("", [])%string.
Proof. reflexivity. Qed.

Lemma hasDup_e l : hasDup (map an_type (map eAnn l)) = hasDup (map an_type l).
Proof. now rewrite map_map. Qed.

Lemma addMeta_e s kv : addMeta (eStruct s) kv = eStruct (addMeta s kv).
Proof.
  unfold addMeta, eStruct. cbn [s_fields]. rewrite <- map_rev. destruct (rev (s_fields s)) as [|f r]; cbn [map]; [reflexivity|].
  cbn [s_name s_fields s_comment s_line]. rewrite map_app, map_rev. reflexivity.
Qed.

Lemma methodErrors_e f f' ts : (forall es t, f' es (eTs t) = eS (f es t)) ->
  methodErrors f' (eTs ts) = eS (methodErrors f ts).
Proof.
  intro H. unfold methodErrors. rewrite pmatch_e. destruct (pmatch _ ts) as [l t|m t|]; cbn [ePres]; [|apply H|apply H].
  rewrite nth_e. cbn [eT val]. destruct (String.eqb _ _); [|apply H].
  apply (onOk_e same); [apply expectErrorList_e|]. intros a t1. apply H.
Qed.

Lemma methodOutputs_e f f' ts : (forall os outs es t, f' os outs es (eTs t) = eS (f os outs es t)) ->
  methodOutputs f' (eTs ts) = eS (methodOutputs f ts).
Proof.
  intro H. unfold methodOutputs. rewrite pmatch_e.
  destruct (pmatch [TWhitespace; TRocket; TWhitespace] ts) as [l t|m t|]; cbn [ePres].
  - assert (HO : forall os t1, onOk (expectArgumentList (eTs t1)) (fun outs ts5 => methodErrors (f' os outs) ts5) =
       eS (onOk (expectArgumentList t1) (fun outs ts5 => methodErrors (f os outs) ts5))).
    { intros os t1. apply (onOk_e same); [apply expectArgumentList_e|]. intros outs t2. apply methodErrors_e. intros; apply H. }
    rewrite pmatch_e. destruct (pmatch [TWord; TWhitespace] t) as [l5 t5|m5 t5|]; cbn [ePres]; [|apply HO|apply HO].
    rewrite cursor_e. cbn [eT val]. destruct (String.eqb _ _); [apply HO|apply stateError_e].
  - apply methodErrors_e. intros; apply H.
  - apply methodErrors_e. intros; apply H.
Qed.

Lemma finishMethod_e s cm out m ts :
  finishMethod (eService s) [] (map eNode out) (eMethod m) (eTs ts) = eS (finishMethod s cm out m ts).
Proof.
  unfold finishMethod. cbn [eS]. unfold eC. cbn [p_state p_toks p_out eState]. unfold eService. cbn [sv_name sv_methods sv_anns sv_comment].
  now rewrite map_app.
Qed.

Lemma methodRest_e s cm out a b n n' name ts :
  methodRest (eService s) [] (map eNode out) a b n' name (eTs ts) = eS (methodRest s cm out a b n name ts).
Proof.
  unfold methodRest. rewrite parseComments_nil. destruct (parseComments cm n) as [com cm'].
  destruct b.
  - exact (finishMethod_e s cm' out (Method name true com (sv_anns s) a [] false [] []) ts).
  - apply (onOk_e same); [apply expectArgumentList_e|]. intros ins t. apply methodOutputs_e. intros os outs es t2.
    exact (finishMethod_e s cm' out (Method name false com (sv_anns s) a ins os outs es) t2).
Qed.

Lemma stepServiceMethodDef_e s ts cm out :
  stepServiceMethodDef (eService s) (eTs ts) [] (map eNode out) = eS (stepServiceMethodDef s ts cm out).
Proof.
  unfold stepServiceMethodDef. cbn [eService sv_anns]. rewrite hasDup_e. destruct (hasDup _); [apply stateError_e|].
  apply (onOk_e eTs); [apply pmatch_e|]. intros l t. cbv zeta. rewrite !nth_e. cbn [eT val line].
  destruct (_ || _).
  - apply (onOk_e eTs); [apply pmatch_e|]. intros l2 t2. rewrite nth_e. apply methodRest_e.
  - apply methodRest_e.
Qed.

Ltac step1 := first
  [ apply stateError_e
  | reflexivity
  | (apply (onOk_e eTs); [apply pmatch_e | let l := fresh "l" in let t := fresh "t" in intros l t])
  | (apply (onOk_e eT); [first [apply expectLiteralValue_e | apply expectStringValue_e | apply expectPath_e
        | apply expectMetadataKey_e | apply expectMetadataValue_e | apply expectType_e]
        | let l := fresh "v" in let t := fresh "t" in intros l t])
  | (apply (onOk_e (fun u => u)); [apply expectEOL_e | let l := fresh "u" in let t := fresh "t" in intros l t]) ].
Ltac norm := cbv zeta; rewrite ?pnext_e, ?nth_e, ?cursor_e, ?continueUntilEOL_e, ?parseComments_nil; cbn [eT val ty line].

Lemma step_e c : step (eC c) = eS (step c).
Proof.
  destruct c as [st ts cm out]. unfold eC, step. cbn [p_state p_toks p_comments p_out]. norm.
  destruct st; cbn [eState].
  - destruct (ty (cursor ts)); try apply stateError_e; reflexivity.
  - destruct (negb _); [apply stateError_e|]. repeat (destruct (str_in _ _) || destruct (String.eqb _ _)); try apply stateError_e; reflexivity.
  - destruct (tt_eqb _ _); reflexivity.
  - destruct (tt_eqb _ _); reflexivity.
  - reflexivity.
  - cbn [eS]. now rewrite map_rev.
  - step1. reflexivity.
  - destruct ts; reflexivity.
  - step1. norm. destruct (parseComments cm _) as [com cm']. reflexivity.
  - step1. reflexivity.
  - step1. norm. destruct (String.eqb _ _); [|apply stateError_e]. destruct (parseComments cm _) as [com cm']. reflexivity.
  - (* enum *)
    destruct (ty (cursor ts)); try reflexivity. step1. norm. destruct (parseComments cm _) as [com cm']. reflexivity.
  - rewrite pmatch_e. destruct (pmatch _ ts) as [l t|m t|]; cbn [ePres].
    + step1. norm. destruct (parseComments cm _) as [com cm']. cbn [eS]. unfold eC. cbn [p_state p_toks p_out eState].
      unfold eEnum. cbn [e_name e_type e_values e_comment e_line]. now rewrite map_app.
    + cbn [eS]. unfold eC. cbn [p_state p_toks p_out eState].
      unfold eEnum. cbn [e_name e_type e_values e_comment e_line]. now rewrite map_app.
    + cbn [eS]. unfold eC. cbn [p_state p_toks p_out eState].
      unfold eEnum. cbn [e_name e_type e_values e_comment e_line]. now rewrite map_app.
  - step1. norm. destruct (negb _); [apply stateError_e|]. destruct (isNumber _); [reflexivity|apply stateError_e].
  - destruct (ty (cursor ts)); try apply stateError_e; [|reflexivity]. step1. reflexivity.
  - rewrite pmatch_e. destruct (pmatch [TWhitespace; TWord] ts) as [l t|m t|]; cbn [ePres].
    + norm. destruct (negb _); [exact (stateError_e _ (nth 1 l eofTok :: t))|].
      rewrite pmatch_e. destruct (pmatch [TWhitespace; TWord] t) as [l2 t2|m2 t2|]; cbn [ePres].
      * norm. destruct (isNumber _); [|exact (stateError_e _ (nth 1 l2 eofTok :: t2))]. step1. reflexivity.
      * apply stateError_e.
      * reflexivity.
    + step1. reflexivity.
    + step1. reflexivity.
  - rewrite pmatch_e. destruct (pmatch [TWord; TEOL] ts) as [l t|m t|]; cbn [ePres].
    + norm. destruct (String.eqb _ _); [reflexivity|apply stateError_e].
    + step1. step1. reflexivity.
    + reflexivity.
  - destruct (ty (cursor ts)); try reflexivity. step1. step1. reflexivity.
  - destruct (ty (cursor ts)); try reflexivity. step1. step1. reflexivity.
  - step1. norm. destruct (negb _); [apply stateError_e|]. step1. norm. destruct (parseComments cm _) as [com cm']. reflexivity.
  - destruct (ty (cursor ts)); reflexivity.
  - step1. step1. step1. step1. reflexivity.
  - step1. norm. destruct (negb _); [apply stateError_e|]. destruct (parseComments cm _) as [com cm']. reflexivity.
  - destruct (ty (cursor ts)); reflexivity.
  - step1. norm. destruct (parseComments cm _) as [com cm'].
    assert (HB : forall opt t2, onOk (pmatch [TColon; TWhitespace] (eTs t2)) (fun _ ts3 => onOk (expectType ts3) (fun v ts4 =>
        Next (PC (SStructFieldMeta (Struct (s_name (eStruct s)) (s_fields (eStruct s) ++ [Def (val (nth 2 l eofTok)) (val v) opt [] ""])
               (s_comment (eStruct s)) (s_line (eStruct s)))) ts4 [] (map eNode out)))) =
      eS (onOk (pmatch [TColon; TWhitespace] t2) (fun _ ts3 => onOk (expectType ts3) (fun v ts4 =>
        Next (PC (SStructFieldMeta (Struct (s_name s) (s_fields s ++ [Def (val (nth 2 l eofTok)) (val v) opt [] com])
               (s_comment s) (s_line s))) ts4 cm' out))))).
    { intros opt t2. step1. step1. cbn [eS]. unfold eC. cbn [p_state p_toks p_out eState]. unfold eStruct.
      cbn [s_name s_fields s_comment s_line]. rewrite map_app. reflexivity. }
    rewrite (pmatch_e [TQuestion]). destruct (pmatch [TQuestion] t) as [lq tq|m tq|]; cbn [ePres]; apply HB.
  - destruct (ty (cursor ts)); reflexivity.
  - step1. step1. step1. step1. norm. cbn [eS]. unfold eC. cbn [p_state p_toks p_out eState]. now rewrite addMeta_e.
  - step1. norm. destruct (negb _); [apply stateError_e|]. step1. step1. norm. destruct (parseComments cm _) as [com cm']. reflexivity.
  - destruct (ty (cursor ts)); try reflexivity.
    apply (onOk_e (map eAnn)); [apply parseAnnotations_e|]. intros anns t. cbn [eS]. unfold eC. cbn [p_state p_toks p_out eState].
    unfold eService. cbn [sv_name sv_methods sv_anns sv_comment]. rewrite map_app. reflexivity.
  - apply stepServiceMethodDef_e.
Qed.

Lemma run_e k c : runParser k (eC c) = eR (runParser k c).
Proof.
  revert c. induction k as [|k IH]; intro c; [reflexivity|]. cbn [runParser]. rewrite step_e.
  destruct (step c); cbn [eS eR]; try reflexivity. apply IH.
Qed.
