(** Writing a schema as JSON and reading it back. *)
From Coq Require Import Permutation.
From Verif Require Import Base BaseProofs Utf8 Utf8Proofs Json JsonProofs GoVal GoValProofs Schema SchemaJson RawJsonProofs JsonSchemaSpec.

(** ** literals *)
Lemma read_escRuneN r rest : valid_rune r = true ->
  exists c t, (escRuneN r ++ rest)%string = String c t /\ (N_of_byte c =? 34)%N = false /\
    readChar c t = Some (encode_rune r, rest).
Proof.
  intros V. unfold escRuneN.
  destruct ((r =? 60)%N || (r =? 62)%N || (r =? 38)%N) eqn:E; [|apply read_escRune; assumption].
  rewrite !orb_true_iff, !N.eqb_eq in E. destruct E as [[->| ->]| ->]; do 2 eexists; repeat split.
Qed.

Lemma read_escFirstN c s o s' rest : escFirstN c s = (o, s') ->
  exists c' t, (o ++ rest)%string = String c' t /\ (N_of_byte c' =? 34)%N = false /\
    readChar c' t = Some (encode_rune (fst (decode_rune c s)), rest) /\ s' = snd (decode_rune c s).
Proof.
  unfold escFirstN. pose proof (decode_rune_valid c s) as V.
  destruct (decode_rune c s) as [r s2]. cbn [fst snd] in *.
  destruct ((r =? replacement)%N && (String.length s2 =? String.length s)%nat) eqn:E; intros [= <- <-].
  - apply andb_true_iff in E. destruct E as [E _]. apply N.eqb_eq in E. subst r.
    do 2 eexists. split; [reflexivity|]. split; [reflexivity|]. split; [|reflexivity].
    apply (readChar_u replacement rest); reflexivity.
  - destruct (read_escRuneN r rest V) as (c' & t & E1 & E2 & E3). exists c', t. auto.
Qed.

Lemma decode_rune_rest c s : String.length (snd (decode_rune c s)) <= String.length s.
Proof.
  unfold decode_rune.
  repeat match goal with
  | |- context[if ?b then _ else _] => destruct b
  | |- context[match ?x with EmptyString => _ | String _ _ => _ end] => destruct x
  end; simpl; lia.
Qed.

Lemma readStr_escNFuel k : forall s n rest, String.length s <= k ->
  String.length (escNFuel k s) < n ->
  readStr n (escNFuel k s ++ String (byte_of_N 34) rest) = Some (encode (decode_fuel k s), rest).
Proof.
  induction k as [|k IH]; intros s n rest L Ln.
  - destruct s; [|simpl in L; lia]. destruct n as [|n]; [simpl in Ln; lia|]. reflexivity.
  - destruct s as [|c s].
    + destruct n as [|n]; [simpl in Ln; lia|]. reflexivity.
    + cbn [escNFuel] in *. destruct (escFirstN c s) as [o s'] eqn:E. rewrite slength_app in Ln. rewrite sapp_assoc.
      destruct (read_escFirstN c s o s' (escNFuel k s' ++ String (byte_of_N 34) rest) E) as (c' & t & E1 & E2 & E3 & E4).
      pose proof (read_escFirstN c s o s' EmptyString E) as (c2 & t2 & O & _).
      assert (1 <= String.length o) by (rewrite sapp_nil_r in O; rewrite O; simpl; lia).
      destruct n as [|n]; [lia|]. rewrite E1. cbn [readStr]. rewrite E2, E3.
      assert (String.length s' <= String.length s) as LS by (subst s'; apply decode_rune_rest).
      rewrite IH; [|simpl in L; lia|lia].
      cbn [decode_fuel]. destruct (decode_rune c s) as [r s2]. cbn [fst snd] in *. subst s2. reflexivity.
Qed.

Lemma escN_lit s : LitFor (escN s) (san s).
Proof. intros n rest L. apply readStr_escNFuel; auto. Qed.

Lemma unq_escN s : ValidUtf8 s -> unq (escN s) = s.
Proof. intros V. rewrite (unq_lit _ _ (escN_lit s)). apply san_valid, V. Qed.

Lemma read_plain r rest : valid_rune r = true -> (32 <= r)%N -> r <> 34%N -> r <> 92%N ->
  exists c t, (encode_rune r ++ rest)%string = String c t /\ (N_of_byte c =? 34)%N = false /\
    readChar c t = Some (encode_rune r, rest).
Proof.
  intros V L N34 N92. destruct (encode_rune_cons r V) as (c & t & E & C).
  pose proof (decode_rune_encode r c t rest V E) as D. rewrite E.
  exists c, (t ++ rest)%string. split; [reflexivity|].
  destruct C as [(L2 & -> & ->)|(L2 & B)].
  - assert (N_of_byte (byte_of_N r) = r) as EB by (apply N_of_byte_of_N; lia).
    rewrite EB. split; [apply N.eqb_neq; assumption|]. unfold readChar. rewrite EB.
    replace (r =? 92)%N with false by (symmetry; apply N.eqb_neq; assumption).
    replace (r <? 32)%N with false by (symmetry; apply N.ltb_ge; lia).
    replace (r <? 128)%N with true by (symmetry; apply N.ltb_lt; lia).
    rewrite <- E. reflexivity.
  - split; [apply N.eqb_neq; lia|]. unfold readChar.
    replace (N_of_byte c =? 92)%N with false by (symmetry; apply N.eqb_neq; lia).
    replace (N_of_byte c <? 32)%N with false by (symmetry; apply N.ltb_ge; lia).
    replace (N_of_byte c <? 128)%N with false by (symmetry; apply N.ltb_ge; lia).
    rewrite D, E. reflexivity.
Qed.

Lemma encode_cons r rs : encode (r :: rs) = (encode_rune r ++ encode rs)%string.
Proof. reflexivity. Qed.

Lemma plain_lit isPrint s : Plain isPrint s -> LitFor s s.
Proof.
  intros (rs & H & ->). induction H as [|r rs (V & _ & L & N34 & N92) _ IH]; intros n rest Ln.
  - destruct n as [|n]; [simpl in Ln; lia|]. reflexivity.
  - rewrite encode_cons in *. rewrite slength_app in Ln. rewrite sapp_assoc.
    destruct (read_plain r (encode rs ++ String (byte_of_N 34) rest) V L N34 N92) as (c & t & E1 & E2 & E3).
    destruct (read_plain r EmptyString V L N34 N92) as (c2 & t2 & E4 & _). rewrite sapp_nil_r in E4.
    assert (1 <= String.length (encode_rune r)) by (rewrite E4; simpl; lia).
    destruct n as [|n]; [lia|]. rewrite E1. cbn [readStr]. rewrite E2, E3, IH by lia. reflexivity.
Qed.

Lemma goEscFirst_encode isPrint r c t rest : PlainRune isPrint r -> encode_rune r = String c t ->
  goEscFirst isPrint c (t ++ rest) = (encode_rune r, rest).
Proof.
  intros (V & P & L & N34 & N92) E. unfold goEscFirst.
  rewrite (decode_rune_encode r c t rest V E).
  assert (G : goEscRune isPrint r = encode_rune r).
  { unfold goEscRune. replace (r =? 34)%N with false by (symmetry; apply N.eqb_neq; assumption).
    replace (r =? 92)%N with false by (symmetry; apply N.eqb_neq; assumption). cbn [orb]. rewrite P. reflexivity. }
  destruct (r =? replacement)%N eqn:R; cbn [andb]; [|now rewrite G].
  apply N.eqb_eq in R. subst r. vm_compute in E. injection E as <- <-. cbn [append String.length].
  replace (String.length rest =? S (S (String.length rest)))%nat with false
    by (symmetry; apply Nat.eqb_neq; lia). now rewrite G.
Qed.

Lemma goEscFuel_plain isPrint rs : Forall (PlainRune isPrint) rs -> forall n, String.length (encode rs) <= n ->
  goEscFuel isPrint n (encode rs) = encode rs.
Proof.
  induction 1 as [|r rs P _ IH]; intros n Ln.
  - destruct n; reflexivity.
  - rewrite encode_cons in *. pose proof P as (V & _).
    destruct (encode_rune_cons r V) as (c & t & E & _). rewrite slength_app, E in Ln. cbn [String.length] in Ln.
    destruct n as [|n]; [lia|].
    rewrite E at 1. cbn [append goEscFuel]. rewrite (goEscFirst_encode isPrint r c t (encode rs) P E).
    rewrite IH by lia. reflexivity.
Qed.
Lemma goEsc_plain isPrint s : Plain isPrint s -> goEsc isPrint s = s.
Proof. intros (rs & H & ->). apply goEscFuel_plain; auto. Qed.

Lemma plain_valid isPrint s : Plain isPrint s -> ValidUtf8 s.
Proof.
  intros (rs & H & ->). exists rs. split; [|reflexivity]. apply forallb_forall. intros r Hr.
  rewrite Forall_forall in H. apply (H r Hr).
Qed.

(** ** what is read back: types lose their structure, maps are sorted *)
Fixpoint insertA {A} (e : string * A) (l : list (string * A)) : list (string * A) :=
  match l with
  | [] => [e]
  | x :: r => if String.leb (fst e) (fst x) then e :: l else x :: insertA e r
  end.
Fixpoint sortA {A} (l : list (string * A)) : list (string * A) :=
  match l with [] => [] | x :: r => insertA x (sortA r) end.

Definition onSnd {A B} (g : A -> B) (kv : string * A) : string * B := (fst kv, g (snd kv)).

Lemma insertKey_map {A} (g : A -> json) e l :
  insertKey (onSnd g e) (map (onSnd g) l) = map (onSnd g) (insertA e l).
Proof.
  induction l as [|x l IH]; [reflexivity|]. cbn [map insertKey insertA]. unfold onSnd at 1 2. cbn [fst].
  destruct (String.leb (fst e) (fst x)); [reflexivity|]. cbn [map]. now rewrite IH.
Qed.
Lemma sortKeys_map {A} (g : A -> json) l : sortKeys (map (onSnd g) l) = map (onSnd g) (sortA l).
Proof. induction l as [|x l IH]; [reflexivity|]. cbn [map sortKeys sortA]. now rewrite IH, insertKey_map. Qed.

Lemma insertA_perm {A} (e : string * A) l : Permutation (e :: l) (insertA e l).
Proof.
  induction l as [|x l IH]; [reflexivity|]. cbn [insertA]. destruct (String.leb _ _); [reflexivity|].
  rewrite perm_swap. now constructor.
Qed.
Lemma sortA_perm {A} (l : list (string * A)) : Permutation l (sortA l).
Proof.
  induction l as [|x l IH]; [reflexivity|]. cbn [sortA]. rewrite <- insertA_perm. now constructor.
Qed.

Lemma lastOnly_nodup {A} (l : list (string * A)) : NoDup (map fst l) -> lastOnly l = l.
Proof.
  induction l as [|x l IH]; [reflexivity|]. cbn [map lastOnly]. intros H. inversion_clear H as [|? ? H1 H2].
  destruct (existsb _ l) eqn:E; [|now rewrite IH]. exfalso. apply existsb_exists in E as (y & Hy & E).
  apply String.eqb_eq in E. apply H1. rewrite E. now apply in_map.
Qed.
Lemma sortA_nodup {A} (l : list (string * A)) : NoDup (map fst l) -> NoDup (map fst (sortA l)).
Proof. apply Permutation_NoDup, Permutation_map, sortA_perm. Qed.

Definition rawVT (v : varType) : varType := VT (vt_expr v) ShUnknown.
Definition rawField (f : field) : field :=
  Field (f_name f) (option_map rawVT (f_type f)) (f_optional f) (f_value f) (map sortA (f_meta f)) (f_comments f).
Definition rawType (t : type) (i : ident) : type :=
  Type_ i (t_kind t) (t_name t) (option_map rawVT (t_type t)) (map rawField (t_fields t)) (map sortA (t_meta t)) (t_comments t).
Definition rawError (e : error) (i : ident) : error := Error_ i (x_code e) (x_name e) (x_message e) (x_status e).
Definition rawArg (a : arg) : arg := Arg_ (g_name a) (option_map rawVT (g_type a)) (g_optional a).
Definition rawMethod (m : method) : method :=
  Method_ (me_name m) (sortA (me_annotations m)) (me_comments m) (me_succinct m) (me_stream_in m) (me_stream_out m)
    (map rawArg (me_inputs m)) (map rawArg (me_outputs m)) (me_errors m).
Definition rawService (s : service) (i : ident) : service :=
  Service_ i (v_name s) (map rawMethod (v_methods s)) (v_comments s).
Definition rawSchema (s : schema) : schema :=
  Schema_ (sc_webrpc s) (sc_name s) (sc_version s) (sc_basepath s)
    (numberJ 0 (map rawType (sc_types s))) (numberJ 0 (map rawError (sc_errors s)))
    (numberJ 0 (map rawService (sc_services s))).

(** ** value by value *)
Definition Enc (d : nat) (j : json) : Prop := JLit j /\ jdepth j <= d.

Lemma enc_str d s : Enc d (jstr s).
Proof. split; [constructor; eexists; apply escN_lit|simpl; lia]. Qed.
Lemma enc_bool d b : Enc d (JBool b).
Proof. split; [constructor|simpl; lia]. Qed.
Lemma enc_null d : Enc d JNull.
Proof. split; [constructor|simpl; lia]. Qed.
Lemma enc_num d z : Enc d (JNum (zdec z)).
Proof. split; [constructor; apply NumLit_zdec|simpl; lia]. Qed.
Lemma enc_le d d' j : d <= d' -> Enc d j -> Enc d' j.
Proof. intros L [H1 H2]. split; [assumption|lia]. Qed.
Lemma enc_arr d l : Forall (Enc d) l -> Enc (S d) (JArr l).
Proof.
  intros H. split.
  - constructor. intros x Hx. rewrite Forall_forall in H. apply (H x Hx).
  - rewrite jdepth_arr. apply le_n_S. induction H as [|x l [_ Hx] _ IH]; cbn [depthElems]; lia.
Qed.
Lemma enc_obj d l : Forall (fun kv => Lit (fst kv) /\ Enc d (snd kv)) l -> Enc (S d) (JObj l).
Proof.
  intros H. split.
  - constructor. intros k x Hx. rewrite Forall_forall in H. destruct (H _ Hx) as [Lk [J _]]. auto.
  - rewrite jdepth_obj. apply le_n_S. induction H as [|[k x] l [_ [_ Hx]] _ IH]; cbn [depthMembers snd] in *; lia.
Qed.

Lemma asStr_jstr s : ValidUtf8 s -> asStr (jstr s) = Ok s.
Proof. intros V. cbn [asStr jstr]. now rewrite unq_escN. Qed.
Lemma asStrs l : Forall ValidUtf8 l -> asList asStr (strsJ l) = Ok l.
Proof.
  intros H. unfold strsJ. cbn [asList]. induction H as [|s l V _ IH]; [reflexivity|].
  cbn [map mapM]. rewrite asStr_jstr by assumption. cbn [bind]. now rewrite IH.
Qed.
Lemma enc_strs l : Enc 1 (strsJ l).
Proof. apply enc_arr. apply Forall_forall. intros x Hx. apply in_map_iff in Hx as (s & <- & _). apply enc_str. Qed.

Lemma asInt_num z : int64 z -> asInt (JNum (zdec z)) = Ok z.
Proof. intros H. cbn [asInt]. rewrite parseInt_zdec by exact H. reflexivity. Qed.

Lemma type_back isPrint v : WType isPrint v -> exists j, typeJ isPrint v = Some j /\ Enc 0 j /\ asType j = Ok (Some (rawVT v)).
Proof.
  intros [P N]. unfold typeJ. rewrite (goEsc_plain _ _ P), (unquoteLit_lit _ _ (plain_lit _ _ P)).
  eexists. split; [reflexivity|]. split.
  - split; [constructor; eexists; apply (plain_lit _ _ P)|simpl; lia].
  - cbn [asType]. destruct (String.eqb (vt_expr v) "") eqn:E; [apply String.eqb_eq in E; contradiction|]. reflexivity.
Qed.

Lemma metaMembers m :
  escKeys (sortKeys (map (fun kv => (fst kv, match snd kv with Some s => jstr s | None => JNull end)) m)) =
  map (fun kv : string * option string => (escN (fst kv), match snd kv with Some s => jstr s | None => JNull end)) (sortA m).
Proof.
  change (map (fun kv : string * option string => (fst kv, match snd kv with Some s => jstr s | None => JNull end)) m)
    with (map (onSnd (fun o : option string => match o with Some s => jstr s | None => JNull end)) m).
  rewrite sortKeys_map. unfold escKeys. rewrite map_map. reflexivity.
Qed.

Lemma sortA_Forall {A} (P : string * A -> Prop) l : Forall P l -> Forall P (sortA l).
Proof. intros H. eapply Permutation_Forall; [apply sortA_perm|exact H]. Qed.

Lemma meta_back m : WMeta m -> Enc 1 (metaJ m) /\ asMeta (metaJ m) = Ok (sortA m).
Proof.
  intros [D W]. apply sortA_nodup in D. unfold metaJ. rewrite metaMembers. apply (sortA_Forall _ _) in W. split.
  - apply enc_obj. apply Forall_forall. intros kv Hkv. apply in_map_iff in Hkv as ([k o] & <- & _). cbn [fst snd].
    split; [eexists; apply escN_lit|]. destruct o; [apply enc_str|apply enc_null].
  - cbn [asMeta]. f_equal. rewrite map_map. transitivity (lastOnly (sortA m)); [|now apply lastOnly_nodup]. f_equal.
    rewrite <- (map_id (sortA m)) at 2. apply map_ext_in.
    intros [k o] Hko. rewrite Forall_forall in W. destruct (W _ Hko) as [V1 V2]. cbn [fst snd WOpt] in *.
    rewrite unq_escN by assumption. f_equal. destruct o as [s|]; [|reflexivity]. cbn [jstr]. now rewrite unq_escN.
Qed.

Lemma metas_back ms : Forall WMeta ms -> Enc 2 (JArr (map metaJ ms)) /\ asList asMeta (JArr (map metaJ ms)) = Ok (map sortA ms).
Proof.
  intros W. split.
  - apply enc_arr. apply Forall_forall. intros x Hx. apply in_map_iff in Hx as (m & <- & Hm).
    rewrite Forall_forall in W. apply meta_back, W, Hm.
  - cbn [asList]. induction W as [|m ms Wm _ IH]; [reflexivity|]. cbn [map mapM].
    rewrite (proj2 (meta_back m Wm)). cbn [bind]. now rewrite IH.
Qed.

(** evaluate member lookups with literal names *)
Ltac mem_eval :=
  unfold memJ; cbn [fold_left fst snd app omit];
  repeat match goal with
  | |- context[String.eqb (to_lower (unq ?a)) (to_lower ?b)] =>
      let v := eval vm_compute in (String.eqb (to_lower (unq a)) (to_lower b)) in
      change (String.eqb (to_lower (unq a)) (to_lower b)) with v; cbv iota
  end.

Definition keys : list string :=
  ["comments"; "name"; "type"; "optional"; "value"; "meta"; "kind"; "fields"; "code"; "message"; "httpStatus";
   "annotationType"; "annotations"; "succinct"; "streamInput"; "streamOutput"; "inputs"; "outputs"; "errors";
   "methods"; "webrpc"; "version"; "basepath"; "types"; "services"].
Definition asPlain (s : string) : list N := map N_of_byte (list_ascii_of_string s).
Lemma plain_key k : In k keys -> Lit k.
Proof.
  intros H. exists k. apply (plain_lit (fun _ => true)). exists (asPlain k).
  unfold keys in H. cbn [In] in H.
  repeat (destruct H as [<-|H]; [split; [repeat constructor; discriminate|reflexivity]|]). contradiction.
Qed.
Ltac key := apply plain_key; vm_compute; tauto.

Lemma isNil_map {A B} (f : A -> B) l : isNil (map f l) = isNil l.
Proof. now destruct l. Qed.

Lemma Forall_app_intro {A} (P : A -> Prop) l1 l2 : Forall P l1 -> Forall P l2 -> Forall P (l1 ++ l2).
Proof. intros H1 H2. apply Forall_app. auto. Qed.
Lemma Forall_omit {P : string * json -> Prop} b k j : P (k, j) -> Forall P (omit b k j).
Proof. intros H. destruct b; cbn [omit]; auto. Qed.

Ltac members :=
  repeat first [apply Forall_app_intro | apply Forall_omit | apply Forall_cons | apply Forall_nil].

Lemma field_back isPrint f : WField isPrint f ->
  exists j, fieldJ isPrint f = Some j /\ Enc 3 j /\ asField j = Ok (rawField f).
Proof.
  intros (Vn & Wt & Vv & Wm & Wc). unfold fieldJ.
  assert (T : exists l, (match f_type f with
         | None => Some []
         | Some v => option_map (fun j => [("type", j)]) (typeJ isPrint v)
         end) = Some l /\ ((l = [] /\ f_type f = None) \/
           exists j v, l = [("type", j)] /\ f_type f = Some v /\ Enc 0 j /\ asType j = Ok (Some (rawVT v)))).
  { destruct (f_type f) as [v|]; [|exists []; auto]. cbn [WOpt] in Wt.
    destruct (type_back isPrint v Wt) as (j & -> & E & A). cbn [option_map]. eexists. split; [reflexivity|]. right. eauto 6. }
  destruct T as (l & -> & Hl). eexists. split; [reflexivity|].
  destruct (metas_back (f_meta f) Wm) as [Em Am].
  split.
  - apply enc_obj. members; cbn [fst snd]; try (split; [key|]).
    + eapply enc_le; [|apply enc_strs]; lia.
    + apply enc_str.
    + destruct Hl as [[-> _]|(j & v & -> & _ & E & _)]; [constructor|]. constructor; [|constructor]. split; [key|].
      eapply enc_le; [|exact E]; lia.
    + apply enc_bool.
    + apply enc_str.
    + exact Em.
  - unfold asField, asObj, rawField.
    assert (O : forall b : bool, asBool (if b then JBool true else JNull) = Ok b) by (intros []; reflexivity).
    assert (C : asList asStr (if isNil (f_comments f) then JNull else strsJ (f_comments f)) = Ok (f_comments f)).
    { destruct (f_comments f) eqn:E; [reflexivity|]. rewrite <- E in *. cbn [isNil]. rewrite E at 1. now apply asStrs. }
    assert (M : asList asMeta (if isNil (f_meta f) then JNull else JArr (map metaJ (f_meta f))) = Ok (map sortA (f_meta f))).
    { destruct (f_meta f) eqn:E; [reflexivity|]. rewrite <- E in *. rewrite E at 1. exact Am. }
    assert (V : asStr (if String.eqb (f_value f) "" then JNull else jstr (f_value f)) = Ok (f_value f)).
    { destruct (String.eqb (f_value f) "") eqn:E; [apply String.eqb_eq in E; rewrite E; reflexivity|]. now apply asStr_jstr. }
    destruct Hl as [[-> Et]|(j & v & -> & Et & _ & At)]; rewrite Et in *; cbn [option_map];
    destruct (isNil (f_comments f)), (f_optional f), (String.eqb (f_value f) ""), (isNil (f_meta f));
    cbn [negb]; mem_eval; rewrite C; cbn [bind]; rewrite (asStr_jstr (f_name f)) by assumption; cbn [bind asType];
    try rewrite At; cbn [bind asBool]; rewrite V; cbn [bind]; rewrite M; reflexivity.
Qed.

(** an optional type member *)
Lemma typeMember isPrint o : WOpt (WType isPrint) o ->
  exists l, (match o with None => Some [] | Some v => option_map (fun j => [("type", j)]) (typeJ isPrint v) end) = Some l /\
    ((l = [] /\ o = None) \/
      exists j v, l = [("type", j)] /\ o = Some v /\ Enc 0 j /\ asType j = Ok (Some (rawVT v))).
Proof.
  intros Wt. destruct o as [v|]; [|exists []; auto]. cbn [WOpt] in Wt.
  destruct (type_back isPrint v Wt) as (j & -> & E & A). cbn [option_map]. eexists. split; [reflexivity|]. right. eauto 6.
Qed.

Lemma optMap_back {A B} (g : A -> option json) (h : json -> result B) (r : A -> B) (d : nat) (l : list A) :
  Forall (fun a => exists j, g a = Some j /\ Enc d j /\ h j = Ok (r a)) l ->
  exists js, optMap g l = Some js /\ Enc (S d) (JArr js) /\ mapM h js = Ok (map r l) /\ isNil js = isNil l.
Proof.
  induction 1 as [|a l (j & G & E & H) _ (js & Gs & Es & Hs & _)].
  - exists []. repeat split; [constructor; intros x []|]. simpl. lia.
  - exists (j :: js). cbn [optMap mapM map isNil]. rewrite G, Gs, H. cbn [bind]. rewrite Hs. repeat split.
    + destruct Es as [J _]. inversion_clear J. constructor. intros x [<-|Hx]; [apply E|auto].
    + destruct Es as [_ D], E as [_ D2]. rewrite jdepth_arr in *. cbn [depthElems]. lia.
Qed.

Lemma strsOpt l : Forall ValidUtf8 l -> asList asStr (if isNil l then JNull else strsJ l) = Ok l.
Proof. intros H. destruct l as [|x l]; [reflexivity|]. cbn [isNil]. now apply asStrs. Qed.
Lemma metasOpt l : Forall WMeta l -> asList asMeta (if isNil l then JNull else JArr (map metaJ l)) = Ok (map sortA l).
Proof. intros H. destruct l as [|x l]; [reflexivity|]. cbn [isNil]. now apply metas_back. Qed.

Lemma decl_back isPrint t : WDecl isPrint t ->
  exists j, declJ isPrint t = Some j /\ Enc 5 j /\ asDecl j = Ok (rawType t).
Proof.
  intros (Vk & Vn & Wt & Wf & Wm & Wc). unfold declJ.
  destruct (typeMember isPrint (t_type t) Wt) as (l & -> & Hl).
  destruct (optMap_back (fieldJ isPrint) asField rawField 3 (t_fields t)) as (fs & -> & Ef & Af & Nf).
  { eapply Forall_impl; [|exact Wf]. intros f. apply field_back. }
  destruct (metas_back (t_meta t) Wm) as [Em _].
  eexists. split; [reflexivity|]. split.
  - apply enc_obj. members; cbn [fst snd]; try (split; [key|]); try apply enc_str.
    + destruct Hl as [[-> _]|(j & v & -> & _ & E & _)]; [constructor|]. constructor; [|constructor]. split; [key|].
      eapply enc_le; [|exact E]; lia.
    + exact Ef.
    + eapply enc_le; [|exact Em]; lia.
    + eapply enc_le; [|apply enc_strs]; lia.
  - pose proof (strsOpt _ Wc) as C. pose proof (metasOpt _ Wm) as M.
    assert (F : asList asField (if isNil fs then JNull else JArr fs) = Ok (map rawField (t_fields t))).
    { destruct fs; [|exact Af]. cbn [isNil asList]. cbn [mapM] in Af. exact Af. }
    unfold asDecl, asObj.
    destruct Hl as [[-> Et]|(j & v & -> & Et & _ & At)];
    destruct (isNil fs), (isNil (t_meta t)), (isNil (t_comments t));
    mem_eval; rewrite (asStr_jstr (t_kind t)) by assumption; cbn [bind]; rewrite (asStr_jstr (t_name t)) by assumption; cbn [bind asType];
    try rewrite At; cbn [bind]; rewrite F; cbn [bind]; rewrite M; cbn [bind]; rewrite C; cbn [bind];
    unfold rawType; rewrite Et; reflexivity.
Qed.

Lemma error_back e : WError e -> Enc 1 (errorJ e) /\ asError (errorJ e) = Ok (rawError e).
Proof.
  intros (Ic & Vn & Vm & Is). unfold errorJ. split.
  - apply enc_obj. members; cbn [fst snd]; (split; [key|]); first [apply enc_str|apply enc_num].
  - unfold asError, asObj. mem_eval. rewrite asInt_num by assumption. cbn [bind].
    rewrite (asStr_jstr (x_name e)) by assumption. cbn [bind]. rewrite (asStr_jstr (x_message e)) by assumption. cbn [bind].
    rewrite asInt_num by assumption. reflexivity.
Qed.

Lemma arg_back isPrint a : WArg isPrint a -> exists j, argJ isPrint a = Some j /\ Enc 1 j /\ asArg j = Ok (rawArg a).
Proof.
  intros (Vn & Wt). unfold argJ.
  assert (T : exists j, (match g_type a with None => Some JNull | Some v => typeJ isPrint v end) = Some j /\ Enc 0 j /\
                asType j = Ok (option_map rawVT (g_type a))).
  { destruct (g_type a) as [v|]; [|exists JNull; repeat split; [constructor|simpl; lia]]. apply (type_back isPrint v Wt). }
  destruct T as (j & -> & E & A). eexists. split; [reflexivity|]. split.
  - apply enc_obj. members; cbn [fst snd]; (split; [key|]); first [apply enc_str|apply enc_bool|exact E].
  - unfold asArg, asObj. mem_eval. rewrite asStr_jstr by assumption. cbn [bind]. rewrite A. reflexivity.
Qed.

Lemma annotations_back m : NoDup (map fst m) -> Forall WAnn m -> Enc 2 (annotationsJ m) /\ asAnnotations (annotationsJ m) = Ok (sortA m).
Proof.
  intros D W. apply sortA_nodup in D. unfold annotationsJ.
  change (map annotationJ m) with
    (map (onSnd (fun a : string * string => JObj [("annotationType", jstr (fst a)); ("value", jstr (snd a))])) m).
  rewrite sortKeys_map. unfold escKeys. rewrite map_map. apply (sortA_Forall _ _) in W. split.
  - apply enc_obj. apply Forall_forall. intros kv Hkv. apply in_map_iff in Hkv as (a & <- & _). unfold onSnd. cbn [fst snd].
    split; [eexists; apply escN_lit|]. apply enc_obj. members; cbn [fst snd]; (split; [key|]); apply enc_str.
  - cbn [asAnnotations]. 
    match goal with |- bind ?x _ = _ => assert (X : x = Ok (sortA m)); [|rewrite X; cbn [bind]; f_equal; now apply lastOnly_nodup] end.
    clear D.
    induction W as [|[k [t v]] l (V1 & V2 & V3) _ IH]; [reflexivity|]. cbn [fst snd] in V1, V2, V3.
    unfold onSnd in *. cbn [map mapM fst snd asAnnotation] in *. mem_eval.
    rewrite (asStr_jstr t), (asStr_jstr v) by assumption. cbn [bind]. rewrite IH, unq_escN by assumption. reflexivity.
Qed.

Lemma boolOpt b : asBool (if negb b then JNull else JBool true) = Ok b.
Proof. now destruct b. Qed.

Lemma method_back isPrint m : WMethod isPrint m ->
  exists j, methodJ isPrint m = Some j /\ Enc 3 j /\ asMethod j = Ok (rawMethod m).
Proof.
  intros (Vn & Da & Wa & Wc & Wi & Wo & We). unfold methodJ.
  destruct (optMap_back (argJ isPrint) asArg rawArg 1 (me_inputs m)) as (ins & -> & Ei & Ai & _).
  { eapply Forall_impl; [|exact Wi]. intros f. apply arg_back. }
  destruct (optMap_back (argJ isPrint) asArg rawArg 1 (me_outputs m)) as (outs & -> & Eo & Ao & _).
  { eapply Forall_impl; [|exact Wo]. intros f. apply arg_back. }
  destruct (annotations_back _ Da Wa) as [Ea Aa].
  eexists. split; [reflexivity|]. split.
  - apply enc_obj. members; cbn [fst snd]; (split; [key|]);
      first [apply enc_str|apply enc_bool|assumption|eapply enc_le; [|apply enc_strs]; lia].
  - pose proof (asStrs _ Wc) as C. pose proof (strsOpt _ We) as E. pose proof (boolOpt (me_succinct m)) as B1.
    pose proof (boolOpt (me_stream_in m)) as B2. pose proof (boolOpt (me_stream_out m)) as B3.
    unfold asMethod, asObj, rawMethod.
    destruct (me_succinct m), (me_stream_in m), (me_stream_out m), (isNil (me_errors m));
    cbn [negb] in *; mem_eval; rewrite asStr_jstr by assumption; cbn [bind]; rewrite Aa; cbn [bind]; rewrite C; cbn [bind asBool asList];
    rewrite Ai; cbn [bind]; rewrite Ao; cbn [bind asList] in *; first [rewrite E; reflexivity|injection E as E; rewrite <- E; reflexivity].
Qed.

Lemma service_back isPrint s : WService isPrint s ->
  exists j, serviceJ isPrint s = Some j /\ Enc 5 j /\ asService j = Ok (rawService s).
Proof.
  intros (Vn & Wm & Wc). unfold serviceJ.
  destruct (optMap_back (methodJ isPrint) asMethod rawMethod 3 (v_methods s)) as (ms & -> & Em & Am & _).
  { eapply Forall_impl; [|exact Wm]. intros f. apply method_back. }
  eexists. split; [reflexivity|]. split.
  - apply enc_obj. members; cbn [fst snd]; (split; [key|]);
      first [apply enc_str|assumption|eapply enc_le; [|apply enc_strs]; lia].
  - pose proof (asStrs _ Wc) as C. unfold asService, asObj. mem_eval. rewrite asStr_jstr by assumption. cbn [bind asList].
    rewrite Am. cbn [bind]. rewrite C. reflexivity.
Qed.

Lemma schema_back isPrint s : WSchema isPrint s ->
  exists j, schemaJ isPrint s = Some j /\ Enc 7 j /\ asSchema j = Ok (rawSchema s).
Proof.
  intros (V1 & V2 & V3 & V4 & Wt & We & Ws). unfold schemaJ.
  destruct (optMap_back (declJ isPrint) asDecl rawType 5 (sc_types s)) as (ts & -> & Et & At & _).
  { eapply Forall_impl; [|exact Wt]. intros f. apply decl_back. }
  destruct (optMap_back (serviceJ isPrint) asService rawService 5 (sc_services s)) as (ss & -> & Es & As & _).
  { eapply Forall_impl; [|exact Ws]. intros f. apply service_back. }
  destruct (optMap_back (fun e => Some (errorJ e)) asError rawError 1 (sc_errors s)) as (es & Oe & Ee & Ae & _).
  { eapply Forall_impl; [|exact We]. intros f Hf. eexists. split; [reflexivity|]. apply error_back, Hf. }
  assert (es = map errorJ (sc_errors s)) as ->.
  { clear -Oe. revert es Oe. induction (sc_errors s) as [|e l IH]; cbn [optMap]; intros es H; [now injection H as <-|].
    destruct (optMap _ l) as [ys|] eqn:O; [|discriminate]. injection H as <-. cbn [map]. f_equal. auto. }
  eexists. split; [reflexivity|]. split.
  - apply enc_obj. members; cbn [fst snd]; (split; [key|]); try apply enc_str; try assumption.
    eapply enc_le; [|exact Ee]; lia.
  - unfold asSchema, asObj, rawSchema. mem_eval. rewrite !asStr_jstr by assumption. cbn [bind asList].
    rewrite At. cbn [bind]. rewrite Ae. cbn [bind]. rewrite As. reflexivity.
Qed.

(** ** the written text *)
Theorem toJSON_back isPrint s : WSchema isPrint s ->
  exists t j, toJSON isPrint s = Some t /\ parseRaw t = Some j /\ asSchema j = Ok (rawSchema s).
Proof.
  intros W. destruct (schema_back isPrint s W) as (j & S & [L D] & A). unfold toJSON. rewrite S. cbn [option_map].
  eexists _, j. split; [reflexivity|]. split; [|exact A]. apply parseRaw_print; [assumption|].
  unfold maxNestingDepth. lia.
Qed.
