(** Proofs about type expressions *)
From Verif Require Import Base BaseProofs Schema TypeSpec.

(** ** fuel *)

Lemma parseMapExpr_ok e k v :
  parseMapExpr e = Ok (k, v) ->
  e = ("map<" ++ k ++ "," ++ v ++ ">")%string /\ contains_byte "," k = false.
Proof.
  unfold parseMapExpr, isMapExpr. intro H.
  destruct (has_prefix "map<" e) eqn:Hp; [|discriminate].
  apply has_prefix_iff in Hp as [r ->].
  change (drop 3 ("map<" ++ r)) with ("<" ++ r)%string in H.
  destruct (has_suffix ">" ("<" ++ r)) eqn:Hs; [|discriminate].
  apply has_suffix_iff in Hs as [r' Hr'].
  destruct r' as [|c r']; [discriminate|]. cbn in Hr'. injection Hr' as <- ->.
  cbn [String.length append drop] in H.
  replace (S (String.length (r' ++ ">")) - 2) with (String.length r') in H
    by (rewrite slength_app; cbn; lia).
  rewrite take_app in H.
  destruct (index_byte "," r') as [p|] eqn:Hi; [|discriminate].
  apply index_byte_some in Hi as [Hi Hn]. injection H as <- <-.
  split; [|exact Hn]. rewrite Hi at 1. cbn. now rewrite sapp_assoc.
Qed.

Lemma parseMapExpr_show k v :
  contains_byte "," k = false ->
  parseMapExpr ("map<" ++ k ++ "," ++ v ++ ">") = Ok (k, v).
Proof.
  intro Hk. unfold parseMapExpr, isMapExpr. rewrite has_prefix_app.
  change (drop 3 ("map<" ++ k ++ "," ++ v ++ ">"))
    with ("<" ++ k ++ "," ++ v ++ ">")%string.
  replace ("<" ++ k ++ "," ++ v ++ ">")%string
    with (("<" ++ k ++ "," ++ v) ++ ">")%string by (rewrite !sapp_assoc; reflexivity).
  rewrite has_suffix_app.
  remember (k ++ "," ++ v)%string as w eqn:Hw.
  cbn [append drop String.length].
  replace (S (String.length (w ++ ">")) - 2) with (String.length w)
    by (rewrite slength_app; cbn; lia).
  rewrite take_app. subst w. rewrite index_byte_app_not by assumption. cbn [append index_byte Ascii.eqb Bool.eqb].
  rewrite Nat.add_0_r, take_app. do 2 f_equal.
  change (drop (S (String.length k)) (k ++ String "," v) = v).
  replace (S (String.length k)) with (String.length (k ++ ","))
    by (rewrite slength_app; cbn; lia).
  change (String "," v) with ("," ++ v)%string.
  rewrite <- sapp_assoc. apply drop_app.
Qed.

Lemma trim_prefix_app p s : trim_prefix p (p ++ s) = s.
Proof. unfold trim_prefix. now rewrite has_prefix_app, drop_app. Qed.

Lemma assoc_In {A} k (m : list (string * A)) v : assoc k m = Some v -> In (k, v) m.
Proof.
  induction m as [|[k' w] m IH]; cbn; [discriminate|].
  destruct (String.eqb_spec k k') as [->|]; [intro H; injection H as <-; now left|auto].
Qed.

Lemma core_from_to c : core_from_string (core_to_string c) = Some (inl c).
Proof. destruct c; reflexivity. Qed.

Lemma core_from_string_inl s c : core_from_string s = Some (inl c) -> s = core_to_string c.
Proof.
  intro H. apply assoc_In in H. cbn in H.
  repeat (destruct H as [H|H]; [first [discriminate H|injection H as <- <-; reflexivity]|]).
  contradiction.
Qed.

Lemma core_from_string_inr s b : core_from_string s = Some (inr b) ->
  s = if b then "[]" else "map".
Proof.
  intro H. apply assoc_In in H. cbn in H.
  repeat (destruct H as [H|H]; [first [discriminate H|injection H as <- <-; reflexivity]|]).
  contradiction.
Qed.

Lemma core_key_dec c : existsb (core_eqb c) varKeyCoreTypes = true <-> key_core c.
Proof. destruct c; cbn; split; intro H; try reflexivity; try exact I; try discriminate; contradiction. Qed.

Lemma find_some {A} (p : A -> bool) l x : find p l = Some x -> In x l /\ p x = true.
Proof. apply find_some. Qed.

(** one step of the parser, as an inversion principle *)
Inductive Parsed (ts : list type) : string -> varType -> Prop :=
| PEmpty : Parsed ts "" vt_zero
| PCore c : Parsed ts (core_to_string c) (VT (core_to_string c) (ShCore c))
| PList e v : Parsed ts e v -> Parsed ts ("[]" ++ e)%string (VT ("[]" ++ e)%string (ShList v))
| PMapCore c e v : key_core c -> Parsed ts e v ->
    Parsed ts ("map<" ++ core_to_string c ++ "," ++ e ++ ">")%string
      (VT ("map<" ++ core_to_string c ++ "," ++ e ++ ">")%string
          (ShMap (VT (core_to_string c) (ShCore c)) v))
| PMapNamed k t e v :
    core_from_string k = None -> contains_byte "," k = false ->
    getTypeByName ts k = Some t -> keyIsEnum t = Ok true -> Parsed ts e v ->
    Parsed ts ("map<" ++ k ++ "," ++ e ++ ">")%string
      (VT ("map<" ++ k ++ "," ++ e ++ ">")%string
          (ShMap (VT k (ShEnum k (t_name t))) v))
| PStruct e t : e <> "" -> core_from_string e = None -> isListExpr e = false -> isMapExpr e = false ->
    getType ts e = Some t -> t_kind t = "struct" -> Parsed ts e (VT e (ShStruct e (t_name t)))
| PEnum e t : e <> "" -> core_from_string e = None -> isListExpr e = false -> isMapExpr e = false ->
    getType ts e = Some t -> t_kind t = "enum" -> Parsed ts e (VT e (ShEnum e (t_name t)))
| PAlias e t : e <> "" -> core_from_string e = None -> isListExpr e = false -> isMapExpr e = false ->
    getType ts e = Some t -> t_kind t = "alias" -> Parsed ts e (VT e (ShAlias e (t_name t))).

Lemma parseVT_Parsed n ts e v : parseVT n ts e = Ok v -> Parsed ts e v.
Proof.
  revert e v. induction n as [|n IH]; intros e v H; [discriminate|].
  cbn [parseVT] in H.
  destruct (String.eqb_spec e "") as [->|Hne]; [injection H as <-; constructor|].
  assert (Hlist : (do el <- parseVT n ts (trim_prefix "[]" e); Ok (VT e (ShList el))) = Ok v ->
                  isListExpr e = true -> Parsed ts e v).
  { intros Hl Hp. apply has_prefix_iff in Hp as [r ->]. rewrite trim_prefix_app in Hl.
    apply bind_ok in Hl as (el & Hel & Hv). injection Hv as <-. constructor. now apply IH. }
  match type of H with
  | context [parseMapExpr e] => idtac
  end.
  assert (Hmap : forall m,
     m = (do kv <- parseMapExpr e;
          let (key, value) := (kv : string * string) in
          match core_from_string key with
          | Some c =>
              if isValidVarKeyType key then
                match c with
                | inl kc => do v <- parseVT n ts value; Ok (VT e (ShMap (VT key (ShCore kc)) v))
                | inr _ => Err "schema error: invalid map key"
                end
              else Err "schema error: invalid map key"
          | None =>
              match getTypeByName ts key with
              | None => Err "schema error: invalid map key"
              | Some t =>
                  do b <- keyIsEnum t;
                  if (b : bool) then
                    do v <- parseVT n ts value; Ok (VT e (ShMap (VT key (ShEnum key (t_name t))) v))
                  else Err "schema error: invalid map key"
              end
          end) -> m = Ok v -> Parsed ts e v).
  { intros m -> Hm. apply bind_ok in Hm as ([key value] & Hkv & Hm).
    apply parseMapExpr_ok in Hkv as [-> Hk].
    destruct (core_from_string key) as [c|] eqn:Hc.
    - destruct (isValidVarKeyType key) eqn:Hv; [|discriminate].
      destruct c as [kc|b]; [|discriminate].
      apply bind_ok in Hm as (w & Hw & Hm). injection Hm as <-.
      unfold isValidVarKeyType, isValidVarType in Hv. rewrite Hc in Hv.
      apply core_key_dec in Hv. apply core_from_string_inl in Hc as ->.
      constructor; [exact Hv|now apply IH].
    - destruct (getTypeByName ts key) as [t|] eqn:Ht; [|discriminate].
      apply bind_ok in Hm as (b & Hb & Hm). destruct b; [|discriminate].
      apply bind_ok in Hm as (w & Hw & Hm). injection Hm as <-.
      constructor; try assumption. now apply IH. }
  destruct (core_from_string e) as [[c|[|]]|] eqn:Hc.
  - injection H as <-. apply core_from_string_inl in Hc as ->. constructor.
  - apply core_from_string_inr in Hc as ->. now apply Hlist.
  - eapply Hmap; [|exact H]. reflexivity.
  - destruct (isListExpr e) eqn:Hl; [now apply Hlist|].
    destruct (isMapExpr e) eqn:Hm; [eapply Hmap; [|exact H]; reflexivity|].
    destruct (getType ts e) as [t|] eqn:Ht; [|discriminate].
    destruct (String.eqb_spec (t_kind t) "struct") as [Hk|_];
      [injection H as <-; now apply PStruct|].
    destruct (String.eqb_spec (t_kind t) "enum") as [Hk|_];
      [injection H as <-; now apply PEnum|].
    destruct (String.eqb_spec (t_kind t) "alias") as [Hk|_];
      [injection H as <-; now apply PAlias|discriminate].
Qed.

Lemma Parsed_parseVT ts e v : Parsed ts e v -> forall n, String.length e < n -> parseVT n ts e = Ok v.
Proof.
  induction 1 as [|c|e v _ IH|c e v Hk _ IH|k t e v Hc Hk Ht Hen _ IH
                 |e t Hne Hc Hl Hm Ht Hk|e t Hne Hc Hl Hm Ht Hk|e t Hne Hc Hl Hm Ht Hk];
    intros n Hn; (destruct n as [|n]; [lia|]); cbn [parseVT].
  - reflexivity.
  - destruct (String.eqb_spec (core_to_string c) "") as [E|_]; [destruct c; discriminate|].
    now rewrite core_from_to.
  - cbn [append String.eqb]. change (String "[" (String "]" e)) with ("[]" ++ e)%string.
    assert (E : (do el <- parseVT n ts (trim_prefix "[]" ("[]" ++ e));
                 Ok (VT ("[]" ++ e)%string (ShList el))) = Ok (VT ("[]" ++ e)%string (ShList v))).
    { rewrite trim_prefix_app, IH; [reflexivity|]. cbn in Hn. lia. }
    destruct (core_from_string ("[]" ++ e)) as [[c|[|]]|] eqn:Hc.
    + apply core_from_string_inl in Hc. destruct c; discriminate.
    + exact E.
    + apply core_from_string_inr in Hc. discriminate.
    + unfold isListExpr. rewrite has_prefix_app. exact E.
  - cbn [append String.eqb].
    change (String "m" (String "a" (String "p" (String "<" (core_to_string c ++ String "," (e ++ ">"))))))
      with ("map<" ++ core_to_string c ++ "," ++ e ++ ">")%string.
    set (x := ("map<" ++ core_to_string c ++ "," ++ e ++ ">")%string) in *.
    assert (Hx : core_from_string x = None).
    { destruct (core_from_string x) as [[c'|b]|] eqn:Hc; [| |reflexivity].
      - apply core_from_string_inl in Hc. subst x. destruct c'; discriminate.
      - apply core_from_string_inr in Hc. subst x. destruct b; discriminate. }
    rewrite Hx. replace (isListExpr x) with false by reflexivity.
    replace (isMapExpr x) with true by reflexivity. subst x.
    rewrite parseMapExpr_show by (destruct c; reflexivity). cbn [bind].
    rewrite core_from_to. unfold isValidVarKeyType, isValidVarType. rewrite core_from_to.
    apply core_key_dec in Hk. rewrite Hk. rewrite IH; [reflexivity|].
    cbn in Hn. rewrite slength_app in Hn. cbn in Hn. rewrite slength_app in Hn. lia.
  - cbn [append String.eqb].
    change (String "m" (String "a" (String "p" (String "<" (k ++ String "," (e ++ ">"))))))
      with ("map<" ++ k ++ "," ++ e ++ ">")%string.
    set (x := ("map<" ++ k ++ "," ++ e ++ ">")%string) in *.
    assert (Hx : core_from_string x = None).
    { destruct (core_from_string x) as [[c'|b]|] eqn:Hc'; [| |reflexivity].
      - apply core_from_string_inl in Hc'. subst x. destruct c'; discriminate.
      - apply core_from_string_inr in Hc'. subst x. destruct b; discriminate. }
    rewrite Hx. replace (isListExpr x) with false by reflexivity.
    replace (isMapExpr x) with true by reflexivity. subst x.
    rewrite parseMapExpr_show by assumption. cbn [bind].
    rewrite Hc, Ht, Hen. cbn [bind]. rewrite IH; [reflexivity|].
    cbn in Hn. rewrite slength_app in Hn. cbn in Hn. rewrite slength_app in Hn. lia.
  - destruct (String.eqb_spec e "") as [E|_]; [congruence|]. rewrite Hc, Hl, Hm, Ht, Hk. reflexivity.
  - destruct (String.eqb_spec e "") as [E|_]; [congruence|]. rewrite Hc, Hl, Hm, Ht, Hk. reflexivity.
  - destruct (String.eqb_spec e "") as [E|_]; [congruence|]. rewrite Hc, Hl, Hm, Ht, Hk. reflexivity.
Qed.

Lemma parse_iff ts e v : parseVarTypeExpr ts e = Ok v <-> Parsed ts e v.
Proof.
  unfold parseVarTypeExpr. split; [apply parseVT_Parsed|].
  intro H. apply (Parsed_parseVT _ _ _ H). lia.
Qed.

Lemma parseVT_fuel n ts e : String.length e < n -> parseVT n ts e <> OutOfFuel.
Proof.
  revert e. induction n as [|n IH]; intros e Hn; [lia|]. cbn [parseVT].
  destruct (String.eqb_spec e "") as [_|Hne]; [discriminate|].
  assert (Hlist : isListExpr e = true ->
     (do el <- parseVT n ts (trim_prefix "[]" e); Ok (VT e (ShList el))) <> OutOfFuel).
  { intro Hp. apply has_prefix_iff in Hp as [r ->]. rewrite trim_prefix_app.
    cbn in Hn. specialize (IH r ltac:(lia)). destruct (parseVT n ts r); cbn; congruence. }
  assert (Hv : forall k w, parseMapExpr e = Ok (k, w) -> parseVT n ts w <> OutOfFuel).
  { intros k w H. apply IH. apply parseMapExpr_ok in H as [-> _].
    cbn in Hn. rewrite slength_app in Hn. cbn in Hn. rewrite slength_app in Hn. lia. }
  assert (Hm0 : parseMapExpr e <> OutOfFuel).
  { unfold parseMapExpr. destruct (isMapExpr e); [|discriminate].
    destruct (has_suffix ">" (drop 3 e)); [|discriminate]. destruct (index_byte _ _); discriminate. }
  match goal with |- context [bind (parseMapExpr e) ?f] =>
    assert (Hmap : bind (parseMapExpr e) f <> OutOfFuel) end.
  { destruct (parseMapExpr e) as [[k w]| | |] eqn:Hp; cbn [bind]; try discriminate; [|congruence].
    specialize (Hv k w eq_refl).
    assert (Hr : forall g : varType -> varType,
        (do v <- parseVT n ts w; Ok (g v)) <> OutOfFuel)
      by (intro g; destruct (parseVT n ts w); cbn; congruence).
    destruct (core_from_string k) as [c|].
    - destruct (isValidVarKeyType k); [|discriminate]. destruct c; [|discriminate].
      apply (Hr (fun v => VT e (ShMap (VT k (ShCore c)) v))).
    - destruct (getTypeByName ts k) as [t|]; [|discriminate].
      unfold keyIsEnum. destruct (String.eqb (t_kind t) "enum"); cbn [bind].
      + apply (Hr (fun v => VT e (ShMap (VT k (ShEnum k (t_name t))) v))).
      + destruct (t_type t) as [[x sh]|]; cbn [bind]; [|discriminate].
        destruct sh; cbn [bind]; try discriminate.
        apply (Hr (fun v => VT e (ShMap (VT k (ShEnum k (t_name t))) v))). }
  destruct (core_from_string e) as [[c|[|]]|] eqn:Hc.
  - discriminate.
  - apply core_from_string_inr in Hc as ->. now apply Hlist.
  - exact Hmap.
  - destruct (isListExpr e); [now apply Hlist|]. destruct (isMapExpr e); [exact Hmap|].
    destruct (getType ts e) as [t|]; [|discriminate].
    destruct (String.eqb (t_kind t) "struct"); [discriminate|].
    destruct (String.eqb (t_kind t) "enum"); [discriminate|].
    destruct (String.eqb (t_kind t) "alias"); discriminate.
Qed.

Lemma parse_never_out_of_fuel ts e : parseVarTypeExpr ts e <> OutOfFuel.
Proof. apply parseVT_fuel. lia. Qed.

(** ** what an accepted expression means *)

Lemma Parsed_expr ts e v : Parsed ts e v -> vt_expr v = e.
Proof. destruct 1; reflexivity. Qed.

Lemma Parsed_build ts e v t : Parsed ts e v -> tree v = Some t -> buildExpr v = e.
Proof.
  intro H. revert t. induction H; intros y Hy; try reflexivity.
  - discriminate.
  - cbn in Hy. cbn [buildExpr]. destruct (tree v); [|discriminate]. now rewrite (IHParsed _ eq_refl).
  - cbn in Hy. cbn [buildExpr vt_expr]. destruct (tree v); [|discriminate].
    now rewrite (IHParsed _ eq_refl).
  - cbn in Hy. cbn [buildExpr vt_expr]. destruct (tree v); [|discriminate].
    now rewrite (IHParsed _ eq_refl).
Qed.

Lemma Parsed_show ts e v t : Parsed ts e v -> tree v = Some t -> show t = e.
Proof.
  intro H. revert t. induction H; intros y Hy; cbn in Hy; try discriminate;
    try (injection Hy as <-; reflexivity).
  - destruct (tree v); [|discriminate]. injection Hy as <-. cbn [show]. now rewrite (IHParsed _ eq_refl).
  - destruct (tree v); [|discriminate]. injection Hy as <-. cbn [show show_key]. now rewrite (IHParsed _ eq_refl).
  - destruct (tree v); [|discriminate]. injection Hy as <-. cbn [show show_key]. now rewrite (IHParsed _ eq_refl).
Qed.

Lemma getType_Declared ts e t : getType ts e = Some t -> Declared ts e (t_kind t) /\ t_name t = e.
Proof.
  intro H. apply find_some in H as [Hin He]. apply String.eqb_eq in He.
  split; [|congruence]. exists t. auto.
Qed.

Lemma keyIsEnum_true t : keyIsEnum t = Ok true ->
  t_kind t = "enum" \/ exists e m d, t_type t = Some (VT e (ShEnum m d)).
Proof.
  unfold keyIsEnum. destruct (String.eqb_spec (t_kind t) "enum") as [H|_]; [now left|].
  destruct (t_type t) as [[e sh]|]; [|discriminate]. destruct sh; try discriminate.
  intros _. right. eauto.
Qed.

Lemma Parsed_TypeOk ts e v t : Parsed ts e v -> tree v = Some t -> TypeOk ts t.
Proof.
  intro H. revert t. induction H; intros y Hy; cbn in Hy; try discriminate.
  - injection Hy as <-. constructor.
  - destruct (tree v); [|discriminate]. injection Hy as <-. constructor. now apply IHParsed.
  - destruct (tree v); [|discriminate]. injection Hy as <-. constructor; [assumption|now apply IHParsed].
  - destruct (tree v); [|discriminate]. injection Hy as <-.
    apply OkMapNamed; try assumption; [|now apply IHParsed].
    match goal with H : getTypeByName _ _ = Some _ |- _ => apply find_some in H as [Hin He] end.
    apply String.eqb_eq in He. exists t. split; [assumption|]. split; [assumption|].
    now apply keyIsEnum_true.
  - injection Hy as <-. match goal with H : getType _ _ = Some _ |- _ => apply getType_Declared in H as [Hd _] end.
    constructor. congruence.
  - injection Hy as <-. match goal with H : getType _ _ = Some _ |- _ => apply getType_Declared in H as [Hd _] end.
    constructor. congruence.
  - injection Hy as <-. match goal with H : getType _ _ = Some _ |- _ => apply getType_Declared in H as [Hd _] end.
    constructor. congruence.
Qed.

(** the declared name stored next to a name is that name (keys: ignoring case) *)

Lemma NoDup_unique {A} (f : A -> string) l x y :
  NoDup (map f l) -> In x l -> In y l -> f x = f y -> x = y.
Proof.
  induction l as [|a l IH]; cbn; intros Hn Hx Hy E; [contradiction|].
  inversion Hn as [|? ? Hni Hn']; subst.
  destruct Hx as [->|Hx], Hy as [->|Hy]; auto.
  - exfalso. apply Hni. rewrite E. now apply in_map.
  - exfalso. apply Hni. rewrite <- E. now apply in_map.
Qed.

Lemma getType_complete ts t :
  NoDup (map (fun t => to_lower (t_name t)) ts) -> In t ts -> getType ts (t_name t) = Some t.
Proof.
  intros Hn Hin. unfold getType.
  destruct (find (fun u => String.eqb (t_name t) (t_name u)) ts) as [u|] eqn:Hf.
  - apply find_some in Hf as [Hu He]. apply String.eqb_eq in He. f_equal.
    apply (NoDup_unique (fun t => to_lower (t_name t)) ts); auto. cbn. now rewrite He.
  - exfalso. apply (find_none _ _ Hf) in Hin. now rewrite String.eqb_refl in Hin.
Qed.

Lemma getTypeByName_complete ts t n :
  NoDup (map (fun t => to_lower (t_name t)) ts) -> In t ts ->
  to_lower (t_name t) = to_lower n -> getTypeByName ts n = Some t.
Proof.
  intros Hn Hin E. unfold getTypeByName.
  destruct (find _ ts) as [u|] eqn:Hf.
  - apply find_some in Hf as [Hu He]. apply String.eqb_eq in He. f_equal.
    apply (NoDup_unique (fun t => to_lower (t_name t)) ts); auto. cbn. congruence.
  - exfalso. apply (find_none _ _ Hf) in Hin. rewrite E, String.eqb_refl in Hin. discriminate.
Qed.

Lemma upper_facts e : startsWithUpper e = true ->
  e <> "" /\ core_from_string e = None /\ isListExpr e = false /\ isMapExpr e = false.
Proof.
  intro H. destruct e as [|c e]; [discriminate|]. cbn in H.
  split; [discriminate|].
  assert (Hc : c <> "["%char /\ c <> "m"%char /\ forall k w, In (k, w) core_table ->
             match k with String d _ => d <> c | EmptyString => True end).
  { split; [intros ->; discriminate|]. split; [intros ->; discriminate|].
    intros k w Hin. cbn in Hin.
    repeat (destruct Hin as [Hin|Hin]; [injection Hin as <- _; intros <-; discriminate H|]). contradiction. }
  destruct Hc as (H1 & H2 & H3). repeat split.
  - unfold core_from_string. destruct (assoc (String c e) core_table) as [w|] eqn:Ha; [|reflexivity].
    apply assoc_In in Ha. apply H3 in Ha. congruence.
  - unfold isListExpr. cbn [has_prefix]. destruct (Ascii.eqb_spec "[" c); [congruence|reflexivity].
  - unfold isMapExpr. cbn [has_prefix]. destruct (Ascii.eqb_spec "m" c); [congruence|reflexivity].
Qed.

Lemma TypeOk_Parsed ts t : NamesOk ts -> TypeOk ts t ->
  exists v, Parsed ts (show t) v /\ tree v = Some t.
Proof.
  intros [Hnd Hup] H. rewrite Forall_forall in Hup.
  induction H as [c|e _ (v & Hv & Ht)|c w Hc _ (v & Hv & Ht)|n w (d & Hd & Hl & Hk) Hcomma Hcore _ (v & Hv & Ht)
                 |n (d & Hd & <- & Hk)|n (d & Hd & <- & Hk)|n (d & Hd & <- & Hk)].
  - eexists. split; [constructor|reflexivity].
  - eexists. split; [cbn [show]; constructor; exact Hv|]. cbn. now rewrite Ht.
  - eexists. split; [cbn [show show_key]; apply PMapCore; [exact Hc|exact Hv]|]. cbn. now rewrite Ht.
  - eexists. split.
    + cbn [show show_key]. apply (PMapNamed _ n d); try eassumption.
      * now apply getTypeByName_complete.
      * unfold keyIsEnum. destruct (String.eqb_spec (t_kind d) "enum"); [reflexivity|].
        destruct Hk as [Hk|(e & m & dd & Hk)]; [congruence|]. now rewrite Hk.
    + cbn. now rewrite Ht.
  - destruct (upper_facts _ (Hup _ Hd)) as (F1 & F2 & F3 & F4).
    eexists. split; [cbn [show]; eapply PStruct; try eassumption; now apply getType_complete|reflexivity].
  - destruct (upper_facts _ (Hup _ Hd)) as (F1 & F2 & F3 & F4).
    eexists. split; [cbn [show]; eapply PEnum; try eassumption; now apply getType_complete|reflexivity].
  - destruct (upper_facts _ (Hup _ Hd)) as (F1 & F2 & F3 & F4).
    eexists. split; [cbn [show]; eapply PAlias; try eassumption; now apply getType_complete|reflexivity].
Qed.

Lemma Parsed_fun ts e v v' : Parsed ts e v -> Parsed ts e v' -> v = v'.
Proof. intros H H'. apply parse_iff in H, H'. congruence. Qed.

(** ** missing components *)

Lemma Parsed_hole ts e v : Parsed ts e v -> tree v = None -> Hole e.
Proof.
  induction 1 as [|c|e v _ IH|c e v Hk _ IH|k t e v Hc Hk Ht Hen _ IH| | |]; intro Hn; cbn in Hn;
    try discriminate.
  - constructor.
  - constructor. apply IH. destruct (tree v); [discriminate|reflexivity].
  - apply HoleMap. apply IH. destruct (tree v); [discriminate|reflexivity].
  - apply HoleMap. apply IH. destruct (tree v); [discriminate|reflexivity].
Qed.
