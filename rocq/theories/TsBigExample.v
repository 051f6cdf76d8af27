(** The schema of _examples/node-ts/service.ridl, its Go structs, and a response: examples for C49. *)
From Verif Require Import Base BaseProofs Utf8 Json Schema TypeSpec Uri ValidateSpec PropsValidateAux Filter FilterSpec FilterProofs PropsFilterAux
  BigInt BigIntSpec BigIntProofs BigIntTable GoVal GoValSpec GoValProofs RpcSpec RpcExamples TsBig TsBigSpec Schema.

Definition tagged (n e tag : string) : field := Field n (ref e) false "" [[("json", Some tag)]] [].
Definition ar (n e : string) : arg := Arg_ n (ref e) false.

(** service.ridl 7-60, without the errors and comments *)
Definition nodeSource : schema :=
  Schema_ "v1" "node-ts" "v1.0.0" "/v1"
    [Type_ ("f", 0) "struct" "User" None
       [tagged "ID" "uint64" "id"; tagged "username" "string" "USERNAME"; fld "role" "Kind"; fld "meta" "map<string,any>";
        tagged "internalId" "uint64" "-"; fld "balance" "bigint"; fld "createdAt" "timestamp"; fld "extra" "Extra"] [] [];
     Type_ ("f", 1) "enum" "Kind" (ref "uint32") [Field "USER" None false "0" [] []; Field "ADMIN" None false "1" [] []] [] [];
     st "Extra" 2 [("info", "string"); ("amount", "bigint"); ("points", "[]bigint")];
     st "Page" 3 [("num", "uint32")];
     st "GetArticleRequest" 4 [("articleId", "uint32"); ("byBN", "bigint")];
     st "GetArticleResponse" 5 [("title", "string"); ("content", "string"); ("largeNum", "bigint")]]
    [] [Service_ ("f", 6) "Example"
      [Method_ "Ping" [] [] false false false [ar "counter" "bigint"] [] [];
       Method_ "GetUser" [] [] false false false [ar "userId" "uint64"] [ar "code" "uint32"; ar "user" "User"] [];
       Method_ "GetArticle" [] [] true false false [ar "getArticleRequest" "GetArticleRequest"] [ar "getArticleResponse" "GetArticleResponse"] []] []].
Definition nodeSchema : schema := Eval vm_compute in accept nodeSource.

Lemma node_accepted : Accepted nodeSchema.
Proof.
  apply (accepted_run nodeSource); [vm_compute; reflexivity|vm_compute; reflexivity|vm_compute; reflexivity|].
  cbn. repeat constructor; cbn; intuition congruence.
Qed.

(** the table that client.gen.ts 193-200 contains (there in the order of the names) *)
Definition nodeTable : bigTable :=
  [("User", [EName "balance"; EPair "extra" "Extra"]); ("Extra", [EName "amount"; EName "points[]"]);
   ("GetArticleRequest", [EName "byBN"]); ("GetArticleResponse", [EName "largeNum"]);
   ("PingRequest", [EName "counter"]); ("GetUserResponse", [EPair "user" "User"])].
Lemma node_table : schemaBigIntFieldsByType false nodeSchema = Some nodeTable.
Proof. vm_compute. reflexivity. Qed.

Ltac cases := repeat match goal with
  | H : _ \/ _ |- _ => destruct H as [H|H]
  | H : False |- _ => destruct H
  end.

Lemma node_named : NoTypeNamedBigint nodeSchema.
Proof. intros t H. vm_compute in H. cases; subst; vm_compute; discriminate. Qed.

Lemma node_acyclic d : ~ NestedIn (sc_types nodeSchema) d d.
Proof.
  assert (HF : forall d v d', FieldType (sc_types nodeSchema) d v -> Nests v d' -> d = "User" /\ d' = "Extra").
  { intros d0 v d' (t & f & Ht & _ & Hn & Hf & Hv) N. cbn in Ht. cases; subst t; cbn in Hf, Hn; cases; subst f; cbn in Hv; try discriminate;
      injection Hv as <-; subst d0; destruct N as [(n & E)|(x & E & n & E2)]; cbn in E; try discriminate.
    - injection E as _ <-. auto.
    - injection E as <-. discriminate. }
  intros H. remember d as e eqn:E in H at 2. revert E. induction H as [d v d' F N|d v d' d'' F N H2 IH]; intros E.
  - destruct (HF d v d' F N). congruence.
  - destruct (HF d v d' F N) as [-> ->]. subst d''. inversion H2; subst;
      match goal with F1 : FieldType _ "Extra" ?w, N1 : Nests ?w _ |- _ => destruct (HF _ _ _ F1 N1); discriminate end.
Qed.

Lemma not_contains_core ts e c : c <> CBigInt -> ~ Contains ts (VT e (ShCore c)).
Proof. intros N C. inversion C; subst; unfold IsBigint, ListOf in *; cbn in *; congruence. Qed.

Lemma node_covered : AllCovered nodeSchema.
Proof.
  intros request response k name v H C. destruct H as [(t & f & Ht & _ & _ & Hf & _ & Hv)|(m & a & Hm & _ & _ & Hv & Ha)].
  - cbn in Ht. cases; subst t; cbn in Hf; cases; subst f; cbn in Hv; try discriminate; injection Hv as <-;
      try (exfalso; revert C; apply not_contains_core; discriminate);
      try (left; left; reflexivity); try (left; right; eexists; split; reflexivity); try (right; eexists; left; eexists; reflexivity).
    + exfalso. inversion C; subst; unfold IsBigint, ListOf in *; cbn in *; discriminate.
    + exfalso. inversion C; subst; unfold IsBigint, ListOf in *; cbn in *; try discriminate.
      match goal with H : ShMap _ _ = ShMap _ _ |- _ => injection H as <- <- end. revert H0. apply not_contains_core. discriminate.
  - assert (Ha' : In a (me_inputs m ++ me_outputs m)) by (apply in_or_app; tauto). clear Ha.
    cbn in Hm. cases; subst m; cbn in Ha'; cases; subst a; cbn in Hv; try discriminate; injection Hv as <-;
      try (exfalso; revert C; apply not_contains_core; discriminate);
      try (left; left; reflexivity); try (right; eexists; left; eexists; reflexivity).
Qed.

Lemma node_renamed : NotRenamed (sc_types nodeSchema).
Proof.
  intros t f v Ht _ Hf Hv C. cbn in Ht. cases; subst t; cbn in Hf; cases; subst f; try reflexivity; cbn in Hv; injection Hv as <-;
    exfalso; revert C; apply not_contains_core; discriminate.
Qed.

Lemma plain_by_suffix n : has_suffix "[]" n = false -> PlainName n.
Proof. intros H b E. rewrite E in H. rewrite has_suffix_app in H. discriminate. Qed.

Lemma node_setting : Setting nodeSchema false.
Proof.
  constructor.
  - exact node_accepted.
  - exact node_named.
  - exact node_acyclic.
  - vm_compute. repeat constructor; cbn; intuition discriminate.
  - exact node_covered.
  - exact node_renamed.
  - split.
    + intros t H. apply plain_by_suffix. cbn in H. cases; subst; reflexivity.
    + intros m a Hm Ha. apply plain_by_suffix. cbn in Hm. cases; subst; cbn in Ha; cases; subst; reflexivity.
  - intros m Hm. cbn in Hm. cases; subst; split; repeat constructor; cbn; intuition discriminate.
Qed.

(** ** server-go/example.gen.go 110-125, without the field [json:"-"] and with a text for the time *)
Definition kindTable : enumTable := [("USER", 0%Z); ("ADMIN", 1%Z)].
Definition nodeStructs : goEnv :=
  [("User", [GF "id" false (TInt 0 18446744073709551615); GF "USERNAME" false TString; GF "role" false (TEnum kindTable);
             GF "meta" false (TMap KString TAny); GF "balance" false TBig; GF "createdAt" false (TOpt TString); GF "extra" false (TRef "Extra")]);
   ("Extra", [GF "info" false TString; GF "amount" false TBig; GF "points" false (TSlice TBig)])].
Definition getUserResult : list goField := [GF "code" false (TInt 0 4294967295); GF "user" false (TRef "User")].
Definition someUser : list gval :=
  [VInt 200; VPtr (Some (VStruct [VInt 7; VStr "ann"; VEnum 1; VMap (Some [(KS "tags", VAny (JArr [JStr "12"; JNull]))]);
     VBig 340282366920938463463374607431768211456; VPtr None;
     VPtr (Some (VStruct [VStr "x"; VBig (-5); VSlice (Some [VBig 1; VBig 18446744073709551616])]))]))].
(** what the program in the browser gets *)
Definition someUserJs : list (string * jsv) :=
  [("code", SNum "200"); ("user", SObj [("id", SNum "7"); ("USERNAME", SStr "ann"); ("role", SStr "ADMIN");
     ("meta", SObj [("tags", SArr [SStr "12"; SNull])]); ("balance", SBig 340282366920938463463374607431768211456); ("createdAt", SNull);
     ("extra", SObj [("info", SStr "x"); ("amount", SBig (-5)); ("points", SArr [SBig 1; SBig 18446744073709551616])])])].

Lemma kind_ok : EnumOk kindTable.
Proof.
  unfold EnumOk, kindTable. cbn. split; [repeat constructor; cbn; intuition discriminate|].
  split; [repeat constructor; cbn; intuition discriminate|].
  intros n z [[= <- <-]|[[= <- <-]|[]]]; apply ascii_valid; reflexivity.
Qed.

Lemma someUser_carries : Carries nodeStructs getUserResult someUser.
Proof.
  split; [|apply N.leb_le; reflexivity]. unfold someUser, getUserResult.
  apply FFCons; [apply FInt; lia|txt|names_in|intros; discriminate|].
  apply FFCons; [|txt|names_in|intros; discriminate|apply FFNil].
  eapply FRef; [reflexivity|].
  apply FFCons; [apply FInt; lia|txt|names_in|intros; discriminate|].
  apply FFCons; [apply FStr; txt|txt|names_in|intros; discriminate|].
  apply FFCons; [apply FEnum with (n := "ADMIN"); [exact kind_ok|cbn; auto]|txt|names_in|intros; discriminate|].
  apply FFCons; [|txt|names_in|intros; discriminate|].
  { apply FMap with (names := ["tags"]); [keys|cbn; intuition|]. in_cases. apply FAny. constructor. in_cases; constructor. txt. }
  apply FFCons; [apply FBig|txt|names_in|intros; discriminate|].
  apply FFCons; [apply FNilOpt|txt|names_in|intros; discriminate|].
  apply FFCons; [|txt|names_in|intros; discriminate|apply FFNil].
  eapply FRef; [reflexivity|].
  apply FFCons; [apply FStr; txt|txt|names_in|intros; discriminate|].
  apply FFCons; [apply FBig|txt|names_in|intros; discriminate|].
  apply FFCons; [|txt|names_in|intros; discriminate|apply FFNil].
  apply FSlice. in_cases; apply FBig.
Qed.

Ltac inlist := first [left; reflexivity | right; inlist].

Lemma declares_at ts t f v : In t ts -> t_kind t = "struct" -> In f (t_fields t) -> f_type f = Some v -> Declares ts (t_name t) (json_key f) v.
Proof. intros. exists t, f. repeat split; assumption. Qed.

Ltac declared T F := refine (declares_at (sc_types nodeSchema) (nth T (sc_types nodeSchema) (Type_ ("", 0) "" "" None [] [] [])) (nth F (t_fields (nth T (sc_types nodeSchema) (Type_ ("", 0) "" "" None [] [] []))) (Field "" None false "" [] [])) _ _ _ _ _); [cbn; inlist|reflexivity|cbn; inlist|reflexivity].

Lemma someUser_shows : ShowsFields (sc_types nodeSchema) nodeStructs (MemberOf nodeSchema "Request" "Response" "GetUserResponse") getUserResult someUser someUserJs.
Proof.
  unfold getUserResult, someUser, someUserJs.
  eapply SF_shown with (f := GF "code" false (TInt 0 4294967295)); [left; reflexivity| | |].
  { right. exists (nth 1 (flat_map v_methods (sc_services nodeSchema)) (Method_ "" [] [] false false false [] [] [])). eexists. cbn [nth flat_map sc_services nodeSchema v_methods app].
    split; [inlist|]. split; [reflexivity|]. cbn. split; [|split; [|right; split; [reflexivity|left; reflexivity]]]; reflexivity. }
  { refine (S_atomic _ _ _ _ _ (JNum "200") _ _ _); [discriminate|reflexivity|constructor]. }
  eapply SF_shown with (f := GF "user" false (TRef "User")); [left; reflexivity| | |constructor].
  { right. exists (nth 1 (flat_map v_methods (sc_services nodeSchema)) (Method_ "" [] [] false false false [] [] [])). eexists. cbn [nth flat_map sc_services nodeSchema v_methods app].
    split; [inlist|]. split; [reflexivity|]. cbn. split; [|split; [|right; split; [reflexivity|right; left; reflexivity]]]; reflexivity. }
  eapply S_struct; [reflexivity|reflexivity|cbn; repeat constructor; cbn; intuition discriminate|].
  eapply SF_shown with (f := GF "id" false _); [left; reflexivity|declared 0 0| |].
  { refine (S_atomic _ _ _ _ _ (JNum "7") _ _ _); [discriminate|reflexivity|constructor]. }
  eapply SF_shown with (f := GF "USERNAME" false _); [left; reflexivity|declared 0 1| |].
  { refine (S_atomic _ _ _ _ _ (JStr "ann") _ _ _); [discriminate|reflexivity|constructor]. }
  eapply SF_shown with (f := GF "role" false _); [left; reflexivity|declared 0 2| |].
  { refine (S_atomic _ _ _ _ _ (JStr "ADMIN") _ _ _); [exact I|reflexivity|constructor]. }
  eapply SF_shown with (f := GF "meta" false _); [left; reflexivity|declared 0 3| |].
  { eapply S_map; [reflexivity|cbn; intuition|]. apply SE_cons; [reflexivity| |constructor].
    refine (S_atomic _ _ _ _ _ (JArr [JStr "12"; JNull]) _ _ _); [discriminate|reflexivity|constructor]. in_cases; constructor. }
  eapply SF_shown with (f := GF "balance" false _); [left; reflexivity|declared 0 5|constructor; reflexivity|].
  eapply SF_shown with (f := GF "createdAt" false _); [left; reflexivity|declared 0 6|constructor|].
  eapply SF_shown with (f := GF "extra" false _); [left; reflexivity|declared 0 7| |constructor].
  eapply S_struct; [reflexivity|reflexivity|cbn; repeat constructor; cbn; intuition discriminate|].
  eapply SF_shown with (f := GF "info" false _); [left; reflexivity|declared 2 0| |].
  { refine (S_atomic _ _ _ _ _ (JStr "x") _ _ _); [discriminate|reflexivity|constructor]. }
  eapply SF_shown with (f := GF "amount" false _); [left; reflexivity|declared 2 1|constructor; reflexivity|].
  eapply SF_shown with (f := GF "points" false _); [left; reflexivity|declared 2 2| |constructor].
  eapply S_list; [reflexivity|]. repeat constructor.
Qed.
