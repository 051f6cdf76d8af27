(** An example document and its derivation in the grammar of Grammar.v. *)
From Verif Require Import Base Utf8 Utf8Proofs Lexer LexSpec Tokenize Ast Parser StringSpec StringProofs Grammar.

Definition nl : string := String "010"%char "".
Definition exampleLines : list string := [
  "webrpc = v1";
  "name = example # the example";
  "";
  "# People";
  "struct User";
  "  - id: uint64";
  "  - nick?: []map<string, int>";
  "    + json = nick_name";
  "";
  "enum Kind: uint8";
  "  - A";
  "  - B = 5";
  "error 100 NotFound ""not\tfound"" HTTP 404";
  "import ./lib/types.ridl";
  "  - Page";
  "type Users: []User";
  "service Api";
  "  @auth:""jwt key"" @public";
  "  - Get(id: uint64, deep?: bool) => (user: User) errors NotFound";
  "  - stream Up(User) => stream (out: []User)";
  "  - Find(User) => (User)";
  "  - Ping()"]%string.
Definition exampleText : string := join nl exampleLines ++ nl.

Definition exampleNodes : list node := [
  NDef (Def "webrpc" "v1" false [] "");
  NDef (Def "name" "example" false [] "");
  NStruct (Struct "User" [Def "id" "uint64" false [] ""; Def "nick" "[]map<string,int>" true [("json", "nick_name")] ""] "" 0);
  NEnum (Enum "Kind" "uint8" [Def "A" "" false [] ""; Def "B" "5" false [] ""] "" 0);
  NError (ErrN "100" "NotFound" ("not" ++ String "009"%char "found") (Some "404"));
  NImport (Imp "./lib/types.ridl" ["Page"]);
  NAlias (Alias "Users" "[]User" [] "" 0);
  NService (Service "Api"
    [Method "Get" false "" [Ann "auth" 0 (Some "jwt key"); Ann "public" 0 None] false
       [Arg "id" "uint64" false None; Arg "deep" "bool" true None] false [Arg "user" "User" false None] ["NotFound"];
     Method "Up" false "" [] true [Arg "" "" false (Some "User")] true [Arg "out" "[]User" false None] [];
     Method "Find" false "" [] false [Arg "" "" false (Some "User")] false [Arg "" "" false (Some "User")] [];
     Method "Ping" false "" [] false [] false [] []] [] "")]%string.

Local Notation sp := [(TWhitespace, " "%string)].
Local Notation e0 := [(TNewLine, nl)].
Local Notation e2 := [(TNewLine, nl); (TWhitespace, "  "%string)].
Local Notation e4 := [(TNewLine, nl); (TWhitespace, "    "%string)].
Local Notation W x := (TWord, x%string).

Local Ltac blank := first [apply BlankNone | apply BlankOne].
Local Ltac gap := repeat first [apply GapNone | apply GapBlank | apply GapLine].
Local Ltac eol := apply EolNow; gap.
Local Ltac word := apply (LitBare false); [discriminate|repeat constructor; cbn; tauto|reflexivity].
Local Ltac named := apply TypeName; [reflexivity|cbn; intuition discriminate].
Local Ltac ok := first [blank | eol | word | named | reflexivity].

Definition fId : list lexeme := (TMinus, "-"%string) :: sp ++ W "id" :: [] ++ (TColon, ":"%string) :: sp ++ [W "uint64"] ++ e2 ++ [].
Definition tNick : list lexeme := (TOpenBracket, "["%string) :: (TCloseBracket, "]"%string) ::
  W "map" :: [] ++ (TOpenAngle, "<"%string) :: [] ++ [W "string"] ++ [] ++ (TComma, ","%string) :: sp ++ [W "int"] ++ [] ++ [(TCloseAngle, ">"%string)].
Definition mNick : list lexeme := (TPlus, "+"%string) :: sp ++ W "json" :: sp ++ (TEqual, "="%string) :: sp ++ [W "nick_name"] ++ [(TNewLine, nl); (TNewLine, nl)].
Definition fNick : list lexeme := (TMinus, "-"%string) :: sp ++ W "nick" :: [(TQuestion, "?"%string)] ++ (TColon, ":"%string) :: sp ++ tNick ++ e4 ++ mNick.
Definition sUser : list lexeme := W "struct" :: sp ++ W "User" :: e2 ++ fId ++ fNick.
Definition mA : list lexeme := (TMinus, "-"%string) :: sp ++ W "A" :: e2.
Definition mB : list lexeme := (TMinus, "-"%string) :: sp ++ W "B" :: sp ++ (TEqual, "="%string) :: sp ++ [W "5"] ++ e0.
Definition enumKind : list lexeme := W "enum" :: sp ++ W "Kind" :: (TColon, ":"%string) :: sp ++ W "uint8" :: e2 ++ mA ++ mB.
Definition msgLit : list lexeme := (TQuote, """"%string) :: [W "not\tfound"] ++ [(TQuote, """"%string)].
Definition httpPart : list lexeme := sp ++ W "HTTP" :: sp ++ [W "404"].
Definition errNotFound : list lexeme := W "error" :: sp ++ W "100" :: sp ++ W "NotFound" :: sp ++ msgLit ++ httpPart ++ e0.
Definition pathLit : list lexeme := [(TDot, "."%string); (TSlash, "/"%string); W "lib/types.ridl"].
Definition pageItem : list lexeme := (TMinus, "-"%string) :: sp ++ [W "Page"] ++ e0.
Definition importTypes : list lexeme := W "import" :: sp ++ pathLit ++ e2 ++ pageItem.
Definition aliasUsers : list lexeme := W "type" :: sp ++ W "Users" :: (TColon, ":"%string) :: sp ++
  ((TOpenBracket, "["%string) :: (TCloseBracket, "]"%string) :: [W "User"]) ++ e0 ++ [].
Definition jwtLit : list lexeme := (TQuote, """"%string) :: [W "jwt"; (TWhitespace, " "%string); W "key"] ++ [(TQuote, """"%string)].
Definition annAuth : list lexeme := (TAt, "@"%string) :: W "auth" :: (TColon, ":"%string) :: jwtLit ++ sp.
Definition annPublic : list lexeme := (TAt, "@"%string) :: W "public" :: e2.
Definition argDeep : list lexeme := W "deep" :: [(TQuestion, "?"%string)] ++ (TColon, ":"%string) :: sp ++ [W "bool"] ++ [(TCloseParen, ")"%string)].
Definition getIn : list lexeme := (TOpenParen, "("%string) ::
  W "id" :: [] ++ (TColon, ":"%string) :: sp ++ [W "uint64"] ++ (TComma, ","%string) :: (TWhitespace, " "%string) :: argDeep.
Definition getOut : list lexeme := (TOpenParen, "("%string) ::
  W "user" :: [] ++ (TColon, ":"%string) :: sp ++ [W "User"] ++ [(TCloseParen, ")"%string)].
Definition getErr : list lexeme := sp ++ W "errors" :: sp ++ W "NotFound" :: [].
Definition mGet : list lexeme := (TMinus, "-"%string) :: sp ++ W "Get" :: getIn ++ (sp ++ (TRocket, "=>"%string) :: sp ++ [] ++ getOut ++ getErr ++ e2).
Definition userShort : list lexeme := (TOpenParen, "("%string) :: [] ++ [W "User"; (TCloseParen, ")"%string)].
Definition upOut : list lexeme := (TOpenParen, "("%string) ::
  W "out" :: [] ++ (TColon, ":"%string) :: sp ++ ((TOpenBracket, "["%string) :: (TCloseBracket, "]"%string) :: [W "User"]) ++ [(TCloseParen, ")"%string)].
Definition mUp : list lexeme := (TMinus, "-"%string) :: sp ++ W "stream" :: sp ++ W "Up" :: (userShort ++ sp) ++
  ([] ++ (TRocket, "=>"%string) :: sp ++ [W "stream"; (TWhitespace, " "%string)] ++ upOut ++ [] ++ e2).
Definition mFind : list lexeme := (TMinus, "-"%string) :: sp ++ W "Find" :: (userShort ++ sp) ++
  ([] ++ (TRocket, "=>"%string) :: sp ++ [] ++ userShort ++ (TNewLine, nl) :: [(TWhitespace, "  "%string)]).
Definition mPing : list lexeme := (TMinus, "-"%string) :: sp ++ W "Ping" :: ((TOpenParen, "("%string) :: [(TCloseParen, ")"%string)]) ++ ([] ++ e0).
Definition apiMethods : list lexeme := (annAuth ++ annPublic) ++ mGet ++ [] ++ mUp ++ [] ++ mFind ++ [] ++ mPing ++ [].
Definition serviceApi : list lexeme := W "service" :: sp ++ [W "Api"] ++ e2 ++ apiMethods.
Definition nameEnd : list lexeme := (TWhitespace, " "%string) ::
  ((THash, "#"%string) :: [(TWhitespace, " "%string); W "the"; (TWhitespace, " "%string); W "example"]) ++ (TNewLine, nl) :: (TNewLine, nl) ::
  ((THash, "#"%string) :: [(TWhitespace, " "%string); W "People"]) ++ (TNewLine, nl) :: [].
Definition defWebrpc : list lexeme := W "webrpc" :: sp ++ (TEqual, "="%string) :: sp ++ [W "v1"] ++ e0.
Definition defName : list lexeme := W "name" :: sp ++ (TEqual, "="%string) :: sp ++ [W "example"] ++ nameEnd.
Definition exampleLexemes : list lexeme :=
  [] ++ defWebrpc ++ defName ++ sUser ++ enumKind ++ errNotFound ++ importTypes ++ aliasUsers ++ serviceApi ++ [].

Lemma dNickType : TypeExpr tNick "[]map<string,int>".
Proof. apply TypeList, (TypeMap [] [] [W "string"] "string" [] sp [W "int"] "int" []); ok. Qed.
Lemma dUser nx : Item sUser [NStruct (Struct "User" [Def "id" "uint64" false [] ""; Def "nick" "[]map<string,int>" true [("json", "nick_name")] ""] "" 0)] nx.
Proof.
  apply (ItemStruct sp "User" e2 (fId ++ fNick)); try ok.
  change (fId ++ fNick) with (fId ++ fNick ++ []). apply ManyCons.
  { apply FieldOf; try ok; [apply OptNo|apply ManyNil]. }
  apply ManyCons; [|apply ManyNil]. apply (FieldOf "-" sp "nick" [(TQuestion, "?"%string)] true ":" sp tNick _ e4 mNick); try ok.
  - apply OptYes.
  - exact dNickType.
  - change mNick with (mNick ++ []). apply ManyCons; [|apply ManyNil].
    apply (MetaOf "+" sp "json" sp "=" sp [W "nick_name"] "nick_name"); try ok.
    apply (MetaBare (W "nick_name") []); [discriminate|repeat constructor; discriminate|reflexivity].
Qed.
Lemma dKind nx : Item enumKind [NEnum (Enum "Kind" "uint8" [Def "A" "" false [] ""; Def "B" "5" false [] ""] "" 0)] nx.
Proof.
  apply (ItemEnum sp "Kind" ":" sp "uint8" e2 (mA ++ mB ++ [])); try ok.
  apply ManyCons; [apply MemberImplicit; ok|]. apply ManyCons; [|apply ManyNil].
  apply (MemberExplicit "-" sp "B" sp "=" sp [W "5"] "5"); ok.
Qed.
Lemma dMsg : StringLit msgLit ("not" ++ String "009"%char "found").
Proof.
  apply (StringLitOf """" """" _ (decode "not\tfound")); [discriminate|repeat constructor; discriminate|vm_compute; reflexivity|].
  change (decode "not\tfound") with [110; 111; 116; 92; 116; 102; 111; 117; 110; 100]%N.
  repeat first [apply DenTab | apply (DenPlain 110) | apply (DenPlain 111) | apply (DenPlain 116) | apply (DenPlain 102) | apply (DenPlain 117) | apply (DenPlain 100) | apply DenNil]; lia.
Qed.
Lemma dNotFound nx : Item errNotFound [NError (ErrN "100" "NotFound" ("not" ++ String "009"%char "found") (Some "404"))] nx.
Proof.
  apply (ItemError sp "100" sp "NotFound" sp msgLit _ httpPart); try ok.
  - left. exact dMsg.
  - right. exists sp, sp, "404"%string. repeat split; apply BlankOne.
Qed.
Lemma dImport nx : Item importTypes [NImport (Imp "./lib/types.ridl" ["Page"%string])] nx.
Proof.
  apply (ItemImport sp pathLit "./lib/types.ridl" e2 (pageItem ++ [])); try ok.
  - apply (LitBare true); [discriminate|repeat constructor; cbn; tauto|reflexivity].
  - apply ManyCons; [|apply ManyNil]. apply (ListItemOf false "-" sp [W "Page"] "Page"); ok.
Qed.
Lemma dUsers nx : Item aliasUsers [NAlias (Alias "Users" "[]User" [] "" 0)] nx.
Proof.
  apply ItemAlias; try ok; [|apply ManyNil]. apply TypeList. named.
Qed.
Lemma dJwt : StringLit jwtLit "jwt key".
Proof.
  apply (StringLitOf """" """" _ (decode "jwt key")); [discriminate|repeat constructor; discriminate|vm_compute; reflexivity|].
  change (decode "jwt key") with [106; 119; 116; 32; 107; 101; 121]%N.
  repeat first [apply (DenPlain 106) | apply (DenPlain 119) | apply (DenPlain 116) | apply (DenPlain 32) | apply (DenPlain 107) | apply (DenPlain 101) | apply (DenPlain 121) | apply DenNil]; lia.
Qed.
Lemma dShort : Succinct userShort [Arg "" "" false (Some "User"%string)].
Proof. apply SuccinctOf. constructor. Qed.
Lemma dApi : Item serviceApi
  [NService (Service "Api"
    [Method "Get" false "" [Ann "auth" 0 (Some "jwt key"); Ann "public" 0 None] false
       [Arg "id" "uint64" false None; Arg "deep" "bool" true None] false [Arg "user" "User" false None] ["NotFound"];
     Method "Up" false "" [] true [Arg "" "" false (Some "User")] true [Arg "out" "[]User" false None] [];
     Method "Find" false "" [] false [Arg "" "" false (Some "User")] false [Arg "" "" false (Some "User")] [];
     Method "Ping" false "" [] false [] false [] []] [] "")]%string [].
Proof.
  apply (ItemService sp [W "Api"] "Api" e2 apiMethods); try ok. unfold apiMethods.
  apply MethodsCons with (anns := [Ann "auth" 0 (Some "jwt key"); Ann "public" 0 None]%string).
  { change (annAuth ++ annPublic) with (annAuth ++ annPublic ++ []). apply ManyCons.
    - apply AnnString; [exact dJwt|apply SpaceBlank, GapNone].
    - apply ManyCons; [|apply ManyNil]. apply AnnBare. apply SpaceLine. gap. }
  { repeat constructor; cbn; intuition discriminate. }
  { apply MethodOf; [blank|cbn; intuition discriminate| |].
    - apply InputsNamed, ArgListOf. apply ArgsCons; [apply OptNo|blank|named|left; right; left; reflexivity|].
      apply ArgsSep; [right; left; reflexivity|]. apply ArgsSep; [left; reflexivity|].
      apply ArgsCons; [apply OptYes|blank|named|right; reflexivity|]. apply ArgsEnd.
    - apply (NamedResult sp "=>" sp [] false getOut _ getErr); try ok.
      + apply StreamNo.
      + apply ArgListOf, ArgsCons; [apply OptNo|blank|named|right; reflexivity|]. apply ArgsEnd.
      + apply (ErrorsSome sp sp "NotFound" []); [blank|blank|apply ManyNil]. }
  apply MethodsCons with (anns := []); [apply ManyNil|constructor| |].
  { apply MethodStream; [blank|blank|apply InputsSuccinct, dShort|].
    apply NamedResult with (le := []); try ok.
    - apply StreamYes.
    - apply ArgListOf, ArgsCons; [apply OptNo|blank|apply TypeList; named|right; reflexivity|]. apply ArgsEnd.
    - apply ErrorsNone. }
  apply MethodsCons with (anns := []); [apply ManyNil|constructor| |].
  { apply MethodOf; [blank|cbn; intuition discriminate|apply InputsSuccinct, dShort|].
    apply SuccinctLine; [blank|blank|apply StreamNo|exact dShort|gap|].
    intros [(w & r & E)|(s & w & r & E)]; discriminate. }
  apply MethodsCons with (anns := []); [apply ManyNil|constructor| |apply MethodsNil].
  apply MethodOf; [blank|cbn; intuition discriminate|apply InputsNamed, ArgListOf, ArgsEnd|].
  apply NoResult; [apply ErrorsNone|eol].
Qed.

Lemma exampleDocument : Document exampleLexemes exampleNodes.
Proof.
  apply DocumentOf; [apply GapNone|].
  apply (ItemsCons defWebrpc [NDef (Def "webrpc" "v1" false [] "")]).
  { apply (ItemDef "webrpc" sp "=" sp [W "v1"] "v1"); try ok. cbn. tauto. }
  apply (ItemsCons defName [NDef (Def "name" "example" false [] "")]).
  { apply (ItemDef "name" sp "=" sp [W "example"] "example" nameEnd); try ok.
    - cbn. tauto.
    - apply EolBlank, LineEndOf; [right; constructor; repeat constructor; discriminate|].
      apply GapLine. apply GapComment; [constructor; repeat constructor; discriminate|gap]. }
  apply (ItemsCons sUser [_]); [apply dUser|]. apply (ItemsCons enumKind [_]); [apply dKind|].
  apply (ItemsCons errNotFound [_]); [apply dNotFound|]. apply (ItemsCons importTypes [_]); [apply dImport|].
  apply (ItemsCons aliasUsers [_]); [apply dUsers|]. apply (ItemsCons serviceApi [_] [] []); [apply dApi|apply ItemsNil].
Qed.

Lemma exampleIs : IsDocument (decode exampleText) exampleNodes.
Proof.
  split; [vm_compute; intuition discriminate|]. split; [vm_compute; reflexivity|].
  destruct (init_segments exampleText) as (segs & HS & HM). exists segs. split; [exact HS|].
  change (map (fun s => (fst s, encode (snd s))) segs) with (map sv segs). rewrite <- HM.
  assert (E : map tv (p_toks (initConf exampleText)) = exampleLexemes) by (vm_compute; reflexivity).
  rewrite E. exact exampleDocument.
Qed.
