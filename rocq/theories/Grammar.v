(** Specification of RIDL: the documents of the language and what they declare.
    Written as a grammar over lexemes (kind and text of a token, see LexSpec.v),
    independently of the parser.  It covers the documents in the usual form; the
    places where the parser insists on a particular form are remarked on.  Comments
    and blank lines may stand wherever a gap is allowed and mean nothing here (what
    they are attached to is the subject of CommentSpec.v). *)
From Verif Require Import Base Lexer LexSpec Ast Utf8 StringSpec.

Definition lexeme := (ttype * string)%type.

(** the text of a list of lexemes *)
Definition text (l : list lexeme) : string := sconcat (map snd l).

(** ASCII without a backslash *)
Definition plain (s : string) : Prop := sforall (fun c => (N_of_byte c <? 128)%N && negb (Ascii.eqb c "\")) s = true.

(** optional white space within a line *)
Inductive Blank : list lexeme -> Prop :=
| BlankNone : Blank []
| BlankOne s : Blank [(TWhitespace, s)].

(** a comment runs to the end of the line *)
Inductive Comment : list lexeme -> Prop :=
| CommentOf h body : Forall (fun x => fst x <> TNewLine /\ fst x <> TEOF) body -> Comment ((THash, h) :: body).

(** between lines: blanks, empty lines, lines with a comment *)
Inductive Gap : list lexeme -> Prop :=
| GapNone : Gap []
| GapBlank s l : Gap l -> Gap ((TWhitespace, s) :: l)
| GapLine s l : Gap l -> Gap ((TNewLine, s) :: l)
| GapComment c s l : Comment c -> Gap l -> Gap (c ++ (TNewLine, s) :: l).

(** the end of a line and the gap after it; a comment at the end of a line is
    separated by white space *)
Inductive LineEnd : list lexeme -> Prop :=
| LineEndOf c s l : c = [] \/ Comment c -> Gap l -> LineEnd (c ++ (TNewLine, s) :: l).
Inductive Eol : list lexeme -> Prop :=
| EolNow s l : Gap l -> Eol ((TNewLine, s) :: l)
| EolBlank w l : LineEnd l -> Eol ((TWhitespace, w) :: l).

(** ** Values *)

(** a string literal: not empty, and its content as StringSpec says *)
Inductive StringLit : list lexeme -> string -> Prop :=
| StringLitOf q q' body raw s :
    body <> [] ->
    Forall (fun x => fst x <> TQuote /\ fst x <> TNewLine /\ fst x <> TEOF /\ (fst x = TBackslash -> snd x = "\"%string)) body ->
    text body = encode raw -> Denotes raw s ->
    StringLit ((TQuote, q) :: body ++ [(TQuote, q')]) s.

(** a value: a string literal or bare words and slashes; in a path also dots *)
Definition bareLexeme (dots : bool) (x : lexeme) : Prop :=
  fst x = TWord \/ fst x = TSlash \/ (dots = true /\ fst x = TDot).
Inductive Literal (dots : bool) : list lexeme -> string -> Prop :=
| LitString l s : StringLit l s -> Literal dots l s
| LitBare l : l <> [] -> Forall (bareLexeme dots) l -> plain (text l) -> Literal dots l (text l).

(** the value of a meta entry: a string literal or everything up to white space *)
Inductive MetaValue : list lexeme -> string -> Prop :=
| MetaString l s : StringLit l s -> MetaValue l s
| MetaBare x l : fst x <> TQuote ->
    Forall (fun x => fst x <> TWhitespace /\ fst x <> TNewLine /\ fst x <> TEOF) (x :: l) -> plain (text (x :: l)) ->
    MetaValue (x :: l) (text (x :: l)).

(** + key = value *)
Inductive Meta : list lexeme -> string * string -> Prop :=
| MetaOf p b0 k b1 e b2 lv v end_ :
    Blank b0 -> plain k -> Blank b1 -> Blank b2 -> MetaValue lv v -> Eol end_ ->
    Meta ((TPlus, p) :: b0 ++ (TWord, k) :: b1 ++ (TEqual, e) :: b2 ++ lv ++ end_) (k, v).

(** a list of phrases *)
Inductive Many {A} (P : list lexeme -> A -> Prop) : list lexeme -> list A -> Prop :=
| ManyNil : Many P [] []
| ManyCons l a ls r : P l a -> Many P ls r -> Many P (l ++ ls) (a :: r).

(** ** Types.  The expression has no blanks, whatever the document has. *)
Inductive TypeExpr : list lexeme -> string -> Prop :=
| TypeName w : plain w -> ~ In w ["map"; "stream"; "struct"]%string -> TypeExpr [(TWord, w)] w
| TypeList l t : TypeExpr l t -> TypeExpr ((TOpenBracket, "[") :: (TCloseBracket, "]") :: l) ("[]" ++ t)%string
| TypeMap b0 b1 lk k b2 b3 lv v b4 :
    Blank b0 -> Blank b1 -> TypeExpr lk k -> Blank b2 -> Blank b3 -> TypeExpr lv v -> Blank b4 ->
    TypeExpr ((TWord, "map") :: b0 ++ (TOpenAngle, "<") :: b1 ++ lk ++ b2 ++ (TComma, ",") :: b3 ++ lv ++ b4 ++ [(TCloseAngle, ">")])
             ("map<" ++ k ++ "," ++ v ++ ">")%string.

(** ** Declarations *)

(** - name: type, or - name?: type, followed by its meta entries *)
Inductive OptMark : list lexeme -> bool -> Prop :=
| OptYes q : OptMark [(TQuestion, q)] true
| OptNo : OptMark [] false.
Inductive FieldDecl : list lexeme -> defNode -> Prop :=
| FieldOf m b0 f lo opt c b1 lt t end_ lm metas :
    Blank b0 -> OptMark lo opt -> Blank b1 -> TypeExpr lt t -> Eol end_ -> Many Meta lm metas ->
    FieldDecl ((TMinus, m) :: b0 ++ (TWord, f) :: lo ++ (TColon, c) :: b1 ++ lt ++ end_ ++ lm) (Def f t opt metas "").

(** - member, or - member = value *)
Inductive MemberDecl : list lexeme -> defNode -> Prop :=
| MemberImplicit m b0 f end_ : Blank b0 -> Eol end_ ->
    MemberDecl ((TMinus, m) :: b0 ++ (TWord, f) :: end_) (Def f "" false [] "")
| MemberExplicit m b0 f b1 e b2 lv v end_ : Blank b0 -> Blank b1 -> Blank b2 -> Literal false lv v -> Eol end_ ->
    MemberDecl ((TMinus, m) :: b0 ++ (TWord, f) :: b1 ++ (TEqual, e) :: b2 ++ lv ++ end_) (Def f v false [] "").

(** - path, - member *)
Inductive ListItem (dots : bool) : list lexeme -> string -> Prop :=
| ListItemOf m b lv v end_ : Blank b -> Literal dots lv v -> Eol end_ ->
    ListItem dots ((TMinus, m) :: b ++ lv ++ end_) v.

(** ** Methods *)

(** the arguments up to the closing parenthesis; white space, commas and bars separate *)
Definition separator (x : lexeme) : Prop := fst x = TWhitespace \/ fst x = TComma \/ fst x = TBar.
Inductive ArgDecls : list lexeme -> list argNode -> Prop :=
| ArgsEnd p : ArgDecls [(TCloseParen, p)] []
| ArgsSep x l a : separator x -> ArgDecls l a -> ArgDecls (x :: l) a
| ArgsCons w lo opt c b lt t x l a :
    OptMark lo opt -> Blank b -> TypeExpr lt t -> separator x \/ fst x = TCloseParen ->
    ArgDecls (x :: l) a ->
    ArgDecls ((TWord, w) :: lo ++ (TColon, c) :: b ++ lt ++ x :: l) (Arg w t opt None :: a).

(** (arguments) *)
Inductive ArgList : list lexeme -> list argNode -> Prop :=
| ArgListOf p l a : ArgDecls l a -> ArgList ((TOpenParen, p) :: l) a.

(** (Struct): the succinct form *)
Inductive Succinct : list lexeme -> list argNode -> Prop :=
| SuccinctOf p seps s p' : Forall separator seps ->
    Succinct ((TOpenParen, p) :: seps ++ [(TWord, s); (TCloseParen, p')]) [Arg "" "" false (Some s)].

(** The parser takes one lexeme more after the succinct form, so what follows has to be white space. *)
Inductive Inputs : list lexeme -> list argNode -> Prop :=
| InputsNamed l a : ArgList l a -> Inputs l a
| InputsSuccinct l a s : Succinct l a -> Inputs (l ++ [(TWhitespace, s)]) a.

(** | Name *)
Inductive ErrorAlt : list lexeme -> string -> Prop :=
| ErrorAltOf b0 b b1 w : Blank b0 -> Blank b1 -> ErrorAlt (b0 ++ (TBar, b) :: b1 ++ [(TWord, w)]) w.

(** nothing, or: errors Name | Name ... *)
Inductive ErrorsClause : list lexeme -> list string -> Prop :=
| ErrorsNone : ErrorsClause [] []
| ErrorsSome b0 b1 w l ws : Blank b0 -> Blank b1 -> Many ErrorAlt l ws ->
    ErrorsClause (b0 ++ (TWord, "errors"%string) :: b1 ++ (TWord, w) :: l) (w :: ws).

(** nothing, or the word stream *)
Inductive StreamMark : list lexeme -> bool -> Prop :=
| StreamYes s : StreamMark [(TWord, "stream"%string); (TWhitespace, s)] true
| StreamNo : StreamMark [] false.

(** does the document go on with a word, possibly after white space? *)
Definition wordNext (l : list lexeme) : Prop :=
  (exists w r, l = (TWord, w) :: r) \/ (exists s w r, l = (TWhitespace, s) :: (TWord, w) :: r).

(** what follows the inputs, up to the end of the line: [ResultTail l stream outs errs nx], where
    [nx] is what follows in the document.  After a succinct result the parser takes
    the end of the line, and would take a word that starts the next line. *)
Inductive ResultTail : list lexeme -> bool -> list argNode -> list string -> list lexeme -> Prop :=
| NoResult le es end_ nx : ErrorsClause le es -> Eol end_ -> ResultTail (le ++ end_) false [] es nx
| NamedResult b0 r b1 ls st la a le es end_ nx :
    Blank b0 -> Blank b1 -> StreamMark ls st -> ArgList la a -> ErrorsClause le es -> Eol end_ ->
    ResultTail (b0 ++ (TRocket, r) :: b1 ++ ls ++ la ++ le ++ end_) st a es nx
| SuccinctErrors b0 r b1 ls st la a s le es end_ nx :
    Blank b0 -> Blank b1 -> StreamMark ls st -> Succinct la a -> ErrorsClause le es -> es <> [] -> Eol end_ ->
    ResultTail (b0 ++ (TRocket, r) :: b1 ++ ls ++ la ++ (TWhitespace, s) :: le ++ end_) st a es nx
| SuccinctBlank b0 r b1 ls st la a s end_ nx :
    Blank b0 -> Blank b1 -> StreamMark ls st -> Succinct la a -> LineEnd end_ ->
    ResultTail (b0 ++ (TRocket, r) :: b1 ++ ls ++ la ++ (TWhitespace, s) :: end_) st a [] nx
| SuccinctLine b0 r b1 ls st la a s gap nx :
    Blank b0 -> Blank b1 -> StreamMark ls st -> Succinct la a -> Gap gap -> ~ wordNext (gap ++ nx) ->
    ResultTail (b0 ++ (TRocket, r) :: b1 ++ ls ++ la ++ (TNewLine, s) :: gap) st a [] nx.

(** @type, @type:value, @type:"value", and white space or a line end *)
Inductive Space : list lexeme -> Prop :=
| SpaceBlank s l : Gap l -> Space ((TWhitespace, s) :: l)
| SpaceLine s l : Gap l -> Space ((TNewLine, s) :: l).
Inductive Annotation : list lexeme -> annNode -> Prop :=
| AnnBare a t sp : Space sp -> Annotation ((TAt, a) :: (TWord, t) :: sp) (Ann t 0 None)
| AnnWord a t c v sp : Space sp -> Annotation ((TAt, a) :: (TWord, t) :: (TColon, c) :: (TWord, v) :: sp) (Ann t 0 (Some v))
| AnnString a t c lv v sp : StringLit lv v -> Space sp ->
    Annotation ((TAt, a) :: (TWord, t) :: (TColon, c) :: lv ++ sp) (Ann t 0 (Some v)).

(** - name(inputs) ..., - stream name(inputs) ..., - proxy name *)
Inductive MethodLine : list lexeme -> list annNode -> methodNode -> list lexeme -> Prop :=
| MethodOf m b0 name li i lt st o es anns nx :
    Blank b0 -> ~ In name ["stream"; "proxy"]%string -> Inputs li i -> ResultTail lt st o es nx ->
    MethodLine ((TMinus, m) :: b0 ++ (TWord, name) :: li ++ lt) anns (Method name false "" anns false i st o es) nx
| MethodStream m b0 b1 name li i lt st o es anns nx :
    Blank b0 -> Blank b1 -> Inputs li i -> ResultTail lt st o es nx ->
    MethodLine ((TMinus, m) :: b0 ++ (TWord, "stream"%string) :: b1 ++ (TWord, name) :: li ++ lt) anns
               (Method name false "" anns true i st o es) nx
| MethodProxy m b0 b1 name end_ anns nx : Blank b0 -> Blank b1 -> Eol end_ ->
    MethodLine ((TMinus, m) :: b0 ++ (TWord, "proxy"%string) :: b1 ++ (TWord, name) :: end_) anns
               (Method name true "" anns false [] false [] []) nx.

(** the methods of a service, each after its annotations, which are of different types; [nx] follows the service *)
Inductive Methods (nx : list lexeme) : list lexeme -> list methodNode -> Prop :=
| MethodsNil : Methods nx [] []
| MethodsCons la anns lm m ls ms :
    Many Annotation la anns -> NoDup (map an_type anns) -> MethodLine lm anns m (ls ++ nx) -> Methods nx ls ms ->
    Methods nx (la ++ lm ++ ls) (m :: ms).

(** ** Documents *)

Definition number (s : string) : Prop := sforall is_digit_byte s = true.

(** [Item l nodes nx]: one declaration, followed by [nx] *)
Inductive Item : list lexeme -> list node -> list lexeme -> Prop :=
(** webrpc = v1, name = ..., version = ..., basepath = ... *)
| ItemDef k b0 e b1 lv v end_ nx :
    In k ["webrpc"; "name"; "version"; "basepath"]%string -> Blank b0 -> Blank b1 -> Literal false lv v -> Eol end_ ->
    Item ((TWord, k) :: b0 ++ (TEqual, e) :: b1 ++ lv ++ end_) [NDef (Def k v false [] "")] nx
(** import, and a list of paths *)
| ItemImports end_ ls paths nx : Eol end_ -> Many (ListItem true) ls paths ->
    Item ((TWord, "import"%string) :: end_ ++ ls) (map (fun p => NImport (Imp p [])) paths) nx
(** import path, and a list of members *)
| ItemImport b lp p end_ ls members nx : Blank b -> Literal true lp p -> Eol end_ -> Many (ListItem false) ls members ->
    Item ((TWord, "import"%string) :: b ++ lp ++ end_ ++ ls) [NImport (Imp p members)] nx
(** enum Name: type *)
| ItemEnum b0 n c b1 t end_ ls members nx : Blank b0 -> Blank b1 -> Eol end_ -> Many MemberDecl ls members ->
    Item ((TWord, "enum"%string) :: b0 ++ (TWord, n) :: (TColon, c) :: b1 ++ (TWord, t) :: end_ ++ ls)
         [NEnum (Enum n t members "" 0)] nx
(** struct Name *)
| ItemStruct b0 n end_ ls fields nx : Blank b0 -> Eol end_ -> Many FieldDecl ls fields ->
    Item ((TWord, "struct"%string) :: b0 ++ (TWord, n) :: end_ ++ ls) [NStruct (Struct n fields "" 0)] nx
(** type Name: type *)
| ItemAlias b0 n c b1 lt t end_ lm metas nx :
    Blank b0 -> Blank b1 -> TypeExpr lt t -> Eol end_ -> Many Meta lm metas ->
    Item ((TWord, "type"%string) :: b0 ++ (TWord, n) :: (TColon, c) :: b1 ++ lt ++ end_ ++ lm) [NAlias (Alias n t metas "" 0)] nx
(** error code Name "message" HTTP status *)
| ItemError b0 code b1 n b2 lm msg ls status end_ nx :
    Blank b0 -> number code -> Blank b1 -> Blank b2 -> StringLit lm msg \/ lm = [(TWord, msg)] ->
    (ls = [] /\ status = None \/
     exists b3 b4 s, Blank b3 /\ Blank b4 /\ number s /\
       ls = b3 ++ (TWord, "HTTP"%string) :: b4 ++ [(TWord, s)] /\ status = Some s) ->
    Eol end_ ->
    Item ((TWord, "error"%string) :: b0 ++ (TWord, code) :: b1 ++ (TWord, n) :: b2 ++ lm ++ ls ++ end_)
         [NError (ErrN code n msg status)] nx
(** service Name *)
| ItemService b0 ln n end_ ls ms nx : Blank b0 -> Literal false ln n -> Eol end_ -> Methods nx ls ms ->
    Item ((TWord, "service"%string) :: b0 ++ ln ++ end_ ++ ls) [NService (Service n ms [] "")] nx.

Inductive Items : list lexeme -> list node -> Prop :=
| ItemsNil : Items [] []
| ItemsCons l ns ls rs : Item l ns ls -> Items ls rs -> Items (l ++ ls) (ns ++ rs).

(** a document: a gap and declarations *)
Inductive Document : list lexeme -> list node -> Prop :=
| DocumentOf g ls nodes : Gap g -> Items ls nodes -> Document (g ++ ls) nodes.

(** the text [rs] (characters) is a document that declares [nodes]; LexSpec.v says how a text
    splits into lexemes *)
Definition IsDocument (rs : list N) (nodes : list node) : Prop :=
  ~ In 0%N rs /\ forallb valid_rune rs = true /\
  exists segs, Segments rs segs /\ Document (map (fun s => (fst s, encode (snd s))) segs) nodes.

(** ** Declarations without their comments and line numbers *)
Definition bareDef (d : defNode) : defNode := Def (d_left d) (d_right d) (d_optional d) (d_meta d) "".
Definition bareAnn (a : annNode) : annNode := Ann (an_type a) 0 (an_value a).
Definition bareMethod (m : methodNode) : methodNode :=
  Method (m_name m) (m_proxy m) "" (map bareAnn (m_annotations m)) (m_in_stream m) (m_inputs m) (m_out_stream m) (m_outputs m) (m_errors m).
Definition bare (n : node) : node :=
  match n with
  | NDef d => NDef (bareDef d)
  | NImport i => NImport i
  | NEnum e => NEnum (Enum (e_name e) (e_type e) (map bareDef (e_values e)) "" 0)
  | NStruct s => NStruct (Struct (s_name s) (map bareDef (s_fields s)) "" 0)
  | NError e => NError e
  | NService s => NService (Service (sv_name s) (map bareMethod (sv_methods s)) (map bareAnn (sv_anns s)) "")
  | NAlias a => NAlias (Alias (al_name a) (al_type a) (al_meta a) "" 0)
  end.
