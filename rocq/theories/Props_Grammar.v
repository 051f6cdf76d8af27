(** C42: RIDL documents mean what they say. Theorems only.
    The language is specified in Grammar.v, over the lexemes of LexSpec.v. *)
From Verif Require Import Base BaseProofs Utf8 Utf8Proofs Lexer LexSpec LexerProofs Tokenize Ast Parser EraseProofs CommentBlock StringSpec StringProofs
  Schema Uri Ridl LoadSpec LoadProofs DeclSpec DeclProofs Grammar GrammarProofs GrammarMethods GrammarItems GrammarExample PropsGrammarAux.

(** C42. Every document of the language parses, and the parse tree has exactly the declarations the
    document makes, in their order (the comments are the subject of C37). *)
Theorem C42_documents_parse_as_written : forall text nodes, IsDocument text nodes ->
  exists nodes', parseRidl (encode text) = Parsed nodes' /\ map bare nodes' = nodes.
Proof.
  intros text nodes (_ & HV & segs & HS & HD). pose proof (document_parse _ _ _ HV HS HD) as E.
  destruct (parseRidl (encode text)) as [l| |]; try discriminate. cbn [eR] in E. injection E as E. now exists l.
Qed.
Print Assumptions C42_documents_parse_as_written.

(** C42. A document has one meaning. *)
Theorem C42_documents_are_unambiguous : forall text nodes nodes', IsDocument text nodes -> IsDocument text nodes' -> nodes = nodes'.
Proof.
  intros text n1 n2 H1 H2. destruct (C42_documents_parse_as_written _ _ H1) as (l1 & E1 & <-).
  destruct (C42_documents_parse_as_written _ _ H2) as (l2 & E2 & <-). congruence.
Qed.
Print Assumptions C42_documents_are_unambiguous.

(** C42. From the document to the schema: when the file [p] has the document as its text and loads,
    the declaration number [k] of the document is what the element (p, k) of the schema says, and
    there is no other element of that file. *)
Theorem C42_types_of_a_document : forall fs u p text nodes s,
  assoc p fs = Some (encode text) -> IsDocument text nodes -> loadFile fs u p = LOk s ->
  forall k, match nth_error (typeDecls nodes) k with
            | Some d => exists t d', In t (sc_types s) /\ t_id t = (p, k) /\ bareDecl d' = d /\ TypeOf d' t
            | None => forall t, In t (sc_types s) -> t_id t <> (p, k)
            end.
Proof.
  intros fs u p text nodes s Hp HD H k. destruct (C42_documents_parse_as_written _ _ HD) as (l & El & <-).
  apply loadFile_iff in H. pose proof (loaded_source _ _ _ _ _ _ H Hp El) as HS. apply loaded_content in H.
  exact (own_elements fs typeDecls declName t_id TypeOf p l (sc_types s) bareDecl typeDecls_bare HS (c_types _ _ _ H) k).
Qed.
Print Assumptions C42_types_of_a_document.

Theorem C42_errors_of_a_document : forall fs u p text nodes s,
  assoc p fs = Some (encode text) -> IsDocument text nodes -> loadFile fs u p = LOk s ->
  forall k, match nth_error (errors_of nodes) k with
            | Some e => exists x, In x (sc_errors s) /\ x_id x = (p, k) /\ ErrorOf e x
            | None => forall x, In x (sc_errors s) -> x_id x <> (p, k)
            end.
Proof.
  intros fs u p text nodes s Hp HD H k. destruct (C42_documents_parse_as_written _ _ HD) as (l & El & <-).
  apply loadFile_iff in H. pose proof (loaded_source _ _ _ _ _ _ H Hp El) as HS. apply loaded_content in H.
  pose proof (own_elements fs errors_of errName x_id ErrorOf p l (sc_errors s) (fun e => e) errors_bare HS (c_errors _ _ _ H) k) as HO.
  destruct (nth_error (errors_of (map bare l)) k) as [e|]; [|exact HO].
  destruct HO as (x & e' & H1 & H2 & <- & H3). now exists x.
Qed.
Print Assumptions C42_errors_of_a_document.

Theorem C42_services_of_a_document : forall fs u p text nodes s,
  assoc p fs = Some (encode text) -> IsDocument text nodes -> loadFile fs u p = LOk s ->
  forall k, match nth_error (services_of nodes) k with
            | Some v => exists v' sn, In v' (sc_services s) /\ v_id v' = (p, k) /\ bareService sn = v /\ ServiceOf sn v'
            | None => forall v', In v' (sc_services s) -> v_id v' <> (p, k)
            end.
Proof.
  intros fs u p text nodes s Hp HD H k. destruct (C42_documents_parse_as_written _ _ HD) as (l & El & <-).
  apply loadFile_iff in H. pose proof (loaded_source _ _ _ _ _ _ H Hp El) as HS. apply loaded_content in H.
  exact (own_elements fs services_of sv_name v_id ServiceOf p l (sc_services s) bareService services_bare HS (c_services _ _ _ H) k).
Qed.
Print Assumptions C42_services_of_a_document.

(** C42. Whatever text is accepted: header entries have one of the known keys, error codes and status
    codes are numbers, and no method has two annotations of the same type. *)
Theorem C42_accepted_declarations_are_well_formed : forall src nodes, parseRidl src = Parsed nodes ->
  (forall d, In (NDef d) nodes -> In (d_left d) ["webrpc"; "name"; "version"; "basepath"]%string) /\
  (forall e, In (NError e) nodes -> number (er_code e) /\ forall s, er_status e = Some s -> number s) /\
  (forall sv m, In (NService sv) nodes -> In m (sv_methods sv) -> NoDup (map an_type (m_annotations m))).
Proof.
  intros src nodes H. apply ok_parse in H. rewrite Forall_forall in H. split; [|split].
  - intros d Hd. exact (H _ Hd).
  - intros e He. exact (H _ He).
  - intros sv m Hs Hm. specialize (H _ Hs). cbn [okNode] in H. rewrite Forall_forall in H. exact (H m Hm).
Qed.
Print Assumptions C42_accepted_declarations_are_well_formed.

(** C42. Outside of that language the parser is not to be relied on.  After a method that ends in a
    succinct result the line end is swallowed, and then the first word of the next line: *)
Theorem C42_succinct_result_swallows_the_next_word_refuted :
  exists e, parseRidl ("service S" ++ nl ++ "- M(X) => (Y)" ++ nl ++ "struct Foo" ++ nl) = ParseError e.
Proof. eexists. vm_compute. reflexivity. Qed.
Print Assumptions C42_succinct_result_swallows_the_next_word_refuted.

(** any word after a method is dropped without notice *)
Theorem C42_stray_word_is_dropped_refuted :
  parseRidl ("service S" ++ nl ++ "- M() error" ++ nl) = parseRidl ("service S" ++ nl ++ "- M()" ++ nl).
Proof. vm_compute. reflexivity. Qed.
Print Assumptions C42_stray_word_is_dropped_refuted.

(** after the quoted value of an annotation the next lexeme is dropped, whatever it is *)
Theorem C42_lexeme_after_annotation_value_is_dropped_refuted :
  exists nodes, parseRidl ("service S" ++ nl ++ "@a:""v""- - M()" ++ nl) = Parsed nodes /\
                parseRidl ("service S" ++ nl ++ "@a:""v"" - M()" ++ nl) = Parsed nodes.
Proof. eexists. split; vm_compute; reflexivity. Qed.
Print Assumptions C42_lexeme_after_annotation_value_is_dropped_refuted.

(** annotations without a method are dropped without notice *)
Theorem C42_dangling_annotation_is_dropped_refuted :
  loadFile [("a.ridl", "webrpc = v1" ++ nl ++ "name = a" ++ nl ++ "version = v1" ++ nl ++ "service S" ++ nl ++ "- M()" ++ nl ++ "@auth" ++ nl)]%string goUriOk "a.ridl" =
  loadFile [("a.ridl", "webrpc = v1" ++ nl ++ "name = a" ++ nl ++ "version = v1" ++ nl ++ "service S" ++ nl ++ "- M()" ++ nl)]%string goUriOk "a.ridl".
Proof. vm_compute. reflexivity. Qed.
Print Assumptions C42_dangling_annotation_is_dropped_refuted.

(** a string literal may not be empty *)
Theorem C42_empty_string_refuted : exists e, parseRidl ("name = """"" ++ nl) = ParseError e.
Proof. eexists. vm_compute. reflexivity. Qed.
Print Assumptions C42_empty_string_refuted.

(** the declarations of a realistic document, by way of the theorem *)
Example C42_example : exists nodes, parseRidl exampleText = Parsed nodes /\ map bare nodes = exampleNodes.
Proof. rewrite <- (encode_example : encode (decode exampleText) = exampleText). exact (C42_documents_parse_as_written _ _ exampleIs). Qed.
