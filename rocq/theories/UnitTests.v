(** The unit tests of the repository, run on the model.  Each [Example] is one case of a Go test: the
    input of the test is given to the model of the function under test and the values that the test
    asserts are computed by the kernel.  These are tests that the model behaves like the code on the
    inputs the authors of the code chose, not proofs of properties.  Where a Go test checks nothing but
    success, so does the case here.  For an input that must be refused only the refusal is checked (the
    model keeps no tree then). *)
From Verif Require Import Base Uri Lexer Tokenize Ast Parser Ridl Schema SchemaJson Cli Filter BigInt Gen Tmpl.
Open Scope string_scope.

(** what a test asserts about one value: a text, a length, an integer, a flag, several texts *)
Inductive seenValue := VS (s : string) | VN (n : nat) | VZ (z : Z) | VB (b : bool) | VL (l : list string).
Definition bind {A B} (o : option A) (f : A -> option B) : option B := match o with Some a => f a | None => None end.
Fixpoint all_some {A} (l : list (option A)) : option (list A) :=
  match l with
  | [] => Some []
  | o :: r => bind o (fun a => option_map (cons a) (all_some r))
  end.
Definition seen {A} (o : option A) (f : A -> list (option seenValue)) : option (list seenValue) :=
  bind o (fun a => all_some (f a)).
Definition refused {A} (o : option A) : bool := match o with None => true | Some _ => false end.

Definition position (t : token) : nat * nat := (line t, col t).
Definition lexValues (s : string) : list string := map val (filter (fun t => negb (tt_eqb (ty t) TEOF)) (lexAll s)).

Definition ridlTree (s : string) : option (list node) :=
  match parseRidl s with Parsed l => Some l | _ => None end.
Definition ridlSchema (files : list (string * string)) (main : string) : option schema :=
  match loadFile files goUriOk main with LOk s => Some s | _ => None end.
Definition jsonSchema (s : string) : option schema :=
  match parseSchemaJSON goUriOk s with Ok s => Some s | _ => None end.

(** schema/ridl/lexer_test.go TestLexerColumnAndLine (the table has an entry too many) *)
Example TestLexerColumnAndLine_1 : map position (lexAll "") = [(0, 0)].
Proof. vm_compute. reflexivity. Qed.

(** schema/ridl/lexer_test.go TestLexerColumnAndLine *)
Example TestLexerColumnAndLine_2 : map position (lexAll "A") = [(1, 1); (1, 1)].
Proof. vm_compute. reflexivity. Qed.

(** schema/ridl/lexer_test.go TestLexerColumnAndLine *)
Example TestLexerColumnAndLine_3 : map position (lexAll " ") = [(1, 1); (1, 1)].
Proof. vm_compute. reflexivity. Qed.

(** schema/ridl/lexer_test.go TestLexerColumnAndLine *)
Example TestLexerColumnAndLine_4 : map position (lexAll " ABC") = [(1, 1); (1, 4); (1, 4)].
Proof. vm_compute. reflexivity. Qed.

(** schema/ridl/lexer_test.go TestLexerColumnAndLine *)
Example TestLexerColumnAndLine_5 : map position (lexAll " ABC
Z
DEF ") = [(1, 1); (1, 4); (1, 5); (2, 1); (2, 2); (3, 3); (3, 4); (3, 4)].
Proof. vm_compute. reflexivity. Qed.

(** schema/ridl/lexer_test.go TestLexerColumnAndLine *)
Example TestLexerColumnAndLine_6 : map position (lexAll " ABC


Z
DEF ") = [(1, 1); (1, 4); (1, 5); (2, 1); (3, 1); (4, 1); (4, 2); (5, 3); (5, 4); (5, 4)].
Proof. vm_compute. reflexivity. Qed.

(** schema/ridl/lexer_test.go TestLexerColumnAndLine *)
Example TestLexerColumnAndLine_7 : map position (lexAll "=
A
C
D EFG HIJK L") = [(1, 1); (1, 2); (2, 1); (2, 2); (3, 1); (3, 2); (4, 1); (4, 2); (4, 5); (4, 6); (4, 10); (4, 11); (4, 12); (4, 12)].
Proof. vm_compute. reflexivity. Qed.

(** schema/ridl/lexer_test.go TestLexerColumnAndLine *)
Example TestLexerColumnAndLine_8 : map position (lexAll "=") = [(1, 1); (1, 1)].
Proof. vm_compute. reflexivity. Qed.

(** schema/ridl/lexer_test.go TestLexerColumnAndLine *)
Example TestLexerColumnAndLine_9 : map position (lexAll "=>") = [(1, 2); (1, 2)].
Proof. vm_compute. reflexivity. Qed.

(** schema/ridl/lexer_test.go TestLexerColumnAndLine *)
Example TestLexerColumnAndLine_10 : map position (lexAll "=> =>") = [(1, 2); (1, 3); (1, 5); (1, 5)].
Proof. vm_compute. reflexivity. Qed.

(** schema/ridl/lexer_test.go TestLexerColumnAndLine *)
Example TestLexerColumnAndLine_11 : map position (lexAll "=> =<") = [(1, 2); (1, 3); (1, 4); (1, 5); (1, 5)].
Proof. vm_compute. reflexivity. Qed.

(** schema/ridl/lexer_test.go TestLexerColumnAndLine *)
Example TestLexerColumnAndLine_12 : map position (lexAll "=>    =<") = [(1, 2); (1, 6); (1, 7); (1, 8); (1, 8)].
Proof. vm_compute. reflexivity. Qed.

(** schema/ridl/lexer_test.go TestLexerColumnAndLine *)
Example TestLexerColumnAndLine_13 : map position (lexAll "=>   ... =>   =<") = [(1, 2); (1, 5); (1, 6); (1, 7); (1, 8); (1, 9); (1, 11); (1, 14); (1, 15); (1, 16); (1, 16)].
Proof. vm_compute. reflexivity. Qed.

(** schema/ridl/lexer_test.go TestLexerColumnAndLine *)
Example TestLexerColumnAndLine_14 : map position (lexAll "=>=>==>") = [(1, 2); (1, 4); (1, 5); (1, 7); (1, 7)].
Proof. vm_compute. reflexivity. Qed.

(** schema/ridl/lexer_test.go TestLexerColumnAndLine *)
Example TestLexerColumnAndLine_15 : map position (lexAll """""") = [(1, 1); (1, 2); (1, 2)].
Proof. vm_compute. reflexivity. Qed.

(** schema/ridl/lexer_test.go TestLexerColumnAndLine *)
Example TestLexerColumnAndLine_16 : map position (lexAll """abc\""") = [(1, 1); (1, 5); (1, 6); (1, 6)].
Proof. vm_compute. reflexivity. Qed.

(** schema/ridl/lexer_test.go TestLexerEmmitter *)
Example TestLexerEmmitter_1 : map ty (lexAll "") = [TEOF].
Proof. vm_compute. reflexivity. Qed.

(** schema/ridl/lexer_test.go TestLexerEmmitter *)
Example TestLexerEmmitter_2 : map ty (lexAll "=") = [TEqual; TEOF].
Proof. vm_compute. reflexivity. Qed.

(** schema/ridl/lexer_test.go TestLexerEmmitter *)
Example TestLexerEmmitter_3 : map ty (lexAll "===") = [TEqual; TEqual; TEqual; TEOF].
Proof. vm_compute. reflexivity. Qed.

(** schema/ridl/lexer_test.go TestLexerEmmitter *)
Example TestLexerEmmitter_4 : map ty (lexAll "=ABC=") = [TEqual; TWord; TEqual; TEOF].
Proof. vm_compute. reflexivity. Qed.

(** schema/ridl/lexer_test.go TestLexerEmmitter *)
Example TestLexerEmmitter_5 : map ty (lexAll "...===>=>") = [TDot; TDot; TDot; TEqual; TEqual; TRocket; TRocket; TEOF].
Proof. vm_compute. reflexivity. Qed.

(** schema/ridl/lexer_test.go TestLexerEmmitter *)
Example TestLexerEmmitter_6 : map ty (lexAll """abc\""""") = [TQuote; TWord; TQuote; TQuote; TEOF].
Proof. vm_compute. reflexivity. Qed.

(** schema/ridl/lexer_test.go TestLexerStringTokens *)
Example TestLexerStringTokens_1 : lexValues "" = [].
Proof. vm_compute. reflexivity. Qed.

(** schema/ridl/lexer_test.go TestLexerStringTokens *)
Example TestLexerStringTokens_2 : lexValues """""\""" = [""""; """"; "\"; """"].
Proof. vm_compute. reflexivity. Qed.

(** schema/ridl/lexer_test.go TestLexerStringTokens *)
Example TestLexerStringTokens_3 : lexValues "=ABC" = ["="; "ABC"].
Proof. vm_compute. reflexivity. Qed.

(** schema/ridl/lexer_test.go TestLexerStringTokens *)
Example TestLexerStringTokens_4 : lexValues "=> =>" = ["=>"; " "; "=>"].
Proof. vm_compute. reflexivity. Qed.

(** schema/ridl/lexer_test.go TestLexerStringTokens *)
Example TestLexerStringTokens_5 : lexValues "=> ==>" = ["=>"; " "; "="; "=>"].
Proof. vm_compute. reflexivity. Qed.

(** schema/ridl/lexer_test.go TestLexerStringTokens *)
Example TestLexerStringTokens_6 : lexValues "=>=== >" = ["=>"; "="; "="; "="; " "; ">"].
Proof. vm_compute. reflexivity. Qed.

(** schema/ridl/lexer_test.go TestLexerStringTokens *)
Example TestLexerStringTokens_7 : lexValues "=ABC<>
DEF=(=)==>=>
=


=>=>==>...ABC

" = ["="; "ABC"; "<"; ">"; "
"; "DEF"; "="; "("; "="; ")"; "="; "=>"; "=>"; "
"; "="; "
"; "
"; "
"; "=>"; "=>"; "="; "=>"; "."; "."; "."; "ABC"; "
"; "
"].
Proof. vm_compute. reflexivity. Qed.

(** schema/ridl/lexer_test.go TestLexerStringTokens *)
Example TestLexerStringTokens_8 : lexValues " 

		webrpc    =v1 + foo = bar" = [" "; "
"; "
"; "		"; "webrpc"; "    "; "="; "v1"; " "; "+"; " "; "foo"; " "; "="; " "; "bar"].
Proof. vm_compute. reflexivity. Qed.

(** schema/ridl/lexer_test.go TestLexerSimpleTokens *)
Example TestLexerSimpleTokens_1 : map ty (fst (tokenize "")) = [].
Proof. vm_compute. reflexivity. Qed.

(** schema/ridl/lexer_test.go TestLexerSimpleTokens *)
Example TestLexerSimpleTokens_2 : map ty (fst (tokenize " ")) = [TWhitespace].
Proof. vm_compute. reflexivity. Qed.

(** schema/ridl/lexer_test.go TestLexerSimpleTokens *)
Example TestLexerSimpleTokens_3 : map ty (fst (tokenize "AAAA")) = [TWord].
Proof. vm_compute. reflexivity. Qed.

(** schema/ridl/lexer_test.go TestLexerSimpleTokens *)
Example TestLexerSimpleTokens_4 : map ty (fst (tokenize " 	AAAA       ")) = [TWhitespace; TWord; TWhitespace].
Proof. vm_compute. reflexivity. Qed.

(** schema/ridl/lexer_test.go TestLexerSimpleTokens *)
Example TestLexerSimpleTokens_5 : map ty (fst (tokenize " -AAAA + - +-")) = [TWhitespace; TMinus; TWord; TWhitespace; TPlus; TWhitespace; TMinus; TWhitespace; TPlus; TMinus].
Proof. vm_compute. reflexivity. Qed.

(** schema/ridl/lexer_test.go TestLexerSimpleTokens *)
Example TestLexerSimpleTokens_6 : map ty (fst (tokenize "- -A - --( AA?:AA AA:? BB AA-A-A-A-A-")) = [TMinus; TWhitespace; TMinus; TWord; TWhitespace; TMinus; TWhitespace; TMinus; TMinus; TOpenParen; TWhitespace; TWord; TQuestion; TColon; TWord; TWhitespace; TWord; TColon; TQuestion; TWhitespace; TWord; TWhitespace; TWord].
Proof. vm_compute. reflexivity. Qed.

(** schema/ridl/lexer_test.go TestLexerSimpleTokens *)
Example TestLexerSimpleTokens_7 : map ty (fst (tokenize "AAA BBBB CCC =")) = [TWord; TWhitespace; TWord; TWhitespace; TWord; TWhitespace; TEqual].
Proof. vm_compute. reflexivity. Qed.

(** schema/ridl/lexer_test.go TestLexerSimpleTokens *)
Example TestLexerSimpleTokens_8 : map ty (fst (tokenize "   AAA    		         BBBB CCC =		=>")) = [TWhitespace; TWord; TWhitespace; TWord; TWhitespace; TWord; TWhitespace; TEqual; TWhitespace; TRocket].
Proof. vm_compute. reflexivity. Qed.

(** schema/ridl/lexer_test.go TestLexerSimpleTokens *)
Example TestLexerSimpleTokens_9 : map ty (fst (tokenize "  				 AAA    		         BBBB CCC          				 =")) = [TWhitespace; TWord; TWhitespace; TWord; TWhitespace; TWord; TWhitespace; TEqual].
Proof. vm_compute. reflexivity. Qed.

(** schema/ridl/lexer_test.go TestLexerSimpleTokens *)
Example TestLexerSimpleTokens_10 : map ty (fst (tokenize "A
	B")) = [TWord; TNewLine; TWhitespace; TWord].
Proof. vm_compute. reflexivity. Qed.

(** schema/ridl/lexer_test.go TestLexerSimpleTokens *)
Example TestLexerSimpleTokens_11 : map ty (fst (tokenize """"""" AA=\")) = [TQuote; TQuote; TQuote; TWhitespace; TWord; TEqual; TBackslash].
Proof. vm_compute. reflexivity. Qed.

(** schema/ridl/lexer_test.go TestLexerRIDLTokens *)
Example TestLexerRIDLTokens_1 : map val (fst (tokenize "


webrpc")) = ["
"; "
"; "
"; "webrpc"].
Proof. vm_compute. reflexivity. Qed.

(** schema/ridl/lexer_test.go TestLexerRIDLTokens *)
Example TestLexerRIDLTokens_2 : map val (fst (tokenize "


webrpc
=v1")) = ["
"; "
"; "
"; "webrpc"; "
"; "="; "v1"].
Proof. vm_compute. reflexivity. Qed.

(** schema/ridl/lexer_test.go TestLexerRIDLTokens *)
Example TestLexerRIDLTokens_3 : map val (fst (tokenize "


webrpc
=v1
			+   foo = bar - baz = 56 # a    comment

version = v0.0.0.1")) = ["
"; "
"; "
"; "webrpc"; "
"; "="; "v1"; "
"; "			"; "+"; "   "; "foo"; " "; "="; " "; "bar"; " "; "-"; " "; "baz"; " "; "="; " "; "56"; " "; "#"; " "; "a"; "    "; "comment"; "
"; "
"; "version"; " "; "="; " "; "v0.0.0.1"].
Proof. vm_compute. reflexivity. Qed.

(** schema/ridl/parser_test.go TestParserTopLevelDefinitions *)
Example TestParserTopLevelDefinitions_1 : seen (ridlTree "



# a comment
") (fun r => [option_map (fun n => VB (Nat.eqb n 0)) (option_map (@List.length _) (option_map (fun l => l) (Some r)))]) = Some [VB true].
Proof. vm_compute. reflexivity. Qed.

(** schema/ridl/parser_test.go TestParserTopLevelDefinitions *)
Example TestParserTopLevelDefinitions_2 : seen (ridlTree "



webrpc =   v1 # a comment
") (fun r => [option_map (fun n => VB (Nat.eqb n 0)) (option_map (@List.length _) (option_map (fun l => l) (Some r))); option_map VS (option_map (fun s => s) (option_map d_left (bind (option_map definitions (Some r)) (fun l => nth_error l 0)))); option_map VS (option_map (fun s => s) (option_map d_right (bind (option_map definitions (Some r)) (fun l => nth_error l 0))))]) = Some [VB false; VS "webrpc"; VS "v1"].
Proof. vm_compute. reflexivity. Qed.

(** schema/ridl/parser_test.go TestParserTopLevelDefinitions *)
Example TestParserTopLevelDefinitions_3 : seen (ridlTree "



webrpc=v1 #a comment
") (fun r => [option_map VS (option_map (fun s => s) (option_map d_left (bind (option_map definitions (Some r)) (fun l => nth_error l 0)))); option_map VS (option_map (fun s => s) (option_map d_right (bind (option_map definitions (Some r)) (fun l => nth_error l 0))))]) = Some [VS "webrpc"; VS "v1"].
Proof. vm_compute. reflexivity. Qed.

(** schema/ridl/parser_test.go TestParserTopLevelDefinitions *)
Example TestParserTopLevelDefinitions_4 : seen (ridlTree "



webrpc	=	v1. # a comment
") (fun r => [option_map VS (option_map (fun s => s) (option_map d_left (bind (option_map definitions (Some r)) (fun l => nth_error l 0)))); option_map VS (option_map (fun s => s) (option_map d_right (bind (option_map definitions (Some r)) (fun l => nth_error l 0))))]) = Some [VS "webrpc"; VS "v1."].
Proof. vm_compute. reflexivity. Qed.

(** schema/ridl/parser_test.go TestParserTopLevelDefinitions *)
Example TestParserTopLevelDefinitions_5 : refused (ridlTree "



webrpc = v1 .# a comment
name=FOO") = true.
Proof. vm_compute. reflexivity. Qed.

(** schema/ridl/parser_test.go TestParserTopLevelDefinitions *)
Example TestParserTopLevelDefinitions_6 : seen (ridlTree "



webrpc = v1 # a comment		

	name   = 	EXAMPLE_SERVICE   

version = v1.2.3") (fun r => [(*DEF*) bind (nth_error (definitions r) 0) (fun d => Some (VL [d_left d; d_right d])); (*DEF*) bind (nth_error (definitions r) 1) (fun d => Some (VL [d_left d; d_right d])); (*DEF*) bind (nth_error (definitions r) 2) (fun d => Some (VL [d_left d; d_right d]))]) = Some [VL ["webrpc"; "v1"]; VL ["name"; "EXAMPLE_SERVICE"]; VL ["version"; "v1.2.3"]].
Proof. vm_compute. reflexivity. Qed.

(** schema/ridl/parser_test.go TestParserTopLevelDefinitions *)
Example TestParserTopLevelDefinitions_7 : seen (ridlTree "



webrpc = v1 # a comment
	name =foo-bar#") (fun r => [(*DEF*) bind (nth_error (definitions r) 0) (fun d => Some (VL [d_left d; d_right d])); (*DEF*) bind (nth_error (definitions r) 1) (fun d => Some (VL [d_left d; d_right d]))]) = Some [VL ["webrpc"; "v1"]; VL ["name"; "foo-bar#"]].
Proof. vm_compute. reflexivity. Qed.

(** schema/ridl/parser_test.go TestParserError *)
Example TestParserError : seen (ridlTree "
		error 12345 InvalidUsername ""username is invalid"" HTTP 401
		error 12345 InvalidUsername ""username is invalid"" HTTP 1 # comment
		error 12345 InvalidUsername InvalidUsername
		error 12345 InvalidUsername InvalidUsername # comment
		error 45678 Unauthorized ""unauthorized access"" HTTP 401
		error 45678 Unauthorized ""unauthorized access"" HTTP 401 # comment
		error 45678 Unauthorized Unauthorized HTTP 401
		error 45678 Unauthorized Unauthorized HTTP 401 # comment
	") (fun r => [option_map VN (option_map (@List.length _) (option_map errors_of (Some r)))]) = Some [VN 8].
Proof. vm_compute. reflexivity. Qed.

(** schema/ridl/parser_test.go TestParserErrorInvalid *)
Example TestParserErrorInvalid_1 : refused (ridlTree "error") = true.
Proof. vm_compute. reflexivity. Qed.

(** schema/ridl/parser_test.go TestParserErrorInvalid *)
Example TestParserErrorInvalid_2 : refused (ridlTree "error WRONG") = true.
Proof. vm_compute. reflexivity. Qed.

(** schema/ridl/parser_test.go TestParserErrorInvalid *)
Example TestParserErrorInvalid_3 : refused (ridlTree "error 12345") = true.
Proof. vm_compute. reflexivity. Qed.

(** schema/ridl/parser_test.go TestParserErrorInvalid *)
Example TestParserErrorInvalid_4 : refused (ridlTree "error 12345 Unauthorized") = true.
Proof. vm_compute. reflexivity. Qed.

(** schema/ridl/parser_test.go TestParserErrorInvalid *)
Example TestParserErrorInvalid_5 : refused (ridlTree "error 12345 Unauthorized unauthorized access") = true.
Proof. vm_compute. reflexivity. Qed.

(** schema/ridl/parser_test.go TestParserErrorInvalid *)
Example TestParserErrorInvalid_6 : refused (ridlTree "error 12345 Unauthorized ""unauthorized access"" WRONG 401") = true.
Proof. vm_compute. reflexivity. Qed.

(** schema/ridl/parser_test.go TestParserErrorInvalid *)
Example TestParserErrorInvalid_7 : refused (ridlTree "error 12345 Unauthorized ""unauthorized access"" HTTP STATUS") = true.
Proof. vm_compute. reflexivity. Qed.

(** schema/ridl/parser_test.go TestParserErrorInvalid *)
Example TestParserErrorInvalid_8 : refused (ridlTree "error 12345 Unauthorized ""unauthorized access"" HTTP 401 EXTRA") = true.
Proof. vm_compute. reflexivity. Qed.

(** schema/ridl/parser_test.go TestParserErrorInvalid *)
Example TestParserErrorInvalid_9 : refused (ridlTree "%v") = true.
Proof. vm_compute. reflexivity. Qed.

(** schema/ridl/parser_test.go TestParserImport *)
Example TestParserImport_1 : seen (ridlTree "import") (fun r => [option_map (fun n => VB (Nat.eqb n 0)) (option_map (@List.length _) (option_map imports (Some r)))]) = Some [VB true].
Proof. vm_compute. reflexivity. Qed.

(** schema/ridl/parser_test.go TestParserImport *)
Example TestParserImport_2 : seen (ridlTree "
			# comment
			import #comment
		") (fun r => [option_map (fun n => VB (Nat.eqb n 0)) (option_map (@List.length _) (option_map imports (Some r)))]) = Some [VB true].
Proof. vm_compute. reflexivity. Qed.

(** schema/ridl/parser_test.go TestParserImport *)
Example TestParserImport_3 : seen (ridlTree "
			import #comment
			# comment
			# comment
			# comment
		") (fun r => [option_map (fun n => VB (Nat.eqb n 0)) (option_map (@List.length _) (option_map imports (Some r)))]) = Some [VB true].
Proof. vm_compute. reflexivity. Qed.

(** schema/ridl/parser_test.go TestParserImport *)
Example TestParserImport_4 : seen (ridlTree "
			import packageName.ridl
		") (fun r => [option_map (fun n => VB (Nat.eqb n 0)) (option_map (@List.length _) (option_map (fun l => l) (Some r))); option_map VN (option_map (@List.length _) (option_map imports (Some r))); option_map VS (option_map (fun s => s) (option_map i_path (bind (option_map imports (Some r)) (fun l => nth_error l 0))))]) = Some [VB false; VN 1; VS "packageName.ridl"].
Proof. vm_compute. reflexivity. Qed.

(** schema/ridl/parser_test.go TestParserImport *)
Example TestParserImport_5 : seen (ridlTree "
			import # comment
			-foo
		") (fun r => [option_map VN (option_map (@List.length _) (option_map imports (Some r))); option_map VS (option_map (fun s => s) (option_map i_path (bind (option_map imports (Some r)) (fun l => nth_error l 0))))]) = Some [VN 1; VS "foo"].
Proof. vm_compute. reflexivity. Qed.

(** schema/ridl/parser_test.go TestParserImport *)
Example TestParserImport_6 : seen (ridlTree "
			import # comment
			- foo # comment

			# comment
		") (fun r => [option_map VN (option_map (@List.length _) (option_map imports (Some r))); option_map VS (option_map (fun s => s) (option_map i_path (bind (option_map imports (Some r)) (fun l => nth_error l 0))))]) = Some [VN 1; VS "foo"].
Proof. vm_compute. reflexivity. Qed.

(** schema/ridl/parser_test.go TestParserImport *)
Example TestParserImport_7 : seen (ridlTree "
			import # comment
		# comment
			#comment
			- foo
			                      # comment with spaces
			  - bar
			- baz                 # # # comment
		") (fun r => [option_map VN (option_map (@List.length _) (option_map imports (Some r))); option_map VS (option_map (fun s => s) (option_map i_path (bind (option_map imports (Some r)) (fun l => nth_error l 0)))); option_map VS (option_map (fun s => s) (option_map i_path (bind (option_map imports (Some r)) (fun l => nth_error l 1)))); option_map VS (option_map (fun s => s) (option_map i_path (bind (option_map imports (Some r)) (fun l => nth_error l 2))))]) = Some [VN 3; VS "foo"; VS "bar"; VS "baz"].
Proof. vm_compute. reflexivity. Qed.

(** schema/ridl/parser_test.go TestParserImport *)
Example TestParserImport_8 : seen (ridlTree "
			import # comment
			# comment
				-        foo.ridl # comment
		") (fun r => [option_map VN (option_map (@List.length _) (option_map (fun l => l) (Some r))); option_map VN (option_map (@List.length _) (option_map imports (Some r))); option_map VS (option_map (fun s => s) (option_map i_path (bind (option_map imports (Some r)) (fun l => nth_error l 0))))]) = Some [VN 1; VN 1; VS "foo.ridl"].
Proof. vm_compute. reflexivity. Qed.

(** schema/ridl/parser_test.go TestParserImport *)
Example TestParserImport_9 : refused (ridlTree "
			import # comment
			# comment
				- # comment
		") = true.
Proof. vm_compute. reflexivity. Qed.

(** schema/ridl/parser_test.go TestParserImport *)
Example TestParserImport_10 : seen (ridlTree "
			import # comment
			# comment
				- x # # comment
		") (fun r => [option_map (fun n => VB (Nat.eqb n 0)) (option_map (@List.length _) (option_map (fun l => l) (Some r))); option_map VN (option_map (@List.length _) (option_map imports (Some r))); option_map VS (option_map (fun s => s) (option_map i_path (bind (option_map imports (Some r)) (fun l => nth_error l 0))))]) = Some [VB false; VN 1; VS "x"].
Proof. vm_compute. reflexivity. Qed.

(** schema/ridl/parser_test.go TestParserImport *)
Example TestParserImport_11 : seen (ridlTree "
			# comment
			 # comment
			import #comment
				-        foo.ridl
					- ./path/to/bar.ridl
					# comment
				- baz_- #comment
				- ../parent.ridl
				# comment
	") (fun r => [option_map VN (option_map (@List.length _) (option_map imports (Some r))); option_map VS (option_map (fun s => s) (option_map i_path (bind (option_map imports (Some r)) (fun l => nth_error l 0)))); option_map VS (option_map (fun s => s) (option_map i_path (bind (option_map imports (Some r)) (fun l => nth_error l 1)))); option_map VS (option_map (fun s => s) (option_map i_path (bind (option_map imports (Some r)) (fun l => nth_error l 2)))); option_map VS (option_map (fun s => s) (option_map i_path (bind (option_map imports (Some r)) (fun l => nth_error l 3))))]) = Some [VN 4; VS "foo.ridl"; VS "./path/to/bar.ridl"; VS "baz_-"; VS "../parent.ridl"].
Proof. vm_compute. reflexivity. Qed.

(** schema/ridl/parser_test.go TestParserImport *)
Example TestParserImport_12 : seen (ridlTree "
			import
				-        foo.ridl
				- t
		") (fun r => []) = Some [].
Proof. vm_compute. reflexivity. Qed.

(** schema/ridl/parser_test.go TestParserImport *)
Example TestParserImport_13 : seen (ridlTree "
			import /path/to/file.ridl
				- Member
				- Name # hello

			import /path/to/file2.ridl # hello
			# comment
				- Member
				- Name # hello
				#comment
		") (fun r => [option_map VN (option_map (@List.length _) (option_map imports (Some r))); option_map VS (option_map (fun s => s) (option_map i_path (bind (option_map imports (Some r)) (fun l => nth_error l 0)))); option_map VS (option_map (fun s => s) (bind (option_map i_members (bind (option_map imports (Some r)) (fun l => nth_error l 0))) (fun l => nth_error l 0))); option_map VS (option_map (fun s => s) (bind (option_map i_members (bind (option_map imports (Some r)) (fun l => nth_error l 0))) (fun l => nth_error l 1))); option_map VS (option_map (fun s => s) (option_map i_path (bind (option_map imports (Some r)) (fun l => nth_error l 1)))); option_map VS (option_map (fun s => s) (bind (option_map i_members (bind (option_map imports (Some r)) (fun l => nth_error l 1))) (fun l => nth_error l 0))); option_map VS (option_map (fun s => s) (bind (option_map i_members (bind (option_map imports (Some r)) (fun l => nth_error l 1))) (fun l => nth_error l 1)))]) = Some [VN 2; VS "/path/to/file.ridl"; VS "Member"; VS "Name"; VS "/path/to/file2.ridl"; VS "Member"; VS "Name"].
Proof. vm_compute. reflexivity. Qed.

(** schema/ridl/parser_test.go TestParserImport *)
Example TestParserImport_14 : refused (ridlTree "
			import
				-        ""/path /to foo.ridl""
				-
		") = true.
Proof. vm_compute. reflexivity. Qed.

(** schema/ridl/parser_test.go TestParserImport *)
Example TestParserImport_15 : seen (ridlTree "
			import
				-        ""/path /to foo.ridl""
				# coment
				- skywalker.ridl
				- ""  "" #comment
				- "" \nABC \"" DEF ""
				# comment
		") (fun r => [option_map VN (option_map (@List.length _) (option_map imports (Some r))); option_map VS (option_map (fun s => s) (option_map i_path (bind (option_map imports (Some r)) (fun l => nth_error l 0)))); option_map VS (option_map (fun s => s) (option_map i_path (bind (option_map imports (Some r)) (fun l => nth_error l 1)))); option_map VS (option_map (fun s => s) (option_map i_path (bind (option_map imports (Some r)) (fun l => nth_error l 2)))); option_map VS (option_map (fun s => s) (option_map i_path (bind (option_map imports (Some r)) (fun l => nth_error l 3))))]) = Some [VN 4; VS "/path /to foo.ridl"; VS "skywalker.ridl"; VS "  "; VS " 
ABC "" DEF "].
Proof. vm_compute. reflexivity. Qed.

(** schema/ridl/parser_test.go TestParserImport *)
Example TestParserImport_16 : seen (ridlTree "
			# api.ridl
			webrpc = v1

			import ""./users.ridl"" #comment
			import ""./users # .ridl"" #comment

			import #comment
				- uno
				- dos

			service API
				 - FindUser(id: uint64) => (user: User)
		") (fun r => [option_map VS (option_map (fun s => s) (option_map d_left (bind (option_map definitions (Some r)) (fun l => nth_error l 0)))); option_map VS (option_map (fun s => s) (option_map d_right (bind (option_map definitions (Some r)) (fun l => nth_error l 0)))); option_map VN (option_map (@List.length _) (option_map imports (Some r))); option_map VS (option_map (fun s => s) (option_map i_path (bind (option_map imports (Some r)) (fun l => nth_error l 0)))); option_map VS (option_map (fun s => s) (option_map i_path (bind (option_map imports (Some r)) (fun l => nth_error l 1)))); option_map VS (option_map (fun s => s) (option_map i_path (bind (option_map imports (Some r)) (fun l => nth_error l 2)))); option_map VS (option_map (fun s => s) (option_map i_path (bind (option_map imports (Some r)) (fun l => nth_error l 3))))]) = Some [VS "webrpc"; VS "v1"; VN 4; VS "./users.ridl"; VS "./users # .ridl"; VS "uno"; VS "dos"].
Proof. vm_compute. reflexivity. Qed.

(** schema/ridl/parser_test.go TestParserImport *)
Example TestParserImport_17 : seen (ridlTree "
			import  ""../contacts/proto/contacts.ridl""
				# - Counter # only Counter is imported from the contacts.ridl schema, or add more with more -'s
				# - Message2
				# - Service1
		") (fun r => [option_map VS (option_map (fun s => s) (option_map i_path (bind (option_map imports (Some r)) (fun l => nth_error l 0))))]) = Some [VS "../contacts/proto/contacts.ridl"].
Proof. vm_compute. reflexivity. Qed.

(** schema/ridl/parser_test.go TestParserEnum *)
Example TestParserEnum_1 : refused (ridlTree "
			enum
		") = true.
Proof. vm_compute. reflexivity. Qed.

(** schema/ridl/parser_test.go TestParserEnum *)
Example TestParserEnum_2 : refused (ridlTree "
			enum Foo
		") = true.
Proof. vm_compute. reflexivity. Qed.

(** schema/ridl/parser_test.go TestParserEnum *)
Example TestParserEnum_3 : refused (ridlTree "
			enum Foo:
		") = true.
Proof. vm_compute. reflexivity. Qed.

(** schema/ridl/parser_test.go TestParserEnum *)
Example TestParserEnum_4 : seen (ridlTree "
			enum Foo: uint
		") (fun r => []) = Some [].
Proof. vm_compute. reflexivity. Qed.

(** schema/ridl/parser_test.go TestParserEnum *)
Example TestParserEnum_5 : seen (ridlTree "
			enum Foo: uint # comment
			# comment
		") (fun r => []) = Some [].
Proof. vm_compute. reflexivity. Qed.

(** schema/ridl/parser_test.go TestParserEnum *)
Example TestParserEnum_6 : seen (ridlTree "
			import
				- ""hello""
			# comment


# comment

			enum Foo: int # comment
			# comment
				- Value # comment
 #ccomment
				- value2 # comment

#comment
				# comment
			## cmment


			enum Bar: int
				-  USER
				- ADMIN
		") (fun r => [option_map VN (option_map (@List.length _) (option_map imports (Some r))); option_map VS (option_map (fun s => s) (option_map i_path (bind (option_map imports (Some r)) (fun l => nth_error l 0)))); option_map VN (option_map (@List.length _) (option_map enums (Some r))); option_map VS (option_map (fun s => s) (option_map d_left (bind (option_map e_values (bind (option_map enums (Some r)) (fun l => nth_error l 0))) (fun l => nth_error l 0)))); option_map VS (option_map (fun s => s) (option_map d_left (bind (option_map e_values (bind (option_map enums (Some r)) (fun l => nth_error l 0))) (fun l => nth_error l 1)))); option_map VS (option_map (fun s => s) (option_map d_left (bind (option_map e_values (bind (option_map enums (Some r)) (fun l => nth_error l 1))) (fun l => nth_error l 0)))); option_map VS (option_map (fun s => s) (option_map d_left (bind (option_map e_values (bind (option_map enums (Some r)) (fun l => nth_error l 1))) (fun l => nth_error l 1))))]) = Some [VN 1; VS "hello"; VN 2; VS "Value"; VS "value2"; VS "USER"; VS "ADMIN"].
Proof. vm_compute. reflexivity. Qed.

(** schema/ridl/parser_test.go TestParserEnum *)
Example TestParserEnum_7 : seen (ridlTree "
			import
			# comment
				- ""hello""

# comment

			enum Foo: string # comment
			# comment
				- Value = ""SKY"" # comment

				- value2 = WALKER # comment


				# comment
			## cmment


			enum Bar: int
				- USER
				- ADMIN

				# this is a comment
				# yep
				enum Kind: uint32
					- USER = 1             # comment
					- ADMIN = 2            # comment..

				# or.. just..
				enum Kind2: uint32
					- USER                 # aka, = 0
					- ADMIN                # aka, = 1
		") (fun r => [option_map VN (option_map (@List.length _) (option_map imports (Some r))); option_map VS (option_map (fun s => s) (option_map i_path (bind (option_map imports (Some r)) (fun l => nth_error l 0)))); option_map VN (option_map (@List.length _) (option_map enums (Some r))); option_map VS (option_map (fun s => s) (option_map d_left (bind (option_map e_values (bind (option_map enums (Some r)) (fun l => nth_error l 0))) (fun l => nth_error l 0)))); option_map VS (option_map (fun s => s) (option_map d_right (bind (option_map e_values (bind (option_map enums (Some r)) (fun l => nth_error l 0))) (fun l => nth_error l 0)))); option_map VS (option_map (fun s => s) (option_map d_left (bind (option_map e_values (bind (option_map enums (Some r)) (fun l => nth_error l 0))) (fun l => nth_error l 1)))); option_map VS (option_map (fun s => s) (option_map d_right (bind (option_map e_values (bind (option_map enums (Some r)) (fun l => nth_error l 0))) (fun l => nth_error l 1)))); option_map VS (option_map (fun s => s) (option_map d_left (bind (option_map e_values (bind (option_map enums (Some r)) (fun l => nth_error l 1))) (fun l => nth_error l 0)))); option_map VS (option_map (fun s => s) (option_map d_left (bind (option_map e_values (bind (option_map enums (Some r)) (fun l => nth_error l 1))) (fun l => nth_error l 1)))); option_map VS (option_map (fun s => s) (option_map d_left (bind (option_map e_values (bind (option_map enums (Some r)) (fun l => nth_error l 3))) (fun l => nth_error l 0)))); option_map VS (option_map (fun s => s) (option_map d_left (bind (option_map e_values (bind (option_map enums (Some r)) (fun l => nth_error l 3))) (fun l => nth_error l 1))))]) = Some [VN 1; VS "hello"; VN 4; VS "Value"; VS "SKY"; VS "value2"; VS "WALKER"; VS "USER"; VS "ADMIN"; VS "USER"; VS "ADMIN"].
Proof. vm_compute. reflexivity. Qed.

(** schema/ridl/parser_test.go TestParserEnum *)
Example TestParserEnum_8 : seen (ridlTree "
			enum Version: string
				- v1_0 = ""v1.0""
				- v1_5 = ""v1.5""
		") (fun r => [option_map VN (option_map (@List.length _) (option_map enums (Some r))); option_map VS (option_map (fun s => s) (option_map e_name (bind (option_map enums (Some r)) (fun l => nth_error l 0)))); option_map VS (option_map (fun s => s) (option_map d_left (bind (option_map e_values (bind (option_map enums (Some r)) (fun l => nth_error l 0))) (fun l => nth_error l 0)))); option_map VS (option_map (fun s => s) (option_map d_right (bind (option_map e_values (bind (option_map enums (Some r)) (fun l => nth_error l 0))) (fun l => nth_error l 0)))); option_map VS (option_map (fun s => s) (option_map d_left (bind (option_map e_values (bind (option_map enums (Some r)) (fun l => nth_error l 0))) (fun l => nth_error l 1)))); option_map VS (option_map (fun s => s) (option_map d_right (bind (option_map e_values (bind (option_map enums (Some r)) (fun l => nth_error l 0))) (fun l => nth_error l 1))))]) = Some [VN 1; VS "Version"; VS "v1_0"; VS "v1.0"; VS "v1_5"; VS "v1.5"].
Proof. vm_compute. reflexivity. Qed.

(** schema/ridl/parser_test.go TestParserStruct *)
Example TestParserStruct_1 : refused (ridlTree "
			struct
		") = true.
Proof. vm_compute. reflexivity. Qed.

(** schema/ridl/parser_test.go TestParserStruct *)
Example TestParserStruct_2 : seen (ridlTree "
			struct Empty
		") (fun r => []) = Some [].
Proof. vm_compute. reflexivity. Qed.

(** schema/ridl/parser_test.go TestParserStruct *)
Example TestParserStruct_3 : seen (ridlTree "
		struct Role
			- name: string
		") (fun r => [option_map VN (option_map (@List.length _) (option_map structs (Some r))); option_map VS (option_map (fun s => s) (option_map d_left (bind (option_map s_fields (bind (option_map structs (Some r)) (fun l => nth_error l 0))) (fun l => nth_error l 0)))); option_map VS (option_map (fun s => s) (option_map d_right (bind (option_map s_fields (bind (option_map structs (Some r)) (fun l => nth_error l 0))) (fun l => nth_error l 0))))]) = Some [VN 1; VS "name"; VS "string"].
Proof. vm_compute. reflexivity. Qed.

(** schema/ridl/parser_test.go TestParserStruct *)
Example TestParserStruct_4 : seen (ridlTree "
		struct ComplexTypes
			- arrayOfStrings: []string
			- arrayOfArrayOfStrings: [][]string
			- arrayOfArrayOfArrayOfStrings: [][][]string
			# KURSOR
			- stringMapOfStrings: map<string,string> # COMMENT
			- stringMapOfUint64: map<string,uint64> # COMMENT
			- stringMapOfArrayOfUint64: map<string,[]uint64>
			- stringMapOfArrayOfStringMapOfUint64s: map<string,[]map<string,uint64>>
			# # comment
			- stringMapOfArrayOfStringMapOfStringOfUint64: map<string,[]map<map<string,string>,uint64>># comment
			# comment
		") (fun r => [option_map VN (option_map (@List.length _) (option_map s_fields (bind (option_map structs (Some r)) (fun l => nth_error l 0)))); option_map VS (option_map (fun s => s) (option_map d_right (bind (option_map s_fields (bind (option_map structs (Some r)) (fun l => nth_error l 0))) (fun l => nth_error l 0)))); option_map VS (option_map (fun s => s) (option_map d_right (bind (option_map s_fields (bind (option_map structs (Some r)) (fun l => nth_error l 0))) (fun l => nth_error l 1)))); option_map VS (option_map (fun s => s) (option_map d_right (bind (option_map s_fields (bind (option_map structs (Some r)) (fun l => nth_error l 0))) (fun l => nth_error l 2)))); option_map VS (option_map (fun s => s) (option_map d_right (bind (option_map s_fields (bind (option_map structs (Some r)) (fun l => nth_error l 0))) (fun l => nth_error l 3)))); option_map VS (option_map (fun s => s) (option_map d_right (bind (option_map s_fields (bind (option_map structs (Some r)) (fun l => nth_error l 0))) (fun l => nth_error l 4)))); option_map VS (option_map (fun s => s) (option_map d_right (bind (option_map s_fields (bind (option_map structs (Some r)) (fun l => nth_error l 0))) (fun l => nth_error l 5)))); option_map VS (option_map (fun s => s) (option_map d_right (bind (option_map s_fields (bind (option_map structs (Some r)) (fun l => nth_error l 0))) (fun l => nth_error l 6)))); option_map VS (option_map (fun s => s) (option_map d_right (bind (option_map s_fields (bind (option_map structs (Some r)) (fun l => nth_error l 0))) (fun l => nth_error l 7))))]) = Some [VN 8; VS "[]string"; VS "[][]string"; VS "[][][]string"; VS "map<string,string>"; VS "map<string,uint64>"; VS "map<string,[]uint64>"; VS "map<string,[]map<string,uint64>>"; VS "map<string,[]map<map<string,string>,uint64>>"].
Proof. vm_compute. reflexivity. Qed.

(** schema/ridl/parser_test.go TestParserStruct *)
Example TestParserStruct_5 : seen (ridlTree "
		struct Role # comment
		# comment
			- name: string # comment
			- age: uint32 # comment
		") (fun r => [option_map VN (option_map (@List.length _) (option_map s_fields (bind (option_map structs (Some r)) (fun l => nth_error l 0)))); option_map VS (option_map (fun s => s) (option_map d_left (bind (option_map s_fields (bind (option_map structs (Some r)) (fun l => nth_error l 0))) (fun l => nth_error l 0)))); option_map VS (option_map (fun s => s) (option_map d_right (bind (option_map s_fields (bind (option_map structs (Some r)) (fun l => nth_error l 0))) (fun l => nth_error l 0)))); option_map VS (option_map (fun s => s) (option_map d_left (bind (option_map s_fields (bind (option_map structs (Some r)) (fun l => nth_error l 0))) (fun l => nth_error l 1)))); option_map VS (option_map (fun s => s) (option_map d_right (bind (option_map s_fields (bind (option_map structs (Some r)) (fun l => nth_error l 0))) (fun l => nth_error l 1))))]) = Some [VN 2; VS "name"; VS "string"; VS "age"; VS "uint32"].
Proof. vm_compute. reflexivity. Qed.

(** schema/ridl/parser_test.go TestParserStruct *)
Example TestParserStruct_6 : seen (ridlTree "
		struct Role
			- name: string
				# comment
				+ go.tag.db = id # comment
				# comment
				+ json = id
				# comment
    + go.tag.json = created_at,omitempty
		") (fun r => [option_map VN (option_map (@List.length _) (option_map s_fields (bind (option_map structs (Some r)) (fun l => nth_error l 0)))); option_map VS (option_map (fun s => s) (option_map d_left (bind (option_map s_fields (bind (option_map structs (Some r)) (fun l => nth_error l 0))) (fun l => nth_error l 0)))); option_map VS (option_map (fun s => s) (option_map d_right (bind (option_map s_fields (bind (option_map structs (Some r)) (fun l => nth_error l 0))) (fun l => nth_error l 0)))); option_map VS (option_map (fun s => s) (option_map fst (bind (option_map d_meta (bind (option_map s_fields (bind (option_map structs (Some r)) (fun l => nth_error l 0))) (fun l => nth_error l 0))) (fun l => nth_error l 0)))); option_map VS (option_map (fun s => s) (option_map snd (bind (option_map d_meta (bind (option_map s_fields (bind (option_map structs (Some r)) (fun l => nth_error l 0))) (fun l => nth_error l 0))) (fun l => nth_error l 0)))); option_map VS (option_map (fun s => s) (option_map fst (bind (option_map d_meta (bind (option_map s_fields (bind (option_map structs (Some r)) (fun l => nth_error l 0))) (fun l => nth_error l 0))) (fun l => nth_error l 1)))); option_map VS (option_map (fun s => s) (option_map snd (bind (option_map d_meta (bind (option_map s_fields (bind (option_map structs (Some r)) (fun l => nth_error l 0))) (fun l => nth_error l 0))) (fun l => nth_error l 1)))); option_map VS (option_map (fun s => s) (option_map fst (bind (option_map d_meta (bind (option_map s_fields (bind (option_map structs (Some r)) (fun l => nth_error l 0))) (fun l => nth_error l 0))) (fun l => nth_error l 2)))); option_map VS (option_map (fun s => s) (option_map snd (bind (option_map d_meta (bind (option_map s_fields (bind (option_map structs (Some r)) (fun l => nth_error l 0))) (fun l => nth_error l 0))) (fun l => nth_error l 2))))]) = Some [VN 1; VS "name"; VS "string"; VS "go.tag.db"; VS "id"; VS "json"; VS "id"; VS "go.tag.json"; VS "created_at,omitempty"].
Proof. vm_compute. reflexivity. Qed.

(** schema/ridl/parser_test.go TestParserStruct *)
Example TestParserStruct_7 : seen (ridlTree "
		struct User
			- ID: uint64
				+json = id
				+go.tag.db = id

			- username: string
				+ json= USERNAME #comment
				+ go.tag.db =username # commen
				# comment

			- role: string
				+ go.tag.db = -

			- createdAt?: timestamp
				+ json = created_at
				+ go.tag.json = created_at,omitempty
				+ go.tag.db = created_at
				+ go.tag.other = created_at,omitempty


		struct Notice
			- msg:string
		") (fun r => [option_map VN (option_map (@List.length _) (option_map s_fields (bind (option_map structs (Some r)) (fun l => nth_error l 0)))); option_map VS (option_map (fun s => s) (option_map d_left (bind (option_map s_fields (bind (option_map structs (Some r)) (fun l => nth_error l 0))) (fun l => nth_error l 0)))); option_map VS (option_map (fun s => s) (option_map d_right (bind (option_map s_fields (bind (option_map structs (Some r)) (fun l => nth_error l 0))) (fun l => nth_error l 0)))); option_map VS (option_map (fun s => s) (option_map fst (bind (option_map d_meta (bind (option_map s_fields (bind (option_map structs (Some r)) (fun l => nth_error l 0))) (fun l => nth_error l 0))) (fun l => nth_error l 0)))); option_map VS (option_map (fun s => s) (option_map snd (bind (option_map d_meta (bind (option_map s_fields (bind (option_map structs (Some r)) (fun l => nth_error l 0))) (fun l => nth_error l 0))) (fun l => nth_error l 0)))); option_map VS (option_map (fun s => s) (option_map fst (bind (option_map d_meta (bind (option_map s_fields (bind (option_map structs (Some r)) (fun l => nth_error l 0))) (fun l => nth_error l 0))) (fun l => nth_error l 1)))); option_map VS (option_map (fun s => s) (option_map snd (bind (option_map d_meta (bind (option_map s_fields (bind (option_map structs (Some r)) (fun l => nth_error l 0))) (fun l => nth_error l 0))) (fun l => nth_error l 1)))); option_map VS (option_map (fun s => s) (option_map d_left (bind (option_map s_fields (bind (option_map structs (Some r)) (fun l => nth_error l 0))) (fun l => nth_error l 1)))); option_map VS (option_map (fun s => s) (option_map d_right (bind (option_map s_fields (bind (option_map structs (Some r)) (fun l => nth_error l 0))) (fun l => nth_error l 1)))); option_map VS (option_map (fun s => s) (option_map fst (bind (option_map d_meta (bind (option_map s_fields (bind (option_map structs (Some r)) (fun l => nth_error l 0))) (fun l => nth_error l 1))) (fun l => nth_error l 0)))); option_map VS (option_map (fun s => s) (option_map snd (bind (option_map d_meta (bind (option_map s_fields (bind (option_map structs (Some r)) (fun l => nth_error l 0))) (fun l => nth_error l 1))) (fun l => nth_error l 0)))); option_map VS (option_map (fun s => s) (option_map fst (bind (option_map d_meta (bind (option_map s_fields (bind (option_map structs (Some r)) (fun l => nth_error l 0))) (fun l => nth_error l 1))) (fun l => nth_error l 1)))); option_map VS (option_map (fun s => s) (option_map snd (bind (option_map d_meta (bind (option_map s_fields (bind (option_map structs (Some r)) (fun l => nth_error l 0))) (fun l => nth_error l 1))) (fun l => nth_error l 1)))); option_map VS (option_map (fun s => s) (option_map d_left (bind (option_map s_fields (bind (option_map structs (Some r)) (fun l => nth_error l 0))) (fun l => nth_error l 2)))); option_map VS (option_map (fun s => s) (option_map d_right (bind (option_map s_fields (bind (option_map structs (Some r)) (fun l => nth_error l 0))) (fun l => nth_error l 2)))); option_map VS (option_map (fun s => s) (option_map fst (bind (option_map d_meta (bind (option_map s_fields (bind (option_map structs (Some r)) (fun l => nth_error l 0))) (fun l => nth_error l 2))) (fun l => nth_error l 0)))); option_map VS (option_map (fun s => s) (option_map snd (bind (option_map d_meta (bind (option_map s_fields (bind (option_map structs (Some r)) (fun l => nth_error l 0))) (fun l => nth_error l 2))) (fun l => nth_error l 0)))); option_map VS (option_map (fun s => s) (option_map d_left (bind (option_map s_fields (bind (option_map structs (Some r)) (fun l => nth_error l 0))) (fun l => nth_error l 3)))); option_map VS (option_map (fun s => s) (option_map d_right (bind (option_map s_fields (bind (option_map structs (Some r)) (fun l => nth_error l 0))) (fun l => nth_error l 3)))); option_map VS (option_map (fun s => s) (option_map fst (bind (option_map d_meta (bind (option_map s_fields (bind (option_map structs (Some r)) (fun l => nth_error l 0))) (fun l => nth_error l 3))) (fun l => nth_error l 0)))); option_map VS (option_map (fun s => s) (option_map snd (bind (option_map d_meta (bind (option_map s_fields (bind (option_map structs (Some r)) (fun l => nth_error l 0))) (fun l => nth_error l 3))) (fun l => nth_error l 0)))); option_map VS (option_map (fun s => s) (option_map fst (bind (option_map d_meta (bind (option_map s_fields (bind (option_map structs (Some r)) (fun l => nth_error l 0))) (fun l => nth_error l 3))) (fun l => nth_error l 1)))); option_map VS (option_map (fun s => s) (option_map snd (bind (option_map d_meta (bind (option_map s_fields (bind (option_map structs (Some r)) (fun l => nth_error l 0))) (fun l => nth_error l 3))) (fun l => nth_error l 1)))); option_map VS (option_map (fun s => s) (option_map fst (bind (option_map d_meta (bind (option_map s_fields (bind (option_map structs (Some r)) (fun l => nth_error l 0))) (fun l => nth_error l 3))) (fun l => nth_error l 2)))); option_map VS (option_map (fun s => s) (option_map snd (bind (option_map d_meta (bind (option_map s_fields (bind (option_map structs (Some r)) (fun l => nth_error l 0))) (fun l => nth_error l 3))) (fun l => nth_error l 2)))); option_map VS (option_map (fun s => s) (option_map fst (bind (option_map d_meta (bind (option_map s_fields (bind (option_map structs (Some r)) (fun l => nth_error l 0))) (fun l => nth_error l 3))) (fun l => nth_error l 3)))); option_map VS (option_map (fun s => s) (option_map snd (bind (option_map d_meta (bind (option_map s_fields (bind (option_map structs (Some r)) (fun l => nth_error l 0))) (fun l => nth_error l 3))) (fun l => nth_error l 3))))]) = Some [VN 4; VS "ID"; VS "uint64"; VS "json"; VS "id"; VS "go.tag.db"; VS "id"; VS "username"; VS "string"; VS "json"; VS "USERNAME"; VS "go.tag.db"; VS "username"; VS "role"; VS "string"; VS "go.tag.db"; VS "-"; VS "createdAt"; VS "timestamp"; VS "json"; VS "created_at"; VS "go.tag.json"; VS "created_at,omitempty"; VS "go.tag.db"; VS "created_at"; VS "go.tag.other"; VS "created_at,omitempty"].
Proof. vm_compute. reflexivity. Qed.

(** schema/ridl/parser_test.go TestParserService *)
Example TestParserService_1 : refused (ridlTree "
			service
		") = true.
Proof. vm_compute. reflexivity. Qed.

(** schema/ridl/parser_test.go TestParserService *)
Example TestParserService_2 : seen (ridlTree "
			service Empty
		") (fun r => []) = Some [].
Proof. vm_compute. reflexivity. Qed.

(** schema/ridl/parser_test.go TestParserService *)
Example TestParserService_3 : seen (ridlTree "
			service Pinger
				- Ping()
		") (fun r => []) = Some [].
Proof. vm_compute. reflexivity. Qed.

(** schema/ridl/parser_test.go TestParserService *)
Example TestParserService_4 : seen (ridlTree "
			service Pinger
				- Ping() => ()
		") (fun r => []) = Some [].
Proof. vm_compute. reflexivity. Qed.

(** schema/ridl/parser_test.go TestParserService *)
Example TestParserService_5 : seen (ridlTree "
			service Demo
				- DemoService(in: input) => (out: output)
				- DemoService2(in: map<string,map<string,uint64>>) => (out: map<string,uint64>)
				- DemoService3(i_n?: map<string,map<string,uint64>>) => (out: map<string,uint64>)
				- DemoService3(in?: map<string,map<string,uint64>>) => (ou_t?: map<string,uint64>)
				- stream Method(index: uint64, filter: string) => stream (t: time, data: string)
		") (fun r => []) = Some [].
Proof. vm_compute. reflexivity. Qed.

(** schema/ridl/parser_test.go TestParserServiceSuccinct *)
Example TestParserServiceSuccinct : seen (ridlTree "
		struct FlattenRequest
			- name: string
				+ go.tag.db = name
			- amount: uint64
				+ go.tag.db = amount

		struct FlattenResponse
			- id: uint64
				+ go.field.name = ID
			- count: uint64
				+ json = counter

		service Demo
			- DemoService(in: input) => (out: output)
			- Flatten(FlattenRequest) => (FlattenResponse)
	") (fun r => []) = Some [].
Proof. vm_compute. reflexivity. Qed.

(** schema/ridl/parser_test.go TestParserExamples *)
Example TestParserExamples_1 : seen (ridlTree "
			# contacts.ridl
			webrpc = v1

			struct Contact
				- id: int
				- name: string

			struct Counter
				- counter: int

			service ContactsService
				- GetContact(id: int) => (contact: Contact)
				- Version() => (details: any)
		") (fun r => []) = Some [].
Proof. vm_compute. reflexivity. Qed.

(** schema/ridl/parser_test.go TestParserExamples *)
Example TestParserExamples_2 : seen (ridlTree "
			# api.ridl
			webrpc = v1

			import ""../contacts/proto/contacts.ridl""

			struct PingResponse
				- pong: string
				- counter: Counter # Counter is available here from the import

			service API
				- Ping() => (resp: PingResponse)
				- proxy ContactsService.GetContact # proxied rpc method :)
		") (fun r => []) = Some [].
Proof. vm_compute. reflexivity. Qed.

(** schema/ridl/parser_test.go TestParseStructComments *)
Example TestParseStructComments : seen (ridlTree "
		# Defines role in our application
		struct Role # => role
          # role name line first
          # role name line second
		  # role name line third
		  - name: string # role name
		  - perms: []string # permissions
		  #- codesSubmitted: bool
		  #  + go.tag.db = codes_submitted

		  - countryCode: string # ie. US
			+ go.tag.db = country_code
		") (fun r => [option_map VS (option_map s_comment (bind (Some (structs r)) (fun l => nth_error l 0))); option_map VS (option_map d_comment (bind (option_map s_fields (bind (Some (structs r)) (fun l => nth_error l 0))) (fun l => nth_error l 0))); option_map VS (option_map d_comment (bind (option_map s_fields (bind (Some (structs r)) (fun l => nth_error l 0))) (fun l => nth_error l 1))); option_map VS (option_map d_comment (bind (option_map s_fields (bind (Some (structs r)) (fun l => nth_error l 0))) (fun l => nth_error l 2)))]) = Some [VS "Defines role in our application
=> role"; VS "role name line first
role name line second
role name line third
role name"; VS "permissions"; VS "ie. US"].
Proof. vm_compute. reflexivity. Qed.

(** schema/ridl/parser_test.go TestParseServiceComments *)
Example TestParseServiceComments : seen (ridlTree "
		# Contacts service line 1
		# Contacts service line 2
		service ContactsService  # Contacts service line 3
			#! skip this line
			# GetContact gives you contact for specific id
			# see https://www.example.com/?first=1&second=12#help
			- GetContact(id: int) => (contact: Contact)
			# Version returns you current deployed version
			# 
			#! skip this line as its internal comment
			#! skip more lines
			#! more
			- Version() => (details: any)
			# test comment two lines above
			
			- Version2() => (details: any)
		") (fun r => [option_map VS (option_map sv_comment (bind (Some (services_of r)) (fun l => nth_error l 0))); option_map VS (option_map m_comment (bind (option_map sv_methods (bind (Some (services_of r)) (fun l => nth_error l 0))) (fun l => nth_error l 0))); option_map VS (option_map m_comment (bind (option_map sv_methods (bind (Some (services_of r)) (fun l => nth_error l 0))) (fun l => nth_error l 1))); option_map VS (option_map m_comment (bind (option_map sv_methods (bind (Some (services_of r)) (fun l => nth_error l 0))) (fun l => nth_error l 2)))]) = Some [VS "Contacts service line 1
Contacts service line 2
Contacts service line 3"; VS "GetContact gives you contact for specific id
see https://www.example.com/?first=1&second=12#help"; VS "Version returns you current deployed version
"; VS ""].
Proof. vm_compute. reflexivity. Qed.

(** schema/ridl/parser_test.go TestParseAnnotations *)
Example TestParseAnnotations : seen (ridlTree "
		service ContactsService
			# Version returns you current deployed version
			@auth:x-access-key
			@deprecated:Version2 @acl:""admin,member""
			@internal
			- Version() => (details: any)
			@internal
			- Version2() => (details: any)
		") (fun r => [option_map VN (option_map (@List.length _) (option_map m_annotations (bind (option_map sv_methods (bind (Some (services_of r)) (fun l => nth_error l 0))) (fun l => nth_error l 0)))); option_map VS (option_map (fun s => s) (option_map an_type (bind (option_map m_annotations (bind (option_map sv_methods (bind (Some (services_of r)) (fun l => nth_error l 0))) (fun l => nth_error l 0))) (fun l => nth_error l 0)))); option_map VS (bind (option_map (fun s => s) (option_map an_value (bind (option_map m_annotations (bind (option_map sv_methods (bind (Some (services_of r)) (fun l => nth_error l 0))) (fun l => nth_error l 0))) (fun l => nth_error l 0)))) (fun v => v)); option_map VS (option_map (fun s => s) (option_map an_type (bind (option_map m_annotations (bind (option_map sv_methods (bind (Some (services_of r)) (fun l => nth_error l 0))) (fun l => nth_error l 0))) (fun l => nth_error l 1)))); option_map VS (bind (option_map (fun s => s) (option_map an_value (bind (option_map m_annotations (bind (option_map sv_methods (bind (Some (services_of r)) (fun l => nth_error l 0))) (fun l => nth_error l 0))) (fun l => nth_error l 1)))) (fun v => v)); option_map VS (option_map (fun s => s) (option_map an_type (bind (option_map m_annotations (bind (option_map sv_methods (bind (Some (services_of r)) (fun l => nth_error l 0))) (fun l => nth_error l 0))) (fun l => nth_error l 2)))); option_map VS (bind (option_map (fun s => s) (option_map an_value (bind (option_map m_annotations (bind (option_map sv_methods (bind (Some (services_of r)) (fun l => nth_error l 0))) (fun l => nth_error l 0))) (fun l => nth_error l 2)))) (fun v => v)); option_map VS (option_map (fun s => s) (option_map an_type (bind (option_map m_annotations (bind (option_map sv_methods (bind (Some (services_of r)) (fun l => nth_error l 0))) (fun l => nth_error l 0))) (fun l => nth_error l 3)))); bind (bind (option_map m_annotations (bind (option_map sv_methods (bind (Some (services_of r)) (fun l => nth_error l 0))) (fun l => nth_error l 0))) (fun l => nth_error l 3)) (fun a => match an_value a with None => Some (VS "nil") | Some _ => None end); option_map VN (option_map (@List.length _) (option_map m_annotations (bind (option_map sv_methods (bind (Some (services_of r)) (fun l => nth_error l 0))) (fun l => nth_error l 1)))); option_map VS (option_map (fun s => s) (option_map an_type (bind (option_map m_annotations (bind (option_map sv_methods (bind (Some (services_of r)) (fun l => nth_error l 0))) (fun l => nth_error l 1))) (fun l => nth_error l 0))))]) = Some [VN 4; VS "auth"; VS "x-access-key"; VS "deprecated"; VS "Version2"; VS "acl"; VS "admin,member"; VS "internal"; VS "nil"; VN 1; VS "internal"].
Proof. vm_compute. reflexivity. Qed.

(** schema/ridl/parser_test.go TestFailParsingAnnotationsOnDuplicate *)
Example TestFailParsingAnnotationsOnDuplicate : refused (ridlTree "
		service ContactsService
			# Version returns you current deployed version
			@auth:x-access-key
			@auth:cookies
			- Version() => (details: any)
			@internal
			- Version2() => (details: any)
		") = true.
Proof. vm_compute. reflexivity. Qed.

(** schema/ridl/ridl_test.go TestRIDLHeader *)
Example TestRIDLHeader_1 : refused (ridlSchema [("main.ridl", "
    name = myapi
    service Example
      - Ping()
  ")] "main.ridl") = true.
Proof. vm_compute. reflexivity. Qed.

(** schema/ridl/ridl_test.go TestRIDLHeader *)
Example TestRIDLHeader_2 : refused (ridlSchema [("main.ridl", "
    webrpc = v1

    name = myapi1
    name = myapi2
  ")] "main.ridl") = true.
Proof. vm_compute. reflexivity. Qed.

(** schema/ridl/ridl_test.go TestRIDLHeader *)
Example TestRIDLHeader_3 : seen (ridlSchema [("main.ridl", "
    webrpc = v1 #comment
    # comment
  version = v0.1.1

  name= h_ello-webrpc
  ")] "main.ridl") (fun r => [option_map VS (option_map sc_webrpc (Some r)); option_map VS (option_map sc_name (Some r)); option_map VS (option_map sc_version (Some r)); option_map VS (option_map sc_basepath (Some r))]) = Some [VS "v1"; VS "h_ello-webrpc"; VS "v0.1.1"; VS ""].
Proof. vm_compute. reflexivity. Qed.

(** schema/ridl/ridl_test.go TestRIDLBasepathAndServiceSlash *)
Example TestRIDLBasepathAndServiceSlash : seen (ridlSchema [("main.ridl", "
webrpc = v1
name = example
version = v1.0.0
basepath = /rpc

service v1/Example
  - Ping()
")] "main.ridl") (fun r => [option_map VN (option_map (@List.length _) (option_map sc_services (Some r))); option_map VS (option_map sc_basepath (Some r)); option_map VS (option_map v_name (bind (option_map sc_services (Some r)) (fun l => nth_error l 0)))]) = Some [VN 1; VS "/rpc/"; VS "v1/Example"].
Proof. vm_compute. reflexivity. Qed.

(** schema/ridl/ridl_test.go TestRIDLImports *)
Example TestRIDLImports : seen (ridlSchema [("schema/import-service.ridl", "
			webrpc = v1
			version = v0.1.1
			name = ImportService
	
			import
			- types.ridl
			"); ("schema/types.ridl", "
			webrpc = v1
			version = v1.0.0
			name = types

			import
			  - foo.ridl        # import from current directory
			  - subdir/bar.ridl # import from subdirectory
			  - ../common.ridl  # import from parent directory

			struct ExtraType
			  - name: string
			  - common: Common
			
			error 1000 Unauthorized   ""Unauthorized access""   HTTP 401
		"); ("schema/foo.ridl", "
			webrpc = v1
			version = v0.8.0
			name = foo

			import
			  - ../common.ridl  # import from parent directory again

			struct Foo
			- name: string
			- common: Common	

			error 2000 FooError   ""Foo, not enough access""   HTTP 403
		"); ("schema/subdir/bar.ridl", "
			webrpc = v1
			version = v0.8.0
			name = bar

			struct Bar
			- name: string	

			struct Baz
			- name: string	

			error 3000 BarError   ""The bar is too high""   HTTP 400
			"); ("common.ridl", "
		webrpc = v1
		version = v1.0.0
		name = common

		struct Common
		- name: string	
		")] "schema/import-service.ridl") (fun r => [option_map VS (option_map sc_webrpc (Some r)); option_map VS (option_map sc_name (Some r)); option_map VS (option_map sc_version (Some r)); option_map VN (option_map (@List.length _) (option_map sc_types (Some r))); Some (VL (map t_name (sc_types r))); option_map VN (option_map (@List.length _) (option_map sc_errors (Some r))); option_map VS (option_map x_name (bind (option_map sc_errors (Some r)) (fun l => nth_error l 0))); option_map VS (option_map x_name (bind (option_map sc_errors (Some r)) (fun l => nth_error l 1))); option_map VS (option_map x_name (bind (option_map sc_errors (Some r)) (fun l => nth_error l 2)))]) = Some [VS "v1"; VS "ImportService"; VS "v0.1.1"; VN 5; VL ["Common"; "Foo"; "Bar"; "Baz"; "ExtraType"]; VN 3; VS "FooError"; VS "BarError"; VS "Unauthorized"].
Proof. vm_compute. reflexivity. Qed.

(** schema/ridl/ridl_test.go TestRIDLImportsDiamondErrors *)
Example TestRIDLImportsDiamondErrors : seen (ridlSchema [("schema/main.ridl", "
			webrpc = v1
			version = v0.1.0
			name = main

			import
			- dashboard.ridl
			- backoffice.ridl
			"); ("schema/dashboard.ridl", "
			webrpc = v1
			version = v0.1.0
			name = dashboard

			import
			- errors.ridl

			service Dashboard
			  - Ping() => (version: string)
			"); ("schema/backoffice.ridl", "
			webrpc = v1
			version = v0.1.0
			name = backoffice

			import
			- errors.ridl

			service Backoffice
			  - Ping() => (version: string)
			"); ("schema/errors.ridl", "
			webrpc = v1
			version = v0.1.0
			name = errors

			error 1000 Unauthorized ""unauthorized access"" HTTP 401
			error 1001 Forbidden    ""forbidden""           HTTP 403
			")] "schema/main.ridl") (fun r => [option_map VN (option_map (@List.length _) (option_map sc_errors (Some r))); option_map VS (option_map x_name (bind (option_map sc_errors (Some r)) (fun l => nth_error l 0))); option_map VS (option_map x_name (bind (option_map sc_errors (Some r)) (fun l => nth_error l 1)))]) = Some [VN 2; VS "Unauthorized"; VS "Forbidden"].
Proof. vm_compute. reflexivity. Qed.

(** schema/ridl/ridl_test.go TestRIDLImportsCycle *)
Example TestRIDLImportsCycle : refused (ridlSchema [("schema/a.ridl", "
			webrpc = v1
			version = v0.1.1
			name = A
	
			import
			- b.ridl
			"); ("schema/b.ridl", "
			webrpc = v1
			version = v1.0.0
			name = B

			import
			  - c.ridl
		"); ("schema/c.ridl", "
			webrpc = v1
			version = v0.8.0
			name = foo

			import
			  - a.ridl        # cycles to a
		")] "schema/a.ridl") = true.
Proof. vm_compute. reflexivity. Qed.

(** schema/ridl/ridl_test.go TestRIDLDuplicateEnumSameFile *)
Example TestRIDLDuplicateEnumSameFile : refused (ridlSchema [("schema/a.ridl", "
			webrpc = v1
			version = v0.1.1
			name = A
	
			import
			- b.ridl
			"); ("schema/b.ridl", "
			webrpc = v1
			version = v1.0.0
			name = B

			import
			  - c.ridl
		"); ("schema/c.ridl", "
			webrpc = v1
			version = v0.8.0
			name = foo

			enum Foo:uint32
			- USER = 33
			
			enum Foo:uint32
			- USER = 33
		")] "schema/a.ridl") = true.
Proof. vm_compute. reflexivity. Qed.

(** schema/ridl/ridl_test.go TestRIDLDuplicateEnumDifferenFiles *)
Example TestRIDLDuplicateEnumDifferenFiles : refused (ridlSchema [("schema/a.ridl", "
			webrpc = v1
			version = v0.1.1
			name = A
	
			import
			- b.ridl
			"); ("schema/b.ridl", "
			webrpc = v1
			version = v1.0.0
			name = B

			import
			  - c.ridl
			
			enum Foo:uint32
			- USER = 33
		"); ("schema/c.ridl", "
			webrpc = v1
			version = v0.8.0
			name = foo

			enum Foo:uint32
			- USER = 33
		")] "schema/a.ridl") = true.
Proof. vm_compute. reflexivity. Qed.

(** schema/ridl/ridl_test.go TestRIDLDuplicateStructSameFile *)
Example TestRIDLDuplicateStructSameFile : refused (ridlSchema [("schema/a.ridl", "
			webrpc = v1
			version = v0.1.1
			name = A
	
			import
			- b.ridl
			"); ("schema/b.ridl", "
			webrpc = v1
			version = v1.0.0
			name = B

			import
			  - c.ridl
		"); ("schema/c.ridl", "
			webrpc = v1
			version = v0.8.0
			name = foo

			struct Foo
			- a: string
			
			struct Foo
			- a: string
		")] "schema/a.ridl") = true.
Proof. vm_compute. reflexivity. Qed.

(** schema/ridl/ridl_test.go TestRIDLDuplicateStructDifferenFiles *)
Example TestRIDLDuplicateStructDifferenFiles : refused (ridlSchema [("schema/a.ridl", "
			webrpc = v1
			version = v0.1.1
			name = A
	
			import
			- b.ridl
			"); ("schema/b.ridl", "
			webrpc = v1
			version = v1.0.0
			name = B

			import
			  - c.ridl
			
			struct Foo
			- a: string
		"); ("schema/c.ridl", "
			webrpc = v1
			version = v0.8.0
			name = foo

			struct Foo
			- a: string
		")] "schema/a.ridl") = true.
Proof. vm_compute. reflexivity. Qed.

(** schema/ridl/ridl_test.go TestRIDLEnum *)
Example TestRIDLEnum : seen (ridlSchema [("main.ridl", "
    webrpc = v1
    version = v0.1.1
  name = hello-webrpc

          # this is a comment
            # yep
          enum Kind:uint32
            - USER = 33             # comment
            - ADMIN = 44            # comment..

        # or.. just..
        enum   KindTwo:    uint32
          - USER                 # aka, = 0
          - ADMIN         # aka, = 1
          - OTHER
  ")] "main.ridl") (fun r => [option_map VS (option_map sc_webrpc (Some r)); option_map VS (option_map sc_name (Some r)); option_map VS (option_map sc_version (Some r)); option_map VS (option_map t_name (bind (option_map sc_types (Some r)) (fun l => nth_error l 0))); option_map VS (option_map t_kind (bind (option_map sc_types (Some r)) (fun l => nth_error l 0))); option_map VS (option_map vtString (option_map t_type (bind (option_map sc_types (Some r)) (fun l => nth_error l 0)))); option_map VS (option_map f_name (bind (option_map t_fields (bind (option_map sc_types (Some r)) (fun l => nth_error l 0))) (fun l => nth_error l 0))); option_map VS (option_map f_name (bind (option_map t_fields (bind (option_map sc_types (Some r)) (fun l => nth_error l 0))) (fun l => nth_error l 1))); option_map VS (option_map f_value (bind (option_map t_fields (bind (option_map sc_types (Some r)) (fun l => nth_error l 0))) (fun l => nth_error l 0))); option_map VS (option_map f_value (bind (option_map t_fields (bind (option_map sc_types (Some r)) (fun l => nth_error l 0))) (fun l => nth_error l 1))); bind (option_map f_type (bind (option_map t_fields (bind (option_map sc_types (Some r)) (fun l => nth_error l 0))) (fun l => nth_error l 0))) (fun v => match v with None => Some (VS "nil") | Some _ => None end); bind (option_map f_type (bind (option_map t_fields (bind (option_map sc_types (Some r)) (fun l => nth_error l 0))) (fun l => nth_error l 1))) (fun v => match v with None => Some (VS "nil") | Some _ => None end); option_map VS (option_map t_name (bind (option_map sc_types (Some r)) (fun l => nth_error l 1))); option_map VS (option_map t_kind (bind (option_map sc_types (Some r)) (fun l => nth_error l 1))); option_map VS (option_map vtString (option_map t_type (bind (option_map sc_types (Some r)) (fun l => nth_error l 1)))); bind (option_map f_type (bind (option_map t_fields (bind (option_map sc_types (Some r)) (fun l => nth_error l 1))) (fun l => nth_error l 0))) (fun v => match v with None => Some (VS "nil") | Some _ => None end); bind (option_map f_type (bind (option_map t_fields (bind (option_map sc_types (Some r)) (fun l => nth_error l 1))) (fun l => nth_error l 1))) (fun v => match v with None => Some (VS "nil") | Some _ => None end); bind (option_map f_type (bind (option_map t_fields (bind (option_map sc_types (Some r)) (fun l => nth_error l 1))) (fun l => nth_error l 2))) (fun v => match v with None => Some (VS "nil") | Some _ => None end); option_map VS (option_map f_value (bind (option_map t_fields (bind (option_map sc_types (Some r)) (fun l => nth_error l 1))) (fun l => nth_error l 0))); option_map VS (option_map f_value (bind (option_map t_fields (bind (option_map sc_types (Some r)) (fun l => nth_error l 1))) (fun l => nth_error l 1))); option_map VS (option_map f_value (bind (option_map t_fields (bind (option_map sc_types (Some r)) (fun l => nth_error l 1))) (fun l => nth_error l 2)))]) = Some [VS "v1"; VS "hello-webrpc"; VS "v0.1.1"; VS "Kind"; VS "enum"; VS "uint32"; VS "USER"; VS "ADMIN"; VS "33"; VS "44"; VS "nil"; VS "nil"; VS "KindTwo"; VS "enum"; VS "uint32"; VS "nil"; VS "nil"; VS "nil"; VS "0"; VS "1"; VS "2"].
Proof. vm_compute. reflexivity. Qed.

(** schema/ridl/ridl_test.go TestRIDLEnumStringWithExplicitValues *)
Example TestRIDLEnumStringWithExplicitValues_1 : seen (ridlSchema [("main.ridl", "
			webrpc = v1
			version = v0.1.0
			name = test

			enum Version: string
				- v1_0 = ""v1.0""
				- v1_5 = ""v1.5""
				- v2_0 = ""v2.0""
		")] "main.ridl") (fun r => [option_map VS (option_map t_name (bind (option_map sc_types (Some r)) (fun l => nth_error l 0))); option_map VS (option_map t_kind (bind (option_map sc_types (Some r)) (fun l => nth_error l 0))); option_map VS (option_map vtString (option_map t_type (bind (option_map sc_types (Some r)) (fun l => nth_error l 0)))); option_map VS (option_map f_name (bind (option_map t_fields (bind (option_map sc_types (Some r)) (fun l => nth_error l 0))) (fun l => nth_error l 0))); option_map VS (option_map f_name (bind (option_map t_fields (bind (option_map sc_types (Some r)) (fun l => nth_error l 0))) (fun l => nth_error l 1))); option_map VS (option_map f_name (bind (option_map t_fields (bind (option_map sc_types (Some r)) (fun l => nth_error l 0))) (fun l => nth_error l 2))); option_map VS (option_map f_value (bind (option_map t_fields (bind (option_map sc_types (Some r)) (fun l => nth_error l 0))) (fun l => nth_error l 0))); option_map VS (option_map f_value (bind (option_map t_fields (bind (option_map sc_types (Some r)) (fun l => nth_error l 0))) (fun l => nth_error l 1))); option_map VS (option_map f_value (bind (option_map t_fields (bind (option_map sc_types (Some r)) (fun l => nth_error l 0))) (fun l => nth_error l 2)))]) = Some [VS "Version"; VS "enum"; VS "string"; VS "v1_0"; VS "v1_5"; VS "v2_0"; VS "v1.0"; VS "v1.5"; VS "v2.0"].
Proof. vm_compute. reflexivity. Qed.

(** schema/ridl/ridl_test.go TestRIDLEnumStringWithExplicitValues *)
Example TestRIDLEnumStringWithExplicitValues_2 : seen (ridlSchema [("main.ridl", "
			webrpc = v1
			version = v0.1.0
			name = test

			enum Country: string
				- US = ""United States""
				- CA = ""Canada""
		")] "main.ridl") (fun r => [option_map VS (option_map f_name (bind (option_map t_fields (bind (option_map sc_types (Some r)) (fun l => nth_error l 0))) (fun l => nth_error l 0))); option_map VS (option_map f_name (bind (option_map t_fields (bind (option_map sc_types (Some r)) (fun l => nth_error l 0))) (fun l => nth_error l 1))); option_map VS (option_map f_value (bind (option_map t_fields (bind (option_map sc_types (Some r)) (fun l => nth_error l 0))) (fun l => nth_error l 0))); option_map VS (option_map f_value (bind (option_map t_fields (bind (option_map sc_types (Some r)) (fun l => nth_error l 0))) (fun l => nth_error l 1)))]) = Some [VS "US"; VS "CA"; VS "United States"; VS "Canada"].
Proof. vm_compute. reflexivity. Qed.

(** schema/ridl/ridl_test.go TestRIDLEnumStringWithExplicitValues *)
Example TestRIDLEnumStringWithExplicitValues_3 : seen (ridlSchema [("main.ridl", "
			webrpc = v1
			version = v0.1.0
			name = test

			enum Intent: string
				- openSession
				- closeSession
		")] "main.ridl") (fun r => [option_map VS (option_map f_name (bind (option_map t_fields (bind (option_map sc_types (Some r)) (fun l => nth_error l 0))) (fun l => nth_error l 0))); option_map VS (option_map f_name (bind (option_map t_fields (bind (option_map sc_types (Some r)) (fun l => nth_error l 0))) (fun l => nth_error l 1))); option_map VS (option_map f_value (bind (option_map t_fields (bind (option_map sc_types (Some r)) (fun l => nth_error l 0))) (fun l => nth_error l 0))); option_map VS (option_map f_value (bind (option_map t_fields (bind (option_map sc_types (Some r)) (fun l => nth_error l 0))) (fun l => nth_error l 1)))]) = Some [VS "openSession"; VS "closeSession"; VS "openSession"; VS "closeSession"].
Proof. vm_compute. reflexivity. Qed.

(** schema/ridl/ridl_test.go TestRIDLErrors *)
Example TestRIDLErrors_1 : seen (ridlSchema [("main.ridl", "
			webrpc = v1
			version = v0.1.1
			name = webrpc-errors

			error 500100 MissingArgument ""missing argument""
			error 500101 InvalidUsername ""invalid username""
			error 400100 MemoryFull      ""system memory is full""
			error 400200 Unauthorized    ""Unauthorized"" HTTP 401
			error 400300 UserNotFound    ""user not found""
		")] "main.ridl") (fun r => [option_map VN (option_map (@List.length _) (option_map sc_errors (Some r))); option_map VZ (option_map x_code (bind (option_map sc_errors (Some r)) (fun l => nth_error l 0))); option_map VZ (option_map x_code (bind (option_map sc_errors (Some r)) (fun l => nth_error l 1))); option_map VZ (option_map x_code (bind (option_map sc_errors (Some r)) (fun l => nth_error l 2))); option_map VZ (option_map x_code (bind (option_map sc_errors (Some r)) (fun l => nth_error l 3))); option_map VZ (option_map x_code (bind (option_map sc_errors (Some r)) (fun l => nth_error l 4))); option_map VS (option_map x_name (bind (option_map sc_errors (Some r)) (fun l => nth_error l 0))); option_map VS (option_map x_name (bind (option_map sc_errors (Some r)) (fun l => nth_error l 1))); option_map VS (option_map x_name (bind (option_map sc_errors (Some r)) (fun l => nth_error l 2))); option_map VS (option_map x_name (bind (option_map sc_errors (Some r)) (fun l => nth_error l 3))); option_map VS (option_map x_name (bind (option_map sc_errors (Some r)) (fun l => nth_error l 4))); option_map VS (option_map x_message (bind (option_map sc_errors (Some r)) (fun l => nth_error l 0))); option_map VS (option_map x_message (bind (option_map sc_errors (Some r)) (fun l => nth_error l 1))); option_map VS (option_map x_message (bind (option_map sc_errors (Some r)) (fun l => nth_error l 2))); option_map VS (option_map x_message (bind (option_map sc_errors (Some r)) (fun l => nth_error l 3))); option_map VS (option_map x_message (bind (option_map sc_errors (Some r)) (fun l => nth_error l 4))); option_map VZ (option_map x_status (bind (option_map sc_errors (Some r)) (fun l => nth_error l 0))); option_map VZ (option_map x_status (bind (option_map sc_errors (Some r)) (fun l => nth_error l 1))); option_map VZ (option_map x_status (bind (option_map sc_errors (Some r)) (fun l => nth_error l 2))); option_map VZ (option_map x_status (bind (option_map sc_errors (Some r)) (fun l => nth_error l 3))); option_map VZ (option_map x_status (bind (option_map sc_errors (Some r)) (fun l => nth_error l 4)))]) = Some [VN 5; VZ 500100%Z; VZ 500101%Z; VZ 400100%Z; VZ 400200%Z; VZ 400300%Z; VS "MissingArgument"; VS "InvalidUsername"; VS "MemoryFull"; VS "Unauthorized"; VS "UserNotFound"; VS "missing argument"; VS "invalid username"; VS "system memory is full"; VS "Unauthorized"; VS "user not found"; VZ 400%Z; VZ 400%Z; VZ 400%Z; VZ 401%Z; VZ 400%Z].
Proof. vm_compute. reflexivity. Qed.

(** schema/ridl/ridl_test.go TestRIDLErrors *)
Example TestRIDLErrors_2 : refused (ridlSchema [("main.ridl", "
			webrpc = v1
			version = v0.1.1
			name = webrpc-errors

			error 500100 MissingArgument ""missing argument""
			error 500100 InvalidUsername ""invalid username"" # duplicated error code
		")] "main.ridl") = true.
Proof. vm_compute. reflexivity. Qed.

(** schema/ridl/ridl_test.go TestRIDLErrors *)
Example TestRIDLErrors_3 : refused (ridlSchema [("main.ridl", "
			webrpc = v1
			version = v0.1.1
			name = webrpc-errors

			error 500100 MissingArgument ""missing argument 1""
			error 500101 MissingArgument ""missing argument 2"" # duplicated error name
		")] "main.ridl") = true.
Proof. vm_compute. reflexivity. Qed.

(** schema/ridl/ridl_test.go TestRIDLTypes *)
Example TestRIDLTypes_1 : seen (ridlSchema [("main.ridl", "
    webrpc = v1
    version = v0.1.1
  name = hello-webrpc

  struct Empty
  ")] "main.ridl") (fun r => [option_map VS (option_map t_kind (bind (option_map sc_types (Some r)) (fun l => nth_error l 0))); option_map VS (option_map t_name (bind (option_map sc_types (Some r)) (fun l => nth_error l 0)))]) = Some [VS "struct"; VS "Empty"].
Proof. vm_compute. reflexivity. Qed.

(** schema/ridl/ridl_test.go TestRIDLTypes *)
Example TestRIDLTypes_2 : seen (ridlSchema [("main.ridl", "
    webrpc = v1
    version = v0.1.1
  name = hello-webrpc

  struct Empty # with a, comment
  ")] "main.ridl") (fun r => [option_map VS (option_map t_kind (bind (option_map sc_types (Some r)) (fun l => nth_error l 0))); option_map VS (option_map t_name (bind (option_map sc_types (Some r)) (fun l => nth_error l 0)))]) = Some [VS "struct"; VS "Empty"].
Proof. vm_compute. reflexivity. Qed.

(** schema/ridl/ridl_test.go TestRIDLTypes *)
Example TestRIDLTypes_3 : seen (ridlSchema [("main.ridl", "
    webrpc = v1
    version = v0.1.1
  name = hello-webrpc

  struct Simple # with a, comment
    - ID: uint32
    - Value?: uint32
  ")] "main.ridl") (fun r => [option_map VS (option_map t_kind (bind (option_map sc_types (Some r)) (fun l => nth_error l 0))); option_map VS (option_map t_name (bind (option_map sc_types (Some r)) (fun l => nth_error l 0))); option_map VS (option_map f_name (bind (option_map t_fields (bind (option_map sc_types (Some r)) (fun l => nth_error l 0))) (fun l => nth_error l 0))); option_map VS (option_map vtString (option_map f_type (bind (option_map t_fields (bind (option_map sc_types (Some r)) (fun l => nth_error l 0))) (fun l => nth_error l 0)))); option_map VB (option_map f_optional (bind (option_map t_fields (bind (option_map sc_types (Some r)) (fun l => nth_error l 0))) (fun l => nth_error l 0))); option_map VS (option_map f_name (bind (option_map t_fields (bind (option_map sc_types (Some r)) (fun l => nth_error l 0))) (fun l => nth_error l 1))); option_map VS (option_map vtString (option_map f_type (bind (option_map t_fields (bind (option_map sc_types (Some r)) (fun l => nth_error l 0))) (fun l => nth_error l 1)))); option_map VB (option_map f_optional (bind (option_map t_fields (bind (option_map sc_types (Some r)) (fun l => nth_error l 0))) (fun l => nth_error l 1)))]) = Some [VS "struct"; VS "Simple"; VS "ID"; VS "uint32"; VB false; VS "Value"; VS "uint32"; VB true].
Proof. vm_compute. reflexivity. Qed.

(** schema/ridl/ridl_test.go TestRIDLTypes *)
Example TestRIDLTypes_4 : seen (ridlSchema [("main.ridl", "
    webrpc = v1
    version = v0.1.1
  name = hello-webrpc

  struct Simple # with a-comment an,d meta fields
    - ID: uint32
  - Field2: uint64 # one two #t
      + json = field_2 # a comment
      #
        + go.tag.db = field_3
        #
  - Field3: bool
    + go.tag.db = - # omits the field from db


  struct Simple2 # with a-comment an,d meta fields
  ")] "main.ridl") (fun r => [option_map VS (option_map t_kind (bind (option_map sc_types (Some r)) (fun l => nth_error l 0))); option_map VS (option_map t_name (bind (option_map sc_types (Some r)) (fun l => nth_error l 0))); option_map VS (option_map t_kind (bind (option_map sc_types (Some r)) (fun l => nth_error l 1))); option_map VS (option_map t_name (bind (option_map sc_types (Some r)) (fun l => nth_error l 1))); option_map VS (option_map f_name (bind (option_map t_fields (bind (option_map sc_types (Some r)) (fun l => nth_error l 0))) (fun l => nth_error l 0))); option_map VS (option_map f_name (bind (option_map t_fields (bind (option_map sc_types (Some r)) (fun l => nth_error l 0))) (fun l => nth_error l 1))); option_map VS (option_map f_name (bind (option_map t_fields (bind (option_map sc_types (Some r)) (fun l => nth_error l 0))) (fun l => nth_error l 2))); option_map VS (bind (bind (option_map f_meta (bind (option_map t_fields (bind (option_map sc_types (Some r)) (fun l => nth_error l 0))) (fun l => nth_error l 1))) (fun l => nth_error l 0)) (fun m => bind (assoc "json" m) (fun v => v))); option_map VS (bind (bind (option_map f_meta (bind (option_map t_fields (bind (option_map sc_types (Some r)) (fun l => nth_error l 0))) (fun l => nth_error l 1))) (fun l => nth_error l 1)) (fun m => bind (assoc "go.tag.db" m) (fun v => v))); option_map VS (bind (bind (option_map f_meta (bind (option_map t_fields (bind (option_map sc_types (Some r)) (fun l => nth_error l 0))) (fun l => nth_error l 2))) (fun l => nth_error l 0)) (fun m => bind (assoc "go.tag.db" m) (fun v => v)))]) = Some [VS "struct"; VS "Simple"; VS "struct"; VS "Simple2"; VS "ID"; VS "Field2"; VS "Field3"; VS "field_2"; VS "field_3"; VS "-"].
Proof. vm_compute. reflexivity. Qed.

(** schema/ridl/ridl_test.go TestRIDLTypes *)
Example TestRIDLTypes_5 : seen (ridlSchema [("main.ridl", "
    webrpc = v1
    version = v0.1.1
  name = hello-webrpc

  struct Simple # with a-comment an,d meta fields
    - ID: uint32
  - Field2: map<string, string> # one two #t
      + json = field_2 # a comment
        + go.tag.db = field_2
  - Field3: []bool # one two #t
      + json = field_3 # a comment
        + go.tag.db = field_3
  - Field4: [][][]bool # one two #t
      + json = field_4 # a comment
        + go.tag.db = field_4

  struct Simple2 # with a-comment an,d meta fields
  ")] "main.ridl") (fun r => [option_map VS (option_map vtString (option_map f_type (bind (option_map t_fields (bind (option_map sc_types (Some r)) (fun l => nth_error l 0))) (fun l => nth_error l 1)))); option_map VS (option_map vtString (option_map f_type (bind (option_map t_fields (bind (option_map sc_types (Some r)) (fun l => nth_error l 0))) (fun l => nth_error l 2)))); option_map VS (option_map vtString (option_map f_type (bind (option_map t_fields (bind (option_map sc_types (Some r)) (fun l => nth_error l 0))) (fun l => nth_error l 3))))]) = Some [VS "map<string,string>"; VS "[]bool"; VS "[][][]bool"].
Proof. vm_compute. reflexivity. Qed.

(** schema/ridl/ridl_test.go TestRIDLTypes *)
Example TestRIDLTypes_6 : seen (ridlSchema [("main.ridl", "
    webrpc = v1
    version = v0.1.1
  name = hello-webrpc

  struct Simple # with a-comment an,d meta fields
    - ID: uint32
  - Field2: map<string, string> # one two #t
      + json = field_2 # a comment
        + go.tag.db = field_2 # a comment
    + go.tag.db.1 = default**:**now**()**,use_zero#000 # # # a comment

        + go.tag.db.2 = default**:**now**()**,use_zero,""// # a comment
        + go.tag.db.3 = ""default**:**now**()**,use_zero,// # not a comment"" # a comment
        + go.tag.db.4 = default**:**now**()**,use_zero")] "main.ridl") (fun r => [option_map VS (option_map vtString (option_map f_type (bind (option_map t_fields (bind (option_map sc_types (Some r)) (fun l => nth_error l 0))) (fun l => nth_error l 1)))); option_map VS (bind (bind (option_map f_meta (bind (option_map t_fields (bind (option_map sc_types (Some r)) (fun l => nth_error l 0))) (fun l => nth_error l 1))) (fun l => nth_error l 1)) (fun m => bind (assoc "go.tag.db" m) (fun v => v))); option_map VS (bind (bind (option_map f_meta (bind (option_map t_fields (bind (option_map sc_types (Some r)) (fun l => nth_error l 0))) (fun l => nth_error l 1))) (fun l => nth_error l 2)) (fun m => bind (assoc "go.tag.db.1" m) (fun v => v))); option_map VS (bind (bind (option_map f_meta (bind (option_map t_fields (bind (option_map sc_types (Some r)) (fun l => nth_error l 0))) (fun l => nth_error l 1))) (fun l => nth_error l 3)) (fun m => bind (assoc "go.tag.db.2" m) (fun v => v))); option_map VS (bind (bind (option_map f_meta (bind (option_map t_fields (bind (option_map sc_types (Some r)) (fun l => nth_error l 0))) (fun l => nth_error l 1))) (fun l => nth_error l 4)) (fun m => bind (assoc "go.tag.db.3" m) (fun v => v))); option_map VS (bind (bind (option_map f_meta (bind (option_map t_fields (bind (option_map sc_types (Some r)) (fun l => nth_error l 0))) (fun l => nth_error l 1))) (fun l => nth_error l 5)) (fun m => bind (assoc "go.tag.db.4" m) (fun v => v)))]) = Some [VS "map<string,string>"; VS "field_2"; VS "default**:**now**()**,use_zero#000"; VS "default**:**now**()**,use_zero,""//"; VS "default**:**now**()**,use_zero,// # not a comment"; VS "default**:**now**()**,use_zero"].
Proof. vm_compute. reflexivity. Qed.

(** schema/ridl/ridl_test.go TestRIDLService *)
Example TestRIDLService_1 : seen (ridlSchema [("main.ridl", "
    webrpc = v1
    version = v0.1.1
  name = hello-webrpc

  service Pinger
    - Ping()
  ")] "main.ridl") (fun r => [option_map VS (option_map v_name (bind (option_map sc_services (Some r)) (fun l => nth_error l 0))); option_map VS (option_map me_name (bind (option_map v_methods (bind (option_map sc_services (Some r)) (fun l => nth_error l 0))) (fun l => nth_error l 0)))]) = Some [VS "Pinger"; VS "Ping"].
Proof. vm_compute. reflexivity. Qed.

(** schema/ridl/ridl_test.go TestRIDLService *)
Example TestRIDLService_2 : seen (ridlSchema [("main.ridl", "
    webrpc = v1
    version = v0.1.1
          name = hello-webrpc

          service Simple
          - Ping()
          -  Status() => (status: bool)
          -  StatusStream(q: string) => stream (status: bool)")] "main.ridl") (fun r => [option_map VS (option_map me_name (bind (option_map v_methods (bind (option_map sc_services (Some r)) (fun l => nth_error l 0))) (fun l => nth_error l 0))); option_map VS (option_map me_name (bind (option_map v_methods (bind (option_map sc_services (Some r)) (fun l => nth_error l 0))) (fun l => nth_error l 1))); option_map VS (option_map me_name (bind (option_map v_methods (bind (option_map sc_services (Some r)) (fun l => nth_error l 0))) (fun l => nth_error l 2))); option_map VN (option_map (@List.length _) (option_map me_inputs (bind (option_map v_methods (bind (option_map sc_services (Some r)) (fun l => nth_error l 0))) (fun l => nth_error l 1)))); option_map VS (option_map g_name (bind (option_map me_outputs (bind (option_map v_methods (bind (option_map sc_services (Some r)) (fun l => nth_error l 0))) (fun l => nth_error l 1))) (fun l => nth_error l 0))); option_map VS (option_map vtString (option_map g_type (bind (option_map me_outputs (bind (option_map v_methods (bind (option_map sc_services (Some r)) (fun l => nth_error l 0))) (fun l => nth_error l 1))) (fun l => nth_error l 0)))); option_map VS (option_map g_name (bind (option_map me_inputs (bind (option_map v_methods (bind (option_map sc_services (Some r)) (fun l => nth_error l 0))) (fun l => nth_error l 2))) (fun l => nth_error l 0))); option_map VS (option_map vtString (option_map g_type (bind (option_map me_inputs (bind (option_map v_methods (bind (option_map sc_services (Some r)) (fun l => nth_error l 0))) (fun l => nth_error l 2))) (fun l => nth_error l 0)))); option_map VS (option_map g_name (bind (option_map me_outputs (bind (option_map v_methods (bind (option_map sc_services (Some r)) (fun l => nth_error l 0))) (fun l => nth_error l 2))) (fun l => nth_error l 0))); option_map VS (option_map vtString (option_map g_type (bind (option_map me_outputs (bind (option_map v_methods (bind (option_map sc_services (Some r)) (fun l => nth_error l 0))) (fun l => nth_error l 2))) (fun l => nth_error l 0))))]) = Some [VS "Ping"; VS "Status"; VS "StatusStream"; VN 0; VS "status"; VS "bool"; VS "q"; VS "string"; VS "status"; VS "bool"].
Proof. vm_compute. reflexivity. Qed.

(** schema/ridl/ridl_test.go TestRIDLService *)
Example TestRIDLService_3 : seen (ridlSchema [("main.ridl", "
    webrpc = v1
    version = v0.1.1
    name = hello-webrpc

    service Simple
      -  stream Ping(code?: uint32) => (code: bool)
      -  PingStream(text: string) => stream (code?: bool)
    ")] "main.ridl") (fun r => [option_map VS (option_map me_name (bind (option_map v_methods (bind (option_map sc_services (Some r)) (fun l => nth_error l 0))) (fun l => nth_error l 0))); option_map VB (option_map me_stream_in (bind (option_map v_methods (bind (option_map sc_services (Some r)) (fun l => nth_error l 0))) (fun l => nth_error l 0))); option_map VB (option_map me_stream_out (bind (option_map v_methods (bind (option_map sc_services (Some r)) (fun l => nth_error l 0))) (fun l => nth_error l 0))); option_map VB (option_map g_optional (bind (option_map me_inputs (bind (option_map v_methods (bind (option_map sc_services (Some r)) (fun l => nth_error l 0))) (fun l => nth_error l 0))) (fun l => nth_error l 0))); option_map VB (option_map me_stream_in (bind (option_map v_methods (bind (option_map sc_services (Some r)) (fun l => nth_error l 0))) (fun l => nth_error l 1))); option_map VB (option_map me_stream_out (bind (option_map v_methods (bind (option_map sc_services (Some r)) (fun l => nth_error l 0))) (fun l => nth_error l 1))); option_map VB (option_map g_optional (bind (option_map me_outputs (bind (option_map v_methods (bind (option_map sc_services (Some r)) (fun l => nth_error l 0))) (fun l => nth_error l 1))) (fun l => nth_error l 0)))]) = Some [VS "Ping"; VB true; VB false; VB true; VB false; VB true; VB true].
Proof. vm_compute. reflexivity. Qed.

(** schema/ridl/ridl_test.go TestRIDLService *)
Example TestRIDLService_4 : seen (ridlSchema [("main.ridl", "
    webrpc = v1
    version = v0.1.1
    name = hello-webrpc

    service Simple
    -  Ping(header: map<string,[][]string>) => (code: bool)
      -  stream VerifyUsers(seq: int32, header?: map<string,[]string>, ids: []uint64) => (code?: bool, ids: []bool)
    - MoreTest(n: uint64, stuff: []map<uint64,   map<int32,             string>>, etc: string) => (code: bool)")] "main.ridl") (fun r => [option_map VS (option_map vtString (option_map g_type (bind (option_map me_inputs (bind (option_map v_methods (bind (option_map sc_services (Some r)) (fun l => nth_error l 0))) (fun l => nth_error l 0))) (fun l => nth_error l 0)))); option_map VS (option_map vtString (option_map g_type (bind (option_map me_inputs (bind (option_map v_methods (bind (option_map sc_services (Some r)) (fun l => nth_error l 0))) (fun l => nth_error l 2))) (fun l => nth_error l 1))))]) = Some [VS "map<string,[][]string>"; VS "[]map<uint64,map<int32,string>>"].
Proof. vm_compute. reflexivity. Qed.

(** schema/ridl/ridl_test.go TestRIDLService *)
Example TestRIDLService_5 : seen (ridlSchema [("main.ridl", "
    webrpc = v1
    version = v0.1.1
          name = hello-webrpc

					struct GetArticleRequest
						- articleId: uint32
							+ go.field.name = ArticleID

					struct GetArticleResponse
						- title: string

          service Simple
          - Ping()
          -  Status() => (status: bool)
          -  GetArticle(GetArticleRequest) => (GetArticleResponse)")] "main.ridl") (fun r => [option_map VS (option_map me_name (bind (option_map v_methods (bind (option_map sc_services (Some r)) (fun l => nth_error l 0))) (fun l => nth_error l 0))); option_map VS (option_map me_name (bind (option_map v_methods (bind (option_map sc_services (Some r)) (fun l => nth_error l 0))) (fun l => nth_error l 1))); option_map VS (option_map me_name (bind (option_map v_methods (bind (option_map sc_services (Some r)) (fun l => nth_error l 0))) (fun l => nth_error l 2))); option_map VN (option_map (@List.length _) (option_map me_inputs (bind (option_map v_methods (bind (option_map sc_services (Some r)) (fun l => nth_error l 0))) (fun l => nth_error l 1)))); option_map VS (option_map g_name (bind (option_map me_outputs (bind (option_map v_methods (bind (option_map sc_services (Some r)) (fun l => nth_error l 0))) (fun l => nth_error l 1))) (fun l => nth_error l 0))); option_map VS (option_map vtString (option_map g_type (bind (option_map me_outputs (bind (option_map v_methods (bind (option_map sc_services (Some r)) (fun l => nth_error l 0))) (fun l => nth_error l 1))) (fun l => nth_error l 0)))); option_map VN (option_map (@List.length _) (option_map me_inputs (bind (option_map v_methods (bind (option_map sc_services (Some r)) (fun l => nth_error l 0))) (fun l => nth_error l 2)))); option_map VS (option_map g_name (bind (option_map me_inputs (bind (option_map v_methods (bind (option_map sc_services (Some r)) (fun l => nth_error l 0))) (fun l => nth_error l 2))) (fun l => nth_error l 0))); option_map VS (option_map vtString (option_map g_type (bind (option_map me_inputs (bind (option_map v_methods (bind (option_map sc_services (Some r)) (fun l => nth_error l 0))) (fun l => nth_error l 2))) (fun l => nth_error l 0)))); option_map VN (option_map (@List.length _) (option_map me_outputs (bind (option_map v_methods (bind (option_map sc_services (Some r)) (fun l => nth_error l 0))) (fun l => nth_error l 2)))); option_map VS (option_map g_name (bind (option_map me_outputs (bind (option_map v_methods (bind (option_map sc_services (Some r)) (fun l => nth_error l 0))) (fun l => nth_error l 2))) (fun l => nth_error l 0))); option_map VS (option_map vtString (option_map g_type (bind (option_map me_outputs (bind (option_map v_methods (bind (option_map sc_services (Some r)) (fun l => nth_error l 0))) (fun l => nth_error l 2))) (fun l => nth_error l 0)))); option_map VB (option_map me_succinct (bind (option_map v_methods (bind (option_map sc_services (Some r)) (fun l => nth_error l 0))) (fun l => nth_error l 2)))]) = Some [VS "Ping"; VS "Status"; VS "GetArticle"; VN 0; VS "status"; VS "bool"; VN 1; VS "getArticleRequest"; VS "GetArticleRequest"; VN 1; VS "getArticleResponse"; VS "GetArticleResponse"; VB true].
Proof. vm_compute. reflexivity. Qed.

(** schema/ridl/ridl_test.go TestRIDLTypeAlias *)
Example TestRIDLTypeAlias : seen (ridlSchema [("main.ridl", "
		webrpc = v1
		version = v0.1.0
		name = test

		type Banana: string
		type Age: uint32
	")] "main.ridl") (fun r => [option_map VN (option_map (@List.length _) (option_map sc_types (Some r))); option_map VS (option_map t_name (bind (option_map sc_types (Some r)) (fun l => nth_error l 0))); option_map VS (option_map t_kind (bind (option_map sc_types (Some r)) (fun l => nth_error l 0))); option_map VS (option_map vtString (option_map t_type (bind (option_map sc_types (Some r)) (fun l => nth_error l 0)))); option_map VS (option_map t_name (bind (option_map sc_types (Some r)) (fun l => nth_error l 1))); option_map VS (option_map t_kind (bind (option_map sc_types (Some r)) (fun l => nth_error l 1))); option_map VS (option_map vtString (option_map t_type (bind (option_map sc_types (Some r)) (fun l => nth_error l 1))))]) = Some [VN 2; VS "Banana"; VS "alias"; VS "string"; VS "Age"; VS "alias"; VS "uint32"].
Proof. vm_compute. reflexivity. Qed.

(** schema/ridl/ridl_test.go TestRIDLTypeAliasWithMeta *)
Example TestRIDLTypeAliasWithMeta : seen (ridlSchema [("main.ridl", "
		webrpc = v1
		version = v0.1.0
		name = test

		type Banana: string
			+ go.type = MyBanana
			+ ts.type = string

		type Age: uint32
			+ go.type = uint64
	")] "main.ridl") (fun r => [option_map VN (option_map (@List.length _) (option_map sc_types (Some r))); option_map VS (option_map t_name (bind (option_map sc_types (Some r)) (fun l => nth_error l 0))); option_map VS (option_map t_kind (bind (option_map sc_types (Some r)) (fun l => nth_error l 0))); option_map VS (option_map vtString (option_map t_type (bind (option_map sc_types (Some r)) (fun l => nth_error l 0)))); option_map VN (option_map (@List.length _) (option_map t_meta (bind (option_map sc_types (Some r)) (fun l => nth_error l 0)))); option_map VS (bind (bind (option_map t_meta (bind (option_map sc_types (Some r)) (fun l => nth_error l 0))) (fun l => nth_error l 0)) (fun m => bind (assoc "go.type" m) (fun v => v))); option_map VS (bind (bind (option_map t_meta (bind (option_map sc_types (Some r)) (fun l => nth_error l 0))) (fun l => nth_error l 1)) (fun m => bind (assoc "ts.type" m) (fun v => v))); option_map VS (option_map t_name (bind (option_map sc_types (Some r)) (fun l => nth_error l 1))); option_map VS (option_map t_kind (bind (option_map sc_types (Some r)) (fun l => nth_error l 1))); option_map VS (option_map vtString (option_map t_type (bind (option_map sc_types (Some r)) (fun l => nth_error l 1)))); option_map VN (option_map (@List.length _) (option_map t_meta (bind (option_map sc_types (Some r)) (fun l => nth_error l 1)))); option_map VS (bind (bind (option_map t_meta (bind (option_map sc_types (Some r)) (fun l => nth_error l 1))) (fun l => nth_error l 0)) (fun m => bind (assoc "go.type" m) (fun v => v)))]) = Some [VN 2; VS "Banana"; VS "alias"; VS "string"; VN 2; VS "MyBanana"; VS "string"; VS "Age"; VS "alias"; VS "uint32"; VN 1; VS "uint64"].
Proof. vm_compute. reflexivity. Qed.

(** schema/ridl/ridl_test.go TestRIDLTypeAliasUsage *)
Example TestRIDLTypeAliasUsage : seen (ridlSchema [("main.ridl", "
		webrpc = v1
		version = v0.1.0
		name = test

		type Banana: string
		type Age: uint32

		struct User
			- name: Banana
			- age: Age
			- tags?: []Banana

		service Fruits
			- GetUser(name: Banana) => (user: User)
			- SetAge(age: Age)
	")] "main.ridl") (fun r => [option_map VS (option_map vtString (option_map f_type (bind (option_map t_fields (getTypeByName (sc_types r) "User")) (fun l => nth_error l 0)))); option_map VS (option_map vtString (option_map f_type (bind (option_map t_fields (getTypeByName (sc_types r) "User")) (fun l => nth_error l 1)))); option_map VS (option_map vtString (option_map f_type (bind (option_map t_fields (getTypeByName (sc_types r) "User")) (fun l => nth_error l 2)))); option_map VN (option_map (@List.length _) (option_map sc_services (Some r))); option_map VN (option_map (@List.length _) (option_map v_methods (bind (option_map sc_services (Some r)) (fun l => nth_error l 0)))); option_map VS (option_map vtString (option_map g_type (bind (option_map me_inputs (bind (option_map v_methods (bind (option_map sc_services (Some r)) (fun l => nth_error l 0))) (fun l => nth_error l 0))) (fun l => nth_error l 0)))); option_map VS (option_map vtString (option_map g_type (bind (option_map me_outputs (bind (option_map v_methods (bind (option_map sc_services (Some r)) (fun l => nth_error l 0))) (fun l => nth_error l 0))) (fun l => nth_error l 0)))); option_map VS (option_map vtString (option_map g_type (bind (option_map me_inputs (bind (option_map v_methods (bind (option_map sc_services (Some r)) (fun l => nth_error l 0))) (fun l => nth_error l 1))) (fun l => nth_error l 0))))]) = Some [VS "Banana"; VS "Age"; VS "[]Banana"; VN 1; VN 2; VS "Banana"; VS "User"; VS "Age"].
Proof. vm_compute. reflexivity. Qed.

(** schema/ridl/syntax_error_test.go TestSyntaxError *)
Example TestSyntaxError_1 : refused (ridlSchema [("main.ridl", "





		####

		####


		namex = myapi")] "main.ridl") = true.
Proof. vm_compute. reflexivity. Qed.

(** schema/ridl/syntax_error_test.go TestSyntaxError *)
Example TestSyntaxError_2 : refused (ridlSchema [("main.ridl", "name")] "main.ridl") = true.
Proof. vm_compute. reflexivity. Qed.

(** schema/ridl/syntax_error_test.go TestSyntaxError *)
Example TestSyntaxError_3 : refused (ridlSchema [("main.ridl", "name = myapi$")] "main.ridl") = true.
Proof. vm_compute. reflexivity. Qed.

(** schema/ridl/syntax_error_test.go TestSyntaxError *)
Example TestSyntaxError_4 : refused (ridlSchema [("main.ridl", "name = myapi1
			name = myapi2")] "main.ridl") = true.
Proof. vm_compute. reflexivity. Qed.

(** schema/ridl/syntax_error_test.go TestSyntaxError *)
Example TestSyntaxError_5 : refused (ridlSchema [("main.ridl", "
				webrpc = v1
				name = foo
				version = v1

				import -
			")] "main.ridl") = true.
Proof. vm_compute. reflexivity. Qed.

(** schema/ridl/syntax_error_test.go TestSyntaxError *)
Example TestSyntaxError_6 : refused (ridlSchema [("main.ridl", "
				webrpc = v1
				name = foo
				version = v1

				import
				$
			")] "main.ridl") = true.
Proof. vm_compute. reflexivity. Qed.

(** schema/ridl/method_errors_test.go TestMethodErrorsKeyword_SingleError *)
Example TestMethodErrorsKeyword_SingleError : seen (ridlSchema [("main.ridl", "webrpc = v1

name = MethodErrorsTest
version = v1.0.0
basepath = /rpc

# Define a custom error
error 1 UserNotFound ""user not found"" HTTP 404

struct User
  - id: uint64
  - username: string

service UserService
  # Method that scopes specific potential errors returned
  - GetUser(userID: uint64) => (user: User) errors UserNotFound
")] "main.ridl") (fun r => [option_map VN (option_map (@List.length _) (option_map sc_services (Some r))); option_map VS (option_map v_name (bind (option_map sc_services (Some r)) (fun l => nth_error l 0))); option_map VN (option_map (@List.length _) (option_map v_methods (bind (option_map sc_services (Some r)) (fun l => nth_error l 0)))); option_map VS (option_map me_name (bind (option_map v_methods (bind (option_map sc_services (Some r)) (fun l => nth_error l 0))) (fun l => nth_error l 0))); option_map VN (option_map (@List.length _) (option_map me_errors (bind (option_map v_methods (bind (option_map sc_services (Some r)) (fun l => nth_error l 0))) (fun l => nth_error l 0)))); option_map VS (bind (option_map me_errors (bind (option_map v_methods (bind (option_map sc_services (Some r)) (fun l => nth_error l 0))) (fun l => nth_error l 0))) (fun l => nth_error l 0))]) = Some [VN 1; VS "UserService"; VN 1; VS "GetUser"; VN 1; VS "UserNotFound"].
Proof. vm_compute. reflexivity. Qed.

(** schema/ridl/method_errors_test.go TestMethodErrorsKeyword_MultipleErrors *)
Example TestMethodErrorsKeyword_MultipleErrors : seen (ridlSchema [("main.ridl", "webrpc = v1

name = MultipleMethodErrorsTest
version = v0.1.0

# Define multiple custom errors
error 1 Unauthorized    ""unauthorized""        HTTP 401
error 2 ValidationError ""validation failed""   HTTP 400
error 3 ServiceError    ""service error""       HTTP 500

struct User
  - id: uint64
  - username: string

service UserService
  # Method that errors multiple specific errors
  - UpdateUser(user: User) => (user: User) errors Unauthorized | ValidationError | ServiceError
")] "main.ridl") (fun r => [option_map VN (option_map (@List.length _) (option_map sc_services (Some r))); option_map VS (option_map v_name (bind (option_map sc_services (Some r)) (fun l => nth_error l 0))); option_map VN (option_map (@List.length _) (option_map v_methods (bind (option_map sc_services (Some r)) (fun l => nth_error l 0)))); option_map VS (option_map me_name (bind (option_map v_methods (bind (option_map sc_services (Some r)) (fun l => nth_error l 0))) (fun l => nth_error l 0))); option_map VN (option_map (@List.length _) (option_map me_errors (bind (option_map v_methods (bind (option_map sc_services (Some r)) (fun l => nth_error l 0))) (fun l => nth_error l 0)))); option_map VL (option_map me_errors (bind (option_map v_methods (bind (option_map sc_services (Some r)) (fun l => nth_error l 0))) (fun l => nth_error l 0)))]) = Some [VN 1; VS "UserService"; VN 1; VS "UpdateUser"; VN 3; VL ["Unauthorized"; "ValidationError"; "ServiceError"]].
Proof. vm_compute. reflexivity. Qed.

(** schema/ridl/method_errors_test.go TestMethodErrorsKeyword_BackwardCompatibility *)
Example TestMethodErrorsKeyword_BackwardCompatibility : seen (ridlSchema [("main.ridl", "webrpc = v1

name = BackwardCompatTest
version = v0.1.0

# Define some errors (even though we won't use them in errors)
error 1 SomeError ""some error"" HTTP 400

struct User
  - id: uint64
  - username: string

service UserService
  # Method without errors clause - should work normally
  - GetUser(userID: uint64) => (user: User)
  # Another method without errors
  - ListUsers() => (users: []User)
")] "main.ridl") (fun r => [option_map VN (option_map (@List.length _) (option_map sc_services (Some r))); option_map VS (option_map v_name (bind (option_map sc_services (Some r)) (fun l => nth_error l 0))); option_map VN (option_map (@List.length _) (option_map v_methods (bind (option_map sc_services (Some r)) (fun l => nth_error l 0)))); option_map VS (option_map me_name (bind (option_map v_methods (bind (option_map sc_services (Some r)) (fun l => nth_error l 0))) (fun l => nth_error l 0))); option_map VN (option_map (@List.length _) (option_map me_errors (bind (option_map v_methods (bind (option_map sc_services (Some r)) (fun l => nth_error l 0))) (fun l => nth_error l 0)))); option_map VS (option_map me_name (bind (option_map v_methods (bind (option_map sc_services (Some r)) (fun l => nth_error l 0))) (fun l => nth_error l 1))); option_map VN (option_map (@List.length _) (option_map me_errors (bind (option_map v_methods (bind (option_map sc_services (Some r)) (fun l => nth_error l 0))) (fun l => nth_error l 1))))]) = Some [VN 1; VS "UserService"; VN 2; VS "GetUser"; VN 0; VS "ListUsers"; VN 0].
Proof. vm_compute. reflexivity. Qed.

(** schema/ridl/method_errors_test.go TestMethodErrorsKeyword_JsonSchemaSupport *)
Example TestMethodErrorsKeyword_JsonSchemaSupport : seen (jsonSchema "{
  ""webrpc"": ""v1"",
  ""name"": ""JsonMethodErrorsTest"",
  ""version"": ""v1.0.0"",
  ""types"": [
    {
      ""kind"": ""struct"",
      ""name"": ""User"", 
      ""fields"": [
        {""name"": ""id"", ""type"": ""uint64""},
        {""name"": ""username"", ""type"": ""string""}
      ]
    }
  ],
  ""errors"": [
    {""code"": 1, ""name"": ""UserNotFound"", ""message"": ""user not found"", ""httpStatus"": 404},
    {""code"": 2, ""name"": ""Unauthorized"", ""message"": ""unauthorized"", ""httpStatus"": 401}
  ],
  ""services"": [
    {
      ""name"": ""UserService"",
      ""methods"": [
        {
          ""name"": ""GetUser"",
          ""inputs"": [{""name"": ""userID"", ""type"": ""uint64"", ""optional"": false}],
          ""outputs"": [{""name"": ""user"", ""type"": ""User"", ""optional"": false}],
          ""errors"": [""UserNotFound""]
        },
        {
          ""name"": ""UpdateUser"", 
          ""inputs"": [{""name"": ""user"", ""type"": ""User"", ""optional"": false}],
          ""outputs"": [{""name"": ""user"", ""type"": ""User"", ""optional"": false}],
          ""errors"": [""UserNotFound"", ""Unauthorized""]
        },
        {
          ""name"": ""ListUsers"",
          ""inputs"": [],
          ""outputs"": [{""name"": ""users"", ""type"": ""[]User"", ""optional"": false}]
        }
      ]
    }
  ]
}") (fun r => [option_map VN (option_map (@List.length _) (option_map sc_services (Some r))); option_map VS (option_map v_name (bind (option_map sc_services (Some r)) (fun l => nth_error l 0))); option_map VN (option_map (@List.length _) (option_map v_methods (bind (option_map sc_services (Some r)) (fun l => nth_error l 0)))); option_map VS (option_map me_name (bind (option_map v_methods (bind (option_map sc_services (Some r)) (fun l => nth_error l 0))) (fun l => nth_error l 0))); option_map VN (option_map (@List.length _) (option_map me_errors (bind (option_map v_methods (bind (option_map sc_services (Some r)) (fun l => nth_error l 0))) (fun l => nth_error l 0)))); option_map VS (bind (option_map me_errors (bind (option_map v_methods (bind (option_map sc_services (Some r)) (fun l => nth_error l 0))) (fun l => nth_error l 0))) (fun l => nth_error l 0)); option_map VS (option_map me_name (bind (option_map v_methods (bind (option_map sc_services (Some r)) (fun l => nth_error l 0))) (fun l => nth_error l 1))); option_map VN (option_map (@List.length _) (option_map me_errors (bind (option_map v_methods (bind (option_map sc_services (Some r)) (fun l => nth_error l 0))) (fun l => nth_error l 1)))); option_map VL (option_map me_errors (bind (option_map v_methods (bind (option_map sc_services (Some r)) (fun l => nth_error l 0))) (fun l => nth_error l 1))); option_map VS (option_map me_name (bind (option_map v_methods (bind (option_map sc_services (Some r)) (fun l => nth_error l 0))) (fun l => nth_error l 2))); option_map VN (option_map (@List.length _) (option_map me_errors (bind (option_map v_methods (bind (option_map sc_services (Some r)) (fun l => nth_error l 0))) (fun l => nth_error l 2))))]) = Some [VN 1; VS "UserService"; VN 3; VS "GetUser"; VN 1; VS "UserNotFound"; VS "UpdateUser"; VN 2; VL ["UserNotFound"; "Unauthorized"]; VS "ListUsers"; VN 0].
Proof. vm_compute. reflexivity. Qed.

(** schema/schema_test.go TestSchema *)
Example TestSchema : option_map (fun s => match toJSON goIsPrint s with Some _ => true | None => false end) (jsonSchema "{
		""webrpc"": ""v1"",
		""name"": ""example"",
		""version"": ""v0.0.1"",
		""types"": [
			{
				""kind"": ""enum"",
				""name"": ""Kind"",
				""type"": ""uint32"",
				""fields"": [
					{
						""name"": ""USER"",
						""value"": ""1""
					},
					{
						""name"": ""ADMIN"",
						""value"": ""2""
					}
				]
			},
			{
				""kind"": ""struct"",
				""name"": ""Empty"",
				""fields"": [
				]
			},
			{
				""kind"": ""struct"",
				""name"": ""GetUserRequest"",
				""fields"": [
					{
						""name"": ""userID"",
						""type"": ""uint64"",
						""optional"": false
					}
				]
			},
			{
				""kind"": ""struct"",
				""name"": ""RandomStuff"",
				""fields"": [
					{
						""name"": ""meta"",
						""type"": ""map<string,any>""
					},
					{
						""name"": ""metaNestedExample"",
						""type"": ""map<string,map<string,uint32>>""
					},
					{
						""name"": ""namesList"",
						""type"": ""[]string""
					},
					{
						""name"": ""numsList"",
						""type"": ""[]int64""
					},
					{
						""name"": ""doubleArray"",
						""type"": ""[][]string""
					},
					{
						""name"": ""listOfMaps"",
						""type"": ""[]map<string,uint32>""
					},
					{
						""name"": ""listOfUsers"",
						""type"": ""[]User""
					},
					{
						""name"": ""mapOfUsers"",
						""type"": ""map<string,User>""
					},
					{
						""name"": ""user"",
						""type"": ""User""
					}
				]
			},
			{
				""kind"": ""struct"",
				""name"": ""User"",
				""fields"": [
					{
						""name"": ""ID"",
						""type"": ""uint64"",
						""optional"": false,
						""meta"": [
							{ ""json"": ""id"" },
							{ ""go.tag.db"": ""id"" }
						]
					},
					{
						""name"": ""username"",
						""type"": ""string"",
						""optional"": false,
						""meta"": [
							{ ""json"": ""USERNAME"" },
							{ ""go.tag.db"": ""username"" }
						]
					},
					{
						""name"": ""amount"",
						""type"": ""bigint"",
						""optional"": false
					},
					{
						""name"": ""createdAt"",
						""type"": ""timestamp"",
						""optional"": true,
						""meta"": [
							{ ""go.tag.json"": ""created_at,omitempty"" },
							{ ""go.tag.db"": ""created_at"" }
						]
					}
				]
			},
			{
				""kind"": ""struct"",
				""name"": ""GetArticleRequest"",
				""fields"": [
					{
						""name"": ""articleId"",
						""type"": ""uint32"",
						""optional"": false,
						""meta"": [
							{ ""go.field.name"": ""ArticleID"" }
						]
					}
				]
			},
			{
				""kind"": ""struct"",
				""name"": ""GetArticleResponse"",
				""fields"": [
					{
						""name"": ""title"",
						""type"": ""string"",
						""optional"": false
					}
				]
			}
		],
		""services"": [
			{
				""name"": ""Example"",
				""methods"": [
					{
						""name"": ""Ping"",
						""inputs"": [],
						""outputs"": [
							{
								""name"": ""status"",
								""type"": ""bool""
							}
						]
					},
					{
						""name"": ""GetUser"",
						""inputs"": [
							{
								""name"": ""header"",
								""type"": ""map<string,string>""
							},
							{
								""name"": ""req"",
								""type"": ""GetUserRequest""
							}
						],
						""outputs"": [
							{
								""name"": ""code"",
								""type"": ""uint32""
							},
							{
								""name"": ""user"",
								""type"": ""User""
							}
						]
					},
					{
						""name"": ""GetArticle"",
						""succinct"": true,
						""inputs"": [
							{
								""name"": ""getArticleRequest"",
								""type"": ""GetArticleRequest""
							}
						],
						""outputs"": [
							{
								""name"": ""getArticleResponse"",
								""type"": ""GetArticleResponse""
							}
						]
					}
				]
			}
		]
	}
") = Some true.
Proof. vm_compute. reflexivity. Qed.

(** schema/schema_test.go TestFoo *)
Example TestFoo_valid : map isValidArgName ["a"; "a1"; "a"; "a3_44aass"; "a55_____cdDDDD"] = [true; true; true; true; true].
Proof. vm_compute. reflexivity. Qed.

(** schema/schema_test.go TestFoo *)
Example TestFoo_invalid : map isValidArgName ["1a"; "12222"; "1_"; "1_2"; ""; "-1_2"; "_ddd"; "aAA--"; "asSS_E_##$"] = [false; false; false; false; false; false; false; false; false].
Proof. vm_compute. reflexivity. Qed.

(** schema/schema_test.go TestBasePathValidation, empty *)
Example TestBasePathValidation_1 : option_map sc_basepath (jsonSchema "{
		""webrpc"": ""v1"",
		""name"": ""example"",
		""version"": ""v0.0.1"",
		""basepath"": """",
		""types"": [],
		""errors"": [],
		""services"": []
	}") = Some "".
Proof. vm_compute. reflexivity. Qed.

(** schema/schema_test.go TestBasePathValidation, root *)
Example TestBasePathValidation_2 : option_map sc_basepath (jsonSchema "{
		""webrpc"": ""v1"",
		""name"": ""example"",
		""version"": ""v0.0.1"",
		""basepath"": ""/"",
		""types"": [],
		""errors"": [],
		""services"": []
	}") = Some "/".
Proof. vm_compute. reflexivity. Qed.

(** schema/schema_test.go TestBasePathValidation, simple *)
Example TestBasePathValidation_3 : option_map sc_basepath (jsonSchema "{
		""webrpc"": ""v1"",
		""name"": ""example"",
		""version"": ""v0.0.1"",
		""basepath"": ""/rpc"",
		""types"": [],
		""errors"": [],
		""services"": []
	}") = Some "/rpc/".
Proof. vm_compute. reflexivity. Qed.

(** schema/schema_test.go TestBasePathValidation, nested *)
Example TestBasePathValidation_4 : option_map sc_basepath (jsonSchema "{
		""webrpc"": ""v1"",
		""name"": ""example"",
		""version"": ""v0.0.1"",
		""basepath"": ""/rpc/v1"",
		""types"": [],
		""errors"": [],
		""services"": []
	}") = Some "/rpc/v1/".
Proof. vm_compute. reflexivity. Qed.

(** schema/schema_test.go TestBasePathValidation, trailing slash *)
Example TestBasePathValidation_5 : option_map sc_basepath (jsonSchema "{
		""webrpc"": ""v1"",
		""name"": ""example"",
		""version"": ""v0.0.1"",
		""basepath"": ""/rpc/"",
		""types"": [],
		""errors"": [],
		""services"": []
	}") = Some "/rpc/".
Proof. vm_compute. reflexivity. Qed.

(** schema/schema_test.go TestBasePathValidation, double slash *)
Example TestBasePathValidation_6 : option_map sc_basepath (jsonSchema "{
		""webrpc"": ""v1"",
		""name"": ""example"",
		""version"": ""v0.0.1"",
		""basepath"": ""/rpc//v1"",
		""types"": [],
		""errors"": [],
		""services"": []
	}") = Some "/rpc//v1/".
Proof. vm_compute. reflexivity. Qed.

(** schema/schema_test.go TestBasePathValidation, missing leading slash *)
Example TestBasePathValidation_7 : option_map sc_basepath (jsonSchema "{
		""webrpc"": ""v1"",
		""name"": ""example"",
		""version"": ""v0.0.1"",
		""basepath"": ""rpc"",
		""types"": [],
		""errors"": [],
		""services"": []
	}") = Some "/rpc/".
Proof. vm_compute. reflexivity. Qed.

(** schema/schema_test.go TestBasePathValidation, whitespace *)
Example TestBasePathValidation_8 : option_map sc_basepath (jsonSchema "{
		""webrpc"": ""v1"",
		""name"": ""example"",
		""version"": ""v0.0.1"",
		""basepath"": ""/rpc v1"",
		""types"": [],
		""errors"": [],
		""services"": []
	}") = None.
Proof. vm_compute. reflexivity. Qed.

(** schema/schema_test.go TestBasePathValidation, url *)
Example TestBasePathValidation_9 : option_map sc_basepath (jsonSchema "{
		""webrpc"": ""v1"",
		""name"": ""example"",
		""version"": ""v0.0.1"",
		""basepath"": ""https://example.com/rpc"",
		""types"": [],
		""errors"": [],
		""services"": []
	}") = None.
Proof. vm_compute. reflexivity. Qed.

(** schema/schema_test.go TestBasePathValidation, query *)
Example TestBasePathValidation_10 : option_map sc_basepath (jsonSchema "{
		""webrpc"": ""v1"",
		""name"": ""example"",
		""version"": ""v0.0.1"",
		""basepath"": ""/rpc?x=1"",
		""types"": [],
		""errors"": [],
		""services"": []
	}") = None.
Proof. vm_compute. reflexivity. Qed.

(** schema/schema_test.go TestBasePathValidation, fragment *)
Example TestBasePathValidation_11 : option_map sc_basepath (jsonSchema "{
		""webrpc"": ""v1"",
		""name"": ""example"",
		""version"": ""v0.0.1"",
		""basepath"": ""/rpc#v1"",
		""types"": [],
		""errors"": [],
		""services"": []
	}") = None.
Proof. vm_compute. reflexivity. Qed.

(** schema/schema_test.go TestBasePathValidation *)
Example TestBasePathValidation_omitted : refused (jsonSchema "{
			""webrpc"": ""v1"",
			""name"": ""example"",
			""version"": ""v0.0.1"",
			""types"": [],
			""errors"": [],
			""services"": []
		}") = false.
Proof. vm_compute. reflexivity. Qed.

(** schema/schema_test.go TestBasePathValidation *)
Example TestBasePathValidation_version : refused (jsonSchema "{
			""webrpc"": ""v1"",
			""name"": ""example"",
			""types"": [],
			""errors"": [],
			""services"": [
				{ ""name"": ""Example"", ""methods"": [ { ""name"": ""Ping"", ""inputs"": [], ""outputs"": [] } ] }
			]
		}") = true.
Proof. vm_compute. reflexivity. Qed.

(** schema/helpers_test.go TestSchemaBigIntFieldsByType: the table has these entries and no others *)
Definition bigIntTable : option bigTable := bind (jsonSchema "{
		""webrpc"": ""v1"",
		""name"": ""example"",
		""version"": ""v0.0.1"",
		""types"": [
			{
				""kind"": ""enum"",
				""name"": ""Kind"",
				""type"": ""uint32"",
				""fields"": [
					{
						""name"": ""USER"",
						""value"": ""1""
					},
					{
						""name"": ""ADMIN"",
						""value"": ""2""
					}
				]
			},
			{
				""kind"": ""struct"",
				""name"": ""Empty"",
				""fields"": [
				]
			},
			{
				""kind"": ""struct"",
				""name"": ""GetUserRequest"",
				""fields"": [
					{
						""name"": ""userID"",
						""type"": ""uint64"",
						""optional"": false
					}
				]
			},
			{
				""kind"": ""struct"",
				""name"": ""RandomStuff"",
				""fields"": [
					{
						""name"": ""meta"",
						""type"": ""map<string,any>""
					},
					{
						""name"": ""metaNestedExample"",
						""type"": ""map<string,map<string,uint32>>""
					},
					{
						""name"": ""namesList"",
						""type"": ""[]string""
					},
					{
						""name"": ""numsList"",
						""type"": ""[]int64""
					},
					{
						""name"": ""doubleArray"",
						""type"": ""[][]string""
					},
					{
						""name"": ""listOfMaps"",
						""type"": ""[]map<string,uint32>""
					},
					{
						""name"": ""listOfUsers"",
						""type"": ""[]User""
					},
					{
						""name"": ""mapOfUsers"",
						""type"": ""map<string,User>""
					},
					{
						""name"": ""user"",
						""type"": ""User""
					}
				]
			},
			{
				""kind"": ""struct"",
				""name"": ""User"",
				""fields"": [
					{
						""name"": ""ID"",
						""type"": ""uint64"",
						""optional"": false,
						""meta"": [
							{ ""json"": ""id"" },
							{ ""go.tag.db"": ""id"" }
						]
					},
					{
						""name"": ""username"",
						""type"": ""string"",
						""optional"": false,
						""meta"": [
							{ ""json"": ""USERNAME"" },
							{ ""go.tag.db"": ""username"" }
						]
					},
					{
						""name"": ""balance"",
						""type"": ""bigint"",
						""optional"": false
					},
					{
						""name"": ""extra"",
						""type"": ""Extra"",
						""optional"": false
					},
					{
						""name"": ""createdAt"",
						""type"": ""timestamp"",
						""optional"": true,
						""meta"": [
							{ ""go.tag.json"": ""created_at,omitempty"" },
							{ ""go.tag.db"": ""created_at"" }
						]
					}
				]
			},
			{
				""kind"": ""struct"",
				""name"": ""GetArticleRequest"",
				""fields"": [
					{
						""name"": ""articleId"",
						""type"": ""uint32"",
						""optional"": false,
						""meta"": [
							{ ""go.field.name"": ""ArticleID"" }
						]
					},
					{
						""name"": ""byBN"",
						""type"": ""bigint"",
						""optional"": false
					}
				]
			},
			{
				""kind"": ""struct"",
				""name"": ""GetArticleResponse"",
				""fields"": [
					{
						""name"": ""title"",
						""type"": ""string"",
						""optional"": false
					},
					{
						""name"": ""content"",
						""type"": ""string"",
						""optional"": false
					},
					{
						""name"": ""largeNum"",
						""type"": ""bigint"",
						""optional"": false
					}
				]
			},
			{
				""kind"": ""struct"",
				""name"": ""Extra"",
				""fields"": [
					{
						""name"": ""info"",
						""type"": ""string"",
						""optional"": false
					},
					{
						""name"": ""amount"",
						""type"": ""bigint"",
						""optional"": false
					},
					{
						""name"": ""points"",
						""type"": ""[]bigint"",
						""optional"": false
					}
				]
			}
		],
		""services"": [
			{
				""name"": ""Example"",
				""methods"": [
					{
						""name"": ""Ping"",
						""inputs"": [
							{
								""name"": ""counter"",
								""type"": ""bigint"",
								""optional"": true
							}
						],
						""outputs"": [
							{
								""name"": ""status"",
								""type"": ""bool""
							}
						]
					},
					{
						""name"": ""GetUser"",
						""inputs"": [
							{
								""name"": ""header"",
								""type"": ""map<string,string>""
							},
							{
								""name"": ""req"",
								""type"": ""GetUserRequest""
							}
						],
						""outputs"": [
							{
								""name"": ""code"",
								""type"": ""uint32""
							},
							{
								""name"": ""user"",
								""type"": ""User""
							}
						]
					},
					{
						""name"": ""GetArticle"",
						""succinct"": true,
						""inputs"": [
							{
								""name"": ""getArticleRequest"",
								""type"": ""GetArticleRequest""
							}
						],
						""outputs"": [
							{
								""name"": ""getArticleResponse"",
								""type"": ""GetArticleResponse""
							}
						]
					}
				]
			}
		]
	}
") (schemaBigIntFieldsByType false).
Definition bigIntExpected : bigTable := [("GetArticleRequest", [EName "byBN"]); ("GetArticleResponse", [EName "largeNum"]); ("GetUserResponse", [EPair "user" "User"]); ("User", [EName "balance"; EPair "extra" "Extra"]); ("Extra", [EName "amount"; EName "points[]"]); ("RandomStuff", [EPair "listOfUsers" "User[]"; EPair "user" "User"]); ("PingRequest", [EName "counter"])].
Example TestSchemaBigIntFieldsByType : match bigIntTable with
  | Some t => map (fun k => assoc k t) (map fst bigIntExpected) = map (fun e => Some (snd e)) bigIntExpected /\ List.length t = List.length bigIntExpected
  | None => False
  end.
Proof. vm_compute. split; reflexivity. Qed.

(** gen/funcmap_test.go TestMinVersion *)
Example TestMinVersion : map (fun p => minVersion (fst p) (snd p)) [("v1.0.0", "v1"); ("v1.0.0", "v1.0"); ("v1.0.0", "v1.0.0"); ("v2.5.8", "v1"); ("v2.5.8", "v2.0"); ("v2.5.8", "v1.1"); ("v2.5.8", "v1.5.8"); ("v2.5.8", "v2"); ("v2.5.8", "v2.5"); ("v2.5.8", "v2.5.5"); ("v1.0.0", "v2"); ("v1.0.0", "v2.0"); ("v1.0.0", "v1.1"); ("v1.0.0", "v1.5.8"); ("v1.0.0", "v2"); ("v2.5.8", "v3"); ("v2.5.8", "v2.6"); ("v2.5.8", "v2.6.0"); ("v2.5.8", "v2.6.6"); ("v0.13.0-dev", "v0.13.0")] = [Ok true; Ok true; Ok true; Ok true; Ok true; Ok true; Ok true; Ok true; Ok true; Ok true; Ok false; Ok false; Ok false; Ok false; Ok false; Ok false; Ok false; Ok false; Ok false; Ok true].
Proof. vm_compute. reflexivity. Qed.

(** gen/funcmap_test.go TestParseMajorMinorVersion *)
Example TestParseMajorMinorVersion : map parseMajorMinor ["v0.7"; "v0.7.0"; "v0.7.5"; "v0.7.0-dev"; "v0.7.x-dev"; "v1"; "v1.0"; "v1.1"; "v1.0.1"; "v1.1.1"; "v2"; "v2.0"; "v2.2"; "v2.2.0"; "v2.2.2"; "1"; "1.0"; "1.1"; "1.0.1"; "1.1.1"; "2"; "2.0"; "2.2"; "2.2.0"; "2.2.2"; ""; "err"] = [Some (0%Z, 7%Z); Some (0%Z, 7%Z); Some (0%Z, 7%Z); Some (0%Z, 7%Z); Some (0%Z, 7%Z); Some (1%Z, 0%Z); Some (1%Z, 0%Z); Some (1%Z, 1%Z); Some (1%Z, 0%Z); Some (1%Z, 1%Z); Some (2%Z, 0%Z); Some (2%Z, 0%Z); Some (2%Z, 2%Z); Some (2%Z, 2%Z); Some (2%Z, 2%Z); Some (1%Z, 0%Z); Some (1%Z, 0%Z); Some (1%Z, 1%Z); Some (1%Z, 0%Z); Some (1%Z, 1%Z); Some (2%Z, 0%Z); Some (2%Z, 0%Z); Some (2%Z, 2%Z); Some (2%Z, 2%Z); Some (2%Z, 2%Z); None; None].
Proof. vm_compute. reflexivity. Qed.

(** gen/funcmap_test.go TestTemplateFuncMap *)
Example TestTemplateFuncMap_word : map firstWordToLower ["ExampleString"; "Example"; "example"; ""; "apiService"; "APIService"; "API"; "APIv2Service"; "APIv2"] = ["exampleString"; "example"; "example"; ""; "apiService"; "apiService"; "api"; "apiv2Service"; "apiv2"].
Proof. vm_compute. reflexivity. Qed.

(** gen/funcmap_test.go TestTemplateFuncMap *)
Example TestTemplateFuncMap_letter : firstLetterToLower "Example" = "example".
Proof. vm_compute. reflexivity. Qed.

(** gen/funcmap_test.go TestArray: array(c, d), append(arr, a, b), first and last.  [sort] is a relation in
    the model (sort.Slice is free to order equal elements as it likes) and is not run here. *)
Definition noTypes (n : nat) : string := "".
Definition noGrowth (cap need : nat) : nat := need.
Definition testArr : tval * heap := arrayFn noGrowth (Heap [] []) [TvStr "c"; TvStr "d"].
Definition testArr2 : result (tval * heap) := appendFn noGrowth (snd testArr) (fst testArr) [TvStr "a"; TvStr "b"].
Example TestArray_array : items (snd testArr) (fst testArr) = [TvStr "c"; TvStr "d"].
Proof. vm_compute. reflexivity. Qed.
Example TestArray_append : match testArr2 with
  | Ok (v, h) => items h v = [TvStr "c"; TvStr "d"; TvStr "a"; TvStr "b"]
  | _ => False
  end.
Proof. vm_compute. reflexivity. Qed.
Definition sortedArr : heap := Heap [[TvStr "a"; TvStr "b"; TvStr "c"; TvStr "d"]; []] [].
Example TestArray_ends : firstFn sortedArr (TvSlice 0 4) = Ok (TvStr "a") /\ lastFn sortedArr (TvSlice 0 4) = Ok (TvStr "d") /\
  firstFn sortedArr (TvSlice 1 0) = Err "first(): no elements in the array" /\
  match lastFn sortedArr (TvSlice 1 0) with Err _ => True | _ => False end.
Proof. vm_compute. repeat split. Qed.

(** gen/funcmap_test.go TestLastIndex: the length minus one; the kinds of elements do not matter *)
Example TestLastIndex : map (fun n => lastIndexFn (Heap [] []) (TvSlice 0 n)) [3; 0; 1; 4; 1; 3] =
  map (fun z => Ok z) [2; -1; 0; 3; 0; 2]%Z.
Proof. vm_compute. reflexivity. Qed.

(** schema/type_test.go TestRequiredFields *)
Definition testField (n : string) (opt : bool) : field := Field n (Some (VT "string" (ShCore CString))) opt "" [] [].
Definition testType (fs : list field) : type := Type_ ("", 0) "struct" "T" None fs [] [].
Example TestRequiredFields_1 : requiredFields (testType [testField "Name" false; testField "Phone number" true]) = [testField "Name" false].
Proof. reflexivity. Qed.
Example TestRequiredFields_2 : requiredFields (testType [testField "Name" true]) = [].
Proof. reflexivity. Qed.

(** schema/schema_test.go TestMatchServices (a nil schema is not modelled) *)
Definition testService (n : string) (ms : list method) : service := Service_ ("", 0) n ms [].
Definition testSchema (ss : list service) : schema := Schema_ "v0.1.0" "dev" "dev-v0.1.0" "" [] [] ss.
Definition named (l : list string) : schema := testSchema (map (fun n => testService n []) l).
Example TestMatchServices_1 : matchServices (named ["ExampleService"; "AdminService"; "PublicService"]) ["ExampleService"; "AdminService"] =
  named ["ExampleService"; "AdminService"].
Proof. reflexivity. Qed.
Example TestMatchServices_2 : matchServices (named ["ExampleService"; "AdminService"]) [] = named ["ExampleService"; "AdminService"].
Proof. reflexivity. Qed.
Example TestMatchServices_3 : matchServices (named ["ExampleService"; "AdminService"]) ["NonExistentService"] = named [].
Proof. reflexivity. Qed.
Example TestMatchServices_4 : matchServices (named ["ExampleService"; "AdminService"]) ["ExampleService"; "AdminService"] =
  named ["ExampleService"; "AdminService"].
Proof. reflexivity. Qed.
Example TestMatchServices_5 : matchServices (named []) ["ExampleService"; "AdminService"] = named [].
Proof. reflexivity. Qed.

(** schema/schema_test.go TestIgnoreMethodsWithAnnotations and TestMatchMethodsWithAnnotations *)
Definition testMethod (n : string) (anns : list (string * string)) : method :=
  Method_ n (map (fun a => (fst a, a)) anns) [] false false false [] [] [].
Definition oneService (ms : list method) : schema := testSchema [testService "ExampleService" ms].
Example TestIgnore_1 : ignoreMethods (oneService [testMethod "Ping" []; testMethod "Version" []]) [("deprecated", "")] =
  oneService [testMethod "Ping" []; testMethod "Version" []].
Proof. reflexivity. Qed.
Example TestIgnore_2 : ignoreMethods (oneService [testMethod "Ping" [("deprecated", "PingV2")]; testMethod "Version" [("deprecated", "")]])
  [("deprecated", "")] = oneService [].
Proof. reflexivity. Qed.
Example TestIgnore_3 : ignoreMethods (oneService [testMethod "Ping" [("internal", "")]]) [("deprecated", "")] =
  oneService [testMethod "Ping" [("internal", "")]].
Proof. reflexivity. Qed.
Example TestIgnore_4 : ignoreMethods (testSchema []) [("deprecated", "")] = testSchema [].
Proof. reflexivity. Qed.
Example TestIgnore_5 : ignoreMethods (oneService [testMethod "Ping" []]) [] = oneService [testMethod "Ping" []].
Proof. reflexivity. Qed.
Example TestIgnore_6 : ignoreMethods (oneService [testMethod "Ping" [("deprecated", "v1")]]) [] =
  oneService [testMethod "Ping" [("deprecated", "v1")]].
Proof. reflexivity. Qed.
Example TestIgnore_7 : ignoreMethods (oneService
    [testMethod "Ping" [("internal", ""); ("auth", "Cookies,Jwt,Authorization")];
     testMethod "Version" [("internal", ""); ("deprecated", "")]; testMethod "Version2" []]) [("deprecated", "")] =
  oneService [testMethod "Ping" [("internal", ""); ("auth", "Cookies,Jwt,Authorization")]; testMethod "Version2" []].
Proof. reflexivity. Qed.
Example TestMatchMethods : matchMethods (oneService [testMethod "Ping" []; testMethod "Version" [("deprecated", "")]]) [("deprecated", "")] =
  oneService [testMethod "Version" [("deprecated", "")]].
Proof. reflexivity. Qed.
