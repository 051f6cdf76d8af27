(** C37: comments of RIDL documents. Theorems only. *)
From Verif Require Import Base Utf8 Utf8Proofs Lexer LexSpec Tokenize Ast Parser PropsParserAux StringProofs
  CommentSpec CommentProofs EraseProofs CommentBlock CommentStruct CommentAll.

Definition LF : string := String "010"%char "".

(** The block of comment lines directly above a struct becomes its comment: the texts in order,
    one per line, without "#"; hidden comments ("#!...") are left out.  Whatever comment lines
    stand higher up, separated by a blank line, do not. *)
Theorem C37_block_above_a_struct_is_its_comment : forall above block name,
  detached above ->
  Forall comment_line_ok block ->
  word name -> ~ In 35%N name -> forallb valid_rune name = true ->
  parseRidl (encode (block_chars (above ++ comment_lines block) ++ structLine name)) =
  Parsed [NStruct (Struct (encode name) []
     (join LF (filter (fun s => negb (has_prefix "!" s)) (map (fun p => comment_text (snd p)) block)))
     (S (length above + length block)))].
Proof. exact struct_end_to_end. Qed.
Print Assumptions C37_block_above_a_struct_is_its_comment.

(** the words of a document with the lines they are on, and its comment lines *)
Definition wordsOf (src : string) : list (string * nat) := map (fun t => (val t, line t)) (fst (tokenize src)).
Definition commentsOf (src : string) : clines := fun n => getComment n (snd (tokenize src)).
(** the line of a definition and its comment *)
Definition lineComment (d : definition) : nat * string := (snd (fst d), snd d).

(** Every definition of every accepted document (header entry, struct, field, enum, member,
    alias, service, method) gets its comment in this way: the definitions stand in the document
    in the order of the parse tree, and one after the other takes the block of comment lines
    that ends on its line or the line above, among those that are left. *)
Theorem C37_every_definition_takes_its_block : forall src nodes, parseRidl src = Parsed nodes ->
  exists defs rest, Definitions nodes defs /\ Sub (map fst defs) (wordsOf src) /\
    Taken (commentsOf src) (map lineComment defs) rest.
Proof. exact parsed_comments. Qed.
Print Assumptions C37_every_definition_takes_its_block.

(** So the block of comment lines [k .. s] above any definition is its comment, if no other definition
    stands before it on or below line [k] (as is the case if the lines are comments only). *)
Theorem C37_block_above_any_definition_is_its_comment : forall src nodes, parseRidl src = Parsed nodes ->
  exists defs, Definitions nodes defs /\ Sub (map fst defs) (wordsOf src) /\
    forall before name n text after k s, defs = before ++ ((name, n), text) :: after ->
      Block (fun i => commentsOf src i <> None) n k s ->
      (forall d, In d before -> snd (fst d) < k) ->
      text = join LF (filter (fun c => negb (has_prefix "!" c))
        (map (fun i => match commentsOf src i with Some c => c | None => ""%string end) (seq k (S s - k)))).
Proof.
  intros src nodes H. destruct (parsed_comments _ _ H) as (defs & rest & H1 & H2 & H3). exists defs. split; [exact H1|]. split; [exact H2|].
  intros before name n text after k s -> HB HF.
  eapply (taken_block _ _ _ H3 (map lineOf before) n text (map lineOf after)); [now rewrite map_app|exact HB|].
  apply Forall_forall. intros x Hx. apply in_map_iff in Hx. destruct Hx as (d & <- & Hd). exact (HF d Hd).
Qed.
Print Assumptions C37_block_above_any_definition_is_its_comment.

(** And no comment line is part of the comments of two definitions. *)
Theorem C37_no_comment_line_is_used_twice : forall src nodes, parseRidl src = Parsed nodes ->
  exists defs blocks, Definitions nodes defs /\ Sub (map fst defs) (wordsOf src) /\
    Forall2 (fun d b => snd d = blockText (commentsOf src) (fst b) (snd b) /\
                        (snd b = snd (fst d) \/ S (snd b) = snd (fst d))) defs blocks /\
    ForallOrdPairs (fun a b => forall i, ~ (fst a <= i <= snd a /\ fst b <= i <= snd b)) blocks.
Proof.
  intros src nodes H. destruct (parsed_comments _ _ H) as (defs & rest & H1 & H2 & H3).
  destruct (taken_disjoint _ _ _ H3) as (blocks & B1 & _ & B3). exists defs, blocks. split; [exact H1|]. split; [exact H2|].
  split; [|exact B3]. clear -B1. remember (map lineOf defs) as l eqn:E. revert defs E.
  induction B1 as [|x b l bs HX HB IH]; intros [|d defs] E; try discriminate; constructor.
  - cbn in E. injection E as E1 E2. subst x. exact HX.
  - apply IH. now injection E.
Qed.
Print Assumptions C37_no_comment_line_is_used_twice.

(** A comment line that ends with a newline is recorded under its line number, wherever it is:
    [above] is any text of whole lines, [ind] what precedes the "#" in its line (code followed by
    a blank, or only blanks). *)
Theorem C37_comments_are_recorded_by_line : forall above ind text below,
  forallb valid_rune (above ++ ind ++ 35%N :: text ++ 10%N :: below) = true ->
  no_char 0%N (above ++ ind ++ text) ->
  whole_lines above ->
  no_char 35%N ind -> no_char 10%N ind -> ends_blank ind ->
  no_char 35%N text -> no_char 10%N text ->
  getComment (1 + newlines above)
    (snd (tokenize (encode (above ++ ind ++ 35%N :: text ++ 10%N :: below)))) = Some (comment_text text).
Proof. exact recorded_comment. Qed.
Print Assumptions C37_comments_are_recorded_by_line.

(** ... and a line without "#" has none. *)
Theorem C37_no_comment_without_hash : forall above ln below,
  forallb valid_rune (above ++ ln ++ 10%N :: below) = true ->
  no_char 0%N (above ++ ln) -> whole_lines above ->
  no_char 35%N ln -> no_char 10%N ln ->
  getComment (1 + newlines above) (snd (tokenize (encode (above ++ ln ++ 10%N :: below)))) = None.
Proof. exact uncommented_line. Qed.
Print Assumptions C37_no_comment_without_hash.

(** What a definition on line [n] takes from the recorded comments: the maximal block of
    consecutive comment lines that ends on its own line or on the line above; exactly these lines
    are removed, so that no later definition gets them again. *)
Theorem C37_definition_takes_its_block_once : forall m n, 1 <= n ->
  exists k s, Block (fun i => getComment i m <> None) n k s /\
    fst (parseComments m n) =
      join LF (filter (fun c => negb (has_prefix "!" c))
        (map (fun i => match getComment i m with Some c => c | None => ""%string end) (seq k (S s - k)))) /\
    forall i, getComment i (snd (parseComments m n)) =
      if (k <=? i) && (i <=? s) then None else getComment i m.
Proof. exact parseComments_spec. Qed.
Print Assumptions C37_definition_takes_its_block_once.

(** Comments never change the parse: whatever the recorded comments, the result is the same up to
    the comment and position attributes (which [eC] and [eR] blank out). *)
Theorem C37_recorded_comments_do_not_change_the_parse : forall fuel s ts cm cm' out,
  eR (runParser fuel (PC s ts cm out)) = eR (runParser fuel (PC s ts cm' out)).
Proof. intros. rewrite <- !run_e. reflexivity. Qed.
Print Assumptions C37_recorded_comments_do_not_change_the_parse.

(** Comment lines and blank lines in front of a document do not change how it parses. *)
Theorem C37_leading_comments_do_not_change_the_parse : forall block below,
  Forall cline_ok block -> forallb valid_rune below = true ->
  eR (parseRidl (encode (block_chars block ++ below))) = eR (parseRidl (encode below)).
Proof. exact block_irrelevant. Qed.
Print Assumptions C37_leading_comments_do_not_change_the_parse.

(** What does not hold: a second "#" in a comment glues words; a comment ended by the end of the
    document is lost; the comment of an enum is overwritten by an explicit value; a comment
    line inserted between two lines can change the parse (after a succinct method); the comment
    above a method with two lines of annotations is lost; and the comment at the end of the line
    of an error goes to the definition on the next line. *)
Theorem C37_general_comments_refuted :
  parseRidl ("# a #b" ++ LF ++ "struct S" ++ LF)%string = Parsed [NStruct (Struct "S" [] "ab" 2)] /\
  parseRidl ("struct S # a")%string = Parsed [NStruct (Struct "S" [] "" 1)] /\
  (exists e, parseRidl ("# about E" ++ LF ++ "enum E: uint32" ++ LF ++ "- A = 1" ++ LF)%string =
             Parsed [NEnum e] /\ e_comment e = ""%string) /\
  (let a := ("service S" ++ LF ++ "- M(X) => (Y)" ++ LF)%string in
   let b := ("struct X" ++ LF)%string in
   eR (parseRidl (a ++ b)%string) <> eR (parseRidl (a ++ "#" ++ LF ++ b)%string)) /\
  (exists s m, parseRidl ("service S" ++ LF ++ "# about M" ++ LF ++ "@a" ++ LF ++ "@b" ++ LF ++ "- M()" ++ LF)%string = Parsed [NService s] /\
     sv_methods s = [m] /\ m_comment m = ""%string) /\
  (exists e, parseRidl ("error 1 Bad ""bad"" # about Bad" ++ LF ++ "struct S" ++ LF)%string =
             Parsed [NError e; NStruct (Struct "S" [] "about Bad" 2)]).
Proof.
  split; [vm_compute; reflexivity|]. split; [vm_compute; reflexivity|]. split.
  - eexists. split; vm_compute; reflexivity.
  - split; [vm_compute; discriminate|]. split.
    + eexists. eexists. split; [vm_compute; reflexivity|]. split; reflexivity.
    + eexists. vm_compute. reflexivity.
Qed.
Print Assumptions C37_general_comments_refuted.

(** Non-vacuity: a detached comment, a blank line, an indented comment, a hidden one. *)
Example C37_hypotheses_met :
  let above := [CL [] (Some (runes_of " old")); CL [32%N] None] in
  let block := [([9%N], runes_of " the  user"); ([], runes_of "! internal"); ([], runes_of "second line")] in
  detached above /\ Forall comment_line_ok block /\ word (runes_of "User") /\
  parseRidl (encode (block_chars (above ++ comment_lines block) ++ structLine (runes_of "User"))) =
    Parsed [NStruct (Struct "User" [] ("the user" ++ LF ++ "second line") 6)].
Proof.
  cbv zeta. split; [|split; [|split]].
  - split; [|right; exists [CL [] (Some (runes_of " old"))], [32%N]; reflexivity].
    repeat constructor; cbn; try (unfold blank; lia); try reflexivity; intuition discriminate.
  - repeat constructor; cbn; try (unfold blank; lia); try reflexivity; intuition discriminate.
  - exists 85%N, (runes_of "ser"). split; [reflexivity|]. split; [unfold word_start; lia|].
    repeat constructor; unfold word_break; cbn; lia.
  - vm_compute. reflexivity.
Qed.

(** A document with all kinds of definitions: where they are, and their comments. *)
Definition commentedDoc : string := sconcat (map (fun l => (l ++ LF)%string) [
  "webrpc = v1 # the version";
  "# Name"; "# of the API"; "name = users";
  "";
  "# A kind"; "enum Kind: uint32"; "  # first"; "  - USER"; "  - ADMIN # second";
  "# A user"; "struct User"; "  # its id"; "  - id: uint64"; "    + json = id"; "";
  "# An alias"; "type Id: uint64";
  "# not kept"; "";
  "# The service"; "service Users"; "  # reads"; "  @read"; "  - Get(id: uint64) => (user: User)"; "  - Ping()"])%string.
Definition commentedDefs : list definition := [
  (("webrpc", 1), "the version"); (("name", 4), "Name" ++ LF ++ "of the API");
  (("Kind", 7), "A kind"); (("USER", 9), "first"); (("ADMIN", 10), "second");
  (("User", 12), "A user"); (("id", 14), "its id"); (("Id", 18), "An alias");
  (("service", 22), "The service"); (("read", 24), "reads"); (("Ping", 26), "")]%string.
Example C37_all_kinds :
  exists nodes, parseRidl commentedDoc = Parsed nodes /\ Definitions nodes commentedDefs.
Proof.
  eexists. split; [vm_compute; reflexivity|].
  exists [firstn 1 commentedDefs; firstn 1 (skipn 1 commentedDefs); firstn 3 (skipn 2 commentedDefs);
          firstn 2 (skipn 5 commentedDefs); firstn 1 (skipn 7 commentedDefs); skipn 8 commentedDefs].
  split; [|reflexivity].
  constructor; [exact (DefinedDef (Def "webrpc" "v1" false [] "the version") 1)|].
  constructor; [exact (DefinedDef (Def "name" "users" false [] ("Name" ++ LF ++ "of the API")) 4)|].
  constructor; [apply DefinedEnum; [repeat constructor|left; repeat constructor]|].
  constructor; [apply DefinedStruct; repeat constructor|].
  constructor; [apply DefinedAlias|].
  constructor; [apply DefinedService; repeat constructor|constructor].
Qed.
