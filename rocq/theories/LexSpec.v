(** Specification of the RIDL lexer, independent of the model's state machine:
    what a segmentation of a document into tokens must look like. *)
From Verif Require Import Base Utf8 Lexer.

(** the part of the document that is lexed: up to the first NUL *)
Fixpoint until_nul (rs : list N) : list N :=
  match rs with
  | [] => []
  | r :: t => if (r =? 0)%N then [] else r :: until_nul t
  end.

(** number of newlines in a text *)
Definition newlines (rs : list N) : nat := length (filter (fun r => (r =? 10)%N) rs).

(** number of characters after the last newline *)
Definition since_newline (rs : list N) : nat :=
  fold_left (fun n r => if (r =? 10)%N then 0 else S n) rs 0.

(** blanks of RIDL: space, tab, carriage return *)
Definition blank (r : N) : Prop := (r = 32 \/ r = 9 \/ r = 13)%N.

(** letters, digits, underscore *)
Definition word_start (r : N) : Prop :=
  ((97 <= r <= 122) \/ (65 <= r <= 90) \/ (48 <= r <= 57) \/ r = 95)%N.

(** characters that end a word *)
Definition word_break (r : N) : Prop :=
  In r [0; 32; 9; 13; 10; 91; 93; 40; 41; 60; 62; 123; 125; 61; 58; 191; 63; 161; 33; 44; 34]%N.

(** the punctuation characters and their token types *)
Definition punctuation : list (N * ttype) :=
  [(34, TQuote); (47, TSlash); (92, TBackslash); (40, TOpenParen); (41, TCloseParen);
   (60, TOpenAngle); (62, TCloseAngle); (91, TOpenBracket); (93, TCloseBracket);
   (35, THash); (43, TPlus); (45, TMinus); (58, TColon); (63, TQuestion);
   (44, TComma); (124, TBar); (46, TDot); (64, TAt)]%N.

(** [TokenShape ty chunk next]: a token of type [ty] may consist of the
    characters [chunk] when it is followed by [next] (None at the end). *)
Inductive TokenShape : ttype -> list N -> option N -> Prop :=
| ShapeWord c cs nx :
    word_start c -> Forall (fun r => ~ word_break r) cs ->
    (forall r, nx = Some r -> word_break r) ->
    TokenShape TWord (c :: cs) nx
| ShapeBlank c cs nx :
    Forall blank (c :: cs) -> (forall r, nx = Some r -> ~ blank r) ->
    TokenShape TWhitespace (c :: cs) nx
| ShapeNewLine nx : TokenShape TNewLine [10%N] nx
| ShapeEqual nx : nx <> Some 62%N -> TokenShape TEqual [61%N] nx
| ShapeRocket nx : TokenShape TRocket [61%N; 62%N] nx
| ShapePunct c t nx : In (c, t) punctuation -> TokenShape t [c] nx
| ShapeExtra c nx :
    c <> 0%N -> ~ word_start c -> ~ blank c -> c <> 10%N -> c <> 61%N ->
    ~ In c (map fst punctuation) ->
    TokenShape TExtra [c] nx.

(** [Segments rs segs]: [segs] is a segmentation of the document [rs] into
    tokens, all of the right shape, ending at the end of the document or at a
    NUL. *)
Inductive Segments : list N -> list (ttype * list N) -> Prop :=
| SegEnd rs : (rs = [] \/ exists t, rs = 0%N :: t) -> Segments rs []
| SegTok chunk rs ty segs :
    TokenShape ty chunk (hd_error rs) ->
    Segments rs segs ->
    Segments (chunk ++ rs) ((ty, chunk) :: segs).
