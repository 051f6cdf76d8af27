(** Model of schema/ridl/tokenizer.go *)
From Verif Require Import Base Utf8 Lexer.

(** lexer.go 36-41 token.String: the value, or the name of the type.
    Only tokens produced by the lexer reach it (all non-empty), so the
    type-name fallback is modelled by the empty string. *)
Definition tokString (t : token) : string := val t.

(** comments: map[int]string as an association list (line, text) *)
Definition comments := list (nat * string).

Definition append_last (l : list string) (s : string) : list string :=
  match rev l with
  | [] => [s]
  | x :: r => rev r ++ [(x ++ s)%string]
  end.

(** tokenizer.go 49-72; [prev] is the last token appended so far *)
Definition parseCommentToken (cur : token) (prev : option token) (cs : list string)
  : list string :=
  match prev with
  | None => cs ++ [tokString cur]
  | Some p =>
      if tt_eqb (ty p) TWhitespace then cs ++ [tokString cur]
      else append_last cs (tokString cur)
  end.

(** state of the loop of tokenize, tokenizer.go 13-18 *)
Record tkst := Tk { tk_prev : option token; tk_comments : comments;
                    tk_parsing : bool; tk_words : list string }.

(** lineComments[line] = text *)
Fixpoint put_comment (n : nat) (s : string) (m : comments) : comments :=
  match m with
  | [] => [(n, s)]
  | (k, v) :: r => if k =? n then (n, s) :: r else (k, v) :: put_comment n s r
  end.

(** tokenizer.go 20-44, one iteration for a non-EOF token *)
Definition tokStep (st : tkst) (t : token) : tkst :=
  if tt_eqb (ty t) THash then
    Tk (Some t) (tk_comments st) true (tk_words st)
  else
    let ws := if tk_parsing st && negb (tt_eqb (ty t) TNewLine)
                                && negb (tt_eqb (ty t) TWhitespace)
              then parseCommentToken t (tk_prev st) (tk_words st)
              else tk_words st in
    if tt_eqb (ty t) TNewLine && tk_parsing st then
      Tk (Some t) (put_comment (line t) (join " " ws) (tk_comments st)) false []
    else Tk (Some t) (tk_comments st) (tk_parsing st) ws.

(** the loop stops at the first EOF token (21-23) *)
Fixpoint until_eof (l : list token) : list token :=
  match l with
  | [] => []
  | t :: r => if tt_eqb (ty t) TEOF then [] else t :: until_eof r
  end.

(** tokenizer.go 12-47: all tokens, and the comment of each line *)
Definition tokenize (src : string) : list token * comments :=
  let toks := until_eof (lexAll src) in
  (toks, tk_comments (fold_left tokStep toks (Tk None [] false []))).
