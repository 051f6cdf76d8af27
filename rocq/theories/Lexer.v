(** Model of schema/ridl/lexer.go: the RIDL lexer.
    The lexer object's fields (lexer.go 405-417) become the record [lx]:
    [input[pos:]] is [rest], [input[start:pos]] is [cur]. *)
From Verif Require Import Base Utf8.

(** token types, lexer.go 44-77 (tokenOptionalWhitespace is never produced or
    matched anywhere and is omitted) *)
Inductive ttype :=
| TInvalid | TWhitespace | TNewLine | TEqual | TOpenParen | TCloseParen
| TOpenBracket | TCloseBracket | TOpenAngle | TCloseAngle | TPlus | TMinus
| THash | TColon | TComma | TBar | TBackslash | TSlash | TQuote | TDot
| TQuestion | TRocket | TBang | TWord | TExtra | TComposed | TEOL | TEOF | TAt.

Definition ttype_eq_dec : forall a b : ttype, {a = b} + {a <> b}.
Proof. decide equality. Defined.
Definition tt_eqb (a b : ttype) : bool := if ttype_eq_dec a b then true else false.

(** lexer.go 27-34 *)
Record token := Tok { ty : ttype; val : string; pos : nat; line : nat; col : nat }.

Definition mem (r : N) (l : list N) : bool := existsb (N.eqb r) l.

Local Open Scope N_scope.

(** lexer.go 12: a-z A-Z 0-9 _ *)
Definition isWord (r : N) : bool :=
  in_range 97 122 r || in_range 65 90 r || in_range 48 57 r || (r =? 95).

(** lexer.go 13: NUL space tab CR LF [ ] ( ) < > { } = : U+00BF ? U+00A1 ! , quote *)
Definition wordBreak : list N :=
  [0; 32; 9; 13; 10; 91; 93; 40; 41; 60; 62; 123; 125; 61; 58; 191; 63; 161; 33; 44; 34].
Definition isWordBreak (r : N) : bool := mem r wordBreak.

(** lexer.go 113-136 tokenTypeValue, 138-161 isSpace... *)
Definition isSpace (r : N) : bool := mem r [32; 9; 13].
Definition isEmpty (r : N) : bool := r =? 0.

(** The single-character states of lexDefaultState (lexer.go 327-403), in the
    order of the switch, for the cases whose state function is
    lexPushTokenState: character -> token type. *)
Definition punct (r : N) : option ttype :=
  if r =? 34 then Some TQuote
  else if r =? 47 then Some TSlash
  else if r =? 92 then Some TBackslash
  else if r =? 40 then Some TOpenParen
  else if r =? 41 then Some TCloseParen
  else if r =? 60 then Some TOpenAngle
  else if r =? 62 then Some TCloseAngle
  else if r =? 91 then Some TOpenBracket
  else if r =? 93 then Some TCloseBracket
  else if r =? 35 then Some THash
  else if r =? 43 then Some TPlus
  else if r =? 45 then Some TMinus
  else if r =? 58 then Some TColon
  else if r =? 63 then Some TQuestion
  else if r =? 44 then Some TComma
  else if r =? 124 then Some TBar
  else if r =? 46 then Some TDot
  else if r =? 64 then Some TAt
  else None.

Close Scope N_scope.

(** lexer.go 405-417; [cur] is reversed *)
Record lx := Lx { rest : list N; cur : list N; lpos : nat; lline : nat; lcol : nat }.

(** lexer.go 411-421 newLexer *)
Definition newLexer (src : string) : lx := Lx (decode src) [] 0 0 0.

(** lexer.go 439-444 peek *)
Definition peek (l : lx) : N := match rest l with [] => 0%N | r :: _ => r end.

(** lexer.go 446-459 next *)
Definition next (l : lx) : lx :=
  match rest l with
  | [] => l
  | r :: t => Lx t (r :: cur l) (S (lpos l))
                 (if lcol l <? 1 then S (lline l) else lline l) (S (lcol l))
  end.

(** lexer.go 461-475 emit/val *)
Definition emit (t : ttype) (l : lx) : token * lx :=
  (Tok t (encode (rev (cur l))) (lpos l) (lline l) (lcol l),
   Lx (rest l) [] (lpos l) (lline l) (lcol l)).

(** [for p(lx.peek()) { lx.next() }]; structural on the remaining input.
    Used by lexStateWord (283-293) and lexStateSpace (295-304); both predicates
    are false on the NUL that peek returns at the end. *)
Fixpoint next_while (p : N -> bool) (rs cu : list N) (ps ln cl : nat) : lx :=
  match rs with
  | [] => Lx [] cu ps ln cl
  | r :: t => if p r
              then next_while p t (r :: cu) (S ps) (if cl <? 1 then S ln else ln) (S cl)
              else Lx rs cu ps ln cl
  end.
Definition nextWhile (p : N -> bool) (l : lx) : lx :=
  next_while p (rest l) (cur l) (lpos l) (lline l) (lcol l).

(** one round of the state machine: lexDefaultState (327-403) followed by the
    state it selects, which emits exactly one token; None when it stops. *)
Definition lexToken (l : lx) : option (token * lx) :=
  let r := peek l in
  if isEmpty r then None
  else if isSpace r then Some (emit TWhitespace (nextWhile isSpace (next l)))
  else if (r =? 10)%N then                       (* lexStateNewLine, 306-311 *)
    let (t, l') := emit TNewLine (next l) in
    Some (t, Lx (rest l') (cur l') (lpos l') (lline l') 0)
  else if (r =? 61)%N then                       (* lexStateEqual, 313-325 *)
    let l' := next l in
    if (peek l' =? 62)%N then Some (emit TRocket (next l'))
    else Some (emit TEqual l')
  else match punct r with
       | Some t => Some (emit t (next l))
       | None =>
           if isWord r
           then Some (emit TWord (nextWhile (fun c => negb (isWordBreak c)) (next l)))
           else Some (emit TExtra (next l))
       end.

(** lexer.go 430-437 run: tokens in the order they are sent, ended by EOF.
    The fuel is the number of remaining runes (each round consumes one). *)
Fixpoint lexRun (fuel : nat) (l : lx) : list token :=
  match fuel with
  | O => [fst (emit TEOF l)]
  | S k => match lexToken l with
           | None => [fst (emit TEOF l)]
           | Some (t, l') => t :: lexRun k l'
           end
  end.

Definition lexAll (src : string) : list token :=
  let l := newLexer src in lexRun (length (rest l)) l.
