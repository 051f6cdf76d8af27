(** Model of the lexer goroutine and the loop that reads its channel. *)
From Verif Require Import Base Utf8 Lexer.

(** lexer.go 430-437 run, 461-471 emit: the goroutine runs the state functions, waits in a send on the unbuffered channel,
    closes the channel after the EOF token, and ends *)
Inductive producer : Type :=
| PRun (l : lx)
| PSend (t : token) (l : lx)
| PSendEOF (t : token)
| PClose
| PDone.

(** tokenizer.go 22-25: waiting in the receive of [range], or holding a token; the tokens kept so far.
    What the loop does with a token it keeps is modelled in Parser.v; it does not touch the channel. *)
Inductive consumer : Type :=
| CWait (kept : list token)
| CHas (kept : list token) (t : token)
| CDone (kept : list token).

Record pipe := Pipe { pp_prod : producer; pp_cons : consumer; pp_closed : bool }.

(** what the goroutine does after a send *)
Definition afterSend (p : producer) : option (token * producer) :=
  match p with
  | PSend t l => Some (t, PRun l)
  | PSendEOF t => Some (t, PClose)
  | _ => None
  end.

Inductive pstep : pipe -> pipe -> Prop :=
(** a state function runs up to its emit *)
| PLex l t l' c b : lexToken l = Some (t, l') -> pstep (Pipe (PRun l) c b) (Pipe (PSend t l') c b)
| PEnd l c b : lexToken l = None -> pstep (Pipe (PRun l) c b) (Pipe (PSendEOF (fst (emit TEOF l))) c b)
(** send and receive meet; a send on a closed channel would panic: no step *)
| PComm p p' t kept : afterSend p = Some (t, p') -> pstep (Pipe p (CWait kept) false) (Pipe p' (CHas kept t) false)
| PShut c b : pstep (Pipe PClose c b) (Pipe PDone c true)
(** the loop body *)
| PKeep p kept t b : ty t <> TEOF -> pstep (Pipe p (CHas kept t) b) (Pipe p (CWait (kept ++ [t])) b)
| PBreak p kept t b : ty t = TEOF -> pstep (Pipe p (CHas kept t) b) (Pipe p (CDone kept) b)
(** a receive on a closed channel ends the loop *)
| PClosed p kept : pstep (Pipe p (CWait kept) true) (Pipe p (CDone kept) true).

Inductive psteps : pipe -> pipe -> Prop :=
| PRefl w : psteps w w
| PTrans a b c : psteps a b -> pstep b c -> psteps a c.

(** newLexer starts the goroutine; tokenize starts to receive *)
Definition pstart (src : string) : pipe := Pipe (PRun (newLexer src)) (CWait []) false.
