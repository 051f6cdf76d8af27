(** The chat server of the streaming example.

    Models /repo/_examples/webrpc-streaming/rpc.go, the whole file, as a transition system: each
    running call is a goroutine with a program counter, one step of one goroutine at a time, in any
    order.

    Simplifications.
    - The library github.com/golang-cz/ringbuf is not in the repository.  It is modelled by what the
      code relies on: [Write] appends; [Subscribe] places the reader [StartBehind] messages behind the
      last one written (at the first message if there are fewer); [Skip] moves the reader past the
      messages already written for which the condition holds; the reader is handed the messages one by
      one from its place on, may be stopped with "too slow" only when it is more than [MaxBehind]
      behind, and must be when it is; it may be stopped at any moment when its context may be
      cancelled, and with ErrRingBufferClosed at any moment after [Close].  A message written after
      [Close] is kept like any other.  The size of the buffer is a parameter.
    - Message ids are unbounded (uint64 in Go); logging is left out; panics of the stream writer are
      left out.
    - Reading the clock gives the current value of a clock that never goes back. *)

From Coq Require Import List String Arith Bool PeanoNat Lia.
Import ListNotations.
Local Open Scope string_scope.

(** proto/chat.gen.go:137-142 (type Message). *)
Record message := Message { msg_id : nat; msg_user : string; msg_text : string; msg_time : nat }.

(** What a call returns: nothing, or one of the errors of rpc.go:64-92; [WriteFailed] is the error of
    the stream writer, passed on unchanged (rpc.go:81-83). *)
Inductive result :=
| Ok
| EmptyUsername          (* proto.ErrEmptyUsername, rpc.go:61 *)
| StreamFinished         (* proto.ErrWebrpcStreamFinished, rpc.go:88 *)
| InternalError          (* proto.ErrWebrpcInternalError, rpc.go:90 *)
| WriteFailed.

(** The calls a client of the server, and its main program, can make. *)
Inductive call :=
| SendMessage (username text : string)
| SubscribeMessages (username : string) (lastMessageId : option nat)
| CloseServer.

(** What a goroutine does after the SendMessage it is executing returns. *)
Inductive cont :=
| KReturn                                             (* the call was SendMessage *)
| KSubscribe (username : string) (last : option nat)  (* rpc.go:64 "joined" *)
| KResult (r : result)                                (* rpc.go:65 "left" *)
| KClose.                                             (* rpc.go:36 "Server shutting down..." *)

(** Program counters. *)
Inductive pc :=
| PNow (u t : string) (k : cont)              (* rpc.go:41 about to read the clock *)
| PLock (u t : string) (now : nat) (k : cont) (* rpc.go:43 s.mu.Lock() *)
| PBuild (u t : string) (now : nat) (k : cont)(* rpc.go:46-51 &proto.Message{Id: s.msgId, ...} *)
| PIncr (m : message) (k : cont)              (* rpc.go:52 s.msgId++ *)
| PWrite (m : message) (k : cont)             (* rpc.go:54 s.messages.Write(msg) *)
| PUnlock (k : cont)                          (* rpc.go:44 deferred s.mu.Unlock() *)
| PEntry (u : string) (last : option nat)     (* rpc.go:60 *)
| PSub (u : string) (last : option nat)       (* rpc.go:67 s.messages.Subscribe *)
| PSkip (u : string) (last : option nat) (pos : nat)   (* rpc.go:73-78 *)
| PStream (u : string) (pos : nat)            (* rpc.go:80-84 *)
| PSwitch (u : string) (r : result)           (* rpc.go:86-91, or 82: the result is decided *)
| PClose                                      (* rpc.go:37 s.messages.Close() *)
| PReturn (r : result)
| PDone.

(** rpc.go:17-22 (ChatServer).  The buffer is the history of all messages written, each with the
    number of the goroutine that wrote it; that number is read by nobody, it is there for the
    proofs. *)
Record state := State {
  mu : option nat;
  nextId : nat;
  written : list (nat * message);
  closed : bool;
  clock : nat;
  thread : nat -> option pc }.

(** rpc.go:24-33 (NewChatServer). *)
Definition initial : state := State None 0 [] false 0 (fun _ => None).

Definition setPc (s : state) (i : nat) (p : pc) : state :=
  State (mu s) (nextId s) (written s) (closed s) (clock s)
        (fun j => if Nat.eqb j i then Some p else thread s j).

Definition setMu (s : state) (o : option nat) : state :=
  State o (nextId s) (written s) (closed s) (clock s) (thread s).

Definition setNext (s : state) (n : nat) : state :=
  State (mu s) n (written s) (closed s) (clock s) (thread s).

Definition addMsg (s : state) (i : nat) (m : message) : state :=
  State (mu s) (nextId s) (written s ++ [(i, m)])%list (closed s) (clock s) (thread s).

Definition setClosed (s : state) : state :=
  State (mu s) (nextId s) (written s) true (clock s) (thread s).

Definition setClock (s : state) (n : nat) : state :=
  State (mu s) (nextId s) (written s) (closed s) n (thread s).

(** What can be seen from outside: calls, messages written to the stream of a call, returns. *)
Inductive event :=
| ECall (i : nat) (c : call)
| EMsg (i : nat) (m : message)
| ERet (i : nat) (r : result).

(** Where a call begins: rpc.go:40, 59, 35. *)
Definition entry (c : call) : pc :=
  match c with
  | SendMessage u t => PNow u t KReturn
  | SubscribeMessages u l => PEntry u l
  | CloseServer => PNow "SYSTEM" "Server shutting down..." KClose
  end.

(** rpc.go:64, 65: fmt.Sprintf("%v joined", username) and "left". *)
Definition joined (u : string) : string := u ++ " joined".
Definition left_ (u : string) : string := u ++ " left".

(** Where a goroutine goes on after SendMessage has returned. *)
Definition resume (k : cont) : pc :=
  match k with
  | KReturn => PReturn Ok
  | KSubscribe u l => PSub u l
  | KResult r => PReturn r
  | KClose => PClose
  end.

(** rpc.go:69-70: StartBehind and MaxBehind of a buffer of [size] messages. *)
Definition startBehind (size : nat) : nat := size / 2.
Definition maxBehind (size : nat) : nat := 3 * size / 4.

(** rpc.go:75-77: past the messages with msg.Id <= *lastMessageId. *)
Fixpoint skipWhile (f : message -> bool) (ms : list message) : nat :=
  match ms with
  | [] => 0
  | m :: ms' => if f m then S (skipWhile f ms') else 0
  end.

Definition history (s : state) : list message := map snd (written s).

(** One step of goroutine [i]; [size] is the size of the buffer. *)
Inductive gstep (size : nat) (i : nat) : pc -> state -> option event -> state -> Prop :=
| g_now : forall u t k s,                        (* rpc.go:41 *)
    gstep size i (PNow u t k) s None (setPc s i (PLock u t (clock s) k))
| g_lock : forall u t now k s,                   (* rpc.go:43 *)
    mu s = None ->
    gstep size i (PLock u t now k) s None (setPc (setMu s (Some i)) i (PBuild u t now k))
| g_build : forall u t now k s,                  (* rpc.go:46-51 *)
    gstep size i (PBuild u t now k) s None (setPc s i (PIncr (Message (nextId s) u t now) k))
| g_incr : forall m k s,                         (* rpc.go:52 *)
    gstep size i (PIncr m k) s None (setPc (setNext s (nextId s + 1)) i (PWrite m k))
| g_write : forall m k s,                        (* rpc.go:54 *)
    gstep size i (PWrite m k) s None (setPc (addMsg s i m) i (PUnlock k))
| g_unlock : forall k s,                         (* rpc.go:44, 56 *)
    gstep size i (PUnlock k) s None (setPc (setMu s None) i (resume k))
| g_empty : forall l s,                          (* rpc.go:60-62 *)
    gstep size i (PEntry "" l) s None (setPc s i (PReturn EmptyUsername))
| g_entry : forall u l s,                        (* rpc.go:60, 64 *)
    u <> "" ->
    gstep size i (PEntry u l) s None (setPc s i (PNow "" (joined u) (KSubscribe u l)))
| g_sub : forall u l s,                          (* rpc.go:67-71 *)
    gstep size i (PSub u l) s None
      (setPc s i (PSkip u l (List.length (written s) - startBehind size)))
| g_skip_none : forall u pos s,                  (* rpc.go:73 *)
    gstep size i (PSkip u None pos) s None (setPc s i (PStream u pos))
| g_skip_some : forall u last pos s,             (* rpc.go:73-78 *)
    gstep size i (PSkip u (Some last) pos) s None
      (setPc s i (PStream u (pos + skipWhile (fun m => Nat.leb (msg_id m) last)
                                             (skipn pos (history s)))))
| g_msg : forall u pos s m,                      (* rpc.go:80-81, the write succeeds *)
    List.length (written s) - pos <= maxBehind size ->
    nth_error (history s) pos = Some m ->
    gstep size i (PStream u pos) s (Some (EMsg i m)) (setPc s i (PStream u (S pos)))
| g_fail : forall u pos s m,                     (* rpc.go:81-83, the write fails *)
    nth_error (history s) pos = Some m ->
    gstep size i (PStream u pos) s None (setPc s i (PSwitch u WriteFailed))
| g_slow : forall u pos s,                       (* rpc.go:89-90, too slow *)
    maxBehind size < List.length (written s) - pos ->
    gstep size i (PStream u pos) s None (setPc s i (PSwitch u InternalError))
| g_cancel : forall u pos s,                     (* rpc.go:89-90, the context is cancelled *)
    gstep size i (PStream u pos) s None (setPc s i (PSwitch u InternalError))
| g_closed : forall u pos s,                     (* rpc.go:87-88 *)
    closed s = true ->
    gstep size i (PStream u pos) s None (setPc s i (PSwitch u StreamFinished))
| g_left : forall u r s,                         (* rpc.go:65, deferred *)
    gstep size i (PSwitch u r) s None (setPc s i (PNow "" (left_ u) (KResult r)))
| g_close : forall s,                            (* rpc.go:37 *)
    gstep size i PClose s None (setPc (setClosed s) i (PReturn Ok))
| g_return : forall r s,
    gstep size i (PReturn r) s (Some (ERet i r)) (setPc s i PDone).

(** One step of the server: a new call is made, a goroutine moves, or time passes. *)
Inductive step (size : nat) : state -> option event -> state -> Prop :=
| s_call : forall s i c, thread s i = None -> step size s (Some (ECall i c)) (setPc s i (entry c))
| s_go : forall s i p e s', thread s i = Some p -> gstep size i p s e s' -> step size s e s'
| s_tick : forall s n, clock s <= n -> step size s None (setClock s n).

Definition emit (e : option event) : list event :=
  match e with None => [] | Some x => [x] end.

(** An execution from a state, and the events seen in it, in order. *)
Inductive steps (size : nat) (s0 : state) : list event -> state -> Prop :=
| steps_nil : steps size s0 [] s0
| steps_step : forall tr s e s',
    steps size s0 tr s -> step size s e s' -> steps size s0 (tr ++ emit e)%list s'.

(** An execution of the server from its start. *)
Definition run (size : nat) (tr : list event) (s : state) : Prop := steps size initial tr s.
