(** Model of streaming: the writer, its keep-alive goroutine and the reader in
    _examples/webrpc-streaming/proto/chat.gen.go. *)
From Verif Require Import Base Utf8 Json GoVal Rpc.

(** ** Writing *)

(** What one call writes to the response, and whether it takes the mutex.
    ping: chat.gen.go 109-116; write: 118-131; the error of the handler: 459-463;
    the deferred answer to a panic (314-319) does not take the mutex. *)
Record op := Op { op_locked : bool; op_bytes : string }.

Definition lf : string := chr 10.

Definition pingOp : op := Op true lf.

(** json.Encoder.Encode writes the value and a line feed in one Write, or
    nothing if the value cannot be encoded *)
Definition encode (env : goEnv) (fs : list goField) (vs : list gval) : string :=
  match marshalStruct env fs vs with
  | Some s => (s ++ lf)%string
  | None => EmptyString
  end.

(** Write of a stream writer, chat.gen.go 70-78: one payload per call *)
Definition writeOp (env : goEnv) (fs : list goField) (vs : list gval) : op := Op true (encode env fs vs).

(** sendErrorJSON on a stream, chat.gen.go 476-482; [env] are the structs of
    the package, WebRPCError among them *)
Definition webrpcErrorField : goField := GF "webrpcError" false (TRef "WebRPCError").
Definition errorLine (env : goEnv) (e : rpcError) : string :=
  encode env [webrpcErrorField] [VPtr (Some (VStruct (errorVals e)))].
Definition errorOp (env : goEnv) (e : rpcError) : op := Op true (errorLine env e).
Definition panicOp (env : goEnv) (msg : string) : op := Op false (errorLine env (withCausef ErrWebrpcServerPanic msg)).

(** how the implementation ends: 454-466, and 314-319 for a panic *)
Inductive streamEnding : Type := SDone | SFails (e : goError) | SPanics (msg : string).

(** chat.gen.go 411-467 serveSubscribeMessagesJSONStream, from the first ping on: the calls of the
    goroutine that serves the request *)
Definition handlerOps (env : goEnv) (fs : list goField) (msgs : list (list gval)) (e : streamEnding) : list op :=
  pingOp :: map (writeOp env fs) msgs ++
  match e with
  | SDone => []
  | SFails e => [errorOp env (toRpcError e)]
  | SPanics m => [panicOp env m]
  end.

(** chat.gen.go 95-107 keepAlive: any number of pings.  It can end at any time:
    the schedules below need not run a program to its end.  Simplification:
    the goroutine may run from the beginning (the code starts it after the first ping). *)
Definition keepAliveOps (n : nat) : list op := repeat pingOp n.

(** *** Goroutines *)

(** the calls still to make, and the bytes of the current call still to be
    written (writing is not atomic) *)
Record thread := Thread { th_todo : list op; th_cur : option (bool * string) }.

Record world := World { wd_lock : option nat; wd_out : string; wd_threads : list thread }.

Inductive step : world -> world -> Prop :=
(** mu.Lock *)
| StepLock i o rest out ths :
    nth_error ths i = Some (Thread (o :: rest) None) -> op_locked o = true ->
    step (World None out ths) (World (Some i) out (setNth i (Thread rest (Some (true, op_bytes o))) ths))
| StepBegin i o rest l out ths :
    nth_error ths i = Some (Thread (o :: rest) None) -> op_locked o = false ->
    step (World l out ths) (World l out (setNth i (Thread rest (Some (false, op_bytes o))) ths))
| StepWrite i b c s rest l out ths :
    nth_error ths i = Some (Thread rest (Some (b, String c s))) ->
    step (World l out ths) (World l (out ++ String c EmptyString) (setNth i (Thread rest (Some (b, s))) ths))
(** mu.Unlock *)
| StepUnlock i rest l out ths :
    nth_error ths i = Some (Thread rest (Some (true, EmptyString))) ->
    step (World l out ths) (World None out (setNth i (Thread rest None) ths))
| StepEnd i rest l out ths :
    nth_error ths i = Some (Thread rest (Some (false, EmptyString))) ->
    step (World l out ths) (World l out (setNth i (Thread rest None) ths)).

Inductive steps : world -> world -> Prop :=
| StepsRefl w : steps w w
| StepsTrans a b c : steps a b -> step b c -> steps a c.

Definition start (progs : list (list op)) : world :=
  World None EmptyString (map (fun p => Thread p None) progs).

(** goroutine [i] made all its calls *)
Definition finished (i : nat) (w : world) : Prop := nth_error (wd_threads w) i = Some (Thread [] None).

(** ** Reading *)

(** how the response body ends: io.EOF, io.ErrUnexpectedEOF, a context error, another error *)
Inductive bodyEnd : Type := EndEOF | EndUnexpected | EndCancelled | EndOther.

(** chat.gen.go 250-262 handleReadError *)
Definition endError (e : bodyEnd) : rpcError :=
  match e with
  | EndEOF => withCausef ErrWebrpcStreamFinished "EOF"
  | EndUnexpected => withCausef ErrWebrpcStreamLost "unexpected EOF"
  | EndCancelled => withCausef ErrWebrpcClientAborted "context canceled"
  | EndOther => withCausef ErrWebrpcBadResponse "reading stream"
  end.

(** bufio.Reader.ReadBytes('\n'): the line without its line feed and what follows; None at the end of the body *)
Fixpoint readLine (s : string) : option (string * string) :=
  match s with
  | EmptyString => None
  | String c r =>
      if (N_of_byte c =? 10)%N then Some (EmptyString, r)
      else match readLine r with
           | Some (l, rest) => Some (String c l, rest)
           | None => None
           end
  end.

(** chat.gen.go 224-248 streamReader.read: the next line that is not empty.
    Simplification: the context is not done while reading (226-232). *)
Fixpoint nextLine (fuel : nat) (s : string) : option (string * string) :=
  match fuel with
  | O => None
  | S f => match readLine s with
           | Some (EmptyString, rest) => nextLine f rest
           | x => x
           end
  end.

(** the struct of Read, chat.gen.go 201-204 *)
Definition readerFields (fs : list goField) : list goField := fs ++ [webrpcErrorField].

Inductive readResult : Type :=
| Message (vs : list gval) (rest : string)
| Failed (e : rpcError).

(** chat.gen.go 211-213: out.WebRPCError != nil *)
Definition asError (v : gval) : option rpcError :=
  match v with
  | VPtr (Some (VStruct [VStr n; VInt c; VStr m; VStr t; VInt st])) => Some (RpcError n c m t st None)
  | _ => None
  end.

(** chat.gen.go 200-216 Read *)
Definition read (env : goEnv) (fs : list goField) (tail : bodyEnd) (s : string) : readResult :=
  match nextLine (S (String.length s)) s with
  | None => Failed (endError tail)
  | Some (line, rest) =>
      match unmarshalStruct env (readerFields fs) (line ++ lf) with
      | None => Failed (withCausef ErrWebrpcBadResponse "reading stream")
      | Some vs =>
          match asError (last vs (VPtr None)) with
          | Some e => Failed e
          | None => Message (removelast vs) rest
          end
      end
  end.

(** a caller that reads until the first error *)
Fixpoint readAll (fuel : nat) (env : goEnv) (fs : list goField) (tail : bodyEnd) (s : string) : list (list gval) * option rpcError :=
  match fuel with
  | O => ([], None)
  | S f => match read env fs tail s with
           | Failed e => ([], Some e)
           | Message vs rest => let (ms, e) := readAll f env fs tail rest in (vs :: ms, e)
           end
  end.

Definition received (env : goEnv) (fs : list goField) (tail : bodyEnd) (body : string) : list (list gval) * option rpcError :=
  readAll (S (String.length body)) env fs tail body.
