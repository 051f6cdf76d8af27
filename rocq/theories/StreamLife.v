(** Model of the life of a streaming call in time: the keep-alive of the server, the connection, and the timeout of
    the TypeScript client.

    Models _examples/webrpc-streaming/proto/chat.gen.go 80-116 (streamWriter, keepAlive, ping), 118-131 (write) and
    440-467 (serveSubscribeMessagesJSONStream from the stream writer on), and webapp/src/rpc.gen.ts 148-228
    (sseResponse: the interval, the reads).  What the bytes say is modelled in Stream.v and Ts.v; here a chunk is the
    time at which it was flushed.

    Every goroutine makes one step at a time, in any order; the clock (milliseconds) goes on by any amount in between.

    Simplifications.
    - An operation on the response that takes long ends when the step is made; what Write puts into the buffer is sent
      by the Flush after it.
    - The answer to a panic and the error of a first ping that fails are not sent (the answer to a panic is in
      Stream.v); the end of the handler ends the response, and the context is done then (net/http sees to it where
      the handler has not).
    - A connection is up; or cut, when nothing arrives any more and no one is told; or broken, when operations on it
      fail.  The server cancels the context of the request only if the connection is broken (net/http: the
      connection is read in the background).
    - Of the client only the reading is modelled: it begins with the first chunk; a read that fails and a read that
      has been given up (releaseLock rejects it) end it at once; a line with an error is read like any other. *)
From Coq Require Import List ZArith Bool Lia.
Import ListNotations.
Local Open Scope Z_scope.

(** chat.gen.go 93: const StreamKeepAliveInterval = 10 * time.Second *)
Definition keepAliveInterval : Z := 10000.
(** rpc.gen.ts 152: const timeout = (10 + 1) * 1000 *)
Definition clientTimeout : Z := 11000.

(** what the goroutine of the request writes under the mutex: the first ping (443), a message (118-131), the error
    the implementation has returned (460-463) *)
Inductive task := First | Message | Failure.
(** its program counter *)
Inductive hpc :=
| HLock (t : task)                (* 110, 120, 460: mu.Lock() *)
| HWrite (t : task)               (* 111, 122, 461 *)
| HFlush (t : task) (ok : bool)   (* 112, 127, 462; whether something was written *)
| HUnlock (t : task) (ok : bool)  (* 113, 128, 463 *)
| HSpawn                          (* 448-451: context.WithCancel, go streamWriter.keepAlive(ctx) *)
| HImpl                           (* 454: in the implementation *)
| HCancel                         (* 455: cancel() *)
| HDefer                          (* 449: the deferred cancel *)
| HDone.
(** the program counter of keepAlive, 95-107 *)
Inductive kpc :=
| KNone                           (* not started *)
| KStart                          (* 97: about to evaluate the select *)
| KSelect (due : Z)               (* in the select; the timer fires at [due] *)
| KLock | KWrite | KFlush (ok : bool) | KUnlock (ok : bool)   (* 109-116 ping *)
| KEnd.
Inductive actor := Handler | Keeper.
Inductive connection := Up | Cut | Broken.
(** the client: waiting for the response, reading, or done: the body has ended (onClose) or the stream is lost
    (onError with WebrpcStreamLost) *)
Inductive cpc := CWait | CReading | CClosed | CLost.

Record world := World {
  now : Z;
  lock : option actor;
  h : hpc; ht : Z;                (* the goroutine of the request, and since when it is there *)
  k : kpc; kt : Z;                (* keepAlive, and since when it is there *)
  doneAt : option Z;              (* since when the context of the implementation is done *)
  net : connection;
  wire : list (Z * bool);         (* what is on the way to the client: when it was sent, and whether it is the end *)
  c : cpc;
  last : Z;                       (* 151: lastReadTime *)
  timer : option Z }.             (* 154: when the interval fires next; None: it is cleared *)

Definition cancelled (t : Z) (d : option Z) : option Z := match d with Some x => Some x | None => Some t end.
(** the bytes written get to the wire if the connection is up *)
Definition sent (n : connection) (ok : bool) (t : Z) (wi : list (Z * bool)) : list (Z * bool) :=
  match n, ok with Up, true => wi ++ [(t, false)] | _, _ => wi end.
(** after the handler has returned nothing gets to the client *)
Definition sentLate (hp : hpc) (n : connection) (ok : bool) (t : Z) (wi : list (Z * bool)) : list (Z * bool) :=
  match hp with HDone => wi | _ => sent n ok t wi end.
(** where the goroutine goes on after it has written: 443-447, 130, 464 *)
Definition afterUnlock (t : task) (ok : bool) : hpc :=
  match t, ok with
  | First, true => HSpawn
  | First, false => HDefer
  | Message, _ => HImpl
  | Failure, _ => HDefer
  end.

Inductive event := Ping | Return | TimedOut | Other.

Inductive step : world -> event -> world -> Prop :=
(** time *)
| SPass x n l hp th kp tk d ne wi cp la ti : 0 < x ->
    step (World n l hp th kp tk d ne wi cp la ti) Other (World (n + x) l hp th kp tk d ne wi cp la ti)
(** the goroutine of the request *)
| SLock n t th kp tk d ne wi cp la ti :
    step (World n None (HLock t) th kp tk d ne wi cp la ti) Other (World n (Some Handler) (HWrite t) n kp tk d ne wi cp la ti)
| SWrite n l t th kp tk d ne wi cp la ti ok :
    (* a message or an error that cannot be encoded is not written *)
    (ok = true -> ne <> Broken) -> (t = First -> ne <> Broken -> ok = true) ->
    step (World n l (HWrite t) th kp tk d ne wi cp la ti) Other (World n l (HFlush t ok) n kp tk d ne wi cp la ti)
| SFlush n l t th kp tk d ne wi cp la ti ok :
    step (World n l (HFlush t ok) th kp tk d ne wi cp la ti) Other (World n l (HUnlock t ok) n kp tk d ne (sent ne ok n wi) cp la ti)
| SUnlock n l t th kp tk d ne wi cp la ti ok :
    step (World n l (HUnlock t ok) th kp tk d ne wi cp la ti) Other (World n None (afterUnlock t ok) n kp tk d ne wi cp la ti)
| SSpawn n l th kp tk d ne wi cp la ti :
    step (World n l HSpawn th kp tk d ne wi cp la ti) Other (World n l HImpl n KStart n d ne wi cp la ti)
(** the implementation writes a message; returns an error; returns nil or panics *)
| SMessage n l th kp tk d ne wi cp la ti :
    step (World n l HImpl th kp tk d ne wi cp la ti) Other (World n l (HLock Message) n kp tk d ne wi cp la ti)
| SError n l th kp tk d ne wi cp la ti :
    step (World n l HImpl th kp tk d ne wi cp la ti) Other (World n l HCancel n kp tk d ne wi cp la ti)
| SNil n l th kp tk d ne wi cp la ti :
    step (World n l HImpl th kp tk d ne wi cp la ti) Other (World n l HDefer n kp tk d ne wi cp la ti)
| SCancel n l th kp tk d ne wi cp la ti :
    step (World n l HCancel th kp tk d ne wi cp la ti) Other (World n l (HLock Failure) n kp tk (cancelled n d) ne wi cp la ti)
| SReturn n l th kp tk d ne wi cp la ti :
    step (World n l HDefer th kp tk d ne wi cp la ti) Return
         (World n l HDone n kp tk (cancelled n d) ne (match ne with Up => wi ++ [(n, true)] | _ => wi end) cp la ti)
(** keepAlive *)
| KSleep n l hp th tk d ne wi cp la ti :
    step (World n l hp th KStart tk d ne wi cp la ti) Other (World n l hp th (KSelect (n + keepAliveInterval)) n d ne wi cp la ti)
| KWake n l hp th due tk d ne wi cp la ti : due <= n ->
    step (World n l hp th (KSelect due) tk d ne wi cp la ti) Other (World n l hp th KLock n d ne wi cp la ti)
| KStop n l hp th due tk x ne wi cp la ti :
    step (World n l hp th (KSelect due) tk (Some x) ne wi cp la ti) Other (World n l hp th KEnd n (Some x) ne wi cp la ti)
| KTake n hp th tk d ne wi cp la ti :
    step (World n None hp th KLock tk d ne wi cp la ti) Other (World n (Some Keeper) hp th KWrite n d ne wi cp la ti)
| KPut n l hp th tk d ne wi cp la ti ok : (ok = true <-> ne <> Broken) ->
    step (World n l hp th KWrite tk d ne wi cp la ti) Other (World n l hp th (KFlush ok) n d ne wi cp la ti)
| KSend n l hp th tk d ne wi cp la ti ok :
    step (World n l hp th (KFlush ok) tk d ne wi cp la ti) Ping (World n l hp th (KUnlock ok) n d ne (sentLate hp ne ok n wi) cp la ti)
| KRelease n l hp th tk d ne wi cp la ti ok :
    step (World n l hp th (KUnlock ok) tk d ne wi cp la ti) Other (World n None hp th (if ok then KStart else KEnd) n d ne wi cp la ti)
(** the connection *)
| NCut n l hp th kp tk d wi cp la ti :
    step (World n l hp th kp tk d Up wi cp la ti) Other (World n l hp th kp tk d Cut [] cp la ti)
| NBreak n l hp th kp tk d ne wi cp la ti :
    step (World n l hp th kp tk d ne wi cp la ti) Other (World n l hp th kp tk d Broken [] cp la ti)
| NGone n l hp th kp tk d wi cp la ti :
    step (World n l hp th kp tk d Broken wi cp la ti) Other (World n l hp th kp tk (cancelled n d) Broken wi cp la ti)
(** the client *)
| COpen n l hp th kp tk d ne x wi la ti :
    step (World n l hp th kp tk d ne ((x, false) :: wi) CWait la ti) Other
         (World n l hp th kp tk d ne wi CReading n (Some (n + clientTimeout)))
| CRead n l hp th kp tk d ne x wi la ti :
    step (World n l hp th kp tk d ne ((x, false) :: wi) CReading la ti) Other (World n l hp th kp tk d ne wi CReading n ti)
| CEnd n l hp th kp tk d ne x wi la ti :
    step (World n l hp th kp tk d ne ((x, true) :: wi) CReading la ti) Other (World n l hp th kp tk d ne wi CClosed n ti)
| CFail n l hp th kp tk d wi la ti :
    step (World n l hp th kp tk d Broken wi CReading la ti) Other (World n l hp th kp tk d Broken wi CLost la ti)
(** 154-160: the interval; after the end of the reading releaseLock changes nothing *)
| CLate n l hp th kp tk d ne wi cp la ti : ti <= n -> n - la > clientTimeout ->
    step (World n l hp th kp tk d ne wi cp la (Some ti)) TimedOut
         (World n l hp th kp tk d ne wi (match cp with CReading => CLost | _ => cp end) la None)
| CFine n l hp th kp tk d ne wi cp la ti : ti <= n -> n - la <= clientTimeout ->
    step (World n l hp th kp tk d ne wi cp la (Some ti)) Other (World n l hp th kp tk d ne wi cp la (Some (n + clientTimeout))).

(** the response has been started with its headers (chat.gen.go 432-441): the first ping is next *)
Definition start : world := World 0 None (HLock First) 0 KNone 0 None Up [] CWait 0 None.

(** runs all of whose states have a property, with what happened *)
Inductive run (P : world -> Prop) : list event -> world -> Prop :=
| RStart : P start -> run P [] start
| RStep es w e w' : run P es w -> step w e w' -> P w' -> run P (es ++ [e]) w'.
Definition anyState (w : world) : Prop := True.

(** ** Specification *)

(** Delays: nobody waits longer than [d] where nothing but the scheduler, the mutex and the response hold him up (the
    implementation may take as long as it likes, also to write its messages); nothing is on the way for longer than
    [j]; the interval of the client is at most [e] late. *)
Definition HandlerTimely (d : Z) (w : world) : Prop :=
  match h w with
  | HImpl | HDone | HLock First | HWrite First | HFlush First _ => True
  | HLock Message | HWrite Message | HFlush Message _ | HUnlock Message _ => True
  | _ => now w <= ht w + d
  end.
Definition KeeperTimely (d : Z) (w : world) : Prop :=
  match k w with
  | KNone | KEnd => True
  | KSelect due => now w <= due + d /\ match doneAt w with Some x => now w <= Z.max x (kt w) + d | None => True end
  | _ => now w <= kt w + d
  end.
Definition WireTimely (j : Z) (w : world) : Prop := Forall (fun x => now w <= fst x + j) (wire w).
Definition TimerTimely (e : Z) (w : world) : Prop := match timer w with Some t => now w <= t + e | None => True end.
Definition Timely (d j e : Z) (w : world) : Prop :=
  HandlerTimely d w /\ KeeperTimely d w /\ WireTimely j w /\ TimerTimely e w.

(** the implementation is running *)
Definition Running (w : world) : Prop :=
  match h w with HImpl | HLock Message | HWrite Message | HFlush Message _ | HUnlock Message _ => True | _ => False end.
