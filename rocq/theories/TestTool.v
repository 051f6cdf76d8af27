(** Model of the webrpc-test tool: cmd/webrpc-test/main.go, client.Wait (tests/client/client.go 12-33),
    RunTestServer (tests/server/server.go 192-244) and the Makefile target that runs them.
    Time is counted in nanoseconds from the start of the function.  Timers fire exactly on time and the code between
    two waits takes no time (simplification); when two cases of a select are ready at the same moment either
    may be taken. *)
From Verif Require Import Base Cli.

Definition ms : N := 1000000.
Definition second : N := 1000 * ms.

(** ** client.Wait, tests/client/client.go 12-33 *)

(** What a call of GetEmpty that is begun at some moment would do without a deadline: how long it takes, and whether it returns nil. *)
Record attempt := Attempt { at_takes : N; at_ok : bool }.

(** GetEmpty(ctx) begun at [t] where the deadline of ctx is [T]: the generated client does not begin a call when
    ctx is done (tests/client/client.gen.go 398-411, doHTTPRequest), and net/http gives a call up when ctx is done. *)
Inductive Call (T : N) (srv : N -> attempt) (t : N) : bool -> N -> Prop :=
| CallDone : (T <= t)%N -> Call T srv t false t
| CallAnswered : (t < T)%N -> (t + at_takes (srv t) <= T)%N -> Call T srv t (at_ok (srv t)) (t + at_takes (srv t))
| CallGivenUp : (t < T)%N -> (T <= t + at_takes (srv t))%N -> Call T srv t false T.

(** Where Wait is: about to call, about to select, returned (nil or the error). *)
Inductive waiting :=
| Calling (t : N)
| Selecting (t : N)
| Returned (ready : bool) (t : N).

Definition retryDelay : N := 100 * ms.

(** client.go 18-32; [T] is the deadline of ctx (a timeout that is not positive: 0) *)
Inductive WaitStep (T : N) (srv : N -> attempt) : waiting -> waiting -> Prop :=
| StepReady t e : Call T srv t true e -> WaitStep T srv (Calling t) (Returned true e)
| StepNotReady t e : Call T srv t false e -> WaitStep T srv (Calling t) (Selecting e)
| StepTimedOut e : (T <= e + retryDelay)%N -> WaitStep T srv (Selecting e) (Returned false (N.max e T))
| StepRetry e : (e + retryDelay <= T)%N -> WaitStep T srv (Selecting e) (Calling (e + retryDelay)).

Inductive WaitRun (T : N) (srv : N -> attempt) : waiting -> waiting -> Prop :=
| RunHere w : WaitRun T srv w w
| RunStep w w' w'' : WaitStep T srv w w' -> WaitRun T srv w' w'' -> WaitRun T srv w w''.

(** ** net/http.Server.Shutdown: the listeners are closed at once; then it looks, at growing intervals, whether a
    connection is still in use.  [busy t]: one is in use at [t]. *)
Definition pollMax : N := 500 * ms.

Inductive Shuts (busy : N -> bool) (deadline : N) : N -> N -> bool -> N -> Prop :=
| ShutIdle now base : busy now = false -> Shuts busy deadline now base true now
| ShutLate now base jitter : busy now = true -> (jitter < base / 10)%N -> (deadline <= now + base + jitter)%N ->
    Shuts busy deadline now base false (N.max now deadline)
| ShutAgain now base jitter ok e : busy now = true -> (jitter < base / 10)%N -> (now + base + jitter <= deadline)%N ->
    Shuts busy deadline (now + base + jitter) (N.min (2 * base) pollMax) ok e ->
    Shuts busy deadline now base ok e.

(** server.Shutdown(ctx) at [t] with a second of grace, tests/server/server.go 209-214, 239-244; the result is
    whether it returned nil *)
Definition Shutdown (busy : N -> bool) (t : N) (ok : bool) (e : N) : Prop := Shuts busy (t + second) t ms ok e.

(** ** RunTestServer, tests/server/server.go 192-244 *)

(** A connection in use: from its first byte to the end of the answer, if the server accepts it. *)
Record use := Use { u_from : N; u_until : N }.

(** What happens around the server: when the port is bound ([None]: net.Listen fails), whether and when Serve returns because of
    an error of the listener, the moments at which Close is called, the connections that are tried. *)
Record around := Around { bound : option N; fails : option N; closes : list N; tried : list use }.

(** The first Shutdown closes the listener, whoever calls it; so does Serve when it returns.  A listener that is
    bound after that is closed at once by Serve (net/http.Server.Serve, ErrServerClosed). *)
Definition stops (T : N) (a : around) : N :=
  fold_right N.min T (match fails a with Some f => [f] | None => [] end ++ closes a).

Definition isAccepted (T : N) (a : around) (u : use) : bool :=
  match bound a with Some b => (b <=? u_from u)%N && (u_from u <? stops T a)%N | None => false end.

Definition busyAt (T : N) (a : around) (t : N) : bool :=
  existsb (fun u => isAccepted T a u && (u_from u <=? t)%N && (t <? u_until u)%N) (tried a).

(** server.go 192-225: RunTestServer returns the server iff the port was bound (226-228) *)
Definition runTestServer (a : around) : bool := match bound a with Some _ => true | None => false end.

(** server.go 201-216, the goroutine, and 234-237 Wait.  Nothing but the goroutine closes srv.closed, so its
    first case is never taken: Wait returns when the Shutdown at the timeout has ended, with its error.
    The error of Serve (224) is dropped. *)
Definition ServerWait (T : N) (a : around) (ok : bool) (e : N) : Prop := Shutdown (busyAt T a) T ok e.

(** server.go 239-244 Close, called at [t] *)
Definition ServerClose (T : N) (a : around) (t : N) (ok : bool) (e : N) : Prop := Shutdown (busyAt T a) t ok e.

(** ** main, cmd/webrpc-test/main.go *)

(** flag.FlagSet.Parse of flags whose values are checked by [valid] (Int, Duration: the standard library's parsers, not modelled;
    String: everything).  [defs]: the flags, and whether they are Boolean. *)
Fixpoint parseSet (defs : list (string * bool)) (valid : string -> string -> bool) (n : nat) (args : list string)
    (vals : list (string * string)) : flagResult :=
  match n, args with
  | O, _ => Flags vals args
  | S _, [] => Flags vals []
  | S n, s :: r =>
      match s with
      | String "-"%char (String c s') =>
          if String.eqb s "--" then Flags vals r
          else
            let name0 := if Ascii.eqb c "-"%char then s' else String c s' in
            match name0 with
            | EmptyString => FlagErr (BadSyntax s) vals
            | String d _ =>
                if Ascii.eqb d "-"%char || Ascii.eqb d "="%char then FlagErr (BadSyntax s) vals
                else
                  let '(name, value, hasValue) := cut "="%char name0 in
                  match assoc name defs with
                  | None => if String.eqb name "help" || String.eqb name "h" then FlagErr Help vals
                            else FlagErr (NotDefined name) vals
                  | Some true =>
                      if hasValue then
                        match assoc value boolWords with
                        | Some b => parseSet defs valid n r (mapSet name (if b then "true" else "false") vals)
                        | None => FlagErr (BadBool name value) vals
                        end
                      else parseSet defs valid n r (mapSet name "true" vals)
                  | Some false =>
                      if hasValue then
                        if valid name value then parseSet defs valid n r (mapSet name value vals) else FlagErr (BadBool name value) vals
                      else match r with
                           | v :: r' => if valid name v then parseSet defs valid n r' (mapSet name v vals) else FlagErr (BadBool name v) vals
                           | [] => FlagErr (NeedsArgument name) vals
                           end
                  end
            end
      | _ => Flags vals args
      end
  end.

(** main.go 18-40 *)
Definition modeFlags : list (string * bool) :=
  [("client", true); ("server", true); ("waitForServer", true); ("version", true); ("print-schema", true);
   ("printRIDL", true); ("printJSON", true)].
Definition clientFlags : list (string * bool) := [("url", false)].
Definition serverFlags : list (string * bool) := [("port", false); ("timeout", false)].
Definition waitFlags : list (string * bool) := [("url", false); ("timeout", false)].

(** What the tool does. [FlagsExit]: the flag package (flag.ExitOnError) ends the program with 2, or 0 for -h. *)
Inductive action :=
| PrintVersion
| PrintRIDL
| PrintJSON
| RunClient (url : string)
| RunServer (port timeout : string)
| RunWait (url timeout : string)
| Usage
| FlagsExit (code : nat).

Definition flagsExit (e : flagError) : action := FlagsExit (match e with Help => 0 | _ => 2 end).

Definition isOn (vals : list (string * string)) (name : string) : bool := String.eqb (flagValue vals name "false") "true".

(** main.go 43-105; os.Args without the name of the program.  ([Usage] also stands for the exit 1 at 46, where the flag package has printed the usage.) *)
Definition main (valid : string -> string -> bool) (args : list string) : action :=
  match parseSet modeFlags valid 1 (firstn 1 args) [] with
  | FlagErr _ _ => Usage
  | Flags vals _ =>
      let on name := isOn vals name in
      let rest := skipn 1 args in
      if on "version" then PrintVersion
      else if on "printRIDL" || on "print-schema" then PrintRIDL
      else if on "printJSON" then PrintJSON
      else if on "client" then
        match parseSet clientFlags valid (List.length rest) rest [] with
        | FlagErr e _ => flagsExit e
        | Flags v _ => RunClient (flagValue v "url" "http://localhost:9988")
        end
      else if on "server" then
        match parseSet serverFlags valid (List.length rest) rest [] with
        | FlagErr e _ => flagsExit e
        | Flags v _ => RunServer (flagValue v "port" "9988") (flagValue v "timeout" "1m0s")
        end
      else if on "waitForServer" then
        match parseSet waitFlags valid (List.length rest) rest [] with
        | FlagErr e _ => flagsExit e
        | Flags v _ => RunWait (flagValue v "url" "http://localhost:9988") (flagValue v "timeout" "1m0s")
        end
      else Usage
  end.

(** The exit status of the modes that run: 0 iff RunTests / RunTestServer and Wait / Wait gave no error (59-67, 75-85, 93-97) *)
Definition serverExit (a : around) (waitOk : bool) : nat := if runTestServer a && waitOk then 0 else 1.

(** ** The target test-interoperability, Makefile 62-67, run by /bin/sh as one command:
    server & until nc ...; do sleep; done; client; wait.
    The status of a list is that of its last command, and that of wait without operands is 0. *)
Inductive shCommand := Background (status : nat) | Foreground (status : nat) | WaitAll.
Definition shStatus (c : shCommand) : nat :=
  match c with Background _ => 0 | Foreground s => s | WaitAll => 0 end.
Definition shList (cs : list shCommand) : nat := fold_left (fun _ c => shStatus c) cs 0.
Definition testInteroperability (serverStatus clientStatus : nat) : nat :=
  shList [Background serverStatus; Foreground 0 (* until: ends with the test true *); Foreground clientStatus; WaitAll].
