(** The chat web application of the streaming example, on top of the generated TypeScript client.

    Models /repo/_examples/webrpc-streaming/webapp/src/main.ts, and of rpc.gen.ts the method
    subscribeMessages (92-116) and the callbacks sseResponse (118-238) makes, as a machine driven by
    the browser: answers of fetch, lines read, timers, clicks, submits.

    Simplifications.
    - What sseResponse makes of the bytes of a response is C33; here a stream gives lines.
    - Ids are unbounded (JavaScript numbers).  The log, the console and the page apart from the list of
      messages are left out; api.sendMessage is an output.
    - Reads of a fetch whose signal is aborted fail: with an AbortError if [abortErrors], as browsers
      did before abort reasons, and with the reason otherwise, as the fetch standard says. *)
From Verif Require Import Base.
From Verif Require Chat.

Notation message := Chat.message.
Notation msg_id := Chat.msg_id.

(** main.ts 18-20 *)
Inductive status : Type := Connected | Connecting | Disconnected | Finished.

(** a call of subscribeMessages, rpc.gen.ts 92-116: its request (the object is made at main.ts 110 and
    encoded again by every _fetch, rpc.gen.ts 102-104) and whether its controller was aborted.
    options.signal does not exist in the application. *)
Record subscription := Subscription { c_last : option nat; c_aborted : bool }.

(** a running _fetch of a subscription: waiting for the response or reading it *)
Inductive phase : Type := Fetching | Reading.

(** the variables of main.ts 16-20, 39 and 103; the controller is that of the last subscription.
    [a_timers] are the subscriptions whose reconnect is scheduled. *)
Record app := App {
  a_messages : list message; a_last : option nat; a_status : status; a_retry : nat;
  a_subs : list subscription; a_active : list (nat * phase); a_timers : list nat }.

(** what can be seen: requests (subscription and lastMessageId), reconnects scheduled (seconds),
    streams opened, messages received, messages sent *)
Inductive output : Type :=
| Requested (sub : nat) (last : option nat)
| Scheduled (sub : nat) (seconds : nat)
| Opened
| Received (m : message)
| Sent (text : string).

Inductive input : Type :=
| FetchFailed (k : nat)              (** fetch rejects *)
| Refused (k : nat) (code : Z)       (** a response that is not ok or has no body: a webrpc error with this code *)
| Answered (k : nat)                 (** an ok response *)
| Line (k : nat) (m : message)       (** a line with a message *)
| BadLine (k : nat)                  (** a line that is not JSON *)
| OddLine (k : nat)                  (** a line that is JSON, but not of a message *)
| ErrorLine (k : nat) (code : Z)     (** a line with a webrpc error *)
| ReadFailed (k : nat)               (** the connection is lost, times out, or was aborted *)
| Ended (k : nat)                    (** the response ends *)
| TimerFired (j : nat)
| Click                              (** on the button, if it is enabled *)
| Submit (text : string).

(** a slice from the end *)
Definition lastN {A} (n : nat) (l : list A) : list A := skipn (List.length l - n) l.

(** main.ts 29-37 onMessage *)
Definition onMessage (m : message) (a : app) : app :=
  App (if 1000 <=? List.length (a_messages a) then lastN 999 (a_messages a) ++ [m] else a_messages a ++ [m])
      (Some (msg_id m)) (a_status a) (a_retry a) (a_subs a) (a_active a) (a_timers a).

Definition withStatus (s : status) (a : app) : app :=
  App (a_messages a) (a_last a) s (a_retry a) (a_subs a) (a_active a) (a_timers a).

(** main.ts 39-40, 60 *)
Definition maxDelay : nat := 30.
Definition backoff (retry : nat) : nat := Nat.min maxDelay (2 ^ retry).

(** main.ts 42-68 onError; [code] is None for what is no WebrpcError (fetch rejects with any value, rpc.gen.ts 106-108) *)
Definition onError (code : option Z) (sub : nat) (a : app) : app * list output :=
  match code with
  | Some (-10)%Z => (withStatus Finished a, [])
  | Some (-8)%Z | Some (-1)%Z => (withStatus Disconnected a, [])
  | _ => (App (a_messages a) (a_last a) Connecting (S (a_retry a)) (a_subs a) (a_active a) (a_timers a ++ [sub]),
          [Scheduled sub (backoff (a_retry a))])
  end.

(** main.ts 70-75 onOpen *)
Definition onOpen (a : app) : app :=
  App (a_messages a) (a_last a) Connected 0 (a_subs a) (a_active a) (a_timers a).

(** main.ts 77-81 onClose *)
Definition onClose (a : app) : app := withStatus Disconnected a.

Fixpoint removeAt {A} (k : nat) (l : list A) : list A :=
  match l, k with
  | [], _ => []
  | _ :: r, O => r
  | x :: r, S k' => x :: removeAt k' r
  end.
Fixpoint replaceAt {A} (k : nat) (y : A) (l : list A) : list A :=
  match l, k with
  | [], _ => []
  | _ :: r, O => y :: r
  | x :: r, S k' => x :: replaceAt k' y r
  end.
Definition withActive (l : list (nat * phase)) (a : app) : app :=
  App (a_messages a) (a_last a) (a_status a) (a_retry a) (a_subs a) l (a_timers a).

(** rpc.gen.ts 102-108: a _fetch of a subscription begins *)
Definition fetch (sub : nat) (a : app) : app * list output :=
  match nth_error (a_subs a) sub with
  | Some c => (withActive (a_active a ++ [(sub, Fetching)]) a, [Requested sub (c_last c)])
  | None => (a, [])
  end.

(** main.ts 105-113 connect *)
Definition connect (a : app) : app * list output :=
  fetch (List.length (a_subs a))
    (App (a_messages a) (a_last a) (a_status a) (a_retry a) (a_subs a ++ [Subscription (a_last a) false]) (a_active a) (a_timers a)).

(** main.ts 94, 103: controller.abort("user disconnected") *)
Definition abort (a : app) : app :=
  let i := List.length (a_subs a) - 1 in
  match nth_error (a_subs a) i with
  | Some c => App (a_messages a) (a_last a) (a_status a) (a_retry a)
                (replaceAt i (Subscription (c_last c) true) (a_subs a)) (a_active a) (a_timers a)
  | None => a
  end.

(** main.ts 92-101 toggleConnectHandler; the button is disabled while connecting and when finished (187-207) *)
Definition click (a : app) : app * list output :=
  match a_status a with
  | Connected => (abort a, [])
  | Disconnected => connect a
  | Connecting | Finished => (a, [])
  end.

(** main.ts 146-163 sendMessage *)
Definition submit (text : string) (a : app) : app * list output :=
  match a_status a with
  | Connected => if String.eqb text "" then (a, []) else (a, [Sent text])
  | _ => (a, [])
  end.

(** the running fetch [k], if it is in the given phase; with the state of its controller *)
Definition running (k : nat) (p : phase) (a : app) : option (nat * bool) :=
  match nth_error (a_active a) k with
  | Some (i, q) =>
      match p, q, nth_error (a_subs a) i with
      | Fetching, Fetching, Some c | Reading, Reading, Some c => Some (i, c_aborted c)
      | _, _, _ => None
      end
  | None => None
  end.
(** ... that is not aborted *)
Definition live (k : nat) (p : phase) (a : app) : option nat :=
  match running k p a with Some (i, false) => Some i | _ => None end.

Definition ended (k : nat) (a : app) : app := withActive (removeAt k (a_active a)) a.

(** One reaction; None if the browser cannot do this in this state.  rpc.gen.ts 102-108 and 118-238:
    a line that is not JSON is reported (218-224) and then undefined is passed to onMessage (226), which
    throws; a thrown exception ends the loop without further callbacks. *)
Definition step (abortErrors : bool) (a : app) (x : input) : option (app * list output) :=
  match x with
  | FetchFailed k =>
      match running k Fetching a with Some (i, _) => Some (onError None i (ended k a)) | None => None end
  | Refused k code =>
      match live k Fetching a with Some i => Some (onError (Some code) i (ended k a)) | None => None end
  | Answered k =>
      match live k Fetching a with
      | Some i => Some (onOpen (withActive (replaceAt k (i, Reading) (a_active a)) a), [Opened])
      | None => None
      end
  | Line k m => match live k Reading a with Some _ => Some (onMessage m a, [Received m]) | None => None end
  | BadLine k =>
      match live k Reading a with Some i => Some (onError (Some (-5)%Z) i (ended k a)) | None => None end
  | OddLine k => match live k Reading a with Some _ => Some (ended k a, []) | None => None end
  | ErrorLine k code =>
      match live k Reading a with Some i => Some (onError (Some code) i (ended k a)) | None => None end
  | ReadFailed k =>
      match running k Reading a with
      | Some (i, aborted) =>
          Some (onError (Some (if aborted && abortErrors then -8 else -9)%Z) i (ended k a))
      | None => None
      end
  | Ended k => match live k Reading a with Some _ => Some (onClose (ended k a), []) | None => None end
  | TimerFired j =>
      match nth_error (a_timers a) j with
      | Some i => Some (fetch i (App (a_messages a) (a_last a) (a_status a) (a_retry a) (a_subs a) (a_active a)
                                     (removeAt j (a_timers a))))
      | None => None
      end
  | Click => Some (click a)
  | Submit text => Some (submit text a)
  end.

(** main.ts 16-40, 115: the page is loaded *)
Definition loaded : app * list output := connect (App [] None Connecting 0 [] [] []).

Fixpoint runFrom (b : bool) (a : app) (xs : list input) : option (app * list output) :=
  match xs with
  | [] => Some (a, [])
  | x :: r =>
      match step b a x with
      | None => None
      | Some (a1, o1) => match runFrom b a1 r with None => None | Some (a2, o2) => Some (a2, o1 ++ o2) end
      end
  end.
Definition history (b : bool) (xs : list input) : option (app * list output) :=
  let (a, o) := loaded in
  match runFrom b a xs with None => None | Some (a', o') => Some (a', o ++ o') end.

(** main.ts 120-141: the list of messages on the page; [time] is formatTime *)
Definition item (time : nat -> string) (m : message) : string :=
  "
          <li>
          <div class=""name"">
            <span>" ++ Chat.msg_user m ++ "</span>
					</div>
          <div class=""message"">
            " ++ Chat.msg_text m ++ "
          </div>
          <div class=""msg-time"">" ++ time (Chat.msg_time m) ++ "</div>
          </li>".
Definition chatbox (time : nat -> string) (ms : list message) : string :=
  "
      " ++ String.concat "" (map (item time) ms) ++ "
  ".
