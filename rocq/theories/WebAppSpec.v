(** What users of the chat web application rely on, in terms of what can be seen. *)
From Verif Require Import Base WebApp.

(** the messages received, in order *)
Fixpoint receivedIn (os : list output) : list message :=
  match os with [] => [] | Received m :: r => m :: receivedIn r | _ :: r => receivedIn r end.

(** the id of the last message received *)
Definition lastId (os : list output) : option nat :=
  match rev (receivedIn os) with [] => None | m :: _ => Some (msg_id m) end.

(** the last [n] elements of a list *)
Definition IsEnd {A} (n : nat) (l e : list A) : Prop :=
  List.length e = Nat.min n (List.length l) /\ exists b, l = b ++ e.

(** failures since the last successful opening *)
Fixpoint failuresIn (n : nat) (os : list output) : nat :=
  match os with
  | [] => n
  | Opened :: r => failuresIn 0 r
  | Scheduled _ _ :: r => failuresIn (S n) r
  | _ :: r => failuresIn n r
  end.

(** nothing of subscription [i] was requested before *)
Definition Fresh (i : nat) (os : list output) : Prop := forall l, ~ In (Requested i l) os.

(** the work going on: streams, fetches and scheduled reconnects *)
Definition work (a : app) : nat := List.length (a_active a) + List.length (a_timers a).

(** the user never asks for a connection while one is being made *)
Fixpoint Patient (b : bool) (a : app) (xs : list input) : Prop :=
  match xs with
  | [] => True
  | x :: r => (x = Click -> a_status a = Disconnected -> work a = 0) /\
              match step b a x with Some (a', _) => Patient b a' r | None => True end
  end.

(** one text contains the other *)
Definition Contains (s t : string) : Prop := exists a b, s = (a ++ t ++ b)%string.

(** the lastMessageId of the requests made, in order *)
Fixpoint requestsIn (os : list output) : list (option nat) :=
  match os with [] => [] | Requested _ l :: r => l :: requestsIn r | _ :: r => requestsIn r end.
