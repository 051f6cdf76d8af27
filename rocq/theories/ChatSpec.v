(** What users of the chat server rely on, in terms of calls, deliveries and returns. *)

From Coq Require Import List String Arith.
From Verif Require Import Chat.
Import ListNotations.
Local Open Scope list_scope.

(** The messages written to the stream of call [i], in order. *)
Fixpoint delivered (i : nat) (tr : list event) : list message :=
  match tr with
  | [] => []
  | EMsg j m :: tr' => if Nat.eqb j i then m :: delivered i tr' else delivered i tr'
  | _ :: tr' => delivered i tr'
  end.

(** Event [e] comes before event [e']. *)
Definition before (e e' : event) (tr : list event) : Prop :=
  exists a b c, tr = a ++ e :: b ++ e' :: c.

(** The messages of [ms] are numbered 0, 1, 2, ... *)
Definition numbered (ms : list message) : Prop :=
  forall k m, nth_error ms k = Some m -> msg_id m = k.

(** [part] is a run of consecutive messages of [ms] beginning at place [start]. *)
Definition run_of (ms : list message) (start : nat) (part : list message) : Prop :=
  exists rest, skipn start ms = part ++ rest.

(** The ids of [ms] are consecutive. *)
Definition consecutive (ms : list message) : Prop :=
  forall k m m', nth_error ms k = Some m -> nth_error ms (S k) = Some m' -> msg_id m' = S (msg_id m).

(** Message [m] is one that call [c] sends. *)
Definition sent_by (c : call) (m : message) : Prop :=
  match c with
  | SendMessage u t => msg_user m = u /\ msg_text m = t
  | SubscribeMessages u _ =>
      u <> ""%string /\ msg_user m = ""%string /\
      (msg_text m = (u ++ " joined")%string \/ msg_text m = (u ++ " left")%string)
  | CloseServer => msg_user m = "SYSTEM"%string /\ msg_text m = "Server shutting down..."%string
  end.

(** The history [h] is explained by the calls of [tr]; [author k] is the call that sent message [k]. *)
Record explained (tr : list event) (h : list message) (author : nat -> nat) : Prop := Explained {
  (* every message was sent by a call *)
  ex_sent : forall k m, nth_error h k = Some m ->
    exists c, In (ECall (author k) c) tr /\ sent_by c m;
  (* SendMessage sends one message, and has sent it when it returns *)
  ex_once : forall i u t, In (ECall i (SendMessage u t)) tr ->
    forall k k', k < List.length h -> k' < List.length h -> author k = i -> author k' = i -> k = k';
  ex_done : forall i u t r, In (ECall i (SendMessage u t)) tr -> In (ERet i r) tr ->
    exists k, k < List.length h /\ author k = i;
  (* a subscriber joins and leaves once *)
  ex_subscriber : forall i u l r, In (ECall i (SubscribeMessages u l)) tr -> In (ERet i r) tr ->
    u <> ""%string ->
    exists k k' m m', k < k' /\ nth_error h k = Some m /\ nth_error h k' = Some m' /\
      author k = i /\ author k' = i /\
      msg_text m = (u ++ " joined")%string /\ msg_text m' = (u ++ " left")%string /\
      forall x, x < List.length h -> author x = i -> x = k \/ x = k';
  ex_anonymous : forall i l, In (ECall i (SubscribeMessages "" l)) tr ->
    forall x, x < List.length h -> author x <> i;
  (* what returned before another call began was written, and timed, before it *)
  ex_order : forall i r j c k k' m m', before (ERet i r) (ECall j c) tr ->
    author k = i -> author k' = j -> nth_error h k = Some m -> nth_error h k' = Some m' ->
    k < k' /\ msg_time m <= msg_time m' }.
