(** Interleavings, stated without the goroutines. *)
From Verif Require Import Base Utf8 Json JsonProofs GoVal GoValSpec Rpc RpcSpec Stream.

(** [Takes ps l ps']: running some of the programs [ps] in some order makes the
    calls [l] and leaves the programs [ps'] *)
Inductive Takes {A} : list (list A) -> list A -> list (list A) -> Prop :=
| TakesNone ps : Takes ps [] ps
| TakesOne i o rest ps l ps' : nth_error ps i = Some (o :: rest) ->
    Takes (setNth i rest ps) l ps' -> Takes ps (o :: l) ps'.

(** [Between l pings out]: [out] is [l] with any number of [ping] put in anywhere *)
Inductive Between {A} (ping : A) : list A -> list A -> Prop :=
| BNil : Between ping [] []
| BPing l out : Between ping l out -> Between ping l (ping :: out)
| BOwn x l out : Between ping l out -> Between ping (x :: l) (x :: out).

Definition Prefix {A} (a b : list A) : Prop := exists c, b = a ++ c.
Definition PrefixS (a b : string) : Prop := exists c, b = (a ++ c)%string.

(** messages of a stream: carried by the wire; no field is called webrpcError, which is reserved
    for errors *)
Definition Sendable (env : goEnv) (fs : list goField) (vs : list gval) : Prop :=
  Carries env fs vs /\ ~ In "webrpcError" (map gf_name fs).

(** the structs of a generated package include the error type *)
Definition HasErrorType (env : goEnv) : Prop := lookup "WebRPCError" env = Some errorFields.

(** the error the reader reports is the error [e] of the server: same code and
    status, and the same texts if they are UTF-8 *)
Definition ErrorArrived (e r : rpcError) : Prop :=
  re_code r = re_code e /\ re_status r = re_status e /\
  (ValidUtf8 (re_name e) -> re_name r = re_name e) /\
  (ValidUtf8 (re_message e) -> re_message r = re_message e) /\
  (ValidUtf8 (re_causeText e) -> re_causeText r = re_causeText e).

(** numbers a Go int holds *)
Definition IntError (e : rpcError) : Prop := Int64 (re_code e) /\ Int64 (re_status e).

(** how the end of the response body is reported: a complete body ends the stream, a body cut short loses it, and a
    cancelled or expired context is the caller's own doing *)
Definition ReportsEnd (tail : bodyEnd) (r : rpcError) : Prop :=
  match tail with
  | EndEOF => re_name r = "WebrpcStreamFinished" /\ re_code r = (-10)%Z
  | EndUnexpected => re_name r = "WebrpcStreamLost" /\ re_code r = (-9)%Z
  | EndCancelled => re_name r = "WebrpcClientAborted" /\ re_code r = (-8)%Z
  | EndOther => re_name r = "WebrpcBadResponse" /\ re_code r = (-5)%Z
  end.
