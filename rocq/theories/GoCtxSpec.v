(** Specification for the contexts of a generated Go server. *)
From Verif Require Import Base Utf8 Json GoVal Rpc Methods GoCtx.

(** what code with the context [c] sees of the request [r] that the service [name] got with writer [w]:
    the names and objects of webrpc, and everything that was in the context before *)
Record Sees (pkg : nat) (name : string) (w : nat) (r : httpRequest) (c : goCtx) : Prop := {
  sees_service : serviceNameFromContext pkg c = name;
  sees_request : requestFromContext pkg c = Some r;
  sees_writer : responseWriterFromContext pkg c = Some w;
  sees_others : forall k, (forall n, k <> Key pkg n) -> ctxGet c k = ctxGet (reqCtx r) k;
  sees_done : forall cancelled, ctxDone cancelled c = ctxDone cancelled (reqCtx r) }.

(** the errors OnError was called with, and the header calls of user code, in order *)
Fixpoint reported (es : list tevent) : list (httpRequest * rpcError) :=
  match es with
  | [] => []
  | TOnError r e :: t => (r, e) :: reported t
  | _ :: t => reported t
  end.
Fixpoint headerCalls (es : list tevent) : list hcall :=
  match es with
  | [] => []
  | TUser c :: t => c :: headerCalls t
  | _ :: t => headerCalls t
  end.
Fixpoint methodCalls (es : list tevent) : list (string * goCtx * list gval) :=
  match es with
  | [] => []
  | TCall n c a :: t => (n, c, a) :: methodCalls t
  | _ :: t => methodCalls t
  end.
Fixpoint statuses (es : list tevent) : list Z :=
  match es with
  | [] => []
  | TWriteHead c :: t => c :: statuses t
  | _ :: t => statuses t
  end.
Fixpoint written (es : list tevent) : string :=
  match es with
  | [] => EmptyString
  | TWrite b :: t => (b ++ written t)%string
  | _ :: t => written t
  end.

(** OnError does not panic *)
Definition CalmOnError (o : hooks) : Prop :=
  forall f, h_onError o = Some f -> forall r e msg, snd (f r e) <> inr msg.

(** the hooks and the implementation, as they are for one request: functions of what Rpc.v gives them *)
Definition hookFor (o : hooks) (w : nat) (r : httpRequest) : options :=
  Options (match h_onRequest o with Some f => Some (fun _ => snd (f w r)) | None => None end)
          (match h_onError o with
           | Some f => Some (fun e => match snd (f r e) with inl e' => e' | inr _ => e end)
           | None => None
           end).
Definition implFor (impl : ctxImpl) (pkg : nat) (c : goCtx) : implementation :=
  fun n args => snd (impl n (WithValue c (Key pkg MethodName) (VText n)) args).

(** values given by a stack of middlewares, the outermost first *)
Definition stack (vs : list (ctxKey * ctxValue)) (h : handler) : handler :=
  fold_right (fun kv next => valueMiddleware (fst kv) (snd kv) next) h vs.

(** the header calls that the hooks and the implementation ask for, from what they are given *)
Definition callsBy (o : hooks) (impl : ctxImpl) (e : tevent) : list hcall :=
  match e with
  | TOnRequest w r => match h_onRequest o with Some f => fst (f w r) | None => [] end
  | TOnError r x => match h_onError o with Some f => fst (f r x) | None => [] end
  | TCall n c args => fst (impl n c args)
  | _ => []
  end.
