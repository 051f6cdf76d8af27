(** The Node example server (NodeHttp.v) as a server for pages of other origins. *)
From Verif Require Import Base Json GoVal NodeHttp.
From Verif Require Cors.

(** /repo/_examples/node-ts/server/index.ts 109-113: a message as Node hands it to the server, the body in one chunk,
    and what is sent back; nothing, while the answer is not ended *)
Definition nodeRequest (m : Cors.msg) : request :=
  Request (Cors.g_method m) (Cors.g_path m) (Cors.g_headers m) [Chunk (Cors.g_body m); End] false false.
Definition nodeServer (rpc : rpcFn) (e : env) : Cors.webServer := fun m =>
  let st := fst (server rpc e (nodeRequest m)) in
  (match r_head (s_res st), r_ended (s_res st) with
   | Some (status, hs), true => Some (Cors.Answer status hs (r_body (s_res st)))
   | _, _ => None
   end, map (fun _ => m) (s_calls st)).
