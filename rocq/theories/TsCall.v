(** A call of a generated TypeScript client, from the request object to the settled promise.

    Models the methods of the client (/repo/_examples/node-ts/webapp/client.gen.ts 121-156, alike in the other
    clients), createHttpRequest (158-161) and the Headers object of the fetch standard; buildResponse is in Ts.v,
    JsonEncode and JsonDecode are in TsBig.v, the Go server in Rpc.v.

    Simplifications: the URL is its path (ClientUrl.v has the rest); [write] is the text JSON.stringify makes of
    a tree; numbers stay literals (C55); the signal is not used. *)
From Verif Require Import Base Json GoVal Rpc Ts TsBig JsNum BigInt.

(** client.gen.ts 158-160: { ...headers, 'Content-Type': 'application/json', [WebrpcHeader]: WebrpcHeaderValue };
    a member that is set again keeps its place *)
Definition createHeaders (headers : list (string * string)) (webrpc : string) : list (string * string) :=
  jsPut "Webrpc" webrpc (jsPut "Content-Type" "application/json" headers).

(** the value of a header in a Headers object made of an object: names are compared without case, the values
    of one name are combined *)
Definition headerSent (name : string) (hs : list (string * string)) : string :=
  String.concat ", " (map snd (filter (fun e => String.eqb (to_lower (fst e)) name) hs)).

(** client.gen.ts 111-113, 122-124, 158-161 *)
Definition tsRequest (s : service) (m : rpcMethod) (headers : list (string * string)) (webrpc body : string) : request :=
  Request "POST" (routeOf s m) (headerSent "content-type" (createHeaders headers webrpc)) (Some body).

(** how the promise is settled *)
Inductive promise : Type :=
| Resolved (v : jsv)
| Rejected (e : tsError)
| RejectedOther.       (** a TypeError *)

(** client.gen.ts 121-132: a method; [k] is the name of its response type, 125 *)
Definition tsCall (write : json -> string) (classes : list tsClass) (tbl : bigTable) (s : service)
    (net : request -> transport) (headers : list (string * string)) (webrpc : string)
    (m : rpcMethod) (k : string) (req : jsv) : promise :=
  match jsonEncode req with
  | None => RejectedOther
  | Some j =>
      match net (tsRequest s m headers webrpc (write j)) with
      | NoResponse _ => Rejected (ownError (-1))
      | Broken _ _ => RejectedOther    (* res.text() rejects with a TypeError, 164 *)
      | Received p =>
          match buildResponse classes (p_status p) (p_body p) with
          | TsFails e => Rejected e
          | TsThrows => RejectedOther
          | TsData d =>
              match jsonDecode tbl k d with
              | Ok v => Resolved v
              | _ => Rejected (ownError (-5))
              end
          end
      end
  end.
