(** Model of the readers of the Webrpc header in generated TypeScript and Go code:
    VersionFromHeader and parseWebrpcGenVersions of _examples/node-ts/webapp/client.gen.ts 575-622
    (the same text in hello-webrpc/webapp/client.gen.ts 423-470, node-ts/server/server.gen.ts 675-722,
    node-ts/server-hono/server.gen.ts 675-722 and webrpc-streaming/webapp/src/rpc.gen.ts 535-582) and
    VersionFromHeader of tests/client/client.gen.go 601-612. *)
From Verif Require Import Base Utf8 Gen.

(** the value with every field "" (client.gen.ts 586-592 and 601-607) *)
Definition noVersions : genVersions := GenVersions "" "" "" "" "".

(** client.gen.ts 610-612: [const [a, b] = part.split("@")]: the first two elements of the list; an element that
    is not there is undefined, which 615-619 replace by "" *)
Definition jsPart (part : string) : string * string :=
  match split_byte "@"%char part with
  | a :: b :: _ => (a, b)
  | [a] => (a, "")
  | [] => ("", "")
  end.

(** client.gen.ts 598-622 parseWebrpcGenVersions.  A header value is a list of bytes; JavaScript shows it as a string
    of code units below 256, on which split(";") and split("@") do what they do on the bytes. *)
Definition parseGenVersionsTs (header : string) : genVersions :=
  match split_byte ";"%char header with
  | v0 :: v1 :: v2 :: _ =>
      GenVersions (snd (jsPart v0)) (fst (jsPart v1)) (snd (jsPart v1)) (fst (jsPart v2)) (snd (jsPart v2))
  | _ => noVersions
  end.

(** client.gen.ts 583-596 VersionFromHeader; [headers.get] gives null when the header is absent, and null and "" are
    both falsy *)
Definition versionFromHeaderTs (header : option string) : genVersions :=
  match header with
  | None => noVersions
  | Some h => if String.eqb h "" then noVersions else parseGenVersionsTs h
  end.

(** client.gen.go 601-612 VersionFromHeader; h.Get gives "" when the header is absent; None is the error *)
Definition versionFromHeaderGo (header : option string) : option genVersions :=
  let h := match header with Some h => h | None => EmptyString end in
  if String.eqb h "" then None else parseGenVersions h.
