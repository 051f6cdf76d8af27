(** The model run on the files of the repository gives the outputs that are committed there, byte for
    byte: the golden JSON files and the schema hashes in the headers of the generated files.  These are
    tests of the model (they use the whole front end: arguments, imports, lexer, parser, comments,
    schema building, validation, filters, JSON, SHA-1), not proofs of properties. *)
From Verif Require Import Base Uri Ridl Schema SchemaJson Sha1 Cli Main Corpus.
Open Scope string_scope.

(** the tree of /repo that matters here, mounted at /repo *)
Definition repo : list (string * string) :=
  [("repo/schema/ridl/_example/example0.ridl", f_example0);
   ("repo/schema/ridl/_example/example1.ridl", f_example1);
   ("repo/schema/ridl/_example/example1-definitions.ridl", f_example1_definitions);
   ("repo/schema/ridl/_example/example1-partials.ridl", f_example1_partials);
   ("repo/schema/ridl/_example/example2.ridl", f_example2);
   ("repo/schema/ridl/_example/lib/errors.ridl", f_lib_errors);
   ("repo/schema/ridl/_example/lib/structs.ridl", f_lib_structs);
   ("repo/schema/ridl/_example/lib/types.ridl", f_lib_types);
   ("repo/tests/schema/test.ridl", f_test);
   ("repo/_examples/webrpc-streaming/proto/chat.ridl", f_chat);
   ("repo/_examples/golang-imports/proto/types.ridl", f_imp_types);
   ("repo/_examples/golang-imports/proto/util.ridl", f_imp_util);
   ("repo/_examples/golang-imports/proto/api.ridl", f_imp_api);
   ("repo/_examples/node-ts/service.ridl", f_node);
   ("repo/_examples/hello-webrpc/hello-api.ridl", f_hello);
   ("repo/_examples/hello-webrpc/hello-api.webrpc.json", j_hello);
   ("repo/_examples/golang-basics/example.ridl", f_basics);
   ("repo/_examples/golang-basics/example.webrpc.json", j_basics)].

Definition hash (cwd : string) (args : list string) : result string :=
  mainHash 20 repo goUriOk goIsPrint cwd "" args.

(** the test reads the schema and writes it, without the default base path of main *)
Definition written (p : string) : option string :=
  match parseSchemaFile repo goUriOk "/repo" p with Ok s => toJSON goIsPrint s | _ => None end.

(** schema/ridl/ridl_test.go 901-952 *)
Example golden_example1 : written "schema/ridl/_example/example1.ridl" = Some golden1.
Proof. vm_compute. reflexivity. Qed.
Example golden_example2 : written "schema/ridl/_example/example2.ridl" = Some golden2.
Proof. vm_compute. reflexivity. Qed.

(** tests/server/server.gen.go 1, tests/client/client.gen.go 1 (and the SHA-1 of
    tests/_testdata/test.golden.json) *)
Example hash_test : hash "/repo/tests" ["-schema=./schema/test.ridl"; "-target=golang"; "-pkg=server"; "-server"] =
  Ok "846ba26b9f91c5e1a66ed2f84d38f98e7c0fb67a".
Proof. vm_compute. reflexivity. Qed.

(** _examples/webrpc-streaming/proto/chat.gen.go 1 *)
Example hash_chat : hash "/repo/_examples/webrpc-streaming"
  ["-schema=proto/chat.ridl"; "-target=golang"; "-pkg=proto"; "-server"; "-client"; "-out=proto/chat.gen.go"] =
  Ok "8fdb95d57f6bec8a3fd44cb01ff5398d7a1bc853".
Proof. vm_compute. reflexivity. Qed.

(** _examples/golang-imports/api.gen.go 1 *)
Example hash_imports : hash "/repo/_examples/golang-imports"
  ["-schema=./proto/api.ridl"; "-target=golang"; "-pkg=main"; "-server"; "-client"; "-out=./api.gen.go"] =
  Ok "38441bf073e40f0103cdd97d1f3640a773ec97a3".
Proof. vm_compute. reflexivity. Qed.

(** _examples/node-ts/server/server.gen.ts 2 *)
Example hash_node : hash "/repo/_examples/node-ts"
  ["-schema=service.ridl"; "-target=typescript"; "-server"; "-out=./server/server.gen.ts"] =
  Ok "ae916eec8a8ef83fdb65945a0c4e1df8494d10f4".
Proof. vm_compute. reflexivity. Qed.

(** _examples/hello-webrpc/server/hello_api.gen.go 1 *)
Example hash_hello : hash "/repo/_examples/hello-webrpc"
  ["-schema=hello-api.ridl"; "-target=golang"; "-pkg=main"; "-server"; "-out=./server/hello_api.gen.go"] =
  Ok "01c259f8f53777f25c7d77621593070b3bc0685e".
Proof. vm_compute. reflexivity. Qed.

(** _examples/golang-basics: example.gen.go 1, admin/admin.gen.go 1, internal/internal.gen.go 1, with the
    command lines recorded there: the service and annotation filters *)
Example hash_basics : hash "/repo/_examples/golang-basics"
  ["-schema=example.ridl"; "-target=golang"; "-pkg=main"; "-server"; "-client"; "-service=Example"; "-out=./example.gen.go"] =
  Ok "7bfed0257958d00737ced09f9818372bfa89bc42".
Proof. vm_compute. reflexivity. Qed.
Example hash_basics_admin : hash "/repo/_examples/golang-basics"
  ["-schema=example.ridl"; "-target=golang"; "-pkg=admin"; "-server"; "-client"; "-service=Admin"; "-ignore=@deprecated";
   "-out=./admin/admin.gen.go"] =
  Ok "10395023b9bb7af310701f813acc644e8c3e4a99".
Proof. vm_compute. reflexivity. Qed.
Example hash_basics_internal : hash "/repo/_examples/golang-basics"
  ["-schema=example.ridl"; "-target=golang"; "-pkg=internal"; "-server"; "-client"; "-service=Example,Admin";
   "-ignore=@public,@deprecated"; "-out=./internal/internal.gen.go"] =
  Ok "3c3e30b91c7987ef9ac03da48bed0a0fb9c6b71b".
Proof. vm_compute. reflexivity. Qed.
