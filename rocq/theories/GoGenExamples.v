(** The descriptions computed by GoGen.v from the schemas of the repository are those of the committed generated
    files.  These are tests of the model, not proofs of properties. *)
From Verif Require Import Base Uri Ridl Schema SchemaJson Cli Main Conformance Json GoVal Rpc Succinct GoGen.
From Verif Require RpcExamples TsBigExample Props_Succinct.
Open Scope string_scope.

Definition loaded (p : string) : option schema :=
  match parseSchemaFile repo goUriOk "/repo" p with Ok s => Some s | _ => None end.
(** the first service of a schema; ten aliases may be followed *)
Definition generatedService (p : string) : option mixedService :=
  match loaded p with
  | Some s => match sc_services s with v :: _ => goService 10 s v | [] => None end
  | None => None
  end.

(** tests/server/server.gen.go, as in RpcExamples.v *)
Example test_service : generatedService "tests/schema/test.ridl" =
  Some (MixedService "/rpc/TestApi/" RpcExamples.testStructs (map Plain (sv_methods RpcExamples.testApi))).
Proof. vm_compute. reflexivity. Qed.

(** _examples/golang-basics/example.gen.go, as in Props_Succinct.v; the streaming methods aside, and with the structs
    that are not used there *)
Example basics_service :
  match generatedService "_examples/golang-basics/example.ridl" with
  | Some s => mx_prefix s = mx_prefix Props_Succinct.basicsMixed /\ mx_methods s = mx_methods Props_Succinct.basicsMixed /\
      forall n fs, In (n, fs) Props_Succinct.basicsEnv -> lookup n (mx_env s) = Some fs
  | None => False
  end.
Proof.
  vm_compute. split; [reflexivity|]. split; [reflexivity|].
  intros n fs H. repeat (destruct H as [[= <- <-]|H]; [reflexivity|]). destruct H.
Qed.

(** _examples/node-ts/server-go/example.gen.go 36-50, 124-185, as in TsBigExample.v and Props_TsCall.v *)
Example node_service :
  match generatedService "_examples/node-ts/service.ridl" with
  | Some s => mx_prefix s = "/v1/Example/" /\
      mx_methods s = [Plain (RpcMethod "Ping" [GF "counter" false (TOpt TBig)] []);
        Plain (RpcMethod "GetUser" [GF "userId" false (TInt 0 18446744073709551615)] TsBigExample.getUserResult);
        Short (SuccinctMethod "GetArticle" "GetArticleRequest" "GetArticleResponse")] /\
      (forall n fs, In (n, fs) TsBigExample.nodeStructs -> lookup n (mx_env s) = Some fs) /\
      lookup "GetArticleResponse" (mx_env s) =
        Some [GF "title" false TString; GF "content" false (TOpt TString); GF "largeNum" false TBig]
  | None => False
  end.
Proof.
  vm_compute. split; [reflexivity|]. split; [reflexivity|]. split; [|reflexivity].
  intros n fs H. repeat (destruct H as [[= <- <-]|H]; [reflexivity|]). destruct H.
Qed.

(** _examples/hello-webrpc/server/hello_api.gen.go 99-113: "-", and omitempty from go.tag.json *)
Example hello_service :
  match generatedService "_examples/hello-webrpc/hello-api.ridl" with
  | Some s => mx_prefix s = "/Example/" /\ map am_name (mx_methods s) = ["Ping"; "GetUser"; "FindUsers"] /\
      lookup "User" (mx_env s) =
        Some [GF "id" false (TInt 0 18446744073709551615); GF "USERNAME" false TString; GF "role" false (TEnum [("USER", 1%Z); ("ADMIN", 2%Z)]);
              GF "meta" false (TMap KString TAny); GF "created_at" true (TOpt TString)]
  | None => False
  end.
Proof. vm_compute. repeat split. Qed.

(** _examples/webrpc-streaming/proto/chat.gen.go: one ordinary method, and the message of the stream *)
Example chat_service :
  generatedService "_examples/webrpc-streaming/proto/chat.ridl" =
  Some (MixedService "/v1/Chat/"
    [("Message", [GF "id" false (TInt 0 18446744073709551615); GF "username" false TString; GF "text" false TString; GF "createdAt" false TString])]
    [Plain (RpcMethod "SendMessage" [GF "username" false TString; GF "text" false TString] [])]).
Proof. vm_compute. reflexivity. Qed.

(** _examples/golang-imports/api.gen.go: imported declarations *)
Example imports_service :
  generatedService "_examples/golang-imports/proto/api.ridl" =
  Some (MixedService "/v1/ExampleAPI/"
    [("User", [GF "username" false TString; GF "age" false (TInt 0 4294967295)])]
    [Plain (RpcMethod "Ping" [] []); Plain (RpcMethod "Status" [] [GF "status" false TBool]);
     Plain (RpcMethod "GetUsers" [] [GF "users" false (TSlice (TRef "User")); GF "location" false (TEnum [("TORONTO", 0%Z); ("NEW_YORK", 1%Z)])])]).
Proof. vm_compute. reflexivity. Qed.

(** tests/server/server.gen.go 919-927 *)
Example test_errors :
  match loaded "tests/schema/test.ridl" with
  | Some s => hd_error (goErrors s) = Some (webrpcError "Unauthorized" 1 "unauthorized" 401) /\
      In RpcExamples.errRateLimited (goErrors s)
  | None => False
  end.
Proof. vm_compute. tauto. Qed.
