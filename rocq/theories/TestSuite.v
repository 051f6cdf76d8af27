(** The interoperability test suite that webrpc-test runs:
    tests/client/client.go (RunTests, testSchemaErrors) and tests/server/server.go (TestServer).

    Simplifications: a failure is recorded by a label instead of its message (RunTests fails iff there is
    one); the context is never cancelled; cmp.Diff is a parameter (its output is unspecified); numbers inside values of
    type any are compared by their text; RunTestServer, Wait and Close (sockets and timers) are not modelled. *)
From Verif Require Import Base Utf8 Json GoVal Rpc RpcSpec RpcExamples.
Local Open Scope string_scope.

(** ** The errors of the generated code, client.gen.go and server.gen.go "Schema errors" *)
Definition eUnauthorized    := declaredError "Unauthorized" 1 "unauthorized" 401.
Definition eExpiredToken    := declaredError "ExpiredToken" 2 "expired token" 401.
Definition eInvalidToken    := declaredError "InvalidToken" 3 "invalid token" 401.
Definition eDeactivated     := declaredError "Deactivated" 4 "account deactivated" 403.
Definition eConfirmAccount  := declaredError "ConfirmAccount" 5 "confirm your email" 403.
Definition eAccessDenied    := declaredError "AccessDenied" 6 "access denied" 403.
Definition eMissingArgument := declaredError "MissingArgument" 7 "missing argument" 400.
Definition eUnexpectedValue := declaredError "UnexpectedValue" 8 "unexpected value" 400.
Definition eRateLimited     := declaredError "RateLimited" 100 "too many requests" 429.
Definition eDatabaseDown    := declaredError "DatabaseDown" 101 "service outage" 503.
Definition eElasticDown     := declaredError "ElasticDown" 102 "search is degraded" 503.
Definition eNotImplemented  := declaredError "NotImplemented" 103 "not implemented" 501.
Definition eUserNotFound    := declaredError "UserNotFound" 200 "user not found" 400.
Definition eUserBusy        := declaredError "UserBusy" 201 "user busy" 400.
Definition eInvalidUsername := declaredError "InvalidUsername" 202 "invalid username" 400.
Definition eFileTooBig      := declaredError "FileTooBig" 300 "file is too big (max 1GB)" 400.
Definition eFileInfected    := declaredError "FileInfected" 301 "file is infected" 400.
Definition eFileType        := declaredError "FileType" 302 "unsupported file type" 400.

(** ** The reference server, tests/server/server.go *)

(** 120-132 *)
Definition simple (id : Z) (name : string) : gval := VPtr (Some (VStruct [VInt id; VStr name])).
Definition fixtureOne := simple 1 "one".
Definition fixtureTwo := simple 2 "two".
Definition fixtureThree := simple 3 "three".

(** 154-171 (listOfUsers, mapOfUsers, user) *)
Definition john : gval := VPtr (Some (VStruct [VInt 1; VStr "John-Doe"; VStr "admin"])).

(** 134-184 *)
Definition fixtureComplex : gval := VPtr (Some (VStruct
  [ VMap (Some [(KS "1", VAny (JStr "23")); (KS "2", VAny (JNum "24"))]);
    VMap (Some [(KS "1", VMap (Some [(KS "2", VInt 1)]))]);
    VSlice (Some [VStr "John"; VStr "Alice"; VStr "Jakob"]);
    VSlice (Some [VInt 1; VInt 2; VInt 3; VInt 4534643543]);
    VSlice (Some [VSlice (Some [VStr "testing"]); VSlice (Some [VStr "api"])]);
    VSlice (Some [VMap (Some [(KS "john", VInt 1); (KS "alice", VInt 2); (KS "Jakob", VInt 251)])]);
    VSlice (Some [john]);
    VMap (Some [(KS "admin", john)]);
    john;
    VEnum 0 ])).

(** 186-189 *)
Definition fixtureDict : gval := VMap (Some [(KZ 1, VInt 1); (KZ 2, VInt 2)]).
Definition fixtureList : gval := VSlice (Some [VEnum 0; VEnum 1]).

(** cmp.Equal: structural; nil and empty slices and maps differ; maps are compared entry by entry
    (values of type any by their JSON text). *)
Fixpoint jsonEq (a b : json) {struct a} : bool :=
  match a, b with
  | JNull, JNull => true
  | JBool x, JBool y => Bool.eqb x y
  | JNum x, JNum y => String.eqb x y
  | JStr x, JStr y => String.eqb x y
  | JArr l, JArr l' =>
      (fix go l l' := match l, l' with
                      | [], [] => true
                      | x :: r, y :: r' => jsonEq x y && go r r'
                      | _, _ => false
                      end) l l'
  | JObj l, JObj l' =>
      Nat.eqb (length l) (length l') &&
      (fix go l := match l with
                   | [] => true
                   | (k, x) :: r => match lookup k l' with Some y => jsonEq x y | None => false end && go r
                   end) l
  | _, _ => false
  end.

Fixpoint entry (k : gkey) (l : list (gkey * gval)) : option gval :=
  match l with
  | [] => None
  | (k', v) :: r => if gkey_eqb k k' then Some v else entry k r
  end.

Fixpoint cmpEqual (a b : gval) {struct a} : bool :=
  match a, b with
  | VBool x, VBool y => Bool.eqb x y
  | VInt x, VInt y => Z.eqb x y
  | VStr x, VStr y => String.eqb x y
  | VEnum x, VEnum y => Z.eqb x y
  | VSlice None, VSlice None => true
  | VSlice (Some l), VSlice (Some l') =>
      (fix go l l' := match l, l' with
                      | [], [] => true
                      | x :: r, y :: r' => cmpEqual x y && go r r'
                      | _, _ => false
                      end) l l'
  | VMap None, VMap None => true
  | VMap (Some l), VMap (Some l') =>
      Nat.eqb (length l) (length l') &&
      (fix go l := match l with
                   | [] => true
                   | (k, x) :: r => match entry k l' with Some y => cmpEqual x y | None => false end && go r
                   end) l
  | VPtr None, VPtr None => true
  | VPtr (Some x), VPtr (Some y) => cmpEqual x y
  | VStruct l, VStruct l' =>
      (fix go l l' := match l, l' with
                      | [], [] => true
                      | x :: r, y :: r' => cmpEqual x y && go r r'
                      | _, _ => false
                      end) l l'
  | VAny x, VAny y => jsonEq x y
  | VBig x, VBig y => Z.eqb x y
  | _, _ => false
  end.

(** 28-34, 40-52, 58-64: compare an argument with the fixture *)
Definition expect (diff : gval -> gval -> string) (name : string) (fixture v : gval) (next : outcome) : outcome :=
  if cmpEqual fixture v then next
  else Fails (ERpc (withCausef eUnexpectedValue ("""" ++ name ++ """:" ++ String (Ascii.ascii_of_nat 10) (diff fixture v)))).

(** 74-117 GetSchemaError *)
Definition schemaError (code : Z) : option goError :=
  match code with
  | 0 => Some (EWrap 1 "failed to read file: unexpected EOF" (EPlain 2 "unexpected EOF"))
  | 1 => Some (ERpc (withCausef eUnauthorized "failed to verify JWT token"))
  | 2 => Some (ERpc eExpiredToken)
  | 3 => Some (ERpc eInvalidToken)
  | 4 => Some (ERpc eDeactivated)
  | 5 => Some (ERpc eConfirmAccount)
  | 6 => Some (ERpc eAccessDenied)
  | 7 => Some (ERpc eMissingArgument)
  | 8 => Some (ERpc eUnexpectedValue)
  | 100 => Some (ERpc (withCausef eRateLimited "1000 req/min exceeded"))
  | 101 => Some (ERpc eDatabaseDown)
  | 102 => Some (ERpc eElasticDown)
  | 103 => Some (ERpc eNotImplemented)
  | 200 => Some (ERpc eUserNotFound)
  | 201 => Some (ERpc eUserBusy)
  | 202 => Some (ERpc eInvalidUsername)
  | 300 => Some (ERpc eFileTooBig)
  | 301 => Some (ERpc eFileInfected)
  | 302 => Some (ERpc (withCausef eFileType ".wav is not supported"))
  | _ => None
  end%Z.

(** 14-117 TestServer *)
Definition testServer (diff : gval -> gval -> string) : implementation := fun name args =>
  if String.eqb name "GetEmpty" then Returns []
  else if String.eqb name "GetError" then Fails (EPlain 3 "internal error")
  else if String.eqb name "GetOne" then Returns [fixtureOne]
  else if String.eqb name "SendOne" then
    match args with
    | [one] => expect diff "one" fixtureOne one (Returns [])
    | _ => Panics "arguments"
    end
  else if String.eqb name "GetMulti" then Returns [fixtureOne; fixtureTwo; fixtureThree]
  else if String.eqb name "SendMulti" then
    match args with
    | [one; two; three] =>
        expect diff "one" fixtureOne one
          (expect diff "two" fixtureTwo two
             (expect diff "three" fixtureThree three (Returns [])))
    | _ => Panics "arguments"
    end
  else if String.eqb name "GetComplex" then Returns [fixtureComplex]
  else if String.eqb name "SendComplex" then
    match args with
    | [c] => expect diff "complex" fixtureComplex c (Returns [])
    | _ => Panics "arguments"
    end
  else if String.eqb name "GetEnumList" then Returns [fixtureList]
  else if String.eqb name "GetEnumMap" then Returns [fixtureDict]
  else if String.eqb name "GetSchemaError" then
    match args with
    | [VInt code] => match schemaError code with Some e => Fails e | None => Returns [] end
    | _ => Panics "arguments"
    end
  else Panics "unknown method".

(** ** The test client, tests/client/client.go *)

(** the methods of the generated client, client.gen.go 264-372 *)
Definition mGetEmpty := RpcMethod "GetEmpty" [] [].
Definition mGetOne := RpcMethod "GetOne" [] [GF "one" false simpleRef].
Definition mSendOne := RpcMethod "SendOne" [GF "one" false simpleRef] [].
Definition mGetMulti := RpcMethod "GetMulti" [] [GF "one" false simpleRef; GF "two" false simpleRef; GF "three" false simpleRef].
Definition mSendMulti := RpcMethod "SendMulti" [GF "one" false simpleRef; GF "two" false simpleRef; GF "three" false simpleRef] [].
Definition mGetEnumMap := RpcMethod "GetEnumMap" [] [GF "map" false (TMap (KEnum accessTable) uint64Ty)].

(** 103-130 *)
Record row := Row { w_code : Z; w_err : rpcError; w_name : string; w_msg : string; w_status : Z; w_cause : string }.

Definition table : list row :=
  [ Row 0 ErrWebrpcEndpoint "WebrpcEndpoint" "endpoint error" 400 "failed to read file: unexpected EOF";
    Row 1 eUnauthorized "Unauthorized" "unauthorized" 401 "failed to verify JWT token";
    Row 2 eExpiredToken "ExpiredToken" "expired token" 401 "";
    Row 3 eInvalidToken "InvalidToken" "invalid token" 401 "";
    Row 4 eDeactivated "Deactivated" "account deactivated" 403 "";
    Row 5 eConfirmAccount "ConfirmAccount" "confirm your email" 403 "";
    Row 6 eAccessDenied "AccessDenied" "access denied" 403 "";
    Row 7 eMissingArgument "MissingArgument" "missing argument" 400 "";
    Row 8 eUnexpectedValue "UnexpectedValue" "unexpected value" 400 "";
    Row 100 eRateLimited "RateLimited" "too many requests" 429 "1000 req/min exceeded";
    Row 101 eDatabaseDown "DatabaseDown" "service outage" 503 "";
    Row 102 eElasticDown "ElasticDown" "search is degraded" 503 "";
    Row 103 eNotImplemented "NotImplemented" "not implemented" 501 "";
    Row 200 eUserNotFound "UserNotFound" "user not found" 400 "";
    Row 201 eUserBusy "UserBusy" "user busy" 400 "";
    Row 202 eInvalidUsername "InvalidUsername" "invalid username" 400 "";
    Row 300 eFileTooBig "FileTooBig" "file is too big (max 1GB)" 400 "";
    Row 301 eFileInfected "FileInfected" "file is infected" 400 "";
    Row 302 eFileType "FileType" "unsupported file type" 400 ".wav is not supported" ].

Definition when (b : bool) (label : string) : list string := if b then [label] else [].
Definition isErr (r : callResult) : bool := match cr_error r with Some _ => true | None => false end.
Definition failed (r : callResult) (label : string) : list string := when (isErr r) label.

(** the i-th result *)
Definition result (r : callResult) (i : nat) : gval := nth i (cr_results r) VBad.

(** len(x) of a slice or map *)
Definition lenOf (v : gval) : nat :=
  match v with VSlice (Some l) => length l | VMap (Some l) => length l | _ => 0 end.

(** 134-156: the checks on one answer; the zero WebRPCError if err is none (140) *)
Definition checkRow (w : row) (err : option rpcError) : list string :=
  let is := match err with Some e => errorsIs (ERpc e) (ERpc (w_err w)) | None => false end in
  let e := match err with Some e => e | None => RpcError "" 0 "" "" 0 None end in
  when (negb is) "error" ++
  when (negb (Z.eqb (re_code e) (w_code w))) "code" ++
  when (negb (String.eqb (re_name e) (w_name w))) "name" ++
  when (negb (String.eqb (re_message e) (w_msg w))) "message" ++
  when (negb (Z.eqb (re_status e) (w_status w))) "status" ++
  match re_cause e with
  | Some c => when (negb (String.eqb (errText c) (w_cause w))) "cause"
  | None => []
  end.

(** 34-100 RunTests *)
Definition runTests (net : request -> transport) : list string :=
  let call := clientCall testApi None net in
  let empty := call mGetEmpty [] in
  let err := call getError [] in
  let one := call mGetOne [] in
  let sentOne := call mSendOne [result one 0] in
  let multi := call mGetMulti [] in
  let sentMulti := call mSendMulti [result multi 0; result multi 1; result multi 2] in
  let complex := call getComplex [] in
  let sentComplex := call sendComplex [result complex 0] in
  let enumList := call getEnumList [] in
  let enumMap := call mGetEnumMap [] in
  failed empty "GetEmpty" ++
  when (negb (isErr err)) "GetError" ++
  failed one "GetOne" ++ failed sentOne "SendOne" ++
  failed multi "GetMulti" ++ failed sentMulti "SendMulti" ++
  failed complex "GetComplex" ++ failed sentComplex "SendComplex" ++
  failed enumList "GetEnumList" ++ when (negb (Nat.eqb (lenOf (result enumList 0)) 2)) "GetEnumList length" ++
  failed enumMap "GetEnumMap" ++ when (negb (Nat.eqb (lenOf (result enumMap 0)) 2)) "GetEnumMap length" ++
  flat_map (fun w => checkRow w (cr_error (call getSchemaError [VInt (w_code w)]))) table.
