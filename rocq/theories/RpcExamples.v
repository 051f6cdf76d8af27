(** The committed services, as descriptions for Rpc.v. *)
From Verif Require Import Base BaseProofs Utf8 Json JsonProofs GoVal GoValSpec GoValProofs Rpc RpcSpec RpcProofs RpcRemote.

(** ** tests/server/server.gen.go, tests/client/client.gen.go *)

(** 58-82 and 108-140 *)
Definition statusTable : enumTable := [("AVAILABLE", 0%Z); ("NOT_AVAILABLE", 1%Z)].
Definition accessTable : enumTable := [("NONE", 0%Z); ("READ", 1%Z); ("WRITE", 2%Z); ("ADMIN", 3%Z); ("OWNER", 4%Z)].

Definition uint32Ty := TInt 0 (2 ^ 32 - 1).
Definition uint64Ty := TInt 0 (2 ^ 64 - 1).
Definition int64Ty := TInt (- 2 ^ 63) (2 ^ 63 - 1).

(** 170-201 *)
Definition testStructs : goEnv :=
  [ ("Simple", [GF "id" false intTy; GF "name" false TString]);
    ("User", [GF "id" false uint64Ty; GF "USERNAME" false TString; GF "role" false TString]);
    ("Complex",
      [ GF "meta" false (TMap KString TAny);
        GF "metaNestedExample" false (TMap KString (TMap KString uint32Ty));
        GF "namesList" false (TSlice TString);
        GF "numsList" false (TSlice int64Ty);
        GF "doubleArray" false (TSlice (TSlice TString));
        GF "listOfMaps" false (TSlice (TMap KString uint32Ty));
        GF "listOfUsers" false (TSlice (TRef "User"));
        GF "mapOfUsers" false (TMap KString (TRef "User"));
        GF "user" false (TRef "User");
        GF "status" false (TEnum statusTable) ]);
    ("EnumData", [GF "dict" false (TMap (KEnum accessTable) uint64Ty); GF "list" false (TSlice (TEnum statusTable))]) ].

Definition simpleRef := TRef "Simple".

(** 253-281 and the payload structs of 315-631 *)
Definition testApi : service := Service "/rpc/TestApi/" testStructs
  [ RpcMethod "GetEmpty" [] [];
    RpcMethod "GetError" [] [];
    RpcMethod "GetOne" [] [GF "one" false simpleRef];
    RpcMethod "SendOne" [GF "one" false simpleRef] [];
    RpcMethod "GetMulti" [] [GF "one" false simpleRef; GF "two" false simpleRef; GF "three" false simpleRef];
    RpcMethod "SendMulti" [GF "one" false simpleRef; GF "two" false simpleRef; GF "three" false simpleRef] [];
    RpcMethod "GetComplex" [] [GF "complex" false (TRef "Complex")];
    RpcMethod "SendComplex" [GF "complex" false (TRef "Complex")] [];
    RpcMethod "GetEnumList" [] [GF "list" false (TSlice (TEnum statusTable))];
    RpcMethod "GetEnumMap" [] [GF "map" false (TMap (KEnum accessTable) uint64Ty)];
    RpcMethod "GetSchemaError" [GF "code" false intTy] [] ].

Lemma testApi_names : NoDup (map rm_name (sv_methods testApi)).
Proof. repeat constructor; cbn; intuition discriminate. Qed.

Definition getError := RpcMethod "GetError" [] [].
Definition getSchemaError := RpcMethod "GetSchemaError" [GF "code" false intTy] [].
Definition getEnumList := RpcMethod "GetEnumList" [] [GF "list" false (TSlice (TEnum statusTable))].
Definition sendComplex := RpcMethod "SendComplex" [GF "complex" false (TRef "Complex")] [].
Definition getComplex := RpcMethod "GetComplex" [] [GF "complex" false (TRef "Complex")].

(** ** A value of the struct Complex the wire carries *)

Lemma statusTable_ok : EnumOk statusTable.
Proof.
  unfold EnumOk, statusTable. cbn. split; [repeat constructor; cbn; intuition discriminate|].
  split; [repeat constructor; cbn; intuition discriminate|].
  intros n z [[= <- <-]|[[= <- <-]|[]]]; apply ascii_valid; reflexivity.
Qed.

Definition bob : gval := VPtr (Some (VStruct [VInt 7; VStr "bob"; VStr "admin"])).

Definition complexValue : gval := VPtr (Some (VStruct
  [ VMap (Some [(KS "k", VAny (JArr [JNull; JBool true]))]);
    VMap (Some [(KS "a", VMap (Some [(KS "x", VInt 1); (KS "y", VInt 4294967295)]))]);
    VSlice (Some [VStr "one"; VStr ""]);
    VSlice (Some [VInt (-9223372036854775808)]);
    VSlice (Some [VSlice None; VSlice (Some [VStr "in"])]);
    VSlice None;
    VSlice (Some [bob; VPtr None]);
    VMap (Some []);
    VPtr None;
    VEnum 1 ])).

Ltac names_in := cbn; intuition discriminate.
Ltac txt := apply ascii_valid; reflexivity.
Ltac in_cases := cbn [In]; intros; repeat match goal with
  | H : _ \/ _ |- _ => destruct H as [H|H]
  | H : False |- _ => destruct H
  | H : (_, _) = (_, _) |- _ => injection H as ? ?
  end; subst.
Ltac keys := repeat (apply Forall2_cons; [apply KWString; txt|]); apply Forall2_nil.
Ltac fits := repeat first
  [ apply FNilSlice | apply FNilMap | apply FNilOpt | apply FNilRef | apply FBool
  | apply FInt; lia | apply FStr; txt
  | eapply FRef; [reflexivity|]
  | apply FSlice; in_cases
  | apply FFNil
  | apply FFCons; [|txt|names_in|intros; discriminate|] ].

Lemma bob_fits : Fits testStructs (TRef "User") bob.
Proof. unfold bob, uint64Ty. fits. Qed.

Lemma complex_fits : Fits testStructs (TRef "Complex") complexValue.
Proof.
  unfold complexValue, uint32Ty, int64Ty, statusTable. eapply FRef; [reflexivity|].
  apply FFCons; [|txt|names_in|intros; discriminate|].
  { apply FMap with (names := ["k"]); [keys|cbn; intuition|]. in_cases.
    apply FAny. constructor. in_cases; constructor. }
  apply FFCons; [|txt|names_in|intros; discriminate|].
  { apply FMap with (names := ["a"]); [keys|cbn; intuition|]. in_cases.
    apply FMap with (names := ["x"; "y"]); [keys|cbn; split; [intros b [<-|[]]; reflexivity|split; [intros b []|exact I]]|].
    in_cases; apply FInt; lia. }
  apply FFCons; [fits|txt|names_in|intros; discriminate|].
  apply FFCons; [apply FSlice; in_cases; apply FInt; lia|txt|names_in|intros; discriminate|].
  apply FFCons; [fits|txt|names_in|intros; discriminate|].
  apply FFCons; [fits|txt|names_in|intros; discriminate|].
  apply FFCons; [apply FSlice; in_cases; [apply bob_fits|apply FNilRef]|txt|names_in|intros; discriminate|].
  apply FFCons; [apply FMap with (names := []); [constructor|exact I|in_cases]|txt|names_in|intros; discriminate|].
  apply FFCons; [fits|txt|names_in|intros; discriminate|].
  apply FFCons; [|txt|names_in|intros; discriminate|apply FFNil].
  apply FEnum with (n := "NOT_AVAILABLE"); [exact statusTable_ok|cbn; auto].
Qed.

Lemma complex_carries : Carries (sv_env testApi) (rm_in sendComplex) [complexValue].
Proof.
  split; [|apply N.leb_le; reflexivity].
  apply FFCons; [exact complex_fits|txt|cbn; tauto|intros; discriminate|apply FFNil].
Qed.

Lemma code_carries : Carries (sv_env testApi) (rm_in getSchemaError) [VInt 100].
Proof.
  split; [|apply N.leb_le; reflexivity].
  apply FFCons; [apply FInt; unfold intTy; lia|txt|cbn; tauto|intros; discriminate|apply FFNil].
Qed.

(** an implementation: SendComplex accepts, GetComplex returns, GetSchemaError fails with
    a schema error (tests/server/server.go), GetError with a plain one *)
Definition errRateLimited := declaredError "RateLimited" 100 "too many requests" 429.
Definition testImpl : implementation := fun name args =>
  if String.eqb name "GetComplex" then Returns [complexValue]
  else if String.eqb name "GetSchemaError" then Fails (ERpc (withCause errRateLimited (EPlain 1 "slow down")))
  else if String.eqb name "GetError" then Fails (EPlain 2 "internal error")
  else if String.eqb name "GetEnumList" then Returns [VSlice (Some [VEnum 1; VEnum 7])]
  else Returns [].
