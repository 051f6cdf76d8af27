(** C49: bigints in generated TypeScript code.  Specification: TsBigSpec.v, BigSpec.v. *)
From Verif Require Import Base BaseProofs Utf8 Utf8Proofs Json JsonProofs Schema TypeSpec Uri ValidateSpec PropsValidateAux Filter FilterSpec FilterProofs PropsFilterAux
  BigInt BigIntSpec BigIntProofs BigIntTable.
From Verif Require Props_BigInt.
From Verif Require Import GoVal GoValSpec GoValProofs BigSpec GoBig GoBigProofs RpcSpec RpcExamples TsSpec Ts TsWire TsBig TsBigSpec TsBigProofs TsBigMain TsBigWire TsBigExample.
From Verif Require Import Schema.

Definition MembersOf (s : schema) (compat : bool) (k : string) : string -> varType -> Prop :=
  MemberOf s (requestSuffix compat) (responseSuffix compat) k.
(** [k] is the name of a struct, or of the implicit request or response type of a method *)
Definition Defined (s : schema) (compat : bool) (k : string) : Prop :=
  In k (map fst (Definitions (requestSuffix compat) (responseSuffix compat) s)).

Lemma decode_all s compat : Setting s compat -> exists tbl, schemaBigIntFieldsByType compat s = Some tbl /\
  forall k l l', Defined s compat k -> NoDup (map fst l) -> MeansMembers (sc_types s) (MembersOf s compat k) l l' ->
    jsonDecode tbl k (JObj l) = Ok (SObj l').
Proof.
  intros HS. destruct (Props_BigInt.C22_table_of_distinct_names s compat (se_acc _ _ HS) (se_named _ _ HS) (se_acyclic _ _ HS) (se_distinct _ _ HS)) as (tbl & E & HT).
  exists tbl. split; [exact E|]. intros k l l' HK ND M. apply in_map_iff in HK. destruct HK as ([k' fs] & <- & HK).
  unfold jsonDecode, decodeType. apply (decode_def s compat HS tbl HT _ k' fs); [exact HK|exact ND|exact M|lia].
Qed.

(** C49. With the table that the generator makes from the schema, the client turns the JSON of a struct, of
    arguments or of results into the value it means: every bigint in it is one, and nothing else changes. *)
Theorem C49_bigints_arrive_partial : forall s compat, Setting s compat ->
  exists tbl, schemaBigIntFieldsByType compat s = Some tbl /\
  forall k l l', Defined s compat k -> NoDup (map fst l) -> MeansMembers (sc_types s) (MembersOf s compat k) l l' ->
    jsonDecode tbl k (JObj l) = Ok (SObj l').
Proof. exact decode_all. Qed.
Print Assumptions C49_bigints_arrive_partial.

(** C49. What one TypeScript program encodes, another one decodes to the same value; undefined members are
    dropped. *)
Theorem C49_typescript_round_trip_partial : forall s compat, Setting s compat ->
  exists tbl, schemaBigIntFieldsByType compat s = Some tbl /\
  forall k l, Defined s compat k -> NoDup (map fst l) -> TypedMembers (sc_types s) (MembersOf s compat k) l ->
    exists j, jsonEncode (SObj l) = Some j /\ jsonDecode tbl k j = Ok (settled (SObj l)).
Proof.
  intros s compat HS. destruct (decode_all s compat HS) as (tbl & E & H). exists tbl. split; [exact E|]. intros k l HK ND T.
  exists (JObj (encodeMembers l)). split; [apply encode_obj|]. rewrite settled_obj. apply H; [exact HK|apply encodeMembers_NoDup, ND|].
  apply typed_members_means, T.
Qed.
Print Assumptions C49_typescript_round_trip_partial.

(** C49. The answer of a Go server arrives in the TypeScript program as the value that shows it. *)
Theorem C49_go_answers_arrive_partial : forall s compat, Setting s compat ->
  exists tbl, schemaBigIntFieldsByType compat s = Some tbl /\
  forall k classes env fs vs ms, Defined s compat k -> NoDup (map gf_name fs) -> Carries env fs vs ->
    ShowsFields (sc_types s) env (MembersOf s compat k) fs vs ms ->
    exists body d, marshalStruct env fs vs = Some body /\ buildResponse classes 200 body = TsData d /\ jsonDecode tbl k d = Ok (SObj ms).
Proof.
  intros s compat HS. destruct (decode_all s compat HS) as (tbl & E & H). exists tbl. split; [exact E|].
  intros k classes env fs vs ms HK NF C S. destruct (carried env fs vs C) as (l & T & W & D & R). exists (printJ (JObj l)), (JObj l).
  unfold marshalStruct. rewrite T. split; [reflexivity|]. split.
  - unfold buildResponse. rewrite (text_of_print (JObj l) (wf_nums _ W) D (ex_intro _ l eq_refl)), (wf_san _ W). reflexivity.
  - destruct (fields_mean (sc_types s) env (MembersOf s compat k) fs vs ms S NF) as (l' & T' & ND & _ & M).
    rewrite T in T'. injection T' as <-. apply H; assumption.
Qed.
Print Assumptions C49_go_answers_arrive_partial.

(** C49. The TypeScript program writes the JSON that the Go program writes for the value it shows, and every text
    of that JSON is read by Go as the value. *)
Theorem C49_requests_arrive_in_go : forall ts env D fs vs ms, Carries env fs vs -> ShowsFields ts env D fs vs ms ->
  exists j, jsonEncode (SObj ms) = Some j /\ marshalStruct env fs vs = Some (printJ j) /\
    forall text, parseJ text = Some j -> unmarshalStruct env fs text = Some vs.
Proof.
  intros ts env D fs vs ms C S. pose proof (fields_encode ts env D fs vs ms S) as F. exists (JObj (encodeMembers ms)).
  split; [apply encode_obj|]. split; [unfold marshalStruct; rewrite F; reflexivity|].
  intros text P. destruct (carried env fs vs C) as (l & T & _ & _ & (l0 & E & R)). injection E as <-. rewrite F in T. injection T as <-.
  unfold unmarshalStruct. rewrite P. exact R.
Qed.
Print Assumptions C49_requests_arrive_in_go.

(** the value that is decoded: a string is read as JSON once more *)
Definition Input (j : json) (x : jsv) : Prop :=
  (forall t, j <> JStr t) /\ x = ofJson j \/ exists t i, j = JStr t /\ parseJ t = Some i /\ x = ofJson i.

(** C49. Decoding returns, whatever the server sends and whatever the table says: either the same value in which
    some strings have become the bigint JavaScript reads in them, or an error. *)
Theorem C49_decoding_returns : forall tbl k j,
  (exists x y, Input j x /\ jsonDecode tbl k j = Ok y /\ Like x y) \/ (exists e, jsonDecode tbl k j = Err e).
Proof.
  intros tbl k j. unfold jsonDecode, decodeType.
  assert (G : forall x, Fine x (decodeFuel (S (sdepth x)) tbl k x)) by (intros x; apply decode_fine; lia).
  destruct j as [ | | |t| | ];
  match goal with
  | |- context [match parseJ t with _ => _ end] => destruct (parseJ t) as [i|] eqn:P; [|right; eauto];
      destruct (G (ofJson i)) as [(y & E & L)|E]; [left; exists (ofJson i), y; split; [right; eauto|auto]|right; eauto]
  | |- context [ofJson ?i] => destruct (G (ofJson i)) as [(y & E & L)|E]; [left; exists (ofJson i), y; split; [left; split; [discriminate|reflexivity]|auto]|right; eauto]
  end.
Qed.
Print Assumptions C49_decoding_returns.

Lemma app_chr_inj a b t : (a ++ t)%string = (b ++ t)%string -> a = b.
Proof.
  intros E. assert (L : String.length a = String.length b).
  { pose proof (f_equal String.length E) as L. rewrite !slength_app in L. lia. }
  revert b E L. induction a as [|c a IH]; intros [|d b] E L; try discriminate; [reflexivity|]. cbn in E. injection E as -> E. f_equal. apply IH; [exact E|cbn in L; lia].
Qed.
(** C49. Every quoted text that Go reads as a bigint is read as the same number in JavaScript. *)
Theorem C49_readers_agree : forall d z old, bigUnmarshalJSON old (chr 34 ++ d ++ chr 34) = Some z -> jsBigInt d = Some z.
Proof.
  intros d z old H. rewrite bigUnmarshalJSON_eq in H. apply bigUnmarshalText_iff in H. destruct H as [[[H|H] _]|[[_ H]|(d' & H & D)]]; [discriminate|discriminate| |].
  - apply decimal_plain in H. discriminate.
  - apply jsBigInt_decimal. injection H as H. apply app_chr_inj in H. subst. exact D.
Qed.
Print Assumptions C49_readers_agree.

(** ** where it fails *)

(** the value that the JSON of [k] means is not what the client makes of it *)
Definition Missed (s : schema) (k : string) (l : list (string * json)) : Prop :=
  Accepted s /\ exists tbl l', schemaBigIntFieldsByType false s = Some tbl /\ Defined s false k /\ NoDup (map fst l) /\
    MeansMembers (sc_types s) (MembersOf s false k) l l' /\ jsonDecode tbl k (JObj l) <> Ok (SObj l').

Lemma member_nth s compat k n v i j : match nth_error (sc_types s) i with
    Some t => match nth_error (t_fields t) j with
      Some f => t_kind t = "struct" /\ t_name t = k /\ json_key f = n /\ f_type f = Some v | None => False end | None => False end ->
  Declares (sc_types s) k n v /\ MembersOf s compat k n v.
Proof.
  destruct (nth_error (sc_types s) i) as [t|] eqn:Et; [|tauto]. destruct (nth_error (t_fields t) j) as [f|] eqn:Ef; [|tauto].
  intros (A & B & C & D). assert (X : Declares (sc_types s) k n v).
  { exists t, f. repeat split; try assumption; eauto using nth_error_In. }
  split; [exact X|now left].
Qed.
Ltac at_field i j := apply (member_nth _ _ _ _ _ i j); vm_compute; repeat split.

Definition bigT : varType := VT "bigint" (ShCore CBigInt).
Lemma one : Decimal "1" 1.
Proof. apply (DecPlain "1" 1); constructor; split; reflexivity. Qed.
Lemma mbig ts : Means ts bigT (JStr "1") (SBig 1).
Proof. constructor; [reflexivity|exact one]. Qed.
Ltac nodup := cbn; repeat constructor; cbn; intuition discriminate.
Ltac missed := split; [vm_compute; reflexivity|]; split; [vm_compute; tauto|]; split; [nodup|]; split; [|vm_compute; discriminate].

(** bigints in maps, in lists of lists and behind aliases stay strings *)
Theorem C49_hidden_bigints_stay_strings_refuted :
  Missed Props_BigInt.hiddenBigints "S" [("m", JObj [("k", JStr "1")])] /\
  Missed Props_BigInt.hiddenBigints "S" [("l", JArr [JArr [JStr "1"]])] /\
  Missed Props_BigInt.hiddenBigints "S" [("a", JStr "1")].
Proof.
  assert (HA : Accepted Props_BigInt.hiddenBigints) by exact (proj1 Props_BigInt.C22_hidden_bigints_refuted).
  split; [|split]; (split; [exact HA|]).
  - exists [], [("m", SObj [("k", SBig 1)])]. missed.
    apply (MM_declared _ _ "m" (VT "map<string,bigint>" (ShMap (VT "string" (ShCore CString)) bigT))); [at_field 0 0| |constructor].
    eapply M_map; [reflexivity|nodup|]. eapply MM_declared; [reflexivity|apply mbig|constructor].
  - exists [], [("l", SArr [SArr [SBig 1]])]. missed.
    apply (MM_declared _ _ "l" (VT "[][]bigint" (ShList (VT "[]bigint" (ShList bigT))))); [at_field 0 1| |constructor].
    eapply M_list; [reflexivity|]. constructor; [|constructor]. eapply M_list; [reflexivity|]. constructor; [apply mbig|constructor].
  - exists [], [("a", SBig 1)]. missed.
    apply (MM_declared _ _ "a" (VT "Amount" (ShAlias "Amount" "Amount"))); [at_field 0 2| |constructor].
    eapply M_alias; [reflexivity| |apply mbig].
    eexists (Type_ ("f", 1) "alias" "Amount" (Some (VT "bigint" ShUnknown)) [] [] []), (VT "bigint" ShUnknown). vm_compute.
    split; [right; left; reflexivity|]. repeat split. eexists; split; [reflexivity|]. split; [constructor|reflexivity].
Qed.
Print Assumptions C49_hidden_bigints_stay_strings_refuted.

(** a struct that contains itself: the field is not in the table *)
Theorem C49_recursive_structs_refuted : Missed Props_BigInt.poisoned "Y" [("b", JObj [("a", JObj [("n", JStr "1")])])].
Proof.
  split; [exact (proj1 Props_BigInt.C22_recursive_structs_refuted)|].
  eexists _, [("b", SObj [("a", SObj [("n", SBig 1)])])]. missed.
  apply (MM_declared _ _ "b" (VT "B" (ShStruct "B" "B"))); [at_field 3 0| |constructor].
  eapply M_struct; [reflexivity|nodup|]. apply (MM_declared _ _ "a" (VT "A" (ShStruct "A" "A"))); [apply (member_nth _ false _ _ _ 2 0); vm_compute; repeat split| |constructor].
  eapply M_struct; [reflexivity|nodup|]. apply (MM_declared _ _ "n" bigT); [apply (member_nth _ false _ _ _ 1 1); vm_compute; repeat split|apply mbig|constructor].
Qed.
Print Assumptions C49_recursive_structs_refuted.

(** a bigint with another name in JSON stays a string, for the table has the name of the field; and when the name
    belongs to another member in JSON, that one is decoded: a text that is no number fails the whole call *)
Definition renamedSource : schema :=
  Schema_ "v1" "example" "v1" "rpc"
    [Type_ ("f", 0) "struct" "S" None [tagged "n" "bigint" "num"] [] [];
     Type_ ("f", 1) "struct" "T" None [tagged "total" "bigint" "sum"; tagged "label" "string" "total"] [] []]
    [] [Service_ ("f", 2) "Svc" [mth "Get" [] [] ["S"]; mth "Put" [] [] ["T"]] []].
Definition renamed : schema := accept renamedSource.
Theorem C49_renamed_fields_refuted :
  Missed renamed "S" [("num", JStr "1")] /\ Missed renamed "T" [("sum", JStr "1"); ("total", JStr "all")] /\
  exists tbl, schemaBigIntFieldsByType false renamed = Some tbl /\
    jsonDecode tbl "T" (JObj [("sum", JStr "1"); ("total", JStr "all")]) = Err "Invalid bigint value".
Proof.
  assert (HA : Accepted renamed).
  { apply (accepted_run renamedSource); [vm_compute; reflexivity|vm_compute; reflexivity|vm_compute; reflexivity|].
    cbn. repeat constructor; cbn; intuition congruence. }
  split; [|split]; [split; [exact HA|]|split; [exact HA|]|].
  - eexists _, [("num", SBig 1)]. missed. apply (MM_declared _ _ "num" bigT); [at_field 0 0|apply mbig|constructor].
  - eexists _, [("sum", SBig 1); ("total", SStr "all")]. missed. apply (MM_declared _ _ "sum" bigT); [at_field 1 0|apply mbig|].
    apply (MM_declared _ _ "total" (VT "string" (ShCore CString))); [at_field 1 1| |constructor].
    apply (M_atomic _ _ (JStr "all")). discriminate.
  - eexists. split; [vm_compute; reflexivity|vm_compute; reflexivity].
Qed.
Print Assumptions C49_renamed_fields_refuted.

(** two methods with one name: the table of one is used for both *)
Theorem C49_colliding_methods_refuted : Missed Props_BigInt.twoGets "GetRequest" [("x", JStr "1")].
Proof.
  split; [exact (proj1 Props_BigInt.C22_colliding_methods_refuted)|].
  eexists _, [("x", SBig 1)]. missed. apply (MM_declared _ _ "x" bigT); [|apply mbig|constructor].
  right. eexists (Method_ "Get" [] [] false false false [Arg_ "x" (Some bigT) false] [] []), (Arg_ "x" (Some bigT) false).
  vm_compute. split; [left; reflexivity|]. repeat split. left. split; [reflexivity|left; reflexivity].
Qed.
Print Assumptions C49_colliding_methods_refuted.

(** JavaScript reads more texts than Go: the empty one, with blanks, and with a prefix for another base *)
Theorem C49_readers_differ_refuted :
  (jsBigInt "" = Some 0%Z /\ jsBigInt " 12 " = Some 12%Z /\ jsBigInt "0x10" = Some 16%Z) /\
  forall d, In d [""; " 12 "; "0x10"] -> bigUnmarshalJSON 0 (chr 34 ++ d ++ chr 34) = None.
Proof.
  split; [vm_compute; auto|]. intros d [<-|[<-|[<-|[]]]]; vm_compute; reflexivity.
Qed.
Print Assumptions C49_readers_differ_refuted.

(** Non-vacuity: the schema of _examples/node-ts (TsBigExample.v). *)
Example C49_example :
  Setting nodeSchema false /\ schemaBigIntFieldsByType false nodeSchema = Some nodeTable /\
  Defined nodeSchema false "GetUserResponse" /\ Carries nodeStructs getUserResult someUser /\
  ShowsFields (sc_types nodeSchema) nodeStructs (MembersOf nodeSchema false "GetUserResponse") getUserResult someUser someUserJs /\
  exists body d, marshalStruct nodeStructs getUserResult someUser = Some body /\ buildResponse [] 200 body = TsData d /\
    jsonDecode nodeTable "GetUserResponse" d = Ok (SObj someUserJs).
Proof.
  split; [exact node_setting|]. split; [exact node_table|]. split; [vm_compute; tauto|].
  split; [exact someUser_carries|]. split; [exact someUser_shows|].
  destruct (C49_go_answers_arrive_partial nodeSchema false node_setting) as (tbl & E & H). rewrite node_table in E. injection E as <-.
  apply (H "GetUserResponse" [] nodeStructs getUserResult someUser someUserJs); [vm_compute; tauto|nodup|exact someUser_carries|exact someUser_shows].
Qed.
(** a request with an undefined member *)
Example C49_example_request :
  exists j, jsonEncode (SObj [("articleId", SNum "3"); ("byBN", SBig (-7)); ("note", SUndef)]) = Some j /\
    jsonDecode nodeTable "GetArticleRequest" j = Ok (SObj [("articleId", SNum "3"); ("byBN", SBig (-7))]).
Proof. eexists. split; [vm_compute; reflexivity|vm_compute; reflexivity]. Qed.
Example C49_example_typed :
  TypedMembers (sc_types nodeSchema) (MembersOf nodeSchema false "GetArticleRequest") [("articleId", SNum "3"); ("byBN", SBig (-7)); ("note", SUndef)].
Proof.
  apply (TM_declared _ _ "articleId" (VT "uint32" (ShCore CUint32))); [at_field 4 0|constructor; [discriminate|constructor]|].
  apply (TM_declared _ _ "byBN" bigT); [at_field 4 1|constructor; reflexivity|]. repeat constructor.
Qed.
