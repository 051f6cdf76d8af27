(** C55: integers through TypeScript programs. *)
From Coq Require Import Lia.
From Verif Require Import Base BaseProofs Utf8 Json JsonProofs GoVal GoValSpec GoValProofs Rpc RpcSpec RpcExamples Ts TsSpec TsWire TsBigSpec
  TestSpec JsNum JsNumSpec JsNumProofs JsOrder JsThrough.
Local Open Scope Z_scope.

(** ** What the program sees and sends *)

Lemma nearest_bound z x : Nearest z x -> Z.abs z <= 2 ^ 64 -> Z.abs x <= 2 ^ 64.
Proof.
  intros N B. apply nearest_round in N. subst x. pose proof (round_mono z (2 ^ 64) ltac:(lia)) as M1. pose proof (round_mono (- 2 ^ 64) z ltac:(lia)) as M2.
  rewrite roundInt_opp in M2. rewrite (round_double (2 ^ 64)) in M1, M2 by (apply double_pow; lia). lia.
Qed.

(** C55. The literal of an integer is read as the nearest floating point number, which is written with the fewest
    digits that denote it. *)
Theorem C55_numbers_are_floating_point : forall z, Z.abs z <= 2 ^ 64 -> z <> 0 ->
  exists x t, Nearest z x /\ Shown x t /\ throughJs (JNum (zdec z)) = JNum (zdec t).
Proof.
  intros z B NZ. exists (roundInt z), (shortest (roundInt z)). split; [apply round_nearest|]. split.
  - apply shortest_shown; [apply round_is_double| |].
    + pose proof (nearest_bound z _ (round_nearest z) B). change (2 ^ 64) with 18446744073709551616 in *. change (10 ^ 20) with 100000000000000000000. lia.
    + intros C. apply NZ. apply (safe_round 0 z); [unfold Safe; lia|exact C].
  - cbn [throughJs]. unfold jsLiteral. rewrite parseInt_zdec by lia. reflexivity.
Qed.
Print Assumptions C55_numbers_are_floating_point.

(** C55. There is exactly one nearest floating point number. *)
Theorem C55_one_nearest : forall z, exists x, Nearest z x /\ forall y, Nearest z y -> y = x.
Proof. intros z. exists (roundInt z). split; [apply round_nearest|]. intros y N. apply (nearest_fun z); [exact N|apply round_nearest]. Qed.
Print Assumptions C55_one_nearest.

(** C55. For the integers of Go's types the number the program sees is off by at most 1024. *)
Theorem C55_error_is_bounded : forall z x, Z.abs z <= 2 ^ 64 -> Nearest z x -> Z.abs (z - x) <= 1024.
Proof.
  intros z x B [_ H]. change (2 ^ 64) with 18446744073709551616 in B. set (m := (z + 1024) / 2048).
  assert (M : 2048 * m <= z + 1024 < 2048 * m + 2048).
  { unfold m. pose proof (Z.div_mod (z + 1024) 2048 ltac:(lia)). pose proof (Z.mod_pos_bound (z + 1024) 2048 ltac:(lia)). lia. }
  assert (D : Double (2048 * m)).
  { assert (Z.abs m < 9007199254740992 \/ Z.abs m = 9007199254740992) as [L|E] by lia.
    - exists m, 11. change (2 ^ 11) with 2048. change (2 ^ 53) with 9007199254740992. repeat split; lia.
    - exists (Z.sgn m), 64. change (2 ^ 64) with 18446744073709551616. change (2 ^ 53) with 9007199254740992. repeat split; lia. }
  destruct (H _ D) as [A _]. lia.
Qed.
Print Assumptions C55_error_is_bounded.

(** C55. A literal that has passed through a program once passes unchanged from then on. *)
Theorem C55_changed_at_most_once : forall l, throughJs (throughJs (JNum l)) = throughJs (JNum l).
Proof. intros l. cbn [throughJs]. rewrite literal_idem. reflexivity. Qed.
Print Assumptions C55_changed_at_most_once.

(** ** Values that come back *)

Lemma through_fields env fs vs : Carries env fs vs -> (forall v, In v vs -> SafeValue v) ->
  exists l, toFields env fs vs = Some l /\ JWf (JObj l) /\ (N.of_nat (jdepth (JObj l)) <= maxNestingDepth)%N /\
    SafeNumbers (JObj l) /\ NoRepeats (JObj l).
Proof.
  intros C S. destruct (carried env fs vs C) as (l & T & W & D & _). exists l. repeat (split; [assumption|]).
  destruct C as [F _]. destruct (proj2 (fits_safe env) fs vs F S l T) as (ND & _ & G).
  split; constructor; try exact ND; intros k x I; apply (G k x I).
Qed.

(** C55. What a Go program sends, if its integers are safe, a TypeScript program that receives it and sends it back
    returns: Go reads every text of what it writes as the same values, and there is such a text. *)
Theorem C55_safe_values_return_partial : forall table env fs vs, Carries env fs vs -> (forall v, In v vs -> SafeValue v) ->
  exists body d, marshalStruct env fs vs = Some body /\ buildResponse table 200 body = TsData d /\
    (exists text, parseJ text = Some (throughJs d)) /\
    forall text, parseJ text = Some (throughJs d) -> exists vs', unmarshalStruct env fs text = Some vs' /\ Forall2 Same vs vs'.
Proof.
  intros table env fs vs C S. destruct (through_fields env fs vs C S) as (l & T & W & D & SN & NR). exists (printJ (JObj l)), (JObj l).
  unfold marshalStruct. rewrite T. split; [reflexivity|]. split.
  { unfold buildResponse. rewrite (text_of_print (JObj l) (wf_nums _ W) D (ex_intro _ l eq_refl)), (wf_san _ W). reflexivity. }
  pose proof (through_safe (JObj l) SN NR) as R. split.
  - destruct (reordered_wf _ W _ R) as [W' D']. exists (printJ (throughJs (JObj l))). apply parse_print; [exact W'|lia].
  - intros text P. unfold unmarshalStruct. rewrite P. rewrite throughJs_obj in *.
    apply (fields_reordered env fs vs (proj2 (fits_reordered env) fs vs (proj1 C)) l T NR _ R).
Qed.
Print Assumptions C55_safe_values_return_partial.

(** C55. All values of types without 64-bit integers come back. *)
Theorem C55_narrow_types_return_partial : forall table env fs vs, NarrowStructs env -> NarrowFields fs -> Carries env fs vs ->
  exists body d, marshalStruct env fs vs = Some body /\ buildResponse table 200 body = TsData d /\
    (exists text, parseJ text = Some (throughJs d)) /\
    forall text, parseJ text = Some (throughJs d) -> exists vs', unmarshalStruct env fs text = Some vs' /\ Forall2 Same vs vs'.
Proof.
  intros table env fs vs NS NF C. apply C55_safe_values_return_partial; [exact C|].
  intros v I. apply (proj2 (fits_narrow env NS) fs vs (proj1 C) NF v I).
Qed.
Print Assumptions C55_narrow_types_return_partial.

(** C55. The order in which the members of objects are written makes no difference to Go. *)
Theorem C55_member_order : forall env fs vs l text d, Carries env fs vs -> toFields env fs vs = Some l -> NoRepeats (JObj l) ->
  parseJ text = Some d -> Reordered (JObj l) d -> exists vs', unmarshalStruct env fs text = Some vs' /\ Forall2 Same vs vs'.
Proof.
  intros env fs vs l text d C T NR P R. assert (exists l', d = JObj l') as [l' ->] by (inversion R; eauto). unfold unmarshalStruct. rewrite P.
  apply (fields_reordered env fs vs (proj2 (fits_reordered env) fs vs (proj1 C)) l T NR l' R).
Qed.
Print Assumptions C55_member_order.

(** ** Values that do not *)

Definition userFields := [GF "user" false (TRef "User")].
Definition userWith (id : Z) : gval := VPtr (Some (VStruct [VInt id; VStr "bob"; VStr "admin"])).

Lemma userWith_carries id : 0 <= id <= 2 ^ 64 - 1 -> Carries testStructs userFields [userWith id].
Proof.
  intros B. split; [|cbn; apply N.leb_le; reflexivity]. apply FFCons; [|txt|cbn; tauto|intros; discriminate|apply FFNil].
  unfold userWith. eapply FRef; [reflexivity|]. unfold uint64Ty. apply FFCons; [apply FInt; exact B|txt|names_in|intros; discriminate|]. fits.
Qed.

(** C55 fails: two users with different ids are the same user to the program. *)
Theorem C55_different_ids_stay_different_refuted : exists a b body body' d d', a <> b /\
  Carries testStructs userFields [userWith a] /\ Carries testStructs userFields [userWith b] /\
  marshalStruct testStructs userFields [userWith a] = Some body /\ marshalStruct testStructs userFields [userWith b] = Some body' /\
  buildResponse builtinClasses 200 body = TsData d /\ buildResponse builtinClasses 200 body' = TsData d' /\ throughJs d = throughJs d'.
Proof.
  exists 9007199254740992, 9007199254740993. do 4 eexists. split; [discriminate|].
  split; [apply userWith_carries; lia|]. split; [apply userWith_carries; lia|].
  split; [vm_compute; reflexivity|]. split; [vm_compute; reflexivity|]. split; [vm_compute; reflexivity|]. split; [vm_compute; reflexivity|]. vm_compute. reflexivity.
Qed.
Print Assumptions C55_different_ids_stay_different_refuted.

(** C55 fails: the server cannot read its own value when it comes back. *)
Theorem C55_values_return_refuted : exists id body d text, Carries testStructs userFields [userWith id] /\
  marshalStruct testStructs userFields [userWith id] = Some body /\ buildResponse builtinClasses 200 body = TsData d /\
  parseJ text = Some (throughJs d) /\ unmarshalStruct testStructs userFields text = None.
Proof.
  exists 18446744073709551615. eexists. eexists. exists "{""user"":{""id"":18446744073709552000,""USERNAME"":""bob"",""role"":""admin""}}".
  split; [apply userWith_carries; lia|]. split; [vm_compute; reflexivity|]. split; [vm_compute; reflexivity|]. split; vm_compute; reflexivity.
Qed.
Print Assumptions C55_values_return_refuted.

(** ** Examples *)

Example a_double : Nearest 9007199254740993 9007199254740992 /\ Nearest 18446744073709551615 18446744073709551616 /\
  Shown 18446744073709551616 18446744073709552000.
Proof.
  split; [apply nearest_round; vm_compute; reflexivity|]. split; [apply nearest_round; vm_compute; reflexivity|].
  assert (D : Double 18446744073709551616) by (exists 1, 64; repeat split; lia).
  assert (E : shortest 18446744073709551616 = 18446744073709552000) by (vm_compute; reflexivity).
  rewrite <- E. apply shortest_shown; [exact D|reflexivity|discriminate].
Qed.

Example a_safe_user : Carries testStructs userFields [userWith 9007199254740991] /\ SafeValue (userWith 9007199254740991).
Proof.
  split; [apply userWith_carries; lia|]. unfold userWith. constructor. constructor.
  intros x [<-|[<-|[<-|[]]]]; constructor. unfold Safe. lia.
Qed.

Definition narrowEnv : goEnv := [("Point", [GF "x" false (TInt (- 2 ^ 31) (2 ^ 31 - 1)); GF "names" false (TMap KString uint32Ty)])].
Example a_narrow_value : NarrowStructs narrowEnv /\ NarrowFields [GF "p" false (TRef "Point")] /\
  Carries narrowEnv [GF "p" false (TRef "Point")] [VPtr (Some (VStruct [VInt (-5); VMap (Some [(KS "10", VInt 1); (KS "9", VInt 4294967295)])]))] /\
  throughJs (JObj [("10", JNum "1"); ("9", JNum "4294967295"); ("a", JNull); ("0", JNum "12345678901234567890")]) =
    JObj [("0", JNum "12345678901234567000"); ("9", JNum "4294967295"); ("10", JNum "1"); ("a", JNull)].
Proof.
  split; [|split; [|split; [|vm_compute; reflexivity]]].
  - intros n fs. cbn. destruct (String.eqb n "Point"); [|discriminate]. intros [= <-] f [<-|[<-|[]]]; repeat constructor; lia.
  - intros f [<-|[]]. constructor.
  - split; [|cbn; apply N.leb_le; reflexivity]. apply FFCons; [|txt|cbn; tauto|intros; discriminate|apply FFNil].
    eapply FRef; [reflexivity|]. apply FFCons; [apply FInt; lia|txt|names_in|intros; discriminate|].
    apply FFCons; [|txt|names_in|intros; discriminate|apply FFNil]. unfold uint32Ty.
    apply FMap with (names := ["10"; "9"]); [keys|cbn; split; [intros b [<-|[]]; reflexivity|split; [intros b []|exact I]]|]. in_cases; apply FInt; lia.
Qed.
