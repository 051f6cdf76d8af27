(** C06: the kinds of types in JSON. *)
From Verif Require Import Base Json Schema CoreJson.

(** Specification: the documented names *)
Definition KindNames : list (kind * string) :=
  [(KCore CNull, "null"); (KCore CAny, "any"); (KCore CByte, "byte"); (KCore CBool, "bool");
   (KCore CUint, "uint"); (KCore CUint8, "uint8"); (KCore CUint16, "uint16"); (KCore CUint32, "uint32"); (KCore CUint64, "uint64");
   (KCore CInt, "int"); (KCore CInt8, "int8"); (KCore CInt16, "int16"); (KCore CInt32, "int32"); (KCore CInt64, "int64");
   (KCore CBigInt, "bigint"); (KCore CFloat32, "float32"); (KCore CFloat64, "float64"); (KCore CString, "string");
   (KCore CTimestamp, "timestamp"); (KList, "[]"); (KMap, "map")]%string.

Lemma name_kind k n : In (k, n) KindNames -> kindString k = n /\ kindFromString n = k.
Proof. cbn [KindNames In]. intros H. repeat (destruct H as [[= <- <-]|H]; [split; reflexivity|]). destruct H. Qed.
Lemma kind_name s k : kindFromString s = k -> k <> KUnknown -> In (k, s) KindNames.
Proof.
  intros <- N. unfold kindFromString, core_from_string in *. unfold core_table in *. cbn [assoc] in *.
  repeat match goal with
  | |- context [String.eqb s ?x] => destruct (String.eqb_spec s x); [subst; cbn; tauto|]
  end. contradiction.
Qed.

(** C06. A kind with a name is written as that name in quotes, and read back as itself. *)
Theorem C06_kinds_round_trip : forall k n, In (k, n) KindNames ->
  parseJ (marshalKind k) = Some (JStr n) /\ unmarshalKind (marshalKind k) = Ok k.
Proof.
  intros k n H. cbn [KindNames In] in H. repeat (destruct H as [[= <- <-]|H]; [split; vm_compute; reflexivity|]). destruct H.
Qed.
Print Assumptions C06_kinds_round_trip.

(** C06. A text is read as a kind (other than T_Unknown) exactly if it is a JSON string with the name of that kind. *)
Theorem C06_kinds_are_read_by_name : forall b k, k <> KUnknown ->
  (unmarshalKind b = Ok k <-> exists n, In (k, n) KindNames /\ parseJ b = Some (JStr n)).
Proof.
  intros b k N. unfold unmarshalKind. split.
  - destruct (parseJ b) as [[| | |s| | ]|]; try discriminate.
    + intros [= <-]. contradiction.
    + intros [= E]. exists s. split; [apply kind_name; assumption|reflexivity].
  - intros (n & I & ->). rewrite (proj2 (name_kind k n I)). reflexivity.
Qed.
Print Assumptions C06_kinds_are_read_by_name.

(** Names that are not of kinds are accepted as T_Unknown, and so is null; only other JSON values are refused. *)
Theorem C06_unknown_kinds_are_refused_refuted : forall b s, parseJ b = Some (JStr s) -> (forall k, ~ In (k, s) KindNames) ->
  unmarshalKind b = Ok KUnknown.
Proof.
  intros b s P N. unfold unmarshalKind. rewrite P. f_equal. destruct (kindFromString s) eqn:E; try reflexivity;
    exfalso; eapply N, kind_name; try exact E; discriminate.
Qed.
Print Assumptions C06_unknown_kinds_are_refused_refuted.

(** The kinds of declared types are written as the empty name and come back as T_Unknown. *)
Theorem C06_declared_kinds_round_trip_refuted : forall k, In k [KStruct; KEnum; KAlias] ->
  parseJ (marshalKind k) = Some (JStr "") /\ unmarshalKind (marshalKind k) = Ok KUnknown.
Proof. intros k H. repeat (destruct H as [<-|H]; [split; vm_compute; reflexivity|]). destruct H. Qed.
Print Assumptions C06_declared_kinds_round_trip_refuted.

(** C06. What is not a string and not null is refused, and so is what is not JSON. *)
Theorem C06_other_values_are_no_kinds : forall b, (forall s, parseJ b <> Some (JStr s)) -> parseJ b <> Some JNull ->
  forall k, unmarshalKind b <> Ok k.
Proof.
  intros b N1 N2 k. unfold unmarshalKind. destruct (parseJ b) as [[| | |s| | ]|]; try discriminate; [contradiction|destruct (N1 s eq_refl)].
Qed.
Print Assumptions C06_other_values_are_no_kinds.

Example C06_kinds_example :
  unmarshalKind (quoteJ "uint32") = Ok (KCore CUint32) /\ unmarshalKind (quoteJ "uint33") = Ok KUnknown /\ unmarshalKind "7" = Err "json: cannot unmarshal" /\
  (forall k, ~ In (k, "uint33"%string) KindNames).
Proof.
  split; [vm_compute; reflexivity|]. split; [vm_compute; reflexivity|]. split; [vm_compute; reflexivity|].
  intros k H. cbn [KindNames In] in H. repeat (destruct H as [H|H]; [discriminate H|]). exact H.
Qed.
