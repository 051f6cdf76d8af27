(** What callers of a TypeScript client of a Go server rely on. *)
From Verif Require Import Base Json JsonProofs Rpc.

(** [write] makes JSON texts: what it writes is read as what was written *)
Definition WritesJson (write : json -> string) : Prop :=
  forall j, JWf j -> (N.of_nat (jdepth j) <= maxNestingDepth)%N -> parseJ (write j) = Some j.

(** the additional headers of the caller: an object, whose members have different names, none of which is the
    content type in another spelling *)
Definition OrdinaryHeaders (hs : list (string * string)) : Prop :=
  NoDup (map fst hs) /\ forall k v, In (k, v) hs -> to_lower k = "content-type" -> k = "Content-Type".

(** the status of an error that HTTP and fetch tell from a success *)
Definition FailureStatus (c : Z) : Prop := (300 <= c <= 599)%Z /\ c <> 304%Z.
