(** Specification of the template helpers: the vocabulary of the theorems. *)
From Verif Require Import Base Schema Tmpl.

(** the arguments of dict: k1 v1 k2 v2 ... *)
Definition flatten (kvs : list (string * tval)) : list tval := flat_map (fun p => [TvStr (fst p); snd p]) kvs.

(** a history of set calls *)
Definition setAll (h : heap) (sets : list (nat * string * tval)) : heap :=
  fold_left (fun h s => setFn h (fst (fst s)) (snd (fst s)) (snd s)) sets h.

(** the value most recently set for key [k] of dictionary [m], or [old] *)
Fixpoint lastSet (m : nat) (k : string) (sets : list (nat * string * tval)) (old : option tval) : option tval :=
  match sets with
  | [] => old
  | (m', k', v) :: r => lastSet m k r (if Nat.eqb m m' && String.eqb k k' then Some v else old)
  end.

(** a slice value that the heap backs *)
Definition wf (h : heap) (v : tval) : Prop :=
  match v with TvSlice a len => a < length (h_arrays h) /\ len <= length (arrayAt h a) | _ => True end.

(** the loop idiom: x = append x e *)
Fixpoint appendLoop (grow : nat -> nat -> nat) (h : heap) (x : tval) (ess : list (list tval)) : result (tval * heap) :=
  match ess with
  | [] => Ok (x, h)
  | es :: r => do p <- appendFn grow h x es; appendLoop grow (snd p) (fst p) r
  end.

(** neither a slice nor a map *)
Definition plainVal (v : tval) : Prop := match v with TvSlice _ _ | TvMap _ => False | _ => True end.

(** [sep] occurs in [x ++ sep] at the end only *)
Definition clean (sep x : string) : Prop :=
  forall a b, (x ++ sep)%string = (a ++ sep ++ b)%string -> b = ""%string.

(** what counts as empty: nil, false, 0, the empty text, the empty type and a nil type; no array and no
    dictionary *)
Inductive EmptyValue : tval -> Prop :=
| EmNil : EmptyValue TvNil
| EmFalse : EmptyValue (TvBool false)
| EmZero : EmptyValue (TvInt 0)
| EmText : EmptyValue (TvStr "")
| EmType : EmptyValue (TvType (VT "" ShUnknown))
| EmTypeP : EmptyValue (TvTypeP None).
