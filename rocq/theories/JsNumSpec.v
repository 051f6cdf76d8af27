(** Floating point numbers, the texts of numbers, and values that survive both; stated without the functions of
    JsNum.v. *)
From Coq Require Import Permutation.
From Verif Require Import Base Utf8 Json GoVal GoValSpec TsBigSpec.
Local Open Scope Z_scope.

(** the integers that are binary64 numbers: a mantissa of 53 bits and an exponent.  (Magnitudes from 2^1024 on,
    which do not occur here, are not excluded.) *)
Definition Double (x : Z) : Prop := exists m e, 0 <= e /\ Z.abs m < 2 ^ 53 /\ x = m * 2 ^ e.

(** ... whose last mantissa bit is 0 *)
Definition EvenDouble (x : Z) : Prop :=
  exists m e, 0 <= e /\ Z.abs m < 2 ^ 53 /\ (e = 0 \/ 2 ^ 52 <= Z.abs m) /\ Z.even m = true /\ x = m * 2 ^ e.

(** [x] is the double a JavaScript program gets for the integer literal [z] *)
Definition Nearest (z x : Z) : Prop :=
  Double x /\ forall y, Double y -> Z.abs (z - x) <= Z.abs (z - y) /\ (Z.abs (z - x) = Z.abs (z - y) -> y = x \/ EvenDouble x).

(** [t] is the integer JavaScript shows for the double [x]: it is read as [x], no other such integer ends in more
    zeros, and none that ends in as many is closer. *)
Definition Shown (x t : Z) : Prop :=
  Nearest t x /\
  (forall c p, 0 <= p -> Nearest c x -> (10 ^ p | c) -> (10 ^ p | t)) /\
  (forall c, Nearest c x -> (forall p, 0 <= p -> (10 ^ p | t) -> (10 ^ p | c)) -> Z.abs (t - x) <= Z.abs (c - x)).

(** Number.isSafeInteger *)
Definition Safe (z : Z) : Prop := Z.abs z <= 2 ^ 53 - 1.

(** all numbers of a JSON value are safe integers *)
Inductive SafeNumbers : json -> Prop :=
| SN_null : SafeNumbers JNull
| SN_bool b : SafeNumbers (JBool b)
| SN_num z : Safe z -> SafeNumbers (JNum (zdec z))
| SN_str s : SafeNumbers (JStr s)
| SN_arr l : (forall x, In x l -> SafeNumbers x) -> SafeNumbers (JArr l)
| SN_obj l : (forall k x, In (k, x) l -> SafeNumbers x) -> SafeNumbers (JObj l).

(** all integers of a Go value are safe; the keys of maps may be any *)
Inductive SafeValue : gval -> Prop :=
| SV_bool b : SafeValue (VBool b)
| SV_int z : Safe z -> SafeValue (VInt z)
| SV_str s : SafeValue (VStr s)
| SV_enum z : SafeValue (VEnum z)
| SV_nilSlice : SafeValue (VSlice None)
| SV_slice l : (forall x, In x l -> SafeValue x) -> SafeValue (VSlice (Some l))
| SV_nilMap : SafeValue (VMap None)
| SV_map l : (forall k x, In (k, x) l -> SafeValue x) -> SafeValue (VMap (Some l))
| SV_nil : SafeValue (VPtr None)
| SV_ptr v : SafeValue v -> SafeValue (VPtr (Some v))
| SV_struct l : (forall x, In x l -> SafeValue x) -> SafeValue (VStruct l)
| SV_any j : SafeNumbers j -> NoRepeats j -> SafeValue (VAny j)
| SV_big z : SafeValue (VBig z).

(** no type of more than 53 bits, and no any, occurs in the type *)
Inductive NarrowType : goTy -> Prop :=
| NT_bool : NarrowType TBool
| NT_int lo hi : - (2 ^ 53 - 1) <= lo -> hi <= 2 ^ 53 - 1 -> NarrowType (TInt lo hi)
| NT_string : NarrowType TString
| NT_enum t : NarrowType (TEnum t)
| NT_slice t : NarrowType t -> NarrowType (TSlice t)
| NT_map k t : NarrowType t -> NarrowType (TMap k t)
| NT_opt t : NarrowType t -> NarrowType (TOpt t)
| NT_ref n : NarrowType (TRef n)
| NT_big : NarrowType TBig.
Definition NarrowFields (fs : list goField) : Prop := forall f, In f fs -> NarrowType (gf_ty f).
Definition NarrowStructs (env : goEnv) : Prop := forall n fs, lookup n env = Some fs -> NarrowFields fs.

(** the same JSON value with the members of objects in another order *)
Inductive Reordered : json -> json -> Prop :=
| R_null : Reordered JNull JNull
| R_bool b : Reordered (JBool b) (JBool b)
| R_num l : Reordered (JNum l) (JNum l)
| R_str s : Reordered (JStr s) (JStr s)
| R_arr l l' : Forall2 Reordered l l' -> Reordered (JArr l) (JArr l')
| R_obj l l1 l' : Permutation l l1 -> Forall2 (fun e e' => fst e = fst e' /\ Reordered (snd e) (snd e')) l1 l' ->
    Reordered (JObj l) (JObj l').
