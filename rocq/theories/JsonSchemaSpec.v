(** Which schemas can be written as a JSON document, and when two schemas have the same content.
    Independent of how the document is written and read. *)
From Coq Require Import Permutation.
From Verif Require Import Base Utf8 JsonProofs Schema TypeSpec ValidateSpec.

(** ** what can be written

    Everything but type expressions is written as a JSON string, which only has to be valid UTF-8.
    A type expression is written with Go's %q and read back without unescaping, so it must need no
    escape: no quote, no backslash, nothing unprintable. *)

(** a text that is the same in a Go literal, in a JSON literal, and as a string *)
Definition PlainRune (isPrint : N -> bool) (r : N) : Prop :=
  valid_rune r = true /\ isPrint r = true /\ (32 <= r)%N /\ r <> 34%N /\ r <> 92%N.
Definition Plain (isPrint : N -> bool) (s : string) : Prop := exists rs, Forall (PlainRune isPrint) rs /\ s = encode rs.

Definition WType (isPrint : N -> bool) (v : varType) : Prop := Plain isPrint (vt_expr v) /\ vt_expr v <> "".
Definition WOpt {A} (P : A -> Prop) (o : option A) : Prop := match o with None => True | Some a => P a end.
Definition WMeta (m : metaMap) : Prop := NoDup (map fst m) /\ Forall (fun kv => ValidUtf8 (fst kv) /\ WOpt ValidUtf8 (snd kv)) m.
Definition WField (isPrint : N -> bool) (f : field) : Prop :=
  ValidUtf8 (f_name f) /\ WOpt (WType isPrint) (f_type f) /\ ValidUtf8 (f_value f) /\ Forall WMeta (f_meta f) /\
  Forall ValidUtf8 (f_comments f).
Definition WDecl (isPrint : N -> bool) (t : type) : Prop :=
  ValidUtf8 (t_kind t) /\ ValidUtf8 (t_name t) /\ WOpt (WType isPrint) (t_type t) /\
  Forall (WField isPrint) (t_fields t) /\ Forall WMeta (t_meta t) /\ Forall ValidUtf8 (t_comments t).
Definition int64 (z : Z) : Prop := (- 2 ^ 63 <= z <= 2 ^ 63 - 1)%Z.
Definition WError (e : error) : Prop :=
  int64 (x_code e) /\ ValidUtf8 (x_name e) /\ ValidUtf8 (x_message e) /\ int64 (x_status e).
Definition WArg (isPrint : N -> bool) (a : arg) : Prop := ValidUtf8 (g_name a) /\ WOpt (WType isPrint) (g_type a).
Definition WAnn (kv : string * (string * string)) : Prop :=
  ValidUtf8 (fst kv) /\ ValidUtf8 (fst (snd kv)) /\ ValidUtf8 (snd (snd kv)).
Definition WMethod (isPrint : N -> bool) (m : method) : Prop :=
  ValidUtf8 (me_name m) /\ NoDup (map fst (me_annotations m)) /\ Forall WAnn (me_annotations m) /\ Forall ValidUtf8 (me_comments m) /\
  Forall (WArg isPrint) (me_inputs m) /\ Forall (WArg isPrint) (me_outputs m) /\ Forall ValidUtf8 (me_errors m).
Definition WService (isPrint : N -> bool) (s : service) : Prop :=
  ValidUtf8 (v_name s) /\ Forall (WMethod isPrint) (v_methods s) /\ Forall ValidUtf8 (v_comments s).
Definition WSchema (isPrint : N -> bool) (s : schema) : Prop :=
  ValidUtf8 (sc_webrpc s) /\ ValidUtf8 (sc_name s) /\ ValidUtf8 (sc_version s) /\ ValidUtf8 (sc_basepath s) /\
  Forall (WDecl isPrint) (sc_types s) /\ Forall WError (sc_errors s) /\ Forall (WService isPrint) (sc_services s).

(** [v] is a reference to a type in the schema: the target of an alias or enum, the type of a field or of an argument *)
Definition RefIn (s : schema) (v : varType) : Prop :=
  (exists t, In t (sc_types s) /\ (t_type t = Some v \/ exists f, In f (t_fields t) /\ f_type f = Some v)) \/
  (exists sv m a, In sv (sc_services s) /\ In m (v_methods sv) /\ (In a (me_inputs m) \/ In a (me_outputs m)) /\ g_type a = Some v).

(** ** what can be read back

    A reference whose map keys are all core types or enums declared in the schema: that an alias
    stands for an enum is not in the document. *)
Fixpoint EnumKeys (ts : list type) (y : ty_) : Prop :=
  match y with
  | YList e => EnumKeys ts e
  | YMap k v => EnumKeys ts v /\
      match k with
      | KCore _ => True
      | KNamed n => exists t, In t ts /\ to_lower (t_name t) = to_lower n /\ t_kind t = "enum"
      end
  | _ => True
  end.
Definition Portable (ts : list type) (v : varType) : Prop :=
  exists y, tree v = Some y /\ TypeOk ts y /\ EnumKeys ts y /\ vt_expr v = show y.

(** ** the same content

    [T] compares two references; annotations and meta maps are compared as maps; identities of
    declarations (Go pointers) do not matter. *)
Definition OptRel {A} (R : A -> A -> Prop) (o o' : option A) : Prop :=
  match o, o' with
  | None, None => True
  | Some a, Some b => R a b
  | _, _ => False
  end.
Definition SameExpr (v v' : varType) : Prop := vt_expr v = vt_expr v'.
Definition SameTree (v v' : varType) : Prop := vt_expr v = vt_expr v' /\ tree v = tree v'.

Definition SameFieldC (T : varType -> varType -> Prop) (f f' : field) : Prop :=
  f_name f = f_name f' /\ OptRel T (f_type f) (f_type f') /\ f_optional f = f_optional f' /\
  f_value f = f_value f' /\ Forall2 (@Permutation _) (f_meta f) (f_meta f') /\ f_comments f = f_comments f'.
(** the fields of a struct are references; an alias or enum has an underlying type *)
Definition SameDeclC (T : varType -> varType -> Prop) (t t' : type) : Prop :=
  t_kind t = t_kind t' /\ t_name t = t_name t' /\ OptRel SameExpr (t_type t) (t_type t') /\
  Forall2 (SameFieldC SameExpr) (t_fields t) (t_fields t') /\
  (t_kind t = "struct" -> Forall2 (SameFieldC T) (t_fields t) (t_fields t')) /\
  Forall2 (@Permutation _) (t_meta t) (t_meta t') /\ t_comments t = t_comments t'.
Definition SameErrorC (e e' : error) : Prop :=
  x_code e = x_code e' /\ x_name e = x_name e' /\ x_message e = x_message e' /\ x_status e = x_status e'.
Definition SameArgC (T : varType -> varType -> Prop) (a a' : arg) : Prop :=
  g_name a = g_name a' /\ OptRel T (g_type a) (g_type a') /\ g_optional a = g_optional a'.
Definition SameMethodC (T : varType -> varType -> Prop) (m m' : method) : Prop :=
  me_name m = me_name m' /\ Permutation (me_annotations m) (me_annotations m') /\ me_comments m = me_comments m' /\
  me_succinct m = me_succinct m' /\ me_stream_in m = me_stream_in m' /\ me_stream_out m = me_stream_out m' /\
  Forall2 (SameArgC T) (me_inputs m) (me_inputs m') /\ Forall2 (SameArgC T) (me_outputs m) (me_outputs m') /\
  me_errors m = me_errors m'.
Definition SameServiceC (T : varType -> varType -> Prop) (s s' : service) : Prop :=
  v_name s = v_name s' /\ Forall2 (SameMethodC T) (v_methods s) (v_methods s') /\ v_comments s = v_comments s'.
Definition SameContent (T : varType -> varType -> Prop) (s s' : schema) : Prop :=
  sc_webrpc s = sc_webrpc s' /\ sc_name s = sc_name s' /\ sc_version s = sc_version s' /\
  sc_basepath s = sc_basepath s' /\
  Forall2 (SameDeclC T) (sc_types s) (sc_types s') /\
  Forall2 SameErrorC (sc_errors s) (sc_errors s') /\
  Forall2 (SameServiceC T) (sc_services s) (sc_services s').
