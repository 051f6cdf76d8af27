(** Model of the template helpers of package gen that work on template values: dictionaries
    (funcmap_dict.go), arrays and choices (funcmap_generic.go) and strings (funcmap_string.go).
    A template calls them with values of type interface{}.  Slices and maps are references, so the
    helpers run on a heap.  A panic in a helper ends the generation with an error (text/template
    recovers it). *)
From Coq Require Import Permutation Sorted.
From Verif Require Import Base Utf8 Schema.

(** interface{} as far as the helpers distinguish it.  Simplified: only the dynamic types the helpers
    know are present (a value of another type panics like [TvInt] does in toString); slices start at
    the beginning of their array, as every slice made by the helpers does; slices and maps are not nil. *)
Inductive tval :=
| TvNil                               (* nil *)
| TvBool (b : bool)
| TvInt (z : Z)
| TvStr (s : string)
| TvStrs (l : list string)            (* []string; no helper writes into one *)
| TvSlice (a : nat) (len : nat)       (* []interface{}: backing array and length *)
| TvMap (a : nat)                     (* map[string]interface{} *)
| TvType (v : varType)                (* schema.VarType *)
| TvTypeP (v : option varType)        (* *schema.VarType *)
| TvDecl (kind : string).             (* schema.Type, *schema.Type: only Kind is used *)

(** backing arrays (their length is the capacity) and maps *)
Record heap := Heap { h_arrays : list (list tval); h_maps : list (list (string * tval)) }.

Definition arrayAt (h : heap) (a : nat) : list tval := nth a (h_arrays h) [].
Definition mapAt (h : heap) (a : nat) : list (string * tval) := nth a (h_maps h) [].

Fixpoint update {A} (n : nat) (x : A) (l : list A) : list A :=
  match l, n with
  | [], _ => []
  | _ :: r, O => x :: r
  | y :: r, S k => y :: update k x r
  end.

(** the elements of a slice value *)
Definition items (h : heap) (v : tval) : list tval :=
  match v with
  | TvSlice a len => firstn len (arrayAt h a)
  | TvStrs l => map TvStr l
  | _ => []
  end.

(** ** funcmap_string.go *)

(** 10-33 toString.  The text of a map depends on Go's iteration order: [mt] is whatever text comes out. *)
Definition toString (mt : nat -> string) (v : tval) : result string :=
  match v with
  | TvType t => Ok (vt_expr t)
  | TvTypeP (Some t) => Ok (vt_expr t)
  | TvTypeP None => Panic
  | TvDecl k => Ok k
  | TvStr s => Ok s
  | TvMap a => Ok (mt a)
  | _ => Panic
  end.

(** 35-48 join *)
Definition joinFn (mt : nat -> string) (h : heap) (elems : tval) (sep : string) : result string :=
  match elems with
  | TvStrs l => Ok (join sep l)
  | TvSlice _ _ => do l <- mapM (toString mt) (items h elems); Ok (join sep l)
  | _ => Panic
  end.

(** strings.Split(s, sep) for a non-empty separator; [skip] bytes of the separator are still to be
    passed over *)
Fixpoint splitGo (sep : string) (skip : nat) (s : string) (acc : string) : list string :=
  match s with
  | EmptyString => [acc]
  | String c r =>
      match skip with
      | S k => splitGo sep k r acc
      | O => if has_prefix sep s then acc :: splitGo sep (String.length sep - 1) r EmptyString
             else splitGo sep O r (acc ++ String c EmptyString)%string
      end
  end.

(** strings.Split(s, ""): the UTF-8 sequences *)
Fixpoint explodeFuel (n : nat) (s : string) : list string :=
  match n, s with
  | S k, String c r =>
      let rest := snd (decode_rune c r) in
      take (String.length s - String.length rest) s :: explodeFuel k rest
  | _, _ => []
  end.

(** 50-52 split *)
Definition splitFn (sep s : string) : list string :=
  match sep with
  | EmptyString => explodeFuel (String.length s) s
  | _ => splitGo sep O s EmptyString
  end.

(** ** funcmap_dict.go *)

Fixpoint setKey {A} (k : string) (v : A) (m : list (string * A)) : list (string * A) :=
  match m with
  | [] => [(k, v)]
  | (k', v') :: r => if String.eqb k k' then (k, v) :: r else (k', v') :: setKey k v r
  end.

(** 8-23 dict *)
Fixpoint dictPairs (pairs : list tval) (m : list (string * tval)) : result (list (string * tval)) :=
  match pairs with
  | [] => Ok m
  | TvStr k :: v :: r => dictPairs r (setKey k v m)
  | _ => Panic
  end.
Definition dictFn (h : heap) (pairs : list tval) : result (tval * heap) :=
  if Nat.odd (List.length pairs) then Panic else
  do m <- dictPairs pairs [];
  Ok (TvMap (List.length (h_maps h)), Heap (h_arrays h) (h_maps h ++ [m])).

(** 25-34 get *)
Definition getFn (mt : nat -> string) (h : heap) (m : nat) (key : tval) : result tval :=
  do k <- toString mt key;
  match assoc k (mapAt h m) with
  | Some v => Ok v
  | None => Err ("get(): key """ ++ k ++ """ doesn't exist")
  end.

(** 36-39 set (returns "" into the template) *)
Definition setFn (h : heap) (m : nat) (k : string) (v : tval) : heap :=
  Heap (h_arrays h) (update m (setKey k v (mapAt h m)) (h_maps h)).

(** 42-45 exists *)
Definition existsFn (h : heap) (m : nat) (k : string) : bool :=
  match assoc k (mapAt h m) with Some _ => true | None => false end.

(** ** funcmap_generic.go *)

(** Go's append(slice, elems...) on []interface{}: in place if the capacity suffices, otherwise into a
    new array whose capacity [grow] chooses (old capacity, needed length) *)
Definition goAppend (grow : nat -> nat -> nat) (h : heap) (a len : nat) (es : list tval) : tval * heap :=
  let arr := arrayAt h a in
  let n := len + List.length es in
  if n <=? List.length arr then
    (TvSlice a n, Heap (update a (firstn len arr ++ es ++ skipn n arr) (h_arrays h)) (h_maps h))
  else
    (TvSlice (List.length (h_arrays h)) n,
     Heap (h_arrays h ++ [firstn len arr ++ es ++ repeat TvNil (grow (List.length arr) n - n)]) (h_maps h)).

(** 10-12 array: append([]interface{}{}, elems...) *)
Definition arrayFn (grow : nat -> nat -> nat) (h : heap) (es : list tval) : tval * heap :=
  goAppend grow (Heap (h_arrays h ++ [[]]) (h_maps h)) (List.length (h_arrays h)) 0 es.

(** 15-17 append: the argument must be a []interface{} (text/template rejects others) *)
Definition appendFn (grow : nat -> nat -> nat) (h : heap) (slice : tval) (es : list tval) : result (tval * heap) :=
  match slice with
  | TvSlice a len => Ok (goAppend grow h a len es)
  | _ => Panic
  end.

(** 20-35 first, 38-53 last *)
Definition firstFn (h : heap) (v : tval) : result tval :=
  match v with
  | TvStrs _ | TvSlice _ _ =>
      match items h v with [] => Err "first(): no elements in the array" | x :: _ => Ok x end
  | _ => Panic
  end.
Definition lastFn (h : heap) (v : tval) : result tval :=
  match v with
  | TvStrs _ | TvSlice _ _ =>
      match rev (items h v) with [] => Err "last(): no elements in the array" | x :: _ => Ok x end
  | _ => Panic
  end.

(** reflect.DeepEqual.  Simplified: [deep] decides slices and maps among themselves; values of different
    dynamic types differ. *)
Fixpoint varType_eqb (a b : varType) : bool :=
  match a, b with
  | VT e s, VT e' s' => String.eqb e e' && shape_eqb s s'
  end
with shape_eqb (a b : shape) : bool :=
  match a, b with
  | ShUnknown, ShUnknown => true
  | ShCore c, ShCore c' => core_eqb c c'
  | ShList v, ShList v' => varType_eqb v v'
  | ShMap k v, ShMap k' v' => varType_eqb k k' && varType_eqb v v'
  | ShStruct n d, ShStruct n' d' => String.eqb n n' && String.eqb d d'
  | ShEnum n d, ShEnum n' d' => String.eqb n n' && String.eqb d d'
  | ShAlias n d, ShAlias n' d' => String.eqb n n' && String.eqb d d'
  | _, _ => false
  end.
Fixpoint strs_eqb (a b : list string) : bool :=
  match a, b with
  | [], [] => true
  | x :: a', y :: b' => String.eqb x y && strs_eqb a' b'
  | _, _ => false
  end.
Definition deepEqual (deep : tval -> tval -> bool) (a b : tval) : bool :=
  match a, b with
  | TvNil, TvNil => true
  | TvBool x, TvBool y => Bool.eqb x y
  | TvInt x, TvInt y => Z.eqb x y
  | TvStr x, TvStr y => String.eqb x y
  | TvStrs x, TvStrs y => strs_eqb x y
  | TvSlice _ _, TvSlice _ _ => deep a b
  | TvMap _, TvMap _ => deep a b
  | TvType x, TvType y => varType_eqb x y
  | TvTypeP None, TvTypeP None => true
  | TvTypeP (Some x), TvTypeP (Some y) => varType_eqb x y
  | TvDecl x, TvDecl y => String.eqb x y
  | _, _ => false
  end.

(** 56-63 in *)
Definition inFn (deep : tval -> tval -> bool) (first : tval) (values : list tval) : bool :=
  existsb (deepEqual deep first) values.

(** reflect: !val.IsValid() || val.IsZero() *)
Definition zeroVal (v : tval) : bool :=
  match v with
  | TvNil => true
  | TvBool b => negb b
  | TvInt z => Z.eqb z 0
  | TvStr s => String.eqb s ""
  | TvStrs _ | TvSlice _ _ | TvMap _ => false
  | TvType t => varType_eqb t vt_zero
  | TvTypeP None => true
  | TvTypeP (Some _) => false
  | TvDecl _ => false
  end.

(** 66-73 default *)
Definition defaultFn (v d : tval) : tval := if zeroVal v then d else v.

(** 76-85 coalesce *)
Fixpoint coalesceFn (l : list tval) : tval :=
  match l with
  | [] => TvStr ""
  | v :: r => if zeroVal v then coalesceFn r else v
  end.

(** 106-121 toBool, 98-103 ternary *)
Definition toBool (v : tval) : result bool :=
  match v with
  | TvBool b => Ok b
  | TvStr s => if String.eqb s "true" then Ok true else if String.eqb s "false" then Ok false else Panic
  | _ => Panic
  end.
Definition ternaryFn (c a b : tval) : result tval := do x <- toBool c; Ok (if x then a else b).

(** 125-134 lastIndex *)
Definition lastIndexFn (h : heap) (v : tval) : result Z :=
  match v with
  | TvStrs l => Ok (Z.of_nat (List.length l) - 1)%Z
  | TvSlice _ len => Ok (Z.of_nat len - 1)%Z
  | _ => Panic
  end.

(** 88-95 sort: sort.Slice on a copy.  sort.Slice is not stable and its algorithm is not part of its
    contract, so the model says which results are possible: any reordering that is sorted by text.  An
    element without text panics as soon as two elements are compared. *)
Definition textLe (mt : nat -> string) (x y : tval) : Prop :=
  forall a b, toString mt x = Ok a -> toString mt y = Ok b -> String.ltb b a = false.
Inductive sortStep (mt : nat -> string) (h : heap) (a len : nat) : result (tval * heap) -> Prop :=
| SortPanics : 2 <= len -> (exists x, In x (items h (TvSlice a len)) /\ toString mt x = Panic) ->
    sortStep mt h a len Panic
| SortDone l :
    (2 <= len -> forall x, In x (items h (TvSlice a len)) -> toString mt x <> Panic) ->
    Permutation l (items h (TvSlice a len)) -> StronglySorted (textLe mt) l ->
    sortStep mt h a len (Ok (TvSlice (List.length (h_arrays h)) len, Heap (h_arrays h ++ [l]) (h_maps h))).
