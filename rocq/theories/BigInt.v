(** Model of schema/helpers.go: SchemaUsesBigInts and SchemaBigIntFieldsByType.

    Both functions carry two maps: [memo] (struct name -> answer) and [visited]
    (names of the structs whose scan is under way; an entry is reset by the
    deferred function when the scan ends, so it is passed downwards here).
    The recursion over structs has no syntactic bound in Go; the model has a
    bound [n] and answers [None] beyond it.  Theorem
    [C22_detection_terminates] shows that the bound used is always enough.
    A nil schema, nil methods, arguments and list elements are not modelled. *)
From Verif Require Import Base Schema Cli.

(** strings.EqualFold(e, "bigint"): the letters of "bigint" have no other case
    variants than the ASCII ones *)
Definition foldBigint (e : string) : bool := String.eqb (to_lower e) "bigint".

Definition memoT := list (string * bool).

(** ** SchemaUsesBigInts, helpers.go 9-98 *)

(** helpers.go 47-73 varTypeHasBigInt; [rec] is structHasBigIntRecursive on the
    struct with the given declared name *)
Definition varTypeHasBigInt (rec : string -> memoT -> option (bool * memoT)) (v : varType) (memo : memoT)
  : option (bool * memoT) :=
  if foldBigint (vt_expr v) then Some (true, memo)
  else match vt_shape v with
       | ShList x =>
           if foldBigint (vt_expr x) then Some (true, memo)
           else match vt_shape x with
                | ShStruct _ d => rec d memo
                | _ => Some (false, memo)
                end
       | ShStruct _ d => rec d memo
       | _ => Some (false, memo)
       end.

(** helpers.go 32-41: the loop over the fields of the struct [name] *)
Fixpoint scanFields (rec : string -> memoT -> option (bool * memoT)) (name : string) (fs : list field) (memo : memoT)
  : option (bool * memoT) :=
  match fs with
  | [] => Some (false, mapSet name false memo)
  | f :: r =>
      match f_type f with
      | None => scanFields rec name r memo
      | Some v =>
          match varTypeHasBigInt rec v memo with
          | Some (true, memo') => Some (true, mapSet name true memo')
          | Some (false, memo') => scanFields rec name r memo'
          | None => None
          end
      end
  end.

(** helpers.go 20-44 structHasBigIntRecursive *)
Fixpoint structHas (n : nat) (ts : list type) (visited : list string) (t : type) (memo : memoT)
  : option (bool * memoT) :=
  match n with
  | O => None
  | S n =>
      if negb (String.eqb (t_kind t) "struct") then Some (false, memo)
      else match assoc (t_name t) memo with
           | Some b => Some (b, memo)
           | None =>
               if str_in (t_name t) visited then Some (false, memo)
               else scanFields (fun d m => match getType ts d with
                                           | None => Some (false, m)
                                           | Some t' => structHas n ts (t_name t :: visited) t' m
                                           end) (t_name t) (t_fields t) memo
           end
  end.

(** the closure structHasBigIntRecursive as seen from the scans of the schema *)
Definition structByName (ts : list type) (d : string) (memo : memoT) : option (bool * memoT) :=
  match getType ts d with
  | None => Some (false, memo)
  | Some t => structHas (S (length ts)) ts [] t memo
  end.

(** the loops of helpers.go 76-95, which stop at the first [true] *)
Fixpoint anyM {A} (f : A -> memoT -> option (bool * memoT)) (l : list A) (memo : memoT) : option (bool * memoT) :=
  match l with
  | [] => Some (false, memo)
  | x :: r => match f x memo with
              | Some (false, memo') => anyM f r memo'
              | res => res
              end
  end.

(** helpers.go 85-94 *)
Definition argHas (ts : list type) (a : arg) (memo : memoT) : option (bool * memoT) :=
  match g_type a with
  | None => Some (false, memo)
  | Some v => varTypeHasBigInt (structByName ts) v memo
  end.
Definition methodHas (ts : list type) (m : method) (memo : memoT) : option (bool * memoT) :=
  match anyM (argHas ts) (me_inputs m) memo with
  | Some (false, memo') => anyM (argHas ts) (me_outputs m) memo'
  | res => res
  end.

(** helpers.go 9-98; structs are scanned with a nil-safe kind test (line 77) *)
Definition schemaUsesBigInts (s : schema) : option bool :=
  let ts := sc_types s in
  match anyM (fun t m => if String.eqb (t_kind t) "struct" then structHas (S (length ts)) ts [] t m
                         else Some (false, m)) ts [] with
  | Some (false, memo) =>
      option_map fst (anyM (fun v m => anyM (methodHas ts) (v_methods v) m) (sc_services s) memo)
  | res => option_map fst res
  end.

(** ** SchemaBigIntFieldsByType, helpers.go 107-267 *)

(** an entry of the result: "name", "name[]", [name, Struct] or [name, Struct[]];
    the pair form is kept apart from the string form as in the Go code *)
Inductive entry := EName (s : string) | EPair (name struct : string).

(** helpers.go 138-157, the four tests on a field.  The same four tests, with
    the entry added instead of the memo, are at 166-186, 223-240 and 249-266;
    [bigEntry] is the common part: it answers the entry to add, if any. *)
Definition bigEntry (rec : string -> memoT -> option (bool * memoT)) (name : string) (v : varType) (memo : memoT)
  : option (option entry * memoT) :=
  if foldBigint (vt_expr v) then Some (Some (EName name), memo)
  else if match vt_shape v with ShList x => foldBigint (vt_expr x) | _ => false end
  then Some (Some (EName (name ++ "[]")), memo)
  else match vt_shape v with
       | ShStruct n d =>
           match rec d memo with
           | Some (true, memo') => Some (Some (EPair name n), memo')
           | Some (false, memo') => Some (None, memo')
           | None => None
           end
       | ShList x =>
           match vt_shape x with
           | ShStruct n d =>
               match rec d memo with
               | Some (true, memo') => Some (Some (EPair name (n ++ "[]")), memo')
               | Some (false, memo') => Some (None, memo')
               | None => None
               end
           | _ => Some (None, memo)
           end
       | _ => Some (None, memo)
       end.

(** helpers.go 132-160 *)
Fixpoint scanFields2 (rec : string -> memoT -> option (bool * memoT)) (name : string) (fs : list field) (memo : memoT)
  : option (bool * memoT) :=
  match fs with
  | [] => Some (false, mapSet name false memo)
  | f :: r =>
      match f_type f with
      | None => scanFields2 rec name r memo
      | Some v =>
          match bigEntry rec (f_name f) v memo with
          | Some (Some _, memo') => Some (true, mapSet name true memo')
          | Some (None, memo') => scanFields2 rec name r memo'
          | None => None
          end
      end
  end.

(** helpers.go 114-161 structHasBigIntRecursive *)
Fixpoint structHas2 (n : nat) (ts : list type) (visited : list string) (t : type) (memo : memoT)
  : option (bool * memoT) :=
  match n with
  | O => None
  | S n =>
      if negb (String.eqb (t_kind t) "struct") then Some (false, memo)
      else match assoc (t_name t) memo with
           | Some b => Some (b, memo)
           | None =>
               if str_in (t_name t) visited then Some (false, memo)
               else scanFields2 (fun d m => match getType ts d with
                                            | None => Some (false, m)
                                            | Some t' => structHas2 n ts (t_name t :: visited) t' m
                                            end) (t_name t) (t_fields t) memo
           end
  end.
Definition structByName2 (ts : list type) (d : string) (memo : memoT) : option (bool * memoT) :=
  match getType ts d with
  | None => Some (false, memo)
  | Some t => structHas2 (S (length ts)) ts [] t memo
  end.

(** helpers.go 164-189 collectStruct, 217-241 and 245-267: the entries of a list
    of named types (fields or arguments) *)
Fixpoint collect (ts : list type) (l : list (string * option varType)) (memo : memoT) : option (list entry * memoT) :=
  match l with
  | [] => Some ([], memo)
  | (name, None) :: r => collect ts r memo
  | (name, Some v) :: r =>
      match bigEntry (structByName2 ts) name v memo with
      | Some (e, memo') =>
          match collect ts r memo' with
          | Some (es, memo'') => Some (match e with Some x => x :: es | None => es end, memo'')
          | None => None
          end
      | None => None
      end
  end.

Definition bigTable := list (string * list entry).

(** helpers.go 195-199, 241-243, 268-270: a non-empty list is stored under the name *)
Definition store (ts : list type) (name : string) (l : list (string * option varType)) (st : bigTable * memoT)
  : option (bigTable * memoT) :=
  match collect ts l (snd st) with
  | Some ([], memo') => Some (fst st, memo')
  | Some (es, memo') => Some (mapSet name es (fst st), memo')
  | None => None
  end.

Definition fieldTypes (t : type) : list (string * option varType) := map (fun f => (f_name f, f_type f)) (t_fields t).
Definition argTypes (l : list arg) : list (string * option varType) := map (fun a => (g_name a, g_type a)) l.

(** left fold of an action that may not return *)
Fixpoint foldM {A B} (f : A -> B -> option B) (l : list A) (b : B) : option B :=
  match l with
  | [] => Some b
  | x :: r => match f x b with Some b' => foldM f r b' | None => None end
  end.

(** helpers.go 209-271: the implicit types of a method *)
Definition storeMethod (ts : list type) (compat : bool) (m : method) (st : bigTable * memoT) : option (bigTable * memoT) :=
  if me_succinct m then Some st
  else match store ts (me_name m ++ (if compat then "Args" else "Request")) (argTypes (me_inputs m)) st with
       | Some st' => store ts (me_name m ++ (if compat then "Return" else "Response")) (argTypes (me_outputs m)) st'
       | None => None
       end.

(** helpers.go 107-273 *)
Definition schemaBigIntFieldsByType (compat : bool) (s : schema) : option bigTable :=
  let ts := sc_types s in
  match foldM (fun t st => if negb (String.eqb (t_kind t) "struct") then Some st else store ts (t_name t) (fieldTypes t) st)
              ts ([], []) with
  | Some st =>
      option_map fst (foldM (fun v st => foldM (storeMethod ts compat) (v_methods v) st) (sc_services s) st)
  | None => None
  end.
