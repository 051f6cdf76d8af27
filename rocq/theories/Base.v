(** Shared vocabulary of the model: Go strings, results, small list helpers.

    A Go [string] is a byte sequence; it is modelled by Coq's [string]
    (a sequence of 8-bit [ascii]).  A Go [rune] is modelled by [N].
    This file models no particular function of /repo; the library functions of
    the Go standard library that /repo calls (package strings) are modelled
    here, each with the name of the function it stands for. *)
From Coq Require Import DecimalString.
From Coq Require Export Ascii String List Arith ZArith NArith Bool Lia.
Export ListNotations.
Global Open Scope string_scope.
Global Open Scope bool_scope.
Global Open Scope nat_scope.
Global Open Scope list_scope.

(** Outcome of a Go function that returns [(T, error)] and may panic.
    [Panic] is a Go run-time panic (nil dereference, index out of range);
    [Err] carries the error. *)
Inductive result (A : Type) : Type :=
| Ok (a : A)
| Err (msg : string)
| Panic
| OutOfFuel.   (** the model's recursion bound was exhausted; never a Go outcome *)
Arguments Ok {A} _.
Arguments Err {A} _.
Arguments Panic {A}.
Arguments OutOfFuel {A}.

Definition bind {A B} (x : result A) (f : A -> result B) : result B :=
  match x with
  | Ok a => f a
  | Err e => Err e
  | Panic => Panic
  | OutOfFuel => OutOfFuel
  end.

Notation "'do' x <- e1 ; e2" := (bind e1 (fun x => e2))
  (at level 200, x pattern, e1 at level 100, e2 at level 200, right associativity).

Definition is_ok {A} (x : result A) : bool :=
  match x with Ok _ => true | _ => false end.

(** map with an error-returning function, left to right *)
Fixpoint mapM {A B} (f : A -> result B) (l : list A) : result (list B) :=
  match l with
  | [] => Ok []
  | x :: r => do y <- f x; do ys <- mapM f r; Ok (y :: ys)
  end.

(** left fold with an error-returning function *)
Fixpoint foldM {A B} (f : B -> A -> result B) (l : list A) (b : B) : result B :=
  match l with
  | [] => Ok b
  | x :: r => do b' <- f b x; foldM f r b'
  end.

(** ** Bytes *)

Definition byte_of_N (n : N) : ascii := ascii_of_N n.
Definition N_of_byte (c : ascii) : N := N_of_ascii c.

Definition in_range (lo hi n : N) : bool := (lo <=? n)%N && (n <=? hi)%N.

(** [a-z], [A-Z], [0-9] on a byte *)
Definition is_lower_byte (c : ascii) : bool := in_range 97 122 (N_of_byte c).
Definition is_upper_byte (c : ascii) : bool := in_range 65 90 (N_of_byte c).
Definition is_digit_byte (c : ascii) : bool := in_range 48 57 (N_of_byte c).
Definition is_alpha_byte (c : ascii) : bool := is_lower_byte c || is_upper_byte c.

(** ASCII lower/upper casing of one byte.  Simplification: Go's
    strings.ToLower maps every Unicode letter; the model maps ASCII letters
    and leaves bytes >= 128 unchanged (exact for ASCII names). *)
Definition lower_byte (c : ascii) : ascii :=
  if is_upper_byte c then byte_of_N (N_of_byte c + 32) else c.
Definition upper_byte (c : ascii) : ascii :=
  if is_lower_byte c then byte_of_N (N_of_byte c - 32) else c.

(** ** Strings *)

Fixpoint smap (f : ascii -> ascii) (s : string) : string :=
  match s with
  | EmptyString => EmptyString
  | String c r => String (f c) (smap f r)
  end.

(** strings.ToLower / strings.ToUpper (ASCII part) *)
Definition to_lower (s : string) : string := smap lower_byte s.
Definition to_upper (s : string) : string := smap upper_byte s.

Fixpoint sforall (p : ascii -> bool) (s : string) : bool :=
  match s with
  | EmptyString => true
  | String c r => p c && sforall p r
  end.

Fixpoint sexists (p : ascii -> bool) (s : string) : bool :=
  match s with
  | EmptyString => false
  | String c r => p c || sexists p r
  end.

(** strings.HasPrefix *)
Fixpoint has_prefix (p s : string) : bool :=
  match p, s with
  | EmptyString, _ => true
  | String a p', String b s' => Ascii.eqb a b && has_prefix p' s'
  | String _ _, EmptyString => false
  end.

(** s[len(p):] when s has prefix p *)
Fixpoint drop (n : nat) (s : string) : string :=
  match n, s with
  | O, _ => s
  | S k, String _ r => drop k r
  | S _, EmptyString => EmptyString
  end.

(** s[:n] *)
Fixpoint take (n : nat) (s : string) : string :=
  match n, s with
  | O, _ => EmptyString
  | S k, String c r => String c (take k r)
  | S _, EmptyString => EmptyString
  end.

(** strings.TrimPrefix *)
Definition trim_prefix (p s : string) : string :=
  if has_prefix p s then drop (String.length p) s else s.

(** strings.HasSuffix *)
Definition has_suffix (p s : string) : bool :=
  (String.length p <=? String.length s)%nat &&
  String.eqb (drop (String.length s - String.length p) s) p.

(** strings.Join *)
Fixpoint join (sep : string) (l : list string) : string :=
  match l with
  | [] => EmptyString
  | [x] => x
  | x :: r => (x ++ sep ++ join sep r)%string
  end.

(** concatenation of a list of strings *)
Fixpoint sconcat (l : list string) : string :=
  match l with
  | [] => EmptyString
  | x :: r => (x ++ sconcat r)%string
  end.

(** strings.IndexByte / index of the first byte equal to c *)
Fixpoint index_byte (c : ascii) (s : string) : option nat :=
  match s with
  | EmptyString => None
  | String d r => if Ascii.eqb d c then Some 0%nat
                  else match index_byte c r with Some n => Some (S n) | None => None end
  end.

(** strings.Split(s, c) for a one-byte separator: always non-empty *)
Fixpoint split_byte (c : ascii) (s : string) : list string :=
  match s with
  | EmptyString => [EmptyString]
  | String d r =>
      if Ascii.eqb d c then EmptyString :: split_byte c r
      else match split_byte c r with
           | x :: xs => String d x :: xs
           | [] => [String d EmptyString]
           end
  end.

(** strings.Contains(s, c) for a one-byte c *)
Definition contains_byte (c : ascii) (s : string) : bool :=
  sexists (fun d => Ascii.eqb d c) s.

(** slices.Contains on strings *)
Definition str_in (s : string) (l : list string) : bool :=
  existsb (String.eqb s) l.

(** Go string keyed maps are association lists in the model. *)
Fixpoint assoc {A} (k : string) (m : list (string * A)) : option A :=
  match m with
  | [] => None
  | (k', v) :: r => if String.eqb k k' then Some v else assoc k r
  end.

(** strconv.Itoa for a non-negative int *)
Definition itoa (n : nat) : string := NilEmpty.string_of_uint (Nat.to_uint n).
