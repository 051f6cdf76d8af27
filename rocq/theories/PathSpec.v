(** Specification of file paths: walking from directory to directory. *)
From Verif Require Import Base.

(** a name of a file or directory *)
Definition Name (e : string) : Prop := e <> "" /\ e <> "." /\ e <> ".." /\ contains_byte "/" e = false.

(** [Walk d es t]: starting in the directory [d] (its names from the top down) the path elements [es]
    lead to [t].  With [top = true] the parent of the top directory is the top directory. *)
Inductive Walk (top : bool) : list string -> list string -> list string -> Prop :=
| WalkEnd d : Walk top d [] d
| WalkStay d e es t : e = "" \/ e = "." -> Walk top d es t -> Walk top d (e :: es) t
| WalkUp d x es t : Walk top d es t -> Walk top (d ++ [x]) (".." :: es) t
| WalkTop es t : top = true -> Walk top [] es t -> Walk top [] (".." :: es) t
| WalkDown d e es t : Name e -> Walk top (d ++ [e]) es t -> Walk top d (e :: es) t.

(** the elements lead out of the top directory *)
Definition Escapes (d es : list string) : Prop := exists pre post, es = pre ++ ".." :: post /\ Walk false d pre [].

(** the elements of a path, separated by slashes *)
Inductive Elements : string -> list string -> Prop :=
| ElemLast e : contains_byte "/" e = false -> Elements e [e]
| ElemCons e p es : contains_byte "/" e = false -> Elements p es -> Elements (e ++ "/" ++ p) (e :: es).

(** the extension of a file name: its last dot and what follows, or nothing *)
Inductive Extension : string -> string -> Prop :=
| ExtNone b : contains_byte "." b = false -> Extension b ""
| ExtSome stem e : contains_byte "." e = false -> Extension (stem ++ "." ++ e) ("." ++ e).
