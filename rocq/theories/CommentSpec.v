(** Specification of RIDL comments. *)
From Verif Require Import Base Utf8 Lexer LexSpec Ast.

(** the words of a text: maximal runs of non-blank characters *)
Fixpoint fields_from (w : list N) (rs : list N) : list (list N) :=
  match rs with
  | [] => match w with [] => [] | _ => [rev w] end
  | r :: t =>
      if (r =? 32)%N || (r =? 9)%N || (r =? 13)%N
      then match w with [] => fields_from [] t | _ => rev w :: fields_from [] t end
      else fields_from (r :: w) t
  end.
Definition fields (rs : list N) : list (list N) := fields_from [] rs.

(** the text of a comment: its words separated by single spaces *)
Definition comment_text (rs : list N) : string := join " " (map encode (fields rs)).

(** [Block has n k s]: the lines [k .. s] are the block of comment lines that belongs to a
    definition on line [n]: it ends on line [n] (a comment on the same line) or on the line
    above, and extends upwards as long as there are comment lines.  ([s < k]: no block.) *)
Definition Block (has : nat -> Prop) (n k s : nat) : Prop :=
  ((has n /\ s = n) \/ (~ has n /\ S s = n)) /\
  k <= S s /\
  (forall i, k <= i <= s -> has i) /\
  (k = 0 \/ ~ has (k - 1)).

(** ** The definitions of a document and their comments *)

(** The comment lines of a document: the text of the comment of each line that has one. *)
Definition clines := nat -> option string.

(** the lines [k .. s] of comments, without the hidden ones *)
Definition blockText (m : clines) (k s : nat) : string :=
  join (String "010"%char "")
    (filter (fun c => negb (has_prefix "!" c))
       (map (fun i => match m i with Some c => c | None => ""%string end) (seq k (S s - k)))).

(** a definition on line [n] takes its block, of text [t], and leaves the other comments *)
Definition Take (m : clines) (n : nat) (t : string) (m' : clines) : Prop :=
  exists k s, Block (fun i => m i <> None) n k s /\ t = blockText m k s /\
    forall i, m' i = if (k <=? i) && (i <=? s) then None else m i.

(** several definitions, one after the other *)
Inductive Taken : clines -> list (nat * string) -> clines -> Prop :=
| TakenNil m m' : (forall i, m' i = m i) -> Taken m [] m'
| TakenCons m n t m1 l m' : Take m n t m1 -> Taken m1 l m' -> Taken m ((n, t) :: l) m'.

(** A definition in the document: the word that names it with its line, and its comment. *)
Definition definition := ((string * nat) * string)%type.

(** a field or enum member *)
Definition FieldAt (d : defNode) (x : definition) : Prop := fst (fst x) = d_left d /\ snd x = d_comment d.
(** a method: it is found by its name or, if it has annotations, by the last of them *)
Definition MethodAt (m : methodNode) (x : definition) : Prop :=
  snd x = m_comment m /\
  match rev (m_annotations m) with
  | [] => fst (fst x) = m_name m
  | a :: _ => fst x = (an_type a, an_line a)
  end.

(** the definitions that a node of the parse tree consists of, in the order of the document.
    Imports and errors have no comments.  An enum loses its comment when a member has an
    explicit value. *)
Inductive DefinedBy : node -> list definition -> Prop :=
| DefinedDef d n : DefinedBy (NDef d) [((d_left d, n), d_comment d)]
| DefinedImport i : DefinedBy (NImport i) []
| DefinedError e : DefinedBy (NError e) []
| DefinedAlias a : DefinedBy (NAlias a) [((al_name a, al_line a), al_comment a)]
| DefinedStruct s fs : Forall2 FieldAt (s_fields s) fs ->
    DefinedBy (NStruct s) (((s_name s, s_line s), s_comment s) :: fs)
| DefinedEnum e c ms : Forall2 FieldAt (e_values e) ms ->
    (e_comment e = c /\ Forall (fun d => d_right d = ""%string) (e_values e) \/
     e_comment e = ""%string /\ Exists (fun d => d_right d <> ""%string) (e_values e)) ->
    DefinedBy (NEnum e) (((e_name e, e_line e), c) :: ms)
| DefinedService s n ms : Forall2 MethodAt (sv_methods s) ms ->
    DefinedBy (NService s) ((("service"%string, n), sv_comment s) :: ms).

(** [a] is [b] with some elements left out *)
Inductive Sub {A} : list A -> list A -> Prop :=
| SubNil b : Sub [] b
| SubTake x a b : Sub a b -> Sub (x :: a) (x :: b)
| SubSkip x a b : Sub a b -> Sub a (x :: b).

(** the definitions of a document, node by node *)
Definition Definitions (nodes : list node) (defs : list definition) : Prop :=
  exists ls, Forall2 DefinedBy nodes ls /\ defs = concat ls.
