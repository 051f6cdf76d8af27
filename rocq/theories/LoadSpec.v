(** What loading a RIDL file means, without cache, graph and fuel. *)
From Verif Require Import Base Ast Parser Schema Ridl.

Section Files.
  Variable fs : list (string * string).     (* the files: path -> text *)
  Variable uriOk : string -> bool.

  (** [q] is a readable file with a valid path, and [nodes] is its parse tree *)
  Definition Source (q : string) (nodes : list node) : Prop :=
    validPath q = true /\ exists src, assoc q fs = Some src /\ parseRidl src = Parsed nodes.

  (** [q] imports [r] *)
  Definition Imports (q r : string) : Prop :=
    exists nodes i, Source q nodes /\ In i (imports nodes) /\ r = importTarget q i.

  Inductive ImportStar : string -> string -> Prop :=
  | ImportNil q : ImportStar q q
  | ImportCons q r x : Imports q r -> ImportStar r x -> ImportStar q x.

  Definition ImportCycle (q : string) : Prop := exists r, Imports q r /\ ImportStar r q.

  (** what becomes of a file when its imports have the schemas [imps]: its definitions, then the
      imports in their order, then the file's own declarations, then validation *)
  Definition Process (q : string) (nodes : list node) (imps : list schema) : result schema :=
    do s0 <- foldM setDef (definitions nodes) emptySchema;
    do s2 <- buildLocal q nodes
               (fold_left (fun s p => mergeImport s (snd p) (i_members (fst p))) (combine (imports nodes) imps) s0);
    validate uriOk s2.

  (** the file [q] loads to the schema [s] *)
  Inductive LoadsTo : string -> schema -> Prop :=
  | Loads q nodes imps s :
      Source q nodes ->
      Forall2 (fun i imp => LoadsTo (importTarget q i) imp) (imports nodes) imps ->
      Process q nodes imps = Ok s ->
      LoadsTo q s.

  (** the declarations of [q] itself are in error / crash the loader *)
  Definition SchemaError (q msg : string) : Prop :=
    exists nodes, Source q nodes /\
      (foldM setDef (definitions nodes) emptySchema = Err msg \/
       exists imps, Forall2 (fun i imp => LoadsTo (importTarget q i) imp) (imports nodes) imps /\
                    Process q nodes imps = Err msg).
  Definition Crashes (q : string) : Prop :=
    exists nodes imps, Source q nodes /\
      Forall2 (fun i imp => LoadsTo (importTarget q i) imp) (imports nodes) imps /\ Process q nodes imps = Panic.

  (** [c :: d :: ... ]: each file is imported by the next *)
  Inductive ImportChain : list string -> Prop :=
  | ChainOne q : ImportChain [q]
  | ChainCons q r l : Imports r q -> ImportChain (r :: l) -> ImportChain (q :: r :: l).

  (** the error [e] is the fault of the file [q] *)
  Definition Blames (q : string) (e : lerror) : Prop :=
    match e with
    | EInvalidPath f => f = q /\ validPath q = false
    | ENoFile f => f = q /\ assoc q fs = None
    | ESyntax f pe => f = q /\ exists src, assoc q fs = Some src /\ parseRidl src = ParseError pe
    | ECircular imported f => f = q /\ Imports q imported /\ ImportStar imported q
    | ESchema f msg => f = q /\ SchemaError q msg
    end.
End Files.

(** induction over the import tree *)
Lemma LoadsTo_ind' fs u (P : string -> schema -> Prop)
  (H : forall q nodes imps s,
      Source fs q nodes ->
      Forall2 (fun i imp => LoadsTo fs u (importTarget q i) imp /\ P (importTarget q i) imp) (imports nodes) imps ->
      Process u q nodes imps = Ok s -> P q s) :
  forall q s, LoadsTo fs u q s -> P q s.
Proof.
  fix IH 3. intros q s L. destruct L as [q nodes imps s HS HF HP].
  eapply H; try eassumption. clear - HF IH. induction HF as [|i imp l l' Hi HF IHF]; constructor; [|exact IHF].
  split; [exact Hi|]. now apply IH.
Qed.
