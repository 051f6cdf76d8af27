(** Model of schema/ridl/internal/graph/graph.go, at node type string *)
From Verif Require Import Base.

(** graph.go 7-10; the adjacency map as an association list *)
Record graph := Graph { g_nodes : list string; g_adj : list (string * list string) }.

(** graph.go 12-17 *)
Definition newGraph (nodes : list string) : graph := Graph nodes [].

(** graph.go 19-25 *)
Definition addNode (g : graph) (n : string) : graph :=
  if str_in n (g_nodes g) then g else Graph (g_nodes g ++ [n]) (g_adj g).

(** g.adjacency[u]: the zero value (nil slice) when absent *)
Definition adjacent (adj : list (string * list string)) (u : string) : list string :=
  match assoc u adj with Some l => l | None => [] end.

Fixpoint setAdj (adj : list (string * list string)) (u : string) (l : list string)
  : list (string * list string) :=
  match adj with
  | [] => [(u, l)]
  | (k, v) :: r => if String.eqb u k then (k, l) :: r else (k, v) :: setAdj r u l
  end.

(** graph.go 27-33 *)
Definition addEdge (g : graph) (u v : string) : graph :=
  if str_in v (adjacent (g_adj g) u) then g
  else Graph (g_nodes g) (setAdj (g_adj g) u (adjacent (g_adj g) u ++ [v])).

(** graph.go 35-51 isCircular.  [vis] and [rs] are the sets of keys mapped to
    true in visited and recursionStack; they are threaded through because the
    Go maps are shared by the recursive calls.  Returns (answer, vis, rs);
    None when the fuel is exhausted. *)
Fixpoint dfs (n : nat) (adj : list (string * list string)) (node : string)
  (vis rs : list string) {struct n} : option (bool * list string * list string) :=
  match n with
  | O => None
  | S n =>
      let fix loop (ns : list string) (vis rs : list string)
        : option (bool * list string * list string) :=
        match ns with
        | [] => Some (false, vis, rs)
        | m :: r =>
            if negb (str_in m vis) then
              match dfs n adj m vis rs with
              | Some (true, vis', rs') => Some (true, vis', rs')
              | Some (false, vis', rs') => loop r vis' rs'
              | None => None
              end
            else if str_in m rs then Some (true, vis, rs)
            else loop r vis rs
        end in
      match loop (adjacent adj node) (node :: vis) (node :: rs) with
      | Some (true, vis', rs') => Some (true, vis', rs')
      | Some (false, vis', rs') => Some (false, vis', remove string_dec node rs')
      | None => None
      end
  end.

(** graph.go 53-65: the loop over the nodes *)
Fixpoint circLoop (n : nat) (adj : list (string * list string)) (ns : list string)
  (vis rs : list string) : option bool :=
  match ns with
  | [] => Some false
  | m :: r =>
      if negb (str_in m vis) then
        match dfs n adj m vis rs with
        | Some (true, _, _) => Some true
        | Some (false, vis', rs') => circLoop n adj r vis' rs'
        | None => None
        end
      else circLoop n adj r vis rs
  end.

(** all strings that occur in the graph: bounds the depth of the search *)
Definition vertices (g : graph) : list string :=
  g_nodes g ++ flat_map (fun p => fst p :: snd p) (g_adj g).

(** graph.go 53-65 IsCircular *)
Definition isCircular (g : graph) : option bool :=
  circLoop (S (length (vertices g))) (g_adj g) (g_nodes g) [] [].
