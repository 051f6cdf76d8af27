(** Specification of the import graph: edges, paths, cycles. *)
From Verif Require Import Base Graph.

(** [v] is among the successors of [u] *)
Definition Edge (adj : list (string * list string)) (u v : string) : Prop :=
  exists l, assoc u adj = Some l /\ In v l.

Inductive Path (adj : list (string * list string)) : string -> string -> Prop :=
| PathNil u : Path adj u u
| PathCons u w v : Edge adj u w -> Path adj w v -> Path adj u v.

(** there is a way back from [u] to itself along at least one edge *)
Definition OnCycle (adj : list (string * list string)) (u : string) : Prop :=
  exists w, Edge adj u w /\ Path adj w u.

(** some node of the graph reaches a cycle *)
Definition Circular (g : graph) : Prop :=
  exists n u, In n (g_nodes g) /\ Path (g_adj g) n u /\ OnCycle (g_adj g) u.

Lemma path_snoc adj u v w : Path adj u v -> Edge adj v w -> Path adj u w.
Proof. intros P E. induction P; econstructor; try eassumption. constructor. auto. Qed.
Lemma path_trans adj u v w : Path adj u v -> Path adj v w -> Path adj u w.
Proof. intros P Q. induction P; [assumption|]. econstructor; eauto. Qed.
