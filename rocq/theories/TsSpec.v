(** Lines of a text, stated without split. *)
From Verif Require Import Base.

Inductive Lines : list N -> list (list N) -> list N -> Prop :=
| LinesRest t : ~ In 10%N t -> Lines t [] t
| LinesOne l t ls r : ~ In 10%N l -> Lines t ls r -> Lines (l ++ 10%N :: t) (l :: ls) r.
