(** Vocabulary of C182: largest flows. *)
From Verif Require Import Base Graph GraphSpec ChemGraph.
Local Open Scope Q_scope.

(** [x] is the value of a largest flow from [s] to [t]. *)
Definition largest_flow (g : graph Q) (s t : string) (x : Q) : Prop :=
  (exists cap f, capacity_of g Ok "weight" cap /\ feasible (g_nodes g) cap s t f x) /\
  forall cap f y, capacity_of g Ok "weight" cap -> feasible (g_nodes g) cap s t f y -> y <= x.
