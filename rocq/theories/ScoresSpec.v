(** What the scores in the history of a reduction mean. *)
From Verif Require Import Base Graph GraphSpec GraphPaths ChemGraph ChemGraphSpec Tables GlobalModel Reduction ReductionSpec.
Open Scope list_scope.

(** The first row tells of the run with everything; the others name members of
    the ranking, with their scores, in the order of the ranking. *)
Definition follows (l : list (string * Q)) (h : list hrow) : Prop :=
  exists r rows sub, h = r :: rows /\ h_species r = None /\ h_score r = None /\ subseq sub l /\
    map (fun x => (h_species x, h_score x)) rows = map (fun p => (Some (fst p), Some (snd p))) sub.

(** [v] is the conductance of the best path from an important species to [s]
    at any time, 0 without a path. *)
Definition best_path (gs : list (graph Q)) (important : list string) (s : string) (v : Q) : Prop :=
  (forall imp t g q ws, In imp important -> nth_error gs t = Some g ->
     walk (N := GraphPaths.Qnum) g Ok "weight" imp s q ws -> conductance ws <= v)%Q /\
  ((exists imp t g q ws, In imp important /\ nth_error gs t = Some g /\
      walk (N := GraphPaths.Qnum) g Ok "weight" imp s q ws /\ v == conductance ws)%Q \/
   (v == 0 /\ forall imp t g q ws, In imp important -> nth_error gs t = Some g ->
      ~ walk (N := GraphPaths.Qnum) g Ok "weight" imp s q ws)%Q).
