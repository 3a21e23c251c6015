(** A reduction with a ranking function. *)
From Coq Require Import Permutation Lqa.
From Verif Require Import Base BaseLemmas Species Reactions Chemistry ChemSpec ChemExamples Morris MorrisStats Tables InitialGuess
  GlobalModel GlobalSpec GlobalExamples Reduction ReductionSpec ReductionMain ReductionExamples DynamicSpec.
Open Scope list_scope.

(** The first ranking, after one run, and the later ones. *)
Definition dy_f (g : gmodel) (n : nat) : res (list (string * Q)) :=
  match n with
  | S O => Ok [("O"%string, 1%Q); ("Ar*"%string, 5%Q)]
  | _ => Ok [("O"%string, 0%Q); ("Ar*"%string, 2%Q); ("Ar+"%string, 3%Q)]
  end.
Definition dy_rows : list (option string * option Q) :=
  [(None, None); (Some "O"%string, Some 1%Q); (Some "Ar*"%string, Some 2%Q); (Some "Ar+"%string, Some 3%Q)].

Lemma dy_reduction : reachable E1 c0 /\ gm_chem g0 = Some c0 /\ exists s1 st st', r_init A1 g0 fs0 = (s1, Ok st) /\
  run_reduction E1 no_files dd1 sc1 b1 A1 9 st (Dynamic dy_f) 1 = Some (st', Ok tt) /\
  map (fun r => (h_species r, h_score r)) (r_hist st') = dy_rows.
Proof.
  split; [exact c0_reachable1|]. split; [vm_compute; reflexivity|].
  do 3 eexists. repeat (split; [vm_compute; reflexivity|]). vm_compute. reflexivity.
Qed.
