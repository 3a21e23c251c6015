(** The claim about the choice of the next species: C186. *)
From Coq Require Import Permutation.
From Verif Require Import Base Species Reactions Chemistry ChemSpec ChemExamples Morris MorrisStats Tables InitialGuess
  GlobalModel GlobalSpec GlobalExamples Reduction ReductionSpec ReductionMain ReductionExamples DynamicSpec DynamicProofs DynamicExamples.
Open Scope list_scope.

(** A run that ends without an exception has tried, each time, the first
    species left of the current ranking, and ends with too many failures in a
    row, with nothing left that may be removed, or with nothing left of the
    current ranking. *)
Theorem C186_next E fhash default_dir scan backend k c r g s s1 st max m st' :
  (forall l, Permutation (scan l) l) -> reachable E c -> declared_exist c -> (0 <= rc_max k)%Q ->
  fs_ok s -> gm_chem g = Some c -> r_init k g s = (s1, Ok st) ->
  run_reduction E fhash default_dir scan backend k m st r max = Some (st', Ok tt) ->
  exists st2 R, driven E fhash default_dir scan backend k r g s st2 R /\
    r_hist st' = r_hist st2 /\ r_tried st' = r_tried st2 /\ r_eligible st' = r_eligible st2 /\ r_fs st' = r_fs st2 /\
    ((exists h1 h2 n, r_hist st' = h1 ++ h2 /\ all_over k n h2 /\ (max < Z.of_nat n)%Z) \/ r_eligible st' = [] \/
     forall x, In x (map fst R) -> done_with st' x).
Proof. exact (fun P R D M => reduction_driven E fhash default_dir scan backend k P c R D M r g s s1 st max m st'). Qed.

Example C186_not_vacuous : reachable E1 c0 /\ gm_chem g0 = Some c0 /\ exists s1 st st', r_init A1 g0 fs0 = (s1, Ok st) /\
  run_reduction E1 no_files dd1 sc1 b1 A1 9 st (Dynamic dy_f) 1 = Some (st', Ok tt) /\
  map (fun r => (h_species r, h_score r)) (r_hist st') = dy_rows.
Proof. exact dy_reduction. Qed.

(** All theorems of this file at once (one traversal instead of one per
    theorem). *)
Definition all_theorems := (
  @C186_next).
Print Assumptions all_theorems.
