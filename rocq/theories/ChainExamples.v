(** A run interrupted by the user. *)
From Verif Require Import Base Species Chemistry ChemExamples Morris MorrisStats Tables InitialGuess GlobalModel GlobalExamples Reduction
  ReductionSpec ReductionExamples ChainSpec.

Definition b_fail : nat -> solving := solver [done 6 5 2].
Definition b_int : nat -> solving := solver [done 6 5 2; SRaise EInterrupt None].
Lemma example_interrupted : exists st st1 row, iterated E1 no_files dd1 sc1 b_int A1 true g0 fs0 st /\ interrupted_for (r_runs st) b_fail b_int /\
  rm b_int A1 st "O" 1 true = (st1, Ok row) /\ h_success row = Some false /\ left_in st1 = left_in st.
Proof.
  set (st := st0 A1 g0 fs0). set (sb := fst (base b_int A1 st)).
  exists sb, (fst (rm b_int A1 sb "O" 1 true)).
  assert (R1 : r_init A1 g0 fs0 = (fst (r_init A1 g0 fs0), Ok st)) by (vm_compute; reflexivity).
  assert (R2 : base b_int A1 st = (sb, Ok tt)) by (vm_compute; reflexivity).
  eexists. split; [eapply it_base; [exact R1|exact R2]|]. split.
  { exists None. replace (r_runs sb) with 1%nat by (vm_compute; reflexivity). split; reflexivity. }
  split; [vm_compute; reflexivity|]. split; [reflexivity|]. vm_compute. reflexivity.
Qed.
