(** Property theorems about the rows of reduction histories (C183).
    Vocabulary: ReductionSpec.v and ChainSpec.v. *)
From Verif Require Import Base Species Chemistry ChemExamples Morris MorrisStats Tables InitialGuess GlobalModel GlobalExamples Reduction
  ReductionSpec ReductionExamples ChainSpec ReductionChain ChainExamples.

(** C183: after any calls, each row names its run by its number and its
    species, and tells the errors of its solution against the base run and
    against the run kept last: the last one before it that was neither a
    failure nor undone. *)
Theorem C183_rows E fhash default_dir scan backend k bt g s st :
  iterated E fhash default_dir scan backend k bt g s st ->
  exists base last, r_base st = Some base /\ r_last st = Some last /\ chain E k bt base (r_hist st) last.
Proof. exact (iterated_chain E fhash default_dir scan backend k bt g s st). Qed.

(** A run interrupted by the user has exactly the effect of one that fails. *)
Theorem C183_interrupted E fhash default_dir scan b b' k st sp score bt : interrupted_for (r_runs st) b b' ->
  remove_one E fhash default_dir scan b' k st sp score bt = remove_one E fhash default_dir scan b k st sp score bt.
Proof. exact (same_failure E fhash default_dir scan b b' k st sp score bt). Qed.

(** When the settings in the directory are not those of the iterator, nothing
    is removed. *)
Theorem C183_settings E fhash default_dir scan backend k st sp score bt o t m :
  fget (meta_path k) (fs_files (r_fs st)) = Some (CMeta o t m) ->
  o <> rc_outs k \/ ~ Forall2 Qeq t (rc_times k) \/ ~ (m == rc_max k)%Q ->
  exists x, remove_one E fhash default_dir scan backend k st sp score bt = (st, Err x).
Proof. exact (reject_meta E fhash default_dir scan backend k st sp score bt o t m). Qed.

Example C183_not_vacuous : exists st st1 row, iterated E1 no_files dd1 sc1 b1 A1 true g0 fs0 st /\ rm b1 A1 st "Ar*" 2 true = (st1, Ok row) /\
  left_in st = ["Ar"; "Ar+"; "Ar*"]%string /\ left_in st1 = ["Ar"; "Ar+"; "Ar*"]%string /\ h_success row = Some true /\ over_limit A1 (h_base row).
Proof. exact example_iterated. Qed.

Example C183_interrupted_not_vacuous : exists st st1 row, iterated E1 no_files dd1 sc1 b_int A1 true g0 fs0 st /\
  interrupted_for (r_runs st) b_fail b_int /\
  rm b_int A1 st "O" 1 true = (st1, Ok row) /\ h_success row = Some false /\ left_in st1 = left_in st.
Proof. exact example_interrupted. Qed.

(** All theorems of this file at once (one traversal instead of one per
    theorem). *)
Definition all_theorems := (
  @C183_rows,
  @C183_interrupted,
  @C183_settings).
Print Assumptions all_theorems.
