(** Single cases of C09, C98, C118, C121 and C122. *)
From Coq Require Import Reals Qreals.
From Verif Require Import Base Species Reactions Chemistry Morris MorrisStats InitialGuess Tables ExtReal Equations EqSpec Neutral Solution EqExamples EdgeCases.
Open Scope R_scope.

(** C09: when the xml file of the chemistry is gone, its attributes cannot be
    saved, and loading with the check of the file raises
    ChemistryAttributeError and changes nothing. *)
Theorem C09_missing_file E fh c s f : c_xml c = Some s -> s <> ""%string -> fh s = None ->
  (forall d, chemistry_attributes E fh c <> Ok d) /\ load E fh c f true = (c, Err EChemAttr).
Proof. exact (missing_file E fh c s f). Qed.

(** C98 (refuted): "repeated time points move apart by the step". A negative
    integer time point given twice: the first stays and the second moves by a
    whole second. *)
Theorem C98_negative_int_refuted K model v p e z w :
  eq_init K model v p = Ok e -> p_int p = true -> p_times p = [inject_Z z; inject_Z z; inject_Z w] ->
  (z < 0)%Z -> (z + 1 < w)%Z -> (0 < p_t_end p < 100000)%Q ->
  s_tpow (st e) = [inject_Z z; inject_Z (z + 1); inject_Z w].
Proof. exact (integer_knots K model v p e z w). Qed.

Example C98_negative_int_nonvacuous : exists e, eq_init K1 Combined view1 (params1 true [-1; -1; 2]%Q 2%Q) = Ok e.
Proof. exact integer_knots_example. Qed.

(** C118: a neutral model reports the electron density 0 and no electron
    temperature, whatever the species and the state. *)
Theorem C118_neutral_electrons s names t y row :
  frame_row NeutralOnly s names t y = row -> sget "e"%string row = Some (X 0) /\ sget "Te"%string row = Some XNaN.
Proof. exact (neutral_rows s names t y row). Qed.

(** C121: before any run neither rates nor a solution are served. *)
Theorem C121_no_run cl b : bk_primary b = None -> bk_rates cl b = Err EModelSolution /\ bk_solution b = Err EModelSolution.
Proof. exact (no_rates cl b). Qed.

(** C122: the neutral model takes a chemistry exactly if no species has a
    charge other than 0, positive or negative. *)
Theorem C122_neutral_only c names : neutral_model_names c = Ok names <->
  (forall s z, In s (get_species c false false true) -> sp_charge s = Some z -> z = 0%Z) /\
  names = map sp_name (get_species c false false true).
Proof. exact (neutral_model_iff c names). Qed.

(** All theorems of this file at once (one traversal instead of one per
    theorem). *)
Definition all_theorems := (
  @C09_missing_file,
  @C98_negative_int_refuted,
  @C118_neutral_electrons,
  @C121_no_run,
  @C122_neutral_only).
Print Assumptions all_theorems.
