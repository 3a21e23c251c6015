(** When the ion temperature can be diagnosed: C181. *)
From Coq Require Import Reals.
From Verif Require Import Base InitialGuess ExtReal Equations Solution EqSpec EqExamples Diagnose DiagnoseSpec DiagnoseMore IonSpec DiagnoseIon.
Open Scope R_scope.

(** Above one millitorr at all times the table has the times and the ion
    temperatures; below it even at one time there is none (C181_ion_refuted). *)
Theorem C181_ion_when power_at K model v p e calls ids b (sol : list entry) :
  eq_init K model v p = Ok e -> bk_eq b = after calls e -> bk_primary b = Some (map at_ sol) -> sol <> [] ->
  (forall z, In z sol -> 133322 / 1000000 < pressure_of K p z) ->
  (2 <= List.length (v_names v))%nat -> List.length (v_a v) <> 1%nat ->
  diagnose power_at (v_names v) ids "ion_temperature" None false b =
    (b, Ok (map (fun z => [(LText "t"%string, fst (fst z)); (LText "value"%string, X (ion_of K p z))]) sol)).
Proof. exact (ion_works power_at K model v p e calls ids b sol). Qed.

Example C181_ion_when_nonvacuous model : (exists e, eq_init K1 model view3 par1 = Ok e) /\
  sol_high <> [] /\ (forall z, In z sol_high -> 133322 / 1000000 < pressure_of K1 par1 z) /\
  (2 <= List.length (v_names view3))%nat /\ List.length (v_a view3) <> 1%nat.
Proof. exact (conj (init3 model) high). Qed.

(** All theorems of this file at once (one traversal instead of one per
    theorem). *)
Definition all_theorems := (
  @C181_ion_when).
Print Assumptions all_theorems.
