(** The ion temperature as a function of the pressure. *)
From Coq Require Import Reals.
From Verif Require Import Base InitialGuess ExtReal Equations Solution EqSpec.
Open Scope R_scope.

(** A time, densities and the energy density of the electrons. *)
Definition entry : Type := (ext * list R * R)%type.
Definition at_ (z : entry) : ext * list ext := (fst (fst z), state (snd (fst z)) (snd z)).
Definition pressure_of (K : constants) (p : mparams) (z : entry) : R := c_k K * p_temp p * fold_right Rplus 0 (snd (fst z)).

(** The ion temperature at this pressure. *)
Definition ion_of (K : constants) (p : mparams) (z : entry) : R :=
  (1 / 2 * c_e K / c_k K - p_temp p) / (pressure_of K p z / (133322 / 1000000)) + p_temp p.
