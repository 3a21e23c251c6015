(** Vocabulary for the electron energy equation. *)
From Coq Require Import Reals Qreals.
From Verif Require Import Base ExtReal Equations EqSpec.
Open Scope R_scope.

(** Mean mass of the positive ions and the sheath voltage in units of the
    electron temperature. *)
Definition ion_count (v : view) : R :=
  Sum (List.length (v_names v)) (fun i => if Z.ltb 0 (charge_of v i) then 1 else 0).
Definition ion_mass (K : constants) (v : view) : R :=
  Sum (List.length (v_names v)) (fun i => if Z.ltb 0 (charge_of v i) then mass_of K v i else 0) / ion_count v.
Definition sheath_factor (K : constants) (v : view) : R := ln (sqrt (ion_mass K v / (2 * PI * c_me K))).

(** Change of the electron energy density: absorbed power, minus the energy
    spent in collisions, minus the energy of net electrons created, plus what
    the wall terms [ss] (negative for losses) carry away with the electrons
    and with the ions falling through the sheath. *)
Definition energy_balance (K : constants) (v : view) (p : mparams) (te rho power : R) (ls rs ss : list R) : R :=
  power / volume_of p / c_e K
  - Sum (List.length (v_a v)) (fun j => if Z.ltb 0 (nth j (v_e_lhs v) 0%Z) then el ls j * el rs j else 0)
  - 3 / 2 * te * Sum (List.length (v_a v)) (fun j => IZR (nth j (v_e_net v) 0%Z) * el rs j)
  + 2 * te * Sum (List.length (v_names v)) (fun i => IZR (charge_of v i) * el ss i)
  + 1 / 2 * te * Sum (List.length (v_names v)) (fun i => if Z.ltb 0 (charge_of v i) then el ss i else 0)
  + te * sheath_factor K v * Sum (List.length (v_names v)) (fun i => if Z.ltb 0 (charge_of v i) then IZR (charge_of v i) * el ss i else 0)
  + (if Rlt_dec rho 1 then (1 - rho) * 10 ^ 10 else 0).
