(** Vocabulary: what the arrays of the rate equations must contain. *)
From Coq Require Import Reals Qreals.
From Verif Require Import Base Species Reactions Chemistry.

(** How often a species of this name occurs on one side of a reaction. *)
Definition occurrences (n : string) (side : list sp) : Z :=
  Z.of_nat (List.length (filter (fun s => if string_dec (sp_name s) n then true else false) side)).

(** The numbers denoted by the values getters return. *)
Inductive denotes_number : scalar -> R -> Prop :=
| dn_float q : denotes_number (SFlt (Fin q)) (Q2R q)
| dn_np q : denotes_number (SNp (Fin q)) (Q2R q)
| dn_int z : denotes_number (SInt z) (IZR z)
| dn_true : denotes_number (SBool true) 1%R
| dn_false : denotes_number (SBool false) 0%R.

(** Value of a unit of rate coefficients in SI units. *)
Inductive unit_in_si : string -> R -> Prop :=
| si_s : unit_in_si "s-1" 1%R
| si_m3 : unit_in_si "m3.s-1" 1%R
| si_m6 : unit_in_si "m6.s-1" 1%R
| si_cm3 : unit_in_si "cm3.s-1" (/ 1000000)%R
| si_cm6 : unit_in_si "cm6.s-1" (/ 1000000000000)%R.
