(** What the user is told about initial densities; [l] lists the enabled
    heavy species with their charges, [ns] their densities in the same
    order. *)
From Verif Require Import Base Chemistry MorrisStats InitialGuess.
Open Scope Q_scope.

Definition charge_density (l : list (string * Z)) (ns : list Q) : Q :=
  qsum (map (fun sn => inject_Z (snd (fst sn)) * snd sn) (combine l ns)).

(** Feeds are not negative and only neutral species are fed. *)
Definition neutral_feeds (l : list (string * Z)) (feeds : list (string * Q)) : Prop :=
  forall n q, In (n, q) l -> 0 <= feed_of feeds n /\ (0 < feed_of feeds n -> q = 0%Z).

Definition fed (l : list (string * Z)) (feeds : list (string * Q)) : Prop :=
  exists s, In s l /\ 0 < feed_of feeds (fst s).

(** [x] is the density of species [s]. *)
Definition density (l : list (string * Z)) (ns : list Q) (s : string * Z) (x : Q) : Prop := In (s, x) (combine l ns).

(** The charged and the non-feed species take up no more than the total. *)
Definition small_fractions (l : list (string * Z)) (fr : fractions) : Prop :=
  0 <= fr_ion fr /\ 0 <= fr_neg fr /\ 0 <= fr_non fr /\
  fr_ion fr + fr_neg fr * (inject_Z (- zsum (neg_charges l)) + zlen (neg_charges l)) + fr_non fr * zlen (neutrals l) <= 1.

(** Boltzmann's constant in J/K: 1.380649e-23. *)
Definition boltzmann : Q := (1380649 # 1000000) * / inject_Z (10 ^ 23).

(** Ideal gas: the particle density at pressure p and temperature T. *)
Definition gas_density (p : gparams) : Q := gp_press p / (boltzmann * gp_temp p).
