(** Vocabulary for the chemistry graph: which species influence which. *)
From Verif Require Import Base Graph GraphSpec ChemGraph.
Local Open Scope Q_scope.

(** Admissible data: different names, non-negative coefficients and rates,
    a real vessel. *)
Record admissible (k : cgraph) : Prop := MkAdm {
  ad_names : NoDup (cg_species k);
  ad_lhs : forall j a, (0 <= cg_lhs k j a)%Z;
  ad_rhs : forall j a, (0 <= cg_rhs k j a)%Z;
  ad_rates : forall t j, 0 <= cg_rate k t j;
  ad_radius : 0 < cg_radius k;
  ad_length : 0 < cg_length k
}.

Definition species_at (k : cgraph) (a : nat) (s : string) : Prop := nth_error (cg_species k) a = Some s.

(** Reaction [j] has species [b] among its reactants or products. *)
Definition involves (k : cgraph) (j b : nat) : Prop := (0 < cg_lhs k j b)%Z \/ (0 < cg_rhs k j b)%Z.
(** Reaction [j] changes the number of particles of species [a]. *)
Definition changes (k : cgraph) (j a : nat) : Prop := cg_lhs k j a <> cg_rhs k j a.

(** At time [t] the number of particles of [a] is changed by a running
    reaction in which [b] takes part, or by [b] returning from the wall as
    [a]. *)
Definition linked (k : cgraph) (surface : bool) (t b a : nat) : Prop :=
  (exists j, (j < cg_reactions k)%nat /\ 0 < cg_rate k t j /\ involves k j b /\ changes k j a) \/
  (surface = true /\ ~ cg_flux k t b == 0 /\ ~ cg_ret k a b == 0).

(** Value of a walk under the search method 'shortest_path': the inverse of
    the sum of the inverse weights. *)
Definition conductance (ws : list Q) : Q := 1 / qsum (fun w => 1 / w) ws.

(** [s] has an edge. *)
Definition connected (g : graph Q) (s : string) : Prop := exists u, In (s, u) (g_edges g) \/ In (u, s) (g_edges g).

(** ** The value of a DRG weight, from the data *)

(** Volume rate of the particles of [a] taken away (negative) or given back
    by the wall because of species [b]; the surface of a cylinder divided by
    its volume is [2 (r + z) / (r z)]. *)
Definition wall_rate (k : cgraph) (t b a : nat) : Q :=
  cg_flux k t b * (2 * (cg_radius k + cg_length k) / (cg_radius k * cg_length k)) *
  ((if Nat.eqb a b then 1 else 0) - cg_ret k a b).

Definition involvesb (k : cgraph) (j b : nat) : bool := (0 <? cg_lhs k j b)%Z || (0 <? cg_rhs k j b)%Z.

(** Production and consumption of [a] in the reactions [js]. *)
Definition turnover (k : cgraph) (t a : nat) (js : list nat) : Q :=
  qsum (fun j => cg_rate k t j * inject_Z (Z.abs (cg_rhs k j a - cg_lhs k j a))) js.
