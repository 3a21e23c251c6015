(** Properties of starting and running a global model. *)
From Coq Require Import Permutation.
From Verif Require Import Base Species Reactions Chemistry ChemSpec ChemExamples MorrisStats InitialGuess InitialSpec InitialMain InitialExamples StartGiven.
Open Scope Q_scope.

(** ** C34 *)
Theorem C34_densities E c p fr l :
  reachable E c -> c_kind c = Plain -> heavy c = Ok l -> 0 < gp_temp p -> 0 < gp_press p -> 0 < fr_ion fr ->
  neutral_feeds l (gp_feeds p) -> (exists s, In s l /\ snd s = 0%Z) ->
  exists ns, generate_initial_n c p fr = Ok (combine (map fst l) ns) /\ List.length ns = List.length l /\
    qsum ns == gas_density p /\
    charge_density l ns == gas_density p * fr_ion fr /\
    validate_initial_n c (combine (map fst l) ns) = Ok tt /\
    (forall s x, density l ns s x -> (snd s < 0)%Z -> x == gas_density p * fr_neg fr) /\
    (forall s x t y, density l ns s x -> density l ns t y -> (0 < snd s)%Z -> (0 < snd t)%Z -> x == y) /\
    (forall s x, density l ns s x -> fed l (gp_feeds p) -> snd s = 0%Z -> feed_of (gp_feeds p) (fst s) == 0 -> x == gas_density p * fr_non fr) /\
    (forall s x t y, density l ns s x -> density l ns t y -> 0 < feed_of (gp_feeds p) (fst s) -> 0 < feed_of (gp_feeds p) (fst t) ->
       x * feed_of (gp_feeds p) (fst t) == y * feed_of (gp_feeds p) (fst s)) /\
    (forall s x t y, density l ns s x -> density l ns t y -> ~ fed l (gp_feeds p) -> snd s = 0%Z -> snd t = 0%Z -> x == y).
Proof. exact (initial_ok E c p fr l). Qed.

Theorem C34_nonneg E c p fr l d :
  reachable E c -> c_kind c = Plain -> heavy c = Ok l -> 0 < gp_temp p -> 0 < gp_press p ->
  neutral_feeds l (gp_feeds p) -> small_fractions l fr ->
  generate_initial_n c p fr = Ok d -> forall n x, In (n, x) d -> 0 <= x.
Proof. exact (initial_nonneg E c p fr l d). Qed.

Theorem C34_same_start E c p fr l d te :
  reachable E c -> c_kind c = Plain -> heavy c = Ok l -> 0 < gp_temp p -> 0 < gp_press p -> 0 < fr_ion fr ->
  neutral_feeds l (gp_feeds p) -> generate_initial_n c p fr = Ok d ->
  exists ns rho rho', y0_from_init_params c p te (Some d) = Ok (ns, rho) /\ build_y0 c p te fr = Ok (ns, rho') /\ rho == rho' /\
    ns = map snd d /\ rho == (3 # 2) * (gas_density p * fr_ion fr) * te /\ validate_y0 c (ns, rho) = Ok tt.
Proof. exact (same_start E c p fr l d te). Qed.

Theorem C34_order c p te d d' : NoDup (map fst d) -> Permutation d d' ->
  y0_from_init_params c p te (Some d) = y0_from_init_params c p te (Some d') /\
  validate_initial_n c d = validate_initial_n c d'.
Proof. exact (y0_order c p te d d'). Qed.

(** C34: densities given by name are accepted exactly when they name every
    heavy species once; each species then starts with the density given
    under its name, the electrons with 3/2 of the charge density times the
    temperature. *)
Theorem C34_given_start c p te l d : heavy c = Ok l -> NoDup (map fst d) ->
  (Permutation (map fst d) (map fst l) -> exists ns,
     y0_from_init_params c p te (Some d) = Ok (ns, (3 # 2) * charge_density l ns * te) /\
     Forall2 (fun s q => In (fst s, q) d) l ns) /\
  (~ Permutation (map fst d) (map fst l) -> y0_from_init_params c p te (Some d) = Err EInitialSolution).
Proof. exact (plain_given c p te l d). Qed.
Example C34_given_start_nonvacuous : heavy c_ox = Ok l_ox /\
  Permutation (map fst [("O", 4); ("O2", 1); ("O2+", 2); ("O-", 3)]%string) (map fst l_ox).
Proof.
  split; [exact l_ox_heavy|]. exact (Permutation_app_comm ["O"%string] ["O2"; "O2+"; "O-"]%string).
Qed.

Theorem C34_charged_feed_refuted : exists c p l ns,
  reachable E0 c /\ c_kind c = Plain /\ heavy c = Ok l /\ 0 < gp_temp p /\ 0 < gp_press p /\
  (forall n q, In (n, q) (gp_feeds p) -> 0 < q) /\ (exists s, In s l /\ snd s = 0%Z) /\
  generate_initial_n c p default_fractions = Ok (combine (map fst l) ns) /\
  ~ charge_density l ns == gas_density p * fr_ion default_fractions /\ 1000 * gas_density p * fr_ion default_fractions < charge_density l ns.
Proof. exact charged_feed. Qed.

Theorem C34_no_neutral_refuted : exists c p l ns,
  reachable E0 c /\ c_kind c = Plain /\ heavy c = Ok l /\ 0 < gp_temp p /\ 0 < gp_press p /\ gp_feeds p = [] /\
  generate_initial_n c p default_fractions = Ok (combine (map fst l) ns) /\
  1000 * qsum ns < gas_density p.
Proof. exact no_neutral. Qed.

(** All theorems of this file at once (one traversal instead of one per
    theorem). *)
Definition all_theorems := (
  @C34_densities,
  @C34_nonneg,
  @C34_same_start,
  @C34_order,
  @C34_given_start,
  @C34_charged_feed_refuted,
  @C34_no_neutral_refuted).
Print Assumptions all_theorems.
