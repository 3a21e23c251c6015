(** Property theorems about the model equations (C35 - C39, C93 - C100); the
    vocabulary is that of EqSpec.v. [answers e c a]: the call [c] on the
    object [e] returns [a]; [X r] is the finite number [r]. *)
From Coq Require Import Reals Qreals.
From Verif Require Import Base ExtReal Equations EqSpec EqPure EqPower EqFlow EqFloors EqWall EqMore EqExamples.
Open Scope R_scope.

(** C35: wall fluxes are not positive, vanish for species that do not stick
    and are negative for those that do. *)
Theorem C35_fluxes K model v p e n rho :
  physical K -> proper_params p -> proper_view v -> eq_init K model v p = Ok e ->
  List.length n = List.length (v_names v) -> all_nonneg n -> 0 < electrons v n -> collisional K v p n rho ->
  (model = Combined -> forall i, (i < List.length n)%nat -> (charge_of v i < 0)%Z -> el (v_stick v) i <> 0) ->
  exists ws, List.length ws = List.length n /\ answers e (CFluxes (state n rho) None None None) (AVec (map X ws)) /\
    forall i, (i < List.length n)%nat ->
      el ws i <= 0 /\ (el (v_stick v) i = 0 -> el ws i = 0) /\
      (0 < el (v_stick v) i -> 0 < el n i -> (0 <= charge_of v i)%Z -> el ws i < 0).
Proof. exact (fluxes_ok K model v p e n rho). Qed.

(** C35: what arrives at the wall comes back as the return coefficients say. *)
Theorem C35_surface K model v p e y ws :
  proper_params p -> eq_init K model v p = Ok e -> List.length ws = List.length (v_names v) ->
  answers e (CFluxes y None None None) (AVec (map X ws)) ->
  exists ss, List.length ss = List.length ws /\ answers e (CSurface y None None) (AVec (map X ss)) /\
    forall i, (i < List.length ws)%nat ->
      el ss i = (el ws i - Sum (List.length ws) (fun k => returned v i k * el ws k)) * area_of p / volume_of p.
Proof. exact (surface_exact K model v p e y ws). Qed.

(** C35: nothing is gained or lost at the wall if the return coefficients of
    every species that arrives sum to one. *)
Theorem C35_balance K model v p e y ws :
  proper_params p -> eq_init K model v p = Ok e -> List.length ws = List.length (v_names v) ->
  answers e (CFluxes y None None None) (AVec (map X ws)) ->
  (forall k, (k < List.length ws)%nat -> el ws k <> 0 -> Sum (List.length ws) (fun i => returned v i k) = 1) ->
  exists ss, List.length ss = List.length ws /\ answers e (CSurface y None None) (AVec (map X ss)) /\
    Sum (List.length ws) (el ss) = 0.
Proof. exact (surface_balance K model v p e y ws). Qed.

Example C35_nonvacuous : exists e, eq_init K1 Combined view1 par1 = Ok e /\ physical K1 /\ proper_params par1 /\
  proper_view view1 /\ all_nonneg n1 /\ electrons view1 n1 = 2 /\ collisional K1 view1 par1 n1 9 /\
  (Combined = Combined -> forall i, (i < List.length n1)%nat -> (charge_of view1 i < 0)%Z -> el (v_stick view1) i <> 0) /\
  (forall k, (k < 2)%nat -> el (v_stick view1) k <> 0 -> Sum 2 (fun i => returned view1 i k) = 1).
Proof.
  exact (let (e, H) := init1 Combined in ex_intro _ e (conj H (conj K1_physical (conj par1_proper (conj view1_proper
    (conj n1_nonneg (conj n1_electrons (conj (n1_collisional 9) (conj n1_no_anion n1_returns))))))))).
Qed.

(** C36: at the set pressure the flow terms sum to zero, off it they push the
    density towards it, and they act on charged species only if these are fed. *)
Theorem C36_flow K model v p e n rho :
  proper_params p -> eq_init K model v p = Ok e ->
  List.length n = List.length (v_names v) -> all_nonneg n -> 0 < neutral_density v n ->
  exists fs, List.length fs = List.length n /\ answers e (CFlow (state n rho) None None) (AVec (map X fs)) /\
    (pressure_of K v p n = p_pressure p -> Sum (List.length n) (el fs) = 0) /\
    (pressure_of K v p n > p_pressure p -> Sum (List.length n) (el fs) < 0) /\
    (pressure_of K v p n < p_pressure p -> Sum (List.length n) (el fs) > 0) /\
    forall i, (i < List.length n)%nat -> charge_of v i <> 0%Z -> feed_of v p i = 0 -> el fs i = 0.
Proof. exact (flow_balance K model v p e n rho). Qed.

(** C36: the terms, exactly. *)
Theorem C36_exact K model v p e n rho :
  proper_params p -> eq_init K model v p = Ok e ->
  List.length n = List.length (v_names v) -> neutral_density v n <> 0 ->
  exists fs, List.length fs = List.length (v_names v) /\
    answers e (CFlow (state n rho) None None) (AVec (map X fs)) /\
    (forall i, (i < List.length fs)%nat -> charge_of v i <> 0%Z -> el fs i = inflow_of v p i) /\
    (forall i, (i < List.length fs)%nat -> charge_of v i = 0%Z ->
       el fs i = inflow_of v p i - 1000 * el n i * (pressure_of K v p n - p_pressure p) / p_pressure p
                 - Sum (List.length fs) (inflow_of v p) * el n i / neutral_density v n) /\
    Sum (List.length fs) (el fs) = - (1000 * neutral_density v n * (pressure_of K v p n - p_pressure p) / p_pressure p).
Proof. exact (flow_exact K model v p e n rho). Qed.

Example C36_nonvacuous : exists e, eq_init K1 Combined view1 par1 = Ok e /\ proper_params par1 /\ all_nonneg n1 /\
  neutral_density view1 n1 = 7.
Proof. exact (let (e, H) := init1 Combined in ex_intro _ e (conj H (conj par1_proper (conj n1_nonneg n1_neutral)))). Qed.

(** C37: whatever has been called before, with whatever arguments, a call
    answers as on a new object, and the data of the object stay. *)
Theorem C37_history_free K model v p e calls c :
  eq_init K model v p = Ok e ->
  snd (perform c (after calls e)) = snd (perform c e) /\ st (after calls e) = st e.
Proof. exact (history_free K model v p e calls c). Qed.

(** C37: the right-hand side given to the solver is [get_dy_dt]. *)
Theorem C37_same K model v p e t y :
  eq_init K model v p = Ok e -> snd (perform (CObj t y) e) = snd (perform (CDy t y None None) e).
Proof. exact (rhs_same K model v p e t y). Qed.

Example C37_nonvacuous : exists e, eq_init K1 Diffusive view1 par1 = Ok e.
Proof. exact (init1 Diffusive). Qed.

(** C38: accepted time series are strictly ascending and cover the
    simulation. *)
Theorem C38_ascending K model v p e :
  eq_init K model v p = Ok e ->
  strictly_ascending (s_tpow (st e)) /\ List.length (s_tpow (st e)) = List.length (p_times p) /\
  (nth 0 (s_tpow (st e)) 0 <= 0)%Q /\ (p_t_end p <= last (s_tpow (st e)) 0)%Q.
Proof. exact (knots_ok K model v p e). Qed.

(** C38: times given as floats move by at most the adjustment step. *)
Theorem C38_moved K model v p e :
  eq_init K model v p = Ok e -> p_int p = false ->
  Forall2 (moved_by ((1 # 100000) * p_t_end p)) (p_times p) (s_tpow (st e)).
Proof. exact (knots_moved K model v p e). Qed.

(** C38: the power equals the given values at the knots and lies on the
    straight lines between them elsewhere. *)
Theorem C38_knots K model v p e i :
  eq_init K model v p = Ok e -> List.length (p_power p) = List.length (p_times p) ->
  (i < List.length (p_times p))%nat ->
  exists q, answers e (CPower (nth i (s_tpow (st e)) 0%Q)) (APower (Ok q)) /\ (q == nth i (p_power p) 0)%Q.
Proof. exact (power_at K model v p e i). Qed.
Theorem C38_between K model v p e t :
  eq_init K model v p = Ok e -> List.length (p_power p) = List.length (p_times p) ->
  (0 < p_t_end p)%Q -> (0 <= t <= p_t_end p)%Q ->
  exists q, answers e (CPower t) (APower (Ok q)) /\ on_polygon (s_tpow (st e)) (p_power p) t q.
Proof. exact (power_answers K model v p e t). Qed.

(** C38: time points repeated in pairs are not refused. *)
Theorem C38_accepts K model v p :
  p_int p = false -> (0 < p_t_end p)%Q -> well_spaced ((1 # 100000) * p_t_end p)%Q (p_times p) ->
  p_times p <> [] -> (nth 0 (p_times p) 0 <= 0)%Q -> (p_t_end p <= last (p_times p) 0)%Q ->
  eq_init K model v p <> Err EAssertion.
Proof. exact (accepts_spaced K model v p). Qed.

Example C38_nonvacuous : exists e, eq_init K1 Combined view1 par1 = Ok e /\ p_int par1 = false /\
  p_times par1 = [0; 1; 1; 2]%Q /\ List.length (p_power par1) = List.length (p_times par1).
Proof. exact (let (e, H) := init1 Combined in ex_intro _ e (conj H (conj eq_refl (conj eq_refl eq_refl)))). Qed.
Example C38_spaced : well_spaced ((1 # 100000) * p_t_end par1)%Q (p_times par1).
Proof. exact par1_spaced. Qed.

(** C39: the electron temperature is not below the gas temperature. *)
Theorem C39_temperature K model v p e y n_e rho t :
  eq_init K model v p = Ok e -> answers e (CElTemp y n_e rho) (ANum t) -> t = XNaN \/ at_least (gas_ev K p) t.
Proof. exact (te_floor K model v p e y n_e rho t). Qed.
Theorem C39_temperature_exact K model v p e n rho :
  eq_init K model v p = Ok e -> List.length n = List.length (v_names v) ->
  electrons v n <> 0 -> answers e (CElTemp (state n rho) None None) (ANum (X (electron_ev K v p n rho))).
Proof. exact (te_exact K model v p e n rho). Qed.

(** C39: reaction rates are not negative and follow the law of mass action. *)
Theorem C39_rates K model v p e n rho :
  physical K -> proper_params p -> proper_view v -> eq_init K model v p = Ok e ->
  List.length n = List.length (v_names v) -> all_nonneg n -> 0 < electrons v n ->
  exists rs, answers e (CRates (state n rho) None None None None) (AVec (map X rs)) /\
    List.length rs = List.length (v_a v) /\ all_nonneg rs.
Proof. exact (rates_nonneg K model v p e n rho). Qed.
Theorem C39_rates_exact K model v p e n rho :
  physical K -> proper_params p -> eq_init K model v p = Ok e ->
  List.length n = List.length (v_names v) -> electrons v n <> 0 ->
  exists rs, List.length rs = List.length (v_a v) /\
    answers e (CRates (state n rho) None None None None) (AVec (map X rs)) /\
    forall j, (j < List.length rs)%nat ->
      el rs j = coefficient v p (electron_ev K v p n rho) j * law_of_mass_action v n j.
Proof. exact (rates_exact K model v p e n rho). Qed.

(** C39: the correction acts below the floor of one particle only. *)
Theorem C39_correction K model v p e n rho :
  eq_init K model v p = Ok e -> List.length n = List.length (v_names v) ->
  exists cs, List.length cs = List.length n /\ answers e (CMinN (state n rho) None) (AVec (map X cs)) /\
    forall i, (i < List.length n)%nat ->
      (el n i < 1 -> el cs i = (1 - el n i) * 10 ^ 10 /\ 0 < el cs i) /\ (1 <= el n i -> el cs i = 0).
Proof. exact (min_n_exact K model v p e n rho). Qed.

Example C39_nonvacuous : exists e, eq_init K1 Combined view1 par1 = Ok e /\ all_nonneg n1 /\ electrons view1 n1 = 2.
Proof. exact (let (e, H) := init1 Combined in ex_intro _ e (conj H (conj n1_nonneg n1_electrons))). Qed.

(** C93: on every plasma state the right-hand side is a vector of finite
    numbers. *)
Theorem C93_finite K model v p e n rho t :
  physical K -> proper_params p -> proper_view v -> eq_init K model v p = Ok e ->
  List.length n = List.length (v_names v) -> all_nonneg n -> 0 < electrons v n -> collisional K v p n rho ->
  (model = Combined -> forall i, (i < List.length n)%nat -> (charge_of v i < 0)%Z -> el (v_stick v) i <> 0) ->
  neutral_density v n <> 0 ->
  List.length (p_power p) = List.length (p_times p) -> (0 <= t <= p_t_end p)%Q ->
  exists ds, List.length ds = S (List.length n) /\ answers e (CObj t (state n rho)) (AVecR (Ok (map X ds))).
Proof. exact (rhs_finite K model v p e n rho t). Qed.

Example C93_nonvacuous : exists e ds, eq_init K1 Combined view1 par1 = Ok e /\
  answers e (CObj 1 (state n1 9)) (AVecR (Ok (map X ds))).
Proof. exact finite_example. Qed.

(** C94: a species that does not stick has no wall flux. Refuted: if it is a
    negative ion, the derivatives of all densities are NaN, whatever the
    state. *)
Theorem C94_non_sticking_refuted : exists K v p e i, physical K /\ proper_params p /\ proper_view v /\
  eq_init K Combined v p = Ok e /\ (i < List.length (v_names v))%nat /\ el (v_stick v) i = 0 /\
  forall t y, (0 <= t <= p_t_end p)%Q -> exists dy, answers e (CObj t y) (AVecR (Ok dy)) /\
    forall k, (k < List.length (v_names v))%nat -> nth k dy (X 0) = XNaN.
Proof. exact anion_example. Qed.
(** C94: so it is for every chemistry with such an ion. *)
Theorem C94_always K v p e i :
  eq_init K Combined v p = Ok e -> (i < List.length (v_names v))%nat ->
  (charge_of v i < 0)%Z -> el (v_stick v) i = 0 ->
  forall t y dy, answers e (CObj t y) (AVecR (Ok dy)) ->
  forall k, (k < List.length (v_names v))%nat -> nth k dy (X 0) = XNaN.
Proof. exact (anion_nan K v p e i). Qed.

(** C95: a gas of one species can be simulated. Refuted: its derivative is
    NaN, whatever the density. *)
Theorem C95_single_species_refuted : exists K v p e, physical K /\ proper_params p /\ proper_view v /\
  eq_init K Combined v p = Ok e /\ List.length (v_names v) = 1%nat /\
  forall t n0 rho, (0 <= t <= p_t_end p)%Q ->
    exists dy, answers e (CObj t (state [n0] rho)) (AVecR (Ok dy)) /\ nth 0 dy (X 0) = XNaN.
Proof. exact single_example. Qed.

(** C96: the equations are defined for all non-negative densities. Refuted:
    without electrons the electron temperature, without neutral species the
    gas flow is NaN. *)
Theorem C96_no_electrons_refuted : exists K model v p e n, physical K /\ proper_params p /\ proper_view v /\
  eq_init K model v p = Ok e /\ List.length n = List.length (v_names v) /\ all_nonneg n /\
  answers e (CElTemp (state n 0) None None) (ANum XNaN).
Proof. exact no_electrons. Qed.
Theorem C96_no_neutrals_refuted : exists K model v p e n fs, physical K /\ proper_params p /\ proper_view v /\
  eq_init K model v p = Ok e /\ List.length n = List.length (v_names v) /\ all_nonneg n /\
  answers e (CFlow (state n 3) None None) (AVec fs) /\ nth 0 fs (X 0) = XNaN.
Proof. exact no_neutrals. Qed.

(** C97: reaction rates are not negative for non-negative densities. Refuted:
    with more negative than positive ions the electron density is negative. *)
Theorem C97_rates_refuted : exists K model v p e n rho rs, physical K /\ proper_params p /\ proper_view v /\
  eq_init K model v p = Ok e /\ List.length n = List.length (v_names v) /\ all_nonneg n /\
  answers e (CRates (state n rho) None None None None) (AVec (map X rs)) /\ el rs 0 < 0.
Proof. exact negative_rate. Qed.

(** C98: it does not matter whether times are given as ints or floats.
    Refuted: the same times are accepted as floats and refused as ints, *)
Theorem C98_int_times_refuted : exists K model v times t_end,
  (exists e, eq_init K model v (params1 false times t_end) = Ok e) /\
  eq_init K model v (params1 true times t_end) = Err EAssertion.
Proof. exact int_rejected. Qed.
(** or a time point moves by a whole second instead of the step. *)
Theorem C98_int_moved_refuted : exists K model v times t_end e,
  eq_init K model v (params1 true times t_end) = Ok e /\
  ~ Forall2 (moved_by ((1 # 100000) * t_end)) times (s_tpow (st e)) /\
  exists i, (i < List.length times)%nat /\ (nth i (s_tpow (st e)) 0 == nth i times 0 - 1)%Q.
Proof. exact int_moved. Qed.
(** C98: repeated time points are made strictly ascending. Refuted for three
    equal ones. *)
Theorem C98_triple_refuted : exists K model v times t_end, nth 0 times 0%Q = 0%Q /\
  (forall i, (S i < List.length times)%nat -> (nth i times 0 <= nth (S i) times 0)%Q) /\
  eq_init K model v (params1 false times t_end) = Err EAssertion.
Proof. exact triple_rejected. Qed.

(** C99: the derivative of a density is the sum of the reported volumetric,
    flow, surface and correction terms. *)
Theorem C99_parts K model v p e t y a b c d i :
  eq_init K model v p = Ok e ->
  answers e (CVolume y None) (AVec a) -> answers e (CFlow y None None) (AVec b) ->
  answers e (CSurface y None None) (AVec c) -> answers e (CMinN y None) (AVec d) ->
  (i < List.length (v_names v))%nat ->
  forall dy, answers e (CObj t y) (AVecR (Ok dy)) ->
  nth i dy XNaN = xadd (xadd (xadd (nth i a XNaN) (nth i b XNaN)) (nth i c XNaN)) (nth i d XNaN).
Proof. exact (rhs_parts K model v p e t y a b c d i). Qed.
(** C99: one entry per species and one for the energy. *)
Theorem C99_length K model v p e t y dy :
  eq_init K model v p = Ok e -> answers e (CObj t y) (AVecR (Ok dy)) -> List.length dy = S (List.length (v_names v)).
Proof. exact (rhs_length K model v p e t y dy). Qed.
(** C99: volumetric terms of given rates. *)
Theorem C99_volume K model v p e y rs :
  eq_init K model v p = Ok e -> List.length rs = List.length (v_a v) ->
  exists ss, List.length ss = List.length (v_names v) /\ answers e (CVolume y (Some (map X rs))) (AVec (map X ss)) /\
    forall i, (i < List.length ss)%nat ->
      el ss i = Sum (List.length rs) (fun j => IZR (nth i (nth j (v_net v) []) 0%Z) * el rs j).
Proof. exact (volume_exact K model v p e y rs). Qed.

(** C100: electrons lose energy in elastic collisions, never gain. *)
Theorem C100_elastic K model v p e n rho j :
  physical K -> proper_params p -> proper_view v -> eq_init K model v p = Ok e ->
  List.length n = List.length (v_names v) -> electrons v n <> 0 -> (j < List.length (v_a v))%nat ->
  (0 < nth j (v_e_lhs v) 0%Z)%Z -> nth j (v_elastic v) false = true ->
  exists ls l, answers e (CLosses (state n rho) None) (AVec ls) /\ nth j ls XNaN = X l /\ 0 <= l.
Proof. exact (elastic_nonneg K model v p e n rho j). Qed.
(** C100: ion temperature, Debye length, speeds and cross-sections. *)
Theorem C100_transport K model v p e n rho :
  physical K -> proper_params p -> proper_view v -> eq_init K model v p = Ok e ->
  List.length n = List.length (v_names v) -> 0 < electrons v n ->
  answers e (CIonTemp (state n rho) None) (ANum (X (ion_temperature K v p n))) /\
  answers e (CDebye (state n rho) None None) (ANum (X (debye_length K v p n rho))) /\
  answers e (CSpeeds (state n rho) None) (AVec (map X (map (speed K v p n) (seq 0 (List.length n))))) /\
  (exists m, answers e (CSigma (state n rho) None None) (AMat m) /\
     forall i k, (i < List.length n)%nat -> (k < List.length n)%nat -> nth k (nth i m []) XNaN = X (cross_section K v p n rho i k)) /\
  0 < ion_temperature K v p n /\ 0 < debye_length K v p n rho /\ forall i, (i < List.length n)%nat -> 0 < speed K v p n i.
Proof. exact (transport_exact K model v p e n rho). Qed.

(** All theorems of this file at once (one traversal instead of one per
    theorem). *)
Definition all_theorems := (
  @C35_fluxes,
  @C35_surface,
  @C35_balance,
  @C36_flow,
  @C36_exact,
  @C37_history_free,
  @C37_same,
  @C38_ascending,
  @C38_moved,
  @C38_knots,
  @C38_between,
  @C38_accepts,
  @C39_temperature,
  @C39_temperature_exact,
  @C39_rates,
  @C39_rates_exact,
  @C39_correction,
  @C93_finite,
  @C94_non_sticking_refuted,
  @C94_always,
  @C95_single_species_refuted,
  @C96_no_electrons_refuted,
  @C96_no_neutrals_refuted,
  @C97_rates_refuted,
  @C98_int_times_refuted,
  @C98_int_moved_refuted,
  @C98_triple_refuted,
  @C99_parts,
  @C99_length,
  @C99_volume,
  @C100_elastic,
  @C100_transport).
Print Assumptions all_theorems.
