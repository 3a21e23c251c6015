(** The neutral right-hand side is the general one. *)
From Coq Require Import Reals Qreals Lra.
From Verif Require Import Base BaseLemmas Morris Tables ExtReal Equations EqSpec EqPure EqDefaults EqReal EqFlow EqFloors Neutral.
Open Scope R_scope.

Section Neutral.
  Variable s : static.
  Hypothesis HC : forall i, charge s i = 0%Z.
  Hypothesis HE : forall j, (j < nr s)%nat -> e_lhs s j = 0%Z.
  Variable y : list ext.

  Lemma all_neutral i : neutral s i = true.
  Proof. unfold neutral. rewrite HC. reflexivity. Qed.
  Lemma no_electron j : (j < nr s)%nat -> elc s j = false.
  Proof. intros L. unfold elc. rewrite HE by exact L. reflexivity. Qed.

  Lemma k_neutral : k0 s y = k_r (init_cache s).
  Proof.
    unfold k0, value, get_reaction_rate_coefficients. cbn [snd st ca k_r init_cache]. apply tab_ext. intros j L.
    rewrite no_electron by exact L. rewrite xat_tab by exact L. rewrite no_electron by exact L. reflexivity.
  Qed.
  Lemma v_neutral : v0 s y = v_m (init_cache s).
  Proof.
    unfold v0, value, get_mean_speeds. cbn [snd st ca v_m init_cache]. apply tab_ext. intros i L.
    rewrite all_neutral. rewrite xat_tab by exact L. rewrite all_neutral. reflexivity.
  Qed.
  Lemma sigma_neutral : sigma0 s y = sigma_sc (init_cache s).
  Proof.
    unfold sigma0, get_sigma_sc, value, bindM, optM, ret_. cbn [snd st ca sigma_sc init_cache]. apply tab_ext. intros i L.
    apply tab_ext. intros k L'. rewrite (mat_tab XNaN (s_ns s) (s_ns s) (initial_sigma s) i k) by assumption.
    unfold initial_sigma. rewrite all_neutral. cbn [negb andb]. destruct (Nat.eqb i k); reflexivity.
  Qed.
  Lemma rates_neutral : rates0 s y =
    value (get_reaction_rates y (Some (n0 y)) (Some (X 0)) (Some (n_tot0 y)) (Some (k_r (init_cache s)))) s.
  Proof.
    unfold rates0. rewrite k_neutral. unfold get_reaction_rates. vb. cbn [opt]. apply tab_ext. intros j L.
    unfold reactant_product. rewrite (HE j L). reflexivity.
  Qed.
  Lemma diff_neutral : diff0 s y = free0 s y.
  Proof.
    unfold diff0, get_diffusivities. vb. unfold free0 at 2, get_free_diffusivities. vb. apply tab_ext. intros i L.
    rewrite all_neutral. unfold free0, get_free_diffusivities. vb. rewrite xat_tab by exact L. reflexivity.
  Qed.

  Lemma neutral_rhs t : n_obj_function t y (MkEq s (init_cache s)) = (MkEq s (init_cache s), Ok (dn0 s y ++ [X 0])%list).
  Proof.
    assert (E : dn0 s y = value (get_dn_dt y (Some (vol0 s y)) (Some (flow0 s y)) (Some (surface0 s y)) (Some (cor0 s y))) s) by reflexivity.
    rewrite E. unfold vol0, surface0, sources0, sinks0, fluxes0. rewrite diff_neutral. unfold free0, mfp0.
    rewrite rates_neutral, v_neutral, sigma_neutral. reflexivity.
  Qed.

  (** What the methods return on their own. *)
  Lemma neutral_rates : n_rates y None None None None (MkEq s (init_cache s)) = (MkEq s (init_cache s), rates0 s y).
  Proof. rewrite rates_neutral. reflexivity. Qed.
  Lemma neutral_volumetric : n_volumetric y None (MkEq s (init_cache s)) = (MkEq s (init_cache s), vol0 s y).
  Proof. unfold vol0. rewrite rates_neutral. reflexivity. Qed.
End Neutral.

Definition no_electrons (v : view) : Prop := Forall (fun z => z = 0%Z) (v_e_lhs v).

Lemma zat_zero l i : Forall (fun z => z = 0%Z) l -> zat l i = 0%Z.
Proof.
  intros F. unfold zat. destruct (nth_in_or_default i l 0%Z) as [I|E]; [|exact E].
  rewrite Forall_forall in F. exact (F _ I).
Qed.

Lemma neutral_charges K model v p e : neutral_init K model v p = Ok e -> Forall (fun z => z = 0%Z) (v_charge v).
Proof.
  unfold neutral_init. destruct (eq_init K model v p); cbn [bind]; [|discriminate]. unfold raise_if.
  destruct (existsb _ _) eqn:X; cbn [bind]; [discriminate|]. intros _. apply Forall_forall. intros z I.
  destruct (Z.eqb_spec z 0) as [E|N]; [exact E|]. exfalso.
  assert (T : existsb (fun z => negb (z =? 0)%Z) (v_charge v) = true); [|congruence].
  apply existsb_exists. exists z. split; [exact I|]. destruct (Z.eqb_spec z 0); [contradiction|reflexivity].
Qed.

Lemma neutral_facts K model v p e : neutral_init K model v p = Ok e -> no_electrons v ->
  e = MkEq (st e) (init_cache (st e)) /\ (forall i, charge (st e) i = 0%Z) /\ (forall j, (j < nr (st e))%nat -> e_lhs (st e) j = 0%Z).
Proof.
  intros I N. pose proof (neutral_fresh _ _ _ _ _ I) as I'. pose proof (init_built _ _ _ _ _ I') as B.
  assert (V : s_view (st e) = v) by (destruct B; assumption).
  split; [exact (init_fresh _ _ _ _ _ I')|]. split.
  - intros i. unfold charge. rewrite V. apply zat_zero. exact (neutral_charges _ _ _ _ _ I).
  - intros j _. unfold e_lhs. rewrite V. apply zat_zero. exact N.
Qed.

(** C117 *)
Lemma neutral_refines K model v p e t y : neutral_init K model v p = Ok e -> no_electrons v ->
  exists dn, n_obj_function t y e = (e, Ok (dn ++ [X 0])%list) /\
    forall d, snd (obj_function t y e) = Ok d -> exists drho, d = (dn ++ [drho])%list.
Proof.
  intros I N. destruct (neutral_facts _ _ _ _ _ I N) as (F & C & E). exists (dn0 (st e) y). split.
  - rewrite F at 1 2. apply neutral_rhs; assumption.
  - intros d D. rewrite (fresh_value _ K model v p e (neutral_fresh _ _ _ _ _ I)), obj_value in D. unfold dy0 in D.
    destruct (drho0 (st e) y t) as [r|]; cbn [bind] in D; [|discriminate]. injection D as <-. exists r. reflexivity.
Qed.

Lemma neutral_diag K model v p e y : neutral_init K model v p = Ok e -> no_electrons v ->
  n_rates y None None None None e = (e, snd (get_reaction_rates y None None None None e)) /\
  n_volumetric y None e = (e, snd (get_volumetric_source_rates y None e)).
Proof.
  intros I N. destruct (neutral_facts _ _ _ _ _ I N) as (F & C & E).
  pose proof (neutral_fresh _ _ _ _ _ I) as I'.
  rewrite !(fresh_value _ K model v p e I'), rates_default, vol_default. rewrite F at 1 2 4 5. split; [apply neutral_rates|apply neutral_volumetric]; assumption.
Qed.

(** The wall fluxes cannot be asked for. *)
Lemma neutral_no_fluxes y n v e : snd (n_wall_fluxes y n None v e) = Err EType /\ snd (n_sinks y None e) = Err EType /\
  snd (n_sources y None e) = Err EType /\ snd (n_source_rates y None None e) = Err EType /\
  forall vol flow cor, snd (n_dn_dt y vol flow None cor e) = Err EType.
Proof. repeat split; try reflexivity; try (destruct v; reflexivity). intros vol flow cor. destruct vol; reflexivity. Qed.

(** The rates of a neutral chemistry: Arrhenius at the gas temperature times
    the densities of the reactants. *)
Definition gas_rate (v : view) (p : mparams) (n : list R) (j : nat) : R :=
  el (v_a v) j * Rpower (p_temp p / 300) (el (v_b v) j) * exp (- el (v_c v) j / p_temp p) *
  (Prod (map (fun i => el n i ^ Z.to_nat (nth i (nth j (v_lhs v) []) 0%Z)) (seq 0 (List.length (v_names v)))) *
   Sum (List.length (v_names v)) (el n) ^ Z.to_nat (nth j (v_m_lhs v) 0%Z)).

Lemma neutral_rates_real K model v p e n rho : neutral_init K model v p = Ok e -> no_electrons v -> 0 < p_temp p ->
  List.length n = List.length (v_names v) ->
  n_rates (state n rho) None None None None e = (e, map X (tab (List.length (v_a v)) (gas_rate v p n))).
Proof.
  intros I N T L. destruct (neutral_facts _ _ _ _ _ I N) as (F & C & EL).
  pose proof (init_built _ _ _ _ _ (neutral_fresh _ _ _ _ _ I)) as B.
  rewrite F at 1 2. rewrite neutral_rates by assumption. f_equal. rewrite rates_neutral by assumption.
  unfold get_reaction_rates. vb. cbn [opt]. unfold nr. rewrite (b_nr _ _ _ _ _ B), <- tab_real. apply tab_ext. intros j Lj.
  cbn [init_cache k_r]. rewrite (b_nr _ _ _ _ _ B), xat_tab by exact Lj.
  rewrite no_electron by (try assumption; unfold nr; rewrite (b_nr _ _ _ _ _ B); exact Lj).
  unfold heavy_coefficient, temp_g, at_. rewrite (b_view _ _ _ _ _ B), (b_par _ _ _ _ _ B). rewrite xpow_pos by lra.
  assert (Q : reactant_product (st e) (n0 (state n rho)) (X 0) (n_tot0 (state n rho)) j =
    X (Prod (map (fun i => el n i ^ Z.to_nat (nth i (nth j (v_lhs v) []) 0%Z)) (seq 0 (List.length (v_names v)))) *
       Sum (List.length (v_names v)) (el n) ^ Z.to_nat (nth j (v_m_lhs v) 0%Z))).
  { change (n_tot0 (state n rho)) with (get_total_density (state n rho) None). unfold n0. rewrite (total_density _ _ _ _ _ _ _ B L), state_density.
    unfold reactant_product, ns. rewrite (b_ns _ _ _ _ _ B), !xpown_real.
    rewrite EL by (unfold nr; rewrite (b_nr _ _ _ _ _ B); exact Lj). cbn [Z.to_nat pow].
    rewrite (tab_ext _ _ (fun i => X (el n i ^ Z.to_nat (lhs (st e) j i)))).
    2:{ intros i Li. rewrite at_map by lia. apply xpown_real. }
    rewrite tab_real. match goal with |- xprod (X ?a :: map X ?l ++ [X ?b]) = _ => change (X a :: map X l ++ [X b])%list with (map X (a :: l) ++ map X [b])%list end.
    rewrite <- map_app, xprod_real. f_equal. cbn [app fold_right]. change (fold_right Rmult 1) with Prod. rewrite Prod_app.
    unfold m_lhs, lhs, mat, zat, tab. rewrite (b_view _ _ _ _ _ B).
    unfold Prod at 2. cbn [fold_right]. ring. }
  rewrite Q. cbn [xmul xexp]. f_equal.
Qed.
