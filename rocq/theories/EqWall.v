(** Diffusion and the walls. *)
From Coq Require Import Reals Qreals Lra.
From Verif Require Import Base BaseLemmas Morris Tables ExtReal Equations EqSpec EqPure EqDefaults EqReal EqFlow EqFloors.
Open Scope R_scope.

Lemma area_pos p : proper_params p -> 0 < area_of p.
Proof.
  intros (_ & R & L & _). unfold area_of. pose proof PI_RGT_0.
  apply Rmult_lt_0_compat; [|lra]. apply Rmult_lt_0_compat; [|lra]. lra.
Qed.
Lemma diffusion_length_pos p : proper_params p -> 0 < diffusion_length p.
Proof.
  intros (_ & R & L & _). unfold diffusion_length. apply Rinv_0_lt_compat, sqrt_lt_R0. pose proof PI_RGT_0.
  assert (0 < (PI / p_length p) ^ 2) by (apply pow_lt, Rdiv_lt_0_compat; lra).
  assert (0 < (2405 / 1000 / p_radius p) ^ 2) by (apply pow_lt, Rdiv_lt_0_compat; lra). lra.
Qed.

Section Chain.
  Variables (K : constants) (model : dmodel) (v : view) (p : mparams) (s : static).
  Hypothesis PK : physical K.
  Hypothesis PP : proper_params p.
  Hypothesis PV : proper_view v.
  Hypothesis B : built K model v p s.
  Variables (n : list R) (rho : R).
  Hypothesis L : List.length n = List.length (v_names v).
  Hypothesis NN : all_nonneg n.
  Hypothesis EP : 0 < electrons v n.
  Let N := List.length (v_names v).
  Let y := state n rho.

  Lemma shape : shaped v.
  Proof. apply shapes_iff. apply (b_shapes _ _ _ _ _ B). Qed.

  Lemma mass_pos i : (i < N)%nat -> 0 < mass_of K v i.
  Proof.
    intros Li. destruct PV as (M & _). destruct PK as (_ & _ & _ & _ & A). unfold mass_of. apply Rmult_lt_0_compat; [|exact A].
    apply (Forall_el _ _ _ M). rewrite (h_mass _ shape). exact Li.
  Qed.

  Lemma s_mass_of i : (i < N)%nat -> mass s i = mass_of K v i.
  Proof.
    intros Li. unfold mass, at_, mass_of, el. rewrite (b_mass _ _ _ _ _ B).
    rewrite (nth_indep _ 0 (0 * c_amu K)) by (rewrite map_length, (h_mass _ shape); exact Li).
    rewrite (map_nth (fun m => m * c_amu K)). reflexivity.
  Qed.

  Lemma pressure_nonneg : 0 <= pressure_of K v p n.
  Proof.
    destruct PK as (k & _). destruct PP as (T & _). unfold pressure_of.
    apply Rmult_le_pos; [apply Rmult_le_pos; lra|]. apply Sum_nonneg. intros i Li. apply (Forall_el _ _ _ NN). lia.
  Qed.

  Lemma ion_temperature_pos : 0 < ion_temperature K v p n.
  Proof.
    pose proof PK as (k & e & _). pose proof PP as (T & _). unfold ion_temperature.
    assert (E : 0 < 1 / 2 * c_e K / c_k K) by (apply Rdiv_lt_0_compat; lra).
    destruct (Rlt_dec _ _) as [Lt|_]; [|exact E].
    set (P := pressure_of K v p n) in *. set (m := 133322 / 1000000) in *. assert (M : 0 < m) by (unfold m; lra).
    set (E0 := 1 / 2 * c_e K / c_k K) in *.
    replace ((E0 - p_temp p) / (P / m) + p_temp p) with (E0 * (m / P) + p_temp p * (1 - m / P)) by (field; lra).
    assert (W : 0 < m / P) by (apply Rdiv_lt_0_compat; lra).
    assert (W1 : m / P < 1). { apply (Rmult_lt_reg_r P); [lra|]. unfold Rdiv. rewrite Rmult_assoc, Rinv_l by lra. lra. }
    apply Rplus_lt_0_compat; apply Rmult_lt_0_compat; lra.
  Qed.

  Lemma ti_value : get_ion_temperature s y None = X (ion_temperature K v p n).
  Proof.
    unfold get_ion_temperature, opt. unfold y. rewrite (total_pressure _ _ _ _ _ _ _ B L). cbv zeta.
    unfold ion_temperature, temp_g, mtorr. rewrite (b_const _ _ _ _ _ B), (b_par _ _ _ _ _ B). cbn [xltb].
    destruct (Rlt_dec (133322 / 1000000) (pressure_of K v p n)) as [Lt|_]; [|reflexivity].
    rewrite xdiv_real by lra. rewrite xdiv_real; [reflexivity|].
    apply Rgt_not_eq. apply Rdiv_lt_0_compat; lra.
  Qed.

  Lemma speed_arg_pos i : (i < N)%nat ->
    0 < 8 * c_k K * (if Z.eqb (charge_of v i) 0 then p_temp p else ion_temperature K v p n) / (PI * mass_of K v i).
  Proof.
    intros Li. pose proof PK as (k & _). pose proof PP as (T & _). pose proof ion_temperature_pos. pose proof PI_RGT_0. pose proof (mass_pos i Li).
    apply Rdiv_lt_0_compat; [|apply Rmult_lt_0_compat; lra].
    apply Rmult_lt_0_compat; [lra|]. destruct (Z.eqb _ _); lra.
  Qed.

  Lemma speed_pos i : (i < N)%nat -> 0 < speed K v p n i.
  Proof. intros Li. apply sqrt_lt_R0. apply speed_arg_pos. exact Li. Qed.

  Lemma v_value : value (get_mean_speeds y None) s = map X (tab N (speed K v p n)).
  Proof.
    rewrite value_def. unfold get_mean_speeds. cbn [st ca snd opt]. rewrite ti_value.
    unfold ns. rewrite (b_ns _ _ _ _ _ B), <- tab_real. fold N. apply tab_ext. intros i Li.
    pose proof (speed_arg_pos i Li) as A. pose proof (mass_pos i Li) as Mi. pose proof PI_RGT_0.
    assert (NZ : PI * mass_of K v i <> 0) by (apply Rgt_not_eq, Rmult_lt_0_compat; lra).
    unfold speed. rewrite (s_neutral _ _ _ _ _ _ B). destruct (Z.eqb (charge_of v i) 0) eqn:C.
    - cbn [init_cache v_m]. rewrite (b_ns _ _ _ _ _ B). fold N. rewrite xat_tab by exact Li.
      rewrite (s_neutral _ _ _ _ _ _ B), C. unfold neutral_speed, temp_g. rewrite (b_const _ _ _ _ _ B), (b_par _ _ _ _ _ B), (s_mass_of i Li).
      rewrite xdiv_real by exact NZ. rewrite xsqrt_real by lra. reflexivity.
    - unfold ion_speed. rewrite (b_const _ _ _ _ _ B), (s_mass_of i Li). cbn [xmul].
      rewrite xdiv_real by exact NZ. rewrite xsqrt_real by lra. reflexivity.
  Qed.

  Lemma v_at i : (i < N)%nat -> xat (value (get_mean_speeds y None) s) i = X (speed K v p n i).
  Proof. intros Li. rewrite v_value, at_map by (rewrite length_tab; exact Li). rewrite el_tab by exact Li. reflexivity. Qed.

  Lemma debye_arg_pos : 0 < c_eps K * electron_ev K v p n rho / c_e K / electrons v n.
  Proof.
    pose proof (electron_ev_pos K v p n rho PK PP). pose proof PK as (_ & e & _ & eps & _).
    apply Rdiv_lt_0_compat; [|exact EP]. apply Rdiv_lt_0_compat; [|exact e]. apply Rmult_lt_0_compat; lra.
  Qed.
  Lemma debye_pos : 0 < debye_length K v p n rho.
  Proof. apply sqrt_lt_R0. apply debye_arg_pos. Qed.

  Lemma debye_value : get_debye_length s y None None = X (debye_length K v p n rho).
  Proof.
    pose proof PK as (_ & e & _). pose proof debye_arg_pos.
    unfold get_debye_length, opt, y. rewrite (te_value _ _ _ _ _ _ _ B L) by lra. rewrite (electron_density _ _ _ _ _ _ _ B L).
    cbv zeta. rewrite (b_const _ _ _ _ _ B). cbn [xmul]. rewrite xdiv_real by lra. rewrite xdiv_real by lra.
    rewrite xsqrt_real by lra. reflexivity.
  Qed.

  Lemma approach_pos i k : (i < N)%nat -> (k < N)%nat -> charge_of v i <> 0%Z -> charge_of v k <> 0%Z -> 0 < approach K v p n i k.
  Proof.
    intros Li Lk Ci Ck. pose proof PK as (_ & e & _ & eps & _). pose proof PI_RGT_0. pose proof (mass_pos i Li). pose proof (mass_pos k Lk).
    pose proof (speed_pos i Li). unfold approach.
    assert (0 < Rabs (IZR (charge_of v i * charge_of v k))) by (apply Rabs_pos_lt, not_0_IZR; lia).
    apply Rdiv_lt_0_compat.
    - apply Rdiv_lt_0_compat; [apply Rmult_lt_0_compat; [apply pow_lt; lra|assumption]|].
      apply Rmult_lt_0_compat; lra.
    - apply Rmult_lt_0_compat; [|apply pow_lt; lra]. apply Rdiv_lt_0_compat; [apply Rmult_lt_0_compat; lra|lra].
  Qed.

  Lemma sigma_at i k : (i < N)%nat -> (k < N)%nat ->
    mat XNaN (value (get_sigma_sc y None None) s) i k = X (cross_section K v p n rho i k).
  Proof.
    intros Li Lk. rewrite sigma_default. unfold sigma0. rewrite value_def. unfold get_sigma_sc, optM, bindM, ret_. cbn [st ca snd opt].
    assert (V : v0 s y = map X (tab N (speed K v p n))) by (rewrite <- speeds_default; apply v_value).
    assert (D : debye0 s y = X (debye_length K v p n rho)) by apply debye_value.
    rewrite V, D. unfold ns. rewrite (b_ns _ _ _ _ _ B). fold N. rewrite mat_tab by assumption.
    unfold cross_section. destruct (Nat.eqb_spec i k) as [_|Ne]; [reflexivity|].
    rewrite !(s_neutral _ _ _ _ _ _ B).
    destruct (negb (Z.eqb (charge_of v i) 0) && negb (Z.eqb (charge_of v k) 0))%bool eqn:C.
    - apply andb_prop in C. destruct C as [Ci Ck]. apply Bool.negb_true_iff in Ci, Ck. apply Z.eqb_neq in Ci, Ck.
      pose proof (approach_pos i k Li Lk Ci Ck) as A. pose proof debye_pos as Dp.
      assert (CA : closest_approach s (map X (tab N (speed K v p n))) i k = X (approach K v p n i k)).
      { unfold closest_approach. rewrite at_map by (rewrite length_tab; exact Li). rewrite el_tab by exact Li.
        rewrite xpown_real. cbn [xmul]. unfold reduced_mass. rewrite !s_mass_of by assumption. rewrite (b_const _ _ _ _ _ B), !(s_charge _ _ _ _ _ _ B).
        pose proof (mass_pos i Li). pose proof (mass_pos k Lk). pose proof (speed_pos i Li).
        rewrite xdiv_real; [reflexivity|]. apply Rgt_not_eq, Rmult_lt_0_compat; [|apply pow_lt; lra].
        apply Rdiv_lt_0_compat; [apply Rmult_lt_0_compat; lra|lra]. }
      unfold coulomb_sigma. cbv zeta. rewrite CA, xpown_real. cbn [xmul]. rewrite xdiv_real by lra. rewrite xlog_real by (apply Rdiv_lt_0_compat; lra).
      reflexivity.
    - cbn [init_cache sigma_sc]. rewrite (b_ns _ _ _ _ _ B). fold N. rewrite mat_tab by assumption.
      unfold initial_sigma. destruct (Nat.eqb_spec i k) as [Q|_]; [contradiction|]. rewrite !(s_neutral _ _ _ _ _ _ B), C.
      f_equal. unfold sigma, at_, el. rewrite (b_view _ _ _ _ _ B). field.
  Qed.

  (** Mean free paths and diffusion coefficients. *)
  Hypothesis CO : collisional K v p n rho.
  Definition path (i : nat) : R := 1 / Sum N (fun k => el n k * cross_section K v p n rho i k).
  Definition free (i : nat) : R := PI / 8 * path i * speed K v p n i.

  Lemma path_pos i : (i < N)%nat -> 0 < path i.
  Proof. intros Li. apply Rdiv_lt_0_compat; [lra|]. apply (CO i Li). Qed.
  Lemma free_pos i : (i < N)%nat -> 0 < free i.
  Proof.
    intros Li. pose proof (path_pos i Li). pose proof (speed_pos i Li). pose proof PI_RGT_0. unfold free.
    apply Rmult_lt_0_compat; [apply Rmult_lt_0_compat; lra|lra].
  Qed.

  Lemma path_at i : (i < N)%nat -> xat (value (get_mean_free_paths y None None) s) i = X (path i).
  Proof.
    intros Li. unfold get_mean_free_paths. vb. unfold opt, ns. rewrite (b_ns _ _ _ _ _ B). fold N. rewrite xat_tab by exact Li.
    unfold y at 1. rewrite state_density. fold y.
    rewrite (tab_ext _ _ (fun k => X (el n k * cross_section K v p n rho i k))).
    2:{ intros k Lk. rewrite sigma_at by assumption. rewrite at_map by (unfold N in Lk; lia). reflexivity. }
    rewrite xsum_tab. apply xdiv_real. apply Rgt_not_eq, (CO i Li).
  Qed.

  Lemma free_at i : (i < N)%nat -> xat (value (get_free_diffusivities y None None) s) i = X (free i).
  Proof.
    intros Li. unfold get_free_diffusivities. vb. unfold ns. rewrite (b_ns _ _ _ _ _ B). fold N. rewrite xat_tab by exact Li.
    rewrite path_at, v_at by exact Li. reflexivity.
  Qed.

  Definition negatives : R := Sum N (fun i => if Z.ltb (charge_of v i) 0 then el n i else 0).
  Definition mean_free : R :=
    rsum (map free (filter (positive s) (seq 0 N))) / INR (List.length (map free (filter (positive s) (seq 0 N)))).
  Definition ambipolar : R :=
    let gamma := electron_ev K v p n rho * c_e K / c_k K / ion_temperature K v p n in
    let alpha := negatives / electrons v n in
    mean_free * (1 + gamma * (1 + 2 * alpha)) / (1 + alpha * gamma).

  Lemma s_positive i : positive s i = Z.ltb 0 (charge_of v i).
  Proof. unfold positive. rewrite (s_charge _ _ _ _ _ _ B). reflexivity. Qed.
  Lemma s_negative i : negative s i = Z.ltb (charge_of v i) 0.
  Proof. unfold negative. rewrite (s_charge _ _ _ _ _ _ B). reflexivity. Qed.

  Lemma some_positive : filter (positive s) (seq 0 N) <> [].
  Proof.
    intros E. assert (S : electrons v n <= 0); [|lra].
    assert (G : 0 <= Sum N (fun i => - (el n i * IZR (charge_of v i)))).
    { apply Sum_nonneg. intros i Li. assert (C : (charge_of v i <= 0)%Z).
      { destruct (Z.ltb 0 (charge_of v i)) eqn:C; [|apply Z.ltb_ge in C; exact C].
        assert (I : In i (filter (positive s) (seq 0 N))) by (apply filter_In; split; [apply in_seq; lia|rewrite s_positive; exact C]).
        rewrite E in I. destruct I. }
      apply IZR_le in C. pose proof (Forall_el _ _ i NN) as Ni. specialize (Ni ltac:(unfold N in Li; lia)). cbn beta in Ni. nra. }
    rewrite (Sum_ext _ _ (fun i => (-1) * (el n i * IZR (charge_of v i)))) in G by (intros; ring).
    rewrite Sum_scal in G. unfold electrons. fold N. lra.
  Qed.

  Lemma rsum_pos l : l <> [] -> Forall (fun x => 0 < x) l -> 0 < rsum l.
  Proof.
    intros Ne F. destruct F as [|a l Ha F]; [congruence|]. change (rsum (a :: l)) with (a + rsum l).
    assert (0 <= rsum l) by (apply rsum_nonneg; eapply Forall_impl; [|exact F]; cbn beta; intros; lra). lra.
  Qed.

  Lemma mean_free_pos : 0 < mean_free.
  Proof.
    pose proof some_positive as Ne. unfold mean_free. set (l := map free (filter (positive s) (seq 0 N))).
    assert (Nl : l <> []) by (unfold l; destruct (filter (positive s) (seq 0 N)); [congruence|discriminate]).
    apply Rdiv_lt_0_compat.
    - apply rsum_pos; [exact Nl|]. apply Forall_forall. intros x I. apply in_map_iff in I. destruct I as (i & <- & I).
      apply filter_In in I. destruct I as [I _]. apply in_seq in I. apply free_pos. lia.
    - apply lt_0_INR. destruct l; [congruence|cbn; lia].
  Qed.

  Lemma gamma_pos : 0 < electron_ev K v p n rho * c_e K / c_k K / ion_temperature K v p n.
  Proof.
    pose proof PK as (k & e & _). pose proof ion_temperature_pos. pose proof (electron_ev_pos K v p n rho PK PP).
    apply Rdiv_lt_0_compat; [|lra]. apply Rdiv_lt_0_compat; [|lra]. apply Rmult_lt_0_compat; lra.
  Qed.
  Lemma alpha_nonneg : 0 <= negatives / electrons v n.
  Proof.
    assert (0 <= negatives).
    { apply Sum_nonneg. intros i Li. destruct (Z.ltb _ _); [|lra]. apply (Forall_el _ _ _ NN). unfold N in Li. lia. }
    apply Rmult_le_pos; [assumption|]. left. apply Rinv_0_lt_compat. exact EP.
  Qed.
  Lemma ambipolar_pos : 0 < ambipolar.
  Proof.
    pose proof mean_free_pos. pose proof gamma_pos. pose proof alpha_nonneg. unfold ambipolar. cbv zeta.
    set (g := _ / ion_temperature K v p n) in *. set (a := negatives / electrons v n) in *.
    assert (0 <= a * g) by (apply Rmult_le_pos; lra).
    apply Rdiv_lt_0_compat; [|lra]. apply Rmult_lt_0_compat; [lra|]. nra.
  Qed.

  Lemma ambipolar_value : value (get_ambipolar_diffusivity_pos y None None None None None) s = X ambipolar.
  Proof.
    pose proof PK as (k & e & _). pose proof ion_temperature_pos as Ti. pose proof gamma_pos as Gp. pose proof alpha_nonneg as Ap.
    unfold get_ambipolar_diffusivity_pos. vb. cbv zeta. unfold opt.
    change (get_electron_density s y (Some (get_density_vector y))) with (get_electron_density s y None).
    change (get_electron_temperature s y (Some (get_electron_density s y None)) None) with (get_electron_temperature s y None None).
    assert (DV : get_density_vector y = map X n) by apply state_density. rewrite !DV.
    rewrite ti_value. unfold y. rewrite (te_value _ _ _ _ _ _ _ B L) by lra. rewrite (electron_density _ _ _ _ _ _ _ B L). fold y.
    rewrite (b_const _ _ _ _ _ B). unfold species, ns. rewrite (b_ns _ _ _ _ _ B). fold N.
    cbn [xmul]. rewrite xdiv_real by lra. rewrite xdiv_real by lra.
    assert (SN : xsum (map (xat (map X n)) (filter (negative s) (seq 0 N))) = X negatives).
    { rewrite (map_ext_in _ (fun i => X (el n i))).
      2:{ intros j I. apply filter_In in I. destruct I as [I _]. apply in_seq in I. apply at_map. unfold N in I. lia. }
      rewrite <- map_map, xsum_real. f_equal. rewrite rsum_filter. unfold negatives. rewrite Sum_rsum.
      apply rsum_map_ext. intros j _. rewrite s_negative. reflexivity. }
    rewrite !SN, !xdiv_real by lra.
    assert (MF : xmean (map (xat (value (get_free_diffusivities y None None) s)) (filter (positive s) (seq 0 N))) = X mean_free).
    { rewrite (map_ext_in _ (fun i => X (free i))).
      2:{ intros j I. apply filter_In in I. destruct I as [I _]. apply in_seq in I. apply free_at. lia. }
      rewrite <- map_map. unfold mean_free. pose proof some_positive as Ne.
      set (l := map free (filter (positive s) (seq 0 N))).
      assert (Nl : l <> []) by (unfold l; destruct (filter (positive s) (seq 0 N)); [congruence|discriminate]).
      unfold xmean. destruct (map X l) as [|a b] eqn:M; [destruct l; [congruence|discriminate M]|].
      rewrite <- M, xsum_real, map_length. apply xdiv_real. apply Rgt_not_eq, lt_0_INR. destruct l; [congruence|cbn; lia]. }
    rewrite MF. cbn [xmul xadd]. rewrite xdiv_real; [reflexivity|].
    set (g := _ / ion_temperature K v p n) in *. set (a := negatives / electrons v n) in *.
    assert (0 <= a * g) by (apply Rmult_le_pos; lra). lra.
  Qed.

  Definition diffusivity (i : nat) : R :=
    if Z.eqb (charge_of v i) 0 then free i else if Z.ltb 0 (charge_of v i) then ambipolar else 0.

  Lemma diff_at i : (i < N)%nat -> xat (value (get_diffusivities y None None None) s) i = X (diffusivity i).
  Proof.
    intros Li. unfold get_diffusivities. vb. unfold ns. rewrite (b_ns _ _ _ _ _ B). fold N. rewrite xat_tab by exact Li.
    unfold diffusivity. rewrite (s_neutral _ _ _ _ _ _ B), s_positive.
    destruct (Z.eqb (charge_of v i) 0); [apply free_at; exact Li|]. destruct (Z.ltb 0 (charge_of v i)); [|reflexivity].
    rewrite <- ambipolar_value. unfold get_ambipolar_diffusivity_pos. vb. reflexivity.
  Qed.

  Lemma diffusivity_pos i : (i < N)%nat -> (0 <= charge_of v i)%Z -> 0 < diffusivity i.
  Proof.
    intros Li C. unfold diffusivity. destruct (Z.eqb_spec (charge_of v i) 0) as [E|E]; [apply free_pos; exact Li|].
    destruct (Z.ltb_spec 0 (charge_of v i)) as [P|P]; [apply ambipolar_pos|lia].
  Qed.
  Lemma diffusivity_neg i : (charge_of v i < 0)%Z -> diffusivity i = 0.
  Proof.
    intros C. unfold diffusivity. destruct (Z.eqb_spec (charge_of v i) 0) as [E|E]; [lia|].
    destruct (Z.ltb_spec 0 (charge_of v i)) as [P|P]; [lia|reflexivity].
  Qed.

  (** Wall fluxes. *)
  Definition flux (i : nat) : R :=
    match model with
    | Diffusive => - diffusivity i * el n i * el (v_stick v) i / diffusion_length p ^ 2 * volume_of p / area_of p
    | Combined => - diffusivity i * el n i * el (v_stick v) i /
                  (el (v_stick v) i * diffusion_length p + 4 * diffusivity i / speed K v p n i)
    end.

  Hypothesis AN : model = Combined -> forall i, (i < N)%nat -> (charge_of v i < 0)%Z -> el (v_stick v) i <> 0.

  Lemma stick_nonneg i : (i < N)%nat -> 0 <= el (v_stick v) i.
  Proof.
    intros Li. destruct PV as (_ & _ & St & _). pose proof (Forall_el _ _ i St) as Si. rewrite (h_stick _ shape) in Si. apply (Si Li).
  Qed.
  Lemma diffusivity_nonneg i : (i < N)%nat -> 0 <= diffusivity i.
  Proof.
    intros Li. destruct (Z.lt_ge_cases (charge_of v i) 0) as [C|C]; [rewrite diffusivity_neg by exact C; lra|].
    left. apply diffusivity_pos; assumption.
  Qed.
  Lemma denominator_pos i : (i < N)%nat -> model = Combined ->
    0 < el (v_stick v) i * diffusion_length p + 4 * diffusivity i / speed K v p n i.
  Proof.
    intros Li Mo. pose proof (stick_nonneg i Li) as Si. pose proof (diffusion_length_pos p PP). pose proof (speed_pos i Li) as V.
    assert (0 <= el (v_stick v) i * diffusion_length p) by (apply Rmult_le_pos; lra).
    destruct (Z.lt_ge_cases (charge_of v i) 0) as [C|C].
    - pose proof (AN Mo i Li C). rewrite diffusivity_neg by exact C.
      assert (0 < el (v_stick v) i * diffusion_length p) by (apply Rmult_lt_0_compat; lra).
      replace (4 * 0 / speed K v p n i) with 0 by (field; lra). lra.
    - assert (0 < 4 * diffusivity i / speed K v p n i) by (apply Rdiv_lt_0_compat; [pose proof (diffusivity_pos i Li C); lra|lra]). lra.
  Qed.

  Lemma s_stick i : stick s i = el (v_stick v) i.
  Proof. unfold stick, at_, el. rewrite (b_view _ _ _ _ _ B). reflexivity. Qed.
  Lemma s_area : area s = area_of p.
  Proof. unfold area, area_of. rewrite (b_par _ _ _ _ _ B). reflexivity. Qed.
  Lemma s_diff_l : diff_l s = diffusion_length p.
  Proof. unfold diff_l, diffusion_length. rewrite (b_par _ _ _ _ _ B). reflexivity. Qed.

  Lemma flux_at i : (i < N)%nat -> xat (value (get_wall_fluxes y None None None) s) i = X (flux i).
  Proof.
    intros Li. pose proof (area_pos p PP). pose proof (diffusion_length_pos p PP) as DL. pose proof (speed_pos i Li).
    unfold get_wall_fluxes. vb. unfold opt, ns. rewrite (b_ns _ _ _ _ _ B). fold N. rewrite xat_tab by exact Li.
    unfold y at 1. rewrite state_density. fold y. rewrite diff_at, v_at by exact Li. rewrite at_map by (unfold N in Li; lia).
    unfold wall_flux, flux. cbv zeta. rewrite (b_model _ _ _ _ _ B), s_stick, s_area, s_diff_l, (s_volume _ _ _ _ _ B).
    assert (Mc : model = Diffusive \/ model = Combined) by (destruct model; auto).
    destruct Mc as [Mo|Mo]; rewrite Mo; cbn [xopp xmul].
    - rewrite xdiv_real by (apply pow_nonzero; lra). cbn [xmul]. rewrite xdiv_real by lra. reflexivity.
    - rewrite (xdiv_real (4 * diffusivity i)) by lra. cbn [xadd].
      rewrite xdiv_real; [reflexivity|]. apply Rgt_not_eq, denominator_pos; [exact Li|exact Mo].
  Qed.

  Lemma flux_sign i : (i < N)%nat ->
    flux i <= 0 /\ (el (v_stick v) i = 0 -> flux i = 0) /\
    (0 < el (v_stick v) i -> 0 < el n i -> (0 <= charge_of v i)%Z -> flux i < 0).
  Proof.
    intros Li. pose proof (area_pos p PP). pose proof (volume_pos p PP). pose proof (diffusion_length_pos p PP) as DL.
    pose proof (stick_nonneg i Li) as Si. pose proof (diffusivity_nonneg i Li) as Di.
    assert (Ni : 0 <= el n i) by (apply (Forall_el _ _ _ NN); unfold N in Li; lia).
    assert (G : exists c, 0 < c /\ flux i = - (diffusivity i * el n i * el (v_stick v) i) * c).
    { assert (Mc : model = Diffusive \/ model = Combined) by (destruct model; auto).
      unfold flux. destruct Mc as [Mo|Mo]; rewrite Mo.
      - exists (/ diffusion_length p ^ 2 * volume_of p / area_of p). split.
        + apply Rdiv_lt_0_compat; [|lra]. apply Rmult_lt_0_compat; [|lra]. apply Rinv_0_lt_compat, pow_lt. lra.
        + field. split; [lra|]. lra.
      - pose proof (denominator_pos i Li Mo) as De.
        exists (/ (el (v_stick v) i * diffusion_length p + 4 * diffusivity i / speed K v p n i)).
        split; [apply Rinv_0_lt_compat; exact De|]. unfold Rdiv at 1. ring. }
    destruct G as (c & C & ->). split; [|split].
    - assert (0 <= diffusivity i * el n i * el (v_stick v) i) by (apply Rmult_le_pos; [apply Rmult_le_pos|]; lra). nra.
    - intros ->. ring.
    - intros S1 N1 C1. pose proof (diffusivity_pos i Li C1).
      assert (0 < diffusivity i * el n i * el (v_stick v) i) by (apply Rmult_lt_0_compat; [apply Rmult_lt_0_compat|]; lra). nra.
  Qed.
End Chain.

(** Wall fluxes of a plasma. *)
Lemma fluxes_ok K model v p e n rho : physical K -> proper_params p -> proper_view v -> eq_init K model v p = Ok e ->
  List.length n = List.length (v_names v) -> all_nonneg n -> 0 < electrons v n -> collisional K v p n rho ->
  (model = Combined -> forall i, (i < List.length n)%nat -> (charge_of v i < 0)%Z -> el (v_stick v) i <> 0) ->
  exists ws, List.length ws = List.length n /\ answers e (CFluxes (state n rho) None None None) (AVec (map X ws)) /\
    forall i, (i < List.length n)%nat ->
      el ws i <= 0 /\ (el (v_stick v) i = 0 -> el ws i = 0) /\
      (0 < el (v_stick v) i -> 0 < el n i -> (0 <= charge_of v i)%Z -> el ws i < 0).
Proof.
  intros PK PP PV H L NN EP CO AN. pose proof (init_built _ _ _ _ _ H) as B. rewrite L in *.
  exists (tab (List.length (v_names v)) (flux K model v p (st e) n rho)). rewrite length_tab. split; [reflexivity|]. split.
  - unfold answers. cbn [perform]. rewrite mapA_answer. f_equal. rewrite (fresh_value _ _ _ _ _ _ H).
    rewrite <- tab_real.
    assert (Le : List.length (value (get_wall_fluxes (state n rho) None None None) (st e)) = List.length (v_names v)).
    { unfold get_wall_fluxes. vb. rewrite length_tab. apply (b_ns _ _ _ _ _ B). }
    apply (nth_ext _ _ XNaN XNaN); [rewrite length_tab; exact Le|]. intros i Li. rewrite Le in Li.
    rewrite nth_tab by exact Li. apply (flux_at K model v p (st e) PK PP PV B n rho L NN EP CO AN i Li).
  - intros i Li. rewrite el_tab by exact Li. apply (flux_sign K model v p (st e)); assumption.
Qed.

Lemma AVec_inj a b : AVec a = AVec b -> a = b.
Proof. intros H. injection H as ->. reflexivity. Qed.
Lemma AVecR_inj a b : AVecR a = AVecR b -> a = b.
Proof. intros H. injection H as ->. reflexivity. Qed.

(** Balance at the wall, for any fluxes. *)
Lemma surface_exact K model v p e y ws : proper_params p -> eq_init K model v p = Ok e ->
  List.length ws = List.length (v_names v) -> answers e (CFluxes y None None None) (AVec (map X ws)) ->
  exists ss, List.length ss = List.length ws /\ answers e (CSurface y None None) (AVec (map X ss)) /\
    forall i, (i < List.length ws)%nat ->
      el ss i = (el ws i - Sum (List.length ws) (fun k => returned v i k * el ws k)) * area_of p / volume_of p.
Proof.
  intros PP H L A. pose proof (init_built _ _ _ _ _ H) as B. pose proof (volume_pos p PP) as V.
  set (N := List.length ws) in *.
  unfold answers in A. cbn [perform] in A. rewrite mapA_answer in A. apply AVec_inj in A. rewrite (fresh_value _ _ _ _ _ _ H) in A.
  exists (tab N (fun i => (el ws i - Sum N (fun k => returned v i k * el ws k)) * area_of p / volume_of p)).
  rewrite length_tab. split; [reflexivity|]. split; [|intros i Li; rewrite el_tab by exact Li; reflexivity].
  unfold answers. cbn [perform]. rewrite mapA_answer. f_equal. rewrite (fresh_value _ _ _ _ _ _ H).
  assert (Sk : value (get_diffusion_sinks y None) (st e) = map X (tab N (fun i => el ws i * area_of p / volume_of p))).
  { unfold get_diffusion_sinks. vb. rewrite A. unfold ns. rewrite (b_ns _ _ _ _ _ B), <- L, <- tab_real. fold N. apply tab_ext. intros i Li.
    rewrite at_map by exact Li. cbn [xmul]. unfold area, volume. rewrite (b_par _ _ _ _ _ B).
    change (PI * p_radius p ^ 2 * p_length p) with (volume_of p). apply xdiv_real. lra. }
  unfold get_diffusion_source_rates. vb. rewrite Sk. unfold get_diffusion_sources. vb.
  unfold ns. rewrite (b_ns _ _ _ _ _ B), <- L. fold N. symmetry. rewrite <- tab_real. symmetry. apply tab_ext. intros i Li.
  rewrite at_map by (rewrite length_tab; exact Li). rewrite el_tab by exact Li. rewrite xat_tab by exact Li.
  rewrite (tab_ext _ _ (fun k => X (- (el ws k * area_of p / volume_of p) * returned v i k))).
  2:{ intros k Lk. rewrite at_map by (rewrite length_tab; exact Lk). rewrite el_tab by exact Lk. cbn [xopp xmul].
      unfold ret, mat, returned, el. rewrite (b_view _ _ _ _ _ B). reflexivity. }
  rewrite xsum_tab. cbn [xadd]. f_equal.
  rewrite (Sum_ext _ _ (fun k => (- (area_of p / volume_of p)) * (returned v i k * el ws k))) by (intros; field; lra).
  rewrite Sum_scal. field. lra.
Qed.

Lemma surface_balance K model v p e y ws : proper_params p -> eq_init K model v p = Ok e ->
  List.length ws = List.length (v_names v) -> answers e (CFluxes y None None None) (AVec (map X ws)) ->
  (forall k, (k < List.length ws)%nat -> el ws k <> 0 -> Sum (List.length ws) (fun i => returned v i k) = 1) ->
  exists ss, List.length ss = List.length ws /\ answers e (CSurface y None None) (AVec (map X ss)) /\ Sum (List.length ws) (el ss) = 0.
Proof.
  intros PP H L A R. destruct (surface_exact K model v p e y ws PP H L A) as (ss & Ls & As & F).
  pose proof (volume_pos p PP) as V. exists ss. split; [exact Ls|]. split; [exact As|].
  set (N := List.length ws) in *.
  rewrite (Sum_ext _ _ (fun i => (area_of p / volume_of p) * el ws i + (- (area_of p / volume_of p)) * Sum N (fun k => returned v i k * el ws k))).
  2:{ intros i Li. rewrite (F i Li). field. lra. }
  rewrite Sum_plus, !Sum_scal, Sum_swap.
  rewrite (Sum_ext N (fun j => Sum N (fun i => returned v i j * el ws j)) (el ws)); [ring|].
  intros k Lk. rewrite (Sum_ext _ _ (fun i => el ws k * returned v i k)) by (intros; ring). rewrite Sum_scal.
  destruct (Req_dec (el ws k) 0) as [Z|Z]; [rewrite Z; ring|]. rewrite (R k Lk Z). ring.
Qed.

(** ** A negative ion that does not stick *)

Lemma xdiv_nan_num x : xdiv XNaN x = XNaN.
Proof. destruct x; reflexivity. Qed.

Lemma anion_flux s n w i : s_model s = Combined -> el (v_stick (s_view s)) i = 0 -> wall_flux s n (X 0) w i = XNaN.
Proof.
  intros Mo St. unfold wall_flux. rewrite Mo. unfold stick, at_. change (nth i (v_stick (s_view s)) 0) with (el (v_stick (s_view s)) i). rewrite St.
  cbn [xopp]. replace (- 0) with 0 by ring.
  assert (Num : xmul (xmul (X 0) n) (X 0) = X 0 \/ xmul (xmul (X 0) n) (X 0) = XNaN).
  { destruct n as [a| | |]; cbn; rewrite ?Rsgn_zero; cbn; [left; f_equal; ring|right; reflexivity..]. }
  assert (Den : xadd (xmul (X 0) (X (diff_l s))) (xdiv (xmul (X 4) (X 0)) w) = X 0 \/
                xadd (xmul (X 0) (X (diff_l s))) (xdiv (xmul (X 4) (X 0)) w) = XNaN).
  { cbn [xmul]. replace (4 * 0) with 0 by ring. replace (0 * diff_l s) with 0 by ring.
    destruct w as [a| | |]; cbn; [destruct (Req_EM_T a 0) as [Z|Z]|..]; try (right; reflexivity);
      try (rewrite Rsgn_zero; right; reflexivity); left; f_equal; try ring. field. exact Z. }
  destruct Num as [->| ->]; [|apply xdiv_nan_num]. destruct Den as [->| ->]; [apply xdiv_zero|reflexivity].
Qed.

Lemma xadd_nan_r x : xadd x XNaN = XNaN.
Proof. destruct x; reflexivity. Qed.
Lemma xadd_nan_l x : xadd XNaN x = XNaN.
Proof. destruct x; reflexivity. Qed.

(** Whatever the state, no derivative is a number. *)
Lemma anion_nan K v p e i : eq_init K Combined v p = Ok e -> (i < List.length (v_names v))%nat ->
  (charge_of v i < 0)%Z -> el (v_stick v) i = 0 ->
  forall t y dy, answers e (CObj t y) (AVecR (Ok dy)) -> forall k, (k < List.length (v_names v))%nat -> nth k dy (X 0) = XNaN.
Proof.
  intros H Li C St t y dy A k Lk. pose proof (init_built _ _ _ _ _ H) as B.
  unfold answers in A. cbn [perform] in A. rewrite mapA_answer in A. apply AVecR_inj in A.
  rewrite (fresh_value _ _ _ _ _ _ H), obj_value in A. unfold dy0 in A.
  destruct (drho0 (st e) y t) as [r|]; cbn [bind] in A; [|discriminate A]. injection A as <-.
  assert (Ns : ns (st e) = List.length (v_names v)) by apply (b_ns _ _ _ _ _ B).
  assert (Ld : List.length (dn0 (st e) y) = List.length (v_names v)).
  { unfold dn0, get_dn_dt. vb. rewrite length_tab. exact Ns. }
  rewrite app_nth1 by lia. rewrite (nth_indep _ (X 0) XNaN) by lia.
  rewrite <- dn_default. unfold get_dn_dt. vb. rewrite Ns, nth_tab by exact Lk.
  assert (Df : xat (value (get_diffusivities y None None None) (st e)) i = X 0).
  { unfold get_diffusivities. vb. rewrite Ns, xat_tab by exact Li. rewrite (s_neutral _ _ _ _ _ _ B), (s_positive _ _ _ _ _ B).
    destruct (Z.eqb_spec (charge_of v i) 0); [lia|]. destruct (Z.ltb_spec 0 (charge_of v i)); [lia|]. reflexivity. }
  assert (W : xat (value (get_wall_fluxes y None None None) (st e)) i = XNaN).
  { unfold get_wall_fluxes. vb. rewrite Ns, xat_tab by exact Li. rewrite Df. apply anion_flux; [apply (b_model _ _ _ _ _ B)|].
    rewrite (b_view _ _ _ _ _ B). exact St. }
  assert (D : xat (value (get_diffusion_sinks y None) (st e)) i = XNaN).
  { unfold get_diffusion_sinks. vb. rewrite Ns, xat_tab by exact Li. rewrite W. reflexivity. }
  assert (S : xat (value (get_diffusion_source_rates y None None) (st e)) k = XNaN).
  { unfold get_diffusion_source_rates. vb. rewrite Ns, xat_tab by exact Lk. unfold get_diffusion_sources. vb. rewrite Ns, xat_tab by exact Lk.
    rewrite xsum_nan; [apply xadd_nan_r|]. unfold tab. apply in_map_iff. exists i. split; [|apply in_seq; lia].
    rewrite D. reflexivity. }
  rewrite S, xadd_nan_r. apply xadd_nan_l.
Qed.
