(** Optional arguments: a quantity computed on its own is the one used in the
    right-hand side. *)
From Coq Require Import Reals Qreals.
From Verif Require Import Base BaseLemmas Morris Tables ExtReal Equations EqSpec EqPure.
Open Scope R_scope.

Lemma value_def {A} (m : M A) s : value m s = snd (m (MkEq s (init_cache s))).
Proof. reflexivity. Qed.
Lemma value_ret {A} (a : A) s : value (ret_ a) s = a.
Proof. reflexivity. Qed.
Lemma value_asks {A} (f : static -> A) s : value (asks f) s = f s.
Proof. reflexivity. Qed.
Lemma value_some {A} (a : A) m s : value (optM (Some a) m) s = a.
Proof. reflexivity. Qed.
Lemma value_none {A} (m : M A) s : value (optM None m) s = value m s.
Proof. reflexivity. Qed.

Ltac vb := repeat (first [rewrite value_bind; [|solve [auto 20 with stable]|solve [intros; auto 20 with stable]]
                         |rewrite value_some|rewrite value_none|rewrite value_asks|rewrite value_ret]; cbv beta).

Section Values.
  Variable s : static.
  Variable y : list ext.
  Definition n0 := get_density_vector y.
  Definition n_tot0 := get_total_density y (Some n0).
  Definition p0 := get_total_pressure s y (Some n_tot0).
  Definition ti0 := get_ion_temperature s y (Some p0).
  Definition n_e0 := get_electron_density s y (Some n0).
  Definition te0 := get_electron_temperature s y (Some n_e0) (Some (get_electron_energy_density y)).
  Definition debye0 := get_debye_length s y (Some n_e0) (Some te0).
  Definition k0 := value (get_reaction_rate_coefficients y (Some te0)) s.
  Definition rates0 := value (get_reaction_rates y (Some n0) (Some n_e0) (Some n_tot0) (Some k0)) s.
  Definition vol0 := value (get_volumetric_source_rates y (Some rates0)) s.
  Definition flow0 := get_flow_source_rates s y (Some n0) (Some p0).
  Definition v0 := value (get_mean_speeds y (Some ti0)) s.
  Definition sigma0 := value (get_sigma_sc y (Some v0) (Some debye0)) s.
  Definition mfp0 := value (get_mean_free_paths y (Some n0) (Some sigma0)) s.
  Definition free0 := value (get_free_diffusivities y (Some mfp0) (Some v0)) s.
  Definition pos0 := value (get_ambipolar_diffusivity_pos y (Some n0) (Some n_e0) (Some ti0) (Some te0) (Some free0)) s.
  Definition diff0 := value (get_diffusivities y (Some free0) (Some pos0) (Some get_ambipolar_diffusivity_neg)) s.
  Definition fluxes0 := value (get_wall_fluxes y (Some n0) (Some diff0) (Some v0)) s.
  Definition sinks0 := value (get_diffusion_sinks y (Some fluxes0)) s.
  Definition sources0 := value (get_diffusion_sources y (Some sinks0)) s.
  Definition surface0 := value (get_diffusion_source_rates y (Some sinks0) (Some sources0)) s.
  Definition cor0 := get_min_n_correction s y (Some n0).
  Definition dn0 := value (get_dn_dt y (Some vol0) (Some flow0) (Some surface0) (Some cor0)) s.
  Definition losses0 := value (get_el_en_losses y (Some te0)) s.
  Definition inel0 := value (get_drho_dt_el_inel y (Some losses0) (Some rates0)) s.
  Definition gain0 := value (get_drho_dt_gain_loss y (Some te0) (Some rates0)) s.
  Definition el_walls0 := value (get_drho_dt_el_walls y (Some te0) (Some surface0)) s.
  Definition sheath0 := get_sheath_voltage s y (Some te0).
  Definition ions0 := value (get_drho_dt_ions_walls y (Some te0) (Some sheath0) (Some surface0)) s.
  Definition cor_rho0 := get_min_rho_correction y (Some (get_electron_energy_density y)).

  Lemma coefs_default : value (get_reaction_rate_coefficients y None) s = k0.
  Proof. reflexivity. Qed.
  Lemma speeds_default : value (get_mean_speeds y None) s = v0.
  Proof. reflexivity. Qed.
  Lemma rates_default : value (get_reaction_rates y None None None None) s = rates0.
  Proof. unfold rates0, get_reaction_rates. vb. rewrite coefs_default. reflexivity. Qed.
  Lemma vol_default : value (get_volumetric_source_rates y None) s = vol0.
  Proof. unfold vol0, get_volumetric_source_rates. vb. rewrite rates_default. reflexivity. Qed.
  Lemma sigma_value v d : value (get_sigma_sc y (Some v) d) s = snd (get_sigma_sc y (Some v) d (MkEq s (init_cache s))).
  Proof. reflexivity. Qed.
  Lemma sigma_default : value (get_sigma_sc y None None) s = sigma0.
  Proof.
    unfold sigma0, get_sigma_sc at 1.
    rewrite value_bind; [|auto with stable|intros v'; exact (sigma_stable y (Some v') None)].
    rewrite value_none, speeds_default. reflexivity.
  Qed.
  Lemma mfp_default : value (get_mean_free_paths y None None) s = mfp0.
  Proof. unfold mfp0, get_mean_free_paths. vb. rewrite sigma_default. reflexivity. Qed.
  Lemma free_default : value (get_free_diffusivities y None None) s = free0.
  Proof. unfold free0, get_free_diffusivities. vb. rewrite mfp_default, speeds_default. reflexivity. Qed.
  Lemma pos_default : value (get_ambipolar_diffusivity_pos y None None None None None) s = pos0.
  Proof. unfold pos0, get_ambipolar_diffusivity_pos. vb. rewrite free_default. reflexivity. Qed.
  Lemma diff_default : value (get_diffusivities y None None None) s = diff0.
  Proof.
    unfold diff0, get_diffusivities. vb. rewrite free_default. unfold pos0, get_ambipolar_diffusivity_pos. vb. reflexivity.
  Qed.
  Lemma fluxes_default : value (get_wall_fluxes y None None None) s = fluxes0.
  Proof. unfold fluxes0, get_wall_fluxes. vb. rewrite diff_default, speeds_default. reflexivity. Qed.
  Lemma sinks_default : value (get_diffusion_sinks y None) s = sinks0.
  Proof. unfold sinks0, get_diffusion_sinks. vb. rewrite fluxes_default. reflexivity. Qed.
  Lemma sources_default : value (get_diffusion_sources y None) s = sources0.
  Proof. unfold sources0, get_diffusion_sources. vb. rewrite sinks_default. reflexivity. Qed.
  Lemma surface_default : value (get_diffusion_source_rates y None None) s = surface0.
  Proof. unfold surface0, get_diffusion_source_rates. vb. rewrite sinks_default. reflexivity. Qed.
  Lemma dn_default : value (get_dn_dt y None None None None) s = dn0.
  Proof. unfold dn0, get_dn_dt. vb. rewrite vol_default, surface_default. reflexivity. Qed.
  Lemma losses_default : value (get_el_en_losses y None) s = losses0.
  Proof. reflexivity. Qed.
  Lemma inel_default : value (get_drho_dt_el_inel y None None) s = inel0.
  Proof. unfold inel0, get_drho_dt_el_inel. vb. rewrite losses_default, rates_default. reflexivity. Qed.
  Lemma gain_default : value (get_drho_dt_gain_loss y None None) s = gain0.
  Proof. unfold gain0, get_drho_dt_gain_loss. vb. rewrite rates_default. reflexivity. Qed.
  Lemma el_walls_default : value (get_drho_dt_el_walls y None None) s = el_walls0.
  Proof. unfold el_walls0, get_drho_dt_el_walls. vb. rewrite surface_default. reflexivity. Qed.
  Lemma ions_default : value (get_drho_dt_ions_walls y None None None) s = ions0.
  Proof. unfold ions0, get_drho_dt_ions_walls. vb. rewrite surface_default. reflexivity. Qed.

  (** dy/dt in terms of the parts. *)
  Definition drho0 (t : Q) : res ext :=
    let* p := get_drho_dt_ext s t None in
    Ok (xadd (xsub (xsub (xsub (xsub p inel0) gain0) el_walls0) ions0) cor_rho0).
  Definition dy0 (t : Q) : res (list ext) := let* r := drho0 t in Ok (dn0 ++ [r])%list.

  Lemma drho_value t : value (get_drho_dt t y None None None None None None) s = drho0 t.
  Proof.
    unfold drho0. rewrite value_def. unfold get_drho_dt. cbn [st]. destruct (get_drho_dt_ext s t None) as [p|x]; [|reflexivity].
    cbn [bind]. rewrite <- value_def.
    vb. rewrite inel_default, gain_default, el_walls_default, ions_default. reflexivity.
  Qed.

  Lemma dy_value t : value (get_dy_dt t y None None) s = dy0 t.
  Proof.
    unfold dy0, get_dy_dt. vb. rewrite dn_default, drho_value. reflexivity.
  Qed.

  Lemma ext_value t : get_drho_dt_ext s t None =
    let* q := get_power_ext s t in get_drho_dt_ext s t (Some (X (Q2R q))).
  Proof. unfold get_drho_dt_ext. destruct (get_power_ext s t); reflexivity. Qed.

  Lemma obj_value t : value (obj_function t y) s = dy0 t.
  Proof.
    unfold dy0, drho0. rewrite ext_value, value_def. unfold obj_function. cbv zeta. cbn [st].
    rewrite <- value_def.
    fold n0. fold n_tot0. fold p0. fold ti0. fold n_e0. fold te0. fold debye0. fold flow0. fold cor0. fold sheath0. fold cor_rho0.
    assert (H : forall dn sd rs, stable (match get_power_ext s t with
       | Ok q => match get_drho_dt_ext s t (Some (X (Q2R q))) with
          | Ok ext_ => do losses <- get_el_en_losses y (Some te0);
             do el_inel <- get_drho_dt_el_inel y (Some losses) (Some rs);
             do gain_loss <- get_drho_dt_gain_loss y (Some te0) (Some rs);
             do el_walls <- get_drho_dt_el_walls y (Some te0) (Some sd);
             do ions_walls <- get_drho_dt_ions_walls y (Some te0) (Some sheath0) (Some sd);
             do drho <- get_drho_dt t y (Some ext_) (Some el_inel) (Some gain_loss) (Some el_walls) (Some ions_walls) (Some cor_rho0);
             match drho with Ok x => get_dy_dt t y (Some dn) (Some x) | Err x => ret_ (Err x) end
          | Err x => ret_ (Err x) end
       | Err x => ret_ (Err x) end)).
    { intros dn sd rs. destruct (get_power_ext s t) as [q|x]; [|auto with stable].
      destruct (get_drho_dt_ext s t _) as [q'|x]; [|auto with stable].
      repeat (apply stable_bind; [auto with stable|intros ?]).
      match goal with |- stable match ?x with _ => _ end => destruct x end; auto with stable. }
    do 14 (rewrite value_bind; [|solve [auto with stable]|intros; repeat (apply stable_bind; [solve [auto with stable]|intros]); apply H]).
    fold k0. fold rates0. fold vol0. fold v0. fold sigma0. fold mfp0. fold free0. fold pos0. fold diff0. fold fluxes0. fold sinks0.
    fold sources0. fold surface0. fold dn0.
    clear H. destruct (get_power_ext s t) as [q|x]; cbn [bind]; [|reflexivity].
    destruct (get_drho_dt_ext s t _) as [q'|x]; cbn [bind]; [|reflexivity].
    do 5 (rewrite value_bind; [|solve [auto with stable]|intros; repeat (apply stable_bind; [solve [auto with stable]|intros]);
      match goal with |- stable match ?x with _ => _ end => destruct x; auto with stable end]).
    fold losses0. fold inel0. fold gain0. fold el_walls0. fold ions0. reflexivity.
  Qed.
End Values.
